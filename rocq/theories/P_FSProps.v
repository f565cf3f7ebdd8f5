(** Object properties of the file system storage (C70, C71). *)
From Verif Require Import Base AList Wire FS FSPath FSTree FSLogic FSData FSData2 FSCopy FSSpec FSReach FSView FSList FSDemo FSProps.

Lemma right_property thumb v p x : right thumb v p x -> plain_prop p = true -> property_of v p x.
Proof.
  intros (o & t & Ho & ->) PP. exists o. split; [exact Ho|]. unfold plain_prop in PP. apply existsb_exists in PP as (q & Hq & E). apply N.eqb_eq in E. subst q. unfold answer.
  cbn [In] in Hq. repeat (destruct Hq as [<-|Hq]; [vm_compute; tauto|]). contradiction.
Qed.
Lemma F2_impl {A B} (P Q : A -> B -> Prop) l m : (forall x y, P x y -> Q x y) -> Forall2 P l m -> Forall2 Q l m.
Proof. intros H. induction 1; constructor; auto. Qed.
(** ** C70 *)
(** Every property that is part of the object info is the one in the object info, the
    persistent id is the object's, and reading changes nothing. *)
Theorem C70_values : forall C thumb s h v ps, supply_ok C -> reachable C s -> c_root C <> [] -> look s h = Some v ->
  exists l s', get_props C thumb h ps s = Ret ((R_OK, l), s') /\ untouched s s' /\ Forall2 (fun p x => plain_prop p = true -> property_of v p x) ps l.
Proof.
  intros C thumb s h v ps SO R CR L. destruct (reachable_good C s SO R) as (r & [[ch W] _]). destruct (get_props_eq C thumb r s ch h v ps W CR L) as (l & s' & E & F & Q). exists l, s'. split; [exact E|]. split; [apply flagged_untouched; exact F|].
  eapply F2_impl; [|exact Q]. intros p x Rx PP. eapply right_property; eassumption.
Qed.
(** the object info the properties agree with is the one GetObjectInfo answers with *)
Theorem C70_object_info : forall C s h v, supply_ok C -> reachable C s -> look s h = Some v ->
  exists o s', get_object_info C h s = Ret ((R_OK, Some o), s') /\ v_info v = Some o /\ untouched s s'.
Proof.
  intros C s h v SO R L. destruct (reachable_good C s SO R) as (r & [[ch W] _]). destruct (look_inv C s ch r W h v L) as (q & i & Hh & Hq & Ei & ->). destruct (W_info _ _ _ _ _ W q i Hq) as (o & Ho & _).
  exists o. eexists. split; [apply (get_info_eq C h s q i o Hh Hq Ho)|]. split; [exact Ho|]. apply flagged_untouched, flagged_put. exact Hq.
Qed.
(** the values of all children of a folder at once: every child once, its own values *)
Theorem C70_children : forall C thumb s h v ps, supply_ok C -> reachable C s -> look s h = Some v -> v_folder v ->
  exists rs s', get_child_props C thumb h ps s = Ret ((R_OK, rs), s') /\ untouched s s' /\ NoDup (map fst rs) /\
    (forall c, In c (map fst rs) <-> exists w, look s c = Some w /\ v_parent w = Some h) /\
    (forall c xs, In (c, xs) rs -> exists w, look s c = Some w /\ Forall2 (fun p x => plain_prop p = true -> property_of w p x) ps xs).
Proof.
  intros C thumb s h v ps SO R L VF. destruct (reachable_good C s SO R) as (r & [[ch W] _]). destruct (look_inv C s ch r W h v L) as (q & i & Hh & Hq & Ei & ->). destruct (W_info _ _ _ _ _ W q i Hq) as (o & Ho & _).
  unfold get_child_props, bind at 1, has_handle, get at 1, ahas. rewrite Hh. cbn [negb]. unfold bind at 1, handle_ref. rewrite Hh. unfold bind at 1, deref_opt, deref. rewrite Hq. unfold bind at 1, info_of. rewrite Ho. unfold ret at 1.
  assert (FO : oi_format o =? FMT_Association = true) by (unfold v_folder, v_format in VF; cbn in VF; rewrite Ho in VF; apply N.eqb_eq; congruence). rewrite FO. cbn [negb]. unfold bind at 1, get at 1.
  pose proof (T_seg _ _ _ (W_T _ _ _ _ _ W) q i Hq) as Sg. destruct (children_eq C thumb r ch ps (ch q) (N.to_nat (s_fresh s)) (i_first i) s W Sg (children_short C r s ch q i W Hq)) as (rs & s' & E & F & M & V).
  unfold bind. rewrite E. unfold ret. exists rs, s'. split; [reflexivity|]. split; [apply flagged_untouched; exact F|].
  assert (CH : forall x, In x (ch q) -> exists j, s_heap s x = Some j) by (intros x Hx; destruct (wf_child _ _ _ _ _ W q i x Hq Hx) as (j & A & _); eauto).
  rewrite M. split; [eapply NoDup_handles; [exact W|apply (T_nd _ _ _ (W_T _ _ _ _ _ W) q i Hq)|exact CH]|]. split.
  - intros c. rewrite in_map_iff. split.
    + intros (x & <- & Hx). destruct (wf_child _ _ _ _ _ W q i x Hq Hx) as (j & A & B & _). exists (view_of s j). unfold hd_of. rewrite A. split; [exact (look_of C s ch r W x j A)|]. cbn. rewrite <- Ei. apply (parent_is C s ch r W q i x j Hq A). exact B.
    + intros (w & Lw & Pw). destruct (look_inv C s ch r W c w Lw) as (x & j & A1 & A2 & A3 & ->). cbn in Pw. rewrite <- Ei in Pw. apply (parent_is C s ch r W q i x j Hq A2) in Pw. exists x. split; [unfold hd_of; rewrite A2; exact A3|].
      assert (x <> r). { intros ->. destruct (W_root _ _ _ _ _ W) as (ri & Q1 & Q2 & _). rewrite A2 in Q1. injection Q1 as <-. congruence. } destruct (wf_parent _ _ _ _ _ W x j A2 H) as (y & k & o' & P1 & P2 & P3 & _). congruence.
  - intros c xs Hc. destruct (V c xs Hc) as (w & Lw & Q). exists w. split; [exact Lw|]. eapply F2_impl; [|exact Q]. intros p x Rx PP. eapply right_property; eassumption.
Qed.
(** there is nothing to read of an unknown object, and no children of a file *)
Theorem C70_refused : forall C thumb s h ps, supply_ok C -> reachable C s ->
  (look s h = None -> get_props C thumb h ps s = Ret ((R_GeneralError, []), s) /\ get_child_props C thumb h ps s = Ret ((R_InvalidObjectHandle, []), s)) /\
  (forall v, look s h = Some v -> ~ v_folder v -> get_child_props C thumb h ps s = Ret ((R_InvalidObjectHandle, []), s)).
Proof.
  intros C thumb s h ps SO R. destruct (reachable_good C s SO R) as (r & [[ch W] _]). split.
  - intros L. apply (look_none C s ch r W) in L. unfold get_props, get_child_props, bind at 1, handle_value, has_handle, get, ahas. rewrite L. split; [reflexivity|]. unfold bind. rewrite L. reflexivity.
  - intros v L NF. destruct (look_inv C s ch r W h v L) as (q & i & Hh & Hq & Ei & ->). destruct (W_info _ _ _ _ _ W q i Hq) as (o & Ho & _).
    unfold get_child_props, bind at 1, has_handle, get at 1, ahas. rewrite Hh. cbn [negb]. unfold bind at 1, handle_ref. rewrite Hh. unfold bind at 1, deref_opt, deref. rewrite Hq. unfold bind at 1, info_of. rewrite Ho. unfold ret at 1.
    destruct (oi_format o =? FMT_Association) eqn:FO; [|reflexivity]. exfalso. apply NF. unfold v_folder, v_format. cbn. rewrite Ho. apply N.eqb_eq in FO. congruence.
Qed.
Lemma demo_reachable : reachable quiet (demo_start quiet).
Proof. apply reach_start with (fuel := 10%nat) (puoids := fun _ => None) (w := demo_disk); [vm_compute; reflexivity|vm_compute; discriminate]. Qed.
(** /s/a/b: size 5, name b, parent 7; the children of /s/a *)
Example C70_example : (exists s', get_props quiet (fun _ _ => []) 12 [0xDC04; 0xDC07; 0xDC0B; 0xDC44] (demo_start quiet) = Ret ((R_OK, [VInt 5; VStr [98]; VInt 7; VNull]), s')) /\
  (exists s', get_child_props quiet (fun _ _ => []) 7 [0xDC04; 0xDC02] (demo_start quiet) = Ret ((R_OK, [(16, [VInt 0; VInt 0x3001]); (12, [VInt 5; VInt 0x3000])]), s')) /\
  look (demo_start quiet) 12 <> None /\ look (demo_start quiet) 7 <> None.
Proof. split; [eexists; vm_compute; reflexivity|]. split; [eexists; vm_compute; reflexivity|]. split; vm_compute; discriminate. Qed.

(** ** C71: setting properties.  Only the file name is ever changed *)
Theorem C71_only_the_name_partial : forall C fuel h l s code s', supply_ok C -> reachable C s -> (forall x, ~ In (0xDC07, x) l) -> set_props C fuel h l s = Ret (code, s') ->
  s' = s /\ code = (match look s h with Some _ => R_OK | None => R_GeneralError end).
Proof.
  intros C fuel h l s code s' SO R NN E. destruct (reachable_good C s SO R) as (r & [[ch W] _]). unfold set_props, bind, handle_value, get in E.
  assert (LP : forall m, (forall x, ~ In (0xDC07, x) m) -> set_loop C fuel h m s = Ret (R_OK, s)).
  { induction m as [|[p x] m IH]; intros H; [reflexivity|]. cbn [set_loop]. destruct (p =? 0xDC07) eqn:Q; [apply N.eqb_eq in Q; subst p; exfalso; apply (H x); left; reflexivity|]. apply IH. intros y Hy. apply (H y). right. exact Hy. }
  destruct (aget h (s_handles s)) as [[q|]|] eqn:A.
  - rewrite (LP l NN) in E. apply Ret_inj in E. injection E as <- <-. split; [reflexivity|]. destruct (look s h) eqn:L; [reflexivity|]. apply (look_none C s ch r W) in L. congruence.
  - unfold ret in E. apply Ret_inj in E. injection E as <- <-. split; [reflexivity|]. unfold look. rewrite A. reflexivity.
  - unfold ret in E. apply Ret_inj in E. injection E as <- <-. split; [reflexivity|]. unfold look. rewrite A. reflexivity.
Qed.
(** setting the file name is the rename of C49, one value *)
Theorem C71_name_partial : forall C fuel h x s, look s h <> None -> set_props C fuel h [(0xDC07, x)] s = bind (set_file_name C fuel h (variant_str x)) (fun c => if isok c then ret R_OK else ret c) s.
Proof.
  intros C fuel h x s L. unfold set_props, bind, handle_value, get. unfold look in L. destruct (aget h (s_handles s)) as [[q|]|]; try contradiction. cbn [set_loop]. change (0xDC07 =? 0xDC07) with true. unfold bind. destruct (set_file_name C fuel h (variant_str x) s) as [[c s1]| |]; try reflexivity. destruct (isok c); reflexivity.
Qed.
(** a value that was accepted is not the value reported afterwards: a property other than the
    file name is ignored ... *)
Theorem C71_ignored_refuted : exists s s' s'', reachable quiet s /\ set_props quiet 10 12 [(0xDC44, VStr [120])] s = Ret (R_OK, s') /\ get_props quiet (fun _ _ => []) 12 [0xDC44] s' = Ret ((R_OK, [VNull]), s'').
Proof. exists (demo_start quiet). eexists. eexists. split; [exact demo_reachable|]. split; vm_compute; reflexivity. Qed.
(** ... and a rename that failed is answered like one that succeeded *)
Definition renames_fail := demo_conf [] (fun n => Nat.eqb n 22) (fun _ => Some 2).
Theorem C71_failed_rename_refuted : exists s s' s'', reachable renames_fail s /\ set_props renames_fail 10 12 [(0xDC07, VStr [120])] s = Ret (R_OK, s') /\ get_props renames_fail (fun _ _ => []) 12 [0xDC07] s' = Ret ((R_OK, [VStr [98]]), s'').
Proof.
  exists (demo_start renames_fail). eexists. eexists. split; [apply reach_start with (fuel := 10%nat) (puoids := fun _ => None) (w := demo_disk); [vm_compute; reflexivity|vm_compute; discriminate]|]. split; vm_compute; reflexivity.
Qed.
Print Assumptions C70_values.
Print Assumptions C70_object_info.
Print Assumptions C70_children.
Print Assumptions C70_refused.
Print Assumptions C71_only_the_name_partial.
Print Assumptions C71_name_partial.
Print Assumptions C71_ignored_refuted.
Print Assumptions C71_failed_rename_refuted.
