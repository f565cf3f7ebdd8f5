(** C89: every operation of the storage comes to an end. *)
From Verif Require Import Base AList Wire FS FSPath FSTree FSLogic FSAdd FSAdd2 FSSub FSDel FSEv FSData FSData2 FSList FSFrame FSCopy FSCopy2 FSSpec FSReach FSTerm FSTerm2 FSTerm3 FSFuel FSTerm4 FSTerm5 FSLoop FSDemo P_FS4.

Section T.
Variables (C : conf) (SO : supply_ok C) (r : ptr).
Notation good := (good C r).
(** a folder with the same name in the target folder is noticed *)
Lemma known_clash s ch parent q j x xi o : WF C s ch r None -> s_root s = Some r -> aget parent (s_handles s) = Some (Some q) -> s_heap s q = Some j -> is_assoc j = true -> plain (oi_name o) ->
  s_heap s x = Some xi -> i_path xi = join (i_path j) (oi_name o) ->
  bind (get_object_handles 0 parent) (fun r0 => if isok (fst r0) then any_path (snd r0) (join (i_path j) (oi_name o)) else ret false) s = Ret (true, s).
Proof.
  intros W HR Hpar Hq AS Pn Hx Ex. unfold bind at 1. destruct (get_object_handles_ok C SO r 0 parent s ch W HR) as (code & l & E & _ & H). rewrite E. cbn [fst snd].
  assert (Nxr : x <> r). { intros ->. destruct (W_root _ _ _ _ _ W) as (ri & A & _ & B & _). rewrite Hx in A. injection A as <-. pose proof (wf_under_root _ _ _ _ _ W q j Hq) as V. apply under_len in V. rewrite <- B, Ex, len_join in V. lia. }
  destruct (wf_parent _ _ _ _ _ W x xi Hx Nxr) as (y & k & o' & A1 & A2 & _ & _ & A5 & A6 & _). rewrite Ex in A6. apply join_inj in A6 as [A6 _]; [|apply Pn|apply A5].
  assert (y = q) as -> by (eapply (wf_path_uniq _ _ _ _ _ W); [exact A2|exact Hq|discriminate|discriminate|congruence]).
  assert (Np : parent <> ALL) by (intros EA; destruct (W_h _ _ _ _ _ W parent _ Hpar) as (q0 & j0 & B1 & B2 & B3 & _); injection B1 as <-; apply (wf_notall _ SO _ _ _ _ W q j0 B2); congruence).
  assert (IN : code = R_OK /\ In (i_handle xi) l /\ forall h, In h l -> exists p i, s_heap s p = Some i /\ i_handle i = h).
  { destruct (parent =? 0).
    - destruct H as [-> H]. split; [reflexivity|]. split; [apply H; exists x, xi; auto|]. intros h Hh. apply H in Hh as (p & i & B1 & _ & B2 & _). eauto.
    - rewrite (proj2 (N.eqb_neq _ _) Np), Hpar in H. destruct H as (j0 & B1 & H). rewrite Hq in B1. injection B1 as <-. rewrite AS in H. destruct H as [-> H]. split; [reflexivity|]. split; [apply H; exists x, xi; auto|]. intros h Hh. apply H in Hh as (p & i & B1 & _ & B2 & _). eauto. }
  destruct IN as (-> & IN & ALLV). change (isok R_OK) with true. cbv iota. revert IN ALLV. clear - W Hx Ex. induction l as [|h l IH]; intros IN ALLV; [contradiction|]. cbn [any_path].
  destruct (ALLV h (or_introl eq_refl)) as (p & i & B1 & B2). destruct (W_live _ _ _ _ _ W p i B1 ltac:(discriminate)) as [B3 _]. rewrite B2 in B3. unfold bind at 1, handle_value, get at 1. rewrite B3. unfold bind at 1, deref. rewrite B1.
  destruct (peqb (i_path i) (join (i_path j) (oi_name o))) eqn:EP; [reflexivity|]. apply IH; [|intros h' Hh'; apply ALLV; right; exact Hh']. destruct IN as [->|IN]; [|exact IN]. exfalso.
  assert (p = x) as -> by (eapply (wf_uniq _ _ _ _ _ W); [exact B1|exact Hx|discriminate|discriminate|congruence]). rewrite Hx in B1. injection B1 as <-. rewrite Ex, peqb_refl in EP. discriminate.
Qed.
Lemma copy_halts h parent s : good s -> h <> 0 ->
  (forall p i q j, aget h (s_handles s) = Some (Some p) -> s_heap s p = Some i -> is_assoc i = true -> aget parent (s_handles s) = Some (Some q) -> s_heap s q = Some j -> is_assoc j = true /\ under (i_path i) (i_path j) = false) ->
  halts (fun f => copy_object C f h parent true) s.
Proof.
  intros [[ch W] HR] Hh0 SANE.
  destruct (aget h (s_handles s)) as [v|] eqn:Hh; [|exists 1%nat; cbn [copy_object]; unfold bind, has_handle, get, ahas; rewrite Hh; discriminate]. destruct (W_h _ _ _ _ _ W h v Hh) as (p & i & -> & Hp & Ep & _).
  destruct (aget parent (s_handles s)) as [u|] eqn:Hpar; [|exists 1%nat; cbn [copy_object]; unfold bind, has_handle, get, ahas; rewrite Hh; cbn [negb]; rewrite Hpar; discriminate]. destruct (W_h _ _ _ _ _ W parent u Hpar) as (q & j & -> & Hq & Eq & _).
  assert (Npr : p <> r). { intros ->. destruct (W_root _ _ _ _ _ W) as (ri & A & _ & _ & B). rewrite Hp in A. injection A as <-. congruence. }
  destruct (wf_parent _ _ _ _ _ W p i Hp Npr) as (pp & pj & o & P1 & P2 & P3 & P4 & P5 & P6 & P7).
  destruct (finite_tree C s ch r W) as (F & TR). specialize (TR p i Hp). set (D := join (i_path j) (oi_name o)).
  destruct (oi_format o =? FMT_Association) eqn:Ef.
  2:{ eapply (copy_goes C SO r F s ch); try eassumption. intros E. rewrite E, N.eqb_refl in Ef. discriminate. }
  assert (AI : is_assoc i = true) by (unfold is_assoc; rewrite P4; exact Ef). destruct (SANE p i q j eq_refl Hp AI eq_refl Hq) as [AJ NU].
  destruct (s_paths s D) as [dh|] eqn:ED.
  - (* refused *)
    destruct (W_path _ _ _ _ _ W D dh ED) as (x & xi & X1 & _ & X3 & _). exists 1%nat. cbn [copy_object]. unfold bind at 1, has_handle, get at 1, ahas. rewrite Hh. cbn [negb]. unfold bind at 1, get at 1. rewrite Hpar. cbn [negb].
    unfold bind at 1, handle_ref at 1. rewrite Hh. unfold bind at 1, deref at 1. rewrite Hp, P4. unfold bind at 1, tick at 1. destruct (c_free C (s_tick s)); [|discriminate]. destruct (n <? oi_size o); [discriminate|].
    unfold bind at 1, handle_value, get at 1. cbn [s_handles set_tick]. rewrite Hpar. unfold bind at 1, deref at 1. cbn [s_heap set_tick]. rewrite Hq. cbv zeta. fold D. rewrite Ef. cbn [andb].
    set (s1 := set_tick _ s). pose proof (fsame_wf _ _ _ _ _ _ W (tsame_fsame _ _ (tsame_tick s))) as W1. fold s1 in W1. pose proof (known_clash s1 ch parent q j x xi o W1 HR Hpar Hq AJ P5 X1 X3) as KC. unfold bind at 1. fold D in KC. rewrite KC. discriminate.
  - eapply (copy_goes C SO r F s ch); try eassumption. intros _. fold D. split.
    + destruct (under (i_path i) D) eqn:E; [|reflexivity]. exfalso. apply under_join_inv in E as [E|E]; [|congruence|apply P5]. destruct (W_live _ _ _ _ _ W p i Hp ltac:(discriminate)) as (_ & B). fold D in E. rewrite E in B. congruence.
    + destruct (under D (i_path i)) eqn:E; [|reflexivity]. exfalso. destruct (tracked_anc C r s ch q j (oi_name o) W Hq P5 p i Hp E) as (c & ci & B1 & B2). destruct (W_live _ _ _ _ _ W c ci B1 ltac:(discriminate)) as (_ & B). fold D in B2. rewrite B2 in B. congruence.
Qed.
End T.

(** a folder is copied into a folder, but not into itself or into something inside it *)
Definition copy_sane (s : fs) (o : op) : Prop :=
  match o with OCopy _ h q => forall v w, look s h = Some v -> v_folder v -> look s q = Some w -> v_folder w /\ ~ inside s h q | _ => True end.

(** C89: whatever has happened before, an operation with arguments as the callers give them
    comes to an end: some number of steps is enough, and the outcome does not depend on how
    many more were allowed. *)
Theorem C89_every_operation_ends_partial C s o : supply_ok C -> reachable C s -> (forall f, op_ok C (bounded f o) s) -> copy_sane s o ->
  exists F s', forall f, (F <= f)%nat -> exec C (bounded f o) s = Ret (tt, s').
Proof.
  intros SO R PRE SANE. destruct (reachable_good C s SO R) as (r & G). pose proof G as [[ch W] HR].
  assert (H : halts (fun f => exec C (bounded f o)) s).
  { destruct o; cbn [bounded exec].
    - apply halts_ign, add_item_halts.
    - apply halts_ign, (delete_item_halts C r). exact G.
    - apply halts_ign, (delete_item_halts C r). exact G.
    - apply halts_ign. destruct (move_terminates C s ch r W) as (F & H). apply (halts_of _ _ F). intros f L. apply H. exact L.
    - apply halts_ign. destruct (rename_terminates C s ch r W) as (F & H). apply (halts_of _ _ F). intros f L. apply H. exact L.
    - apply halts_ign, (copy_halts C SO r); [exact G|apply (PRE O)|]. intros p i q j Hp Hi AI Hq Hj. cbn [copy_sane] in SANE.
      destruct (W_h _ _ _ _ _ W h _ Hp) as (p' & i' & A1 & A2 & A3 & _). injection A1 as <-. rewrite Hi in A2. injection A2 as <-. destruct (W_h _ _ _ _ _ W parent _ Hq) as (q' & j' & B1 & B2 & B3 & _). injection B1 as <-. rewrite Hj in B2. injection B2 as <-.
      assert (AS : forall k, v_folder (view_of s k) <-> is_assoc k = true). { intros k. unfold v_folder, v_format, is_assoc. cbn. destruct (i_info k) as [o|]; [|split; discriminate]. split; [intros [= ->]; apply N.eqb_refl|intros E; apply N.eqb_eq in E; congruence]. }
      destruct (SANE (view_of s i) (view_of s j)) as [S1 S2]; [rewrite <- A3; exact (look_of C s ch r W p i Hi)|apply AS; exact AI|rewrite <- B3; exact (look_of C s ch r W q j Hj)|]. split; [apply AS; exact S1|].
      destruct (under (i_path i) (i_path j)) eqn:U; [|reflexivity]. exfalso. apply S2. rewrite <- A3, <- B3. eapply under_inside; eassumption.
    - destruct (read_data_ok C h n off s ch r W) as (c & bs & s' & E & _). apply halts_const. unfold bind. rewrite E. discriminate.
    - destruct (write_data_any C r h data first last s ch W (PRE O)) as (c & s' & E & _). apply halts_const. unfold bind. rewrite E. discriminate.
    - destruct (PRE O) as (v & LK & P2). destruct (look_inv C s ch r W h v LK) as (p & i & A1 & A2 & A3 & ->).
      destruct (write_partial_ok C r h off bs first last s ch p i W A1 A2 P2) as (c & s' & E & _). apply halts_const. unfold bind. rewrite E. discriminate.
    - destruct (truncate_item_ok C r h size s ch W) as (c & s' & E & _). apply halts_const. unfold bind. rewrite E. discriminate.
    - destruct (get_object_info_ok C r h s ch W) as (c & s' & E & _). apply halts_const. unfold bind. rewrite E. discriminate.
    - destruct (get_object_handles_ok C SO r fmt assoc s ch W HR) as (c & l & E & _). apply halts_const. unfold bind. rewrite E. discriminate.
    - apply (event_halts C r); [exact G|]. intros f. apply (note_event_pre C r f e s G). exact (PRE f).
    - apply halts_const. discriminate. }
  destruct (halts_all (fun f => exec C (bounded f o)) s ltac:(intros f f' L; apply exec_mle; exact L) H) as (F & res & NA & EQ). exists F.
  pose proof (reachable_step C s (bounded F o) SO R (PRE F)) as NU. rewrite (EQ F (Nat.le_refl _)) in NU. destruct res as [[[] s']| |]; [|contradiction|contradiction]. exists s'. exact EQ.
Qed.
(** so does the enumeration of any directory tree *)
Theorem C89_enumeration_ends C puoids w : supply_ok C -> exists F s', forall f, (F <= f)%nat -> enumerate C f (fs_init puoids w) = Ret (tt, s').
Proof.
  intros SO. destruct (halts_all (enumerate C) (fs_init puoids w) ltac:(intros f f' L; apply enumerate_mle; exact L) (enumerate_halts C _)) as (F & res & NA & EQ). exists F.
  pose proof (enumerate_ok C F puoids w SO) as X. rewrite (EQ F (Nat.le_refl _)) in X. destruct res as [[[] s']| |]; [|contradiction|contradiction]. exists s'. exact EQ.
Qed.

(** the hypotheses are met by copying a folder, and by deleting one with contents *)
Example C89_copy_example : copy_sane (demo_start quiet) (OCopy 0 16 0) /\ (forall f, op_ok quiet (bounded f (OCopy 0 16 0)) (demo_start quiet)) /\
  exists F s', (forall f, (F <= f)%nat -> exec quiet (OCopy f 16 0) (demo_start quiet) = Ret (tt, s')) /\ content s' [47;115;47;100] = Some Dir.
Proof.
  assert (CS : copy_sane (demo_start quiet) (OCopy 0 16 0)).
  { intros v w Lv _ Lw. split.
    - assert (E : look (demo_start quiet) 0 = Some w) by exact Lw. clear Lv Lw. vm_compute in E. apply (f_equal (fun o => match o with Some x => x | None => w end)) in E. cbv beta iota in E. subst w. vm_compute. reflexivity.
    - intros I. remember 0 as z eqn:Ez. destruct I as [|h w0 p L P I]; [discriminate Ez|]. subst. vm_compute in L. apply (f_equal (fun o => match o with Some x => v_parent x | None => None end)) in L. destruct w0 as [a b c d]. cbn [v_parent] in P. subst b. cbn in L. discriminate L. }
  assert (OK : forall f, op_ok quiet (bounded f (OCopy 0 16 0)) (demo_start quiet)) by (intros f E; discriminate).
  split; [exact CS|]. split; [exact OK|]. destruct (C89_every_operation_ends_partial quiet _ _ ltac:(apply demo_supply) demo_reachable OK CS) as (F & s' & H). exists F, s'. split; [exact H|].
  specialize (H (Nat.max F 20) (Nat.le_max_l _ _)). cbn [bounded] in H.
  assert (E : exec quiet (bounded 20 (OCopy 0 16 0)) (demo_start quiet) = Ret (tt, s')). { destruct (exec quiet (bounded 20 (OCopy 0 16 0)) (demo_start quiet)) as [[[] s2]| |] eqn:E2; [|vm_compute in E2; discriminate|vm_compute in E2; discriminate]. pose proof (exec_mle quiet 20 (Nat.max F 20) (OCopy 0 16 0) (Nat.le_max_r _ _) (demo_start quiet)) as X. rewrite E2 in X. cbn [bounded] in X. rewrite H in X. symmetry. apply X. discriminate. }
  clear - E. vm_compute in E. apply (f_equal (fun o => match o with Ret (_, x) => Some x | _ => None end)) in E. cbv beta iota in E. apply (f_equal (fun o => match o with Some x => content x [47;115;47;100] | None => None end)) in E. cbv beta iota in E. rewrite <- E. vm_compute. reflexivity.
Qed.
(** the full claim fails: copying a folder into itself never ends, however many steps are
    allowed, on a disk that works and has room, unless something of its name is inside *)
Theorem C89_copy_into_itself_refuted C s h v n : supply_ok C -> reachable C s -> (forall t, c_fail C t = false) -> c_excl C = [] -> (forall t p, c_link C t p = None) ->
  h <> 0 -> look s h = Some v -> v_folder v -> v_name v = Some n -> (forall t, exists free, c_free C t = Some free /\ match v_info v with Some o => oi_size o | None => 0 end <= free) ->
  s_paths s (join (v_path v) n) = None ->
  (forall y, under (join (v_path v) n) y = true -> content s y = None) -> (forall y d, under y (join (v_path v) n) = true -> content s y <> Some (File d)) ->
  forall f, exec C (OCopy f h h) s = Abort.
Proof.
  intros SO R NF NX NL Hh LK VF VN FR HD HN HF f. destruct (reachable_good C s SO R) as (r & [[ch W] HR]). destruct (look_inv C s ch r W h v LK) as (p & i & A1 & A2 & A3 & ->).
  unfold v_folder, v_format, v_name in *. cbn [v_info v_path view_of] in *. destruct (i_info i) as [o|] eqn:Ho; [|discriminate]. injection VF as VF. injection VN as VN. subst n.
  cbn [exec]. unfold bind. rewrite (self_copy C SO r NF NX NL f s ch true h p i o W HR Hh A1 A2 Ho VF FR HD HN HF). reflexivity.
Qed.
Example C89_copy_into_itself_example : op_ok quiet (OCopy 0 16 16) (demo_start quiet) /\ forall f, exec quiet (OCopy f 16 16) (demo_start quiet) = Abort.
Proof.
  split; [intros X; apply N.eqb_eq in X; vm_compute in X; discriminate X|]. intros f. destruct (look (demo_start quiet) 16) as [v|] eqn:LK; [|vm_compute in LK; discriminate]. pose proof LK as E. vm_compute in E. apply (f_equal (fun o => match o with Some x => x | None => v end)) in E. cbv beta iota in E.
  apply (C89_copy_into_itself_refuted quiet (demo_start quiet) 16 v [100]); [apply demo_supply|apply demo_reachable|reflexivity|reflexivity|reflexivity|discriminate|exact LK|rewrite <- E; reflexivity|rewrite <- E; reflexivity|intros t; exists 1000000; split; [reflexivity|rewrite <- E; cbn [v_info]; vm_compute; discriminate]|rewrite <- E; vm_compute; reflexivity| |].
  - rewrite <- E. clear E. cbn [v_path]. intros y U. apply under_len in U. unfold content. destruct (node_at y (s_nodes (demo_start quiet))) as [w|] eqn:EN; [|reflexivity]. exfalso. clear LK.
    assert (NN : s_nodes (demo_start quiet) = demo_disk) by (vm_compute; reflexivity). rewrite NN in EN. clear NN. unfold demo_disk in EN. cbn [node_at] in EN.
    repeat (match type of EN with (if peqb ?a ?b then _ else _) = _ => let EP := fresh in destruct (peqb a b) eqn:EP; [apply peqb_eq in EP; subst y; vm_compute in U; apply U; reflexivity|] end). exact (match EN in _ = o return match o with Some _ => False | None => True end with eq_refl => Logic.I end).
  - rewrite <- E. clear E. cbn [v_path]. intros y d U E. unfold content in E. clear LK.
    assert (NN : s_nodes (demo_start quiet) = demo_disk) by (vm_compute; reflexivity). rewrite NN in E. clear NN. unfold demo_disk in E. cbn [node_at] in E.
    repeat (match type of E with (if peqb ?a ?b then _ else _) = _ => let EP := fresh in destruct (peqb a b) eqn:EP; [apply peqb_eq in EP; subst y; (discriminate E || (vm_compute in U; discriminate U))|] end). exact (match E in _ = o return match o with Some _ => False | None => True end with eq_refl => Logic.I end).
Qed.
Print Assumptions C89_copy_into_itself_refuted.
Print Assumptions C89_every_operation_ends_partial.
Print Assumptions C89_enumeration_ends.
