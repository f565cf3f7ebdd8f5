(** Storage: confinement (C48), notifications (C59), excluded paths (C61), and what
    goes wrong outside the hypotheses of the storage theorems. *)
From Coq Require Import Permutation.
From Verif Require Import Base AList Wire FS FSPath FSTree FSLogic FSAdd FSAdd2 FSDel FSSub FSMove FSMove2 FSMove3 FSEv FSData FSFrame FSSpec FSReach FSView FSDemo FSKeep FSConf FSExcl FSNote FSNote2 FSList.

(** ** C48 *)
(** the components of a path, and the place it denotes once "." and ".." are followed
    (innermost component first) *)
Fixpoint comps (p : path) : list path :=
  match p with
  | [] => [[]]
  | c :: r => if c =? slash then [] :: comps r else match comps r with h :: t => (c :: h) :: t | [] => [[c]] end
  end.
Definition walk (at_ : list path) (c : path) : list path :=
  if peqb c [] || peqb c [46] then at_ else if peqb c [46;46] then tl at_ else c :: at_.
Definition resolve (p : path) : list path := fold_left walk (comps p) [].
(** [p] denotes [root] or something below it *)
Definition stays_inside (root p : path) : Prop := exists names, resolve p = names ++ resolve root.

Lemma comps_app d n : comps (d ++ slash :: n) = comps d ++ comps n.
Proof.
  induction d as [|c d IH]; [cbn; rewrite N.eqb_refl; reflexivity|]. cbn [app comps]. rewrite IH. destruct (c =? slash); [reflexivity|]. destruct (comps d) eqn:E; [|reflexivity]. destruct d as [|x d]; [discriminate|]. cbn [comps] in E. destruct (x =? slash); [discriminate|]. destruct (comps d); discriminate.
Qed.
Lemma comps_plain n : ~ In slash n -> comps n = [n].
Proof.
  induction n as [|c n IH]; intros H; [reflexivity|]. cbn [comps]. rewrite IH by (intros Z; apply H; now right). destruct (c =? slash) eqn:E; [|reflexivity]. apply N.eqb_eq in E. exfalso. apply H. now left.
Qed.
Lemma resolve_join d n : plain n -> resolve (join d n) = n :: resolve d.
Proof.
  intros [P1 P2]. unfold resolve, join. rewrite comps_app, (comps_plain n P2), fold_left_app. cbn [fold_left]. unfold walk at 1. unfold dot_name in P1. destruct (peqb n []) eqn:E1; [discriminate|]. destruct (peqb n [46]) eqn:E2; [discriminate|]. destruct (peqb n [46;46]) eqn:E3; [discriminate|]. reflexivity.
Qed.
Lemma consistent_inside C s : consistent C s -> forall h v, look s h = Some v -> stays_inside (c_root C) (v_path v).
Proof.
  intros CO h v Hv. pose proof (co_rooted C s CO h v Hv) as IN. revert v Hv. induction IN as [w Hw|h v q Hh Hq IN IH]; intros v' Hv'.
  - destruct (co_root C s CO) as (v0 & A & B & _). exists []. cbn. congruence.
  - destruct (N.eq_dec h 0) as [->|N0]; [destruct (co_root C s CO) as (v0 & A & B & _); exists []; cbn; congruence|].
    destruct (co_parent C s CO h v' Hv' N0) as (q' & w & o & A1 & A2 & A3 & A4 & A5 & _). assert (q' = q) by congruence. subst q'. destruct (IH w A2) as [names E]. exists (oi_name o :: names). rewrite A5, resolve_join by exact A4. rewrite E. reflexivity.
Qed.
(** Whatever an initiator asks for (or the file system reports), every object denotes a
    place in the exported folder, and nothing outside it is changed on disk, except that
    missing folders leading to it may be created again. *)
Theorem C48_confined_partial : forall C s o s', supply_ok C -> reachable C s -> op_ok C o s -> exec C o s = Ret (tt, s') ->
  (forall h v, look s' h = Some v -> stays_inside (c_root C) (v_path v) /\ at_or_below (c_root C) (v_path v)) /\
  ((forall w, o <> OWorld w) -> forall y, content s' y <> content s y ->
     at_or_below (c_root C) y \/ (at_or_below y (c_root C) /\ content s y = None /\ content s' y = Some Dir)).
Proof.
  intros C s o s' SO R HO E. assert (R' : reachable C s') by (eapply reach_step; eassumption). split.
  - intros h v Hv. destruct (reachable_good C s' SO R') as (r & [[ch W] _]). split; [eapply consistent_inside; [eapply wf_consistent; eassumption|exact Hv]|]. destruct (look_inv C s' ch r W h v Hv) as (p & i & _ & Hp & _ & ->). apply at_or_below_under. exact (wf_under_root C s' ch r None W p i Hp).
  - intros NW y Hy. destruct (reachable_good C s SO R) as (r & G). assert (nw : not_world o) by (destruct o; try exact Logic.I; eapply NW; reflexivity).
    destruct (conf_step C SO r s o s' G (reachable_files C SO s R) HO nw E) as (_ & _ & D). destruct (D y Hy) as [A|(A & B & F)]; [left; apply at_or_below_under; exact A|right; split; [apply at_or_below_under; exact A|auto]].
Qed.
(** a concrete case: creating /s/a/n *)
Definition send_info (parent : N) (fmt : N) (name : path) : objinfo := mk_objinfo 65537 fmt 0 0 0 0 0 0 0 0 0 parent 0 0 0 name [] [] [].
Lemma demo_reachable : reachable quiet (demo_start quiet).
Proof. apply reach_start with (fuel := 10%nat) (puoids := fun _ => None) (w := demo_disk); [vm_compute; reflexivity|vm_compute; discriminate]. Qed.
Example C48_example : exists s', op_ok quiet (OAdd 10 (send_info 7 FMT_Association [110])) (demo_start quiet) /\ exec quiet (OAdd 10 (send_info 7 FMT_Association [110])) (demo_start quiet) = Ret (tt, s') /\
  content s' (pA ++ [47;110]) = Some Dir /\ content (demo_start quiet) (pA ++ [47;110]) = None.
Proof. eexists. split; [split; [reflexivity|intros [Z|[]]; discriminate]|]. split; [vm_compute; reflexivity|]. split; reflexivity. Qed.
(** The full property fails: a folder called "../x" is created, and exported, outside. *)
Theorem C48_folder_name_refuted : exists s s' h v, reachable quiet s /\ add_item quiet 10 (send_info 0 FMT_Association [46;46;47;120]) s = Ret ((R_OK, Some (h, 0)), s') /\
  look s' h = Some v /\ ~ stays_inside (c_root quiet) (v_path v) /\ content s (v_path v) = None /\ content s' (v_path v) = Some Dir.
Proof.
  exists (demo_start quiet). eexists. eexists. eexists. split; [exact demo_reachable|]. split; [vm_compute; reflexivity|]. split; [vm_compute; reflexivity|]. split; [|split; vm_compute; reflexivity].
  intros [names E]. vm_compute in E. destruct names as [|a [|b names]]; discriminate E.
Qed.

(** ** C59 *)
Theorem C59_pairing_partial : forall C ops s s', cookies_ok ops -> s_cache s = None -> exec_all C ops s = Ret (tt, s') ->
  exists acts, performs C ops acts s s' /\
    (* a move-from is one half of exactly one move, or is one deletion, as the next notification decides; or it is the last, and remembered *)
    (forall i wd c n, note ops i = Some (NMovedFrom, wd, c, n) ->
       (forall j wd' n', next_note ops i j -> note ops j = Some (NMovedTo, wd', c, n') -> filter (about i) acts = [DoMove i j] /\ filter (about j) acts = [DoMove i j]) /\
       (forall j, next_note ops i j -> (forall wd' n', note ops j <> Some (NMovedTo, wd', c, n')) -> filter (about i) acts = [DoDelete i]) /\
       ((forall j, ~ next_note ops i j) -> filter (about i) acts = [] /\ s_cache s' = Some (wd, c, n))) /\
    (* a move-to without its move-from is a creation *)
    (forall j wd c n, note ops j = Some (NMovedTo, wd, c, n) -> (forall i wd' n', note ops i = Some (NMovedFrom, wd', c, n') -> ~ next_note ops i j) -> filter (about j) acts = [DoCreate j]) /\
    (* everything else is handled exactly once *)
    (forall i kd wd c n, note ops i = Some (kd, wd, c, n) ->
       (kd = NCreate -> filter (about i) acts = [DoCreate i]) /\ (kd = NDelete -> filter (about i) acts = [DoDelete i]) /\ (kd = NCloseWrite -> filter (about i) acts = [DoModify i])) /\
    (forall i o, nth_error ops i = Some o -> (forall f e, o <> OEvent f e) -> filter (about i) acts = [DoOther i]).
Proof.
  intros C ops s s' CO Hc E. destruct (run_plan C ops CO ops 0 None s s' ltac:(intros m o H; exact H) Logic.I Hc E) as [P1 P2]. change (fst (plan (ckof ops) 0 None ops)) with (FSNote2.acts ops) in *. change (snd (plan (ckof ops) 0 None ops)) with (left ops) in *.
  exists (FSNote2.acts ops). split; [exact P1|]. split; [|split; [|split]].
  - intros i wd c n Hn. pose proof (from_once ops i wd c n Hn) as F. split; [|split].
    + intros j wd' n' Nj Hj. destruct F as [(_ & _ & F)|(j' & F1 & _ & F)]; [exfalso; exact (F j Nj)|]. assert (j' = j) by (eapply next_unique; eassumption). subst j'. destruct F as [(w2 & n2 & _ & F)|(F & _)]; [|exfalso; exact (F _ _ Hj)]. split; [exact F|].
      assert (IN : In (DoMove i j) (filter (about i) (FSNote2.acts ops))) by (rewrite F; now left). apply filter_In in IN as [IN _].
      assert (IJ : In (DoMove i j) (filter (about j) (FSNote2.acts ops))) by (apply filter_In; split; [exact IN|cbn; rewrite Nat.eqb_refl, orb_true_r; reflexivity]).
      destruct (to_once ops j wd' c n' Hj) as [Z|(i' & _ & Z)]; rewrite Z in IJ |- *; destruct IJ as [Y|[]]; [discriminate|congruence].
    + intros j Nj Hj. destruct F as [(_ & _ & F)|(j' & F1 & _ & F)]; [exfalso; exact (F j Nj)|]. assert (j' = j) by (eapply next_unique; eassumption). subst j'. destruct F as [(w2 & n2 & F & _)|(_ & F)]; [exfalso; exact (Hj _ _ F)|exact F].
    + intros NN. destruct F as [(F1 & F2 & _)|(j & F1 & _)]; [|exfalso; exact (NN j F1)]. split; [exact F2|]. rewrite P2, F1. cbn. rewrite Hn. reflexivity.
  - intros j wd c n Hj NN. destruct (to_once ops j wd c n Hj) as [Z|(i & L & Z)]; [exact Z|]. exfalso. assert (IJ : In (DoMove i j) (filter (about j) (FSNote2.acts ops))) by (rewrite Z; now left). apply filter_In in IJ as [IJ _].
    destruct (move_from ops i j L IJ) as (w1 & c1 & n1 & w2 & n2 & A1 & A2 & A3). assert (c1 = c) by congruence. subst c1. exact (NN i w1 n1 A1 A2).
  - intros i kd wd c n Hn. split; [|split]; intros ->; exact (single_once ops i _ wd c n _ Hn eq_refl ltac:(discriminate) ltac:(discriminate)).
  - intros i o Ho Hev. apply (other_once ops i o Ho). destruct o; try reflexivity. exfalso. eapply Hev. reflexivity.
Qed.
(** a file is moved within the storage, then another one out of it *)
Definition wd_of (s : fs) (h : N) : N := match aget h (s_handles s) with Some (Some p) => match s_heap s p with Some i => match i_wd i with Some w => w | None => 0 end | None => 0 end | _ => 0 end.
Definition demo_notes_at (w0 w7 : N) : list op :=
  [OWorld [(pS, Dir); (pA, Dir); (pB, File [1;2;3;4;5]); (pA ++ [47;99], File [7;8]); (pD, Dir)];
   OEvent 10 (Some (mk_ev NMovedFrom w0 5 (Some [99]))); OInfo 12; OEvent 10 (Some (mk_ev NMovedTo w7 5 (Some [99])));
   OWorld [(pS, Dir); (pA, Dir); (pA ++ [47;99], File [7;8]); (pD, Dir)];
   OEvent 10 (Some (mk_ev NMovedFrom w7 6 (Some [98]))); OEvent 10 (Some (mk_ev NCloseWrite w7 0 (Some [99])))].
Definition demo_notes (s : fs) : list op := demo_notes_at (wd_of s 0) (wd_of s 7).
Lemma demo_cookies w0 w7 : cookies_ok (demo_notes_at w0 w7).
Proof.
  intros k kd wd ck n H. unfold note in H. do 7 (destruct k as [|k]; [cbn in H; try discriminate; injection H as <- _ <- _; split; intros; try discriminate; congruence|]). destruct k; discriminate.
Qed.
Example C59_example : exists s', cookies_ok (demo_notes (demo_start quiet)) /\ s_cache (demo_start quiet) = None /\ exec_all quiet (demo_notes (demo_start quiet)) (demo_start quiet) = Ret (tt, s') /\
  match look s' 21 with Some v => v_path v = pA ++ [47;99] | None => False end /\ look s' 12 = None.
Proof.
  eexists. split; [apply demo_cookies|]. split; [vm_compute; reflexivity|]. split; [vm_compute; reflexivity|]. split; vm_compute; reflexivity.
Qed.

(** ** C61 *)
Theorem C61_exported_partial : forall C s h v, supply_ok C -> reachable_still C s -> look s h = Some v -> exportable C (v_path v).
Proof.
  intros C s h v SO R Hv. destruct (reachable_good C s SO (still_reachable C s R)) as (r & [[ch W] _]). destruct (look_inv C s ch r W h v Hv) as (p & i & _ & Hp & _ & ->).
  destruct (still_ix C s R p i Hp) as [(q & j & Z & _)|Z]; [discriminate|exact Z].
Qed.
(** operations that do not rename or move anything never add an object that must not be exported *)
Theorem C61_no_new_partial : forall C s o s' h v, supply_ok C -> reachable C s -> op_ok C o s -> ~ relocates o s -> exec C o s = Ret (tt, s') ->
  look s' h = Some v -> exportable C (v_path v) \/ exists h0 v0, look s h0 = Some v0 /\ v_path v0 = v_path v.
Proof.
  intros C s o s' h v SO R HO HN E Hv. destruct (reachable_good C s SO R) as (r & [[ch W] _]). destruct (reachable_good C s' SO (reach_step C s o s' R HO E)) as (r' & [[ch' W'] _]).
  destruct (look_inv C s' ch' r' W' h v Hv) as (p & i & _ & Hp & _ & ->).
  assert (I0 : Ix C (s_heap s) s) by (intros q j Hq; left; eauto). destruct (ix_step C (s_heap s) o s s' I0 HN E p i Hp) as [(q & j & Hq & Hj)|Z]; [|left; exact Z].
  right. exists (i_handle j), (view_of s j). split; [exact (look_of C s ch r W q j Hq)|exact Hj].
Qed.
(** a concrete case: /s/a/b and /s/x are excluded; the first is on disk, and its creation is notified *)
Definition pX := [47;115;47;120].
Definition excl_conf := demo_conf [pB; pX] (fun _ => false) (fun _ => Some 2).
Definition excl_note (s : fs) : op := OEvent 10 (Some (mk_ev NCreate (wd_of s 7) 0 (Some [98]))).
Lemma excl_note_ok C s0 s : op_ok C (excl_note s0) s /\ ~ relocates (excl_note s0) s.
Proof. split; [|intros [Z _]; discriminate]. unfold excl_note. generalize (wd_of s0 7). intros wd. split; [split; [reflexivity|intros [Z|[]]; discriminate]|]. intros s1 _. exact Logic.I. Qed.
Example C61_example : exists s', reachable_still excl_conf s' /\ known s' = [(0, pS); (7, pA); (12, pD); (17, pC)] /\ content s' pB = Some (File [1;2;3;4;5]).
Proof.
  eexists. split; [|split].
  - eapply (still_step excl_conf (demo_start excl_conf) (excl_note (demo_start excl_conf))).
    + apply still_start with (fuel := 10%nat) (puoids := fun _ => None) (w := demo_disk); [vm_compute; reflexivity|vm_compute; discriminate].
    + exact (proj1 (excl_note_ok _ _ _)).
    + exact (proj2 (excl_note_ok excl_conf _ _)).
    + vm_compute. reflexivity.
  - vm_compute. reflexivity.
  - vm_compute. reflexivity.
Qed.
(** The full property fails: an object can be renamed to an excluded path and stays exported. *)
Theorem C61_rename_refuted : exists s s' h v, reachable excl_conf s /\ op_ok excl_conf (ORename 10 h [120]) s /\ set_file_name excl_conf 10 h [120] s = Ret (R_OK, s') /\ look s' h = Some v /\ In (v_path v) (c_excl excl_conf).
Proof.
  exists (demo_start excl_conf). eexists. exists 17. eexists. split; [apply reach_start with (fuel := 10%nat) (puoids := fun _ => None) (w := demo_disk); [vm_compute; reflexivity|vm_compute; discriminate]|]. split; [intros Z; discriminate Z|].
  split; [vm_compute; reflexivity|]. split; [vm_compute; reflexivity|]. right. left. reflexivity.
Qed.

(** ** What the program does outside the hypotheses: why C42-C47, C50, C53 are partial *)
Definition fail_at (t : nat) := demo_conf [] (fun n => Nat.eqb n t) (fun _ => Some 2).
Definition stop_at (t : nat) := demo_conf [] (fun _ => false) (fun n => if Nat.eqb n t then None else Some 2).
Lemma reach24 : reachable (fail_at 24) (demo_start (fail_at 24)).
Proof. apply reach_start with (fuel := 10%nat) (puoids := fun _ => None) (w := demo_disk); [vm_compute; reflexivity|vm_compute; discriminate]. Qed.
Lemma reach22 : reachable (fail_at 22) (demo_start (fail_at 22)).
Proof. apply reach_start with (fuel := 10%nat) (puoids := fun _ => None) (w := demo_disk); [vm_compute; reflexivity|vm_compute; discriminate]. Qed.
Lemma reach33 : reachable (stop_at 33) (demo_start (stop_at 33)).
Proof. apply reach_start with (fuel := 10%nat) (puoids := fun _ => None) (w := demo_disk); [vm_compute; reflexivity|vm_compute; discriminate]. Qed.
(** C42: renaming the storage itself dereferences a null pointer *)
Theorem C42_rename_root_refuted : set_file_name quiet 10 0 [120] (demo_start quiet) = UB.
Proof. vm_compute. reflexivity. Qed.
(** C42: deleting "all folders" when a folder contains another uses a freed object *)
Theorem C42_delete_folders_refuted : exists order, Permutation order (akeys (s_handles (demo_start quiet))) /\ delete_item quiet 10 order ALL FMT_Association (demo_start quiet) = UB.
Proof. exists (akeys (s_handles (demo_start quiet))). split; [apply Permutation_refl|]. vm_compute. reflexivity. Qed.
(** C44: enumerating a folder by the undefined format finds nothing *)
Theorem C44_undefined_format_refuted : exists s v, reachable quiet s /\ get_object_handles FMT_Undefined 7 s = Ret ((R_OK, []), s) /\ look s 12 = Some v /\ v_parent v = Some 7 /\ v_format v = Some FMT_Undefined.
Proof. exists (demo_start quiet). eexists. split; [exact demo_reachable|]. split; [vm_compute; reflexivity|]. split; [vm_compute; reflexivity|]. split; vm_compute; reflexivity. Qed.
(** ... whatever the folder and whatever is in it *)
Theorem C44_undefined_format_empty : forall C s assoc, supply_ok C -> reachable C s -> assoc <> 0 ->
  (assoc = ALL \/ (exists f, look s assoc = Some f /\ v_folder f) -> get_object_handles FMT_Undefined assoc s = Ret ((R_OK, []), s)) /\
  (assoc <> ALL -> (forall f, look s assoc = Some f -> ~ v_folder f) -> get_object_handles FMT_Undefined assoc s = Ret ((R_InvalidParentObject, []), s)).
Proof.
  intros C s assoc SO R N0. destruct (reachable_good C s SO R) as (r & [[ch W] HR]). destruct (get_object_handles_ok C SO r FMT_Undefined assoc s ch W HR) as (code & l & E & _ & H).
  assert (NO : forall q : ptr, (forall h, In h l <-> exists p i, s_heap s p = Some i /\ i_parent i = Some q /\ i_handle i = h /\ (FMT_Undefined = 0 \/ FMT_Undefined <> FMT_Undefined /\ fmt_is FMT_Undefined i = true)) -> l = []).
  { intros q X. destruct l as [|h l]; [reflexivity|]. exfalso. destruct (proj1 (X h) (or_introl eq_refl)) as (p & i & _ & _ & _ & [Z|[Z _]]); [discriminate Z|congruence]. }
  rewrite (proj2 (N.eqb_neq _ _) N0) in H. rewrite E. split.
  - intros [->|(f & Lf & Ff)].
    + rewrite N.eqb_refl in H. destruct H as [H1 H2]. rewrite H1, (NO _ H2). reflexivity.
    + destruct (N.eq_dec assoc ALL) as [->|NA]; [rewrite N.eqb_refl in H; destruct H as [H1 H2]; rewrite H1, (NO _ H2); reflexivity|]. rewrite (proj2 (N.eqb_neq _ _) NA) in H.
      destruct (look_inv C s ch r W assoc f Lf) as (q & j & A1 & A2 & A3 & ->). rewrite A1 in H. destruct H as (j' & A4 & H). rewrite A2 in A4. injection A4 as <-. unfold v_folder, v_format in Ff. cbn in Ff.
      assert (IA : is_assoc j = true) by (unfold is_assoc; destruct (i_info j); [apply N.eqb_eq; congruence|discriminate]). rewrite IA in H. destruct H as [H1 H2]. rewrite H1, (NO _ H2). reflexivity.
  - intros NA HN. rewrite (proj2 (N.eqb_neq _ _) NA) in H. destruct (aget assoc (s_handles s)) as [[q|]|] eqn:A1; [|destruct H as [-> ->]; reflexivity|destruct H as [-> ->]; reflexivity].
    destruct H as (j & A2 & H). destruct (is_assoc j) eqn:IA; [exfalso|destruct H as [-> ->]; reflexivity].
    apply (HN (view_of s j)); [unfold look; rewrite A1, A2; reflexivity|]. unfold v_folder, v_format. cbn. unfold is_assoc in IA. destruct (i_info j); [|discriminate]. apply N.eqb_eq in IA. congruence.
Qed.
(** C45: OK although the folder could not be removed *)
Theorem C45_folder_left_refuted : exists s s' v, reachable (fail_at 24) s /\ delete_item (fail_at 24) 10 [] 7 0 s = Ret (R_OK, s') /\ look s' 7 = Some v /\ content s' (v_path v) = Some Dir.
Proof. exists (demo_start (fail_at 24)). eexists. eexists. split; [exact reach24|]. split; [vm_compute; reflexivity|]. split; vm_compute; reflexivity. Qed.
(** C46: OK although the file could not be renamed *)
Theorem C46_rename_failure_refuted : exists s s' v, reachable (fail_at 22) s /\ set_file_name (fail_at 22) 10 21 [122] s = Ret (R_OK, s') /\ look s 21 = Some v /\ look s' 21 = Some v /\ v_name v = Some [99].
Proof. exists (demo_start (fail_at 22)). eexists. eexists. split; [exact reach22|]. split; [vm_compute; reflexivity|]. split; [vm_compute; reflexivity|]. split; vm_compute; reflexivity. Qed.
(** C53: OK although nothing was copied *)
Theorem C53_lost_copy_refuted : exists s s' h v, reachable (stop_at 33) s /\ copy_object (stop_at 33) 10 21 7 true s = Ret ((R_OK, h), s') /\ look s' h = Some v /\ content s pC = Some (File [7;8]) /\ content s' (v_path v) <> Some (File [7;8]).
Proof. exists (demo_start (stop_at 33)). eexists. eexists. eexists. split; [exact reach33|]. split; [vm_compute; reflexivity|]. split; [vm_compute; reflexivity|]. split; [vm_compute; reflexivity|]. vm_compute. discriminate. Qed.
(** C54: after a file is moved away, a new file at its old path gets the same persistent id *)
Definition puoid_of (s : fs) (h : N) : option N := match look s h with Some v => Some (v_puoid v) | None => None end.
Definition twin1 := run_or (exec quiet (OMove 10 21 7) (demo_start quiet)).
Definition twin2 := run_or (exec quiet (OAdd 10 (send_info 0 FMT_Undefined [99])) twin1).
Lemma twin1_reachable : reachable quiet twin1.
Proof.
  apply (reach_step quiet (demo_start quiet) (OMove 10 21 7)); [exact demo_reachable| |vm_compute; reflexivity].
  intros v w n H1 H2 H3 H4. vm_compute in H1, H2. injection H1 as <-. injection H2 as <-. vm_compute in H3. injection H3 as <-. vm_compute in H4. exfalso. apply H4. reflexivity.
Qed.
Lemma twin2_reachable : reachable quiet twin2.
Proof.
  apply (reach_step quiet twin1 (OAdd 10 (send_info 0 FMT_Undefined [99]))); [exact twin1_reachable| |vm_compute; reflexivity]. split; [reflexivity|intros [Z|[]]; discriminate].
Qed.
Theorem C54_shared_id_refuted : exists s h h' u, reachable quiet s /\ h <> h' /\ puoid_of s h = Some u /\ puoid_of s h' = Some u.
Proof. exists twin2, 21, 25, 1021. split; [exact twin2_reachable|]. split; [discriminate|]. split; vm_compute; reflexivity. Qed.

Print Assumptions C48_confined_partial.
Print Assumptions C59_pairing_partial.
Print Assumptions C61_exported_partial.
Print Assumptions C61_no_new_partial.
Print Assumptions C44_undefined_format_empty.
