(** C94, and C45 on a disk that works: DeleteObject for whole trees, formats, everything. *)
From Coq Require Import Permutation.
From Verif Require Import Base AList Wire FS FSPath FSTree FSLogic FSAdd FSAdd2 FSDel FSList FSSpec FSReach FSEv FSView FSFuel FSTerm2 FSTerm3 FSTerm4 FSDelAll FSDemo P_FS P_FS4.

(** what is on the disk at and below the object [h] is what the storage has objects for *)
Definition accurate (s : fs) (h : N) : Prop :=
  (forall x v, inside s h x -> look s x = Some v -> (v_folder v -> content s (v_path v) = Some Dir) /\ (~ v_folder v -> exists d, content s (v_path v) = Some (File d))) /\
  (forall v y, look s h = Some v -> at_or_below (v_path v) y -> content s y <> None -> exists x w, look s x = Some w /\ v_path w = y).

Lemma folder_assoc s i : v_folder (view_of s i) <-> is_assoc i = true.
Proof. unfold v_folder, v_format, is_assoc. cbn. destruct (i_info i) as [o|]; [|split; discriminate]. rewrite N.eqb_eq. split; congruence. Qed.
Lemma accurate_acc C s ch r p i : WF C s ch r None -> s_heap s p = Some i -> accurate s (i_handle i) -> acc s (i_path i).
Proof.
  intros W Hp [A B]. split.
  - intros x j Hx U. destruct (A (i_handle j) (view_of s j)) as [A1 A2]; [apply (not_inside C r s ch _ p i x j W Hp eq_refl Hx); exact U|exact (look_of C s ch r W x j Hx)|].
    destruct (is_assoc j) eqn:IA; [apply A1, folder_assoc; exact IA|apply A2; rewrite folder_assoc, IA; discriminate].
  - intros y U Ny. destruct (B _ y (look_of C s ch r W p i Hp)) as (x & w & L & E); [apply at_or_below_under; exact U|exact Ny|]. destruct (look_inv C s ch r W x w L) as (q & j & _ & Hq & _ & ->). exists q, j. auto.
Qed.

(** ** C45 *)
(** On a disk that works and that matches the storage, the object, everything below it and all their files are
    gone, everything else is as it was, and the answer is OK *)
Theorem C45_working_disk : forall C s h v, supply_ok C -> reachable C s -> (forall t, c_fail C t = false) -> h <> 0 -> look s h = Some v -> accurate s h ->
  exists F, forall fuel, (F <= fuel)%nat -> exists s', delete_item C fuel [] h 0 s = Ret (R_OK, s') /\
    (forall x, inside s h x -> look s' x = None) /\ (forall x, ~ inside s h x -> look s' x = look s x) /\
    (forall y, at_or_below (v_path v) y -> content s' y = None) /\ (forall y, ~ at_or_below (v_path v) y -> content s' y = content s y).
Proof.
  intros C s h v SO R WK NZ LH AC. destruct (reachable_good C s SO R) as (r & G). pose proof G as [[ch W] HR].
  destruct (look_inv C s ch r W h v LH) as (p & i & A1 & A2 & A3 & ->).
  assert (NA : h <> ALL) by (rewrite <- A3; eapply (wf_notall _ SO); eassumption).
  destruct (delete_terminates C s ch r W HR) as (F & HF). exists F. intros fuel LE.
  assert (E0 : delete_item C fuel [] h 0 s = delete_helper C fuel h true false s) by (unfold delete_item; rewrite (proj2 (N.eqb_neq _ _) NA); reflexivity).
  pose proof (delete_helper_ok C r fuel h true false s ch W HR) as DH. specialize (HF fuel h true false LE). destruct (delete_helper C fuel h true false s) as [[code s']| |] eqn:ED; [|contradiction|contradiction].
  assert (Nr : p <> r) by (intros ->; destruct (W_root _ _ _ _ _ W) as (ri & Z1 & _ & _ & Z2); congruence).
  rewrite <- A3 in AC, ED. pose proof (accurate_acc C s ch r p i W A2 AC) as AC'.
  destruct (delete_works C SO r WK fuel s ch p i false code s' W HR A2 Nr AC' ED) as [-> GP]. rewrite A3 in AC, ED.
  destruct DH as (ch' & W' & DH). rewrite A1, (proj2 (N.eqb_neq _ _) Nr) in DH. destruct DH as (i' & Hi' & _ & DL). rewrite A2 in Hi'. injection Hi' as <-.
  destruct (L_gone _ _ _ _ _ _ DL GP) as [_ GONE].
  assert (ED' : delete_item C fuel [] h 0 s = Ret (R_OK, s')) by (rewrite E0; reflexivity).
  destruct (C45_deletion_partial C s fuel h R_OK s' SO R NA ED') as (D1 & D2 & D3 & D4 & D5 & D6 & D7 & D8).
  exists s'. split; [exact ED'|].
  assert (LN : look s' h = None).
  { destruct (look s' h) as [v'|] eqn:L; [|reflexivity]. exfalso. destruct (look_inv C s' ch' r W' _ _ L) as (y & yi & B1 & B2 & B3 & _). destruct (D_heap _ _ _ (L_shr _ _ _ _ _ _ DL) y yi B2) as (y0 & B4 & B5). apply lk_fields in B5 as (B5 & _).
    assert (y = p) as -> by (eapply (wf_uniq _ _ _ _ _ W); eauto; try discriminate; congruence). congruence. }
  destruct (D6 ltac:(congruence) LN) as [_ D6'].
  assert (IL : forall x, inside s h x -> exists u, look s x = Some u) by (intros x IN; inversion IN; subst; eauto).
  split; [intros x IN; destruct (IL x IN) as (u & U); exact (proj1 (D6' x u IN U))|].
  split. { intros x NI. destruct (look s x) as [u|] eqn:U; [exact (D1 x u U NI)|]. destruct (look s' x) as [u'|] eqn:U'; [|reflexivity]. apply D2 in U'. congruence. }
  split.
  - intros y BL. destruct (D3 y) as [EQ|(u & _ & _ & Z)]; [|exact Z]. destruct (content s y) as [nd|] eqn:CY; [|rewrite EQ; reflexivity].
    destruct (proj2 AC _ y LH BL ltac:(congruence)) as (x & w & LX & PX). destruct (look_inv C s ch r W x w LX) as (q & j & _ & Hq & Hx & ->). cbn in PX.
    assert (IN : inside s h x). { rewrite <- Hx. apply (not_inside C r s ch h p i q j W A2 A3 Hq). rewrite PX. apply at_or_below_under. exact BL. }
    destruct (D6' x _ IN LX) as [_ Z]. cbn in Z. rewrite PX in Z. exact Z.
  - intros y NB. destruct (D3 y) as [EQ|(u & U & BL & _)]; [exact EQ|]. rewrite LH in U. injection U as <-. contradiction.
Qed.

(** ** C94 *)
(** the object can be removed from the disk by itself: a file, or an empty folder *)
Definition removable (s : fs) (v : view) : Prop :=
  (v_folder v /\ content s (v_path v) = Some Dir /\ forall n, content s (join (v_path v) n) = None) \/ (~ v_folder v /\ exists d, content s (v_path v) = Some (File d)).
(** DeleteObject(0xFFFFFFFF, format), no object of the format having objects below it; [order] is the order in which the table is
    traversed.  Objects of other formats and their files stay, an object of the format is either gone with its file or
    untouched, OK means that all are gone, and on a disk that works they are. *)
Theorem C94_format_partial : forall C s fuel order fmt, supply_ok C -> reachable C s -> fmt <> 0 -> fmt <> FMT_Undefined ->
  Permutation order (akeys (s_handles s)) -> (forall h v c w, look s h = Some v -> v_format v = Some fmt -> look s c = Some w -> v_parent w <> Some h) ->
  exists code s', delete_item C (S fuel) order ALL fmt s = Ret (code, s') /\ reachable C s' /\
    (forall x v, look s x = Some v -> v_format v <> Some fmt -> look s' x = Some v) /\
    (forall x v, look s' x = Some v -> look s x = Some v) /\
    (forall x v, look s x = Some v -> v_format v = Some fmt -> content s' (v_path v) = match look s' x with Some _ => content s (v_path v) | None => None end) /\
    (forall y, (forall x v, look s x = Some v -> v_format v = Some fmt -> v_path v <> y) -> content s' y = content s y) /\
    (code = R_OK -> forall x v, look s x = Some v -> v_format v = Some fmt -> look s' x = None) /\
    ((forall x v, look s x = Some v -> v_format v <> Some fmt) -> s' = s) /\
    ((forall t, c_fail C t = false) -> (forall x v, look s x = Some v -> v_format v = Some fmt -> x <> 0 /\ removable s v) -> forall x v, look s x = Some v -> v_format v = Some fmt -> look s' x = None) /\
    ((exists x, look s x <> None /\ look s' x = None) -> code = R_OK \/ code = R_PartialDeletion).
Proof.
  intros C s fuel order fmt SO R N0 NU PM CL. destruct (reachable_good C s SO R) as (r & G). pose proof G as [[ch W] HR].
  assert (EF : negb (fmt =? 0) && negb (fmt =? FMT_Undefined) = true) by (rewrite (proj2 (N.eqb_neq _ _) N0), (proj2 (N.eqb_neq _ _) NU); reflexivity).
  destruct (format_loop C SO r fuel fmt (s_handles s) EF order R_GeneralError false false s G) as (code & s' & E & G' & B1 & B2 & B3 & B4 & B5 & B6 & B7 & B8).
  - eapply Permutation_NoDup; [apply Permutation_sym; exact PM|apply (W_nd _ _ _ _ _ W)].
  - intros k Hk. apply (Permutation_in _ PM) in Hk. destruct (aget k (s_handles s)) as [v|] eqn:EK; [|apply aget_None in EK; contradiction]. destruct (W_h _ _ _ _ _ W k v EK) as (p & i & -> & A & B & _). eauto.
  - exact CL.
  - assert (INO : forall x v, look s x = Some v -> In x order).
    { intros x v L. apply (Permutation_in _ (Permutation_sym PM)). destruct (in_dec N.eq_dec x (akeys (s_handles s))) as [I|I]; [exact I|]. apply aget_None in I. unfold look in L. rewrite I in L. discriminate. }
    exists code, s'. assert (ED : delete_item C (S fuel) order ALL fmt s = Ret (code, s')) by (unfold delete_item; rewrite N.eqb_refl; exact E).
    split; [exact ED|]. split. { apply (reach_step C s (ODeleteAll (S fuel) order fmt) s' R); [split; [exact PM|right; right; exact CL]|]. cbn [exec]. unfold bind. rewrite ED. reflexivity. }
    split; [intros x v L NF; apply B2; [exact L|]; intros [_ X]; contradiction|]. split; [exact B1|]. split. { intros x v L F. rewrite (B4 x v (INO x v L) L F). destruct (look s' x); reflexivity. }
    split. { intros y NO. destruct (B3 y) as [Y|(x & v & _ & L & F & P)]; [exact Y|]. exfalso. exact (NO x v L F P). }
    split. { intros Ec x v L F. destruct (B5 Ec ltac:(discriminate)) as [_ B52]. exact (B52 x v (INO x v L) L F). }
    split; [intros NO; apply B6; intros x v _; apply NO|].
    split. 2:{ intros (x & LX & NX). apply B8; [discriminate|]. right. destruct (look s x) as [v|] eqn:L; [|congruence]. exists x, v. split; [exact (INO x v L)|auto]. }
    intros WK HR2 x v L F. apply (B7 WK) with (v := v); auto; [|exact (INO x v L)]. intros x' v' _ L' F'. destruct (HR2 x' v' L' F') as [Z RM]. split; [exact Z|]. unfold deletable.
    destruct RM as [(FO & CD & EM)|(NF & d & CF)].
    + assert (FI : (match v_info v' with Some o => oi_format o =? FMT_Association | None => false end) = true). { unfold v_folder, v_format in FO. destruct (v_info v'); [|discriminate]. apply N.eqb_eq. congruence. }
      rewrite FI. split; [exact CD|]. destruct (entries_of (v_path v') (s_nodes s)) as [|e es] eqn:EE; [reflexivity|exfalso].
      assert (IN : In e (entries_of (v_path v') (s_nodes s))) by (rewrite EE; left; reflexivity). pose proof (entries_spec _ _ _ IN) as [_ J]. unfold entries_of in IN. apply filter_In in IN as [IN _]. apply node_in in IN. apply IN. rewrite J. apply EM.
    + assert (FI : (match v_info v' with Some o => oi_format o =? FMT_Association | None => false end) = false). { destruct (v_info v') as [o|] eqn:EI; [|reflexivity]. apply N.eqb_neq. intros EO. apply NF. unfold v_folder, v_format. rewrite EI, EO. reflexivity. }
      rewrite FI. eauto.
Qed.
(** DeleteObject(0xFFFFFFFF) without a format, on a disk that works and matches the storage: only the root is left *)
Theorem C94_everything_partial : forall C s order, supply_ok C -> reachable C s -> (forall t, c_fail C t = false) -> Permutation order (akeys (s_handles s)) -> accurate s 0 ->
  exists F, forall fuel, (F <= fuel)%nat -> exists code s', delete_item C fuel order ALL 0 s = Ret (code, s') /\ reachable C s' /\
    (forall x, x <> 0 -> look s' x = None) /\ (exists v, look s' 0 = Some v /\ look s 0 = Some v) /\
    (forall y, at_or_below (c_root C) y -> y <> c_root C -> content s' y = None) /\ content s' (c_root C) = content s (c_root C) /\ (forall y, ~ at_or_below (c_root C) y -> content s' y = content s y) /\
    (* and this is called a partial deletion *)
    ((exists x, x <> 0 /\ look s x <> None) -> code = R_PartialDeletion).
Proof.
  intros C s order SO R WK PM AC. destruct (reachable_good C s SO R) as (r & G). pose proof G as [[ch W] HR].
  destruct (halts_all (fun f => delete_item C f order ALL 0) s (fun f f' L => delete_item_mle C f f' order ALL 0 L) (delete_item_halts C r order ALL 0 s G)) as (F & res & NAB & HF).
  exists F. intros fuel LE. specialize (HF fuel LE).
  assert (OO : op_ok C (ODeleteAll fuel order 0) s) by (split; [exact PM|left; reflexivity]).
  pose proof (reachable_step C s _ SO R OO) as NUB. cbn [exec] in NUB. unfold bind in NUB. rewrite HF in NUB. destruct res as [[code s']| |]; [|contradiction|contradiction].
  exists code, s'. split; [exact HF|]. split. { apply (reach_step C s (ODeleteAll fuel order 0) s' R OO). cbn [exec]. unfold bind. rewrite HF. reflexivity. }
  destruct (root_look C s ch r W) as (ri & RI1 & RI2 & RI3 & RI4 & RI5).
  assert (AC' : acc s (c_root C)) by (rewrite <- RI5; apply (accurate_acc C s ch r r ri W RI1); rewrite RI2; exact AC).
  pose proof HF as E. unfold delete_item in E. rewrite N.eqb_refl in E. unfold bind at 1 in E. unfold get at 1 in E.
  destruct (any_loop C SO r fuel 0 (s_handles s) WK eq_refl order R_GeneralError false false s code s' G AC' E) as (G' & AC2 & SH & K4 & (ri' & RR) & K6).
  destruct G' as [[ch' W'] HR'].
  assert (INO : forall x, look s x <> None -> In x order).
  { intros x L. apply (Permutation_in _ (Permutation_sym PM)). destruct (in_dec N.eq_dec x (akeys (s_handles s))) as [I|I]; [exact I|]. apply aget_None in I. unfold look in L. rewrite I in L. congruence. }
  assert (GONE : forall x, x <> 0 -> look s' x = None).
  { intros x NZ. destruct (look s' x) as [v|] eqn:L; [|reflexivity]. pose proof (shr_look C r s ch s' ch' _ W W' SH x v L) as L0. rewrite <- L. apply K4; [apply INO; congruence|exact NZ]. }
  split; [exact GONE|]. destruct (root_look C s' ch' r W') as (ri2 & Q1 & Q2 & Q3 & Q4 & Q5). split; [exists (view_of s' ri2); split; [exact Q3|exact (shr_look C r s ch s' ch' _ W W' SH 0 _ Q3)]|].
  split. { intros y BL NY. destruct (content s' y) as [nd|] eqn:CY; [|reflexivity]. exfalso. destruct (proj2 AC2 y) as (x & j & Hx & Px); [apply at_or_below_under; exact BL|unfold content in CY; congruence|].
    pose proof (look_of C s' ch' r W' x j Hx) as L. destruct (N.eq_dec (i_handle j) 0) as [Z|NZ]; [|rewrite (GONE _ NZ) in L; discriminate]. assert (x = r) as -> by (eapply (root_handle C SO s' ch' r W'); eassumption). rewrite Q1 in Hx. injection Hx as <-. congruence. }
  split. { destruct (D_disk _ _ _ SH (c_root C)) as [Z|[_ Z]]; [exact Z|]. exfalso. pose proof (proj1 AC2 r ri2 Q1) as X. rewrite Q5 in X. specialize (X (under_refl _)). rewrite Z in X. destruct (is_assoc ri2); [discriminate|]. destruct X as (d & X). discriminate. }
  split. { intros y NB. destruct (D_disk _ _ _ SH y) as [Z|[Z _]]; [exact Z|]. exfalso. apply NB, at_or_below_under. exact Z. }
  intros (x & NZ & LX). apply K6; [right; apply INO; rewrite RI3; discriminate|]. right. exists x. auto.
Qed.

(** ** Examples *)
(** the demonstration disk with a picture on it *)
Definition with_picture : fs := match add_item quiet 10 (send_info 0 0x3801 [106]) (demo_start quiet) with Ret (_, s) => s | _ => demo_start quiet end.
Lemma with_picture_reachable : reachable quiet with_picture.
Proof. apply (reach_step quiet (demo_start quiet) (OAdd 10 (send_info 0 0x3801 [106])) with_picture demo_reachable); [split; [reflexivity|intros [Z|[]]; discriminate]|vm_compute; reflexivity]. Qed.
Lemma look_key s x v : look s x = Some v -> In x (akeys (s_handles s)).
Proof. intros L. destruct (in_dec N.eq_dec x (akeys (s_handles s))) as [I|I]; [exact I|]. apply aget_None in I. unfold look in L. rewrite I in L. discriminate. Qed.
Lemma demo_keys : akeys (s_handles (demo_start quiet)) = [0;7;12;16;21]. Proof. vm_compute. reflexivity. Qed.
Lemma picture_keys : akeys (s_handles with_picture) = [0;7;12;16;21;24]. Proof. vm_compute. reflexivity. Qed.
(** the disk agrees with the storage: the hypothesis of C45_working_disk and C94_everything_partial *)
Example C94_accurate : forall h, accurate (demo_start quiet) h.
Proof.
  intros h. split.
  - intros x v _ L. pose proof (look_key _ _ _ L) as K. rewrite demo_keys in K. cbn [In] in K.
    destruct K as [<-|[<-|[<-|[<-|[<-|[]]]]]]; vm_compute in L; injection L as <-; (split; intros F; [first [vm_compute; reflexivity|exfalso; vm_compute in F; discriminate F]|first [eexists; vm_compute; reflexivity|exfalso; apply F; vm_compute; reflexivity]]).
  - intros v y _ _ NY. apply in_node in NY. vm_compute in NY.
    repeat destruct NY as [<-|NY]; try contradiction; first [exists 0; eexists; split; vm_compute; reflexivity|exists 7; eexists; split; vm_compute; reflexivity|exists 12; eexists; split; vm_compute; reflexivity|exists 16; eexists; split; vm_compute; reflexivity|exists 21; eexists; split; vm_compute; reflexivity].
Qed.
(** the pictures have nothing below them: the hypothesis of C94_format_partial *)
Example C94_childless : forall h v c w, look with_picture h = Some v -> v_format v = Some 0x3801 -> look with_picture c = Some w -> v_parent w <> Some h.
Proof.
  intros h v c w L F LC. pose proof (look_key _ _ _ L) as K. rewrite picture_keys in K. cbn [In] in K. pose proof (look_key _ _ _ LC) as K2. rewrite picture_keys in K2. cbn [In] in K2.
  assert (h = 24) as ->. { destruct K as [<-|[<-|[<-|[<-|[<-|[<-|[]]]]]]]; [..|reflexivity]; vm_compute in L; injection L as <-; vm_compute in F; discriminate F. }
  destruct K2 as [<-|[<-|[<-|[<-|[<-|[<-|[]]]]]]]; vm_compute in LC; injection LC as <-; vm_compute; discriminate.
Qed.
(** the only picture is deleted: the answer is OK or PartialDeletion depending on the order of the table, as the
    GeneralError the code starts with counts as a failure when the first object met has another format *)
Theorem C94_answer_refuted : exists s1 s2 order, Permutation order (akeys (s_handles with_picture)) /\ Permutation (rev order) (akeys (s_handles with_picture)) /\
  delete_item quiet 10 order ALL 0x3801 with_picture = Ret (R_PartialDeletion, s1) /\ delete_item quiet 10 (rev order) ALL 0x3801 with_picture = Ret (R_OK, s2) /\
  akeys (s_handles s1) = [0;7;12;16;21] /\ akeys (s_handles s2) = [0;7;12;16;21].
Proof.
  eexists. eexists. exists (akeys (s_handles with_picture)). split; [apply Permutation_refl|]. split; [apply Permutation_sym, Permutation_rev|]. split; [vm_compute; reflexivity|]. split; [vm_compute; reflexivity|]. split; vm_compute; reflexivity.
Qed.
Print Assumptions C45_working_disk.
Print Assumptions C94_format_partial.
Print Assumptions C94_everything_partial.
Print Assumptions C94_answer_refuted.
