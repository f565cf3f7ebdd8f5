(** Storage: tables, enumeration, deletion, moving (C42-C46, C49). *)
From Coq Require Import Permutation.
From Verif Require Import Base AList Wire FS FSPath FSTree FSLogic FSAdd FSAdd2 FSDel FSSub FSMove FSMove2 FSMove3 FSEv FSData FSData2 FSList FSFrame FSCopy FSCopy2 FSSpec FSReach FSView FSDemo.

(** ** C42 *)
Theorem C42_tables_agree_partial : forall C s, supply_ok C -> reachable C s -> consistent C s.
Proof. intros C s SO R. destruct (reachable_good C s SO R) as (r & [[ch W] _]). exact (wf_consistent C SO s ch r W). Qed.
(** and no operation touches freed memory or a null pointer *)
Theorem C42_no_undefined_behaviour_partial : forall C s o, supply_ok C -> reachable C s -> op_ok C o s -> exec C o s <> UB.
Proof. intros. eapply reachable_step; eassumption. Qed.

(** ** C43 *)
Theorem C43_every_folder : forall C s h v, supply_ok C -> reachable C s -> look s h = Some v ->
  exists l, child_list s h l /\ NoDup l /\ forall c, In c l <-> exists w, look s c = Some w /\ v_parent w = Some h.
Proof. intros C s h v SO R E. eapply co_list; [apply C42_tables_agree_partial; eassumption|exact E]. Qed.

(** ** C44 *)
Definition wanted (fmt : N) (v : view) : Prop := fmt = 0 \/ v_format v = Some fmt.
Theorem C44_enumeration_partial : forall C s fmt assoc, supply_ok C -> reachable C s -> fmt <> FMT_Undefined \/ assoc = 0 ->
  exists code l, get_object_handles fmt assoc s = Ret ((code, l), s) /\ NoDup l /\
    (assoc = 0 -> code = R_OK /\ forall h, In h l <-> h <> 0 /\ exists v, look s h = Some v /\ wanted fmt v) /\
    (assoc = ALL -> code = R_OK /\ forall h, In h l <-> exists v, look s h = Some v /\ v_parent v = Some 0 /\ wanted fmt v) /\
    (assoc <> 0 -> assoc <> ALL ->
       (forall w, look s assoc = Some w -> v_folder w -> code = R_OK /\ forall h, In h l <-> exists v, look s h = Some v /\ v_parent v = Some assoc /\ wanted fmt v) /\
       ((forall w, look s assoc = Some w -> ~ v_folder w) -> code = R_InvalidParentObject /\ l = [])).
Proof.
  intros C s fmt assoc SO R HF. destruct (reachable_good C s SO R) as (r & [[ch W] HR]). destruct (get_object_handles_ok C SO r fmt assoc s ch W HR) as (code & l & E & ND & H). exists code, l. split; [exact E|]. split; [exact ND|].
  assert (WA : forall i, (fmt = 0 \/ fmt_is fmt i = true) <-> wanted fmt (view_of s i)).
  { intros i. unfold wanted, v_format, fmt_is. cbn. destruct (i_info i) as [o|]; [rewrite N.eqb_eq|]; intuition congruence. }
  assert (PAR : forall q j, s_heap s q = Some j -> forall h, (exists p i, s_heap s p = Some i /\ i_parent i = Some q /\ i_handle i = h /\ (fmt = 0 \/ fmt <> FMT_Undefined /\ fmt_is fmt i = true)) <-> exists v, look s h = Some v /\ v_parent v = Some (i_handle j) /\ (fmt = 0 \/ fmt <> FMT_Undefined /\ wanted fmt v)).
  { intros q j Hq h. split.
    - intros (p & i & A & B & <- & D). exists (view_of s i). split; [exact (look_of C s ch r W p i A)|]. split; [cbn; apply (parent_is C s ch r W q j p i Hq A); exact B|]. destruct D as [D|[D1 D2]]; [left; exact D|right; split; [exact D1|apply WA; auto]].
    - intros (v & A & B & D). destruct (look_inv C s ch r W h v A) as (p & i & A1 & A2 & <- & ->). exists p, i. split; [exact A2|]. split; [apply (parent_is C s ch r W q j p i Hq A2); exact B|]. split; [reflexivity|]. destruct D as [D|[D1 D2]]; [left; exact D|]. apply WA in D2 as [D2|D2]; [left; exact D2|right; auto]. }
  destruct (root_look C s ch r W) as (ri & RI1 & RI2 & _).
  split; [|split].
  - intros ->. rewrite N.eqb_refl in H. destruct H as [H1 H2]. split; [exact H1|]. intros h. rewrite H2. split.
    + intros (p & i & A & B & <- & D). split; [intros Z; apply B; eapply (root_handle C SO s ch r W); eassumption|]. exists (view_of s i). split; [exact (look_of C s ch r W p i A)|apply WA; exact D].
    + intros (Nz & v & A & D). destruct (look_inv C s ch r W h v A) as (p & i & A1 & A2 & <- & ->). exists p, i. split; [exact A2|]. split; [intros ->; congruence|]. split; [reflexivity|apply WA; exact D].
  - intros ->. change (ALL =? 0) with false in H. rewrite N.eqb_refl in H. cbv iota in H. destruct H as [H1 H2]. split; [exact H1|]. intros h. rewrite H2, (PAR r ri RI1 h), RI2. unfold wanted. destruct HF as [HF|HF]; [|discriminate]. split; intros (v & A & B & D); exists v; intuition.
  - intros N0 NA. rewrite (proj2 (N.eqb_neq _ _) N0), (proj2 (N.eqb_neq _ _) NA) in H. split.
    + intros w Lw Fw. destruct (look_inv C s ch r W assoc w Lw) as (q & j & A1 & A2 & A3 & ->). rewrite A1 in H. destruct H as (j' & A4 & H). rewrite A2 in A4. injection A4 as <-. unfold v_folder, v_format in Fw. cbn in Fw. assert (IA : is_assoc j = true) by (unfold is_assoc; destruct (i_info j); [apply N.eqb_eq; congruence|discriminate]). rewrite IA in H. destruct H as [H1 H2]. split; [exact H1|].
      intros h. rewrite H2, (PAR q j A2 h), A3. unfold wanted. destruct HF as [HF|HF]; [|contradiction]. split; intros (v & A & B & D); exists v; intuition.
    + intros HN. destruct (aget assoc (s_handles s)) as [[q|]|] eqn:A1; [|exact H|exact H]. destruct H as (j & A2 & H). destruct (is_assoc j) eqn:IA; [exfalso|exact H].
      apply (HN (view_of s j)); [unfold look; rewrite A1, A2; reflexivity|]. unfold v_folder, v_format. cbn. unfold is_assoc in IA. destruct (i_info j); [|discriminate]. apply N.eqb_eq in IA. congruence.
Qed.

(** ** C45 *)
Theorem C45_deletion_partial : forall C s fuel h code s', supply_ok C -> reachable C s -> h <> ALL -> delete_item C fuel [] h 0 s = Ret (code, s') ->
  (* everything outside the deleted object is as before *)
  (forall x v, look s x = Some v -> ~ inside s h x -> look s' x = Some v) /\
  (forall x v, look s' x = Some v -> look s x = Some v) /\
  (forall y, content s' y = content s y \/ exists v, look s h = Some v /\ at_or_below (v_path v) y /\ content s' y = None) /\
  (* a successful answer: everything below is gone, from the storage and from the disk *)
  (code = R_OK -> look s h <> None /\ h <> 0 /\ (forall x v, inside s h x -> x <> h -> look s x = Some v -> look s' x = None /\ content s' (v_path v) = None)) /\
  (* ... and the object itself, if it had no children *)
  (code = R_OK -> (forall x w, look s x = Some w -> v_parent w <> Some h) -> forall v, look s h = Some v -> look s' h = None /\ content s' (v_path v) = None) /\
  (* the object is only removed together with everything below *)
  (look s h <> None -> look s' h = None -> code = R_OK /\ forall x v, inside s h x -> look s x = Some v -> look s' x = None /\ content s' (v_path v) = None) /\
  (* the root, unknown handles *)
  (h = 0 -> code <> R_OK /\ s' = s) /\ (look s h = None -> code = R_InvalidObjectHandle /\ s' = s).
Proof.
  intros C s fuel h code s' SO R Na E. destruct (reachable_good C s SO R) as (r & [[ch W] HR]). unfold delete_item in E. rewrite (proj2 (N.eqb_neq _ _) Na) in E.
  pose proof (delete_helper_ok C r fuel h true false s ch W HR) as H. rewrite E in H. destruct H as (ch' & W' & H). destruct (root_look C s ch r W) as (ri & RI1 & RI2 & RI3 & _).
  assert (SAME : s' = s -> code <> R_OK -> look s h = None -> code = R_InvalidObjectHandle -> (h = 0 -> False) ->
     (forall x v, look s x = Some v -> ~ inside s h x -> look s' x = Some v) /\ (forall x v, look s' x = Some v -> look s x = Some v) /\
     (forall y, content s' y = content s y \/ exists v, look s h = Some v /\ at_or_below (v_path v) y /\ content s' y = None) /\
     (code = R_OK -> look s h <> None /\ h <> 0 /\ (forall x v, inside s h x -> x <> h -> look s x = Some v -> look s' x = None /\ content s' (v_path v) = None)) /\
     (code = R_OK -> (forall x w, look s x = Some w -> v_parent w <> Some h) -> forall v, look s h = Some v -> look s' h = None /\ content s' (v_path v) = None) /\
     (look s h <> None -> look s' h = None -> code = R_OK /\ forall x v, inside s h x -> look s x = Some v -> look s' x = None /\ content s' (v_path v) = None) /\
     (h = 0 -> code <> R_OK /\ s' = s) /\ (look s h = None -> code = R_InvalidObjectHandle /\ s' = s)).
  { intros -> Nc Ln Ec Hz. repeat split; auto; try contradiction; try congruence. }
  destruct (aget h (s_handles s)) as [[p|]|] eqn:Hh.
  2:{ destruct H as [H1 H2]. apply SAME; auto; [rewrite H2; discriminate|unfold look; rewrite Hh; reflexivity|intros ->; unfold look in RI3; rewrite Hh in RI3; discriminate]. }
  2:{ destruct H as [H1 H2]. apply SAME; auto; [rewrite H2; discriminate|unfold look; rewrite Hh; reflexivity|intros ->; unfold look in RI3; rewrite Hh in RI3; discriminate]. }
  destruct (W_h _ _ _ _ _ W h _ Hh) as (p' & i & EP & Hp & Ei & _). injection EP as <-.
  assert (Lh : look s h = Some (view_of s i)) by (rewrite <- Ei; exact (look_of C s ch r W p i Hp)).
  destruct (p =? r) eqn:Er.
  { apply N.eqb_eq in Er as ->. destruct H as [-> ->]. assert (h = 0) as -> by congruence. split; [auto|]. split; [auto|]. split; [auto|]. split; [discriminate|]. split; [discriminate|]. split; [congruence|]. split; [split; [discriminate|reflexivity]|congruence]. }
  assert (Np : p <> r) by (apply N.eqb_neq; exact Er). destruct H as (i0 & B1 & _ & D). rewrite Hp in B1. injection B1 as <-. pose proof (L_shr _ _ _ _ _ _ D) as S1.
  assert (GONE : forall x xi, s_heap s x = Some xi -> s_heap s' x = None -> look s' (i_handle xi) = None).
  { intros x xi Hx Hx'. destruct (look s' (i_handle xi)) as [v'|] eqn:E'; [|reflexivity]. exfalso. destruct (look_inv C s' ch' r W' _ _ E') as (y & yi & A1 & A2 & A3 & _). destruct (D_heap _ _ _ S1 y yi A2) as (y0 & A4 & A5). apply lk_fields in A5 as (A5 & _).
    assert (y = x) as -> by (eapply (wf_uniq _ _ _ _ _ W); eauto; try discriminate; congruence). congruence. }
  assert (BACK : forall x xi, s_heap s x = Some xi -> look s' (i_handle xi) = None -> s_heap s' x = None).
  { intros x xi Hx Hl. destruct (s_heap s' x) as [x'|] eqn:E'; [|reflexivity]. exfalso. destruct (D_heap _ _ _ S1 x x' E') as (x0 & A1 & A2). rewrite Hx in A1. injection A1 as <-. apply lk_fields in A2 as (A2 & _). pose proof (look_of C s' ch' r W' x x' E') as L. congruence. }
  assert (INS : forall x xi, s_heap s x = Some xi -> (inside s h (i_handle xi) <-> under (i_path i) (i_path xi) = true)) by (intros x xi Hx; exact (not_inside C r s ch h p i x xi W Hp Ei Hx)).
  assert (H0 : h <> 0). { intros ->. apply Np. eapply (root_handle C SO s ch r W); eassumption. }
  split; [|split; [|split; [|split; [|split; [|split; [|split]]]]]].
  - intros x v Lx Nx. destruct (look_inv C s ch r W x v Lx) as (y & yi & A1 & A2 & <- & ->). destruct (s_heap s' y) as [y'|] eqn:E'.
    + destruct (D_heap _ _ _ S1 y y' E') as (y0 & A3 & A4). rewrite A2 in A3. injection A3 as <-. rewrite <- Lx. eapply look_keep; try eassumption; [apply lk_kept; exact A4|]. intros q j Pq Hq. destruct (s_heap s' q) as [j'|] eqn:Eq.
      * destruct (D_heap _ _ _ S1 q j' Eq) as (j0 & J1 & J2). rewrite Hq in J1. injection J1 as <-. apply lk_fields in J2 as (J2 & _). eauto.
      * exfalso. apply Nx. apply (INS y yi A2). pose proof (D_gone _ _ _ S1 q j Hq Eq) as U. destruct (W_info _ _ _ _ _ W y yi A2) as (o & _ & O). destruct (O q j Pq Hq) as (_ & -> & _). apply under_join. exact U.
    + exfalso. apply Nx. apply (INS y yi A2). exact (D_gone _ _ _ S1 y yi A2 E').
  - apply (shr_look C r s ch s' ch' _ W W' S1).
  - intros y. destruct (D_disk _ _ _ S1 y) as [A|[A1 A2]]; [left; exact A|right]. exists (view_of s i). split; [exact Lh|]. split; [apply at_or_below_under; exact A1|exact A2].
  - intros Ec. split; [congruence|]. split; [exact H0|]. intros x v Ix Nx Lx. destruct (look_inv C s ch r W x v Lx) as (y & yi & A1 & A2 & <- & ->). apply (INS y yi A2) in Ix. assert (Hy' : s_heap s' y = None). { apply (L_ok _ _ _ _ _ _ D Ec y yi A2 Ix). intros ->. rewrite Hp in A2. injection A2 as <-. contradiction. }
    split; [eapply GONE; eassumption|]. cbn. exact (L_disk _ _ _ _ _ _ D eq_refl y yi A2 Hy').
  - intros Ec NC v Lv. rewrite Lh in Lv. injection Lv as <-. assert (Hp' : s_heap s' p = None).
    { apply (L_leaf _ _ _ _ _ _ D Ec). destruct (i_first i) as [x|] eqn:Ef; [|reflexivity]. exfalso. pose proof (T_seg _ _ _ (W_T _ _ _ _ _ W) p i Hp) as Sg. rewrite Ef in Sg. apply seg_some in Sg as (l & El).
      destruct (wf_child _ _ _ _ _ W p i x Hp) as (xi & X1 & X2 & X3); [rewrite El; left; reflexivity|]. apply (NC (i_handle xi) (view_of s xi)); [exact (look_of C s ch r W x xi X1)|]. cbn. rewrite <- Ei. apply (parent_is C s ch r W p i x xi); assumption. }
    rewrite <- Ei. split; [eapply GONE; eassumption|]. exact (L_disk _ _ _ _ _ _ D eq_refl p i Hp Hp').
  - intros _ Ln. rewrite <- Ei in Ln. pose proof (BACK p i Hp Ln) as Hp'. destruct (L_gone _ _ _ _ _ _ D Hp') as [Ec G]. split; [exact Ec|]. intros x v Ix Lx. destruct (look_inv C s ch r W x v Lx) as (y & yi & A1 & A2 & <- & ->). apply (INS y yi A2) in Ix. pose proof (G y yi A2 Ix) as Hy'. split; [eapply GONE; eassumption|]. exact (L_disk _ _ _ _ _ _ D eq_refl y yi A2 Hy').
  - intros ->. contradiction.
  - congruence.
Qed.
Print Assumptions C42_tables_agree_partial.
Print Assumptions C42_no_undefined_behaviour_partial.
Print Assumptions C43_every_folder.
Print Assumptions C44_enumeration_partial.
Print Assumptions C45_deletion_partial.
