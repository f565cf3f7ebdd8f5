(** Every state a storage can get into is consistent. *)
From Coq Require Import Permutation.
From Verif Require Import Base AList Wire FS FSPath FSTree FSLogic FSAdd FSAdd2 FSDel FSSub FSMove FSMove2 FSMove3 FSEv FSData FSData2 FSList FSFrame FSCopy FSCopy2 FSSpec.

Section Look.
Variables (C : conf) (SO : supply_ok C) (s : fs) (ch : ptr -> list ptr) (r : ptr) (W : WF C s ch r None).

Lemma look_of p i : s_heap s p = Some i -> look s (i_handle i) = Some (view_of s i).
Proof. intros Hp. destruct (W_live _ _ _ _ _ W p i Hp ltac:(discriminate)) as [A _]. unfold look. rewrite A, Hp. reflexivity. Qed.
Lemma look_inv h v : look s h = Some v -> exists p i, aget h (s_handles s) = Some (Some p) /\ s_heap s p = Some i /\ i_handle i = h /\ v = view_of s i.
Proof.
  unfold look. destruct (aget h (s_handles s)) as [[p|]|] eqn:E; try discriminate. destruct (s_heap s p) as [i|] eqn:Hp; [|discriminate]. intros [= <-].
  destruct (W_h _ _ _ _ _ W h _ E) as (p' & i' & A1 & A2 & A3 & _). injection A1 as <-. rewrite Hp in A2. injection A2 as <-. exists p, i. auto.
Qed.
Lemma look_ex h : (exists v, look s h = Some v) <-> exists p i, aget h (s_handles s) = Some (Some p) /\ s_heap s p = Some i /\ i_handle i = h.
Proof.
  split.
  - intros (v & E). destruct (look_inv h v E) as (p & i & A & B & D & _). eauto.
  - intros (p & i & A & B & <-). eexists. exact (look_of p i B).
Qed.
Lemma look_none h : look s h = None <-> aget h (s_handles s) = None.
Proof.
  split; intros E.
  - destruct (aget h (s_handles s)) as [v|] eqn:A; [|reflexivity]. destruct (W_h _ _ _ _ _ W h v A) as (p & i & -> & B & D & _). unfold look in E. rewrite A, B in E. discriminate.
  - unfold look. rewrite E. reflexivity.
Qed.
Lemma parent_handle_eq p i : s_heap s p = Some i -> p <> r -> exists q j, i_parent i = Some q /\ s_heap s q = Some j /\ parent_handle s i = Some (i_handle j).
Proof. intros Hp Nr. destruct (wf_parent _ _ _ _ _ W p i Hp Nr) as (q & j & o & A1 & A2 & _). exists q, j. unfold parent_handle. rewrite A1, A2. auto. Qed.
Lemma root_handle p i : s_heap s p = Some i -> i_handle i = 0 -> p = r.
Proof. intros Hp E. eapply (wf_zero _ SO); eassumption. Qed.
Lemma root_look : exists ri, s_heap s r = Some ri /\ i_handle ri = 0 /\ look s 0 = Some (view_of s ri) /\ i_parent ri = None /\ i_path ri = c_root C.
Proof. destruct (W_root _ _ _ _ _ W) as (ri & A1 & A2 & A3 & A4). exists ri. split; [exact A1|]. split; [exact A4|]. split; [rewrite <- A4; eapply look_of; exact A1|]. auto. Qed.
Lemma parent_is q j c ci : s_heap s q = Some j -> s_heap s c = Some ci -> (parent_handle s ci = Some (i_handle j) <-> i_parent ci = Some q).
Proof.
  intros Hq Hc. unfold parent_handle. split; [|intros ->; rewrite Hq; reflexivity].
  destruct (i_parent ci) as [q'|]; [|discriminate]. destruct (s_heap s q') as [j'|] eqn:E; [|discriminate]. intros [= E']. f_equal. eapply (wf_uniq _ _ _ _ _ W); eauto; discriminate.
Qed.

Lemma inside_under : forall a h, inside s a h -> exists x xi y yi, s_heap s x = Some xi /\ i_handle xi = a /\ s_heap s y = Some yi /\ i_handle yi = h /\ under (i_path xi) (i_path yi) = true.
Proof.
  intros a h I. induction I as [v E|h v q E P I IH].
  - destruct (look_inv _ _ E) as (p & i & A & B & D & _). exists p, i, p, i. repeat split; auto. apply under_refl.
  - destruct IH as (x & xi & y & yi & X1 & X2 & Y1 & Y2 & U). destruct (look_inv _ _ E) as (p & i & A & B & D & ->). cbn in P.
    assert (Np : p <> r). { intros ->. destruct root_look as (ri & R1 & R2 & _ & R3 & _). rewrite B in R1. injection R1 as <-. unfold parent_handle in P. rewrite R3 in P. discriminate. }
    destruct (wf_parent _ _ _ _ _ W p i B Np) as (y' & j & o & Q1 & Q2 & _ & _ & _ & Q3 & _).
    unfold parent_handle in P. rewrite Q1, Q2 in P. injection P as P. assert (y' = y) as -> by (eapply (wf_uniq _ _ _ _ _ W); eauto; try discriminate; congruence).
    rewrite Y1 in Q2. injection Q2 as <-. exists x, xi, p, i. repeat split; auto. rewrite Q3. apply under_join. exact U.
Qed.
Lemma under_inside x xi : s_heap s x = Some xi -> forall y yi, s_heap s y = Some yi -> under (i_path xi) (i_path yi) = true -> inside s (i_handle xi) (i_handle yi).
Proof.
  intros Hx y yi. remember (len (i_path yi)) as n eqn:En. revert y yi En. induction n as [n IH] using (well_founded_induction N.lt_wf_0). intros y yi En Hy U.
  destruct (N.eq_dec y x) as [->|Ny]. { rewrite Hx in Hy. injection Hy as <-. eapply inside_self. eapply look_of. exact Hx. }
  assert (Nr : y <> r).
  { intros ->. destruct root_look as (ri & R1 & _ & _ & _ & R2). rewrite Hy in R1. injection R1 as <-. apply Ny. pose proof (wf_under_root _ _ _ _ _ W x xi Hx) as V. eapply (wf_path_uniq _ _ _ _ _ W); eauto; try discriminate.
    apply under_len_eq; [exact U|]. rewrite R2. apply under_len. exact V. }
  destruct (wf_parent _ _ _ _ _ W y yi Hy Nr) as (q & j & o & Q1 & Q2 & _ & _ & Q4 & Q3 & _).
  eapply inside_child; [eapply look_of; exact Hy| |].
  - cbn. unfold parent_handle. rewrite Q1, Q2. reflexivity.
  - rewrite Q3 in U. apply under_join_inv in U as [U|U]; [|eapply IH; [|reflexivity|exact Q2|exact U]|apply Q4].
    + exfalso. apply Ny. eapply (wf_path_uniq _ _ _ _ _ W); [exact Hy|exact Hx|discriminate|discriminate|congruence].
    + rewrite En. eapply wf_len; eassumption.
Qed.
Lemma chain_seg : forall l o, seg (s_heap s) o l -> chain s o (map (hd_of (s_heap s)) l).
Proof.
  induction l as [|x l IH]; intros o Hs; [cbn in Hs; subst; constructor|]. destruct Hs as [-> (i & Hi & Hr)]. cbn [map]. unfold hd_of at 1. rewrite Hi. constructor; [exact Hi|apply IH; exact Hr].
Qed.

Theorem wf_consistent : consistent C s.
Proof.
  constructor.
  - apply (W_nd _ _ _ _ _ W).
  - intros h Hin. intros E. apply look_none in E. apply aget_None in E. contradiction.
  - intros p i Hp. apply (W_live _ _ _ _ _ W p i Hp). discriminate.
  - intros h v E. destruct (look_inv h v E) as (p & i & A & B & <- & ->). apply (W_live _ _ _ _ _ W p i B). discriminate.
  - intros x h E. destruct (W_path _ _ _ _ _ W x h E) as (p & i & A & <- & B & _). exists (view_of s i). split; [eapply look_of; exact A|exact B].
  - destruct root_look as (ri & A1 & _ & A2 & A3 & A4). exists (view_of s ri). split; [exact A2|]. split; [exact A4|]. cbn. unfold parent_handle. rewrite A3. reflexivity.
  - intros h v E Nh. destruct (look_inv h v E) as (p & i & A & B & Eh & ->). assert (Np : p <> r). { intros ->. destruct root_look as (ri & R1 & R2 & _). rewrite B in R1. injection R1 as <-. congruence. }
    destruct (wf_parent _ _ _ _ _ W p i B Np) as (q & j & o & Q1 & Q2 & _ & Q3 & Q4 & Q5 & Q6). exists (i_handle j), (view_of s j), o. cbn. unfold parent_handle. rewrite Q1, Q2. repeat split; auto; try apply Q4. eapply look_of. exact Q2.
  - intros h v E. destruct (look_inv h v E) as (p & i & A & B & <- & ->). destruct root_look as (ri & R1 & R2 & _ & _ & R3). rewrite <- R2. eapply under_inside; eauto. rewrite R3. eapply wf_under_root; eassumption.
  - intros h v E. destruct (look_inv h v E) as (p & i & A & B & <- & ->). exists (map (hd_of (s_heap s)) (ch p)). split; [|split].
    + exists p, i. split; [exact A|]. split; [exact B|]. apply chain_seg. apply (T_seg _ _ _ (W_T _ _ _ _ _ W)). exact B.
    + eapply NoDup_handles; [exact W|eapply (T_nd _ _ _ (W_T _ _ _ _ _ W)); exact B|]. intros x Hx. destruct (wf_child _ _ _ _ _ W p i x B Hx) as (xi & X & _). eauto.
    + intros c. rewrite in_map_iff. split.
      * intros (x & Ex & Hx). destruct (wf_child _ _ _ _ _ W p i x B Hx) as (xi & X1 & X2 & _). unfold hd_of in Ex. rewrite X1 in Ex. subst c. exists (view_of s xi). split; [eapply look_of; exact X1|]. cbn. apply (parent_is p i x xi); assumption.
      * intros (w & E1 & E2). destruct (look_inv c w E1) as (x & xi & X1 & X2 & <- & ->). cbn in E2. apply (parent_is p i x xi B X2) in E2. exists x. unfold hd_of. rewrite X2. split; [reflexivity|].
        assert (Nx : x <> r) by (intros ->; destruct root_look as (ri & R1 & _ & _ & R2 & _); congruence). destruct (wf_parent _ _ _ _ _ W x xi X2 Nx) as (q & j & o & Q1 & _ & Q3 & _). congruence.
  - intros h v E. destruct (look_inv h v E) as (p & i & A & B & <- & ->). eapply (wf_notall _ SO); eassumption.
Qed.
End Look.

Section Steps.
Variables (C : conf) (SO : supply_ok C) (r : ptr).
Notation good := (good C r).

Lemma exec_bind {A} (m : M A) s (Q : fs -> Prop) : match m s with Ret (_, s') => Q s' | UB => False | Abort => True end ->
  match bind m (fun _ => ret tt) s with Ret (_, s') => Q s' | UB => False | Abort => True end.
Proof. unfold bind. destruct (m s) as [[a s']| |]; auto. Qed.

(** DeleteObject on everything *)
Lemma delete_loop_any fuel fmt copy : (fmt =? 0) = true \/ (fmt =? FMT_Undefined) = true -> forall l resp some failed s, good s ->
  match (fix loop (l : list N) (resp : N) (some failed : bool) : M N :=
       match l with
       | [] => ret (if some && failed then R_PartialDeletion else resp)
       | k :: l' =>
         resp <- (if negb (fmt =? 0) && negb (fmt =? FMT_Undefined) then
                    i <- deref_opt (match aget k copy with Some v => v | None => None end) ;;
                    if match i_info i with Some o => oi_format o =? fmt | None => false end then delete_helper C fuel k true false else ret resp
                  else delete_helper C fuel k true false) ;;
         loop l' resp (some || isok resp) (failed || (negb (isok resp) && negb (resp =? R_InvalidObjectHandle)))
       end) l resp some failed s with Ret (_, s') => good s' | UB => False | Abort => True end.
Proof.
  intros HF. induction l as [|k l IH]; intros resp some failed s G; [exact G|].
  assert (E : negb (fmt =? 0) && negb (fmt =? FMT_Undefined) = false) by (destruct HF as [-> | ->]; [reflexivity|apply andb_false_r]). rewrite E in *. unfold bind at 1.
  destruct G as [[ch W] HR]. pose proof (delete_helper_ok C r fuel k true false s ch W HR) as H. destruct (delete_helper C fuel k true false s) as [[c s1]| |]; try exact H.
  destruct H as (ch' & W' & H). apply IH. split; [eauto|]. destruct (aget k (s_handles s)) as [[p|]|]; [|destruct H as [-> _]; exact HR|destruct H as [-> _]; exact HR].
  destruct (p =? r); [destruct H as [-> _]; exact HR|]. destruct H as (i & _ & _ & D). rewrite (D_root _ _ _ (L_shr _ _ _ _ _ _ D)). exact HR.
Qed.
Lemma delete_loop_leaf fuel fmt copy : forall l resp some failed s, good s -> NoDup l ->
  (forall k, In k l -> exists p i, aget k copy = Some (Some p) /\ s_heap s p = Some i /\ i_handle i = k) ->
  (forall p i c ci, s_heap s p = Some i -> fmt_is fmt i = true -> s_heap s c = Some ci -> i_parent ci <> Some p) ->
  negb (fmt =? 0) && negb (fmt =? FMT_Undefined) = true ->
  match (fix loop (l : list N) (resp : N) (some failed : bool) : M N :=
       match l with
       | [] => ret (if some && failed then R_PartialDeletion else resp)
       | k :: l' =>
         resp <- (if negb (fmt =? 0) && negb (fmt =? FMT_Undefined) then
                    i <- deref_opt (match aget k copy with Some v => v | None => None end) ;;
                    if match i_info i with Some o => oi_format o =? fmt | None => false end then delete_helper C fuel k true false else ret resp
                  else delete_helper C fuel k true false) ;;
         loop l' resp (some || isok resp) (failed || (negb (isok resp) && negb (resp =? R_InvalidObjectHandle)))
       end) l resp some failed s with Ret (_, s') => good s' | UB => False | Abort => True end.
Proof.
  induction l as [|k l IH]; intros resp some failed s G ND HL HF EF; [exact G|]. rewrite EF in *. apply NoDup_cons_iff in ND as [N1 N2].
  destruct (HL k (or_introl eq_refl)) as (p & i & A1 & A2 & A3). unfold bind at 1. unfold bind at 1. rewrite A1. cbn [deref_opt]. unfold deref at 1. rewrite A2.
  destruct (match i_info i with Some o => oi_format o =? fmt | None => false end) eqn:EM.
  2:{ unfold ret at 1. apply IH; auto. intros k' Hk'. apply HL. right. exact Hk'. }
  destruct G as [[ch W] HR]. pose proof (delete_helper_ok C r fuel k true false s ch W HR) as H. destruct (delete_helper C fuel k true false s) as [[c s1]| |]; try exact H.
  destruct H as (ch' & W' & H). destruct (W_live _ _ _ _ _ W p i A2 ltac:(discriminate)) as [L _]. rewrite A3 in L. rewrite L in H.
  destruct (p =? r) eqn:Er.
  { destruct H as [-> _]. apply IH; auto; [split; eauto|]. intros k' Hk'. apply HL. right. exact Hk'. }
  destruct H as (i0 & B1 & _ & D). rewrite A2 in B1. injection B1 as <-. pose proof (L_shr _ _ _ _ _ _ D) as S1.
  apply IH; auto.
  - split; [eauto|]. rewrite (D_root _ _ _ S1). exact HR.
  - intros k' Hk'. destruct (HL k' (or_intror Hk')) as (p' & j & B1 & B2 & B3). destruct (s_heap s1 p') as [j1|] eqn:E1.
    + destruct (D_heap _ _ _ S1 p' j1 E1) as (j0 & B4 & B5). rewrite B2 in B4. injection B4 as <-. apply lk_fields in B5 as (B5 & _). exists p', j1. repeat split; auto. congruence.
    + exfalso. pose proof (D_gone _ _ _ S1 p' j B2 E1) as U. assert (Np : p' <> p) by (intros ->; rewrite A2 in B2; injection B2 as <-; congruence).
      destruct (below_child C r s ch p i W A2 p' j B2 U Np) as (c' & ci & D1 & D2 & _). destruct (wf_child _ _ _ _ _ W p i c' A2 D1) as (ci2 & D3 & D4 & _). exact (HF p i c' ci2 A2 EM D3 D4).
  - intros p' i' c' ci' Hp' HM Hc' HP. destruct (D_heap _ _ _ S1 p' i' Hp') as (j0 & B4 & B5). destruct (D_heap _ _ _ S1 c' ci' Hc') as (c0 & B6 & B7). apply lk_fields in B5 as (_ & _ & _ & B5 & _). apply lk_fields in B7 as (_ & _ & _ & _ & B7 & _).
    apply (HF p' j0 c' c0); auto; [|congruence]. unfold fmt_is in *. rewrite <- B5. exact HM.
Qed.

Lemma note_event_pre fuel e s : good s -> note_ok C fuel e s -> event_pre C fuel e s.
Proof.
  intros G PRE. unfold event_pre. unfold note_ok in PRE. destruct e as [e|]; [|exact I]. destruct (ev_name e) as [name|]; [|exact I]. destruct PRE as [P1 P2]. split; [exact P1|].
    intros s1 E1. specialize (P2 s1 E1).
    assert (G1 : good s1).
    { unfold drop_stale in E1. unfold bind in E1 at 1. unfold get in E1 at 1. destruct (s_cache s) as [[[wd ck] n]|]; [|unfold ret in E1; apply Ret_inj in E1; injection E1 as <-; exact G].
      destruct (negb (ck =? ev_cookie e)); cbn [when] in E1; [|unfold ret in E1; apply Ret_inj in E1; injection E1 as <-; exact G]. unfold bind in E1. pose proof (handle_fs_delete_ok C r fuel wd n s G) as X.
      destruct (handle_fs_delete C fuel wd n s) as [[[] s2]| |]; try discriminate. unfold upd in E1. apply Ret_inj in E1. injection E1 as <-. apply good_cache. exact X. }
    destruct G1 as [[ch1 W1] HR1].
    assert (LK : forall h p i, aget h (s_handles s1) = Some (Some p) -> s_heap s1 p = Some i -> look s1 h = Some (view_of s1 i) /\ i_handle i = h).
    { intros h p i H1 H2. destruct (W_h _ _ _ _ _ W1 h _ H1) as (p' & i' & A1 & A2 & A3 & _). injection A1 as <-. rewrite H2 in A2. injection A2 as <-. split; [rewrite <- A3; exact (look_of C s1 ch1 r W1 p i H2)|exact A3]. }
    destruct (ev_kind e); try exact I.
    + intros wd ck n E2 E3. destruct (P2 wd ck n E2 E3) as [P3 P4]. unfold fs_move_pre. cbv zeta. split; [exact P3|]. split; [exact P1|]. intros fq fi tq ti p i h A1 A2 A3 A4 A5 A6 A7.
      destruct (LK _ _ _ A1 A2) as [L1 _]. destruct (LK _ _ _ A3 A4) as [L2 L2']. destruct (LK _ _ _ A6 A7) as [L3 L3']. destruct (P4 _ _ _ _ L1 L2 A5 L3) as (Q1 & Q2 & Q3). split; [exact Q1|]. split.
      * destruct (under (i_path i) (i_path ti)) eqn:U; [|reflexivity]. exfalso. apply Q2. unfold watched. rewrite <- L2', <- L3'. eapply under_inside; eassumption.
      * intros IA. apply Q3. unfold v_folder, v_format. cbn. unfold is_assoc in IA. destruct (i_info i); [|discriminate]. f_equal. apply N.eqb_eq. exact IA.
    + intros q j p i h A1 A2 A3 A4 A5 IA. destruct (LK _ _ _ A1 A2) as [L1 _]. destruct (LK _ _ _ A4 A5) as [L2 _]. apply (P2 _ _ _ L1 A3 L2). unfold v_folder, v_format. cbn. unfold is_assoc in IA. destruct (i_info i); [|discriminate]. f_equal. apply N.eqb_eq. exact IA.
Qed.
Lemma step_ok o s : good s -> op_ok C o s -> match exec C o s with Ret (_, s') => good s' | UB => False | Abort => True end.
Proof.
  intros G PRE. pose proof G as [[ch W] HR]. destruct o; cbn [exec op_ok] in *.
  - apply exec_bind. pose proof (add_item_ok C SO r fuel info s ch W PRE) as H. destruct (add_item C fuel info s) as [[a s']| |]; try exact H. destruct H as (ch' & W' & X & _). split; [eauto|]. rewrite (E_root _ _ X). exact HR.
  - apply exec_bind. unfold delete_item. rewrite (proj2 (N.eqb_neq _ _) PRE). pose proof (delete_helper_ok C r fuel h true false s ch W HR) as H. destruct (delete_helper C fuel h true false s) as [[c s1]| |]; try exact H.
    destruct H as (ch' & W' & H). split; [eauto|]. destruct (aget h (s_handles s)) as [[p|]|]; [|destruct H as [-> _]; exact HR|destruct H as [-> _]; exact HR].
    destruct (p =? r); [destruct H as [-> _]; exact HR|]. destruct H as (i & _ & _ & D). rewrite (D_root _ _ _ (L_shr _ _ _ _ _ _ D)). exact HR.
  - apply exec_bind. unfold delete_item. rewrite N.eqb_refl. unfold bind at 1. unfold get at 1. destruct PRE as [PM PF].
    destruct (negb (fmt =? 0) && negb (fmt =? FMT_Undefined)) eqn:EF.
    2:{ pose proof (delete_loop_any fuel fmt (s_handles s)) as H. rewrite EF in H. apply H; [|exact G]. apply andb_false_iff in EF as [E|E]; apply negb_false_iff in E; auto. }
    pose proof (delete_loop_leaf fuel fmt (s_handles s)) as H. rewrite EF in H. apply H; auto.
    + eapply Permutation_NoDup; [apply Permutation_sym; exact PM|apply (W_nd _ _ _ _ _ W)].
    + intros k Hk. apply (Permutation_in _ PM) in Hk. destruct (aget k (s_handles s)) as [v|] eqn:E; [|apply aget_None in E; contradiction]. destruct (W_h _ _ _ _ _ W k v E) as (p & i & -> & A & B & _). eauto.
    + intros p i c ci Hp HM Hc HP. apply andb_true_iff in EF as [E1 E2]. destruct PF as [->|[->|PF]]; [discriminate E1|discriminate E2|]. apply (PF (i_handle i) (view_of s i) (i_handle ci) (view_of s ci)).
      * exact (look_of C s ch r W p i Hp).
      * unfold v_format, fmt_is in *. cbn. destruct (i_info i); [|discriminate]. f_equal. apply N.eqb_eq. exact HM.
      * exact (look_of C s ch r W c ci Hc).
      * cbn. apply (parent_is C s ch r W p i c ci); assumption.
  - apply exec_bind. assert (MP : move_pre s h parent true).
    { intros p q i j o H1 H2 H3 H4 H5. split; [|discriminate]. intros K. destruct (W_h _ _ _ _ _ W h _ H1) as (p' & i' & A1 & A2 & A3 & _). injection A1 as <-. rewrite H3 in A2. injection A2 as <-. destruct (W_h _ _ _ _ _ W parent _ H2) as (q' & j' & B1 & B2 & B3 & _). injection B1 as <-. rewrite H4 in B2. injection B2 as <-.
      destruct (PRE (view_of s i) (view_of s j) (oi_name o)) as [E|E]; [rewrite <- A3; exact (look_of C s ch r W p i H3)|rewrite <- B3; exact (look_of C s ch r W q j H4)|unfold v_name; cbn; rewrite H5; reflexivity|exact K|left; exact E|right; split; [reflexivity|exact E]]. }
    pose proof (move_object_ok C r fuel h parent true s ch W MP) as H. destruct (move_object C fuel h parent true s) as [[c s1]| |]; try exact H. destruct H as (ch' & W' & H). split; [eauto|].
    destruct (aget h (s_handles s)) as [[p|]|]; [|destruct H as [_ ->]; exact HR|destruct H as [_ ->]; exact HR]. destruct (aget parent (s_handles s)) as [[q|]|]; [|destruct H as [_ ->]; exact HR|destruct H as [_ ->]; exact HR].
    destruct H as (i & j & o & _ & _ & _ & [(_ & _ & H)|(_ & H & _)]); [rewrite (M_root _ _ _ _ _ _ _ (MD_moved _ _ _ _ _ _ _ _ H)); exact HR|]. destruct (wsame_fields _ _ H) as (_ & E & _). rewrite E. exact HR.
  - apply exec_bind. assert (NR : aget h (s_handles s) <> Some (Some r)).
    { intros E. destruct (W_h _ _ _ _ _ W h _ E) as (p' & i' & A1 & A2 & A3 & _). injection A1 as <-. destruct (W_root _ _ _ _ _ W) as (ri & B1 & _ & _ & B2). rewrite A2 in B1. injection B1 as <-. congruence. }
    pose proof (set_file_name_ok C r fuel h name s ch W NR) as H. destruct (set_file_name C fuel h name s) as [[c s1]| |]; try exact H. destruct H as (ch' & W' & H). split; [eauto|].
    destruct (aget h (s_handles s)) as [[p|]|]; [|destruct H as [_ ->]; exact HR|destruct H as [_ ->]; exact HR].
    destruct H as (i & q & j & _ & _ & _ & [(_ & -> & _)|[(_ & -> & _)|(_ & H)]]); [exact HR|exact HR|]. rewrite (M_root _ _ _ _ _ _ _ (RN_moved _ _ _ _ _ _ _ H)). exact HR.
  - apply exec_bind. pose proof (copy_object_ok C SO r fuel h parent true s ch W HR PRE) as H. destruct (copy_object C fuel h parent true s) as [[[c hc] s1]| |]; try exact H. destruct H as (W' & [(_ & H & _)|(p & i & o & q & j & _ & _ & _ & _ & _ & H & _)]); split; auto.
    + destruct H as (t & -> & _). exact HR.
    + rewrite (K_root _ _ _ _ _ H). exact HR.
  - apply exec_bind. destruct (read_data_ok C h n off s ch r W) as (c & bs & s' & E & T1 & _). rewrite E. split; [exists ch; eapply fsame_wf; [exact W|apply tsame_fsame; exact T1]|]. destruct T1 as (t & -> & _). exact HR.
  - apply exec_bind. destruct (write_data_any C r h data first last s ch W PRE) as (c & s' & E & F). rewrite E. split; [exists ch; eapply fsame_wf; eassumption|]. destruct F as (? & ? & ? & ? & -> & _). exact HR.
  - apply exec_bind. destruct PRE as (v & LK & PRE). destruct (look_inv C s ch r W h v LK) as (p & i & A1 & A2 & A3 & ->).
    destruct (write_partial_ok C r h off bs first last s ch p i W A1 A2 PRE) as (c & s' & E & H & _). rewrite E. split; [exists ch; eapply wf_hsame; eassumption|]. rewrite (H_root _ _ H). exact HR.
  - apply exec_bind. destruct (truncate_item_ok C r h size s ch W) as (c & s' & E & H & _). rewrite E. split; [exists ch; eapply wf_hsame; eassumption|]. rewrite (H_root _ _ H). exact HR.
  - apply exec_bind. destruct (get_object_info_ok C r h s ch W) as (c & s' & E & H & _). rewrite E. split; [exists ch; eapply wf_hsame; eassumption|]. rewrite (H_root _ _ H). exact HR.
  - apply exec_bind. destruct (get_object_handles_ok C SO r fmt assoc s ch W HR) as (c & l & E & _). rewrite E. exact G.
  - apply inotify_event_ok; [exact SO|exact G|]. apply note_event_pre; assumption.
  - unfold upd. split; [|exact HR]. exists ch. eapply wf_same; [exact W|..]; reflexivity.
Qed.
End Steps.

Theorem reachable_good C s : supply_ok C -> reachable C s -> exists r, good C r s.
Proof.
  intros SO R. induction R as [fuel pu w s E NR|s o s' R IH PRE E].
  - pose proof (enumerate_ok C fuel pu w SO) as H. rewrite E in H. destruct H as [(ch & r & W & HR)|(HR & _)]; [|contradiction]. exists r. split; [eauto|exact HR].
  - destruct IH as (r & G). exists r. pose proof (step_ok C SO r o s G PRE) as H. rewrite E in H. exact H.
Qed.
Theorem reachable_step C s o : supply_ok C -> reachable C s -> op_ok C o s -> exec C o s <> UB.
Proof. intros SO R PRE E. destruct (reachable_good C s SO R) as (r & G). pose proof (step_ok C SO r o s G PRE) as H. rewrite E in H. exact H. Qed.
