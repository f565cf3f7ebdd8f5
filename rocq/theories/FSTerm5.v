(** Termination of copying, unless a folder is copied into itself (C89). *)
From Verif Require Import Base AList Wire FS FSPath FSTree FSLogic FSAdd FSAdd2 FSSub FSDel FSEv FSData FSData2 FSList FSFrame FSCopy FSCopy2 FSSpec FSReach FSTerm FSTerm2 FSTerm3 FSFuel FSTerm4.

Lemma halts_S {A} (m : nat -> M A) s : halts (fun f => m (S f)) s -> halts m s. Proof. intros (F & H). exists (S F). exact H. Qed.
Lemma halts_step {A B} (m : M A) (k : nat -> A -> M B) s a s1 : m s = Ret (a, s1) -> halts (fun f => k f a) s1 -> halts (fun f => bind m (k f)) s.
Proof. intros E (F & H). exists F. unfold bind. rewrite E. exact H. Qed.

Section T.
Variables (C : conf) (SO : supply_ok C) (r : ptr).
Notation good := (good C r).

Lemma good_fsame s s' : good s -> fsame s s' -> s_root s' = s_root s -> good s'.
Proof. intros [[ch W] R] F E. split; [exists ch; eapply fsame_wf; eassumption|congruence]. Qed.
Lemma fsame_root s s' : fsame s s' -> s_root s' = s_root s. Proof. intros (? & ? & ? & ? & -> & _). reflexivity. Qed.
Lemma copy_loop_halts src dst : forall k off rem result s, good s -> rem <= N.of_nat k * MAX_READ_LEN -> halts (fun d => copy_loop C k d src dst off rem result) s.
Proof.
  induction k as [|k IH]; intros off rem result s G L; cbn [copy_loop].
  - replace (rem =? 0) with true by lia. apply halts_nab, nab_ret.
  - destruct ((rem =? 0) || negb (isok result)) eqn:E0; [apply halts_nab, nab_ret|]. pose proof G as [[ch W] R].
    destruct (read_data_ok C src (N.min rem MAX_READ_LEN) off s ch r W) as (c & bs & s1 & E1 & T1 & _). apply (halts_step _ _ _ _ _ E1). pose proof (good_fsame _ _ G (tsame_fsame _ _ T1) (fsame_root _ _ (tsame_fsame _ _ T1))) as G1.
    apply (halts_step tick _ s1 (s_tick s1) (set_tick (S (s_tick s1)) s1) eq_refl). set (s2 := set_tick _ s1). assert (G2 : good s2) by (eapply (good_fsame _ _ G1); [apply tsame_fsame, tsame_tick|reflexivity]).
    destruct (c_cancel C (s_tick s1)); [apply halts_ign; apply (delete_item_halts C r); exact G2|]. cbn [fst snd].
    destruct (negb (isok c)) eqn:Ec. { destruct k as [|k]; cbn [copy_loop]; rewrite Ec, orb_true_r; apply halts_nab, nab_ret. }
    pose proof G2 as [[ch2 W2] _]. destruct (write_data_any C r dst (Some bs) (off =? 0) false s2 ch2 W2 ltac:(discriminate)) as (c1 & s3 & E3 & F3). apply (halts_step _ _ _ _ _ E3). pose proof (good_fsame _ _ G2 F3 (fsame_root _ _ F3)) as G3.
    assert (L' : rem - N.min rem MAX_READ_LEN <= N.of_nat k * MAX_READ_LEN) by lia.
    destruct (rem - N.min rem MAX_READ_LEN =? 0).
    + pose proof G3 as [[ch3 W3] _]. destruct (write_data_any C r dst None false true s3 ch3 W3 ltac:(auto)) as (c2 & s4 & E4 & F4). apply (halts_step _ _ _ _ _ E4). apply IH; [exact (good_fsame _ _ G3 F4 (fsame_root _ _ F4))|exact L'].
    + apply (halts_step (ret c1) _ s3 c1 s3 eq_refl). apply IH; [exact G3|exact L'].
Qed.
Lemma copy_data_halts src dst s : good s -> halts (fun d => copy_data C d src dst) s.
Proof.
  intros G. unfold copy_data. apply halts_get. apply halts_get. destruct (negb _ || _); [apply halts_nab, nab_ret|]. pose proof G as [[ch W] R].
  destruct (get_object_info_ok C r src s ch W) as (c & s1 & E & H & _). apply (halts_step _ _ _ _ _ E). destruct (negb _); [apply halts_nab, nab_ret|]. destruct (snd c) as [o|]; [|apply halts_nab, nab_crash].
  apply copy_loop_halts; [split; [exists ch; eapply wf_hsame; eassumption|rewrite (H_root _ _ H); exact R]|]. pose proof (N.div_mod (u32 (oi_size o)) MAX_READ_LEN ltac:(discriminate)). pose proof (N.mod_lt (u32 (oi_size o)) MAX_READ_LEN ltac:(discriminate)). rewrite N2Nat.id. unfold MAX_READ_LEN in *. lia.
Qed.
Lemma mono_copy_data src dst : mono (fun d => copy_data C d src dst).
Proof. intros f f' L. unfold copy_data. mlex. apply copy_loop_mle. exact L. Qed.
Lemma mono_copy h q top : mono (fun f => copy_object C f h q top). Proof. intros f f' L. apply copy_mle. exact L. Qed.

(** the loop over the children *)
Definition cl (hc : N) (f : nat) := fix loop (k : nat) (itr : option ptr) : M N :=
  match itr with
  | None => ret R_OK
  | Some c => match k with
    | O => give_up
    | S k' => ci <- deref c ;; r <- copy_object C f (i_handle ci) hc false ;; if negb (isok (fst r)) then ret (fst r) else ci <- deref c ;; loop k' (i_next ci)
    end
  end.
Lemma cl_mle hc f f' : (f <= f')%nat -> forall k k' itr, (k <= k')%nat -> mle (cl hc f k itr) (cl hc f' k' itr).
Proof.
  intros L. induction k as [|k IHk]; intros k' [c|] K; try (destruct k'; apply mle_refl); [apply mle_give_up|]. destruct k' as [|k']; [lia|]. cbn [cl]. mlex; [apply copy_mle; exact L|]. apply IHk. lia.
Qed.
Lemma cl_shift hc itr s : halts (fun f => cl hc f f itr) s -> halts (fun f => cl hc (S f) f itr) s.
Proof. intros (F & H). exists F. rewrite (cl_mle hc F (S F) ltac:(lia) F F itr ltac:(lia) s H). exact H. Qed.

Lemma join_disjoint A D n n' : plain n -> plain n' -> under A D = false -> under D A = false -> under (join A n) (join D n') = false.
Proof.
  intros Pn Pn' U V. destruct (under (join A n) (join D n')) eqn:E; [|reflexivity]. exfalso. apply under_join_inv in E as [E|E]; [| |apply Pn'].
  - apply join_inj in E as [E _]; [|apply Pn|apply Pn']. rewrite E, under_refl in U. discriminate.
  - rewrite (under_trans A (join A n) D) in U; [discriminate|apply under_join, under_refl|exact E].
Qed.
Lemma kids_keep A D n s s' ch : WF C s ch r None -> FSCopy2.links D None s s' -> under A D = false -> under D A = false ->
  forall x xi, s_heap s x = Some xi -> under A (i_path xi) = true -> tree n (s_heap s) x -> tree n (s_heap s') x.
Proof.
  intros W LK U V x xi Hx Ux T.
  assert (ND : forall y, under A y = true -> under D y = false).
  { intros y Uy. destruct (under D y) eqn:E; [|reflexivity]. exfalso. destruct (under_comparable _ _ _ Uy E) as [B|B]; congruence. }
  set (P := fun y => exists k, s_heap s y = Some k /\ under A (i_path k) = true).
  assert (KP : forall y k, P y -> s_heap s y = Some k -> exists k', s_heap s' y = Some k' /\ i_first k' = i_first k /\ i_next k' = i_next k).
  { intros y k (k0 & Hy & Uy) Hk. rewrite Hk in Hy. injection Hy as <-. destruct (LK y k Hk (ND _ Uy)) as (k' & B1 & _ & B3 & B4). exists k'. split; [exact B1|]. split; [apply B4; discriminate|exact B3]. }
  assert (CP : forall y k l c, P y -> s_heap s y = Some k -> seg (s_heap s) (i_first k) l -> In c l -> P c).
  { intros y k l c (k0 & Hy & Uy) Hk SG Hc. rewrite Hk in Hy. injection Hy as <-. rewrite (seg_det _ _ _ _ SG (T_seg _ _ _ (W_T _ _ _ _ _ W) y k Hk)) in Hc. destruct (wf_child _ _ _ _ _ W y k c Hk Hc) as (ci & Hci & _).
    destruct (child_path C s ch r W y k c ci Hk Hc Hci) as (nm & _ & En). exists ci. split; [exact Hci|]. rewrite En. apply under_join. exact Uy. }
  assert (Px : P x) by (exists xi; auto). destruct (KP x xi Px Hx) as (xi' & Hx' & F1 & _).
  apply (tree_frame P (s_heap s) (s_heap s') CP KP n x xi Hx); [|eauto|exact T]. intros l c SG Hc. exact (CP x xi l c Px Hx SG Hc).
Qed.

Definition goes (n : nat) : Prop := forall s ch h parent top p i o q j, WF C s ch r None -> s_root s = Some r -> h <> 0 ->
  aget h (s_handles s) = Some (Some p) -> s_heap s p = Some i -> i_info i = Some o -> aget parent (s_handles s) = Some (Some q) -> s_heap s q = Some j ->
  tree n (s_heap s) p -> (oi_format o = FMT_Association -> under (i_path i) (join (i_path j) (oi_name o)) = false /\ under (join (i_path j) (oi_name o)) (i_path i) = false) ->
  halts (fun f => copy_object C f h parent top) s.
Lemma cl_halts n A D hc c : goes n -> under A D = false -> under D A = false -> forall l itr s ch ci, WF C s ch r None -> s_root s = Some r ->
  aget hc (s_handles s) = Some (Some c) -> s_heap s c = Some ci -> i_path ci = D -> seg (s_heap s) itr l ->
  (forall x, In x l -> x <> r /\ exists xi xo, s_heap s x = Some xi /\ i_info xi = Some xo /\ plain (oi_name xo) /\ i_path xi = join A (oi_name xo) /\ tree n (s_heap s) x) ->
  halts (fun f => cl hc f f itr) s.
Proof.
  intros GO U V. induction l as [|x l IH]; intros itr s ch ci W HR Hh Hc Ec SG KIDS; cbn [seg] in SG.
  - subst itr. exists O. discriminate.
  - destruct SG as (-> & xi & Hx & SG). destruct (KIDS x (or_introl eq_refl)) as (Nx & xi0 & xo & Hx0 & Ho & Pn & Ep & TX). rewrite Hx in Hx0. injection Hx0 as <-. apply halts_S. cbn [cl].
    eapply halts_step; [unfold deref; rewrite Hx; reflexivity|].
    destruct (W_live _ _ _ _ _ W x xi Hx ltac:(discriminate)) as [Hxh _]. assert (Hx0 : i_handle xi <> 0) by (intros E; apply Nx; eapply (wf_zero _ SO); eassumption).
    pose proof (join_disjoint A D (oi_name xo) (oi_name xo) Pn Pn U V) as U'. pose proof (join_disjoint D A (oi_name xo) (oi_name xo) Pn Pn V U) as V'.
    assert (MC : mono (fun f => copy_object C (S f) (i_handle xi) hc false)) by (intros f f' L; apply copy_mle; lia).
    apply halts_bind; [exact MC| | |].
    + intros a f f' L. mlex. apply cl_mle; lia.
    + pose proof (GO s ch (i_handle xi) hc false x xi xo c ci W HR Hx0 Hxh Hx Ho Hh Hc TX) as HG. destruct HG as (F & HF); [rewrite Ec, Ep; intros _; split; assumption|].
      exists F. intros E. apply HF. rewrite <- E. symmetry. apply (copy_mle C F (S F)); [lia|]. exact HF.
    + intros F [code hn] s1 E. cbn [fst]. pose proof (copy_object_ok C SO r (S F) (i_handle xi) hc false s ch W HR Hx0) as CO. rewrite E in CO. destruct CO as ((ch1 & W1) & CO).
      destruct (negb (isok code)) eqn:Eok; [apply halts_nab, nab_ret|]. assert (code = R_OK) by (apply negb_false_iff in Eok; apply N.eqb_eq in Eok; exact Eok). subst code.
      destruct CO as [[X _]|(p' & i' & o' & q' & j' & H1 & H2 & H3 & H4 & H5 & H6 & _ & H7)]; [contradiction|]. rewrite Hxh in H1. injection H1 as <-. rewrite Hx in H2. injection H2 as <-. rewrite Ho in H3. injection H3 as <-. rewrite Hh in H4. injection H4 as <-. rewrite Hc in H5. injection H5 as <-.
      rewrite Ec in H6, H7. destruct (H7 eq_refl) as (LK & _ & _).
      assert (LD : FSCopy2.links D None s s1). { eapply links_below; [exact LK|apply under_join, under_refl|]. intros x0 i0 [= <-] Hx0'. rewrite Hc in Hx0'. injection Hx0' as <-. rewrite Ec. apply under_refl. }
      assert (NDx : forall y, under A y = true -> under D y = false).
      { intros y Uy. destruct (under D y) eqn:EE; [|reflexivity]. exfalso. destruct (under_comparable _ _ _ Uy EE) as [B|B]; congruence. }
      assert (UX : under A (i_path xi) = true) by (rewrite Ep; apply under_join, under_refl).
      destruct (LD x xi Hx (NDx _ UX)) as (xi1 & Hx1 & _ & Nx1 & _). eapply halts_step; [unfold deref; rewrite Hx1; reflexivity|]. rewrite Nx1.
      destruct (K_keep _ _ _ _ _ H6 c ci Hc (or_introl eq_refl)) as (ci1 & Hc1 & (KH & KP & _)).
      apply cl_shift. eapply (IH _ s1 ch1 ci1 W1).
      * rewrite (K_root _ _ _ _ _ H6). exact HR.
      * destruct (W_live _ _ _ _ _ W1 c ci1 Hc1 ltac:(discriminate)) as [B _]. rewrite KH in B. destruct (W_h _ _ _ _ _ W hc _ Hh) as (c2 & ci2 & B1 & B2 & B3 & _). injection B1 as <-. rewrite Hc in B2. injection B2 as <-. congruence.
      * exact Hc1.
      * congruence.
      * eapply seg_links; [exact LD| |exact SG]. intros y yi Hy Hyi. destruct (KIDS y (or_intror Hy)) as (_ & yi0 & yo & Y1 & _ & _ & Y4 & _). rewrite Hyi in Y1. injection Y1 as <-. apply NDx. rewrite Y4. apply under_join, under_refl.
      * intros y Hy. destruct (KIDS y (or_intror Hy)) as (Y0 & yi & yo & Y1 & Y2 & Y3 & Y4 & Y5). split; [exact Y0|]. assert (UY : under A (i_path yi) = true) by (rewrite Y4; apply under_join, under_refl).
        destruct (K_keep _ _ _ _ _ H6 y yi Y1 (or_introl eq_refl)) as (yi1 & Z1 & (_ & Z2 & _ & _ & Z5)). exists yi1, yo. split; [exact Z1|]. split; [congruence|]. split; [exact Y3|]. split; [congruence|]. exact (kids_keep A D n s s1 ch W LD U V y yi Y1 UY Y5).
Qed.
Lemma clash_of s ch top o parent D : WF C s ch r None -> s_root s = Some r ->
  exists b, (if top && (oi_format o =? FMT_Association) then bind (get_object_handles 0 parent) (fun r0 => if isok (fst r0) then any_path (snd r0) D else ret false) else ret false) s = Ret (b, s).
Proof. intros W HR. destruct (top && _); [eapply (clash_state C SO r); [exact W|exact HR]|exists false; reflexivity]. Qed.
Theorem copy_goes : forall n, goes n.
Proof.
  induction n as [|n IH]; intros s ch h parent top p i o q j W HR Hh0 Hh Hp Ho Hpar Hq TR DJ; [contradiction|]. apply halts_S. cbn [copy_object].
  set (D := join (i_path j) (oi_name o)) in *.
  destruct (W_h _ _ _ _ _ W h _ Hh) as (p0 & i0 & B1 & B2 & Eph & _). injection B1 as <-. rewrite Hp in B2. injection B2 as <-. destruct (W_h _ _ _ _ _ W parent _ Hpar) as (q0 & j0 & B1 & B2 & Eqh & _). injection B1 as <-. rewrite Hq in B2. injection B2 as <-.
  assert (Npr : p <> r). { intros ->. destruct (W_root _ _ _ _ _ W) as (ri & A & _ & _ & B). rewrite Hp in A. injection A as <-. congruence. }
  destruct (wf_parent _ _ _ _ _ W p i Hp Npr) as (pp & pj & o' & P1 & P2 & P3 & P4 & P5 & P6 & P7). rewrite Ho in P4. injection P4 as <-.
  apply halts_get. cbv beta. unfold ahas at 1. rewrite Hh. cbn [negb]. apply halts_get. cbv beta. unfold ahas at 1. rewrite Hpar. cbn [negb].
  eapply halts_step; [unfold handle_ref; rewrite Hh; reflexivity|]. eapply halts_step; [unfold deref; rewrite Hp; reflexivity|]. rewrite Ho.
  apply (halts_step tick _ s (s_tick s) (set_tick (S (s_tick s)) s) eq_refl). set (s1 := set_tick _ s). pose proof (fsame_wf _ _ _ _ _ _ W (tsame_fsame _ _ (tsame_tick s))) as W1. fold s1 in W1.
  destruct (c_free C (s_tick s)) as [free|]; [|apply halts_nab, nab_ret]. destruct (free <? oi_size o); [apply halts_nab, nab_ret|].
  apply halts_get. cbv beta. change (s_handles s1) with (s_handles s). rewrite Hpar. eapply halts_step; [unfold deref; change (s_heap s1) with (s_heap s); rewrite Hq; reflexivity|]. cbv zeta. fold D.
  destruct (clash_of s1 ch top o parent D W1 HR) as (clash & CL). apply (halts_step _ _ _ _ _ CL). destruct clash; [apply halts_nab, nab_ret|].
  destruct (remove_watch_ok C s1 ch r None q j W1 Hq) as (s2 & E2 & W2 & X2 & Y2 & _). apply (halts_step _ _ _ _ _ E2). destruct (wsame_fields _ _ X2) as (_ & R2 & HH2 & _).
  set (info := oi_set_storage (c_sid C) (oi_set_parent parent o)).
  assert (Np : parent <> ALL) by (intros E; apply (wf_notall _ SO _ _ _ _ W q j Hq); congruence). assert (Epi : oi_parent info = parent) by reflexivity.
  assert (Hq2 : s_heap s2 q = Some j) by (rewrite Y2; exact Hq).
  set (KK := fun (f : nat) (r0 : N * option (N * N)) => let copy := match snd r0 with Some (c, _) => c | None => 0 end in
            if negb (isok (fst r0)) then add_watch C q ;;; ret (fst r0, copy) else
            if oi_format o =? FMT_Association then i <- deref p ;; res <- cl copy f f (i_first i) ;; if negb (isok res) then ret (res, copy) else add_watch C q ;;; ret (R_OK, copy)
            else r1 <- copy_data C f h copy ;; if negb (isok r1) then ret (r1, copy) else add_watch C q ;;; ret (R_OK, copy)).
  apply (halts_bind (fun f => add_item C f info) KK); [intros f f' L; apply add_item_mle; exact L| |apply add_item_halts|].
  { intros a f f' L. unfold KK. cbv zeta. mlex; [apply cl_mle; exact L|apply mono_copy_data; exact L]. }
  intros F [rc om] s3 EA. unfold KK. cbv zeta. cbn [fst snd]. pose proof (add_item_ok C SO r F info s2 ch W2 P5) as AI. rewrite EA in AI. destruct AI as (ch3 & W3 & X3 & R3 & LN3). cbn [fst snd] in *.
  destruct (negb (isok rc)) eqn:Erc. { apply halts_nab. nabx. apply nab_add_watch. }
  apply negb_false_iff, N.eqb_eq in Erc. destruct om as [[hc ph]|]; [|contradiction]. destruct R3 as (_ & c & ci & q3 & j3 & M1 & M2 & M3 & M4 & M5 & M6 & M7 & M8 & M9).
  assert (HR3 : s_root s3 = Some r) by (rewrite (E_root _ _ X3), R2; exact HR).
  assert (L3 : FSCopy2.links D (Some q) s s3).
  { apply FSCopy2.links_trans with (b := s2); [apply FSCopy2.links_trans with (b := s1); [intros x k Hx _; exists k; auto|apply links_wsame; exact X2]|]. apply links_lnk; [exact X3|]. eapply LN3; [exact Hq2|]. rewrite Epi, (proj2 (N.eqb_neq _ _) Np). exact Eqh. }
  destruct (oi_format o =? FMT_Association) eqn:Efmt.
  2:{ apply halts_bind; [apply mono_copy_data|intros a; apply mono_const| |intros F2 a s4 _; apply halts_nab; nabx; apply nab_add_watch]. apply copy_data_halts. split; [eauto|exact HR3]. }
  destruct (DJ ltac:(lia)) as [U V].
  rewrite Epi, (proj2 (N.eqb_neq _ _) Np) in M7. destruct (E_heap _ _ X3 q j Hq2) as (j3' & HQ & LK). apply lk_fields in LK as (LK1 & LK2 & _).
  assert (q3 = q) as -> by (eapply (wf_uniq _ _ _ _ _ W3); [exact M5|exact HQ|discriminate|discriminate|congruence]). rewrite HQ in M5. injection M5 as <-. rewrite LK2 in M8. change (i_path ci = D) in M8.
  assert (ND : forall y, under (i_path i) y = true -> under D y = false).
  { intros y Uy. destruct (under D y) eqn:EE; [|reflexivity]. exfalso. destruct (under_comparable _ _ _ Uy EE) as [B|B]; congruence. }
  assert (NQ : under (i_path i) (i_path j) = false). { destruct (under (i_path i) (i_path j)) eqn:EE; [|reflexivity]. exfalso. unfold D in U. rewrite under_join in U by exact EE. discriminate. }
  assert (Nqp : q <> p) by (intros ->; rewrite Hp in Hq; injection Hq as <-; rewrite under_refl in NQ; discriminate).
  (* the children in the new state *)
  destruct TR as (i' & l & T1 & T2 & T3 & T4). rewrite Hp in T1. injection T1 as <-.
  destruct (L3 p i Hp (ND _ (under_refl _))) as (i3 & HP3 & EP3 & _ & FP3). specialize (FP3 ltac:(intros [= E]; contradiction)).
  eapply halts_step; [unfold deref; rewrite HP3; reflexivity|]. rewrite FP3.
  set (P := fun x => exists k, s_heap s x = Some k /\ under (i_path i) (i_path k) = true).
  assert (NPq : forall y k, s_heap s y = Some k -> under (i_path i) (i_path k) = true -> Some q <> Some y) by (intros y k Hy Uy [= <-]; rewrite Hq in Hy; injection Hy as <-; congruence).
  assert (KP : forall y k, P y -> s_heap s y = Some k -> exists k', s_heap s3 y = Some k' /\ i_first k' = i_first k /\ i_next k' = i_next k).
  { intros y k (k0 & Hy & Uy) Hk. rewrite Hk in Hy. injection Hy as <-. destruct (L3 y k Hk (ND _ Uy)) as (k' & D1 & _ & D3 & D4). exists k'. split; [exact D1|]. split; [apply D4; exact (NPq y k Hk Uy)|exact D3]. }
  assert (CP : forall y k l c, P y -> s_heap s y = Some k -> seg (s_heap s) (i_first k) l -> In c l -> P c).
  { intros y k l0 c0 (k0 & Hy & Uy) Hk SG Hc. rewrite Hk in Hy. injection Hy as <-. rewrite (seg_det _ _ _ _ SG (T_seg _ _ _ (W_T _ _ _ _ _ W) y k Hk)) in Hc. destruct (wf_child _ _ _ _ _ W y k c0 Hk Hc) as (ci0 & Hci & _).
    destruct (child_path C s ch r W y k c0 ci0 Hk Hc Hci) as (nm & _ & En). exists ci0. split; [exact Hci|]. rewrite En. apply under_join. exact Uy. }
  assert (Pp : P p) by (exists i; split; [exact Hp|apply under_refl]).
  assert (SG3 : seg (s_heap s3) (i_first i) l). { eapply seg_frame; [|exact T2]. intros y k Hy Hk. destruct (KP y k (CP p i l y Pp Hp T2 Hy) Hk) as (k' & D1 & _ & D3). eauto. }
  apply halts_bind; [intros f f' L; apply cl_mle; exact L|intros a; apply mono_const| |intros F2 a s4 _; apply halts_nab; nabx; apply nab_add_watch].
  eapply (cl_halts n (i_path i) D hc c IH U V l (i_first i) s3 ch3 ci W3 HR3 M1 M2 M8 SG3).
  intros x Hx. assert (Px : P x) by (exact (CP p i l x Pp Hp T2 Hx)).
  assert (Hin : In x (ch3 p)). { rewrite <- FP3 in SG3. rewrite (seg_det _ _ _ _ SG3 (T_seg _ _ _ (W_T _ _ _ _ _ W3) p i3 HP3)) in Hx. exact Hx. }
  destruct (wf_child _ _ _ _ _ W3 p i3 x HP3 Hin) as (xi & X1 & X2' & X4). split; [exact X4|].
  destruct (wf_parent _ _ _ _ _ W3 x xi X1 X4) as (y & yi & xo & Y1 & Y2' & Y3 & Y4 & Y5 & Y6 & _). rewrite X2' in Y1. injection Y1 as <-. rewrite HP3 in Y2'. injection Y2' as <-.
  exists xi, xo. split; [exact X1|]. split; [exact Y4|]. split; [exact Y5|]. split; [congruence|].
  rewrite Forall_forall in T4. pose proof (T4 x Hx) as TX. pose proof Px as (k & Hk & _). destruct (KP x k Px Hk) as (k' & D1 & D2 & D3).
  apply (tree_frame P (s_heap s) (s_heap s3) CP KP n x k Hk); [|eauto|exact TX]. intros l0 c0 SG Hc. exact (CP x k l0 c0 Px Hk SG Hc).
Qed.
End T.
