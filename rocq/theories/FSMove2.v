From Verif Require Import Base AList Wire FS FSPath FSTree FSLogic FSAdd FSAdd2 FSDel FSSub FSMove.

Lemma rename_cases C a b s : exists ok s', sys_rename C a b s = Ret (ok, s') /\
  ((ok = false /\ s' = set_tick (S (s_tick s)) s) \/
   (ok = true /\ exists_at a (s_nodes s) = true /\ ((a = b /\ s' = set_tick (S (s_tick s)) s) \/
      (a <> b /\ under a b = false /\ exists_at b (s_nodes s) = false /\ is_dir (parent_of b) (s_nodes s) = true /\ base_of b <> [] /\ s' = set_nodes (rename_nodes a b (s_nodes s)) (set_tick (S (s_tick s)) s))))).
Proof.
  unfold sys_rename. unfold bind at 1. unfold fails, bind at 1, tick at 1. unfold ret at 1. unfold bind at 1. unfold get at 1. cbn [s_nodes set_tick].
  destruct (c_fail C (s_tick s) || negb (exists_at a (s_nodes s))) eqn:E1; [exists false; eexists; split; [reflexivity|]; left; auto|].
  apply orb_false_iff in E1 as [_ E1]. apply negb_false_iff in E1.
  destruct (peqb a b) eqn:E2.
  { apply peqb_eq in E2. exists true. eexists. split; [reflexivity|]. right. auto. }
  destruct (peqb (base_of b) [] || exists_at b (s_nodes s) || is_prefix (a ++ [slash]) b || negb (is_dir (parent_of b) (s_nodes s))) eqn:E3; [exists false; eexists; split; [reflexivity|]; left; auto|].
  apply orb_false_iff in E3 as [E3 E7]. apply orb_false_iff in E3 as [E3 E5]. apply orb_false_iff in E3 as [E3 E4]. apply negb_false_iff in E7.
  exists true. eexists. split; [reflexivity|]. right. split; [reflexivity|]. split; [exact E1|]. right. split; [apply peqb_neq; exact E2|]. split; [|apply peqb_neq in E3; auto 10].
  unfold under. rewrite peqb_sym, E2, E5. reflexivity.
Qed.
Definition disk_moved (a b : path) (w w' : nodes) : Prop := w' = if peqb a b then w else rename_nodes a b w.

Lemma wsame_tick s : wsame s (set_tick (S (s_tick s)) s).
Proof. exists (s_heap s), (s_wds s), (S (s_tick s)). split; [destruct s; reflexivity|]. split; [apply hwd_refl|lia]. Qed.

Section MoveOp.
Variables (C : conf) (SO : supply_ok C) (r : ptr).

(** one walk removing watches and one adding them, over the same items *)
Lemma rewatch_ok s ch : WF C s ch r None -> forall fuel p i, s_heap s p = Some i ->
  match watch_rec fuel remove_watch p s with
  | Ret (_, s1) => exists L, tr (assocb (s_heap s)) ch p L /\ wsame s s1 /\ s_heap s1 = s_heap s /\ WF C s1 ch r None /\
       (forall x k, In x L -> s_heap s x = Some k -> ~ has_entry s1 (i_handle k)) /\ (forall m h, s_wds s1 m = Some h -> s_wds s m = Some h)
  | UB => False | Abort => True end.
Proof.
  intros W fuel p i Hp. pose proof (watch_rec_exec remove_watch ch (assocb (s_heap s)) watchful_remove fuel p s i (T_shape _ _ _ (W_T _ _ _ _ _ W)) Hp ltac:(auto)) as X.
  destruct (watch_rec fuel remove_watch p s) as [[[] s1]| |]; try exact X. destruct X as (L & T1 & R1 & _). exists L. split; [exact T1|].
  destruct (proj1 (tr_facts C s ch r W (assocb (s_heap s))) p L T1 i Hp) as [MEM ND].
  destruct (runs_remove L s s1 R1) as (WS & EH & D & X); [intros x Hx; destruct (MEM x Hx) as (? & k & _ & A & _); eauto|].
  destruct (X (W_wd _ _ _ _ _ W) (wf_HU _ _ _ _ W)) as [WD1 NE]. split; [exact WS|]. split; [exact EH|]. split; [eapply wf_wsame; [exact W|exact WS|exact WD1]|]. auto.
Qed.
Lemma addwatch_ok s ch : WF C s ch r None -> forall fuel p i L, s_heap s p = Some i -> tr (assocb (s_heap s)) ch p L ->
  (forall x k, In x L -> s_heap s x = Some k -> ~ has_entry s (i_handle k)) ->
  match watch_rec fuel (add_watch C) p s with
  | Ret (_, s1) => wsame s s1 /\ WF C s1 ch r None
  | UB => False | Abort => True end.
Proof.
  intros W fuel p i L Hp HL NE. pose proof (watch_rec_exec (add_watch C) ch (assocb (s_heap s)) (watchful_add C) fuel p s i (T_shape _ _ _ (W_T _ _ _ _ _ W)) Hp ltac:(auto)) as X.
  destruct (watch_rec fuel (add_watch C) p s) as [[[] s1]| |]; try exact X. destruct X as (L' & T1 & R1 & _). assert (L' = L) by (eapply (proj1 (tr_det _ _)); eassumption). subst L'.
  destruct (proj1 (tr_facts C s ch r W (assocb (s_heap s))) p L T1 i Hp) as [MEM ND].
  destruct (runs_add C L s s1 R1 ND) as (WS & WD1 & _).
  - intros x Hx. destruct (MEM x Hx) as (? & k & _ & A & _). exists k. split; [exact A|]. eapply NE; eassumption.
  - exact (W_wd _ _ _ _ _ W).
  - eapply wf_HU; exact W.
  - split; [exact WS|]. eapply wf_wsame; [exact W|exact WS|exact WD1].
Qed.

Definition move_pre (s : fs) (h par : N) (phys : bool) : Prop :=
  forall p q i j o, aget h (s_handles s) = Some (Some p) -> aget par (s_handles s) = Some (Some q) -> s_heap s p = Some i -> s_heap s q = Some j -> i_info i = Some o ->
    (s_paths s (join (i_path j) (oi_name o)) <> None -> join (i_path j) (oi_name o) = i_path i \/ (phys = true /\ exists_at (join (i_path j) (oi_name o)) (s_nodes s) = true)) /\
    (phys = false -> under (i_path i) (i_path j) = false).
(** nothing but watches changed *)
Definition move_failed (s : fs) (s' : fs) : Prop := wsame s s'.
Record move_done (s : fs) (p q : ptr) (i j : item) (o : objinfo) (phys : bool) (s' : fs) : Prop := {
  MD_moved : moved s p q (i_path i) (join (i_path j) (oi_name o)) (oi_name o) s';
  MD_disk : if phys then exists_at (i_path i) (s_nodes s) = true /\ disk_moved (i_path i) (join (i_path j) (oi_name o)) (s_nodes s) (s_nodes s') else s_nodes s' = s_nodes s;
  MD_puoids : s_puoids s' = s_puoids s;
  MD_clean : under (i_path i) (i_path j) = false;
  MD_events : s_events s' = s_events s;
  MD_assoc : forall x k k', s_heap s x = Some k -> s_heap s' x = Some k' -> is_assoc k' = is_assoc k;
  MD_fmt : oi_format o = FMT_Association -> s_paths s (join (i_path j) (oi_name o)) = None }.

Theorem move_object_ok fuel h par phys s ch : WF C s ch r None -> move_pre s h par phys ->
  match move_object C fuel h par phys s with
  | Ret (code, s') => exists ch', WF C s' ch' r None /\
      match aget h (s_handles s), aget par (s_handles s) with
      | Some (Some p), Some (Some q) => exists i j o, s_heap s p = Some i /\ s_heap s q = Some j /\ i_info i = Some o /\
          ((code = R_OK /\ p <> r /\ move_done s p q i j o phys s') \/ (code = R_InvalidParentObject /\ move_failed s s' /\ (phys = true \/ s_paths s (join (i_path j) (oi_name o)) <> None)))
      | Some _, _ => code = R_InvalidParentObject /\ s' = s
      | None, _ => code = R_InvalidObjectHandle /\ s' = s
      end
  | UB => False | Abort => True end.
Proof.
  intros W PRE. unfold move_object. unfold bind at 1. unfold has_handle, get at 1. unfold ahas at 1.
  destruct (aget h (s_handles s)) as [v|] eqn:Eh; cbn [negb]; [|exists ch; auto].
  destruct (W_h _ _ _ _ _ W h v Eh) as (p & i & -> & Hp & Hih & _).
  unfold bind at 1. unfold get at 1. unfold ahas at 1.
  destruct (aget par (s_handles s)) as [v|] eqn:Epar; cbn [negb]; [|exists ch; auto].
  destruct (W_h _ _ _ _ _ W par v Epar) as (q & j & -> & Hq & Hjh & _).
  unfold bind at 1. unfold handle_ref at 1. rewrite Eh. unfold bind at 1. unfold handle_ref at 1. rewrite Epar.
  unfold bind at 1. unfold deref at 1. rewrite Hq. unfold bind at 1. unfold deref at 1. rewrite Hp.
  destruct (W_info _ _ _ _ _ W p i Hp) as (o & O1 & O2). unfold bind at 1. unfold info_of at 1. rewrite O1. unfold ret at 1.
  destruct (PRE p q i j o Eh Epar Hp Hq O1) as [PRE1 PRE2]. clear PRE. set (dst := join (i_path j) (oi_name o)) in *.
  unfold bind at 1. unfold get at 1.
  assert (DOWN : forall (code : N) s' ch', WF C s' ch' r None -> ((code = R_OK /\ p <> r /\ move_done s p q i j o phys s') \/ (code = R_InvalidParentObject /\ move_failed s s' /\ (phys = true \/ s_paths s (join (i_path j) (oi_name o)) <> None))) ->
     exists ch0, WF C s' ch0 r None /\ exists i0 j0 o0, Some i = Some i0 /\ Some j = Some j0 /\ i_info i0 = Some o0 /\
       ((code = R_OK /\ p <> r /\ move_done s p q i0 j0 o0 phys s') \/ (code = R_InvalidParentObject /\ move_failed s s' /\ (phys = true \/ s_paths s (join (i_path j0) (oi_name o0)) <> None)))).
  { intros code s' ch' W' D. exists ch'. split; [exact W'|]. exists i, j, o. auto. }
  destruct ((oi_format o =? FMT_Association) && match s_paths s dst with Some _ => true | None => false end) eqn:Eref.
  { apply (DOWN _ _ ch W). right. split; [reflexivity|]. split; [apply wsame_refl|]. right. fold dst. destruct (s_paths s dst); [discriminate|]. rewrite andb_false_r in Eref. discriminate. }
  assert (FMT : oi_format o = FMT_Association -> s_paths s dst = None).
  { intros E. rewrite E, N.eqb_refl in Eref. destruct (s_paths s dst); [discriminate|reflexivity]. }
  unfold bind at 1. pose proof (rewatch_ok s ch W fuel p i Hp) as X1. destruct (watch_rec fuel remove_watch p s) as [[[] s1]| |]; try exact X1.
  destruct X1 as (L & T1 & WS1 & EH1 & W1 & NE1 & D1).
  assert (Hp1 : s_heap s1 p = Some i) by (rewrite EH1; exact Hp).
  assert (EREN : exists ok s2, (if phys then sys_rename C (i_path i) dst else ret true) s1 = Ret (ok, s2) /\
     ((ok = false /\ s2 = set_tick (S (s_tick s1)) s1) \/
      (ok = true /\ nsame s1 s2 /\ (if phys then exists_at (i_path i) (s_nodes s) = true /\ disk_moved (i_path i) dst (s_nodes s) (s_nodes s2) else s_nodes s2 = s_nodes s) /\
        (phys = true -> dst = i_path i \/ (under (i_path i) dst = false /\ exists_at dst (s_nodes s) = false))))).
  { assert (EN : s_nodes s1 = s_nodes s) by (destruct (wsame_fields _ _ WS1) as (_ & _ & _ & _ & A & _); exact A).
    destruct phys; [|exists true, s1; split; [reflexivity|]; right; split; [reflexivity|]; split; [apply nsame_refl|]; split; [exact EN|discriminate]].
    destruct (rename_cases C (i_path i) dst s1) as (ok & s2 & E & [[A B]|(A & A2 & [[B1 B2]|(B1 & B2 & B3 & B4 & _ & B5)])]); exists ok, s2; (split; [exact E|]); [left; auto|right..]; (split; [exact A|]).
    - rewrite B2. split; [apply nsame_tick|]. split; [|auto]. split; [rewrite <- EN; exact A2|]. unfold disk_moved. rewrite <- B1, peqb_refl. cbn. exact EN.
    - rewrite B5. split; [eapply nsame_trans; [apply nsame_tick|apply nsame_set]|]. split; [|intros _; right; split; [exact B2|rewrite <- EN; exact B3]]. split; [rewrite <- EN; exact A2|].
      unfold disk_moved. apply peqb_neq in B1. rewrite B1. cbn. rewrite EN. reflexivity. }
  destruct EREN as (ok & s2 & EREN & CASES). unfold bind at 1. rewrite EREN. destruct ok; cbn [negb].
  2:{ destruct CASES as [[_ E2]|[A _]]; [|discriminate]. unfold bind at 1.
      assert (WS2 : wsame s1 s2) by (rewrite E2; apply wsame_tick).
      assert (W2 : WF C s2 ch r None) by (rewrite E2; eapply wf_same; [exact W1|..]; cbn; auto).
      assert (EH2 : s_heap s2 = s_heap s) by (rewrite E2; exact EH1).
      pose proof (addwatch_ok s2 ch W2 fuel p i L ltac:(rewrite EH2; exact Hp) ltac:(rewrite EH2; exact T1)) as X2.
      destruct (watch_rec fuel (add_watch C) p s2) as [[[] s3]| |].
      - destruct X2 as [WS3 W3]; [intros x k Hx Hk (m & Hm); rewrite EH2 in Hk; apply (NE1 x k Hx Hk); exists m; rewrite E2 in Hm; exact Hm|].
        apply (DOWN _ _ ch W3). right. split; [reflexivity|]. split; [eapply wsame_trans; [exact WS1|]; eapply wsame_trans; eassumption|]. left. destruct phys; [reflexivity|]. unfold ret in EREN. discriminate.
      - apply X2. intros x k Hx Hk (m & Hm). rewrite EH2 in Hk. apply (NE1 x k Hx Hk). exists m. rewrite E2 in Hm. exact Hm.
      - exact I. }
  destruct CASES as [[A _]|(_ & NS2 & DISK & REN)]; [discriminate|].
  (* the target is not below the moved object *)
  assert (NU : under (i_path i) (i_path j) = false).
  { destruct phys; [|auto]. destruct (under (i_path i) (i_path j)) eqn:U; [|reflexivity]. exfalso. destruct (REN eq_refl) as [E|[E _]].
    - apply under_len in U. assert (len dst = len (i_path i)) by congruence. unfold dst in H. rewrite len_join in H. lia.
    - assert (V : under (i_path i) dst = true) by (apply under_join; exact U). congruence. }
  assert (Nr : p <> r).
  { intros ->. destruct (W_root _ _ _ _ _ W) as (ri & A1 & _ & A3 & _). rewrite Hp in A1. injection A1 as <-. rewrite A3 in NU. rewrite (wf_under_root _ _ _ _ _ W q j Hq) in NU. discriminate. }
  destruct (wf_parent _ _ _ _ _ W p i Hp Nr) as (pp & pj & o' & A1 & A2 & A3 & A4 & A5 & A6 & A7). rewrite O1 in A4. injection A4 as <-.
  assert (FR : dst = i_path i \/ s_paths s dst = None).
  { destruct (s_paths s dst) as [x|] eqn:Ep; [|auto]. left. destruct (PRE1 ltac:(congruence)) as [E|[E1 E2]]; [exact E|]. destruct (REN E1) as [E|[_ E]]; [exact E|congruence]. }
  destruct (nsame_fields _ _ NS2) as (G1 & G2 & G3 & G4 & G5 & G6 & G8 & _ & G9 & _ & _ & _ & G7).
  destruct (wsame_fields _ _ WS1) as (K1 & K2 & K3 & K4 & K5 & K6 & K7 & K8 & K9 & K10 & K11 & K12).
  assert (Hh : i_handle i = h) by exact Hih.
  unfold bind at 1. unfold upd at 1. unfold bind at 1. unfold upd at 1. cbn [s_paths set_paths].
  match goal with |- context [bind (unlink_child p) _ ?st] => set (s3 := st) end.
  assert (EH3 : s_heap s3 = s_heap s) by (unfold s3; cbn; rewrite G1; exact EH1).
  assert (EF3 : s_fresh s3 = s_fresh s) by (unfold s3; cbn; rewrite G2; exact K1).
  destruct (unlink_exec ch (eq r) p s3 i) as (H4 & par' & l1 & l2 & EX4 & Epp & Ech & HL4 & Hp4 & FRM & T4).
  { rewrite EH3. apply (W_T _ _ _ _ _ W). } { rewrite EH3, EF3. apply (W_bd _ _ _ _ _ W). } { rewrite EH3. exact Hp. } { congruence. } { eapply wf_noself; eassumption. }
  rewrite A1 in Epp. injection Epp as <-.
  unfold bind at 1. rewrite EX4. set (s4 := set_heap H4 s3). unfold bind at 1. unfold deref at 1. cbn [s4 s_heap set_heap]. rewrite Hp4. cbn [i_first it_next].
  (* what lies below p is untouched *)
  assert (INT : forall y k, s_heap s y = Some k -> under (i_path i) (i_path k) = true -> y <> p -> H4 y = Some k).
  { intros y k Hy U Ny. rewrite FRM; [rewrite EH3; exact Hy| |].
    - intros ->. rewrite A2 in Hy. injection Hy as <-. apply under_len in U. rewrite A6, len_join in U. lia.
    - intros Hin. destruct (child_path C s ch r W pp pj y k A2 Hin Hy) as (n & Pn & En). rewrite En in U. apply under_join_inv in U as [U|U]; [|apply under_len in U; rewrite A6, len_join in U; lia|apply Pn].
      apply Ny. eapply (wf_path_uniq _ _ _ _ _ W); [exact Hy|exact Hp|discriminate|discriminate|congruence]. }
  assert (INTC : forall c, In c (ch p) -> intact s s4 c).
  { intros c Hc y ci k Hci Hy U. destruct (child_path C s ch r W p i c ci Hp Hc Hci) as (n & _ & En). exists (i_wd k). rewrite it_wd_same. unfold s4. cbn [s_heap set_heap]. apply INT; [exact Hy| |].
    - eapply under_trans; [|exact U]. rewrite En. apply under_join, under_refl.
    - intros ->. rewrite Hp in Hy. injection Hy as <-. apply under_len in U. rewrite En, len_join in U. lia. }
  pose proof (adjust_children_exec C s ch r W (i_path i) dst fuel fuel p i s4 Hp (under_refl _) INTC) as X5. rewrite repath_self in X5.
  unfold bind at 1. destruct (adjust_children fuel fuel dst (i_first i) s4) as [[[] s5]| |]; try exact X5. destruct X5 as (Lc & T5 & E5).
  assert (TP : tr (fun _ => true) ch p (p :: Lc)) by (constructor; [reflexivity|exact T5]).
  destruct (proj1 (tr_facts C s ch r W (fun _ => true)) p (p :: Lc) TP i Hp) as [MEM NDp]. pose proof NDp as ND'. apply NoDup_cons_iff in ND' as [NpL ND].
  assert (MEMU : forall x k, In x Lc -> s_heap s x = Some k -> under (i_path i) (i_path k) = true /\ x <> p /\ H4 x = Some k).
  { intros x k Hx Hk. destruct (MEM x (or_intror Hx)) as (i1 & k1 & B1 & B2 & B3). rewrite Hk in B2. injection B2 as <-. rewrite Hp in B1. injection B1 as <-.
    assert (x <> p) by (intros ->; contradiction). split; [exact B3|]. split; [assumption|]. apply INT; assumption. }
  assert (LIVEc : forall x, In x Lc -> exists k, s_heap s x = Some k). { intros x Hx. destruct (MEM x (or_intror Hx)) as (? & k & _ & B & _). eauto. }
  (* the heap after the walk *)
  assert (H5in : forall x k, In x Lc -> s_heap s x = Some k -> s_heap s5 x = Some (it_path (repath (i_path i) dst (i_path k)) k)).
  { intros x k Hx Hk. rewrite E5. apply vis_in; [exact ND|exact Hx|]. unfold s4. cbn. apply MEMU; assumption. }
  assert (H5out : forall x, ~ In x Lc -> s_heap s5 x = H4 x) by (intros x Hx; rewrite E5, vis_out by exact Hx; reflexivity).
  assert (Hp5 : s_heap s5 p = Some (it_next None i)) by (rewrite H5out by exact NpL; exact Hp4).
  assert (NqL : ~ In q Lc).
  { intros Hin. destruct (MEMU q j Hin Hq) as [U _]. congruence. }
  assert (Npq : p <> q) by (intros ->; rewrite Hp in Hq; injection Hq as <-; rewrite under_refl in NU; discriminate).
  destruct (hlk_fwd _ _ q j HL4 ltac:(rewrite EH3; exact Hq)) as (j4 & Hq4 & LKq).
  assert (Hq5 : s_heap s5 q = Some j4) by (rewrite H5out by exact NqL; exact Hq4).
  destruct (link_exec p q s5 (it_next None i) j4 Hp5 Hq5 Npq eq_refl) as (H6 & EX6 & E6). unfold bind at 1. rewrite EX6.
  assert (Hp6 : H6 p = Some (it_next (i_first j4) (it_parent (Some q) (it_next None i)))) by (rewrite E6; unfold linked; apply nupd_eq).
  unfold bind at 1. unfold modify at 1. cbn [s_heap set_heap]. rewrite Hp6. unfold bind at 1. unfold modify at 1. cbn [s_heap set_heap]. rewrite nupd_eq.
  cbn [i_info it_path it_next it_parent]. rewrite O1.
  match goal with |- context [bind (watch_rec fuel (add_watch C) p) _ ?st] => set (s7 := st) end.
  assert (Hp7 : s_heap s7 p = Some (it_info (Some (oi_set_parent par o)) (it_path dst (it_next (i_first j4) (it_parent (Some q) (it_next None i)))))) by (unfold s7; cbn; apply nupd_eq).
  assert (H7o : forall x, x <> p -> s_heap s7 x = H6 x) by (intros x Nx; unfold s7; cbn; rewrite !nupd_neq by exact Nx; reflexivity).
  assert (H7q : s_heap s7 q = Some (it_first (Some p) j4)).
  { rewrite H7o by congruence. rewrite E6. unfold linked. rewrite nupd_neq by congruence. apply nupd_eq. }
  assert (H7oo : forall x, x <> p -> x <> q -> s_heap s7 x = s_heap s5 x).
  { intros x N1 N2. rewrite H7o by exact N1. rewrite E6. unfold linked. rewrite !nupd_neq by assumption. reflexivity. }
  (* the item at x in the final heap *)
  assert (ITEM : forall x k, s_heap s x = Some k -> exists k', s_heap s7 x = Some k' /\ i_handle k' = i_handle k /\ i_puoid k' = i_puoid k /\ i_wd k' = i_wd k /\ is_assoc k' = is_assoc k /\ i_path k' = newpath (i_path i) dst (i_path k) /\ (x <> p -> i_parent k' = i_parent k /\ i_info k' = i_info k)).
  { intros x k Hx. destruct (N.eq_dec x p) as [->|Nx].
    - rewrite Hp in Hx. injection Hx as <-. eexists. split; [exact Hp7|]. cbn. unfold newpath. rewrite under_refl, repath_self. unfold is_assoc. cbn. rewrite O1. cbn. repeat split; auto; try contradiction.
    - destruct (in_dec N.eq_dec x Lc) as [Hin|Hin].
      + destruct (MEMU x k Hin Hx) as (U & _ & _). assert (Nxq : x <> q) by congruence. rewrite (H7oo x Nx Nxq), (H5in x k Hin Hx). eexists. split; [reflexivity|]. cbn. unfold newpath. rewrite U. auto 10.
      + assert (U : under (i_path i) (i_path k) = false).
        { destruct (under (i_path i) (i_path k)) eqn:U; [|reflexivity]. exfalso. destruct (tr_complete C s ch r W p i (p :: Lc) TP Hp x k Hx U) as [<-|X]; contradiction. }
        destruct (hlk_fwd _ _ x k HL4 ltac:(rewrite EH3; exact Hx)) as (k4 & Hx4 & LK). pose proof (lk_fields _ _ LK) as (F1 & F2 & F3 & F4 & F5 & F6 & F7).
        unfold newpath. rewrite U. destruct (N.eq_dec x q) as [->|Nxq].
        * rewrite H7q. rewrite Hq4 in Hx4. injection Hx4 as <-. eexists. split; [reflexivity|]. cbn. unfold is_assoc. cbn. rewrite F4. auto 10.
        * rewrite (H7oo x Nx Nxq), (H5out x Hin). eexists. split; [exact Hx4|]. unfold is_assoc. rewrite F4. auto 10. }
  assert (NONE : forall x, s_heap s x = None -> s_heap s7 x = None).
  { intros x Hx. assert (x <> p) by congruence. assert (x <> q) by congruence. rewrite H7oo by assumption. rewrite H5out by (intros Hin; destruct (LIVEc x Hin); congruence).
    specialize (HL4 x). rewrite EH3, Hx in HL4. destruct (H4 x); [contradiction|reflexivity]. }
  destruct (vis_same (i_path i) dst Lc s4) as (HV & FV & EV).
  assert (FIELDS : s_fresh s7 = s_fresh s /\ s_root s7 = s_root s /\ s_handles s7 = s_handles s /\ s_wds s7 = s_wds s1 /\ s_nodes s7 = s_nodes s2 /\ s_puoids s7 = s_puoids s /\ s_events s7 = s_events s /\ s_tick s7 = s_tick s2).
  { unfold s7. cbn [s_fresh s_root s_handles s_wds s_nodes s_puoids s_events s_tick set_heap]. rewrite E5, EV. unfold s4, s3. cbn. repeat split; try congruence. }
  destruct FIELDS as (F1 & F2 & F3 & F4 & F5 & F6 & F7 & F8).
  assert (MVD : moved s p q (i_path i) dst (oi_name o) s7).
  { constructor; auto.
    - intros x k Hx. destruct (ITEM x k Hx) as (k' & B1 & B2 & B3 & B4 & B5 & B6 & B7). exists k'. auto 10.
    - eexists _, j, _. split; [exact Hp7|]. split; [exact Hq|]. cbn. split; [reflexivity|]. split; [reflexivity|]. cbn. auto.
    - rewrite F8. lia. }
  (* the tree after the move *)
  assert (T7 : T (s_heap s7) (nupd (nupd ch pp (l1 ++ l2)) q (p :: nupd ch pp (l1 ++ l2) q)) (eq r)).
  { assert (T5' : T (s_heap s5) (nupd ch pp (l1 ++ l2)) (fun x => r = x \/ x = p)).
    { eapply T_ext; [exact T4|intros x; reflexivity|]. intros x. destruct (in_dec N.eq_dec x Lc) as [Hin|Hin].
      - destruct (LIVEc x Hin) as (k & Hk). destruct (MEMU x k Hin Hk) as (_ & _ & B). rewrite B, (H5in x k Hin Hk). auto.
      - rewrite (H5out x Hin). destruct (H4 x); auto. }
    assert (HR : (fun x : ptr => r = x \/ x = p) p) by (right; reflexivity).
    pose proof (link_T _ H6 _ _ p q _ _ T5' Hp5 Hq5 Npq HR E6) as T6. eapply T_ext; [exact T6| |].
    - intros x. cbn. split; [intros [[A|A] B]; [exact A|contradiction]|intros <-; split; [left; reflexivity|congruence]].
    - intros x. destruct (N.eq_dec x p) as [->|Nx]; [rewrite Hp7, Hp6; auto|]. rewrite (H7o x Nx). destruct (H6 x); auto. }
  assert (WD7 : WD s7).
  { intros m h' Hm. rewrite F4 in Hm. destruct (W_wd _ _ _ _ _ W1 m h' Hm) as (x & k & B1 & B2 & B3 & B4). rewrite EH1 in B1. destruct (ITEM x k B1) as (k' & D1' & D2 & _ & D4 & D5 & _). exists x, k'. split; [exact D1'|]. split; [congruence|]. split; congruence. }
  assert (W7 : WF C s7 (nupd (nupd ch pp (l1 ++ l2)) q (p :: nupd ch pp (l1 ++ l2) q)) r None).
  { apply (wf_moved C s ch r W p q i j (oi_name o) Hp Hq Nr A5 NU FR s7 _ (p :: Lc) TP MVD T7 WD7). intros y.
    unfold s7. cbn [s_paths set_heap]. rewrite E5, (vis_paths _ _ Lc s4 ND). unfold pvis at 2. cbn [fold_left]. fold (pvis (i_path i) dst (s_heap s) Lc (pvis1 (i_path i) dst (s_heap s) (s_paths s) p)).
    assert (EP : s_paths s4 = pvis1 (i_path i) dst (s_heap s) (s_paths s) p).
    { unfold pvis1. rewrite Hp, repath_self. unfold s4, s3. cbn. rewrite G5, K4, Hh. reflexivity. }
    rewrite EP. rewrite (pvis_ext _ _ (s_heap s) (s_heap s4)); [reflexivity|]. intros x Hx. destruct (LIVEc x Hx) as (k & Hk). destruct (MEMU x k Hx Hk) as (_ & _ & B). unfold s4. cbn. rewrite Hk, B. auto. }
  (* watches *)
  assert (EA : forall x, assocb (s_heap s) x = assocb (s_heap s7) x).
  { intros x. unfold assocb. destruct (s_heap s x) as [k|] eqn:Hx; [|rewrite (NONE x Hx); reflexivity]. destruct (ITEM x k Hx) as (k' & B1 & _ & _ & _ & B5 & _). rewrite B1. auto. }
  destruct (proj1 (tr_facts C s ch r W (assocb (s_heap s))) p L T1 i Hp) as [MEML _].
  assert (UL : forall x k, In x L -> s_heap s x = Some k -> under (i_path i) (i_path k) = true).
  { intros x k Hx Hk. destruct (MEML x Hx) as (i1 & k1 & B1 & B2 & B3). rewrite Hk in B2. injection B2 as <-. rewrite Hp in B1. injection B1 as <-. exact B3. }
  assert (T7L : tr (assocb (s_heap s7)) (nupd (nupd ch pp (l1 ++ l2)) q (p :: nupd ch pp (l1 ++ l2) q)) p L).
  { apply (proj1 (tr_ext _ _ ch _ EA) p L T1). intros x Hx. destruct (MEML x Hx) as (i1 & k1 & B1 & B2 & B3). pose proof (UL x k1 Hx B2) as U.
    rewrite !nupd_neq; [reflexivity| |].
    - intros ->. rewrite A2 in B2. injection B2 as <-. apply under_len in U. rewrite A6, len_join in U. lia.
    - intros ->. rewrite Hq in B2. injection B2 as <-. congruence. }
  pose proof (addwatch_ok s7 _ W7 fuel p _ L Hp7 T7L) as X8. unfold bind at 1.
  assert (NE7 : forall x k, In x L -> s_heap s7 x = Some k -> ~ has_entry s7 (i_handle k)).
  { intros x k Hx Hk (m & Hm). destruct (MEML x Hx) as (i1 & k1 & B1 & B2 & B3). destruct (ITEM x k1 B2) as (k' & D1' & D2 & _). rewrite Hk in D1'. injection D1' as <-.
    apply (NE1 x k1 Hx B2). exists m. rewrite F4 in Hm. congruence. }
  destruct (watch_rec fuel (add_watch C) p s7) as [[[] s8]| |]; [|exact (X8 NE7)|exact I].
  destruct (X8 NE7) as [WS8 W8]. apply (DOWN _ _ _ W8). left. split; [reflexivity|]. split; [exact Nr|].
  destruct (wsame_fields _ _ WS8) as (Q1 & Q2 & Q3 & Q4 & Q5 & Q6 & Q7 & Q8 & _ & _ & _ & Q12).
  constructor; auto.
  - destruct MVD. constructor; try congruence.
    + intros x k Hx. destruct (M_items x k Hx) as (k' & B1 & B2). destruct (wsame_fwd _ _ _ _ WS8 B1) as (w & B3). exists (it_wd w k'). split; [exact B3|]. exact B2.
    + intros x Hx. destruct (s_heap s8 x) as [k|] eqn:E; [|reflexivity]. destruct (wsame_bwd _ _ _ _ WS8 E) as (k' & w & B1 & _). rewrite (M_none x Hx) in B1. discriminate.
    + destruct M_item as (k' & j' & oi & B1 & B2 & B3 & B4 & B5 & B6). destruct (wsame_fwd _ _ _ _ WS8 B1) as (w & B7). exists (it_wd w k'), j', oi. auto 10.
    + lia.
  - rewrite Q5, F5. exact DISK.
  - congruence.
  - congruence.
  - intros x k k' Hx Hk'. destruct (wsame_bwd _ _ _ _ WS8 Hk') as (k7 & w & B1 & ->). destruct (ITEM x k Hx) as (k2 & D1' & _ & _ & _ & D5 & _). rewrite B1 in D1'. injection D1' as <-. exact D5.
Qed.
End MoveOp.
