(** File system notifications keep a storage well-formed. *)
From Verif Require Import Base AList Wire FS FSPath FSTree FSLogic FSAdd FSAdd2 FSDel FSSub FSMove FSMove2 FSMove3.

(** changing only the event flag of an item *)
Lemma wf_events C s ch r x k b : WF C s ch r None -> s_heap s x = Some k -> WF C (set_heap (nupd (s_heap s) x (Some (it_events b k))) s) ch r None.
Proof.
  intros W Hx. set (s' := set_heap _ s).
  assert (FW : forall y a, s_heap s y = Some a -> exists e, s_heap s' y = Some (it_events e a)).
  { intros y a Hy. unfold s'. cbn. unfold nupd. destruct (y =? x) eqn:E; [replace y with x in * by lia; exists b; congruence|]. exists (i_events a). rewrite Hy. destruct a; reflexivity. }
  assert (BW : forall y a', s_heap s' y = Some a' -> exists a e, s_heap s y = Some a /\ a' = it_events e a).
  { intros y a'. unfold s'. cbn. unfold nupd. destruct (y =? x) eqn:E; [replace y with x in * by lia; intros [= <-]; eauto|]. intros Hy. exists a', (i_events a'). split; [exact Hy|]. destruct a'; reflexivity. }
  constructor.
  - eapply T_ext; [apply (W_T _ _ _ _ _ W)|intros y; reflexivity|]. intros y. destruct (s_heap s y) as [a|] eqn:Hy.
    + destruct (FW y a Hy) as (e & ->). auto.
    + destruct (s_heap s' y) as [a'|] eqn:E; [|exact I]. destruct (BW y a' E) as (a & e & A & _). congruence.
  - intros y a' Hy. destruct (BW y a' Hy) as (a & e & A & ->). eapply (W_bd _ _ _ _ _ W); exact A.
  - apply (W_nd _ _ _ _ _ W).
  - intros h v Hv. destruct (W_h _ _ _ _ _ W h v Hv) as (y & a & A1 & A2 & A3 & _). destruct (FW y a A2) as (e & B). eexists _, _. split; [exact A1|]. split; [exact B|]. split; [exact A3|discriminate].
  - intros y a' Hy _. destruct (BW y a' Hy) as (a & e & A & ->). apply (W_live _ _ _ _ _ W y a A). discriminate.
  - intros z h Hz. destruct (W_path _ _ _ _ _ W z h Hz) as (y & a & A1 & A2 & A3 & _). destruct (FW y a A1) as (e & B). eexists _, _. split; [exact B|]. split; [exact A2|]. split; [exact A3|discriminate].
  - intros y a' Hy. destruct (BW y a' Hy) as (a & e & A & ->). destruct (W_info _ _ _ _ _ W y a A) as (o & O1 & O2). exists o. split; [exact O1|]. intros q j' E1 E2. destruct (BW q j' E2) as (j & e' & B & ->). exact (O2 q j E1 B).
  - destruct (W_root _ _ _ _ _ W) as (ri & A1 & A2 & A3 & A4). destruct (FW r ri A1) as (e & B). eexists. split; [exact B|]. auto.
  - intros y a' Hy Ny. destruct (BW y a' Hy) as (a & e & A & ->). apply (W_sup _ _ _ _ _ W y a A Ny).
  - intros m h Hm. destruct (W_wd _ _ _ _ _ W m h Hm) as (y & a & A1 & A2 & A3 & A4). destruct (FW y a A1) as (e & B). eexists _, _. split; [exact B|]. auto.
  - apply (W_rt _ _ _ _ _ W).
Qed.

Section Ev.
Variables (C : conf) (SO : supply_ok C) (r : ptr).
(** well-formed, and enumerated *)
Definition good (s : fs) : Prop := (exists ch, WF C s ch r None) /\ s_root s = Some r.

Lemma watch_owner s ch wd h : WF C s ch r None -> s_wds s wd = Some h -> exists q j, aget h (s_handles s) = Some (Some q) /\ s_heap s q = Some j /\ i_handle j = h.
Proof.
  intros W E. destruct (W_wd _ _ _ _ _ W wd h E) as (q & j & A1 & A2 & _). exists q, j. split; [|auto]. rewrite <- A2. apply (W_live _ _ _ _ _ W q j A1). discriminate.
Qed.
Lemma root_entry s ch : WF C s ch r None -> exists j, aget 0 (s_handles s) = Some (Some r) /\ s_heap s r = Some j /\ i_handle j = 0.
Proof.
  intros W. destruct (W_root _ _ _ _ _ W) as (ri & A1 & A2 & A3 & A4). exists ri. split; [|auto]. rewrite <- A4. apply (W_live _ _ _ _ _ W r ri A1). discriminate.
Qed.
Lemma owner_or_root s ch wd : WF C s ch r None -> exists q j, aget (match s_wds s wd with Some h => h | None => 0 end) (s_handles s) = Some (Some q) /\ s_heap s q = Some j /\
   i_handle j = match s_wds s wd with Some h => h | None => 0 end.
Proof.
  intros W. destruct (s_wds s wd) as [h|] eqn:E; [eapply watch_owner; eassumption|]. destruct (root_entry s ch W) as (j & A). eauto.
Qed.

Lemma good_delete fuel h phys send s : good s -> match delete_helper C fuel h phys send s with Ret (_, s') => good s' | UB => False | Abort => True end.
Proof.
  intros [[ch W] R]. pose proof (delete_helper_ok C r fuel h phys send s ch W R) as X. destruct (delete_helper C fuel h phys send s) as [[c s']| |]; try exact X.
  destruct X as (ch' & W' & X). split; [eauto|]. destruct (aget h (s_handles s)) as [[p|]|]; try (destruct X as [-> _]; exact R).
  destruct (p =? r); [destruct X as [-> _]; exact R|]. destruct X as (i & _ & _ & D). rewrite (D_root _ _ _ (L_shr _ _ _ _ _ _ D)). exact R.
Qed.
Lemma handle_fs_delete_ok fuel wd n s : good s -> match handle_fs_delete C fuel wd n s with Ret (_, s') => good s' | UB => False | Abort => True end.
Proof.
  intros G. pose proof G as [[ch W] R]. unfold handle_fs_delete. unfold bind at 1. unfold get at 1. destruct (s_wds s wd) as [h|] eqn:E; [|exact G].
  destruct (watch_owner s ch wd h W E) as (q & j & A1 & A2 & A3). unfold bind at 1. unfold handle_ref. rewrite A1. unfold bind at 1. unfold deref. rewrite A2.
  unfold bind at 1. unfold get at 1. destruct (s_paths s (join (i_path j) n)) as [x|]; [|exact G]. unfold bind at 1.
  pose proof (good_delete fuel x false true s G) as X. destruct (delete_helper C fuel x false true s) as [[c s']| |]; exact X.
Qed.
Lemma handle_fs_create_ok fuel wd n s : good s -> plain n -> match handle_fs_create C fuel wd n s with Ret (_, s') => good s' | UB => False | Abort => True end.
Proof.
  intros G Pn. pose proof G as [[ch W] R]. unfold handle_fs_create. unfold bind at 1. unfold get at 1.
  destruct (owner_or_root s ch wd W) as (q & j & A1 & A2 & A3). unfold bind at 1. unfold handle_ref. rewrite A1. unfold bind at 1. unfold deref. rewrite A2.
  destruct (negb (opt_eqb (i_wd j) (Some wd))); [exact G|]. unfold bind at 1. unfold get at 1. destruct (s_paths s (join (i_path j) n)) as [x|]; [exact G|].
  unfold bind at 1. pose proof (add_to_storage_ok C SO r fuel (join (i_path j) n) None true false s ch q j n W A2 Pn eq_refl ltac:(discriminate)) as X.
  destruct (add_to_storage C fuel (join (i_path j) n) None true false 0 s) as [[c s']| |]; try exact X. destruct X as (ch' & W' & X & _). split; [eauto|]. rewrite (E_root _ _ X). exact R.
Qed.

(** the disk object behind a changed file still has the kind it is listed with *)
Definition modify_pre (wd : N) (n : path) (s : fs) : Prop :=
  forall q j p i h, aget (match s_wds s wd with Some h => h | None => 0 end) (s_handles s) = Some (Some q) -> s_heap s q = Some j -> s_paths s (join (i_path j) n) = Some h ->
    aget h (s_handles s) = Some (Some p) -> s_heap s p = Some i -> is_assoc i = true -> is_dir (i_path i) (s_nodes s) = true.
Lemma handle_fs_modify_ok wd n s : good s -> modify_pre wd n s -> match handle_fs_modify C wd n s with Ret (_, s') => good s' | UB => False | Abort => True end.
Proof.
  intros G PRE. pose proof G as [[ch W] R]. unfold handle_fs_modify. unfold bind at 1. unfold get at 1.
  destruct (owner_or_root s ch wd W) as (q & j & A1 & A2 & A3). unfold bind at 1. unfold handle_value, get at 1. rewrite A1. unfold bind at 1. unfold deref at 1. rewrite A2.
  destruct (negb (opt_eqb (i_wd j) (Some wd))); [exact G|]. unfold bind at 1. unfold get at 1. unfold bind at 1. unfold get at 1.
  destruct (s_paths s (join (i_path j) n)) as [h|] eqn:Ep; [|exact G]. destruct ((h =? 0) || (h =? s_write s)) eqn:E0; [exact G|].
  destruct (W_path _ _ _ _ _ W _ _ Ep) as (p & i & B1 & B2 & B3 & _). destruct (W_live _ _ _ _ _ W p i B1 ltac:(discriminate)) as [B4 _].
  unfold bind at 1. unfold get at 1. rewrite <- B2, B4. unfold bind at 1. unfold deref at 1. rewrite B1.
  assert (Nr : p <> r). { intros ->. destruct (root_entry s ch W) as (ri & _ & D1 & D2). rewrite B1 in D1. injection D1 as <-. lia. }
  destruct (refresh_ok C r s ch p i W B1 Nr) as (s' & o & EX & W' & Hp' & _ & (H & ES) & _).
  { eapply PRE; [exact A1|exact A2|exact Ep| |exact B1]. rewrite <- B2. exact B4. }
  unfold bind at 1. unfold bind in EX at 1. destruct (modify p (it_info None) s) as [[u s1]| |]; [|discriminate|discriminate].
  unfold bind at 1. rewrite EX. unfold bind at 1. unfold deref at 1. rewrite Hp'. unfold bind at 1. unfold info_of. cbn [i_info it_info]. unfold ret at 1.
  assert (G' : good s') by (split; [eauto|]; rewrite ES; exact R).
  unfold when. destruct (match i_info i with Some x => info_differs x o | None => true end); [|exact G'].
  unfold emit, upd. split; [exists ch; eapply wf_same; [exact W'|..]; reflexivity|]. rewrite ES. exact R.
Qed.

(** a rename seen by inotify: it does not change folder and name at once, the target is
    not inside the moved object, and the object keeps its kind *)
Definition fs_move_pre (wd1 : N) (n1 : path) (wd2 : N) (n2 : path) (s : fs) : Prop :=
  let fh := match s_wds s wd1 with Some h => h | None => 0 end in
  let th := match s_wds s wd2 with Some h => h | None => 0 end in
  plain n1 /\ plain n2 /\
  forall fq fi tq ti p i h, aget fh (s_handles s) = Some (Some fq) -> s_heap s fq = Some fi -> aget th (s_handles s) = Some (Some tq) -> s_heap s tq = Some ti ->
    s_paths s (join (i_path fi) n1) = Some h -> aget h (s_handles s) = Some (Some p) -> s_heap s p = Some i ->
    (fh = th \/ n1 = n2) /\ under (i_path i) (i_path ti) = false /\ (is_assoc i = true -> is_dir (join (i_path ti) n2) (s_nodes s) = true).

(** the tree after an item and everything below got its new path *)
Lemma rename_tree fuel s ch p i q j o n (dst := join (i_path j) n) (s2 := set_paths (pupd (pupd (s_paths s) (i_path i) None) dst (Some (i_handle i)))
     (set_heap (nupd (nupd (s_heap s) p (Some (it_path dst i))) p (Some (it_info (Some (oi_set_name n o)) (it_path dst i)))) s)) :
  WF C s ch r None -> s_heap s p = Some i -> p <> r -> i_parent i = Some q -> s_heap s q = Some j -> i_info i = Some o -> plain n -> s_paths s dst = None ->
  match adjust_children fuel fuel dst (i_first i) s2 with
  | Ret (_, s3) => WF C s3 ch r None /\ moved s p q (i_path i) dst n s3 /\ (exists H F, s3 = set_paths F (set_heap H s2)) /\
       (forall x k k', s_heap s x = Some k -> s_heap s3 x = Some k' -> is_assoc k' = is_assoc k)
  | UB => False | Abort => True end.
Proof.
  intros W Hp Nr A1 A2 A4 Pn FR0. set (o0 := i_path i).
  destruct (W_info _ _ _ _ _ W p i Hp) as (o' & O1 & O2). rewrite A4 in O1. injection O1 as <-. destruct (O2 q j A1 A2) as (A5 & A6 & A7).
  assert (NU : under o0 (i_path j) = false).
  { destruct (under o0 (i_path j)) eqn:V; [|reflexivity]. apply under_len in V. unfold o0 in V. rewrite A6, len_join in V. lia. }
  assert (FR : dst = o0 \/ s_paths s dst = None) by auto.
  set (ip := it_info (Some (oi_set_name n o)) (it_path dst i)).
  assert (Hp2 : s_heap s2 p = Some ip) by (unfold s2; cbn; apply nupd_eq).
  assert (H2o : forall x, x <> p -> s_heap s2 x = s_heap s x) by (intros x Nx'; unfold s2; cbn; rewrite !nupd_neq by exact Nx'; reflexivity).
  assert (INTC : forall c, In c (ch p) -> intact s s2 c).
  { intros c Hc y ci k Hci Hy Uy. destruct (child_path C s ch r W p i c ci Hp Hc Hci) as (m & _ & Em). exists (i_wd k). rewrite it_wd_same. rewrite H2o; [exact Hy|].
    intros ->. rewrite Hp in Hy. injection Hy as <-. apply under_len in Uy. rewrite Em, len_join in Uy. lia. }
  pose proof (adjust_children_exec C s ch r W o0 dst fuel fuel p i s2 Hp (under_refl _) INTC) as X5. unfold o0 in X5 at 1. rewrite repath_self in X5.
  destruct (adjust_children fuel fuel dst (i_first i) s2) as [[[] s5]| |]; try exact X5. destruct X5 as (Lc & T5 & E5).
  assert (TP : tr (fun _ => true) ch p (p :: Lc)) by (constructor; [reflexivity|exact T5]).
  destruct (proj1 (tr_facts C s ch r W (fun _ => true)) p (p :: Lc) TP i Hp) as [MEM NDp]. pose proof NDp as ND'. apply NoDup_cons_iff in ND' as [NpL ND].
  assert (MEMU : forall x k, In x Lc -> s_heap s x = Some k -> under o0 (i_path k) = true /\ x <> p).
  { intros x k Hx Hk. destruct (MEM x (or_intror Hx)) as (i1 & k1 & B1 & B2 & B3). rewrite Hk in B2. injection B2 as <-. rewrite Hp in B1. injection B1 as <-. split; [exact B3|intros ->; contradiction]. }
  assert (LIVEc : forall x, In x Lc -> exists k, s_heap s x = Some k). { intros x Hx. destruct (MEM x (or_intror Hx)) as (? & k & _ & B & _). eauto. }
  assert (Hp5 : s_heap s5 p = Some ip) by (rewrite E5, vis_out by exact NpL; exact Hp2).
  assert (ITEM : forall x k, s_heap s x = Some k -> exists k', s_heap s5 x = Some k' /\
     i_handle k' = i_handle k /\ i_puoid k' = i_puoid k /\ i_path k' = newpath o0 dst (i_path k) /\ i_first k' = i_first k /\ i_next k' = i_next k /\ i_parent k' = i_parent k /\ is_assoc k' = is_assoc k /\ i_wd k' = i_wd k /\ (x <> p -> i_info k' = i_info k)).
  { intros x k Hx. destruct (N.eq_dec x p) as [->|Nxp].
    - rewrite Hp in Hx. injection Hx as <-. exists ip. split; [exact Hp5|]. unfold newpath. fold o0. rewrite under_refl, repath_self.
      unfold is_assoc. cbn. rewrite A4. cbn. repeat split; try reflexivity. contradiction.
    - pose proof (H2o x Nxp) as Hx2. rewrite Hx in Hx2. destruct (in_dec N.eq_dec x Lc) as [Hin|Hin].
      + destruct (MEMU x k Hin Hx) as [Ux _]. rewrite E5, (vis_in _ _ _ _ _ _ ND Hin Hx2). eexists. split; [reflexivity|]. cbn. unfold newpath. rewrite Ux. unfold is_assoc. cbn. auto 15.
      + rewrite E5, vis_out by exact Hin. exists k. split; [exact Hx2|]. cbn. unfold newpath.
        destruct (under o0 (i_path k)) eqn:Ux; [exfalso; destruct (tr_complete C s ch r W p i (p :: Lc) TP Hp x k Hx Ux) as [<-|X]; contradiction|]. auto 15. }
  assert (NONE : forall x, s_heap s x = None -> s_heap s5 x = None).
  { intros x Hx. rewrite E5, vis_out; [rewrite H2o by congruence; exact Hx|]. intros Hin. destruct (LIVEc x Hin). congruence. }
  destruct (vis_same o0 dst Lc s2) as (HV & FV & EV).
  assert (EF : forall A (g : fs -> A), (forall H F t, g (set_paths F (set_heap H t)) = g t) -> g s5 = g s2) by (intros A g Hg; rewrite E5, EV; apply Hg).
  assert (MVD : moved s p q o0 dst n s5).
  { constructor.
    - intros x k Hx. destruct (ITEM x k Hx) as (k' & B1 & B2 & B3 & B4 & _ & _ & B5 & _ & _ & B6). exists k'. auto 10.
    - exact NONE.
    - exists ip, j, (oi_set_name n o). split; [exact Hp5|]. split; [exact A2|]. split; [exact A1|]. split; [reflexivity|]. cbn. auto.
    - rewrite (EF _ s_fresh) by reflexivity. reflexivity.
    - rewrite (EF _ s_root) by reflexivity. reflexivity.
    - rewrite (EF _ s_handles) by reflexivity. reflexivity.
    - rewrite (EF _ s_tick) by reflexivity. apply Nat.le_refl. }
  assert (T6 : T (s_heap s5) ch (eq r)).
  { eapply T_ext; [apply (W_T _ _ _ _ _ W)|intros x; reflexivity|]. intros x. destruct (s_heap s x) as [k|] eqn:Hx; [|rewrite (NONE x Hx); exact I]. destruct (ITEM x k Hx) as (k' & -> & B). tauto. }
  assert (WD5 : WD s5).
  { intros m h' Hm. rewrite (EF _ s_wds) in Hm by reflexivity. destruct (W_wd _ _ _ _ _ W m h' Hm) as (x & k & B1 & B2 & B3 & B4).
    destruct (ITEM x k B1) as (k' & D1 & D4 & D5 & D6 & D7 & D8 & D9 & D10 & D11 & _). exists x, k'. split; [exact D1|]. split; [congruence|]. split; congruence. }
  split; [|split; [exact MVD|split; [exists HV, FV; rewrite E5; exact EV|]]].
  - apply (wf_moved C s ch r W p q i j n Hp A2 Nr Pn NU FR s5 ch (p :: Lc) TP MVD T6 WD5). intros y.
    rewrite E5, (vis_paths _ _ Lc s2 ND). unfold pvis at 2. cbn [fold_left]. fold (pvis (i_path i) (join (i_path j) n) (s_heap s) Lc (pvis1 (i_path i) (join (i_path j) n) (s_heap s) (s_paths s) p)).
    fold o0 dst. assert (EP : s_paths s2 = pvis1 o0 dst (s_heap s) (s_paths s) p).
    { unfold pvis1. rewrite Hp. fold o0. rewrite repath_self. reflexivity. }
    rewrite EP. rewrite (pvis_ext _ _ (s_heap s) (s_heap s2)); [reflexivity|]. intros x Hx. destruct (LIVEc x Hx) as (k & Hk). destruct (MEMU x k Hx Hk) as [_ Nxp]. rewrite (H2o x Nxp), Hk. auto.
  - intros x k k' Hx Hx'. destruct (ITEM x k Hx) as (k2 & B1 & _ & _ & _ & _ & _ & _ & B & _). rewrite Hx' in B1. injection B1 as <-. exact B.
Qed.

Lemma handle_fs_move_ok fuel wd1 n1 wd2 n2 s : good s -> fs_move_pre wd1 n1 wd2 n2 s -> match handle_fs_move C fuel wd1 n1 wd2 n2 s with Ret (_, s') => good s' | UB => False | Abort => True end.
Proof.
  intros G (P1 & P2 & PRE). pose proof G as [[ch W] R]. unfold handle_fs_move. unfold bind at 1. unfold get at 1. unfold bind at 1. unfold get at 1.
  set (fh := match s_wds s wd1 with Some h => h | None => 0 end) in *. set (th := match s_wds s wd2 with Some h => h | None => 0 end) in *.
  destruct (owner_or_root s ch wd1 W) as (fq & fi & F1 & F2 & F3). fold fh in F1, F3. destruct (owner_or_root s ch wd2 W) as (tq & ti & T1 & T2 & T3). fold th in T1, T3.
  unfold bind at 1. unfold handle_value, get at 1. rewrite F1. unfold bind at 1. unfold get at 1. rewrite T1.
  destruct ((fh =? th) && peqb n1 n2); [exact G|]. unfold bind at 1. unfold deref at 1. rewrite F2. unfold bind at 1. unfold deref at 1. rewrite T2.
  destruct (negb (opt_eqb (i_wd fi) (Some wd1)) || negb (opt_eqb (i_wd ti) (Some wd2))); [exact G|].
  unfold bind at 1. unfold get at 1. destruct (s_paths s (join (i_path fi) n1)) as [mh|] eqn:Em; [|exact G]. destruct (mh =? 0) eqn:E0; [exact G|].
  destruct (W_path _ _ _ _ _ W _ _ Em) as (p & i & B1 & B2 & B3 & _). destruct (W_live _ _ _ _ _ W p i B1 ltac:(discriminate)) as [B4 _]. rewrite B2 in B4.
  unfold bind at 1. unfold get at 1. rewrite B4.
  assert (Nr : p <> r). { intros ->. destruct (root_entry s ch W) as (ri & _ & D1 & D2). rewrite B1 in D1. injection D1 as <-. lia. }
  destruct (PRE fq fi tq ti p i mh F1 F2 T1 T2 Em B4 B1) as (Q1 & Q2 & Q3). clear PRE.
  destruct (wf_parent _ _ _ _ _ W p i B1 Nr) as (q & j & o & A1 & A2 & A3 & A4 & A5 & A6 & A7).
  assert (EJ : i_path j = i_path fi /\ oi_name o = n1) by (apply join_inj; [apply A5|apply P1|congruence]). destruct EJ as [EJ EN].
  assert (Eq : q = fq) by (eapply (wf_path_uniq _ _ _ _ _ W); [exact A2|exact F2|discriminate|discriminate|exact EJ]). subst q. rewrite F2 in A2. injection A2 as <-.
  unfold bind at 1. unfold get at 1. destruct (s_paths s (join (i_path ti) n2)) as [x|] eqn:En.
  { unfold bind at 1. pose proof (good_delete fuel mh false true s G) as X. destruct (delete_helper C fuel mh false true s) as [[c s']| |]; exact X. }
  (* the tail of the handler *)
  assert (TAIL : forall s3 ch3 k, WF C s3 ch3 r None -> s_root s3 = Some r -> s_heap s3 p = Some k -> i_path k = join (i_path ti) n2 -> is_assoc k = is_assoc i -> s_nodes s3 = s_nodes s ->
      (exists a, s_heap s3 fq = Some a) -> (exists a, s_heap s3 tq = Some a) ->
      match (modify p (it_info None);;; populate_info C p;;; fi0 <- deref fq;; (if i_events fi0 then modify tq (it_events true) else ret tt);;; emit EV_ObjectInfoChanged [mh]) s3 with
      | Ret (_, s') => good s' | UB => False | Abort => True end).
  { intros s3 ch3 k W3 R3 Hp3 Ek Ea EN3 [a Ha] [b Hb]. destruct (refresh_ok C r s3 ch3 p k W3 Hp3 Nr) as (s4 & o4 & EX & W4 & Hp4 & Ho4 & (H & ES) & _).
    { rewrite Ea, Ek, EN3. exact Q3. }
    unfold bind at 1. unfold bind in EX at 1. destruct (modify p (it_info None) s3) as [[u s']| |]; [|discriminate|discriminate].
    unfold bind at 1. rewrite EX.
    assert (L4 : forall x y, s_heap s3 x = Some y -> exists z, s_heap s4 x = Some z). { intros x y Hx. destruct (N.eq_dec x p) as [->|Nx]; [eauto|]. rewrite (Ho4 x Nx). eauto. }
    destruct (L4 fq a Ha) as (a4 & Ha4). destruct (L4 tq b Hb) as (b4 & Hb4). unfold bind at 1. unfold deref. rewrite Ha4.
    assert (R4 : s_root s4 = Some r) by (rewrite ES; exact R3). unfold bind, emit, upd. destruct (i_events a4).
    - unfold modify. rewrite Hb4. split; [|exact R4]. exists ch3. eapply wf_same; [exact (wf_events C s4 ch3 r tq b4 true W4 Hb4)|..]; reflexivity.
    - unfold ret. split; [|exact R4]. exists ch3. eapply wf_same; [exact W4|..]; reflexivity. }
  unfold bind at 1. destruct (fh =? th) eqn:Eft.
  - assert (Et : tq = fq /\ ti = fi). { assert (fh = th) by lia. rewrite <- H, F1 in T1. injection T1 as <-. rewrite F2 in T2. injection T2 as <-. auto. } destruct Et as [-> ->].
    unfold bind at 1. unfold upd at 1. unfold bind at 1. unfold modify at 1. cbn [s_heap set_paths]. rewrite B1. unfold bind at 1. unfold deref at 1. cbn [s_heap set_heap set_paths]. rewrite nupd_eq.
    unfold bind at 1. unfold info_of. cbn [i_info it_path]. rewrite A4. unfold ret at 1. unfold bind at 1. unfold modify at 1. cbn [s_heap set_heap set_paths]. rewrite nupd_eq. unfold bind at 1. unfold upd at 1. cbn [i_first it_path].
    match goal with |- context [bind (adjust_children _ _ _ _) ?K ?st] => set (KK := K); set (s2 := st) end.
    pose proof (rename_tree fuel s ch p i fq fi o n2 W B1 Nr A1 F2 A4 P2 En) as X. cbv zeta in X.
    assert (ES2 : s2 = set_paths (pupd (pupd (s_paths s) (i_path i) None) (join (i_path fi) n2) (Some (i_handle i)))
     (set_heap (nupd (nupd (s_heap s) p (Some (it_path (join (i_path fi) n2) i))) p (Some (it_info (Some (oi_set_name n2 o)) (it_path (join (i_path fi) n2) i)))) s)).
    { unfold s2. rewrite B3, B2. destruct s; reflexivity. }
    rewrite <- ES2 in X. unfold bind at 1. destruct (adjust_children fuel fuel (join (i_path fi) n2) (i_first i) s2) as [[[] s3]| |]; try exact X.
    destruct X as (W3 & MV & (H3 & F3' & E3) & AS). unfold KK. clear KK. destruct (M_items _ _ _ _ _ _ _ MV p i B1) as (k3 & D1 & D2 & D3 & D4 & _).
    pose proof (rewatch_ok C r s3 ch W3 fuel p k3 D1) as X4. unfold bind at 1. destruct (watch_rec fuel remove_watch p s3) as [[[] s4]| |]; try exact X4.
    destruct X4 as (L & TL & WS4 & EH4 & W4 & NE4 & _).
    pose proof (addwatch_ok C r s4 ch W4 fuel p k3 L ltac:(rewrite EH4; exact D1) ltac:(rewrite EH4; exact TL) ltac:(intros y k Hy Hk; rewrite EH4 in Hk; exact (NE4 y k Hy Hk))) as X5.
    destruct (watch_rec fuel (add_watch C) p s4) as [[[] s5]| |]; try exact X5. destruct X5 as [WS5 W5].
    assert (WS : wsame s3 s5) by (eapply wsame_trans; eassumption). destruct (wsame_fields _ _ WS) as (K1 & K2 & K3 & K4 & K5 & _).
    destruct (wsame_fwd _ _ _ _ WS D1) as (w & D6). destruct (M_items _ _ _ _ _ _ _ MV fq fi F2) as (kf & G1 & _). destruct (wsame_fwd _ _ _ _ WS G1) as (w' & G2).
    eapply (TAIL s5 ch (it_wd w k3) W5).
    + rewrite K2, (M_root _ _ _ _ _ _ _ MV). exact R.
    + exact D6.
    + cbn. rewrite D4. unfold newpath. rewrite under_refl. apply repath_self.
    + cbn. exact (AS p i k3 B1 D1).
    + rewrite K5, E3, ES2. reflexivity.
    + eauto.
    + eauto.
  - assert (En12 : n1 = n2) by (destruct Q1 as [Q1|Q1]; [lia|exact Q1]). rewrite <- En12 in *. rewrite <- EN in *.
    pose proof (move_object_ok C r fuel mh th false s ch W) as X. unfold move_pre in X.
    assert (PM : forall (p0 q0 : ptr) (i0 j0 : item) (o1 : objinfo), aget mh (s_handles s) = Some (Some p0) -> aget th (s_handles s) = Some (Some q0) -> s_heap s p0 = Some i0 -> s_heap s q0 = Some j0 -> i_info i0 = Some o1 ->
       (s_paths s (join (i_path j0) (oi_name o1)) <> None -> join (i_path j0) (oi_name o1) = i_path i0 \/ false = true /\ exists_at (join (i_path j0) (oi_name o1)) (s_nodes s) = true) /\ (false = false -> under (i_path i0) (i_path j0) = false)).
    { intros p0 q0 i0 j0 o1 E1 E2 E3 E4 E5. rewrite B4 in E1. injection E1 as <-. rewrite T1 in E2. injection E2 as <-. rewrite B1 in E3. injection E3 as <-. rewrite T2 in E4. injection E4 as <-. rewrite A4 in E5. injection E5 as <-.
      split; [intros X'; congruence|intros _; exact Q2]. }
    specialize (X PM). clear PM. unfold bind at 1. destruct (move_object C fuel mh th false s) as [[code s3]| |]; try exact X. unfold ret at 1.
    destruct X as (ch3 & W3 & X). rewrite B4, T1 in X. destruct X as (i0 & j0 & o1 & E3 & E4 & E5 & X). rewrite B1 in E3. injection E3 as <-. rewrite T2 in E4. injection E4 as <-. rewrite A4 in E5. injection E5 as <-.
    destruct X as [(_ & _ & MD)|(_ & _ & [X|X])]; [|discriminate|congruence].
    destruct MD. destruct (M_items _ _ _ _ _ _ _ MD_moved p i B1) as (k3 & D1 & D2 & D3 & D4 & _).
    destruct (M_items _ _ _ _ _ _ _ MD_moved fq fi F2) as (kf & G1 & _). destruct (M_items _ _ _ _ _ _ _ MD_moved tq ti T2) as (kt & G2 & _).
    eapply (TAIL s3 ch3 k3 W3).
    + rewrite (M_root _ _ _ _ _ _ _ MD_moved). exact R.
    + exact D1.
    + rewrite D4. unfold newpath. rewrite under_refl. apply repath_self.
    + exact (MD_assoc p i k3 B1 D1).
    + exact MD_disk.
    + eauto.
    + eauto.
Qed.

(** 2318-2326: a pending moved-from event that does not belong to the new event *)
Definition drop_stale (fuel : nat) (cookie : N) : M unit :=
  c <- get s_cache ;;
  match c with
  | Some (wd, ck, n) => when (negb (ck =? cookie)) (handle_fs_delete C fuel wd n ;;; upd (set_cache None))
  | None => ret tt
  end.
(** what is assumed of one event (the kernel's names are plain) *)
Definition event_pre (fuel : nat) (e : option ievent) (s : fs) : Prop :=
  match e with
  | None => True
  | Some e => match ev_name e with
    | None => True
    | Some name => plain name /\ forall s1, drop_stale fuel (ev_cookie e) s = Ret (tt, s1) ->
        match ev_kind e with
        | NMovedTo => forall wd ck n, s_cache s1 = Some (wd, ck, n) -> ck = ev_cookie e -> fs_move_pre wd n (ev_wd e) name s1
        | NCloseWrite => modify_pre (ev_wd e) name s1
        | _ => True
        end
    end
  end.
Lemma good_cache s c : good s -> good (set_cache c s).
Proof. intros [[ch W] R]. split; [exists ch; eapply wf_same; [exact W|..]; reflexivity|exact R]. Qed.
Theorem inotify_event_ok fuel e s : good s -> event_pre fuel e s -> match inotify_event C fuel e s with Ret (_, s') => good s' | UB => False | Abort => True end.
Proof.
  intros G PRE. unfold inotify_event. unfold bind at 1. unfold get at 1. destruct e as [e|].
  2:{ destruct (s_cache s) as [[[wd ck] n]|]; [|exact G]. unfold bind at 1. pose proof (handle_fs_delete_ok fuel wd n s G) as X.
      destruct (handle_fs_delete C fuel wd n s) as [[[] s']| |]; try exact X. apply good_cache. exact X. }
  destruct (ev_name e) as [name|] eqn:En; [|exact G]. cbn [event_pre] in PRE. rewrite En in PRE. destruct PRE as [Pn PRE].
  unfold bind at 1.
  assert (DS : forall s1, match s_cache s with Some (wd, ck, n) => when (negb (ck =? ev_cookie e)) (handle_fs_delete C fuel wd n;;; upd (set_cache None)) | None => ret tt end s = Ret (tt, s1) -> drop_stale fuel (ev_cookie e) s = Ret (tt, s1)) by (intros s1 E; exact E).
  assert (GS : match (match s_cache s with Some (wd, ck, n) => when (negb (ck =? ev_cookie e)) (handle_fs_delete C fuel wd n;;; upd (set_cache None)) | None => ret tt end s) with Ret (_, s1) => good s1 | UB => False | Abort => True end).
  { destruct (s_cache s) as [[[wd ck] n]|]; [|exact G]. destruct (ck =? ev_cookie e); cbn [negb when]; [exact G|]. unfold bind at 1. pose proof (handle_fs_delete_ok fuel wd n s G) as X.
    destruct (handle_fs_delete C fuel wd n s) as [[[] s']| |]; try exact X. apply good_cache. exact X. }
  match goal with |- match match ?X with _ => _ end with _ => _ end => destruct X as [[[] s1]| |] end; try exact GS. specialize (PRE s1 (DS s1 eq_refl)). clear DS.
  destruct (ev_kind e).
  - apply handle_fs_create_ok; assumption.
  - apply handle_fs_delete_ok; assumption.
  - unfold bind at 1. unfold get at 1. unfold bind at 1. destruct (s_cache s1) as [[[wd ck] n]|].
    + unfold bind at 1. pose proof (handle_fs_delete_ok fuel wd n s1 GS) as X. destruct (handle_fs_delete C fuel wd n s1) as [[[] s']| |]; try exact X. apply good_cache, good_cache. exact X.
    + apply good_cache. exact GS.
  - unfold bind at 1. unfold get at 1. destruct (s_cache s1) as [[[wd ck] n]|] eqn:Ec; [|apply handle_fs_create_ok; assumption].
    destruct (ck =? ev_cookie e) eqn:Ek; [|apply handle_fs_create_ok; assumption]. unfold bind at 1.
    pose proof (handle_fs_move_ok fuel wd n (ev_wd e) name s1 GS ltac:(eapply PRE; [reflexivity|lia])) as X.
    destruct (handle_fs_move C fuel wd n (ev_wd e) name s1) as [[[] s']| |]; try exact X. apply good_cache. exact X.
  - apply handle_fs_modify_ok; assumption.
Qed.
End Ev.
