(** addToStorage and addItem keep a storage well-formed. *)
From Verif Require Import Base AList Wire FS FSPath FSTree FSLogic FSAdd.

(** only files and the clock changed *)
Definition nsame (s s' : fs) : Prop := exists w t, s' = set_tick t (set_nodes w s) /\ (s_tick s <= t)%nat.
Lemma nsame_refl s : nsame s s.
Proof. exists (s_nodes s), (s_tick s). split; [destruct s; reflexivity|lia]. Qed.
Lemma nsame_trans a b c : nsame a b -> nsame b c -> nsame a c.
Proof. intros (w & t & -> & L) (w' & t' & -> & L'). exists w', t'. split; [destruct a; reflexivity|]. cbn in *. lia. Qed.
Lemma nsame_wf C s s' ch r pend : WF C s ch r pend -> nsame s s' -> WF C s' ch r pend.
Proof. intros W (w & t & -> & L). eapply wf_same; [exact W|..]; try reflexivity. exact L. Qed.
Lemma nsame_ext s s' : nsame s s' -> ext s s'.
Proof. intros (w & t & -> & L). apply ext_same; try reflexivity. exact L. Qed.
Lemma nsame_fields s s' : nsame s s' -> s_heap s' = s_heap s /\ s_fresh s' = s_fresh s /\ s_root s' = s_root s /\ s_handles s' = s_handles s /\ s_paths s' = s_paths s /\
  s_wds s' = s_wds s /\ s_puoids s' = s_puoids s /\ s_byid s' = s_byid s /\ s_events s' = s_events s /\ s_write s' = s_write s /\ s_file s' = s_file s /\ s_cache s' = s_cache s /\ (s_tick s <= s_tick s')%nat.
Proof. intros (w & t & -> & L). repeat split. exact L. Qed.
Lemma nsame_set w s : nsame s (set_nodes w s).
Proof. exists w, (s_tick s). split; [destruct s; reflexivity|lia]. Qed.
Lemma nsame_tick s : nsame s (set_tick (S (s_tick s)) s).
Proof. exists (s_nodes s), (S (s_tick s)). split; [destruct s; reflexivity|lia]. Qed.
(** a command that only touches files *)
Definition ndisk {A} (m : M A) : Prop := forall s, exists a s', m s = Ret (a, s') /\ nsame s s'.
Lemma nd_ret {A} (a : A) : ndisk (ret a).
Proof. intros s. exists a, s. split; [reflexivity|apply nsame_refl]. Qed.
Lemma nd_bind {A B} (m : M A) (f : A -> M B) : ndisk m -> (forall a, ndisk (f a)) -> ndisk (bind m f).
Proof.
  intros H1 H2 s. destruct (H1 s) as (a & s1 & E1 & N1). destruct (H2 a s1) as (b & s2 & E2 & N2). exists b, s2. split; [unfold bind; rewrite E1; exact E2|].
  eapply nsame_trans; eassumption.
Qed.
Lemma nd_get {A} (g : fs -> A) : ndisk (get g).
Proof. intros s. exists (g s), s. split; [reflexivity|apply nsame_refl]. Qed.
Lemma nd_nodes w : ndisk (upd (set_nodes w)).
Proof. intros s. eexists _, _. split; [reflexivity|apply nsame_set]. Qed.
Lemma nd_tick : ndisk tick.
Proof. intros s. eexists _, _. split; [reflexivity|apply nsame_tick]. Qed.
Lemma nd_fails C : ndisk (fails C).
Proof. apply nd_bind; [apply nd_tick|]. intros. apply nd_ret. Qed.
Ltac nd := repeat first [ apply nd_ret | apply nd_get | apply nd_nodes | apply nd_fails | apply nd_tick
  | apply nd_bind; [|intros ?] | match goal with |- ndisk (when ?b _) => unfold when; destruct b end
  | match goal with |- ndisk (if ?b then _ else _) => destruct b end
  | match goal with |- ndisk (match ?b with _ => _ end) => destruct b end
  | match goal with |- ndisk (let _ := _ in _) => cbv zeta end ].
Lemma nd_create_file C p info : ndisk (create_file C p info).
Proof. unfold create_file, sys_open_rw. nd. Qed.
Lemma nd_create_directory C p : ndisk (create_directory C p).
Proof. unfold create_directory. nd. Qed.
Lemma nd_rename C a b : ndisk (sys_rename C a b).
Proof. unfold sys_rename. nd. Qed.
Lemma nd_rmdir C a : ndisk (sys_rmdir C a).
Proof. unfold sys_rmdir. nd. Qed.
Lemma nd_remove C a : ndisk (sys_remove C a).
Proof. unfold sys_remove. nd. Qed.

Lemma node_at_set p q n w : node_at p (set_node q n w) = if peqb p q then Some n else node_at p w.
Proof.
  induction w as [|[k m] w IH]; cbn [set_node node_at]; [reflexivity|]. destruct (peqb q k) eqn:E; cbn [node_at].
  - apply peqb_eq in E as <-. destruct (peqb p q); reflexivity.
  - rewrite IH. destruct (peqb p k) eqn:E2; [|reflexivity]. apply peqb_eq in E2 as ->. destruct (peqb k q) eqn:E3; [|reflexivity].
    apply peqb_eq in E3 as ->. rewrite peqb_refl in E. discriminate.
Qed.
Lemma prefixes_under : forall r acc q, In q (prefixes_from acc r) -> under q (acc ++ r) = true.
Proof.
  induction r as [|x r IH]; intros acc q Hq; [contradiction|]. cbn [prefixes_from] in Hq. apply in_app_or in Hq as [Hq|Hq].
  - destruct ((x =? slash) && _) eqn:E; [|contradiction]. destruct Hq as [<-|[]]. apply andb_true_iff in E as [E _]. apply N.eqb_eq in E as ->. apply under_spec. right. exists r. reflexivity.
  - apply IH in Hq. now rewrite <- app_assoc in Hq.
Qed.
Lemma mkpath_ok p w w' : mkpath p w = Some w' -> (forall y, node_at y w' = node_at y w \/ (under y p = true /\ node_at y w = None /\ node_at y w' = Some Dir)) /\ node_at p w' = Some Dir.
Proof.
  unfold mkpath. set (g := fun a q => _).
  assert (G : forall l w w', fold_left g l (Some w) = Some w' -> (forall y, node_at y w' = node_at y w \/ (In y l /\ node_at y w = None /\ node_at y w' = Some Dir)) /\ forall y, In y l -> node_at y w' = Some Dir).
  { induction l as [|q l IH]; intros w0 w1 E; cbn [fold_left] in E; [injection E as <-; split; [auto|intros y []]|]. unfold g at 2 in E. destruct (node_at q w0) as [[d|]|] eqn:Eq.
    - exfalso. clear - E. assert (Z : forall l, fold_left g l None = None) by (clear E; intros l0; induction l0; [reflexivity|assumption]). rewrite Z in E. discriminate.
    - destruct (IH w0 w1 E) as [A B]. split; [intros y; destruct (A y) as [D|(D1 & D2 & D3)]; [auto|right; cbn; auto]|]. intros y [->|Hy]; [|auto]. destruct (A y) as [D|(_ & D & _)]; congruence.
    - destruct (IH _ w1 E) as [A B]. split.
      + intros y. destruct (A y) as [D|(D1 & D2 & D3)].
        * rewrite node_at_set in D. destruct (peqb y q) eqn:Ey; [|auto]. apply peqb_eq in Ey as ->. right. cbn. auto.
        * rewrite node_at_set in D2. destruct (peqb y q) eqn:Ey; [discriminate|]. right. cbn. auto.
      + intros y [->|Hy]; [|auto]. destruct (A y) as [D|(_ & _ & D)]; [|exact D]. rewrite node_at_set, peqb_refl in D. exact D. }
  intros E. destruct (G _ _ _ E) as [A B]. split; [|apply B, in_or_app; right; left; reflexivity]. intros y. destruct (A y) as [D|(D1 & D2 & D3)]; [auto|]. right. split; [|auto].
  apply in_app_or in D1 as [D1|[->|[]]]; [|apply under_refl]. apply prefixes_under in D1. exact D1.
Qed.
Lemma create_file_ok C p info s rc s' : create_file C p info s = Ret (rc, s') -> rc = R_OK ->
  exists d, node_at p (s_nodes s') = Some (File d) /\ ((forall t, c_fail C t = false) -> match info with Some o => oi_size o | None => 0 end = 0 -> d = []).
Proof.
  intros E ->. unfold create_file in E. unfold bind at 1 in E. destruct (sys_open_rw C p s) as [[ok s1]| |] eqn:E1; try discriminate. destruct ok; cbn in E; [|discriminate].
  assert (D : exists d, node_at p (s_nodes s1) = Some (File d)).
  { unfold sys_open_rw, bind, fails, tick, ret, get in E1. cbn in E1. destruct (c_fail C (s_tick s)); [discriminate|]. destruct (node_at p (s_nodes s)) as [[d|]|] eqn:En; [|discriminate|].
    - injection E1 as <-. exists d. exact En.
    - destruct (is_dir _ _ && _); [|discriminate]. unfold upd in E1. injection E1 as <-. exists []. cbn. rewrite node_at_set, peqb_refl. reflexivity. }
  destruct D as (d & Hd). unfold fails, bind, tick, ret, get in E. cbn in E. rewrite Hd in E. destruct (c_fail C (s_tick s1)) eqn:Ef; cbn [negb when] in E.
  - injection E as <-. exists d. split; [exact Hd|]. intros NF. rewrite NF in Ef. discriminate.
  - unfold when, upd in E. cbn in E. injection E as <-. cbn. rewrite node_at_set, peqb_refl. eexists. split; [reflexivity|]. intros _ ->. reflexivity.
Qed.
Lemma create_directory_ok C p s rc s' : create_directory C p s = Ret (rc, s') -> rc = R_OK -> node_at p (s_nodes s') = Some Dir.
Proof.
  intros E ->. unfold create_directory, bind, get in E. unfold is_dir in E. destruct (node_at p (s_nodes s)) as [[d|]|] eqn:En.
  2:{ injection E as <-. exact En. }
  all: unfold fails, bind, tick, ret in E; destruct (c_fail C (s_tick s)); [discriminate|]; destruct (mkpath p (s_nodes s)) as [w'|] eqn:Em; [|discriminate]; unfold upd in E; injection E as <-; apply mkpath_ok in Em as [_ B]; exact B.
Qed.
Lemma entries_spec d w e : In e (entries_of d w) -> plain (base_of e) /\ e = join d (base_of e).
Proof.
  unfold entries_of. intros H. apply filter_In in H as [_ H]. apply andb_prop in H as [H H3]. apply andb_prop in H as [H1 H2].
  apply has_slash_spec in H1. apply peqb_eq in H2. apply negb_true_iff in H3. split; [apply base_plain; exact H3|].
  rewrite <- H2. apply join_parent. exact H1.
Qed.
Lemma known_find C s ch r p h : WF C s ch r None -> s_paths s p = Some h ->
  exists me i, find_by_path p s = Ret (Some me, s) /\ s_heap s me = Some i /\ i_path i = p /\ i_handle i = h.
Proof.
  intros W E. destruct (W_path _ _ _ _ _ W p h E) as (me & i & A1 & A2 & A3 & _). exists me, i.
  destruct (W_live _ _ _ _ _ W me i A1 ltac:(discriminate)) as [B _].
  split; [|auto]. unfold find_by_path, bind, get. rewrite E. unfold handle_value, get. rewrite <- A2, B. reflexivity.
Qed.

(** sibling lists stay as they are, but for new first children of [q] *)
Definition lnk (q : ptr) (s s' : fs) : Prop :=
  forall x i, s_heap s x = Some i -> exists i', s_heap s' x = Some i' /\ i_next i' = i_next i /\ (x <> q -> i_first i' = i_first i).
Lemma lnk_refl q s : lnk q s s.
Proof. intros x i Hx. eauto. Qed.
Lemma lnk_same q s s' : s_heap s' = s_heap s -> lnk q s s'.
Proof. intros E x i Hx. rewrite E. eauto. Qed.
Lemma lnk_trans q a b c : lnk q a b -> lnk q b c -> lnk q a c.
Proof.
  intros X Y x i Hx. destruct (X x i Hx) as (i1 & A1 & A2 & A3). destruct (Y x i1 A1) as (i2 & B1 & B2 & B3). exists i2. split; [exact B1|]. split; [congruence|].
  intros N. rewrite B3, A3 by exact N. reflexivity.
Qed.
Lemma lnk_new q me a b c : lnk q a b -> lnk me b c -> s_heap a me = None -> lnk q a c.
Proof.
  intros X Y Hn x i Hx. destruct (X x i Hx) as (i1 & A1 & A2 & A3). destruct (Y x i1 A1) as (i2 & B1 & B2 & B3). exists i2. split; [exact B1|]. split; [congruence|].
  intros N. rewrite B3 by congruence. auto.
Qed.
Lemma unlink_first c par s ci pi : s_heap s c = Some ci -> i_parent ci = Some par -> s_heap s par = Some pi -> i_first pi = Some c -> c <> par ->
  unlink_child c s = Ret (tt, set_heap (nupd (nupd (s_heap s) par (Some (it_first (i_next ci) pi))) c (Some (it_next None ci))) s).
Proof.
  intros Hc Ep Hp Ef N. unfold unlink_child, bind, deref. rewrite Hc, Ep, Hp, Ef. cbn [opt_eqb]. rewrite N.eqb_refl. unfold modify. rewrite Hp. cbn [s_heap set_heap]. rewrite nupd_neq by exact N. rewrite Hc. reflexivity.
Qed.

(** what an addition establishes *)
(** the file a new item stands for is on the disk *)
Definition on_disk (C : conf) (p : path) (o : objinfo) (s' : fs) : Prop :=
  oi_format o <> FMT_Association -> exists d, node_at p (s_nodes s') = Some (File d) /\ ((forall t, c_fail C t = false) -> oi_size o = 0 -> d = []).
Definition added (C : conf) (s : fs) (r q : ptr) (p : path) (info : option objinfo) (create : bool) (res : N * option ptr) (s' : fs) : Prop :=
  exists ch', WF C s' ch' r None /\ ext s s' /\
  match snd res with
  | Some me => fst res = R_OK /\ exists i, s_heap s' me = Some i /\ i_path i = p /\
      (s_paths s p = None -> me = s_fresh s /\ forall o, info = Some o -> i_info i = Some (oi_set_storage (c_sid C) o) /\ (create = true -> on_disk C p o s'))
  | None => fst res <> R_OK
  end /\ lnk q s s'.

Section Add.
Variables (C : conf) (SO : supply_ok C) (r : ptr).

(** taking the new item into the tables *)
Lemma maps_step s s1 ch q qj i H t (me := s_fresh s) :
  s1 = set_tick t (set_heap H (set_fresh (s_fresh s + 1) s)) -> (s_tick s <= t)%nat -> s_heap s q = Some qj -> q <> me -> s_heap s me = None ->
  H q = Some (it_first (Some me) qj) -> (forall x, x <> me -> x <> q -> H x = s_heap s x) ->
  forall s2, WF C s2 ch r (Some me) -> fresh_item s2 me i ->
  s_fresh s2 = s_fresh s1 -> s_root s2 = s_root s1 -> s_handles s2 = s_handles s1 -> (s_tick s1 <= s_tick s2)%nat ->
  (forall x, x <> me -> s_heap s2 x = s_heap s1 x) -> (forall n h, s_wds s2 n = Some h -> s_wds s1 n = Some h \/ h = i_handle i) ->
  exists s3 u, add_to_maps C me s2 = Ret (tt, s3) /\ WF C s3 ch r None /\ ext s s3 /\ s_heap s3 me = Some (it_puoid u i) /\ s_nodes s3 = s_nodes s2 /\ lnk q s s3.
Proof.
  intros E1 Ht Hq Nq Hme EHq EHo s2 W2 F2 X1 X2 X3 X4 X5 X6.
  destruct (add_to_maps_ok C s2 ch r me i W2 F2) as (s3 & EX & W3 & Y1 & Y2 & Y3 & Y4 & Y5 & Y6 & (u & Y7) & Y8). exists s3, u.
  split; [exact EX|]. split; [exact W3|]. split; [|split; [exact Y7|split; [exact Y4|]]].
  2:{ intros x j Hx. assert (Nx : x <> me) by congruence. rewrite Y8 by exact Nx. rewrite X5 by exact Nx. rewrite E1. cbn. destruct (N.eq_dec x q) as [->|Nxq].
      - rewrite Hq in Hx. injection Hx as <-. eexists. split; [exact EHq|]. split; [reflexivity|]. intros Q. now contradiction Q.
      - rewrite EHo by assumption. eauto. }
  destruct F2 as (F1 & F2 & F3). rewrite X3, E1 in F2. cbn in F2.
  assert (Eold : forall x, x <> me -> s_heap s3 x = H x).
  { intros x Nx. rewrite Y8 by exact Nx. rewrite X5 by exact Nx. rewrite E1. reflexivity. }
  constructor.
  - intros x j Hx. assert (Nx : x <> me) by congruence. rewrite Eold by exact Nx. destruct (N.eq_dec x q) as [->|Nxq].
    + rewrite Hq in Hx. injection Hx as <-. eexists. split; [exact EHq|]. exists (Some me), (i_next qj). destruct qj; reflexivity.
    + rewrite EHo by assumption. exists j. split; [exact Hx|apply lk_refl].
  - intros x j Hx Hn. destruct (N.eq_dec x me) as [->|Nx]; [unfold me; lia|]. rewrite Eold in Hx by exact Nx. destruct (N.eq_dec x q) as [->|Nxq]; [congruence|].
    rewrite EHo in Hx by assumption. congruence.
  - rewrite Y1, X1, E1. cbn. lia.
  - rewrite Y2, X2, E1. reflexivity.
  - intros h v Hv. rewrite Y6, X3, E1. cbn. rewrite aget_aset_neq by congruence. exact Hv.
  - intros n h Hn Hh. rewrite Y3 in Hn. destruct (X6 n h Hn) as [A| ->]; [rewrite E1 in A; exact A|]. apply ahas_aget in Hh as [v Hv]. congruence.
  - rewrite E1 in X4. cbn in X4. lia.
Qed.

Theorem add_to_storage_ok : forall fuel p info send create s ch q qj n,
  WF C s ch r None -> s_heap s q = Some qj -> plain n -> p = join (i_path qj) n ->
  (forall o, info = Some o -> oi_name o = n /\ oi_parent o = i_handle qj) ->
  match add_to_storage C fuel p info send create 0 s with Ret (res, s') => added C s r q p info create res s' | UB => False | Abort => True end.
Proof.
  induction fuel as [|fuel IH]; intros p info send create s ch q qj n W Hq Hn Ep Hinfo; [exact I|]. cbn [add_to_storage].
  destruct (existsb (peqb p) (c_excl C)).
  { exists ch. split; [exact W|]. split; [apply ext_refl|]. split; [cbn; discriminate|apply lnk_refl]. }
  unfold bind at 1. unfold tick at 1.
  set (s0 := set_tick (S (s_tick s)) s). assert (W0 : WF C s0 ch r None) by (eapply nsame_wf; [exact W|apply nsame_tick]).
  assert (X0 : ext s s0) by (apply nsame_ext, nsame_tick). assert (Hq0 : s_heap s0 q = Some qj) by exact Hq.
  destruct (link_refused C p (c_link C (s_tick s) p)).
  { exists ch. split; [exact W0|]. split; [exact X0|]. split; [cbn; discriminate|]. apply lnk_same. reflexivity. }
  unfold bind at 1. unfold get at 1. destruct (s_paths s0 p) as [h|] eqn:Ek.
  { destruct (known_find C s0 ch r p h W0 Ek) as (me & i & E1 & E2 & E3 & E4). unfold bind. rewrite E1. exists ch. split; [exact W0|]. split; [exact X0|]. split; [|apply lnk_same; reflexivity]. cbn. split; [reflexivity|]. exists i. split; [exact E2|]. split; [exact E3|]. intros E5. change (s_paths s0 p) with (s_paths s p) in Ek. congruence. }
  rewrite Ep in Ek. destruct (attach_exec C SO s0 ch r q qj n info W0 Hq0 Hn Ek Hinfo) as (s1 & i & o & EX & W1 & F1 & I1 & I2 & I3 & I4 & I5 & I6 & I7 & I8 & (H & t & E1 & Ht & EHq & EHo)).
  set (me := s_fresh s0) in *. set (ch1 := nupd (nupd ch me []) q (me :: ch q)) in *.
  assert (Hme0 : s_heap s0 me = None). { destruct (s_heap s0 me) as [k|] eqn:E; [|reflexivity]. pose proof (W_bd _ _ _ _ _ W0 me k E). unfold me in *. lia. }
  assert (Nqm : q <> me) by congruence.
  unfold bind at 1. rewrite <- Ep in EX. rewrite EX. unfold bind at 1. unfold deref at 1. destruct F1 as (F1 & F2 & F3). rewrite F1. unfold bind at 1. unfold info_of at 1. rewrite I2. unfold ret at 1.
  assert (Nmr : me <> r). { intros ->. destruct (W_root _ _ _ _ _ W0) as (ri & A & _). congruence. }
  assert (Hch1 : ch1 me = []) by (unfold ch1; rewrite nupd_neq by congruence; apply nupd_eq).
  (* the failing path *)
  assert (FAIL : forall s2 rc, nsame s1 s2 -> isok rc = false ->
     match (if negb (isok rc) then unlink_child me;;; free me;;; ret (rc, None) else i0 <- deref me;; when send (emit EV_ObjectAdded [i_handle i0]);;; ret (R_OK, Some me)) s2 with
     | Ret (res, s') => added C s r q p info create res s' | UB => False | Abort => True end).
  { intros s2 rc NS Erc. rewrite Erc. cbn [negb].
    assert (W2 : WF C s2 ch1 r (Some me)) by (eapply nsame_wf; eassumption).
    destruct (nsame_fields _ _ NS) as (G1 & G2 & G3 & G4 & G5 & G6 & _ & _ & _ & _ & _ & _ & G7).
    destruct (detach_ok C s2 ch1 r me i W2 ltac:(rewrite G1; exact F1) Nmr Hch1) as (s3 & ch3 & EX3 & W3 & Hm3 & (H3 & E3 & L3)).
    { intros m Hm. apply I8. exists m. rewrite <- G6. exact Hm. }
    assert (R3 : (unlink_child me;;; free me;;; ret (rc, @None ptr)) s2 = Ret (rc, None, s3)).
    { revert EX3. unfold bind. destruct (unlink_child me s2) as [[[] s']| |]; try discriminate. destruct (free me s') as [[[] s'']| |]; try discriminate. intros X. injection X as <-. reflexivity. }
    rewrite R3. exists ch3. split; [exact W3|]. split; [|split; [cbn; unfold isok in Erc; lia|]].
    2:{ assert (HS : s_heap s2 = H) by (rewrite G1, E1; reflexivity).
        assert (Hm2 : s_heap s2 me = Some i) by (rewrite G1; exact F1).
        assert (Hq2 : s_heap s2 q = Some (it_first (Some me) qj)) by (rewrite HS; exact EHq).
        pose proof (unlink_first me q s2 i _ Hm2 I3 Hq2 eq_refl ltac:(congruence)) as U. unfold bind in EX3. rewrite U in EX3. unfold free, upd in EX3. apply Ret_inj in EX3. apply (f_equal snd) in EX3. cbn [snd] in EX3.
        intros x j Hx. assert (Nx : x <> me) by (intros Q; rewrite Q in Hx; change (s_heap s me) with (s_heap s0 me) in Hx; congruence). rewrite <- EX3. cbn [s_heap set_heap]. rewrite nupd_neq, nupd_neq by exact Nx. destruct (N.eq_dec x q) as [->|Nxq].
        - rewrite nupd_eq. assert (j = qj) by congruence. subst j. eexists. split; [reflexivity|]. split; [reflexivity|]. intros Q. now contradiction Q.
        - rewrite nupd_neq by exact Nxq. rewrite HS, EHo by assumption. exists j. auto. }
    eapply ext_trans; [exact X0|]. rewrite E3. constructor; cbn [s_heap set_heap s_fresh s_root s_handles s_wds s_tick].
    - intros x j Hx. assert (Nx : x <> me) by congruence. specialize (L3 x Nx). rewrite G1, E1 in L3. cbn in L3. destruct (N.eq_dec x q) as [->|Nxq].
      + rewrite EHq in L3. destruct (H3 q) as [j'|]; [|contradiction]. exists j'. split; [reflexivity|]. rewrite Hq0 in Hx. injection Hx as <-.
        eapply lk_trans; [|exact L3]. exists (Some me), (i_next qj). destruct qj; reflexivity.
      + rewrite EHo in L3 by assumption. rewrite Hx in L3. destruct (H3 x) as [j'|]; [eauto|contradiction].
    - intros x j Hx Hnone. destruct (N.eq_dec x me) as [->|Nx]; [unfold me; lia|]. specialize (L3 x Nx). rewrite G1, E1 in L3. cbn in L3. rewrite Hx in L3.
      destruct (N.eq_dec x q) as [->|Nxq]; [congruence|]. rewrite EHo, Hnone in L3 by assumption. contradiction.
    - rewrite G2, E1. cbn. lia.
    - rewrite G3, E1. reflexivity.
    - rewrite G4, E1. auto.
    - rewrite G6, E1. auto.
    - rewrite E1 in G7. cbn in G7. cbn in Ht. cbn. lia. }
  (* after the tables are filled *)
  assert (DONE : forall s3 ch3, WF C s3 ch3 r None -> ext s0 s3 -> lnk q s s3 -> (exists j, s_heap s3 me = Some j /\ i_path j = p /\ i_info j = Some o) ->
     (create = true -> forall o', info = Some o' -> on_disk C p o' s3) ->
     match (if negb (isok R_OK) then unlink_child me;;; free me;;; ret (R_OK, None) else i0 <- deref me;; when send (emit EV_ObjectAdded [i_handle i0]);;; ret (R_OK, Some me)) s3 with
     | Ret (res, s') => added C s r q p info create res s' | UB => False | Abort => True end).
  { intros s3 ch3 W3 X3 L3 (j & Hj & Hjp & Hji) HD. change (negb (isok R_OK)) with false. cbv iota. unfold bind at 1. unfold deref at 1. rewrite Hj.
    assert (X : forall s4, s_heap s4 = s_heap s3 -> s_nodes s4 = s_nodes s3 -> WF C s4 ch3 r None -> ext s3 s4 -> added C s r q p info create (R_OK, Some me) s4).
    { intros s4 A AN B D. exists ch3. split; [exact B|]. split; [eapply ext_trans; [exact X0|]; eapply ext_trans; eassumption|].
      split; [cbn; split; [reflexivity|]; exists j; rewrite A; split; [exact Hj|]; split; [exact Hjp|]; intros _; split; [reflexivity|]; intros o' ->; split; [rewrite Hji; f_equal; exact I6|]; intros Hc; specialize (HD Hc o' eq_refl); unfold on_disk in *; rewrite AN; exact HD|]. eapply lnk_trans; [exact L3|]. apply lnk_same. exact A. }
    unfold when. destruct send; unfold bind, emit, upd, ret.
    - apply X; [reflexivity|reflexivity|eapply wf_same; [exact W3|..]; reflexivity|apply ext_same; reflexivity].
    - apply X; [reflexivity|reflexivity|exact W3|apply ext_refl]. }
  destruct (oi_format o =? FMT_Association) eqn:Efmt.
  - (* a folder *)
    unfold bind at 1.
    assert (EC : exists rc s2, (if create then create_directory C p else ret R_OK) s1 = Ret (rc, s2) /\ nsame s1 s2).
    { destruct create; [apply nd_create_directory|apply nd_ret]. }
    destruct EC as (rc & s2 & EC & NS). unfold bind at 1. rewrite EC.
    destruct (isok rc) eqn:Erc; cbn [negb].
    2:{ specialize (FAIL s2 rc NS Erc). unfold ret at 1. rewrite Erc in FAIL |- *. exact FAIL. }
    destruct (nsame_fields _ _ NS) as (G1 & G2 & G3 & G4 & G5 & G6 & _ & _ & _ & _ & _ & _ & G7).
    assert (W2 : WF C s2 ch1 r (Some me)) by (eapply nsame_wf; eassumption).
    assert (Hm2 : s_heap s2 me = Some i) by (rewrite G1; exact F1).
    destruct (add_watch_ok C s2 ch1 r (Some me) me i W2 Hm2) as (s3 & EW & W3 & WS & Hwd & Hoth).
    { intros (m & Hm). apply I8. exists m. rewrite <- G6. exact Hm. }
    destruct (wsame_fields _ _ WS) as (K1 & K2 & K3 & K4 & K5 & _ & _ & _ & _ & _ & _ & K6).
    destruct (wsame_fwd _ _ me i WS Hm2) as (wd & Hm3).
    assert (F3' : fresh_item s3 me (it_wd wd i)).
    { split; [exact Hm3|]. cbn [i_handle i_path it_wd]. rewrite K3, K4, G4, G5. auto. }
    destruct (maps_step s0 s1 ch1 q qj (it_wd wd i) H t E1 Ht Hq0 Nqm Hme0 EHq EHo s3 W3 F3') as (s4 & u & EM & W4 & X4 & Hm4 & N4 & L4).
    { rewrite K1. exact G2. } { rewrite K2. exact G3. } { rewrite K3. exact G4. } { lia. }
    { intros x Nx. rewrite Hoth by exact Nx. rewrite G1. reflexivity. }
    { intros m h Hm. destruct (Hwd m h Hm) as [A|[-> _]]; [left; rewrite <- G6; exact A|right; reflexivity]. }
    fold me in EM, Hm4. unfold bind at 1. rewrite EW. unfold bind at 1. rewrite EM. unfold bind at 1. unfold get at 1. unfold bind at 1.
    (* the contents *)
    assert (LOOP : forall l, (forall e, In e l -> plain (base_of e) /\ e = join p (base_of e)) -> forall s5 ch5, WF C s5 ch5 r None -> ext s0 s5 -> lnk q s s5 -> s_heap s me = None -> (exists j, s_heap s5 me = Some j /\ i_path j = p /\ i_info j = Some o) ->
      match (fix loop (l : list path) : M unit := match l with [] => ret tt | e :: l' => _ <- add_to_storage C fuel e None send create 0 ;; loop l' end) l s5 with
      | Ret (_, s6) => exists ch6, WF C s6 ch6 r None /\ ext s0 s6 /\ lnk q s s6 /\ (exists j, s_heap s6 me = Some j /\ i_path j = p /\ i_info j = Some o) | UB => False | Abort => True end).
    { clear - IH. induction l as [|e l IHl]; intros Hl s5 ch5 W5 X5 L5 Hnm (j & Hj & Hjp & Hji); [exists ch5; eauto 10|].
      destruct (Hl e (or_introl eq_refl)) as [He1 He2].
      specialize (IH e None send create s5 ch5 me j (base_of e) W5 Hj He1). rewrite Hjp in IH. specialize (IH He2 ltac:(discriminate)).
      unfold bind at 1. destruct (add_to_storage C fuel e None send create 0 s5) as [[res s6]| |]; try exact IH.
      destruct IH as (ch6 & W6 & X6 & _ & L6). apply (IHl ltac:(intros e' He'; apply Hl; right; exact He') s6 ch6 W6); [eapply ext_trans; eassumption|eapply lnk_new; eassumption|exact Hnm|].
      destruct (E_heap _ _ X6 me j Hj) as (j' & A & B). exists j'. split; [exact A|]. apply lk_fields in B as (_ & B & _ & B2 & _). split; congruence. }
    specialize (LOOP (entries_of p (s_nodes s4)) ltac:(intros e He; apply entries_spec in He; exact He) s4 ch1 W4 X4 L4 Hme0).
    specialize (LOOP ltac:(eexists; split; [exact Hm4|]; cbn; split; [congruence|exact I2])).
    destruct ((fix loop (l : list path) : M unit := match l with [] => ret tt | e :: l' => _ <- add_to_storage C fuel e None send create 0 ;; loop l' end) (entries_of p (s_nodes s4)) s4) as [[[] s6]| |]; try exact LOOP.
    destruct LOOP as (ch6 & W6 & X6 & L6 & Hm6). unfold ret at 1. apply (DONE s6 ch6 W6 X6 L6 Hm6). intros _ o' Eo' NA. exfalso. apply NA. apply N.eqb_eq in Efmt. rewrite Eo' in I6. rewrite I6 in Efmt. exact Efmt.
  - (* a file *)
    unfold bind at 1.
    assert (EC : exists rc s2, (if create then create_file C p info else ret R_OK) s1 = Ret (rc, s2) /\ nsame s1 s2).
    { destruct create; [apply nd_create_file|apply nd_ret]. }
    destruct EC as (rc & s2 & EC & NS). unfold bind at 1. rewrite EC.
    destruct (isok rc) eqn:Erc; cbn [negb].
    2:{ specialize (FAIL s2 rc NS Erc). unfold ret at 1. rewrite Erc in FAIL |- *. exact FAIL. }
    destruct (nsame_fields _ _ NS) as (G1 & G2 & G3 & G4 & G5 & G6 & _ & _ & _ & _ & _ & _ & G7).
    assert (W2 : WF C s2 ch1 r (Some me)) by (eapply nsame_wf; eassumption).
    assert (Hm2 : s_heap s2 me = Some i) by (rewrite G1; exact F1).
    assert (F2' : fresh_item s2 me i) by (split; [exact Hm2|]; rewrite G4, G5; auto).
    destruct (maps_step s0 s1 ch1 q qj i H t E1 Ht Hq0 Nqm Hme0 EHq EHo s2 W2 F2' G2 G3 G4 G7) as (s4 & u & EM & W4 & X4 & Hm4 & N4 & L4).
    { intros x _. rewrite G1. reflexivity. } { intros m h Hm. left. rewrite <- G6. exact Hm. }
    fold me in EM, Hm4. unfold bind at 1. rewrite EM. unfold bind at 1. unfold deref at 1. rewrite Hm4. unfold bind at 1. unfold upd at 1. unfold ret at 1.
    apply (DONE _ ch1).
    + eapply wf_same; [exact W4|..]; reflexivity.
    + eapply ext_trans; [exact X4|]. apply ext_same; reflexivity.
    + eapply lnk_trans; [exact L4|]. apply lnk_same. reflexivity.
    + cbn [s_heap set_byid]. eexists. split; [exact Hm4|]. cbn. split; [congruence|exact I2].
    + intros -> o' -> NA. destruct (create_file_ok C p (Some o') s1 rc s2 EC ltac:(apply N.eqb_eq; exact Erc)) as (dd & A & B). exists dd. cbn. rewrite N4. auto.
Qed.
Lemma add_entries_ok fuel send create me p : forall l, (forall e, In e l -> plain (base_of e) /\ e = join p (base_of e)) -> forall s5 ch5, WF C s5 ch5 r None -> (exists j, s_heap s5 me = Some j /\ i_path j = p) ->
  match (fix loop (l : list path) : M unit := match l with [] => ret tt | e :: l' => _ <- add_to_storage C fuel e None send create 0 ;; loop l' end) l s5 with
  | Ret (_, s6) => exists ch6, WF C s6 ch6 r None /\ ext s5 s6 /\ (exists j, s_heap s6 me = Some j /\ i_path j = p) | UB => False | Abort => True end.
Proof.
  induction l as [|e l IHl]; intros Hl s5 ch5 W5 (j & Hj & Hjp); [exists ch5; eauto using ext_refl|].
  destruct (Hl e (or_introl eq_refl)) as [He1 He2].
  pose proof (add_to_storage_ok fuel e None send create s5 ch5 me j (base_of e) W5 Hj He1) as IH. rewrite Hjp in IH. specialize (IH He2 ltac:(discriminate)).
  unfold bind at 1. destruct (add_to_storage C fuel e None send create 0 s5) as [[res s6]| |]; try exact IH.
  destruct IH as (ch6 & W6 & X6 & _). specialize (IHl ltac:(intros e' He'; apply Hl; right; exact He') s6 ch6 W6).
  specialize (IHl ltac:(destruct (E_heap _ _ X6 me j Hj) as (j' & A & B); exists j'; split; [exact A|]; apply lk_fields in B as (_ & B & _); congruence)).
  match goal with |- match ?X with _ => _ end => destruct X as [[u s7]| |] end; try exact IHl.
  destruct IHl as (ch7 & W7 & X7 & Hm7). exists ch7. split; [exact W7|]. split; [eapply ext_trans; eassumption|exact Hm7].
Qed.

(** addItem *)
Theorem add_item_ok fuel info s ch : WF C s ch r None -> plain (oi_name info) ->
  match add_item C fuel info s with
  | Ret (res, s') => exists ch', WF C s' ch' r None /\ ext s s' /\
      match snd res with
      | Some (h, ph) => fst res = R_OK /\ exists me i q j, aget h (s_handles s') = Some (Some me) /\ s_heap s' me = Some i /\ i_handle i = h /\
          i_parent i = Some q /\ s_heap s' q = Some j /\ i_handle j = ph /\ ph = (if oi_parent info =? ALL then 0 else oi_parent info) /\ i_path i = join (i_path j) (oi_name info) /\
          (s_paths s (i_path i) = None -> me = s_fresh s /\ i_info i = Some (oi_set_storage (c_sid C) (oi_set_parent ph info)) /\ on_disk C (i_path i) info s')
      | None => fst res <> R_OK
      end /\
      (forall q j, s_heap s q = Some j -> i_handle j = (if oi_parent info =? ALL then 0 else oi_parent info) -> lnk q s s')
  | UB => False | Abort => True end.
Proof.
  intros W Hn. unfold add_item. cbv zeta. set (info' := if oi_parent info =? ALL then oi_set_parent 0 info else info).
  assert (En : oi_name info' = oi_name info) by (unfold info'; destruct (oi_parent info =? ALL); reflexivity).
  assert (Epar : oi_parent info' = if oi_parent info =? ALL then 0 else oi_parent info) by (unfold info'; destruct (oi_parent info =? ALL); reflexivity).
  assert (Ed : forall p s', on_disk C p info' s' -> on_disk C p info s') by (intros p s'; unfold on_disk, info'; destruct (oi_parent info =? ALL); exact (fun X => X)).
  assert (Ei : forall ph, oi_set_parent ph info = oi_set_parent ph info') by (intros ph; unfold info'; destruct (oi_parent info =? ALL); reflexivity).
  rewrite <- En in Hn |- *. rewrite <- Epar in |- *. clearbody info'. clear En Epar.
  unfold bind at 1. unfold has_handle, get at 1. destruct (ahas (oi_parent info') (s_handles s)) eqn:Eh; cbn [negb].
  2:{ exists ch. split; [exact W|]. split; [apply ext_refl|]. split; [cbn; discriminate|]. intros; apply lnk_refl. }
  apply ahas_aget in Eh as [v Hv]. destruct (W_h _ _ _ _ _ W _ _ Hv) as (q & qj & -> & Hq & Hqh & _).
  unfold bind at 1. unfold handle_ref. rewrite Hv. unfold bind at 1. unfold deref_opt, deref at 1. rewrite Hq.
  pose proof (add_to_storage_ok fuel (join (i_path qj) (oi_name info')) (Some info') false true s ch q qj (oi_name info') W Hq Hn eq_refl) as A.
  specialize (A ltac:(intros o [= <-]; split; [reflexivity|symmetry; exact Hqh])). unfold bind at 1.
  destruct (add_to_storage C fuel (join (i_path qj) (oi_name info')) (Some info') false true 0 s) as [[[rc om] s1]| |]; try exact A.
  destruct A as (ch1 & W1 & X1 & R1 & LN). cbn [fst snd] in R1 |- *.
  assert (LN' : forall q0 j, s_heap s q0 = Some j -> i_handle j = oi_parent info' -> lnk q0 s s1).
  { intros q0 j H0 H1. assert (q0 = q) as -> by (eapply (wf_uniq _ _ _ _ _ W); [exact H0|exact Hq|discriminate|discriminate|congruence]). exact LN. }
  destruct om as [me|]; [|exists ch1; auto].
  destruct R1 as (Erc & i & Hi & Hip & Hnew). destruct (E_heap _ _ X1 q qj Hq) as (qj' & Hq' & L). apply lk_fields in L as (L1 & L2 & _).
  (* its parent is q *)
  assert (Nr : me <> r).
  { intros ->. destruct (W_root _ _ _ _ _ W1) as (ri & A & _ & B & _). rewrite Hi in A. injection A as <-.
    pose proof (under_len _ _ (wf_under_root _ _ _ _ _ W1 q qj' Hq')). rewrite <- B, Hip, L2, len_join in H. lia. }
  destruct (wf_parent _ _ _ _ _ W1 me i Hi Nr) as (q2 & j & o & P1 & P2 & P3 & P4 & P5 & P6 & P7).
  rewrite Hip in P6. apply join_inj in P6 as [P6 P8]; [|apply Hn|apply P5].
  assert (q2 = q) as -> by (eapply (wf_path_uniq _ _ _ _ _ W1); [exact P2|exact Hq'|discriminate|discriminate|congruence]).
  rewrite Hq' in P2. injection P2 as <-.
  unfold bind at 1. unfold deref at 1. rewrite Hi. unfold bind at 1. rewrite P1. unfold bind at 1. unfold deref at 1. rewrite Hq'. unfold ret.
  exists ch1. split; [exact W1|]. split; [exact X1|]. cbn [snd fst]. split; [|exact LN']. split; [exact Erc|].
  exists me, i, q, qj'. destruct (W_live _ _ _ _ _ W1 me i Hi ltac:(discriminate)) as [B _].
  split; [exact B|]. split; [exact Hi|]. split; [reflexivity|]. split; [exact P1|]. split; [exact Hq'|]. split; [reflexivity|]. split; [congruence|]. split; [congruence|].
  rewrite Hip. intros Hnone. destruct (Hnew Hnone) as (N1 & N2). destruct (N2 info' eq_refl) as (N3 & N4). split; [exact N1|]. split; [|apply Ed, N4; reflexivity]. rewrite N3, Ei. do 2 f_equal.
  rewrite L1, Hqh. destruct info'; reflexivity.
Qed.
End Add.

(** the start: enumerateStorage *)
Theorem enumerate_ok C fuel pu w : supply_ok C ->
  match enumerate C fuel (fs_init pu w) with
  | Ret (_, s) => (exists ch r, WF C s ch r None /\ s_root s = Some r) \/ (s_root s = None /\ s_handles s = [] /\ forall p, s_heap s p = None)
  | UB => False | Abort => True end.
Proof.
  intros SO. unfold enumerate. destruct fuel as [|fuel]; [exact I|]. cbn [add_to_storage]. unfold bind at 1.
  destruct (existsb (peqb (c_root C)) (c_excl C)); [right; repeat split|].
  unfold bind at 1. unfold tick at 1. destruct (link_refused C (c_root C) _); [right; repeat split|].
  unfold bind at 1. unfold get at 1. cbn [s_paths set_tick fs_init].
  set (s0 := set_tick (S (s_tick (fs_init pu w))) (fs_init pu w)).
  set (o := oi_with (c_extra C 1 (c_root C)) (c_sid C) (format_of C (c_root C) w) (size_of (c_root C) w) 0 (base_of (c_root C))).
  set (i := mk_item 0 (c_root C) None (Some o) None None None 0 false).
  assert (EA : exists H, attach_new C (c_root C) None 0 s0 = Ret (1, set_tick 2 (set_fresh 2 (set_heap H s0))) /\ H 1 = Some i /\ forall x, x <> 1 -> H x = None).
  { eexists. split.
    - unfold attach_new. unfold bind at 1. unfold alloc at 1. unfold bind at 1. unfold find_by_path, bind at 1, get at 1. cbn [s_paths s0 set_tick fs_init set_fresh set_heap].
      unfold ret at 1. unfold bind at 1. unfold get at 1. cbn [s_root set_fresh set_heap s0 set_tick fs_init].
      unfold bind at 1. unfold link_child at 1. unfold ret at 1. unfold bind at 1. unfold populate_info, bind at 1, deref at 1. cbn [s_heap set_fresh set_heap s_fresh fs_init].
      change (s_fresh s0) with 1. rewrite nupd_eq. cbn [i_info new_item]. unfold bind at 1. unfold tick at 1. unfold bind at 1. unfold get at 1. unfold bind at 1. cbn [i_parent new_item]. unfold ret at 1.
      unfold modify at 1. cbn [s_heap set_fresh set_heap set_tick]. rewrite nupd_eq. unfold bind at 1. rewrite peqb_refl. unfold modify at 1. cbn [s_heap set_fresh set_heap set_tick]. rewrite nupd_eq.
      unfold ret. reflexivity.
    - split; [rewrite nupd_eq; reflexivity|]. intros x Nx. unfold nupd. cbn [s_heap set_heap set_fresh set_tick]. rewrite !(proj2 (N.eqb_neq x 1) Nx). reflexivity. }
  destruct EA as (H & EA & Hi & Ho). unfold bind at 1. rewrite EA. set (s1 := set_tick 2 (set_fresh 2 (set_heap H s0))).
  assert (OnlyR : forall x j, H x = Some j -> x = 1 /\ j = i). { intros x j Hx. destruct (N.eq_dec x 1) as [->|Nx]; [split; congruence|rewrite Ho in Hx by exact Nx; discriminate]. }
  assert (W1 : WF C s1 (fun _ => []) 1 (Some 1)).
  { constructor; cbn [s1 s0 s_heap set_tick set_fresh set_heap s_fresh s_handles s_paths s_wds s_root s_tick fs_init].
    - constructor; try (intros; contradiction).
      + intros p j Hp. apply OnlyR in Hp as [-> ->]. reflexivity.
      + intros p j Hp NR. apply OnlyR in Hp as [-> ->]. exfalso. apply NR. reflexivity.
      + intros. constructor.
    - intros p j Hp. apply OnlyR in Hp as [-> ->]. lia.
    - constructor.
    - discriminate.
    - intros p j Hp Np. apply OnlyR in Hp as [-> ->]. exfalso. apply Np. reflexivity.
    - discriminate.
    - intros p j Hp. apply OnlyR in Hp as [-> ->]. exists o. split; [reflexivity|]. discriminate.
    - exists i. auto.
    - intros p j Hp Np. apply OnlyR in Hp as [-> ->]. exfalso. apply Np. reflexivity.
    - discriminate.
    - left. reflexivity. }
  unfold bind at 1. unfold deref at 1. cbn [s1 s_heap set_tick set_fresh set_heap]. fold s1. rewrite Hi. unfold bind at 1. unfold info_of at 1. cbn [i_info i]. unfold ret at 1.
  assert (Hi1 : s_heap s1 1 = Some i) by exact Hi.
  assert (DONE : forall s3 ch3, WF C s3 ch3 1 None -> s_root s3 = None -> (exists j, s_heap s3 1 = Some j) ->
     match match (if negb (isok R_OK) then unlink_child 1;;; free 1;;; ret (R_OK, None) else i0 <- deref 1;; when false (emit EV_ObjectAdded [i_handle i0]);;; ret (R_OK, Some 1)) s3 with
       | Ret (a, s1) => match snd a with Some p => upd (set_root (Some p)) | None => ret tt end s1 | UB => UB | Abort => Abort end with
     | Ret (_, s) => (exists ch r, WF C s ch r None /\ s_root s = Some r) \/ (s_root s = None /\ s_handles s = [] /\ forall p, s_heap s p = None)
     | UB => False | Abort => True end).
  { intros s3 ch3 W3 R3 (j & Hj). change (negb (isok R_OK)) with false. cbv iota. unfold bind at 1. unfold deref at 1. rewrite Hj. unfold bind, when, ret, upd. cbn [snd].
    left. exists ch3, 1. split; [|reflexivity]. destruct W3. constructor; cbn [s_heap set_root s_fresh s_handles s_paths s_wds s_root s_tick]; auto. }
  destruct (oi_format o =? FMT_Association).
  - unfold bind at 1. unfold bind at 1. unfold ret at 1. change (negb (isok R_OK)) with false at 1. cbv iota.
    destruct (add_watch_ok C s1 _ 1 (Some 1) 1 i W1 Hi1) as (s3 & EW & W3 & WS & Hwd & Hoth); [intros (m & Hm); discriminate|].
    destruct (wsame_fields _ _ WS) as (K1 & K2 & K3 & K4 & K5 & _). destruct (wsame_fwd _ _ 1 i WS Hi1) as (wd & Hm3).
    assert (F3 : fresh_item s3 1 (it_wd wd i)) by (split; [exact Hm3|]; rewrite K3, K4; split; reflexivity).
    destruct (add_to_maps_ok C s3 _ 1 1 _ W3 F3) as (s4 & EM & W4 & Y1 & Y2 & Y3 & Y4 & Y5 & Y6 & (u & Y7) & Y8).
    unfold bind at 1. rewrite EW. unfold bind at 1. rewrite EM. unfold bind at 1. unfold get at 1. unfold bind at 1.
    pose proof (add_entries_ok C SO 1 fuel false false 1 (c_root C) (entries_of (c_root C) (s_nodes s4)) ltac:(intros e He; apply entries_spec in He; exact He) s4 _ W4) as L.
    specialize (L ltac:(eexists; split; [exact Y7|reflexivity])).
    match goal with |- match match match match ?X with _ => _ end with _ => _ end with _ => _ end with _ => _ end => destruct X as [[[] s6]| |] end; try exact L.
    destruct L as (ch6 & W6 & X6 & (j & Hj & _)). unfold ret at 1. apply (DONE s6 ch6 W6); [|eauto].
    rewrite (E_root _ _ X6), Y2, K2. reflexivity.
  - unfold bind at 1. unfold bind at 1. unfold ret at 1. change (negb (isok R_OK)) with false at 1. cbv iota.
    assert (F3 : fresh_item s1 1 i) by (split; [exact Hi1|]; split; reflexivity).
    destruct (add_to_maps_ok C s1 _ 1 1 _ W1 F3) as (s4 & EM & W4 & Y1 & Y2 & Y3 & Y4 & Y5 & Y6 & (u & Y7) & Y8).
    unfold bind at 1. rewrite EM. unfold bind at 1. unfold deref at 1. rewrite Y7. unfold bind at 1. unfold upd at 1. unfold ret at 1.
    apply (DONE _ (fun _ => [])); [eapply wf_same; [exact W4|..]; reflexivity|cbn; rewrite Y2; reflexivity|cbn; eauto].
Qed.
