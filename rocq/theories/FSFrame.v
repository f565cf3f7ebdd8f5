(** What adding a path can touch: items below it, the disk below it (and missing
    folders above it). *)
From Verif Require Import Base AList Wire FS FSPath FSTree FSLogic FSAdd FSAdd2 FSDel FSData.

(** [Q]: where new objects may appear *)
Record afq (Q : path -> Prop) (P : path) (create : bool) (s s' : fs) : Prop := {
  A_path : forall x i', s_heap s' x = Some i' -> (exists i, s_heap s x = Some i /\ i_path i = i_path i') \/ Q (i_path i');
  A_node : forall y, node_at y (s_nodes s') = node_at y (s_nodes s) \/
             (create = true /\ (Q y \/ (under y P = true /\ node_at y (s_nodes s) = None /\ node_at y (s_nodes s') = Some Dir)));
  A_dir : forall y, node_at y (s_nodes s) = Some Dir -> node_at y (s_nodes s') = Some Dir;
  A_puoid : forall y u, s_puoids s y = Some u -> s_puoids s' y = Some u;
  A_file : s_file s' = s_file s; A_write : s_write s' = s_write s; A_cache : s_cache s' = s_cache s }.
Definition below (P : path) : path -> Prop := fun y => under P y = true.
Definition af (P : path) : bool -> fs -> fs -> Prop := afq (below P) P.
Lemma af_refl Q P c s : afq Q P c s s.
Proof. constructor; auto. intros x i Hx. left. eauto. Qed.
Lemma af_trans Q P c a b d : afq Q P c a b -> afq Q P c b d -> afq Q P c a d.
Proof.
  intros X Y. constructor.
  - intros x i Hx. destruct (A_path _ _ _ _ _ Y x i Hx) as [(j & A & B)|A]; [|auto]. destruct (A_path _ _ _ _ _ X x j A) as [(k & D & F)|D]; [left; exists k; split; congruence|right; congruence].
  - intros y. destruct (A_node _ _ _ _ _ Y y) as [E|(E & F)].
    + rewrite E. apply (A_node _ _ _ _ _ X).
    + destruct F as [F|(F1 & F2 & F3)]; [auto|]. right. split; [exact E|]. destruct (A_node _ _ _ _ _ X y) as [G|(_ & [G|(G1 & G2 & G3)])]; [|auto|congruence]. right. split; [exact F1|]. split; [congruence|exact F3].
  - intros y Hy. apply (A_dir _ _ _ _ _ Y), (A_dir _ _ _ _ _ X). exact Hy.
  - intros y u Hu. apply (A_puoid _ _ _ _ _ Y), (A_puoid _ _ _ _ _ X). exact Hu.
  - rewrite (A_file _ _ _ _ _ Y). apply (A_file _ _ _ _ _ X).
  - rewrite (A_write _ _ _ _ _ Y). apply (A_write _ _ _ _ _ X).
  - rewrite (A_cache _ _ _ _ _ Y). apply (A_cache _ _ _ _ _ X).
Qed.
Lemma af_weaken P Q c s s' : under P Q = true -> (forall y, under y Q = true -> under P y = true \/ under y P = true) -> af Q c s s' -> af P c s s'.
Proof.
  intros U V X. destruct X. unfold below in *. constructor; auto; unfold below.
  - intros x i Hx. destruct (A_path0 x i Hx) as [A|A]; [auto|]. right. eapply under_trans; eassumption.
  - intros y. destruct (A_node0 y) as [A|(A & [B|(B1 & B2 & B3)])]; [auto| |].
    + right. split; [exact A|]. left. eapply under_trans; eassumption.
    + right. split; [exact A|]. destruct (V y B1) as [D|D]; auto.
Qed.
(** everything but the disk and the items *)
Lemma af_set Q P c s s' : (forall x i', s_heap s' x = Some i' -> (exists i, s_heap s x = Some i /\ i_path i = i_path i') \/ Q (i_path i')) ->
  s_nodes s' = s_nodes s -> s_puoids s' = s_puoids s -> s_file s' = s_file s -> s_write s' = s_write s -> s_cache s' = s_cache s -> afq Q P c s s'.
Proof. intros H E1 E2 E3 E4 E5. constructor; rewrite ?E1, ?E2, ?E3, ?E4, ?E5; auto. Qed.

Definition fr {A} (Q : path -> Prop) (P : path) (c : bool) (m : M A) : Prop := forall s a s', m s = Ret (a, s') -> afq Q P c s s'.
Section Fr.
Variables (Q : path -> Prop) (P : path) (c : bool).
Lemma fr_ret {A} (a : A) : fr Q P c (ret a).
Proof. intros s a' s' E. injection E as <- <-. apply af_refl. Qed.
Lemma fr_bind {A B} (m : M A) (f : A -> M B) : fr Q P c m -> (forall a, fr Q P c (f a)) -> fr Q P c (bind m f).
Proof.
  intros H1 H2 s b s' E. unfold bind in E. destruct (m s) as [[a s1]| |] eqn:E1; try discriminate. eapply af_trans; [eapply H1; exact E1|eapply H2; exact E].
Qed.
Lemma fr_get {A} (g : fs -> A) : fr Q P c (get g).
Proof. intros s a' s' E. injection E as <- <-. apply af_refl. Qed.
Lemma fr_crash {A} : fr Q P c (@crash A).
Proof. intros s a' s' E. discriminate. Qed.
Lemma fr_giveup {A} : fr Q P c (@give_up A).
Proof. intros s a' s' E. discriminate. Qed.
Lemma fr_tick : fr Q P c tick.
Proof. intros s a' s' E. injection E as <- <-. apply af_set; try reflexivity. cbn. eauto. Qed.
Lemma fr_deref p : fr Q P c (deref p).
Proof. intros s a' s' E. unfold deref in E. destruct (s_heap s p); [injection E as <- <-; apply af_refl|discriminate]. Qed.
Lemma fr_modify p f : (forall i, i_path (f i) = i_path i) -> fr Q P c (modify p f).
Proof.
  intros Hf s a' s' E. unfold modify in E. destruct (s_heap s p) as [i|] eqn:Hp; [|discriminate]. injection E as <- <-. apply af_set; try reflexivity. cbn. intros x i'. unfold nupd.
  destruct (x =? p) eqn:Ex; [|eauto]. apply N.eqb_eq in Ex as ->. intros [= <-]. left. exists i. auto.
Qed.
Lemma fr_alloc i : Q (i_path i) -> fr Q P c (alloc i).
Proof.
  intros U s a' s' E. unfold alloc in E. injection E as <- <-. apply af_set; try reflexivity. cbn. intros x i'. unfold nupd. destruct (x =? s_fresh s); [|eauto]. intros [= <-]. auto.
Qed.
Lemma fr_free p : fr Q P c (free p).
Proof.
  intros s a' s' E. unfold free, upd in E. injection E as <- <-. apply af_set; try reflexivity. cbn. intros x i'. unfold nupd. destruct (x =? p); [discriminate|]. eauto.
Qed.
Lemma fr_upd f : (forall s, s_heap (f s) = s_heap s /\ s_nodes (f s) = s_nodes s /\ s_puoids (f s) = s_puoids s /\ s_file (f s) = s_file s /\ s_write (f s) = s_write s /\ s_cache (f s) = s_cache s) -> fr Q P c (upd f).
Proof. intros H s a' s' E. injection E as <- <-. destruct (H s) as (A1 & A2 & A3 & A4 & A5 & A6). apply af_set; auto. rewrite A1. eauto. Qed.
Lemma fr_handle_value h : fr Q P c (handle_value h). Proof. apply fr_get. Qed.
Lemma fr_when (b : bool) m : fr Q P c m -> fr Q P c (when b m).
Proof. destruct b; intros H; [exact H|apply fr_ret]. Qed.
Lemma fr_link a b : fr Q P c (link_child a b).
Proof.
  unfold link_child. destruct a; [|apply fr_ret]. destruct b; [|apply fr_ret]. apply fr_bind; [apply fr_modify; reflexivity|]. intros _. apply fr_bind; [apply fr_deref|]. intros i.
  destruct (i_first i); [|apply fr_modify; reflexivity]. apply fr_bind; [apply fr_modify; reflexivity|]. intros _. apply fr_modify; reflexivity.
Qed.
Lemma fr_find_pred x : forall fuel o, fr Q P c (find_pred fuel o x).
Proof.
  induction fuel as [|f IH]; intros [p|]; cbn [find_pred]; try apply fr_ret; (apply fr_bind; [apply fr_deref|]; intros i; destruct (opt_eqb _ _); [apply fr_ret|]); [apply fr_giveup|apply IH].
Qed.
Lemma fr_unlink x : fr Q P c (unlink_child x).
Proof.
  unfold unlink_child. apply fr_bind; [apply fr_deref|]. intros ci. destruct (i_parent ci); [|apply fr_ret]. apply fr_bind; [apply fr_deref|]. intros pi. apply fr_bind; [|intros _; apply fr_modify; reflexivity].
  destruct (opt_eqb _ _); [apply fr_modify; reflexivity|]. apply fr_bind; [apply fr_get|]. intros n. apply fr_bind; [apply fr_find_pred|]. intros [q|]; [apply fr_modify; reflexivity|apply fr_ret].
Qed.
Lemma fr_find_by_path p : fr Q P c (find_by_path p).
Proof. unfold find_by_path. apply fr_bind; [apply fr_get|]. intros [h|]; [apply fr_get|apply fr_ret]. Qed.
Variable C : conf.
Lemma fr_populate p : fr Q P c (populate_info C p).
Proof.
  unfold populate_info. apply fr_bind; [apply fr_deref|]. intros i. destruct (i_info i); [apply fr_ret|]. apply fr_bind; [apply fr_tick|]. intros t. apply fr_bind; [apply fr_get|]. intros w.
  apply fr_bind; [|intros ph; apply fr_modify; reflexivity]. destruct (i_parent i); [|apply fr_ret]. apply fr_bind; [apply fr_deref|]. intros; apply fr_ret.
Qed.
Lemma fr_attach p info h : Q p -> fr Q P c (attach_new C p info h).
Proof.
  intros U. unfold attach_new. apply fr_bind; [apply fr_alloc; exact U|]. intros me. apply fr_bind; [apply fr_find_by_path|]. intros par. apply fr_bind; [apply fr_get|]. intros root.
  apply fr_bind; [apply fr_link|]. intros _. apply fr_bind; [destruct info; [apply fr_modify; reflexivity|apply fr_populate]|]. intros _. apply fr_bind; [|intros _; apply fr_ret].
  destruct (peqb p (c_root C)); [apply fr_modify; reflexivity|]. destruct (h =? 0); [|apply fr_modify; reflexivity]. apply fr_bind; [apply fr_tick|]. intros t. apply fr_modify; reflexivity.
Qed.
Lemma fr_add_watch p : fr Q P c (add_watch C p).
Proof.
  unfold add_watch. apply fr_bind; [apply fr_deref|]. intros i. destruct (is_assoc i); [|apply fr_ret]. apply fr_bind; [unfold sys_add_watch; apply fr_bind; [apply fr_tick|intros; apply fr_bind; [apply fr_get|intros; apply fr_ret]]|].
  intros wd. apply fr_bind; [apply fr_modify; reflexivity|]. intros _. destruct wd; [apply fr_upd; auto 10|apply fr_ret].
Qed.
Lemma fr_add_to_maps p : fr Q P c (add_to_maps C p).
Proof.
  intros s a s' E. unfold add_to_maps, bind, deref in E. destruct (s_heap s p) as [i|] eqn:Hp; [|discriminate]. unfold upd, get in E.
  set (s1 := set_handles _ _) in E. assert (H1 : s_heap s1 p = Some i) by exact Hp. change (s_puoids s1) with (s_puoids s) in E. destruct (s_puoids s (i_path i)) as [u|] eqn:Eu.
  - unfold modify in E. rewrite H1 in E. injection E as <- <-. apply af_set; try reflexivity. cbn. intros x i'. unfold nupd. destruct (x =? p) eqn:Ex; [|eauto]. apply N.eqb_eq in Ex as ->. intros [= <-]. left. exists i. auto.
  - unfold tick, modify in E. cbn [s_heap set_tick] in E. rewrite H1 in E. injection E as <- <-. constructor; cbn; auto.
    + intros x i'. unfold nupd. destruct (x =? p) eqn:Ex; [|eauto]. apply N.eqb_eq in Ex as ->. intros [= <-]. left. exists i. auto.
    + intros y u Hy. rewrite pupd_neq; [exact Hy|]. congruence.
Qed.
(** the disk *)
Lemma fr_nodes_create p n : Q p -> c = true -> forall s a s', upd (set_nodes (set_node p n (s_nodes s))) s = Ret (a, s') -> node_at p (s_nodes s) <> Some Dir -> afq Q P c s s'.
Proof.
  intros U Hc s a s' E Hn. injection E as <- <-. constructor; cbn; auto.
  - eauto.
  - intros y. rewrite node_at_set. destruct (peqb y p) eqn:Ey; [|auto]. apply peqb_eq in Ey as ->. auto.
  - intros y Hy. rewrite node_at_set. destruct (peqb y p) eqn:Ey; [|exact Hy]. apply peqb_eq in Ey as ->. contradiction.
Qed.
Lemma fr_create_file p info : Q p -> c = true -> fr Q P c (create_file C p info).
Proof.
  intros U Hc s a s' E. unfold create_file in E. unfold bind at 1 in E. destruct (sys_open_rw C p s) as [[ok s1]| |] eqn:E1; try discriminate.
  assert (X1 : afq Q P c s s1).
  { unfold sys_open_rw, bind, fails, tick, ret, get in E1. cbn in E1. assert (T : afq Q P c s (set_tick (S (s_tick s)) s)) by (apply af_set; try reflexivity; cbn; eauto).
    destruct (c_fail C (s_tick s)); cbn in E1; [apply Ret_inj in E1; injection E1 as <- <-; exact T|]. destruct (node_at p (s_nodes s)) as [[d|]|] eqn:En; try (injection E1 as <- <-; exact T).
    destruct (is_dir _ _ && _); [|injection E1 as <- <-; exact T]. unfold upd in E1. injection E1 as <- <-. eapply af_trans; [exact T|].
    eapply (fr_nodes_create p (File [])); [exact U|exact Hc|reflexivity|]. cbn. congruence. }
  destruct ok; cbn in E; [|injection E as <- <-; exact X1]. unfold fails, bind, tick, ret, get in E. cbn in E.
  eapply af_trans; [exact X1|]. assert (T : afq Q P c s1 (set_tick (S (s_tick s1)) s1)) by (apply af_set; try reflexivity; cbn; eauto).
  destruct (node_at p (s_nodes s1)) as [[d|]|] eqn:En; try (injection E as <- <-; exact T). destruct (c_fail C (s_tick s1)); cbn [negb when] in E; [injection E as <- <-; exact T|].
  unfold upd in E. injection E as <- <-. eapply af_trans; [exact T|]. eapply (fr_nodes_create p); [exact U|exact Hc|reflexivity|]. cbn. congruence.
Qed.
Lemma fr_create_directory p : Q p -> (forall y, under y p = true -> Q y \/ under y P = true) -> c = true -> fr Q P c (create_directory C p).
Proof.
  intros U V Hc s a s' E. unfold create_directory, bind, get in E. destruct (is_dir p (s_nodes s)); [injection E as <- <-; apply af_refl|]. unfold fails, bind, tick, ret in E.
  assert (T : afq Q P c s (set_tick (S (s_tick s)) s)) by (apply af_set; try reflexivity; cbn; eauto).
  destruct (c_fail C (s_tick s)); [injection E as <- <-; exact T|]. destruct (mkpath p (s_nodes s)) as [w'|] eqn:Em; [|injection E as <- <-; exact T]. unfold upd in E. injection E as <- <-.
  apply mkpath_ok in Em as [A B]. constructor; cbn; auto.
  - eauto.
  - intros y. destruct (A y) as [D|(D1 & D2 & D3)]; [auto|]. right. split; [exact Hc|]. destruct (V y D1); auto.
  - intros y Hy. destruct (A y) as [D|(D1 & D2 & D3)]; congruence.
Qed.
End Fr.

Lemma anc_split p e n : e = join p n -> ~ In slash n -> forall y, under y e = true -> under p y = true \/ under y p = true.
Proof. intros -> Hn y Hy. apply under_join_inv in Hy as [->|Hy]; [left; apply under_join, under_refl|right; exact Hy|exact Hn]. Qed.

Theorem add_frame C : forall fuel p info send create h, fr (below p) p create (add_to_storage C fuel p info send create h).
Proof.
  induction fuel as [|fuel IH]; intros p info send create h; [apply fr_giveup|]. cbn [add_to_storage].
  destruct (existsb (peqb p) (c_excl C)); [apply fr_ret|]. apply fr_bind; [apply fr_tick|]. intros t. destruct (link_refused C p (c_link C t p)); [apply fr_ret|].
  apply fr_bind; [apply fr_get|]. intros [k|]; [apply fr_bind; [apply fr_find_by_path|intros; apply fr_ret]|].
  apply fr_bind; [apply fr_attach, under_refl|]. intros me. apply fr_bind; [apply fr_deref|]. intros i. apply fr_bind; [unfold info_of; destruct (i_info i); [apply fr_ret|apply fr_crash]|]. intros o.
  apply fr_bind.
  - destruct (oi_format o =? FMT_Association).
    + apply fr_bind.
      { destruct create; [|apply fr_ret]. apply fr_create_directory; [apply under_refl| |reflexivity]. intros y Hy. auto. }
      intros rc. destruct (negb (isok rc)); [apply fr_ret|]. apply fr_bind; [apply fr_add_watch|]. intros _. apply fr_bind; [apply fr_add_to_maps|]. intros _. apply fr_bind; [apply fr_get|]. intros w.
      apply fr_bind; [|intros; apply fr_ret].
      assert (L : forall l, (forall e, In e l -> plain (base_of e) /\ e = join p (base_of e)) ->
        fr (below p) p create ((fix loop (l : list path) : M unit := match l with [] => ret tt | e :: l' => _ <- add_to_storage C fuel e None send create 0 ;; loop l' end) l)).
      { induction l as [|e l IHl]; intros Hl; [apply fr_ret|]. apply fr_bind; [|intros _; apply IHl; intros e' He'; apply Hl; right; exact He'].
        destruct (Hl e (or_introl eq_refl)) as [He1 He2]. intros s a s' E. eapply af_weaken; [| |eapply IH; exact E].
        - rewrite He2. apply under_join, under_refl.
        - eapply anc_split; [exact He2|apply He1]. }
      apply L. intros e He. apply entries_spec in He. exact He.
    + apply fr_bind.
      { destruct create; [|apply fr_ret]. apply fr_create_file; [apply under_refl|reflexivity]. }
      intros rc. destruct (negb (isok rc)); [apply fr_ret|]. apply fr_bind; [apply fr_add_to_maps|]. intros _. apply fr_bind; [apply fr_deref|]. intros i2. apply fr_bind; [apply fr_upd; auto 10|]. intros; apply fr_ret.
  - intros rc. destruct (negb (isok rc)).
    + apply fr_bind; [apply fr_unlink|]. intros _. apply fr_bind; [apply fr_free|]. intros; apply fr_ret.
    + apply fr_bind; [apply fr_deref|]. intros i2. apply fr_bind; [apply fr_when; unfold emit; apply fr_upd; auto 10|]. intros; apply fr_ret.
Qed.

(** ** Adding where nothing is: exactly one object appears *)
Definition nothing_below (p : path) (w : nodes) : Prop := forall y, under p y = true -> y <> p -> node_at y w = None.
Lemma key_node k : forall w, In k (map fst w) -> node_at k w <> None.
Proof.
  induction w as [|[x n] w IH]; [intros []|]. cbn [map fst In node_at]. intros Hk. destruct (peqb k x) eqn:E; [discriminate|]. destruct Hk as [->|Hk]; [rewrite peqb_refl in E; discriminate|]. apply IH. exact Hk.
Qed.
Lemma entries_none p w : nothing_below p w -> entries_of p w = [].
Proof.
  intros H. destruct (entries_of p w) as [|e l] eqn:E; [reflexivity|]. exfalso. assert (I : In e (entries_of p w)) by (rewrite E; left; reflexivity).
  pose proof I as I2. apply entries_spec in I2 as [P1 P2]. apply filter_In in I as [I _]. apply key_node in I. apply I, H.
  - rewrite P2. apply under_join, under_refl.
  - intros Ee. rewrite Ee in P2 at 1. apply (f_equal len) in P2. rewrite len_join in P2. lia.
Qed.
Lemma nothing_afq p c s s' : nothing_below p (s_nodes s) -> afq (eq p) p c s s' -> nothing_below p (s_nodes s').
Proof.
  intros H A y U N. destruct (A_node _ _ _ _ _ A y) as [E|(_ & [E|(E & _)])].
  - rewrite E. apply H; assumption.
  - congruence.
  - exfalso. apply N. apply under_len_eq; [exact U|]. pose proof (under_len _ _ U). pose proof (under_len _ _ E). lia.
Qed.
Definition fn {A} (p : path) (c : bool) (m : M A) : Prop := forall s a s', nothing_below p (s_nodes s) -> m s = Ret (a, s') -> afq (eq p) p c s s'.
Lemma fr_fn {A} p c (m : M A) : fr (eq p) p c m -> fn p c m.
Proof. intros H s a s' _. apply H. Qed.
Lemma fn_bind {A B} p c (m : M A) (f : A -> M B) : fn p c m -> (forall a, fn p c (f a)) -> fn p c (bind m f).
Proof.
  intros H1 H2 s b s' HN E. unfold bind in E. destruct (m s) as [[a s1]| |] eqn:E1; try discriminate. pose proof (H1 s a s1 HN E1) as X. eapply af_trans; [exact X|]. eapply H2; [|exact E]. eapply nothing_afq; eassumption.
Qed.
Theorem add_one C fuel p info send create h : fn p create (add_to_storage C fuel p info send create h).
Proof.
  destruct fuel as [|fuel]; [apply fr_fn, fr_giveup|]. cbn [add_to_storage].
  destruct (existsb (peqb p) (c_excl C)); [apply fr_fn, fr_ret|]. apply fn_bind; [apply fr_fn, fr_tick|]. intros t. destruct (link_refused C p (c_link C t p)); [apply fr_fn, fr_ret|].
  apply fn_bind; [apply fr_fn, fr_get|]. intros [k|]; [apply fr_fn, fr_bind; [apply fr_find_by_path|intros; apply fr_ret]|].
  apply fn_bind; [apply fr_fn, fr_attach; reflexivity|]. intros me. apply fn_bind; [apply fr_fn, fr_deref|]. intros i. apply fn_bind; [apply fr_fn; unfold info_of; destruct (i_info i); [apply fr_ret|apply fr_crash]|]. intros o.
  apply fn_bind.
  - destruct (oi_format o =? FMT_Association).
    + apply fn_bind.
      { apply fr_fn. destruct create; [|apply fr_ret]. apply fr_create_directory; [reflexivity| |reflexivity]. intros y Hy. auto. }
      intros rc. destruct (negb (isok rc)); [apply fr_fn, fr_ret|]. apply fn_bind; [apply fr_fn, fr_add_watch|]. intros _. apply fn_bind; [apply fr_fn, fr_add_to_maps|]. intros _.
      intros s a s' HN E. unfold bind at 1 in E. unfold get in E at 1. rewrite (entries_none _ _ HN) in E. cbn in E. injection E as <- <-. apply af_refl.
    + apply fr_fn. apply fr_bind.
      { destruct create; [|apply fr_ret]. apply fr_create_file; reflexivity. }
      intros rc. destruct (negb (isok rc)); [apply fr_ret|]. apply fr_bind; [apply fr_add_to_maps|]. intros _. apply fr_bind; [apply fr_deref|]. intros i2. apply fr_bind; [apply fr_upd; auto 10|]. intros; apply fr_ret.
  - intros rc. apply fr_fn. destruct (negb (isok rc)).
    + apply fr_bind; [apply fr_unlink|]. intros _. apply fr_bind; [apply fr_free|]. intros; apply fr_ret.
    + apply fr_bind; [apply fr_deref|]. intros i2. apply fr_bind; [apply fr_when; unfold emit; apply fr_upd; auto 10|]. intros; apply fr_ret.
Qed.
