(** Which folders the program would hear about: a small logic for the watch descriptors.
    It speaks about single items, so most of it needs no well-formed tree. *)
From Verif Require Import Base AList Wire FS FSPath FSTree FSLogic.

(** what the object info of an item says it is: unknown, a file, a folder *)
Definition kind (i : item) : option bool := match i_info i with Some o => Some (oi_format o =? FMT_Association) | None => None end.
(** events with the item's watch descriptor reach the item *)
Definition hearing (s : fs) (i : item) : Prop := exists n, i_wd i = Some n /\ s_wds s n = Some (i_handle i).
Definition deaf (s : fs) (x : ptr) : Prop := exists i, s_heap s x = Some i /\ kind i <> Some false /\ ~ hearing s i.

Lemma assoc_kind i : is_assoc i = true <-> kind i = Some true.
Proof. unfold is_assoc, kind. destruct (i_info i); split; congruence. Qed.

Section Watch.
Variable C : conf.

(** watch numbers are used once; items are allocated below the next free address *)
Record inv (s : fs) : Prop := {
  V_old : forall x i n, s_heap s x = Some i -> i_wd i = Some n -> exists t, (t < s_tick s)%nat /\ c_wd C t = Some n;
  V_uniq : forall x y i j n, s_heap s x = Some i -> s_heap s y = Some j -> i_wd i = Some n -> i_wd j = Some n -> x = y;
  V_bd : forall x i, s_heap s x = Some i -> x < s_fresh s }.
(** [D]: the items that may be deaf; [K]: what is known of handles and kinds *)
Record asrt (D : ptr -> Prop) (K : ptr -> N -> option bool -> Prop) (s : fs) : Prop := {
  A_inv : inv s;
  A_new : forall x, s_fresh s <= x -> forall h k, K x h k;
  A_up : forall x h k, K x h None -> K x h k;
  A_k : forall x i, s_heap s x = Some i -> K x (i_handle i) (kind i);
  A_d : forall x, deaf s x -> D x }.
Definition tr3 {A} D K (m : M A) D' : Prop := forall s a s', asrt D K s -> m s = Ret (a, s') -> asrt (D' a) K s'.
Definition nt {A} (m : M A) : Prop := forall D K, tr3 D K m (fun _ => D).

Lemma nt_ret {A} (a : A) : nt (ret a).
Proof. intros D K s a' s' H E. injection E as <- <-. exact H. Qed.
Lemma nt_bind {A B} (m : M A) (f : A -> M B) : nt m -> (forall a, nt (f a)) -> nt (bind m f).
Proof. intros H1 H2 D K s b s' H E. unfold bind in E. destruct (m s) as [[a s1]| |] eqn:E1; try discriminate. eapply H2; [|exact E]. eapply H1; eassumption. Qed.
Lemma nt_get {A} (g : fs -> A) : nt (get g).
Proof. intros D K s a' s' H E. injection E as <- <-. exact H. Qed.
Lemma nt_crash {A} : nt (@crash A).
Proof. intros D K s a' s' H E. discriminate. Qed.
Lemma nt_giveup {A} : nt (@give_up A).
Proof. intros D K s a' s' H E. discriminate. Qed.
Lemma asrt_same D K s s' : asrt D K s -> s_heap s' = s_heap s -> s_fresh s' = s_fresh s -> s_wds s' = s_wds s -> (s_tick s <= s_tick s')%nat -> asrt D K s'.
Proof.
  intros [I A1 A2 A3 A4] EH EF EW ET. constructor; [|rewrite EF; exact A1|exact A2|rewrite EH; exact A3|].
  - destruct I as [B1 B2 B3]. constructor; rewrite EH; [|exact B2|rewrite EF; exact B3]. intros x i n H1 H2. destruct (B1 x i n H1 H2) as (t & T1 & T2). exists t. split; [lia|exact T2].
  - intros x (i & H1 & H2 & H3). apply A4. exists i. rewrite <- EH. split; [exact H1|]. split; [exact H2|]. intros (n & N1 & N2). apply H3. exists n. rewrite EW. auto.
Qed.
Lemma nt_upd f : (forall s, s_heap (f s) = s_heap s /\ s_fresh (f s) = s_fresh s /\ s_wds (f s) = s_wds s /\ s_tick (f s) = s_tick s) -> nt (upd f).
Proof. intros H D K s a s' HA E. injection E as <- <-. destruct (H s) as (A1 & A2 & A3 & A4). eapply asrt_same; try eassumption. lia. Qed.
Lemma nt_tick : nt tick.
Proof. intros D K s a s' HA E. injection E as <- <-. eapply asrt_same; [exact HA|reflexivity..|cbn; lia]. Qed.
Lemma nt_deref p : nt (deref p).
Proof. intros D K s a s' HA E. unfold deref in E. destruct (s_heap s p); [|discriminate]. injection E as <- <-. exact HA. Qed.
Lemma nt_deref_opt p : nt (deref_opt p).
Proof. destruct p; [apply nt_deref|apply nt_crash]. Qed.
Lemma nt_info i : nt (info_of i).
Proof. unfold info_of. destruct (i_info i); [apply nt_ret|apply nt_crash]. Qed.
Lemma nt_when (b : bool) m : nt m -> nt (when b m).
Proof. destruct b; intros H; [exact H|apply nt_ret]. Qed.
Lemma nt_handle_ref h : nt (handle_ref h).
Proof. intros D K s a s' HA E. unfold handle_ref in E. destruct (aget h (s_handles s)); injection E as <- <-; [exact HA|]. eapply asrt_same; [exact HA|reflexivity..|cbn; lia]. Qed.
Lemma nt_has_handle h : nt (has_handle h). Proof. apply nt_get. Qed.
Lemma nt_handle_value h : nt (handle_value h). Proof. apply nt_get. Qed.
Lemma nt_emit e l : nt (emit e l). Proof. apply nt_upd. auto. Qed.

(** one item is replaced by another with the same watch and handle *)
Lemma asrt_item (D D' : ptr -> Prop) (K : ptr -> N -> option bool -> Prop) s p i j : asrt D K s -> s_heap s p = Some i -> i_wd j = i_wd i -> K p (i_handle j) (kind j) ->
  (forall x, x <> p -> D x -> D' x) -> (kind j <> Some false -> ~ hearing s j -> D' p) -> asrt D' K (set_heap (nupd (s_heap s) p (Some j)) s).
Proof.
  intros [I A1 A2 A3 A4] Hp Ew HK HD HP. destruct I as [B1 B2 B3].
  assert (G : forall x k, nupd (s_heap s) p (Some j) x = Some k -> exists k0, s_heap s x = Some k0 /\ i_wd k = i_wd k0 /\ ((x = p /\ k = j) \/ (x <> p /\ k0 = k))).
  { intros x k. unfold nupd. destruct (x =? p) eqn:E; [apply N.eqb_eq in E; intros [= <-]; subst x; exists i; auto|apply N.eqb_neq in E; intros H; exists k; auto]. }
  constructor; cbn [s_heap set_heap s_fresh]; auto.
  - constructor; cbn [s_heap set_heap s_fresh s_tick].
    + intros x k n H1 H2. destruct (G x k H1) as (k0 & G1 & G2 & _). apply (B1 x k0 n G1). congruence.
    + intros x y k l n H1 H2 H3 H4. destruct (G x k H1) as (k0 & G1 & G2 & _). destruct (G y l H2) as (l0 & L1 & L2 & _). apply (B2 x y k0 l0 n G1 L1); congruence.
    + intros x k H1. destruct (G x k H1) as (k0 & G1 & _). exact (B3 x k0 G1).
  - intros x k H1. destruct (G x k H1) as (k0 & G1 & G2 & [[-> ->]|[N E]]); [exact HK|]. subst k0. apply A3. exact G1.
  - intros x (k & H1 & H2 & H3). cbn [s_heap set_heap] in H1. destruct (G x k H1) as (k0 & G1 & G2 & [[-> ->]|[N E]]).
    + apply HP; [exact H2|]. exact H3.
    + subst k0. apply HD; [exact N|]. apply A4. exists k. auto.
Qed.
Lemma nt_modify p f : (forall i, i_wd (f i) = i_wd i /\ i_handle (f i) = i_handle i /\ kind (f i) = kind i) -> nt (modify p f).
Proof.
  intros Hf D K s a s' HA E. unfold modify in E. destruct (s_heap s p) as [i|] eqn:Hp; [|discriminate]. injection E as <- <-. destruct (Hf i) as (F1 & F2 & F3).
  eapply asrt_item; [exact HA|exact Hp|exact F1| |auto|].
  - rewrite F2, F3. apply (A_k _ _ _ HA). exact Hp.
  - intros H1 H2. apply (A_d _ _ _ HA). exists i. rewrite F3 in H1. split; [exact Hp|]. split; [exact H1|]. intros (n & N1 & N2). apply H2. exists n. rewrite F1, F2. auto.
Qed.
(** an item nothing is known about may change freely, and is then suspect *)
Lemma mod_free (D : ptr -> Prop) (K : ptr -> N -> option bool -> Prop) p f : (forall h k, K p h k) -> (forall i, i_wd (f i) = i_wd i) -> D p -> tr3 D K (modify p f) (fun _ => D).
Proof.
  intros HK Hf HD s a s' HA E. unfold modify in E. destruct (s_heap s p) as [i|] eqn:Hp; [|discriminate]. injection E as <- <-. eapply asrt_item; [exact HA|exact Hp|apply Hf|apply HK|auto|auto].
Qed.
Lemma free_p (D : ptr -> Prop) K p : tr3 (fun x => D x \/ x = p) K (free p) (fun _ => D).
Proof.
  intros s a s' [I A1 A2 A3 A4] E. unfold free, upd in E. injection E as <- <-. destruct I as [B1 B2 B3].
  assert (G : forall x k, nupd (s_heap s) p None x = Some k -> s_heap s x = Some k /\ x <> p).
  { intros x k. unfold nupd. destruct (x =? p) eqn:E; [discriminate|apply N.eqb_neq in E; auto]. }
  constructor; cbn [s_heap set_heap s_fresh]; auto.
  - constructor; cbn [s_heap set_heap s_fresh s_tick].
    + intros x k n H1. apply G in H1 as [H1 _]. apply (B1 x k n H1).
    + intros x y k l n H1 H2. apply G in H1 as [H1 _]. apply G in H2 as [H2 _]. apply (B2 x y k l n H1 H2).
    + intros x k H1. apply G in H1 as [H1 _]. exact (B3 x k H1).
  - intros x k H1. apply G in H1 as [H1 _]. auto.
  - intros x (k & H1 & H2 & H3). cbn [s_heap set_heap] in H1. apply G in H1 as [H1 N]. destruct (A4 x) as [Z|Z]; [exists k; auto|exact Z|contradiction].
Qed.
Lemma tr_weak {A} (D : ptr -> Prop) K (m : M A) (D' : A -> ptr -> Prop) (D1 : ptr -> Prop) (D1' : A -> ptr -> Prop) : tr3 D K m D' -> (forall x, D1 x -> D x) -> (forall a x, D' a x -> D1' a x) -> tr3 D1 K m D1'.
Proof.
  intros H H1 H2 s a s' [I A1 A2 A3 A4] E. assert (X : asrt D K s) by (constructor; auto). pose proof (H s a s' X E) as [I' B1 B2 B3 B4]. constructor; auto.
Qed.
Lemma asrt_weak (D D' : ptr -> Prop) K s : asrt D K s -> (forall x, D x -> D' x) -> asrt D' K s.
Proof. intros [I A1 A2 A3 A4] H. constructor; auto. Qed.
Lemma nt_free p : nt (free p).
Proof. intros D K. eapply tr_weak; [apply (free_p D K p)|intros x Hx; left; exact Hx|intros a x Hx; exact Hx]. Qed.
(** a new item is suspect, and nothing is known about it *)
Lemma alloc_new (D : ptr -> Prop) (K : ptr -> N -> option bool -> Prop) p s a s' : asrt D K s -> alloc (new_item p) s = Ret (a, s') -> asrt (fun x => D x \/ x = a) K s' /\ (forall h k, K a h k) /\ s_fresh s <= a /\ s_heap s a = None.
Proof.
  intros [I A1 A2 A3 A4] E. unfold alloc in E. injection E as <- <-. destruct I as [B1 B2 B3]. set (a := s_fresh s) in *.
  assert (G : forall x k, nupd (s_heap s) a (Some (new_item p)) x = Some k -> (x = a /\ k = new_item p) \/ (x <> a /\ s_heap s x = Some k)).
  { intros x k. unfold nupd. destruct (x =? a) eqn:E; [apply N.eqb_eq in E; intros [= <-]; auto|apply N.eqb_neq in E; auto]. }
  split; [|split; [intros; apply A1; unfold a; lia|]; split; [lia|]; destruct (s_heap s a) eqn:E; [apply B3 in E; unfold a in E; lia|reflexivity]].
  constructor; cbn [s_heap set_heap s_fresh set_fresh]; auto.
  - constructor; cbn [s_heap set_heap s_fresh s_tick set_fresh].
    + intros x k n H1. apply G in H1 as [[_ ->]|[_ H1]]; [discriminate|]. apply (B1 x k n H1).
    + intros x y k l n H1 H2 H3 H4. apply G in H1 as [[-> ->]|[_ H1]]; [discriminate|]. apply G in H2 as [[-> ->]|[_ H2]]; [discriminate|]. eapply B2; eassumption.
    + intros x k H1. apply G in H1 as [[-> _]|[_ H1]]; [unfold a; lia|]. apply B3 in H1. fold a in H1. lia.
  - intros x Hx. apply A1. unfold a in Hx. lia.
  - intros x k H1. apply G in H1 as [[-> _]|[_ H1]]; [apply A1; unfold a; lia|auto].
  - intros x (k & H1 & H2 & H3). cbn [s_heap set_heap set_fresh] in H1. apply G in H1 as [[-> _]|[_ H1]]; [auto|left; apply A4; exists k; auto].
Qed.

(** *** Watches *)
Variables (WT : forall t, c_wd C t <> None) (WI : forall t t' n, c_wd C t = Some n -> c_wd C t' = Some n -> t = t').
(** the kernel has nothing to watch there *)
Definition missing (s : fs) (x : ptr) : Prop := exists i, s_heap s x = Some i /\ exists_at (i_path i) (s_nodes s) = false.
Lemma add_watch_s p s a s' : add_watch C p s = Ret (a, s') -> exists i, s_heap s p = Some i /\
  ((is_assoc i = false /\ s' = s) \/ (is_assoc i = true /\ exists_at (i_path i) (s_nodes s) = true /\ exists n, c_wd C (s_tick s) = Some n /\
     s' = set_wds (nupd (s_wds s) n (Some (i_handle i))) (set_heap (nupd (s_heap s) p (Some (it_wd (Some n) i))) (set_tick (S (s_tick s)) s)))
   \/ (is_assoc i = true /\ exists_at (i_path i) (s_nodes s) = false /\ s' = set_heap (nupd (s_heap s) p (Some (it_wd None i))) (set_tick (S (s_tick s)) s))).
Proof.
  unfold add_watch, sys_add_watch. unfold bind at 1. unfold deref at 1. destruct (s_heap s p) as [i|] eqn:Hp; [|discriminate]. intros E. exists i. split; [reflexivity|].
  destruct (is_assoc i); [|left; injection E as <- <-; auto]. right. unfold bind, tick, ret, get, modify in E. cbn [s_heap s_nodes set_tick] in E. destruct (exists_at (i_path i) (s_nodes s)).
  - left. split; [reflexivity|]. split; [reflexivity|]. rewrite Hp in E. destruct (c_wd C (s_tick s)) as [n|] eqn:En; [|exfalso; exact (WT _ En)]. exists n. split; [reflexivity|]. unfold upd in E. injection E as <- <-. reflexivity.
  - right. split; [reflexivity|]. split; [reflexivity|]. rewrite Hp in E. injection E as <- <-. reflexivity.
Qed.
(** losing the watch number of one item *)
Lemma asrt_unset (D : ptr -> Prop) K s p i : asrt D K s -> s_heap s p = Some i -> D p -> asrt D K (set_heap (nupd (s_heap s) p (Some (it_wd None i))) s).
Proof.
  intros [I A1 A2 A3 A4] Hp HD. destruct I as [B1 B2 B3].
  assert (G : forall x k, nupd (s_heap s) p (Some (it_wd None i)) x = Some k -> (x = p /\ k = it_wd None i) \/ (x <> p /\ s_heap s x = Some k)).
  { intros x k. unfold nupd. destruct (x =? p) eqn:E; [apply N.eqb_eq in E; intros [= <-]; auto|apply N.eqb_neq in E; auto]. }
  constructor; cbn [s_heap set_heap s_fresh]; auto.
  - constructor; cbn [s_heap set_heap s_fresh s_tick].
    + intros x k n H1 H2. apply G in H1 as [[-> ->]|[_ H1]]; [discriminate|]. exact (B1 x k n H1 H2).
    + intros x y k l n H1 H2 H3 H4. apply G in H1 as [[-> ->]|[_ H1]]; [discriminate|]. apply G in H2 as [[-> ->]|[_ H2]]; [discriminate|]. exact (B2 x y k l n H1 H2 H3 H4).
    + intros x k H1. apply G in H1 as [[-> _]|[_ H1]]; [exact (B3 p i Hp)|exact (B3 x k H1)].
  - intros x k H1. apply G in H1 as [[-> ->]|[_ H1]]; [exact (A3 p i Hp)|auto].
  - intros x (k & H1 & H2 & H3). cbn [s_heap set_heap] in H1. apply G in H1 as [[-> ->]|[_ H1]]; [exact HD|]. apply A4. exists k. auto.
Qed.
Lemma add_watch_tr (D : ptr -> Prop) (K : ptr -> N -> option bool -> Prop) p s a s' : (forall h, ~ K p h None) -> asrt (fun x => D x \/ x = p) K s -> add_watch C p s = Ret (a, s') -> asrt (fun x => D x \/ (x = p /\ missing s p)) K s'.
Proof.
  intros KP HA E. apply add_watch_s in E as (i & Hp & [[Ea ->]|[(Ea & Ex & n & En & ->)|(Ea & Ex & ->)]]).
  - destruct HA as [I A1 A2 A3 A4]. constructor; auto. intros x Hx. destruct (A4 x Hx) as [Z| ->]; [auto|]. exfalso. destruct Hx as (j & H1 & H2 & _). rewrite Hp in H1. injection H1 as <-.
    pose proof (A3 p i Hp) as Z. unfold is_assoc in Ea. unfold kind in H2, Z. destruct (i_info i); [rewrite Ea in H2; contradiction|exact (KP _ Z)].
  - destruct HA as [I A1 A2 A3 A4]. destruct I as [B1 B2 B3].
    assert (G : forall x k, nupd (s_heap s) p (Some (it_wd (Some n) i)) x = Some k -> (x = p /\ k = it_wd (Some n) i) \/ (x <> p /\ s_heap s x = Some k)).
    { intros x k. unfold nupd. destruct (x =? p) eqn:E; [apply N.eqb_eq in E; intros [= <-]; auto|apply N.eqb_neq in E; auto]. }
    assert (FR : forall x k, s_heap s x = Some k -> i_wd k <> Some n).
    { intros x k H1 H2. destruct (B1 x k n H1 H2) as (t & T1 & T2). pose proof (WI _ _ _ T2 En). lia. }
    constructor; cbn [s_heap set_heap s_fresh set_wds set_tick]; auto.
    + constructor; cbn [s_heap set_heap s_fresh s_tick set_wds set_tick].
      * intros x k m H1 H2. apply G in H1 as [[-> ->]|[_ H1]]; [cbn in H2; injection H2 as <-; exists (s_tick s); split; [lia|exact En]|]. destruct (B1 x k m H1 H2) as (t & T1 & T2). exists t. split; [lia|exact T2].
      * intros x y k l m H1 H2 H3 H4. apply G in H1 as [[-> ->]|[N1 H1]]; apply G in H2 as [[-> ->]|[N2 H2]]; auto.
        -- cbn in H3. exfalso. apply (FR y l H2). congruence.
        -- cbn in H4. exfalso. apply (FR x k H1). congruence.
        -- eapply B2; eassumption.
      * intros x k H1. apply G in H1 as [[-> _]|[_ H1]]; eauto.
    + intros x k H1. apply G in H1 as [[-> ->]|[_ H1]]; [exact (A3 p i Hp)|auto].
    + intros x (k & H1 & H2 & H3). cbn [s_heap set_heap set_wds set_tick] in H1. apply G in H1 as [[-> ->]|[N H1]].
      * exfalso. apply H3. exists n. split; [reflexivity|]. cbn. apply nupd_eq.
      * destruct (A4 x) as [Z|Z]; [|auto|contradiction]. exists k. split; [exact H1|]. split; [exact H2|]. intros (m & M1 & M2). apply H3. exists m. split; [exact M1|]. cbn. rewrite nupd_neq; [exact M2|]. intros ->. exact (FR x k H1 M1).
  - assert (HT : asrt (fun x => D x \/ (x = p /\ missing s p)) K (set_tick (S (s_tick s)) s)).
    { assert (H0 : asrt (fun x => D x \/ (x = p /\ missing s p)) K s) by (eapply asrt_weak; [exact HA|]; intros x [Z| ->]; [auto|right]; split; [reflexivity|]; exists i; auto).
      eapply asrt_same; [exact H0|reflexivity..|cbn; lia]. }
    pose proof (asrt_unset _ _ _ p i HT Hp) as X. apply X. right. split; [reflexivity|]. exists i. auto.
Qed.
(** what is not known to be a folder gets no watch *)
Lemma add_watch_none p s a s' : (forall i, s_heap s p = Some i -> kind i = None) -> add_watch C p s = Ret (a, s') -> s' = s.
Proof.
  intros HN E. apply add_watch_s in E as (i & Hp & [[Ea ->]|[(Ea & _)|(Ea & _)]]); [reflexivity|..]; apply assoc_kind in Ea; rewrite (HN i Hp) in Ea; discriminate.
Qed.
Lemma remove_watch_tr (D : ptr -> Prop) K p : tr3 D K (remove_watch p) (fun _ x => D x \/ x = p).
Proof.
  intros s a s' HA E. unfold remove_watch in E. unfold bind at 1 in E. unfold deref at 1 in E. destruct (s_heap s p) as [i|] eqn:Hp; [|discriminate].
  assert (Z : asrt (fun x => D x \/ x = p) K s) by (eapply asrt_weak; [exact HA|auto]).
  destruct (is_assoc i); [|injection E as <- <-; exact Z]. destruct (i_wd i) as [n|] eqn:Ew; [|injection E as <- <-; exact Z]. unfold upd in E. injection E as <- <-.
  destruct HA as [I A1 A2 A3 A4]. constructor; cbn [s_heap set_wds s_fresh]; auto.
  - destruct I as [B1 B2 B3]. constructor; cbn [s_heap set_wds s_fresh s_tick]; assumption.
  - intros x (k & H1 & H2 & H3). cbn [s_heap set_wds] in H1. destruct (N.eq_dec x p) as [E|N]; [auto|]. left. apply A4. exists k. split; [exact H1|]. split; [exact H2|]. intros (m & M1 & M2). apply H3. exists m. split; [exact M1|].
    cbn. rewrite nupd_neq; [exact M2|]. intros ->. apply N. exact (V_uniq s I x p k i n H1 Hp M1 Ew).
Qed.
Lemma nt_remove_file p s a s' D K : asrt D K s -> (forall i, s_heap s p = Some i -> kind i = None) -> remove_watch p s = Ret (a, s') -> s' = s.
Proof.
  intros HA HN E. unfold remove_watch in E. unfold bind at 1 in E. unfold deref at 1 in E. destruct (s_heap s p) as [i|] eqn:Hp; [|discriminate]. pose proof (HN i eq_refl) as Z. unfold is_assoc in E. unfold kind in Z. destruct (i_info i); [discriminate|]. injection E as _ <-. reflexivity.
Qed.
End Watch.
