(** The pointer structure of the object tree: first child / next sibling lists. *)
From Verif Require Import Base AList Wire FS FSPath.

Notation heap := (ptr -> option item).
(** the list starting at [o] and linked by next-sibling pointers is [l] *)
Fixpoint seg (H : heap) (o : option ptr) (l : list ptr) : Prop :=
  match l with
  | [] => o = None
  | q :: r => o = Some q /\ exists i, H q = Some i /\ seg H (i_next i) r
  end.
(** [ch p]: the child list of p; [R]: items that are in no child list (the root, and
    an item while it is being attached or detached). *)
Record T (H : heap) (ch : ptr -> list ptr) (R : ptr -> Prop) : Prop := {
  T_seg : forall p i, H p = Some i -> seg H (i_first i) (ch p);
  T_par : forall p i, H p = Some i -> ~ R p -> exists q j, i_parent i = Some q /\ H q = Some j /\ In p (ch q);
  T_ch : forall q j c, H q = Some j -> In c (ch q) -> exists i, H c = Some i /\ i_parent i = Some q /\ ~ R c;
  T_nd : forall q j, H q = Some j -> NoDup (ch q) }.

Lemma seg_frame H H' : forall l o, (forall q i, In q l -> H q = Some i -> exists i', H' q = Some i' /\ i_next i' = i_next i) ->
  seg H o l -> seg H' o l.
Proof.
  induction l as [|q r IH]; intros o Hf Hs; cbn [seg] in *; [exact Hs|].
  destruct Hs as [-> (i & Hi & Hr)]. split; [reflexivity|]. destruct (Hf q i) as (i' & E1 & E2); [left; reflexivity|exact Hi|].
  exists i'. split; [exact E1|]. rewrite E2. apply IH; [|exact Hr]. intros x j Hx. apply Hf. right. exact Hx.
Qed.
Lemma seg_live H : forall l o q, seg H o l -> In q l -> exists i, H q = Some i.
Proof.
  induction l as [|x r IH]; intros o q Hs Hq; [contradiction|]. destruct Hs as [_ (i & Hi & Hr)].
  destruct Hq as [->|Hq]; [eauto|]. eapply IH; eauto.
Qed.
Lemma seg_det H : forall l l' o, seg H o l -> seg H o l' -> l = l'.
Proof.
  induction l as [|x r IH]; intros [|x' r'] o H1 H2; cbn [seg] in *; auto.
  - destruct H2 as [E _]. congruence.
  - destruct H1 as [E _]. congruence.
  - destruct H1 as [E1 (i & Hi & Hr)], H2 as [E2 (i' & Hi' & Hr')]. rewrite E1 in E2. injection E2 as <-. f_equal.
    rewrite Hi in Hi'. injection Hi' as <-. eapply IH; eassumption.
Qed.
Lemma seg_nil H l : seg H None l -> l = [].
Proof. destruct l; [reflexivity|]. intros [E _]. discriminate. Qed.
Lemma seg_some H l p : seg H (Some p) l -> exists r, l = p :: r.
Proof. destruct l as [|x r]; [discriminate|]. intros [E _]. injection E as <-. eauto. Qed.

(** same item up to the list links *)
Definition lk (i i' : item) : Prop := exists f n, i' = it_first f (it_next n i).
Lemma lk_refl i : lk i i.
Proof. exists (i_first i), (i_next i). destruct i; reflexivity. Qed.
Lemma lk_trans a b c : lk a b -> lk b c -> lk a c.
Proof. intros (f & n & ->) (f' & n' & ->). exists f', n'. reflexivity. Qed.
Definition hlk (H H' : heap) : Prop :=
  forall x, match H x, H' x with Some i, Some i' => lk i i' | None, None => True | _, _ => False end.
Lemma hlk_refl H : hlk H H.
Proof. intros x. destruct (H x); [apply lk_refl|exact I]. Qed.
Lemma hlk_trans A B C : hlk A B -> hlk B C -> hlk A C.
Proof.
  intros X Y x. specialize (X x). specialize (Y x). destruct (A x), (B x), (C x); try contradiction; auto. eapply lk_trans; eassumption.
Qed.
Lemma hlk_fwd H H' x i : hlk H H' -> H x = Some i -> exists i', H' x = Some i' /\ lk i i'.
Proof. intros X E. specialize (X x). rewrite E in X. destruct (H' x); [eauto|contradiction]. Qed.
Lemma hlk_bwd H H' x i' : hlk H H' -> H' x = Some i' -> exists i, H x = Some i /\ lk i i'.
Proof. intros X E. specialize (X x). rewrite E in X. destruct (H x); [eauto|contradiction]. Qed.
Lemma hlk_upd H p i i' : H p = Some i -> lk i i' -> hlk H (nupd H p (Some i')).
Proof.
  intros E L x. unfold nupd. destruct (x =? p) eqn:X; [|destruct (H x); [apply lk_refl|exact I]].
  replace x with p by lia. rewrite E. exact L.
Qed.

(** ** Counting: a duplicate-free list of small numbers is short *)
Lemma short_list (l : list N) (n : N) : NoDup l -> (forall x, In x l -> x < n) -> (length l <= N.to_nat n)%nat.
Proof.
  intros ND Hb. rewrite <- (map_length N.to_nat l). rewrite <- (seq_length (N.to_nat n) 0). apply NoDup_incl_length.
  - clear Hb. induction ND as [|x l Hx ND IH]; [constructor|]. cbn [map]. constructor; [|exact IH].
    intros X. apply in_map_iff in X as (y & E & Hy). apply N2Nat.inj in E. congruence.
  - intros k Hk. apply in_map_iff in Hk as (x & <- & Hx). apply in_seq. specialize (Hb x Hx). lia.
Qed.

(** ** Linking *)
Definition linked (H : heap) (c par : ptr) (ci pi : item) : heap :=
  nupd (nupd H par (Some (it_first (Some c) pi))) c (Some (it_next (i_first pi) (it_parent (Some par) ci))).
Lemma link_exec c par s ci pi : s_heap s c = Some ci -> s_heap s par = Some pi -> c <> par -> i_next ci = None ->
  exists H', link_child (Some c) (Some par) s = Ret (tt, set_heap H' s) /\
  (forall x, H' x = linked (s_heap s) c par ci pi x).
Proof.
  intros Hc Hp Hne Hn. unfold link_child, bind, modify, deref. rewrite Hc. cbn [s_heap set_heap].
  rewrite nupd_neq by congruence. rewrite Hp. destruct (i_first pi) as [old|] eqn:E.
  - cbn [s_heap set_heap]. rewrite (nupd_neq _ _ c) by congruence. rewrite Hp. cbn [s_heap set_heap].
    rewrite (nupd_neq _ _ par) by congruence. rewrite nupd_eq. eexists. split; [reflexivity|].
    intros x. unfold linked, nupd. destruct (x =? c) eqn:X; [now rewrite E|]. destruct (x =? par); reflexivity.
  - cbn [s_heap set_heap]. rewrite (nupd_neq _ _ c) by congruence. rewrite Hp. eexists. split; [reflexivity|].
    intros x. unfold linked, nupd. destruct (x =? par) eqn:Y.
    + destruct (x =? c) eqn:X; [lia|reflexivity].
    + destruct (x =? c) eqn:X; [|reflexivity]. rewrite E. destruct ci; cbn in Hn |- *. subst. reflexivity.
Qed.
Lemma link_T H H' ch R c par ci pi : T H ch R -> H c = Some ci -> H par = Some pi -> c <> par -> R c ->
  (forall x, H' x = linked H c par ci pi x) ->
  T H' (nupd ch par (c :: ch par)) (fun x => R x /\ x <> c).
Proof.
  intros HT Hc Hp Hne HR E.
  assert (Hnot : forall q j, H q = Some j -> ~ In c (ch q)).
  { intros q j Hq Hin. destruct (T_ch _ _ _ HT q j c Hq Hin) as (? & _ & _ & N). contradiction. }
  assert (E' : forall x i', H' x = Some i' -> exists i, H x = Some i /\
      (x = c -> i = ci /\ i' = it_next (i_first pi) (it_parent (Some par) ci)) /\ (x = par -> i = pi /\ i' = it_first (Some c) pi) /\
      (x <> c -> x <> par -> i' = i)).
  { intros x i'. rewrite E. unfold linked, nupd. destruct (x =? c) eqn:X; [|destruct (x =? par) eqn:Y].
    - replace x with c by lia. intros [= <-]. exists ci. split; [exact Hc|]. split; [auto|]. split; [congruence|congruence].
    - replace x with par by lia. intros [= <-]. exists pi. split; [exact Hp|]. split; [congruence|]. split; [auto|congruence].
    - intros Hx. exists i'. split; [exact Hx|]. split; [lia|]. split; [lia|auto]. }
  assert (Ef : forall x i, H x = Some i -> exists i', H' x = Some i' /\ (x <> c -> i_next i' = i_next i /\ i_parent i' = i_parent i)).
  { intros x i Hx. rewrite E. unfold linked, nupd. destruct (x =? c) eqn:X; [|destruct (x =? par) eqn:Y].
    - eexists. split; [reflexivity|]. lia.
    - replace x with par in Hx by lia. rewrite Hp in Hx. injection Hx as <-. eexists. split; [reflexivity|]. auto.
    - eauto. }
  assert (Hframe : forall q j o, H q = Some j -> seg H o (ch q) -> seg H' o (ch q)).
  { intros q j o Hq. apply seg_frame. intros x i Hin Hx. destruct (Ef x i Hx) as (i' & E1 & E2). exists i'. split; [exact E1|].
    apply E2. intros ->. exact (Hnot q j Hq Hin). }
  constructor.
  - intros p i' Hi. destruct (E' p i' Hi) as (i & Hx & A1 & A2 & A3). unfold nupd. destruct (p =? par) eqn:Y.
    + destruct (A2 ltac:(lia)) as [-> ->]. cbn [i_first it_first seg]. split; [reflexivity|].
      destruct (Ef c ci Hc) as (c' & E1 & _). exists c'. split; [exact E1|]. destruct (E' c c' E1) as (i & _ & B1 & _). destruct (B1 eq_refl) as [_ ->].
      cbn [i_next it_next]. replace p with par in * by lia. apply (Hframe par pi); [exact Hp|]. apply (T_seg _ _ _ HT). exact Hp.
    + assert (X : i_first i' = i_first i).
      { destruct (N.eq_dec p c) as [->|N]; [destruct (A1 eq_refl) as [-> ->]; reflexivity|]. rewrite A3 by lia. reflexivity. }
      rewrite X. eapply Hframe; [exact Hx|]. apply (T_seg _ _ _ HT). exact Hx.
  - intros p i' Hi HnR. destruct (E' p i' Hi) as (i & Hx & A1 & A2 & A3). destruct (N.eq_dec p c) as [->|Npc].
    + destruct (A1 eq_refl) as [_ ->]. destruct (Ef par pi Hp) as (p' & E1 & _). exists par, p'. split; [reflexivity|]. split; [exact E1|].
      rewrite nupd_eq. left. reflexivity.
    + assert (HnR0 : ~ R p) by tauto. destruct (T_par _ _ _ HT p i Hx HnR0) as (q & j & B1 & B2 & B3).
      destruct (Ef q j B2) as (j' & E1 & _). exists q, j'.
      assert (X : i_parent i' = i_parent i). { destruct (N.eq_dec p par) as [->|N]; [destruct (A2 eq_refl) as [-> ->]; reflexivity|]. now rewrite A3. }
      rewrite X. split; [exact B1|]. split; [exact E1|]. unfold nupd. destruct (q =? par) eqn:Y; [|exact B3].
      right. replace par with q by lia. exact B3.
  - intros q j' x Hq Hin. destruct (E' q j' Hq) as (j & Hq0 & _). unfold nupd in Hin.
    assert (Hold : In x (ch q) -> exists i, H' x = Some i /\ i_parent i = Some q /\ ~ (R x /\ x <> c)).
    { intros Hin0. destruct (T_ch _ _ _ HT q j x Hq0 Hin0) as (i & B1 & B2 & B3). destruct (Ef x i B1) as (i' & E1 & E2). exists i'.
      split; [exact E1|]. split; [|tauto]. rewrite <- B2. apply E2. intros ->. exact (Hnot q j Hq0 Hin0). }
    destruct (q =? par) eqn:Y; [|auto]. replace q with par in * by lia. destruct Hin as [<-|Hin]; [|auto].
    destruct (Ef c ci Hc) as (c' & E1 & _). exists c'. split; [exact E1|]. destruct (E' c c' E1) as (i & _ & B1 & _). destruct (B1 eq_refl) as [_ ->].
    split; [reflexivity|tauto].
  - intros q j' Hq. destruct (E' q j' Hq) as (j & Hq0 & _). unfold nupd. destruct (q =? par) eqn:Y; [|eapply (T_nd _ _ _ HT); exact Hq0].
    replace q with par in * by lia. constructor; [eapply Hnot; exact Hp|eapply (T_nd _ _ _ HT); exact Hp].
Qed.

(** ** Unlinking *)
Lemma find_pred_exec c : forall l1 q l2 o fuel s, seg (s_heap s) o (l1 ++ q :: c :: l2) -> ~ In c l1 -> NoDup (l1 ++ q :: c :: l2) -> (length l1 <= fuel)%nat ->
  find_pred fuel o c s = Ret (Some q, s).
Proof.
  induction l1 as [|x l1 IH]; intros q l2 o fuel s Hs Hn ND Hf; cbn [app seg] in Hs.
  - destruct Hs as [-> (i & Hi & Hs)]. destruct Hs as [E _].
    destruct fuel; cbn [find_pred]; unfold bind, deref; rewrite Hi, E; cbn [opt_eqb]; rewrite N.eqb_refl; reflexivity.
  - destruct Hs as [-> (i & Hi & Hs)]. cbn [length] in Hf. destruct fuel as [|fuel]; [lia|].
    cbn [find_pred]; unfold bind, deref. rewrite Hi.
    assert (En : opt_eqb (i_next i) (Some c) = false).
    { destruct l1 as [|y l1]; cbn [app seg] in Hs; destruct Hs as [-> _]; cbn [opt_eqb].
      - apply N.eqb_neq. intros ->. cbn [app] in ND. apply NoDup_cons_iff in ND as [_ ND]. apply NoDup_cons_iff in ND as [ND _]. apply ND. left. reflexivity.
      - apply N.eqb_neq. intros ->. apply Hn. right. left. reflexivity. }
    rewrite En. eapply IH; eauto.
    + intros X. apply Hn. right. exact X.
    + cbn [app] in ND. now apply NoDup_cons_iff in ND as [_ ND].
    + lia.
Qed.
Lemma split_last {A} (l : list A) : l = [] \/ exists l' x, l = l' ++ [x].
Proof. induction l as [|a l IH] using rev_ind; [now left|]. right. eauto. Qed.

Definition bounded (H : heap) (n : ptr) : Prop := forall p i, H p = Some i -> p < n.
Lemma seg_cut H H' c ci : forall l1 l2 o o', seg H o (l1 ++ c :: l2) -> NoDup (l1 ++ c :: l2) -> H c = Some ci ->
  (forall x, In x (l1 ++ l2) -> exists i i', H x = Some i /\ H' x = Some i' /\
      (i_next i' = i_next i \/ (i_next i = Some c /\ i_next i' = i_next ci)) /\ (i_next i = Some c -> i_next i' = i_next ci)) ->
  (o' = o \/ (o = Some c /\ o' = i_next ci)) -> (o = Some c -> o' = i_next ci) ->
  seg H' o' (l1 ++ l2).
Proof.
  induction l1 as [|x l1 IH]; intros l2 o o' Hs ND Hc Hx Ho Ho2; cbn [app seg] in *.
  - destruct Hs as [-> (i & Hi & Hs)]. rewrite Hc in Hi. injection Hi as <-. rewrite (Ho2 eq_refl).
    eapply seg_frame; [|exact Hs]. intros q j Hin Hq. destruct (Hx q Hin) as (i & i' & E1 & E2 & E3 & _).
    rewrite Hq in E1. injection E1 as <-. exists i'. split; [exact E2|]. destruct E3 as [E3|[E3 _]]; [exact E3|].
    exfalso. (* next of a later element cannot be c *)
    apply NoDup_cons_iff in ND as [ND _]. revert Hs Hin Hq E3 ND. clear. generalize (i_next ci). revert q j.
    induction l2 as [|y l2 IH]; intros q j o Hs Hin Hq E ND; [contradiction|].
    destruct Hs as [-> (i & Hi & Hs)]. destruct Hin as [->|Hin].
    + rewrite Hi in Hq. injection Hq as ->. rewrite E in Hs. destruct l2 as [|z l2]; [discriminate|]. destruct Hs as [Hz _]. injection Hz as <-. apply ND. right. left. reflexivity.
    + eapply IH; eauto. intros X. apply ND. right. exact X.
  - destruct Hs as [-> (i & Hi & Hs)].
    assert (Nx : x <> c). { intros ->. apply NoDup_cons_iff in ND as [ND _]. apply ND. apply in_or_app. right. left. reflexivity. }
    assert (o' = Some x) as ->. { destruct Ho as [->|[E _]]; [reflexivity|congruence]. }
    split; [reflexivity|]. destruct (Hx x ltac:(left; reflexivity)) as (j & j' & E1 & E2 & E3 & E4). rewrite Hi in E1. injection E1 as <-.
    exists j'. split; [exact E2|]. eapply IH; [exact Hs| |exact Hc| | |].
    + now apply NoDup_cons_iff in ND as [_ ND].
    + intros y Hy. apply Hx. right. exact Hy.
    + destruct E3 as [E3|E3]; auto.
    + exact E4.
Qed.
(** in a list, the only element whose successor is [c] is the one before it *)
Lemma seg_next_pred H c : forall l o x i l1 l2, seg H o l -> l = l1 ++ c :: l2 -> NoDup l -> In x l -> H x = Some i -> i_next i = Some c ->
  exists l1', l1 = l1' ++ [x].
Proof.
  induction l as [|y l IH]; intros o x i l1 l2 Hs E ND Hin Hx En; [contradiction|].
  destruct Hs as [-> (j & Hj & Hs)]. destruct l1 as [|z l1]; cbn [app] in E; injection E as -> ->.
  - exfalso. (* c is first; then somebody's successor is the head *)
    apply NoDup_cons_iff in ND as [ND ND2]. destruct Hin as [->|Hin].
    + rewrite Hj in Hx. injection Hx as ->. rewrite En in Hs. destruct l2 as [|w l2]; [discriminate|]. destruct Hs as [Hz _]. injection Hz as <-. apply ND. left. reflexivity.
    + revert ND Hs Hin Hx En. clear. generalize (i_next j). induction l2 as [|w l2 IH]; intros o ND Hs Hin Hx En; [contradiction|].
      destruct Hs as [-> (k & Hk & Hs)]. destruct Hin as [->|Hin].
      * rewrite Hk in Hx. injection Hx as ->. rewrite En in Hs. destruct l2 as [|v l2]; [discriminate|]. destruct Hs as [Hz _]. injection Hz as <-. apply ND. right. left. reflexivity.
      * eapply IH; eauto. intros X. apply ND. right. exact X.
  - apply NoDup_cons_iff in ND as [ND ND2]. destruct Hin as [->|Hin].
    + rewrite Hj in Hx. injection Hx as ->. rewrite En in Hs. destruct l1 as [|w l1]; [exists []; reflexivity|].
      cbn [app seg] in Hs. destruct Hs as [Hz _]. injection Hz as <-. exfalso. cbn [app] in ND2. apply NoDup_cons_iff in ND2 as [ND2 _]. apply ND2. apply in_or_app. right. left. reflexivity.
    + destruct (IH _ x i l1 l2 Hs eq_refl ND2 Hin Hx En) as (l1' & ->). exists (z :: l1'). reflexivity.
Qed.

Lemma lk_parent i i' : lk i i' -> i_parent i' = i_parent i.
Proof. intros (f & n & ->). reflexivity. Qed.
Lemma T_cut H H' ch R c par l1 l2 : T H ch R -> hlk H H' -> ch par = l1 ++ c :: l2 -> (exists pi, H par = Some pi) ->
  (forall x i i', H x = Some i -> H' x = Some i' -> ~ In x (ch par) -> i_next i' = i_next i) ->
  (forall x i i', H x = Some i -> H' x = Some i' -> x <> par -> i_first i' = i_first i) ->
  (forall p', H' par = Some p' -> seg H' (i_first p') (l1 ++ l2)) ->
  T H' (nupd ch par (l1 ++ l2)) (fun x => R x \/ x = c).
Proof.
  intros HT HL Ech [pi Hp] Hn Hf Hs. pose proof (T_nd _ _ _ HT par pi Hp) as ND. rewrite Ech in ND.
  assert (Hcn : ~ In c (l1 ++ l2)) by (apply NoDup_remove_2; exact ND).
  assert (Hsub : forall x, In x (l1 ++ l2) -> In x (ch par)).
  { intros x Hx. rewrite Ech. apply in_or_app. apply in_app_or in Hx as [Hx|Hx]; [left|right; right]; exact Hx. }
  assert (Huniq : forall q j x, H q = Some j -> In x (ch q) -> In x (ch par) -> q = par).
  { intros q j x Hq X1 X2. destruct (T_ch _ _ _ HT q j x Hq X1) as (i & A1 & A2 & _).
    destruct (T_ch _ _ _ HT par pi x Hp X2) as (i2 & B1 & B2 & _). congruence. }
  constructor.
  - intros p i' Hi'. unfold nupd. destruct (p =? par) eqn:E.
    + replace p with par in Hi' by lia. apply Hs. exact Hi'.
    + destruct (hlk_bwd _ _ _ _ HL Hi') as (i & Hi & _). rewrite (Hf p i i' Hi Hi') by lia.
      eapply seg_frame; [|apply (T_seg _ _ _ HT); exact Hi]. intros x j Hx Hj. destruct (hlk_fwd _ _ _ _ HL Hj) as (j' & Hj' & _).
      exists j'. split; [exact Hj'|]. apply (Hn x j j' Hj Hj'). intros X. assert (p = par) by (eapply Huniq; eauto). lia.
  - intros p i' Hi' HR. destruct (hlk_bwd _ _ _ _ HL Hi') as (i & Hi & L). destruct (T_par _ _ _ HT p i Hi ltac:(tauto)) as (q & j & A1 & A2 & A3).
    destruct (hlk_fwd _ _ _ _ HL A2) as (j' & Hj' & _). exists q, j'. split; [rewrite (lk_parent _ _ L); exact A1|]. split; [exact Hj'|].
    unfold nupd. destruct (q =? par) eqn:E; [|exact A3]. replace q with par in A3 by lia. rewrite Ech in A3.
    apply in_app_or in A3. apply in_or_app. destruct A3 as [A3|[A3|A3]]; [left; exact A3|exfalso; apply HR; right; congruence|right; exact A3].
  - intros q j' x Hq Hx. destruct (hlk_bwd _ _ _ _ HL Hq) as (j & Hj & _).
    assert (Hin : In x (ch q)). { unfold nupd in Hx. destruct (q =? par) eqn:E; [|exact Hx]. replace q with par by lia. apply Hsub. exact Hx. }
    destruct (T_ch _ _ _ HT q j x Hj Hin) as (i & A1 & A2 & A3). destruct (hlk_fwd _ _ _ _ HL A1) as (i' & Hi' & L).
    exists i'. split; [exact Hi'|]. split; [rewrite (lk_parent _ _ L); exact A2|]. intros [X| ->]; [contradiction|].
    unfold nupd in Hx. destruct (q =? par) eqn:E; [contradiction|]. assert (q = par); [|lia]. eapply Huniq; [exact Hj|exact Hin|].
    rewrite Ech. apply in_or_app. right. left. reflexivity.
  - intros q j' Hq. destruct (hlk_bwd _ _ _ _ HL Hq) as (j & Hj & _). unfold nupd. destruct (q =? par); [|eapply (T_nd _ _ _ HT); exact Hj].
    eapply NoDup_remove_1. exact ND.
Qed.
Lemma unlink_exec ch R c s ci : T (s_heap s) ch R -> bounded (s_heap s) (s_fresh s) -> s_heap s c = Some ci -> ~ R c -> i_parent ci <> Some c ->
  exists H' par l1 l2, unlink_child c s = Ret (tt, set_heap H' s) /\ i_parent ci = Some par /\ ch par = l1 ++ c :: l2 /\
    hlk (s_heap s) H' /\ H' c = Some (it_next None ci) /\
    (forall x, x <> par -> ~ In x (ch par) -> H' x = s_heap s x) /\
    T H' (nupd ch par (l1 ++ l2)) (fun x => R x \/ x = c).
Proof.
  intros HT Hb Hc HR Hns. destruct (T_par _ _ _ HT c ci Hc HR) as (par & pi & P1 & P2 & P3).
  apply in_split in P3 as (l1 & l2 & Ech). pose proof (T_nd _ _ _ HT par pi P2) as ND. rewrite Ech in ND.
  pose proof (T_seg _ _ _ HT par pi P2) as SG. rewrite Ech in SG.
  assert (Npc : par <> c) by congruence.
  assert (Hlt : forall x, In x (l1 ++ c :: l2) -> x < s_fresh s).
  { intros x Hx. destruct (seg_live _ _ _ _ SG Hx) as [i Hi]. exact (Hb _ _ Hi). }
  destruct (split_last l1) as [->|(l1' & x & ->)].
  - cbn [app] in *. pose proof SG as SG0. destruct SG as [Ef (i & Hi & SG)]. rewrite Hc in Hi. injection Hi as <-.
    set (H' := nupd (nupd (s_heap s) par (Some (it_first (i_next ci) pi))) c (Some (it_next None ci))).
    assert (HL : hlk (s_heap s) H').
    { unfold H'. eapply hlk_trans; [apply (hlk_upd _ par pi); [exact P2|]|apply (hlk_upd _ c ci)].
      - exists (i_next ci), (i_next pi). destruct pi; reflexivity.
      - rewrite nupd_neq by congruence. exact Hc.
      - exists (i_first ci), None. destruct ci; reflexivity. }
    exists H', par, [], l2. split.
    { unfold unlink_child, bind, deref, modify. rewrite Hc, P1, P2, Ef. cbn [opt_eqb]. rewrite N.eqb_refl. cbn [s_heap set_heap].
      rewrite P2. cbn [s_heap set_heap]. rewrite nupd_neq by congruence. rewrite Hc. reflexivity. }
    split; [exact P1|]. split; [exact Ech|]. split; [exact HL|]. split; [unfold H'; apply nupd_eq|]. split.
    { intros y N1 N2. unfold H'. rewrite !nupd_neq; [reflexivity|exact N1|]. intros ->. apply N2. rewrite Ech. left. reflexivity. }
   
    eapply (T_cut _ _ _ _ _ _ [] l2 HT HL); [exact Ech|eauto| | |].
    + intros x i i' Hx Hx' Hn. unfold H', nupd in Hx'. destruct (x =? c) eqn:E1.
      * exfalso. apply Hn. rewrite Ech. left. lia.
      * destruct (x =? par) eqn:E2; [|congruence]. replace x with par in Hx by lia. rewrite P2 in Hx. injection Hx as <-. injection Hx' as <-. reflexivity.
    + intros x i i' Hx Hx' Hn. unfold H', nupd in Hx'. destruct (x =? c) eqn:E1.
      * replace x with c in Hx by lia. rewrite Hc in Hx. injection Hx as <-. injection Hx' as <-. reflexivity.
      * destruct (x =? par) eqn:E2; [lia|congruence].
    + intros p' Hp'. unfold H', nupd in Hp'. destruct (par =? c) eqn:E1; [lia|]. rewrite N.eqb_refl in Hp'. injection Hp' as <-. cbn [i_first it_first app].
      eapply seg_frame; [|exact SG]. intros q j Hq Hj. unfold H', nupd. destruct (q =? c) eqn:E2.
      * exfalso. replace q with c in Hq by lia. apply NoDup_cons_iff in ND as [ND _]. contradiction.
      * destruct (q =? par) eqn:E3; [|eauto]. replace q with par in Hj by lia. rewrite P2 in Hj. injection Hj as <-. eauto.
  - rewrite <- app_assoc in *. cbn [app] in *.
    assert (Nl : ~ In c (l1' ++ [x])).
    { intros X. replace (l1' ++ x :: c :: l2) with ((l1' ++ [x]) ++ c :: l2) in ND by (rewrite <- app_assoc; reflexivity).
      apply NoDup_remove_2 in ND. apply ND. apply in_or_app. left. exact X. }
    assert (Hxin : In x (ch par)). { rewrite Ech. apply in_or_app. right. left. reflexivity. }
    destruct (T_ch _ _ _ HT par pi x P2 Hxin) as (xi & Hx & Hxp & _).
    assert (Nxc : x <> c). { intros ->. apply Nl. apply in_or_app. right. left. reflexivity. }
    assert (Hxn : i_next xi = Some c).
    { clear - SG Hx. revert SG. generalize (i_first pi). induction l1' as [|y l1' IH]; intros o SG; cbn [app seg] in SG.
      - destruct SG as [_ (i & Hi & [E _])]. congruence.
      - destruct SG as [_ (i & _ & SG)]. eapply IH. exact SG. }
    set (H' := nupd (nupd (s_heap s) x (Some (it_next (i_next ci) xi))) c (Some (it_next None ci))).
    assert (HL : hlk (s_heap s) H').
    { unfold H'. eapply hlk_trans; [apply (hlk_upd _ x xi); [exact Hx|]|apply (hlk_upd _ c ci)].
      - exists (i_first xi), (i_next ci). destruct xi; reflexivity.
      - rewrite nupd_neq by congruence. exact Hc.
      - exists (i_first ci), None. destruct ci; reflexivity. }
    exists H', par, (l1' ++ [x]), l2. split.
    { unfold unlink_child, bind, deref, get. rewrite Hc, P1, P2.
      assert (En : opt_eqb (i_first pi) (Some c) = false).
      { destruct l1' as [|y l1']; cbn [app seg] in SG; destruct SG as [-> _]; cbn [opt_eqb]; apply N.eqb_neq; [congruence|].
        intros ->. apply Nl. left. reflexivity. }
      rewrite En. rewrite (find_pred_exec c l1' x l2 (i_first pi) (N.to_nat (s_fresh s)) s SG).
      - unfold modify. rewrite Hx. cbn [s_heap set_heap]. rewrite nupd_neq by congruence. rewrite Hc. reflexivity.
      - intros X. apply Nl. apply in_or_app. left. exact X.
      - exact ND.
      - assert (length (l1' ++ x :: c :: l2) <= N.to_nat (s_fresh s))%nat by (apply short_list; [exact ND|exact Hlt]). rewrite app_length in *. lia. }
    assert (Ech' : ch par = (l1' ++ [x]) ++ c :: l2) by (rewrite <- app_assoc; exact Ech).
    split; [exact P1|]. split; [exact Ech'|]. split; [exact HL|]. split; [unfold H'; apply nupd_eq|]. split.
    { intros y N1 N2. unfold H'. rewrite !nupd_neq; [reflexivity|intros ->; contradiction|]. intros ->. apply N2. rewrite Ech'. apply in_or_app. right. left. reflexivity. }
   
    eapply (T_cut _ _ _ _ _ _ _ l2 HT HL); [exact Ech'|eauto| | |].
    + intros y i i' Hy Hy' Hn. unfold H', nupd in Hy'. destruct (y =? c) eqn:E1.
      * exfalso. apply Hn. rewrite Ech'. apply in_or_app. right. left. lia.
      * destruct (y =? x) eqn:E2; [|congruence]. exfalso. apply Hn. replace y with x by lia. exact Hxin.
    + intros y i i' Hy Hy' Hn. unfold H', nupd in Hy'. destruct (y =? c) eqn:E1.
      * replace y with c in Hy by lia. rewrite Hc in Hy. injection Hy as <-. injection Hy' as <-. reflexivity.
      * destruct (y =? x) eqn:E2; [|congruence]. replace y with x in Hy by lia. rewrite Hx in Hy. injection Hy as <-. injection Hy' as <-. reflexivity.
    + intros p' Hp'.
      assert (Efp : i_first p' = i_first pi).
      { unfold H', nupd in Hp'. destruct (par =? c) eqn:E1; [lia|]. destruct (par =? x) eqn:E2; [|congruence].
        replace x with par in Hx by lia. rewrite P2 in Hx. injection Hx as <-. injection Hp' as <-. reflexivity. }
      rewrite Efp. rewrite <- app_assoc in Ech'. rewrite Ech in Ech'.
      assert (SG2 : seg (s_heap s) (i_first pi) ((l1' ++ [x]) ++ c :: l2)) by (rewrite <- app_assoc; exact SG).
      assert (ND2 : NoDup ((l1' ++ [x]) ++ c :: l2)) by (rewrite <- app_assoc; exact ND).
      apply (seg_cut (s_heap s) H' c ci (l1' ++ [x]) l2 (i_first pi) (i_first pi) SG2 ND2 Hc).
      * intros y Hy. assert (Nyc : y <> c). { intros ->. apply NoDup_remove_2 in ND2. contradiction. }
        assert (Hyin : In y ((l1' ++ [x]) ++ c :: l2)). { apply in_app_or in Hy. apply in_or_app. destruct Hy; [left|right; right]; assumption. }
        destruct (seg_live _ _ _ _ SG2 Hyin) as (yi & Hyi). destruct (N.eq_dec y x) as [->|Nyx].
        -- exists xi, (it_next (i_next ci) xi). split; [exact Hx|]. split; [unfold H'; rewrite nupd_neq by congruence; apply nupd_eq|].
           split; [right; split; [exact Hxn|reflexivity]|]. intros _. reflexivity.
        -- exists yi, yi. split; [exact Hyi|]. split; [unfold H'; rewrite !nupd_neq by congruence; exact Hyi|]. split; [left; reflexivity|].
           intros En. exfalso. destruct (seg_next_pred _ c _ _ y yi _ l2 SG2 eq_refl ND2 Hyin Hyi En) as (l' & E). apply app_inj_tail in E as [_ E]. congruence.
      * left. reflexivity.
      * intros E. exfalso. destruct l1' as [|y l1']; cbn [app seg] in SG; destruct SG as [Z _]; [congruence|]. apply Nl. left. congruence.
Qed.
(** ** Allocation and release of an item outside all lists *)
Lemma alloc_T H ch R n i : T H ch R -> bounded H n -> i_first i = None -> T (nupd H n (Some i)) (nupd ch n []) (fun x => R x \/ x = n).
Proof.
  intros HT Hb Hf.
  assert (Hn : H n = None). { destruct (H n) as [k|] eqn:E; [|reflexivity]. pose proof (Hb n k E). lia. }
  assert (Hnn : forall q j, H q = Some j -> q <> n) by (intros q j Hq ->; congruence).
  assert (Hin : forall q j x, H q = Some j -> In x (ch q) -> x <> n).
  { intros q j x Hq Hx. destruct (T_ch _ _ _ HT q j x Hq Hx) as (k & A & _). eapply Hnn; exact A. }
  constructor.
  - intros p j. unfold nupd. destruct (p =? n) eqn:E; [intros [= <-]; exact Hf|]. intros Hp. eapply seg_frame; [|apply (T_seg _ _ _ HT); exact Hp].
    intros q k Hq Hk. rewrite (proj2 (N.eqb_neq q n)) by exact (Hin p j q Hp Hq). eauto.
  - intros p j Hp HR. unfold nupd in Hp. destruct (p =? n) eqn:E; [exfalso; apply HR; right; lia|].
    destruct (T_par _ _ _ HT p j Hp ltac:(tauto)) as (q & k & A1 & A2 & A3). exists q, k. split; [exact A1|].
    rewrite !nupd_neq by (eapply Hnn; exact A2). auto.
  - intros q j x. unfold nupd at 1 2. destruct (q =? n) eqn:E; [intros _ []|]. intros Hq Hx. destruct (T_ch _ _ _ HT q j x Hq Hx) as (k & A1 & A2 & A3).
    exists k. rewrite nupd_neq by (eapply Hnn; exact A1). split; [exact A1|]. split; [exact A2|]. intros [X|X]; [contradiction|]. subst. eapply (Hin q j n Hq Hx). reflexivity.
  - intros q j. unfold nupd. destruct (q =? n); [intros _; apply NoDup_nil|]. intros Hq. eapply (T_nd _ _ _ HT); exact Hq.
Qed.
Lemma free_T H ch R p i : T H ch R -> H p = Some i -> R p -> ch p = [] -> T (nupd H p None) ch (fun x => R x /\ x <> p).
Proof.
  intros HT Hp HR Hch.
  assert (Hin : forall q j x, H q = Some j -> In x (ch q) -> x <> p).
  { intros q j x Hq Hx ->. destruct (T_ch _ _ _ HT q j p Hq Hx) as (k & _ & _ & A). contradiction. }
  constructor.
  - intros q j. unfold nupd. destruct (q =? p) eqn:E; [discriminate|]. intros Hq. eapply seg_frame; [|apply (T_seg _ _ _ HT); exact Hq].
    intros x k Hx Hk. rewrite (proj2 (N.eqb_neq x p)) by exact (Hin q j x Hq Hx). eauto.
  - intros q j Hq HRq. unfold nupd in Hq. destruct (q =? p) eqn:E; [discriminate|]. assert (q <> p) by lia. destruct (T_par _ _ _ HT q j Hq ltac:(tauto)) as (x & k & A1 & A2 & A3).
    exists x, k. split; [exact A1|]. rewrite nupd_neq by (intros ->; rewrite Hch in A3; contradiction). auto.
  - intros q j x Hq Hx. unfold nupd in Hq. destruct (q =? p) eqn:E; [discriminate|]. destruct (T_ch _ _ _ HT q j x Hq Hx) as (k & A1 & A2 & A3).
    exists k. rewrite nupd_neq by exact (Hin q j x Hq Hx). split; [exact A1|]. split; [exact A2|tauto].
  - intros q j Hq. unfold nupd in Hq. destruct (q =? p); [discriminate|]. eapply (T_nd _ _ _ HT); exact Hq.
Qed.
(** only the links matter *)
Lemma T_ext H H' ch R R' : T H ch R -> (forall x, R x <-> R' x) ->
  (forall x, match H x, H' x with Some i, Some i' => i_first i' = i_first i /\ i_next i' = i_next i /\ i_parent i' = i_parent i | None, None => True | _, _ => False end) ->
  T H' ch R'.
Proof.
  intros HT HR HX.
  assert (F : forall x i, H x = Some i -> exists i', H' x = Some i' /\ i_first i' = i_first i /\ i_next i' = i_next i /\ i_parent i' = i_parent i).
  { intros x i Hx. specialize (HX x). rewrite Hx in HX. destruct (H' x); [eauto|contradiction]. }
  assert (B : forall x i', H' x = Some i' -> exists i, H x = Some i /\ i_first i' = i_first i /\ i_next i' = i_next i /\ i_parent i' = i_parent i).
  { intros x i' Hx. specialize (HX x). rewrite Hx in HX. destruct (H x); [eauto|contradiction]. }
  constructor.
  - intros p i' Hp. destruct (B p i' Hp) as (i & A1 & A2 & A3 & A4). rewrite A2. eapply seg_frame; [|apply (T_seg _ _ _ HT); exact A1].
    intros q j _ Hq. destruct (F q j Hq) as (j' & E1 & _ & E2 & _). eauto.
  - intros p i' Hp HRp. destruct (B p i' Hp) as (i & A1 & A2 & A3 & A4). destruct (T_par _ _ _ HT p i A1 ltac:(rewrite HR; exact HRp)) as (q & j & X1 & X2 & X3).
    destruct (F q j X2) as (j' & Y & _). exists q, j'. rewrite A4. auto.
  - intros q j' c Hq Hc. destruct (B q j' Hq) as (j & A1 & _). destruct (T_ch _ _ _ HT q j c A1 Hc) as (i & X1 & X2 & X3).
    destruct (F c i X1) as (i' & Y1 & _ & _ & Y2). exists i'. rewrite Y2, <- HR. auto.
  - intros q j' Hq. destruct (B q j' Hq) as (j & A1 & _). eapply (T_nd _ _ _ HT); exact A1.
Qed.
