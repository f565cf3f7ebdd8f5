(** Adding items keeps a storage well-formed. *)
From Verif Require Import Base AList Wire FS FSPath FSTree FSLogic.

(** old items keep everything but their list links, tables only grow *)
Record ext (s s' : fs) : Prop := {
  E_heap : forall p i, s_heap s p = Some i -> exists i', s_heap s' p = Some i' /\ lk i i';
  E_new : forall p i', s_heap s' p = Some i' -> s_heap s p = None -> s_fresh s <= p;
  E_fresh : s_fresh s <= s_fresh s';
  E_root : s_root s' = s_root s;
  E_h : forall h v, aget h (s_handles s) = Some v -> aget h (s_handles s') = Some v;
  E_wd : forall n h, s_wds s' n = Some h -> ahas h (s_handles s) = true -> s_wds s n = Some h;
  E_tick : (s_tick s <= s_tick s')%nat }.
Lemma ahas_aget {A} k (m : list (N * A)) : ahas k m = true <-> exists v, aget k m = Some v.
Proof. unfold ahas. destruct (aget k m) as [v|]; split; intros H; eauto; try discriminate. destruct H as [v H]. discriminate. Qed.
Lemma ext_refl s : ext s s.
Proof. constructor; auto using lk_refl; try lia. - intros p i Hp. exists i. auto using lk_refl. - intros p i H1 H2. congruence. Qed.
Lemma ext_trans a b c : ext a b -> ext b c -> ext a c.
Proof.
  intros X Y. constructor.
  - intros p i Hp. destruct (E_heap _ _ X p i Hp) as (i1 & A & B). destruct (E_heap _ _ Y p i1 A) as (i2 & D & F). exists i2. split; [exact D|]. eapply lk_trans; eassumption.
  - intros p i' Hp Hn. destruct (s_heap b p) as [j|] eqn:E; [exact (E_new _ _ X p j E Hn)|]. pose proof (E_new _ _ Y p i' Hp E). pose proof (E_fresh _ _ X). lia.
  - pose proof (E_fresh _ _ X). pose proof (E_fresh _ _ Y). lia.
  - rewrite (E_root _ _ Y). apply (E_root _ _ X).
  - intros h v Hh. apply (E_h _ _ Y). apply (E_h _ _ X). exact Hh.
  - intros n h Hn Hh. apply (E_wd _ _ X n h); [|exact Hh]. apply (E_wd _ _ Y n h Hn).
    apply ahas_aget in Hh as [v Hv]. apply ahas_aget. exists v. apply (E_h _ _ X). exact Hv.
  - pose proof (E_tick _ _ X). pose proof (E_tick _ _ Y). lia.
Qed.
Lemma ext_same s s' : s_heap s' = s_heap s -> s_fresh s' = s_fresh s -> s_root s' = s_root s -> s_handles s' = s_handles s -> s_wds s' = s_wds s ->
  (s_tick s <= s_tick s')%nat -> ext s s'.
Proof.
  intros E1 E2 E3 E4 E5 E6. constructor; rewrite ?E1, ?E2, ?E3, ?E4, ?E5; auto; try lia.
  - intros p i Hp. exists i. auto using lk_refl.
  - intros; congruence.
Qed.

Lemma lk_fields i i' : lk i i' -> i_handle i' = i_handle i /\ i_path i' = i_path i /\ i_wd i' = i_wd i /\ i_info i' = i_info i /\ i_parent i' = i_parent i /\ i_puoid i' = i_puoid i /\ i_events i' = i_events i.
Proof. intros (f & n & ->). repeat split. Qed.

(** facts about a pending item [me] needed to enter it into the tables *)
Definition fresh_item (s : fs) (me : ptr) (i : item) : Prop :=
  s_heap s me = Some i /\ aget (i_handle i) (s_handles s) = None /\ s_paths s (i_path i) = None.

Section Attach.
Variables (C : conf) (SO : supply_ok C).

Lemma attach_exec s ch r q qj n info : WF C s ch r None -> s_heap s q = Some qj -> plain n ->
  s_paths s (join (i_path qj) n) = None ->
  (forall o, info = Some o -> oi_name o = n /\ oi_parent o = i_handle qj) ->
  exists s1 i o, attach_new C (join (i_path qj) n) info 0 s = Ret (s_fresh s, s1) /\
    WF C s1 (nupd (nupd ch (s_fresh s) []) q (s_fresh s :: ch q)) r (Some (s_fresh s)) /\
    fresh_item s1 (s_fresh s) i /\ i_path i = join (i_path qj) n /\ i_info i = Some o /\ i_parent i = Some q /\ i_wd i = None /\ i_first i = None /\
    (match info with Some o' => o = oi_set_storage (c_sid C) o' | None => oi_format o = format_of C (join (i_path qj) n) (s_nodes s) end) /\
    (exists t, (s_tick s <= t)%nat /\ i_handle i = c_handle C t) /\ ~ has_entry s1 (i_handle i) /\
    (exists H t, s1 = set_tick t (set_heap H (set_fresh (s_fresh s + 1) s)) /\ (s_tick s <= t)%nat /\ H q = Some (it_first (Some (s_fresh s)) qj) /\ forall x, x <> s_fresh s -> x <> q -> H x = s_heap s x).
Proof.
  intros W Hq Hn Hpath Hinfo. set (me := s_fresh s). set (p := join (i_path qj) n).
  assert (Hme : s_heap s me = None). { destruct (s_heap s me) as [k|] eqn:E; [|reflexivity]. pose proof (W_bd _ _ _ _ _ W me k E). unfold me in *. lia. }
  assert (Nqm : q <> me) by congruence.
  destruct (W_live _ _ _ _ _ W q qj Hq ltac:(discriminate)) as [Hqh Hqp].
  assert (Epar : parent_of p = i_path qj) by (unfold p; apply parent_join; apply Hn).
  assert (Eroot : peqb p (c_root C) = false).
  { apply peqb_neq. intros E. pose proof (under_len _ _ (wf_under_root _ _ _ _ _ W q qj Hq)). rewrite <- E in H. unfold p in H. rewrite len_join in H. lia. }
  set (s0 := set_fresh (s_fresh s + 1) (set_heap (nupd (s_heap s) me (Some (new_item p))) s)).
  destruct (link_exec me q s0 (new_item p) qj) as (H1 & EL & EH1); [apply nupd_eq|cbn [s0 s_heap set_heap set_fresh]; rewrite nupd_neq by congruence; exact Hq|congruence|reflexivity|].
  set (i1 := it_next (i_first qj) (it_parent (Some q) (new_item p))).
  assert (Em1 : H1 me = Some i1) by (rewrite EH1; unfold linked; rewrite nupd_eq; reflexivity).
  assert (Eq1 : H1 q = Some (it_first (Some me) qj)) by (rewrite EH1; unfold linked; rewrite nupd_neq by congruence; apply nupd_eq).
  assert (Eo1 : forall x, x <> me -> x <> q -> H1 x = s_heap s x).
  { intros x N1 N2. rewrite EH1. unfold linked. rewrite !nupd_neq by congruence. cbn [s0 s_heap set_heap set_fresh]. apply nupd_neq. exact N1. }
  (* the info *)
  assert (EI : exists o t2, (match info with
       | Some o => modify me (it_info (Some (oi_set_storage (c_sid C) o)))
       | None => populate_info C me end) (set_heap H1 s0) = Ret (tt, set_tick t2 (set_heap (nupd H1 me (Some (it_info (Some o) i1))) s0)) /\ (s_tick s <= t2)%nat /\
       (match info with Some o' => o = oi_set_storage (c_sid C) o' | None => oi_format o = format_of C p (s_nodes s) end) /\ oi_name o = n /\ oi_parent o = i_handle qj).
  { destruct info as [o|].
    - exists (oi_set_storage (c_sid C) o), (s_tick s). split; [|destruct (Hinfo o eq_refl); repeat split; auto; lia].
      unfold modify. cbn [s_heap set_heap]. rewrite Em1. reflexivity.
    - eexists. exists (S (s_tick s)). split.
      + unfold populate_info, bind, deref. cbn [s_heap set_heap]. rewrite Em1. cbn [i_info i1 it_next it_parent new_item i_parent].
        unfold tick, get, deref, modify, ret. cbn [s_heap set_heap set_tick]. rewrite Eq1. cbn [s_heap set_heap set_tick]. rewrite Em1. reflexivity.
      + split; [lia|]. cbn [oi_format oi_with oi_name oi_parent i_path it_next it_parent new_item it_first i_handle]. split; [reflexivity|]. split; [|reflexivity].
        unfold p. apply base_join. apply Hn. }
  destruct EI as (o & t2 & EI & Ht2 & Ho & Hon & Hop).
  set (h := c_handle C t2). set (i2 := it_handle h (it_info (Some o) i1)).
  set (H2 := nupd (nupd H1 me (Some (it_info (Some o) i1))) me (Some i2)).
  set (s2 := set_heap H2 (set_tick (S t2) (set_tick t2 (set_heap (nupd H1 me (Some (it_info (Some o) i1))) s0)))).
  assert (EX : attach_new C p info 0 s = Ret (me, s2)).
  { unfold attach_new. unfold bind at 1. unfold alloc at 1. fold me. fold s0.
    unfold bind at 1. unfold find_by_path, bind at 1, get at 1. cbn [s0 s_paths set_heap set_fresh]. rewrite Epar, Hqp.
    unfold handle_value at 1, get at 1. cbn [s_handles set_heap set_fresh]. rewrite Hqh. unfold bind at 1. unfold get at 1. fold s0.
    unfold bind at 1. change (set_fresh (me + 1) (set_heap (nupd (s_heap s) me (Some (new_item p))) s)) with s0.
    rewrite EL. unfold bind at 1. rewrite EI. unfold bind at 1. rewrite Eroot. change (0 =? 0) with true. cbv iota.
    unfold bind at 1. unfold tick at 1. cbn [s_tick set_tick]. unfold modify at 1. cbn [s_heap set_heap set_tick]. rewrite nupd_eq. reflexivity. }
  assert (Em2 : H2 me = Some i2) by apply nupd_eq.
  assert (Eo2 : forall x, x <> me -> H2 x = H1 x) by (intros x Nx; unfold H2; rewrite !nupd_neq by exact Nx; reflexivity).
  assert (Er : exists ri, s_heap s r = Some ri /\ i_parent ri = None /\ i_path ri = c_root C /\ i_handle ri = 0) by apply (W_root _ _ _ _ _ W).
  destruct Er as (ri & Er1 & Er2 & Er3 & Er4). assert (Nrm : r <> me) by congruence.
  (* old items *)
  assert (Fwd : forall x i, s_heap s x = Some i -> exists i', H2 x = Some i' /\ x <> me /\ (i' = i \/ (x = q /\ i' = it_first (Some me) i))).
  { intros x i Hx. assert (x <> me) by congruence. rewrite Eo2 by assumption. destruct (N.eq_dec x q) as [->|Nx].
    - rewrite Hq in Hx. injection Hx as <-. exists (it_first (Some me) qj). auto.
    - rewrite Eo1 by assumption. eauto. }
  assert (Bwd : forall x i', H2 x = Some i' -> x <> me -> exists i, s_heap s x = Some i /\ (i' = i \/ (x = q /\ i' = it_first (Some me) i))).
  { intros x i' Hx Nx. rewrite Eo2 in Hx by assumption. destruct (N.eq_dec x q) as [->|Nq].
    - rewrite Eq1 in Hx. injection Hx as <-. eauto.
    - rewrite Eo1 in Hx by assumption. eauto. }
  assert (Hfh : forall x i, s_heap s x = Some i -> i_handle i <> h).
  { intros x i Hx E. unfold h in E. destruct (N.eq_dec x r) as [->|Nx].
    - rewrite Hx in Er1. injection Er1 as <-. apply (so_nz _ SO t2). congruence.
    - destruct (W_sup _ _ _ _ _ W x i Hx Nx) as (t & A & B). assert (t = t2) by (apply (so_inj _ SO); congruence). lia. }
  assert (TT : T H2 (nupd (nupd ch me []) q (me :: ch q)) (eq r)).
  { pose proof (alloc_T _ _ _ me (new_item p) (W_T _ _ _ _ _ W) (W_bd _ _ _ _ _ W) eq_refl) as T1.
    pose proof (link_T _ H1 _ _ me q (new_item p) qj T1 (nupd_eq _ _ _ _) ltac:(rewrite nupd_neq by congruence; exact Hq) ltac:(congruence) ltac:(right; reflexivity) EH1) as T2.
    rewrite (nupd_neq _ ch me) in T2 by congruence.
    eapply T_ext; [exact T2| |].
    - intros x. split; [intros [[A|A] B]; congruence|intros <-; split; [left; reflexivity|exact Nrm]].
    - intros x. destruct (N.eq_dec x me) as [->|Nx]; [rewrite Em1, Em2; repeat split|]. rewrite Eo2 by exact Nx. destruct (H1 x); [repeat split|exact I]. }
  exists s2, i2, o. split; [exact EX|]. split.
  { constructor; cbn [s2 s_heap set_heap s_fresh set_tick s_handles s_paths s_root s_wds s_tick s0 set_fresh].
    - exact TT.
    - intros x i Hx. destruct (N.eq_dec x me) as [->|Nx]; [unfold me; lia|]. destruct (Bwd x i Hx Nx) as (i0 & A & _). pose proof (W_bd _ _ _ _ _ W x i0 A). lia.
    - apply (W_nd _ _ _ _ _ W).
    - intros hh v Hv. destruct (W_h _ _ _ _ _ W hh v Hv) as (x & i & A1 & A2 & A3 & _). destruct (Fwd x i A2) as (i' & B1 & B2 & B3). exists x, i'.
      split; [exact A1|]. split; [exact B1|]. split; [destruct B3 as [->|[_ ->]]; exact A3|]. congruence.
    - intros x i' Hx Hp. assert (Nx : x <> me) by (intros ->; apply Hp; reflexivity). destruct (Bwd x i' Hx Nx) as (i & A & B).
      destruct (W_live _ _ _ _ _ W x i A ltac:(discriminate)) as [D1 D2]. destruct B as [->|[_ ->]]; split; assumption.
    - intros x hh Hx. destruct (W_path _ _ _ _ _ W x hh Hx) as (y & i & A1 & A2 & A3 & _). destruct (Fwd y i A1) as (i' & B1 & B2 & B3). exists y, i'.
      split; [exact B1|]. destruct B3 as [->|[_ ->]]; repeat split; try assumption; congruence.
    - intros x i' Hx. destruct (N.eq_dec x me) as [->|Nx].
      + rewrite Em2 in Hx. injection Hx as <-. exists o. split; [reflexivity|]. intros y j Ey Hy. cbn in Ey. injection Ey as <-.
        assert (i_path j = i_path qj /\ i_handle j = i_handle qj) as [E1 E2].
        { destruct (Bwd q j Hy Nqm) as (k & A & B). rewrite Hq in A. injection A as <-. destruct B as [->|[_ ->]]; split; reflexivity. }
        rewrite E1, E2, Hon. split; [exact Hn|]. split; [reflexivity|exact Hop].
      + destruct (Bwd x i' Hx Nx) as (i & A & B). destruct (W_info _ _ _ _ _ W x i A) as (oo & O1 & O2). exists oo.
        assert (i_info i' = i_info i /\ i_parent i' = i_parent i /\ i_path i' = i_path i) as (F1 & F2 & F3) by (destruct B as [->|[_ ->]]; repeat split).
        rewrite F1, F2, F3. split; [exact O1|]. intros y j Ey Hy. assert (Ny : y <> me).
        { destruct (N.eq_dec x r) as [->|Nr]; [congruence|]. destruct (wf_parent _ _ _ _ _ W x i A Nr) as (z & k & oz & Z1 & Z2 & _). congruence. }
        destruct (Bwd y j Hy Ny) as (k & D & G). destruct (O2 y k Ey D) as (O3 & O4 & O5). destruct G as [->|[_ ->]]; auto.
    - destruct (Fwd r ri Er1) as (i' & A & _ & B). exists i'. split; [exact A|]. destruct B as [->|[_ ->]]; auto.
    - intros x i' Hx Nr. destruct (N.eq_dec x me) as [->|Nx].
      + rewrite Em2 in Hx. injection Hx as <-. exists t2. split; [lia|reflexivity].
      + destruct (Bwd x i' Hx Nx) as (i & A & B). destruct (W_sup _ _ _ _ _ W x i A Nr) as (t & D & F). exists t. split; [lia|]. destruct B as [->|[_ ->]]; exact F.
    - intros k hh Hk. destruct (W_wd _ _ _ _ _ W k hh Hk) as (x & i & A1 & A2 & A3 & A4). destruct (Fwd x i A1) as (i' & B1 & B2 & B3). exists x, i'.
      split; [exact B1|]. destruct B3 as [->|[_ ->]]; auto.
    - apply (W_rt _ _ _ _ _ W). }
  assert (Ehn : aget h (s_handles s) = None).
  { destruct (aget h (s_handles s)) as [v|] eqn:E; [|reflexivity]. destruct (W_h _ _ _ _ _ W h v E) as (x & i & A1 & A2 & A3 & _). exfalso. exact (Hfh x i A2 A3). }
  split; [split; [exact Em2|split; [exact Ehn|exact Hpath]]|]. repeat split; try exact Ho.
  - exists t2. split; [exact Ht2|reflexivity].
  - intros (k & Hk). destruct (W_wd _ _ _ _ _ W k h Hk) as (x & i & A1 & A2 & _). exact (Hfh x i A1 A2).
  - exists H2, (S t2). split; [reflexivity|]. split; [lia|]. split; [rewrite Eo2 by congruence; exact Eq1|]. intros x N1 N2. rewrite Eo2 by exact N1. apply Eo1; assumption.
Qed.
(** *** Watches *)
Definition hwd (H H' : heap) : Prop :=
  forall x, match H x, H' x with Some i, Some i' => exists w, i' = it_wd w i | None, None => True | _, _ => False end.
(** only watch numbers, the watch table and the clock changed *)
Definition wsame (s s' : fs) : Prop :=
  exists H D t, s' = set_tick t (set_wds D (set_heap H s)) /\ hwd (s_heap s) H /\ (s_tick s <= t)%nat.
Lemma it_wd_same i : it_wd (i_wd i) i = i. Proof. destruct i; reflexivity. Qed.
Lemma hwd_refl H : hwd H H.
Proof. intros x. destruct (H x) as [i|]; [|exact I]. exists (i_wd i). symmetry. apply it_wd_same. Qed.
Lemma hwd_trans A B D : hwd A B -> hwd B D -> hwd A D.
Proof.
  intros X Y x. specialize (X x). specialize (Y x). destruct (A x), (B x), (D x); try contradiction; auto.
  destruct X as [w ->], Y as [w' ->]. exists w'. reflexivity.
Qed.
Lemma wsame_refl s : wsame s s.
Proof. exists (s_heap s), (s_wds s), (s_tick s). split; [destruct s; reflexivity|]. split; [apply hwd_refl|lia]. Qed.
Lemma wsame_trans a b c : wsame a b -> wsame b c -> wsame a c.
Proof.
  intros (H & D & t & -> & A & B) (H' & D' & t' & -> & A' & B'). exists H', D', t'. split; [destruct a; reflexivity|]. cbn [s_heap set_tick set_wds set_heap s_tick] in *.
  split; [eapply hwd_trans; eassumption|lia].
Qed.
Lemma wsame_fwd s s' x i : wsame s s' -> s_heap s x = Some i -> exists w, s_heap s' x = Some (it_wd w i).
Proof. intros (H & D & t & -> & A & _) Hx. cbn. specialize (A x). rewrite Hx in A. destruct (H x); [|contradiction]. destruct A as [w ->]. eauto. Qed.
Lemma wsame_bwd s s' x i' : wsame s s' -> s_heap s' x = Some i' -> exists i w, s_heap s x = Some i /\ i' = it_wd w i.
Proof. intros (H & D & t & -> & A & _) Hx. cbn in Hx. specialize (A x). rewrite Hx in A. destruct (s_heap s x); [|contradiction]. destruct A as [w ->]. eauto. Qed.
Lemma wsame_fields s s' : wsame s s' -> s_fresh s' = s_fresh s /\ s_root s' = s_root s /\ s_handles s' = s_handles s /\ s_paths s' = s_paths s /\
  s_nodes s' = s_nodes s /\ s_puoids s' = s_puoids s /\ s_byid s' = s_byid s /\ s_events s' = s_events s /\ s_write s' = s_write s /\ s_file s' = s_file s /\ s_cache s' = s_cache s /\ (s_tick s <= s_tick s')%nat.
Proof. intros (H & D & t & -> & A & B). repeat split. exact B. Qed.

Lemma wf_wsame s s' ch r pend : WF C s ch r pend -> wsame s s' ->
  (forall n h, s_wds s' n = Some h -> exists p i, s_heap s' p = Some i /\ i_handle i = h /\ i_wd i = Some n /\ is_assoc i = true) ->
  WF C s' ch r pend.
Proof.
  intros W X Hwd.
  destruct (wsame_fields _ _ X) as (E1 & E2 & E3 & E4 & _ & _ & _ & _ & _ & _ & _ & E5).
  assert (F' : forall x i, s_heap s x = Some i -> exists w, s_heap s' x = Some (it_wd w i)) by (intros; eapply wsame_fwd; eassumption).
  assert (B' : forall x i', s_heap s' x = Some i' -> exists i w, s_heap s x = Some i /\ i' = it_wd w i) by (intros; eapply wsame_bwd; eassumption).
  constructor; rewrite ?E1, ?E2, ?E3, ?E4.
  - eapply T_ext; [apply (W_T _ _ _ _ _ W)|tauto|]. destruct X as (H & D & t & -> & A & _). intros x. specialize (A x). cbn. destruct (s_heap s x), (H x); try contradiction; auto.
    destruct A as [w ->]. repeat split.
  - intros x i' Hx. destruct (B' x i' Hx) as (i & w & A & _). exact (W_bd _ _ _ _ _ W x i A).
  - apply (W_nd _ _ _ _ _ W).
  - intros h v Hv. destruct (W_h _ _ _ _ _ W h v Hv) as (x & i & A1 & A2 & A3 & A4). destruct (F' x i A2) as (w & A). exists x, (it_wd w i). auto.
  - intros x i' Hx Np. destruct (B' x i' Hx) as (i & w & A & ->). exact (W_live _ _ _ _ _ W x i A Np).
  - intros x h Hx. destruct (W_path _ _ _ _ _ W x h Hx) as (y & i & A1 & A2 & A3 & A4). destruct (F' y i A1) as (w & A). exists y, (it_wd w i). auto.
  - intros x i' Hx. destruct (B' x i' Hx) as (i & w & A & ->). destruct (W_info _ _ _ _ _ W x i A) as (o & O1 & O2). exists o. split; [exact O1|].
    intros y j Ey Hy. destruct (B' y j Hy) as (k & w' & D & ->). exact (O2 y k Ey D).
  - destruct (W_root _ _ _ _ _ W) as (ri & A & R1). destruct (F' r ri A) as (w & D). exists (it_wd w ri). auto.
  - intros x i' Hx Nr. destruct (B' x i' Hx) as (i & w & A & ->). destruct (W_sup _ _ _ _ _ W x i A Nr) as (t & D & G). exists t. split; [lia|exact G].
  - exact Hwd.
  - apply (W_rt _ _ _ _ _ W).
Qed.
(** handles are unique also with a pending item whose handle is not in the table *)
Definition sole (s : fs) (p : ptr) (i : item) : Prop := forall x j, s_heap s x = Some j -> i_handle j = i_handle i -> x = p.
Lemma sole_live s ch r pend p i : WF C s ch r pend -> pend = None -> s_heap s p = Some i -> sole s p i.
Proof. intros W -> Hp x j Hx E. eapply (wf_uniq _ _ _ _ _ W); eauto; discriminate. Qed.
Lemma add_watch_ok s ch r pend p i : WF C s ch r pend -> s_heap s p = Some i -> ~ has_entry s (i_handle i) ->
  exists s', add_watch C p s = Ret (tt, s') /\ WF C s' ch r pend /\ wsame s s' /\
    (forall n h, s_wds s' n = Some h -> s_wds s n = Some h \/ (h = i_handle i /\ is_assoc i = true)) /\ (forall x, x <> p -> s_heap s' x = s_heap s x).
Proof.
  intros W Hp Hn. unfold add_watch. unfold bind at 1. unfold deref at 1. rewrite Hp. destruct (is_assoc i) eqn:Ea.
  2:{ exists s. split; [reflexivity|]. split; [exact W|]. split; [apply wsame_refl|]. split; auto. }
  set (t := s_tick s). set (wd := if exists_at (i_path i) (s_nodes s) then c_wd C t else None).
  assert (EX : exists s', (bind (sys_add_watch C (i_path i)) (fun w' => modify p (it_wd w');;; match w' with Some n => upd (fun s => set_wds (nupd (s_wds s) n (Some (i_handle i))) s) | None => ret tt end)) s = Ret (tt, s')
      /\ s' = set_tick (S t) (set_wds (match wd with Some n => nupd (s_wds s) n (Some (i_handle i)) | None => s_wds s end) (set_heap (nupd (s_heap s) p (Some (it_wd (wd) i))) s))).
  { eexists. split; [|reflexivity]. unfold sys_add_watch. unfold bind at 1. unfold bind at 1. unfold tick at 1. unfold bind at 1. unfold get at 1. cbn [s_nodes set_tick]. unfold ret at 1. change (if exists_at (i_path i) (s_nodes s) then c_wd C (s_tick s) else None) with wd. unfold bind at 1. unfold modify at 1. cbn [s_heap set_tick]. rewrite Hp. destruct wd; reflexivity. }
  destruct EX as (s' & EX & Es'). exists s'. split; [exact EX|].
  assert (X : wsame s s').
  { rewrite Es'. eexists _, _, _. split; [reflexivity|]. split; [|unfold t; lia]. intros x. unfold nupd. destruct (x =? p) eqn:E.
    - replace x with p by lia. rewrite Hp. eauto.
    - destruct (s_heap s x) as [j|]; [|exact I]. exists (i_wd j). symmetry. apply it_wd_same. }
  assert (Hwd : forall n h, s_wds s' n = Some h -> s_wds s n = Some h \/ (wd = Some n /\ h = i_handle i)).
  { intros n h. rewrite Es'. cbn. destruct (wd) as [m|] eqn:Em; [|auto]. unfold nupd. destruct (n =? m) eqn:E; [|auto]. intros [= <-]. right. split; [f_equal; lia|reflexivity]. }
  assert (Hoth : forall x, x <> p -> s_heap s' x = s_heap s x) by (intros x Nx; rewrite Es'; cbn; apply nupd_neq; exact Nx).
  split; [|split; [exact X|split; [|exact Hoth]]].
  - eapply wf_wsame; [exact W|exact X|]. intros n h Hh. destruct (Hwd n h Hh) as [A|[A ->]].
    + destruct (W_wd _ _ _ _ _ W n h A) as (x & j & B1 & B2 & B3 & B4). assert (Nx : x <> p).
      { intros ->. rewrite Hp in B1. injection B1 as <-. apply Hn. exists n. congruence. }
      exists x, j. rewrite Hoth by exact Nx. auto.
    + exists p, (it_wd (wd) i). split; [rewrite Es'; cbn; apply nupd_eq|]. auto.
  - intros n h Hh. destruct (Hwd n h Hh) as [A|[A ->]]; auto.
Qed.
Lemma remove_watch_ok s ch r pend p i : WF C s ch r pend -> s_heap s p = Some i ->
  exists s', remove_watch p s = Ret (tt, s') /\ WF C s' ch r pend /\ wsame s s' /\ s_heap s' = s_heap s /\
    (forall n h, s_wds s' n = Some h -> s_wds s n = Some h) /\ (sole s p i -> ~ has_entry s' (i_handle i)).
Proof.
  intros W Hp. unfold remove_watch. unfold bind at 1. unfold deref at 1. rewrite Hp.
  assert (Hsame : sole s p i -> is_assoc i = false \/ i_wd i = None -> ~ has_entry s (i_handle i)).
  { intros S D (n & Hh). destruct (W_wd _ _ _ _ _ W n _ Hh) as (x & j & B1 & B2 & B3 & B4). assert (x = p) by (eapply S; eassumption). subst x.
    rewrite Hp in B1. injection B1 as <-. destruct D; congruence. }
  destruct (is_assoc i) eqn:Ea; [|exists s; split; [reflexivity|]; auto 10 using wsame_refl].
  destruct (i_wd i) as [n|] eqn:Ew; [|exists s; split; [reflexivity|]; auto 10 using wsame_refl].
  eexists. split; [reflexivity|].
  assert (X : wsame s (set_wds (nupd (s_wds s) n None) s)) by (exists (s_heap s), (nupd (s_wds s) n None), (s_tick s); split; [destruct s; reflexivity|]; split; [apply hwd_refl|lia]).
  assert (Hd : forall m h, s_wds (set_wds (nupd (s_wds s) n None) s) m = Some h -> s_wds s m = Some h /\ m <> n).
  { intros m h. cbn. unfold nupd. destruct (m =? n) eqn:E; [discriminate|]. intros Hm. split; [exact Hm|lia]. }
  split; [|split; [exact X|split; [reflexivity|split; [intros m h Hm; apply Hd; exact Hm|]]]].
  - eapply wf_wsame; [exact W|exact X|]. intros m h Hm. apply Hd in Hm as [Hm _]. exact (W_wd _ _ _ _ _ W m h Hm).
  - intros S (m & Hm). apply Hd in Hm as [Hm Nm]. destruct (W_wd _ _ _ _ _ W m _ Hm) as (x & j & B1 & B2 & B3 & B4). assert (x = p) by (eapply S; eassumption). subst x.
    rewrite Hp in B1. injection B1 as <-. congruence.
Qed.

(** *** Entering the tables *)
Lemma add_to_maps_ok s ch r me i : WF C s ch r (Some me) -> fresh_item s me i ->
  exists s', add_to_maps C me s = Ret (tt, s') /\ WF C s' ch r None /\
    s_fresh s' = s_fresh s /\ s_root s' = s_root s /\ s_wds s' = s_wds s /\ s_nodes s' = s_nodes s /\ (s_tick s <= s_tick s')%nat /\
    s_handles s' = aset (i_handle i) (Some me) (s_handles s) /\ (exists u, s_heap s' me = Some (it_puoid u i)) /\ (forall x, x <> me -> s_heap s' x = s_heap s x).
Proof.
  intros W (Hme & Hh & Hpth).
  assert (EX : exists u s', add_to_maps C me s = Ret (tt, s') /\ s_heap s' = nupd (s_heap s) me (Some (it_puoid u i)) /\
     s_fresh s' = s_fresh s /\ s_root s' = s_root s /\ s_wds s' = s_wds s /\ s_nodes s' = s_nodes s /\ (s_tick s <= s_tick s')%nat /\
     s_handles s' = aset (i_handle i) (Some me) (s_handles s) /\ s_paths s' = pupd (s_paths s) (i_path i) (Some (i_handle i))).
  { unfold add_to_maps, bind, deref. rewrite Hme. unfold upd, get, tick, modify. cbn [s_heap set_heap set_paths set_handles s_puoids].
    destruct (s_puoids s (i_path i)) as [u|]; cbn [s_heap set_heap set_paths set_handles set_tick s_tick]; rewrite Hme; eexists _, _; (split; [reflexivity|]);
      cbn [s_heap set_heap set_paths set_handles set_tick s_tick set_puoids s_fresh s_root s_wds s_nodes s_handles s_paths]; repeat split; lia. }
  destruct EX as (u & s' & EX & EH & E1 & E2 & E3 & E4 & E5 & E6 & E7). exists s'. split; [exact EX|].
  assert (Eme : s_heap s' me = Some (it_puoid u i)) by (rewrite EH; apply nupd_eq).
  assert (Eo : forall x, x <> me -> s_heap s' x = s_heap s x) by (intros x Nx; rewrite EH; apply nupd_neq; exact Nx).
  split; [|repeat split; eauto].
  assert (F : forall x j, s_heap s x = Some j -> exists j', s_heap s' x = Some j' /\ (j' = j \/ (x = me /\ j = i /\ j' = it_puoid u i))).
  { intros x j Hx. destruct (N.eq_dec x me) as [->|Nx]; [rewrite Hme in Hx; injection Hx as <-; eexists; split; [exact Eme|right; auto]|rewrite Eo by exact Nx; eauto]. }
  assert (B : forall x j', s_heap s' x = Some j' -> exists j, s_heap s x = Some j /\ (j' = j \/ (x = me /\ j = i /\ j' = it_puoid u i))).
  { intros x j' Hx. destruct (N.eq_dec x me) as [->|Nx]; [rewrite Eme in Hx; injection Hx as <-; eexists; split; [exact Hme|right; auto]|rewrite Eo in Hx by exact Nx; eauto]. }
  constructor; rewrite ?E1, ?E2, ?E3, ?E6, ?E7.
  - eapply T_ext; [apply (W_T _ _ _ _ _ W)|tauto|]. intros x. destruct (N.eq_dec x me) as [->|Nx]; [rewrite Hme, Eme; repeat split|].
    rewrite Eo by exact Nx. destruct (s_heap s x); [repeat split|exact I].
  - intros x j' Hx. destruct (B x j' Hx) as (j & A & _). exact (W_bd _ _ _ _ _ W x j A).
  - apply NoDup_aset. apply (W_nd _ _ _ _ _ W).
  - intros h v. rewrite aget_aset. destruct (h =? i_handle i) eqn:E.
    + intros [= <-]. exists me, (it_puoid u i). split; [reflexivity|]. split; [exact Eme|]. split; [cbn; lia|discriminate].
    + intros Hv. destruct (W_h _ _ _ _ _ W h v Hv) as (x & j & A1 & A2 & A3 & A4). destruct (F x j A2) as (j' & D1 & D2). exists x, j'.
      split; [exact A1|]. split; [exact D1|]. split; [destruct D2 as [->|(_ & -> & ->)]; exact A3|discriminate].
  - intros x j' Hx _. destruct (N.eq_dec x me) as [->|Nx].
    + rewrite Eme in Hx. injection Hx as <-. cbn. rewrite aget_aset_eq, pupd_eq. auto.
    + rewrite Eo in Hx by exact Nx. destruct (W_live _ _ _ _ _ W x j' Hx ltac:(congruence)) as [A1 A2].
      rewrite aget_aset_neq by congruence. rewrite pupd_neq by congruence. auto.
  - intros x h. unfold pupd. destruct (peqb x (i_path i)) eqn:E.
    + intros [= <-]. apply peqb_eq in E. exists me, (it_puoid u i). split; [exact Eme|]. split; [reflexivity|]. split; [symmetry; exact E|discriminate].
    + intros Hx. destruct (W_path _ _ _ _ _ W x h Hx) as (y & j & A1 & A2 & A3 & A4). destruct (F y j A1) as (j' & D1 & D2). exists y, j'.
      split; [exact D1|]. destruct D2 as [->|(_ & -> & ->)]; repeat split; try assumption; discriminate.
  - intros x j' Hx. destruct (B x j' Hx) as (j & A & D). destruct (W_info _ _ _ _ _ W x j A) as (o & O1 & O2). exists o.
    assert (i_info j' = i_info j /\ i_parent j' = i_parent j /\ i_path j' = i_path j) as (F1 & F2 & F3) by (destruct D as [->|(_ & -> & ->)]; repeat split).
    rewrite F1, F2, F3. split; [exact O1|]. intros y k Ey Hy. destruct (B y k Hy) as (k0 & G & L). destruct (O2 y k0 Ey G) as (O3 & O4 & O5).
    destruct L as [->|(_ & -> & ->)]; auto.
  - destruct (W_root _ _ _ _ _ W) as (ri & A & R1). destruct (F r ri A) as (ri' & D & G). exists ri'. split; [exact D|]. destruct G as [->|(_ & -> & ->)]; exact R1.
  - intros x j' Hx Nr. destruct (B x j' Hx) as (j & A & D). destruct (W_sup _ _ _ _ _ W x j A Nr) as (t & L & G). exists t. split; [lia|]. destruct D as [->|(_ & -> & ->)]; exact G.
  - intros n h Hw. destruct (W_wd _ _ _ _ _ W n h Hw) as (x & j & A1 & A2). destruct (F x j A1) as (j' & D & G). exists x, j'. split; [exact D|]. destruct G as [->|(_ & -> & ->)]; exact A2.
  - apply (W_rt _ _ _ _ _ W).
Qed.

(** *** Giving up a pending item *)
Lemma detach_ok s ch r me i : WF C s ch r (Some me) -> s_heap s me = Some i -> me <> r -> ch me = [] -> (forall n, s_wds s n <> Some (i_handle i)) ->
  exists s' ch', (unlink_child me ;;; free me) s = Ret (tt, s') /\ WF C s' ch' r None /\ s_heap s' me = None /\
    (exists H, s' = set_heap H s /\ forall x, x <> me -> match s_heap s x, H x with Some i, Some i' => lk i i' | None, None => True | _, _ => False end).
Proof.
  intros W Hme Nr Hch Hnw.
  destruct (unlink_exec ch (eq r) me s i (W_T _ _ _ _ _ W) (W_bd _ _ _ _ _ W) Hme ltac:(congruence) (wf_noself _ _ _ _ _ W me i Hme)) as (H1 & par & l1 & l2 & EX & Epar & Ech & HL & Hm1 & _ & TT).
  assert (Npm : par <> me) by (intros ->; rewrite Hch in Ech; destruct l1; discriminate).
  set (ch' := nupd ch par (l1 ++ l2)) in *.
  assert (Hch' : ch' me = []) by (unfold ch'; rewrite nupd_neq by congruence; exact Hch).
  pose proof (free_T _ _ _ me _ TT Hm1 (or_intror eq_refl) Hch') as TT2.
  exists (set_heap (nupd H1 me None) s), ch'. split.
  { unfold bind. rewrite EX. reflexivity. }
  assert (F : forall x j, s_heap s x = Some j -> x <> me -> exists j', nupd H1 me None x = Some j' /\ lk j j').
  { intros x j Hx Nx. rewrite nupd_neq by exact Nx. eapply hlk_fwd; eassumption. }
  assert (B : forall x j', nupd H1 me None x = Some j' -> x <> me /\ exists j, s_heap s x = Some j /\ lk j j').
  { intros x j'. unfold nupd. destruct (x =? me) eqn:E; [discriminate|]. intros Hx. split; [lia|]. eapply hlk_bwd; eassumption. }
  split; [|split; [cbn; apply nupd_eq|eexists; split; [reflexivity|]; intros x Nx; rewrite nupd_neq by exact Nx; apply HL]].
  constructor; cbn [s_heap set_heap s_fresh s_handles s_paths s_root s_wds s_tick].
  - eapply T_ext; [exact TT2| |].
    + intros x. split; [intros [[A|A] D]; congruence|intros <-; split; [left; reflexivity|congruence]].
    + intros x. destruct (nupd H1 me None x); [repeat split|exact I].
  - intros x j' Hx. destruct (B x j' Hx) as (_ & j & A & _). exact (W_bd _ _ _ _ _ W x j A).
  - apply (W_nd _ _ _ _ _ W).
  - intros h v Hv. destruct (W_h _ _ _ _ _ W h v Hv) as (x & j & A1 & A2 & A3 & A4). destruct (F x j A2 ltac:(congruence)) as (j' & D1 & D2). exists x, j'.
    apply lk_fields in D2 as (L1 & _). split; [exact A1|]. split; [exact D1|]. split; [congruence|discriminate].
  - intros x j' Hx _. destruct (B x j' Hx) as (Nx & j & A & D). destruct (W_live _ _ _ _ _ W x j A ltac:(congruence)) as [A1 A2].
    apply lk_fields in D as (L1 & L2 & _). rewrite L1, L2. auto.
  - intros x h Hx. destruct (W_path _ _ _ _ _ W x h Hx) as (y & j & A1 & A2 & A3 & A4). destruct (F y j A1 ltac:(congruence)) as (j' & D1 & D2). exists y, j'.
    apply lk_fields in D2 as (L1 & L2 & _). split; [exact D1|]. split; [congruence|]. split; [congruence|discriminate].
  - intros x j' Hx. destruct (B x j' Hx) as (Nx & j & A & D). destruct (W_info _ _ _ _ _ W x j A) as (o & O1 & O2). exists o.
    apply lk_fields in D as (L1 & L2 & L3 & L4 & L5 & _). rewrite L2, L4, L5. split; [exact O1|]. intros y k Ey Hy. destruct (B y k Hy) as (Ny & k0 & G & L).
    apply lk_fields in L as (M1 & M2 & _). rewrite M1, M2. exact (O2 y k0 Ey G).
  - destruct (W_root _ _ _ _ _ W) as (ri & A & R1). destruct (F r ri A ltac:(congruence)) as (ri' & D & G). exists ri'. apply lk_fields in G as (L1 & L2 & L3 & L4 & L5 & _).
    rewrite L1, L2, L5. auto.
  - intros x j' Hx Nxr. destruct (B x j' Hx) as (Nx & j & A & D). destruct (W_sup _ _ _ _ _ W x j A Nxr) as (t & L & G). exists t. split; [lia|].
    apply lk_fields in D as (L1 & _). congruence.
  - intros n h Hh. destruct (W_wd _ _ _ _ _ W n h Hh) as (x & j & A1 & A2 & A3 & A4). assert (Nx : x <> me).
    { intros ->. rewrite Hme in A1. injection A1 as <-. apply (Hnw n). congruence. }
    destruct (F x j A1 Nx) as (j' & D & G). exists x, j'. apply lk_fields in G as (L1 & L2 & L3 & L4 & _). unfold is_assoc in *. rewrite L1, L3, L4. auto.
  - apply (W_rt _ _ _ _ _ W).
Qed.
End Attach.
