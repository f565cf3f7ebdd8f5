(** The operations and the watch descriptors: walks over subtrees, data, copies. *)
From Verif Require Import Base AList Wire FS FSPath FSTree FSLogic FSWatch FSWatch2 FSFirm.

Section Watch3.
Variables (C : conf) (WT : forall t, c_wd C t <> None) (WI : forall t t' n, c_wd C t = Some n -> c_wd C t' = Some n -> t = t').
Notation asrt := (asrt C). Notation tr3 := (tr3 C). Notation nt := (nt C).
Implicit Types (D : ptr -> Prop) (K : ptr -> N -> option bool -> Prop).
Ltac nt1 := lazymatch goal with
  | |- nt (bind _ _) => apply nt_bind; [|intros ?]
  | |- nt (deref _) => apply nt_deref
  | |- nt (deref_opt _) => apply nt_deref_opt
  | |- nt (ret _) => apply nt_ret
  | |- nt crash => apply nt_crash
  | |- nt give_up => apply nt_giveup
  | |- nt (get _) => apply nt_get
  | |- nt tick => apply nt_tick
  | |- nt (free _) => apply nt_free
  | |- nt (emit _ _) => apply nt_emit
  | |- nt (info_of _) => apply nt_info
  | |- nt (handle_ref _) => apply nt_handle_ref
  | |- nt (handle_value _) => apply nt_handle_value
  | |- nt (has_handle _) => apply nt_has_handle
  | |- nt (when _ _) => apply nt_when
  | |- nt (upd _) => apply nt_upd; intros; cbn; auto 10
  | |- nt (modify _ _) => apply nt_modify; intros; auto
  | |- nt (match ?x with _ => _ end) => destruct x
  end.
Ltac ntx := repeat nt1.
Tactic Notation "ntl" tactic3(t) := repeat first [t | nt1].


(** *** What is known of an item that was looked at *)
Lemma asrt_kind D K s p i b : asrt D K s -> s_heap s p = Some i -> kind i = Some b -> asrt D (fun x h k => K x h k /\ (x = p -> k = Some b)) s.
Proof.
  intros [I A1 A2 A3 A4] Hp Hk. constructor; auto.
  - intros x Hx h k. split; [auto|]. intros ->. pose proof (V_bd C s I p i Hp). lia.
  - intros x h k [Z1 Z2]. split; [apply A2; exact Z1|]. intros E. specialize (Z2 E). discriminate.
  - intros x j Hj. split; [auto|]. intros ->. rewrite Hp in Hj. injection Hj as <-. exact Hk.
Qed.
Lemma mod_kind D K p f b : (forall h k, K p h k -> k = Some b) -> (forall i, i_wd (f i) = i_wd i /\ i_handle (f i) = i_handle i /\ kind (f i) = Some b) -> tr3 D K (modify p f) (fun _ => D).
Proof.
  intros HK Hf s a s' HA E. unfold modify in E. destruct (s_heap s p) as [i|] eqn:Hp; [|discriminate]. injection E as <- <-. destruct (Hf i) as (F1 & F2 & F3).
  pose proof (A_k _ _ _ _ HA p i Hp) as Z. pose proof (HK _ _ Z) as Zb.
  eapply asrt_item; [exact HA|exact Hp|exact F1| |auto|].
  - rewrite F2, F3, <- Zb. exact Z.
  - rewrite F3. intros H1 H2. apply (A_d _ _ _ _ HA). exists i. split; [exact Hp|]. split; [rewrite Zb; exact H1|]. intros (n & N1 & N2). apply H2. exists n. rewrite F1, F2. auto.
Qed.
Definition knows (K0 : ptr -> N -> option bool -> Prop) p (b : bool) : ptr -> N -> option bool -> Prop := fun x h k => K0 x h k /\ (x = p -> k = Some b).
Lemma nt_look {A} p (f : item -> M A) : (forall i, kind i = None -> nt (f i)) -> (forall i b, kind i = Some b -> forall D K, tr3 D (knows K p b) (f i) (fun _ => D)) -> nt (bind (deref p) f).
Proof.
  intros HN HS D K s a s' HA E. unfold bind, deref in E. destruct (s_heap s p) as [i|] eqn:Hp; [|discriminate]. destruct (kind i) as [b|] eqn:Ek.
  - eapply asrt_forget; [apply (A_up _ _ _ _ HA)|]. eapply (HS i b Ek D K); [|exact E]. eapply asrt_kind; eassumption.
  - eapply HN; eassumption.
Qed.
Lemma mod_known D K p b o f : (oi_format o =? FMT_Association) = b -> (forall i, f i = it_info (Some o) i) -> tr3 D (knows K p b) (modify p f) (fun _ => D).
Proof. intros Eb Hf. apply mod_kind with (b := b); [intros h k [_ Z]; apply Z; reflexivity|]. intros i. rewrite Hf. unfold kind. cbn. rewrite Eb. auto. Qed.
Lemma kind_info i b o : kind i = Some b -> i_info i = Some o -> (oi_format o =? FMT_Association) = b.
Proof. unfold kind. intros H E. rewrite E in H. congruence. Qed.
Lemma kind_none i : kind i = None -> i_info i = None.
Proof. unfold kind. destruct (i_info i); [discriminate|reflexivity]. Qed.
Lemma nt3 {A} D K (m : M A) : nt m -> tr3 D K m (fun _ => D).
Proof. intros H. apply H. Qed.

Lemma tr_ret {A B} D K (a : A) (f : A -> M B) (D2 : B -> ptr -> Prop) : tr3 D K (f a) D2 -> tr3 D K (bind (ret a) f) D2.
Proof. intros H s b s' HA E. exact (H s b s' HA E). Qed.
Lemma crash_no {A} s (r : A) s' : @crash A s = Ret (r, s') -> False.
Proof. discriminate. Qed.
Lemma nt_truncate h n : nt (truncate_item C h n).
Proof.
  unfold truncate_item. nt1; [nt1|]. destruct (negb a); [nt1|]. nt1; [nt1|]. destruct a0 as [p|]; [|nt1]. apply nt_look; [intros i Hk; cbn beta; rewrite (kind_none i Hk); nt1|]. intros i b Hk D K. cbn beta.
  destruct (i_info i) as [o|] eqn:Ei; [|apply nt_ret]. pose proof (kind_info i b o Hk Ei) as Eb. destruct (oi_format o =? FMT_Association) eqn:Ef; [apply nt_ret|].
  apply tr_nt; [apply nt_fails|intros f]. apply tr_nt; [nt1|intros w]. destruct (node_at (i_path i) w) as [[d|]|]; [|apply nt_ret|apply nt_ret]. destruct (f || _); [apply nt_ret|]. apply tr_nt; [nt1|intros _].
  subst b. eapply tr_bind; [apply mod_known with (o := oi_set_size n o); [exact Ef|reflexivity]|intros ?; apply nt_ret].
Qed.
Lemma nt_write_loop : forall fuel bs, nt (write_loop C fuel bs).
Proof. induction fuel as [|f IH]; intros [|b bs]; cbn [write_loop]; ntx. apply IH. Qed.
Lemma nt_write_data h data first last : nt (write_data C h data first last).
Proof. unfold write_data. ntl (first [apply nt_fails|apply nt_open|apply nt_write_loop]). Qed.
Lemma nt_write_partial h off bs first last : nt (write_partial C h off bs first last).
Proof.
  unfold write_partial. nt1; [nt1|]. nt1; [ntx|]. set (code := if negb a then _ else _). nt1; [ntl (apply nt_open)|]. nt1; [nt1|]. nt1; [ntl (first [apply nt_fails|apply nt_write_loop])|]. nt1; [|nt1]. destruct (_ || _); [|nt1]. nt1; [nt1|]. nt1; [|nt1; intros; cbn; auto].
  destruct a4 as [[fp0 pos0]|]; [|nt1]. nt1; [nt1|]. destruct a0 as [p|]; [|nt1; [nt1|]; ntx]. cbn [deref_opt]. apply nt_look; [intros i Hk; cbn beta; unfold info_of; rewrite (kind_none i Hk); intros D K s' r s1 H E; discriminate|].
  intros i b Hk D K. cbn beta. unfold info_of. destruct (i_info i) as [o|] eqn:Ei; [|intros s0 r s1 H E; discriminate]. apply tr_ret. apply tr_nt; [nt1|intros w]. cbn beta. apply mod_known with (o := oi_set_size (size_of (i_path i) w) o); [exact (kind_info i b o Hk Ei)|reflexivity].
Qed.
Lemma nt_get_info h : nt (get_object_info C h).
Proof. unfold get_object_info. ntl (apply nt_populate). Qed.
Lemma nt_copy_loop dfuel src dst : forall fuel off rem result, nt (copy_loop C fuel dfuel src dst off rem result).
Proof.
  induction fuel as [|f IH]; intros off rem result; cbn [copy_loop]; (destruct (_ || _); [nt1|]); [nt1|]. ntl (first [apply nt_read|apply (nt_delete_item C)|apply nt_write_data|apply IH]).
Qed.
Lemma nt_copy_data fuel src dst : nt (copy_data C fuel src dst).
Proof. unfold copy_data. ntl (first [apply nt_get_info|apply nt_copy_loop]). Qed.
Lemma nt_any_path p : forall l, nt (any_path l p).
Proof. induction l as [|h l IH]; cbn [any_path]; ntx; apply IH. Qed.

(** *** Walks over a subtree *)
Lemma lview_some H x i : H x = Some i -> lview H x = Some (i_first i, i_next i, is_assoc i).
Proof. unfold lview. intros ->. reflexivity. Qed.
Lemma lview_inv H x t : lview H x = Some t -> exists i, H x = Some i /\ t = (i_first i, i_next i, is_assoc i).
Proof. unfold lview. destruct (H x) as [i|]; [|discriminate]. intros [= <-]. eauto. Qed.
Lemma lsame_add p s a s' : add_watch C p s = Ret (a, s') -> lsame s s'.
Proof.
  intros E. apply (add_watch_s C WT) in E as (i & Hp & [[Ea ->]|[(Ea & Ex & n & En & ->)|(Ea & Ex & ->)]]); [apply lsame_refl|..]; intros x; unfold lview; cbn; unfold nupd; destruct (x =? p) eqn:Z; try reflexivity; apply N.eqb_eq in Z; subst x; rewrite Hp; reflexivity.
Qed.
Lemma lsame_remove p s a s' : remove_watch p s = Ret (a, s') -> lsame s s'.
Proof.
  intros E. unfold remove_watch in E. unfold bind at 1 in E. unfold deref at 1 in E. destruct (s_heap s p) as [i|]; [|discriminate]. destruct (is_assoc i); [|injection E as <- <-; apply lsame_refl]. destruct (i_wd i); [|injection E as <- <-; apply lsame_refl]. unfold upd in E. injection E as <- <-. intros x. reflexivity.
Qed.
Section Walk.
Variables (f : ptr -> M unit) (pre post : (ptr -> Prop) -> (ptr -> Prop) -> fs -> Prop).
(** [pre D V]: what may be deaf before items [V] are visited, [post D V]: after *)
Hypothesis f_links : forall p s a s', f p s = Ret (a, s') -> lsame s s'.
Hypothesis f_step : forall D p s a s', pre D (fun x => x = p) s -> (exists i, s_heap s p = Some i /\ is_assoc i = true) -> f p s = Ret (a, s') -> post D (fun x => x = p) s'.
(** visiting two sets one after the other *)
Hypothesis comb : forall V1 V2 V D s, (forall x, V x <-> V1 x \/ V2 x) -> pre D V s -> exists D1 D2, pre D1 V1 s /\ (forall s', post D1 V1 s' -> pre D2 V2 s') /\ (forall s', post D2 V2 s' -> post D V s').
Hypothesis none : forall V D s, (forall x, ~ V x) -> pre D V s -> post D V s.
Hypothesis pre_eq : forall V V' D s, (forall x, V x <-> V' x) -> pre D V s -> pre D V' s.
Hypothesis post_eq : forall V V' D s, (forall x, V x <-> V' x) -> post D V s -> post D V' s.
Lemma walk_links : forall fuel p s a s', watch_rec fuel f p s = Ret (a, s') -> lsame s s'.
Proof.
  induction fuel as [|n IH]; intros p s a s' E; [discriminate|]. cbn [watch_rec] in E. unfold bind at 1 in E. unfold deref at 1 in E. destruct (s_heap s p) as [i|]; [|discriminate]. destruct (is_assoc i); [|injection E as <- <-; apply lsame_refl].
  assert (LOOP : forall k o s a s', (fix loop (k : nat) (itr : option ptr) : M unit := match itr with None => ret tt | Some q => match k with O => give_up | S k' => watch_rec n f q ;;; qi <- deref q ;; loop k' (i_next qi) end end) k o s = Ret (a, s') -> lsame s s').
  { clear a s' E. induction k as [|k IHk]; intros [c|] s2 a s1 E1; try discriminate.
    - injection E1 as <- <-. apply lsame_refl.
    - unfold bind at 1 in E1. destruct (watch_rec n f c s2) as [[[] s3]| |] eqn:E3; try discriminate. unfold bind at 1 in E1. unfold deref at 1 in E1. destruct (s_heap s3 c); [|discriminate]. eapply lsame_trans; [eapply IH; exact E3|]. eapply IHk; exact E1.
    - injection E1 as <- <-. apply lsame_refl. }
  unfold bind at 1 in E. destruct (f p s) as [[[] s2]| |] eqn:E2; try discriminate. eapply lsame_trans; [eapply f_links; exact E2|]. unfold bind at 1 in E. unfold deref at 1 in E. destruct (s_heap s2 p) as [i2|]; [|discriminate]. eapply LOOP. exact E.
Qed.
Lemma walk : forall fuel p D s a s', pre D (vis (lview (s_heap s)) p) s -> watch_rec fuel f p s = Ret (a, s') -> lsame s s' /\ post D (vis (lview (s_heap s)) p) s'.
Proof.
  induction fuel as [|n IH]; intros p D s a s' HA E; [discriminate|]. cbn [watch_rec] in E. unfold bind at 1 in E. unfold deref at 1 in E. destruct (s_heap s p) as [i|] eqn:Hp; [|discriminate].
  pose proof (lview_some _ _ _ Hp) as LP. destruct (is_assoc i) eqn:Ea.
  2:{ injection E as <- <-. split; [apply lsame_refl|]. apply none; [|exact HA]. intros x V. inversion V as [p0 f0 n0 H0|p0 f0 n0 x0 H0]; subst; rewrite LP in H0; discriminate. }
  assert (LOOP : forall k o D s a s', pre D (visl (lview (s_heap s)) o) s -> (fix loop (k : nat) (itr : option ptr) : M unit := match itr with None => ret tt | Some q => match k with O => give_up | S k' => watch_rec n f q ;;; qi <- deref q ;; loop k' (i_next qi) end end) k o s = Ret (a, s') -> lsame s s' /\ post D (visl (lview (s_heap s)) o) s').
  { clear a s' HA E. induction k as [|k IHk]; intros [q|] D' s0 a0 s0' HA0 E0; try discriminate.
    - injection E0 as <- <-. split; [apply lsame_refl|]. apply none; [|exact HA0]. intros x V. inversion V.
    - unfold bind at 1 in E0. destruct (watch_rec n f q s0) as [[[] s1]| |] eqn:E1; try discriminate. unfold bind at 1 in E0. unfold deref at 1 in E0. destruct (s_heap s1 q) as [qi|] eqn:Hq; [|discriminate].
      assert (LS1 : lsame s0 s1).
      { exact (walk_links n q s0 tt s1 E1). }
      pose proof (lview_some _ _ _ Hq) as LQ. rewrite LS1 in LQ.
      assert (SP : forall x, visl (lview (s_heap s0)) (Some q) x <-> vis (lview (s_heap s0)) q x \/ visl (lview (s_heap s0)) (i_next qi) x).
      { intros x. split; [|intros [V|V]; [apply visl_here; exact V|eapply visl_next; eassumption]]. intros V. inversion V as [q0 x0 V0|q0 f0 n0 b0 x0 H0 V0]; subst; [auto|]. right. rewrite LQ in H0. injection H0 as <- <- <-. exact V0. }
      destruct (comb _ _ _ _ _ SP HA0) as (D1 & D2 & C1 & C2 & C3). destruct (IH q D1 s0 tt s1 C1 E1) as [_ HA1].
      assert (EQ : forall x, visl (lview (s_heap s0)) (i_next qi) x <-> visl (lview (s_heap s1)) (i_next qi) x).
      { intros x. split; apply vis_ext; intros y; [apply LS1|symmetry; apply LS1]. }
      destruct (IHk (i_next qi) D2 s1 a0 s0' (pre_eq _ _ _ _ EQ (C2 _ HA1)) E0) as [LS2 HA2]. split; [eapply lsame_trans; eassumption|]. apply C3. eapply post_eq; [|exact HA2]. intros x. symmetry. apply EQ.
    - injection E0 as <- <-. split; [apply lsame_refl|]. apply none; [|exact HA0]. intros x V. inversion V. }
  unfold bind at 1 in E. destruct (f p s) as [[[] s1]| |] eqn:E1; try discriminate. unfold bind at 1 in E. unfold deref at 1 in E. destruct (s_heap s1 p) as [i1|] eqn:Hp1; [|discriminate]. pose proof (f_links _ _ _ _ E1) as LS1.
  pose proof (lview_some _ _ _ Hp1) as LP1. rewrite LS1, LP in LP1. injection LP1 as F1 F2 F3.
  assert (SP : forall x, vis (lview (s_heap s)) p x <-> x = p \/ visl (lview (s_heap s)) (i_first i1) x).
  { intros x. rewrite <- F1. split; [|intros [->|V]; [eapply vis_self; exact LP|eapply vis_down; [exact LP|exact V]]]. intros V. inversion V as [p0 f0 n0 H0|p0 f0 n0 x0 H0 V0]; subst; [auto|]. right. rewrite LP in H0. injection H0 as <- <-. exact V0. }
  destruct (comb _ _ _ _ _ SP HA) as (D1 & D2 & C1 & C2 & C3). pose proof (f_step D1 p s tt s1 C1 (ex_intro _ i (conj Hp Ea)) E1) as HA1.
  assert (EQ : forall x, visl (lview (s_heap s)) (i_first i1) x <-> visl (lview (s_heap s1)) (i_first i1) x).
  { intros x. split; apply vis_ext; intros y; [apply LS1|symmetry; apply LS1]. }
  destruct (LOOP n (i_first i1) D2 s1 a s' (pre_eq _ _ _ _ EQ (C2 _ HA1)) E) as [LS2 HA2]. split; [eapply lsame_trans; eassumption|]. apply C3. eapply post_eq; [|exact HA2]. intros x. symmetry. apply EQ.
Qed.
End Walk.
(** unwatching a subtree: its folders may be deaf afterwards *)
Lemma walk_remove fuel p D K s a s' : asrt D K s -> watch_rec fuel remove_watch p s = Ret (a, s') -> lsame s s' /\ asrt (fun x => D x \/ vis (lview (s_heap s)) p x) K s'.
Proof.
  intros HA. apply (walk remove_watch (fun D _ => asrt D K) (fun D V => asrt (fun x => D x \/ V x) K)) with (D := D); [apply lsame_remove|..].
  - intros D0 q s0 a0 s0' H0 _ E0. exact (remove_watch_tr C D0 K q s0 a0 s0' H0 E0).
  - intros V1 V2 V D0 s0 HV H0. exists D0, (fun x => D0 x \/ V1 x). split; [exact H0|]. split; [auto|]. intros s1 H1. eapply asrt_weak; [exact H1|]. intros x. specialize (HV x). cbn beta. tauto.
  - intros V D0 s0 _ H0. eapply asrt_weak; [exact H0|auto].
  - auto.
  - intros V V' D0 s0 HV H0. eapply asrt_weak; [exact H0|]. intros x. specialize (HV x). cbn beta. tauto.
  - exact HA.
Qed.
(** what is missing on the disk does not depend on the watches *)
Lemma missing_add p s a s' x : add_watch C p s = Ret (a, s') -> missing s' x -> missing s x.
Proof.
  intros E (i & H1 & H2). apply (add_watch_s C WT) in E as (j & Hp & [[Ea ->]|[(Ea & Ex & n & En & ->)|(Ea & Ex & ->)]]); [exists i; auto|..];
    cbn [s_heap s_nodes set_heap set_wds set_tick] in H1, H2; unfold nupd in H1; destruct (x =? p) eqn:Z; try (exists i; auto; fail); apply N.eqb_eq in Z; subst x; injection H1 as <-; exists j; auto.
Qed.
Lemma missing_remove p s a s' x : remove_watch p s = Ret (a, s') -> missing s' x -> missing s x.
Proof.
  intros E. unfold remove_watch in E. unfold bind at 1 in E. unfold deref at 1 in E. destruct (s_heap s p) as [i|]; [|discriminate]. destruct (is_assoc i); [|injection E as <- <-; auto]. destruct (i_wd i); [|injection E as <- <-; auto]. unfold upd in E. injection E as <- <-. auto.
Qed.
Lemma walk_missing f : (forall p s a s' x, f p s = Ret (a, s') -> missing s' x -> missing s x) -> forall fuel p s a s' x, watch_rec fuel f p s = Ret (a, s') -> missing s' x -> missing s x.
Proof.
  intros Hf. induction fuel as [|n IH]; intros p s a s' x E; [discriminate|]. cbn [watch_rec] in E. unfold bind at 1 in E. unfold deref at 1 in E. destruct (s_heap s p) as [i|]; [|discriminate]. destruct (is_assoc i); [|injection E as <- <-; auto].
  assert (LOOP : forall k o s a s', (fix loop (k : nat) (itr : option ptr) : M unit := match itr with None => ret tt | Some q => match k with O => give_up | S k' => watch_rec n f q ;;; qi <- deref q ;; loop k' (i_next qi) end end) k o s = Ret (a, s') -> missing s' x -> missing s x).
  { clear a s' E. induction k as [|k IHk]; intros [c|] s2 a s1 E1; try discriminate.
    - injection E1 as <- <-. auto.
    - unfold bind at 1 in E1. destruct (watch_rec n f c s2) as [[[] s3]| |] eqn:E3; try discriminate. unfold bind at 1 in E1. unfold deref at 1 in E1. destruct (s_heap s3 c); [|discriminate]. intros M. eapply IH; [exact E3|]. eapply IHk; [exact E1|exact M].
    - injection E1 as <- <-. auto. }
  unfold bind at 1 in E. destruct (f p s) as [[[] s2]| |] eqn:E2; try discriminate. unfold bind at 1 in E. unfold deref at 1 in E. destruct (s_heap s2 p) as [i2|]; [|discriminate]. intros M. eapply Hf; [exact E2|]. eapply LOOP; [exact E|exact M].
Qed.
(** watching it again *)
Lemma walk_add fuel p D K s a s' : asrt (fun x => D x \/ vis (lview (s_heap s)) p x) K s -> watch_rec fuel (add_watch C) p s = Ret (a, s') -> lsame s s' /\ asrt (fun x => D x \/ (vis (lview (s_heap s)) p x /\ missing s x)) K s'.
Proof.
  intros HA E. set (L := missing s). assert (HJ : forall x, missing s x -> L x) by auto.
  assert (X : lsame s s' /\ (asrt (fun x => D x \/ (vis (lview (s_heap s)) p x /\ L x)) K s' /\ (forall x, missing s' x -> L x))); [|destruct X as (X1 & X2 & _); auto].
  revert E. apply (walk (add_watch C) (fun D V s => asrt (fun x => D x \/ V x) K s /\ (forall x, missing s x -> L x)) (fun D V s => asrt (fun x => D x \/ (V x /\ L x)) K s /\ (forall x, missing s x -> L x))) with (D := D); [apply lsame_add|..].
  - intros D0 q s0 a0 s0' [H0 J0] (i & Hq & Ea) E0. split; [|intros x M; apply J0; eapply missing_add; eassumption]. eapply asrt_weak; [eapply (add_watch_clear C WT WI); [exact H0|exact Hq| |exact E0]|].
    + apply assoc_kind in Ea. congruence.
    + intros x [Z|[-> Z]]; auto.
  - intros V1 V2 V D0 s0 HV [H0 J0]. exists (fun x => D0 x \/ V2 x), (fun x => D0 x \/ (V1 x /\ L x)). split; [split; [|exact J0]; eapply asrt_weak; [exact H0|]; intros x; specialize (HV x); cbn beta; tauto|].
    split; intros s1 [H1 J1]; (split; [|exact J1]); (eapply asrt_weak; [exact H1|]); intros x; specialize (HV x); cbn beta; tauto.
  - intros V D0 s0 HV [H0 J0]. split; [|exact J0]. eapply asrt_weak; [exact H0|]. intros x [Z|Z]; [auto|]. exfalso. exact (HV x Z).
  - intros V V' D0 s0 HV [H0 J0]. split; [|exact J0]. eapply asrt_weak; [exact H0|]. intros x. specialize (HV x). cbn beta. tauto.
  - intros V V' D0 s0 HV [H0 J0]. split; [|exact J0]. eapply asrt_weak; [exact H0|]. intros x. specialize (HV x). cbn beta. tauto.
  - split; [exact HA|exact HJ].
Qed.
Lemma missing_keep p s a s' x : add_watch C p s = Ret (a, s') -> missing s x -> missing s' x.
Proof.
  intros E (i & H1 & H2). apply (add_watch_s C WT) in E as (j & Hp & [[Ea ->]|[(Ea & Ex & n & En & ->)|(Ea & Ex & ->)]]); [exists i; auto|..];
    unfold missing; cbn [s_heap s_nodes set_heap set_wds set_tick]; unfold nupd; destruct (x =? p) eqn:Z; try (exists i; auto; fail); apply N.eqb_eq in Z; subst x; rewrite H1 in Hp; injection Hp as ->; eexists; (split; [reflexivity|exact H2]).
Qed.
Lemma walk_kept f : (forall p s a s' x, f p s = Ret (a, s') -> missing s x -> missing s' x) -> forall fuel p s a s' x, watch_rec fuel f p s = Ret (a, s') -> missing s x -> missing s' x.
Proof.
  intros Hf. induction fuel as [|n IH]; intros p s a s' x E; [discriminate|]. cbn [watch_rec] in E. unfold bind at 1 in E. unfold deref at 1 in E. destruct (s_heap s p) as [i|]; [|discriminate]. destruct (is_assoc i); [|injection E as <- <-; auto].
  assert (LOOP : forall k o s a s', (fix loop (k : nat) (itr : option ptr) : M unit := match itr with None => ret tt | Some q => match k with O => give_up | S k' => watch_rec n f q ;;; qi <- deref q ;; loop k' (i_next qi) end end) k o s = Ret (a, s') -> missing s x -> missing s' x).
  { clear a s' E. induction k as [|k IHk]; intros [c|] s2 a s1 E1; try discriminate.
    - injection E1 as <- <-. auto.
    - unfold bind at 1 in E1. destruct (watch_rec n f c s2) as [[[] s3]| |] eqn:E3; try discriminate. unfold bind at 1 in E1. unfold deref at 1 in E1. destruct (s_heap s3 c); [|discriminate]. intros M. eapply IHk; [exact E1|]. eapply IH; [exact E3|exact M].
    - injection E1 as <- <-. auto. }
  unfold bind at 1 in E. destruct (f p s) as [[[] s2]| |] eqn:E2; try discriminate. unfold bind at 1 in E. unfold deref at 1 in E. destruct (s_heap s2 p) as [i2|]; [|discriminate]. intros M. eapply LOOP; [exact E|]. eapply Hf; [exact E2|exact M].
Qed.
(** as [walk_add], what is missing said of the state afterwards *)
Lemma walk_add_end fuel p D K s a s' : asrt (fun x => D x \/ vis (lview (s_heap s)) p x) K s -> watch_rec fuel (add_watch C) p s = Ret (a, s') -> asrt (fun x => D x \/ missing s' x) K s'.
Proof. intros HA E. eapply asrt_weak; [exact (proj2 (walk_add fuel p D K s a s' HA E))|]. intros x [Z|[_ Z]]; [auto|right]. eapply (walk_kept (add_watch C) missing_keep); eassumption. Qed.
Lemma rewatch_w fuel p D K s a s' : asrt D K s -> (watch_rec fuel remove_watch p ;;; watch_rec fuel (add_watch C) p) s = Ret (a, s') -> lsame s s' /\ asrt (fun x => D x \/ (vis (lview (s_heap s)) p x /\ missing s x)) K s'.
Proof.
  intros HA E. unfold bind in E. destruct (watch_rec fuel remove_watch p s) as [[[] s1]| |] eqn:E1; try discriminate. destruct (walk_remove _ _ _ _ _ _ _ HA E1) as [LS H1].
  assert (EV : forall x, vis (lview (s_heap s)) p x <-> vis (lview (s_heap s1)) p x) by (intros x; split; apply vis_ext; intros y; [apply LS|symmetry; apply LS]).
  destruct (walk_add fuel p D K s1 a s') as [LS2 H2]; [|exact E|].
  - eapply asrt_weak; [exact H1|]. intros x [Z|Z]; [auto|right]. apply EV. exact Z.
  - split; [eapply lsame_trans; eassumption|]. eapply asrt_weak; [exact H2|]. intros x [Z|[Z1 Z2]]; [auto|right]. split; [apply EV; exact Z1|]. eapply (walk_missing remove_watch missing_remove); [exact E1|exact Z2].
Qed.
Lemma rewatch_end fuel p D K s a s' : asrt D K s -> (watch_rec fuel remove_watch p ;;; watch_rec fuel (add_watch C) p) s = Ret (a, s') -> asrt (fun x => D x \/ missing s' x) K s'.
Proof.
  intros HA E. pose proof E as E0. unfold bind in E0. destruct (watch_rec fuel remove_watch p s) as [[[] s1]| |] eqn:E1; try discriminate. destruct (walk_remove _ _ _ _ _ _ _ HA E1) as [LS H1].
  eapply walk_add_end; [|exact E0]. eapply asrt_weak; [exact H1|]. intros x [Z|Z]; [auto|right]. eapply vis_ext; [exact LS|exact Z].
Qed.
(** *** Copying: the folders involved are all there *)
Lemma add_watch_solid D K p s a s' : (forall h, ~ K p h None) -> solid s -> asrt (fun x => D x \/ x = p) K s -> add_watch C p s = Ret (a, s') -> asrt D K s'.
Proof.
  intros KP SS HA E. pose proof E as E0. apply (add_watch_s C WT) in E0 as (i & Hp & X). destruct (is_assoc i) eqn:Ea.
  - eapply (add_watch_there C WT WI); [exact HA|exact Hp| |exact (SS p i Hp Ea)|exact E]. apply assoc_kind in Ea. congruence.
  - destruct X as [[_ ->]|[(Z & _)|(Z & _)]]; [|discriminate..]. destruct HA as [I A1 A2 A3 A4]. constructor; auto. intros x Hx. destruct (A4 x Hx) as [Z| ->]; [auto|]. exfalso. destruct Hx as (j & H1 & H2 & _). rewrite Hp in H1. injection H1 as <-.
    pose proof (A3 p i Hp) as Z. unfold is_assoc in Ea. unfold kind in H2, Z. destruct (i_info i); [rewrite Ea in H2; contradiction|exact (KP _ Z)].
Qed.
Lemma add_watch_more D K p s a s' : solid s -> asrt D K s -> add_watch C p s = Ret (a, s') -> asrt D K s'.
Proof.
  intros SS HA E. pose proof E as E0. apply (add_watch_s C WT) in E0 as (i & Hp & X). destruct (is_assoc i) eqn:Ea; [|destruct X as [[_ ->]|[(Z & _)|(Z & _)]]; [exact HA|discriminate..]].
  eapply (add_watch_there C WT WI); [eapply asrt_weak; [exact HA|auto]|exact Hp| |exact (SS p i Hp Ea)|exact E]. apply assoc_kind in Ea. congruence.
Qed.
Definition TR {A} D K (m : M A) (P : A -> fs -> Prop) : Prop := forall s a s', asrt D K s -> solid s -> m s = Ret (a, s') -> P a s'.
Lemma TR_step {A B} D K (m : M A) (f : A -> M B) (P : B -> fs -> Prop) : nt m -> fm none m -> (forall a, TR D K (f a) P) -> TR D K (bind m f) P.
Proof. intros H1 H2 H3 s b s' HA SS E. unfold bind in E. destruct (m s) as [[a s1]| |] eqn:E1; try discriminate. eapply H3; [exact (H1 _ _ _ _ _ HA E1)|eapply firm_solid; [exact (H2 _ _ _ E1)|exact SS]|exact E]. Qed.
Definition copied D K (r : N * N) (s' : fs) : Prop := asrt (fun x => isok (fst r) = true -> D x) K s' /\ (isok (fst r) = true -> solid s').
Lemma copied_out D K c v : TR D K (ret (c, v)) (copied D K).
Proof. intros s r s' HA SS E. injection E as <- <-. split; [eapply asrt_weak; [exact HA|auto]|auto]. Qed.
Ltac stp := eapply TR_step; [try (nt1; fail)|try (first [apply fm_get|apply fm_handle_ref|apply fm_deref|apply fm_tick]; fail)|].
Lemma copy_w (NF : forall q, c_ext C q <> FMT_Association) : forall fuel h par top D K, TR D K (copy_object C fuel h par top) (copied D K).
Proof.
  induction fuel as [|f IH]; intros h par top D K; cbn [copy_object]; [intros s0 r s1 H SS E; discriminate|].
  stp; intros b. destruct (negb b); [apply copied_out|]. stp; intros b2. destruct (negb b2); [apply copied_out|]. stp; intros v. destruct v as [p|]; [|apply copied_out]. stp; intros i. destruct (i_info i) as [o|]; [|apply copied_out].
  stp; intros t. destruct (c_free C t) as [free|]; [|apply copied_out]. destruct (free <? oi_size o); [apply copied_out|]. stp; intros v. destruct v as [q|]; [|apply copied_out]. stp; intros qi. cbv zeta.
  apply TR_step.
  { destruct (top && _); [|nt1]; nt1; [apply nt_get_handles|]; destruct (isok _); [apply nt_any_path|nt1]. }
  { destruct (top && _); [|apply fm_ret]. apply fm_bind; [apply fm_get_handles|intros rr]. destruct (isok _); [apply fm_any_path|apply fm_ret]. }
  intros clash. destruct clash; [apply copied_out|].
  (* from here the destination may be unwatched *)
  intros s r s' HA SS E. unfold bind at 1 in E. destruct (remove_watch q s) as [[[] s1]| |] eqn:E1; try discriminate.
  assert (SS1 : solid s1) by (eapply firm_solid; [exact (fm_unwatch none q _ _ _ E1)|exact SS]).
  assert (ST : exists Q K2, asrt Q K2 s1 /\ (forall x, D x -> Q x) /\ (forall D' s, asrt D' K2 s -> asrt D' K s) /\ (forall s a s', solid s -> asrt Q K2 s -> add_watch C q s = Ret (a, s') -> asrt D K2 s')).
  { pose proof E1 as E2. unfold remove_watch in E2. unfold bind at 1 in E2. unfold deref at 1 in E2. destruct (s_heap s q) as [j|] eqn:Hq; [|discriminate]. clear E2. destruct (kind j) as [bk|] eqn:Ek.
    - exists (fun x => D x \/ x = q), (knows K q bk). split; [|split; [auto|]; split; [intros D' s2 H2; eapply asrt_forget; [apply (A_up _ _ _ _ HA)|exact H2]|]].
      + apply (remove_watch_tr C D (knows K q bk) q s tt s1); [|exact E1]. eapply asrt_kind; eassumption.
      + intros s2 a2 s2' S2 H2 E2. eapply add_watch_solid; [|exact S2|exact H2|exact E2]. intros h0 [_ Z]. specialize (Z eq_refl). discriminate.
    - exists D, K. split; [|split; [auto|]; split; [auto|]]; [assert (X : s1 = s) by (eapply (nt_remove_file C); [exact HA| |exact E1]; intros j' Hj'; rewrite Hq in Hj'; injection Hj' as <-; exact Ek); rewrite X; exact HA|]. intros s2 a2 s2' S2 H2 E2. eapply add_watch_more; eassumption. }
  destruct ST as (Q & K2 & HQ & DQ & FG & AW). clear E1 HA SS.
  match type of E with ?prog s1 = _ => assert (TP : TR Q K2 prog (copied D K2)) end.
  2:{ destruct (TP s1 r s' HQ SS1 E) as [Z1 Z2]. split; [apply FG; exact Z1|exact Z2]. }
  clear s1 SS1 HQ E. apply TR_step; [apply (nt_add_item C WT WI NF)|apply (fm_add_item C NF)|intros r1]. cbv zeta. set (copy := match snd r1 with Some (c, _) => c | None => 0 end).
  assert (CLOSE : forall c, TR Q K2 (add_watch C q;;; ret (c, copy)) (copied D K2)).
  { intros c s0 a0 s0' H0 S0 E0. unfold bind in E0. destruct (add_watch C q s0) as [[u s2]| |] eqn:E2; try discriminate. injection E0 as <- <-. split; [eapply asrt_weak; [eapply AW; eassumption|auto]|intros _; eapply firm_solid; [exact (fm_watch C none q _ _ _ E2)|exact S0]]. }
  destruct (negb (isok (fst r1))); [apply CLOSE|].
  destruct (oi_format o =? FMT_Association).
  - apply TR_step; [nt1|apply fm_deref|intros i2]. intros s0 a0 s0' H0 S0 E0. unfold bind at 1 in E0.
    match type of E0 with match ?F f (i_first i2) s0 with _ => _ end = _ => assert (L : forall k o, TR Q K2 (F k o) (fun res s1 => asrt (fun x => isok res = true -> Q x) K2 s1 /\ (isok res = true -> solid s1))) end.
    { clear s0 a0 s0' H0 S0 E0. induction k as [|k IHk]; intros [c|]; try (intros s0 r0 s0' H0 S0 E0; discriminate).
      * intros s0 r0 s0' H0 S0 E0. injection E0 as <- <-. split; [eapply asrt_weak; [exact H0|auto]|auto].
      * apply TR_step; [nt1|apply fm_deref|intros ci]. intros s0 r0 s0' H0 S0 E0. unfold bind at 1 in E0. destruct (copy_object C f (i_handle ci) copy false s0) as [[r2 s2]| |] eqn:E2; try discriminate. destruct (IH _ _ _ Q K2 _ _ _ H0 S0 E2) as [Z1 Z2].
        destruct (isok (fst r2)) eqn:Er; cbn [negb] in E0; [|injection E0 as <- <-; rewrite Er; split; [exact Z1|discriminate]].
        unfold bind at 1 in E0. destruct (deref c s2) as [[ci2 s3]| |] eqn:E3; try discriminate. assert (s3 = s2) as -> by (unfold deref in E3; destruct (s_heap s2 c); [|discriminate]; injection E3 as _ <-; reflexivity).
        eapply IHk; [eapply asrt_weak; [exact Z1|intros x Z; apply Z; reflexivity]|exact (Z2 eq_refl)|exact E0].
      * intros s0 r0 s0' H0 S0 E0. injection E0 as <- <-. split; [eapply asrt_weak; [exact H0|auto]|auto]. }
    match type of E0 with match ?F f (i_first i2) s0 with _ => _ end = _ => destruct (F f (i_first i2) s0) as [[res s2]| |] eqn:E2; try discriminate end. destruct (L _ _ _ _ _ H0 S0 E2) as [Z1 Z2].
    destruct (isok res) eqn:Er; cbn [negb] in E0.
    + eapply CLOSE; [eapply asrt_weak; [exact Z1|intros x Z; apply Z; reflexivity]|exact (Z2 eq_refl)|exact E0].
    + injection E0 as <- <-. unfold copied. cbn [fst]. rewrite Er. split; [|discriminate]. eapply asrt_weak; [exact Z1|intros x _ Z; discriminate].
  - intros s0 a0 s0' H0 S0 E0. unfold bind at 1 in E0. destruct (copy_data C f h copy s0) as [[c s2]| |] eqn:E2; try discriminate. pose proof (nt_copy_data f h copy _ _ _ _ _ H0 E2) as Z1.
    destruct (isok c) eqn:Er; cbn [negb] in E0.
    + eapply CLOSE; [exact Z1|eapply firm_solid; [eapply copy_data_firm; eassumption|exact S0]|exact E0].
    + injection E0 as <- <-. unfold copied. cbn [fst]. rewrite Er. split; [|discriminate]. eapply asrt_weak; [exact Z1|intros x _ Z; discriminate].
Qed.
(** whatever happens, the watch numbers stay in order *)
Definition top (x : ptr) : Prop := True.
Lemma add_watch_top K p : tr3 top K (add_watch C p) (fun _ => top).
Proof.
  intros s a s' HA E. pose proof E as E0. apply (add_watch_s C WT) in E0 as (i & Hp & X). destruct (is_assoc i) eqn:Ea; [|destruct X as [[_ ->]|[(Z & _)|(Z & _)]]; [exact HA|discriminate..]].
  eapply asrt_weak; [eapply (add_watch_clear C WT WI) with (D := top); [eapply asrt_weak; [exact HA|unfold top; auto]|exact Hp| |exact E]|unfold top; auto]. apply assoc_kind in Ea. congruence.
Qed.
Lemma remove_watch_top K p : tr3 top K (remove_watch p) (fun _ => top).
Proof. intros s a s' HA E. eapply asrt_weak; [exact (remove_watch_tr C top K p s a s' HA E)|unfold top; auto]. Qed.
Lemma copy_top (NF : forall q, c_ext C q <> FMT_Association) K : forall fuel h par tp, tr3 top K (copy_object C fuel h par tp) (fun _ => top).
Proof.
  induction fuel as [|f IH]; intros h par tp; cbn [copy_object]; [intros s0 r s1 H E; discriminate|].
  assert (OUT : forall (c v : N), tr3 top K (ret (c, v)) (fun _ => top)) by (intros c v; apply (nt_ret C)).
  apply tr_nt; [nt1|intros b]. destruct (negb b); [apply OUT|]. apply tr_nt; [nt1|intros b2]. destruct (negb b2); [apply OUT|]. apply tr_nt; [nt1|intros v]. destruct v as [p|]; [|apply OUT]. apply tr_nt; [nt1|intros i]. destruct (i_info i) as [o|]; [|apply OUT].
  apply tr_nt; [nt1|intros t]. destruct (c_free C t) as [free|]; [|apply OUT]. destruct (free <? oi_size o); [apply OUT|]. apply tr_nt; [nt1|intros v]. destruct v as [q|]; [|apply OUT]. apply tr_nt; [nt1|intros qi]. cbv zeta.
  apply tr_nt; [destruct (tp && _); [|nt1]; nt1; [apply nt_get_handles|]; destruct (isok _); [apply nt_any_path|nt1]|]. intros clash. destruct clash; [apply OUT|].
  eapply tr_bind; [apply remove_watch_top|intros ?]. cbn beta. apply tr_nt; [apply (nt_add_item C WT WI NF)|intros r1]. set (copy := match snd r1 with Some (c, _) => c | None => 0 end).
  assert (CLOSE : forall c : N, tr3 top K (add_watch C q;;; ret (c, copy)) (fun _ => top)) by (intros c; eapply tr_bind; [apply add_watch_top|intros ?; apply OUT]).
  destruct (negb (isok (fst r1))); [apply CLOSE|]. destruct (oi_format o =? FMT_Association).
  - apply tr_nt; [nt1|intros i2]. eapply tr_bind with (D1 := fun _ => top); [|intros res; destruct (negb (isok res)); [apply OUT|apply CLOSE]].
    match goal with |- FSWatch.tr3 C top K (?F f (i_first i2)) _ => assert (L : forall k o, tr3 top K (F k o) (fun _ => top)); [|apply L] end.
    induction k as [|k IHk]; intros [c|]; try (intros s0 r0 s0' H0 E0; discriminate); try apply (nt_ret C).
    apply tr_nt; [nt1|intros ci]. eapply tr_bind; [apply IH|intros r2]. cbn beta. destruct (negb (isok (fst r2))); [apply (nt_ret C)|]. apply tr_nt; [nt1|intros ci2]. apply IHk.
  - apply tr_nt; [apply nt_copy_data|intros c]. destruct (negb (isok c)); [apply OUT|apply CLOSE].
Qed.
End Watch3.
