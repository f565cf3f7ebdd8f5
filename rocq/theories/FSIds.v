(** Which persistent ids the objects get when a storage is enumerated. *)
From Verif Require Import Base AList Wire FS FSPath FSTree FSLogic FSSpec FSReach.

Section Ids.
Variables (C : conf) (loaded : path -> option N).
(** ids handed out by the factory are new and never repeated *)
Definition new_ids : Prop := (forall t x, loaded x <> Some (c_puoid C t)) /\ (forall t t', c_puoid C t = c_puoid C t' -> t = t').
Definition one_each : Prop := forall x y u, loaded x = Some u -> loaded y = Some u -> x = y.
Definition J (s : fs) : Prop :=
  (forall x u, loaded x = Some u -> s_puoids s x = Some u) /\
  (forall x u, s_puoids s x = Some u -> loaded x = Some u \/ (loaded x = None /\ exists t, (t < s_tick s)%nat /\ u = c_puoid C t)) /\
  (new_ids -> one_each -> forall x y u, s_puoids s x = Some u -> s_puoids s y = Some u -> x = y) /\
  (forall p i, s_heap s p = Some i -> p < s_fresh s) /\
  (forall h p i, aget h (s_handles s) = Some (Some p) -> s_heap s p = Some i -> s_puoids s (i_path i) = Some (i_puoid i)) /\
  (forall h p, aget h (s_handles s) = Some (Some p) -> p < s_fresh s).
Definition jp {A} (m : M A) : Prop := forall s a s', J s -> m s = Ret (a, s') -> J s'.

Lemma jp_ret {A} (a : A) : jp (ret a). Proof. intros s x s' H E. injection E as <- <-. exact H. Qed.
Lemma jp_bind {A B} (m : M A) (f : A -> M B) : jp m -> (forall a, jp (f a)) -> jp (bind m f).
Proof. intros H1 H2 s b s' HJ E. unfold bind in E. destruct (m s) as [[a s1]| |] eqn:E1; try discriminate. exact (H2 a s1 b s' (H1 s a s1 HJ E1) E). Qed.
Lemma jp_get {A} (g : fs -> A) : jp (get g). Proof. intros s x s' H E. injection E as <- <-. exact H. Qed.
Lemma jp_crash {A} : jp (@crash A). Proof. intros s x s' H E. discriminate. Qed.
Lemma jp_giveup {A} : jp (@give_up A). Proof. intros s x s' H E. discriminate. Qed.
Lemma jp_deref p : jp (deref p). Proof. intros s x s' H E. unfold deref in E. destruct (s_heap s p); [|discriminate]. injection E as <- <-. exact H. Qed.
Lemma jp_upd f : (forall s, s_heap (f s) = s_heap s /\ s_fresh (f s) = s_fresh s /\ s_handles (f s) = s_handles s /\ s_puoids (f s) = s_puoids s /\ (s_tick s <= s_tick (f s))%nat) -> jp (upd f).
Proof.
  intros H s a s' (A & B & Bi & D & E & F) X. injection X as <- <-. destruct (H s) as (H1 & H2 & H3 & H4 & H5). unfold J. rewrite H1, H2, H3, H4. repeat split; auto.
  intros x u Hx. destruct (B x u Hx) as [Y|(Z & t & T1 & T2)]; [auto|]. right. split; [exact Z|]. exists t. split; [lia|exact T2].
Qed.
Lemma jp_tick : jp tick.
Proof. intros s a s' HJ E. unfold tick in E. injection E as <- <-. apply (jp_upd (fun s => set_tick (S (s_tick s)) s) (fun s => conj eq_refl (conj eq_refl (conj eq_refl (conj eq_refl (Nat.le_succ_diag_r _))))) s tt _ HJ eq_refl). Qed.
Lemma jp_modify p f : (forall i, i_path (f i) = i_path i /\ i_puoid (f i) = i_puoid i) -> jp (modify p f).
Proof.
  intros Hf s a s' (A & B & Bi & D & E & F) X. unfold modify in X. destruct (s_heap s p) as [i|] eqn:Hp; [|discriminate]. injection X as <- <-. unfold J. cbn [s_heap s_fresh s_handles s_puoids s_tick set_heap]. split; [exact A|]. split; [exact B|]. split; [exact Bi|]. split; [|split; [|exact F]].
  - intros q j. unfold nupd. destruct (q =? p) eqn:Eq; [|apply D]. apply N.eqb_eq in Eq. subst q. intros _. exact (D p i Hp).
  - intros h q j Hh. unfold nupd. destruct (q =? p) eqn:Eq; [|apply (E h); exact Hh]. apply N.eqb_eq in Eq. subst q. intros X. injection X as <-. destruct (Hf i) as [-> ->]. exact (E h p i Hh Hp).
Qed.
Lemma jp_alloc i : jp (alloc i).
Proof.
  intros s a s' (A & B & Bi & D & E & F) X. unfold alloc in X. injection X as <- <-. unfold J. cbn [s_heap s_fresh s_handles s_puoids s_tick set_heap set_fresh]. split; [exact A|]. split; [exact B|]. split; [exact Bi|]. split; [|split].
  - intros q j. unfold nupd. destruct (q =? s_fresh s) eqn:Eq; [apply N.eqb_eq in Eq; lia|]. intros X. apply D in X. lia.
  - intros h q j Hh. unfold nupd. destruct (q =? s_fresh s) eqn:Eq; [apply N.eqb_eq in Eq; pose proof (F h q Hh); lia|]. apply (E h). exact Hh.
  - intros h q Hh. pose proof (F h q Hh). lia.
Qed.
Lemma jp_handle_value h : jp (handle_value h). Proof. apply jp_get. Qed.
Lemma jp_find_by_path p : jp (find_by_path p).
Proof. unfold find_by_path. apply jp_bind; [apply jp_get|]. intros [h|]; [apply jp_get|apply jp_ret]. Qed.
Lemma jp_link a b : jp (link_child a b).
Proof.
  unfold link_child. destruct a; [|apply jp_ret]. destruct b; [|apply jp_ret]. apply jp_bind; [apply jp_modify; auto|]. intros _. apply jp_bind; [apply jp_deref|]. intros i.
  destruct (i_first i); [apply jp_bind; [apply jp_modify; auto|intros _]|]; apply jp_modify; auto.
Qed.
Lemma jp_populate p : jp (populate_info C p).
Proof.
  unfold populate_info. apply jp_bind; [apply jp_deref|]. intros i. destruct (i_info i); [apply jp_ret|]. apply jp_bind; [apply jp_tick|]. intros t. apply jp_bind; [apply jp_get|]. intros w.
  apply jp_bind; [destruct (i_parent i); [apply jp_bind; [apply jp_deref|intros; apply jp_ret]|apply jp_ret]|]. intros ph. apply jp_modify. auto.
Qed.
Lemma jp_watch p : jp (add_watch C p).
Proof.
  unfold add_watch. apply jp_bind; [apply jp_deref|]. intros i. destruct (is_assoc i); [|apply jp_ret]. apply jp_bind; [unfold sys_add_watch; apply jp_bind; [apply jp_tick|intros; apply jp_bind; [apply jp_get|intros; apply jp_ret]]|]. intros wd.
  apply jp_bind; [apply jp_modify; auto|]. intros _. destruct wd; [apply jp_upd; intros; repeat split; auto|apply jp_ret].
Qed.
Lemma jp_attach p info h : jp (attach_new C p info h).
Proof.
  unfold attach_new. apply jp_bind; [apply jp_alloc|]. intros me. apply jp_bind; [apply jp_find_by_path|]. intros par. apply jp_bind; [apply jp_get|]. intros root.
  apply jp_bind; [apply jp_link|]. intros _. apply jp_bind; [destruct info; [apply jp_modify; auto|apply jp_populate]|]. intros _.
  apply jp_bind; [|intros; apply jp_ret]. destruct (peqb p (c_root C)); [apply jp_modify; auto|]. destruct (h =? 0); [apply jp_bind; [apply jp_tick|intros]|]; apply jp_modify; auto.
Qed.
Lemma jp_maps p : jp (add_to_maps C p).
Proof.
  intros s a s' HJ E. unfold add_to_maps in E. unfold bind at 1 in E. unfold deref in E. destruct (s_heap s p) as [i|] eqn:Hp; [|discriminate].
  unfold bind at 1, upd at 1 in E. unfold bind at 1, upd at 1 in E. unfold bind at 1, get in E. cbn [s_puoids set_handles set_paths s_handles] in E.
  destruct HJ as (A & B & Bi & D & G & F). destruct (s_puoids s (i_path i)) as [u|] eqn:Eu.
  - unfold modify in E. cbn [s_heap set_handles set_paths] in E. rewrite Hp in E. injection E as <- <-. unfold J. cbn [s_heap s_fresh s_handles s_puoids s_tick set_heap set_handles set_paths].
    split; [exact A|]. split; [exact B|]. split; [exact Bi|]. split; [|split].
    + intros q j. unfold nupd. destruct (q =? p) eqn:Eq; [|apply D]. apply N.eqb_eq in Eq. subst q. intros _. exact (D p i Hp).
    + intros h q j Hh. unfold nupd. destruct (q =? p) eqn:Eq; [intros X; injection X as <-; cbn [i_path i_puoid it_puoid]; exact Eu|].
      rewrite aget_aset in Hh. destruct (h =? i_handle i); [injection Hh as <-; rewrite N.eqb_refl in Eq; discriminate|]. apply (G h). exact Hh.
    + intros h q Hh. rewrite aget_aset in Hh. destruct (h =? i_handle i); [injection Hh as <-; exact (D p i Hp)|exact (F h q Hh)].
  - unfold bind at 1, tick in E. unfold bind at 1, modify in E. cbn [s_heap set_handles set_paths s_tick set_tick] in E. rewrite Hp in E. unfold upd in E. injection E as <- <-. unfold J. cbn [s_heap s_fresh s_handles s_puoids s_tick set_heap set_handles set_paths set_tick set_puoids].
    split; [|split; [|split; [|split; [|split]]]].
    + intros x u Hx. unfold pupd. destruct (peqb x (i_path i)) eqn:Ex; [apply peqb_eq in Ex; subst x; rewrite (A _ _ Hx) in Eu; discriminate|apply A; exact Hx].
    + intros x u. unfold pupd. destruct (peqb x (i_path i)) eqn:Ex.
      * intros X. injection X as <-. apply peqb_eq in Ex. subst x. right. split; [destruct (loaded (i_path i)) as [v|] eqn:El; [rewrite (A _ _ El) in Eu; discriminate|reflexivity]|]. exists (s_tick s). split; [lia|reflexivity].
      * intros X. destruct (B x u X) as [Y|(Z & t & T1 & T2)]; [auto|]. right. split; [exact Z|]. exists t. split; [lia|exact T2].
    + intros N1 O1 x y u. unfold pupd.
      assert (NEW : forall z, s_puoids s z <> Some (c_puoid C (s_tick s))).
      { intros z Hz. destruct (B z _ Hz) as [Y|(Z & t & T1 & T2)]; [exact (proj1 N1 _ _ Y)|]. apply (proj2 N1) in T2. lia. }
      destruct (peqb x (i_path i)) eqn:Ex; destruct (peqb y (i_path i)) eqn:Ey; try (apply peqb_eq in Ex); try (apply peqb_eq in Ey); intros X Y; [congruence| | |exact (Bi N1 O1 x y u X Y)].
      * injection X as <-. exfalso. exact (NEW _ Y).
      * injection Y as <-. exfalso. exact (NEW _ X).
    + intros q j. unfold nupd. destruct (q =? p) eqn:Eq; [|apply D]. apply N.eqb_eq in Eq. subst q. intros _. exact (D p i Hp).
    + intros h q j Hh. unfold nupd. destruct (q =? p) eqn:Eq; [intros X; injection X as <-; cbn [i_path i_puoid it_puoid]; apply pupd_eq|].
      rewrite aget_aset in Hh. destruct (h =? i_handle i); [injection Hh as <-; rewrite N.eqb_refl in Eq; discriminate|]. intros Hq. pose proof (G h q j Hh Hq) as Y.
      unfold pupd. destruct (peqb (i_path j) (i_path i)) eqn:Ex; [|exact Y]. apply peqb_eq in Ex. rewrite Ex, Eu in Y. discriminate.
    + intros h q Hh. rewrite aget_aset in Hh. destruct (h =? i_handle i); [injection Hh as <-; exact (D p i Hp)|exact (F h q Hh)].
Qed.
Lemma jp_add : forall fuel p send h, jp (add_to_storage C fuel p None send false h).
Proof.
  induction fuel as [|f IH]; intros p send h; [apply jp_giveup|]. cbn [add_to_storage]. destruct (existsb (peqb p) (c_excl C)); [apply jp_ret|].
  apply jp_bind; [apply jp_tick|]. intros t. destruct (link_refused C p (c_link C t p)); [apply jp_ret|]. apply jp_bind; [apply jp_get|]. intros [k|].
  { apply jp_bind; [apply jp_find_by_path|]. intros. apply jp_ret. }
  apply jp_bind; [apply jp_attach|]. intros me. apply jp_bind; [apply jp_deref|]. intros i. apply jp_bind; [unfold info_of; destruct (i_info i); [apply jp_ret|apply jp_crash]|]. intros o.
  assert (R : forall (k : N -> M (N * option ptr)), jp (k R_OK) -> forall m, m = (fun s => Ret (R_OK, s)) -> jp (bind m k)).
  { intros k Hk m ->. intros s a s' HJ E. unfold bind in E. exact (Hk s a s' HJ E). }
  assert (T : jp (j <- deref me ;; when send (emit EV_ObjectAdded [i_handle j]) ;;; ret (R_OK, Some me))).
  { apply jp_bind; [apply jp_deref|]. intros j. apply jp_bind; [destruct send; [apply jp_upd; intros; repeat split; auto|apply jp_ret]|intros; apply jp_ret]. }
  match goal with |- jp (bind ?m ?k) => assert (HM : forall s r s', J s -> m s = Ret (r, s') -> J s' /\ r = R_OK) end.
  { intros s r s' HJ E. destruct (oi_format o =? FMT_Association).
    - unfold bind at 1, ret at 1 in E. change (negb (isok R_OK)) with false in E. cbv iota in E. unfold bind at 1 in E. destruct (add_watch C me s) as [[u1 s1]| |] eqn:E1; try discriminate. pose proof (jp_watch me s u1 s1 HJ E1) as J1.
      unfold bind at 1 in E. destruct (add_to_maps C me s1) as [[u2 s2]| |] eqn:E2; try discriminate. pose proof (jp_maps me s1 u2 s2 J1 E2) as J2. unfold bind at 1, get in E.
      match type of E with bind (?L (entries_of p _)) _ _ = _ => set (loop := L) in E end.
      assert (HL : forall l, jp (loop l)).
      { induction l as [|e l IHl]; [apply jp_ret|]. apply (jp_bind (add_to_storage C f e None send false 0) (fun _ => loop l)); [apply IH|intros _; exact IHl]. }
      unfold bind in E. destruct (loop (entries_of p (s_nodes s2)) s2) as [[u3 s3]| |] eqn:E3; try discriminate. pose proof (HL _ s2 u3 s3 J2 E3) as J3.
      unfold ret in E. apply Ret_inj in E. pose proof (f_equal fst E) as Ea. pose proof (f_equal snd E) as Es. cbn [fst snd] in Ea, Es. subst. auto.
    - unfold bind at 1, ret at 1 in E. change (negb (isok R_OK)) with false in E. cbv iota in E. unfold bind at 1 in E. destruct (add_to_maps C me s) as [[u1 s1]| |] eqn:E1; try discriminate. pose proof (jp_maps me s u1 s1 HJ E1) as J1.
      unfold bind at 1 in E. destruct (deref me s1) as [[j s2]| |] eqn:E2; try discriminate. pose proof (jp_deref me s1 j s2 J1 E2) as J2.
      unfold bind at 1, upd, ret in E. apply Ret_inj in E. pose proof (f_equal fst E) as Ea. pose proof (f_equal snd E) as Es. cbn [fst snd] in Ea, Es. subst. split; [|reflexivity].
      apply (jp_upd (fun s => set_byid (nupd (s_byid s) (i_puoid j) (Some (i_handle j))) s) ltac:(intros; repeat split; auto) s2 tt _ J2 eq_refl). }
  intros s a s' HJ E. unfold bind at 1 in E. match type of E with match ?X with _ => _ end = _ => destruct X as [[r s1]| |] eqn:E1; try discriminate end.
  destruct (HM s r s1 HJ E1) as [J1 ->]. change (negb (isok R_OK)) with false in E. cbv iota in E. exact (T s1 a s' J1 E).
Qed.
Lemma J_init w : J (fs_init loaded w).
Proof.
  unfold J, fs_init. cbn [s_heap s_fresh s_handles s_puoids s_tick]. split; [auto|]. split; [auto|]. split; [|repeat split; intros; discriminate].
  intros _ O x y u. apply O.
Qed.
Lemma J_enumerated fuel w s : enumerate C fuel (fs_init loaded w) = Ret (tt, s) -> J s.
Proof.
  intros E. unfold enumerate in E. unfold bind in E. destruct (add_to_storage C fuel (c_root C) None false false 0 (fs_init loaded w)) as [[r s1]| |] eqn:E1; try discriminate.
  pose proof (jp_add fuel (c_root C) false 0 _ _ _ (J_init w) E1) as J1. destruct (snd r); [|unfold ret in E; injection E as <-; exact J1].
  apply (jp_upd (set_root (Some p)) ltac:(intros; repeat split; auto) s1 tt s J1 E).
Qed.
End Ids.
