(** Properties of a storage that only depend on the paths of its objects, the open file
    and the pending notification: which operations keep them. *)
From Verif Require Import Base AList Wire FS FSPath FSTree FSLogic FSAdd FSAdd2 FSDel FSData FSFrame.

Section Keep.
Variables (C : conf) (I : fs -> Prop) (OKP OKN : path -> Prop).
Definition kp2 {A} (m : M A) (Q : A -> Prop) : Prop := forall s a s', I s -> m s = Ret (a, s') -> I s' /\ Q a.
Definition any {A} (_ : A) : Prop := True.
Definition kp {A} (m : M A) : Prop := kp2 m any.
Record keeper : Prop := {
  I_same : forall s s', I s -> s_heap s' = s_heap s -> s_nodes s' = s_nodes s -> s_file s' = s_file s -> s_write s' = s_write s -> s_cache s' = s_cache s -> I s';
  I_keep : forall s p i j, I s -> s_heap s p = Some i -> i_path j = i_path i -> I (set_heap (nupd (s_heap s) p (Some j)) s);
  I_new : forall s p j, I s -> OKP (i_path j) -> OKN (i_path j) -> I (set_heap (nupd (s_heap s) p (Some j)) s);
  I_add : forall p t, existsb (peqb p) (c_excl C) = false -> link_refused C p (c_link C t p) = false -> OKN p;
  I_free : forall s p, I s -> I (set_heap (nupd (s_heap s) p None) s);
  I_ok : forall s p i, I s -> s_heap s p = Some i -> OKP (i_path i);
  I_nodes : forall s w, I s -> (forall y, node_at y w <> node_at y (s_nodes s) -> OKP y \/ exists p, OKP p /\ under y p = true /\ node_at y (s_nodes s) = None /\ node_at y w = Some Dir) -> I (set_nodes w s);
  OK_up : forall d y, OKP d -> under d y = true -> OKP y }.
Hypothesis K : keeper.
Lemma OK_join d n : OKP d -> OKP (join d n).
Proof. intros H. apply (OK_up K d); [exact H|]. apply under_join, under_refl. Qed.

Lemma kp_ret {A} (a : A) (Q : A -> Prop) : Q a -> kp2 (ret a) Q.
Proof. intros H s a' s' HI E. injection E as <- <-. auto. Qed.
Lemma kp_bind {A B} (m : M A) (f : A -> M B) Q Q' : kp2 m Q -> (forall a, Q a -> kp2 (f a) Q') -> kp2 (bind m f) Q'.
Proof.
  intros H1 H2 s b s' HI E. unfold bind in E. destruct (m s) as [[a s1]| |] eqn:E1; try discriminate. destruct (H1 s a s1 HI E1) as [HI1 HQ]. exact (H2 a HQ s1 b s' HI1 E).
Qed.
Lemma kp_get {A} (g : fs -> A) : kp (get g).
Proof. intros s a' s' HI E. injection E as <- <-. split; [exact HI|exact Logic.I]. Qed.
Lemma kp_crash {A} Q : kp2 (@crash A) Q.
Proof. intros s a' s' HI E. discriminate. Qed.
Lemma kp_giveup {A} Q : kp2 (@give_up A) Q.
Proof. intros s a' s' HI E. discriminate. Qed.
Lemma kp_upd f : (forall s, s_heap (f s) = s_heap s /\ s_nodes (f s) = s_nodes s /\ s_file (f s) = s_file s /\ s_write (f s) = s_write s /\ s_cache (f s) = s_cache s) -> kp (upd f).
Proof. intros H s a s' HI E. injection E as <- <-. destruct (H s) as (A1 & A2 & A3 & A4 & A5). split; [|exact Logic.I]. eapply (I_same K); eassumption. Qed.
Lemma kp_tick : kp tick.
Proof. intros s a s' HI E. injection E as <- <-. split; [|exact Logic.I]. eapply (I_same K); [exact HI|reflexivity..]. Qed.
Lemma kp_deref p : kp2 (deref p) (fun i => OKP (i_path i)).
Proof. intros s a s' HI E. unfold deref in E. destruct (s_heap s p) as [i|] eqn:Hp; [|discriminate]. injection E as <- <-. split; [exact HI|]. eapply (I_ok K); eassumption. Qed.
Lemma kp_deref_opt p : kp2 (deref_opt p) (fun i => OKP (i_path i)).
Proof. destruct p; [apply kp_deref|apply kp_crash]. Qed.
Lemma kp_weak {A} (m : M A) (Q : A -> Prop) : kp2 m Q -> kp m.
Proof. intros H s a s' HI E. destruct (H s a s' HI E). split; [assumption|exact Logic.I]. Qed.
Lemma kp_modify p f : (forall i, i_path (f i) = i_path i) -> kp (modify p f).
Proof.
  intros Hf s a s' HI E. unfold modify in E. destruct (s_heap s p) as [i|] eqn:Hp; [|discriminate]. injection E as <- <-. split; [|exact Logic.I]. eapply (I_keep K); [exact HI|exact Hp|apply Hf].
Qed.
Lemma kp_setpath p x : OKP x -> OKN x -> kp (modify p (it_path x)).
Proof. intros Hx Hn s a s' HI E. unfold modify in E. destruct (s_heap s p) as [i|] eqn:Hp; [|discriminate]. injection E as <- <-. split; [|exact Logic.I]. apply (I_new K); [exact HI|exact Hx|exact Hn]. Qed.
Lemma kp_alloc p : OKP p -> OKN p -> kp (alloc (new_item p)).
Proof. intros Hx Hn s a s' HI E. unfold alloc in E. injection E as <- <-. split; [|exact Logic.I]. eapply (I_same K); [apply (I_new K s (s_fresh s) (new_item p)); [exact HI|exact Hx|exact Hn]|reflexivity..]. Qed.
Lemma kp_free p : kp (free p).
Proof. intros s a s' HI E. unfold free, upd in E. injection E as <- <-. split; [|exact Logic.I]. apply (I_free K). exact HI. Qed.
Lemma kp_when (b : bool) m : kp m -> kp (when b m).
Proof. destruct b; intros H; [exact H|apply kp_ret; exact Logic.I]. Qed.
Lemma kp_info i : kp (info_of i).
Proof. unfold info_of. destruct (i_info i); [apply kp_ret; exact Logic.I|apply kp_crash]. Qed.
Lemma kp_handle_ref h : kp (handle_ref h).
Proof. intros s a s' HI E. unfold handle_ref in E. destruct (aget h (s_handles s)); injection E as <- <-; (split; [|exact Logic.I]); [exact HI|]. eapply (I_same K); [exact HI|reflexivity..]. Qed.
Lemma kp_has_handle h : kp (has_handle h). Proof. apply kp_get. Qed.
Lemma kp_handle_value h : kp (handle_value h). Proof. apply kp_get. Qed.
Lemma kp_emit e l : kp (emit e l). Proof. apply kp_upd. auto. Qed.

Ltac kp1 := try unfold kp; lazymatch goal with
  | |- kp2 (bind (deref _) _) _ => eapply kp_bind; [|intros ? ?]
  | |- kp2 (bind (deref_opt _) _) _ => eapply kp_bind; [|intros ? ?]
  | |- kp2 (bind _ _) _ => apply kp_bind with (Q := any); [|intros ? ?]
  | |- kp2 (deref _) _ => first [apply kp_deref | apply (kp_weak _ _ (kp_deref _))]
  | |- kp2 (deref_opt _) _ => first [apply kp_deref_opt | apply (kp_weak _ _ (kp_deref_opt _))]
  | |- kp2 (ret _) _ => apply kp_ret; try exact Logic.I
  | |- kp2 crash _ => apply kp_crash
  | |- kp2 give_up _ => apply kp_giveup
  | |- kp2 (get _) _ => apply kp_get
  | |- kp2 tick _ => apply kp_tick
  | |- kp2 (free _) _ => apply kp_free
  | |- kp2 (emit _ _) _ => apply kp_emit
  | |- kp2 (info_of _) _ => apply kp_info
  | |- kp2 (handle_ref _) _ => apply kp_handle_ref
  | |- kp2 (handle_value _) _ => apply kp_handle_value
  | |- kp2 (has_handle _) _ => apply kp_has_handle
  | |- kp2 (when _ _) _ => apply kp_when
  | |- kp2 (upd _) _ => apply kp_upd; intros; cbn; auto 10
  | |- kp2 (modify _ (it_path _)) _ => apply kp_setpath; [|solve [auto]]
  | |- kp2 (modify _ _) _ => apply kp_modify; intros; try reflexivity
  | |- kp2 (match ?x with _ => _ end) _ => destruct x
  end.
Ltac kpx := repeat kp1.
Tactic Notation "kpl" tactic3(t) := repeat first [t | kp1].

Lemma kp_fails : kp (fails C).
Proof. unfold fails. kpx. Qed.
(** the next step of a system call: it changes files only where allowed *)
Lemma I_tick s : I s -> I (set_tick (S (s_tick s)) s).
Proof. intros H. eapply (I_same K); [exact H|reflexivity..]. Qed.
Lemma I_set s p n : I s -> OKP p -> I (set_nodes (set_node p n (s_nodes s)) s).
Proof. intros H U. apply (I_nodes K); [exact H|]. intros y Hy. left. rewrite node_at_set in Hy. destruct (peqb y p) eqn:E; [apply peqb_eq in E; subst; exact U|contradiction]. Qed.
Lemma I_del s p : I s -> OKP p -> I (set_nodes (del_node p (s_nodes s)) s).
Proof. intros H U. apply (I_nodes K); [exact H|]. intros y Hy. left. rewrite node_at_del in Hy. destruct (peqb y p) eqn:E; [apply peqb_eq in E; subst; exact U|contradiction]. Qed.
Lemma node_rename a b w y : under a y = false -> under b y = false -> node_at y (rename_nodes a b w) = node_at y w.
Proof.
  intros H1 H2. induction w as [|[k n] w IH]; [reflexivity|]. cbn [rename_nodes map fst snd node_at]. fold (rename_nodes a b w). rewrite IH. destruct (under a k) eqn:U; [|rewrite moved_key_not by exact U; reflexivity]. rewrite moved_key_under by exact U.
  assert (Y1 : y <> k) by (intros ->; congruence). assert (Y2 : y <> repath a b k). { intros ->. rewrite repath_under in H2 by exact U. discriminate. }
  apply peqb_neq in Y1, Y2. rewrite Y1, Y2. reflexivity.
Qed.
(** steps that know the files as they are *)
Definition kpn {A} (w : list (path * node)) (m : M A) : Prop := forall s a s', I s -> s_nodes s = w -> m s = Ret (a, s') -> I s'.
Lemma kp_nodes {A} (f : list (path * node) -> M A) : (forall w, kpn w (f w)) -> kp (bind (get s_nodes) f).
Proof. intros H s a s' HI E. split; [|exact Logic.I]. exact (H (s_nodes s) s a s' HI eq_refl E). Qed.
Lemma kpn_kp {A} w (m : M A) : kp m -> kpn w m.
Proof. intros H s a s' HI _ E. exact (proj1 (H s a s' HI E)). Qed.
Lemma kpn_ret {A} w (a : A) : kpn w (ret a).
Proof. apply kpn_kp, kp_ret. exact Logic.I. Qed.
Lemma kpn_then {A} w w' (m : M A) : (forall s, I s -> s_nodes s = w -> I (set_nodes w' s)) -> kp m -> kpn w (bind (upd (set_nodes w')) (fun _ => m)).
Proof. intros H1 H2 s a s' HI Ew E. unfold bind, upd in E. exact (proj1 (H2 _ _ _ (H1 s HI Ew) E)). Qed.
Lemma kpn_set {A} w p n (m : M A) : OKP p -> kp m -> kpn w (bind (upd (set_nodes (set_node p n w))) (fun _ => m)).
Proof. intros U. apply kpn_then. intros s HI <-. apply I_set; assumption. Qed.
Lemma kpn_del {A} w p (m : M A) : OKP p -> kp m -> kpn w (bind (upd (set_nodes (del_node p w))) (fun _ => m)).
Proof. intros U. apply kpn_then. intros s HI <-. apply I_del; assumption. Qed.
Lemma kpn_fails {A} w (f : bool -> M A) : (forall b, kpn w (f b)) -> kpn w (bind (fails C) f).
Proof. intros H s a s' HI Ew E. unfold fails, bind, tick, ret in E. exact (H _ _ _ _ (I_tick s HI) Ew E). Qed.
Lemma kpn_bind {A B} w (m : M A) (f : A -> M B) : kpn w m -> (forall a, kp (f a)) -> kpn w (bind m f).
Proof. intros H1 H2 s a s' HI Ew E. unfold bind in E. destruct (m s) as [[x s1]| |] eqn:E1; try discriminate. exact (proj1 (H2 x s1 a s' (H1 s x s1 HI Ew E1) E)). Qed.
Lemma kpn_set1 w p n : OKP p -> kpn w (upd (set_nodes (set_node p n w))).
Proof. intros U s a s' HI <- E. unfold upd in E. assert (s' = set_nodes (set_node p n (s_nodes s)) s) by congruence. subst s'. apply I_set; assumption. Qed.
Ltac kn1 := lazymatch goal with
  | |- kpn _ (ret _) => apply kpn_ret
  | |- kpn _ (bind (upd (set_nodes (set_node _ _ _))) _) => apply kpn_set; [assumption|]
  | |- kpn _ (bind (upd (set_nodes (del_node _ _))) _) => apply kpn_del; [assumption|]
  | |- kpn _ (match ?x with _ => _ end) => destruct x
  end.
Lemma kp_rename a b : OKP a -> OKP b -> kp (sys_rename C a b).
Proof.
  intros Ua Ub. unfold sys_rename. kp1; [apply kp_fails|]. apply kp_nodes. intros w. kn1; [kn1|]. kn1; [kn1|]. kn1; [kn1|]. apply kpn_then; [|kpx]. intros s HI <-.
  apply (I_nodes K); [exact HI|]. intros y Hy. left. destruct (under a y) eqn:U1; [exact (OK_up K a y Ua U1)|]. destruct (under b y) eqn:U2; [exact (OK_up K b y Ub U2)|]. rewrite (node_rename a b _ y U1 U2) in Hy. contradiction.
Qed.
Lemma kp_rmdir a : OKP a -> kp (sys_rmdir C a).
Proof. intros Ua. unfold sys_rmdir. kp1; [apply kp_fails|]. apply kp_nodes. intros w. repeat kn1. kpx. Qed.
Lemma kp_remove a : OKP a -> kp (sys_remove C a).
Proof. intros Ua. unfold sys_remove. kp1; [apply kp_fails|]. apply kp_nodes. intros w. repeat kn1. kpx. Qed.
Lemma kp_open a : OKP a -> kp (sys_open_rw C a).
Proof. intros Ua. unfold sys_open_rw. kp1; [apply kp_fails|]. apply kp_nodes. intros w. repeat kn1. kpx. Qed.
Lemma kp_create_file a i : OKP a -> kp (create_file C a i).
Proof.
  intros Ua. unfold create_file. kp1; [apply kp_open; exact Ua|]. kp1; [kpx|]. kp1; [apply kp_fails|]. apply kp_nodes. intros w. kn1; [|kn1]. kn1; [|kn1]. unfold when. destruct (negb _); [kn1; kpx|apply kpn_kp; kpx].
Qed.
Lemma kp_create_directory a : OKP a -> kp (create_directory C a).
Proof.
  intros Ua. unfold create_directory. apply kp_nodes. intros w s x s' HI Ew E. destruct (is_dir a w); [unfold ret in E; assert (s' = s) by congruence; subst s'; exact HI|]. unfold fails, bind, tick, ret in E. pose proof (I_tick s HI) as HT. revert HT E. assert (Ew1 : s_nodes (set_tick (S (s_tick s)) s) = w) by exact Ew. revert Ew1. generalize (set_tick (S (s_tick s)) s). intros s1 Ew1 HT E.
  destruct (c_fail C (s_tick s)); [assert (s' = s1) by congruence; subst; exact HT|]. destruct (mkpath a w) as [w'|] eqn:Em; [|assert (s' = s1) by congruence; subst; exact HT]. unfold upd in E. assert (Es : s' = set_nodes w' s1) by congruence. subst s'.
  apply (I_nodes K); [exact HT|]. rewrite Ew1. intros y Hy. right. exists a. split; [exact Ua|]. apply mkpath_ok in Em as [Em _]. destruct (Em y) as [Z|Z]; [contradiction|exact Z].
Qed.
Lemma kp_link a b : kp (link_child a b).
Proof. unfold link_child. kpx. Qed.
Lemma kp_find_pred x : forall fuel o, kp (find_pred fuel o x).
Proof. induction fuel as [|f IH]; intros [p|]; cbn [find_pred]; kpx. apply IH. Qed.
Lemma kp_unlink x : kp (unlink_child x).
Proof. unfold unlink_child. kpx. apply kp_find_pred. Qed.
Lemma kp_find_by_path p : kp (find_by_path p).
Proof. unfold find_by_path. kpx. Qed.
Lemma kp_populate p : kp (populate_info C p).
Proof. unfold populate_info. kpx. Qed.
Lemma kp_attach p info h : OKP p -> OKN p -> kp (attach_new C p info h).
Proof.
  intros U U2. unfold attach_new. eapply kp_bind; [apply kp_alloc; assumption|intros me _]. eapply kp_bind; [apply kp_find_by_path|intros par _]. kp1; [kp1|]. eapply kp_bind; [apply kp_link|intros _ _].
  eapply kp_bind; [destruct info; [kpx|apply kp_populate]|intros _ _]. kpx.
Qed.
Lemma kp_add_watch p : kp (add_watch C p).
Proof. unfold add_watch, sys_add_watch. kpx. Qed.
Lemma kp_remove_watch p : kp (remove_watch p).
Proof. unfold remove_watch. kpx. Qed.
Lemma kp_watch_rec f : (forall p, kp (f p)) -> forall fuel p, kp (watch_rec fuel f p).
Proof.
  intros Hf. induction fuel as [|n IH]; intros p; cbn [watch_rec]; [kpx|]. eapply kp_bind; [apply kp_deref|intros i _]. destruct (is_assoc i); [|kpx]. eapply kp_bind; [apply Hf|intros _ _]. eapply kp_bind; [apply kp_deref|intros i2 _].
  generalize (i_first i2) as o. assert (L : forall k o, kp ((fix loop (k : nat) (itr : option ptr) : M unit := match itr with None => ret tt | Some q => match k with O => give_up | S k' => watch_rec n f q ;;; qi <- deref q ;; loop k' (i_next qi) end end) k o)); [|intros o; apply L].
  induction k as [|k IHk]; intros [q|]; kpx; [apply IH|apply IHk].
Qed.
Lemma kp_add_to_maps p : kp (add_to_maps C p).
Proof. unfold add_to_maps. kpx. Qed.
Lemma kp_add : forall fuel p info send create h, OKP p -> kp (add_to_storage C fuel p info send create h).
Proof.
  induction fuel as [|fuel IH]; intros p info send create h U; cbn [add_to_storage]; [kpx|].
  destruct (existsb (peqb p) (c_excl C)) eqn:Ex; [kpx|]. kp1; [kp1|]. destruct (link_refused C p (c_link C a p)) eqn:El; [kpx|]. pose proof (I_add K p a Ex El) as U2. kp1; [kp1|]. destruct a0 as [k|]; [kpx; apply kp_find_by_path|].
  eapply kp_bind; [apply kp_attach; assumption|intros me _]. kp1; [kp1|]. kp1; [kp1|].
  eapply kp_bind.
  - destruct (oi_format a1 =? FMT_Association).
    + eapply kp_bind; [destruct create; [apply kp_create_directory; exact U|kpx]|intros rc _]. destruct (negb (isok rc)); [kp1|]. eapply kp_bind; [apply kp_add_watch|intros _ _]. eapply kp_bind; [apply kp_add_to_maps|intros _ _]. kp1; [kp1|].
      eapply kp_bind; [|intros _ _; kp1].
      assert (L : forall l, (forall e, In e l -> plain (base_of e) /\ e = join p (base_of e)) ->
        kp ((fix loop (l : list path) : M unit := match l with [] => ret tt | e :: l' => _ <- add_to_storage C fuel e None send create 0 ;; loop l' end) l)).
      { induction l as [|e l IHl]; intros Hl; [kpx|]. eapply kp_bind; [|intros _ _; apply IHl; intros e' He'; apply Hl; right; exact He'].
        destruct (Hl e (or_introl eq_refl)) as [He1 He2]. apply IH. rewrite He2. apply OK_join. exact U. }
      apply L. intros e He. apply entries_spec in He. exact He.
    + eapply kp_bind; [destruct create; [apply kp_create_file; exact U|kpx]|intros rc _]. destruct (negb (isok rc)); [kp1|]. eapply kp_bind; [apply kp_add_to_maps|intros _ _]. kpx.
  - intros rc _. destruct (negb (isok rc)); [|kpx]. eapply kp_bind; [apply kp_unlink|intros _ _]. kpx.
Qed.
Lemma kp_add_item fuel info : kp (add_item C fuel info).
Proof.
  unfold add_item. set (j := if oi_parent info =? ALL then _ else _). kp1; [kp1|]. destruct (negb a); [kp1|]. kp1; [kp1|]. kp1; [kp1|]. cbn beta in H1. eapply kp_bind; [apply kp_add; apply OK_join; exact H1|intros r _]. kpx.
Qed.
Lemma kp_remove_from h send : kp (remove_from_storage h send).
Proof. unfold remove_from_storage. kpx; [apply kp_remove_watch|apply kp_unlink]. Qed.
Lemma kp_delete : forall fuel h phys send, kp (delete_helper C fuel h phys send).
Proof.
  induction fuel as [|f IH]; intros h phys send; cbn [delete_helper]; [kpx|]. kp1; [kp1|]. destruct (negb a); [kp1|]. kp1; [kp1|]. destruct a0 as [p|]; [|kp1]. kp1; [kp1|]. destruct (opt_eqb (Some p) a0); [kp1|].
  kp1; [kp1|]. destruct (i_first a1).
  - eapply kp_bind with (Q := any); [|intros nd _; destruct nd; [kp1|]; eapply kp_bind; [apply IH|intros; kp1]].
    assert (L : forall k, kp ((fix loop (k : nat) : M bool := i <- deref p ;; match i_first i with None => ret false | Some c => match k with O => give_up | S k' => ci <- deref c ;; r <- delete_helper C f (i_handle ci) phys send ;; if negb (isok r) then ret true else loop k' end end) k)); [|apply L].
    induction k as [|k IHk]; kpx; [apply IH|apply IHk].
  - eapply kp_bind with (Q := any); [destruct phys; [|kp1]; kp1; [kp1|]; destruct ((oi_format a2 =? FMT_Association) && negb (i_handle a1 =? 0)); [kp1; [kp1|apply kp_rmdir; assumption]|apply kp_remove; assumption]|intros ok _]. destruct (negb ok); [kp1|]. eapply kp_bind; [apply kp_remove_from|intros; kp1].
Qed.
Lemma kp_delete_item fuel order h fmt : kp (delete_item C fuel order h fmt).
Proof.
  unfold delete_item. destruct (h =? ALL); [|apply kp_delete]. kp1; [kp1|].
  match goal with |- kp2 (?F order R_GeneralError false false) _ => assert (L : forall l r x y, kp (F l r x y)); [|apply L] end.
  induction l as [|k l IHl]; intros r x y; cbn beta iota; [kpx|]. eapply kp_bind with (Q := any); [|intros; apply IHl]. destruct (negb (fmt =? 0) && negb (fmt =? FMT_Undefined)); [|apply kp_delete]. kp1; [kp1|]. destruct (match i_info a0 with Some o => oi_format o =? fmt | None => false end); [apply kp_delete|kp1].
Qed.
Lemma kp_list_children fmt : forall fuel o, kp (list_children fuel o fmt).
Proof. induction fuel as [|f IH]; intros [p|]; cbn [list_children]; kpx. apply IH. Qed.
Lemma kp_list_all fmt : forall l, kp (list_all l fmt).
Proof. induction l as [|[h v] l IH]; cbn [list_all]; kpx; apply IH. Qed.
Lemma kp_get_handles fmt a : kp (get_object_handles fmt a).
Proof. unfold get_object_handles. kpx; first [apply kp_list_all|apply kp_list_children]. Qed.
Lemma kp_adjust_moved (AN : forall x, OKN x) : forall fuel anc p, OKP anc -> kp (adjust_moved fuel anc p).
Proof.
  induction fuel as [|f IH]; intros anc p U; cbn [adjust_moved]; [kpx|]. kp1; [kp1|]. kp1; [kpx|]. kp1; [kp1|]. kp1; [kp1; apply OK_join; exact U|]. kp1; [kpx|].
  match goal with |- kp2 (?F f (i_first a)) _ => assert (L : forall k o, kp (F k o)); [|apply L] end.
  induction k as [|k IHk]; intros [q|]; kpx; [apply IH; apply OK_join; exact U|apply IHk].
Qed.
Lemma kp_adjust_children (AN : forall x, OKN x) fuel anc : OKP anc -> forall k o, kp (adjust_children fuel k anc o).
Proof. intros U. induction k as [|k IHk]; intros [q|]; cbn [adjust_children]; kpx; [apply (kp_adjust_moved AN); exact U|apply IHk]. Qed.
Lemma kp_move (AN : forall x, OKN x) fuel h par phys : kp (move_object C fuel h par phys).
Proof.
  unfold move_object. kp1; [kp1|]. destruct (negb a); [kp1|]. kp1; [kp1|]. destruct (negb a0); [kp1|]. kp1; [kp1|]. kp1; [kp1|]. destruct a1 as [p|]; [|kp1]. destruct a2 as [q|]; [|kp1].
  kp1; [kp1|]. rename a1 into qi. cbn beta in *. assert (U : forall n, OKP (join (i_path qi) n)) by (intros; apply OK_join; assumption). kp1; [kp1|]. kp1; [kp1|]. kp1; [kp1|].
  match goal with |- kp2 (if ?b then _ else _) _ => destruct b end; [kp1|]. kp1; [apply kp_watch_rec, kp_remove_watch|]. eapply kp_bind with (Q := any); [destruct phys; [apply kp_rename; [assumption|apply U]|kp1]|intros ok _]. destruct (negb ok); [kp1; [apply kp_watch_rec, kp_add_watch|kp1]|].
  kp1; [kpx|]. kp1; [kpx|]. kp1; [apply kp_unlink|]. kp1; [kp1|]. kp1; [apply (kp_adjust_children AN), U|]. kp1; [apply kp_link|]. kp1; [kp1; apply U|]. kp1; [kp1; destruct (i_info _); reflexivity|]. kp1; [apply kp_watch_rec, kp_add_watch|kp1].
Qed.
Lemma kp_name_valid n o : kp (file_name_valid n o).
Proof. unfold file_name_valid. kpx. Qed.
Lemma kp_set_file_name (AN : forall x, OKN x) fuel h n : (forall x, OKP x) -> kp (set_file_name C fuel h n).
Proof.
  intros U. unfold set_file_name. kp1; [kp1|]. destruct a as [p|]; [|kp1]. kp1; [kp1|]. kp1; [apply kp_name_valid|]. destruct (negb a0); [kp1|]. kp1; [apply kp_rename; apply U|]. kp1; [|kp1]. kp1. kp1; [kpx|]. kp1; [kpx|]. kp1; [kp1|]. kp1; [kp1; apply U|]. kp1; [kp1|]. kp1; [kpx|]. kp1; [kpx|].
  kp1; [apply kp_watch_rec, kp_remove_watch|]. kp1; [apply kp_watch_rec, kp_add_watch|]. apply (kp_adjust_children AN), U.
Qed.
(** notifications, apart from the pending one *)
Lemma kp_fs_delete fuel wd n : kp (handle_fs_delete C fuel wd n).
Proof. unfold handle_fs_delete. kpx. apply kp_delete. Qed.
Lemma kp_fs_create fuel wd n : kp (handle_fs_create C fuel wd n).
Proof. unfold handle_fs_create. kp1; [kp1|]. kp1; [kp1|]. destruct a0; [|kp1]. kp1; [kp1|]. cbn beta in *. destruct (negb _); [kp1|]. kp1; [kp1|]. destruct a1; [kp1|]. kp1; [apply kp_add; apply OK_join; assumption|kp1]. Qed.
Lemma kp_fs_modify wd n : kp (handle_fs_modify C wd n).
Proof. unfold handle_fs_modify. kpx. apply kp_populate. Qed.
Lemma kp_fs_move (AN : forall x, OKN x) fuel wd1 n1 wd2 n2 : kp (handle_fs_move C fuel wd1 n1 wd2 n2).
Proof.
  unfold handle_fs_move. do 4 (kp1; [kp1|]). destruct ((a =? a0) && peqb n1 n2); [kp1|]. destruct a1 as [fq|]; [|kp1]. destruct a2 as [tq|]; [|kp1]. kp1; [kp1|]. kp1; [kp1|]. cbn beta in *. rename a2 into ti. destruct (negb _ || negb _); [kp1|].
  kp1; [kp1|]. destruct (a2 =? 0); [kp1|]. kp1; [kp1|]. destruct a3 as [p|]; [|kp1]. kp1; [kp1|]. assert (U : OKP (join (i_path ti) n2)) by (apply OK_join; assumption). destruct a3; [kp1; [apply kp_delete|kp1]|].
  eapply kp_bind with (Q := any).
  - destruct (a =? a0); [|kp1; [apply (kp_move AN)|kp1]]. kp1; [kpx|]. kp1; [kp1; exact U|]. kp1; [kp1|]. kp1; [kp1|]. kp1; [kp1|]. kp1; [kpx|]. kp1; [apply (kp_adjust_children AN); exact U|]. kp1; [apply kp_watch_rec, kp_remove_watch|apply kp_watch_rec, kp_add_watch].
  - intros _ _. kp1; [kp1|]. kp1; [apply kp_populate|]. kpx.
Qed.

(** *** Reading and writing *)
Record dkeeper : Prop := {
  I_file : forall s fp pos, I s -> OKP fp -> I (set_file (Some (fp, pos)) s);
  I_close : forall s, I s -> I (set_file None s);
  I_write : forall s h, I s -> I (set_write h s);
  I_open : forall s fp pos, I s -> s_file s = Some (fp, pos) -> OKP fp }.
Hypothesis D : dkeeper.
Lemma kp_file fp pos : OKP fp -> kp (upd (set_file (Some (fp, pos)))).
Proof. intros U s a s' HI E. injection E as <- <-. split; [|exact Logic.I]. apply (I_file D); assumption. Qed.
Lemma kp_close : kp (upd (set_file None)).
Proof. intros s a s' HI E. injection E as <- <-. split; [|exact Logic.I]. apply (I_close D); assumption. Qed.
Lemma kp_write h : kp (upd (set_write h)).
Proof. intros s a s' HI E. injection E as <- <-. split; [|exact Logic.I]. apply (I_write D); assumption. Qed.
Lemma kp_get_file : kp2 (get s_file) (fun f => forall fp pos, f = Some (fp, pos) -> OKP fp).
Proof. intros s a s' HI E. injection E as <- <-. split; [exact HI|]. intros fp pos Ef. eapply (I_open D); eassumption. Qed.
Lemma kp_read_loop d : forall fuel pos n acc, kp (read_loop C fuel d pos n acc).
Proof. induction fuel as [|f IH]; intros pos n acc; cbn [read_loop]; destruct (n =? 0); kpx. apply IH. Qed.
Lemma kp_read h n off : kp (read_data C h n off).
Proof. unfold read_data. kpl (first [apply kp_fails | apply kp_read_loop]). Qed.
Lemma kp_truncate h n : kp (truncate_item C h n).
Proof.
  unfold truncate_item. kp1; [kp1|]. kp1; [kp1|]. kp1; [kp1|]. kp1; [|kp1]. kp1; [kp1|]. cbn beta in *. match goal with |- context [i_info ?x] => destruct (i_info x) end; [|kp1]. kp1; [kp1|]. kp1; [apply kp_fails|]. apply kp_nodes. intros w. repeat kn1. kpx.
Qed.
Ltac kpf := eapply kp_bind; [apply kp_get_file|intros ? ?].
Lemma kp_write_loop : forall fuel bs, kp (write_loop C fuel bs).
Proof.
  induction fuel as [|f IH]; intros [|b bs]; cbn [write_loop]; try (kp1; fail); unfold kp; try kpf.
  - kpx.
  - destruct a as [[fp pos]|]; [|kp1]. pose proof (H fp pos eq_refl) as U. kp1; [kp1|]. destruct (c_chunk C a); [|kp1]. apply kp_nodes. intros w. apply kpn_bind; [kn1; [|kn1]; kn1; [|kn1]; apply kpn_set1; exact U|]. intros _. kp1; [apply kp_file; exact U|]. apply IH.
Qed.
Lemma kp_write_data h data first last : kp (write_data C h data first last).
Proof.
  unfold write_data. kp1; [kp1|]. destruct (negb a); [kp1|]. kp1; [kp1|]. destruct a0 as [p|]; [|kp1]. destruct data as [bs|].
  - kp1; [apply kp_write|]. apply kp_bind with (Q := any).
    + destruct first; [|kp1]. kp1; [kp1|]. cbn beta in *. kp1; [apply kp_open; assumption|]. destruct a2; [kp1; [apply kp_file; assumption|]; kpx|kp1; [apply kp_close|kp1]].
    + intros op _. destruct (negb op); [kp1|]. destruct (_ <=? _); [kpx|]. apply kp_write_loop.
  - destruct last; [|kp1]. kp1; [apply kp_write|]. kpf. destruct a1 as [[fp pos]|]; [|kp1]. match goal with H : forall fp0 pos0, _ -> _ |- _ => pose proof (H fp pos eq_refl) as U end. apply kp_nodes. intros w. apply kpn_fails. intros b. apply kpn_bind; [kn1; [|kn1]; kn1; [|kn1]; unfold when; kn1; [apply kpn_set1; exact U|kn1]|]. intros _. kp1; [apply kp_close|]. kpx.
Qed.
Lemma kp_write_partial h off bs first last : kp (write_partial C h off bs first last).
Proof.
  unfold write_partial. kp1; [kp1|]. apply kp_bind with (Q := any); [destruct a; kpx|intros v _]. set (code := if negb a then _ else _). apply kp_bind with (Q := any).
  { destruct (isok code && first); [|kp1]. kp1; [kp1|]. cbn beta in *. kp1; [apply kp_write|]. kp1; [apply kp_open; assumption|]. destruct a2; [kp1; [apply kp_file; assumption|kp1]|kp1; [apply kp_close|kp1]]. }
  intros c1 _. kpf. apply kp_bind with (Q := any).
  { destruct a0 as [[fp pos]|]; [|kp1]. pose proof (H0 fp pos eq_refl) as U. destruct (isok c1); [|kp1]. kp1; [kp1|]. kp1; [kp1|]. kp1; [apply kp_fails|]. kp1; [kp1|]. kp1; [apply kp_file; exact U|]. apply kp_write_loop. }
  intros c2 _. apply kp_bind with (Q := any); [|intros; kp1]. destruct (negb (isok c2) || last); [|kp1]. kp1; [kp1|]. kp1; [|apply kp_write]. destruct a1; [|kp1]. kp1; [apply kp_close|]. kpx.
Qed.
Lemma kp_get_info h : kp (get_object_info C h).
Proof. unfold get_object_info. kp1; [kp1|]. destruct (negb a); [kp1|]. kp1; [kp1|]. destruct a0; [|kp1]. kp1; [kp1|]. kp1; [apply kp_populate|]. kpx. Qed.
Lemma kp_copy_loop dfuel src dst : forall fuel off rem result, kp (copy_loop C fuel dfuel src dst off rem result).
Proof.
  induction fuel as [|f IH]; intros off rem result; cbn [copy_loop]; (destruct (_ || _); [kp1|]); [kp1|]. kp1; [apply kp_read|]. kp1; [kp1|]. destruct (c_cancel C a0); [kp1; [apply kp_delete_item|kp1]|]. destruct (negb _); [apply IH|].
  kp1; [apply kp_write_data|]. eapply kp_bind with (Q := any); [destruct (_ =? 0); [apply kp_write_data|kp1]|]. intros; apply IH.
Qed.
Lemma kp_copy_data fuel src dst : kp (copy_data C fuel src dst).
Proof. unfold copy_data. kp1; [kp1|]. kp1; [kp1|]. destruct (_ || _); [kp1|]. kp1; [apply kp_get_info|]. destruct (negb _); [kp1|]. destruct (snd a1); [|kp1]. apply kp_copy_loop. Qed.
Lemma kp_any_path p : forall l, kp (any_path l p).
Proof. induction l as [|h l IH]; cbn [any_path]; kpx; apply IH. Qed.
Lemma kp_copy : forall fuel h par top, kp (copy_object C fuel h par top).
Proof.
  induction fuel as [|f IH]; intros h par top; cbn [copy_object]; [kp1|]. kp1; [kp1|]. destruct (negb a); [kp1|]. kp1; [kp1|]. destruct (negb a0); [kp1|]. kp1; [kp1|]. destruct a1 as [p|]; [|kp1]. kp1; [kp1|]. destruct (i_info a1) as [o|]; [|kp1].
  kp1; [kp1|]. destruct (c_free C a2); [|kp1]. destruct (_ <? _); [kp1|]. kp1; [kp1|]. destruct a3 as [q|]; [|kp1]. kp1; [kp1|].
  eapply kp_bind with (Q := any); [destruct (top && _); [|kp1]; kp1; [apply kp_get_handles|]; destruct (isok _); [apply kp_any_path|kp1]|]. intros clash _. destruct clash; [kp1|]. kp1; [apply kp_remove_watch|]. kp1; [apply kp_add_item|]. set (copy := match snd a5 with Some (c, _) => c | None => 0 end). destruct (negb _); [kp1; [apply kp_add_watch|kp1]|].
  destruct (_ =? _).
  - kp1; [kp1|]. eapply kp_bind with (Q := any).
    + match goal with |- kp2 (?F f (i_first a6)) _ => assert (L : forall k o, kp (F k o)); [|apply L] end. induction k as [|k IHk]; intros [c|]; kpx; [apply IH|apply IHk].
    + intros res _. destruct (negb _); [kp1|]. kp1; [apply kp_add_watch|kp1].
  - kp1; [apply kp_copy_data|]. destruct (negb _); [kp1|]. kp1; [apply kp_add_watch|kp1].
Qed.
End Keep.
