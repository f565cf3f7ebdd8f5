(** What an object is said to be after the first scan of the folder. *)
From Verif Require Import Base AList Wire FS FSPath FSTree FSLogic FSAdd2 FSSpec FSAnn.

Section Named.
Variable C : conf.
(** format, size and name are those of the file *)
Definition named (w : nodes) (i : item) (o : objinfo) : Prop :=
  oi_format o = format_of C (i_path i) w /\ oi_size o = size_of (i_path i) w /\ oi_name o = base_of (i_path i) /\ oi_storage o = c_sid C.
Definition all_named (s : fs) : Prop := forall x i o, s_heap s x = Some i -> i_info i = Some o -> named (s_nodes s) i o.
(** the disk is left alone, and an info is an old one of an item with that path or is the file's *)
Definition kept (s s' : fs) : Prop := s_nodes s' = s_nodes s /\ forall x i' o, s_heap s' x = Some i' -> i_info i' = Some o ->
  (exists i, s_heap s x = Some i /\ i_info i = Some o /\ i_path i = i_path i') \/ named (s_nodes s) i' o.
Lemma kept_refl s : kept s s. Proof. split; [reflexivity|]. intros x i o H E. left. eauto. Qed.
Lemma kept_trans a b c : kept a b -> kept b c -> kept a c.
Proof.
  intros [A1 A2] [B1 B2]. split; [congruence|]. intros x i o Hx E. destruct (B2 x i o Hx E) as [(j & J1 & J2 & J3)|Z]; [|right; rewrite <- A1; exact Z].
  destruct (A2 x j o J1 J2) as [(k & K1 & K2 & K3)|Z]; [left; exists k; split; [exact K1|]; split; [exact K2|congruence]|right]. unfold named in *. rewrite <- J3. exact Z.
Qed.
Definition nm {A} (m : M A) : Prop := tr kept m.
Lemma nm_bind {A B} (m : M A) (f : A -> M B) : nm m -> (forall a, nm (f a)) -> nm (bind m f).
Proof. apply FSAnn.tr_bind. apply kept_trans. Qed.
Lemma kept_same s s' : s_heap s' = s_heap s -> s_nodes s' = s_nodes s -> kept s s'.
Proof. intros A B. split; [exact B|]. intros x i o H E. rewrite A in H. left. eauto. Qed.
Lemma nm_upd f : (forall s, s_heap (f s) = s_heap s /\ s_nodes (f s) = s_nodes s) -> nm (upd f).
Proof. intros H s a s' E. injection E as <- <-. destruct (H s). apply kept_same; assumption. Qed.
Lemma nm_modify p f : (forall i, i_info (f i) = i_info i /\ i_path (f i) = i_path i) -> nm (modify p f).
Proof.
  intros H s a s' E. unfold modify in E. destruct (s_heap s p) as [j|] eqn:Hp; [|discriminate]. injection E as <- <-. split; [reflexivity|]. intros x i o Hx Ei. cbn [s_heap set_heap s_nodes] in *. unfold nupd in Hx. destruct (x =? p) eqn:Z; [|left; eauto].
  apply N.eqb_eq in Z. subst x. injection Hx as <-. destruct (H j) as [H1 H2]. rewrite H1 in Ei. left. exists j. auto.
Qed.
Lemma nm_tick : nm tick. Proof. intros s a s' E. injection E as <- <-. apply kept_same; reflexivity. Qed.
Definition nm_ret {A} := @FSAnn.tr_ret kept kept_refl A.
Definition nm_get {A} := @FSAnn.tr_get kept kept_refl A.
Definition nm_deref := @FSAnn.tr_deref kept kept_refl.
Definition nm_deref_opt := @FSAnn.tr_deref_opt kept kept_refl.
Definition nm_info := @FSAnn.tr_info kept kept_refl.
Definition nm_when := @FSAnn.tr_when kept kept_refl.
Definition nm_crash {A} := @FSAnn.tr_crash kept A.
Definition nm_giveup {A} := @FSAnn.tr_giveup kept A.
Ltac n1 := unfold nm; lazymatch goal with
  | |- tr kept (bind _ _) => apply nm_bind; [|intros ?]
  | |- tr kept (ret _) => apply nm_ret
  | |- tr kept (get _) => apply nm_get
  | |- tr kept (has_handle _) => apply nm_get
  | |- tr kept (handle_value _) => apply nm_get
  | |- tr kept (deref _) => apply nm_deref
  | |- tr kept (deref_opt _) => apply nm_deref_opt
  | |- tr kept (info_of _) => apply nm_info
  | |- tr kept crash => apply nm_crash
  | |- tr kept give_up => apply nm_giveup
  | |- tr kept tick => apply nm_tick
  | |- tr kept (emit _ _) => apply nm_upd; intros; cbn; auto
  | |- tr kept (when _ _) => apply nm_when
  | |- tr kept (upd _) => apply nm_upd; intros; cbn; auto
  | |- tr kept (modify _ _) => apply nm_modify; intros; auto
  | |- tr kept (match ?x with _ => _ end) => destruct x
  end.
Tactic Notation "nl" tactic3(t) := repeat first [t | n1].
Lemma nm_link a b : nm (link_child a b). Proof. unfold link_child. repeat n1. Qed.
Lemma nm_find p : nm (find_by_path p). Proof. unfold find_by_path. repeat n1. Qed.
Lemma nm_find_pred x : forall fuel o, nm (find_pred fuel o x).
Proof. induction fuel as [|f IH]; intros [p|]; cbn [find_pred]; nl (apply IH). Qed.
Lemma nm_unlink x : nm (unlink_child x). Proof. unfold unlink_child. nl (apply nm_find_pred). Qed.
Lemma nm_maps p : nm (add_to_maps C p). Proof. unfold add_to_maps. repeat n1. Qed.
Lemma nm_watch p : nm (add_watch C p). Proof. unfold add_watch, sys_add_watch. repeat n1. Qed.
Lemma nm_free p : nm (free p).
Proof. intros s a s' E. unfold free, upd in E. injection E as <- <-. split; [reflexivity|]. intros x i o Hx Ei. cbn [s_heap set_heap s_nodes] in *. unfold nupd in Hx. destruct (x =? p); [discriminate|left; eauto]. Qed.
Lemma nm_alloc p : nm (alloc (new_item p)).
Proof. intros s a s' E. unfold alloc in E. injection E as <- <-. split; [reflexivity|]. intros x i o Hx Ei. cbn [s_heap set_heap set_fresh s_nodes] in *. unfold nupd in Hx. destruct (x =? s_fresh s); [injection Hx as <-; discriminate|left; eauto]. Qed.
Lemma nm_populate p : nm (populate_info C p).
Proof.
  intros s a s' H. unfold populate_info in H. inv H i s1 E1. apply deref_inv in E1 as [-> Hp]. destruct (i_info i) as [o|] eqn:Ei; [injection H as <- <-; apply kept_refl|]. inv H t s1 E1. injection E1 as <- <-. inv H w s1 E1. injection E1 as <- <-.
  inv H ph s1 E1. assert (s1 = set_tick (S (s_tick s)) s) as ->.
  { destruct (i_parent i) as [q|]; [|injection E1 as <- <-; reflexivity]. inv E1 qi s2 E2. apply deref_inv in E2 as [-> _]. injection E1 as <- <-. reflexivity. }
  unfold modify in H. cbn [s_heap set_tick] in H. rewrite Hp in H. injection H as <- <-. split; [reflexivity|]. intros x j o Hx Ej. cbn [s_heap set_heap s_nodes set_tick] in *. unfold nupd in Hx. destruct (x =? p) eqn:Z; [|left; eauto]. right.
  injection Hx as <-. cbn in Ej. injection Ej as <-. repeat split; reflexivity.
Qed.
Lemma nm_attach p h : nm (attach_new C p None h).
Proof. unfold attach_new. nl (first [apply nm_alloc|apply nm_find|apply nm_link|apply nm_populate]). Qed.
Lemma nm_add : forall fuel p send h, nm (add_to_storage C fuel p None send false h).
Proof.
  induction fuel as [|fuel IH]; intros p send h; cbn [add_to_storage]; [n1|].
  assert (LOOP : forall l, nm ((fix loop (l : list path) : M unit := match l with [] => ret tt | e :: l' => bind (add_to_storage C fuel e None send false 0) (fun _ => loop l') end) l)).
  { induction l as [|e l IHl]; [n1|]. n1; [apply IH|exact IHl]. }
  nl (first [apply nm_find|apply nm_attach|apply nm_watch|apply nm_maps|apply LOOP|apply nm_unlink|apply nm_free]).
Qed.
Lemma enumerate_named fuel pu w s : enumerate C fuel (fs_init pu w) = Ret (tt, s) -> all_named s /\ s_nodes s = w.
Proof.
  intros E. assert (N : nm (enumerate C fuel)) by (unfold enumerate; nl (apply nm_add)). destruct (N _ _ _ E) as [A B]. split; [|exact A]. intros x i o H F. destruct (B x i o H F) as [(j & J & _)|Z]; [discriminate|rewrite A; exact Z].
Qed.
Lemma nm_handle_ref h : nm (handle_ref h).
Proof. intros s a s' E0. unfold handle_ref in E0. destruct (aget h (s_handles s)); injection E0 as <- <-; apply kept_same; reflexivity. Qed.
(** a notification that something is there now *)
Lemma nm_create fuel wd n : nm (handle_fs_create C fuel wd n).
Proof. unfold handle_fs_create. nl (first [apply nm_handle_ref|apply nm_add]). Qed.
Lemma nm_note fuel wd ck k n s s' : k = NCreate \/ k = NMovedTo -> s_cache s = None -> inotify_event C fuel (Some (mk_ev k wd ck (Some n))) s = Ret (tt, s') -> kept s s'.
Proof.
  intros K SC E. unfold inotify_event in E. inv E c s1 E1. injection E1 as <- <-. rewrite SC in E. cbn [ev_name ev_kind ev_wd ev_cookie] in E. inv E u s1 E1. injection E1 as _ <-.
  destruct K as [->| ->]; [exact (nm_create _ _ _ _ _ _ E)|]. inv E c s1 E1. injection E1 as <- <-. rewrite SC in E. exact (nm_create _ _ _ _ _ _ E).
Qed.
End Named.
