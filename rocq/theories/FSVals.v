(** What the operations of the storage do to the object info of the objects that exist. *)
From Verif Require Import Base AList Wire FS FSPath FSTree FSLogic FSSpec FSAnn.

Section Vals.
Variables (C : conf) (b : N) (t0 : nat) (Ex : ptr -> option objinfo -> option objinfo -> Prop).
Hypothesis Ex_refl : forall p x, Ex p x x.
Hypothesis Ex_trans : forall p x y z, Ex p x y -> Ex p y z -> Ex p x z.
Hypothesis Ex_none : forall p y, Ex p None y.
(** the items at addresses from [b] on are new: their handles were given out from [t0] on *)
Definition newer (s : fs) : Prop := b <= s_fresh s /\ (t0 <= s_tick s)%nat /\
  forall p i, s_heap s p = Some i -> b <= p -> i_handle i = 0 \/ exists t, (t0 <= t < s_tick s)%nat /\ i_handle i = c_handle C t.
(** an item that was there is the same, is gone, or has changed its info as allowed *)
Definition since (s s' : fs) : Prop := forall p, p < b -> match s_heap s p with
  | None => s_heap s' p = None
  | Some i => s_heap s' p = None \/ exists j, s_heap s' p = Some j /\ i_handle j = i_handle i /\ i_puoid j = i_puoid i /\ Ex p (i_info i) (i_info j) end.
Definition R (s s' : fs) : Prop := newer s -> newer s' /\ since s s' /\ exists l, s_events s' = l ++ s_events s.
Lemma since_refl s : since s s.
Proof. intros p _. destruct (s_heap s p) as [i|] eqn:E; [|reflexivity]. right. exists i. auto. Qed.
Lemma R_refl s : R s s.
Proof. intros H. split; [exact H|]. split; [apply since_refl|exists []; reflexivity]. Qed.
Lemma R_trans x y z : R x y -> R y z -> R x z.
Proof.
  intros H1 H2 N0. destruct (H1 N0) as (N1 & S1 & l1 & E1). destruct (H2 N1) as (N2 & S2 & l2 & E2). split; [exact N2|]. split; [|exists (l2 ++ l1); rewrite E2, E1, app_assoc; reflexivity].
  intros p L. specialize (S1 p L). specialize (S2 p L). destruct (s_heap x p) as [i|].
  - destruct S1 as [Z|(j & J1 & J2 & J3 & J4)]; [rewrite Z in S2; left; exact S2|]. rewrite J1 in S2. destruct S2 as [Z|(k & K1 & K2 & K3 & K4)]; [left; exact Z|]. right. exists k. repeat split; try congruence. eapply Ex_trans; eassumption.
  - rewrite S1 in S2. exact S2.
Qed.
Definition kr {A} (m : M A) : Prop := tr R m.
Lemma k_upd f : (forall s, s_heap (f s) = s_heap s /\ s_fresh (f s) = s_fresh s /\ s_tick (f s) = s_tick s /\ exists l, s_events (f s) = l ++ s_events s) -> kr (upd f).
Proof.
  intros H. apply tr_upd. intros s (N1 & N2 & N3). destruct (H s) as (A & B & D & E). split; [unfold newer; rewrite A, B, D; auto|]. split; [|exact E]. intros p L. rewrite A. exact (since_refl s p L).
Qed.
Lemma k_tick : kr tick.
Proof.
  intros s a s' E. injection E as <- <-. intros (N1 & N2 & N3). split; [|split; [exact (since_refl s)|exists []; reflexivity]]. split; [exact N1|]. split; [cbn; lia|]. intros p i Hp L. destruct (N3 p i Hp L) as [Z|(t & T1 & T2)]; [auto|]. right. exists t. split; [cbn; lia|exact T2].
Qed.
Lemma k_mod p f : (forall i, i_handle (f i) = i_handle i /\ (b <= p \/ i_puoid (f i) = i_puoid i /\ Ex p (i_info i) (i_info (f i)))) -> kr (modify p f).
Proof.
  intros H s a s' E. unfold modify in E. destruct (s_heap s p) as [i|] eqn:Hp; [|discriminate]. injection E as <- <-. intros (N1 & N2 & N3). destruct (H i) as [A B]. split; [|split; [|exists []; reflexivity]].
  - split; [exact N1|]. split; [exact N2|]. intros q j. cbn [s_heap set_heap]. unfold nupd. destruct (N.eqb_spec q p) as [->|Z]; [|exact (N3 q j)]. intros [= <-] L. rewrite A. exact (N3 p i Hp L).
  - intros q L. cbn [s_heap set_heap]. unfold nupd. destruct (N.eqb_spec q p) as [->|Z]; [|exact (since_refl s q L)]. rewrite Hp. right. exists (f i). split; [reflexivity|]. split; [exact A|]. destruct B as [B|B]; [lia|exact B].
Qed.
Lemma k_modify p f : (forall i, i_handle (f i) = i_handle i /\ i_puoid (f i) = i_puoid i /\ Ex p (i_info i) (i_info (f i))) -> kr (modify p f).
Proof. intros H. apply k_mod. intros i. destruct (H i) as (A & B & D). auto. Qed.
Lemma k_free p : kr (free p).
Proof.
  apply tr_upd. intros s (N1 & N2 & N3). split; [|split; [|exists []; reflexivity]].
  - split; [exact N1|]. split; [exact N2|]. intros q j. cbn [s_heap set_heap]. unfold nupd. destruct (q =? p); [discriminate|exact (N3 q j)].
  - intros q L. cbn [s_heap set_heap]. unfold nupd. destruct (q =? p); [destruct (s_heap s q); auto|exact (since_refl s q L)].
Qed.
Lemma k_alloc {A} i (k : ptr -> M A) : i_handle i = 0 -> (forall me, b <= me -> kr (k me)) -> kr (bind (alloc i) k).
Proof.
  intros Hi H s a s' E NW. unfold bind, alloc in E. pose proof NW as (N1 & N2 & N3). refine (R_trans s _ s' _ (H (s_fresh s) N1 _ a s' E) NW). intros _. split; [|split; [|exists []; reflexivity]].
  - split; [cbn; lia|]. split; [exact N2|]. intros q j. cbn [s_heap set_heap set_fresh]. unfold nupd. destruct (N.eqb_spec q (s_fresh s)) as [->|Z]; [|exact (N3 q j)]. intros [= <-] _. left. exact Hi.
  - intros q L. cbn [s_heap set_heap set_fresh]. unfold nupd. destruct (N.eqb_spec q (s_fresh s)) as [->|Z]; [lia|exact (since_refl s q L)].
Qed.
Lemma k_handle_ref h : kr (handle_ref h).
Proof.
  intros s a s' E. unfold handle_ref in E. destruct (aget h (s_handles s)); injection E as <- <-; [apply R_refl|]. intros NW. split; [exact NW|]. split; [exact (since_refl s)|exists []; reflexivity].
Qed.
Definition k_bind := @tr_bind R R_trans.
Ltac k1 := unfold kr; lazymatch goal with
  | |- tr R (bind (alloc _) _) => apply k_alloc; [reflexivity|intros ? ?]
  | |- tr R (bind _ _) => apply k_bind; [|intros ?]
  | |- tr R (ret _) => apply (@tr_ret R R_refl)
  | |- tr R (get _) => apply (@tr_get R R_refl)
  | |- tr R (has_handle _) => apply (@tr_get R R_refl)
  | |- tr R (handle_value _) => apply (@tr_get R R_refl)
  | |- tr R (handle_ref _) => apply k_handle_ref
  | |- tr R (deref _) => apply (@tr_deref R R_refl)
  | |- tr R (deref_opt _) => apply (tr_deref_opt R R_refl)
  | |- tr R (info_of _) => apply (tr_info R R_refl)
  | |- tr R crash => apply (@tr_crash R)
  | |- tr R give_up => apply (@tr_giveup R)
  | |- tr R tick => apply k_tick
  | |- tr R (free _) => apply k_free
  | |- tr R (when _ _) => apply (tr_when R R_refl)
  | |- tr R (emit ?e ?ps) => apply k_upd; intros; split; [reflexivity|split; [reflexivity|split; [reflexivity|exists [(e, ps)]; reflexivity]]]
  | |- tr R (upd _) => apply k_upd; intros; split; [reflexivity|split; [reflexivity|split; [reflexivity|exists []; reflexivity]]]
  | |- tr R (modify _ _) => apply k_modify; intros; cbn; now auto
  | |- tr R (match ?x with _ => _ end) => destruct x
  end.
Ltac kx := repeat k1.
Tactic Notation "kl" tactic3(t) := repeat first [t | k1].
Lemma k_fails : kr (fails C). Proof. unfold fails. kx. Qed.
Lemma k_rename x y : kr (sys_rename C x y). Proof. unfold sys_rename. kl (apply k_fails). Qed.
Lemma k_rmdir x : kr (sys_rmdir C x). Proof. unfold sys_rmdir. kl (apply k_fails). Qed.
Lemma k_remove x : kr (sys_remove C x). Proof. unfold sys_remove. kl (apply k_fails). Qed.
Lemma k_open x : kr (sys_open_rw C x). Proof. unfold sys_open_rw. kl (apply k_fails). Qed.
Lemma k_create_file p i : kr (create_file C p i). Proof. unfold create_file. kl (first [apply k_fails|apply k_open]). Qed.
Lemma k_create_dir p : kr (create_directory C p). Proof. unfold create_directory. kl (apply k_fails). Qed.
Lemma k_link c p : kr (link_child c p). Proof. unfold link_child. kx. Qed.
Lemma k_find_pred f : forall i c, kr (find_pred f i c). Proof. induction f; intros i c; destruct i; cbn [find_pred]; kl (apply IHf). Qed.
Lemma k_unlink c : kr (unlink_child c). Proof. unfold unlink_child. kl (apply k_find_pred). Qed.
Lemma k_find p : kr (find_by_path p). Proof. unfold find_by_path. kx. Qed.
Lemma Ex_some p i x : i_info i = None -> Ex p (i_info i) x.
Proof. intros ->. apply Ex_none. Qed.
Lemma k_populate p : kr (populate_info C p).
Proof.
  intros s a s' E. unfold populate_info in E. inv E i s1 E1. apply deref_inv in E1 as [-> Hp]. destruct (i_info i) eqn:EI; [injection E as <- <-; apply R_refl|].
  inv E t s1 E1. inv E w s2 E2. inv E ph s3 E3. apply (R_trans s s1); [exact (k_tick _ _ _ E1)|]. unfold tick in E1. injection E1 as _ <-. unfold get in E2. injection E2 as _ <-.
  assert (s3 = set_tick (S (s_tick s)) s) as ->. { destruct (i_parent i); [|injection E3 as _ <-; reflexivity]. inv E3 qi s4 E4. apply deref_inv in E4 as [-> _]. injection E3 as _ <-. reflexivity. }
  unfold modify in E. cbn [s_heap set_tick] in E. rewrite Hp in E. injection E as <- <-. intros (N1 & N2 & N3). split; [|split; [|exists []; reflexivity]].
  - split; [exact N1|]. split; [exact N2|]. intros q j. cbn [s_heap set_heap set_tick]. unfold nupd. destruct (N.eqb_spec q p) as [->|Z]; [|exact (N3 q j)]. intros [= <-] L. exact (N3 p i Hp L).
  - intros q L. cbn [s_heap set_heap set_tick]. unfold nupd. destruct (N.eqb_spec q p) as [->|Z]; [|exact (since_refl s q L)]. rewrite Hp. right. eexists. split; [reflexivity|]. split; [reflexivity|]. split; [reflexivity|]. rewrite EI. apply Ex_none.
Qed.
Lemma k_watch p : kr (add_watch C p). Proof. unfold add_watch, sys_add_watch. kx. Qed.
Lemma k_unwatch p : kr (remove_watch p). Proof. unfold remove_watch. kx. Qed.
Lemma k_watch_rec f : (forall p, kr (f p)) -> forall n p, kr (watch_rec n f p).
Proof.
  intros Hf. induction n; intros p; cbn [watch_rec]; kl (apply Hf).
  match goal with |- tr R (?F _ _) => assert (H : forall k x, tr R (F k x)); [|apply H] end. induction k; intros [q|]; kl (first [apply IHn|apply IHk]).
Qed.
Lemma k_adjust : forall f anc p, kr (adjust_moved f anc p).
Proof.
  induction f; intros anc p; cbn [adjust_moved]; [kx|]. kx. generalize (i_first a). generalize f at 2 as k. induction k; intros [q|]; kl (first [apply IHf|apply IHk]).
Qed.
Lemma k_children f anc : forall k itr, kr (adjust_children f k anc itr).
Proof. induction k; intros [q|]; cbn [adjust_children]; kl (first [apply k_adjust|apply IHk]). Qed.
Lemma k_name n q : kr (file_name_valid n q). Proof. unfold file_name_valid. kx. Qed.
Lemma k_read_loop : forall f d p n acc, kr (read_loop C f d p n acc).
Proof. induction f; intros d p n acc; cbn [read_loop]; kl (apply IHf). Qed.
Lemma k_read h n off : kr (read_data C h n off). Proof. unfold read_data. kl (first [apply k_fails|apply k_read_loop]). Qed.
Lemma k_write_loop : forall f bs, kr (write_loop C f bs).
Proof. induction f; intros [|x bs]; cbn [write_loop]; kl (apply IHf). Qed.
Lemma k_write h d x y : kr (write_data C h d x y). Proof. unfold write_data. kl (first [apply k_fails|apply k_open|apply k_write_loop]). Qed.
Lemma k_info h : kr (get_object_info C h). Proof. unfold get_object_info. kl (apply k_populate). Qed.
Lemma k_list_children : forall f itr fmt, kr (list_children f itr fmt). Proof. induction f; intros [p|] fmt; cbn [list_children]; kl (apply IHf). Qed.
Lemma k_list_all fmt : forall l, kr (list_all l fmt). Proof. induction l as [|[h v] l IH]; cbn [list_all]; kl (apply IH). Qed.
Lemma k_handles fmt a : kr (get_object_handles fmt a). Proof. unfold get_object_handles. kl (first [apply k_list_all|apply k_list_children]). Qed.
Lemma k_any_path p : forall l, kr (any_path l p). Proof. induction l; cbn [any_path]; kl (apply IHl). Qed.
(** *** New items *)
Lemma k_new_handle me h p : b <= me -> kr (if peqb p (c_root C) then modify me (it_handle 0) else if h =? 0 then t <- tick ;; modify me (it_handle (c_handle C t)) else modify me (it_handle h)) \/ h <> 0.
Proof.
  intros L. destruct (N.eq_dec h 0) as [->|Z]; [left|right; exact Z]. change (0 =? 0) with true. cbv iota.
  assert (MH : forall x s a s', (x = 0 \/ exists t, (t0 <= t < s_tick s)%nat /\ x = c_handle C t) -> modify me (it_handle x) s = Ret (a, s') -> R s s').
  { intros x s a s' HX E (N1 & N2 & N3). unfold modify in E. destruct (s_heap s me) as [i|] eqn:Hp; [|discriminate]. injection E as <- <-. split; [|split; [|exists []; reflexivity]].
    - split; [exact N1|]. split; [exact N2|]. intros q j. cbn [s_heap set_heap]. unfold nupd. destruct (N.eqb_spec q me) as [->|Z]; [|exact (N3 q j)]. intros [= <-] _. exact HX.
    - intros q Lq. cbn [s_heap set_heap]. unfold nupd. destruct (N.eqb_spec q me) as [->|Z]; [lia|exact (since_refl s q Lq)]. }
  destruct (peqb p (c_root C)); [intros s a s' E; eapply MH; [left; reflexivity|exact E]|].
  intros s a s' E NW. inv E t s1 E1. pose proof (k_tick _ _ _ E1) as K. refine (R_trans _ _ _ K _ NW). unfold tick in E1. injection E1 as <- <-. destruct NW as (_ & N2 & _). eapply MH; [|exact E]. right. exists (s_tick s). split; [cbn; lia|reflexivity].
Qed.
Lemma k_attach {A} p info (k : ptr -> M A) : (forall me, b <= me -> kr (k me)) -> kr (bind (attach_new C p info 0) k).
Proof.
  intros H s a s' E. inv E me s1 E1. unfold attach_new in E1. assert (X : kr (me0 <- alloc (new_item p) ;; _ <- (par <- find_by_path (parent_of p) ;; root <- get s_root ;; link_child (Some me0) (match par with Some q => Some q | None => root end) ;;;
    (match info with Some o => modify me0 (it_info (Some (oi_set_storage (c_sid C) o))) | None => populate_info C me0 end) ;;;
    (if peqb p (c_root C) then modify me0 (it_handle 0) else if 0 =? 0 then t <- tick ;; modify me0 (it_handle (c_handle C t)) else modify me0 (it_handle 0))) ;; k me0)).
  { apply k_alloc; [reflexivity|]. intros m Lm. apply k_bind; [|intros _; apply H; exact Lm]. assert (NH : kr (if peqb p (c_root C) then modify m (it_handle 0) else if 0 =? 0 then t <- tick ;; modify m (it_handle (c_handle C t)) else modify m (it_handle 0))) by (destruct (k_new_handle m 0 p Lm) as [Z|Z]; [exact Z|contradiction]).
    kl (first [exact NH|apply k_find|apply k_link|apply k_populate|lazymatch goal with |- tr R (modify _ _) => apply k_mod; intros; split; [reflexivity|left; exact Lm] end]). }
  apply (X s a s'). inv E1 m s2 E2. unfold bind at 1. rewrite E2. inv E1 par s3 E3. inv E1 root s4 E4. inv E1 u5 s5 E5. inv E1 u6 s6 E6. inv E1 u7 s7 E7. injection E1 as <- <-.
  unfold bind at 1. unfold bind at 1. rewrite E3. unfold bind at 1. rewrite E4. unfold bind at 1. rewrite E5. unfold bind at 1. rewrite E6. rewrite E7. exact E.
Qed.
Lemma k_maps p : b <= p -> kr (add_to_maps C p).
Proof. intros L. unfold add_to_maps. kl (first [match goal with |- tr R (modify _ _) => apply k_mod; intros; split; [reflexivity|left; exact L] end]). Qed.
Ltac fixl IHt := match goal with |- tr R (?F ?x) => is_fix F; let H := fresh in assert (H : forall l, tr R (F l)); [let l := fresh in intros l; induction l; repeat first [assumption|IHt|k1]|apply H] end.
Lemma k_add : forall f p i x y, kr (add_to_storage C f p i x y 0).
Proof.
  induction f; intros p i x y; cbn [add_to_storage]; [intros s a s' E; discriminate|].
  kl (first [apply IHf|apply k_attach; intros me Lme|apply k_maps; assumption|apply k_find|apply k_create_file|apply k_create_dir|apply k_watch|apply k_unlink|fixl ltac:(apply IHf)]).
Qed.
Lemma k_additem f i : kr (add_item C f i). Proof. unfold add_item. kl (apply k_add). Qed.
Lemma k_remove_st h x : kr (remove_from_storage h x).
Proof. unfold remove_from_storage. kl (first [apply k_unwatch|apply k_unlink]). Qed.
Lemma k_delete : forall f h x y, kr (delete_helper C f h x y).
Proof.
  induction f; intros h x y; cbn [delete_helper]; [intros s a s' E; discriminate|].
  kl (first [apply IHf|apply k_remove_st|apply k_rmdir|apply k_remove|fixl ltac:(apply IHf)]).
Qed.
Lemma k_deleteitem f l h fmt : kr (delete_item C f l h fmt).
Proof.
  unfold delete_item. destruct (h =? ALL); [|apply k_delete]. apply k_bind; [apply (@tr_get R R_refl)|]. intros copy.
  match goal with |- tr R (?F _ _ _ _) => assert (H : forall l a b c, tr R (F l a b c)); [|apply H] end.
  clear l. induction l as [|k l IH]; intros resp some failed; kl (first [apply IH|apply k_delete]).
Qed.
Lemma k_copy_loop src dst : forall f d off rem res, kr (copy_loop C f d src dst off rem res).
Proof. induction f; intros d off rem res; cbn [copy_loop]; kl (first [apply IHf|apply k_deleteitem|apply k_read|apply k_write]). Qed.
Lemma k_copy_data f x y : kr (copy_data C f x y). Proof. unfold copy_data. kl (first [apply k_copy_loop|apply k_info]). Qed.
Lemma k_copy : forall f h q x, kr (copy_object C f h q x).
Proof.
  induction f; intros h q x; cbn [copy_object]; [intros s a s' E; discriminate|].
  kl (first [apply IHf|apply k_additem|apply k_copy_data|apply k_handles|apply k_any_path|apply k_watch|apply k_unwatch]).
  match goal with |- tr R (?F _ _) => assert (H : forall k x, tr R (F k x)); [|apply H] end.
  induction k as [|k IHk]; intros [z|]; kl (first [apply IHf|apply IHk]).
Qed.
Lemma k_fs_delete f wd n : kr (handle_fs_delete C f wd n). Proof. unfold handle_fs_delete. kl (apply k_delete). Qed.
Lemma k_fs_create f wd n : kr (handle_fs_create C f wd n). Proof. unfold handle_fs_create. kl (apply k_add). Qed.
(** *** Operations that change the info of their object *)
Lemma k_reinfo p i o s a s' : s_heap s p = Some i -> Ex p (i_info i) (Some o) -> modify p (it_info (Some o)) s = Ret (a, s') -> R s s'.
Proof.
  intros Hp HX E. unfold modify in E. rewrite Hp in E. injection E as <- <-. intros (N1 & N2 & N3). split; [|split; [|exists []; reflexivity]].
  - split; [exact N1|]. split; [exact N2|]. intros q j. cbn [s_heap set_heap]. unfold nupd. destruct (N.eqb_spec q p) as [->|Z]; [|exact (N3 q j)]. intros [= <-] L. exact (N3 p i Hp L).
  - intros q L. cbn [s_heap set_heap]. unfold nupd. destruct (N.eqb_spec q p) as [->|Z]; [|exact (since_refl s q L)]. rewrite Hp. right. eexists. split; [reflexivity|]. auto.
Qed.
Lemma k_move tgt f h q ph s a s' : (forall x, Ex tgt x (match x with Some o => Some (oi_set_parent q o) | None => None end)) ->
  (forall p, aget h (s_handles s) = Some (Some p) -> p = tgt) -> move_object C f h q ph s = Ret (a, s') -> R s s'.
Proof.
  intros HX HH E. unfold move_object in E. inv E b1 s1 E1. injection E1 as _ <-. destruct (negb b1); [injection E as _ <-; apply R_refl|]. inv E b2 s1 E1. injection E1 as _ <-. destruct (negb b2); [injection E as _ <-; apply R_refl|].
  inv E v s1 E1. refine (R_trans _ _ _ (k_handle_ref h _ _ _ E1) _).
  assert (HV : v = Some tgt \/ v = None).
  { unfold handle_ref in E1. destruct (aget h (s_handles s)) as [[p|]|] eqn:Eh; injection E1 as <- <-; auto. rewrite (HH p eq_refl). auto. }
  clear E1 HH. destruct HV as [-> | ->]; match type of E with ?m _ = _ => assert (K : kr m); [|exact (K _ _ _ E)] end.
  - kl (first [apply k_rename|apply k_unlink|apply k_link|apply k_children|apply k_watch_rec; intros; first [apply k_watch|apply k_unwatch]
      |match goal with |- tr R (modify _ (fun i => it_info _ i)) => apply k_modify; intros i; split; [reflexivity|split; [reflexivity|apply HX]] end]).
  - kx.
Qed.
Definition hold (s s' : fs) : Prop := s_heap s' = s_heap s.
Lemma hold_name n q : tr hold (file_name_valid n q).
Proof.
  intros s a s' E. unfold file_name_valid in E. destruct (_ || _); [injection E as _ <-; reflexivity|]. inv E i s1 E1. assert (s1 = s) as -> by (destruct q; [apply deref_inv in E1; apply E1|discriminate E1]). inv E k s2 E2. injection E2 as _ <-. injection E as _ <-. reflexivity.
Qed.
Lemma hold_rename x y : tr hold (sys_rename C x y).
Proof.
  unfold sys_rename, fails. repeat first [apply (@tr_bind hold ltac:(unfold hold; intros; congruence)); [|intros ?]|apply (@tr_get hold ltac:(reflexivity))|apply (@tr_ret hold ltac:(reflexivity))|apply tr_upd; intros; reflexivity
    |match goal with |- tr hold (match ?c with _ => _ end) => destruct c end|intros s a' s' E; injection E as _ <-; reflexivity].
Qed.
Lemma k_setname tgt f h n s a s' : (forall o, Ex tgt (Some o) (Some (oi_set_name n o))) ->
  (forall p, aget h (s_handles s) = Some (Some p) -> p = tgt) -> set_file_name C f h n s = Ret (a, s') -> R s s'.
Proof.
  intros HX HH E. unfold set_file_name in E. inv E v s1 E1. unfold handle_value, get in E1. injection E1 as <- <-. destruct (aget h (s_handles s)) as [[p|]|] eqn:Eh; [|injection E as _ <-; apply R_refl|injection E as _ <-; apply R_refl].
  specialize (HH p eq_refl). subst p. inv E i s1 E1. apply deref_inv in E1 as [-> Hp]. inv E ok s1 E1. refine (R_trans _ _ _ (k_name _ _ _ _ _ E1) _). pose proof (hold_name _ _ _ _ _ E1) as H1. unfold hold in H1. clear E1.
  destruct (negb ok); [injection E as _ <-; apply R_refl|]. inv E ok2 s2 E2. refine (R_trans _ _ _ (k_rename _ _ _ _ _ E2) _). pose proof (hold_rename _ _ _ _ _ E2) as H2. unfold hold in H2. clear E2. rewrite H1 in H2. clear s1 H1.
  inv E u s3 E3. injection E as _ <-. destruct ok2; cbn [when] in E3; [|injection E3 as _ <-; apply R_refl].
  inv E3 u4 s4 E4. injection E4 as _ <-. inv E3 u5 s5 E5. injection E5 as _ <-. inv E3 o s6 E6. apply info_inv in E6 as [-> Ho].
  match type of E3 with bind _ _ ?x = _ => set (sx := x) in E3; assert (RX : R s2 sx) by (intros NW; split; [exact NW|split; [exact (since_refl s2)|exists []; reflexivity]]); assert (HX2 : s_heap sx tgt = Some i) by (cbn; rewrite H2; exact Hp) end.
  refine (R_trans _ _ _ RX _). clearbody sx. clear RX H2. clear s2. inv E3 u7 s7 E7. assert (H7 : s_heap s7 tgt = Some (it_path (rev (match before_slash (rev (i_path i)) with Some r => slash :: r | None => [] end) ++ n) i)) by (unfold modify in E7; rewrite HX2 in E7; injection E7 as _ <-; cbn; apply nupd_eq).
  assert (K7 : R sx s7). { match type of E7 with modify ?p ?g _ = _ => assert (K : kr (modify p g)) by kx; exact (K _ _ _ E7) end. }
  refine (R_trans _ _ _ K7 _). inv E3 zz8 s8 E8. assert (K8 : R s7 s8). { eapply k_reinfo; [exact H7| |exact E8]. cbn [i_info it_path]. rewrite Ho. apply HX. }
  refine (R_trans _ _ _ K8 _). match type of E3 with ?m _ = _ => assert (K : kr m); [|exact (K _ _ _ E3)] end.
  kl (first [apply k_children|apply k_watch_rec; intros; first [apply k_watch|apply k_unwatch]]).
Qed.
Lemma k_truncate tgt h n s a s' : (forall o, Ex tgt (Some o) (Some (oi_set_size n o))) ->
  (forall p, aget h (s_handles s) = Some (Some p) -> p = tgt) -> truncate_item C h n s = Ret (a, s') -> R s s'.
Proof.
  intros HX HH E. unfold truncate_item in E. inv E b0 s1 E1. injection E1 as <- <-. destruct (negb _); [injection E as _ <-; apply R_refl|]. inv E v s1 E1. destruct v as [p|]; [|injection E as _ <-; exact (k_handle_ref _ _ _ _ E1)].
  assert (p = tgt /\ s1 = s) as [-> ->].
  { unfold handle_ref in E1. destruct (aget h (s_handles s)) as [v|] eqn:Eh; [injection E1 as -> <-|discriminate E1]. split; [apply HH; reflexivity|reflexivity]. }
  clear E1. inv E i s1 E1. apply deref_inv in E1 as [-> Hp]. destruct (i_info i) as [o|] eqn:Ho; [|injection E as _ <-; apply R_refl]. destruct (_ =? _); [injection E as _ <-; apply R_refl|].
  inv E fl s1 E1. refine (R_trans _ _ _ (k_fails _ _ _ E1) _). assert (H1 : s_heap s1 tgt = Some i) by (unfold fails in E1; inv E1 t s3 E3; injection E3 as _ <-; injection E1 as _ <-; exact Hp). clear E1.
  inv E w s2 E2. injection E2 as <- <-. destruct (node_at _ _) as [[d|]|]; try (injection E as _ <-; apply R_refl). destruct (_ || _); [injection E as _ <-; apply R_refl|].
  inv E u s3 E3. injection E3 as _ <-. inv E u4 s4 E4. injection E as _ <-. match type of E4 with _ ?x = _ => refine (R_trans _ x _ _ _) end.
  - intros NW. split; [exact NW|split; [exact (since_refl s1)|exists []; reflexivity]].
  - eapply k_reinfo; [exact H1| |exact E4]. rewrite Ho. apply HX.
Qed.
Lemma k_last tgt h x s a s' : (forall n o, Ex tgt (Some o) (Some (oi_set_size n o))) -> (x = Some tgt \/ x = None) ->
  (fo <- get s_file ;;
     (match fo with
      | Some _ =>
        upd (set_file None) ;;;
        i <- deref_opt x ;; o <- info_of i ;;
        w <- get s_nodes ;;
        match x with Some p => modify p (it_info (Some (oi_set_size (size_of (i_path i) w) o))) | None => crash end
      | None => ret tt
      end) ;;;
     upd (set_write h)) s = Ret (a, s') -> R s s'.
Proof.
  intros HX HV E. inv E fo s1 E1. injection E1 as <- <-. inv E u s1 E1. injection E as _ <-. match goal with |- R _ ?y => refine (R_trans _ s1 _ _ _) end; [|intros NW; split; [exact NW|split; [exact (since_refl s1)|exists []; reflexivity]]].
  destruct (s_file s); [|injection E1 as _ <-; apply R_refl]. inv E1 u2 s2 E2. injection E2 as _ <-. destruct x as [pp|]; [|inv E1 i s3 E3; discriminate E3]. destruct HV as [[= ->]|?]; [|discriminate].
  inv E1 i s2 E2. apply deref_inv in E2 as [-> Hp]. inv E1 o s3 E3. apply info_inv in E3 as [-> Ho]. inv E1 w s4 E4. injection E4 as <- <-.
  match type of E1 with _ ?y = _ => refine (R_trans _ y _ _ _) end; [intros NW; split; [exact NW|split; [exact (since_refl s)|exists []; reflexivity]]|]. eapply k_reinfo; [exact Hp| |exact E1]. rewrite Ho. apply HX.
Qed.
Lemma k_partial tgt h off bs x y s a s' : (forall n o, Ex tgt (Some o) (Some (oi_set_size n o))) ->
  (forall p, aget h (s_handles s) = Some (Some p) -> p = tgt) -> write_partial C h off bs x y s = Ret (a, s') -> R s s'.
Proof.
  intros HX HH E. unfold write_partial in E. inv E b0 s1 E1. injection E1 as <- <-. inv E v s1 E1.
  assert ((v = Some tgt \/ v = None) /\ R s s1) as [HV K1].
  { destruct (ahas h (s_handles s)); [|injection E1 as <- <-; split; [auto|apply R_refl]]. split; [|exact (k_handle_ref _ _ _ _ E1)]. unfold handle_ref in E1. destruct (aget h (s_handles s)) as [[p|]|] eqn:Eh; injection E1 as <- <-; auto. left. rewrite (HH p eq_refl). reflexivity. }
  clear E1 HH. refine (R_trans _ _ _ K1 _). clear K1. cbv zeta in E. inv E kc1 s2 E2.
  match type of E2 with ?m _ = _ => assert (K : kr m); [|refine (R_trans _ _ _ (K _ _ _ E2) _)] end.
  { kl (apply k_open). }
  clear K E2. inv E fo s3 E3. injection E3 as <- <-. inv E kc2 s3 E3. match type of E3 with ?m _ = _ => assert (K : kr m); [|refine (R_trans _ _ _ (K _ _ _ E3) _)] end.
  { kl (first [apply k_fails|apply k_write_loop]). }
  clear K E3. inv E u s4 E4. injection E as _ <-. destruct (negb (isok kc2) || y); [|injection E4 as _ <-; apply R_refl]. eapply k_last; [exact HX|exact HV|exact E4].
Qed.
(** *** Pieces of the notification handlers *)
Lemma k_inplace tgt fuel old new n mh : (forall x y, Ex tgt x y) -> kr (upd (fun s => set_paths (pupd (s_paths s) old None) s) ;;; modify tgt (it_path new) ;;; i <- deref tgt ;; o <- info_of i ;;
  modify tgt (it_info (Some (oi_set_name n o))) ;;; upd (fun s => set_paths (pupd (s_paths s) new (Some mh)) s) ;;; adjust_children fuel fuel new (i_first i) ;;;
  watch_rec fuel remove_watch tgt ;;; watch_rec fuel (add_watch C) tgt).
Proof.
  intros HX. kl (first [apply k_children|apply k_watch_rec; intros; first [apply k_watch|apply k_unwatch]|lazymatch goal with |- tr R (modify _ (it_info _)) => apply k_modify; intros; split; [reflexivity|split; [reflexivity|apply HX]] end]).
Qed.
Lemma k_forget tgt x : (forall x y, Ex tgt x y) -> kr (modify tgt (it_info x)).
Proof. intros HX. apply k_modify; intros; split; [reflexivity|split; [reflexivity|apply HX]]. Qed.
Lemma k_noticed q e : kr (modify q (it_events e)). Proof. kx. Qed.
End Vals.
