(** What the storage announces (C81): which events each operation emits. *)
From Verif Require Import Base AList Wire FS FSPath FSTree FSLogic FSAdd2 FSSpec.

(** the handle denotes an object *)
Definition has (s : fs) (h : N) : Prop := exists p, aget h (s_handles s) = Some (Some p).
(** the handle of the item at an address *)
Definition hof (s : fs) (p : ptr) : option N := match s_heap s p with Some i => Some (i_handle i) | None => None end.

Section Tr.
Variable R : fs -> fs -> Prop.
Definition tr {A} (m : M A) : Prop := forall s a s', m s = Ret (a, s') -> R s s'.
Hypothesis R_refl : forall s, R s s.
Hypothesis R_trans : forall a b c, R a b -> R b c -> R a c.
Lemma tr_ret {A} (a : A) : tr (ret a). Proof. intros s x s' E. injection E as <- <-. apply R_refl. Qed.
Lemma tr_bind {A B} (m : M A) (f : A -> M B) : tr m -> (forall a, tr (f a)) -> tr (bind m f).
Proof. intros H1 H2 s b s' E. unfold bind in E. destruct (m s) as [[a s1]| |] eqn:E1; try discriminate. exact (R_trans _ _ _ (H1 s a s1 E1) (H2 a s1 b s' E)). Qed.
Lemma tr_get {A} (g : fs -> A) : tr (get g). Proof. intros s x s' E. injection E as <- <-. apply R_refl. Qed.
Lemma tr_crash {A} : tr (@crash A). Proof. intros s x s' E. discriminate. Qed.
Lemma tr_giveup {A} : tr (@give_up A). Proof. intros s x s' E. discriminate. Qed.
Lemma tr_deref p : tr (deref p). Proof. intros s x s' E. unfold deref in E. destruct (s_heap s p); [|discriminate]. injection E as <- <-. apply R_refl. Qed.
Lemma tr_deref_opt p : tr (deref_opt p). Proof. destruct p; [apply tr_deref|apply tr_crash]. Qed.
Lemma tr_info i : tr (info_of i). Proof. unfold info_of. destruct (i_info i); [apply tr_ret|apply tr_crash]. Qed.
Lemma tr_when (b : bool) m : tr m -> tr (when b m). Proof. destruct b; intros H; [exact H|apply tr_ret]. Qed.
Lemma tr_upd f : (forall s, R s (f s)) -> tr (upd f). Proof. intros H s x s' E. injection E as <- <-. apply H. Qed.
End Tr.

(** nothing announced, the same objects *)
Record still (s s' : fs) : Prop := {
  st_ev : s_events s' = s_events s;
  st_has : forall h, has s' h <-> has s h;
  st_tick : (s_tick s <= s_tick s')%nat;
  st_fresh : s_fresh s <= s_fresh s';
  st_hof : forall p, p < s_fresh s -> hof s' p = hof s p }.
Lemma still_refl s : still s s. Proof. constructor; try reflexivity. Qed.
Lemma still_trans a b c : still a b -> still b c -> still a c.
Proof. intros [] []. constructor; [congruence| |lia|lia|]. { intros h. rewrite st_has1. auto. } { intros p Hp. rewrite st_hof1 by lia. auto. } Qed.
Definition quiet {A} (m : M A) : Prop := tr still m.
Lemma q_upd f : (forall s, s_events (f s) = s_events s /\ s_handles (f s) = s_handles s /\ s_tick (f s) = s_tick s /\ s_fresh (f s) = s_fresh s /\ s_heap (f s) = s_heap s) -> quiet (upd f).
Proof. intros H. apply tr_upd. intros s. destruct (H s) as (A & B & D & E & F). constructor; [exact A| |lia|lia|]. { intros h. unfold has. rewrite B. reflexivity. } { intros p _. unfold hof. rewrite F. reflexivity. } Qed.
Lemma q_tick : quiet tick.
Proof. intros s a s' E. injection E as <- <-. constructor; cbn; try reflexivity. lia. Qed.
Lemma q_modify p f : (forall i, i_handle (f i) = i_handle i) -> quiet (modify p f).
Proof.
  intros H s a s' E. unfold modify in E. destruct (s_heap s p) as [i|] eqn:Hp; [|discriminate]. injection E as <- <-. constructor; cbn; try reflexivity.
  intros q _. unfold hof. cbn [s_heap set_heap]. unfold nupd. destruct (q =? p) eqn:Eq; [|reflexivity]. apply N.eqb_eq in Eq. subst q. rewrite Hp, H. reflexivity.
Qed.
Lemma q_handle_ref h : quiet (handle_ref h).
Proof.
  intros s a s' E. unfold handle_ref in E. destruct (aget h (s_handles s)) eqn:Eh; injection E as <- <-; [apply still_refl|]. constructor; cbn; try reflexivity.
  intros k. unfold has. cbn [s_handles set_handles]. rewrite aget_aset. destruct (k =? h) eqn:Ek; [|reflexivity]. apply N.eqb_eq in Ek. subst k. split; intros [p Hp]; congruence.
Qed.
Definition q_ret := @tr_ret still still_refl.
Definition q_bind := @tr_bind still still_trans.
Definition q_get := @tr_get still still_refl.
Definition q_deref := @tr_deref still still_refl.
Definition q_crash := @tr_crash still.
Definition q_giveup := @tr_giveup still.
Ltac q1 := unfold quiet; lazymatch goal with
  | |- tr still (bind _ _) => apply q_bind; [|intros ?]
  | |- tr still (ret _) => apply q_ret
  | |- tr still (get _) => apply q_get
  | |- tr still (has_handle _) => apply q_get
  | |- tr still (handle_value _) => apply q_get
  | |- tr still (handle_ref _) => apply q_handle_ref
  | |- tr still (deref _) => apply q_deref
  | |- tr still (deref_opt _) => apply (tr_deref_opt still still_refl)
  | |- tr still (info_of _) => apply (tr_info still still_refl)
  | |- tr still crash => apply q_crash
  | |- tr still give_up => apply q_giveup
  | |- tr still tick => apply q_tick
  | |- tr still (when _ _) => apply (tr_when still still_refl)
  | |- tr still (upd _) => apply q_upd; intros; cbn; auto 10
  | |- tr still (modify _ _) => apply q_modify; intros; try reflexivity
  | |- tr still (match ?x with _ => _ end) => destruct x
  end.
Ltac qx := repeat q1.
Tactic Notation "ql" tactic3(t) := repeat first [t | q1].

Section Quiet.
Variable C : conf.
Lemma q_fails : quiet (fails C). Proof. unfold fails. qx. Qed.
Lemma q_rename a b : quiet (sys_rename C a b). Proof. unfold sys_rename. ql (apply q_fails). Qed.
Lemma q_rmdir a : quiet (sys_rmdir C a). Proof. unfold sys_rmdir. ql (apply q_fails). Qed.
Lemma q_remove a : quiet (sys_remove C a). Proof. unfold sys_remove. ql (apply q_fails). Qed.
Lemma q_open a : quiet (sys_open_rw C a). Proof. unfold sys_open_rw. ql (apply q_fails). Qed.
Lemma q_create_file p i : quiet (create_file C p i). Proof. unfold create_file. ql (first [apply q_fails|apply q_open]). Qed.
Lemma q_create_dir p : quiet (create_directory C p). Proof. unfold create_directory. ql (apply q_fails). Qed.
Lemma q_link c p : quiet (link_child c p). Proof. unfold link_child. qx. Qed.
Lemma q_find_pred f : forall i c, quiet (find_pred f i c). Proof. induction f; intros i c; destruct i; cbn [find_pred]; ql (apply IHf). Qed.
Lemma q_unlink c : quiet (unlink_child c). Proof. unfold unlink_child. ql (apply q_find_pred). Qed.
Lemma q_find p : quiet (find_by_path p). Proof. unfold find_by_path. qx. Qed.
Lemma q_populate p : quiet (populate_info C p). Proof. unfold populate_info. qx. Qed.
Lemma q_watch p : quiet (add_watch C p). Proof. unfold add_watch, sys_add_watch. qx. Qed.
Lemma q_unwatch p : quiet (remove_watch p). Proof. unfold remove_watch. qx. Qed.
Lemma q_watch_loop f n : (forall q, quiet (watch_rec n f q)) -> forall k itr, quiet ((fix loop (k : nat) (itr : option ptr) : M unit :=
         match itr with
         | None => ret tt
         | Some q => match k with
                     | O => give_up
                     | S k' => watch_rec n f q ;;; qi <- deref q ;; loop k' (i_next qi)
                     end
         end) k itr).
Proof. intros H. induction k; intros [q|]; ql (first [apply H|apply IHk]). Qed.
Lemma q_watch_rec f : (forall p, quiet (f p)) -> forall n p, quiet (watch_rec n f p).
Proof. intros Hf. induction n; intros p; cbn [watch_rec]; ql (first [apply Hf|apply q_watch_loop; assumption]). Qed.
Lemma q_adjust : forall f anc p, quiet (adjust_moved f anc p).
Proof.
  induction f; intros anc p; cbn [adjust_moved]; [qx|]. qx. generalize (i_first a). generalize f at 2 as k. induction k; intros [q|]; ql (first [apply IHf|apply IHk]).
Qed.
Lemma q_children f anc : forall k itr, quiet (adjust_children f k anc itr).
Proof. induction k; intros [q|]; cbn [adjust_children]; ql (first [apply q_adjust|apply IHk]). Qed.
Lemma q_move f h q b : quiet (move_object C f h q b).
Proof. unfold move_object. ql (first [apply q_rename|apply q_unlink|apply q_link|apply q_children|apply q_watch_rec; [intros; first [apply q_watch|apply q_unwatch]]]). Qed.
Lemma q_name n q : quiet (file_name_valid n q). Proof. unfold file_name_valid. qx. Qed.
Lemma q_setname f h n : quiet (set_file_name C f h n).
Proof. unfold set_file_name. ql (first [apply q_name|apply q_rename|apply q_children|apply q_watch_rec; [intros; first [apply q_watch|apply q_unwatch]]]). Qed.
Lemma q_read_loop : forall f d p n acc, quiet (read_loop C f d p n acc).
Proof. induction f; intros d p n acc; cbn [read_loop]; ql (apply IHf). Qed.
Lemma q_read h n off : quiet (read_data C h n off). Proof. unfold read_data. ql (first [apply q_fails|apply q_read_loop]). Qed.
Lemma q_truncate h n : quiet (truncate_item C h n). Proof. unfold truncate_item. ql (apply q_fails). Qed.
Lemma q_write_loop : forall f bs, quiet (write_loop C f bs).
Proof. induction f; intros [|b bs]; cbn [write_loop]; ql (apply IHf). Qed.
Lemma q_write h d a b : quiet (write_data C h d a b). Proof. unfold write_data. ql (first [apply q_fails|apply q_open|apply q_write_loop]). Qed.
Lemma q_partial h off bs a b : quiet (write_partial C h off bs a b). Proof. unfold write_partial. ql (first [apply q_fails|apply q_open|apply q_write_loop]). Qed.
Lemma q_info h : quiet (get_object_info C h). Proof. unfold get_object_info. ql (apply q_populate). Qed.
Lemma q_list_children : forall f itr fmt, quiet (list_children f itr fmt). Proof. induction f; intros [p|] fmt; cbn [list_children]; ql (apply IHf). Qed.
Lemma q_list_all fmt : forall l, quiet (list_all l fmt). Proof. induction l as [|[h v] l IH]; cbn [list_all]; ql (apply IH). Qed.
Lemma q_handles fmt a : quiet (get_object_handles fmt a). Proof. unfold get_object_handles. ql (first [apply q_list_all|apply q_list_children]). Qed.
Lemma q_any_path p : forall l, quiet (any_path l p). Proof. induction l; cbn [any_path]; ql (apply IHl). Qed.
End Quiet.

(** *** Operations of the host announce nothing *)
Definition mute (s s' : fs) : Prop := s_events s' = s_events s.
Lemma mute_refl s : mute s s. Proof. reflexivity. Qed.
Lemma mute_trans a b c : mute a b -> mute b c -> mute a c. Proof. unfold mute. congruence. Qed.
Definition silent {A} (m : M A) : Prop := tr mute m.
Lemma m_q {A} (m : M A) : quiet m -> silent m. Proof. intros H s a s' E. exact (st_ev _ _ (H s a s' E)). Qed.
Definition m_bind := @tr_bind mute mute_trans.
Ltac m1 := unfold silent; lazymatch goal with
  | |- tr mute (bind _ _) => apply m_bind; [|intros ?]
  | |- tr mute (when false _) => cbn [when]
  | |- tr mute (when _ _) => apply (tr_when mute mute_refl)
  | |- tr mute (upd _) => apply tr_upd; intros; reflexivity
  | |- tr mute (free _) => apply tr_upd; intros; reflexivity
  | |- tr mute (match ?x with _ => _ end) => destruct x
  | |- tr mute _ => apply m_q; solve [qx]
  end.
Tactic Notation "ml" tactic3(t) := repeat first [t | m1].
Section Silent.
Variable C : conf.
Lemma m_attach p i h : silent (attach_new C p i h).
Proof.
  unfold attach_new. ml (first [apply m_q; first [apply q_link|apply q_find|apply q_populate]|match goal with |- tr mute (alloc _) => intros s a s' E; injection E as <- <-; reflexivity | |- tr mute (modify _ _) => intros s a' s' E; unfold modify in E; destruct (s_heap s _); [|discriminate]; injection E as <- <-; reflexivity end]).
Qed.
Lemma m_maps p : silent (add_to_maps C p). Proof. unfold add_to_maps. ml fail. Qed.
Ltac fixl IHt := match goal with |- tr mute (?F ?x) => is_fix F; let H := fresh in assert (H : forall l, tr mute (F l)); [let l := fresh in intros l; induction l; repeat first [assumption|IHt|m1]|apply H] end.
Lemma m_add : forall f p i b h, silent (add_to_storage C f p i false b h).
Proof.
  induction f; intros p i b h; cbn [add_to_storage]; [intros s a s' E; discriminate|].
  ml (first [apply IHf|apply m_attach|apply m_maps|apply m_q; first [apply q_find|apply q_create_file|apply q_create_dir|apply q_watch|apply q_unlink]|fixl ltac:(apply IHf)]).
Qed.
Lemma m_additem f i : silent (add_item C f i). Proof. unfold add_item. ml (apply m_add). Qed.
Lemma m_remove h : silent (remove_from_storage h false).
Proof. unfold remove_from_storage. ml (apply m_q; first [apply q_unwatch|apply q_unlink]). Qed.
Lemma m_delete : forall f h b, silent (delete_helper C f h b false).
Proof.
  induction f; intros h b; cbn [delete_helper]; [intros s a s' E; discriminate|].
  ml (first [apply IHf|apply m_remove|apply m_q; first [apply q_rmdir|apply q_remove]|fixl ltac:(apply IHf)]).
Qed.
Lemma m_deleteitem f l h fmt : silent (delete_item C f l h fmt).
Proof.
  unfold delete_item. destruct (h =? ALL); [|apply m_delete]. apply m_bind; [apply m_q, q_get|]. intros copy.
  match goal with |- tr mute (?F _ _ _ _) => assert (H : forall l a b c, tr mute (F l a b c)); [|apply H] end.
  clear l. induction l as [|k l IH]; intros resp some failed; ml (first [apply IH|apply m_delete]).
Qed.
Lemma m_copy_loop src dst : forall f d off rem res, silent (copy_loop C f d src dst off rem res).
Proof. induction f; intros d off rem res; cbn [copy_loop]; ml (first [apply IHf|apply m_deleteitem|apply m_q; first [apply q_read|apply q_write]]). Qed.
Lemma m_copy_data f a b : silent (copy_data C f a b). Proof. unfold copy_data. ml (first [apply m_copy_loop|apply m_q; apply q_info]). Qed.
Lemma m_copy : forall f h q b, silent (copy_object C f h q b).
Proof.
  induction f; intros h q b; cbn [copy_object]; [intros s a s' E; discriminate|].
  ml (first [apply IHf|apply m_additem|apply m_copy_data|apply m_q; first [apply q_handles|apply q_any_path|apply q_watch|apply q_unwatch]]).
  match goal with |- tr mute (?F _ _) => assert (H : forall k x, tr mute (F k x)); [|apply H] end.
  induction k as [|k IHk]; intros [x|]; ml (first [apply IHf|apply IHk]).
Qed.
Lemma own_silent o s s' : (forall f e, o <> OEvent f e) -> exec C o s = Ret (tt, s') -> s_events s' = s_events s.
Proof.
  intros NE E. assert (H : silent (exec C o)); [|exact (H s tt s' E)].
  destruct o; cbn [exec]; ml (first [apply m_additem|apply m_deleteitem|apply m_copy|apply m_q; first [apply q_move|apply q_setname|apply q_read|apply q_write|apply q_partial|apply q_truncate|apply q_info|apply q_handles]]).
  now contradiction (NE fuel e).
Qed.
End Silent.

(** *** New objects are announced *)
Lemma bind_inv {A B} (m : M A) (f : A -> M B) s b s' : bind m f s = Ret (b, s') -> exists a s1, m s = Ret (a, s1) /\ f a s1 = Ret (b, s').
Proof. unfold bind. destruct (m s) as [[a s1]| |]; try discriminate. eauto. Qed.
Ltac inv H a s1 E := apply bind_inv in H as (a & s1 & E & H).
Lemma deref_inv p s i s' : deref p s = Ret (i, s') -> s' = s /\ s_heap s p = Some i.
Proof. unfold deref. destruct (s_heap s p); [|discriminate]. intros E. injection E as -> ->. auto. Qed.
Lemma info_inv i s o s' : info_of i s = Ret (o, s') -> s' = s /\ i_info i = Some o.
Proof. unfold info_of. destruct (i_info i); [|discriminate]. intros E. injection E as -> ->. auto. Qed.
Definition ann_added (h : N) : N * list N := (EV_ObjectAdded, [h]).
Definition ann_removed (h : N) : N * list N := (EV_ObjectRemoved, [h]).

Section Add.
Variables (C : conf) (SO : supply_ok C).
Definition fresh_handles (s s' : fs) (l : list N) : Prop := NoDup l /\ forall h, In h l -> exists t, (s_tick s <= t < s_tick s')%nat /\ h = c_handle C t.
Record grew (s s' : fs) : Prop := {
  gr_l : exists l, s_events s' = map ann_added l ++ s_events s /\ (forall h, has s' h <-> has s h \/ In h l) /\ fresh_handles s s' l;
  gr_tick : (s_tick s <= s_tick s')%nat;
  gr_fresh : s_fresh s <= s_fresh s';
  gr_hof : forall p, p < s_fresh s -> hof s' p = hof s p }.
Lemma still_grew s s' : still s s' -> grew s s'.
Proof. intros []. constructor; try assumption. exists []. split; [exact st_ev0|]. split; [intros h; rewrite st_has0; cbn; tauto|]. split; [constructor|intros h []]. Qed.
Lemma grew_refl s : grew s s. Proof. apply still_grew, still_refl. Qed.
Lemma NoDup_app_disj {A} (l m : list A) : NoDup l -> NoDup m -> (forall x, In x l -> In x m -> False) -> NoDup (l ++ m).
Proof.
  induction l as [|x l IH]; intros H1 H2 H3; [exact H2|]. inversion H1; subst. cbn. constructor.
  - intros H. apply in_app_or in H as [H|H]; [contradiction|]. exact (H3 x (or_introl eq_refl) H).
  - apply IH; [assumption..|]. intros y Y1 Y2. exact (H3 y (or_intror Y1) Y2).
Qed.
Lemma grew_trans a b c : grew a b -> grew b c -> grew a c.
Proof.
  intros [(l & A1 & A2 & A3 & A4) T1 F1 O1] [(m & B1 & B2 & B3 & B4) T2 F2 O2]. constructor; [|lia|lia|intros p Hp; rewrite O2 by lia; auto].
  exists (m ++ l). split; [rewrite B1, A1, map_app, app_assoc; reflexivity|]. split; [intros h; rewrite B2, A2, in_app_iff; tauto|]. split.
  - apply NoDup_app_disj; [assumption..|]. intros x X1 X2. destruct (B4 x X1) as (t & Ht & ->). destruct (A4 _ X2) as (u & Hu & E). apply (so_inj _ SO) in E. lia.
  - intros h Hh. apply in_app_or in Hh as [Hh|Hh]; [destruct (B4 h Hh) as (t & Ht & ->)|destruct (A4 h Hh) as (t & Ht & ->)]; exists t; split; try reflexivity; lia.
Qed.
Lemma attach_ann p s me s' : peqb p (c_root C) = false -> attach_new C p None 0 s = Ret (me, s') ->
  still s s' /\ me < s_fresh s' /\ exists t, (s_tick s <= t < s_tick s')%nat /\ hof s' me = Some (c_handle C t).
Proof.
  intros NR E. unfold attach_new in E. inv E x s1 E1. injection E1 as <- <-. set (x := s_fresh s) in *.
  assert (S1 : still s (set_fresh (x + 1) (set_heap (nupd (s_heap s) x (Some (new_item p))) s))).
  { constructor; cbn; try reflexivity; [unfold x; lia|]. intros q Hq. unfold hof. cbn. unfold nupd. destruct (q =? x) eqn:Eq; [|reflexivity]. apply N.eqb_eq in Eq. unfold x in Eq. lia. }
  set (s1 := set_fresh _ _) in *. assert (X1 : x < s_fresh s1) by (cbn; lia). clearbody s1.
  inv E par s2 E2. apply (q_find (parent_of p)) in E2. inv E root s3 E3. apply q_get in E3. inv E u4 s4 E4. apply q_link in E4. inv E u5 s5 E5. apply q_populate in E5.
  pose proof (still_trans _ _ _ S1 (still_trans _ _ _ E2 (still_trans _ _ _ E3 (still_trans _ _ _ E4 E5)))) as S5.
  assert (X5 : x < s_fresh s5). { pose proof (st_fresh _ _ (still_trans _ _ _ E2 (still_trans _ _ _ E3 (still_trans _ _ _ E4 E5)))). lia. }
  clear S1 E2 E3 E4 E5. inv E u6 s6 E6. rewrite NR in E6. change (0 =? 0) with true in E6. cbv iota in E6. inv E6 t s7 E7. injection E7 as <- <-.
  unfold modify in E6. cbn [s_heap set_tick] in E6. destruct (s_heap s5 x) as [i|] eqn:Hx; [|discriminate]. injection E6 as <- <-. injection E as <- <-.
  split; [|split; [exact X5|exists (s_tick s5)]].
  - destruct S5. constructor; cbn; [exact st_ev0|exact st_has0|lia|exact st_fresh0|]. intros q Hq. rewrite <- st_hof0 by exact Hq. unfold hof. cbn. unfold nupd. destruct (q =? x) eqn:Eq; [|reflexivity]. apply N.eqb_eq in Eq. unfold x in Eq. lia.
  - split; [cbn; pose proof (st_tick _ _ S5); lia|]. unfold hof. cbn. unfold nupd. rewrite N.eqb_refl. reflexivity.
Qed.
Lemma maps_ann me hh s s' u : hof s me = Some hh -> add_to_maps C me s = Ret (u, s') ->
  s_events s' = s_events s /\ (forall h, has s' h <-> has s h \/ h = hh) /\ (s_tick s <= s_tick s')%nat /\ s_fresh s <= s_fresh s' /\ (forall p, hof s' p = hof s p).
Proof.
  intros H E. unfold add_to_maps in E. inv E i s1 E1. unfold deref in E1. unfold hof in H. destruct (s_heap s me) as [j|] eqn:Hj; [|discriminate]. injection E1 as -> <-. injection H as <-.
  inv E u2 s2 E2. injection E2 as <- <-. inv E u3 s3 E3. injection E3 as <- <-. inv E old s4 E4. injection E4 as <- <-.
  assert (HH : forall (T : list (N * option ptr)) h, (exists q, aget h (aset (i_handle i) (Some me) T) = Some (Some q)) <-> (exists q, aget h T = Some (Some q)) \/ h = i_handle i).
  { intros T h. rewrite aget_aset. destruct (h =? i_handle i) eqn:Eh; [apply N.eqb_eq in Eh; split; [auto|eauto]|]. apply N.eqb_neq in Eh. tauto. }
  set (s5 := set_handles _ _) in *. assert (Q : forall f, (forall k, i_handle (f k) = i_handle k) -> forall s6 s' w, s_heap s6 = s_heap s5 -> modify me f s6 = Ret (w, s') -> forall p, hof s' p = hof s p).
  { intros f Hf s6 s0 w E6 M p. unfold modify in M. rewrite E6 in M. change (s_heap s5) with (s_heap s) in M. rewrite Hj in M. injection M as <- <-. unfold hof. cbn. unfold nupd. destruct (p =? me) eqn:Ep; [|reflexivity]. apply N.eqb_eq in Ep. subst p. rewrite Hf, Hj. reflexivity. }
  destruct (s_puoids s (i_path i)) as [u5|].
  - pose proof (Q (it_puoid u5) (fun _ => eq_refl) _ _ _ eq_refl E) as QQ. unfold modify in E. change (s_heap s5) with (s_heap s) in E. rewrite Hj in E. injection E as <- <-.
    cbn. split; [reflexivity|]. split; [intros h; apply HH|]. split; [lia|]. split; [lia|exact QQ].
  - inv E t s6 E6. injection E6 as <- <-. inv E u7 s7 E7. pose proof (Q (it_puoid (c_puoid C (s_tick s))) (fun _ => eq_refl) (set_tick (S (s_tick s)) s5) _ _ eq_refl E7) as QQ. unfold modify in E7. cbn [s_heap set_tick] in E7. change (s_heap s5) with (s_heap s) in E7. rewrite Hj in E7. injection E7 as <- <-. injection E as <- <-.
    cbn. split; [reflexivity|]. split; [intros h; apply HH|]. split; [lia|]. split; [lia|exact QQ].
Qed.
Lemma add_ann : forall f p s res s', len (c_root C) < len p -> add_to_storage C f p None true false 0 s = Ret (res, s') -> grew s s'.
Proof.
  induction f as [|f IH]; intros p s res s' HL E; [discriminate|]. cbn [add_to_storage] in E.
  destruct (existsb (peqb p) (c_excl C)); [injection E as <- <-; apply grew_refl|].
  inv E t s1 E1. apply q_tick, still_grew in E1. apply (grew_trans _ _ _ E1). clear s E1.
  destruct (link_refused C p _); [injection E as <- <-; apply grew_refl|].
  inv E k s2 E2. injection E2 as <- <-. destruct (s_paths s1 p) as [h|].
  { inv E q s2 E2. injection E as <- <-. apply still_grew. exact (q_find _ _ _ _ E2). }
  inv E me s2 E2. assert (NR : peqb p (c_root C) = false). { destruct (peqb p (c_root C)) eqn:X; [|reflexivity]. apply peqb_eq in X. subst p. lia. }
  destruct (attach_ann p s1 me s2 NR E2) as (S2 & F2 & t' & Ht & Hh). clear E2.
  inv E i s3 E3. apply deref_inv in E3 as [-> _].
  inv E o s3 E3. apply info_inv in E3 as [-> _].
  inv E r s3 E3.
  assert (X : r = R_OK /\ exists l, s_events s3 = map ann_added l ++ s_events s2 /\ (forall h, has s3 h <-> (has s2 h \/ h = c_handle C t') \/ In h l) /\ fresh_handles s2 s3 l /\
    (s_tick s2 <= s_tick s3)%nat /\ s_fresh s2 <= s_fresh s3 /\ (forall p, p < s_fresh s2 -> hof s3 p = hof s2 p)).
  { destruct (oi_format o =? FMT_Association).
    - inv E3 r0 s4 E4. injection E4 as <- <-. change (negb (isok R_OK)) with false in E3. cbv iota in E3.
      inv E3 u1 s4 E4. apply q_watch in E4. inv E3 u2 s5 E5.
      assert (H4 : hof s4 me = Some (c_handle C t')) by (rewrite (st_hof _ _ E4) by exact F2; exact Hh).
      destruct (maps_ann me _ s4 s5 u2 H4 E5) as (M1 & M2 & M3 & M4 & M5). inv E3 w s6 E6. injection E6 as <- <-. inv E3 u3 s6 E6. injection E3 as <- <-.
      assert (G : grew s5 s6).
      { set (L := entries_of p (s_nodes s5)) in E6. assert (HL2 : forall e, In e L -> len (c_root C) < len e). { intros e He. apply entries_spec in He as [_ ->]. rewrite len_join. lia. }
        clearbody L. revert HL2 E6. clear - IH SO. revert s5 u3 s6. induction L as [|e L IHL]; intros s5 u3 s6 HL2 E6.
        - injection E6 as <- <-. apply grew_refl.
        - inv E6 x s7 E7. apply IH in E7; [|apply HL2; left; reflexivity]. apply (grew_trans _ _ _ E7). eapply IHL; [|exact E6]. intros e' He'. apply HL2. right. exact He'. }
      split; [reflexivity|]. destruct G as [(l & G1 & G2 & G3 & G4) GT GF GO], E4. exists l.
      split; [rewrite G1, M1, st_ev0; reflexivity|]. split; [intros h; rewrite G2, M2, st_has0; tauto|]. split; [split; [exact G3|]; intros h Hl; destruct (G4 h Hl) as (u & Hu & ->); exists u; split; [lia|reflexivity]|].
      split; [lia|]. split; [lia|]. intros q Hq. rewrite GO by lia. rewrite M5. apply st_hof0. exact Hq.
    - inv E3 r0 s4 E4. injection E4 as <- <-. change (negb (isok R_OK)) with false in E3. cbv iota in E3. inv E3 u2 s5 E5.
      destruct (maps_ann me _ s2 s5 u2 Hh E5) as (M1 & M2 & M3 & M4 & M5). inv E3 j s6 E6. apply deref_inv in E6 as [-> _].
      inv E3 u3 s6 E7. injection E7 as <- <-. injection E3 as <- <-. split; [reflexivity|]. exists []. cbn [map app s_events set_byid s_tick s_fresh].
      split; [exact M1|]. split; [intros h; change (has (set_byid _ s5) h) with (has s5 h); rewrite M2; cbn; tauto|]. split; [split; [constructor|intros h []]|]. split; [exact M3|]. split; [exact M4|]. intros q _. apply M5. }
  destruct X as (-> & l & X1 & X2 & (X3 & X4) & X5 & X6 & X7). change (negb (isok R_OK)) with false in E. cbv iota in E.
  inv E j s4 E4. unfold deref in E4. assert (Hj : hof s3 me = Some (c_handle C t')) by (rewrite X7 by exact F2; exact Hh). unfold hof in Hj. destruct (s_heap s3 me) as [j0|]; [|discriminate]. injection E4 as -> <-. injection Hj as Hj.
  inv E u5 s5 E5. injection E5 as <- <-. injection E as <- <-. rewrite Hj.
  destruct S2. constructor; cbn; [|lia|lia|intros q Hq; change (hof (set_events _ s3) q) with (hof s3 q); rewrite X7 by lia; auto].
  exists (c_handle C t' :: l). split; [cbn; rewrite X1, st_ev0; reflexivity|]. split.
  - intros h. change (has (set_events _ s3) h) with (has s3 h). rewrite X2, st_has0. cbn [In]. split; [intros [[A|A]|A]; auto|intros [A|[A|A]]; auto].
  - split.
    + constructor; [|exact X3]. intros Hin. destruct (X4 _ Hin) as (u & Hu & Eu). apply (so_inj _ SO) in Eu. lia.
    + intros h [<-|Hl]; [exists t'; split; [cbn; lia|reflexivity]|]. destruct (X4 h Hl) as (u & Hu & ->). exists u. split; [cbn; lia|reflexivity].
Qed.
End Add.

(** *** Objects that go are announced *)
(** the object has something in it *)
Definition filled (s : fs) (h : N) : Prop := exists p i, aget h (s_handles s) = Some (Some p) /\ s_heap s p = Some i /\ i_first i <> None.
Record calm (s s' : fs) : Prop := {
  ca_ev : s_events s' = s_events s;
  ca_h : s_handles s' = s_handles s;
  ca_tick : (s_tick s <= s_tick s')%nat;
  ca_first : forall p i', s_heap s' p = Some i' -> i_first i' <> None -> exists i, s_heap s p = Some i /\ i_first i <> None }.
Lemma calm_refl s : calm s s. Proof. constructor; eauto. Qed.
Lemma calm_trans a b c : calm a b -> calm b c -> calm a c.
Proof. intros [] []. constructor; [congruence|congruence|lia|]. intros p i H1 H2. destruct (ca_first1 p i H1 H2) as (j & A & B). eauto. Qed.
Definition c_bind := @tr_bind calm calm_trans.
Lemma c_upd f : (forall s, s_events (f s) = s_events s /\ s_handles (f s) = s_handles s /\ s_tick (f s) = s_tick s /\ s_heap (f s) = s_heap s) -> tr calm (upd f).
Proof. intros H. apply tr_upd. intros s. destruct (H s) as (A & B & D & F). constructor; [exact A|exact B|lia|]. rewrite F. eauto. Qed.
Lemma c_tick : tr calm tick. Proof. intros s a s' E. injection E as <- <-. constructor; cbn; eauto. Qed.
Lemma c_modify p f : (forall i, i_first (f i) <> None -> i_first i <> None) -> tr calm (modify p f).
Proof.
  intros H s a s' E. unfold modify in E. destruct (s_heap s p) as [i|] eqn:Hp; [|discriminate]. injection E as <- <-. constructor; cbn; eauto.
  intros q j. unfold nupd. destruct (q =? p) eqn:Eq; [|eauto]. apply N.eqb_eq in Eq. subst q. intros X. injection X as <-. intros Y. eauto.
Qed.
Ltac c1 := lazymatch goal with
  | |- tr calm (bind _ _) => apply c_bind; [|intros ?]
  | |- tr calm (ret _) => apply (tr_ret calm calm_refl)
  | |- tr calm (get _) => apply (tr_get calm calm_refl)
  | |- tr calm (deref _) => apply (tr_deref calm calm_refl)
  | |- tr calm (deref_opt _) => apply (tr_deref_opt calm calm_refl)
  | |- tr calm (info_of _) => apply (tr_info calm calm_refl)
  | |- tr calm crash => apply tr_crash
  | |- tr calm give_up => apply tr_giveup
  | |- tr calm tick => apply c_tick
  | |- tr calm (upd _) => apply c_upd; intros; cbn; auto 10
  | |- tr calm (modify _ _) => apply c_modify; intros ? ?; assumption
  | |- tr calm (match ?x with _ => _ end) => destruct x
  end.
Ltac cx := repeat c1.
Tactic Notation "cl" tactic3(t) := repeat first [t | c1].
Lemma c_find_pred f : forall i c, tr calm (find_pred f i c). Proof. induction f; intros i c; destruct i; cbn [find_pred]; cl (apply IHf). Qed.
Lemma c_unwatch p : tr calm (remove_watch p). Proof. unfold remove_watch. cx. Qed.
Lemma c_unlink c : tr calm (unlink_child c).
Proof.
  intros s a s' E. unfold unlink_child in E. inv E ci s1 E1. apply deref_inv in E1 as [-> _]. destruct (i_parent ci) as [par|]; [|injection E as <- <-; apply calm_refl].
  inv E pi s1 E1. apply deref_inv in E1 as [-> Hp]. inv E u s1 E1. apply calm_trans with s1; [|revert E; apply c_modify; intros ? ?; assumption].
  destruct (opt_eqb (i_first pi) (Some c)) eqn:O.
  - unfold modify in E1. rewrite Hp in E1. injection E1 as <- <-. constructor; cbn; eauto. intros q j. unfold nupd. destruct (q =? par) eqn:Eq; [|eauto]. apply N.eqb_eq in Eq. subst q. intros _ _. exists pi. split; [exact Hp|]. intros X. rewrite X in O. discriminate.
  - revert E1. apply c_bind; [cx|]. intros n. apply c_bind; [apply c_find_pred|]. intros [q|]; cx.
Qed.
Lemma c_fails C : tr calm (fails C). Proof. unfold fails. cx. Qed.
Lemma c_rmdir C a : tr calm (sys_rmdir C a). Proof. unfold sys_rmdir. cl (apply c_fails). Qed.
Lemma c_remove C a : tr calm (sys_remove C a). Proof. unfold sys_remove. cl (apply c_fails). Qed.

Record shrank (s s' : fs) : Prop := {
  sh_l : exists l, s_events s' = map ann_removed l ++ s_events s /\ NoDup l /\ (forall h, In h l -> has s h /\ ~ has s' h) /\ (forall h, has s h -> ~ has s' h -> In h l \/ filled s h);
  sh_ptr : forall h p, aget h (s_handles s') = Some (Some p) -> aget h (s_handles s) = Some (Some p);
  sh_filled : forall h, filled s' h -> filled s h;
  sh_tick : (s_tick s <= s_tick s')%nat }.
Lemma sh_has s s' h : shrank s s' -> has s' h -> has s h.
Proof. intros H [p Hp]. exists p. exact (sh_ptr _ _ H h p Hp). Qed.
Lemma has_dec s h : has s h \/ ~ has s h.
Proof. unfold has. destruct (aget h (s_handles s)) as [[p|]|]; [left; eauto|right; intros [q X]; discriminate..]. Qed.
Lemma shrank_trans a b c : shrank a b -> shrank b c -> shrank a c.
Proof.
  intros S1 S2. destruct (sh_l _ _ S1) as (l & A1 & A2 & A3 & A4). destruct (sh_l _ _ S2) as (m & B1 & B2 & B3 & B4).
  constructor; [|intros h p H; apply (sh_ptr _ _ S1), (sh_ptr _ _ S2), H|intros h H; apply (sh_filled _ _ S1), (sh_filled _ _ S2), H|pose proof (sh_tick _ _ S1); pose proof (sh_tick _ _ S2); lia].
  exists (m ++ l). split; [rewrite B1, A1, map_app, app_assoc; reflexivity|]. split; [|split].
  - apply NoDup_app_disj; [assumption..|]. intros x X1 X2. destruct (B3 x X1) as [Y _]. destruct (A3 x X2) as [_ Z]. contradiction.
  - intros h H. apply in_app_or in H as [H|H].
    + destruct (B3 h H) as [X Y]. split; [exact (sh_has _ _ h S1 X)|exact Y].
    + destruct (A3 h H) as [X Y]. split; [exact X|]. intros Z. apply Y. exact (sh_has _ _ h S2 Z).
  - intros h H1 H2. destruct (has_dec b h) as [D|D].
    + destruct (B4 h D H2) as [X|X]; [left; apply in_or_app; auto|right; exact (sh_filled _ _ S1 h X)].
    + destruct (A4 h H1 D) as [X|X]; [left; apply in_or_app; auto|right; exact X].
Qed.
Lemma calm_filled s s' : calm s s' -> forall h, filled s' h -> filled s h.
Proof. intros [] h (p & i & A & B & D). destruct (ca_first0 p i B D) as (j & X & Y). rewrite ca_h0 in A. exists p, j. auto. Qed.
Lemma calm_shrank s s' : calm s s' -> shrank s s'.
Proof.
  intros H. pose proof (calm_filled _ _ H) as F. destruct H. assert (X : forall h, has s' h <-> has s h) by (intros h; unfold has; rewrite ca_h0; reflexivity).
  constructor; [|rewrite ca_h0; auto|exact F|exact ca_tick0]. exists []. split; [exact ca_ev0|]. split; [constructor|]. split; [intros h []|]. intros h A B. rewrite X in B. contradiction.
Qed.
Lemma shrank_refl s : shrank s s. Proof. apply calm_shrank, calm_refl. Qed.

(** taking one object out of the tables *)
Definition took (h : N) (send : bool) (s s' : fs) : Prop :=
  s_events s' = (if send then [ann_removed h] else []) ++ s_events s /\ (forall k p, aget k (s_handles s') = Some (Some p) <-> aget k (s_handles s) = Some (Some p) /\ k <> h) /\
  (forall k, filled s' k -> filled s k) /\ (s_tick s <= s_tick s')%nat.
Lemma remove_took h send s u s' : has s h -> remove_from_storage h send s = Ret (u, s') -> took h send s s'.
Proof.
  intros [p Hp] E. unfold remove_from_storage in E. inv E b s1 E1. injection E1 as <- <-. inv E u1 s2 E2. unfold ahas in E2. rewrite Hp in E2.
  inv E2 v s3 E3. unfold handle_value, get in E3. rewrite Hp in E3. injection E3 as <- <-. inv E2 i s3 E3. apply deref_inv in E3 as [-> Hi].
  inv E2 u2 s3 E3. assert (C3 : calm s s3) by (revert E3; destruct (i_wd i); [apply c_unwatch|apply (tr_ret calm calm_refl)]). clear E3.
  inv E2 u3 s4 E3. injection E3 as <- <-. inv E2 u4 s4 E3. injection E3 as <- <-. inv E2 u5 s4 E3. apply c_unlink in E3. unfold free, upd in E2. injection E2 as <- <-.
  set (s5 := set_paths _ _) in E3.
  assert (T : took h false s (set_heap (nupd (s_heap s4) p None) s4)).
  { destruct C3 as [A1 A2 A3 A4], E3 as [B1 B2 B3 B4]. unfold took. cbn [s_events set_heap s_handles s_tick app].
    split; [rewrite B1; exact A1|]. split; [|split; [|change (s_tick s5) with (s_tick s3) in B3; lia]].
    - intros k q. rewrite B2. change (s_handles s5) with (adel h (s_handles s3)). rewrite aget_adel, A2. destruct (k =? h) eqn:Ek; [apply N.eqb_eq in Ek|apply N.eqb_neq in Ek]; split; try tauto; discriminate.
    - intros k (q & j & X1 & X2 & X3). cbn [s_handles set_heap s_heap] in X1, X2. unfold nupd in X2. destruct (q =? p); [discriminate|]. destruct (B4 q j X2 X3) as (j1 & Y1 & Y2). destruct (A4 q j1 Y1 Y2) as (j2 & Z1 & Z2).
      rewrite B2 in X1. change (s_handles s5) with (adel h (s_handles s3)) in X1. rewrite aget_adel, A2 in X1. destruct (k =? h); [discriminate|]. exists q, j2. auto. }
  destruct send; cbn [when] in E; [|injection E as <- <-; exact T]. unfold emit, upd in E. injection E as <- <-. destruct T as (T1 & T2 & T3 & T4). unfold took. cbn. cbn in T1. rewrite T1. split; [reflexivity|]. split; [exact T2|]. split; [exact T3|exact T4].
Qed.
Lemma took_shrank h send s s' : has s h -> (send = true \/ filled s h) -> took h send s s' -> shrank s s'.
Proof.
  intros Hh HF (A & B & D & T). assert (HX : forall k, has s' k <-> has s k /\ k <> h). { intros k. split; [intros [p Hp]; apply B in Hp as [X Y]; split; [exists p; exact X|exact Y]|intros [[p Hp] Y]; exists p; apply B; auto]. }
  constructor; [|intros k p Hk; apply B in Hk; tauto|exact D|exact T]. exists (if send then [h] else []). split; [destruct send; exact A|]. split; [destruct send; repeat constructor; intros []|]. split.
  - intros k Hk. destruct send; [|destruct Hk]. destruct Hk as [<-|[]]. rewrite HX. tauto.
  - intros k K1 K2. rewrite HX in K2. destruct (N.eq_dec k h) as [->|Nk]; [|tauto]. destruct HF as [->|HF]; [left; left; reflexivity|right; exact HF].
Qed.
Section Del.
Variable C : conf.
(** an empty object *)
Lemma leaf_ann : forall f h b send s c s' p i, aget h (s_handles s) = Some (Some p) -> s_heap s p = Some i -> i_first i = None ->
  delete_helper C f h b send s = Ret (c, s') -> calm s s' \/ (exists s1, calm s s1 /\ took h send s1 s').
Proof.
  intros f h b send s c s' p i Hh Hp Hf E. destruct f; [discriminate|]. cbn [delete_helper] in E. inv E x s1 E1. injection E1 as <- <-. unfold ahas in E. rewrite Hh in E. cbn [negb] in E.
  inv E v s1 E1. unfold handle_ref in E1. rewrite Hh in E1. injection E1 as <- <-. inv E root s1 E1. injection E1 as <- <-.
  destruct (opt_eqb (Some p) (s_root s)); [injection E as <- <-; left; apply calm_refl|]. inv E j s1 E1. apply deref_inv in E1 as [-> Hj]. assert (j = i) by congruence. subst j. rewrite Hf in E.
  inv E ok s1 E1. assert (C1 : calm s s1). { refine ((_ : tr calm _) _ _ _ E1). cl (first [apply c_rmdir|apply c_remove]). }
  destruct (negb ok); [injection E as <- <-; left; exact C1|]. inv E u s2 E2. injection E as <- <-. right. exists s1. split; [exact C1|].
  refine (remove_took h send s1 u s2 _ E2). exists p. rewrite (ca_h _ _ C1). exact Hh.
Qed.
Lemma delete_ann : forall f h b s c s', delete_helper C f h b true s = Ret (c, s') -> shrank s s'.
Proof.
  induction f as [|f IH]; intros h b s c s' E; [discriminate|].
  destruct (aget h (s_handles s)) as [[p|]|] eqn:Hh.
  2:{ cbn [delete_helper] in E. inv E x s1 E1. injection E1 as <- <-. unfold ahas in E. rewrite Hh in E. cbn [negb] in E. inv E v s1 E1. unfold handle_ref in E1. rewrite Hh in E1. injection E1 as <- <-. injection E as <- <-. apply shrank_refl. }
  2:{ cbn [delete_helper] in E. inv E x s1 E1. injection E1 as <- <-. unfold ahas in E. rewrite Hh in E. cbn [negb] in E. injection E as <- <-. apply shrank_refl. }
  destruct (s_heap s p) as [i|] eqn:Hp.
  2:{ cbn [delete_helper] in E. inv E x s1 E1. injection E1 as <- <-. unfold ahas in E. rewrite Hh in E. cbn [negb] in E. inv E v s1 E1. unfold handle_ref in E1. rewrite Hh in E1. injection E1 as <- <-. inv E root s1 E1. injection E1 as <- <-.
      destruct (opt_eqb (Some p) (s_root s)); [injection E as <- <-; apply shrank_refl|]. inv E j s1 E1. apply deref_inv in E1 as [-> Hj]. congruence. }
  destruct (i_first i) as [k|] eqn:Hf.
  2:{ destruct (leaf_ann (S f) h b true s c s' p i Hh Hp Hf E) as [X|(s1 & X & Y)]; [apply calm_shrank; exact X|]. apply (shrank_trans _ s1); [apply calm_shrank; exact X|]. apply (took_shrank h true); [exists p; rewrite (ca_h _ _ X); exact Hh|auto|exact Y]. }
  cbn [delete_helper] in E. inv E x s1 E1. injection E1 as <- <-. unfold ahas in E. rewrite Hh in E. cbn [negb] in E. inv E v s1 E1. unfold handle_ref in E1. rewrite Hh in E1. injection E1 as <- <-. inv E root s1 E1. injection E1 as <- <-.
  destruct (opt_eqb (Some p) (s_root s)); [injection E as <- <-; apply shrank_refl|]. inv E j s1 E1. apply deref_inv in E1 as [-> Hj]. assert (j = i) by congruence. subst j. rewrite Hf in E.
  inv E kept s1 E1.
  assert (L : shrank s s1 /\ (kept = false -> exists i1, s_heap s1 p = Some i1 /\ i_first i1 = None)).
  { match type of E1 with ?F _ _ = _ => assert (LL : forall n s kept s1, F n s = Ret (kept, s1) -> shrank s s1 /\ (kept = false -> exists i1, s_heap s1 p = Some i1 /\ i_first i1 = None)); [|exact (LL _ _ _ _ E1)] end.
    clear - IH. induction n as [|n IHn]; intros s kept s1 E1.
    - inv E1 i s2 E2. apply deref_inv in E2 as [-> H2]. destruct (i_first i) eqn:Fi; [discriminate|]. injection E1 as <- <-. split; [apply shrank_refl|]. eauto.
    - inv E1 i s2 E2. apply deref_inv in E2 as [-> H2]. destruct (i_first i) as [q|] eqn:Fi; [|injection E1 as <- <-; split; [apply shrank_refl|eauto]].
      inv E1 ci s2 E2. apply deref_inv in E2 as [-> H3]. inv E1 r s2 E2. apply IH in E2. destruct (negb (isok r)); [injection E1 as <- <-; split; [exact E2|discriminate]|].
      apply IHn in E1 as [A B]. split; [exact (shrank_trans _ _ _ E2 A)|exact B]. }
  destruct L as [L1 L2]. destruct kept; [injection E as <- <-; exact L1|]. destruct (L2 eq_refl) as (i1 & P1 & P2). inv E r s2 E2. injection E as <- <-.
  assert (FS : filled s h) by (exists p, i; split; [exact Hh|]; split; [exact Hp|congruence]).
  destruct (aget h (s_handles s1)) as [[q|]|] eqn:H1.
  - pose proof (sh_ptr _ _ L1 h q H1) as X. assert (q = p) by congruence. subst q. clear X.
    destruct (leaf_ann f h true false s1 r s2 p i1 H1 P1 P2 E2) as [X|(s3 & X & Y)]; [exact (shrank_trans _ _ _ L1 (calm_shrank _ _ X))|].
    assert (L3 : shrank s s3) by exact (shrank_trans _ _ _ L1 (calm_shrank _ _ X)).
    (* the silent removal of a folder that was not empty *)
    assert (H3 : has s3 h) by (exists p; rewrite (ca_h _ _ X); exact H1). destruct Y as (Y1 & Y2 & Y3 & Y4).
    assert (HX : forall k, has s2 k <-> has s3 k /\ k <> h). { intros k0. split; [intros [q Hq]; apply Y2 in Hq as [A B]; split; [exists q; exact A|exact B]|intros [[q Hq] B]; exists q; apply Y2; auto]. }
    destruct (sh_l _ _ L3) as (l & A1 & A2 & A3 & A4). constructor; [|intros k0 q Hk; apply Y2 in Hk as [Hk _]; exact (sh_ptr _ _ L3 _ _ Hk)|intros k0 Hk; exact (sh_filled _ _ L3 _ (Y3 _ Hk))|pose proof (sh_tick _ _ L3); lia].
    exists l. split; [rewrite Y1; exact A1|]. split; [exact A2|]. split.
    + intros k0 Hk. destruct (A3 k0 Hk) as [B1 B2]. split; [exact B1|]. rewrite HX. tauto.
    + intros k0 K1 K2. destruct (N.eq_dec k0 h) as [->|Nk]; [right; exact FS|]. apply A4; [exact K1|]. intros K3. apply K2. rewrite HX. auto.
  - destruct f; [discriminate|]. cbn [delete_helper] in E2. inv E2 x s3 E3. injection E3 as <- <-. unfold ahas in E2. rewrite H1 in E2. cbn [negb] in E2. inv E2 v s3 E3. unfold handle_ref in E3. rewrite H1 in E3. injection E3 as <- <-. injection E2 as <- <-. exact L1.
  - destruct f; [discriminate|]. cbn [delete_helper] in E2. inv E2 x s3 E3. injection E3 as <- <-. unfold ahas in E2. rewrite H1 in E2. cbn [negb] in E2. injection E2 as <- <-. exact L1.
Qed.
End Del.

(** a change of any of the information is seen *)
Lemma info_differs_same a b : info_differs a b = false <-> a = b.
Proof.
  unfold info_differs. split.
  - rewrite Bool.negb_false_iff, !Bool.andb_true_iff, !N.eqb_eq, !peqb_eq. destruct a, b. cbn. intros H. repeat match goal with H : _ /\ _ |- _ => destruct H end. subst. reflexivity.
  - intros ->. rewrite !N.eqb_refl, !peqb_refl. reflexivity.
Qed.
