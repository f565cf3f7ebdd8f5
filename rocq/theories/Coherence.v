(** The object property cache of the storage factory against the storages (C57). *)
From Verif Require Import Base AList PropCache PropCacheProofs Wire Factory FactoryProofs.

(** ** Vocabulary *)
(** An event a storage has raised: code and first two parameters.  Events are delivered to
    the factory later (storagefactory.cpp:169-170, queued connection). *)
Definition event := (N * N * N)%type.
(** the event makes the factory forget property p of object h *)
Definition announces (e : event) (h p : N) : Prop :=
  let '(ev, p0, p1) := e in
  p0 = h /\ ((ev = EV_ObjectPropChanged /\ (p1 = p \/ p1 = 0)) \/ ev = EV_ObjectInfoChanged \/ ev = EV_ObjectRemoved).
Definition announced (l : list event) (h p : N) : Prop := exists e, In e l /\ announces e h p.
(** the value a list of (property, value) pairs gives to p: the last one *)
Fixpoint last_of (p : N) (l : list (N * variant)) : option variant :=
  match l with [] => None | (q, v) :: r => match last_of p r with Some x => Some x | None => if p =? q then Some v else None end end.

Section C.
Context {W : Type}.
Variable owns : W -> N -> N -> bool.
Variable exec : W -> N -> pcall -> W * pres.
(** what the storages would report now; None: no such object or property *)
Variable val : W -> N -> N -> option variant.
(** all events raised so far *)
Variable raised : W -> list event.
(** the handles given out so far, including those of objects that are gone *)
Variable given : W -> N -> Prop.

(** Changes a call is meant to make, and that the factory accounts for. *)
Definition meant (c : pcall) (r : pres) (h p : N) : Prop :=
  match c with
  | PDelete h' _ => h = h'
  | PMove h' _ _ => pr_resp r = RESP_OK /\ h = h' /\ p = PROP_Parent_Obj
  | PSetProps h' l _ => pr_resp r = RESP_OK /\ h = h' /\ In p (map fst l)
  | PWrite h' _ _ _ | PWritePartial h' _ _ _ _ | PTruncate h' _ => h = h'
  | _ => False
  end.
(** the value is unchanged, or gone, or that of a new object *)
Definition kept (w w' : W) (h p : N) : Prop := val w' h p = val w h p \/ val w' h p = None \/ ~ given w h.
(** A storage that says what it does: changes are meant, or announced, or concern new or
    vanished objects; values reported are current; a value set successfully is the current one. *)
Record honest : Prop := {
  ho_raised : forall w id c, exists l, raised (fst (exec w id c)) = raised w ++ l /\
    forall h p, kept w (fst (exec w id c)) h p \/ announced l h p \/ meant c (snd (exec w id c)) h p;
  ho_given : forall w id c h, given w h -> given (fst (exec w id c)) h;
  ho_val : forall w h p, val w h p <> None -> given w h;
  ho_props : forall w id h ps, pr_resp (snd (exec w id (PProps h ps))) = RESP_OK ->
    Forall2 (fun p v => val (fst (exec w id (PProps h ps))) h p = Some v) ps (pr_vals (snd (exec w id (PProps h ps))));
  ho_children : forall w id q ps, pr_resp (snd (exec w id (PChildProps q ps))) = RESP_OK ->
    forall h vs, In (h, vs) (pr_childvals (snd (exec w id (PChildProps q ps)))) ->
      Forall2 (fun p v => val (fst (exec w id (PChildProps q ps))) h p = Some v) ps vs;
  ho_set : forall w id h l b, pr_resp (snd (exec w id (PSetProps h l b))) = RESP_OK ->
    forall p v, last_of p l = Some v -> val (fst (exec w id (PSetProps h l b))) h p = Some v }.
(** a storage changing on its own: it announces what it changes *)
Definition on_its_own (w w' : W) : Prop := exists l, raised w' = raised w ++ l /\
  (forall h, given w h -> given w' h) /\ forall h p, kept w w' h p \/ announced l h p.

(** ** Histories *)
(** The factory, how many of the events have been delivered to it, and which objects were
    written to since the factory last forgot them. *)
Record hist := mk_hist { hi_f : @fstate W; hi_seen : nat; hi_written : list N }.
Definition pending (s : hist) : list event := skipn (hi_seen s) (raised (f_world (hi_f s))).
Definition writes (q : freq) : list N := match q with FWrite h _ _ _ | FWritePartial h _ _ _ _ | FTruncate h _ => [h] | _ => [] end.
Definition drop_handle (h : N) (l : list N) : list N := filter (fun x => negb (x =? h)) l.
Inductive happens : hist -> hist -> Prop :=
| ha_request q s : happens s (mk_hist (fst (f_exec owns exec (hi_f s) q)) (hi_seen s) (writes q ++ hi_written s))
| ha_read fuel h l s f' c l' : f_get_props owns exec fuel (hi_f s) h l = Some (f', (c, l')) -> happens s (mk_hist f' (hi_seen s) (hi_written s))
| ha_flush h s : happens s (mk_hist (f_flush (hi_f s) h) (hi_seen s) (drop_handle h (hi_written s)))
| ha_deliver ev p0 p1 s : nth_error (raised (f_world (hi_f s))) (hi_seen s) = Some (ev, p0, p1) ->
    happens s (mk_hist (f_event (hi_f s) ev p0 p1) (S (hi_seen s)) (hi_written s))
| ha_own w' s : on_its_own (f_world (hi_f s)) w' -> happens s (mk_hist (f_setw (hi_f s) w' (f_log (hi_f s))) (hi_seen s) (hi_written s)).
Inductive history : hist -> Prop :=
| hy_start f : f_cache f = [] -> history (mk_hist f (length (raised (f_world f))) [])
| hy_step s s' : history s -> happens s s' -> history s'.
(** a value is current, or its object is gone, or its change is announced and the announcement
    is on its way, or the object was written to and not yet forgotten *)
Definition current (f : @fstate W) (k : nat) (wr : list N) (h p : N) (v : variant) : Prop :=
  (val (f_world f) h p = Some v \/ val (f_world f) h p = None) \/ announced (skipn k (raised (f_world f))) h p \/ In h wr.

(** ** Proofs *)
Hypothesis HO : honest.
Definition Inv (X : N -> N -> Prop) (f : @fstate W) (k : nat) (wr : list N) : Prop :=
  (k <= length (raised (f_world f)))%nat /\ forall h p v, pc_get (f_cache f) h p = Some v -> given (f_world f) h /\ (current f k wr h p v \/ X h p).
Definition no : N -> N -> Prop := fun _ _ => False.

Lemma announced_app_l a b h p : announced a h p -> announced (a ++ b) h p.
Proof. intros (e & H & A). exists e. split; [apply in_or_app; left; exact H|exact A]. Qed.
Lemma announced_app_r a b h p : announced b h p -> announced (a ++ b) h p.
Proof. intros (e & H & A). exists e. split; [apply in_or_app; right; exact H|exact A]. Qed.
Lemma world_inv (X : N -> N -> Prop) f k wr w' g l (Y : N -> N -> Prop) : Inv X f k wr -> raised w' = raised (f_world f) ++ l ->
  (forall h, given (f_world f) h -> given w' h) -> (forall h p, kept (f_world f) w' h p \/ announced l h p \/ Y h p) ->
  f_world g = w' -> f_cache g = f_cache f -> Inv (fun h p => X h p \/ Y h p) g k wr.
Proof.
  intros [K I] R GV C EW EC. unfold Inv, current. rewrite EW, EC, R. split; [rewrite app_length; lia|]. intros h p v G. rewrite skipn_app. replace (k - length (raised (f_world f)))%nat with 0%nat by lia. cbn [skipn].
  destruct (I h p v G) as [GG A0]. split; [apply GV; exact GG|]. destruct A0 as [[A|[A|A]]|A].
  - destruct (C h p) as [[B|[B|B]]|[B|B]]; [left; left; rewrite B; exact A|left; left; right; exact B|contradiction|left; right; left; apply announced_app_r; exact B|right; right; exact B].
  - left; right; left. apply announced_app_l. exact A.
  - left; right; right. exact A.
  - right; left; exact A.
Qed.
Lemma call_inv (X : N -> N -> Prop) f k wr id c : Inv X f k wr -> Inv (fun h p => X h p \/ meant c (snd (f_call exec f id c)) h p) (fst (f_call exec f id c)) k wr.
Proof.
  intros I. destruct (ho_raised HO (f_world f) id c) as (l & R & C). pose proof (ho_given HO (f_world f) id c) as GV. rewrite f_call_res. apply (world_inv X f k wr (fst (exec (f_world f) id c)) _ l); [exact I|exact R|exact GV|exact C| |].
  - apply f_call_world.
  - unfold f_call. destruct (exec _ _ _). reflexivity.
Qed.
Lemma weaken (X Y : N -> N -> Prop) f k wr : (forall h p, X h p -> Y h p) -> Inv X f k wr -> Inv Y f k wr.
Proof. intros H [K I]. split; [exact K|]. intros h p v G. destruct (I h p v G) as [GG A0]. split; [exact GG|]. destruct A0 as [A|A]; [left; exact A|right; apply H; exact A]. Qed.
Lemma weaken_wr (X : N -> N -> Prop) f k wr wr' : (forall h, In h wr -> In h wr') -> Inv X f k wr -> Inv X f k wr'.
Proof. intros H [K I]. split; [exact K|]. intros h p v G. destruct (I h p v G) as [GG A0]. split; [exact GG|]. destruct A0 as [[A|[A|A]]|A]; [left; left; exact A|left; right; left; exact A|left; right; right; auto|right; exact A]. Qed.
Lemma to_written (X : N -> N -> Prop) f k wr h0 : Inv X f k wr -> Inv (fun h p => X h p /\ h <> h0) f k (h0 :: wr).
Proof.
  intros [K I]. split; [exact K|]. intros h p v G. destruct (I h p v G) as [GG A0]. split; [exact GG|]. destruct A0 as [[A|[A|A]]|A]; [left; left; exact A|left; right; left; exact A|left; right; right; right; exact A|].
  destruct (N.eq_dec h h0) as [->|N1]; [left; right; right; left; reflexivity|right; auto].
Qed.
Lemma setc_inv (X : N -> N -> Prop) f k wr c : (forall h p v, pc_get c h p = Some v -> (pc_get (f_cache f) h p = Some v /\ ~ X h p) \/ val (f_world f) h p = Some v) -> Inv X f k wr -> Inv no (f_setc f c) k wr.
Proof.
  intros H [K I]. split; [exact K|]. intros h p v G. cbn [f_cache f_setc] in G. destruct (H h p v G) as [[A N1]|A]; [|split; [apply (ho_val HO) with p; cbn [f_world f_setc]; congruence|left; left; left; exact A]].
  destruct (I h p v A) as [GG [B|B]]; [split; [exact GG|left; exact B]|contradiction].
Qed.
Lemma remove_inv (X : N -> N -> Prop) f k wr h0 p0 : (forall h p, X h p -> h = h0 /\ (p = p0 \/ p0 = 0)) -> Inv X f k wr -> Inv no (f_setc f (pc_remove (f_cache f) h0 p0)) k wr.
Proof.
  intros H. apply setc_inv. intros h p v G. rewrite pc_get_remove in G. destruct ((h =? h0) && ((p =? p0) || (p0 =? 0))) eqn:E; [discriminate|]. left. split; [exact G|].
  intros X0. destruct (H h p X0) as [-> H2]. rewrite N.eqb_refl in E. cbn [andb] in E. apply orb_false_iff in E as [E1 E2]. destruct H2 as [->| ->]; [rewrite N.eqb_refl in E1|rewrite N.eqb_refl in E2]; discriminate.
Qed.
Lemma pc_get_add_list c h0 l h p : pc_get (pc_add_list c h0 l) h p = if h =? h0 then match last_of p l with Some v => Some v | None => pc_get c h p end else pc_get c h p.
Proof.
  revert c. induction l as [|[q v] l IH]; intros c; cbn [pc_add_list last_of]; [destruct (h =? h0); reflexivity|]. rewrite IH, pc_get_add. destruct (h =? h0); cbn [andb]; [|reflexivity]. destruct (last_of p l); [reflexivity|]. destruct (p =? q); reflexivity.
Qed.
Lemma last_of_in p l v : last_of p l = Some v -> In (p, v) l.
Proof. induction l as [|[q w] l IH]; cbn [last_of]; [discriminate|]. destruct (last_of p l) eqn:E; [intros H; right; apply IH; exact H|]. destruct (p =? q) eqn:Q; [|discriminate]. apply N.eqb_eq in Q. subst q. intros H. left. congruence. Qed.
Lemma last_of_some p l : In p (map fst l) -> exists v, last_of p l = Some v.
Proof. induction l as [|[q w] l IH]; cbn [map In fst last_of]; [tauto|]. intros [->|H]; [destruct (last_of p l); [eauto|rewrite N.eqb_refl; eauto]|]. destruct (IH H) as [v ->]. eauto. Qed.
Lemma add_inv (X : N -> N -> Prop) f k wr h0 l : (forall h p, X h p -> h = h0 /\ In p (map fst l)) -> (forall p v, last_of p l = Some v -> val (f_world f) h0 p = Some v) ->
  Inv X f k wr -> Inv no (f_setc f (pc_add_list (f_cache f) h0 l)) k wr.
Proof.
  intros H L. apply setc_inv. intros h p v G. rewrite pc_get_add_list in G. destruct (h =? h0) eqn:E.
  - apply N.eqb_eq in E. subst h0. destruct (last_of p l) as [w|] eqn:Q; [injection G as <-; right; apply L; exact Q|]. left. split; [exact G|]. intros X0. destruct (H h p X0) as [_ H2]. apply last_of_some in H2 as [w Q2]. congruence.
  - left. split; [exact G|]. intros X0. destruct (H h p X0) as [-> _]. rewrite N.eqb_refl in E. discriminate.
Qed.
Lemma same_inv (X : N -> N -> Prop) f g k wr : f_world g = f_world f -> f_cache g = f_cache f -> Inv X f k wr -> Inv X g k wr.
Proof. intros E1 E2 [K I]. unfold Inv, current in *. rewrite E1, E2. split; [exact K|exact I]. Qed.

Lemma by_handle_inv f k wr h c : (forall r h p, ~ meant c r h p) -> Inv no f k wr -> Inv no (fst (f_by_handle owns exec f h c)) k wr.
Proof. intros M I. unfold f_by_handle. destruct (storage_of owns f h) as [id|]; [|exact I]. eapply weaken; [|apply call_inv; exact I]. cbv beta. intros x p [[]|A]. exact (M _ _ _ A). Qed.
Lemma by_handle_write f k wr h c h0 : (forall r x p, meant c r x p -> x = h0) -> Inv no f k wr -> Inv no (fst (f_by_handle owns exec f h c)) k (h0 :: wr).
Proof.
  intros M I. unfold f_by_handle. destruct (storage_of owns f h) as [id|]; [|eapply weaken_wr; [|exact I]; intros; right; assumption].
  eapply weaken; [|apply to_written, call_inv; exact I]. cbv beta. intros x p [[[]|A] N1]. apply N1. eapply M. exact A.
Qed.
Lemma by_id_inv f k wr id c : (forall r h p, ~ meant c r h p) -> Inv no f k wr -> Inv no (fst (f_by_id exec f id c)) k wr.
Proof. intros M I. unfold f_by_id. destruct (f_has f id); [|exact I]. eapply weaken; [|apply call_inv; exact I]. cbv beta. intros x p [[]|A]. exact (M _ _ _ A). Qed.
Lemma delete_loop_inv h fmt ids : forall f k wr r, Inv (fun x p => x = h) f k wr -> Inv (fun x p => x = h) (fst (f_delete_loop owns exec ids f h fmt r)) k wr.
Proof.
  induction ids as [|id ids IH]; intros f k wr r I; cbn [f_delete_loop]; [exact I|]. destruct ((h =? 0xFFFFFFFF) || owns (f_world f) id h); [|apply IH; exact I].
  pose proof (call_inv _ f k wr id (PDelete h fmt) I) as J. destruct (f_call exec f id (PDelete h fmt)) as [f1 r1]. cbn [fst snd] in J.
  assert (J' : Inv (fun x p => x = h) f1 k wr) by (eapply weaken; [|exact J]; cbv beta; intros x p [A|A]; exact A). destruct (h =? 0xFFFFFFFF); [apply IH|]; exact J'.
Qed.
Lemma delete_inv f k wr h fmt : Inv no f k wr -> Inv no (fst (f_delete owns exec f h fmt)) k wr.
Proof.
  intros I. unfold f_delete. pose proof (delete_loop_inv h fmt (f_ids f) f k wr (pfail RESP_GeneralError)) as J. destruct (f_delete_loop _ _ _ _ _ _ _) as [f1 r]. cbn [fst] in *.
  apply (remove_inv (fun x p => x = h)); [intros x p ->; auto|]. apply J. eapply weaken; [|exact I]. intros x p [].
Qed.
Lemma handles_loop_inv fmt assoc ids : forall f k wr resp acc, Inv no f k wr -> Inv no (fst (f_handles_loop exec ids f fmt assoc resp acc)) k wr.
Proof.
  induction ids as [|id ids IH]; intros f k wr resp acc I; cbn [f_handles_loop]; [exact I|].
  pose proof (call_inv _ f k wr id (PHandles fmt assoc) I) as J. destruct (f_call exec f id (PHandles fmt assoc)) as [f1 r1]. cbn [fst snd] in J.
  assert (J' : Inv no f1 k wr) by (eapply weaken; [|exact J]; cbv beta; intros x p [[]|[]]). destruct (pr_resp r1 =? RESP_OK); [apply IH|]; exact J'.
Qed.
Lemma exec_inv f k wr q : Inv no f k wr -> Inv no (fst (f_exec owns exec f q)) k (writes q ++ wr).
Proof.
  intros I. destruct q; cbn [f_exec writes app].
  - unfold f_addItem. set (i := if id =? 0 then assign_storage_id 1 1 else id). destruct (f_has f i); [|exact I]. cbn [fst]. eapply weaken; [|apply call_inv; exact I]. cbv beta. intros x p [[]|[]].
  - apply delete_inv. exact I.
  - unfold f_handles. destruct (id =? 0xFFFFFFFF).
    + pose proof (handles_loop_inv fmt assoc (f_ids f) f k wr RESP_InvalidStorageID [] I) as J. destruct (f_handles_loop _ _ _ _ _ _ _) as [f1 [c l]]. exact J.
    + pose proof (by_id_inv f k wr id (PHandles fmt assoc) ltac:(intros r h p []) I) as J. destruct (f_by_id _ _ _ _) as [f1 r]. exact J.
  - apply by_id_inv; [intros r h p []|exact I].
  - apply by_handle_inv; [intros r x p []|exact I].
  - apply by_handle_inv; [intros r x p []|exact I].
  - unfold f_copy. destruct (negb (f_has f dst)); [exact I|]. destruct (storage_of owns f h) as [id|]; [|exact I].
    pose proof (call_inv _ f k wr id (PCopy h parent dst) I) as J. destruct (f_call exec f id (PCopy h parent dst)) as [f1 r1]. cbn [fst snd] in J.
    assert (J' : Inv no f1 k wr) by (eapply weaken; [|exact J]; cbv beta; intros x p [[]|[]]). destruct (pr_resp r1 =? RESP_StoreFull); [|exact J']. cbn [fst]. apply delete_inv. exact J'.
  - unfold f_move. destruct (negb (f_has f dst)); [exact I|]. destruct (storage_of owns f h) as [id|]; [|exact I].
    pose proof (call_inv _ f k wr id (PMove h parent dst) I) as J. destruct (f_call exec f id (PMove h parent dst)) as [f1 r1]. cbn [fst snd] in J.
    destruct (pr_resp r1 =? RESP_OK) eqn:OK; cbn [fst].
    + eapply remove_inv; [|exact J]. cbv beta. intros x p [[]|(_ & -> & ->)]. auto.
    + eapply weaken; [|exact J]. cbv beta. intros x p [[]|(E & _)]. rewrite E in OK. discriminate.
  - apply by_handle_inv; [intros r x p []|exact I].
  - apply by_handle_inv; [intros r x p []|exact I].
  - apply by_handle_inv; [intros r x p []|exact I].
  - apply by_handle_inv; [intros r x p []|exact I].
  - apply by_handle_write; [intros r x p E; exact E|exact I].
  - apply by_handle_write; [intros r x p E; exact E|exact I].
  - apply by_handle_write; [intros r x p E; exact E|exact I].
  - apply by_handle_inv; [intros r x p []|exact I].
  - unfold f_set_props. destruct (storage_of owns f h) as [id|]; [|exact I].
    pose proof (call_inv _ f k wr id (PSetProps h vals spl) I) as J. pose proof (f_call_world exec f id (PSetProps h vals spl)) as EW. pose proof (f_call_res exec f id (PSetProps h vals spl)) as ER. destruct (f_call exec f id (PSetProps h vals spl)) as [f1 r1]. cbn [fst snd] in *.
    destruct (pr_resp r1 =? RESP_OK) eqn:OK; cbn [fst].
    + eapply add_inv; [| |exact J]; [cbv beta; intros x p [[]|(_ & -> & B)]; auto|]. intros p v L. rewrite EW. apply (ho_set HO); [rewrite <- ER; apply N.eqb_eq; exact OK|exact L].
    + eapply weaken; [|exact J]. cbv beta. intros x p [[]|(E & _)]. rewrite E in OK. discriminate.
Qed.
Lemma Forall2_combine {A B} (P : A -> B -> Prop) l m : Forall2 P l m -> forall x y, In (x, y) (combine l m) -> P x y.
Proof. induction 1 as [|a b l m H F IH]; cbn [combine In]; [tauto|]. intros x y [E|E]; [injection E as <- <-; exact H|auto]. Qed.
Lemma feed_inv f k wr ps cv : (forall h vs, In (h, vs) cv -> Forall2 (fun p v => val (f_world f) h p = Some v) ps vs) -> Inv no f k wr -> Inv no (f_setc f (f_feed (f_cache f) ps cv)) k wr.
Proof.
  unfold f_feed. revert f. induction cv as [|[h vs] cv IH]; intros f H I; cbn [fold_left].
  - eapply same_inv; [| |exact I]; reflexivity.
  - assert (J : Inv no (f_setc f (pc_add_list (f_cache f) h (combine ps vs))) k wr).
    { eapply add_inv; [| |exact I]; [intros x p []|]. intros p v L. apply last_of_in in L. revert p v L. apply Forall2_combine. apply H. left. reflexivity. }
    specialize (IH (f_setc f (pc_add_list (f_cache f) h (combine ps vs)))). cbn [f_cache f_world f_setc fst snd] in IH. eapply same_inv; [| |apply IH; [intros x us Hx; apply H; right; exact Hx|exact J]]; reflexivity.
Qed.
Lemma get_list_found (c : @pcache variant) h (l : list (N * variant)) p v : In (p, v) (fst (pc_get_list c h l)) -> pc_get c h p = Some v.
Proof. destruct (pc_get_list_spec c h l) as (_ & A & _). apply A. Qed.
Lemma get_list_notfound (c : @pcache variant) h (l : list (N * variant)) p : In p (map fst (snd (pc_get_list c h l))) -> pc_get c h p = None.
Proof.
  destruct (pc_get_list_spec c h l) as (_ & _ & A). rewrite A. intros H. apply in_map_iff in H as ((q & v) & <- & H). apply filter_In in H as [_ H]. cbn [fst] in *. destruct (pc_get c h q); [discriminate|reflexivity].
Qed.
Lemma read_inv fuel : forall f k wr h l f' c l', Inv no f k wr -> f_get_props owns exec fuel f h l = Some (f', (c, l')) ->
  Inv no f' k wr /\ (c = RESP_OK -> forall p v, In (p, v) l' -> current f' k wr h p v).
Proof.
  induction fuel as [|fuel IH]; intros f k wr h l f' c l' I E; cbn [f_get_props] in E; [discriminate|].
  pose proof (get_list_found (f_cache f) h l) as GF. pose proof (get_list_notfound (f_cache f) h l) as GN. destruct (pc_get_list (f_cache f) h l) as [found nf]. cbn [fst snd] in GF, GN.
  assert (CACHED : forall g, Inv no g k wr -> (forall p v, In (p, v) found -> pc_get (f_cache g) h p = Some v) -> forall p v, In (p, v) found -> current g k wr h p v).
  { intros g [_ J] Hg p v Hp. destruct (J h p v (Hg p v Hp)) as [_ [A|[]]]. exact A. }
  destruct nf as [|x nf0] eqn:NF.
  { injection E as <- <- <-. split; [exact I|]. intros _. apply CACHED; [exact I|exact GF]. }
  rewrite <- NF in *. assert (NN : nf <> []) by (rewrite NF; discriminate). clear NF x nf0.
  destruct (storage_of owns f h) as [id|]; [|injection E as <- <- <-; split; [exact I|discriminate]].
  pose proof (call_inv _ f k wr id (PObjInfo h) I) as J1. assert (C1 : f_cache (fst (f_call exec f id (PObjInfo h))) = f_cache f) by (unfold f_call; destruct (exec _ _ _); reflexivity).
  destruct (f_call exec f id (PObjInfo h)) as [f1 r1]. cbn [fst snd] in *.
  assert (I1 : Inv no f1 k wr) by (eapply weaken; [|exact J1]; cbv beta; intros x p [[]|[]]). clear J1.
  destruct (negb (pr_resp r1 =? RESP_OK)) eqn:OK1; [injection E as <- <- <-; split; [exact I1|]; intros Z; rewrite Z in OK1; discriminate|].
  destruct (existsb (N.eqb (pr_parent r1)) (f_massq f1) || (h =? 0)).
  - pose proof (call_inv _ f1 k wr id (PProps h (map fst nf)) I1) as J2. pose proof (f_call_world exec f1 id (PProps h (map fst nf))) as EW. pose proof (f_call_res exec f1 id (PProps h (map fst nf))) as ER.
    assert (C2 : f_cache (fst (f_call exec f1 id (PProps h (map fst nf)))) = f_cache f1) by (unfold f_call; destruct (exec _ _ _); reflexivity).
    destruct (f_call exec f1 id (PProps h (map fst nf))) as [f2 r2]. cbn [fst snd] in *. assert (I2 : Inv no f2 k wr) by (eapply weaken; [|exact J2]; cbv beta; intros x p [[]|[]]).
    destruct (pr_resp r2 =? RESP_OK) eqn:OK2; [|injection E as <- <- <-; split; [exact I2|]; intros X; rewrite X in OK2; discriminate].
    cbv zeta in E. apply (f_equal (fun o => match o with Some x => x | None => (f, (c, l')) end)) in E. pose proof (f_equal fst E) as E1. pose proof (f_equal (fun x => snd (snd x)) E) as E2. cbn [fst snd] in E1, E2. subst f' l'. clear E.
    assert (V : forall p v, In (p, v) (combine (map fst nf) (pr_vals r2)) -> val (f_world f2) h p = Some v).
    { apply Forall2_combine. rewrite EW, ER. apply (ho_props HO). rewrite <- ER. apply N.eqb_eq. exact OK2. }
    assert (I3 : Inv no (f_setc f2 (pc_add_list (f_cache f2) h (combine (map fst nf) (pr_vals r2)))) k wr).
    { eapply add_inv; [| |exact I2]; [intros x p []|]. intros p v L. apply V, last_of_in, L. }
    split; [exact I3|]. intros _ p v Hp. apply in_app_or in Hp as [Hp|Hp]; [|left; left; apply V; exact Hp].
    revert p v Hp. apply CACHED; [exact I3|]. intros p v Hp. cbn [f_cache f_setc]. rewrite pc_get_add_list, N.eqb_refl, C2, C1. specialize (GF p v Hp).
    destruct (last_of p (combine (map fst nf) (pr_vals r2))) as [w|] eqn:L; [|exact GF]. apply last_of_in in L. apply in_combine_l in L. rewrite (GN p L) in GF. discriminate.
  - pose proof (call_inv _ f1 k wr id (PChildProps (pr_parent r1) (map fst nf)) I1) as J2. pose proof (f_call_world exec f1 id (PChildProps (pr_parent r1) (map fst nf))) as EW. pose proof (f_call_res exec f1 id (PChildProps (pr_parent r1) (map fst nf))) as ER.
    destruct (f_call exec f1 id (PChildProps (pr_parent r1) (map fst nf))) as [f2 r2]. cbn [fst snd] in *. assert (I2 : Inv no f2 k wr) by (eapply weaken; [|exact J2]; cbv beta; intros x p [[]|[]]).
    destruct (negb (pr_resp r2 =? RESP_OK)) eqn:OK2; [injection E as <- <- <-; split; [exact I2|]; intros X; rewrite X in OK2; discriminate|].
    cbv zeta in E. apply (IH _ k wr _ _ _ _ _) in E; [exact E|]. apply feed_inv; [|eapply same_inv; [| |exact I2]; reflexivity].
    intros x vs Hx. cbn [f_world f_setm]. rewrite EW. apply (ho_children HO); rewrite <- ER; [apply negb_false_iff in OK2; apply N.eqb_eq; exact OK2|exact Hx].
Qed.
Lemma event_inv f k wr ev p0 p1 : nth_error (raised (f_world f)) k = Some (ev, p0, p1) -> Inv no f k wr -> Inv no (f_event f ev p0 p1) (S k) wr.
Proof.
  intros E [K I]. assert (LT : (k < length (raised (f_world f)))%nat) by (apply nth_error_Some; congruence).
  assert (SK : skipn k (raised (f_world f)) = (ev, p0, p1) :: skipn (S k) (raised (f_world f))).
  { clear -E. revert k E. generalize (raised (f_world f)). induction l as [|x l IH]; intros k E; [destruct k; discriminate|]. destruct k; [cbn in E; injection E as ->; reflexivity|]. cbn [nth_error] in E. cbn [skipn]. apply IH in E. rewrite E. reflexivity. }
  assert (G : forall h p v, pc_get (f_cache f) h p = Some v -> given (f_world f) h /\ (current f (S k) wr h p v \/ announces (ev, p0, p1) h p)).
  { intros h p v H. destruct (I h p v H) as [GG A0]. split; [exact GG|]. destruct A0 as [[A|[A|A]]|[]]; [left; left; exact A| |left; right; right; exact A]. rewrite SK in A. destruct A as (e & [<-|Hin] & An); [right; exact An|left; right; left; exists e; auto]. }
  assert (BASE : Inv (fun h p => announces (ev, p0, p1) h p) f (S k) wr) by (split; [exact LT|exact G]).
  unfold f_event. destruct (ev =? EV_ObjectPropChanged) eqn:E1; [|destruct (ev =? EV_ObjectInfoChanged) eqn:E2; [|destruct (ev =? EV_ObjectRemoved) eqn:E3]].
  - eapply remove_inv; [|exact BASE]. intros h p (-> & A). apply N.eqb_eq in E1. subst ev. split; [reflexivity|]. destruct A as [(_ & [->|A])|[A|A]]; auto; discriminate.
  - unfold f_flush. eapply remove_inv; [|exact BASE]. intros h p (-> & _). auto.
  - eapply same_inv; [| |eapply (remove_inv _ f (S k) wr p0 0); [|exact BASE]]; [reflexivity|reflexivity|]. intros h p (-> & _). auto.
  - eapply weaken; [|exact BASE]. intros h p (_ & [(-> & _)|[->| ->]]); rewrite ?N.eqb_refl in *; discriminate.
Qed.
Lemma flush_inv f k wr h : Inv no f k wr -> Inv no (f_flush f h) k (drop_handle h wr).
Proof.
  intros I. unfold f_flush. assert (J : Inv no (f_setc f (pc_remove (f_cache f) h 0)) k wr) by (eapply remove_inv; [|exact I]; intros x p []). destruct J as [K J]. split; [exact K|]. intros x p v G.
  destruct (J x p v G) as [GG A0]. split; [exact GG|]. destruct A0 as [[A|[A|A]]|[]]; [left; left; exact A|left; right; left; exact A|]. left; right; right. unfold drop_handle. apply filter_In. split; [exact A|]. apply negb_true_iff, N.eqb_neq. intros ->.
  cbn [f_cache f_setc] in G. rewrite pc_get_remove, N.eqb_refl in G. change (0 =? 0) with true in G. rewrite orb_true_r in G. discriminate.
Qed.
Theorem history_inv s : history s -> Inv no (hi_f s) (hi_seen s) (hi_written s).
Proof.
  induction 1 as [f E|s s' H IH S].
  - split; [reflexivity|]. intros h p v G. cbn [hi_f] in G. rewrite E in G. discriminate.
  - destruct S as [q s|fuel h l s f' c l' E|h s|ev p0 p1 s E|w' s (l & R & GV & C)]; cbn [hi_f hi_seen hi_written].
    + apply exec_inv. exact IH.
    + exact (proj1 (read_inv fuel _ _ _ _ _ _ _ _ IH E)).
    + apply flush_inv. exact IH.
    + apply event_inv; assumption.
    + eapply weaken; [|apply (world_inv no (hi_f s) (hi_seen s) (hi_written s) w' _ l no IH R GV); [|reflexivity|reflexivity]]; [intros h p [[]|[]]|]. intros h p. destruct (C h p) as [A|A]; auto.
Qed.
End C.
