(** C57: property values answered from the cache. *)
From Verif Require Import Base AList PropCache PropCacheProofs Wire Factory FactoryProofs Coherence FS FSSpec FSDemo FSProps FSPlugin.

Section Claim.
Context {W : Type}.
Variables (owns : W -> N -> N -> bool) (exec : W -> N -> pcall -> W * pres) (val : W -> N -> N -> option variant) (raised : W -> list event) (given : W -> N -> Prop).
(** For storages that keep their side ([honest]) and every history of requests, reads, events
    and changes of the storages: an answer to a read is what the storage reports now, unless the
    object no longer exists, or a change of it has been announced and the announcement is
    still on its way to the factory, or the object was written to and not flushed since. *)
Theorem C57_answers_partial : honest exec val raised given -> forall s fuel h l f' c l', history owns exec val raised given s ->
  f_get_props owns exec fuel (hi_f s) h l = Some (f', (c, l')) -> c = RESP_OK -> forall p v, In (p, v) l' ->
  val (f_world f') h p = Some v \/ val (f_world f') h p = None \/ announced (skipn (hi_seen s) (raised (f_world f'))) h p \/ In h (hi_written s).
Proof.
  intros HO s fuel h l f' c l' H E OK p v Hp. pose proof (history_inv owns exec val raised given HO s H) as I. destruct (read_inv owns exec val raised given HO fuel _ _ _ _ _ _ _ _ I E) as [_ A].
  destruct (A OK p v Hp) as [[B|B]|[B|B]]; auto.
Qed.
(** with every event delivered and no unflushed write, answers about existing objects are
    the storage's own *)
Theorem C57_settled_partial : honest exec val raised given -> forall s fuel h l f' c l', history owns exec val raised given s ->
  f_get_props owns exec fuel (hi_f s) h l = Some (f', (c, l')) -> c = RESP_OK -> ~ In h (hi_written s) ->
  skipn (hi_seen s) (raised (f_world f')) = [] -> forall p v, In (p, v) l' -> val (f_world f') h p <> None -> val (f_world f') h p = Some v.
Proof.
  intros HO s fuel h l f' c l' H E OK NW NP p v Hp NN. destruct (C57_answers_partial HO s fuel h l f' c l' H E OK p v Hp) as [A|[A|[(e & A & _)|A]]]; [exact A|contradiction| |contradiction]. rewrite NP in A. contradiction.
Qed.
(** the same for everything that is in the cache *)
Theorem C57_cache_partial : honest exec val raised given -> forall s h p v, history owns exec val raised given s -> pc_get (f_cache (hi_f s)) h p = Some v ->
  val (f_world (hi_f s)) h p = Some v \/ val (f_world (hi_f s)) h p = None \/ announced (skipn (hi_seen s) (raised (f_world (hi_f s)))) h p \/ In h (hi_written s).
Proof.
  intros HO s h p v H G. destruct (history_inv owns exec val raised given HO s H) as [_ I]. destruct (I h p v G) as [_ [[[B|B]|[B|B]]|[]]]; auto.
Qed.
End Claim.

(** ** A storage that keeps its side: one object, its size *)
Definition toy := (N * list event)%type.
Definition toy_val (w : toy) (h p : N) : option variant := if (h =? 1) && (p =? 0xDC04) then Some (VInt (fst w)) else None.
Definition toy_exec (w : toy) (id : N) (c : pcall) : toy * pres :=
  match c with
  | PObjInfo h => (w, pfail (if h =? 1 then RESP_OK else RESP_GeneralError))
  | PProps h ps => if (h =? 1) && forallb (N.eqb 0xDC04) ps then (w, pres_with RESP_OK 0 0 [] (map (fun _ => VInt (fst w)) ps) [] []) else (w, pfail RESP_GeneralError)
  | PChildProps 0 ps => if forallb (N.eqb 0xDC04) ps then (w, pres_with RESP_OK 0 0 [] [] [(1, map (fun _ => VInt (fst w)) ps)] []) else (w, pfail RESP_GeneralError)
  | PTruncate h n => if h =? 1 then ((n, snd w), pfail RESP_OK) else (w, pfail RESP_GeneralError)
  | _ => (w, pfail RESP_GeneralError)
  end.
Definition toy_owns (w : toy) (id h : N) : bool := h =? 1.
Definition toy_given (w : toy) (h : N) : Prop := h = 1.
Lemma toy_F2 (w w0 : toy) ps : forallb (N.eqb 0xDC04) ps = true -> w0 = w -> Forall2 (fun p v => toy_val w0 1 p = Some v) ps (map (fun _ => VInt (fst w)) ps).
Proof. intros H ->. induction ps as [|p ps IH]; [constructor|]. cbn [forallb map] in *. apply andb_true_iff in H as [A B]. apply N.eqb_eq in A. subst p. constructor; [reflexivity|apply IH; exact B]. Qed.
Lemma toy_honest : honest toy_exec toy_val snd toy_given.
Proof.
  constructor.
  - intros w id c. assert (D : fst (toy_exec w id c) = w \/ exists n, c = PTruncate 1 n /\ fst (toy_exec w id c) = (n, snd w)).
    { destruct c; cbn [toy_exec]; auto. - destruct (h =? 1) eqn:E; [right; apply N.eqb_eq in E; subst h; eauto|left; reflexivity]. - destruct (_ && _); auto. - destruct h; [destruct (forallb _ _)|]; auto. }
    exists []. rewrite app_nil_r. destruct D as [D|(n & -> & D)].
    + rewrite D. split; [reflexivity|]. intros h p. left. left. reflexivity.
    + rewrite D. split; [reflexivity|]. intros h p. destruct (N.eq_dec h 1) as [->|Nh]; [right; right; reflexivity|]. left. left. unfold toy_val. apply N.eqb_neq in Nh. rewrite Nh. reflexivity.
  - intros w id c h H. exact H.
  - intros w h p H. unfold toy_val in H. destruct (h =? 1) eqn:E; [apply N.eqb_eq in E; exact E|cbn [andb] in H; contradiction].
  - intros w id h ps H. cbn [toy_exec] in *. destruct ((h =? 1) && forallb (N.eqb 0xDC04) ps) eqn:E; cbn [fst snd] in *; [|discriminate]. apply andb_true_iff in E as [E1 E2]. apply N.eqb_eq in E1. subst h. cbn [pr_vals pres_with]. apply toy_F2; auto.
  - intros w id q ps H h vs Hin. cbn [toy_exec] in *. destruct q; [destruct (forallb (N.eqb 0xDC04) ps) eqn:E|]; cbn [fst snd] in *; try discriminate. destruct Hin as [Hin|[]]. injection Hin as <- <-. apply toy_F2; auto.
  - intros w id h l b H. cbn in H. discriminate.
Qed.
Definition f_of {W} (w : W) : @fstate W := {| f_ids := [1]; f_world := w; f_cache := []; f_massq := []; f_log := [] |}.
(** size 5 is read, the storage changes it to 7 and says so: until the event arrives the
    answer is the old one, then the new one *)
Definition read1 (s : @fstate toy) : @fstate toy := match f_get_props toy_owns toy_exec 3 s 1 [(0xDC04, VNull)] with Some (f, _) => f | None => s end.
Definition ans1 (s : @fstate toy) : list (N * variant) := match f_get_props toy_owns toy_exec 3 s 1 [(0xDC04, VNull)] with Some (_, (_, l)) => l | None => [] end.
Definition t1 : hist := mk_hist (read1 (f_of (5, []))) 0 [].
Definition t2 : hist := mk_hist (f_setw (hi_f t1) (7, [(EV_ObjectPropChanged, 1, 0xDC04)]) (f_log (hi_f t1))) 0 [].
Definition t3 : hist := mk_hist (f_event (hi_f t2) EV_ObjectPropChanged 1 0xDC04) 1 [].
Example C57_example : history toy_owns toy_exec toy_val snd toy_given t1 /\ history toy_owns toy_exec toy_val snd toy_given t2 /\ history toy_owns toy_exec toy_val snd toy_given t3 /\
  ans1 (hi_f t1) = [(0xDC04, VInt 5)] /\ ans1 (hi_f t2) = [(0xDC04, VInt 5)] /\ ans1 (hi_f t3) = [(0xDC04, VInt 7)].
Proof.
  assert (H1 : history toy_owns toy_exec toy_val snd toy_given t1).
  { apply hy_step with (mk_hist (f_of (5, [])) 0 []); [apply (hy_start toy_owns toy_exec toy_val snd toy_given (f_of (5, [])) eq_refl)|]. exact (ha_read toy_owns toy_exec toy_val snd toy_given 3 1 [(0xDC04, VNull)] (mk_hist (f_of (5, [])) 0 []) (hi_f t1) RESP_OK [(0xDC04, VInt 5)] eq_refl). }
  assert (H2 : history toy_owns toy_exec toy_val snd toy_given t2).
  { apply hy_step with t1; [exact H1|]. refine (ha_own toy_owns toy_exec toy_val snd toy_given (7, [(EV_ObjectPropChanged, 1, 0xDC04)]) t1 _). exists [(EV_ObjectPropChanged, 1, 0xDC04)]. split; [reflexivity|]. split; [intros h H; exact H|]. intros h p.
    destruct ((h =? 1) && (p =? 0xDC04)) eqn:E; [right|left; left; unfold toy_val; rewrite E; reflexivity]. apply andb_true_iff in E as [E1 E2]. apply N.eqb_eq in E1. apply N.eqb_eq in E2. subst h p. exists (EV_ObjectPropChanged, 1, 0xDC04). split; [left; reflexivity|]. split; [reflexivity|]. left. auto. }
  split; [exact H1|]. split; [exact H2|]. split; [|vm_compute; auto].
  apply hy_step with t2; [exact H2|]. exact (ha_deliver toy_owns toy_exec toy_val snd toy_given EV_ObjectPropChanged 1 0xDC04 t2 eq_refl).
Qed.

(** ** The file system storage does not keep its side *)
Definition no_thumb : nat -> path -> bytes := fun _ _ => [].
Definition pexec (C : conf) := plugin_exec C no_thumb 10.
(** what the initiator is told about a property, and what the storage would say *)
Definition told (C : conf) (f : @fstate fs) (h p : N) : option (N * list (N * variant)) := match f_get_props plugin_owns (pexec C) 3 f h [(p, VNull)] with Some (_, r) => Some r | None => None end.
Definition true_value (C : conf) (f : @fstate fs) (h p : N) : pres := snd (pexec C (f_world f) 1 (PProps h [p])).
Definition after (C : conf) (f : @fstate fs) (q : freq) : @fstate fs := fst (f_exec plugin_owns (pexec C) f q).
Definition answer_to (C : conf) (f : @fstate fs) (q : freq) : N := pr_resp (snd (f_exec plugin_owns (pexec C) f q)).
Definition reads (C : conf) (f : @fstate fs) (h p : N) : @fstate fs := match f_get_props plugin_owns (pexec C) 3 f h [(p, VNull)] with Some (f', _) => f' | None => f end.
Definition at_start (C : conf) : @fstate fs := f_of (demo_start C).
(** a property the storage does not keep is set: accepted, and from then on answered from the cache only *)
Theorem C57_ignored_refuted : let f := after quiet (at_start quiet) (FSetProps 12 [(0xDC44, VStr [120])] false) in
  answer_to quiet (at_start quiet) (FSetProps 12 [(0xDC44, VStr [120])] false) = RESP_OK /\ told quiet f 12 0xDC44 = Some (RESP_OK, [(0xDC44, VStr [120])]) /\ pr_vals (true_value quiet f 12 0xDC44) = [VNull].
Proof. cbv zeta. split; [|split]; vm_compute; reflexivity. Qed.
(** a rename that failed *)
Definition failing := demo_conf [] (fun n => Nat.eqb n 22) (fun _ => Some 2).
Theorem C57_failed_rename_refuted : let f := after failing (at_start failing) (FSetProps 12 [(0xDC07, VStr [120])] false) in
  answer_to failing (at_start failing) (FSetProps 12 [(0xDC07, VStr [120])] false) = RESP_OK /\ told failing f 12 0xDC07 = Some (RESP_OK, [(0xDC07, VStr [120])]) /\ pr_vals (true_value failing f 12 0xDC07) = [VStr [98]].
Proof. cbv zeta. split; [|split]; vm_compute; reflexivity. Qed.
(** TruncateObject64 outside an edit: the old size is answered *)
Theorem C57_truncate_refuted : let f := after quiet (reads quiet (at_start quiet) 12 0xDC04) (FTruncate 12 2) in
  told quiet f 12 0xDC04 = Some (RESP_OK, [(0xDC04, VInt 5)]) /\ pr_vals (true_value quiet f 12 0xDC04) = [VInt 2].
Proof. cbv zeta. split; vm_compute; reflexivity. Qed.
(** a folder is deleted: its children's properties are still answered *)
Theorem C57_deleted_refuted : let f := after quiet (reads quiet (at_start quiet) 12 0xDC04) (FDelete 7 0) in
  answer_to quiet (reads quiet (at_start quiet) 12 0xDC04) (FDelete 7 0) = RESP_OK /\ told quiet f 12 0xDC04 = Some (RESP_OK, [(0xDC04, VInt 5)]) /\ plugin_owns (f_world f) 1 12 = false.
Proof. cbv zeta. split; [|split]; vm_compute; reflexivity. Qed.
Print Assumptions C57_answers_partial.
Print Assumptions C57_settled_partial.
Print Assumptions C57_cache_partial.
Print Assumptions C57_ignored_refuted.
Print Assumptions C57_failed_rename_refuted.
Print Assumptions C57_truncate_refuted.
Print Assumptions C57_deleted_refuted.
