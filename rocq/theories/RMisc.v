(** Events (C35), suspension (C36), commands that wait for the storage (C37). *)
From Verif Require Import Base Wire WireSpec Responder RSpec RLogic ROne2 RGate RExec RInv RSession RSend.

(** events handed to the transport, newest first *)
Fixpoint events (log : list (act * ans)) : list outc :=
  match log with [] => [] | (AEvent o, _) :: r => o :: events r | _ :: r => events r end.

Section M1.
Variable env : list (act * ans) -> act -> ans.
Variable formats : list N.
Variable cat : N -> N.
Variable props_by_type : N -> N * list N.
Variable prop_desc : N -> N -> N * option objpropdesc.
Notation step := (step env formats cat props_by_type prop_desc).
Notation run := (run env formats cat props_by_type prop_desc).

(** ** Events *)
(** the events of this kind are sent only for objects with events enabled *)
Definition about_object (ev : N) : Prop := ev = EV_ObjectRemoved \/ ev = EV_ObjectInfoChanged \/ ev = EV_ObjectPropChanged.
Definition real_handle (h : N) : Prop := h <> 0 /\ h <> 0xFFFFFFFF.
(** the storage says that events are disabled for the object *)
Definition disabled (h : N) : Prop :=
  forall hist, a_code (env hist (ACall (SGetEvents h))) = R_OK /\ a_bool (env hist (ACall (SGetEvents h))) = false.
Definition not_disabled (h : N) : Prop :=
  forall hist, a_code (env hist (ACall (SGetEvents h))) = R_OK -> a_bool (env hist (ACall (SGetEvents h))) = true.
Lemma filtered_iff ev : event_filtered ev = true <-> about_object ev.
Proof. unfold event_filtered, about_object. rewrite !orb_true_iff, !N.eqb_eq. tauto. Qed.
Lemma event_shape busy ev ps s : exists l, noise l /\ handle_sig env busy (SigEvent ev ps) s = Ret (tt, set_log (l ++ r_log s) s).
Proof.
  assert (H : forallb is_event [SigEvent ev ps] = true) by reflexivity.
  destruct (sigs_eq env busy [SigEvent ev ps] s H) as (l & Hl & He). exists l. split; [exact Hl|].
  cbn [run_sigs] in He. unfold bind, ret in He. destruct (handle_sig env busy (SigEvent ev ps) s) as [[[] s1]| |]; exact He.
Qed.
Lemma event_sent busy ev ps s : r_st s <> SUSPEND ->
  (~ about_object ev \/ ~ real_handle (nth 0 ps 0) \/ not_disabled (nth 0 ps 0)) ->
  exists l, noise l /\ handle_sig env busy (SigEvent ev ps) s = Ret (tt, set_log (l ++ r_log s) s) /\ events l = [event_out ev ps].
Proof.
  intros Hs H. cbn [handle_sig]. unfold dispatch_event. cbv zeta. set (h := if event_filtered ev || _ then _ else _).
  assert (Hst : rst_eqb (r_st s) SUSPEND = false) by (destruct (r_st s); try reflexivity; contradiction).
  destruct (negb (h =? 0) && negb (h =? ALL)) eqn:Eh.
  - unfold bind at 1, bind at 1, call at 1, ask at 1. set (r1 := env _ _). unfold bind at 1, call at 1, ask at 1. set (r2 := env _ _). unfold ret at 1.
    assert (Hen : event_filtered ev && negb (if a_code r2 =? R_OK then a_bool r2 else true) = false).
    { destruct (event_filtered ev) eqn:Ef; [|reflexivity]. cbn [andb]. destruct (a_code r2 =? R_OK) eqn:Ec; [|reflexivity].
      assert (Hh : h = nth 0 ps 0) by reflexivity.
      destruct H as [H|[H|H]].
      - exfalso. apply H. apply filtered_iff. exact Ef.
      - exfalso. apply H. rewrite <- Hh. apply andb_prop in Eh as [E1 E2]. unfold ALL in E2. split; lia.
      - unfold r2. rewrite Hh. rewrite H; [reflexivity|]. unfold r2 in Ec. rewrite Hh in Ec. apply N.eqb_eq in Ec. exact Ec. }
    rewrite Hen. unfold bind at 1, get. cbn [r_st add_log]. rewrite Hst. unfold bind, ask, ret.
    eexists [_; _; _]. split; [|split; reflexivity]. reflexivity.
  - unfold bind at 1, ret. rewrite andb_false_r. unfold bind at 1, get. rewrite Hst. unfold bind, ask. eexists [_]. split; [|split; reflexivity]. reflexivity.
Qed.
Lemma event_dropped busy ev ps s : about_object ev -> real_handle (nth 0 ps 0) -> disabled (nth 0 ps 0) ->
  exists l, noise l /\ handle_sig env busy (SigEvent ev ps) s = Ret (tt, set_log (l ++ r_log s) s) /\ events l = [].
Proof.
  intros H1 [H2 H3] H4. apply filtered_iff in H1. cbn [handle_sig]. unfold dispatch_event. cbv zeta. rewrite H1. cbn [orb]. set (h := nth 0 ps 0) in *.
  replace (negb (h =? 0) && negb (h =? ALL)) with true by (unfold ALL; lia).
  unfold bind at 1, bind at 1, call at 1, ask at 1. set (r1 := env _ _). unfold bind at 1, call at 1, ask at 1. set (r2 := env _ _). unfold ret at 1.
  destruct (H4 ((ACall (SGetPath h), r1) :: r_log s)) as [K1 K2].
  assert (Hr2 : r2 = env ((ACall (SGetPath h), r1) :: r_log s) (ACall (SGetEvents h))) by reflexivity. rewrite Hr2, K1, K2.
  change (R_OK =? R_OK) with true. cbn [negb andb ret].
  eexists [_; _]. split; [|split; [unfold ret; reflexivity|reflexivity]]. reflexivity.
Qed.

(** ** Suspension *)
Definition events_only (l : list input) : bool := forallb (fun i => match i with ISig (SigEvent _ _) => true | _ => false end) l.
(** what is put on the wire: containers, raw content and repeated containers *)
Definition on_wire (e : act * ans) : bool := match fst e with ASend _ _ | ASendRaw _ _ | AResend _ _ => true | _ => false end.
Lemma suspended_events l : forall s, events_only l = true -> r_st s = SUSPEND ->
  exists k, run l s = Ret (tt, set_log (k ++ r_log s) s) /\ noise k.
Proof.
  induction l as [|i l IH]; intros s Hl Hs; cbn [Responder.run].
  - exists []. cbn [app]. rewrite set_log_same. split; reflexivity.
  - cbn [events_only forallb] in Hl. apply andb_prop in Hl as [H1 H2]. destruct i as [|g|]; try discriminate. destruct g; try discriminate.
    destruct (event_shape false ev params s) as (k1 & Hk1 & E1). unfold bind. cbn [Responder.step]. rewrite E1.
    destruct (IH (set_log (k1 ++ r_log s) s) H2 Hs) as (k & E2 & Hk). rewrite E2. exists (k ++ k1). split; [|apply noise_app; assumption].
    cbn. rewrite <- app_assoc. reflexivity.
Qed.
(** a container produced while suspended goes out once, when resumed *)
Theorem suspended_container o last s evs : r_st s = SUSPEND -> r_prev s <> TX_CANCEL -> events_only evs = true ->
  exists s1 s2 s3 l r,
    send_container env o last s = Ret (false, s1) /\ r_log s1 = r_log s /\
    run evs s1 = Ret (tt, s2) /\
    step (ISig SigResume) s2 = Ret (tt, s3) /\ r_log s3 = (AResend o last, r) :: l ++ r_log s /\ noise l /\
    r_st s3 = r_prev s /\ r_resend s3 = None.
Proof.
  intros Hs Hp He. unfold send_container at 1. unfold bind at 1, get. rewrite Hs. cbn [rst_eqb].
  unfold bind at 1, upd. set (s1 := set_resend _ _).
  destruct (suspended_events evs s1 He Hs) as (k & E1 & Hk).
  eexists s1, _, _, k, _. split; [reflexivity|]. split; [reflexivity|]. split; [exact E1|].
  split.
  { cbn [Responder.step handle_sig]. unfold handle_resume. unfold bind at 1, get. cbn [r_prev set_log s1 set_resend]. unfold bind at 1, upd. unfold bind at 1.
    cbn [r_resend set_st set_log s1 set_resend]. unfold bind at 1.
    replace (rst_eqb (r_prev s) TX_CANCEL) with false by (destruct (r_prev s); try reflexivity; contradiction). cbn [orb].
    unfold bind, ask, ret. reflexivity. }
  split; [reflexivity|]. split; [exact Hk|]. split; reflexivity.
Qed.
(** resuming with nothing saved sends nothing *)
Theorem resume_empty s : r_resend s = None -> exists s1, step (ISig SigResume) s = Ret (tt, s1) /\ r_log s1 = r_log s /\ r_st s1 = r_prev s /\ r_resend s1 = None.
Proof.
  intros H. cbn [Responder.step handle_sig]. unfold handle_resume, bind, get, upd. cbn [r_resend set_st]. rewrite H. unfold ret.
  eexists. split; [reflexivity|]. split; [reflexivity|]. split; [reflexivity|]. exact H.
Qed.
End M1.

(** ** Waiting for the storage *)
Section M2.
Variable formats : list N.
Variable cat : N -> N.
Variable props_by_type : N -> N * list N.
Variable prop_desc : N -> N -> N * option objpropdesc.
Variable env1 env2 : list (act * ans) -> act -> ans.
Notation step := (fun e => step e formats cat props_by_type prop_desc).
Notation run := (fun e => run e formats cat props_by_type prop_desc).

Definition waits (w : bytes) (d : bool) (s : rstate) : Prop := r_wait s = w /\ r_wait_done s = d.
Lemma waits_sig w d busy g : hoare True (waits w d) (handle_sig env2 busy g) (fun _ => waits w d).
Proof.
  destruct g; cbn [handle_sig].
  - unfold handle_cancel. apply h_get; intros rq. eapply h_pre; [|intros s [H _]; exact H].
    destruct rq as [q|]; [|apply h_ret; auto].
    apply h_inv; [apply h_upd; auto|intros _]. apply h_inv; [|intros _; apply h_upd; auto].
    destruct (_ || _); cbn [when]; [|apply h_ret; auto].
    apply h_get; intros pl. apply h_get; intros sq. eapply h_pre; [|intros s [[H _] _]; exact H].
    apply h_inv.
    { destruct (negb _); cbn [when]; [|apply h_ret; auto]. apply h_inv; [apply h_ask; auto|intro; apply h_ret; auto]. }
    intros _. destruct pl; apply h_upd; auto.
  - intros s H. exact H.
  - unfold handle_suspend. apply h_get; intros st. eapply h_pre; [|intros s [H _]; exact H].
    apply h_inv; [apply h_upd; auto|intro; apply h_upd; auto].
  - unfold handle_resume. apply h_get; intros p. eapply h_pre; [|intros s [H _]; exact H].
    apply h_inv; [apply h_upd; auto|intros _]. apply h_get; intros rs. eapply h_pre; [|intros s [H _]; exact H].
    destruct rs as [[o last]|]; [|apply h_ret; auto]. apply h_inv; [apply h_upd; auto|intros _].
    destruct (_ || _); [apply h_ret; auto|]. apply h_inv; [apply h_ask; auto|intro; apply h_ret; auto].
  - unfold dispatch_event. cbv zeta. apply h_inv.
    { destruct (_ && _); [|apply h_ret; auto]. apply h_inv; [apply h_ask; auto|intro].
      apply h_inv; [apply h_ask; auto|intro]. apply h_ret; auto. }
    intros en. destruct (_ && _); [apply h_ret; auto|]. apply h_get; intros st. eapply h_pre; [|intros s [H _]; exact H].
    destruct (rst_eqb _ _); [apply h_ret; auto|]. apply h_inv; [apply h_ask; auto|intro; apply h_ret; auto].
Qed.
Lemma waits_table w d q : hoare True (waits w d) (match lookup_op (q_code q) (op_table env2 formats cat props_by_type prop_desc) with
  | Some f => f q | None => send_response env2 R_OperationNotSupported end) (fun _ => waits w d).
Proof. apply i_table; intros; first [assumption | apply waits_sig]. Qed.

Lemma wait_packets ps : forall w d s, r_st s = WAIT_STORAGE -> r_wait s = w -> r_wait_done s = d ->
  run env1 (more_packets ps) s = Ret (tt, set_wait (w ++ concat ps) (match ps with [] => d | _ => true end) s).
Proof.
  induction ps as [|p ps IH]; intros w d s Hs Hw Hd.
  - cbn. rewrite app_nil_r. f_equal. f_equal. destruct s; cbn in *; subst; reflexivity.
  - assert (Hst : forall last, Responder.step env1 formats cat props_by_type prop_desc (IRecv p false last) s = Ret (tt, set_wait (w ++ p) last s)).
    { intros last. cbn [Responder.step]. unfold receive, bind at 1, get. rewrite Hs. unfold bind. rewrite Hw. reflexivity. }
    destruct ps as [|p2 ps].
    + cbn [more_packets Responder.run concat]. unfold bind. rewrite Hst, app_nil_r. reflexivity.
    + change (more_packets (p :: p2 :: ps)) with (IRecv p false false :: more_packets (p2 :: ps)). cbn [Responder.run]. unfold bind at 1. rewrite Hst.
      rewrite (IH (w ++ p) false (set_wait (w ++ p) false s) Hs eq_refl eq_refl). cbn [concat]. rewrite <- app_assoc. reflexivity.
Qed.
Lemma wait_phase ps s : r_st s = WAIT_STORAGE -> r_wait s = [] -> r_wait_done s = false ->
  run env1 (data_phase ps) s = Ret (tt, set_wait (concat ps) (match ps with [] => false | _ => true end) s).
Proof.
  intros Hs Hw Hd. destruct ps as [|p ps].
  - cbn. f_equal. f_equal. destruct s; cbn in *; subst; reflexivity.
  - assert (Hst : forall last, Responder.step env1 formats cat props_by_type prop_desc (IRecv p true last) s = Ret (tt, set_wait p last s)).
    { intros last. cbn [Responder.step]. unfold receive, bind at 1, get. rewrite Hs. unfold bind. rewrite Hw. reflexivity. }
    destruct ps as [|p2 ps].
    + cbn [data_phase Responder.run concat]. unfold bind. rewrite Hst, app_nil_r. reflexivity.
    + change (data_phase (p :: p2 :: ps)) with (IRecv p true false :: more_packets (p2 :: ps)). cbn [Responder.run]. unfold bind at 1. rewrite Hst.
      rewrite (wait_packets (p2 :: ps) p false (set_wait p false s) Hs eq_refl eq_refl). reflexivity.
Qed.
Definition not_ready (e : list (act * ans) -> act -> ans) : Prop := forall h, a_bool (e h (ACall SReady)) = false.
Lemma command_waits s op tid ps : idle s -> command_ok op tid ps -> needs_storage op = true -> not_ready env1 ->
  exists l, noise l /\ step env1 (command op tid ps) s =
    Ret (tt, set_wait [] false (set_st WAIT_STORAGE (set_log (l ++ r_log s) (set_resp R_OK (set_req (Some (mk_req op tid (pars ps))) s))))).
Proof.
  intros Hi Hc Hn Hr. cbv beta. rewrite (receive_idle _ _ _ _ _ _ _ _ _ Hi Hc). unfold command_handler. cbv zeta.
  set (q := mk_req op tid (pars ps)). change (needs_storage (q_code q)) with (needs_storage op). rewrite Hn.
  destruct (_ && _); cbn [when].
  - unfold bind at 1, bind at 1, call at 1, ask at 1. unfold ret at 1. unfold bind at 1, upd. unfold bind at 1, call, ask.
    rewrite Hr. cbn [negb andb]. unfold bind. eexists [_; _]. split; [|reflexivity]. reflexivity.
  - unfold bind at 1, ret at 1. unfold bind at 1, upd. unfold bind at 1, call, ask. rewrite Hr. cbn [negb andb]. unfold bind. eexists [_]. split; [|reflexivity]. reflexivity.
Qed.
(** the deferred execution is the execution, had the command arrived now *)
Theorem deferred s op tid ps packets : idle s -> command_ok op tid ps -> needs_storage op = true -> not_ready env1 -> storage_is_ready env2 ->
  (packets <> [] -> concat packets <> []) ->
  exists s1 l, run env1 (command op tid ps :: data_phase packets) s = Ret (tt, s1) /\ r_log s1 = l ++ r_log s /\ noise l /\
    let s0 := set_wait (concat packets) (match packets with [] => false | _ => true end) (set_log (l ++ r_log s) s) in
    step env2 IReady s1 =
      (run env2 (command op tid ps :: match packets with [] => [] | _ => [IRecv (concat packets) true true] end) ;;; upd (set_wait [] false)) s0.
Proof.
  intros Hi Hc Hn Hr1 Hr2 Hne. destruct (command_waits s op tid ps Hi Hc Hn Hr1) as (l & Hl & E1).
  cbn [Responder.run]. unfold bind at 1. cbv beta in E1. rewrite E1. set (sw := set_wait [] false _).
  rewrite (wait_phase packets sw eq_refl eq_refl eq_refl). set (w := concat packets) in *. set (d := match packets with [] => false | _ => true end).
  eexists _, l. split; [reflexivity|]. split; [reflexivity|]. split; [exact Hl|]. cbv zeta.
  set (s0 := set_wait w d (set_log (l ++ r_log s) s)).
  assert (Hi0 : idle s0) by exact Hi.
  set (q := mk_req op tid (pars ps)).
  set (tbl := match lookup_op (q_code q) (op_table env2 formats cat props_by_type prop_desc) with
     | Some f => f q | None => send_response env2 R_OperationNotSupported end).
  (* both sides reach the handler in the same state *)
  assert (Hch : exists sh, waits w d sh /\ command_handler env2 formats cat props_by_type prop_desc q (started op tid ps s0) = tbl sh /\
     command_handler env2 formats cat props_by_type prop_desc q (set_st (phase_state op) (set_wait w d sw)) = tbl sh).
  { unfold command_handler. cbv zeta. fold tbl. destruct (_ && _); cbn [when].
    - unfold bind, ret, upd, call, ask. rewrite !Hr2. cbn [negb andb]. eexists. split; [|split; [reflexivity|reflexivity]]. split; reflexivity.
    - unfold bind, ret, upd, call, ask. rewrite !Hr2. cbn [negb andb]. eexists. split; [|split; [reflexivity|reflexivity]]. split; reflexivity. }
  destruct Hch as (sh & Hw & C1 & C2).
  assert (E2 : Responder.step env2 formats cat props_by_type prop_desc (command op tid ps) s0 = tbl sh).
  { etransitivity; [|exact C1]. exact (receive_idle env2 formats cat props_by_type prop_desc s0 op tid ps Hi0 Hc). }
  set (rest := w0 <- get r_wait ;; d0 <- get r_wait_done ;;
    when (negb (len w0 =? 0)) (receive env2 formats cat props_by_type prop_desc w0 true d0) ;;; upd (set_wait [] false)).
  assert (EL : Responder.step env2 formats cat props_by_type prop_desc IReady (set_wait w d sw) =
      match tbl sh with Ret (_, s3) => rest s3 | UB => UB | Abort => Abort end).
  { rewrite <- C2. reflexivity. }
  cbv beta. etransitivity; [exact EL|]. unfold bind at 1. unfold bind at 1. rewrite E2.
  pose proof (waits_table w d q sh Hw) as K. fold tbl in K.
  destruct (tbl sh) as [[[] s3]| |]; [|reflexivity..]. destruct K as [K1 K2]. cbv beta in K1, K2.
  unfold rest. unfold bind at 1, get at 1. rewrite K1. unfold bind at 1, get at 1. rewrite K2.
  destruct packets as [|p packets].
  - change (len w) with 0. change (negb (0 =? 0)) with false. cbn [when Responder.run]. unfold bind, ret, upd. reflexivity.
  - destruct (len w =? 0) eqn:E; [exfalso; apply (Hne ltac:(discriminate)); destruct w; [reflexivity|rewrite len_cons in E; lia]|].
    cbn [negb when Responder.run]. change d with true. unfold bind. cbn [Responder.step].
    destruct (receive env2 formats cat props_by_type prop_desc w true true s3) as [[[] s4]| |]; reflexivity.
Qed.
End M2.
