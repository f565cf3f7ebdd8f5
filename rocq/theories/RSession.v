(** Session life cycle (C25). *)
From Verif Require Import Base Wire WireSpec Responder RSpec RLogic ROne2 RGate RExec RInv.

Section S.
Variable env : list (act * ans) -> act -> ans.
Variable formats : list N.
Variable cat : N -> N.
Variable props_by_type : N -> N * list N.
Variable prop_desc : N -> N -> N * option objpropdesc.
Notation step := (step env formats cat props_by_type prop_desc).
Notation run := (run env formats cat props_by_type prop_desc).

(** what happened between s and s': one response [o], nothing else sent, no change
    of the storage *)
Definition answered (o : outc) (s s' : rstate) : Prop :=
  exists l, r_log s' = l ++ r_log s /\ existsb changes (calls l) = false /\ datas l = [] /\ responses l = [o].

Lemma noise_nochange l : noise l -> existsb changes (calls l) = false.
Proof.
  intros H. apply noise_calls in H. induction (calls l) as [|c t IH]; [reflexivity|]. cbn in *.
  apply andb_prop in H as [H1 H2]. rewrite IH by exact H2. destruct c; cbn in *; congruence.
Qed.
Lemma answered_one l2 o r l1 s s' : noise l1 -> noise l2 -> o_type o = TYPE_RESPONSE ->
  r_log s' = l2 ++ (ASend o true, r) :: l1 ++ r_log s -> answered o s s'.
Proof.
  intros H1 H2 Ho H. exists (l2 ++ (ASend o true, r) :: l1). rewrite H, <- app_assoc. split; [reflexivity|].
  rewrite calls_app, datas_app, responses_app, existsb_app. cbn. unfold response_of, data_of. cbn. rewrite Ho. cbn.
  rewrite !noise_nochange, !noise_datas, !noise_responses by assumption. auto.
Qed.
Definition resp_out (code tid : N) (ps : list N) : outc := mk_out TYPE_RESPONSE code (u16 tid) (PItems (map u32_item ps)).
Lemma started_active op tid ps s l : active (set_log l (set_resp R_OK (started op tid ps s))).
Proof. unfold active. cbn. unfold phase_state. destruct (has_data_phase op); auto. Qed.

Theorem open_session s tid ps : undisturbed env -> idle s -> command_ok OP_OpenSession tid ps ->
  let sid := nth 0 (pars ps) 0 in
  exists s', step (command OP_OpenSession tid ps) s = Ret (tt, s') /\ r_st s' = IDLE /\
    if sid =? 0 then answered (resp_out R_InvalidParameter tid []) s s' /\ r_session s' = r_session s
    else if negb (r_session s =? 0) then answered (resp_out R_SessionAlreadyOpen tid [r_session s]) s s' /\ r_session s' = r_session s
    else answered (resp_out R_OK tid []) s s' /\ r_session s' = sid.
Proof.
  intros quiet Hi Hc sid. assert (Hn : needs_storage OP_OpenSession = true -> storage_is_ready env) by discriminate.
  destruct (command_eq env formats cat props_by_type prop_desc s _ _ _ Hi Hc Hn) as (l & Hl & ->).
  pose proof (started_active OP_OpenSession tid ps s (l ++ r_log s)) as Ha. revert Ha. set (s1 := set_log _ _). intros Ha.
  assert (Hq : r_req s1 = Some (mk_req OP_OpenSession tid (pars ps))) by reflexivity.
  change (lookup_op OP_OpenSession (op_table env formats cat props_by_type prop_desc)) with (Some (h_openSession env)). cbv iota.
  unfold h_openSession, bind at 1, get. change (r_session s1) with (r_session s). change (par _ 0) with sid.
  destruct (sid =? 0) eqn:E1.
  { destruct (response_eq env quiet R_InvalidParameter s1 _ Ha Hq) as (l2 & r & Hl2 & ->).
    eexists; split; [reflexivity|]. split; [reflexivity|]. split; [|reflexivity].
    eapply answered_one; [exact Hl|exact Hl2|reflexivity|reflexivity]. }
  destruct (negb (r_session s =? 0)) eqn:E2.
  { destruct (response1_eq env quiet R_SessionAlreadyOpen (r_session s) s1 _ Ha Hq) as (l2 & r & Hl2 & ->).
    eexists; split; [reflexivity|]. split; [reflexivity|]. split; [|reflexivity].
    eapply answered_one; [exact Hl|exact Hl2|reflexivity|reflexivity]. }
  unfold bind at 1, upd. unfold bind at 1.
  destruct (response_eq env quiet R_OK (set_session sid s1) _ Ha Hq) as (l2 & r & Hl2 & ->).
  unfold bind, call, ask. eexists; split; [reflexivity|]. split; [reflexivity|]. split; [|reflexivity].
  eexists (_ :: l2 ++ _ :: l). split; [cbn; rewrite <- app_assoc; reflexivity|].
  cbn [calls datas responses response_of data_of fst existsb changes orb]. rewrite calls_app, datas_app, responses_app, existsb_app.
  cbn [calls datas responses response_of data_of fst existsb changes orb o_type].
  rewrite !noise_nochange, !noise_datas, !noise_responses by assumption. auto.
Qed.
Theorem close_session_op s tid ps : undisturbed env -> idle s -> command_ok OP_CloseSession tid ps ->
  exists s', step (command OP_CloseSession tid ps) s = Ret (tt, s') /\ r_st s' = IDLE /\ r_session s' = 0 /\
    answered (resp_out (if r_session s =? 0 then R_SessionNotOpen else R_OK) tid []) s s' /\
    (r_session s <> 0 -> r_seq s' = None /\ r_pl s' = None).
Proof.
  intros quiet Hi Hc. assert (Hn : needs_storage OP_CloseSession = true -> storage_is_ready env) by discriminate.
  destruct (command_eq env formats cat props_by_type prop_desc s _ _ _ Hi Hc Hn) as (l & Hl & ->).
  pose proof (started_active OP_CloseSession tid ps s (l ++ r_log s)) as Ha. revert Ha. set (s1 := set_log _ _). intros Ha.
  assert (Hq : r_req s1 = Some (mk_req OP_CloseSession tid (pars ps))) by reflexivity.
  change (lookup_op OP_CloseSession (op_table env formats cat props_by_type prop_desc)) with (Some (h_closeSession env)). cbv iota.
  unfold h_closeSession, bind at 1, get. change (r_session s1) with (r_session s).
  destruct (r_session s =? 0) eqn:E1.
  { destruct (response_eq env quiet R_SessionNotOpen s1 _ Ha Hq) as (l2 & r & Hl2 & ->).
    eexists; split; [reflexivity|]. split; [reflexivity|]. split; [cbn; lia|]. split; [|intros H; lia].
    eapply answered_one; [exact Hl|exact Hl2|reflexivity|reflexivity]. }
  unfold bind at 1, upd. unfold bind at 1. unfold bind at 1. unfold bind at 1, call, ask.
  set (s2 := add_log _ _).
  destruct (response_eq env quiet R_OK s2 _ Ha Hq) as (l2 & r & Hl2 & ->).
  eexists; split; [reflexivity|]. split; [reflexivity|]. split; [reflexivity|]. split; [|intros _; split; reflexivity].
  eexists (l2 ++ _ :: _ :: l). split; [cbn; rewrite <- app_assoc; reflexivity|].
  rewrite calls_app, datas_app, responses_app, existsb_app.
  cbn [calls datas responses response_of data_of fst existsb changes orb o_type].
  rewrite !noise_nochange, !noise_datas, !noise_responses by assumption. auto.
Qed.

(** ** The session changes in no other way *)
Definition no_reset : Prop := forall h a, ~ In SigReset (a_async (env h a)).
Definition keeps (x : N) (s : rstate) : Prop := r_session s = x.
Lemma keeps_sig x busy g : g <> SigReset -> hoare True (keeps x) (handle_sig env busy g) (fun _ => keeps x).
Proof.
  intros Hg. destruct g; cbn [handle_sig]; try contradiction.
  - unfold handle_cancel. apply h_get; intros rq. eapply h_pre; [|intros s [H _]; exact H].
    destruct rq as [q|]; [|apply h_ret; auto].
    apply h_inv; [apply h_upd; auto|intros _]. apply h_inv; [|intros _; apply h_upd; auto].
    destruct (_ || _); cbn [when]; [|apply h_ret; auto].
    apply h_get; intros pl. apply h_get; intros sq. eapply h_pre; [|intros s [[H _] _]; exact H].
    apply h_inv.
    { destruct (negb _); cbn [when]; [|apply h_ret; auto]. apply h_inv; [apply h_ask; auto|intro; apply h_ret; auto]. }
    intros _. destruct pl; apply h_upd; auto.
  - unfold handle_suspend. apply h_get; intros st. eapply h_pre; [|intros s [H _]; exact H].
    apply h_inv; [apply h_upd; auto|intro; apply h_upd; auto].
  - unfold handle_resume. apply h_get; intros p. eapply h_pre; [|intros s [H _]; exact H].
    apply h_inv; [apply h_upd; auto|intros _]. apply h_get; intros rs. eapply h_pre; [|intros s [H _]; exact H].
    destruct rs as [[o last]|]; [|apply h_ret; auto]. apply h_inv; [apply h_upd; auto|intros _].
    destruct (_ || _); [apply h_ret; auto|]. apply h_inv; [apply h_ask; auto|intro; apply h_ret; auto].
  - unfold dispatch_event. cbv zeta. apply h_inv.
    { destruct (_ && _); [|apply h_ret; auto]. apply h_inv; [apply h_ask; auto|intro].
      apply h_inv; [apply h_ask; auto|intro]. apply h_ret; auto. }
    intros en. destruct (_ && _); [apply h_ret; auto|]. apply h_get; intros st. eapply h_pre; [|intros s [H _]; exact H].
    destruct (rst_eqb _ _); [apply h_ret; auto|]. apply h_inv; [apply h_ask; auto|intro; apply h_ret; auto].
Qed.
Hypothesis nr : no_reset.
Lemma keeps_env x busy g : (exists h a, In g (a_async (env h a))) -> hoare True (keeps x) (handle_sig env busy g) (fun _ => keeps x).
Proof. intros (h & a & H). apply keeps_sig. intros ->. exact (nr h a H). Qed.
Ltac kc := intros; first [assumption | apply keeps_env; assumption].
Lemma keeps_command x q : q_code q <> OP_OpenSession -> q_code q <> OP_CloseSession ->
  hoare True (keeps x) (command_handler env formats cat props_by_type prop_desc q) (fun _ => keeps x).
Proof. intros H1 H2. apply i_command; kc. Qed.
Lemma keeps_data x q data first last : hoare True (keeps x) (data_handler env cat prop_desc q data first last) (fun _ => keeps x).
Proof. apply i_data; kc. Qed.
Lemma keeps_receive x data first last :
  (forall q, parse_req data = Ret q -> q_code q <> OP_OpenSession /\ q_code q <> OP_CloseSession) ->
  hoare True (keeps x) (receive env formats cat props_by_type prop_desc data first last) (fun _ => keeps x).
Proof.
  intros Hq.
  unfold receive. apply h_get; intros st. eapply h_pre; [|intros s0 [H _]; exact H].
  assert (Hr : hoare True (keeps x) (reset_transport env) (fun _ => keeps x)).
  { unfold reset_transport. apply h_inv; [apply h_ask; auto|intro; apply h_ret; auto]. }
  assert (Hcmd : hoare True (keeps x) (upd (set_st IDLE);;; upd (set_req None);;;
     (if first && last then q <- lift (parse_req data);; upd (set_req (Some q));;; upd (set_st (phase_state (q_code q)));;;
          command_handler env formats cat props_by_type prop_desc q else reset_transport env)) (fun _ => keeps x)).
  { apply h_inv; [apply h_upd; auto|intros _]. apply h_inv; [apply h_upd; auto|intros _].
    destruct (_ && _); [|exact Hr].
    apply h_bind with (R := fun q s0 => keeps x s0 /\ parse_req data = Ret q).
    { apply h_lift; auto. }
    intros q. apply h_pure. intros Hp. apply h_inv; [apply h_upd; auto|intros _]. apply h_inv; [apply h_upd; auto|intros _].
    apply keeps_command; apply (Hq q Hp). }
  destruct st; try exact Hcmd.
  - apply h_get; intros rq. eapply h_pre; [|intros s0 [H _]; exact H]. destruct rq; [apply keeps_data|].
    apply h_inv; [apply h_upd; auto|intros _; exact Hr].
  - apply h_inv; [apply h_upd; auto|intros _; exact Hr].
  - apply h_get; intros wt. eapply h_pre; [|intros s0 [H _]; exact H]. destruct (first && negb (len wt =? 0)); [|apply h_upd; auto].
    apply h_inv; [apply h_upd; auto|intros _; exact Hr].
Qed.
Theorem session_kept s data first last s' :
  (forall q, parse_req data = Ret q -> q_code q <> OP_OpenSession /\ q_code q <> OP_CloseSession) ->
  step (IRecv data first last) s = Ret (tt, s') -> r_session s' = r_session s.
Proof.
  intros Hq Hs. pose proof (keeps_receive (r_session s) data first last Hq s eq_refl) as H.
  cbn [Responder.step] in Hs. rewrite Hs in H. exact H.
Qed.
(** storage becoming ready: the deferred command is executed *)
Definition keepsw (x : N) (w : bytes) (s : rstate) : Prop := r_session s = x /\ (r_wait s = w \/ r_wait s = []).
Lemma keepsw_wait w busy g : hoare True (fun s => r_wait s = w \/ r_wait s = []) (handle_sig env busy g) (fun _ s => r_wait s = w \/ r_wait s = []).
Proof.
  destruct g; cbn [handle_sig].
  - unfold handle_cancel. apply h_get; intros rq. eapply h_pre; [|intros s [H _]; exact H].
    destruct rq as [q|]; [|apply h_ret; auto].
    apply h_inv; [apply h_upd; auto|intros _]. apply h_inv; [|intros _; apply h_upd; auto].
    destruct (_ || _); cbn [when]; [|apply h_ret; auto].
    apply h_get; intros pl. apply h_get; intros sq. eapply h_pre; [|intros s [[H _] _]; exact H].
    apply h_inv.
    { destruct (negb _); cbn [when]; [|apply h_ret; auto]. apply h_inv; [apply h_ask; auto|intro; apply h_ret; auto]. }
    intros _. destruct pl; apply h_upd; auto.
  - intros s H. exact H.
  - unfold handle_suspend. apply h_get; intros st. eapply h_pre; [|intros s [H _]; exact H].
    apply h_inv; [apply h_upd; auto|intro; apply h_upd; auto].
  - unfold handle_resume. apply h_get; intros p. eapply h_pre; [|intros s [H _]; exact H].
    apply h_inv; [apply h_upd; auto|intros _]. apply h_get; intros rs. eapply h_pre; [|intros s [H _]; exact H].
    destruct rs as [[o last]|]; [|apply h_ret; auto]. apply h_inv; [apply h_upd; auto|intros _].
    destruct (_ || _); [apply h_ret; auto|]. apply h_inv; [apply h_ask; auto|intro; apply h_ret; auto].
  - unfold dispatch_event. cbv zeta. apply h_inv.
    { destruct (_ && _); [|apply h_ret; auto]. apply h_inv; [apply h_ask; auto|intro].
      apply h_inv; [apply h_ask; auto|intro]. apply h_ret; auto. }
    intros en. destruct (_ && _); [apply h_ret; auto|]. apply h_get; intros st. eapply h_pre; [|intros s [H _]; exact H].
    destruct (rst_eqb _ _); [apply h_ret; auto|]. apply h_inv; [apply h_ask; auto|intro; apply h_ret; auto].
Qed.
Lemma keepsw_env x w busy g : (exists h a, In g (a_async (env h a))) -> hoare True (keepsw x w) (handle_sig env busy g) (fun _ => keepsw x w).
Proof.
  intros Hg s [H1 H2]. pose proof (keeps_env x busy g Hg s H1) as K1. pose proof (keepsw_wait w busy g s H2) as K2.
  destruct (handle_sig env busy g s) as [[[] s1]| |]; auto. split; assumption.
Qed.
Theorem session_ready s s' :
  (forall q, r_req s = Some q -> q_code q <> OP_OpenSession /\ q_code q <> OP_CloseSession) ->
  (forall q, parse_req (r_wait s) = Ret q -> q_code q <> OP_OpenSession /\ q_code q <> OP_CloseSession) ->
  step IReady s = Ret (tt, s') -> r_session s' = r_session s.
Proof.
  intros Hq Hw Hs. cbn [Responder.step] in Hs. unfold storage_ready in Hs. unfold bind at 1, get in Hs.
  destruct (rst_eqb (r_st s) WAIT_STORAGE); [|apply Ret_inj in Hs; injection Hs as <-; reflexivity].
  unfold bind at 1, get in Hs. destruct (r_req s) as [q|] eqn:Er; [|discriminate].
  cbn [need] in Hs. unfold bind at 1, ret in Hs. unfold bind at 1, upd in Hs. revert Hs.
  match goal with |- ?m ?st = _ -> _ => assert (K : hoare True (keepsw (r_session s) (r_wait s)) m (fun _ => keeps (r_session s))) end.
  { apply h_bind with (R := fun _ => keepsw (r_session s) (r_wait s)).
    { apply i_command; try apply (Hq q eq_refl); try (intros; apply keepsw_env; assumption); try (intros; assumption).
      intros s1 [H1 H2]. split; [exact H1|right; reflexivity]. }
    intro. cbv beta. apply h_get; intros w. apply h_get; intros d.
    apply h_bind with (R := fun _ => keeps (r_session s)); [|intro; cbv beta; apply h_upd; auto].
    destruct (negb _) eqn:E; cbn [when]; [|apply h_ret; intros s1 [[[H _] _] _]; exact H].
    intros s1 [[[H1 H2] H3] _]. rewrite H3 in H2. destruct H2 as [->|H2]; [|rewrite H2 in E; discriminate].
    exact (keeps_receive (r_session s) (r_wait s) true d Hw s1 H1). }
  intros Hs. pose proof (K (set_st (phase_state (q_code q)) s) (conj eq_refl (or_introl eq_refl))) as K1.
  rewrite Hs in K1. exact K1.
Qed.
Theorem session_signal s g s' : step (ISig g) s = Ret (tt, s') -> r_session s' = match g with SigReset => 0 | _ => r_session s end.
Proof.
  intros Hs. destruct g; try (match type of Hs with step (ISig ?g) s = _ => pose proof (keeps_sig (r_session s) false g ltac:(discriminate) s eq_refl) as H end;
    cbn [Responder.step] in Hs; rewrite Hs in H; exact H).
  cbn in Hs. apply Ret_inj in Hs. injection Hs as <-. reflexivity.
Qed.
End S.
