(** Every command gets one response: whole transactions (C21, C22). *)
From Verif Require Import Base Wire WireSpec Responder RSpec RLogic ROne.

(** ** The inputs of a transaction *)
Fixpoint more_packets (ps : list bytes) : list input :=
  match ps with
  | [] => []
  | [p] => [IRecv p false true]
  | p :: r => IRecv p false false :: more_packets r
  end.
(** the data phase cut in packets: the first is marked first, the last last *)
Definition data_phase (ps : list bytes) : list input :=
  match ps with
  | [] => []
  | [p] => [IRecv p true true]
  | p :: r => IRecv p true false :: more_packets r
  end.
Definition command (op tid : N) (ps : list N) : input := IRecv (command_bytes op tid ps) true true.
Definition writes_defined (env : list (act * ans) -> act -> ans) : Prop :=
  forall h o d f l, a_code (env h (ACall (SWrite o d f l))) <> R_Undefined.
Definition reads_succeed (env : list (act * ans) -> act -> ans) : Prop :=
  forall h o n off, a_code (env h (ACall (SRead o n off))) = R_OK.

Section Two.
Variable env : list (act * ans) -> act -> ans.
Variable formats : list N.
Variable cat : N -> N.
Variable props_by_type : N -> N * list N.
Variable prop_desc : N -> N -> N * option objpropdesc.
Hypothesis quiet : undisturbed env.
Hypothesis tw : transport_works env.
Variable w : rst.
Hypothesis Hw : w = WAIT_RESP \/ w = WAIT_DATA.

Notation step := (step env formats cat props_by_type prop_desc).
Notation run := (run env formats cat props_by_type prop_desc).

Lemma h_handler_pre (bad : Prop) A q (m : M A) R Q :
  hoare bad (Act w q R) m Q ->
  hoare bad (Act w q R) (when (negb (logged_handle q =? 0) && negb (logged_handle q =? ALL))
    (_ <- call env (SGetPath (logged_handle q)) ;; ret tt) ;;; upd (set_resp R_OK) ;;; m) Q.
Proof.
  intros H. apply h_inv.
  - destruct (_ && _); cbn [when]; [|apply h_ret; auto].
    apply h_inv; [apply hcall; try assumption|intro; apply h_ret; auto].
  - intros _. eapply h_updb; [|exact H]. intros s (H1 & H2 & H3). repeat split; auto.
Qed.
Definition reads_object (op : N) : Prop := op = OP_GetObject \/ op = OP_GetPartialObject \/ op = OP_GetPartialObject64.

Ltac pick := lazymatch goal with
  | |- hoare _ _ (h_getDeviceInfo _ _) _ => eapply one_getDeviceInfo
  | |- hoare _ _ (h_openSession _ _) _ => eapply one_openSession
  | |- hoare _ _ (h_closeSession _ _) _ => eapply one_closeSession
  | |- hoare _ _ (h_getStorageIDs _ _) _ => eapply one_getStorageIDs
  | |- hoare _ _ (h_getStorageInfo _ _) _ => eapply one_getStorageInfo
  | |- hoare _ _ (h_getNumObjects _ _ _) _ => eapply one_getNumObjects
  | |- hoare _ _ (h_getObjectHandles _ _ _) _ => eapply one_getObjectHandles
  | |- hoare _ _ (h_getObjectInfo _ _) _ => eapply one_getObjectInfo
  | |- hoare _ _ (h_deleteObject _ _) _ => eapply one_deleteObject
  | |- hoare _ _ (h_unsupported _ _) _ => eapply one_unsupported
  | |- hoare _ _ (h_getDevicePropDesc _ _) _ => eapply one_getDevicePropDesc
  | |- hoare _ _ (h_getDevicePropValue _ _) _ => eapply one_getDevicePropValue
  | |- hoare _ _ (h_moveObject _ _) _ => eapply one_moveObject
  | |- hoare _ _ (h_copyObject _ _) _ => eapply one_copyObject
  | |- hoare _ _ (h_truncateObject64 _ _) _ => eapply one_truncate
  | |- hoare _ _ (h_beginEdit _ _) _ => eapply one_beginEdit
  | |- hoare _ _ (h_endEdit _ _) _ => eapply one_endEdit
  | |- hoare _ _ (h_getObjPropsSupported _ _ _ _) _ => eapply one_getObjPropsSupported
  | |- hoare _ _ (h_getObjReferences _ _) _ => eapply one_getObjReferences
  | |- hoare _ _ (h_skip _ _) _ => eapply one_skip
  | |- hoare _ _ (h_getObjPropDesc _ _ _ _) _ => eapply one_getObjPropDesc
  | |- hoare _ _ (h_getObjPropValue _ _ _ _) _ => eapply one_getObjPropValue
  | |- hoare _ _ (h_getObjectPropList _ _ _ _ _) _ => eapply one_getObjectPropList
  | |- hoare _ _ (h_getObject _ _) _ => eapply one_getObject
  | |- hoare _ _ (h_getPartialObject _ _) _ => eapply one_getPartial
  | |- hoare _ _ (h_getPartialObject64 _ _) _ => eapply one_getPartial64
  end.
Ltac peel := match goal with |- hoare _ _ (match (if ?b then _ else _) with _ => _ end) _ => destruct b eqn:?E end.

Lemma one_table (bad : Prop) q R :
  (bad \/ tables_ok props_by_type prop_desc) -> has_data_phase (q_code q) = false -> q_code q <> OP_GetThumb ->
  (reads_object (q_code q) -> reads_succeed env) ->
  hoare bad (Act w q R)
    (match lookup_op (q_code q) (op_table env formats cat props_by_type prop_desc) with
     | Some f => f q | None => send_response env R_OperationNotSupported end) (fun _ => Done q R).
Proof.
  intros T Hd Hth Hrd.
  unfold op_table; cbn [lookup_op].
  repeat (peel;
    [ apply N.eqb_eq in E;
      first [ solve [rewrite E in Hd; discriminate] | solve [exfalso; exact (Hth E)] | idtac ];
      solve [ pick; eauto; apply Hrd; unfold reads_object; rewrite E; auto ] | clear E ]).
  apply hresp; assumption.
Qed.
Lemma one_command (bad : Prop) q R :
  (needs_storage (q_code q) = true -> storage_is_ready env) ->
  (bad \/ tables_ok props_by_type prop_desc) -> has_data_phase (q_code q) = false -> q_code q <> OP_GetThumb ->
  (reads_object (q_code q) -> reads_succeed env) ->
  hoare bad (Act w q R) (command_handler env formats cat props_by_type prop_desc q) (fun _ => Done q R).
Proof.
  intros Hr T Hd Hth Hrd. unfold command_handler. cbv zeta. apply h_handler_pre.
  apply h_bind with (R := fun r s => Act w q R s /\ (needs_storage (q_code q) = true -> a_bool r = true)).
  { apply h_ask. intros s (H1 & H2 & H3). split; [repeat split; auto|]. intros H. apply Hr; exact H. }
  intros r. apply h_pure. intros Hb.
  destruct (needs_storage (q_code q)); [rewrite Hb by reflexivity; cbn [negb andb]|rewrite andb_false_r];
  apply one_table; assumption.
Qed.
Ltac pick2 := lazymatch goal with
  | |- hoare _ _ (h_check_only _) _ => eapply stays_check_only
  | |- hoare _ _ (h_sendObject _) _ => eapply stays_sendObject
  | |- hoare _ _ (h_setDevicePropValue _ _) _ => eapply stays_setDevicePropValue
  | |- hoare _ _ (h_sendPartialObject64 _) _ => eapply stays_sendPartial
  | |- hoare _ _ (h_sendObjectPropList _ _) _ => eapply stays_sendObjectPropList
  | |- hoare _ _ (h_setObjPropValue _ _ _ _) _ => eapply stays_setObjPropValue
  end.
Lemma stays_command (bad : Prop) q R :
  (needs_storage (q_code q) = true -> storage_is_ready env) ->
  (bad \/ tables_ok props_by_type prop_desc) -> has_data_phase (q_code q) = true ->
  hoare bad (Act w q R) (command_handler env formats cat props_by_type prop_desc q) (fun _ => Act w q R).
Proof.
  intros Hr T Hd. unfold command_handler. cbv zeta. apply h_handler_pre.
  apply h_bind with (R := fun r s => Act w q R s /\ (needs_storage (q_code q) = true -> a_bool r = true)).
  { apply h_ask. intros s (H1 & H2 & H3). split; [repeat split; auto|]. intros H. apply Hr; exact H. }
  intros r. apply h_pure. intros Hb.
  assert (Hc : negb (a_bool r) && needs_storage (q_code q) = false).
  { destruct (needs_storage (q_code q)); [rewrite Hb by reflexivity; reflexivity|apply andb_false_r]. }
  rewrite Hc. clear Hc Hb.
  unfold op_table; cbn [lookup_op].
  repeat (peel;
    [ apply N.eqb_eq in E; first [ solve [rewrite E in Hd; discriminate] | solve [pick2; eassumption] ] | let F := fresh "F" in rename E into F ]).
  exfalso. unfold has_data_phase in Hd. cbn [existsb] in Hd.
  repeat match goal with H : (q_code q =? ?c) = false |- _ => rewrite H in Hd; clear H end. discriminate Hd.
Qed.

End Two.

Section Three.
Variable env : list (act * ans) -> act -> ans.
Variable formats : list N.
Variable cat : N -> N.
Variable props_by_type : N -> N * list N.
Variable prop_desc : N -> N -> N * option objpropdesc.
Hypothesis quiet : undisturbed env.
Hypothesis tw : transport_works env.
Notation step := (step env formats cat props_by_type prop_desc).
Notation run := (run env formats cat props_by_type prop_desc).

Lemma receive_idle s op tid ps : idle s -> command_ok op tid ps ->
  step (command op tid ps) s =
  command_handler env formats cat props_by_type prop_desc (mk_req op tid (pars ps))
    (set_st (phase_state op) (set_req (Some (mk_req op tid (pars ps))) (set_req None (set_st IDLE s)))).
Proof.
  intros Hi Hc. unfold command. cbn [Responder.step]. unfold receive. unfold bind at 1, get.
  destruct Hi as [-> | ->]; unfold bind at 1, upd; unfold bind at 1; cbn [andb];
  unfold bind at 1, lift; rewrite (parse_command _ _ _ Hc); unfold bind at 1; unfold bind at 1; reflexivity.
Qed.
Lemma phase_state_cases op : phase_state op = WAIT_RESP \/ phase_state op = WAIT_DATA.
Proof. unfold phase_state. destruct (has_data_phase op); auto. Qed.

Theorem one_response s op tid ps :
  idle s -> command_ok op tid ps -> has_data_phase op = false -> op <> OP_GetThumb ->
  (needs_storage op = true -> storage_is_ready env) -> tables_ok props_by_type prop_desc ->
  (reads_object op -> reads_succeed env) ->
  exists s' o, step (command op tid ps) s = Ret (tt, s') /\
    responses (r_log s') = o :: responses (r_log s) /\ o_type o = TYPE_RESPONSE /\
    (o_tid o = u16 tid \/ o_tid o = tid) /\ r_st s' = IDLE.
Proof.
  intros Hi Hc Hd Hth Hr HT Hrd. rewrite (receive_idle _ _ _ _ Hi Hc).
  set (q := mk_req op tid (pars ps)). set (s0 := set_st _ _).
  pose proof (one_command env formats cat props_by_type prop_desc quiet tw (phase_state op) (phase_state_cases op) False q (responses (r_log s)) Hr (or_intror HT) Hd Hth Hrd s0) as H.
  assert (Hs0 : Act (phase_state op) q (responses (r_log s)) s0).
  { repeat split. }
  specialize (H Hs0). destruct (command_handler _ _ _ _ _ q s0) as [[[] s1]| |]; [|contradiction..].
  destruct H as ((o & H1 & H2 & H3) & H4 & H5). exists s1, o. auto.
Qed.

(** data phases *)
Notation ADone q R := (fun (last : bool) (s : rstate) => Done q R s \/ (last = false /\ Act WAIT_DATA q R s)).
Lemma data_step (bad : Prop) q R data first last : bad -> writes_defined env ->
  hoare bad (Act WAIT_DATA q R) (step (IRecv data first last)) (fun _ => ADone q R last).
Proof.
  intros B W s Hs. cbn [Responder.step]. unfold receive. unfold bind at 1, get. rewrite (proj1 (proj2 Hs)).
  unfold bind at 1, get. rewrite (proj2 (proj2 Hs)). apply done_data; auto.
Qed.
(* further packets after an early answer: the transport is reset, nothing is answered *)
Lemma late_packet (bad : Prop) q R data last :
  hoare bad (Done q R) (step (IRecv data false last)) (fun _ => Done q R).
Proof.
  intros s ((o & H1 & H2) & H3 & H4). cbn [Responder.step]. unfold receive. unfold bind at 1, get. rewrite H3.
  unfold bind, upd. cbn. unfold Done; cbn. repeat split; auto. exists o; auto.
Qed.
Lemma more_done (bad : Prop) q R ps : bad -> writes_defined env -> ps <> [] ->
  hoare bad (ADone q R false) (run (more_packets ps)) (fun _ => Done q R).
Proof.
  intros B W. induction ps as [|p ps IH]; [contradiction|]. intros _.
  assert (Hstep : forall last, hoare bad (ADone q R false) (step (IRecv p false last)) (fun _ => ADone q R last)).
  { intros last s [Hs|[_ Hs]].
    - eapply h_post; [apply (late_packet bad q R p last)|..|exact Hs]. cbn; auto.
    - apply data_step; assumption. }
  destruct ps as [|p2 ps].
  - cbn [more_packets Responder.run]. eapply h_bind; [apply Hstep|]. intro. cbv beta. apply h_ret.
    intros s [H|[H _]]; [exact H|discriminate].
  - change (more_packets (p :: p2 :: ps)) with (IRecv p false false :: more_packets (p2 :: ps)).
    cbn [Responder.run]. eapply h_bind; [apply Hstep|]. intro. cbv beta. apply IH. discriminate.
Qed.
Lemma phase_done (bad : Prop) q R ps : bad -> writes_defined env -> ps <> [] ->
  hoare bad (Act WAIT_DATA q R) (run (data_phase ps)) (fun _ => Done q R).
Proof.
  intros B W. destruct ps as [|p [|p2 ps]]; [contradiction| |]; intros _.
  - cbn [data_phase Responder.run]. eapply h_bind; [apply data_step; assumption|]. intro. cbv beta. apply h_ret.
    intros s [H|[H _]]; [exact H|discriminate].
  - change (data_phase (p :: p2 :: ps)) with (IRecv p true false :: more_packets (p2 :: ps)).
    cbn [Responder.run]. eapply h_bind; [apply data_step; assumption|]. intro. cbv beta.
    apply more_done; [assumption..|discriminate].
Qed.
Theorem one_response_data s op tid ps packets s' :
  idle s -> command_ok op tid ps -> has_data_phase op = true -> packets <> [] ->
  (needs_storage op = true -> storage_is_ready env) -> writes_defined env ->
  run (command op tid ps :: data_phase packets) s = Ret (tt, s') ->
  exists o, responses (r_log s') = o :: responses (r_log s) /\ o_type o = TYPE_RESPONSE /\
    (o_tid o = u16 tid \/ o_tid o = tid) /\ r_st s' = IDLE.
Proof.
  intros Hi Hc Hd Hp Hr HW Hrun. cbn [Responder.run] in Hrun. unfold bind at 1 in Hrun.
  rewrite (receive_idle _ _ _ _ Hi Hc) in Hrun. revert Hrun.
  set (q := mk_req op tid (pars ps)). set (s0 := set_st _ _).
  assert (Hph : phase_state op = WAIT_DATA) by (unfold phase_state; rewrite Hd; reflexivity).
  pose proof (stays_command env formats cat props_by_type prop_desc WAIT_DATA (or_intror eq_refl) True q (responses (r_log s)) Hr (or_introl I) Hd s0) as H.
  assert (Hs0 : Act WAIT_DATA q (responses (r_log s)) s0).
  { repeat split. exact Hph. }
  specialize (H Hs0). destruct (command_handler _ _ _ _ _ q s0) as [[[] s1]| |]; [|discriminate..].
  intros Hrun. pose proof (phase_done True q (responses (r_log s)) packets I HW Hp s1 H) as H2.
  rewrite Hrun in H2. destruct H2 as ((o & H1 & H2 & H3) & H4 & H5). exists o. auto.
Qed.
End Three.
