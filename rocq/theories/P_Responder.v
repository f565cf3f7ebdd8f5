(** C21-C26 and C38: commands, responses and sessions, for every environment (any
    storage behaviour, any transport result), every state and every command. *)
From Verif Require Import Base Wire WireSpec Responder RSpec RLogic ROne ROne2 RGate RData RInv RExec RSession RDemo.

(** ** C21: exactly one response *)
(** Commands without a data phase from the initiator.  Exceptions: GetThumb, and
    the object readers when the storage refuses a read in mid-transfer. *)
Theorem C21_one_response_partial : forall env formats cat props_by_type prop_desc s op tid ps,
  undisturbed env -> transport_works env -> tables_ok props_by_type prop_desc ->
  idle s -> command_ok op tid ps -> has_data_phase op = false -> op <> OP_GetThumb ->
  (needs_storage op = true -> storage_is_ready env) ->
  (reads_object op -> reads_succeed env) ->
  exists s' o, step env formats cat props_by_type prop_desc (command op tid ps) s = Ret (tt, s') /\
    responses (r_log s') = o :: responses (r_log s) /\ r_st s' = IDLE.
Proof.
  intros *. intros Hq Ht HT Hi Hc Hd Hth Hr Hrd.
  destruct (one_response env formats cat props_by_type prop_desc Hq Ht s op tid ps Hi Hc Hd Hth Hr HT Hrd)
    as (s' & o & H1 & H2 & H3 & H4 & H5). exists s', o. auto.
Qed.
(** Commands with a data phase cut into packets in any way: if nothing undefined
    happens while parsing the data, there is exactly one response. *)
Theorem C21_one_response_data_partial : forall env formats cat props_by_type prop_desc s op tid ps packets s',
  undisturbed env -> writes_defined env ->
  idle s -> command_ok op tid ps -> has_data_phase op = true -> packets <> [] ->
  (needs_storage op = true -> storage_is_ready env) ->
  run env formats cat props_by_type prop_desc (command op tid ps :: data_phase packets) s = Ret (tt, s') ->
  exists o, responses (r_log s') = o :: responses (r_log s) /\ r_st s' = IDLE.
Proof.
  intros *. intros Hq Hw Hi Hc Hd Hp Hr Hrun.
  destruct (one_response_data env formats cat props_by_type prop_desc Hq s op tid ps packets s' Hi Hc Hd Hp Hr Hw Hrun)
    as (o & H1 & H2 & H3 & H4). exists o. auto.
Qed.
(** GetThumb answers nothing at all when the thumbnail is not available, and the
    command that follows is thrown away too (the transport is reset). *)
Theorem C21_getthumb_refuted :
  let env := demo (fun a => match a with ACall (SGetProps _ _) => Some (fail R_GeneralError) | _ => None end) in
  exists s1 s2, demo_step env (command OP_GetThumb 5 [7]) in_session = Ret (tt, s1) /\ responses (r_log s1) = [] /\
    r_st s1 = WAIT_RESP /\
    demo_step env (command OP_GetStorageIDs 6 []) s1 = Ret (tt, s2) /\ responses (r_log s2) = [] /\
    (exists r rest, r_log s2 = (AReset, r) :: rest).
Proof. cbv zeta. eexists. eexists. split; [vm_compute; reflexivity|]. vm_compute. repeat split. eexists. eexists. reflexivity. Qed.
(** GetObject answers nothing when a read fails after the first packet. *)
Theorem C21_failed_read_refuted :
  let env := demo (fun a => match a with ACall (SRead _ _ off) => if off =? 0 then None else Some (fail R_GeneralError) | _ => None end) in
  exists s1, demo_step env (command OP_GetObject 5 [7]) in_session = Ret (tt, s1) /\ responses (r_log s1) = [] /\
    r_st s1 = WAIT_RESP.
Proof. cbv zeta. eexists. split; [vm_compute; reflexivity|]. split; reflexivity. Qed.
Example ex_C21 : exists s1 s2, demo_step plain (command OP_GetObject 5 [7]) in_session = Ret (tt, s1) /\
  map o_code (responses (r_log s1)) = [R_OK] /\ r_st s1 = IDLE /\
  demo_run plain (command OP_SetObjectReferences 6 [7] ::
     data_phase [spec_header 20 2 OP_SetObjectReferences 6 ++ [1;0]; [0;0;9;0;0;0]]) s1 = Ret (tt, s2) /\
  map o_code (responses (r_log s2)) = [R_OK; R_OK] /\ calls (firstn 2 (r_log s2)) = [SSetRefs 7 [9]] /\ r_st s2 = IDLE.
Proof.
  eexists. eexists. split; [vm_compute; reflexivity|]. split; [vm_compute; reflexivity|]. split; [reflexivity|].
  split; [vm_compute; reflexivity|]. vm_compute. repeat split.
Qed.
Example ex_C21_hyps : undisturbed plain /\ transport_works plain /\ tables_ok props0 desc0 /\ idle in_session /\
  command_ok OP_GetObject 5 [7] /\ reads_succeed plain /\ writes_defined plain /\ storage_is_ready plain.
Proof.
  split; [exact plain_undisturbed|]. split; [exact plain_transport|]. split; [exact tables_ok_demo|].
  split; [left; reflexivity|]. split; [split; [reflexivity|split; [reflexivity|split; [discriminate|repeat constructor]]]|].
  split; [intros h o n off; reflexivity|]. split; [intros h o d f l; discriminate|exact plain_ready].
Qed.

(** ** C22: the transaction id *)
Theorem C22_transaction_id_partial : forall env formats cat props_by_type prop_desc s op tid ps,
  undisturbed env -> transport_works env -> tables_ok props_by_type prop_desc ->
  idle s -> command_ok op tid ps -> has_data_phase op = false -> op <> OP_GetThumb ->
  (needs_storage op = true -> storage_is_ready env) ->
  (reads_object op -> reads_succeed env) ->
  tid < 65536 ->
  exists s' o, step env formats cat props_by_type prop_desc (command op tid ps) s = Ret (tt, s') /\
    responses (r_log s') = o :: responses (r_log s) /\ o_tid o = tid.
Proof.
  intros *. intros Hq Ht HT Hi Hc Hd Hth Hr Hrd Hlt.
  destruct (one_response env formats cat props_by_type prop_desc Hq Ht s op tid ps Hi Hc Hd Hth Hr HT Hrd)
    as (s' & o & H1 & H2 & H3 & H4 & H5). exists s', o. split; [exact H1|]. split; [exact H2|].
  destruct H4 as [-> | ->]; [|reflexivity]. unfold u16. apply N.mod_small. exact Hlt.
Qed.
Theorem C22_transaction_id_data_partial : forall env formats cat props_by_type prop_desc s op tid ps packets s',
  undisturbed env -> writes_defined env ->
  idle s -> command_ok op tid ps -> has_data_phase op = true -> packets <> [] ->
  (needs_storage op = true -> storage_is_ready env) ->
  run env formats cat props_by_type prop_desc (command op tid ps :: data_phase packets) s = Ret (tt, s') ->
  tid < 65536 ->
  exists o, responses (r_log s') = o :: responses (r_log s) /\ o_tid o = tid.
Proof.
  intros *. intros Hq Hw Hi Hc Hd Hp Hr Hrun Hlt.
  destruct (one_response_data env formats cat props_by_type prop_desc Hq s op tid ps packets s' Hi Hc Hd Hp Hr Hw Hrun)
    as (o & H1 & H2 & H3 & H4). exists o. split; [exact H1|].
  destruct H3 as [-> | ->]; [|reflexivity]. unfold u16. apply N.mod_small. exact Hlt.
Qed.
(** From the 65536th transaction of a session on, the response carries the wrong
    id: OpenSession (and nearly every other command) answers transaction 65537
    with id 1. *)
Theorem C22_large_id_refuted : forall env formats cat props_by_type prop_desc s sid,
  undisturbed env -> idle s -> r_session s = 0 -> sid <> 0 -> sid < 2^32 ->
  exists s', step env formats cat props_by_type prop_desc (command OP_OpenSession 65537 [sid]) s = Ret (tt, s') /\
    answered (mk_out TYPE_RESPONSE R_OK 1 (PItems [])) s s'.
Proof.
  intros *. intros Hq Hi Hs H0 Hlt.
  assert (Hc : command_ok OP_OpenSession 65537 [sid]).
  { split; [reflexivity|]. split; [reflexivity|]. split; [discriminate|]. repeat constructor. exact Hlt. }
  destruct (open_session env formats cat props_by_type prop_desc s 65537 [sid] Hq Hi Hc) as (s' & H1 & H2 & H3).
  exists s'. split; [exact H1|]. cbn [pars app nth length] in H3.
  destruct (sid =? 0) eqn:E; [lia|]. rewrite Hs in H3. apply H3.
Qed.
Example ex_C22 : exists s1, demo_step plain (command OP_GetStorageIDs 65535 []) in_session = Ret (tt, s1) /\
  map o_tid (responses (r_log s1)) = [65535].
Proof. eexists. split; vm_compute; reflexivity. Qed.

(** ** C23: session gating, C24: transaction ids *)
(** [answered_only code s s']: one response with [code]; no storage or device call
    except harmless queries (path for the log output, readiness, event flags); no
    data; session, announced object and edit state unchanged. *)
Theorem C23_no_session_partial : forall env formats cat props_by_type prop_desc s op tid ps,
  undisturbed env -> idle s -> command_ok op tid ps -> In op checked_ops -> has_data_phase op = false ->
  (needs_storage op = true -> storage_is_ready env) ->
  r_session s = 0 ->
  exists s', step env formats cat props_by_type prop_desc (command op tid ps) s = Ret (tt, s') /\
    answered_only R_SessionNotOpen s s'.
Proof.
  intros *. intros Hq Hi Hc Hin Hd Hr H0.
  assert (Hp : pre_check (r_session s) tid = R_SessionNotOpen) by (rewrite H0; reflexivity).
  rewrite <- Hp. apply refused_command; auto.
  - apply existsb_exists. exists op. split; [exact Hin|apply N.eqb_refl].
  - rewrite Hp. discriminate.
Qed.
Theorem C23_no_session_data_partial : forall env formats cat props_by_type prop_desc s op tid ps packets s',
  undisturbed env -> idle s -> command_ok op tid ps -> has_data_phase op = true -> packets <> [] ->
  (needs_storage op = true -> storage_is_ready env) ->
  r_session s = 0 ->
  run env formats cat props_by_type prop_desc (command op tid ps :: data_phase packets) s = Ret (tt, s') ->
  answered_only R_SessionNotOpen s s'.
Proof.
  intros *. intros Hq Hi Hc Hd Hpk Hr H0 Hrun.
  assert (Hp : pre_check (r_session s) tid = R_SessionNotOpen) by (rewrite H0; reflexivity).
  rewrite <- Hp. eapply refused_data_command; eauto. rewrite Hp. discriminate.
Qed.
(** CloseSession: C25.  GetObjectPropsSupported is answered OK with data although
    no session is open. *)
Theorem C23_props_supported_refuted :
  exists s1, demo_step plain (command OP_GetObjectPropsSupported 5 [0x3000]) r_init = Ret (tt, s1) /\
    map o_code (responses (r_log s1)) = [R_OK] /\ length (datas (r_log s1)) = 1%nat.
Proof. eexists. split; [vm_compute; reflexivity|]. split; reflexivity. Qed.
Theorem C24_invalid_tid_partial : forall env formats cat props_by_type prop_desc s op tid ps,
  undisturbed env -> idle s -> command_ok op tid ps -> In op checked_ops -> has_data_phase op = false ->
  (needs_storage op = true -> storage_is_ready env) ->
  r_session s <> 0 -> tid = 0 \/ tid = 0xFFFFFFFF ->
  exists s', step env formats cat props_by_type prop_desc (command op tid ps) s = Ret (tt, s') /\
    answered_only R_InvalidTransID s s'.
Proof.
  intros *. intros Hq Hi Hc Hin Hd Hr H0 Ht.
  assert (Hp : pre_check (r_session s) tid = R_InvalidTransID).
  { unfold pre_check. destruct (r_session s =? 0) eqn:E; [lia|]. destruct Ht as [-> | ->]; reflexivity. }
  rewrite <- Hp. apply refused_command; auto.
  - apply existsb_exists. exists op. split; [exact Hin|apply N.eqb_refl].
  - rewrite Hp. discriminate.
Qed.
Theorem C24_invalid_tid_data_partial : forall env formats cat props_by_type prop_desc s op tid ps packets s',
  undisturbed env -> idle s -> command_ok op tid ps -> has_data_phase op = true -> packets <> [] ->
  (needs_storage op = true -> storage_is_ready env) ->
  r_session s <> 0 -> tid = 0 \/ tid = 0xFFFFFFFF ->
  run env formats cat props_by_type prop_desc (command op tid ps :: data_phase packets) s = Ret (tt, s') ->
  answered_only R_InvalidTransID s s'.
Proof.
  intros *. intros Hq Hi Hc Hd Hpk Hr H0 Ht Hrun.
  assert (Hp : pre_check (r_session s) tid = R_InvalidTransID).
  { unfold pre_check. destruct (r_session s =? 0) eqn:E; [lia|]. destruct Ht as [-> | ->]; reflexivity. }
  rewrite <- Hp. eapply refused_data_command; eauto. rewrite Hp. discriminate.
Qed.
(** CloseSession does not look at the transaction id *)
Theorem C24_close_session_refuted :
  exists s1, demo_step plain (command OP_CloseSession 0 []) in_session = Ret (tt, s1) /\
    map o_code (responses (r_log s1)) = [R_OK] /\ r_session s1 = 0.
Proof. eexists. split; [vm_compute; reflexivity|]. split; reflexivity. Qed.
Example ex_C23 : exists s1 s2 s3,
  demo_step plain (command OP_DeleteObject 5 [7]) r_init = Ret (tt, s1) /\ map o_code (responses (r_log s1)) = [R_SessionNotOpen] /\
  demo_step plain (command OP_DeleteObject 0xFFFFFFFF [7]) in_session = Ret (tt, s2) /\ map o_code (responses (r_log s2)) = [R_InvalidTransID] /\
  demo_step plain (command OP_DeleteObject 5 [7]) in_session = Ret (tt, s3) /\ map o_code (responses (r_log s3)) = [R_OK] /\
  In (SDelete 7 0) (calls (r_log s3)) /\ ~ In (SDelete 7 0) (calls (r_log s1)).
Proof.
  eexists; eexists; eexists. split; [vm_compute; reflexivity|]. split; [reflexivity|].
  split; [vm_compute; reflexivity|]. split; [reflexivity|]. split; [vm_compute; reflexivity|]. split; [reflexivity|].
  vm_compute. split; [auto|intuition discriminate].
Qed.
Example ex_C23_ops : In OP_DeleteObject checked_ops /\ length checked_ops = 29%nat /\ NoDup checked_ops.
Proof. split; [vm_compute; tauto|]. split; [reflexivity|]. repeat (constructor; [vm_compute; intuition discriminate|]). constructor. Qed.

(** ** C25: sessions *)
Theorem C25_open : forall env formats cat props_by_type prop_desc s tid ps,
  undisturbed env -> idle s -> command_ok OP_OpenSession tid ps ->
  let sid := nth 0 ps 0 in
  exists s', step env formats cat props_by_type prop_desc (command OP_OpenSession tid ps) s = Ret (tt, s') /\ r_st s' = IDLE /\
    if sid =? 0 then answered (resp_out R_InvalidParameter tid []) s s' /\ r_session s' = r_session s
    else if negb (r_session s =? 0) then answered (resp_out R_SessionAlreadyOpen tid [r_session s]) s s' /\ r_session s' = r_session s
    else answered (resp_out R_OK tid []) s s' /\ r_session s' = sid.
Proof.
  intros *. intros Hq Hi Hc sid.
  replace sid with (nth 0 (pars ps) 0); [apply open_session; assumption|]. unfold sid, pars. destruct ps; reflexivity.
Qed.
Theorem C25_close : forall env formats cat props_by_type prop_desc s tid ps,
  undisturbed env -> idle s -> command_ok OP_CloseSession tid ps ->
  exists s', step env formats cat props_by_type prop_desc (command OP_CloseSession tid ps) s = Ret (tt, s') /\ r_st s' = IDLE /\
    r_session s' = 0 /\ answered (resp_out (if r_session s =? 0 then R_SessionNotOpen else R_OK) tid []) s s'.
Proof.
  intros *. intros Hq Hi Hc.
  destruct (close_session_op env formats cat props_by_type prop_desc s tid ps Hq Hi Hc) as (s' & H1 & H2 & H3 & H4 & H5).
  exists s'. auto.
Qed.
(** Whatever else is received, in whatever state and with whatever cancel, suspend
    or event requests arriving meanwhile ... *)
Theorem C25_otherwise_kept : forall env formats cat props_by_type prop_desc, no_reset env ->
  (forall s data first last s',
     (forall q, parse_req data = Ret q -> q_code q <> OP_OpenSession /\ q_code q <> OP_CloseSession) ->
     step env formats cat props_by_type prop_desc (IRecv data first last) s = Ret (tt, s') -> r_session s' = r_session s) /\
  (forall s s',
     (forall q, r_req s = Some q -> q_code q <> OP_OpenSession /\ q_code q <> OP_CloseSession) ->
     (forall q, parse_req (r_wait s) = Ret q -> q_code q <> OP_OpenSession /\ q_code q <> OP_CloseSession) ->
     step env formats cat props_by_type prop_desc IReady s = Ret (tt, s') -> r_session s' = r_session s).
Proof. intros *. intros Hn. split; [apply session_kept|apply session_ready]; exact Hn. Qed.
(** ... and of the signals only a device reset closes the session. *)
Theorem C25_signals : forall env formats cat props_by_type prop_desc s g s',
  step env formats cat props_by_type prop_desc (ISig g) s = Ret (tt, s') ->
  r_session s' = match g with SigReset => 0 | _ => r_session s end.
Proof. exact session_signal. Qed.
Example ex_C25 : exists s1 s2 s3 s4,
  demo_step plain (command OP_OpenSession 1 [9]) r_init = Ret (tt, s1) /\ r_session s1 = 9 /\
  demo_step plain (command OP_OpenSession 2 [4]) s1 = Ret (tt, s2) /\ r_session s2 = 9 /\
  demo_step plain (command OP_CloseSession 3 []) s2 = Ret (tt, s3) /\ r_session s3 = 0 /\
  demo_step plain (command OP_CloseSession 4 []) s3 = Ret (tt, s4) /\
  map o_code (responses (r_log s4)) = [R_SessionNotOpen; R_OK; R_SessionAlreadyOpen; R_OK].
Proof.
  eexists; eexists; eexists; eexists. split; [vm_compute; reflexivity|]. split; [reflexivity|].
  split; [vm_compute; reflexivity|]. split; [reflexivity|]. split; [vm_compute; reflexivity|]. split; [reflexivity|].
  split; vm_compute; reflexivity.
Qed.

(** ** C26: unknown operations *)
(** the operations with a handler (registerCommandHandlers) *)
Definition handled_ops : list N :=
  [ 0x1001; 0x1002; 0x1003; 0x1004; 0x1005; 0x1006; 0x1007; 0x1008; 0x1009; 0x100A; 0x100B; 0x100C; 0x100D; 0x1012;
    0x1014; 0x1015; 0x1016; 0x1017; 0x1019; 0x101A; 0x101B; 0x95C1; 0x95C2; 0x95C3; 0x95C4; 0x95C5;
    0x9801; 0x9802; 0x9803; 0x9804; 0x9805; 0x9806; 0x9807; 0x9808; 0x9810; 0x9811; 0x9820 ].
Theorem C26_unknown_operation : forall env formats cat props_by_type prop_desc s op tid ps,
  undisturbed env -> storage_is_ready env -> idle s -> command_ok op tid ps -> ~ In op handled_ops ->
  exists s', step env formats cat props_by_type prop_desc (command op tid ps) s = Ret (tt, s') /\
    answered_only R_OperationNotSupported s s'.
Proof.
  intros *. intros Hq Hr Hi Hc Hin. apply unknown_op; auto. intros H. apply Hin.
  unfold known_ops, op_table in H. cbn [map fst] in H. unfold handled_ops.
  cbn [In] in *. intuition auto 40.
Qed.
Example ex_C26 : exists s1, demo_step plain (command 0x9999 5 [7]) in_session = Ret (tt, s1) /\
  map o_code (responses (r_log s1)) = [R_OperationNotSupported] /\ ~ In 0x9999 handled_ops.
Proof. eexists. split; [vm_compute; reflexivity|]. split; [reflexivity|]. vm_compute. intuition discriminate. Qed.

(** ** C38: the data phase must match *)
Theorem C38_mismatch_partial : forall env formats cat props_by_type prop_desc s op tid ps len' ty code' tid' rest packets s',
  undisturbed env -> idle s -> command_ok op tid ps -> has_data_phase op = true -> pass_through op = false ->
  (needs_storage op = true -> storage_is_ready env) ->
  code' < 2^16 -> tid' < 2^32 -> tid' <> tid \/ code' <> op ->
  run env formats cat props_by_type prop_desc
    (command op tid ps :: data_phase ((spec_header len' ty code' tid' ++ rest) :: packets)) s = Ret (tt, s') ->
  exists l o, r_log s' = l ++ r_log s /\ existsb changes (calls l) = false /\ responses l = [o] /\ o_code o <> R_OK.
Proof. intros *. intros Hq Hi Hc Hd Hpt Hr H1 H2 Hm Hrun. eapply data_mismatch; eauto. Qed.
(** SendObject and SendPartialObject64 do not look at the header of the data at all. *)
Theorem C38_send_object_refuted :
  exists s1, demo_run plain (command OP_SendObject 5 [] :: data_phase [spec_header 14 2 OP_DeleteObject 999 ++ [1; 2]])
      (set_seq (Some (mk_ss (blank_info 1 2 0 0x3000 [97]) 7 0)) in_session) = Ret (tt, s1) /\
    map o_code (responses (r_log s1)) = [R_OK] /\ In (SWrite 7 (Some [1; 2]) true true) (calls (r_log s1)).
Proof. eexists. split; [vm_compute; reflexivity|]. split; [reflexivity|]. vm_compute. tauto. Qed.
Theorem C38_send_partial_refuted :
  exists s1, demo_run plain (command OP_SendPartialObject64 5 [7; 0; 0; 2] :: data_phase [spec_header 14 2 OP_DeleteObject 999 ++ [1; 2]])
      (set_edit (Some (7, 0)) in_session) = Ret (tt, s1) /\
    map o_code (responses (r_log s1)) = [R_OK] /\ In (SWritePartial 7 0 [1; 2] true true) (calls (r_log s1)).
Proof. eexists. split; [vm_compute; reflexivity|]. split; [reflexivity|]. vm_compute. tauto. Qed.
Example ex_C38 : exists s1, demo_run plain (command OP_SetObjectReferences 6 [7] ::
     data_phase [spec_header 20 2 OP_SetObjectReferences 7 ++ [1;0]; [0;0;9;0;0;0]]) in_session = Ret (tt, s1) /\
  map o_code (responses (r_log s1)) = [R_InvalidTransID].
Proof. eexists. split; vm_compute; reflexivity. Qed.
Print Assumptions C21_one_response_partial.
Print Assumptions C21_one_response_data_partial.
Print Assumptions C21_getthumb_refuted.
Print Assumptions C21_failed_read_refuted.
Print Assumptions C22_transaction_id_partial.
Print Assumptions C22_transaction_id_data_partial.
Print Assumptions C22_large_id_refuted.
Print Assumptions C23_no_session_partial.
Print Assumptions C23_no_session_data_partial.
Print Assumptions C23_props_supported_refuted.
Print Assumptions C24_invalid_tid_partial.
Print Assumptions C24_invalid_tid_data_partial.
Print Assumptions C24_close_session_refuted.
Print Assumptions C25_open.
Print Assumptions C25_close.
Print Assumptions C25_otherwise_kept.
Print Assumptions C25_signals.
Print Assumptions C26_unknown_operation.
Print Assumptions C38_mismatch_partial.
Print Assumptions C38_send_object_refuted.
Print Assumptions C38_send_partial_refuted.
