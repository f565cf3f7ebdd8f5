(** C34-C37: edit mode, events, suspension, commands before the storage is ready;
    for every environment and every history. *)
From Verif Require Import Base Wire WireSpec Responder RSpec RLogic ROne2 RGate RExec RInv RSession RSend REdit RMisc RDemo.

(** ** C34 *)
(** Histories are newest first, so in [newer ++ (a, r) :: older] the list [older] is
    what happened before the call [a].  [editing older = Some h]: the latest
    BeginEditObject was for [h] and no EndEditObject followed it.  Missing for the
    full statement: "in the same session" (refuted below). *)
Lemma edits_ok_at log : edits_ok log -> forall newer a r older, log = newer ++ (a, r) :: older -> allowed a older.
Proof.
  induction log as [|[a0 r0] log IH]; intros H newer a r older E; [destruct newer; discriminate|].
  destruct H as [H1 H2]. destruct newer as [|e newer]; cbn [app] in E.
  - injection E as <- _ <-. exact H1.
  - injection E as _ ->. exact (IH H2 newer a r older eq_refl).
Qed.
Theorem C34_only_while_editing_partial : forall env formats cat props_by_type prop_desc inputs s' newer a r older,
  run env formats cat props_by_type prop_desc inputs r_init = Ret (tt, s') ->
  r_log s' = newer ++ (a, r) :: older ->
  match a with
  | ACall (SWritePartial h _ _ _ _) => editing older = Some h
  | ACall (SFlush h) => editing older = Some h
  | ACall (SSetEvents h true) => editing older = Some h
  | ACall (STruncate h n) => editing older = Some h \/
      (* SendObject whose content was too short: the object is emptied *)
      (n = 0 /\ exists d f r' rest, older = (ACall (SWrite h (Some d) f true), r') :: rest)
  | _ => True
  end.
Proof.
  intros *. intros H E.
  assert (H0 : EI r_init) by (split; [exact I|reflexivity]).
  pose proof (edits_run env formats cat props_by_type prop_desc inputs r_init s' H0 H) as [K _].
  pose proof (edits_ok_at _ K newer a r older E) as A. destruct a as [c| | | | |]; try exact I. destruct c; try exact I; exact A.
Qed.
(** the answer to a truncation outside an edit, or for another object *)
Theorem C34_edit_survives_session_refuted : exists s',
  demo_run plain [command OP_OpenSession 1 [1]; command OP_BeginEditObject 2 [7]; command OP_CloseSession 3 [];
                  command OP_OpenSession 4 [2]; command OP_TruncateObject64 5 [7; 3; 0]] r_init = Ret (tt, s') /\
  map o_code (responses (r_log s')) = [R_OK; R_OK; R_OK; R_OK; R_OK] /\ In (STruncate 7 3) (calls (r_log s')).
Proof. eexists. split; [vm_compute; reflexivity|]. split; [reflexivity|]. vm_compute. auto 20. Qed.
Example ex_C34 : exists s',
  demo_run plain [command OP_OpenSession 1 [1]; command OP_BeginEditObject 2 [7]; command OP_TruncateObject64 3 [7; 3; 0];
                  command OP_TruncateObject64 4 [8; 3; 0]; command OP_EndEditObject 5 [7]; command OP_TruncateObject64 6 [7; 3; 0]] r_init = Ret (tt, s') /\
  map (fun o => o_code o =? R_OK) (rev (responses (r_log s'))) = [true; true; true; false; true; false] /\
  filter (fun c => match c with STruncate _ _ => true | _ => false end) (calls (r_log s')) = [STruncate 7 3].
Proof. eexists. split; [vm_compute; reflexivity|]. split; vm_compute; reflexivity. Qed.

(** ** C35 *)
(** [events l]: event containers handed to the transport.  An event of any other
    kind, or about no particular object, or about an object with events enabled, is
    sent exactly once, in every state but the suspended one; an event about an object
    with events disabled never. *)
Theorem C35_sent_partial : forall env formats cat props_by_type prop_desc ev ps s,
  r_st s <> SUSPEND ->
  (~ about_object ev \/ ~ real_handle (nth 0 ps 0) \/ not_disabled env (nth 0 ps 0)) ->
  exists s' l, step env formats cat props_by_type prop_desc (ISig (SigEvent ev ps)) s = Ret (tt, s') /\
    r_log s' = l ++ r_log s /\ events l = [event_out ev ps].
Proof.
  intros *. intros Hs H. destruct (event_sent env cat props_by_type prop_desc false ev ps s Hs H) as (l & _ & E1 & E2).
  exists (set_log (l ++ r_log s) s), l. split; [exact E1|]. split; [reflexivity|exact E2].
Qed.
Theorem C35_dropped : forall env formats cat props_by_type prop_desc ev ps s,
  about_object ev -> real_handle (nth 0 ps 0) -> disabled env (nth 0 ps 0) ->
  exists s' l, step env formats cat props_by_type prop_desc (ISig (SigEvent ev ps)) s = Ret (tt, s') /\
    r_log s' = l ++ r_log s /\ events l = [].
Proof.
  intros *. intros H1 H2 H3. destruct (event_dropped env cat props_by_type prop_desc false ev ps s H1 H2 H3) as (l & _ & E1 & E2).
  exists (set_log (l ++ r_log s) s), l. split; [exact E1|]. split; [reflexivity|exact E2].
Qed.
(** the event carries its code and parameters, and no transaction *)
Theorem C35_content : forall ev ps, o_type (event_out ev ps) = TYPE_EVENT /\ o_code (event_out ev ps) = ev /\
  o_tid (event_out ev ps) = 0xFFFFFFFF /\ o_pay (event_out ev ps) = PItems (map u32_item ps).
Proof. intros. repeat split. Qed.
(** while suspended, every event is lost, also an ObjectAdded *)
Theorem C35_suspended_refuted : forall env formats cat props_by_type prop_desc s h, r_st s = SUSPEND ->
  exists s' l, step env formats cat props_by_type prop_desc (ISig (SigEvent EV_ObjectAdded [h])) s = Ret (tt, s') /\
    r_log s' = l ++ r_log s /\ events l = [] /\ r_resend s' = r_resend s.
Proof.
  intros *. intros Hs. cbn [step handle_sig]. unfold dispatch_event. cbv zeta. change (event_filtered EV_ObjectAdded) with false. cbn [orb].
  destruct (negb _ && negb _).
  - unfold bind, call, ask, ret, get. cbn [andb r_st add_log]. rewrite Hs. cbn [rst_eqb].
    eexists. eexists [_; _]. split; [reflexivity|]. repeat split; reflexivity.
  - unfold bind, ret, get. cbn [andb]. rewrite Hs. cbn [rst_eqb]. eexists. exists []. split; [reflexivity|]. repeat split.
Qed.
Example ex_C35 :
  not_disabled plain 7 /\ disabled (demo (fun a => match a with ACall (SGetEvents 7) => Some (mk_ans R_OK [] [] info0 [] None [] false []) | _ => None end)) 7 /\
  (exists s', demo_step plain (ISig (SigEvent EV_ObjectInfoChanged [7])) in_session = Ret (tt, s') /\ events (r_log s') = [event_out EV_ObjectInfoChanged [7]]).
Proof. split; [intros h _; reflexivity|]. split; [intros h; split; reflexivity|]. eexists. split; vm_compute; reflexivity. Qed.

(** ** C36 *)
(** A container given to the transport while suspended is kept; events in between do
    not disturb it; resuming sends it, once, and a second resume sends nothing. *)
Theorem C36_sent_once_partial : forall env formats cat props_by_type prop_desc o last s evs,
  r_st s = SUSPEND -> r_prev s <> TX_CANCEL -> events_only evs = true ->
  exists s1 s2 s3 s4 l r,
    send_container env o last s = Ret (false, s1) /\ r_log s1 = r_log s /\
    run env formats cat props_by_type prop_desc evs s1 = Ret (tt, s2) /\
    step env formats cat props_by_type prop_desc (ISig SigResume) s2 = Ret (tt, s3) /\
    r_log s3 = (AResend o last, r) :: l ++ r_log s /\ responses l = [] /\ datas l = [] /\ r_st s3 = r_prev s /\
    step env formats cat props_by_type prop_desc (ISig SigResume) s3 = Ret (tt, s4) /\ r_log s4 = r_log s3.
Proof.
  intros *. intros Hs Hp He.
  destruct (suspended_container env formats cat props_by_type prop_desc o last s evs Hs Hp He) as (s1 & s2 & s3 & l & r & E1 & E2 & E3 & E4 & E5 & E6 & E7 & E8).
  destruct (resume_empty env formats cat props_by_type prop_desc s3 E8) as (s4 & F1 & F2 & _).
  exists s1, s2, s3, s4, l, r. split; [exact E1|]. split; [exact E2|]. split; [exact E3|]. split; [exact E4|]. split; [exact E5|].
  split; [exact (noise_responses l E6)|]. split; [exact (noise_datas l E6)|]. split; [exact E7|]. split; [exact F1|exact F2].
Qed.
(** A suspend request arrives while an object is being moved; the response is kept
    and sent when resumed.  The responder then still waits for a response to be sent:
    the next command is thrown away and the transport is reset. *)
Definition suspend_in_move := demo (fun a => match a with ACall (SMove _ _ _) => Some (with_async [SigSuspend]) | _ => None end).
Theorem C36_next_command_refuted : exists s1 s2 s3,
  demo_step suspend_in_move (command OP_MoveObject 5 [7; 0x00010001; 0]) in_session = Ret (tt, s1) /\ responses (r_log s1) = [] /\
  demo_step suspend_in_move (ISig SigResume) s1 = Ret (tt, s2) /\ map o_code (responses (r_log s2)) = [R_OK] /\
  demo_step suspend_in_move (command OP_GetStorageIDs 6 []) s2 = Ret (tt, s3) /\ map o_code (responses (r_log s3)) = [R_OK] /\
  map o_tid (responses (r_log s3)) = [5] /\ hd_error (map fst (r_log s3)) = Some AReset.
Proof.
  eexists. eexists. eexists. split; [vm_compute; reflexivity|]. split; [reflexivity|]. split; [vm_compute; reflexivity|]. split; [reflexivity|].
  split; [vm_compute; reflexivity|]. repeat split.
Qed.
Example ex_C36 : exists s, demo_step suspend_in_move (command OP_MoveObject 5 [7; 0x00010001; 0]) in_session = Ret (tt, s) /\
  r_st s = SUSPEND /\ r_prev s <> TX_CANCEL /\ events_only [ISig (SigEvent EV_ObjectAdded [9])] = true.
Proof. eexists. split; [vm_compute; reflexivity|]. repeat split. discriminate. Qed.

(** ** C37 *)
(** Before the storage is ready ([env1]) a command that needs it leaves nothing but
    log output; when it becomes ready ([env2]) the result is that of the command
    arriving now with its data phase in one packet -- whatever the cut into packets
    was before.  [s0] differs from the state in which the command arrived only in the
    log and in the buffer of the waiting data. *)
Theorem C37_deferred : forall env1 env2 formats cat props_by_type prop_desc s op tid ps packets,
  idle s -> command_ok op tid ps -> needs_storage op = true -> not_ready env1 -> storage_is_ready env2 ->
  (packets <> [] -> concat packets <> []) ->
  exists s1 l, run env1 formats cat props_by_type prop_desc (command op tid ps :: data_phase packets) s = Ret (tt, s1) /\
    r_log s1 = l ++ r_log s /\ responses l = [] /\ datas l = [] /\ existsb changes (calls l) = false /\
    let s0 := set_wait (concat packets) (match packets with [] => false | _ => true end) (set_log (r_log s1) s) in
    step env2 formats cat props_by_type prop_desc IReady s1 =
      (run env2 formats cat props_by_type prop_desc
         (command op tid ps :: match packets with [] => [] | _ => [IRecv (concat packets) true true] end) ;;;
       upd (set_wait [] false)) s0.
Proof.
  intros *. intros H1 H2 H3 H4 H5 H6.
  destruct (deferred formats cat props_by_type prop_desc env1 env2 s op tid ps packets H1 H2 H3 H4 H5 H6) as (s1 & l & E1 & E2 & E3 & E4).
  exists s1, l. split; [exact E1|]. split; [exact E2|]. split; [exact (noise_responses l E3)|]. split; [exact (noise_datas l E3)|].
  split; [exact (noise_nochange l E3)|]. cbv zeta. rewrite E2. exact E4.
Qed.
(** hence one response, when nothing interferes *)
Theorem C37_answered_once : forall env1 env2 formats cat props_by_type prop_desc s op tid ps,
  undisturbed env2 -> transport_works env2 -> tables_ok props_by_type prop_desc ->
  idle s -> command_ok op tid ps -> needs_storage op = true -> not_ready env1 -> storage_is_ready env2 ->
  has_data_phase op = false -> op <> OP_GetThumb -> (reads_object op -> reads_succeed env2) ->
  exists s1 s2 o, step env1 formats cat props_by_type prop_desc (command op tid ps) s = Ret (tt, s1) /\
    responses (r_log s1) = responses (r_log s) /\
    step env2 formats cat props_by_type prop_desc IReady s1 = Ret (tt, s2) /\
    responses (r_log s2) = o :: responses (r_log s) /\ r_st s2 = IDLE /\ r_wait s2 = [].
Proof.
  intros *. intros Hq Ht HT Hi Hc Hn Hr1 Hr2 Hd Hth Hrd.
  destruct (deferred formats cat props_by_type prop_desc env1 env2 s op tid ps [] Hi Hc Hn Hr1 Hr2 (fun H => False_ind _ (H eq_refl)))
    as (s1 & l & E1 & E2 & E3 & E4).
  cbv beta zeta in E1, E4. set (s0 := set_wait _ _ _) in E4.
  assert (Hi0 : idle s0) by exact Hi.
  destruct (one_response env2 formats cat props_by_type prop_desc Hq Ht s0 op tid ps Hi0 Hc Hd Hth (fun _ => Hr2) HT Hrd) as (s' & o & H1 & H2 & _ & _ & H3).
  cbn [data_phase run] in E1, E4. unfold bind in E1, E4.
  destruct (step env1 formats cat props_by_type prop_desc (command op tid ps) s) as [[[] sa]| |] eqn:Ea; try discriminate.
  apply Ret_inj in E1. apply (f_equal snd) in E1. cbn in E1. subst sa.
  exists s1, (set_wait [] false s'), o. split; [reflexivity|]. split.
  { rewrite E2, responses_app, (noise_responses l E3). reflexivity. }
  split; [etransitivity; [exact E4|]; rewrite H1; reflexivity|]. split.
  { cbn [r_log set_wait]. rewrite H2. f_equal. unfold s0. cbn [r_log set_wait set_log]. rewrite responses_app, (noise_responses l E3). reflexivity. }
  split; [exact H3|reflexivity].
Qed.
(** commands that need no storage are answered at once, ready or not *)
Theorem C37_at_once : forall env formats cat props_by_type prop_desc s op tid ps,
  undisturbed env -> transport_works env -> tables_ok props_by_type prop_desc ->
  idle s -> command_ok op tid ps -> needs_storage op = false -> has_data_phase op = false ->
  exists s' o, step env formats cat props_by_type prop_desc (command op tid ps) s = Ret (tt, s') /\
    responses (r_log s') = o :: responses (r_log s) /\ r_st s' = IDLE.
Proof.
  intros *. intros Hq Ht HT Hi Hc Hn Hd.
  assert (Hth : op <> OP_GetThumb) by (intros ->; discriminate).
  assert (Hrd : reads_object op -> reads_succeed env) by (intros H; exfalso; revert Hn; unfold reads_object in H; intuition (subst; discriminate)).
  destruct (one_response env formats cat props_by_type prop_desc Hq Ht s op tid ps Hi Hc Hd Hth ltac:(congruence) HT Hrd) as (s' & o & H1 & H2 & _ & _ & H3).
  exists s', o. auto.
Qed.
(** ... also with a data phase, whatever the storage says about being ready *)
Theorem C37_at_once_data : forall env formats cat props_by_type prop_desc s op tid ps packets s',
  undisturbed env -> writes_defined env ->
  idle s -> command_ok op tid ps -> needs_storage op = false -> has_data_phase op = true -> packets <> [] ->
  run env formats cat props_by_type prop_desc (command op tid ps :: data_phase packets) s = Ret (tt, s') ->
  exists o, responses (r_log s') = o :: responses (r_log s) /\ r_st s' = IDLE.
Proof.
  intros *. intros Hq HW Hi Hc Hn Hd Hp Hrun.
  destruct (one_response_data env formats cat props_by_type prop_desc Hq s op tid ps packets s' Hi Hc Hd Hp ltac:(congruence) HW Hrun) as (o & H1 & _ & _ & H2).
  exists o. auto.
Qed.

(** which commands need the storage *)
Definition not_ready_env := demo (fun a => match a with ACall SReady => Some (fail R_OK) | _ => None end).
Example ex_C37 :
  not_ready not_ready_env /\ storage_is_ready plain /\ needs_storage OP_SetObjectReferences = true /\
  let data := [spec_header 20 2 OP_SetObjectReferences 6 ++ [1;0]; [0;0;9;0;0;0]] in
  exists s1 s2, demo_run not_ready_env (command OP_SetObjectReferences 6 [7] :: data_phase data) in_session = Ret (tt, s1) /\ responses (r_log s1) = [] /\
    demo_step plain IReady s1 = Ret (tt, s2) /\ map o_code (responses (r_log s2)) = [R_OK] /\ In (SSetRefs 7 [9]) (calls (r_log s2)).
Proof.
  split; [intros h; reflexivity|]. split; [exact plain_ready|]. split; [reflexivity|]. cbv zeta.
  eexists. eexists. split; [vm_compute; reflexivity|]. split; [reflexivity|]. split; [vm_compute; reflexivity|]. split; [reflexivity|]. vm_compute. auto 10.
Qed.
Print Assumptions C34_only_while_editing_partial.
Print Assumptions C34_edit_survives_session_refuted.
Print Assumptions C35_sent_partial.
Print Assumptions C35_dropped.
Print Assumptions C35_content.
Print Assumptions C35_suspended_refuted.
Print Assumptions C36_sent_once_partial.
Print Assumptions C36_next_command_refuted.
Print Assumptions C37_deferred.
Print Assumptions C37_answered_once.
Print Assumptions C37_at_once.
Print Assumptions C37_at_once_data.
