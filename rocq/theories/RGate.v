(** Commands that are refused have no effect (C23, C24, C26, C38). *)
From Verif Require Import Base Wire WireSpec Responder RSpec RLogic ROne2.

(** The log grew by one response with the given code and by nothing that could
    touch storage or device; sessions, object sequence and edit state are as before. *)
Definition answered_only (code : N) (s s' : rstate) : Prop :=
  (exists l o, r_log s' = l ++ r_log s /\ forallb harmless (calls l) = true /\ datas l = [] /\
     responses l = [o] /\ o_code o = code) /\
  r_session s' = r_session s /\ r_seq s' = r_seq s /\ r_pl s' = r_pl s /\ r_edit s' = r_edit s /\ r_st s' = IDLE.

Lemma responses_app a b : responses (a ++ b) = responses a ++ responses b.
Proof. induction a as [|e a IH]; [reflexivity|]. cbn. rewrite IH. destruct (response_of e); reflexivity. Qed.
Lemma datas_app a b : datas (a ++ b) = datas a ++ datas b.
Proof. induction a as [|e a IH]; [reflexivity|]. cbn. rewrite IH. destruct (data_of e); reflexivity. Qed.
Lemma calls_app a b : calls (a ++ b) = calls a ++ calls b.
Proof. induction a as [|[x r] a IH]; [reflexivity|]. cbn. destruct x; rewrite ?IH; reflexivity. Qed.

Section Gate.
Variable env : list (act * ans) -> act -> ans.
Variable formats : list N.
Variable cat : N -> N.
Variable props_by_type : N -> N * list N.
Variable prop_desc : N -> N -> N * option objpropdesc.
Hypothesis quiet : undisturbed env.
Variable w : rst.
Hypothesis Hw : w = WAIT_RESP \/ w = WAIT_DATA.
Variable bad : Prop.

Definition same (s0 s : rstate) : Prop :=
  r_session s = r_session s0 /\ r_seq s = r_seq s0 /\ r_pl s = r_pl s0 /\ r_edit s = r_edit s0.
Definition still (s0 s : rstate) : Prop :=
  exists l, r_log s = l ++ r_log s0 /\ forallb harmless (calls l) = true /\ datas l = [] /\ responses l = [].
Definition G (q : req) (s0 s : rstate) : Prop := still s0 s /\ same s0 s /\ r_st s = w /\ r_req s = Some q.
Definition K (c : N) (s0 s : rstate) : Prop :=
  (exists l o, r_log s = l ++ r_log s0 /\ forallb harmless (calls l) = true /\ datas l = [] /\
     responses l = [o] /\ o_code o = c) /\ same s0 s /\ r_st s = IDLE.

Lemma still_add s0 s e : still s0 s -> quiet_act (fst e) = true -> still s0 (add_log e s).
Proof.
  intros (l & H1 & H2 & H3 & H4) He. exists (e :: l). cbn. rewrite H1. split; [reflexivity|].
  destruct e as [a r]. cbn in *. destruct a; cbn in *; try discriminate; rewrite ?H2, ?H3, ?H4, ?He; auto.
Qed.
Lemma G_quiet q s0 : quiet_closed (G q s0).
Proof. intros s e He (H1 & H2 & H3 & H4). split; [apply still_add; auto|]. split; [exact H2|]. split; auto. Qed.
Lemma K_quiet c s0 : quiet_closed (K c s0).
Proof.
  intros s [a r] He ((l & o & H1 & H2 & H3 & H4 & H5) & H6 & H7). split; [|split; auto].
  exists ((a, r) :: l), o. cbn. rewrite H1. split; [reflexivity|].
  cbn in He. destruct a; cbn in *; try discriminate; rewrite ?H2, ?H3, ?H4, ?He; auto.
Qed.
Lemma g_call q s0 c : harmless c = true -> hoare bad (G q s0) (call env c) (fun _ => G q s0).
Proof. intros Hc. apply h_ask. intros s Hs. apply G_quiet; auto. Qed.
Lemma g_send q s0 o : o_type o = TYPE_RESPONSE ->
  hoare bad (G q s0) (send_container env o true) (fun _ => K (o_code o) s0).
Proof.
  intros Ho s Hs. pose proof Hs as ((l & H1 & H2 & H3 & H4) & H5 & H6 & H7). unfold send_container.
  unfold bind at 1, get. cbn.
  replace (rst_eqb (r_st s) TX_CANCEL) with false by (rewrite H6; destruct Hw as [-> | ->]; reflexivity).
  replace (rst_eqb (r_st s) SUSPEND) with false by (rewrite H6; destruct Hw as [-> | ->]; reflexivity).
  rewrite Ho. change (TYPE_RESPONSE =? TYPE_RESPONSE) with true. cbn [when].
  unfold bind at 1, upd. unfold bind at 1, ask. set (r := env _ _).
  assert (Hr : forallb is_event (a_async r) = true) by apply quiet.
  set (s1 := add_log _ _).
  assert (Hs1 : K (o_code o) s0 s1).
  { split; [|split; auto]. exists ((ASend o true, r) :: l), o. cbn. rewrite H1. split; [reflexivity|].
    unfold response_of, data_of. cbn. rewrite Ho. cbn. rewrite H2, H3, H4. auto. }
  pose proof (events_quiet bad env _ true _ (K_quiet _ s0) Hr _ Hs1) as H. unfold bind.
  destruct (run_sigs _ _ _ _) as [[a s2]| |]; auto. 
Qed.
Lemma g_resp q s0 c : hoare bad (G q s0) (send_response env c) (fun _ => K c s0).
Proof.
  intros s Hs. unfold send_response, bind at 1, get. rewrite (proj2 (proj2 (proj2 Hs))).
  refine (h_bind bad _ _ _ _ _ _ (fun _ => K c s0) (g_send q s0 (mk_out _ c _ _) eq_refl) _ s Hs).
  intros ?; apply h_ret; auto.
Qed.
Lemma g_resp1 q s0 c p : hoare bad (G q s0) (send_response1 env c p) (fun _ => K c s0).
Proof.
  intros s Hs. unfold send_response1, bind at 1, get. rewrite (proj2 (proj2 (proj2 Hs))).
  refine (h_bind bad _ _ _ _ _ _ (fun _ => K c s0) (g_send q s0 (mk_out _ c _ _) eq_refl) _ s Hs).
  intros ?; apply h_ret; auto.
Qed.
Lemma g_check q s0 B (f : N -> M B) Q : hoare bad (G q s0) (f (pre_check (r_session s0) (q_tid q))) Q ->
  hoare bad (G q s0) (bind (check q) f) Q.
Proof.
  intros H s Hs. unfold check, bind, get, ret. destruct Hs as (H1 & H2 & H3 & H4).
  rewrite (proj1 H2). apply H. exact (conj H1 (conj H2 (conj H3 H4))).
Qed.
Lemma g_pre A q (m : M A) s0 Q :
  hoare bad (G q s0) m Q ->
  hoare bad (G q s0) (when (negb (logged_handle q =? 0) && negb (logged_handle q =? ALL))
    (_ <- call env (SGetPath (logged_handle q)) ;; ret tt) ;;; upd (set_resp R_OK) ;;; m) Q.
Proof.
  intros H. apply h_inv.
  - destruct (_ && _); cbn [when]; [|apply h_ret; auto].
    apply h_inv; [apply g_call; reflexivity|intro; apply h_ret; auto].
  - intros _. eapply h_updb; [|exact H]. intros s (H1 & H2 & H3 & H4). exact (conj H1 (conj H2 (conj H3 H4))).
Qed.

(** operations that run preCheck with the current session *)
Definition checked_ops : list N :=
  [ OP_GetStorageIDs; OP_GetStorageInfo; OP_GetNumObjects; OP_GetObjectHandles; OP_GetObjectInfo; OP_GetObject;
    OP_DeleteObject; OP_SendObjectInfo; OP_SendObject; OP_GetPartialObject; OP_GetDevicePropDesc; OP_GetDevicePropValue;
    OP_SetDevicePropValue; OP_MoveObject; OP_CopyObject; OP_GetPartialObject64; OP_SendPartialObject64;
    OP_TruncateObject64; OP_BeginEditObject; OP_EndEditObject; OP_GetObjectPropDesc; OP_GetObjectPropValue;
    OP_SetObjectPropValue; OP_GetObjectPropList; OP_SetObjectPropList; OP_SendObjectPropList; OP_GetObjectReferences;
    OP_SetObjectReferences; OP_Skip ].

Ltac ges := repeat (first [ apply g_check | apply h_assoc | apply h_retb ]).
Ltac peel := match goal with |- hoare _ _ (match (if ?b then _ else _) with _ => _ end) _ => destruct b eqn:?E end.
Ltac nextop := let F := fresh "F" in rename E into F.

Lemma gate_table q s0 : let c := pre_check (r_session s0) (q_tid q) in
  isok c = false -> existsb (N.eqb (q_code q)) checked_ops = true -> has_data_phase (q_code q) = false ->
  hoare bad (G q s0)
    (match lookup_op (q_code q) (op_table env formats cat props_by_type prop_desc) with
     | Some f => f q | None => send_response env R_OperationNotSupported end) (fun _ => K c s0).
Proof.
  intros c Hc Hin Hd.
  unfold op_table; cbn [lookup_op].
  repeat (peel;
    [ apply N.eqb_eq in E;
      first [ solve [rewrite E in Hd; discriminate] | solve [rewrite E in Hin; discriminate] | idtac ];
      clear E | nextop ]).
  all: try (
    unfold h_getStorageIDs, h_getStorageInfo, h_getNumObjects, h_getObjectHandles, h_getObjectInfo, h_getObject, h_deleteObject,
      h_getPartialObject, h_getDevicePropDesc, h_getDevicePropValue, h_moveObject, h_copyObject, h_getPartialObject64,
      h_truncateObject64, h_beginEdit, h_endEdit, h_getObjPropDesc, h_getObjPropValue, h_getObjectPropList, h_getObjReferences,
      h_skip, object_query, move_copy_checks, get_object_common, edit_check; cbv zeta;
    ges; fold c; rewrite ?Hc; cbn [negb]; ges; rewrite ?Hc; cbn [negb]; ges; first [apply g_resp | apply g_resp1]).
  - unfold h_copyObject, move_copy_checks. ges. fold c. rewrite ?Hc; cbn [negb]. ges. rewrite ?Hc. ges.
    apply h_get. intros st. destruct (rst_eqb st TX_CANCEL) eqn:Est.
    + intros s [(_ & _ & H & _) H2]. rewrite <- H2, H in Est. destruct Hw as [-> | ->]; discriminate.
    + eapply h_pre; [apply g_resp1|]. intros s [H _]; exact H.
  - exfalso. unfold checked_ops in Hin. cbn [existsb] in Hin.
    repeat match goal with H : (q_code q =? ?x) = false |- _ => rewrite H in Hin; clear H end. discriminate Hin.
Qed.
Definition GR (q : req) (c : N) (s0 s : rstate) : Prop := G q s0 s /\ r_resp s = c.
Lemma g_set_resp q s0 c : hoare bad (G q s0) (upd (set_resp c)) (fun _ => GR q c s0).
Proof. apply h_upd. intros s (H1 & H2 & H3 & H4). split; [|reflexivity]. exact (conj H1 (conj H2 (conj H3 H4))). Qed.
Lemma gate_table_data q s0 : let c := pre_check (r_session s0) (q_tid q) in
  isok c = false -> has_data_phase (q_code q) = true ->
  hoare bad (G q s0)
    (match lookup_op (q_code q) (op_table env formats cat props_by_type prop_desc) with
     | Some f => f q | None => send_response env R_OperationNotSupported end) (fun _ => GR q c s0).
Proof.
  intros c Hc Hd.
  unfold op_table; cbn [lookup_op].
  repeat (peel; [ apply N.eqb_eq in E; first [ solve [rewrite E in Hd; discriminate] | idtac ]; clear E | nextop ]).
  9:{ exfalso. unfold has_data_phase in Hd. cbn [existsb] in Hd.
    repeat match goal with H : (q_code q =? ?x) = false |- _ => rewrite H in Hd; clear H end. discriminate Hd. }
  all: unfold h_check_only, h_sendObject, h_setDevicePropValue, h_sendPartialObject64, h_setObjPropValue, h_sendObjectPropList, edit_check;
    ges; fold c; rewrite ?Hc; cbn [negb when]; ges; rewrite ?Hc; cbn [when]; ges; try (apply g_set_resp).
Qed.

(** data arriving for a command that was refused beforehand *)
Hypothesis badT : bad.
Lemma gate_data q c s0 data first last : isok c = false ->
  hoare bad (GR q c s0) (data_handler env cat prop_desc q data first last)
    (fun _ s => if last then K c s0 s else GR q c s0 s).
Proof.
  intros Hc. unfold data_handler. apply h_get. intros resp0.
  apply h_pre with (P := fun s => GR q c s0 s /\ resp0 = c).
  2:{ intros s [[H1 H2] H3]. split; [split; auto|congruence]. }
  apply h_pure. intros ->.
  assert (Hd : forall x, hoare bad (GR q c s0) (upd (set_data x)) (fun _ => GR q c s0)).
  { intros x. apply h_upd. intros s ((H1 & H2 & H3 & H4) & H5). split; [exact (conj H1 (conj H2 (conj H3 H4)))|exact H5]. }
  assert (Hl : forall A (o : outcome A), hoare bad (GR q c s0) (lift o) (fun _ => GR q c s0)) by (intros; apply h_lift; auto).
  apply h_inv.
  { destruct (pass_through _); [apply Hd|]. destruct first.
    - apply h_inv; [apply Hl|intro; apply Hd].
    - apply h_get. intros d. eapply h_pre; [|intros s [H _]; exact H]. destruct d; [|apply h_ret; auto].
      apply h_inv; [apply Hl|intro; apply Hd]. }
  intros _. destruct (negb (pass_through (q_code q)) && negb last) eqn:El.
  { apply h_ret. intros s Hs. destruct last; [rewrite andb_false_r in El; discriminate|exact Hs]. }
  apply h_get. intros d. eapply h_pre; [|intros s [H _]; exact H].
  rewrite Hc. replace (match d with Some _ => ret c | None => ret c end) with (@ret N c) by (destruct d; reflexivity).
  apply h_retb. cbv zeta. rewrite Hc. cbn [negb]. eapply h_bind; [eapply h_pre; [apply g_set_resp|intros s [H _]; exact H]|].
  intro; cbv beta. destruct last; cbn [when]; [eapply h_pre; [apply g_resp|intros s [H _]; exact H]|apply h_ret; auto].
Qed.
End Gate.

Section Gate2.
Variable env : list (act * ans) -> act -> ans.
Variable formats : list N.
Variable cat : N -> N.
Variable props_by_type : N -> N * list N.
Variable prop_desc : N -> N -> N * option objpropdesc.
Hypothesis quiet : undisturbed env.
Notation step := (step env formats cat props_by_type prop_desc).
Notation run := (run env formats cat props_by_type prop_desc).

Lemma g_ready bad w q s0 (m1 m2 : M unit) Q :
  (needs_storage (q_code q) = true -> storage_is_ready env) ->
  hoare bad (G w q s0) m2 Q ->
  hoare bad (G w q s0) (r <- call env SReady ;; if negb (a_bool r) && needs_storage (q_code q) then m1 else m2) Q.
Proof.
  intros Hr H.
  apply h_bind with (R := fun r s => G w q s0 s /\ (needs_storage (q_code q) = true -> a_bool r = true)).
  { apply h_ask. intros s Hs. split; [apply G_quiet; auto|]. intros Hn. apply Hr; exact Hn. }
  intros r. apply h_pure. intros Hb.
  assert (Hc : negb (a_bool r) && needs_storage (q_code q) = false).
  { destruct (needs_storage (q_code q)); [rewrite Hb by reflexivity; reflexivity|apply andb_false_r]. }
  rewrite Hc. exact H.
Qed.
(** the state in which a command handler starts *)
Definition started (op tid : N) (ps : list N) (s : rstate) : rstate :=
  set_st (phase_state op) (set_req (Some (mk_req op tid (pars ps))) (set_req None (set_st IDLE s))).
Lemma started_G op tid ps s : G (phase_state op) (mk_req op tid (pars ps)) s (started op tid ps s).
Proof. split; [exists []; auto|]. split; [repeat split|]. split; reflexivity. Qed.
Lemma K_answered c s s' : K c s s' -> answered_only c s s'.
Proof. intros (H1 & (H2 & H3 & H4 & H5) & H6). split; auto 10. Qed.

Theorem refused_command s op tid ps :
  idle s -> command_ok op tid ps -> existsb (N.eqb op) checked_ops = true -> has_data_phase op = false ->
  (needs_storage op = true -> storage_is_ready env) ->
  pre_check (r_session s) tid <> R_OK ->
  exists s', step (command op tid ps) s = Ret (tt, s') /\ answered_only (pre_check (r_session s) tid) s s'.
Proof.
  intros Hi Hc Hin Hd Hr Hp. rewrite (receive_idle _ _ _ _ _ _ _ _ _ Hi Hc). fold (started op tid ps s).
  set (q := mk_req op tid (pars ps)).
  assert (Hk : isok (pre_check (r_session s) tid) = false) by (unfold isok; lia).
  assert (H : hoare False (G (phase_state op) q s) (command_handler env formats cat props_by_type prop_desc q)
     (fun _ => K (pre_check (r_session s) tid) s)).
  { unfold command_handler. cbv zeta. apply g_pre. apply g_ready; [exact Hr|].
    apply gate_table; auto. apply phase_state_cases. }
  specialize (H _ (started_G op tid ps s)). fold q in H.
  destruct (command_handler _ _ _ _ _ q _) as [[[] s1]| |]; [|contradiction..].
  exists s1. split; [reflexivity|]. apply K_answered, H.
Qed.
Lemma refused_packets q c s0 ps : isok c = false -> ps <> [] ->
  hoare True (GR WAIT_DATA q c s0) (run (more_packets ps)) (fun _ => K c s0).
Proof.
  intros Hc. induction ps as [|p ps IH]; [contradiction|]. intros _.
  assert (Hstep : forall last, hoare True (GR WAIT_DATA q c s0) (step (IRecv p false last))
     (fun _ s => if last then K c s0 s else GR WAIT_DATA q c s0 s)).
  { intros last s Hs. cbn [Responder.step]. unfold receive, bind at 1, get.
    destruct Hs as [(H1 & H2 & H3 & H4) H5]. rewrite H3. unfold bind at 1, get. rewrite H4.
    apply gate_data; auto. split; auto. exact (conj H1 (conj H2 (conj H3 H4))). }
  destruct ps as [|p2 ps].
  - cbn [more_packets Responder.run]. eapply h_bind; [apply (Hstep true)|]. intro; cbv beta. apply h_ret; auto.
  - change (more_packets (p :: p2 :: ps)) with (IRecv p false false :: more_packets (p2 :: ps)).
    cbn [Responder.run]. eapply h_bind; [apply (Hstep false)|]. intro; cbv beta. apply IH; discriminate.
Qed.
Lemma refused_phase q c s0 ps : isok c = false -> ps <> [] ->
  hoare True (GR WAIT_DATA q c s0) (run (data_phase ps)) (fun _ => K c s0).
Proof.
  intros Hc. destruct ps as [|p ps]; [contradiction|]. intros _.
  assert (Hstep : forall last, hoare True (GR WAIT_DATA q c s0) (step (IRecv p true last))
     (fun _ s => if last then K c s0 s else GR WAIT_DATA q c s0 s)).
  { intros last s Hs. cbn [Responder.step]. unfold receive, bind at 1, get.
    destruct Hs as [(H1 & H2 & H3 & H4) H5]. rewrite H3. unfold bind at 1, get. rewrite H4.
    apply gate_data; auto. split; auto. exact (conj H1 (conj H2 (conj H3 H4))). }
  destruct ps as [|p2 ps].
  - cbn [data_phase Responder.run]. eapply h_bind; [apply (Hstep true)|]. intro; cbv beta. apply h_ret; auto.
  - change (data_phase (p :: p2 :: ps)) with (IRecv p true false :: more_packets (p2 :: ps)).
    cbn [Responder.run]. eapply h_bind; [apply (Hstep false)|]. intro; cbv beta. apply refused_packets; [exact Hc|discriminate].
Qed.
Theorem refused_data_command s op tid ps packets s' :
  idle s -> command_ok op tid ps -> has_data_phase op = true -> packets <> [] ->
  (needs_storage op = true -> storage_is_ready env) ->
  pre_check (r_session s) tid <> R_OK ->
  run (command op tid ps :: data_phase packets) s = Ret (tt, s') ->
  answered_only (pre_check (r_session s) tid) s s'.
Proof.
  intros Hi Hc Hd Hpk Hr Hp Hrun. cbn [Responder.run] in Hrun. unfold bind at 1 in Hrun.
  rewrite (receive_idle _ _ _ _ _ _ _ _ _ Hi Hc) in Hrun. fold (started op tid ps s) in Hrun. revert Hrun.
  set (q := mk_req op tid (pars ps)).
  assert (Hk : isok (pre_check (r_session s) tid) = false) by (unfold isok; lia).
  assert (Hph : phase_state op = WAIT_DATA) by (unfold phase_state; rewrite Hd; reflexivity).
  assert (H : hoare True (G WAIT_DATA q s) (command_handler env formats cat props_by_type prop_desc q)
     (fun _ => GR WAIT_DATA q (pre_check (r_session s) tid) s)).
  { unfold command_handler. cbv zeta. apply g_pre. apply g_ready; [exact Hr|].
    apply (gate_table_data env formats cat props_by_type prop_desc WAIT_DATA True q s); auto. }
  pose proof (started_G op tid ps s) as HG. rewrite Hph in HG.
  specialize (H _ HG). fold q in H.
  destruct (command_handler _ _ _ _ _ q _) as [[[] s1]| |]; [|discriminate..].
  intros Hrun. pose proof (refused_phase _ _ _ packets Hk Hpk _ H) as H2. rewrite Hrun in H2.
  apply K_answered; exact H2.
Qed.

(** ** Unknown operations *)
Definition known_ops : list N := map fst (op_table env formats cat props_by_type prop_desc).
Lemma lookup_unknown op t : ~ In op (map fst t) -> lookup_op op t = None.
Proof.
  induction t as [|[c f] t IH]; cbn; [reflexivity|]. intros H. destruct (op =? c) eqn:E; [exfalso; apply H; left; lia|].
  apply IH. tauto.
Qed.
Theorem unknown_op s op tid ps :
  idle s -> command_ok op tid ps -> ~ In op known_ops -> storage_is_ready env ->
  exists s', step (command op tid ps) s = Ret (tt, s') /\ answered_only R_OperationNotSupported s s'.
Proof.
  intros Hi Hc Hin Hr. rewrite (receive_idle _ _ _ _ _ _ _ _ _ Hi Hc). fold (started op tid ps s).
  set (q := mk_req op tid (pars ps)).
  assert (H : hoare False (G (phase_state op) q s) (command_handler env formats cat props_by_type prop_desc q)
     (fun _ => K R_OperationNotSupported s)).
  { unfold command_handler. cbv zeta. apply g_pre. apply g_ready; [auto|].
    rewrite lookup_unknown by exact Hin. apply g_resp; auto. apply phase_state_cases. }
  specialize (H _ (started_G op tid ps s)). fold q in H.
  destruct (command_handler _ _ _ _ _ q _) as [[[] s1]| |]; [|contradiction..].
  exists s1. split; [reflexivity|]. apply K_answered, H.
Qed.
End Gate2.
