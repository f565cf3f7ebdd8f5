(** The edit mode (C34): an invariant of the history, for every environment and
    every input. *)
From Verif Require Import Base Wire WireSpec Responder RSpec RLogic ROne2 RInv.

(** ** Reading the history *)
(** The object being edited, according to the history (newest first): BeginEditObject
    switches change events off for the object, EndEditObject switches them on. *)
Fixpoint editing (log : list (act * ans)) : option N :=
  match log with
  | [] => None
  | (ACall (SSetEvents h false), _) :: _ => Some h
  | (ACall (SSetEvents _ true), _) :: _ => None
  | _ :: r => editing r
  end.
(** Is this entry allowed after that history?  Partial writes, the truncation asked
    for by the initiator and the end of an edit concern the object being edited.
    The other use of truncation empties an object whose transfer by SendObject was
    too short: it follows the write of its last packet. *)
Definition allowed (a : act) (older : list (act * ans)) : Prop :=
  match a with
  | ACall (SWritePartial h _ _ _ _) | ACall (SSetEvents h true) | ACall (SFlush h) => editing older = Some h
  | ACall (STruncate h n) => editing older = Some h \/
      (n = 0 /\ exists d f r rest, older = (ACall (SWrite h (Some d) f true), r) :: rest)
  | _ => True
  end.
Fixpoint edits_ok (log : list (act * ans)) : Prop :=
  match log with [] => True | (a, _) :: r => allowed a r /\ edits_ok r end.

Definition eh (s : rstate) : option N := match r_edit s with Some (h, _) => Some h | None => None end.
Definition EI (s : rstate) : Prop := edits_ok (r_log s) /\ eh s = editing (r_log s).

(** entries that leave the edit alone *)
Definition neutral (a : act) : bool :=
  match a with ACall (SWritePartial _ _ _ _ _) | ACall (SSetEvents _ _) | ACall (SFlush _) | ACall (STruncate _ _) => false | _ => true end.
Lemma neutral_log a r log : neutral a = true -> edits_ok log -> edits_ok ((a, r) :: log) /\ editing ((a, r) :: log) = editing log.
Proof. intros H K. destruct a as [c| | | | |]; try (split; [split; [exact I|exact K]|reflexivity]). destruct c; try discriminate; (split; [split; [exact I|exact K]|reflexivity]). Qed.
Lemma EI_log a r s : neutral a = true -> EI s -> EI (add_log (a, r) s).
Proof. intros H [K1 K2]. destruct (neutral_log a r (r_log s) H K1) as [L1 L2]. split; [exact L1|]. etransitivity; [exact K2|]. symmetry; exact L2. Qed.
Lemma neutral_read c : changes c = false -> neutral (ACall c) = true.
Proof. destruct c; cbn; congruence. Qed.

Section E.
Variable env : list (act * ans) -> act -> ans.
Variable formats : list N.
Variable cat : N -> N.
Variable props_by_type : N -> N * list N.
Variable prop_desc : N -> N -> N * option objpropdesc.
Notation step := (step env formats cat props_by_type prop_desc).
Notation run := (run env formats cat props_by_type prop_desc).
Notation inv m := (hoare True EI m (fun _ => EI)).

Lemma e_ask a : neutral a = true -> inv (ask env a).
Proof. intros H. apply h_ask. intros s Hs. apply EI_log; assumption. Qed.
Lemma e_upd u : (forall s, r_log (u s) = r_log s /\ r_edit (u s) = r_edit s) -> inv (upd u).
Proof. intros H. apply h_upd. intros s [K1 K2]. destruct (H s) as [H1 H2]. unfold EI, eh. rewrite H1, H2. split; assumption. Qed.
Lemma e_sig busy g : inv (handle_sig env busy g).
Proof.
  destruct g; cbn [handle_sig].
  - unfold handle_cancel. apply h_get; intros rq. eapply h_pre; [|intros s [H _]; exact H].
    destruct rq as [q|]; [|apply h_ret; auto].
    apply h_inv; [apply e_upd; auto|intros _]. apply h_inv; [|intros _; apply e_upd; auto].
    destruct (_ || _); cbn [when]; [|apply h_ret; auto].
    apply h_get; intros pl. apply h_get; intros sq. eapply h_pre; [|intros s [[H _] _]; exact H].
    apply h_inv.
    { destruct (negb _); cbn [when]; [|apply h_ret; auto]. apply h_inv; [apply e_ask; reflexivity|intro; apply h_ret; auto]. }
    intros _. destruct pl; apply e_upd; auto.
  - unfold close_session, delete_stored. repeat (apply h_inv; [apply e_upd; auto|intros _]). apply e_upd; auto.
  - unfold handle_suspend. apply h_get; intros st. eapply h_pre; [|intros s [H _]; exact H].
    apply h_inv; [apply e_upd; auto|intro; apply e_upd; auto].
  - unfold handle_resume. apply h_get; intros p. eapply h_pre; [|intros s [H _]; exact H].
    apply h_inv; [apply e_upd; auto|intros _]. apply h_get; intros rs. eapply h_pre; [|intros s [H _]; exact H].
    destruct rs as [[o last]|]; [|apply h_ret; auto]. apply h_inv; [apply e_upd; auto|intros _].
    destruct (_ || _); [apply h_ret; auto|]. apply h_inv; [apply e_ask; reflexivity|intro; apply h_ret; auto].
  - unfold dispatch_event. cbv zeta. apply h_inv.
    { destruct (_ && _); [|apply h_ret; auto]. apply h_inv; [apply e_ask; reflexivity|intro].
      apply h_inv; [apply e_ask; reflexivity|intro]. apply h_ret; auto. }
    intros en. destruct (_ && _); [apply h_ret; auto|]. apply h_get; intros st. eapply h_pre; [|intros s [H _]; exact H].
    destruct (rst_eqb _ _); [apply h_ret; auto|]. apply h_inv; [apply e_ask; reflexivity|intro; apply h_ret; auto].
Qed.
Ltac ec := intros; first [ assumption | apply e_sig | apply EI_log; [first [reflexivity | apply neutral_read; assumption | match goal with x : act |- _ => destruct x; [contradiction|reflexivity..] end]|assumption]
  | match goal with H : EI _ |- EI _ => exact H end ].
Lemma e_send o last : inv (send_container env o last). Proof. apply i_send; ec. Qed.
Lemma e_resp c : inv (send_response env c).
Proof.
  unfold send_response. apply h_get; intros rq. eapply h_pre; [|intros s [H _]; exact H]. destruct rq; [|apply h_ret; auto].
  apply h_inv; [apply e_send|intro; apply h_ret; auto].
Qed.
Ltac estep :=
  lazymatch goal with
  | |- hoare _ _ (bind (get _) _) _ => apply h_get; intro; eapply h_pre; [|let s := fresh in let H := fresh in intros s [H _]; exact H]
  | |- hoare _ _ (bind _ _) _ => apply h_inv; [|intro]
  | |- hoare _ _ (upd _) _ => apply e_upd; solve [auto]
  | |- hoare _ _ (ret _) _ => apply h_ret; solve [auto]
  | |- hoare _ _ (call _ _) _ => apply e_ask; reflexivity
  | |- hoare _ _ (send_response _ _) _ => apply e_resp
  | |- hoare _ _ (when ?b _) _ => destruct b; cbn [when]
  | |- hoare _ _ (if ?b then _ else _) _ => destruct b
  | |- hoare _ _ (match ?b with _ => _ end) _ => destruct b
  | |- hoare _ _ (check _) _ => unfold check
  end.
Ltac es := cbv zeta; repeat estep.
(** after a positive edit check the object is the one being edited *)
Lemma e_check c h : hoare True EI (edit_check c h) (fun r s => EI s /\ (isok r = true -> isok c = true /\ editing (r_log s) = Some h)).
Proof.
  unfold edit_check. destruct (isok c) eqn:E; cbn [negb]; [|apply h_ret; intros s Hs; split; [exact Hs|rewrite E; discriminate]].
  apply h_get; intros e. apply h_ret. intros s [[H1 H2] H3]. split; [split; assumption|]. intros K. split; [reflexivity|].
  rewrite <- H2. unfold eh. rewrite H3. destruct e as [[h' off]|]; [|discriminate]. destruct (h' =? h) eqn:Eh; [|discriminate].
  f_equal. apply N.eqb_eq, Eh.
Qed.
Lemma EI_edit h off s : editing (r_log s) = Some h -> EI s -> EI (set_edit (Some (h, off)) s).
Proof. intros H [K1 K2]. split; [exact K1|]. cbn. symmetry; exact H. Qed.
Lemma e_sendPartial q : inv (h_sendPartialObject64 q).
Proof.
  unfold h_sendPartialObject64. apply h_inv; [es|intros c]. eapply h_bind; [apply e_check|]. intros c2. cbv beta.
  intros s [H1 H2]. destruct (isok c2); cbn [when]; [|exact H1].
  unfold bind, upd. exact (EI_edit _ _ s (proj2 (H2 eq_refl)) H1).
Qed.
Lemma e_truncate q : inv (h_truncateObject64 env q).
Proof.
  unfold h_truncateObject64. apply h_inv; [es|intros c]. eapply h_bind; [apply e_check|]. intros c2. cbv beta.
  destruct (isok c2) eqn:E; [|eapply h_pre; [apply e_resp|intros s [H _]; exact H]].
  apply h_bind with (R := fun _ => EI); [|intro; apply e_resp].
  apply h_ask. intros s [[H1 H2] H3]. split; [split; [left; apply H3; reflexivity|exact H1]|exact H2].
Qed.
Lemma e_beginEdit q : inv (h_beginEdit env q).
Proof.
  unfold h_beginEdit. apply h_inv; [es|intros c]. destruct (negb _); [apply e_resp|]. apply h_inv; [es|intros r]. destruct (negb _); [apply e_resp|].
  apply h_bind with (R := fun _ s => edits_ok (r_log s) /\ r_edit s = Some (par q 0, 0)).
  { apply h_upd. intros s [H1 H2]. split; [exact H1|reflexivity]. }
  intros _. apply h_bind with (R := fun _ => EI); [|intro; apply e_resp].
  apply h_ask. intros s [H1 H2]. split; [split; [exact Logic.I|exact H1]|]. unfold eh. cbn [r_edit add_log]. rewrite H2. reflexivity.
Qed.
Lemma e_endEdit q : inv (h_endEdit env q).
Proof.
  unfold h_endEdit. apply h_inv; [es|intros c]. eapply h_bind; [apply e_check|]. intros c2. cbv beta.
  destruct (isok c2) eqn:E; [|eapply h_pre; [apply e_resp|intros s [H _]; exact H]].
  apply h_bind with (R := fun _ s => edits_ok (r_log s) /\ editing (r_log s) = Some (par q 0)).
  { apply h_ask. intros s [[H1 H2] H3]. destruct (H3 eq_refl) as [_ H4]. split; [split; [exact H4|exact H1]|exact H4]. }
  intros _. apply h_bind with (R := fun _ s => edits_ok (r_log s) /\ editing (r_log s) = None).
  { apply h_ask. intros s [H1 H2]. split; [split; [exact H2|exact H1]|reflexivity]. }
  intros _. apply h_bind with (R := fun _ => EI); [|intros _; apply e_resp].
  apply h_upd. intros s [H1 H2]. split; [exact H1|symmetry; exact H2].
Qed.
Lemma e_dSendPartial data first last : inv (d_sendPartial env data first last).
Proof.
  unfold d_sendPartial. apply h_get; intros e. destruct e as [[h off]|]; [|apply h_ret; intros s [H _]; exact H].
  destruct (_ && _); [apply h_ret; intros s [H _]; exact H|]. cbv zeta.
  apply h_bind with (R := fun _ s => EI s /\ editing (r_log s) = Some h).
  { apply h_ask. intros s [[H1 H2] H3]. unfold eh in H2. rewrite H3 in H2. split; [|symmetry; exact H2].
    split; [split; [symmetry; exact H2|exact H1]|]. unfold eh. cbn [r_edit add_log]. rewrite H3. exact H2. }
  intros r. apply h_bind with (R := fun _ => EI); [|intros _; apply h_ret; auto].
  apply h_upd. intros s [H1 H2]. apply EI_edit; assumption.
Qed.
(** SendObject: the truncation follows the write *)
Lemma e_check_send h n last d f :
  hoare True (fun s => EI s /\ exists r rest, r_log s = (ACall (SWrite h (Some d) f last), r) :: rest)
    (send_object_check env h n last) (fun _ => EI).
Proof.
  unfold send_object_check.
  assert (Ht : hoare True (fun s => EI s /\ exists r rest, r_log s = (ACall (SWrite h (Some d) f last), r) :: rest)
    (if last then _ <- call env (STruncate h 0) ;; ret R_IncompleteTransfer else ret R_Undefined) (fun _ => EI)).
  { destruct last; [|apply h_ret; tauto]. apply h_bind with (R := fun _ => EI); [|intro; apply h_ret; auto].
    apply h_ask. intros s [[H1 H2] (r & rest & H3)]. split; [split; [right; split; [reflexivity|exists d, f, r, rest; exact H3]|exact H1]|exact H2]. }
  apply h_get; intros pl. apply h_get; intros sq. eapply h_pre; [|intros s [[H _] _]; exact H].
  destruct pl as [p|].
  - cbv zeta. apply h_bind with (R := fun _ s => EI s /\ exists r rest, r_log s = (ACall (SWrite h (Some d) f last), r) :: rest).
    { apply h_upd. intros s H. exact H. }
    intros _. destruct (_ <? _); [exact Ht|apply h_ret; tauto].
  - destruct sq as [x|]; [|apply h_ret; tauto]. cbv zeta.
    apply h_bind with (R := fun _ s => EI s /\ exists r rest, r_log s = (ACall (SWrite h (Some d) f last), r) :: rest).
    { apply h_upd. intros s H. exact H. }
    intros _. destruct (_ <? _); [exact Ht|apply h_ret; tauto].
Qed.
Lemma e_dSendObject data first last : inv (d_sendObject env cat prop_desc data first last).
Proof.
  unfold d_sendObject. apply h_get; intros pl0. apply h_get; intros sq0. eapply h_pre; [|intros s [[H _] _]; exact H]. cbv zeta.
  assert (Hw : forall h, hoare True EI (if first && (len data <? 12) then crash else
     r <- call env (SWrite h (Some (if first then drop 12 data else data)) first last) ;;
     (if isok (a_code r) then send_object_check env h (len (if first then drop 12 data else data)) last else ret (a_code r))) (fun _ => EI)).
  { intros h. destruct (_ && _); [intros s Hs; exact Logic.I|].
    apply h_bind with (R := fun _ s => EI s /\ exists r rest, r_log s = (ACall (SWrite h (Some (if first then drop 12 data else data)) first last), r) :: rest).
    { apply h_ask. intros s Hs. split; [apply EI_log; [reflexivity|exact Hs]|eexists _, _; reflexivity]. }
    intros r. destruct (isok _); [eapply h_pre; [apply e_check_send|intros s H; exact H]|apply h_ret; tauto]. }
  apply h_inv. { destruct pl0, sq0; try apply Hw. apply h_ret; auto. }
  intros code. destruct (_ =? _); [es|]. apply h_inv; [es|intros _]. apply h_get; intros pl. eapply h_pre; [|intros s [H _]; exact H].
  apply h_inv; [|intros _; es]. destruct pl; [|es]. destruct (isok code); cbn [when]; [|es].
  apply h_inv; [apply i_apply; ec|intros v]. es.
Qed.
Ltac pickE := lazymatch goal with
  | |- hoare _ _ (h_getDeviceInfo _ _) _ => apply i_getDeviceInfo
  | |- hoare _ _ (h_getStorageIDs _ _) _ => apply i_getStorageIDs
  | |- hoare _ _ (h_getStorageInfo _ _) _ => apply i_getStorageInfo
  | |- hoare _ _ (h_getNumObjects _ _ _) _ => apply i_getNumObjects
  | |- hoare _ _ (h_getObjectHandles _ _ _) _ => apply i_getObjectHandles
  | |- hoare _ _ (h_getObjectInfo _ _) _ => apply i_getObjectInfo
  | |- hoare _ _ (h_getObject _ _) _ => apply i_getObject
  | |- hoare _ _ (h_getThumb _ _ _) _ => apply i_getThumb
  | |- hoare _ _ (h_deleteObject _ _) _ => apply i_deleteObject
  | |- hoare _ _ (h_check_only _) _ => apply i_check_only
  | |- hoare _ _ (h_sendObject _) _ => apply i_sendObject
  | |- hoare _ _ (h_getPartialObject _ _) _ => apply i_getPartial
  | |- hoare _ _ (h_unsupported _ _) _ => apply i_unsupported
  | |- hoare _ _ (h_getDevicePropDesc _ _) _ => apply i_getDevicePropDesc
  | |- hoare _ _ (h_getDevicePropValue _ _) _ => apply i_getDevicePropValue
  | |- hoare _ _ (h_setDevicePropValue _ _) _ => apply i_setDevicePropValue
  | |- hoare _ _ (h_moveObject _ _) _ => apply i_moveObject
  | |- hoare _ _ (h_copyObject _ _) _ => apply i_copyObject
  | |- hoare _ _ (h_getPartialObject64 _ _) _ => apply i_getPartial64
  | |- hoare _ _ (h_sendPartialObject64 _) _ => apply e_sendPartial
  | |- hoare _ _ (h_truncateObject64 _ _) _ => apply e_truncate
  | |- hoare _ _ (h_beginEdit _ _) _ => apply e_beginEdit
  | |- hoare _ _ (h_endEdit _ _) _ => apply e_endEdit
  | |- hoare _ _ (h_getObjPropsSupported _ _ _ _) _ => apply i_getObjPropsSupported
  | |- hoare _ _ (h_getObjPropDesc _ _ _ _) _ => apply i_getObjPropDesc
  | |- hoare _ _ (h_getObjPropValue _ _ _ _) _ => apply i_getObjPropValue
  | |- hoare _ _ (h_setObjPropValue _ _ _ _) _ => apply i_setObjPropValue
  | |- hoare _ _ (h_getObjectPropList _ _ _ _ _) _ => apply i_getObjectPropList
  | |- hoare _ _ (h_sendObjectPropList _ _) _ => apply i_sendObjectPropList
  | |- hoare _ _ (h_getObjReferences _ _) _ => apply i_getObjReferences
  | |- hoare _ _ (h_skip _ _) _ => apply i_skip
  end.
Lemma e_resp1 c p : inv (send_response1 env c p).
Proof.
  unfold send_response1. apply h_get; intros rq. eapply h_pre; [|intros s [H _]; exact H]. destruct rq; [|intros s Hs; exact Logic.I].
  apply h_inv; [apply e_send|intro; apply h_ret; auto].
Qed.
Lemma e_open q : inv (h_openSession env q).
Proof. unfold h_openSession. es. apply e_resp1. Qed.
Lemma e_close q : inv (h_closeSession env q).
Proof. unfold h_closeSession. es. Qed.
Ltac peel := match goal with |- hoare _ _ (match (if ?b then _ else _) with _ => _ end) _ => destruct b eqn:?E end.
Lemma e_command q : inv (command_handler env formats cat props_by_type prop_desc q).
Proof.
  unfold command_handler. cbv zeta. apply h_inv; [es|intros _]. apply h_inv; [es|intros _]. apply h_inv; [es|intros r].
  destruct (_ && _); [es|].
  unfold op_table; cbn [lookup_op].
  repeat (peel; [ clear; first [ apply e_open | apply e_close | solve [pickE; ec] ] | clear E ]).
  apply e_resp.
Qed.
Lemma e_data q data first last : inv (data_handler env cat prop_desc q data first last).
Proof.
  unfold data_handler. apply h_get; intros resp0. eapply h_pre; [|intros s [H _]; exact H].
  apply h_inv.
  { destruct (pass_through _); [es|]. destruct first.
    - apply h_inv; [apply h_lift; auto|intro; es].
    - es. apply h_lift; auto. }
  intros _. destruct (_ && _); [es|]. apply h_get; intros d. eapply h_pre; [|intros s [H _]; exact H].
  apply h_inv. { es; apply h_lift; auto. }
  intros resp1. cbv zeta.
  assert (Hf : forall c (bb : bool), inv (upd (set_resp c) ;;; when bb (send_response env c))) by (intros; es).
  destruct (negb _); [apply Hf|].
  destruct (q_code q =? OP_SendObjectInfo); [apply i_dSendObjectInfo; ec|].
  destruct (q_code q =? OP_SendObject); [apply e_dSendObject|].
  destruct (q_code q =? OP_SendPartialObject64); [apply h_inv; [apply e_dSendPartial|intro; apply Hf]|].
  destruct (q_code q =? OP_SetObjectPropList); [apply i_dSetObjectPropList; ec|].
  destruct (q_code q =? OP_SendObjectPropList); [apply i_dSendObjectPropList; ec|].
  destruct (q_code q =? OP_SetDevicePropValue); [apply i_dSetDevicePropValue; ec|].
  destruct (q_code q =? OP_SetObjectPropValue); [apply i_dSetObjPropValue; ec|].
  destruct (q_code q =? OP_SetObjectReferences); [apply i_dSetObjReferences; ec|]. apply Hf.
Qed.
Lemma e_receive data first last : inv (receive env formats cat props_by_type prop_desc data first last).
Proof.
  unfold receive, reset_transport.
  assert (Hr : inv (_ <- ask env AReset ;; ret tt)) by (apply h_inv; [apply e_ask; reflexivity|intro; es]).
  assert (Hcmd : inv (upd (set_st IDLE);;; upd (set_req None);;;
       (if first && last then q <- lift (parse_req data);; upd (set_req (Some q));;; upd (set_st (phase_state (q_code q)));;;
          command_handler env formats cat props_by_type prop_desc q else (_ <- ask env AReset ;; ret tt)))).
  { apply h_inv; [es|intros _]. apply h_inv; [es|intros _]. destruct (_ && _); [|exact Hr].
    apply h_inv; [apply h_lift; auto|intros q]. apply h_inv; [es|intros _]. apply h_inv; [es|intros _]. apply e_command. }
  apply h_get; intros st. eapply h_pre; [|intros s [H _]; exact H].
  destruct st; try exact Hcmd.
  - apply h_get; intros rq. eapply h_pre; [|intros s [H _]; exact H]. destruct rq; [apply e_data|].
    apply h_inv; [es|intros _; exact Hr].
  - apply h_inv; [es|intros _; exact Hr].
  - apply h_get; intros wt. eapply h_pre; [|intros s [H _]; exact H]. destruct (first && negb (len wt =? 0)); [|es].
    apply h_inv; [es|intros _; exact Hr].
Qed.
Lemma e_step i : inv (step i).
Proof.
  destruct i; cbn [Responder.step]; [apply e_receive|apply e_sig|].
  unfold storage_ready. apply h_get; intros st. eapply h_pre; [|intros s [H _]; exact H].
  destruct (rst_eqb _ _); [|es]. apply h_get; intros rq. eapply h_pre; [|intros s [H _]; exact H].
  apply h_inv; [destruct rq; cbn [need]; [es|intros s Hs; exact Logic.I]|intros q].
  apply h_inv; [es|intros _]. apply h_inv; [apply e_command|intros _].
  apply h_get; intros w. apply h_get; intros d. eapply h_pre; [|intros s [[H _] _]; exact H].
  apply h_inv; [|intros _; es]. destruct (negb _); cbn [when]; [apply e_receive|es].
Qed.
Theorem edits_run l : forall s s', EI s -> run l s = Ret (tt, s') -> EI s'.
Proof.
  induction l as [|i l IH]; intros s s' H E; cbn [Responder.run] in E.
  - apply Ret_inj in E. injection E as <-. exact H.
  - unfold bind in E. pose proof (e_step i s H) as K. destruct (step i s) as [[[] s1]| |]; try discriminate. exact (IH s1 s' K E).
Qed.
End E.
