(** Invariants of the responder, handler by handler, for every environment
    (including cancel, suspend, resume and reset while busy).  Each lemma depends
    only on the closure conditions its handler needs. *)
From Verif Require Import Base Wire WireSpec Responder RSpec RLogic ROne2.

Section Inv.
Variable env : list (act * ans) -> act -> ans.
Variable formats : list N.
Variable cat : N -> N.
Variable props_by_type : N -> N * list N.
Variable prop_desc : N -> N -> N * option objpropdesc.
Variable I : rstate -> Prop.
Hypothesis Ist : forall x s, I s -> I (set_st x s).
Hypothesis Iprev : forall x s, I s -> I (set_prev x s).
Hypothesis Ireq : forall x s, I s -> I (set_req x s).
Hypothesis Idata : forall x s, I s -> I (set_data x s).
Hypothesis Iresp : forall x s, I s -> I (set_resp x s).
Hypothesis Iresend : forall x s, I s -> I (set_resend x s).
Hypothesis Iseq : forall x s, I s -> I (set_seq x s).
Hypothesis Ipl : forall x s, I s -> I (set_pl x s).
Hypothesis Iwait : forall s, I s -> I (set_wait [] false s).
Hypothesis Iread : forall c r s, changes c = false -> I s -> I (add_log (ACall c, r) s).
Hypothesis Itrans : forall a r s, match a with ACall _ | AReset => False | _ => True end -> I s -> I (add_log (a, r) s).
Hypothesis Idelete : forall h f r s, I s -> I (add_log (ACall (SDelete h f), r) s).
(** signals: a reset closes the session *)
Hypothesis Isig : forall busy g, (exists h a, In g (a_async (env h a))) -> hoare True I (handle_sig env busy g) (fun _ => I).

Lemma i_sigs busy l : (forall g, In g l -> exists h a, In g (a_async (env h a))) ->
  hoare True I (run_sigs env busy l) (fun _ => I).
Proof.
  induction l as [|g l IH]; intros H; cbn [run_sigs]; [apply h_ret; auto|].
  apply h_inv; [apply Isig, H; left; reflexivity|]. intros _. apply IH. intros g' Hg'; apply H; right; exact Hg'.
Qed.
Lemma i_upd u : (forall s, I s -> I (u s)) -> hoare True I (upd u) (fun _ => I).
Proof. intros H. apply h_upd; exact H. Qed.
Lemma i_read c : changes c = false -> hoare True I (call env c) (fun _ => I).
Proof. intros H. apply h_ask. auto. Qed.
Lemma i_ask a : match a with ACall _ | AReset => False | _ => True end -> hoare True I (ask env a) (fun r s => I s /\ exists h, r = env h a).
Proof. intros H. apply h_ask. intros s Hs. split; [auto|]. exists (r_log s); reflexivity. Qed.
Lemma i_delete_stored : hoare True I delete_stored (fun _ => I).
Proof. apply h_upd. auto. Qed.
Lemma i_send o last : hoare True I (send_container env o last) (fun _ => I).
Proof.
  unfold send_container. apply h_get. intros st. eapply h_pre; [|intros s [H _]; exact H].
  destruct (rst_eqb st TX_CANCEL); [apply h_ret; auto|].
  destruct (rst_eqb st SUSPEND). { apply h_inv; [apply i_upd; auto|intros _; apply h_ret; auto]. }
  apply h_inv. { destruct (_ =? _); cbn [when]; [apply i_upd; auto|apply h_ret; auto]. } intros _.
  eapply h_bind; [apply i_ask; exact Logic.I|]. intros r. apply h_pure. intros (h & Hr).
  apply h_inv. { apply i_sigs. intros g Hg. exists h, (ASend o last). rewrite <- Hr; exact Hg. } intros _.
  apply h_inv. { destruct (_ =? _); cbn [when]; [apply i_delete_stored|apply h_ret; auto]. } intros _.
  apply h_ret; auto.
Qed.
Lemma i_get A B (g : rstate -> A) (f : A -> M B) :
  (forall x, hoare True I (f x) (fun _ => I)) -> hoare True I (bind (get g) f) (fun _ => I).
Proof. intros H. apply h_get. intros x. eapply h_pre; [apply H|]. tauto. Qed.
Lemma i_crash A : hoare True I (@crash A) (fun _ => I). Proof. intros s Hs; exact Logic.I. Qed.
Lemma i_need A (o : option A) : hoare True I (need o) (fun _ => I).
Proof. destruct o; [apply h_ret; auto|apply i_crash]. Qed.
Lemma i_lift A (o : outcome A) : hoare True I (lift o) (fun _ => I).
Proof. apply h_lift; auto. Qed.
Lemma i_rd A (f : rxc -> outcome (A * rxc)) : hoare True I (rd f) (fun _ => I).
Proof.
  unfold rd, get_rx. apply h_inv; [apply i_get; intro; apply i_need|intro].
  apply h_inv; [apply i_lift|intros [? ?]]. apply h_inv; [apply i_upd; auto|intro; apply h_ret; auto].
Qed.
Ltac istep :=
  lazymatch goal with
  | |- hoare _ _ (bind (get _) _) _ => apply i_get; intro
  | |- hoare _ _ (bind _ _) _ => apply h_inv; [|intro]
  | |- hoare _ _ (call _ _) _ => first [apply i_read; reflexivity | solve [apply h_ask; auto]]
  | |- hoare _ _ (upd _) _ => apply i_upd; solve [auto]
  | |- hoare _ _ (ret _) _ => apply h_ret; solve [auto]
  | |- hoare _ _ (send_container _ _ _) _ => apply i_send
  | |- hoare _ _ (need _) _ => apply i_need
  | |- hoare _ _ (lift _) _ => apply i_lift
  | |- hoare _ _ (rd _) _ => apply i_rd
  | |- hoare _ _ crash _ => apply i_crash
  | |- hoare _ _ delete_stored _ => apply i_delete_stored
  | |- hoare _ _ (when ?b _) _ => destruct b; cbn [when]
  | |- hoare _ _ (if ?b then _ else _) _ => destruct b
  | |- hoare _ _ (let (_, _) := ?b in _) _ => destruct b
  | |- hoare _ _ (match ?b with _ => _ end) _ => destruct b
  | |- hoare _ _ (send_response _ _) _ => unfold send_response
  | |- hoare _ _ (send_response1 _ _ _) _ => unfold send_response1
  | |- hoare _ _ (respond_with _ _ _ _) _ => unfold respond_with
  | |- hoare _ _ (data_then _ _ _ _) _ => unfold data_then
  | |- hoare _ _ (check _) _ => unfold check
  | |- hoare _ _ (edit_check _ _) _ => unfold edit_check
  end.
Ltac is := intros; cbv zeta; repeat istep.
Notation inv m := (hoare True I m (fun _ => I)).

Lemma i_getDeviceInfo q : inv (h_getDeviceInfo env q). Proof. unfold h_getDeviceInfo; is. Qed.
Lemma i_getStorageIDs q : inv (h_getStorageIDs env q). Proof. unfold h_getStorageIDs; is. Qed.
Lemma i_getStorageInfo q : inv (h_getStorageInfo env q). Proof. unfold h_getStorageInfo; is. Qed.
Lemma i_object_query q : inv (object_query env formats q). Proof. unfold object_query; is. Qed.
Lemma i_getNumObjects q : inv (h_getNumObjects env formats q).
Proof. unfold h_getNumObjects. apply h_inv; [apply i_object_query|intro]. is. Qed.
Lemma i_getObjectHandles q : inv (h_getObjectHandles env formats q).
Proof. unfold h_getObjectHandles. apply h_inv; [apply i_object_query|intro]. is. Qed.
Lemma i_getObjectInfo q : inv (h_getObjectInfo env q). Proof. unfold h_getObjectInfo; is. Qed.
Lemma i_seg h fuel : forall off rem, inv (seg_loop env fuel h off rem).
Proof.
  induction fuel as [|f IH]; intros off rem; cbn [seg_loop]; [intros s Hs; exact Logic.I|]. cbv zeta.
  apply h_inv; [apply i_read; reflexivity|intro r]. destruct (negb _); [is|].
  eapply h_bind; [apply i_ask; exact Logic.I|]. intros r2. apply h_pure. intros (hh & Hr).
  apply h_inv. { apply i_sigs. intros g Hg. eexists hh, _. rewrite Hr in Hg; exact Hg. } intros _.
  destruct (negb _); [is|]. match goal with |- hoare _ _ (if ?b then _ else _) _ => destruct b end; [is|apply IH].
Qed.
Lemma i_get_object q h off size : inv (get_object_common env q h off size).
Proof.
  unfold get_object_common, send_segmented, seg_respond. is. apply i_seg.
Qed.
Lemma i_getObject q : inv (h_getObject env q). Proof. apply i_get_object. Qed.
Lemma i_getPartial q : inv (h_getPartialObject env q). Proof. apply i_get_object. Qed.
Lemma i_getPartial64 q : inv (h_getPartialObject64 env q). Proof. apply i_get_object. Qed.
Lemma i_getThumb q : inv (h_getThumb env prop_desc q). Proof. unfold h_getThumb; is. Qed.
Lemma i_deleteObject q : inv (h_deleteObject env q). Proof. unfold h_deleteObject; is. Qed.
Lemma i_check_only q : inv (h_check_only q). Proof. unfold h_check_only; is. Qed.
Lemma i_sendObject q : inv (h_sendObject q). Proof. unfold h_sendObject; is. Qed.
Lemma i_unsupported q : inv (h_unsupported env q). Proof. unfold h_unsupported; is. Qed.
Lemma i_getDevicePropDesc q : inv (h_getDevicePropDesc env q). Proof. unfold h_getDevicePropDesc; is. Qed.
Lemma i_getDevicePropValue q : inv (h_getDevicePropValue env q). Proof. unfold h_getDevicePropValue; is. Qed.
Lemma i_setDevicePropValue q : inv (h_setDevicePropValue env q). Proof. unfold h_setDevicePropValue; is. Qed.
Lemma i_call_loop c : (forall r s, I s -> I (add_log (ACall c, r) s)) -> inv (call_loop env c).
Proof.
  intros H. unfold call_loop. apply h_bind with (R := fun r s => I s /\ exists h a, r = env h a).
  { apply h_ask. intros s Hs. split; [auto|]. eexists _, _; reflexivity. }
  intros r. apply h_pure. intros (h & a & Hr). apply h_inv; [|intros _; apply h_ret; auto].
  apply i_sigs. intros g Hg. exists h, a. rewrite <- Hr; exact Hg.
Qed.
Lemma i_move_copy q : inv (move_copy_checks env q). Proof. unfold move_copy_checks; is. Qed.
Hypothesis Imove : forall h p i r s, I s -> I (add_log (ACall (SMove h p i), r) s).
Lemma i_moveObject q : inv (h_moveObject env q).
Proof.
  unfold h_moveObject. apply h_inv; [apply i_move_copy|intro c]. destruct (isok c); [|is].
  apply h_inv; [apply i_call_loop; auto|intro]. is.
Qed.
Hypothesis Icopy : forall h p i r s, I s -> I (add_log (ACall (SCopy h p i), r) s).
Lemma i_copyObject q : inv (h_copyObject env q).
Proof.
  unfold h_copyObject. apply h_inv; [apply i_move_copy|intro c].
  apply h_inv. { destruct (isok c); [|is]. apply h_inv; [apply i_call_loop; auto|intro]. is. }
  intros [c2 h]. is.
Qed.
Lemma i_getObjPropsSupported q : inv (h_getObjPropsSupported env cat props_by_type q).
Proof. unfold h_getObjPropsSupported; is. Qed.
Lemma i_getObjPropDesc q : inv (h_getObjPropDesc env cat prop_desc q). Proof. unfold h_getObjPropDesc; is. Qed.
Lemma i_getObjPropValue q : inv (h_getObjPropValue env cat prop_desc q). Proof. unfold h_getObjPropValue; is. Qed.
Lemma i_setObjPropValue q : inv (h_setObjPropValue env cat prop_desc q). Proof. unfold h_setObjPropValue; is. Qed.
Lemma i_all_descs c l : inv (all_descs prop_desc c l).
Proof. induction l as [|p l IH]; cbn [all_descs]; is. exact IH. Qed.
Lemma i_prop_list prop hs0 : inv (prop_list_loop env cat props_by_type prop_desc hs0 prop).
Proof.
  induction hs0 as [|h l IH]; cbn [prop_list_loop]; is; try exact IH; apply i_all_descs.
Qed.
Lemma i_getObjectPropList q : inv (h_getObjectPropList env cat props_by_type prop_desc q).
Proof. unfold h_getObjectPropList; is; apply i_prop_list. Qed.
Lemma i_sendObjectPropList q : inv (h_sendObjectPropList env q). Proof. unfold h_sendObjectPropList; is. Qed.
Lemma i_getObjReferences q : inv (h_getObjReferences env q). Proof. unfold h_getObjReferences; is. Qed.
Lemma i_skip q : inv (h_skip env q). Proof. unfold h_skip; is. Qed.
Hypothesis Itrunc : forall h n r s, I s -> I (add_log (ACall (STruncate h n), r) s).
Lemma i_truncate q : inv (h_truncateObject64 env q). Proof. unfold h_truncateObject64; is. Qed.
Hypothesis Isetev : forall h b r s, I s -> I (add_log (ACall (SSetEvents h b), r) s).
Hypothesis Iflush : forall h r s, I s -> I (add_log (ACall (SFlush h), r) s).

(** data handlers *)
Hypothesis Iadd : forall i p o r s, I s -> I (add_log (ACall (SAddItem i p o), r) s).
Lemma i_dSendObjectInfo q : inv (d_sendObjectInfo env q). Proof. unfold d_sendObjectInfo; is. Qed.
Hypothesis Iwrite : forall h d f l r s, I s -> I (add_log (ACall (SWrite h d f l), r) s).
Hypothesis Isetp : forall h l b r s, I s -> I (add_log (ACall (SSetProps h l b), r) s).
Lemma i_check_send h n last : inv (send_object_check env h n last). Proof. unfold send_object_check; is. Qed.
Lemma i_apply h c l : inv (apply_list env prop_desc h c l).
Proof. induction l as [|[[code ty] v] l IH]; cbn [apply_list]; is; exact IH. Qed.
Lemma i_dSendObject data first last : inv (d_sendObject env cat prop_desc data first last).
Proof. unfold d_sendObject; is; try apply i_check_send; apply i_apply. Qed.
Lemma i_set_list n : forall i, inv (set_list_loop env cat prop_desc n i).
Proof. induction n as [|n IH]; intros i; cbn [set_list_loop]; is; apply IH. Qed.
Lemma i_dSetObjectPropList q : inv (d_setObjectPropList env cat prop_desc q).
Proof. unfold d_setObjectPropList; is; apply i_set_list. Qed.
Lemma i_scan c n : forall i acc fn, inv (scan_list prop_desc n i c acc fn).
Proof. induction n as [|n IH]; intros i acc fn; cbn [scan_list]; is; apply IH. Qed.
Lemma i_dSendObjectPropList q : inv (d_sendObjectPropList env cat prop_desc q).
Proof. unfold d_sendObjectPropList; is; apply i_scan. Qed.
Hypothesis Idevset : forall c s0 r s, I s -> I (add_log (ACall (SDevSet c s0), r) s).
Lemma i_dSetDevicePropValue q : inv (d_setDevicePropValue env q). Proof. unfold d_setDevicePropValue; is. Qed.
Lemma i_dSetObjPropValue q : inv (d_setObjPropValue env cat prop_desc q). Proof. unfold d_setObjPropValue; is. Qed.
Hypothesis Isetrefs : forall h l r s, I s -> I (add_log (ACall (SSetRefs h l), r) s).
Lemma i_dSetObjReferences q : inv (d_setObjReferences env q). Proof. unfold d_setObjReferences; is. Qed.

(** editing *)
Hypothesis Iedit : forall x s, I s -> I (set_edit x s).
Lemma i_sendPartial q : inv (h_sendPartialObject64 q). Proof. unfold h_sendPartialObject64; is. Qed.
Lemma i_beginEdit q : inv (h_beginEdit env q). Proof. unfold h_beginEdit; is. Qed.
Lemma i_endEdit q : inv (h_endEdit env q). Proof. unfold h_endEdit; is. Qed.
Hypothesis Iwpart : forall h o d f l r s, I s -> I (add_log (ACall (SWritePartial h o d f l), r) s).
Lemma i_dSendPartial data first last : inv (d_sendPartial env data first last).
Proof. unfold d_sendPartial; is. Qed.

(** all of it *)
Lemma i_data q data first last : inv (data_handler env cat prop_desc q data first last).
Proof.
  unfold data_handler. apply i_get; intros resp0. apply h_inv; [is|intros _].
  destruct (_ && _); [is|]. apply i_get; intros d. apply h_inv; [is|intros resp1]. cbv zeta.
  assert (Hf : forall c (b : bool), inv (upd (set_resp c) ;;; when b (send_response env c))) by (intros; is).
  destruct (negb _); [apply Hf|].
  destruct (_ =? _); [apply i_dSendObjectInfo|].
  destruct (_ =? _); [apply i_dSendObject|].
  destruct (_ =? _); [apply h_inv; [apply i_dSendPartial|intro; apply Hf]|].
  destruct (_ =? _); [apply i_dSetObjectPropList|].
  destruct (_ =? _); [apply i_dSendObjectPropList|].
  destruct (_ =? _); [apply i_dSetDevicePropValue|].
  destruct (_ =? _); [apply i_dSetObjPropValue|].
  destruct (_ =? _); [apply i_dSetObjReferences|]. apply Hf.
Qed.
Ltac pickI := lazymatch goal with
  | |- hoare _ _ (h_getDeviceInfo _ _) _ => apply i_getDeviceInfo
  | |- hoare _ _ (h_getStorageIDs _ _) _ => apply i_getStorageIDs
  | |- hoare _ _ (h_getStorageInfo _ _) _ => apply i_getStorageInfo
  | |- hoare _ _ (h_getNumObjects _ _ _) _ => apply i_getNumObjects
  | |- hoare _ _ (h_getObjectHandles _ _ _) _ => apply i_getObjectHandles
  | |- hoare _ _ (h_getObjectInfo _ _) _ => apply i_getObjectInfo
  | |- hoare _ _ (h_getObject _ _) _ => apply i_getObject
  | |- hoare _ _ (h_getThumb _ _ _) _ => apply i_getThumb
  | |- hoare _ _ (h_deleteObject _ _) _ => apply i_deleteObject
  | |- hoare _ _ (h_check_only _) _ => apply i_check_only
  | |- hoare _ _ (h_sendObject _) _ => apply i_sendObject
  | |- hoare _ _ (h_getPartialObject _ _) _ => apply i_getPartial
  | |- hoare _ _ (h_unsupported _ _) _ => apply i_unsupported
  | |- hoare _ _ (h_getDevicePropDesc _ _) _ => apply i_getDevicePropDesc
  | |- hoare _ _ (h_getDevicePropValue _ _) _ => apply i_getDevicePropValue
  | |- hoare _ _ (h_setDevicePropValue _ _) _ => apply i_setDevicePropValue
  | |- hoare _ _ (h_moveObject _ _) _ => apply i_moveObject
  | |- hoare _ _ (h_copyObject _ _) _ => apply i_copyObject
  | |- hoare _ _ (h_getPartialObject64 _ _) _ => apply i_getPartial64
  | |- hoare _ _ (h_sendPartialObject64 _) _ => apply i_sendPartial
  | |- hoare _ _ (h_truncateObject64 _ _) _ => apply i_truncate
  | |- hoare _ _ (h_beginEdit _ _) _ => apply i_beginEdit
  | |- hoare _ _ (h_endEdit _ _) _ => apply i_endEdit
  | |- hoare _ _ (h_getObjPropsSupported _ _ _ _) _ => apply i_getObjPropsSupported
  | |- hoare _ _ (h_getObjPropDesc _ _ _ _) _ => apply i_getObjPropDesc
  | |- hoare _ _ (h_getObjPropValue _ _ _ _) _ => apply i_getObjPropValue
  | |- hoare _ _ (h_setObjPropValue _ _ _ _) _ => apply i_setObjPropValue
  | |- hoare _ _ (h_getObjectPropList _ _ _ _ _) _ => apply i_getObjectPropList
  | |- hoare _ _ (h_sendObjectPropList _ _) _ => apply i_sendObjectPropList
  | |- hoare _ _ (h_getObjReferences _ _) _ => apply i_getObjReferences
  | |- hoare _ _ (h_skip _ _) _ => apply i_skip
  end.
Ltac peel := match goal with |- hoare _ _ (match (if ?b then _ else _) with _ => _ end) _ => destruct b eqn:?E end.
Lemma i_command q : q_code q <> OP_OpenSession -> q_code q <> OP_CloseSession ->
  inv (command_handler env formats cat props_by_type prop_desc q).
Proof.
  intros Ho Hc. unfold command_handler. cbv zeta. apply h_inv; [is|intros _]. apply h_inv; [is|intros _].
  apply h_inv; [is|intros r]. destruct (_ && _); [is|].
  unfold op_table; cbn [lookup_op].
  repeat (peel; [ first [ solve [exfalso; apply N.eqb_eq in E; auto] | solve [pickI] ] | clear E ]).
  is.
Qed.
Hypothesis Isession : forall x s, I s -> I (set_session x s).
Lemma i_openSession q : inv (h_openSession env q). Proof. unfold h_openSession; is. Qed.
Lemma i_closeSession q : inv (h_closeSession env q). Proof. unfold h_closeSession; is. Qed.
Lemma i_table q : inv (match lookup_op (q_code q) (op_table env formats cat props_by_type prop_desc) with
  | Some f => f q | None => send_response env R_OperationNotSupported end).
Proof.
  unfold op_table; cbn [lookup_op].
  repeat (peel; [ first [ solve [pickI] | apply i_openSession | apply i_closeSession ] | clear E ]).
  is.
Qed.
Lemma i_command_all q : inv (command_handler env formats cat props_by_type prop_desc q).
Proof.
  unfold command_handler. cbv zeta. apply h_inv; [is|intros _]. apply h_inv; [is|intros _].
  apply h_inv; [is|intros r]. destruct (_ && _); [is|]. apply i_table.
Qed.
End Inv.
