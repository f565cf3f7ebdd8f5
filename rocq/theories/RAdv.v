(** C27: advertised operations are never answered OperationNotSupported, in any
    history and any environment that does not produce that code itself. *)
From Verif Require Import Base Wire WireSpec Responder RSpec RLogic ROne2 RInv RMisc.

(** mtpdeviceinfo.cpp 70-105: the built-in table of supported operations *)
Definition builtin_ops : list N :=
  [ OP_GetDeviceInfo; OP_OpenSession; OP_CloseSession; OP_GetStorageIDs; OP_GetStorageInfo; OP_GetNumObjects;
    OP_GetObjectHandles; OP_GetObjectInfo; OP_GetObject; OP_DeleteObject; OP_SendObjectInfo; OP_SendObject; OP_CopyObject;
    OP_MoveObject; OP_SetObjectPropList; OP_GetObjectPropList; OP_SendObjectPropList; OP_GetPartialObject;
    OP_GetDevicePropDesc; OP_GetDevicePropValue; OP_SetDevicePropValue; OP_GetObjectPropsSupported; OP_GetObjectPropDesc;
    OP_GetObjectPropValue; OP_SetObjectPropValue; OP_GetObjectReferences; OP_SetObjectReferences; OP_GetPartialObject64;
    OP_SendPartialObject64; OP_TruncateObject64; OP_BeginEditObject; OP_EndEditObject ].
(** deviceinfo.xml 45-80: the operations listed in the shipped configuration *)
Definition config_ops : list N :=
  [ 0x1001; 0x1002; 0x1003; 0x1004; 0x1005; 0x1006; 0x1007; 0x1008; 0x1009; 0x100A; 0x100B; 0x100C; 0x100D; 0x1014; 0x1015;
    0x1016; 0x1019; 0x101A; 0x101B; 0x9801; 0x9802; 0x9803; 0x9804; 0x9805; 0x9806; 0x9808; 0x9810; 0x9811;
    0x95c1; 0x95c2; 0x95c3; 0x95c4; 0x95c5 ].
(** mtpdeviceinfo.cpp 356-359: what is advertised; the configuration, augmented *)
Definition augment (base more : list N) : list N :=
  fold_left (fun acc x => if existsb (N.eqb x) acc then acc else acc ++ [x]) more base.
Definition advertised_ops : list N := augment config_ops builtin_ops.

Definition isnt (c : N) : Prop := c <> R_OperationNotSupported.
(** the environment does not produce the code *)
Definition env_supports (env : list (act * ans) -> act -> ans) : Prop := forall h a, isnt (a_code (env h a)).
Definition tables_support (props_by_type : N -> N * list N) (prop_desc : N -> N -> N * option objpropdesc) : Prop :=
  (forall c, isnt (fst (props_by_type c))) /\ (forall c p, isnt (fst (prop_desc c p))).

Section A.
Variable env : list (act * ans) -> act -> ans.
Variable formats : list N.
Variable cat : N -> N.
Variable props_by_type : N -> N * list N.
Variable prop_desc : N -> N -> N * option objpropdesc.
Notation step := (step env formats cat props_by_type prop_desc).
Notation run := (run env formats cat props_by_type prop_desc).
Hypothesis He : env_supports env.
Hypothesis Ht : tables_support props_by_type prop_desc.

Definition clean (o : outc) : Prop := o_type o = TYPE_RESPONSE -> isnt (o_code o).
Definition clean_log (log : list (act * ans)) : Prop := Forall (fun o => isnt (o_code o)) (responses log).
Definition K (s : rstate) : Prop :=
  clean_log (r_log s) /\ isnt (r_resp s) /\ match r_resend s with Some (o, _) => clean o | None => True end /\
  match r_req s with Some q => In (q_code q) advertised_ops | None => True end /\
  r_prev s <> WAIT_DATA /\ (r_st s = WAIT_DATA -> match r_req s with Some q => has_data_phase (q_code q) = true | None => True end).
Notation inv m := (hoare True K m (fun _ => K)).

Lemma K_log a r s : (match a with ASend o _ | AResend o _ => clean o | _ => True end) -> K s -> K (add_log (a, r) s).
Proof.
  intros H (K1 & K2). split; [|exact K2]. unfold clean_log in *. cbn [r_log add_log responses]. unfold response_of. cbn [fst].
  destruct a; try exact K1; destruct (o_type o =? TYPE_RESPONSE) eqn:E; try exact K1; (constructor; [apply H; apply N.eqb_eq, E|exact K1]).
Qed.
Lemma k_ask a : (match a with ASend o _ | AResend o _ => clean o | _ => True end) ->
  hoare True K (ask env a) (fun r s => K s /\ isnt (a_code r)).
Proof. intros H. apply h_ask. intros s Hs. split; [apply K_log; assumption|apply He]. Qed.
Lemma k_call c : hoare True K (call env c) (fun r s => K s /\ isnt (a_code r)).
Proof. apply k_ask. exact I. Qed.
Lemma k_call' c : inv (call env c).
Proof. eapply h_post; [apply k_call|]. cbv beta. tauto. Qed.
(** updates of other fields *)
Lemma k_upd u : (forall s, r_log (u s) = r_log s /\ r_resp (u s) = r_resp s /\ r_resend (u s) = r_resend s /\ r_req (u s) = r_req s /\ r_prev (u s) = r_prev s /\
    (r_st (u s) = r_st s \/ r_st (u s) <> WAIT_DATA)) -> inv (upd u).
Proof.
  intros H. apply h_upd. intros s (K1 & K2 & K3 & K4 & K5 & K6). destruct (H s) as (E1 & E2 & E3 & E4 & E5 & E6). unfold K. rewrite E1, E2, E3, E4, E5.
  split; [exact K1|]. split; [exact K2|]. split; [exact K3|]. split; [exact K4|]. split; [exact K5|].
  intros E. destruct E6 as [E6|E6]; [apply K6; congruence|contradiction].
Qed.
Ltac ku := intros; split; [reflexivity|split; [reflexivity|split; [reflexivity|split; [reflexivity|split; [reflexivity|first [left; reflexivity | right; discriminate]]]]]].
Lemma k_resp_upd c : isnt c -> inv (upd (set_resp c)).
Proof. intros H. apply h_upd. intros s (K1 & K2 & K3). split; [exact K1|]. split; [exact H|exact K3]. Qed.
Lemma k_noreq : inv (upd (set_req None)).
Proof. apply h_upd. intros s (K1 & K2 & K3 & K4 & K5 & K6). split; [exact K1|]. split; [exact K2|]. split; [exact K3|]. split; [exact I|]. split; [exact K5|intros _; exact I]. Qed.
Lemma k_delete_stored : inv delete_stored.
Proof. apply h_upd. intros s (K1 & K2 & K3 & K4 & K5 & K6). split; [exact K1|]. split; [exact K2|]. split; [exact K3|]. split; [exact I|]. split; [exact K5|intros _; exact I]. Qed.
Lemma k_get A B (g : rstate -> A) (f : A -> M B) Q :
  (forall x, hoare True K (f x) Q) -> hoare True K (bind (get g) f) Q.
Proof. intros H. apply h_get. intros x. eapply h_pre; [apply H|]. tauto. Qed.
Lemma k_sig busy g : g <> SigSuspend -> inv (handle_sig env busy g).
Proof.
  intros Hg. destruct g; cbn [handle_sig].
  - unfold handle_cancel. apply k_get; intros rq. destruct rq as [q|]; [|apply h_ret; auto].
    apply h_inv; [apply k_upd; ku|intros _]. apply h_inv; [|intros _; apply k_delete_stored].
    destruct (_ || _); cbn [when]; [|apply h_ret; auto].
    apply k_get; intros pl. apply k_get; intros sq.
    apply h_inv.
    { destruct (negb _); cbn [when]; [|apply h_ret; auto]. apply h_inv; [apply k_call'|intro; apply h_ret; auto]. }
    intros _. destruct pl; apply k_upd; ku.
  - unfold close_session.
    repeat first [ apply h_inv; [first [apply k_upd; solve [ku] | apply k_delete_stored | apply k_noreq]|intros _] | apply k_upd; solve [ku] | apply k_delete_stored | apply k_noreq ].
  - contradiction.
  - unfold handle_resume. apply h_get; intros p.
    apply h_bind with (R := fun _ => K).
    { apply h_upd. intros s [(K1 & K2 & K3 & K4 & K5 & K6) <-]. split; [exact K1|]. split; [exact K2|]. split; [exact K3|]. split; [exact K4|]. split; [exact K5|].
      cbn [r_st set_st]. intros E. contradiction. }
    intros _. apply h_get; intros rs. destruct rs as [[o last]|]; [|apply h_ret; tauto].
    apply h_bind with (R := fun _ s => K s /\ clean o).
    { apply h_upd. intros s [(K1 & K2 & K3 & K4) E]. rewrite E in K3. split; [|exact K3]. split; [exact K1|]. split; [exact K2|]. split; [exact I|exact K4]. }
    intros _. apply h_pure. intros Hc.
    destruct (_ || _); [apply h_ret; auto|]. apply h_inv; [|intro; apply h_ret; auto]. eapply h_post; [apply k_ask; exact Hc|]. cbv beta; tauto.
  - unfold dispatch_event. cbv zeta. apply h_inv.
    { destruct (_ && _); [|apply h_ret; auto]. apply h_inv; [apply k_call'|intro].
      apply h_inv; [apply k_call'|intro]. apply h_ret; auto. }
    intros en. destruct (_ && _); [apply h_ret; auto|]. apply k_get; intros st.
    destruct (rst_eqb _ _); [apply h_ret; auto|]. apply h_inv; [|intro; apply h_ret; auto]. eapply h_post; [apply k_ask; exact I|]. cbv beta; tauto.
Qed.
Hypothesis Hnosus : forall h a, ~ In SigSuspend (a_async (env h a)).
Lemma k_sigs_of busy l : ~ In SigSuspend l -> inv (run_sigs env busy l).
Proof.
  induction l as [|g l IH]; intros H; cbn [run_sigs]; [apply h_ret; auto|].
  apply h_inv; [apply k_sig; intros ->; apply H; left; reflexivity|intros _; apply IH; intros X; apply H; right; exact X].
Qed.
(** a question whose answer's signals are handled afterwards *)
Lemma k_ask_sigs busy a A (f : ans -> M A) Q : (match a with ASend o _ | AResend o _ => clean o | _ => True end) ->
  (forall r, isnt (a_code r) -> hoare True K (f r) Q) -> hoare True K (r <- ask env a ;; run_sigs env busy (a_async r) ;;; f r) Q.
Proof.
  intros Ha Hf. apply h_bind with (R := fun r s => K s /\ (isnt (a_code r) /\ ~ In SigSuspend (a_async r))).
  - apply h_ask. intros s H. split; [apply K_log; assumption|]. split; [apply He|apply Hnosus].
  - intros r. apply h_pure. intros [H1 H2]. apply h_inv; [apply k_sigs_of; exact H2|intros _; apply Hf; exact H1].
Qed.
Lemma k_send o last : clean o -> inv (send_container env o last).
Proof.
  intros H. unfold send_container. apply k_get. intros st.
  destruct (rst_eqb st TX_CANCEL); [apply h_ret; auto|].
  destruct (rst_eqb st SUSPEND).
  { apply h_inv; [|intros _; apply h_ret; auto]. apply h_upd. intros s (K1 & K2 & K3 & K4). split; [exact K1|]. split; [exact K2|]. split; [exact H|exact K4]. }
  apply h_inv. { destruct (_ =? _); cbn [when]; [apply k_upd; ku|apply h_ret; auto]. } intros _.
  apply k_ask_sigs; [exact H|intros r _].
  apply h_inv. { destruct (_ =? _); cbn [when]; [apply k_delete_stored|apply h_ret; auto]. } intros _.
  apply h_ret; auto.
Qed.
Lemma k_response c : isnt c -> inv (send_response env c).
Proof. intros H. unfold send_response. apply k_get; intros [q|]; [|apply h_ret; auto]. apply h_inv; [apply k_send; intros _; exact H|intro; apply h_ret; auto]. Qed.
Lemma k_response1 c p : isnt c -> inv (send_response1 env c p).
Proof. intros H. unfold send_response1. apply k_get; intros [q|]; [|intros s Hs; exact I]. apply h_inv; [apply k_send; intros _; exact H|intro; apply h_ret; auto]. Qed.
Lemma k_respond q c ps : isnt c -> inv (respond_with env q c ps).
Proof. intros H. unfold respond_with. apply h_inv; [apply k_send; intros _; exact H|intro; apply h_ret; auto]. Qed.
Lemma k_data_then q p c : isnt c -> inv (data_then env q p c).
Proof.
  intros H. unfold data_then. apply h_inv; [apply k_send; intros E; discriminate|intros b]. destruct b; cbn [when]; [apply k_response; exact H|apply h_ret; auto].
Qed.
Lemma isnt_pre a b : isnt (pre_check a b).
Proof. unfold pre_check, isnt. destruct (_ =? _); [discriminate|]. destruct (_ || _); discriminate. Qed.
Lemma k_check q : hoare True K (check q) (fun c s => K s /\ isnt c).
Proof. unfold check. apply h_get; intros x. apply h_ret. intros s [H _]. split; [exact H|apply isnt_pre]. Qed.
Lemma k_edit_check c h : isnt c -> hoare True K (edit_check c h) (fun c s => K s /\ isnt c).
Proof.
  intros Hc. unfold edit_check. destruct (negb _); [apply h_ret; auto|]. apply h_get; intros e. apply h_ret. intros s [H _]. split; [exact H|].
  destruct e as [[x y]|]; [destruct (x =? h)|]; unfold isnt; discriminate.
Qed.
Lemma k_lift A (o : outcome A) : inv (lift o). Proof. apply h_lift; auto. Qed.
Lemma k_need A (o : option A) : inv (need o). Proof. destruct o; [apply h_ret; auto|intros s Hs; exact I]. Qed.
Lemma k_rd A (f : rxc -> outcome (A * rxc)) : inv (rd f).
Proof.
  unfold rd, get_rx. apply h_inv; [apply k_get; intro; apply k_need|intro].
  apply h_inv; [apply k_lift|intros [? ?]]. apply h_inv; [apply k_upd; ku|intro; apply h_ret; auto].
Qed.
Lemma isnt_props c a l : props_by_type c = (a, l) -> isnt a.
Proof. intros E. pose proof (proj1 Ht c) as H. rewrite E in H. exact H. Qed.
Lemma isnt_desc c p a l : prop_desc c p = (a, l) -> isnt a.
Proof. intros E. pose proof (proj2 Ht c p) as H. rewrite E in H. exact H. Qed.
Ltac isn := first [ assumption | discriminate | solve [unfold isnt; discriminate] | solve [eapply isnt_props; eassumption] | solve [eapply isnt_desc; eassumption] ].
Notation code_post := (fun (c : N) (s : rstate) => K s /\ isnt c).
Ltac kstep :=
  lazymatch goal with
  | |- hoare _ _ (bind (get _) _) _ => apply k_get; intro
  | |- hoare _ _ (bind (call _ _) _) _ => eapply h_bind; [apply k_call|intro; apply h_pure; intro]
  | |- hoare _ _ (bind (check _) _) _ => eapply h_bind; [apply k_check|intro; apply h_pure; intro]
  | |- hoare _ _ (bind (edit_check _ _) _) _ => eapply h_bind; [apply k_edit_check; isn|intro; apply h_pure; intro]
  | |- hoare _ _ (bind (need _) _) _ => apply h_inv; [apply k_need|intro]
  | |- hoare _ _ (bind (lift _) _) _ => apply h_inv; [apply k_lift|intro]
  | |- hoare _ _ (bind (rd _) _) _ => apply h_inv; [apply k_rd|intro]
  | |- hoare _ _ (bind (upd (set_resp _)) _) _ => apply h_inv; [apply k_resp_upd; isn|intro]
  | |- hoare _ _ (bind (upd _) _) _ => apply h_inv; [apply k_upd; solve [ku]|intro]
  | |- hoare _ _ (bind (bind _ _) _) _ => apply h_assoc
  | |- hoare _ _ (bind (ret _) _) _ => apply h_retb
  | |- hoare _ _ (bind (when ?b _) _) _ => destruct b eqn:?; cbn [when]
  | |- hoare _ _ (bind (if ?b then _ else _) _) _ => destruct b eqn:?
  | |- hoare _ _ (bind (match ?b with _ => _ end) _) _ => destruct b eqn:?
  | |- hoare _ _ (bind (send_response _ _) _) _ => apply h_inv; [apply k_response; isn|intro]
  | |- hoare _ _ (call _ _) _ => apply k_call'
  | |- hoare _ _ (upd (set_resp _)) _ => apply k_resp_upd; isn
  | |- hoare _ _ (upd _) _ => apply k_upd; solve [ku]
  | |- hoare _ _ (ret _) _ => apply h_ret; solve [auto]
  | |- hoare _ _ (send_response _ _) _ => apply k_response; isn
  | |- hoare _ _ (send_response1 _ _ _) _ => apply k_response1; isn
  | |- hoare _ _ (respond_with _ _ _ _) _ => apply k_respond; isn
  | |- hoare _ _ (data_then _ _ _ _) _ => apply k_data_then; isn
  | |- hoare _ _ crash _ => intros ? ?; exact I
  | |- hoare _ _ (when ?b _) _ => destruct b eqn:?; cbn [when]
  | |- hoare _ _ (let (_, _) := ?b in _) _ => destruct b eqn:?
  | |- hoare _ _ (if ?b then _ else _) _ => destruct b eqn:?
  | |- hoare _ _ (match ?b with _ => _ end) _ => destruct b eqn:?
  end.
Ltac kr := apply h_ret; let s := fresh in let Hs := fresh in intros s Hs; split; [exact Hs|cbn [fst]; isn].
Ltac ks := intros; cbv zeta; repeat kstep.

Lemma k_getDeviceInfo q : inv (h_getDeviceInfo env q). Proof. unfold h_getDeviceInfo; ks. Qed.
Lemma k_openSession q : inv (h_openSession env q). Proof. unfold h_openSession; ks. Qed.
Lemma k_closeSession q : inv (h_closeSession env q). Proof. unfold h_closeSession; ks. Qed.
Lemma k_getStorageIDs q : inv (h_getStorageIDs env q). Proof. unfold h_getStorageIDs; ks. Qed.
Lemma k_getStorageInfo q : inv (h_getStorageInfo env q). Proof. unfold h_getStorageInfo; ks. Qed.
Lemma k_object_query q : hoare True K (object_query env formats q) (fun r s => K s /\ isnt (fst r)).
Proof.
  unfold object_query. ks; try (kr). all: apply h_ret; intros s Hs; split; [exact Hs|cbn [fst]; match goal with |- isnt (if ?b then _ else _) => destruct b end; isn].
Qed.
Lemma k_getNumObjects q : inv (h_getNumObjects env formats q).
Proof. unfold h_getNumObjects. eapply h_bind; [apply k_object_query|intros [c l]; apply h_pure; cbn [fst]; intro]. ks. Qed.
Lemma k_getObjectHandles q : inv (h_getObjectHandles env formats q).
Proof. unfold h_getObjectHandles. eapply h_bind; [apply k_object_query|intros [c l]; apply h_pure; cbn [fst]; intro]. ks. Qed.
Lemma k_getObjectInfo q : inv (h_getObjectInfo env q). Proof. unfold h_getObjectInfo; ks. Qed.
Lemma k_seg h fuel : forall off rem, hoare True K (seg_loop env fuel h off rem) (fun r s => K s /\ isnt (fst (fst r))).
Proof.
  induction fuel as [|f IH]; intros off rem; cbn [seg_loop]; [intros s Hs; exact Logic.I|]. cbv zeta.
  eapply h_bind; [apply k_call|intro r; apply h_pure; intro Hr]. destruct (negb _); [apply h_ret; auto|].
  apply k_ask_sigs; [exact I|intros r2 _].
  destruct (negb _); [apply h_ret; intros s Hs; split; [exact Hs|discriminate]|].
  match goal with |- hoare _ _ (if ?b then _ else _) _ => destruct b end; [apply h_ret; intros s Hs; split; [exact Hs|discriminate]|apply IH].
Qed.
Lemma k_seg_respond op c n : isnt c -> inv (seg_respond env op c n).
Proof. intros H. unfold seg_respond. ks. Qed.
Lemma k_get_object q h off size : inv (get_object_common env q h off size).
Proof.
  unfold get_object_common, send_segmented. ks; try (apply k_seg_respond; isn).
  apply h_inv; [apply k_send; intros E; discriminate|intros b]. ks; try (apply k_seg_respond; isn).
  eapply h_bind; [apply k_seg|intros [[c n] d]; apply h_pure; cbn [fst]; intro]. destruct d; [apply k_seg_respond; isn|apply h_ret; auto].
Qed.
Lemma k_getThumb q : inv (h_getThumb env prop_desc q). Proof. unfold h_getThumb; ks. Qed.
Lemma k_deleteObject q : inv (h_deleteObject env q). Proof. unfold h_deleteObject; ks. Qed.
Lemma k_check_only q : inv (h_check_only q). Proof. unfold h_check_only; ks. Qed.
Lemma k_sendObject q : inv (h_sendObject q).
Proof. unfold h_sendObject. kstep. kstep. kstep. apply k_resp_upd. destruct (isok a); [|isn]. destruct x, x0; isn. Qed.
Lemma k_getDevicePropDesc q : inv (h_getDevicePropDesc env q). Proof. unfold h_getDevicePropDesc; ks. Qed.
Lemma k_getDevicePropValue q : inv (h_getDevicePropValue env q). Proof. unfold h_getDevicePropValue; ks. Qed.
Lemma k_setDevicePropValue q : inv (h_setDevicePropValue env q).
Proof. unfold h_setDevicePropValue. kstep. kstep; [kstep|]. kstep. apply k_resp_upd. destruct (a_dpd a0); [destruct (isok (a_code a0))|]; isn. Qed.
Lemma k_call_loop c : hoare True K (call_loop env c) (fun r s => K s /\ isnt (a_code r)).
Proof.
  unfold call_loop. apply k_ask_sigs; [exact I|intros r Hr]. apply h_ret; auto.
Qed.
Lemma k_move_copy q : hoare True K (move_copy_checks env q) (fun c s => K s /\ isnt c).
Proof. unfold move_copy_checks. ks; try (kr). Qed.
Lemma k_moveObject q : inv (h_moveObject env q).
Proof.
  unfold h_moveObject. eapply h_bind; [apply k_move_copy|intro c; apply h_pure; intro Hc]. destruct (isok c); [|ks].
  eapply h_bind; [apply k_call_loop|intro r; apply h_pure; intro Hr]. ks.
Qed.
Lemma k_copyObject q : inv (h_copyObject env q).
Proof.
  unfold h_copyObject. eapply h_bind; [apply k_move_copy|intro c; apply h_pure; intro Hc].
  apply h_bind with (R := fun r s => K s /\ isnt (fst r)).
  { destruct (isok c); [|apply h_ret; auto]. eapply h_bind; [apply k_call_loop|intro r; apply h_pure; intro Hr]. apply h_ret; auto. }
  intros [c2 h]. apply h_pure. cbn [fst]; intro. ks.
Qed.
Lemma k_sendPartial q : inv (h_sendPartialObject64 q). Proof. unfold h_sendPartialObject64; ks. Qed.
Lemma k_truncate q : inv (h_truncateObject64 env q). Proof. unfold h_truncateObject64; ks. Qed.
Lemma k_beginEdit q : inv (h_beginEdit env q). Proof. unfold h_beginEdit; ks. Qed.
Lemma k_endEdit q : inv (h_endEdit env q). Proof. unfold h_endEdit; ks. Qed.
Lemma k_getObjPropsSupported q : inv (h_getObjPropsSupported env cat props_by_type q).
Proof. unfold h_getObjPropsSupported; ks. Qed.
Lemma k_getObjPropDesc q : inv (h_getObjPropDesc env cat prop_desc q). Proof. unfold h_getObjPropDesc; ks. Qed.
Lemma k_getObjPropValue q : inv (h_getObjPropValue env cat prop_desc q). Proof. unfold h_getObjPropValue; ks. Qed.
Lemma k_setObjPropValue q : inv (h_setObjPropValue env cat prop_desc q). Proof. unfold h_setObjPropValue; ks. Qed.
Lemma k_all_descs c l : hoare True K (all_descs prop_desc c l) (fun r s => K s /\ isnt (fst r)).
Proof.
  induction l as [|p l IH]; cbn [all_descs]; [apply h_ret; intros s Hs; split; [exact Hs|discriminate]|].
  destruct (prop_desc c p) as [a d] eqn:E. apply h_inv; [apply k_need|intro x]. destruct (negb _).
  - kr.
  - eapply h_bind; [apply IH|intros [c2 ds]; apply h_pure; cbn [fst]; intro]. apply h_ret; auto.
Qed.
Lemma k_prop_list prop hs0 : hoare True K (prop_list_loop env cat props_by_type prop_desc hs0 prop) (fun r s => K s /\ isnt (fst r)).
Proof.
  induction hs0 as [|h l IH]; cbn [prop_list_loop]; [apply h_ret; intros s Hs; split; [exact Hs|discriminate]|].
  eapply h_bind; [apply k_call|intro r; apply h_pure; intro Hr]. destruct (negb _); [apply h_ret; auto|]. cbv zeta.
  apply h_bind with (R := fun r s => K s /\ isnt (fst r)).
  { destruct (_ =? 0xFFFF).
    - match goal with |- context [props_by_type ?c] => destruct (props_by_type c) as [a ps] eqn:E end.
      destruct (isok a); [apply k_all_descs|kr].
    - match goal with |- context [prop_desc ?c ?p] => destruct (prop_desc c p) as [a d] eqn:E end.
      kr. }
  intros [c ds]. apply h_pure. cbn [fst]. intro Hc. destruct (negb _); [apply h_ret; auto|].
  eapply h_bind; [apply k_call|intro r2; apply h_pure; intro Hr2]. destruct (negb _); [apply h_ret; auto|].
  destruct (prop_items _ _ _) as [items n].
  eapply h_bind; [apply IH|intros [c3 [l3 m3]]; apply h_pure; cbn [fst]; intro]. apply h_ret; auto.
Qed.
Lemma k_getObjectPropList q : inv (h_getObjectPropList env cat props_by_type prop_desc q).
Proof.
  unfold h_getObjectPropList. cbv zeta.
  assert (Hf : forall c, isnt c -> isnt (if c =? R_InvalidObjectFormatCode then R_InvalidCodeFormat else c)) by (intros c Hc; destruct (_ =? _); [discriminate|exact Hc]).
  kstep. do 5 (kstep; [kstep|]).
  apply h_bind with (R := fun r s => K s /\ isnt (fst r)).
  { match goal with |- hoare _ _ (if ?b then _ else _) _ => destruct b end; [apply h_ret; intros s Hs; split; [exact Hs|discriminate]|].
    eapply h_bind; [apply k_call|intro r; apply h_pure; intro Hr]. apply h_ret; auto. }
  intros [c1 hs]. apply h_pure. cbn [fst]. intro H1. destruct (negb (isok c1)); [apply k_data_then; auto|].
  eapply h_bind; [apply k_prop_list|intros [c2 [items n]]; apply h_pure; cbn [fst]; intro H2]. destruct (isok c2); [apply k_data_then; isn|apply k_response; auto].
Qed.
Lemma k_sendObjectPropList q : inv (h_sendObjectPropList env q). Proof. unfold h_sendObjectPropList; ks. Qed.
Lemma k_getObjReferences q : inv (h_getObjReferences env q). Proof. unfold h_getObjReferences; ks. Qed.
(** data handlers *)
Lemma k_dSendObjectInfo q : inv (d_sendObjectInfo env q). Proof. unfold d_sendObjectInfo; ks. Qed.
Lemma k_check_send h n last : hoare True K (send_object_check env h n last) (fun c s => K s /\ isnt c).
Proof. unfold send_object_check. ks; try (kr). Qed.
Lemma k_apply h c l : inv (apply_list env prop_desc h c l).
Proof. induction l as [|[[code ty] v] l IH]; cbn [apply_list]; ks; (apply h_inv; [exact IH|intro]); ks. Qed.
Lemma k_dSendObject data first last : inv (d_sendObject env cat prop_desc data first last).
Proof.
  unfold d_sendObject. apply k_get; intros pl0. apply k_get; intros sq0. cbv zeta.
  apply h_bind with (R := fun c s => K s /\ isnt c).
  { assert (Hw : forall h, hoare True K (if first && (len data <? 12) then crash else
       r <- call env (SWrite h (Some (if first then drop 12 data else data)) first last) ;;
       (if isok (a_code r) then send_object_check env h (len (if first then drop 12 data else data)) last else ret (a_code r))) (fun c s => K s /\ isnt c)).
    { intros h. destruct (_ && _); [intros s Hs; exact I|]. eapply h_bind; [apply k_call|intro r; apply h_pure; intro Hr].
      destruct (isok _); [apply k_check_send|apply h_ret; auto]. }
    destruct pl0, sq0; try apply Hw. apply h_ret; intros s Hs; split; [exact Hs|discriminate]. }
  intros code. apply h_pure. intros Hc. destruct (_ =? _); [ks|]. kstep. apply k_get; intros pl.
  apply h_inv; [|intros _; ks]. destruct pl; [|ks]. destruct (isok code); cbn [when]; [|ks].
  apply h_inv; [apply k_apply|intros v]. ks.
Qed.
Lemma k_dSendPartial data first last : hoare True K (d_sendPartial env data first last) (fun c s => K s /\ isnt c).
Proof. unfold d_sendPartial. ks; try (kr). Qed.
Lemma k_set_list n : forall i, hoare True K (set_list_loop env cat prop_desc n i) (fun r s => K s /\ isnt (fst r)).
Proof.
  induction n as [|n IH]; intros i; cbn [set_list_loop]; [apply h_ret; intros s Hs; split; [exact Hs|discriminate]|].
  kstep. kstep. apply h_bind with (R := fun c s => K s /\ isnt c).
  - ks; try (kr).
  - intros c. apply h_pure. intros Hc. destruct (isok c); [apply IH|apply h_ret; auto].
Qed.
Lemma k_dSetObjectPropList q : inv (d_setObjectPropList env cat prop_desc q).
Proof. unfold d_setObjectPropList. kstep. eapply h_bind; [apply k_set_list|intros [c i]; apply h_pure; cbn [fst]; intro]. ks. Qed.
Lemma k_scan c n : forall i acc fn, inv (scan_list prop_desc n i c acc fn).
Proof. induction n as [|n IH]; intros i acc fn; cbn [scan_list]; ks; apply IH. Qed.
Lemma k_dSendObjectPropList q : inv (d_sendObjectPropList env cat prop_desc q).
Proof. unfold d_sendObjectPropList. kstep. kstep; [|kstep]. kstep. apply h_inv; [apply k_scan|intros [[elems bad] fname]]. ks. Qed.
Lemma k_dSetDevicePropValue q : inv (d_setDevicePropValue env q). Proof. unfold d_setDevicePropValue; ks. Qed.
Lemma k_dSetObjPropValue q : inv (d_setObjPropValue env cat prop_desc q). Proof. unfold d_setObjPropValue; ks. Qed.
Lemma k_dSetObjReferences q : inv (d_setObjReferences env q). Proof. unfold d_setObjReferences; ks. Qed.

Ltac pickK := lazymatch goal with
  | |- hoare _ _ (h_getDeviceInfo _ _) _ => apply k_getDeviceInfo
  | |- hoare _ _ (h_openSession _ _) _ => apply k_openSession
  | |- hoare _ _ (h_closeSession _ _) _ => apply k_closeSession
  | |- hoare _ _ (h_getStorageIDs _ _) _ => apply k_getStorageIDs
  | |- hoare _ _ (h_getStorageInfo _ _) _ => apply k_getStorageInfo
  | |- hoare _ _ (h_getNumObjects _ _ _) _ => apply k_getNumObjects
  | |- hoare _ _ (h_getObjectHandles _ _ _) _ => apply k_getObjectHandles
  | |- hoare _ _ (h_getObjectInfo _ _) _ => apply k_getObjectInfo
  | |- hoare _ _ (h_getObject _ _) _ => apply k_get_object
  | |- hoare _ _ (h_getThumb _ _ _) _ => apply k_getThumb
  | |- hoare _ _ (h_deleteObject _ _) _ => apply k_deleteObject
  | |- hoare _ _ (h_check_only _) _ => apply k_check_only
  | |- hoare _ _ (h_sendObject _) _ => apply k_sendObject
  | |- hoare _ _ (h_getPartialObject _ _) _ => apply k_get_object
  | |- hoare _ _ (h_getDevicePropDesc _ _) _ => apply k_getDevicePropDesc
  | |- hoare _ _ (h_getDevicePropValue _ _) _ => apply k_getDevicePropValue
  | |- hoare _ _ (h_setDevicePropValue _ _) _ => apply k_setDevicePropValue
  | |- hoare _ _ (h_moveObject _ _) _ => apply k_moveObject
  | |- hoare _ _ (h_copyObject _ _) _ => apply k_copyObject
  | |- hoare _ _ (h_getPartialObject64 _ _) _ => apply k_get_object
  | |- hoare _ _ (h_sendPartialObject64 _) _ => apply k_sendPartial
  | |- hoare _ _ (h_truncateObject64 _ _) _ => apply k_truncate
  | |- hoare _ _ (h_beginEdit _ _) _ => apply k_beginEdit
  | |- hoare _ _ (h_endEdit _ _) _ => apply k_endEdit
  | |- hoare _ _ (h_getObjPropsSupported _ _ _ _) _ => apply k_getObjPropsSupported
  | |- hoare _ _ (h_getObjPropDesc _ _ _ _) _ => apply k_getObjPropDesc
  | |- hoare _ _ (h_getObjPropValue _ _ _ _) _ => apply k_getObjPropValue
  | |- hoare _ _ (h_setObjPropValue _ _ _ _) _ => apply k_setObjPropValue
  | |- hoare _ _ (h_getObjectPropList _ _ _ _ _) _ => apply k_getObjectPropList
  | |- hoare _ _ (h_sendObjectPropList _ _) _ => apply k_sendObjectPropList
  | |- hoare _ _ (h_getObjReferences _ _) _ => apply k_getObjReferences
  end.
Lemma k_table q : In (q_code q) advertised_ops -> inv (match lookup_op (q_code q) (op_table env formats cat props_by_type prop_desc) with
  | Some f => f q | None => send_response env R_OperationNotSupported end).
Proof.
  intros H. change advertised_ops with (ltac:(let x := eval vm_compute in advertised_ops in exact x)) in H. cbn [In] in H.
  repeat (destruct H as [H|H]; [rewrite <- H; unfold op_table; cbn [lookup_op]; 
    repeat match goal with |- context [if ?a =? ?b then _ else _] => let r := eval vm_compute in (a =? b) in change (a =? b) with r; cbv iota end;
    solve [pickK]|]). contradiction.
Qed.
Lemma k_command q : In (q_code q) advertised_ops -> inv (command_handler env formats cat props_by_type prop_desc q).
Proof.
  intros Hq. unfold command_handler. cbv zeta. apply h_inv.
  { destruct (negb (logged_handle q =? 0) && negb (logged_handle q =? ALL)); cbn [when]; [|apply h_ret; intros s Hs; exact Hs].
    apply h_inv; [apply k_call'|intros _; apply h_ret; intros s Hs; exact Hs]. }
  intros _.
  apply h_inv; [apply k_resp_upd; unfold isnt; discriminate|intros _]. apply h_inv; [apply k_call'|intros r].
  destruct (negb (a_bool r) && needs_storage (q_code q)); [apply h_inv; [|intros _]; apply k_upd; ku|]. apply k_table; exact Hq.
Qed.
Lemma k_data q data first last : has_data_phase (q_code q) = true -> inv (data_handler env cat prop_desc q data first last).
Proof.
  intros Hd. unfold data_handler. apply h_get; intros resp0.
  apply h_bind with (R := fun _ s => K s /\ isnt resp0).
  { eapply h_pre with (P := fun s => K s /\ isnt resp0).
    - apply h_pure. intros Hr. eapply h_post with (Q := fun _ => K); [|auto]. ks.
    - intros s [H <-]. split; [exact H|apply H]. }
  intros _. apply h_pure. intros Hr0. destruct (_ && _); [ks|]. apply k_get; intros d.
  apply h_bind with (R := fun c s => K s /\ isnt c).
  { destruct d as [r|]; [|apply h_ret; auto]. destruct (isok resp0); [|apply h_ret; auto]. kstep. kstep.
    apply h_ret. intros s H. split; [exact H|]. destruct (negb _); [isn|]. destruct (negb _); isn. }
  intros resp1. apply h_pure. intros H1. cbv zeta.
  assert (Hf : forall c (bb : bool), isnt c -> inv (upd (set_resp c) ;;; when bb (send_response env c))) by (intros; ks).
  destruct (negb _); [apply Hf; exact H1|].
  destruct (q_code q =? OP_SendObjectInfo) eqn:E1; [apply k_dSendObjectInfo|].
  destruct (q_code q =? OP_SendObject) eqn:E2; [apply k_dSendObject|].
  destruct (q_code q =? OP_SendPartialObject64) eqn:E3; [eapply h_bind; [apply k_dSendPartial|intro; apply h_pure; intro; apply Hf; assumption]|].
  destruct (q_code q =? OP_SetObjectPropList) eqn:E4; [apply k_dSetObjectPropList|].
  destruct (q_code q =? OP_SendObjectPropList) eqn:E5; [apply k_dSendObjectPropList|].
  destruct (q_code q =? OP_SetDevicePropValue) eqn:E6; [apply k_dSetDevicePropValue|].
  destruct (q_code q =? OP_SetObjectPropValue) eqn:E7; [apply k_dSetObjPropValue|].
  destruct (q_code q =? OP_SetObjectReferences) eqn:E8; [apply k_dSetObjReferences|].
  exfalso. unfold has_data_phase in Hd. cbn [existsb] in Hd. rewrite E1, E2, E3, E4, E5, E6, E7, E8 in Hd. discriminate.
Qed.
Lemma k_phase q : hoare True (fun s => K s /\ r_req s = Some q) (upd (set_st (phase_state (q_code q)))) (fun _ => K).
Proof.
  apply h_upd. intros s [(K1 & K2 & K3 & K4 & K5 & K6) E]. split; [exact K1|]. split; [exact K2|]. split; [exact K3|]. split; [exact K4|]. split; [exact K5|].
  cbn [r_st set_st r_req]. rewrite E. unfold phase_state. destruct (has_data_phase _); [reflexivity|discriminate].
Qed.
(** packets that begin a transaction are advertised commands *)
Definition accepting (st : rst) : bool := match st with IDLE | TX_CANCEL | SUSPEND => true | _ => false end.
Lemma k_receive data first last :
  hoare True (fun s => K s /\ (accepting (r_st s) = true -> forall q, parse_req data = Ret q -> In (q_code q) advertised_ops))
    (receive env formats cat props_by_type prop_desc data first last) (fun _ => K).
Proof.
  unfold receive, reset_transport. apply h_get; intros st.
  eapply h_pre with (P := fun s => (K s /\ (st = WAIT_DATA -> match r_req s with Some q => has_data_phase (q_code q) = true | None => True end)) /\
     (accepting st = true -> forall q, parse_req data = Ret q -> In (q_code q) advertised_ops)).
  2: { intros s [[H1 H2] H3]. subst st. split; [split; [exact H1|apply H1]|exact H2]. }
  apply h_pure. intros Hq.
  assert (Hr : inv (_ <- ask env AReset ;; ret tt)).
  { apply h_bind with (R := fun _ => K); [eapply h_post; [apply k_ask; exact I|cbv beta; tauto]|intro; apply h_ret; auto]. }
  assert (Hcmd : accepting st = true -> inv (upd (set_st IDLE);;; upd (set_req None);;;
       (if first && last then q <- lift (parse_req data);; upd (set_req (Some q));;; upd (set_st (phase_state (q_code q)));;;
          command_handler env formats cat props_by_type prop_desc q else (_ <- ask env AReset ;; ret tt)))).
  { intros Ha. apply h_bind with (R := fun _ s => K s /\ r_st s = IDLE).
    { apply h_upd. intros s H. split; [|reflexivity]. exact (k_upd (set_st IDLE) ltac:(ku) s H). }
    intros _. apply h_bind with (R := fun _ s => K s /\ r_st s = IDLE).
    { apply h_upd. intros s [H E]. split; [exact (k_noreq s H)|exact E]. }
    intros _. destruct (_ && _); [|eapply h_pre; [exact Hr|intros s [H _]; exact H]].
    apply h_bind with (R := fun q s => (K s /\ r_st s = IDLE) /\ In (q_code q) advertised_ops).
    { apply h_lift; [|auto|auto]. intros q E s H. split; [exact H|]. exact (Hq Ha q E). }
    intros q. apply h_pure. intros Hin.
    apply h_bind with (R := fun _ s => K s /\ r_req s = Some q).
    { apply h_upd. intros s [(K1 & K2 & K3 & K4 & K5 & K6) E]. split; [|reflexivity].
      split; [exact K1|]. split; [exact K2|]. split; [exact K3|]. split; [exact Hin|]. split; [exact K5|]. cbn [r_st set_req]. rewrite E. discriminate. }
    intros _. apply h_bind with (R := fun _ => K); [apply k_phase|intros _]. apply k_command; exact Hin. }
  destruct st; try (eapply h_pre; [apply Hcmd; reflexivity|intros s [H _]; exact H]).
  - apply h_get; intros rq. destruct rq as [q|].
    + eapply h_pre with (P := fun s => K s /\ has_data_phase (q_code q) = true).
      * apply h_pure. intros Hd. apply k_data; exact Hd.
      * intros s [[H1 H2] H3]. split; [exact H1|]. specialize (H2 eq_refl). rewrite H3 in H2. exact H2.
    + eapply h_pre; [apply h_inv; [apply k_upd; ku|intros _; exact Hr]|intros s [[H _] _]; exact H].
  - eapply h_pre; [apply h_inv; [apply k_upd; ku|intros _; exact Hr]|intros s [H _]; exact H].
  - eapply h_pre with (P := K); [|intros s [H _]; exact H]. apply k_get; intros w. destruct (first && negb (len w =? 0)); [|apply k_upd; ku].
    apply h_inv; [apply k_upd; ku|intros _; exact Hr].
Qed.
(** the commands among the inputs are advertised operations; no suspend requests *)
Fixpoint only_advertised (l : list input) (s : rstate) : Prop :=
  match l with
  | [] => True
  | i :: r =>
    match i with
    | IRecv data _ _ => accepting (r_st s) = true -> forall q, parse_req data = Ret q -> In (q_code q) advertised_ops
    | ISig g => g <> SigSuspend
    | IReady => forall q, parse_req (r_wait s) = Ret q -> In (q_code q) advertised_ops
    end /\ forall s', step i s = Ret (tt, s') -> only_advertised r s'
  end.
Lemma k_waits w q : hoare True (fun s => r_wait s = w \/ r_wait s = []) (command_handler env formats cat props_by_type prop_desc q)
  (fun _ s => r_wait s = w \/ r_wait s = []).
Proof.
  assert (Hs : forall busy g s, (r_wait s = w \/ r_wait s = []) -> match handle_sig env busy g s with Ret (_, s1) => r_wait s1 = w \/ r_wait s1 = [] | _ => True end).
  { intros busy g s H. pose proof (waits_sig env (r_wait s) (r_wait_done s) busy g s (conj eq_refl eq_refl)) as X.
    destruct (handle_sig env busy g s) as [[[] s1]| |]; try exact I; destruct X as [X _]; rewrite X; exact H. }
  apply i_command_all.
  all: try (intros; assumption).
  - intros s H. right. reflexivity.
  - intros busy g _ s H. exact (Hs busy g s H).
Qed.
Lemma k_storage_ready : hoare True (fun s => K s /\ forall q, parse_req (r_wait s) = Ret q -> In (q_code q) advertised_ops)
  (storage_ready env formats cat props_by_type prop_desc) (fun _ => K).
Proof.
  unfold storage_ready. apply h_get; intros st. destruct (rst_eqb _ _); [|apply h_ret; tauto].
  apply h_get; intros rq. destruct rq as [q|]; cbn [need]; [|intros s Hs; exact I]. apply h_retb.
  intros s0 H0. assert (Hw : forall q, parse_req (r_wait s0) = Ret q -> In (q_code q) advertised_ops) by (destruct H0 as [[[_ H0] _] _]; exact H0).
  assert (Hq : In (q_code q) advertised_ops). { destruct H0 as [[[(_ & _ & _ & H0 & _) _] _] E]. rewrite E in H0. exact H0. }
  revert H0. set (w := r_wait s0) in *. intros H0.
  match goal with |- match ?m s0 with _ => _ end => cut (hoare True (fun s => (K s /\ r_req s = Some q) /\ r_wait s = w) m (fun _ => K)) end.
  { intros H. apply H. destruct H0 as [[[H01 _] _] H02]. split; [split; [exact H01|exact H02]|reflexivity]. }
  apply h_bind with (R := fun _ s => K s /\ r_wait s = w).
  { apply h_upd. intros s [H E]. split; [exact (k_phase q s H)|exact E]. }
  intros _. apply h_bind with (R := fun _ s => K s /\ (r_wait s = w \/ r_wait s = [])).
  { apply h_and; [eapply h_pre; [apply k_command; exact Hq|intros s [H _]; exact H]|eapply h_pre; [apply (k_waits w)|intros s [_ H]; left; exact H]]. }
  intros _. apply h_get; intros w1. apply h_get; intros d1.
  apply h_bind with (R := fun _ => K); [|intros _; apply k_upd; ku].
  destruct (len w1 =? 0) eqn:E; cbn [negb when]; [apply h_ret; intros s [[[H _] _] _]; exact H|].
  eapply h_pre; [apply k_receive|]. intros s [[[H1 H2] H3] _]. split; [exact H1|]. intros _ q1 Hp.
  destruct H2 as [H2|H2]; [rewrite H2 in H3; subst w1; apply Hw; exact Hp|]. rewrite H2 in H3. subst w1. discriminate E.
Qed.
Theorem never_unsupported l : forall s s', K s -> only_advertised l s -> run l s = Ret (tt, s') -> K s'.
Proof.
  induction l as [|i l IH]; intros s s' HK Ho E; cbn [Responder.run] in E.
  - apply Ret_inj in E. apply (f_equal snd) in E. cbn in E. subst s'. exact HK.
  - destruct Ho as [H1 H2]. unfold bind in E. destruct (step i s) as [[[] s1]| |] eqn:E1; try discriminate.
    apply (IH s1 s'); [|apply H2; reflexivity|exact E].
    destruct i; cbn [Responder.step] in E1.
    + pose proof (k_receive data first last s (conj HK H1)) as X. rewrite E1 in X. exact X.
    + pose proof (k_sig false g H1 s HK) as X. rewrite E1 in X. exact X.
    + pose proof (k_storage_ready s (conj HK H1)) as X. rewrite E1 in X. exact X.
Qed.
End A.
