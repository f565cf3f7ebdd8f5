(** The responder's behaviour depends on its environment only through the answers it
    receives: if another environment gives the recorded answers, the run is the same. *)
From Verif Require Import Base Wire Responder.

(** [env'] gives the answers recorded in [l1] after [l0] *)
Definition agrees (env' : list (act * ans) -> act -> ans) (l0 l1 : list (act * ans)) : Prop :=
  forall pre a x l, l1 = pre ++ (a, x) :: l -> (length l0 <= length l)%nat -> env' l a = x.
Lemma agrees_sub env' l0 a b : agrees env' l0 (a ++ b ++ l0) -> agrees env' l0 (b ++ l0) /\ agrees env' (b ++ l0) (a ++ b ++ l0).
Proof.
  intros H. split; intros pre x y l E L.
  - apply (H (a ++ pre) x y l); [|exact L]. rewrite E, <- app_assoc. reflexivity.
  - apply (H pre x y l E). rewrite app_length in L. lia.
Qed.

Lemma agrees_nil E l : agrees E l l.
Proof. intros pre a x k H L. exfalso. rewrite H, app_length in L. cbn in L. lia. Qed.
Lemma agrees_app E l0 a b : agrees E l0 (b ++ l0) -> agrees E (b ++ l0) (a ++ b ++ l0) -> agrees E l0 (a ++ b ++ l0).
Proof.
  intros H1 H2 pre x y l EQ L. destruct (le_lt_dec (length (b ++ l0)) (length l)) as [LE|LT]; [exact (H2 pre x y l EQ LE)|].
  (* the entry is in the older part *)
  assert (SP : exists pre', pre = a ++ pre').
  { exists (skipn (length a) pre). assert (LP : (length a <= length pre)%nat).
    { apply (f_equal (@length _)) in EQ. rewrite !app_length in EQ. rewrite app_length in LT. cbn [length] in EQ. lia. }
    rewrite <- (firstn_skipn (length a) pre) at 1. f_equal. apply (f_equal (firstn (length a))) in EQ. rewrite firstn_app, firstn_all, Nat.sub_diag in EQ. cbn [firstn] in EQ. rewrite app_nil_r in EQ.
    rewrite firstn_app in EQ. replace (length a - length pre)%nat with 0%nat in EQ by lia. cbn [firstn] in EQ. rewrite app_nil_r in EQ. symmetry. exact EQ. }
  destruct SP as (pre' & ->). rewrite <- app_assoc in EQ. apply app_inv_head in EQ. exact (H1 pre' x y l EQ L).
Qed.

Section Ext.
Variables (env env' : list (act * ans) -> act -> ans).
Definition ext {A} (m m' : M A) : Prop := forall s a s', m s = Ret (a, s') ->
  exists d, r_log s' = d ++ r_log s /\ agrees env (r_log s) (r_log s') /\ (agrees env' (r_log s) (r_log s') -> m' s = Ret (a, s')).
Lemma x_ret {A} (a : A) : ext (ret a) (ret a).
Proof. intros s b s' E. injection E as <- <-. exists []. split; [reflexivity|]. split; [apply agrees_nil|auto]. Qed.
Lemma x_bind {A B} (m m' : M A) (f f' : A -> M B) : ext m m' -> (forall a, ext (f a) (f' a)) -> ext (bind m f) (bind m' f').
Proof.
  intros H1 H2 s b s' E. unfold bind in E. destruct (m s) as [[a s1]| |] eqn:E1; try discriminate.
  destruct (H1 s a s1 E1) as (d1 & L1 & R1 & K1). destruct (H2 a s1 b s' E) as (d2 & L2 & R2 & K2).
  exists (d2 ++ d1). rewrite L2, L1, <- app_assoc. split; [reflexivity|]. split; [apply agrees_app; [rewrite <- L1; exact R1|rewrite <- L1, <- L2; exact R2]|]. intros AG. apply agrees_sub in AG as [A1 A2].
  unfold bind. rewrite (K1 ltac:(rewrite L1; exact A1)). apply K2. rewrite L2, L1. exact A2.
Qed.
Lemma x_get {A} (g : rstate -> A) : ext (get g) (get g).
Proof. intros s b s' E. injection E as <- <-. exists []. split; [reflexivity|]. split; [apply agrees_nil|auto]. Qed.
Lemma x_upd (g : rstate -> rstate) : (forall s, r_log (g s) = r_log s) -> ext (upd g) (upd g).
Proof. intros H s b s' E. injection E as <- <-. exists []. rewrite H. split; [reflexivity|]. split; [apply agrees_nil|auto]. Qed.
Lemma x_crash {A} : ext (@crash A) crash. Proof. intros s b s' E. discriminate. Qed.
Lemma x_abort {A} : ext (fun _ => @Abort (A * rstate)) (fun _ => Abort). Proof. intros s b s' E. discriminate. Qed.
Lemma x_lift {A} (o : outcome A) : ext (lift o) (lift o).
Proof. intros s b s' E. unfold lift in *. destruct o; try discriminate. injection E as <- <-. exists []. split; [reflexivity|]. split; [apply agrees_nil|auto]. Qed.
Lemma x_need {A} (o : option A) : ext (need o) (need o).
Proof. destruct o; [apply x_ret|apply x_crash]. Qed.
Lemma x_when b (m m' : M unit) : ext m m' -> ext (when b m) (when b m').
Proof. intros H. destruct b; [exact H|apply x_ret]. Qed.
Lemma x_ask a : ext (ask env a) (ask env' a).
Proof.
  intros s b s' E. unfold ask in *. injection E as <- <-. exists [(a, env (r_log s) a)]. split; [reflexivity|]. split.
  { cbn [r_log add_log]. intros [|e pre] a' x l EQ L; [injection EQ as <- <- <-; reflexivity|]. exfalso. injection EQ as <- EQ. rewrite EQ, app_length in L. cbn in L. lia. }
  intros AG. rewrite (AG [] a (env (r_log s) a) (r_log s) eq_refl ltac:(lia)). reflexivity.
Qed.
Lemma x_call c : ext (call env c) (call env' c). Proof. apply x_ask. Qed.

Ltac xx k := repeat first
  [ progress k
  | match goal with
  | |- ext (bind _ _) (bind _ _) => apply x_bind; [|intros ?]
  | |- ext (ret _) _ => apply x_ret
  | |- ext (get _) _ => apply x_get
  | |- ext (upd _) _ => apply x_upd; intros ?; reflexivity
  | |- ext crash _ => apply x_crash
  | |- ext (lift _) _ => apply x_lift
  | |- ext (need _) _ => apply x_need
  | |- ext (ask _ _) _ => apply x_ask
  | |- ext (call _ _) _ => apply x_call
  | |- ext (when _ _) _ => apply x_when
  | |- ext (let _ := _ in _) _ => cbv zeta
  | |- ext (match ?x with _ => _ end) _ => destruct x
  | |- forall _, _ => intros ?
  end ].

Lemma x_delete_stored : ext delete_stored delete_stored. Proof. unfold delete_stored. xx idtac. Qed.
Lemma x_close : ext close_session close_session. Proof. unfold close_session. xx ltac:(apply x_delete_stored). Qed.
Lemma x_sig busy g : ext (handle_sig env busy g) (handle_sig env' busy g).
Proof.
  destruct g; cbn [handle_sig]; [unfold handle_cancel|apply x_close|unfold handle_suspend|unfold handle_resume|unfold dispatch_event]; xx ltac:(apply x_delete_stored).
Qed.
Lemma x_sigs busy l : ext (run_sigs env busy l) (run_sigs env' busy l).
Proof. induction l as [|g l IH]; cbn [run_sigs]; xx ltac:(first [apply x_sig|apply IH]). Qed.
Lemma x_call_loop c : ext (call_loop env c) (call_loop env' c). Proof. unfold call_loop. xx ltac:(apply x_sigs). Qed.
Lemma x_send o last : ext (send_container env o last) (send_container env' o last).
Proof. unfold send_container. xx ltac:(first [apply x_sigs|apply x_delete_stored]). Qed.
Lemma x_resp c : ext (send_response env c) (send_response env' c). Proof. unfold send_response. xx ltac:(apply x_send). Qed.
Lemma x_resp1 c p : ext (send_response1 env c p) (send_response1 env' c p). Proof. unfold send_response1. xx ltac:(apply x_send). Qed.
Lemma x_data q p c : ext (data_then env q p c) (data_then env' q p c). Proof. unfold data_then. xx ltac:(first [apply x_send|apply x_resp]). Qed.
Lemma x_with q c ps : ext (respond_with env q c ps) (respond_with env' q c ps). Proof. unfold respond_with. xx ltac:(apply x_send). Qed.
Lemma x_check q : ext (check q) (check q). Proof. unfold check. xx idtac. Qed.
Lemma x_rd {A} (f : rxc -> outcome (A * rxc)) : ext (rd f) (rd f). Proof. unfold rd, get_rx. xx idtac. Qed.
Ltac base := first [apply x_sigs|apply x_call_loop|apply x_send|apply x_resp|apply x_resp1|apply x_data|apply x_with|apply x_check|apply x_rd|apply x_delete_stored|apply x_close].
Ltac yy := xx ltac:(base).

Section Tables.
Variables (formats : list N) (cat : N -> N) (pt : N -> N * list N) (pd : N -> N -> N * option objpropdesc).
Lemma x_query q : ext (object_query env formats q) (object_query env' formats q). Proof. unfold object_query. yy. Qed.
Lemma x_seg_loop fuel : forall h off rem, ext (seg_loop env fuel h off rem) (seg_loop env' fuel h off rem).
Proof. induction fuel as [|f IH]; intros h off rem; cbn [seg_loop]; [apply x_abort|]. xx ltac:(first [base|apply IH]). Qed.
Lemma x_seg_respond op r n : ext (seg_respond env op r n) (seg_respond env' op r n). Proof. unfold seg_respond. yy. Qed.
Lemma x_common q h off size : ext (get_object_common env q h off size) (get_object_common env' q h off size).
Proof. unfold get_object_common, send_segmented. xx ltac:(first [base|apply x_seg_loop|apply x_seg_respond]). Qed.
Lemma x_all_descs c l : ext (all_descs pd c l) (all_descs pd c l).
Proof. induction l as [|p l IH]; cbn [all_descs]; xx ltac:(first [base|apply IH]). Qed.
Lemma x_prop_list hs p : ext (prop_list_loop env cat pt pd hs p) (prop_list_loop env' cat pt pd hs p).
Proof. induction hs as [|h l IH]; cbn [prop_list_loop]; xx ltac:(first [base|apply IH|apply x_all_descs]). Qed.
Lemma x_move_copy q : ext (move_copy_checks env q) (move_copy_checks env' q). Proof. unfold move_copy_checks. yy. Qed.
Lemma x_edit c h : ext (edit_check c h) (edit_check c h). Proof. unfold edit_check. yy. Qed.

Definition xh (f f' : req -> M unit) : Prop := forall q, ext (f q) (f' q).
Lemma x_table : Forall2 (fun a b => fst a = fst b /\ xh (snd a) (snd b)) (op_table env formats cat pt pd) (op_table env' formats cat pt pd).
Proof.
  unfold op_table.
  repeat (apply Forall2_cons; [split; [reflexivity|cbn [snd]; intros q;
    unfold h_getDeviceInfo, h_openSession, h_closeSession, h_getStorageIDs, h_getStorageInfo, h_getNumObjects, h_getObjectHandles, h_getObjectInfo, h_getObject, h_getThumb, h_deleteObject, h_check_only,
      h_sendObject, h_getPartialObject, h_unsupported, h_getDevicePropDesc, h_getDevicePropValue, h_setDevicePropValue, h_moveObject, h_copyObject, h_getPartialObject64, h_sendPartialObject64,
      h_truncateObject64, h_beginEdit, h_endEdit, h_getObjPropsSupported, h_getObjPropDesc, h_getObjPropValue, h_setObjPropValue, h_getObjectPropList, h_sendObjectPropList, h_getObjReferences, h_skip;
    xx ltac:(first [base|apply x_query|apply x_common|apply x_prop_list|apply x_move_copy|apply x_edit|apply x_all_descs])]|]).
  apply Forall2_nil.
Qed.
Lemma x_lookup code t t' : Forall2 (fun a b => fst a = fst b /\ xh (snd a) (snd b)) t t' ->
  match lookup_op code t, lookup_op code t' with Some f, Some f' => xh f f' | None, None => True | _, _ => False end.
Proof.
  induction 1 as [|[c f] [c' f'] t t' [E X] F IH]; cbn [lookup_op]; [exact Logic.I|]. cbn [fst snd] in *. subst c'. destruct (code =? c); assumption.
Qed.
Lemma x_command q : ext (command_handler env formats cat pt pd q) (command_handler env' formats cat pt pd q).
Proof.
  unfold command_handler. cbv zeta.
  pose proof (x_lookup (q_code q) _ _ x_table) as X.
  apply x_bind; [yy|intros _]. apply x_bind; [yy|intros _]. apply x_bind; [yy|intros r]. destruct (_ && _); [yy|].
  destruct (lookup_op _ (op_table env _ _ _ _)) as [f|]; destruct (lookup_op _ (op_table env' _ _ _ _)) as [f'|]; try contradiction; [apply X|yy].
Qed.
Lemma x_apply_list h c l : ext (apply_list env pd h c l) (apply_list env' pd h c l).
Proof. induction l as [|[[x y] v] l IH]; cbn [apply_list]; xx ltac:(first [base|apply IH]). Qed.
Lemma x_check_obj h n last : ext (send_object_check env h n last) (send_object_check env' h n last). Proof. unfold send_object_check. yy. Qed.
Lemma x_set_list n : forall i, ext (set_list_loop env cat pd n i) (set_list_loop env' cat pd n i).
Proof. induction n as [|n IH]; intros i; cbn [set_list_loop]; xx ltac:(first [base|apply IH]). Qed.
Lemma x_scan n : forall i c acc f, ext (scan_list pd n i c acc f) (scan_list pd n i c acc f).
Proof. induction n as [|n IH]; intros i c acc f; cbn [scan_list]; xx ltac:(first [base|apply IH]). Qed.
Lemma x_handler q d f l : ext (data_handler env cat pd q d f l) (data_handler env' cat pd q d f l).
Proof.
  unfold data_handler. cbv zeta.
  unfold d_sendObjectInfo, d_sendObject, d_sendPartial, d_setObjectPropList, d_sendObjectPropList, d_setDevicePropValue, d_setObjPropValue, d_setObjReferences.
  xx ltac:(first [base|apply x_apply_list|apply x_check_obj|apply x_set_list|apply x_scan]).
Qed.
Lemma x_receive d f l : ext (receive env formats cat pt pd d f l) (receive env' formats cat pt pd d f l).
Proof. unfold receive, reset_transport. xx ltac:(first [apply x_command|apply x_handler|base]). Qed.
Lemma x_step i : ext (step env formats cat pt pd i) (step env' formats cat pt pd i).
Proof. destruct i; cbn [step]; [apply x_receive|apply x_sig|]. unfold storage_ready. xx ltac:(first [apply x_command|apply x_receive|base]). Qed.
Lemma x_run l : ext (run env formats cat pt pd l) (run env' formats cat pt pd l).
Proof. induction l as [|i l IH]; cbn [run]; [apply x_ret|]. apply x_bind; [apply x_step|intros _; exact IH]. Qed.
End Tables.
End Ext.

(** every recorded answer was given by the environment *)
Lemma run_recorded env formats cat pt pd i s s' : run env formats cat pt pd i s = Ret (tt, s') -> exists d, r_log s' = d ++ r_log s /\ agrees env (r_log s) (r_log s').
Proof. intros E. destruct (x_run env env formats cat pt pd i s tt s' E) as (d & H & R & _). eauto. Qed.
(** another environment that gives the same answers at the same points *)
Lemma run_same env env' formats cat pt pd i s s' : run env formats cat pt pd i s = Ret (tt, s') ->
  (forall pre a x l, r_log s' = pre ++ (a, x) :: l -> (length (r_log s) <= length l)%nat -> x = env l a -> env' l a = x) ->
  run env' formats cat pt pd i s = Ret (tt, s').
Proof.
  intros E H. destruct (x_run env env' formats cat pt pd i s tt s' E) as (d & L & R & K). apply K. intros pre a x l EQ LE. apply (H pre a x l EQ LE). symmetry. exact (R pre a x l EQ LE).
Qed.
