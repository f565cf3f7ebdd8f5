(** Equational execution under an undisturbed environment. *)
From Verif Require Import Base Wire WireSpec Responder RSpec RLogic ROne2 RGate.

Definition set_log x s := mk_r (r_st s) (r_prev s) (r_session s) (r_req s) (r_data s) (r_resp s) (r_seq s) (r_pl s) (r_edit s) (r_resend s) (r_wait s) (r_wait_done s) x.
(** entries that storage events add *)
Definition noise (l : list (act * ans)) : Prop := forallb (fun e => quiet_act (fst e)) l = true.

Lemma set_log_same s : set_log (r_log s) s = s. Proof. destruct s; reflexivity. Qed.
Lemma add_log_set e s : add_log e s = set_log (e :: r_log s) s. Proof. destruct s; reflexivity. Qed.
Lemma noise_app a b : noise a -> noise b -> noise (a ++ b).
Proof. unfold noise. intros H1 H2. rewrite forallb_app, H1, H2. reflexivity. Qed.
Lemma noise_calls l : noise l -> forallb harmless (calls l) = true.
Proof.
  unfold noise. induction l as [|[a r] l IH]; [reflexivity|]. cbn. intros H. apply andb_prop in H as [H1 H2].
  destruct a; cbn in *; try discriminate; auto. rewrite H1; auto.
Qed.
Lemma noise_responses l : noise l -> responses l = [].
Proof.
  unfold noise. induction l as [|[a r] l IH]; [reflexivity|]. cbn. intros H. apply andb_prop in H as [H1 H2].
  destruct a; cbn in *; try discriminate; auto.
Qed.
Lemma noise_datas l : noise l -> datas l = [].
Proof.
  unfold noise. induction l as [|[a r] l IH]; [reflexivity|]. cbn. intros H. apply andb_prop in H as [H1 H2].
  destruct a; cbn in *; try discriminate; auto.
Qed.

Section X.
Variable env : list (act * ans) -> act -> ans.
Hypothesis quiet : undisturbed env.

Lemma sigs_eq busy sg s : forallb is_event sg = true ->
  exists l, noise l /\ run_sigs env busy sg s = Ret (tt, set_log (l ++ r_log s) s).
Proof.
  intros H.
  set (P := fun s' => exists l, noise l /\ s' = set_log (l ++ r_log s) s).
  assert (HP : quiet_closed P).
  { intros s1 e He (l & Hl & ->). exists (e :: l). split; [unfold noise; cbn; rewrite He; exact Hl|]. reflexivity. }
  assert (H0 : P s). { exists []. split; [reflexivity|]. symmetry. apply set_log_same. }
  pose proof (events_quiet False env P busy sg HP H s H0) as Hr.
  destruct (run_sigs env busy sg s) as [[[] s1]| |]; [|contradiction..].
  destruct Hr as (l & Hl & ->). exists l; auto.
Qed.
Definition active (s : rstate) : Prop := r_st s = WAIT_RESP \/ r_st s = WAIT_DATA.
(** a container sent, followed by noise *)
Lemma send_data_eq o last s : active s -> o_type o = TYPE_DATA ->
  exists l r, noise l /\ r = env (r_log s) (ASend o last) /\
    send_container env o last s = Ret (true, set_log (l ++ (ASend o last, r) :: r_log s) s).
Proof.
  intros Ha Ho. unfold send_container, bind at 1, get.
  replace (rst_eqb (r_st s) TX_CANCEL) with false by (destruct Ha as [-> | ->]; reflexivity).
  replace (rst_eqb (r_st s) SUSPEND) with false by (destruct Ha as [-> | ->]; reflexivity).
  rewrite Ho. change (TYPE_DATA =? TYPE_RESPONSE) with false. cbn [when].
  unfold bind at 1, ret. unfold bind at 1, ask. set (r := env _ _).
  destruct (sigs_eq true (a_async r) (add_log (ASend o last, r) s) (quiet _ _)) as (l & Hl & He).
  exists l, r. split; [exact Hl|]. split; [reflexivity|]. unfold bind. rewrite He. reflexivity.
Qed.
Definition after_response (s : rstate) : rstate := set_req None (set_data None (set_st IDLE s)).
Lemma send_resp_eq o s : active s -> o_type o = TYPE_RESPONSE ->
  exists l r, noise l /\
    send_container env o true s = Ret (true, set_log (l ++ (ASend o true, r) :: r_log s) (after_response s)).
Proof.
  intros Ha Ho. unfold send_container, bind at 1, get.
  replace (rst_eqb (r_st s) TX_CANCEL) with false by (destruct Ha as [-> | ->]; reflexivity).
  replace (rst_eqb (r_st s) SUSPEND) with false by (destruct Ha as [-> | ->]; reflexivity).
  rewrite Ho. change (TYPE_RESPONSE =? TYPE_RESPONSE) with true. cbn [when].
  unfold bind at 1, upd. unfold bind at 1, ask. set (r := env _ _). set (s1 := add_log _ _).
  destruct (sigs_eq true (a_async r) s1 (quiet _ _)) as (l & Hl & He).
  exists l, r. split; [exact Hl|]. unfold bind. rewrite He. reflexivity.
Qed.
Lemma response_eq c s q : active s -> r_req s = Some q ->
  exists l r, noise l /\
    send_response env c s = Ret (tt, set_log (l ++ (ASend (mk_out TYPE_RESPONSE c (u16 (q_tid q)) (PItems [])) true, r) :: r_log s) (after_response s)).
Proof.
  intros Ha Hq. unfold send_response, bind at 1, get. rewrite Hq. unfold bind.
  destruct (send_resp_eq (mk_out TYPE_RESPONSE c (u16 (q_tid q)) (PItems [])) s Ha eq_refl) as (l & r & Hl & ->).
  exists l, r. split; [exact Hl|reflexivity].
Qed.
Lemma response1_eq c p s q : active s -> r_req s = Some q ->
  exists l r, noise l /\
    send_response1 env c p s = Ret (tt, set_log (l ++ (ASend (mk_out TYPE_RESPONSE c (u16 (q_tid q)) (PItems [u32_item p])) true, r) :: r_log s) (after_response s)).
Proof.
  intros Ha Hq. unfold send_response1, bind at 1, get. rewrite Hq. unfold bind.
  destruct (send_resp_eq (mk_out TYPE_RESPONSE c (u16 (q_tid q)) (PItems [u32_item p])) s Ha eq_refl) as (l & r & Hl & ->).
  exists l, r. split; [exact Hl|reflexivity].
Qed.
Lemma raw_eq b last s : exists l r, noise l /\ r = env (r_log s) (ASendRaw b last) /\
  (r <- ask env (ASendRaw b last) ;; run_sigs env true (a_async r) ;;; ret r) s =
    Ret (r, set_log (l ++ (ASendRaw b last, r) :: r_log s) s).
Proof.
  unfold bind at 1, ask. set (r := env _ _).
  destruct (sigs_eq true (a_async r) (add_log (ASendRaw b last, r) s) (quiet _ _)) as (l & Hl & He).
  exists l, r. split; [exact Hl|]. split; [reflexivity|]. unfold bind. rewrite He. reflexivity.
Qed.

(** the beginning of every command: path for the log output, readiness *)
Variable formats : list N.
Variable cat : N -> N.
Variable props_by_type : N -> N * list N.
Variable prop_desc : N -> N -> N * option objpropdesc.
Notation step := (step env formats cat props_by_type prop_desc).
Notation run := (run env formats cat props_by_type prop_desc).
Lemma command_eq s op tid ps :
  idle s -> command_ok op tid ps -> (needs_storage op = true -> storage_is_ready env) ->
  exists l, noise l /\
  step (command op tid ps) s =
    (match lookup_op op (op_table env formats cat props_by_type prop_desc) with
     | Some f => f (mk_req op tid (pars ps)) | None => send_response env R_OperationNotSupported end)
    (set_log (l ++ r_log s) (set_resp R_OK (started op tid ps s))).
Proof.
  intros Hi Hc Hr. rewrite (receive_idle _ _ _ _ _ _ _ _ _ Hi Hc). fold (started op tid ps s).
  set (q := mk_req op tid (pars ps)). unfold command_handler. cbv zeta.
  set (tbl := match lookup_op _ _ with Some _ => _ | None => _ end).
  assert (Hx : forall s1, exists l, noise l /\ (r <- call env SReady;; (if negb (a_bool r) && needs_storage (q_code q) then upd (set_st WAIT_STORAGE);;; upd (set_wait [] false) else tbl)) s1
     = tbl (set_log (l ++ r_log s1) s1)).
  { intros s1. unfold call, bind, ask. set (r := env _ _).
    assert (Hk : negb (a_bool r) && needs_storage (q_code q) = false).
    { change (q_code q) with op. destruct (needs_storage op); [|apply andb_false_r].
      unfold r. rewrite (Hr eq_refl). reflexivity. }
    rewrite Hk. exists [(ACall SReady, r)]. split; reflexivity. }
  destruct (_ && _); cbn [when].
  - unfold bind at 1, call at 1, bind at 1, ask at 1. cbn [ret]. set (r := env _ _).
    unfold bind at 1, upd. set (s1 := set_resp R_OK _).
    destruct (Hx s1) as (l & Hl & He). exists (l ++ [(ACall (SGetPath (logged_handle q)), r)]).
    split; [apply noise_app; [exact Hl|reflexivity]|]. etransitivity; [exact He|]. f_equal.
    unfold s1. cbn. rewrite <- app_assoc. reflexivity.
  - unfold bind at 1, ret. unfold bind at 1, upd. set (s1 := set_resp R_OK _).
    destruct (Hx s1) as (l & Hl & He). exists l. split; [exact Hl|]. etransitivity; [exact He|]. reflexivity.
Qed.
End X.
