(** An object read that failed or was cancelled is not answered OK (C30). *)
From Verif Require Import Base Wire WireSpec Responder RSpec RLogic ROne2 RGate RExec RSession RRead.

Definition is_cancel (g : sig) : bool := match g with SigCancel => true | _ => false end.
(** storage events and cancel requests may arrive at any time *)
Definition calm (env : list (act * ans) -> act -> ans) : Prop :=
  forall h a, forallb (fun g => is_event g || is_cancel g) (a_async (env h a)) = true.
(** a step of the transfer that went well: the read succeeded, the transport took the
    packet, no cancel request arrived while sending *)
Definition went_well (e : act * ans) : bool :=
  match fst e with
  | ACall (SRead _ _ _) => isok (a_code (snd e))
  | ASend _ _ => negb (existsb is_cancel (a_async (snd e)))
  | ASendRaw _ _ => a_bool (snd e) && negb (existsb is_cancel (a_async (snd e)))
  | _ => true
  end.
Definition ok_response (a : act) : bool :=
  match a with ASend o _ | AResend o _ => (o_type o =? TYPE_RESPONSE) && (o_code o =? R_OK) | _ => false end.
(** every OK response is preceded (newest first) only by steps that went well *)
Fixpoint honest (l : list (act * ans)) : Prop :=
  match l with
  | [] => True
  | (a, r) :: older => (ok_response a = true -> forallb went_well older = true) /\ honest older
  end.

Section F.
Variable env : list (act * ans) -> act -> ans.
Hypothesis cl : calm env.
Variable L0 : list (act * ans).

Definition PH (s : rstate) : Prop := exists l, r_log s = l ++ L0 /\ honest l.
Definition P (s : rstate) : Prop := exists l, r_log s = l ++ L0 /\ honest l /\ (forallb went_well l = true \/ r_req s = None).
Lemma P_PH s : P s -> PH s. Proof. intros (l & H1 & H2 & _). exists l; auto. Qed.
Lemma P_add s e : ok_response (fst e) = false -> went_well e = true -> P s -> P (add_log e s).
Proof.
  intros He Hw (l & H1 & H2 & H3). exists (e :: l). split; [cbn; rewrite H1; reflexivity|]. destruct e as [a r]. cbn in He.
  split; [cbn; rewrite He; split; [discriminate|exact H2]|]. destruct H3 as [H3|H3]; [left; cbn [forallb]; rewrite Hw; exact H3|right; exact H3].
Qed.
Lemma PH_add s e : ok_response (fst e) = false -> PH s -> PH (add_log e s).
Proof.
  intros He (l & H1 & H2). exists (e :: l). split; [cbn; rewrite H1; reflexivity|]. destruct e as [a r]. cbn in *.
  rewrite He. split; [discriminate|exact H2].
Qed.
(** signals keep a predicate closed under quiet log entries, and cancel drops the request *)
Lemma sig_event (Q : rstate -> Prop) busy g : quiet_closed Q -> is_event g = true -> hoare True Q (handle_sig env busy g) (fun _ => Q).
Proof.
  intros HQ Hg. pose proof (events_quiet True env Q busy [g] HQ) as H. cbn [forallb] in H. rewrite Hg in H. specialize (H eq_refl).
  intros s Hs. specialize (H s Hs). cbn [run_sigs] in H. unfold bind in H.
  destruct (handle_sig env busy g s) as [[[] s1]| |]; auto.
Qed.
Definition N0 (s : rstate) : Prop := PH s /\ r_req s = None.
Lemma N0_quiet : quiet_closed N0.
Proof. intros s e He [H1 H2]. split; [apply PH_add; [|exact H1]; destruct e as [[] ?]; try discriminate He; reflexivity|exact H2]. Qed.
Lemma P_quiet : quiet_closed P.
Proof. intros s e He H. apply P_add; [| |exact H]; destruct e as [[[] | | | | | ] ?]; try discriminate He; reflexivity. Qed.
Lemma PH_quiet : quiet_closed PH.
Proof. intros s e He H. apply PH_add; [|exact H]; destruct e as [[] ?]; try discriminate He; reflexivity. Qed.
Lemma cancel_drops busy : hoare True PH (handle_sig env busy SigCancel) (fun _ => N0).
Proof.
  cbn [handle_sig]. unfold handle_cancel. apply h_get; intros rq. destruct rq as [q|]; [|apply h_ret; intros s [H1 H2]; split; assumption].
  eapply h_pre; [|intros s [H _]; exact H].
  apply h_inv; [apply h_upd; auto|intros _].
  apply h_bind with (R := fun _ => PH); [|intro; cbv beta; apply h_upd; intros s H; split; [exact H|reflexivity]].
  destruct (_ || _); cbn [when]; [|apply h_ret; auto].
  apply h_get; intros pl. apply h_get; intros sq. eapply h_pre; [|intros s [[H _] _]; exact H].
  apply h_inv.
  { destruct (negb _); cbn [when]; [|apply h_ret; auto]. apply h_inv; [apply h_ask|intro; apply h_ret; auto].
    intros s H. apply PH_add; auto. }
  intros _. destruct pl; apply h_upd; auto.
Qed.
Lemma sigs_N0 busy sg : forallb (fun g => is_event g || is_cancel g) sg = true ->
  hoare True N0 (run_sigs env busy sg) (fun _ => N0).
Proof.
  induction sg as [|g sg IH]; intros H; cbn [run_sigs]; [apply h_ret; auto|].
  cbn [forallb] in H. apply andb_prop in H as [H1 H2].
  apply h_bind with (R := fun _ => N0); [|intro; apply IH; exact H2].
  destruct (is_event g) eqn:E; [apply sig_event; [exact N0_quiet|exact E]|].
  destruct g; try discriminate. eapply h_pre; [apply cancel_drops|]. intros s [H _]; exact H.
Qed.
Lemma sigs_PH busy sg : forallb (fun g => is_event g || is_cancel g) sg = true ->
  hoare True PH (run_sigs env busy sg) (fun _ s => PH s /\ (existsb is_cancel sg = true -> r_req s = None)).
Proof.
  induction sg as [|g sg IH]; intros H; cbn [run_sigs]; [apply h_ret; intros s Hs; split; [exact Hs|discriminate]|].
  cbn [forallb] in H. apply andb_prop in H as [H1 H2].
  destruct (is_event g) eqn:E.
  - apply h_bind with (R := fun _ => PH); [apply sig_event; [exact PH_quiet|exact E]|]. intro.
    eapply h_post; [apply IH; exact H2|]. intros _ s [K1 K2]. split; [exact K1|]. destruct g; try discriminate. exact K2.
  - destruct g; try discriminate. apply h_bind with (R := fun _ => N0); [apply cancel_drops|]. intro.
    eapply h_post; [apply sigs_N0; exact H2|]. intros _ s [K1 K2]. split; [exact K1|]. intros _; exact K2.
Qed.
(** after something was sent that is not an OK response *)
Lemma sigs_P busy a r s : ok_response a = false -> went_well (a, r) = negb (existsb is_cancel (a_async r)) ->
  forallb (fun g => is_event g || is_cancel g) (a_async r) = true -> P s ->
  match run_sigs env busy (a_async r) (add_log (a, r) s) with Ret (_, s1) => P s1 | _ => True end.
Proof.
  intros Ha Hw Hsg Hs. destruct (existsb is_cancel (a_async r)) eqn:E.
  - pose proof (sigs_PH busy (a_async r) Hsg (add_log (a, r) s) (PH_add _ (a, r) Ha (P_PH _ Hs))) as H.
    destruct (run_sigs _ _ _ _) as [[[] s1]| |]; auto. destruct H as [(l & H1 & H2) H3]. exists l. auto.
  - cbn in Hw. assert (He : forallb is_event (a_async r) = true).
    { clear - E Hsg. induction (a_async r) as [|g t IH]; [reflexivity|]. cbn in *. apply andb_prop in Hsg as [H1 H2].
      destruct (is_cancel g) eqn:Eg; [discriminate|]. rewrite orb_false_r in H1. rewrite H1. apply IH; assumption. }
    exact (events_quiet True env P busy (a_async r) P_quiet He _ (P_add _ (a, r) Ha Hw Hs)).
Qed.
Lemma send_P o last : (o_type o =? TYPE_RESPONSE) = false -> hoare True P (send_container env o last) (fun _ => P).
Proof.
  intros Ho. unfold send_container. apply h_get; intros st. eapply h_pre; [|intros s [H _]; exact H].
  destruct (rst_eqb st TX_CANCEL); [apply h_ret; auto|].
  destruct (rst_eqb st SUSPEND); [apply h_inv; [apply h_upd; auto|intro; apply h_ret; auto]|].
  rewrite Ho. cbn [when]. apply h_retb. intros s Hs. unfold bind at 1, ask. set (r := env _ _).
  pose proof (sigs_P true (ASend o last) r s ltac:(cbn; rewrite Ho; reflexivity) eq_refl (cl _ _) Hs) as H.
  unfold bind at 1. destruct (run_sigs _ _ _ _) as [[[] s1]| |]; auto.
Qed.
Lemma send_resp_PH o last : o_code o <> R_OK \/ o_type o <> TYPE_RESPONSE -> hoare True PH (send_container env o last) (fun _ => PH).
Proof.
  intros Ho. unfold send_container. apply h_get; intros st. eapply h_pre; [|intros s [H _]; exact H].
  destruct (rst_eqb st TX_CANCEL); [apply h_ret; auto|].
  destruct (rst_eqb st SUSPEND); [apply h_inv; [apply h_upd; auto|intro; apply h_ret; auto]|].
  apply h_inv; [destruct (_ =? _); cbn [when]; [apply h_upd; auto|apply h_ret; auto]|]. intro.
  apply h_bind with (R := fun r s => PH s /\ forallb (fun g => is_event g || is_cancel g) (a_async r) = true).
  { apply h_ask. intros s H. split; [apply PH_add; [|exact H]|apply cl]. cbn.
    destruct (o_type o =? TYPE_RESPONSE) eqn:E1; [|reflexivity]. destruct (o_code o =? R_OK) eqn:E2; [|reflexivity]. lia. }
  intros r. apply h_pure. intros Hsg. apply h_bind with (R := fun _ => PH); [eapply h_post; [apply sigs_PH; exact Hsg|]; intros _ s [K _]; exact K|].
  intro. apply h_inv; [destruct (_ =? _); cbn [when]; [apply h_upd; auto|apply h_ret; auto]|]. intro. apply h_ret; auto.
Qed.
Lemma send_ok_P o last : hoare True (fun s => P s /\ r_req s <> None) (send_container env o last) (fun _ => PH).
Proof.
  unfold send_container. apply h_get; intros st. eapply h_pre; [|intros s [H _]; exact H].
  destruct (rst_eqb st TX_CANCEL); [apply h_ret; intros s [H _]; apply P_PH; exact H|].
  destruct (rst_eqb st SUSPEND); [apply h_bind with (R := fun _ => PH); [apply h_upd; intros s [H _]; exact (P_PH _ H)|intro; apply h_ret; auto]|].
  apply h_inv; [destruct (_ =? _); cbn [when]; [apply h_upd; auto|apply h_ret; auto]|]. intro.
  apply h_bind with (R := fun r s => PH s /\ forallb (fun g => is_event g || is_cancel g) (a_async r) = true).
  { apply h_ask. intros s [(l & H1 & H2 & [H3|H3]) Hn]; [|contradiction]. split; [|apply cl].
    exists ((ASend o last, env (r_log s) (ASend o last)) :: l). split; [cbn; rewrite H1; reflexivity|]. cbn. auto. }
  intros r. apply h_pure. intros Hsg. apply h_bind with (R := fun _ => PH); [eapply h_post; [apply sigs_PH; exact Hsg|]; intros _ s [K _]; exact K|].
  intro. apply h_inv; [destruct (_ =? _); cbn [when]; [apply h_upd; auto|apply h_ret; auto]|]. intro. apply h_ret; auto.
Qed.
Lemma response_err c : c <> R_OK -> hoare True PH (send_response env c) (fun _ => PH).
Proof.
  intros Hc. unfold send_response. apply h_get; intros rq. eapply h_pre; [|intros s [H _]; exact H].
  destruct rq; [|apply h_ret; auto]. apply h_inv; [apply send_resp_PH; left; exact Hc|intro; apply h_ret; auto].
Qed.
Lemma response_any c : hoare True P (send_response env c) (fun _ => PH).
Proof.
  unfold send_response. apply h_get; intros rq. destruct rq as [q|]; [|apply h_ret; intros s [H _]; exact (P_PH _ H)].
  apply h_bind with (R := fun _ => PH); [|intro; apply h_ret; auto].
  eapply h_pre; [apply send_ok_P|]. intros s [H1 H2]. split; [exact H1|congruence].
Qed.
Lemma seg_respond_any op c n : hoare True P (seg_respond env op c n) (fun _ => PH).
Proof.
  unfold seg_respond. destruct (_ =? _); [|apply response_any].
  unfold send_response1. apply h_get; intros rq. destruct rq as [q|]; [|apply h_crash_if; exact I].
  apply h_bind with (R := fun _ => PH); [|intro; apply h_ret; auto].
  eapply h_pre; [apply send_ok_P|]. intros s [H1 H2]. split; [exact H1|congruence].
Qed.
Lemma seg_respond_err op c n : c <> R_OK -> hoare True PH (seg_respond env op c n) (fun _ => PH).
Proof.
  intros Hc. unfold seg_respond. destruct (_ =? _); [|apply response_err; exact Hc].
  unfold send_response1. apply h_get; intros rq. destruct rq as [q|]; [|apply h_crash_if; exact I].
  eapply h_pre; [|intros s [H _]; exact H].
  apply h_inv; [apply send_resp_PH; left; exact Hc|intro; apply h_ret; auto].
Qed.
Lemma seg_loop_P : forall fuel h off rem, hoare True P (seg_loop env fuel h off rem)
  (fun '(c, _, done) s => PH s /\ (done = true -> P s)).
Proof.
  induction fuel as [|f IH]; intros h off rem; [intros s Hs; exact I|].
  cbn [seg_loop]. set (n := if rem <? BUFFER_MAX then rem else BUFFER_MAX). clearbody n.
  apply h_bind with (R := fun r s => PH s /\ (isok (a_code r) = true -> P s)).
  { apply h_ask. intros s Hs. split; [apply PH_add; [reflexivity|exact (P_PH _ Hs)]|].
    intros Hr. apply P_add; [reflexivity|exact Hr|exact Hs]. }
  intros r. destruct (isok (a_code r)) eqn:E; cbn [negb].
  - eapply h_pre; [|intros s [_ H]; exact (H eq_refl)]. clear E.
    intros s Hs. unfold bind at 1, ask. set (r2 := env _ _). unfold bind at 1.
    assert (Hsg : forallb (fun g => is_event g || is_cancel g) (a_async r2) = true) by apply cl. clearbody r2.
    destruct (a_bool r2) eqn:Eb; cbn [negb].
    + pose proof (sigs_P true (ASendRaw (fit n (a_bytes r)) (n =? rem)) r2 s eq_refl ltac:(cbn; rewrite Eb; reflexivity) Hsg Hs) as H.
      destruct (run_sigs _ _ _ _) as [[[] s1]| |]; auto. cbv zeta. destruct (rem - n =? 0).
      * cbn. split; [apply P_PH; exact H|auto].
      * exact (IH h (off + n) (rem - n) s1 H).
    + pose proof (sigs_PH true (a_async r2) Hsg (add_log (ASendRaw (fit n (a_bytes r)) (n =? rem), r2) s) (PH_add s (ASendRaw (fit n (a_bytes r)) (n =? rem), r2) eq_refl (P_PH _ Hs))) as H.
      destruct (run_sigs _ _ _ _) as [[[] s1]| |]; auto. cbn. split; [apply H|discriminate].
  - apply h_ret. intros s [H _]. split; [exact H|discriminate].
Qed.
Lemma segmented_P q h off tail : hoare True P (send_segmented env q h off tail) (fun _ => PH).
Proof.
  unfold send_segmented. cbv zeta. set (n := if _ <? BUFFER_MAX - 12 then _ else _). clearbody n.
  apply h_bind with (R := fun r s => PH s /\ (isok (a_code r) = true -> P s)).
  { apply h_ask. intros s Hs. split; [apply PH_add; [reflexivity|exact (P_PH _ Hs)]|].
    intros Hr. apply P_add; [reflexivity|exact Hr|exact Hs]. }
  intros r. destruct (isok (a_code r)) eqn:E; cbn [negb].
  - eapply h_pre; [|intros s [_ H]; exact (H eq_refl)].
    apply h_bind with (R := fun _ => P); [apply send_P; reflexivity|]. intros sent.
    destruct (negb sent); [apply seg_respond_any|]. destruct (_ =? 0); [apply seg_respond_any|].
    eapply h_bind; [apply seg_loop_P|]. intros [[c rem2] done]. destruct done; [|apply h_ret; intros s [H _]; exact H].
    eapply h_pre; [apply seg_respond_any|]. intros s [_ H]. exact (H eq_refl).
  - eapply h_pre; [|intros s [H _]; exact H]. apply seg_respond_err. unfold isok in E. lia.
Qed.
Lemma common_P q h off size : hoare True P (get_object_common env q h off size) (fun _ => PH).
Proof.
  unfold get_object_common, check. apply h_assoc. apply h_get; intros x. eapply h_pre; [|intros s [H _]; exact H].
  apply h_retb. destruct (negb (isok _)); [apply response_any|].
  apply h_bind with (R := fun _ => P). { apply h_ask. intros s Hs. apply P_add; auto. }
  intros r. destruct (negb _); [apply response_any|]. cbv zeta.
  destruct (_ =? FMT_Association); [apply response_any|]. destruct (_ <? _); [apply response_any|].
  destruct (_ <? _); [apply response_any|]. apply segmented_P.
Qed.
End F.

Section Top.
Variable env : list (act * ans) -> act -> ans.
Variable formats : list N.
Variable cat : N -> N.
Variable props_by_type : N -> N * list N.
Variable prop_desc : N -> N -> N * option objpropdesc.
Theorem honest_reads s op tid ps s' : calm env -> storage_is_ready env -> idle s -> command_ok op tid ps -> reads_object op ->
  step env formats cat props_by_type prop_desc (command op tid ps) s = Ret (tt, s') ->
  exists l, r_log s' = l ++ r_log s /\ honest l.
Proof.
  intros Hcl Hr Hi Hc Hop Hs.
  destruct (command_eq env formats cat props_by_type prop_desc s op tid ps Hi Hc (fun _ => Hr)) as (l0 & Hl0 & He).
  rewrite He in Hs. clear He. revert Hs. set (s1 := set_log _ _).
  assert (HP : P (r_log s) s1).
  { exists l0. split; [reflexivity|]. clear - Hl0. unfold noise in Hl0.
    induction l0 as [|[a r] l IH]; [cbn; auto|]. cbn [forallb fst] in Hl0. apply andb_prop in Hl0 as [H1 H2].
    specialize (IH H2) as [I1 I2]. split.
    - cbn. split; [|exact I1]. destruct a; try discriminate H1; discriminate.
    - left. destruct I2 as [I2|I2]; [|discriminate I2]. cbn [forallb]. rewrite I2, andb_true_r.
      destruct a as [[]| | | | |]; try discriminate H1; reflexivity. }
  destruct Hop as [-> | [-> | ->]]; intros Hs.
  - change (lookup_op OP_GetObject _) with (Some (h_getObject env)) in Hs.
    pose proof (common_P env Hcl (r_log s) (mk_req OP_GetObject tid (pars ps)) (par (mk_req OP_GetObject tid (pars ps)) 0) 0 MAX_CONTENT s1 HP) as H.
    unfold h_getObject in Hs. rewrite Hs in H. exact H.
  - change (lookup_op OP_GetPartialObject _) with (Some (h_getPartialObject env)) in Hs.
    pose proof (common_P env Hcl (r_log s) (mk_req OP_GetPartialObject tid (pars ps)) (par (mk_req OP_GetPartialObject tid (pars ps)) 0) (par (mk_req OP_GetPartialObject tid (pars ps)) 1) (par (mk_req OP_GetPartialObject tid (pars ps)) 2) s1 HP) as H.
    unfold h_getPartialObject in Hs. rewrite Hs in H. exact H.
  - change (lookup_op OP_GetPartialObject64 _) with (Some (h_getPartialObject64 env)) in Hs.
    pose proof (common_P env Hcl (r_log s) (mk_req OP_GetPartialObject64 tid (pars ps)) (par (mk_req OP_GetPartialObject64 tid (pars ps)) 0) (off64 (par (mk_req OP_GetPartialObject64 tid (pars ps)) 1) (par (mk_req OP_GetPartialObject64 tid (pars ps)) 2)) (par (mk_req OP_GetPartialObject64 tid (pars ps)) 3) s1 HP) as H.
    unfold h_getPartialObject64 in Hs. rewrite Hs in H. exact H.
Qed.
End Top.
