(** Data that does not belong to the command is not applied (C38). *)
From Verif Require Import Base Wire WireSpec WireProofs WireProofs2 Responder RSpec RLogic ROne2 RGate.

Section D.
Variable env : list (act * ans) -> act -> ans.
Variable formats : list N.
Variable cat : N -> N.
Variable props_by_type : N -> N * list N.
Variable prop_desc : N -> N -> N * option objpropdesc.
Hypothesis quiet : undisturbed env.

Definition nochange (s0 s : rstate) : Prop :=
  exists l, r_log s = l ++ r_log s0 /\ existsb changes (calls l) = false /\ responses l = [].
Definition W (q : req) (s0 s : rstate) : Prop := nochange s0 s /\ r_st s = WAIT_DATA /\ r_req s = Some q.
Definition E (s0 s : rstate) : Prop :=
  exists l o, r_log s = l ++ r_log s0 /\ existsb changes (calls l) = false /\ responses l = [o] /\ o_code o <> R_OK.
Lemma nochange_add s0 s e : nochange s0 s -> match fst e with ACall c => changes c = false | AEvent _ => True | _ => False end ->
  nochange s0 (add_log e s).
Proof.
  intros (l & H1 & H2 & H3) He. exists (e :: l). cbn. rewrite H1. split; [reflexivity|].
  destruct e as [[] r]; cbn in *; try contradiction; rewrite ?H2, ?He; auto.
Qed.
Lemma quiet_not_changing c : harmless c = true -> changes c = false.
Proof. destruct c; cbn; congruence. Qed.
Lemma E_quiet s0 : quiet_closed (E s0).
Proof.
  intros s [a r] He (l & o & H1 & H2 & H3 & H4). exists ((a, r) :: l), o. cbn. rewrite H1. split; [reflexivity|].
  cbn in He. destruct a; cbn in *; try discriminate; rewrite ?H2, ?H3; auto.
  rewrite (quiet_not_changing _ He). auto.
Qed.
Lemma d_call q s0 c : changes c = false -> hoare True (W q s0) (call env c) (fun _ => W q s0).
Proof. intros Hc. apply h_ask. intros s (H1 & H2 & H3). split; [apply nochange_add; auto|auto]. Qed.
Lemma d_resp q s0 c : c <> R_OK -> hoare True (W q s0) (send_response env c) (fun _ => E s0).
Proof.
  intros Hc s Hs. pose proof Hs as ((l & H1 & H2 & H3) & H4 & H5). unfold send_response, bind at 1, get. rewrite H5.
  unfold bind at 1, send_container. unfold bind at 1, get. rewrite H4. cbn [rst_eqb o_type]. change (TYPE_RESPONSE =? TYPE_RESPONSE) with true. cbn [when].
  unfold bind at 1, upd. unfold bind at 1, ask. set (r := env _ _).
  assert (Hr : forallb is_event (a_async r) = true) by apply quiet. set (s1 := add_log _ _).
  assert (Hs1 : E s0 s1).
  { unfold E. eexists (_ :: l), _. split; [cbn; rewrite H1; reflexivity|]. cbn [calls existsb]. split; [exact H2|].
    split; [cbn; rewrite H3; reflexivity|exact Hc]. }
  pose proof (events_quiet True env _ true _ (E_quiet s0) Hr _ Hs1) as H.
  unfold bind. destruct (run_sigs _ _ _ _) as [[a s2]| |]; auto. 
Qed.
Lemma d_get q s0 A B (g : rstate -> A) (f : A -> M B) Q :
  (forall x, hoare True (W q s0) (f x) Q) -> hoare True (W q s0) (bind (get g) f) Q.
Proof. intros H. apply h_get. intros x. eapply h_pre; [apply H|]. intros s [Hs _]; exact Hs. Qed.
Lemma d_check q s0 q' B (f : N -> M B) Q : (forall x, hoare True (W q s0) (f x) Q) -> hoare True (W q s0) (bind (check q') f) Q.
Proof. intros H. unfold check. apply h_assoc. apply d_get. intros x. apply h_retb. apply H. Qed.
Lemma d_need q s0 A (o : option A) : hoare True (W q s0) (need o) (fun _ => W q s0).
Proof. destruct o; [apply h_ret; auto|]. intros s Hs; exact I. Qed.
Ltac pres := let H1 := fresh in let H2 := fresh in let H3 := fresh in
  let s := fresh in intros s (H1 & H2 & H3); exact (conj H1 (conj H2 H3)).
Ltac dstep :=
  lazymatch goal with
  | |- hoare _ _ (bind (bind _ _) _) _ => apply h_assoc
  | |- hoare _ _ (bind (ret _) _) _ => apply h_retb
  | |- hoare _ _ (bind (check _) _) _ => apply d_check; intro
  | |- hoare _ _ (bind (get _) _) _ => apply d_get; intro
  | |- hoare _ _ (bind (need _) _) _ => apply h_inv; [apply d_need|intro]
  | |- hoare _ _ (bind (call _ _) _) _ => apply h_inv; [apply d_call; reflexivity|intro]
  | |- hoare _ (W ?q ?s) (bind (upd _) _) _ => apply h_updb with (R := W q s); [solve [pres]|]
  | |- hoare _ _ (bind (when ?b _) _) _ => destruct b; cbn [when]
  | |- hoare _ _ (when ?b _) _ => destruct b; cbn [when]
  | |- hoare _ _ (bind (if ?b then _ else _) _) _ => destruct b
  | |- hoare _ _ (bind (let (_, _) := ?b in _) _) _ => destruct b
  | |- hoare _ _ (bind (match ?b with _ => _ end) _) _ => destruct b
  | |- hoare _ _ (if ?b then _ else _) _ => destruct b
  | |- hoare _ _ (let (_, _) := ?b in _) _ => destruct b
  | |- hoare _ _ (match ?b with _ => _ end) _ => destruct b
  | |- hoare _ _ (upd _) _ => apply h_upd; solve [pres]
  | |- hoare _ (W ?q ?s) (ret _) (fun _ => W ?q ?s) => apply h_ret; solve [auto]
  end.
Ltac ds := repeat dstep.
Ltac peel := match goal with |- hoare _ _ (match (if ?b then _ else _) with _ => _ end) _ => destruct b eqn:?E end.
Ltac nextop := let F := fresh "F" in rename E0 into F.
Lemma d_table q s0 : has_data_phase (q_code q) = true ->
  hoare True (W q s0)
    (match lookup_op (q_code q) (op_table env formats cat props_by_type prop_desc) with
     | Some f => f q | None => send_response env R_OperationNotSupported end) (fun _ => W q s0).
Proof.
  intros Hd. unfold op_table; cbn [lookup_op].
  repeat (peel; [ apply N.eqb_eq in E0; first [ solve [rewrite E0 in Hd; discriminate] | idtac ]; clear E0 | nextop ]).
  9:{ exfalso. unfold has_data_phase in Hd. cbn [existsb] in Hd.
    repeat match goal with H : (q_code q =? ?x) = false |- _ => rewrite H in Hd; clear H end. discriminate Hd. }
  all: unfold h_check_only, h_sendObject, h_setDevicePropValue, h_sendPartialObject64, h_setObjPropValue, h_sendObjectPropList, edit_check;
    cbv zeta; ds.
Qed.
Notation step := (step env formats cat props_by_type prop_desc).
Notation run := (run env formats cat props_by_type prop_desc).

(** the container being received starts with this header *)
Variables (tid' code' : N).
Hypothesis Ht' : tid' < 2^32.
Hypothesis Hc' : code' < 2^16.
Definition head_is (r : rxc) : Prop := exists l ty rest, rx_buf r = spec_header l ty code' tid' ++ rest.
Definition WD (q : req) (s0 s : rstate) : Prop := W q s0 s /\ exists r, r_data s = Some r /\ head_is r.
Lemma head_append r d r1 : head_is r -> rx_append r d = Ret r1 -> head_is r1.
Proof.
  intros (l & ty & rest & H) Ha. unfold rx_append in Ha. repeat destruct (_ <=? _); repeat destruct (_ <? _); inversion Ha; subst.
  - exists l, ty, (rest ++ d). cbn. rewrite H. now rewrite <- app_assoc.
  - exists l, ty, rest. exact H.
Qed.
Lemma mismatch_data q s0 data (first last : bool) :
  has_data_phase (q_code q) = true -> pass_through (q_code q) = false ->
  tid' <> q_tid q \/ code' <> q_code q ->
  (if first then exists l ty rest, data = spec_header l ty code' tid' ++ rest else True) ->
  hoare True (fun s => W q s0 s /\ if first then True else exists r, r_data s = Some r /\ head_is r)
    (data_handler env cat prop_desc q data first last)
    (fun _ s => if last then E s0 s else WD q s0 s).
Proof.
  intros Hd Hpt Hm Hf. unfold data_handler. rewrite Hpt. cbn [negb andb].
  apply h_get. intros resp0.
  apply h_bind with (R := fun _ => WD q s0).
  { destruct first.
    - intros s [[Hs _] _]. unfold bind, lift, upd. destruct (rx_new data) as [r| |] eqn:En; auto.
      split; [destruct Hs as (H1 & H2 & H3); exact (conj H1 (conj H2 H3))|]. exists r; split; [reflexivity|].
      destruct Hf as (l & ty & rest & Hf). exists l, ty, rest. rewrite (rx_new_buf _ _ En). exact Hf.
    - intros s [[Hs (r & Hr & Hh)] _]. unfold bind at 1, get. rewrite Hr. unfold bind, lift, upd.
      destruct (rx_append r data) as [r1| |] eqn:En; auto.
      split; [destruct Hs as (H1 & H2 & H3); exact (conj H1 (conj H2 H3))|]. exists r1; split; [reflexivity|].
      eapply head_append; eauto. }
  intros _. destruct last; cbn [negb]; [|apply h_ret; auto].
  intros s [Hs (r & Hr & l & ty & rest & Hb)]. unfold bind at 1, get. rewrite Hr.
  assert (Hx : exists c, c <> R_OK /\ (if isok resp0 then
        t <- lift (rx_tid r) ;; c <- lift (rx_code r) ;;
        ret (if negb (t =? q_tid q) then R_InvalidTransID else if negb (c =? q_code q) then R_GeneralError else R_OK)
        else ret resp0) s = Ret (c, s)).
  { destruct (isok resp0) eqn:E0.
    - rewrite (header_tid _ _ _ _ _ _ Hb Ht'), (header_code _ _ _ _ _ _ Hb Hc').
      eexists. split; [|reflexivity].
      destruct (tid' =? q_tid q) eqn:E1; cbn [negb]; [|discriminate].
      destruct (code' =? q_code q) eqn:E2; cbn [negb]; [|discriminate]. destruct Hm; lia.
    - exists resp0. split; [unfold isok in E0; lia|reflexivity]. }
  destruct Hx as (c & Hc & Hx). unfold bind at 1. rewrite Hx.
  replace (isok c) with false by (unfold isok; lia). cbn [negb]. unfold bind at 1, upd. cbn [when].
  apply (d_resp q s0 c Hc). destruct Hs as (H1 & H2 & H3); exact (conj H1 (conj H2 H3)).
Qed.
Lemma mismatch_more q s0 ps :
  has_data_phase (q_code q) = true -> pass_through (q_code q) = false ->
  tid' <> q_tid q \/ code' <> q_code q -> ps <> [] ->
  hoare True (WD q s0) (run (more_packets ps)) (fun _ => E s0).
Proof.
  intros Hd Hpt Hm. induction ps as [|p ps IH]; [contradiction|]. intros _.
  assert (Hstep : forall last, hoare True (WD q s0) (step (IRecv p false last)) (fun _ s => if last then E s0 s else WD q s0 s)).
  { intros last s [Hs Hr]. cbn [Responder.step]. unfold receive, bind at 1, get.
    destruct Hs as (H1 & H3 & H4). rewrite H3. unfold bind at 1, get. rewrite H4.
    apply (mismatch_data q s0 p false last); auto. split; [exact (conj H1 (conj H3 H4))|exact Hr]. }
  destruct ps as [|p2 ps].
  - cbn [more_packets Responder.run]. eapply h_bind; [apply (Hstep true)|]. intro; cbv beta. apply h_ret; auto.
  - change (more_packets (p :: p2 :: ps)) with (IRecv p false false :: more_packets (p2 :: ps)).
    cbn [Responder.run]. eapply h_bind; [apply (Hstep false)|]. intro; cbv beta. apply IH; discriminate.
Qed.
Theorem data_mismatch s op tid ps len' ty rest packets s' :
  idle s -> command_ok op tid ps -> has_data_phase op = true -> pass_through op = false ->
  (needs_storage op = true -> storage_is_ready env) ->
  tid' <> tid \/ code' <> op ->
  run (command op tid ps :: data_phase ((spec_header len' ty code' tid' ++ rest) :: packets)) s = Ret (tt, s') ->
  exists l o, r_log s' = l ++ r_log s /\ existsb changes (calls l) = false /\ responses l = [o] /\ o_code o <> R_OK.
Proof.
  intros Hi Hc Hd Hpt Hr Hm Hrun. cbn [Responder.run] in Hrun. unfold bind at 1 in Hrun.
  rewrite (receive_idle _ _ _ _ _ _ _ _ _ Hi Hc) in Hrun. fold (started op tid ps s) in Hrun. revert Hrun.
  set (q := mk_req op tid (pars ps)).
  assert (H : hoare True (W q s) (command_handler env formats cat props_by_type prop_desc q) (fun _ => W q s)).
  { unfold command_handler. cbv zeta. apply h_inv; [ds|intros _].
    apply h_updb with (R := W q s); [solve [pres]|].
    apply h_bind with (R := fun r s1 => W q s s1 /\ (needs_storage (q_code q) = true -> a_bool r = true)).
    { apply h_ask. intros s1 (H1 & H2 & H3). cbv beta. refine (conj (conj _ (conj H2 H3)) (fun Hn => Hr Hn _)). apply nochange_add; auto. reflexivity. }
    intros r. apply h_pure. intros Hb.
    assert (Hk : negb (a_bool r) && needs_storage (q_code q) = false).
    { destruct (needs_storage (q_code q)); [rewrite Hb by reflexivity; reflexivity|apply andb_false_r]. }
    rewrite Hk. apply d_table. exact Hd. }
  assert (HW : W q s (started op tid ps s)).
  { split; [exists []; auto|]. split; [|reflexivity]. cbn. unfold phase_state. rewrite Hd. reflexivity. }
  specialize (H _ HW). fold q.
  destruct (command_handler _ _ _ _ _ q _) as [[[] s1]| |]; [|discriminate..].
  intros Hrun.
  assert (Hstep : forall last, hoare True (W q s) (step (IRecv (spec_header len' ty code' tid' ++ rest) true last))
     (fun _ s1 => if last then E s s1 else WD q s s1)).
  { intros last s2 Hs. cbn [Responder.step]. unfold receive, bind at 1, get.
    destruct Hs as (H1 & H3 & H4). rewrite H3. unfold bind at 1, get. rewrite H4.
    apply (mismatch_data q s _ true last); auto; [eauto|]. split; [exact (conj H1 (conj H3 H4))|exact I]. }
  destruct packets as [|p packets].
  - cbn [data_phase Responder.run] in Hrun. pose proof (Hstep true s1 H) as H2. unfold bind in Hrun.
    destruct (step _ s1) as [[[] s2]| |]; [|discriminate..]. apply Ret_inj in Hrun. cbn in Hrun. injection Hrun as <-. exact H2.
  - change (data_phase ((spec_header len' ty code' tid' ++ rest) :: p :: packets)) with
      (IRecv (spec_header len' ty code' tid' ++ rest) true false :: more_packets (p :: packets)) in Hrun.
    cbn [Responder.run] in Hrun. pose proof (Hstep false s1 H) as H2. unfold bind in Hrun.
    destruct (step _ s1) as [[[] s2]| |]; [|discriminate..].
    assert (H3 := mismatch_more q s (p :: packets) Hd Hpt Hm). specialize (H3 ltac:(discriminate) s2 H2).
    rewrite Hrun in H3. exact H3.
Qed.
End D.
