(** Editing an object in place: what BeginEditObject, SendPartialObject64,
    TruncateObject64 and EndEditObject ask the storage (C87). *)
From Verif Require Import Base Wire WireSpec Responder RSpec RLogic ROne2 RGate RExec RSession RSend RSend2 RColl ROps.

(** ** Specification *)
(** the data of SendPartialObject64, packet by packet, at advancing offsets; a write that
    is refused ends it *)
Fixpoint partial_script (h off : N) (first : bool) (bodies : list bytes) : script :=
  match bodies with
  | [] => fail R_OK
  | [b] => Ask (SWritePartial h off b first true) (fun a => fail (a_code a))
  | b :: r => Ask (SWritePartial h off b first false) (fun a => if ok (a_code a) then partial_script h (off + len b) false r else fail (a_code a))
  end.
(** what is refused outside an edit of that object *)
Definition only_editing (s : rstate) (h : N) (sc : script) : script :=
  match r_edit s with
  | Some (e, _) => if e =? h then sc else fail R_InvalidObjectHandle
  | None => fail R_GeneralError
  end.

(** ** Proofs *)
Section E.
Variable env : list (act * ans) -> act -> ans.
Variable formats : list N.
Variable cat : N -> N.
Variable props_by_type : N -> N * list N.
Variable prop_desc : N -> N -> N * option objpropdesc.
Hypothesis quiet : undisturbed env.
Notation step := (step env formats cat props_by_type prop_desc).
Notation run := (run env formats cat props_by_type prop_desc).

Lemma pre_ok s tid : r_session s <> 0 -> tid <> 0 -> tid <> 0xFFFFFFFF -> pre_check (r_session s) tid = R_OK.
Proof. intros A B C. unfold pre_check. replace (r_session s =? 0) with false by lia. replace (tid =? 0) with false by lia. replace (tid =? 0xFFFFFFFF) with false by lia. reflexivity. Qed.

(** the end of a request: the response and what was asked *)
Definition ends (s s' : rstate) (sc : script) (tid : N) : Prop :=
  exists l c, r_st s' = IDLE /\ r_session s' = r_session s /\ r_log s' = l ++ r_log s /\ follows sc (asked l) None c [] /\ datas l = [] /\ responses l = [resp_out c tid []].

Lemma result_ends q sc m s n0 s1 : result q sc m -> (forall d c ps conv, follows sc conv d c ps -> d = None /\ ps = []) -> noise n0 -> r_log s1 = n0 ++ r_log s -> r_session s1 = r_session s ->
  active s1 -> r_req s1 = Some q -> r_session s <> 0 -> q_tid q <> 0 -> q_tid q <> 0xFFFFFFFF -> exists s', m s1 = Ret (tt, s') /\ ends s s' sc (q_tid q) /\ r_edit s' = r_edit s1.
Proof.
  intros R F N L S A Q S0 T1 T2. destruct (R s1 A Q) as (n & d & c & ps & E & FO & D & RS). { rewrite S. apply pre_ok; assumption. }
  destruct (F d c ps _ FO) as [-> ->]. eexists. split; [exact E|]. split; [|reflexivity]. exists (n ++ n0), c. split; [reflexivity|]. split; [exact S|]. split; [cbn [r_log set_log]; rewrite L, app_assoc; reflexivity|].
  rewrite asked_app, datas_app, responses_app, (noise_asked n0 N), (noise_datas n0 N), (noise_responses n0 N), !app_nil_r. auto.
Qed.
Lemma fail_plain c d c' ps conv : follows (fail c) conv d c' ps -> d = None /\ ps = [].
Proof. intros F. inversion F. auto. Qed.
Lemma ask_fail_plain c f d c' ps conv : follows (Ask c (fun r => fail (f r))) conv d c' ps -> d = None /\ ps = [].
Proof. intros F. inversion F; subst; eapply fail_plain; eassumption. Qed.

Lemma off64_eq op tid h lo hi more (Hc : command_ok op tid (h :: lo :: hi :: more)) : off64 lo hi = hi * 2^32 + lo.
Proof.
  destruct Hc as (_ & _ & _ & F). inversion F as [|? ? _ F1]; subst. inversion F1 as [|? ? Hlo F2]; subst. inversion F2 as [|? ? Hhi _]; subst.
  unfold off64, u64. apply N.mod_small. change (2^32) with 4294967296 in *. nia.
Qed.
(** TruncateObject64 *)
Theorem truncate_ok s tid h lo hi : storage_is_ready env -> idle s -> command_ok OP_TruncateObject64 tid [h; lo; hi] -> r_session s <> 0 -> tid <> 0 -> tid <> 0xFFFFFFFF ->
  exists s', run [command OP_TruncateObject64 tid [h; lo; hi]] s = Ret (tt, s') /\
    ends s s' (only_editing s h (Ask (STruncate h (hi * 2^32 + lo)) (fun r => fail (a_code r)))) tid /\ r_edit s' = r_edit s.
Proof.
  intros Hr Hi Hc Hs T1 T2. rewrite run1. destruct (command_eq env formats cat props_by_type prop_desc s _ tid _ Hi Hc (fun _ => Hr)) as (l & Hl & ->).
  change (lookup_op OP_TruncateObject64 _) with (Some (h_truncateObject64 env)). cbv iota. set (q := mk_req _ _ _). set (s1 := set_log _ _).
  unfold h_truncateObject64, check, bind at 1, bind at 1, get at 1, ret at 1. change (q_tid q) with tid. change (r_session s1) with (r_session s). rewrite (pre_ok s tid Hs T1 T2).
  unfold edit_check. change (isok R_OK) with true. cbn [negb]. unfold bind at 1, bind at 1, get at 1, ret at 1. change (r_edit s1) with (r_edit s). change (par q 0) with h. change (par q 1) with lo. change (par q 2) with hi.
  assert (A : active s1) by apply started_active. unfold only_editing. destruct (r_edit s) as [[e x]|] eqn:ED.
  - destruct (e =? h).
    + change (isok R_OK) with true. cbv iota.
      destruct (result_ends q (Ask (STruncate h (hi * 2^32 + lo)) (fun r => fail (a_code r))) (r <- call env (STruncate h (off64 lo hi)) ;; send_response env (a_code r)) s l s1) as (s' & E & EN & ED'); try assumption; try reflexivity.
      { rewrite (off64_eq _ _ _ _ _ _ Hc). apply res_ask. intros r. apply res_ret. exact quiet. }
      { intros d c ps conv F. exact (ask_fail_plain _ _ _ _ _ _ F). }
      exists s'. split; [exact E|]. split; [exact EN|]. rewrite ED'. exact ED.
    + destruct (result_ends q (fail R_InvalidObjectHandle) (send_response env R_InvalidObjectHandle) s l s1) as (s' & E & EN & ED'); try assumption; try reflexivity. { apply res_ret. exact quiet. } { intros d c ps conv F. exact (fail_plain _ _ _ _ _ F). }
      exists s'. split; [exact E|]. split; [exact EN|]. rewrite ED'. exact ED.
  - destruct (result_ends q (fail R_GeneralError) (send_response env R_GeneralError) s l s1) as (s' & E & EN & ED'); try assumption; try reflexivity. { apply res_ret. exact quiet. } { intros d c ps conv F. exact (fail_plain _ _ _ _ _ F). }
    exists s'. split; [exact E|]. split; [exact EN|]. rewrite ED'. exact ED.
Qed.
(** BeginEditObject *)
Definition begin_script (h : N) : script := provided (SCheckHandle h) (Ask (SSetEvents h false) (fun _ => fail R_OK)).
Theorem begin_ok s tid h : storage_is_ready env -> idle s -> command_ok OP_BeginEditObject tid [h] -> r_session s <> 0 -> tid <> 0 -> tid <> 0xFFFFFFFF ->
  exists s' l c, run [command OP_BeginEditObject tid [h]] s = Ret (tt, s') /\ r_st s' = IDLE /\ r_session s' = r_session s /\ r_log s' = l ++ r_log s /\
    follows (begin_script h) (asked l) None c [] /\ datas l = [] /\ responses l = [resp_out c tid []] /\
    (c = R_OK -> r_edit s' = Some (h, 0)) /\ (c <> R_OK -> r_edit s' = r_edit s).
Proof.
  intros Hr Hi Hc Hs T1 T2. rewrite run1. destruct (command_eq env formats cat props_by_type prop_desc s _ tid _ Hi Hc (fun _ => Hr)) as (l & Hl & ->).
  change (lookup_op OP_BeginEditObject _) with (Some (h_beginEdit env)). cbv iota. set (q := mk_req _ _ _). set (s1 := set_log _ _).
  unfold h_beginEdit, check, bind at 1, bind at 1, get at 1, ret at 1. change (q_tid q) with tid. change (r_session s1) with (r_session s). rewrite (pre_ok s tid Hs T1 T2).
  change (isok R_OK) with true. cbn [negb]. change (par q 0) with h. unfold bind at 1, call at 1, ask at 1. set (r := env (r_log s1) (ACall (SCheckHandle h))). set (s2 := add_log _ s1).
  assert (A : active s2) by apply started_active. destruct (isok (a_code r)) eqn:OK; cbn [negb].
  - set (s3 := set_edit (Some (h, 0)) s2).
    assert (E0 : (upd (set_edit (Some (h, 0)));;; (_ <- call env (SSetEvents h false);; send_response env R_OK)) s2 = (_ <- call env (SSetEvents h false);; send_response env R_OK) s3) by reflexivity. rewrite E0.
    destruct (res_ask env q (SSetEvents h false) (fun _ => fail R_OK) (fun _ => send_response env R_OK) (fun _ => res_ret env quiet q R_OK) s3 A eq_refl) as (n & d & c & ps & E & FO & D & RS). { change (r_session s3) with (r_session s). exact (pre_ok s tid Hs T1 T2). }
    destruct (ask_fail_plain _ _ _ _ _ _ FO) as [-> ->]. assert (c = R_OK) as -> by (inversion FO as [| ? ? ? ? ? ? ? ? F|? ? ? ? ? ? ? ? F]; subst; inversion F; reflexivity).
    eexists. exists (n ++ (ACall (SCheckHandle h), r) :: l), R_OK. split; [exact E|]. split; [reflexivity|]. split; [reflexivity|]. split; [cbn [r_log set_log]; rewrite <- app_assoc; reflexivity|].
    rewrite asked_app, datas_app, responses_app. cbn [asked harmless datas responses]. rewrite (noise_asked l Hl), (noise_datas l Hl), (noise_responses l Hl), D, RS. cbn [app].
    split; [constructor; [reflexivity|]; change (ok (a_code r)) with (isok (a_code r)); rewrite OK; exact FO|]. split; [reflexivity|]. split; [reflexivity|]. split; [reflexivity|congruence].
  - destruct (res_ret env quiet q (a_code r) s2 A eq_refl) as (n & d & c & ps & E & FO & D & RS). { change (r_session s2) with (r_session s). exact (pre_ok s tid Hs T1 T2). }
    inversion FO; subst d c ps. eexists. exists (n ++ (ACall (SCheckHandle h), r) :: l), (a_code r). split; [exact E|]. split; [reflexivity|]. split; [reflexivity|]. split; [cbn [r_log set_log]; rewrite <- app_assoc; reflexivity|].
    rewrite asked_app, datas_app, responses_app. cbn [asked harmless datas responses]. rewrite (noise_asked l Hl), (noise_datas l Hl), (noise_responses l Hl), D, RS. cbn [app].
    split; [constructor; [reflexivity|]; change (ok (a_code r)) with (isok (a_code r)); rewrite OK; exact FO|]. split; [reflexivity|]. split; [reflexivity|].
    split; [intros X; rewrite X in OK; discriminate|reflexivity].
Qed.
(** EndEditObject *)
Definition end_script (h : N) : script := Ask (SFlush h) (fun _ => Ask (SSetEvents h true) (fun _ => fail R_OK)).
Theorem end_ok s tid h : storage_is_ready env -> idle s -> command_ok OP_EndEditObject tid [h] -> r_session s <> 0 -> tid <> 0 -> tid <> 0xFFFFFFFF ->
  exists s', run [command OP_EndEditObject tid [h]] s = Ret (tt, s') /\ ends s s' (only_editing s h (end_script h)) tid /\
    r_edit s' = match r_edit s with Some (e, _) => if e =? h then None else r_edit s | None => None end.
Proof.
  intros Hr Hi Hc Hs T1 T2. rewrite run1. destruct (command_eq env formats cat props_by_type prop_desc s _ tid _ Hi Hc (fun _ => Hr)) as (l & Hl & ->).
  change (lookup_op OP_EndEditObject _) with (Some (h_endEdit env)). cbv iota. set (q := mk_req _ _ _). set (s1 := set_log _ _).
  unfold h_endEdit, check, bind at 1, bind at 1, get at 1, ret at 1. change (q_tid q) with tid. change (r_session s1) with (r_session s). rewrite (pre_ok s tid Hs T1 T2).
  unfold edit_check. change (isok R_OK) with true. cbn [negb]. unfold bind at 1, bind at 1, get at 1, ret at 1. change (r_edit s1) with (r_edit s). change (par q 0) with h.
  assert (A : active s1) by apply started_active. unfold only_editing. destruct (r_edit s) as [[e x]|] eqn:ED.
  - destruct (e =? h).
    + change (isok R_OK) with true. cbv iota. unfold bind at 1, call at 1, ask at 1. set (s2 := add_log _ s1). unfold bind at 1, call at 1, ask at 1. set (s3 := add_log _ s2). unfold bind at 1, upd at 1. set (s4 := set_edit None s3).
      destruct (res_ret env quiet q R_OK s4 A eq_refl) as (n & d & c & ps & E & FO & D & RS). { change (r_session s4) with (r_session s). exact (pre_ok s tid Hs T1 T2). }
      inversion FO; subst d c ps. eexists. split; [exact E|]. split; [|reflexivity].
      exists (n ++ (ACall (SSetEvents h true), env (r_log s2) (ACall (SSetEvents h true))) :: (ACall (SFlush h), env (r_log s1) (ACall (SFlush h))) :: l), R_OK. split; [reflexivity|]. split; [reflexivity|].
      split; [cbn [r_log set_log]; rewrite <- app_assoc; reflexivity|]. rewrite asked_app, datas_app, responses_app. cbn [asked harmless datas responses]. rewrite (noise_asked l Hl), (noise_datas l Hl), (noise_responses l Hl), D, RS. cbn [app].
      split; [constructor; [reflexivity|]; constructor; [reflexivity|]; exact FO|]. split; reflexivity.
    + destruct (result_ends q (fail R_InvalidObjectHandle) (send_response env R_InvalidObjectHandle) s l s1) as (s' & E & EN & ED'); try assumption; try reflexivity. { apply res_ret. exact quiet. } { intros d c ps conv F. exact (fail_plain _ _ _ _ _ F). }
      exists s'. split; [exact E|]. split; [exact EN|]. rewrite ED'. exact ED.
  - destruct (result_ends q (fail R_GeneralError) (send_response env R_GeneralError) s l s1) as (s' & E & EN & ED'); try assumption; try reflexivity. { apply res_ret. exact quiet. } { intros d c ps conv F. exact (fail_plain _ _ _ _ _ F). }
    exists s'. split; [exact E|]. split; [exact EN|]. rewrite ED'. exact ED.
Qed.

(** SendPartialObject64: the packets *)
Definition taking (q : req) (h off : N) (s : rstate) : Prop := waiting q s /\ q_code q = OP_SendPartialObject64 /\ r_resp s = R_OK /\ r_edit s = Some (h, off).
Definition refusing (q : req) (c : N) (s : rstate) : Prop := waiting q s /\ q_code q = OP_SendPartialObject64 /\ r_resp s = c /\ c <> R_OK.

Lemma finish_ok q s c : active s -> r_req s = Some q -> exists s' n, send_response env c s = Ret (tt, s') /\ r_log s' = n ++ r_log s /\ asked n = [] /\ datas n = [] /\ responses n = [resp_out c (q_tid q) []] /\
  r_st s' = IDLE /\ r_session s' = r_session s /\ r_edit s' = r_edit s.
Proof.
  intros A Q. destruct (response_eq env quiet c s q A Q) as (n & a & Hn & E). eexists. exists (n ++ [(ASend (resp_out c (q_tid q) []) true, a)]). split; [exact E|]. split; [cbn [r_log set_log]; rewrite <- app_assoc; reflexivity|].
  rewrite asked_app, datas_app, responses_app, (noise_asked n Hn), (noise_datas n Hn), (noise_responses n Hn). repeat split; reflexivity.
Qed.
Lemma take_packet q h off s data body first last : taking q h off s -> is_packet first body data ->
  exists r s1, r = env (r_log s) (ACall (SWritePartial h off body first last)) /\
    step (IRecv data first last) s = when last (send_response env (a_code r)) s1 /\ r_log s1 = (ACall (SWritePartial h off body first last), r) :: r_log s /\
    waiting q s1 /\ r_resp s1 = a_code r /\ r_session s1 = r_session s /\ r_edit s1 = Some (h, u64 (off + len body)).
Proof.
  intros ([H1 H2] & H3 & H4 & H5) HP. apply packet_body in HP as [HP1 HP2]. cbn [Responder.step]. unfold receive, bind at 1, get. rewrite H1. unfold bind at 1. rewrite H2.
  unfold data_handler. unfold bind at 1, get. rewrite H4. rewrite H3. change (pass_through OP_SendPartialObject64) with true. cbv iota.
  unfold bind at 1, upd. change (negb true && negb last) with false. cbv iota. unfold bind at 1. cbn [r_data set_data].
  unfold bind at 1, ret. change (isok R_OK) with true. cbn [negb].
  change (OP_SendPartialObject64 =? OP_SendObjectInfo) with false. change (OP_SendPartialObject64 =? OP_SendObject) with false. change (OP_SendPartialObject64 =? OP_SendPartialObject64) with true. cbv iota.
  unfold bind at 1. unfold d_sendPartial. unfold bind at 1, get at 1. cbn [r_edit set_data]. rewrite H5, HP1. cbv zeta. rewrite HP2. unfold bind at 1, call, ask. unfold bind at 1, upd. unfold ret. unfold bind at 1.
  eexists. eexists. split; [reflexivity|]. split; [reflexivity|]. split; [reflexivity|]. split; [split; [exact H1|exact H2]|]. split; [reflexivity|]. split; reflexivity.
Qed.
Lemma refuse_packet q c s data first last : refusing q c s -> exists s1, step (IRecv data first last) s = when last (send_response env c) s1 /\ r_log s1 = r_log s /\ refusing q c s1 /\ r_session s1 = r_session s /\ r_edit s1 = r_edit s.
Proof.
  intros ([H1 H2] & H3 & H4 & H5). cbn [Responder.step]. unfold receive, bind at 1, get. rewrite H1. unfold bind at 1. rewrite H2.
  unfold data_handler. unfold bind at 1, get. rewrite H4. rewrite H3. change (pass_through OP_SendPartialObject64) with true. cbv iota.
  unfold bind at 1, upd. change (negb true && negb last) with false. cbv iota. unfold bind at 1. cbn [r_data set_data].
  unfold bind at 1, ret. replace (isok c) with false by (symmetry; apply N.eqb_neq; exact H5). cbn [negb]. unfold bind at 1.
  eexists. split; [reflexivity|]. split; [reflexivity|]. split; [|split; reflexivity]. split; [split; [exact H1|exact H2]|]. split; [exact H3|]. split; [reflexivity|exact H5].
Qed.
Lemma waiting_active q s : waiting q s -> active s. Proof. intros [H _]. right. exact H. Qed.
Lemma refuse_more q c bodies : forall s, refusing q c s -> bodies <> [] -> exists s' n, run (more_packets bodies) s = Ret (tt, s') /\ r_log s' = n ++ r_log s /\ asked n = [] /\ datas n = [] /\ responses n = [resp_out c (q_tid q) []] /\
  r_st s' = IDLE /\ r_session s' = r_session s /\ r_edit s' = r_edit s.
Proof.
  induction bodies as [|b bodies IH]; intros s H NE; [contradiction|]. destruct bodies as [|b2 bodies].
  - cbn [more_packets]. rewrite run1. destruct (refuse_packet q c s b false true H) as (s1 & -> & L & H1 & S1 & ED). cbn [when]. destruct H1 as (W & H3 & H4 & H5).
    destruct (finish_ok q s1 c (waiting_active q s1 W) (proj2 W)) as (s' & n & E & L' & A1 & A2 & A3 & A4 & A5 & A6). exists s', n. rewrite L', L. repeat split; try assumption; congruence.
  - change (more_packets (b :: b2 :: bodies)) with (IRecv b false false :: more_packets (b2 :: bodies)). rewrite run_cons. destruct (refuse_packet q c s b false false H) as (s1 & -> & L & H1 & S1 & ED). cbn [when]. unfold ret.
    destruct (IH s1 H1 ltac:(discriminate)) as (s' & n & E & L' & A). exists s', n. split; [exact E|]. rewrite L', L. rewrite S1, ED in A. auto.
Qed.
(** the data phase, from its first packet on *)
Definition arrives (first : bool) (hdr : bytes) (bodies : list bytes) : list input :=
  if first then data_phase (object_packets hdr bodies) else more_packets bodies.
Lemma arrives_last first hdr b : arrives first hdr [b] = [IRecv (if first then hdr ++ b else b) first true].
Proof. destruct first; reflexivity. Qed.
Lemma arrives_cons first hdr b b2 bodies : arrives first hdr (b :: b2 :: bodies) = IRecv (if first then hdr ++ b else b) first false :: arrives false hdr (b2 :: bodies).
Proof. destruct first; reflexivity. Qed.
Lemma parts q h hdr bodies : len hdr = 12 -> forall first off s, taking q h off s -> bodies <> [] -> off + len (concat bodies) < 2^64 ->
  exists s' n c, run (arrives first hdr bodies) s = Ret (tt, s') /\ r_log s' = n ++ r_log s /\ follows (partial_script h off first bodies) (asked n) None c [] /\ datas n = [] /\ responses n = [resp_out c (q_tid q) []] /\
    r_st s' = IDLE /\ r_session s' = r_session s /\ exists o, r_edit s' = Some (h, o).
Proof.
  intros H12. induction bodies as [|b bodies IH]; intros first off s H NE LT; [contradiction|]. cbn [concat] in LT. rewrite len_app in LT.
  assert (PK : is_packet first b (if first then hdr ++ b else b)) by (destruct first; [exists hdr; auto|reflexivity]). destruct bodies as [|b2 bodies].
  - rewrite arrives_last, run1. destruct (take_packet q h off s _ b first true H PK) as (r & s1 & R & -> & L & W & RE & SE & ED). cbn [when].
    destruct (finish_ok q s1 (a_code r) (waiting_active q s1 W) (proj2 W)) as (s' & n & E & L' & A1 & A2 & A3 & A4 & A5 & A6). rewrite ED in A6.
    exists s', (n ++ [(ACall (SWritePartial h off b first true), r)]), (a_code r). split; [exact E|]. split; [rewrite L', L, <- app_assoc; reflexivity|].
    rewrite asked_app, datas_app, responses_app, A1, A2, A3. cbn [asked harmless datas responses app]. split; [constructor; [reflexivity|constructor]|]. repeat split; try assumption; [congruence|eauto].
  - rewrite arrives_cons, run_cons. destruct (take_packet q h off s _ b first false H PK) as (r & s1 & R & -> & L & W & RE & SE & ED). cbn [when]. unfold ret at 1.
    destruct (ok (a_code r)) eqn:OK.
    + destruct (IH false (off + len b) s1) as (s' & n & c & E & L' & F & A2 & A3 & A4 & A5 & A6).
      { split; [exact W|]. destruct H as (_ & H3 & _). split; [exact H3|]. split; [apply N.eqb_eq in OK; congruence|]. rewrite ED. unfold u64. rewrite N.mod_small; [reflexivity|]. change (2^64) with 18446744073709551616 in LT. lia. }
      { discriminate. } { lia. }
      exists s', (n ++ [(ACall (SWritePartial h off b first false), r)]), c. split; [exact E|]. split; [rewrite L', L, <- app_assoc; reflexivity|].
      rewrite asked_app, datas_app, responses_app, A2, A3. cbn [asked harmless datas responses app]. split; [constructor; [reflexivity|rewrite OK; exact F]|]. repeat split; try assumption; congruence.
    + destruct (refuse_more q (a_code r) (b2 :: bodies) s1) as (s' & n & E & L' & A1 & A2 & A3 & A4 & A5 & A6).
      { split; [exact W|]. destruct H as (_ & H3 & _). split; [exact H3|]. split; [exact RE|]. intros X; rewrite X in OK; discriminate. } { discriminate. } rewrite ED in A6.
      exists s', (n ++ [(ACall (SWritePartial h off b first false), r)]), (a_code r). split; [exact E|]. split; [rewrite L', L, <- app_assoc; reflexivity|].
      rewrite asked_app, datas_app, responses_app, A1, A2, A3. cbn [asked harmless datas responses app]. split; [constructor; [reflexivity|rewrite OK; constructor]|]. repeat split; try assumption; [congruence|eauto].
Qed.
Lemma refuse_all q c hdr bodies s : refusing q c s -> bodies <> [] -> exists s' n, run (arrives true hdr bodies) s = Ret (tt, s') /\ r_log s' = n ++ r_log s /\ asked n = [] /\ datas n = [] /\ responses n = [resp_out c (q_tid q) []] /\
  r_st s' = IDLE /\ r_session s' = r_session s /\ r_edit s' = r_edit s.
Proof.
  intros H NE. destruct bodies as [|b [|b2 bodies]]; [contradiction| |].
  - rewrite arrives_last, run1. destruct (refuse_packet q c s (hdr ++ b) true true H) as (s1 & -> & L & H1 & S1 & ED). cbn [when]. destruct H1 as (W & H3 & H4 & H5).
    destruct (finish_ok q s1 c (waiting_active q s1 W) (proj2 W)) as (s' & n & E & L' & A1 & A2 & A3 & A4 & A5 & A6). exists s', n. rewrite L', L. repeat split; try assumption; congruence.
  - rewrite arrives_cons, run_cons. destruct (refuse_packet q c s (hdr ++ b) true false H) as (s1 & -> & L & H1 & S1 & ED). cbn [when]. unfold ret.
    destruct (refuse_more q c (b2 :: bodies) s1 H1 ltac:(discriminate)) as (s' & n & E & L' & A). exists s', n. split; [exact E|]. rewrite L', L. rewrite S1, ED in A. auto.
Qed.
(** SendPartialObject64 *)
Theorem send_partial_ok s tid h lo hi n hdr bodies : storage_is_ready env -> idle s -> command_ok OP_SendPartialObject64 tid [h; lo; hi; n] -> r_session s <> 0 -> tid <> 0 -> tid <> 0xFFFFFFFF ->
  len hdr = 12 -> bodies <> [] -> hi * 2^32 + lo + len (concat bodies) < 2^64 ->
  exists s', run (command OP_SendPartialObject64 tid [h; lo; hi; n] :: data_phase (object_packets hdr bodies)) s = Ret (tt, s') /\
    ends s s' (only_editing s h (partial_script h (hi * 2^32 + lo) true bodies)) tid /\ option_map fst (r_edit s') = option_map fst (r_edit s).
Proof.
  intros Hr Hi Hc Hs T1 T2 H12 NE LT. rewrite run_cons. destruct (command_eq env formats cat props_by_type prop_desc s _ tid _ Hi Hc (fun _ => Hr)) as (l & Hl & ->).
  change (lookup_op OP_SendPartialObject64 _) with (Some (h_sendPartialObject64)). cbv iota. set (q := mk_req _ _ _). set (s1 := set_log _ _).
  unfold h_sendPartialObject64, check, bind at 1, bind at 1, get at 1, ret at 1. change (q_tid q) with tid. change (r_session s1) with (r_session s). rewrite (pre_ok s tid Hs T1 T2).
  unfold edit_check. change (isok R_OK) with true. cbn [negb]. unfold bind at 1, bind at 1, get at 1, ret at 1. change (r_edit s1) with (r_edit s). change (par q 0) with h. change (par q 1) with lo. change (par q 2) with hi.
  assert (W : waiting q s1) by (split; reflexivity). change (data_phase (object_packets hdr bodies)) with (arrives true hdr bodies).
  assert (REF : forall c, c <> R_OK -> exists s' m, run (arrives true hdr bodies) (set_resp c s1) = Ret (tt, s') /\ ends s s' (fail c) tid /\ r_edit s' = r_edit s /\ m = s').
  { intros c HC. destruct (refuse_all q c hdr bodies (set_resp c s1)) as (s' & m & E & L' & A1 & A2 & A3 & A4 & A5 & A6); [|exact NE|].
    { split; [exact W|]. split; [reflexivity|]. split; [reflexivity|exact HC]. }
    exists s', s'. split; [exact E|]. split; [|split; [exact A6|reflexivity]]. exists (m ++ l), c. split; [exact A4|]. split; [exact A5|]. split; [rewrite L', <- app_assoc; reflexivity|].
    rewrite asked_app, datas_app, responses_app, (noise_asked l Hl), (noise_datas l Hl), (noise_responses l Hl), A1, A2, A3. cbn [app]. split; [constructor|]. split; reflexivity. }
  unfold only_editing. destruct (r_edit s) as [[e x]|] eqn:ED.
  - destruct (e =? h) eqn:EH.
    + change (isok R_OK) with true. cbv iota. cbn [when]. unfold bind at 1, upd at 1. unfold upd at 1. rewrite (off64_eq _ _ _ _ _ _ Hc).
      destruct (parts q h hdr bodies H12 true (hi * 2^32 + lo) (set_resp R_OK (set_edit (Some (h, hi * 2^32 + lo)) s1))) as (s' & m & c & E & L' & F & A2 & A3 & A4 & A5 & o & A6); [|exact NE|exact LT|].
      { split; [exact W|]. split; [reflexivity|]. split; reflexivity. }
      exists s'. split; [exact E|]. split; [|rewrite A6; apply N.eqb_eq in EH; subst e; reflexivity]. exists (m ++ l), c. split; [exact A4|]. split; [exact A5|]. split; [rewrite L', <- app_assoc; reflexivity|].
      rewrite asked_app, datas_app, responses_app, (noise_asked l Hl), (noise_datas l Hl), (noise_responses l Hl), A2, A3. cbn [app]. split; [exact F|]. split; reflexivity.
    + change (isok R_InvalidObjectHandle) with false. cbn [when]. unfold bind at 1, ret at 1, upd at 1. destruct (REF R_InvalidObjectHandle ltac:(discriminate)) as (s' & _ & E & EN & E3 & _). exists s'. split; [exact E|]. split; [exact EN|]. rewrite E3. reflexivity.
  - change (isok R_GeneralError) with false. cbn [when]. unfold bind at 1, ret at 1, upd at 1. destruct (REF R_GeneralError ltac:(discriminate)) as (s' & _ & E & EN & E3 & _). exists s'. split; [exact E|]. split; [exact EN|]. rewrite E3. reflexivity.
Qed.
End E.
