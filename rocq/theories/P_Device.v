(** C82-C86: the responder working on the file system storage.  Whatever else the
    device does ([rest]: transport, device information, the events raised meanwhile),
    a request the initiator sends has the effect on the files, and gets the data and
    response, that the request is for. *)
From Verif Require Import Base AList Wire FS FSPath FSTree FSLogic FSSpec FSReach FSProps FSDemo P_FS4 Device DeviceProofs DeviceRead DeviceSend DeviceInfo.
From Verif Require Usb UsbReset UsbSend Responder RSpec ROne2 RSession RRead RSend RExt RDemo P_Read P_Send WireSpec P_SendInfo.
Import Responder(act, ans, scall, rstate, r_log, r_st, r_session, OP_GetObject, OP_GetPartialObject, OP_GetPartialObject64, OP_SendObject, OP_SendObjectInfo).
Import RSpec(undisturbed, transport_works, storage_is_ready, idle, responses, datas, calls).
Import ROne2(command, data_phase).
Import RSend(object_packets).
Import RSession(resp_out).
Import RRead(packets, transfers).

(** The device at work: the responder [s] is idle in a session, the storage is in the
    reachable state [w], the transport delivers and nobody cancels. *)
Record at_work (C : conf) (rest : list (act * ans) -> act -> ans) (s : rstate) (w : fs) : Prop := mk_at_work {
  aw_supply : supply_ok C;
  aw_reach : reachable C w;
  aw_quiet : undisturbed rest;
  aw_transport : transport_works rest;
  aw_ready : storage_is_ready rest;
  aw_idle : idle s;
  aw_session : r_session s <> 0 }.
(** nothing in the storage changed *)
Definition storage_kept (C : conf) (fuel : nat) (s s' : rstate) (w : fs) : Prop :=
  exists w', state_after C fuel (length (r_log s)) w (r_log s') = Ret w' /\ reachable C w' /\
    (forall x, look w' x = look w x) /\ forall y, content w' y = content w y.

(** ** C82 *)
Theorem C82_get_object : forall C fuel rest formats cat props_by_type prop_desc s w tid h c,
  at_work C rest s w -> works C -> holds_file w h c -> len c <= 0xFFFFFFFF - 12 ->
  tid <> 0 -> tid < 0xFFFFFFFF -> h < 2^32 ->
  exists s' l, Responder.step (device C fuel rest (length (r_log s)) w) formats cat props_by_type prop_desc (command OP_GetObject tid [h]) s = Ret (tt, s') /\
    r_st s' = Responder.IDLE /\ r_log s' = l ++ r_log s /\
    transfers OP_GetObject tid c (packets l) /\ responses l = [resp_out R_OK tid []] /\ storage_kept C fuel s s' w.
Proof.
  intros C fuel rest formats cat pt pd s w tid h c [SO R Q T RD ID SE] WK (v & o & HL & HC & HI & HS & HF) LE T1 T2 Hh.
  assert (L63 : len c < 2^63) by (change (2^63) with 9223372036854775808; lia).
  set (n := length (r_log s)). set (D := device C fuel rest n w).
  destruct (P_Read.C29_whole_object_partial (guarded D (stub o c) n) formats cat pt pd s tid h c
    (E_undisturbed C fuel rest n w c o Q) (E_transport C fuel rest n w c o T) (E_ready C fuel rest n w c o RD)
    (E_serves C fuel rest SO WK n w h c R L63 v o HL HC HI HS HF) LE ID SE T1 T2 Hh) as (s' & l & S1 & S2 & S3 & S4 & S5 & S6).
  exists s', l. apply inside_asks in S4. apply step_run in S1. apply (guarded_run D _ n _ _ _ _ _ _ _ l eq_refl S1 S3) in S4 as S7. apply step_run in S7.
  split; [exact S7|]. split; [exact S2|]. split; [exact S3|]. split; [exact S5|]. split; [exact S6|].
  destruct (asks_after C fuel SO n w (r_log s) l R eq_refl S4) as (w' & A & B1 & B2 & B3 & _). exists w'. rewrite S3. auto.
Qed.
(** any part of the object: 32 and 64 bit offsets *)
Theorem C82_get_partial_object : forall C fuel rest formats cat props_by_type prop_desc s w tid h c off n,
  at_work C rest s w -> works C -> holds_file w h c -> len c < 2^63 ->
  tid <> 0 -> tid < 0xFFFFFFFF -> h < 2^32 -> off < 2^32 -> n < 2^32 ->
  exists s' l, Responder.step (device C fuel rest (length (r_log s)) w) formats cat props_by_type prop_desc (command OP_GetPartialObject tid [h; off; n]) s = Ret (tt, s') /\
    r_st s' = Responder.IDLE /\ r_log s' = l ++ r_log s /\ storage_kept C fuel s s' w /\
    if len c <? off
    then packets l = [] /\ responses l = [resp_out Responder.R_InvalidParameter tid []]
    else let count := N.min n (len c - off) in
         transfers OP_GetPartialObject tid (take n (drop off c)) (packets l) /\
         responses l = [resp_out R_OK tid [if 0xFFFFFFFF - 12 <? count then 0xFFFFFFFF else count]].
Proof.
  intros C fuel rest formats cat pt pd s w tid h c off n [SO R Q T RD ID SE] WK (v & o & HL & HC & HI & HS & HF) L63 T1 T2 Hh Ho Hn.
  set (m := length (r_log s)). set (D := device C fuel rest m w).
  destruct (P_Read.C28_partial_object (guarded D (stub o c) m) formats cat pt pd s tid h off n c
    (E_undisturbed C fuel rest m w c o Q) (E_transport C fuel rest m w c o T) (E_ready C fuel rest m w c o RD)
    (E_serves C fuel rest SO WK m w h c R L63 v o HL HC HI HS HF) L63 ID SE T1 T2 Hh Ho Hn) as (s' & l & S1 & S2 & S3 & S4 & S5).
  exists s', l. apply inside_asks in S4. apply step_run in S1. apply (guarded_run D _ m _ _ _ _ _ _ _ l eq_refl S1 S3) in S4 as S7. apply step_run in S7.
  split; [exact S7|]. split; [exact S2|]. split; [exact S3|]. split; [|exact S5].
  destruct (asks_after C fuel SO m w (r_log s) l R eq_refl S4) as (w' & A & B1 & B2 & B3 & _). exists w'. rewrite S3. auto.
Qed.
Theorem C82_get_partial_object64 : forall C fuel rest formats cat props_by_type prop_desc s w tid h c lo hi n,
  at_work C rest s w -> works C -> holds_file w h c -> len c < 2^63 ->
  tid <> 0 -> tid < 0xFFFFFFFF -> h < 2^32 -> lo < 2^32 -> hi < 2^32 -> n < 2^32 ->
  let off := hi * 2^32 + lo in
  exists s' l, Responder.step (device C fuel rest (length (r_log s)) w) formats cat props_by_type prop_desc (command OP_GetPartialObject64 tid [h; lo; hi; n]) s = Ret (tt, s') /\
    r_st s' = Responder.IDLE /\ r_log s' = l ++ r_log s /\ storage_kept C fuel s s' w /\
    if len c <? off
    then packets l = [] /\ responses l = [resp_out Responder.R_InvalidParameter tid []]
    else transfers OP_GetPartialObject64 tid (take n (drop off c)) (packets l) /\ responses l = [resp_out R_OK tid []].
Proof.
  intros C fuel rest formats cat pt pd s w tid h c lo hi n [SO R Q T RD ID SE] WK (v & o & HL & HC & HI & HS & HF) L63 T1 T2 Hh Ho Hhi Hn off.
  set (m := length (r_log s)). set (D := device C fuel rest m w).
  destruct (P_Read.C28_partial_object64 (guarded D (stub o c) m) formats cat pt pd s tid h lo hi n c
    (E_undisturbed C fuel rest m w c o Q) (E_transport C fuel rest m w c o T) (E_ready C fuel rest m w c o RD)
    (E_serves C fuel rest SO WK m w h c R L63 v o HL HC HI HS HF) L63 ID SE T1 T2 Hh Ho Hhi Hn) as (s' & l & S1 & S2 & S3 & S4 & S5).
  exists s', l. apply inside_asks in S4. apply step_run in S1. apply (guarded_run D _ m _ _ _ _ _ _ _ l eq_refl S1 S3) in S4 as S7. apply step_run in S7.
  split; [exact S7|]. split; [exact S2|]. split; [exact S3|]. split; [|exact S5].
  destruct (asks_after C fuel SO m w (r_log s) l R eq_refl S4) as (w' & A & B1 & B2 & B3 & _). exists w'. rewrite S3. auto.
Qed.
(** the file /s/a/b of the demonstration disk, read whole: the hypotheses hold, and
    the five bytes arrive *)
Definition calm : list (act * ans) -> act -> ans := fun _ _ => Responder.mk_ans R_OK [] [] no_info [] None [] true [].
Lemma calm_ok : undisturbed calm /\ transport_works calm /\ storage_is_ready calm.
Proof. repeat split. Qed.
Lemma demo_at_work : at_work FSDemo.quiet calm RDemo.in_session (demo_start FSDemo.quiet).
Proof. split; [apply demo_supply|apply demo_reachable|apply calm_ok..|left; reflexivity|discriminate]. Qed.
Example C82_holds : holds_file (demo_start FSDemo.quiet) 12 [1; 2; 3; 4; 5] /\ works FSDemo.quiet.
Proof.
  split; [|split; [reflexivity|discriminate]].
  eexists. eexists. split; [vm_compute; reflexivity|]. split; [vm_compute; reflexivity|]. split; [vm_compute; reflexivity|]. split; [reflexivity|discriminate].
Qed.
Example C82_example : exists s', Responder.step (device FSDemo.quiet 5 calm 0 (demo_start FSDemo.quiet)) [] RDemo.cat0 RDemo.props0 RDemo.desc0 (command OP_GetObject 5 [12]) RDemo.in_session = Ret (tt, s') /\
  map P_Read.payload_len (packets (r_log s')) = [(5, true)] /\ responses (r_log s') = [resp_out R_OK 5 []].
Proof. eexists. split; [vm_compute; reflexivity|]. split; vm_compute; reflexivity. Qed.

(** ** C83 *)
Lemma send_content : forall C fuel rest formats cat props_by_type prop_desc s w tid ps h v old i hdr bodies,
  at_work C rest s w -> works C -> look w h = Some v -> content w (v_path v) = Some (File old) ->
  Responder.r_pl s = None -> Responder.r_seq s = Some (Responder.mk_ss i h 0) -> oi_size i = len (concat bodies) -> len (concat bodies) < 2^32 ->
  bodies <> [] -> Forall (fun b => 0 < len b) (tl bodies) -> (forall b, In b bodies -> len b < 2^31) -> len hdr = 12 ->
  RSpec.command_ok OP_SendObject tid ps -> tid <> 0 -> tid <> 0xFFFFFFFF ->
  exists s' l w', Responder.run (device C fuel rest (length (r_log s)) w) formats cat props_by_type prop_desc (command OP_SendObject tid ps :: data_phase (object_packets hdr bodies)) s = Ret (tt, s') /\
    r_st s' = Responder.IDLE /\ r_session s' = r_session s /\ r_log s' = l ++ r_log s /\ datas l = [] /\ responses l = [resp_out R_OK tid []] /\
    state_after C fuel (length (r_log s)) w (r_log s') = Ret w' /\ reachable C w' /\ (forall x, look w' x = look w x) /\
    content w' (v_path v) = Some (File (concat bodies)) /\ (forall y, y <> v_path v -> content w' y = content w y) /\
    Usb.resets (r_log s') = Usb.resets (r_log s).
Proof.
  intros C fuel rest formats cat pt pd s w tid ps h v old i hdr bodies [SO R Q T RD ID SE] WK HL HC PL SQ SZ LT NE NZ LB HD CO T1 T2.
  assert (LB' : forall b, In b bodies -> len b < 0x80000000) by (intros b I; exact (LB b I)).
  set (n := length (r_log s)).
  assert (HA : RSend.announced s h (len (concat bodies)) 0) by (eapply RSend.by_info; eassumption).
  assert (WR : forall b, In b bodies -> RSend.code_of_write (boast C fuel rest w n) h b R_OK) by (intros b I hist f g; reflexivity).
  assert (TOT : forall pre b post, bodies = pre ++ b :: post -> post <> [] -> RSend.total (pre ++ [b]) < len (concat bodies)).
  { rewrite <- P_Send.total_len. intros pre b post -> Hp. rewrite !P_Send.total_app. cbn [RSend.total]. destruct post as [|x post]; [contradiction|].
    assert (0 < len x). { rewrite Forall_forall in NZ. apply NZ. destruct pre; cbn; [left; reflexivity|]. apply in_or_app. right; right; left; reflexivity. }
    cbn [RSend.total]. lia. }
  destruct (RSend.send_object_ok (boast C fuel rest w n) formats cat pt pd (boast_undisturbed C fuel rest w n Q) s tid ps h (len (concat bodies)) hdr bodies ID CO (boast_ready C fuel rest w n RD) SE T1 T2 HA NE HD)
    as (s' & l & E1 & E2 & E3 & E4 & E5 & E6 & E7 & E8).
  { exact WR. }
  { exact TOT. }
  { left. rewrite P_Send.total_len. exact LT. }
  pose proof (UsbSend.send_no_reset (boast C fuel rest w n) formats cat pt pd s tid ps h (len (concat bodies)) hdr bodies s' ID CO (boast_ready C fuel rest w n RD) SE T1 T2 HA NE HD WR TOT E1) as RES.
  rewrite P_Send.total_len, N.ltb_irrefl in E8. destruct E8 as (K1 & cs & K2 & K3).
  assert (CS : cs = [Responder.SWrite h None false true]) by (destruct K2 as [[_ K2]|[K2 _]]; [exact K2|congruence]). subst cs.
  destruct (sent_state C fuel SO WK w h v old R HL HC n (r_log s) l bodies eq_refl NE LB' K3) as (w' & A & G).
  exists s', l, w'. split.
  { apply (RExt.run_same _ _ _ _ _ _ _ _ _ E1). intros pre a x l1 EQ LE X.
    destruct a as [[]| | | | |]; try (symmetry; exact X). destruct data as [b|]; [|symmetry; exact X].
    assert (exists d2 d1, l1 = d2 ++ r_log s /\ l = d1 ++ (Responder.ACall (Responder.SWrite h0 (Some b) first last), x) :: d2) as (d2 & d1 & -> & EL).
    { rewrite E2 in EQ. clear -EQ LE. revert pre EQ. induction l as [|e l IH]; intros pre EQ.
      - cbn [app] in EQ. rewrite EQ in LE. rewrite app_length in LE. cbn [length] in LE. lia.
      - destruct pre as [|e1 pre]; cbn [app] in EQ.
        + injection EQ as -> <-. exists l, []. auto.
        + injection EQ as <- EQ. destruct (IH pre EQ) as (d2 & d1 & A & B). exists d2, (e :: d1). split; [exact A|]. cbn [app]. congruence. }
    rewrite EL, RSend.changed_app, changed_cons in K3. cbn [RSpec.changes] in K3. rewrite <- app_assoc in K3. cbn [app] in K3. symmetry in K3.
    destruct (chunk_split h true bodies _ _ _ K3 NE) as [_ [(y & g & EY & _)|(EY & _)]]; [|discriminate]. injection EY as -> _ _ _.
    rewrite X. symmetry. eapply (boast_true C fuel rest SO WK w h v old R HL HC n (r_log s) d2 bodies); [reflexivity|exact NE|exact LB'|exact K3]. }
  split; [exact E3|]. split; [exact E6|]. split; [exact E2|]. split; [exact E7|]. split; [exact K1|]. rewrite E2. split; [exact A|].
  destruct G as (G1 & G2 & G3 & G4). split; [exact G1|]. split; [exact G2|]. split; [|split; [exact G3|rewrite <- E2; exact RES]].
  rewrite K3 in G4. cbv zeta in G4. rewrite closed_app, orb_true_r in G4. destruct G4 as [G4 _]. rewrite G4, P_Send.content_app. cbn [P_Send.content_written].
  rewrite app_nil_r, (proj1 (P_Send.content_chunks h bodies true)). reflexivity.
Qed.

(** The initiator has announced (SendObjectInfo) object [h] with the size of the
    content it now sends, in whatever packets: the file then holds exactly these bytes,
    no other file and no object's description is touched, and the response is OK. *)
Theorem C83_send_object : forall C fuel rest formats cat props_by_type prop_desc s w tid ps h v old i hdr bodies,
  at_work C rest s w -> works C -> look w h = Some v -> content w (v_path v) = Some (File old) ->
  Responder.r_pl s = None -> Responder.r_seq s = Some (Responder.mk_ss i h 0) -> oi_size i = len (concat bodies) -> len (concat bodies) < 2^32 ->
  bodies <> [] -> Forall (fun b => 0 < len b) (tl bodies) -> (forall b, In b bodies -> len b < 2^31) -> len hdr = 12 ->
  RSpec.command_ok OP_SendObject tid ps -> tid <> 0 -> tid <> 0xFFFFFFFF ->
  exists s' l w', Responder.run (device C fuel rest (length (r_log s)) w) formats cat props_by_type prop_desc (command OP_SendObject tid ps :: data_phase (object_packets hdr bodies)) s = Ret (tt, s') /\
    r_st s' = Responder.IDLE /\ r_session s' = r_session s /\ r_log s' = l ++ r_log s /\ datas l = [] /\ responses l = [resp_out R_OK tid []] /\
    state_after C fuel (length (r_log s)) w (r_log s') = Ret w' /\ reachable C w' /\ (forall x, look w' x = look w x) /\
    content w' (v_path v) = Some (File (concat bodies)) /\ (forall y, y <> v_path v -> content w' y = content w y).
Proof.
  intros C fuel rest formats cat pt pd s w tid ps h v old i hdr bodies. intros.
  destruct (send_content C fuel rest formats cat pt pd s w tid ps h v old i hdr bodies) as (s' & l & w' & K); try assumption. exists s', l, w'. intuition.
Qed.

(** Announcing an object: SendObjectInfo with the dataset [o], cut into any packets.
    [add_item .. = Ret ..] only says that the storage model's recursion bound suffices.
    If the storage can create it, the response names a handle under which the object is
    now listed, in the requested folder, under the requested name, every other object
    being as before; and if no object had that place, it is a new one of the announced
    format and size, with a file (if it is not a folder). *)
Theorem C83_announce : forall C fuel rest formats cat props_by_type prop_desc s w tid st parent o p1 more res w',
  at_work C rest s w -> st = 0 \/ st = STORAGE ->
  WireSpec.objinfo_ok o -> oi_size o < 0xFFFFFFFF -> plain (oi_name o) -> 4 <= len p1 ->
  p1 ++ concat more = WireSpec.spec_header (12 + len (WireSpec.spec_objinfo o)) 2 OP_SendObjectInfo tid ++ WireSpec.spec_objinfo o ->
  RSpec.command_ok OP_SendObjectInfo tid [st; parent] -> tid <> 0 -> tid <> 0xFFFFFFFF ->
  add_item C fuel (Responder.with_parent o parent) w = Ret (res, w') ->
  exists s' l, Responder.run (device C fuel rest (length (r_log s)) w) formats cat props_by_type prop_desc (command OP_SendObjectInfo tid [st; parent] :: data_phase (p1 :: more)) s = Ret (tt, s') /\
    r_st s' = Responder.IDLE /\ r_session s' = r_session s /\ r_log s' = l ++ r_log s /\ datas l = [] /\
    state_after C fuel (length (r_log s)) w (r_log s') = Ret w' /\ reachable C w' /\ (forall x u, look w x = Some u -> look w' x = Some u) /\
    match snd res with
    | Some (h, q) => q = (if parent =? Responder.ALL then 0 else parent) /\ responses l = [P_SendInfo.answer R_OK tid [STORAGE; q; h]] /\
        Responder.r_pl s' = None /\ Responder.r_seq s' = Some (Responder.mk_ss (Responder.with_parent o parent) h 0) /\
        exists v pv, look w' h = Some v /\ v_parent v = Some q /\ look w' q = Some pv /\ v_path v = join (v_path pv) (oi_name o) /\
          ((forall x u, look w x = Some u -> v_path u <> v_path v) -> look w h = None /\
             exists i, v_info v = Some i /\ oi_format i = oi_format o /\ oi_size i = oi_size o /\ oi_name i = oi_name o /\
               (oi_format o <> FMT_Association -> exists d, content w' (v_path v) = Some (File d)))
    | None => fst res <> R_OK /\ responses l = [P_SendInfo.answer (fst res) tid []]
    end.
Proof.
  intros C fuel rest formats cat pt pd s w tid st parent o p1 more res w' [SO R Q T RD ID SE] ST OK SZ PL H4 HP CO T1 T2 EA.
  set (n := length (r_log s)). set (D := device C fuel rest n w).
  destruct (P_SendInfo.info_request D formats cat pt pd s tid st parent o p1 more (device_undisturbed C fuel rest n w Q) (device_ready C fuel rest n w RD) ID CO SE T1 T2 OK SZ H4 HP) as (s' & n1 & n2 & ra & K).
  cbv zeta in K. set (sent := Responder.with_parent o parent) in *.
  pose proof (noise_after C fuel n w (r_log s) n1 eq_refl) as NA.
  destruct (add_new C SO w fuel sent res w' R PL EA) as (R' & KEEP & A).
  set (rep := reply (fst res) (match snd res with Some (h, q) => [STORAGE; q; h] | None => [STORAGE; parent; 0] end) [] no_info).
  assert (ANS : exists y, Responder.a_code (D (n1 ++ r_log s) (Responder.ACall (Responder.SAddItem st parent sent))) = fst res /\
      (forall k, Responder.a_num (D (n1 ++ r_log s) (Responder.ACall (Responder.SAddItem st parent sent))) k = Responder.a_num rep k) /\ storage C fuel (Responder.SAddItem st parent sent) = Some y /\ y w = Ret (rep, w')).
  { cbn [storage]. eexists. assert (Y : forall y, storage C fuel (Responder.SAddItem st parent sent) = Some y -> y w = Ret (rep, w')).
    { intros y [= <-]. cbv zeta. replace (if st =? 0 then STORAGE else st) with STORAGE by (destruct ST as [->| ->]; reflexivity). change (STORAGE =? STORAGE) with true. cbv iota. unfold tell. rewrite EA. reflexivity. }
    destruct K as (_ & _ & N1 & _). unfold D. rewrite (device_call C fuel rest n w (n1 ++ r_log s) (Responder.SAddItem st parent sent) _ w rep w' eq_refl (NA N1) (Y _ eq_refl)).
    split; [reflexivity|]. split; [intros k; reflexivity|]. split; [reflexivity|exact (Y _ eq_refl)]. }
  destruct ANS as (y & AC & AN & ES & EY). set (a := D _ _) in *. destruct K as (E & L & N1 & N2 & IDL & SES & PLN & SQ).
  set (out := if Responder.a_code a =? Responder.R_OK then P_SendInfo.answer Responder.R_OK tid [Responder.a_num a 0; Responder.a_num a 1; Responder.a_num a 2] else P_SendInfo.answer (Responder.a_code a) tid []) in *.
  exists s', (n2 ++ (Responder.ASend out true, ra) :: (Responder.ACall (Responder.SAddItem st parent sent), a) :: n1).
  split; [exact E|]. split; [exact IDL|]. split; [exact SES|]. split; [rewrite L, <- app_assoc; reflexivity|].
  destruct (RSend2.one_response n2 out ra ((Responder.ACall (Responder.SAddItem st parent sent), a) :: n1) N2) as [[B1 B2] _].
  { unfold out. destruct (_ =? _); reflexivity. } { cbn. apply RExec.noise_responses, N1. } { cbn. apply RExec.noise_datas, N1. }
  split; [exact B2|]. split.
  { rewrite L. assert (Z : state_after C fuel n w ((Responder.ASend out true, ra) :: (Responder.ACall (Responder.SAddItem st parent sent), a) :: n1 ++ r_log s) = Ret w').
    { pose proof (after_cons C fuel n w (r_log s) eq_refl (Responder.ASend out true, ra) ((Responder.ACall (Responder.SAddItem st parent sent), a) :: n1)) as Z1. cbn [app] in Z1. rewrite Z1.
      rewrite (after_cons C fuel n w (r_log s) eq_refl _ n1), (NA N1), ES, EY. reflexivity. }
    erewrite (after_more C fuel n w _ w' n2); [|cbn [length]; rewrite app_length; unfold n; lia|exact Z]. apply noise_after; [reflexivity|exact N2]. }
  split; [exact R'|]. split; [exact KEEP|]. rewrite B1. unfold out. destruct (snd res) as [[h q]|] eqn:SR.
  - destruct A as (FO & QE & v & pv & V). split; [exact QE|]. rewrite AC, FO in *. change (R_OK =? Responder.R_OK) with true in *. cbv iota in *. rewrite !AN in *. unfold rep in *. rewrite ?SR in *.
    split; [reflexivity|]. split; [exact PLN|]. split; [exact SQ|]. exists v, pv. exact V.
  - split; [exact A|]. rewrite AC. replace (fst res =? Responder.R_OK) with false by (symmetry; apply N.eqb_neq; exact A). reflexivity.
Qed.

(** ** C84 *)
(** Store and read back: SendObjectInfo, SendObject and GetObject of the handle the
    device chose.  The bytes that come back are the bytes sent. *)
Theorem C84_round_trip : forall C fuel rest formats cat props_by_type prop_desc s w t1 t2 t3 st parent o p1 more hdr bodies h q w1 pv,
  at_work C rest s w -> works C -> st = 0 \/ st = STORAGE ->
  (* the dataset of a file of the size of the content, with a name that is not taken in the folder *)
  WireSpec.objinfo_ok o -> oi_format o <> FMT_Association -> oi_size o = len (concat bodies) -> len (concat bodies) <= 0xFFFFFFFF - 12 -> plain (oi_name o) ->
  look w q = Some pv -> (forall x u, look w x = Some u -> v_path u <> join (v_path pv) (oi_name o)) ->
  (* its packets, and those of the content *)
  4 <= len p1 -> p1 ++ concat more = WireSpec.spec_header (12 + len (WireSpec.spec_objinfo o)) 2 OP_SendObjectInfo t1 ++ WireSpec.spec_objinfo o ->
  bodies <> [] -> Forall (fun b => 0 < len b) (tl bodies) -> (forall b, In b bodies -> len b < 2^31) -> len hdr = 12 ->
  RSpec.command_ok OP_SendObjectInfo t1 [st; parent] -> RSpec.command_ok OP_SendObject t2 [] -> t1 <> 0 -> t1 <> 0xFFFFFFFF -> t2 <> 0 -> t2 <> 0xFFFFFFFF -> t3 <> 0 -> t3 < 0xFFFFFFFF ->
  (* the storage creates it as [h] *)
  add_item C fuel (Responder.with_parent o parent) w = Ret ((R_OK, Some (h, q)), w1) -> h < 2^32 ->
  exists s' l1 l2 l3 w' v, Responder.run (device C fuel rest (length (r_log s)) w) formats cat props_by_type prop_desc
      ((command OP_SendObjectInfo t1 [st; parent] :: data_phase (p1 :: more)) ++ (command OP_SendObject t2 [] :: data_phase (object_packets hdr bodies)) ++ [command OP_GetObject t3 [h]]) s = Ret (tt, s') /\
    r_st s' = Responder.IDLE /\ r_log s' = l3 ++ l2 ++ l1 ++ r_log s /\
    datas l1 = [] /\ responses l1 = [P_SendInfo.answer R_OK t1 [STORAGE; q; h]] /\
    datas l2 = [] /\ responses l2 = [resp_out R_OK t2 []] /\
    transfers OP_GetObject t3 (concat bodies) (packets l3) /\ responses l3 = [resp_out R_OK t3 []] /\
    state_after C fuel (length (r_log s)) w (r_log s') = Ret w' /\ reachable C w' /\
    look w h = None /\ look w' h = Some v /\ v_parent v = Some q /\ v_path v = join (v_path pv) (oi_name o) /\ content w' (v_path v) = Some (File (concat bodies)) /\
    (forall x u, look w x = Some u -> look w' x = Some u).
Proof.
  intros C fuel rest formats cat pt pd s w t1 t2 t3 st parent o p1 more hdr bodies h q w1 pv AW WK ST OK NF SZ LE PL LQ FREE H4 HP NE NZ LB HD CO1 CO2 T1 T1' T2 T2' T3 T3' EA Hh.
  set (n := length (r_log s)).
  destruct (C83_announce C fuel rest formats cat pt pd s w t1 st parent o p1 more _ w1 AW ST OK ltac:(lia) PL H4 HP CO1 T1 T1' EA) as (s1 & l1 & E1 & I1 & SE1 & L1 & D1 & A1 & R1 & KEEP & K). cbn [snd] in K.
  destruct K as (QE & RS1 & PLN & SQ & v & pv' & V1 & V2 & V3 & V4 & V5). assert (pv' = pv) by (pose proof (KEEP q pv LQ); congruence). subst pv'.
  destruct V5 as (NEW & i & VI & VF & VS & VN & VC); [intros x u X; rewrite V4; exact (FREE x u X)|]. destruct (VC NF) as (d0 & VD).
  destruct AW as [SO R Q T RD ID SE]. assert (AW1 : at_work C rest s1 w1) by (split; try assumption; [left; exact I1|congruence]).
  assert (SZ2 : oi_size (Responder.with_parent o parent) = len (concat bodies)) by exact SZ.
  destruct (C83_send_object C fuel rest formats cat pt pd s1 w1 t2 [] h v d0 (Responder.with_parent o parent) hdr bodies AW1 WK V1 VD PLN SQ SZ2 ltac:(change (2^32) with 4294967296; lia) NE NZ LB HD CO2 T2 T2')
    as (s2 & l2 & w2 & E2 & I2 & SE2 & L2 & D2 & RS2 & A2 & R2 & LK2 & VC2 & O2).
  assert (AW2 : at_work C rest s2 w2) by (split; try assumption; [left; exact I2|congruence]).
  assert (HF : holds_file w2 h (concat bodies)) by (exists v, i; rewrite LK2; split; [exact V1|]; split; [exact VC2|]; split; [exact VI|]; split; congruence).
  destruct (C82_get_object C fuel rest formats cat pt pd s2 w2 t3 h (concat bodies) AW2 WK HF LE T3 T3' Hh) as (s3 & l3 & E3 & I3 & L3 & TR & RS3 & w3 & A3 & R3 & LK3 & C3).
  apply step_run in E3.
  assert (N1 : (n <= length (r_log s1))%nat) by (rewrite L1, app_length; unfold n; lia). assert (N2 : (length (r_log s1) <= length (r_log s2))%nat) by (rewrite L2, app_length; lia).
  assert (A2' : state_after C fuel n w (r_log s2) = Ret w2) by (rewrite L2 in *; rewrite (after_more C fuel n w (r_log s1) w1 l2 N1 A1); exact A2).
  exists s3, l1, l2, l3, w3, v. split.
  { rewrite (run_app _ _ _ _ _ _ _ s s1 E1). rewrite (run_app _ _ _ _ _ _ _ s1 s2 (run_more C fuel rest n w _ _ _ _ _ s1 s2 w1 N1 A1 E2)). exact (run_more C fuel rest n w _ _ _ _ _ s2 s3 w2 ltac:(lia) A2' E3). }
  split; [exact I3|]. split; [rewrite L3, L2, L1; reflexivity|]. split; [exact D1|]. split; [exact RS1|]. split; [exact D2|]. split; [exact RS2|]. split; [exact TR|]. split; [exact RS3|].
  split. { rewrite L3 in *. rewrite (after_more C fuel n w (r_log s2) w2 l3 ltac:(lia) A2'). exact A3. }
  split; [exact R3|]. split; [exact NEW|]. split; [rewrite LK3, LK2; exact V1|]. split; [exact V2|]. split; [exact V4|]. split; [rewrite C3; exact VC2|].
  intros x u X. rewrite LK3, LK2. apply KEEP. exact X.
Qed.
(** a concrete case: [5; 6; 7] as /s/n, from the demonstration disk *)
Definition ex_o : objinfo := mk_objinfo 0 0x3000 0 3 0 0 0 0 0 0 0 0 0 0 0 [110] [] [] [].
Example C84_hypotheses : WireSpec.objinfo_ok ex_o /\ plain (oi_name ex_o) /\ RSpec.command_ok OP_SendObjectInfo 1 [0; 0] /\ RSpec.command_ok OP_SendObject 2 [] /\
  exists w1 h pv, add_item FSDemo.quiet 5 (Responder.with_parent ex_o 0) (demo_start FSDemo.quiet) = Ret ((R_OK, Some (h, 0)), w1) /\ h < 2^32 /\
    look (demo_start FSDemo.quiet) 0 = Some pv /\ forall x u, look (demo_start FSDemo.quiet) x = Some u -> v_path u <> join (v_path pv) (oi_name ex_o).
Proof.
  split. { assert (S0 : WireSpec.str_ok []) by (constructor; [constructor|cbn; lia|discriminate]). split; try reflexivity; try exact S0.
    constructor; [repeat (constructor; [lia|]); constructor|cbn; lia|]. intros c r E. injection E as <- _. split; discriminate. }
  split. { split; [reflexivity|]. intros [Z|[]]; discriminate. }
  split. { split; [reflexivity|]. split; [reflexivity|]. split; [discriminate|]. repeat constructor; reflexivity. }
  split. { split; [reflexivity|]. split; [reflexivity|]. split; [discriminate|]. constructor. }
  eexists. eexists. eexists. split; [vm_compute; reflexivity|]. split; [reflexivity|]. split; [vm_compute; reflexivity|].
  intros x u L. destruct (reachable_good FSDemo.quiet (demo_start FSDemo.quiet) ltac:(apply demo_supply) demo_reachable) as (r & [[ch W] _]). destruct (look_inv _ _ ch r W x u L) as (p & i & A & B & D & ->). cbn [v_path view_of].
  destruct (W_live _ _ _ _ _ W p i B ltac:(discriminate)) as [_ P]. intros E. rewrite E in P. vm_compute in P. discriminate P.
Qed.
Example C84_example : exists s', Responder.run (device FSDemo.quiet 5 calm 0 (demo_start FSDemo.quiet)) [] RDemo.cat0 RDemo.props0 RDemo.desc0
    ((command OP_SendObjectInfo 1 [0; 0] :: data_phase [WireSpec.spec_header (12 + len (WireSpec.spec_objinfo ex_o)) 2 OP_SendObjectInfo 1; WireSpec.spec_objinfo ex_o]) ++
     (command OP_SendObject 2 [] :: data_phase (object_packets P_Send.hdr12 [[5]; [6; 7]])) ++ [command OP_GetObject 3 [24]]) RDemo.in_session = Ret (tt, s') /\
  map Responder.o_code (responses (r_log s')) = [R_OK; R_OK; R_OK] /\ map P_Read.payload_len (packets (r_log s')) = [(3, true)].
Proof. eexists. split; [vm_compute; reflexivity|]. split; vm_compute; reflexivity. Qed.

Print Assumptions C82_get_object.
Print Assumptions C82_get_partial_object.
Print Assumptions C82_get_partial_object64.
Print Assumptions C83_send_object.
Print Assumptions C83_announce.
Print Assumptions C84_round_trip.
