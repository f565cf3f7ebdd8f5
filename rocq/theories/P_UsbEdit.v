(** C92: content written into the middle of an object, over USB. *)
From Verif Require Import Base Wire WireSpec WireProofs WireProofs2 Framing FramingProofs P_Framing Responder RSpec RLogic ROne2 RExec RSend RSend2 RColl RDemo RSession Usb UsbProofs UsbReset UsbWhole UsbSend P_Usb.
From Verif Require AList FS FSData2 FSSpec FSReach FSDemo Device DeviceProofs P_Device P_Edit P_DevList.

(** Whatever becomes of the writes, the responder takes packets until the last one. *)
Lemma partial_waits env formats cat pt pd q s data first s' : waiting q s -> q_code q = OP_SendPartialObject64 ->
  step env formats cat pt pd (IRecv data first false) s = Ret (tt, s') -> waiting q s'.
Proof.
  intros [Hst Hrq] Hc E. assert (X : step env formats cat pt pd (IRecv data first false) s = data_handler env cat pd q data first false s).
  { cbn [Responder.step]. unfold receive, bind at 1, get. rewrite Hst. unfold bind at 1. rewrite Hrq. reflexivity. }
  rewrite X in E. unfold data_handler in E. unfold bind at 1, get at 1 in E. rewrite Hc in E. change (pass_through OP_SendPartialObject64) with true in E. cbv iota in E.
  unfold bind at 1, upd at 1 in E. change (negb true && negb false) with false in E. cbv iota in E. unfold bind at 1, get at 1 in E. cbn [r_data set_data] in E.
  unfold bind at 1, ret at 1 in E. cbn [when] in E. destruct (isok (r_resp s)); cbn [negb] in E.
  - change (OP_SendPartialObject64 =? OP_SendObjectInfo) with false in E. change (OP_SendPartialObject64 =? OP_SendObject) with false in E. change (OP_SendPartialObject64 =? OP_SendPartialObject64) with true in E. cbv iota in E.
    unfold d_sendPartial in E. unfold bind at 1 in E. unfold bind at 1, get at 1 in E. cbn [r_edit set_data] in E. destruct (r_edit s) as [[h off]|].
    + destruct (first && (len data <? 12)).
      * unfold ret, bind, upd in E. apply Ret_inj in E. apply (f_equal snd) in E. cbn [snd] in E. subst s'. split; [exact Hst|exact Hrq].
      * cbv zeta in E. unfold call, ask, ret, bind, upd in E. apply Ret_inj in E. apply (f_equal snd) in E. cbn [snd] in E. subst s'. split; [exact Hst|exact Hrq].
    + unfold ret, bind, upd in E. apply Ret_inj in E. apply (f_equal snd) in E. cbn [snd] in E. subst s'. split; [exact Hst|exact Hrq].
  - unfold bind, upd, ret in E. apply Ret_inj in E. apply (f_equal snd) in E. cbn [snd] in E. subst s'. split; [exact Hst|exact Hrq].
Qed.
Lemma partial_more env formats cat pt pd q rest : q_code q = OP_SendPartialObject64 -> forall s s', waiting q s -> run env formats cat pt pd (more_packets rest) s = Ret (tt, s') -> resets (r_log s') = resets (r_log s).
Proof.
  intros Hp. induction rest as [|p rest IH]; intros s s' W E; [unfold more_packets, Responder.run, ret in E; apply Ret_inj in E; congruence|].
  destruct rest as [|p2 rest].
  - cbn [more_packets Responder.run] in E. unfold bind in E. destruct (step env formats cat pt pd (IRecv p false true) s) as [[[] s1]| |] eqn:E1; try discriminate. unfold ret in E. apply Ret_inj in E. apply (f_equal snd) in E. cbn [snd] in E. subst s'. exact (waiting_step _ _ _ _ _ _ _ _ _ _ _ W E1).
  - change (more_packets (p :: p2 :: rest)) with (IRecv p false false :: more_packets (p2 :: rest)) in E. cbn [Responder.run] in E. unfold bind at 1 in E. destruct (step env formats cat pt pd (IRecv p false false) s) as [[[] s1]| |] eqn:E1; try discriminate.
    rewrite (IH s1 s' (partial_waits _ _ _ _ _ _ _ _ _ _ W Hp E1) E). exact (waiting_step _ _ _ _ _ _ _ _ _ _ _ W E1).
Qed.
Lemma partial_quiet env formats cat pt pd q ps s s' : q_code q = OP_SendPartialObject64 -> waiting q s -> run env formats cat pt pd (data_phase ps) s = Ret (tt, s') -> resets (r_log s') = resets (r_log s).
Proof.
  intros Hp W E. destruct ps as [|p [|p2 ps]].
  - unfold data_phase, Responder.run, ret in E. apply Ret_inj in E. congruence.
  - cbn [data_phase Responder.run] in E. unfold bind in E. destruct (step env formats cat pt pd (IRecv p true true) s) as [[[] s1]| |] eqn:E1; try discriminate. unfold ret in E. apply Ret_inj in E. apply (f_equal snd) in E. cbn [snd] in E. subst s'. exact (waiting_step _ _ _ _ _ _ _ _ _ _ _ W E1).
  - change (data_phase (p :: p2 :: ps)) with (IRecv p true false :: more_packets (p2 :: ps)) in E. cbn [Responder.run] in E. unfold bind at 1 in E. destruct (step env formats cat pt pd (IRecv p true false) s) as [[[] s1]| |] eqn:E1; try discriminate.
    rewrite (partial_more _ _ _ _ _ _ _ Hp s1 s' (partial_waits _ _ _ _ _ _ _ _ _ _ W Hp E1) E). exact (waiting_step _ _ _ _ _ _ _ _ _ _ _ W E1).
Qed.

(** ** The property *)
(** SendPartialObject64 on the storage, command and content cut into packets in any way that leaves
    the command and the header of the content whole: one answer; unless [h] is the object being
    edited nothing changes, and if it is its file gets the bytes at the offset - with the answer OK
    all of them - and no other file or object is touched.  Whatever the answer, the transport is not
    reset and the responder is ready for the next request. *)
Theorem C92_send_partial : forall C fuel rest formats cat props_by_type prop_desc s w tid h lo hi n body packets,
  P_Device.at_work C rest s w -> command_ok OP_SendPartialObject64 tid [h; lo; hi; n] -> tid <> 0 -> tid <> 0xFFFFFFFF ->
  12 + len body < 0xFFFFFFFF -> let off := hi * 2^32 + lo in off + len body < 2^64 ->
  concat packets = command_bytes OP_SendPartialObject64 tid [h; lo; hi; n] ++ data_bytes OP_SendPartialObject64 tid body ->
  uncut packets [] (len (command_bytes OP_SendPartialObject64 tid [h; lo; hi; n])) -> uncut packets [command_bytes OP_SendPartialObject64 tid [h; lo; hi; n]] 12 ->
  exists s' c l, usb_packets (Device.device C fuel rest (List.length (r_log s)) w) formats cat props_by_type prop_desc 0 packets s = Some (Ret (0, s')) /\
    r_st s' = IDLE /\ r_session s' = r_session s /\ r_log s' = l ++ r_log s /\ datas l = [] /\ responses l = [resp_out c tid []] /\ resets l = 0 /\
    P_Edit.editing s' = P_Edit.editing s /\
    (P_Edit.not_editing s h c /\ P_Device.storage_kept C fuel s s' w \/
     P_Edit.editing s = Some h /\ (FSSpec.look w h = None -> c = R_InvalidObjectHandle /\ P_Device.storage_kept C fuel s s' w) /\
     forall v, FSSpec.look w h = Some v -> exists w', Device.state_after C fuel (List.length (r_log s)) w (r_log s') = Ret w' /\ FSSpec.reachable C w' /\
       (forall y, y <> FSSpec.v_path v -> FSSpec.content w' y = FSSpec.content w y) /\ (forall x, x <> h -> FSSpec.look w' x = FSSpec.look w x) /\
       (c = R_OK -> exists d d', (FSSpec.content w (FSSpec.v_path v) = Some (FS.File d) \/ FSSpec.content w (FSSpec.v_path v) = None /\ d = []) /\
          FSSpec.content w' (FSSpec.v_path v) = Some (FS.File d') /\ FSSpec.patched d off body d' /\ P_Edit.reports_size w' h (len d')) /\
       (FSSpec.works C -> off + len body < 2^63 -> (exists d, FSSpec.content w (FSSpec.v_path v) = Some (FS.File d)) -> c = R_OK)).
Proof.
  intros C fuel rest formats cat pt pd s w tid h lo hi n body packets AW CO T1 T2 LT off LO EC U1 U2.
  assert (PB : plain_container (data_bytes OP_SendPartialObject64 tid body)) by (apply header_plain; [reflexivity|exact LT]).
  destruct (two_containers packets _ _ (command_plain _ tid _ CO) PB EC U1 12 ltac:(lia)) as (p & r & E1 & E2 & E3 & E4); [destruct PB as [PB _]; lia|exact U2|].
  set (hdr := spec_header (12 + len body) 2 OP_SendPartialObject64 tid). assert (LH : len hdr = 12) by apply spec_header_len.
  assert (EP : p = hdr ++ drop 12 p /\ drop 12 p ++ concat r = body).
  { unfold data_bytes in E1. fold hdr in E1. assert (X : take 12 p = hdr). { rewrite <- (take_prefix p (concat r) 12 E2), E1. rewrite take_prefix by lia. rewrite take_all by lia. reflexivity. }
    rewrite <- (take_drop 12 p) in E1. rewrite X, <- app_assoc in E1. apply app_inv_head in E1. split; [rewrite <- X at 1; symmetry; apply take_drop|exact E1]. }
  destruct EP as [EP EB].
  assert (EO : object_packets hdr (drop 12 p :: r) = p :: r) by (cbn [object_packets]; rewrite <- EP; reflexivity).
  assert (TL : concat (drop 12 p :: r) = body) by exact EB.
  destruct (P_Edit.C87_send_partial C fuel rest formats cat pt pd s w tid h lo hi n hdr (drop 12 p :: r) AW CO T1 T2 LH ltac:(discriminate)) as (s' & c & (l & ER & A1 & A2 & A3 & A4 & A5) & ED & REST).
  { rewrite TL. exact LO. }
  rewrite EO in ER. rewrite TL in REST. set (D := Device.device C fuel rest (List.length (r_log s)) w) in *.
  pose proof AW as [_ _ _ _ _ ID _].
  assert (NR : resets (r_log s') = resets (r_log s)).
  { cbn [Responder.run] in ER. unfold bind at 1 in ER. destruct (step D formats cat pt pd (command OP_SendPartialObject64 tid [h; lo; hi; n]) s) as [[[] s1]| |] eqn:ES; try discriminate.
    assert (CN : resets (r_log s1) = resets (r_log s)) by exact (command_no_reset _ _ _ _ _ s _ tid _ s1 ID CO ES).
    set (q := mk_req OP_SendPartialObject64 tid (pars [h; lo; hi; n])).
    assert (W : waiting q s1).
    { pose proof ES as X. rewrite (receive_idle D formats cat pt pd s _ tid _ ID CO) in X. fold q in X.
      assert (Q : DeviceProofs.device_undisturbed = DeviceProofs.device_undisturbed) by reflexivity. clear Q.
      match type of X with _ ?s0 = _ => pose proof (stays_command D formats cat pt pd WAIT_DATA (or_intror eq_refl) True q (responses (r_log s)) (fun _ => DeviceProofs.device_ready C fuel rest _ w ltac:(destruct AW; assumption)) (or_introl Logic.I) eq_refl s0) as H end.
      specialize (H ltac:(split; [reflexivity|split; [reflexivity|reflexivity]])). rewrite X in H. destruct H as (_ & A & B). split; assumption. }
    rewrite (partial_quiet D formats cat pt pd q _ s1 s' eq_refl W ER). exact CN. }
  exists s', c, l. split; [exact (E4 _ _ _ _ _ _ _ ER NR)|]. split; [exact A1|]. split; [exact A2|]. split; [exact A3|]. split; [exact A4|]. split; [exact A5|].
  split. { rewrite A3 in NR. assert (RA : forall a b, resets (a ++ b) = resets a + resets b). { clear. induction a as [|[x y] a IH]; intros b; [reflexivity|]. destruct x; cbn [resets app]; rewrite ?IH; lia. } rewrite RA in NR. lia. }
  split; [exact ED|]. destruct REST as [REST|(B1 & B2 & B3)]; [left; exact REST|right]. split; [exact B1|]. split; [exact B2|].
  intros v LK. destruct (B3 v LK) as (w' & G1 & G2 & G3 & G4 & _ & G6 & G7). exists w'. auto 10.
Qed.
(** ** The content of an object announced either way *)
(** As C92_send_object, but for an announcement by SendObjectInfo or by SendObjectPropList (where the
    announced properties are set between the content and its end).  (Each property's description has
    that property's code.) *)
Theorem C92_send_announced : forall C fuel rest formats cat props_by_type prop_desc s w tid ps h v old body packets,
  P_Device.at_work C rest s w -> FSSpec.works C -> (forall c p d, snd (prop_desc c p) = Some d -> opd_code d = p) ->
  FSSpec.look w h = Some v -> FSSpec.content w (FSSpec.v_path v) = Some (FS.File old) -> announced s h (len body) 0 -> 12 + len body < 0xFFFFFFFF ->
  command_ok OP_SendObject tid ps -> tid <> 0 -> tid <> 0xFFFFFFFF ->
  concat packets = command_bytes OP_SendObject tid ps ++ data_bytes OP_SendObject tid body -> (forall p, In p packets -> len p < 2^31) ->
  uncut packets [] (len (command_bytes OP_SendObject tid ps)) -> uncut packets [command_bytes OP_SendObject tid ps] 12 ->
  exists s' l w', usb_packets (Device.device C fuel rest (List.length (r_log s)) w) formats cat props_by_type prop_desc 0 packets s = Some (Ret (0, s')) /\
    r_st s' = IDLE /\ r_session s' = r_session s /\ r_log s' = l ++ r_log s /\ datas l = [] /\ responses l = [resp_out R_OK tid []] /\ r_seq s' = None /\ r_pl s' = None /\
    Device.state_after C fuel (List.length (r_log s)) w (r_log s') = Ret w' /\ FSSpec.reachable C w' /\ (forall x, FSSpec.look w' x = FSSpec.look w x) /\
    FSSpec.content w' (FSSpec.v_path v) = Some (FS.File body) /\ (forall y, y <> FSSpec.v_path v -> FSSpec.content w' y = FSSpec.content w y).
Proof.
  intros C fuel rest formats cat pt pd s w tid ps h v old body packets AW WK PD LK HC AN LT CO T1 T2 EC SM U1 U2.
  assert (PB : plain_container (data_bytes OP_SendObject tid body)) by (apply header_plain; [reflexivity|exact LT]).
  destruct (two_containers packets _ _ (command_plain _ tid ps CO) PB EC U1 12 ltac:(lia)) as (p & r & E1 & E2 & E3 & E4); [destruct PB as [PB _]; lia|exact U2|].
  set (hdr := spec_header (12 + len body) 2 OP_SendObject tid). assert (LH : len hdr = 12) by apply spec_header_len.
  assert (EP : p = hdr ++ drop 12 p /\ drop 12 p ++ concat r = body).
  { unfold data_bytes in E1. fold hdr in E1. assert (X : take 12 p = hdr). { rewrite <- (take_prefix p (concat r) 12 E2), E1. rewrite take_prefix by lia. rewrite take_all by lia. reflexivity. }
    rewrite <- (take_drop 12 p) in E1. rewrite X, <- app_assoc in E1. apply app_inv_head in E1. split; [rewrite <- X at 1; symmetry; apply take_drop|exact E1]. }
  destruct EP as [EP EB].
  assert (EO : object_packets hdr (drop 12 p :: r) = p :: r) by (cbn [object_packets]; rewrite <- EP; reflexivity).
  assert (TL : concat (drop 12 p :: r) = body) by exact EB.
  destruct (P_DevList.content_sent C fuel rest formats cat pt pd s w tid ps h v old hdr (drop 12 p :: r)) as (s' & l & w' & A1 & A2 & A3 & A4 & A5 & A6 & A7 & A8 & A9 & A10 & A11 & A12 & A13 & A14 & _); try assumption.
  - rewrite TL. exact AN.
  - discriminate.
  - cbn [tl]. apply Forall_cons_iff in E3 as [_ E3]. eapply Forall_impl; [|exact E3]. intros x [X _]. destruct x; [contradiction|rewrite len_cons; lia].
  - intros b I. assert (Y : exists x, In x (p :: r) /\ len b <= len x). { destruct I as [<-|I]; [exists p; split; [left; reflexivity|rewrite len_drop; lia]|exists b; split; [right; exact I|lia]]. }
    destruct Y as (x & I1 & I2). rewrite Forall_forall in E3. destruct (E3 x I1) as (_ & y & I3 & I4). specialize (SM y I3). lia.
  - rewrite EO in A1. rewrite TL in A12. exists s', l, w'. split; [exact (E4 _ _ _ _ _ _ _ A1 A14)|]. auto 15.
Qed.

(** ** Examples *)
(** three bytes written behind the fourth of /s/a/b, as a stream: BeginEditObject with the next
    command and the header in one packet, the bytes cut in two, the last one together with EndEditObject *)
Definition ex_edit : list bytes :=
  [command_bytes OP_BeginEditObject 5 [12] ++ command_bytes OP_SendPartialObject64 6 [12; 4; 0; 3] ++ spec_header 15 2 OP_SendPartialObject64 6; [9; 8];
   [7] ++ command_bytes OP_EndEditObject 7 [12]].
Example C92_partial_example :
  match usb_packets (Device.device FSDemo.quiet 10 P_Device.calm 0 (FSDemo.demo_start FSDemo.quiet)) [] cat0 props0 desc0 0 ex_edit in_session with
  | Some (Ret (_, s')) => match Device.state_after FSDemo.quiet 10 0 (FSDemo.demo_start FSDemo.quiet) (r_log s') with
    | Ret w' => Some (responses (r_log s'), FSSpec.content w' FSDemo.pB) | _ => None end
  | _ => None end = Some ([resp_out R_OK 7 []; resp_out R_OK 6 []; resp_out R_OK 5 []], Some (FS.File [1;2;3;4;9;8;7])).
Proof. vm_compute. reflexivity. Qed.
(** two bytes for object 12, announced by a property list, command and header together *)
Definition ex_listed : rstate := set_pl (Some (mk_pl 65537 0 2 0x3000 12 0 [])) in_session.
Example C92_announced_example : announced ex_listed 12 2 0 /\
  match usb_packets (Device.device FSDemo.quiet 10 P_Device.calm 0 (FSDemo.demo_start FSDemo.quiet)) [] cat0 props0 desc0 0 ex_send ex_listed with
  | Some (Ret (_, s')) => match Device.state_after FSDemo.quiet 10 0 (FSDemo.demo_start FSDemo.quiet) (r_log s') with
    | Ret w' => Some (responses (r_log s'), FSSpec.content w' FSDemo.pB) | _ => None end
  | _ => None end = Some ([resp_out R_OK 6 []], Some (FS.File [9; 8])).
Proof. split; [eapply by_props; reflexivity|vm_compute; reflexivity]. Qed.
(** and the hypotheses about the packets of the middle request *)
Definition ex_part : list bytes := [command_bytes OP_SendPartialObject64 6 [12; 4; 0; 3] ++ spec_header 15 2 OP_SendPartialObject64 6; [9; 8]; [7]].
Example C92_partial_hypotheses : concat ex_part = command_bytes OP_SendPartialObject64 6 [12; 4; 0; 3] ++ data_bytes OP_SendPartialObject64 6 [9; 8; 7] /\
  uncut ex_part [] (len (command_bytes OP_SendPartialObject64 6 [12; 4; 0; 3])) /\ uncut ex_part [command_bytes OP_SendPartialObject64 6 [12; 4; 0; 3]] 12.
Proof.
  split; [vm_compute; reflexivity|].
  split; apply uncut_by; intros k Hk; cbn [ex_part List.length] in Hk; assert (K : (k = 0 \/ k = 1 \/ k = 2 \/ k = 3)%nat) by lia;
    destruct K as [->|[->|[->| ->]]]; vm_compute; first [left; discriminate|right; discriminate].
Qed.
Print Assumptions C92_send_partial.
Print Assumptions C92_send_announced.
