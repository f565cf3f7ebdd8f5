(** C92: an object too long for the length field, over USB, on the storage. *)
From Verif Require Import Base Wire WireSpec WireProofs2 Responder RSpec RLogic ROne2 RExec RSession RSend RSend2 RDemo RExt P_Send Usb UsbProofs UsbReset UsbBig P_UsbBig UsbSame.
From Verif Require FS FSSpec FSReach FSDemo Device DeviceSend P_Device P_DevList.

(** SendObjectPropList has announced an object of so many bytes that the data container's length
    does not fit its field, for an existing file.  Command and content are written to the bulk pipe
    as in C92_big_object: the file holds exactly the content, every other object and file is as before,
    the one answer is OK, the announcement is used up. *)
Theorem C92_big_device : forall C fuel rest formats cat props_by_type prop_desc s w tid ps p h v old bodies,
  P_Device.at_work C rest s w -> FSSpec.works C -> (forall c q d, snd (prop_desc c q) = Some d -> opd_code d = q) ->
  FSSpec.look w h = Some v -> FSSpec.content w (FSSpec.v_path v) = Some (FS.File old) ->
  r_seq s = None -> r_pl s = Some p -> pl_handle p = h -> pl_size p = len (concat bodies) -> pl_cur p = 0 ->
  0xFFFFFFFF <= 12 + len (concat bodies) -> 12 + len (concat bodies) < 2^64 ->
  bodies <> [] -> Forall (fun b => 0 < len b) (tl bodies) -> (forall b, In b bodies -> len b < 2^31) ->
  command_ok OP_SendObject tid ps -> tid <> 0 -> tid <> 0xFFFFFFFF ->
  exists s' l w', usb_packets (Device.device C fuel rest (List.length (r_log s)) w) formats cat props_by_type prop_desc 0
      (command_bytes OP_SendObject tid ps :: object_packets (spec_header 0xFFFFFFFF 2 OP_SendObject tid) bodies) s = Some (Ret (0, s')) /\
    r_st s' = IDLE /\ r_session s' = r_session s /\ r_log s' = l ++ r_log s /\ datas l = [] /\ responses l = [resp_out R_OK tid []] /\ r_seq s' = None /\ r_pl s' = None /\
    Device.state_after C fuel (List.length (r_log s)) w (r_log s') = Ret w' /\ FSSpec.reachable C w' /\ (forall x, FSSpec.look w' x = FSSpec.look w x) /\
    FSSpec.content w' (FSSpec.v_path v) = Some (FS.File (concat bodies)) /\ (forall y, y <> FSSpec.v_path v -> FSSpec.content w' y = FSSpec.content w y).
Proof.
  intros C fuel rest formats cat pt pd s w tid ps p h v old bodies AW WK PD LK HC SQ PL PH PS PC L1 L2 NE NZ LB CO T1 T2.
  assert (HA : announced s h (len (concat bodies)) 0) by (eapply by_props; try eassumption; change (2^64) with 18446744073709551616 in *; lia).
  set (hdr := spec_header 0xFFFFFFFF 2 OP_SendObject tid). assert (HL : len hdr = 12) by apply WireProofs2.spec_header_len.
  destruct (P_DevList.content_sent C fuel rest formats cat pt pd s w tid ps h v old hdr bodies) as (s' & l & w' & A1 & A2 & A3 & A4 & A5 & A6 & A7 & A8 & A9 & A10 & A11 & A12 & A13 & A14 & A15); try assumption.
  exists s', l, w'. split; [|auto 15].
  set (n := List.length (r_log s)) in *. pose proof AW as [_ _ Q _ RD ID SE].
  destruct (RExt.run_recorded _ _ _ _ _ _ _ _ A1) as (d & _ & AG).
  assert (BG : usb_packets (DeviceSend.boast C fuel rest w n) formats cat pt pd 0 (command_bytes OP_SendObject tid ps :: object_packets hdr bodies) s = Some (Ret (0, s'))).
  { apply (big_usb (DeviceSend.boast C fuel rest w n) formats cat pt pd s s' tid ps h (len (concat bodies)) hdr bodies); try assumption; try reflexivity; unfold known_size, long_container; rewrite ?PL, ?PS.
    + exact (DeviceSend.boast_ready C fuel rest w n RD).
    + rewrite N.add_comm. exact L2.
    + unfold known_size. rewrite PL, PS, total_len. destruct (0xFFFFFFFF - 12 <? len (concat bodies)) eqn:X; [lia|apply N.ltb_ge in X; lia].
    + rewrite total_len. lia.
    + intros b I hist f g. reflexivity. }
  destruct (usb_same (DeviceSend.boast C fuel rest w n) (Device.device C fuel rest n w) formats cat pt pd _ _ _ _ _ BG) as (d' & _ & K). exact (K AG).
Qed.

(** ** The hypotheses can be met: an announcement of one byte less than 4 GiB for /s/a/b, object 12 *)
Definition big_listed : rstate := set_pl (Some (mk_pl 65537 0 just_less 0x3000 12 0 [])) in_session.
Definition chunk_bytes : N := 1073741824.
Lemma enough n : exists g : bytes, len g = n.
Proof. exists (List.repeat 7 (N.to_nat n)). unfold len. rewrite repeat_length. apply N2Nat.id. Qed.
(** any content of that length in four pieces, of which there are some ([enough]) *)
Example C92_big_device_hypotheses : let w := FSDemo.demo_start FSDemo.quiet in
  (exists v old, FSSpec.look w 12 = Some v /\ FSSpec.content w (FSSpec.v_path v) = Some (FS.File old)) /\
  (exists g : bytes, len g = chunk_bytes) /\ (exists t : bytes, len t = chunk_bytes - 1) /\
  forall (g t : bytes), len g = chunk_bytes -> len t = chunk_bytes - 1 -> let bodies := [g; g; g; t] in
  r_seq big_listed = None /\ (exists p, r_pl big_listed = Some p /\ pl_handle p = 12 /\ pl_size p = len (concat bodies) /\ pl_cur p = 0) /\
  0xFFFFFFFF <= 12 + len (concat bodies) < 2^64 /\ Forall (fun b => 0 < len b) (tl bodies) /\ (forall b, In b bodies -> len b < 2^31).
Proof.
  cbv zeta. split; [do 2 eexists; split; vm_compute; reflexivity|]. split; [apply enough|]. split; [apply enough|]. intros g t G T.
  split; [reflexivity|].
  assert (L : len (concat [g; g; g; t]) = just_less) by (cbn [concat]; rewrite !len_app, G, T; reflexivity).
  rewrite L. split; [eexists; split; [reflexivity|]; auto|]. split; [split; [discriminate|reflexivity]|].
  split; [cbn [tl]; repeat apply Forall_cons; try apply Forall_nil; rewrite ?G, ?T; reflexivity|].
  intros b [<-|[<-|[<-|[<-|[]]]]]; rewrite ?G, ?T; reflexivity.
Qed.
Print Assumptions C92_big_device.
