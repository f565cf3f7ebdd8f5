(** C92, continued: containers too long for their length field, which has four bytes: the initiator
    writes 0xFFFFFFFF there, and the device must know the length otherwise.  (SendObjectPropList refuses
    objects of 4 GiB and more, C91: what remains are those within twelve bytes of that.) *)
From Verif Require Import Base Wire WireSpec Responder RSpec RLogic ROne2 RExec RSession RSend RSend2 RDemo P_Send Usb UsbProofs UsbReset UsbWhole UsbSend UsbFail UsbBig.

Lemma later_packets bodies size : Forall (fun b => 0 < len b) (tl bodies) -> total bodies <= size ->
  forall pre b post, bodies = pre ++ b :: post -> post <> [] -> total (pre ++ [b]) < size.
Proof.
  intros NZ LE pre b post -> Hp. rewrite !total_app in *. cbn [total] in *. destruct post as [|x post]; [contradiction|].
  assert (0 < len x). { rewrite Forall_forall in NZ. apply NZ. destruct pre; cbn; [left; reflexivity|]. apply in_or_app. right; right; left; reflexivity. }
  cbn [total] in LE. lia.
Qed.

Notation usb_packets := Usb.usb_packets.
(** SendObjectPropList has announced an object of [size] bytes, so many that the data
    container's length does not fit its field.  Command and content are written to the bulk pipe - the
    command in a packet, the header with the beginning of the content in the next one, the rest in any
    packets: every byte is stored, once and in order, the response is OK and the device is ready for the
    next container. *)
Theorem C92_big_object : forall env formats cat props_by_type prop_desc s tid ps p h size bodies,
  undisturbed env -> storage_is_ready env -> idle s -> command_ok OP_SendObject tid ps ->
  r_session s <> 0 -> tid <> 0 -> tid <> 0xFFFFFFFF ->
  r_seq s = None -> r_pl s = Some p -> pl_handle p = h -> pl_size p = size -> pl_cur p = 0 ->
  0xFFFFFFFF <= 12 + size -> 12 + size < 2^64 ->
  bodies <> [] -> Forall (fun b => 0 < len b) (tl bodies) -> (forall b, In b bodies -> code_of_write env h b R_OK) ->
  len (concat bodies) = size ->
  exists s' l, usb_packets env formats cat props_by_type prop_desc 0
      (command_bytes OP_SendObject tid ps :: object_packets (spec_header 0xFFFFFFFF 2 OP_SendObject tid) bodies) s = Some (Ret (0, s')) /\
    r_log s' = l ++ r_log s /\ r_st s' = IDLE /\ datas l = [] /\ responses l = [resp_out R_OK tid []] /\
    content_written h (changed l) = concat bodies /\ forallb (only_on h) (changed l) = true.
Proof.
  intros env formats cat pt pd s tid ps p h size bodies Q RD ID CO SE T1 T2 SQ PL PH PS PC L1 L2 NE NZ WR LC.
  rewrite <- total_len in LC.
  assert (HA : announced s h size 0) by (eapply by_props; try eassumption; change (2^64) with 18446744073709551616 in *; lia).
  set (hdr := spec_header 0xFFFFFFFF 2 OP_SendObject tid). assert (HL : len hdr = 12) by apply WireProofs2.spec_header_len.
  destruct (send_object_ok env formats cat pt pd Q s tid ps h size hdr bodies ID CO RD SE T1 T2 HA NE HL WR) as (s' & l & E1 & E2 & E3 & E4 & E5 & E6 & E7 & E8).
  { apply later_packets; [exact NZ|lia]. }
  { right. lia. }
  rewrite LC, N.ltb_irrefl in E8. destruct E8 as (K1 & cs & K2 & K3). apply content_finish in K2 as [K4 K5].
  exists s', l. split.
  - apply (big_usb env formats cat pt pd s s' tid ps h size hdr bodies); try assumption; try reflexivity; unfold known_size, long_container; rewrite ?PL, ?PS.
    + rewrite N.add_comm. exact L2.
    + unfold known_size. rewrite PL, PS, LC. destruct (0xFFFFFFFF - 12 <? size) eqn:X; [lia|apply N.ltb_ge in X; lia].
    + lia.
  - destruct (content_chunks h bodies true) as [C1 C2].
    split; [exact E2|]. split; [exact E3|]. split; [exact E7|]. split; [exact K1|].
    rewrite K3, content_app, forallb_app, C1, C2, K4, K5, app_nil_r. auto.
Qed.

(** SendObjectInfo states sizes of 4 GiB and more as 0xFFFFFFFF.  Then the device does not know the
    length of the container: it takes 0xFFFFFFFF for it, and when so many bytes have come - all of them
    stored - answers IncompleteTransfer and empties the object, though the content goes on.  Refutes:
    an object sent in full is stored, whatever its size. *)
Theorem C92_big_object_info_refuted : forall env formats cat props_by_type prop_desc s tid ps i h bodies,
  undisturbed env -> storage_is_ready env -> idle s -> command_ok OP_SendObject tid ps ->
  r_session s <> 0 -> tid <> 0 -> tid <> 0xFFFFFFFF ->
  r_pl s = None -> r_seq s = Some (mk_ss i h 0) -> oi_size i = 0xFFFFFFFF ->
  bodies <> [] -> Forall (fun b => 0 < len b) (tl bodies) -> (forall b, In b bodies -> code_of_write env h b R_OK) ->
  12 + len (concat bodies) = 0xFFFFFFFF ->
  exists s' l, usb_packets env formats cat props_by_type prop_desc 0
      (command_bytes OP_SendObject tid ps :: object_packets (spec_header 0xFFFFFFFF 2 OP_SendObject tid) bodies) s = Some (Ret (0, s')) /\
    r_log s' = l ++ r_log s /\ r_st s' = IDLE /\ responses l = [resp_out R_IncompleteTransfer tid []] /\ In (STruncate h 0) (changed l).
Proof.
  intros env formats cat pt pd s tid ps i h bodies Q RD ID CO SE T1 T2 PL SQ OS NE NZ WR LC.
  rewrite <- total_len in LC.
  assert (HA : announced s h 0xFFFFFFFF 0) by (eapply by_info; try eassumption; reflexivity).
  set (hdr := spec_header 0xFFFFFFFF 2 OP_SendObject tid). assert (HL : len hdr = 12) by apply WireProofs2.spec_header_len.
  destruct (send_object_ok env formats cat pt pd Q s tid ps h 0xFFFFFFFF hdr bodies ID CO RD SE T1 T2 HA NE HL WR) as (s' & l & E1 & E2 & E3 & E4 & E5 & E6 & E7 & E8).
  { apply later_packets; [exact NZ|lia]. }
  { right. lia. }
  replace (total bodies <? 0xFFFFFFFF) with true in E8 by (symmetry; apply N.ltb_lt; lia). destruct E8 as [K1 K2].
  exists s', l. split.
  - apply (big_usb env formats cat pt pd s s' tid ps h 0xFFFFFFFF hdr bodies); try assumption; try reflexivity; unfold known_size, long_container; rewrite ?PL.
    + reflexivity.
    + unfold known_size. rewrite PL. exact LC.
    + lia.
  - split; [exact E2|]. split; [exact E3|]. split; [exact K1|]. rewrite K2. apply in_or_app. right. left. reflexivity.
Qed.

(** ** The hypotheses can be met *)
Lemma len_zeros n : len (List.repeat 0 (N.to_nat n)) = n.
Proof. unfold len. rewrite repeat_length. apply N2Nat.id. Qed.
Definition just_less : N := 4294967295.
(** announced with one byte less than 4 GiB, as object 9 *)
Definition with_props (n : N) : rstate := set_pl (Some (mk_pl 65537 0 n 0x3000 9 0 [])) in_session.
Definition big_bodies (n : N) : list bytes := [List.repeat 0 (N.to_nat (n - 7)); [1; 2; 3; 4; 5; 6; 7]].
Example C92_big_hypotheses : let s := with_props just_less in
  undisturbed plain /\ storage_is_ready plain /\ idle s /\ command_ok OP_SendObject 5 [] /\ r_session s <> 0 /\ r_seq s = None /\
  (exists p, r_pl s = Some p /\ pl_handle p = 9 /\ pl_size p = just_less /\ pl_cur p = 0) /\
  0xFFFFFFFF <= 12 + just_less < 2^64 /\
  Forall (fun b => 0 < len b) (tl (big_bodies just_less)) /\ (forall b, In b (big_bodies just_less) -> code_of_write plain 9 b R_OK) /\
  len (concat (big_bodies just_less)) = just_less.
Proof.
  cbv zeta. split; [apply plain_undisturbed|]. split; [apply plain_ready|]. split; [left; reflexivity|].
  split; [repeat split; try constructor; discriminate|]. split; [discriminate|]. split; [reflexivity|].
  split; [eexists; split; [reflexivity|]; auto|]. split; [split; [discriminate|reflexivity]|]. split; [repeat constructor|].
  split; [intros b _ hist f l; reflexivity|]. unfold big_bodies. cbn [concat]. rewrite len_app, len_zeros. reflexivity.
Qed.
Definition with_info : rstate := set_seq (Some (mk_ss (blank_info 0x00010001 0xFFFFFFFF 0 0x3000 [97]) 7 0)) in_session.
Example C92_big_info_hypotheses : let n := 0xFFFFFFFF - 12 in
  idle with_info /\ r_pl with_info = None /\ r_session with_info <> 0 /\ (exists i, r_seq with_info = Some (mk_ss i 7 0) /\ oi_size i = 0xFFFFFFFF) /\
  Forall (fun b => 0 < len b) (tl (big_bodies n)) /\ (forall b, In b (big_bodies n) -> code_of_write plain 7 b R_OK) /\ 12 + len (concat (big_bodies n)) = 0xFFFFFFFF.
Proof.
  cbv zeta. split; [left; reflexivity|]. split; [reflexivity|]. split; [discriminate|]. split; [eexists; split; reflexivity|]. split; [repeat constructor|].
  split; [intros b _ hist f l; reflexivity|]. unfold big_bodies. cbn [concat]. rewrite len_app, len_zeros. reflexivity.
Qed.

Print Assumptions C92_big_object.
Print Assumptions C92_big_object_info_refuted.
