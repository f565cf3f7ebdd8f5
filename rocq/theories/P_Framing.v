(** C14, C15: cutting the byte stream into containers. *)
From Verif Require Import Base Framing FramingProofs.

(** ** C14: for every sequence of containers and every way of cutting their
    concatenation into packets, the responder gets exactly those containers, with
    correct first/last flags and no empty chunk. *)
Theorem C14_packet_boundaries_do_not_matter : forall fetch resets cs ps,
  (forall d, resets d = false) -> Forall (declares_length fetch) cs ->
  concat ps = concat cs -> length_fields_uncut cs ps ->
  exists ds, frame_packets fetch resets 0 ps = Some (Ret (0, ds)) /\
    assemble None ds = Some (cs, None) /\ Forall (fun d => d_data d <> []) ds.
Proof. exact framing_ok. Qed.

(** When handling a piece resets the connection, that piece is the last one taken from the
    packet and the next packet starts a new container, whatever was outstanding. *)
Theorem C14_reset_starts_afresh : forall fetch resets rl p rl' ds,
  frame_packet fetch resets rl p = Some (Ret (rl', ds)) -> (exists d, In d ds /\ resets d = true) ->
  rl' = 0 /\ exists before d, ds = before ++ [d] /\ resets d = true /\ Forall (fun x => resets x = false) before.
Proof. intros fetch resets rl p rl' ds H. exact (loop_reset fetch resets _ rl false p rl' ds H). Qed.
Example ex_C14_reset : exists ds, frame_packet (fun _ => 0) (fun d => d_first d) 0 (firstn 6 [13;0;0;0; 1;0; 2;16; 0;0;0;0; 5]) = Some (Ret (0, ds)) /\
  exists d, In d ds /\ d_first d = true.
Proof. eexists. split; [vm_compute; reflexivity|]. eexists. split; [left; reflexivity|reflexivity]. Qed.

(** ** C15 *)
Theorem C15_zero_length_refuted : exists data, forall fuel,
  frame_loop (fun _ => 0) (fun _ => false) fuel 0 false data = None.
Proof. exact (ex_intro _ _ hang). Qed.
(** Everything else terminates: missing are packets with a zero length field at
    the start of a container. *)
Theorem C15_terminates_partial : forall fetch resets rl data,
  (forall d, fetch d < 2^64 - 12) ->
  (forall x, container_start fetch rl data x -> 4 <= len x -> le_dec (take 4 x) <> 0) ->
  exists r, frame_packet fetch resets rl data = Some r.
Proof. exact terminates_unless_zero. Qed.

Definition ex_c1 : bytes := [13;0;0;0; 1;0; 2;16; 0;0;0;0; 5].
Definition ex_c2 : bytes := [12;0;0;0; 1;0; 3;16; 1;0;0;0].
Example ex_C14 : let cs := [ex_c1; ex_c2] in
  let ps := [firstn 6 ex_c1; skipn 6 ex_c1 ++ firstn 5 ex_c2; skipn 5 ex_c2] in
  Forall (declares_length (fun _ => 0)) cs /\ concat ps = concat cs /\ length_fields_uncut cs ps.
Proof.
  split; [|split; [reflexivity|]].
  - constructor; [|constructor; [|constructor]];
      (split; [split; [vm_compute; discriminate|reflexivity]|left; split; [discriminate|reflexivity]]).
  - intros p1 p2 c1 c c2 E1 E2.
    assert (C : len (concat c1) = 0 \/ len (concat c1) = 13).
    { destruct c1 as [|x [|y [|z c1]]].
      - left; reflexivity.
      - right. injection E2 as <- _. reflexivity.
      - discriminate.
      - discriminate. }
    assert (P : len (concat p1) = 0 \/ len (concat p1) = 6 \/ len (concat p1) = 18 \/ len (concat p1) = 25).
    { destruct p1 as [|x [|y [|z [|w p1]]]]; try discriminate E1; cbn [app] in E1.
      - left; reflexivity.
      - injection E1 as <- _. right; left; reflexivity.
      - injection E1 as <- <- _. right; right; left; reflexivity.
      - injection E1 as <- <- <- _. right; right; right; reflexivity. }
    lia.
Qed.
Example ex_C15 : forall x, container_start (fun _ => 0) 5 [0;0;0;0;0] x ->
  4 <= len x -> le_dec (take 4 x) <> 0.
Proof.
  intros x H L. exfalso. inversion H as [|a rest y Na Hs E1 E2 E3|]; subst y.
  apply (f_equal len) in E2. rewrite len_app, E1 in E2. change (len [0;0;0;0;0]) with 5 in E2.
  assert (rest = []) as -> by (destruct rest; [reflexivity|rewrite len_cons in E2; lia]).
  inversion Hs as [d|b r y Nb Hb E4 E5|b r y Nb Sb Hb E4 E5]; subst.
  - rewrite (@len_nil N) in L. lia.
  - destruct b; [congruence|discriminate].
  - destruct b; [congruence|discriminate].
Qed.

Print Assumptions C14_packet_boundaries_do_not_matter.
Print Assumptions C15_zero_length_refuted.
Print Assumptions C15_terminates_partial.
Print Assumptions C14_reset_starts_afresh.
