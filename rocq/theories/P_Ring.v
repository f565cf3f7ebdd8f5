(** C11-C13, C67: the USB receive buffer under every interleaving of the reader
    thread and the main thread.  [reachable s]: some schedule leads to [s];
    [reachable_calm s]: some schedule leads to [s] in which no dataReady notification
    is delivered inside the handling of an earlier one after another such notification
    was already noted, while data waits at the front of the buffer behind a full back. *)
From Verif Require Import Base Ring RingProofs.

(** ** C11: what the main thread has obtained is, in order, a prefix of what was
    received, and the rest is exactly what is still buffered (so when the buffer
    is empty everything was delivered). *)
Theorem C11_fifo : forall s, reachable s ->
  exists rest, h_in s = h_out s ++ rest /\ len rest = g_size1 s + g_size2 s - g_pend s.
Proof. exact fifo. Qed.

(** ** C12: the area read(2) may write to lies inside the buffer and holds no
    byte that is not yet released; the reader never gives up over an offset. *)
Theorem C12_no_overwrite : forall s off, reachable s -> g_rd s = RFlight off ->
  off + 16384 <= 262144 /\
  forall x, off <= x < off + 16384 ->
    ~ (g_start s <= x < g_start s + g_size1 s) /\ ~ (x < g_size2 s).
Proof. exact no_overwrite. Qed.
Theorem C12_offset_always_consistent : forall s, reachable s -> g_rd s <> RDead.
Proof. exact never_dead. Qed.

(** ** C13 *)
Theorem C13_room_when_all_released : forall s, reachable s -> g_size1 s = 0 -> g_size2 s = 0 ->
  exists off, get_offset s = Some off.
Proof. exact room_when_empty. Qed.
(** With no other help than the main thread handling the notifications it has, a blocked
    reader gets room again ... *)
Theorem C13_reader_can_always_continue : forall s, reachable s -> g_rd s = RIdle ->
  exists l s' off, Forall consumer l /\ run s l = Some s' /\ get_offset s' = Some off.
Proof. exact no_starvation. Qed.
(** ... because a reader without room always means the main thread is at work or is notified. *)
Theorem C13_never_both_waiting : forall s, reachable s -> g_rd s = RIdle -> get_offset s = None ->
  g_busy s = true \/ 0 < g_sigs s.
Proof. exact no_deadlock. Qed.

(** ** C67: received data is not left behind.  Missing: schedules that are not calm, where
    it is false (C67_refuted); what is left behind then comes out with the next packet. *)
Theorem C67_not_stranded_partial : forall s, reachable_calm s ->
  g_busy s = false -> g_sigs s = 0 -> g_rd s <> RMarked -> h_out s = h_in s.
Proof. exact not_stranded. Qed.
Theorem C67_comes_out_with_the_next_packet_partial : forall s bs, reachable s ->
  g_busy s = false -> g_sigs s = 0 -> g_rd s = RIdle -> bs <> [] -> len bs <= 16384 ->
  exists s', run s [APick; ADone bs; AEmit; AGet; ARead (g_size1 s + len bs)] = Some s' /\
    h_out s' = h_in s' /\ h_in s' = h_in s ++ bs.
Proof. exact next_packet. Qed.
Theorem C67_refuted : exists s, reachable s /\
  g_busy s = false /\ g_sigs s = 0 /\ g_rd s = RIdle /\ h_out s <> h_in s.
Proof. exact stranded. Qed.

(** ** Examples *)
Example ex_flight : exists s, reachable s /\ g_rd s = RFlight 3 /\ g_size1 s = 1 /\ g_start s = 2 /\ h_out s = [7; 8].
Proof.
  eexists. split.
  - exists (fun _ => 0), [APick; ADone [7; 8; 9]; AEmit; APick; AGet; ARead 2; AScribble 5 77; ARelease].
    vm_compute. reflexivity.
  - vm_compute. auto.
Qed.
(** two packets, the second announced while the first is being handled *)
Example ex_calm : exists s, reachable_calm s /\ g_rd s = RIdle /\ g_busy s = false /\ g_sigs s = 0 /\ h_in s = [7; 8; 9; 4] /\ g_start s = 4.
Proof.
  eexists. split.
  - exists (fun _ => 0), [APick; ADone [7; 8; 9]; AEmit; AGet; APick; ADone [4]; AEmit; ANested; ARead 3; ARelease; AFinish; ARead 1; ARelease; AFinish].
    split; [|vm_compute; reflexivity]. vm_compute. repeat split; try discriminate; auto.
  - vm_compute. auto.
Qed.
Example ex_idle : exists s, reachable s /\ g_rd s = RIdle /\ g_size1 s = 3.
Proof.
  eexists. split.
  - exists (fun _ => 0), [APick; ADone [7; 8; 9]; AEmit]. vm_compute; reflexivity.
  - vm_compute. auto.
Qed.

Print Assumptions C11_fifo.
Print Assumptions C12_no_overwrite.
Print Assumptions C12_offset_always_consistent.
Print Assumptions C13_room_when_all_released.
Print Assumptions C13_reader_can_always_continue.
Print Assumptions C13_never_both_waiting.
Print Assumptions C67_not_stranded_partial.
Print Assumptions C67_comes_out_with_the_next_packet_partial.
Print Assumptions C67_refuted.
