(** C16, C17: the bulk-in writer, for every sequence of write results. *)
From Verif Require Import Base BulkWriter BulkWriterProofs.

(** ** C16 *)
Theorem C16_bytes_in_order_or_failure : forall evs wm terminate data r wm' log,
  bw_execute evs wm terminate data = Some (r, wm', log) ->
  exists rest, data = sent log ++ rest /\ (r = true <-> rest = []).
Proof. exact execute_prefix. Qed.
Theorem C16_finishes_on_a_working_endpoint : forall wm terminate data, write_limit wm ->
  exists r wm' log,
    bw_execute (repeat (WOk 16384) (S (length data))) wm terminate data = Some (r, wm', log).
Proof. exact execute_finishes. Qed.

(** ** C17 *)
Theorem C17_short_packet_partial : forall evs wm terminate data r wm' log,
  (* missing: runs in which the final zero length packet itself fails *)
  write_limit wm -> benign wm evs ->
  bw_execute evs wm terminate data = Some (r, wm', log) ->
  r = true /\ sent log = data /\ write_limit wm' /\
  (terminate = true -> short_terminated (on_bus log)) /\
  (terminate = false -> len data mod 512 = 0 -> full_packets (on_bus log)).
Proof. exact execute_packets. Qed.
(** The code reports success although the terminating packet was never sent. *)
Theorem C17_refuted : exists evs data r wm' log,
  bw_execute evs 16384 true data = Some (r, wm', log) /\ r = true /\ ~ short_terminated (on_bus log).
Proof. exact zlp_refuted. Qed.

Example ex_C17 : let evs := [WEio; WOk 16384; WEintr; WOk 16384; WOk 16384] in
  write_limit 1024 /\ benign 1024 evs /\
  exists log, bw_execute evs 1024 true (repeat 7 1024) = Some (true, 512, log) /\ on_bus log = [512; 512; 0].
Proof. split; [cbn; tauto|]. split; [vm_compute; repeat split; discriminate|]. eexists; split; vm_compute; reflexivity. Qed.
Example ex_C16 : exists log, bw_execute [WOk 3; WEother] 16384 true [1;2;3;4;5] = Some (false, 16384, log) /\ sent log = [1;2;3].
Proof. eexists; split; vm_compute; reflexivity. Qed.

Print Assumptions C16_bytes_in_order_or_failure.
Print Assumptions C16_finishes_on_a_working_endpoint.
Print Assumptions C17_short_packet_partial.
Print Assumptions C17_refuted.
