(** C74: suspending and resuming USB.  [xreachable s]: some schedule of the two threads and
    of bus events (stop = DISABLE or SUSPEND, start = ENABLE or RESUME, exit = UNBIND) leads to
    [s].  [h_in]/[h_out]: bytes received / handed on since the last stop or start. *)
From Verif Require Import Base Ring RingProofs RingStop.

(** Whatever the bus does, the bytes handed on are a prefix of those received, *)
Theorem C74_nothing_wrong_delivered_partial : forall s, xreachable s ->
  exists rest, h_in s = h_out s ++ rest.
Proof. exact x_prefix. Qed.
(** and a read still in flight never writes over bytes in use. *)
Theorem C74_no_overwrite_partial : forall s off, xreachable s -> g_rd s = RFlight off ->
  off + 16384 <= 262144 /\
  forall x, off <= x < off + 16384 ->
    ~ (g_start s <= x < g_start s + g_size1 s) /\ ~ (x < g_size2 s).
Proof. exact x_no_overwrite. Qed.
(** Nothing received later is lost if no read was in flight when reception was stopped,
    or if that read then failed (as it does when the cable is pulled). *)
Theorem C74_survives_partial : forall s s1 s2, xreachable s -> xstep s XStop = Some s1 ->
  (s2 = s1 /\ (g_rd s = RIdle \/ g_rd s = RMarked) \/ xstep s1 (XBase ARetry) = Some s2) ->
  forall l s3, run s2 l = Some s3 ->
    g_rd s3 <> RDead /\
    exists rest, h_in s3 = h_out s3 ++ rest /\ len rest = g_size1 s3 + g_size2 s3 - g_pend s3.
Proof. exact x_survives. Qed.

(** False in general: after a suspend and resume with a read in flight - the usual state of
    an idle device - the next command is received, not handed on, and the reader
    thread ends; nothing is handed on any more until reception is started once again. *)
Theorem C74_refuted : forall bs, bs <> [] -> len bs <= 16384 ->
  exists l s, xrun (ring_init (fun _ => 0)) (l ++ [XStop; XStart; XBase (ADone bs)]) = Some s /\
    h_in s = bs /\ g_rd s = RDead /\
    forall l' s', Forall (fun a => starts a = false) l' -> xrun s l' = Some s' -> h_out s' = [] /\ g_rd s' = RDead.
Proof.
  intros bs NE L.
  exists (map XBase [APick; ADone [7]; AEmit; AGet; ARead 1; ARelease; AFinish; APick]).
  eexists. split.
  - cbn [map app xrun xstep]. set (z := fun _ : N => 0).
    assert (E : run (ring_init z) [APick; ADone [7]; AEmit; AGet; ARead 1; ARelease; AFinish; APick] =
      Some (mk_ring (store z 0 [7]) 1 0 0 (RFlight 1) 0 false false 1 0 0 [7] [7])) by (vm_compute; reflexivity).
    revert E. cbn [run].
    repeat (match goal with |- match step ?s ?a with Some _ => _ | None => _ end = _ -> _ => destruct (step s a) as [?x|]; [|discriminate] end).
    intros [= ->]. cbn [stop_read g_rd g_mem g_sigs g_busy g_post xstep step].
    destruct (N.leb_spec (len bs) MAX_IN) as [_|X]; [|unfold MAX_IN in X; lia].
    cbn [mark_new g_start g_size1 g_size2]. change (1 =? 0 + 0) with false. change (1 =? 0) with false. cbv iota.
    reflexivity.
  - cbn [h_in g_rd]. split; [reflexivity|]. split; [reflexivity|].
    intros l' s' F H. eapply dead_run in H; [tauto|reflexivity|repeat split|exact F].
Qed.

(** ** Concrete case: stop with a read in flight that fails, start, next command arrives *)
Example ex_C74 : exists s s1 s2 s3, xreachable s /\ g_rd s = RFlight 1 /\ xstep s XStop = Some s1 /\
  xstep s1 (XBase ARetry) = Some s2 /\ run s2 [APick; ADone [1; 2]; AEmit; AGet; ARead 2] = Some s3 /\ h_out s3 = [1; 2].
Proof.
  eexists (mk_ring _ 1 0 0 (RFlight 1) 0 false false 1 0 0 [7] [7]). do 3 eexists. split.
  - exists (fun _ => 0), (map XBase [APick; ADone [7]; AEmit; AGet; ARead 1; ARelease; AFinish; APick]). vm_compute. reflexivity.
  - split; [reflexivity|]. split; [reflexivity|]. split; [reflexivity|]. split; vm_compute; reflexivity.
Qed.

Print Assumptions C74_nothing_wrong_delivered_partial.
Print Assumptions C74_no_overwrite_partial.
Print Assumptions C74_survives_partial.
Print Assumptions C74_refuted.
