(** C18-C20: the event queue, for every interleaving of the main thread, the
    interrupt writer thread, timeouts, resets and device restarts. *)
From Verif Require Import Base Events EventsProofs.

(** ** C18 *)
Theorem C18_bounded_in_order_no_repeat : forall s, ereachable s ->
  len (e_q s) <= 512 /\
  (* what was transmitted, is being transmitted and is waiting, is what was queued
     in the same order with some left out *)
  subseq (h_sent s ++ pending s) (h_added s).
Proof. intros s R. destruct (ereach_inv s R) as [H1 H2 _ _ _ _]. split; [exact H1|exact H2]. Qed.
Theorem C18_drops_the_oldest : forall q e, len q <= 512 ->
  add_data q e = drop (len q + 1 - 512) (q ++ [e]).
Proof. exact add_data_spec. Qed.
Theorem C18_transmits_head_and_removes_it : forall s a s', ereachable s -> estep s a = Some s' ->
  h_sent s' = h_sent s \/ (exists e, h_sent s' = h_sent s ++ [e] /\ pending s = e :: pending s').
Proof. intros s a s' R. apply sent_step. now apply ereach_inv. Qed.

(** An event is never forgotten in the queue: whenever events may be sent and some are
    waiting, one is being sent (its completion triggers the next) or events are switched
    off after three failures.  [orderly]: the session is opened and closed by commands. *)
Theorem C18_no_event_forgotten : forall l s, orderly ev_init l -> erun ev_init l = Some s ->
  e_w s = WFree -> e_resp s = false -> e_sess s = true -> e_q s <> [] -> e_eb s = EBusy \/ 3 <= e_failed s.
Proof.
  intros l s O R W Re Se Q. destruct (minded_run l _ _ minded_init O R) as [J D].
  destruct (J W Re Se (or_introl Q)) as [X|X]; auto.
Qed.
(** With a working endpoint everything that waits goes out, in order. *)
Theorem C18_queue_drains : forall s, ereachable s -> e_th s = TWoken -> e_w s = WFree -> e_resp s = false -> e_sess s = true ->
  exists l s', Forall (fun a => In a [TStart; TDone; MCompleted]) l /\ erun s l = Some s' /\
    h_sent s' = h_sent s ++ pending s /\ pending s' = [].
Proof.
  intros s R T W Re Se. destruct (ereach_inv s R) as [_ _ H3 H4 _ _]. unfold tokens in *. rewrite T in *.
  assert (S : e_sigs s = []) by (destruct (e_sigs s); [reflexivity|cbn in H3; lia]). rewrite S in *.
  destruct (drains (e_q s) s eq_refl T (H4 eq_refl) S W Re Se) as (l & s' & F & Rn & A & B & C).
  exists l, s'. split; [exact F|]. split; [exact Rn|]. split; [exact A|]. unfold pending. rewrite B, C. reflexivity.
Qed.

(** ** C19 *)
Theorem C19_started_only_when_allowed : forall s a s', ereachable s -> estep s a = Some s' ->
  e_eb s <> EBusy -> e_eb s' = EBusy ->
  e_w s' = WFree /\ e_resp s' = false /\ e_sess s' = true /\ e_failed s' < 3.
Proof. intros s a s' R. apply starts_guarded. now apply ereach_inv. Qed.
(** the writer thread is only ever active while the transporter has an event
    outstanding, and never while a bulk write is running *)
Theorem C19_one_write_and_never_during_bulk : forall s, ereachable s ->
  (e_th s = TWoken \/ e_th s = TWriting ->
     e_eb s = EBusy /\ e_sigs s = [] /\ e_w s <> WBulk).
Proof.
  intros s R T. destruct (ereach_inv s R) as [_ _ H3 H4 H5 _]. unfold tokens in *.
  assert (S : e_sigs s = []) by (destruct (e_sigs s); [reflexivity|destruct T as [T|T]; rewrite T in H3; cbn in H3; lia]).
  assert (B : e_eb s = EBusy) by (apply H4; rewrite S; destruct T as [-> | ->]; reflexivity).
  repeat split; auto. intros W. now apply H5 in W.
Qed.
Theorem C19_failure_count_cleared_only_by_success_or_session : forall s a s',
  estep s a = Some s' -> e_failed s' < e_failed s ->
  (a = MSession true /\ e_sess s = false) \/ (a = MCompleted /\ exists rest, e_sigs s = RSuccess :: rest).
Proof. exact failed_decreases. Qed.

Theorem C19_success_clears_failures : forall s rest s', e_eb s = EBusy -> e_sigs s = RSuccess :: rest ->
  estep s MCompleted = Some s' -> e_failed s' = 0.
Proof.
  intros s rest s' B S. cbn [estep]. rewrite S, B. intros [= <-].
  unfold send_queued; cbn; destruct (e_w s), (e_resp s), (e_sess s), (e_q s); reflexivity.
Qed.
Theorem C19_new_session_enables_events : forall s s', e_sess s = false -> estep s (MSession true) = Some s' ->
  e_failed s' = 0 /\ e_eb s' <> EDisabled.
Proof. intros s s' S. cbn [estep]. rewrite S. intros [= <-]. cbn. split; [reflexivity|]. destruct (e_eb s); discriminate. Qed.

(** ** C20 *)
(** The property as stated is false: a device reset while an event is being
    written loses the completion, and the next sendData waits for ever. *)
Theorem C20_refuted : exists s, ereachable s /\ e_w s = WWaitEv /\
  forall l s', erun s l = Some s' -> e_w s' = WWaitEv.
Proof. exact send_can_wedge. Qed.
(** missing: histories with a reset, a close, or a fatal endpoint error during an event write *)
Theorem C20_completes_partial : forall s0 l s, ereachable s0 -> e_th s0 = TWaiting -> e_eb s0 <> EBusy ->
  Forall gentle l -> erun s0 l = Some s -> e_w s = WWaitEv ->
  exists l' s', (length l' <= 4)%nat /\
    Forall (fun a => In a [TStart; TFail; MCompleted; MSendGo]) l' /\
    erun s l' = Some s' /\ e_w s' = WBulk.
Proof.
  intros s0 l s R T B F H W. apply live_send_completes; [|exact W]. eapply live_run; [|exact F|exact H].
  split; [now apply ereach_inv|]. split; [intros X; contradiction|auto].
Qed.

(** Non-vacuity *)
Example ex_C18_overflow : forall (e : N), len (add_data (repeat 1 512) e) = 512.
Proof. intros e. vm_compute. reflexivity. Qed.
Example ex_C19 : exists s s', ereachable s /\ estep s (MAdd 5) = Some s' /\ e_eb s <> EBusy /\ e_eb s' = EBusy.
Proof.
  eexists. eexists. split; [exists [MOpen; TEnter; MSession true; MCmdFinished]; vm_compute; reflexivity|].
  split; [vm_compute; reflexivity|]. split; [discriminate|reflexivity].
Qed.
Example ex_C18_drain : exists s, ereachable s /\ e_th s = TWoken /\ e_w s = WFree /\ e_resp s = false /\ e_sess s = true /\ pending s = [5; 6; 7].
Proof.
  eexists. split; [exists [MOpen; TEnter; MSession true; MCmdFinished; MAdd 5; MAdd 6; MAdd 7]; vm_compute; reflexivity|].
  vm_compute. repeat split.
Qed.
Example ex_C18_orderly : exists s, orderly ev_init [MSession true; MCmdFinished; MAdd 5; MAdd 6] /\
  erun ev_init [MSession true; MCmdFinished; MAdd 5; MAdd 6] = Some s /\ e_q s <> [] /\ e_w s = WFree /\ e_resp s = false /\ e_sess s = true.
Proof.
  eexists. split; [cbn; repeat split; intros; discriminate || reflexivity|]. split; [vm_compute; reflexivity|]. vm_compute. repeat split. discriminate.
Qed.
Example ex_C20 : exists s0 s, ereachable s0 /\ e_th s0 = TWaiting /\ e_eb s0 <> EBusy /\
  erun s0 [MSession true; MCmdFinished; MAdd 1; TStart; MSendData] = Some s /\ e_w s = WWaitEv /\ e_eb s = EBusy.
Proof.
  eexists. eexists. split; [exists [MOpen; TEnter]; vm_compute; reflexivity|].
  split; [reflexivity|]. split; [discriminate|]. split; [vm_compute; reflexivity|]. split; reflexivity.
Qed.

Print Assumptions C18_bounded_in_order_no_repeat.
Print Assumptions C18_drops_the_oldest.
Print Assumptions C18_transmits_head_and_removes_it.
Print Assumptions C19_started_only_when_allowed.
Print Assumptions C19_one_write_and_never_during_bulk.
Print Assumptions C19_failure_count_cleared_only_by_success_or_session.
Print Assumptions C20_refuted.
Print Assumptions C20_completes_partial.
Print Assumptions C18_no_event_forgotten.
Print Assumptions C18_queue_drains.
Print Assumptions C19_success_clears_failures.
Print Assumptions C19_new_session_enables_events.
