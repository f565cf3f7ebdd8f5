(** Stopping and starting the reception of data: MTPTransporterUSB::stopRead, startRead,
    closeDevices (mts/transport/usb/mtptransporterusb.cpp:616-680) on top of the receive
    buffer of Ring.v.  The kernel events DISABLE and SUSPEND call stopRead, ENABLE and RESUME
    call startRead (threadio.cpp:255-263, mtptransporterusb.cpp:159-162). *)
From Verif Require Import Base Ring RingProofs.

Inductive xact :=
| XBase (a : action)   (* a step of either thread *)
| XStop                (* 661-669 stopRead: bookkeeping reset, the reader thread is not touched *)
| XExit                (* 621 closeDevices: exitThread of the reader, then 625 stopRead *)
| XStart.              (* 643-659 startRead/rethinkRead: QThread::start, no effect on a running thread;
                          a thread that had ended starts afresh, and so does the history *)

(** stopRead; the history starts afresh: what was buffered is discarded on purpose. *)
Definition stop_read (s : ring) (r : reader) : ring :=
  mk_ring (g_mem s) 0 0 0 r (g_sigs s) (g_busy s) (g_post s) 0 0 0 [] [].

Definition xstep (s : ring) (a : xact) : option ring :=
  match a with
  | XBase a => step s a
  | XStop => Some (stop_read s (g_rd s))
  | XExit => Some (stop_read s RDead)
  | XStart =>
    match g_rd s with
    | RDead => Some (mk_ring (g_mem s) (g_start s) (g_size1 s) (g_size2 s) RIdle (g_sigs s)
                       (g_busy s) (g_post s) (g_ptr s) (g_rem s) (g_pend s) [] [])
    | _ => Some s
    end
  end.
Fixpoint xrun (s : ring) (l : list xact) : option ring :=
  match l with
  | [] => Some s
  | a :: r => match xstep s a with Some s' => xrun s' r | None => None end
  end.
Definition xreachable (s : ring) : Prop := exists m l, xrun (ring_init m) l = Some s.

(** ** Invariant *)
(** nothing buffered, nothing handed over: only possibly lost bytes in the history *)
Definition blank (s : ring) : Prop :=
  g_start s = 0 /\ g_size1 s = 0 /\ g_size2 s = 0 /\ g_rem s = 0 /\ g_pend s = 0 /\ h_out s = [].
(** a read that was in flight when reception was stopped *)
Definition stale (s : ring) : Prop :=
  exists off, g_rd s = RFlight off /\ off + MAX_IN <= BUFSZ /\ blank s /\ h_in s = [].
Definition xinv (s : ring) : Prop :=
  inv s \/ (g_rd s = RDead /\ blank s) \/ stale s.

Lemma blank_inv s : blank s -> h_in s = [] -> (g_rd s = RIdle \/ g_rd s = RMarked \/ g_rd s = RFlight 0) -> inv s.
Proof.
  intros (A & B & C & D & E & F) G R. constructor; try (rewrite ?A, ?B, ?C, ?D, ?E; unfold BUFSZ; try lia; congruence).
  - unfold rd_inv. destruct R as [-> |[-> | ->]]; auto. rewrite A, B. unfold MAX_IN, BUFSZ. lia.
  - exists []. unfold content. rewrite A, B, C, E, F, G. split; reflexivity.
Qed.

Lemma xinv_init m : xinv (ring_init m).
Proof. left. apply inv_init. Qed.

Lemma flight_bound s off : inv s -> g_rd s = RFlight off -> off + MAX_IN <= BUFSZ.
Proof. intros I R. pose proof (i_rd s I) as H. unfold rd_inv in H. rewrite R in H. apply H. Qed.

Lemma xinv_stop s : xinv s -> xinv (stop_read s (g_rd s)).
Proof.
  intros I.
  assert (BL : blank (stop_read s (g_rd s))) by (repeat split).
  destruct (g_rd s) as [|off| |] eqn:R.
  - left. apply blank_inv; [exact BL|reflexivity|left; reflexivity].
  - right. right. exists off. split; [reflexivity|]. split; [|split; [exact BL|reflexivity]].
    destruct I as [I|[[D _]|(o & D & B & _)]]; [exact (flight_bound s off I R)|congruence|].
    assert (o = off) as -> by congruence. exact B.
  - left. apply blank_inv; [exact BL|reflexivity|right; left; reflexivity].
  - right. left. split; [reflexivity|exact BL].
Qed.

(** plain steps of a blank state that do not involve the reader *)
Lemma switch_000 : switch 0 0 0 = (0, 0, 0). Proof. reflexivity. Qed.
Lemma blank_step s a s' : blank s -> step s a = Some s' ->
  (forall bs, a <> ADone bs) -> a <> APick -> a <> ARetry -> a <> AEmit -> a <> AReset ->
  blank s' /\ g_rd s' = g_rd s /\ h_in s' = h_in s.
Proof.
  intros (A & B & C & D & E & F) H N1 N2 N3 N4 N5. destruct a as [|x v|bs| | | | |k| | |]; cbn [step] in H; try congruence.
  - destruct (g_rd s) as [|off| |] eqn:R; try discriminate. destruct (_ && _); [|discriminate].
    injection H as <-. repeat split; cbn; auto.
  - destruct (negb _ && _); [|discriminate]. injection H as <-. unfold do_get. rewrite A, B, C, switch_000.
    repeat split; cbn; auto.
  - destruct (g_busy s && _); [|discriminate]. injection H as <-. repeat split; cbn; auto.
  - destruct (g_busy s && (g_pend s =? 0) && (0 <? k) && (k <=? g_rem s)) eqn:G; [|discriminate].
    exfalso. apply andb_prop in G. destruct G as [G1 G2]. apply andb_prop in G1. destruct G1 as [_ G1].
    apply N.ltb_lt in G1. apply N.leb_le in G2. lia.
  - rewrite E in H. destruct (g_busy s); discriminate.
  - destruct (g_busy s && (g_rem s =? 0)); [|discriminate]. destruct (g_post s); injection H as <-.
    + unfold do_get. rewrite A, B, C, switch_000. repeat split; cbn; auto.
    + repeat split; cbn; auto.
Qed.

Lemma xinv_step s a s' : xinv s -> xstep s a = Some s' -> xinv s'.
Proof.
  intros I H. destruct a as [a| | |]; cbn [xstep] in H.
  - destruct I as [I|[[D B]|(off & R & O & B & HI)]].
    + left. eapply step_inv; eauto.
    + assert (NR : a = AReset \/ a <> AReset) by (destruct a; auto; right; discriminate).
      destruct NR as [-> |NR].
      { cbn [step] in H. injection H as <-. left. apply blank_inv; [repeat split|reflexivity|left; reflexivity]. }
      right. left.
      destruct (blank_step s a s' B H) as (B' & R' & _).
      * intros bs ->. cbn [step] in H. rewrite D in H. discriminate.
      * intros ->. cbn [step] in H. rewrite D in H. discriminate.
      * intros ->. cbn [step] in H. rewrite D in H. discriminate.
      * intros ->. cbn [step] in H. rewrite D in H. discriminate.
      * exact NR.
      * split; [congruence|exact B'].
    + assert (CA : a = AReset \/ a = ARetry \/ (exists bs, a = ADone bs) \/
                   (a <> AReset /\ a <> ARetry /\ forall bs, a <> ADone bs)).
      { destruct a; try (right; right; right; repeat split; intros; discriminate); eauto. }
      destruct CA as [-> |[-> |[[bs ->]|(N1 & N2 & N3)]]].
      * cbn [step] in H. injection H as <-. left. apply blank_inv; [repeat split|reflexivity|left; reflexivity].
      * cbn [step] in H. rewrite R in H. injection H as <-. left.
        apply blank_inv; [exact B|exact HI|left; reflexivity].
      * destruct (N.eq_dec off 0) as [-> |NZ].
        { left. eapply step_inv; [|exact H]. apply blank_inv; auto. }
        right. left. cbn [step] in H. rewrite R in H. destruct (len bs <=? MAX_IN); [|discriminate].
        destruct B as (B1 & B2 & B3 & B4 & B5 & B6).
        replace (mark_new s off (len bs)) with (@None (N * N)) in H.
        2:{ unfold mark_new. rewrite B1, B2, B3. destruct (N.eqb_spec off (0 + 0)); [lia|].
            destruct (N.eqb_spec off 0); [lia|reflexivity]. }
        injection H as <-. split; [reflexivity|]. repeat split; assumption.
      * destruct (blank_step s a s' B H) as (B' & R' & HI'); auto.
        { intros ->. cbn [step] in H. rewrite R in H. discriminate. }
        { intros ->. cbn [step] in H. rewrite R in H. discriminate. }
        right. right. exists off. rewrite R', HI'. auto.
  - injection H as <-. now apply xinv_stop.
  - injection H as <-. right. left. split; [reflexivity|repeat split].
  - destruct (g_rd s) eqn:R; injection H as <-; auto.
    destruct I as [I|[[_ B]|(off & R' & _)]]; [|left|congruence].
    + exfalso. pose proof (i_rd s I) as X. unfold rd_inv in X. rewrite R in X. exact X.
    + destruct B as (B1 & B2 & B3 & B4 & B5 & B6).
      apply blank_inv; [repeat split; assumption|reflexivity|left; reflexivity].
Qed.
Lemma xrun_inv l : forall s s', xinv s -> xrun s l = Some s' -> xinv s'.
Proof.
  induction l as [|a l IH]; intros s s' H; cbn [xrun]; [now intros [= <-]|].
  destruct (xstep s a) eqn:E; [|discriminate]. apply IH. eapply xinv_step; eauto.
Qed.
Lemma xreachable_inv s : xreachable s -> xinv s.
Proof. intros (m & l & H). eapply xrun_inv; [apply xinv_init|exact H]. Qed.

(** ** Consequences *)
Lemma inv_fifo s : inv s -> exists rest, h_in s = h_out s ++ rest /\ len rest = g_size1 s + g_size2 s - g_pend s.
Proof.
  intros I. destruct (i_fifo s I) as (rel & F1 & F2). pose proof (i_pend s I). pose proof (i_rem s I).
  destruct (slice_prefix (g_mem s) (g_start s) (N.to_nat (g_size1 s)) (N.to_nat (g_pend s))) as (r & E & L); [lia|].
  exists (r ++ slice (g_mem s) 0 (N.to_nat (g_size2 s))). split.
  - rewrite F1, F2. unfold content. rewrite E, !app_assoc. reflexivity.
  - rewrite len_app. unfold len. rewrite L, slice_length. lia.
Qed.
Lemma x_prefix s : xreachable s -> exists rest, h_in s = h_out s ++ rest.
Proof.
  intros H. apply xreachable_inv in H. destruct H as [I|[[_ B]|(off & _ & _ & B & _)]].
  - destruct (inv_fifo s I) as (r & E & _). eauto.
  - exists (h_in s). destruct B as (_ & _ & _ & _ & _ & ->). reflexivity.
  - exists (h_in s). destruct B as (_ & _ & _ & _ & _ & ->). reflexivity.
Qed.
Lemma x_no_overwrite s off : xreachable s -> g_rd s = RFlight off ->
  off + MAX_IN <= BUFSZ /\
  forall x, off <= x < off + MAX_IN ->
    ~ (g_start s <= x < g_start s + g_size1 s) /\ ~ (x < g_size2 s).
Proof.
  intros H R. apply xreachable_inv in H. destruct H as [I|[[D _]|(o & R' & O & B & _)]]; [|congruence|].
  - pose proof (i_rd s I) as Hr. unfold rd_inv in Hr. rewrite R in Hr.
    pose proof (i_two s I). unfold BUFSZ, MAX_IN in *. split; [lia|]. intros x Hx. lia.
  - assert (o = off) as -> by congruence. destruct B as (-> & -> & -> & _). split; [exact O|]. intros x Hx. lia.
Qed.

(** Stopping harms nothing when no read is in flight, or when the read in flight fails. *)
Lemma x_survives s s1 s2 : xreachable s -> xstep s XStop = Some s1 ->
  (s2 = s1 /\ (g_rd s = RIdle \/ g_rd s = RMarked) \/ xstep s1 (XBase ARetry) = Some s2) ->
  forall l s3, run s2 l = Some s3 ->
    g_rd s3 <> RDead /\ exists rest, h_in s3 = h_out s3 ++ rest /\ len rest = g_size1 s3 + g_size2 s3 - g_pend s3.
Proof.
  intros X H C l s3 HR. assert (I2 : inv s2).
  { cbn [xstep] in H. injection H as <-. destruct C as [[-> C]|C].
    - apply blank_inv; [repeat split|reflexivity|tauto].
    - cbn [xstep step stop_read g_rd] in C. destruct (g_rd s); try discriminate. injection C as <-.
      apply blank_inv; [repeat split|reflexivity|left; reflexivity]. }
  pose proof (run_inv l s2 s3 I2 HR) as I3. split; [|now apply inv_fifo].
  intros D. pose proof (i_rd s3 I3) as Y. unfold rd_inv in Y. now rewrite D in Y.
Qed.

(** A reader that gave up stays so, and nothing is delivered, until something starts it. *)
Definition starts (a : xact) : bool := match a with XStart => true | XBase AReset => true | _ => false end.
Lemma dead_step s a s' : g_rd s = RDead -> blank s -> starts a = false -> xstep s a = Some s' ->
  g_rd s' = RDead /\ blank s'.
Proof.
  intros D B N H. destruct a as [a| | |]; cbn [xstep starts] in *; try discriminate.
  - destruct (blank_step s a s' B H) as (B' & R' & _).
    + intros bs ->. cbn [step] in H. rewrite D in H. discriminate.
    + intros ->. cbn [step] in H. rewrite D in H. discriminate.
    + intros ->. cbn [step] in H. rewrite D in H. discriminate.
    + intros ->. cbn [step] in H. rewrite D in H. discriminate.
    + intros ->. discriminate.
    + split; [congruence|exact B'].
  - injection H as <-. split; [exact D|repeat split].
  - injection H as <-. split; [reflexivity|repeat split].
Qed.
Lemma dead_run l : forall s s', g_rd s = RDead -> blank s -> Forall (fun a => starts a = false) l -> xrun s l = Some s' ->
  g_rd s' = RDead /\ h_out s' = [].
Proof.
  induction l as [|a l IH]; intros s s' D B F H; cbn [xrun] in H.
  - injection H as <-. destruct B as (_ & _ & _ & _ & _ & B). auto.
  - inversion F; subst. destruct (xstep s a) as [s1|] eqn:E; [|discriminate].
    destruct (dead_step _ _ _ D B H2 E). eauto.
Qed.
