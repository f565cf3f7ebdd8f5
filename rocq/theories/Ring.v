(** The receive buffer shared by the USB reader thread and the main thread:
    BulkReaderThread in mts/transport/usb/threadio.cpp, with the main thread's
    MTPTransporterUSB::handleDataReady / processReceivedData as consumer.

    Every action below is one critical section (m_bufferLock) or one unlocked
    step of one thread, so a list of actions is an interleaving of the threads. *)
From Verif Require Import Base.

(** threadio.cpp:50, 65 *)
Definition MAX_IN : N := 16384.
Definition BUFSZ : N := 262144.

(** Memory: address -> byte. *)
Definition mem := N -> N.
Fixpoint slice (m : mem) (a : N) (n : nat) : bytes :=
  match n with O => [] | S k => m a :: slice m (a + 1) k end.
Fixpoint store (m : mem) (a : N) (bs : bytes) : mem :=
  match bs with
  | [] => m
  | b :: r => fun x => if x =? a then b else store m (a + 1) r x
  end.

(** Program counter of the reader thread (execute, threadio.cpp:359-418). *)
Inductive reader :=
| RIdle                 (* before choosing an offset, possibly waiting on m_wait *)
| RFlight (off : N)     (* inside read(2) at m_buffer + off *)
| RMarked               (* data marked, dataReady not yet emitted *)
| RDead.                (* left the loop because of a bad offset *)

Record ring := mk_ring {
  g_mem : mem;
  g_start : N; g_size1 : N; g_size2 : N;   (* m_dataStart, m_dataSize1, m_dataSize2 *)
  g_rd : reader;
  g_sigs : N;            (* dataReady signals queued for the main thread *)
  g_busy : bool;         (* m_reader_busy <> READER_FREE *)
  g_post : bool;         (* m_reader_busy = READER_POSTPONED *)
  g_ptr : N; g_rem : N;  (* processReceivedData: data, dataLen *)
  g_pend : N;            (* chunk handed to the responder, not yet released *)
  (* history, not part of the program state *)
  h_in : bytes;          (* bytes read(2) delivered and the reader announced *)
  h_out : bytes          (* bytes the main thread has read from the buffer *)
}.

(** threadio.cpp:310-330 constructor / resetData *)
Definition ring_init (m : mem) : ring :=
  mk_ring m 0 0 0 RIdle 0 false false 0 0 0 [] [].

(** threadio.cpp:332-340 _getOffset_locked; None stands for -1.  The C++ ints
    are not negative here (invariant proved in RingProofs), so the subtractions
    are written as additions on the other side. *)
Definition get_offset (s : ring) : option N :=
  if g_start s + g_size1 s + MAX_IN <=? BUFSZ then Some (g_start s + g_size1 s)
  else if g_size2 s + MAX_IN <=? g_start s then Some (g_size2 s)
  else None.

(** threadio.cpp:342-357 _markNewData *)
Definition mark_new (s : ring) (off n : N) : option (N * N) :=
  if off =? g_start s + g_size1 s then Some (g_size1 s + n, g_size2 s)
  else if off =? g_size2 s then Some (g_size1 s, g_size2 s + n)
  else None.

(** The switch-over shared by getData (428-435) and releaseData (453-460). *)
Definition switch (start size1 size2 : N) : N * N * N :=
  if (size1 =? 0) && (0 <? size2) then (0, size2, 0) else (start, size1, size2).

Inductive action :=
| APick                      (* 365-377: choose an offset *)
| AScribble (a v : N)        (* the kernel writes into the buffer of the read in flight *)
| ADone (bs : bytes)         (* read(2) returns these bytes; _markNewData 405 *)
| ARetry                     (* read(2) fails with EINTR/EAGAIN/ESHUTDOWN: continue *)
| AEmit                      (* 413: emit dataReady *)
| AGet                       (* handleDataReady on a queued signal, 489-505 + getData *)
| ANested                    (* a queued signal delivered while busy: 498-501 *)
| ARead (k : N)              (* processReceivedData: dataReceived(data, k) *)
| ARelease                   (* processReceivedData: releaseData(chunkLen) *)
| AFinish                    (* end of the loop 550-583; 508 loop condition *)
| AReset.                    (* mtptransporterusb.cpp:208-226 reset: exitThread, resetData, start.  (stopRead,
                                which does not stop the thread first, is in RingStop.v.) *)

(** getData, threadio.cpp:424-446: returns the new state with data/dataLen set. *)
Definition do_get (s : ring) (sigs : N) : ring :=
  match switch (g_start s) (g_size1 s) (g_size2 s) with
  | (st, s1, s2) =>
    mk_ring (g_mem s) st s1 s2 (g_rd s) sigs true false
      (if 0 <? s1 then st else 0) s1 0 (h_in s) (h_out s)
  end.

Definition step (s : ring) (a : action) : option ring :=
  match a with
  | APick =>
    match g_rd s, get_offset s with
    | RIdle, Some off =>
      Some (mk_ring (g_mem s) (g_start s) (g_size1 s) (g_size2 s) (RFlight off) (g_sigs s)
        (g_busy s) (g_post s) (g_ptr s) (g_rem s) (g_pend s) (h_in s) (h_out s))
    | _, _ => None
    end
  | AScribble x v =>
    match g_rd s with
    | RFlight off =>
      if (off <=? x) && (x <? off + MAX_IN) then
        Some (mk_ring (store (g_mem s) x [v]) (g_start s) (g_size1 s) (g_size2 s) (g_rd s) (g_sigs s)
          (g_busy s) (g_post s) (g_ptr s) (g_rem s) (g_pend s) (h_in s) (h_out s))
      else None
    | _ => None
    end
  | ADone bs =>
    match g_rd s with
    | RFlight off =>
      if len bs <=? MAX_IN then
        let m := store (g_mem s) off bs in
        match mark_new s off (len bs) with
        | Some (s1, s2) =>
          Some (mk_ring m (g_start s) s1 s2 RMarked (g_sigs s)
            (g_busy s) (g_post s) (g_ptr s) (g_rem s) (g_pend s) (h_in s ++ bs) (h_out s))
        | None =>
          Some (mk_ring m (g_start s) (g_size1 s) (g_size2 s) RDead (g_sigs s)
            (g_busy s) (g_post s) (g_ptr s) (g_rem s) (g_pend s) (h_in s ++ bs) (h_out s))
        end
      else None
    | _ => None
    end
  | ARetry =>
    match g_rd s with
    | RFlight _ =>
      Some (mk_ring (g_mem s) (g_start s) (g_size1 s) (g_size2 s) RIdle (g_sigs s)
        (g_busy s) (g_post s) (g_ptr s) (g_rem s) (g_pend s) (h_in s) (h_out s))
    | _ => None
    end
  | AEmit =>
    match g_rd s with
    | RMarked =>
      Some (mk_ring (g_mem s) (g_start s) (g_size1 s) (g_size2 s) RIdle (g_sigs s + 1)
        (g_busy s) (g_post s) (g_ptr s) (g_rem s) (g_pend s) (h_in s) (h_out s))
    | _ => None
    end
  | AGet =>
    if negb (g_busy s) && (0 <? g_sigs s) then Some (do_get s (g_sigs s - 1)) else None
  | ANested =>
    if g_busy s && (0 <? g_sigs s) then
      Some (mk_ring (g_mem s) (g_start s) (g_size1 s) (g_size2 s) (g_rd s) (g_sigs s - 1)
        true true (g_ptr s) (g_rem s) (g_pend s) (h_in s) (h_out s))
    else None
  | ARead k =>
    if g_busy s && (g_pend s =? 0) && (0 <? k) && (k <=? g_rem s) then
      Some (mk_ring (g_mem s) (g_start s) (g_size1 s) (g_size2 s) (g_rd s) (g_sigs s)
        (g_busy s) (g_post s) (g_ptr s) (g_rem s) k
        (h_in s) (h_out s ++ slice (g_mem s) (g_ptr s) (N.to_nat k)))
    else None
  | ARelease =>
    if g_busy s && (0 <? g_pend s) then
      match switch (g_start s + g_pend s) (g_size1 s - g_pend s) (g_size2 s) with
      | (st, s1, s2) =>
        Some (mk_ring (g_mem s) st s1 s2 (g_rd s) (g_sigs s)
          (g_busy s) (g_post s) (g_ptr s + g_pend s) (g_rem s - g_pend s) 0 (h_in s) (h_out s))
      end
    else None
  | AFinish =>
    if g_busy s && (g_rem s =? 0) then
      if g_post s then Some (do_get s (g_sigs s))
      else Some (mk_ring (g_mem s) (g_start s) (g_size1 s) (g_size2 s) (g_rd s) (g_sigs s)
             false false (g_ptr s) 0 0 (h_in s) (h_out s))
    else None
  | AReset =>
    Some (mk_ring (g_mem s) 0 0 0 RIdle (g_sigs s) (g_busy s) (g_post s) 0 0 0 [] [])
  end.

Fixpoint run (s : ring) (l : list action) : option ring :=
  match l with
  | [] => Some s
  | a :: r => match step s a with Some s' => run s' r | None => None end
  end.
Definition reachable (s : ring) : Prop := exists m l, run (ring_init m) l = Some s.
