(** BulkWriterThread::execute: writing one buffer to the bulk-in endpoint
    (mts/transport/usb/threadio.cpp:491-545). *)
From Verif Require Import Base.

(** PTP_HS_DATA_PKT_SIZE (threadio.cpp / mtptransporterusb headers) *)
Definition PKT : N := 512.

(** What happens in one pass of the loop: the endpoint accepts [k] bytes (at most
    the requested number), fails with an errno, or the thread is asked to exit. *)
Inductive wev :=
| WOk (k : N)
| WEio | WEintr | WEagain | WEshutdown | WEother
| WStop.

(** One completed write(2): requested and accepted byte counts. *)
Record wr := mk_wr { w_req : N; w_bytes : bytes }.

(** [wm] = the static writeMax, [zero] = zeropacket, [data] = the dataptr/m_dataLen
    rest.  [None]: the events ran out, the thread is still in the loop. *)
Fixpoint bw_loop (evs : list wev) (wm : N) (zero : bool) (data : bytes)
  : option (bool * N * list wr) :=
  if (0 <? len data) || zero then
    match evs with
    | [] => None
    | WStop :: _ => Some (len data =? 0, wm, [])                 (* 511 m_shouldExit *)
    | e :: evs' =>
      let now := if len data <? wm then len data else wm in      (* 512 *)
      match e with
      | WOk k =>
        let n := N.min k now in
        let zero' := if len data =? 0 then false else zero in    (* 536-537 *)
        match bw_loop evs' wm zero' (drop n data) with
        | Some (r, wm', log) => Some (r, wm', mk_wr now (take n data) :: log)
        | None => None
        end
      | WEio => if PKT <? wm then bw_loop evs' (wm / 2) zero data    (* 515-519 *)
                else Some (len data =? 0, wm, [])
      | WEintr | WEagain => bw_loop evs' wm zero data
      | _ => Some (len data =? 0, wm, [])
      end
    end
  else Some (len data =? 0, wm, []).                             (* 542 m_result *)

(** execute(): [terminate] = m_terminateTransfer. *)
Definition bw_execute (evs : list wev) (wm : N) (terminate : bool) (data : bytes) :=
  bw_loop evs wm (terminate && (len data mod PKT =? 0)) data.

(** ** Specification: packets on the bus.  A write of n bytes is sent as n/512
    full packets and one short packet when 512 does not divide n; a write of 0
    bytes is one zero length packet. *)
Definition packets (n : N) : list N :=
  if n =? 0 then [0]
  else repeat 512 (N.to_nat (n / 512)) ++ (if n mod 512 =? 0 then [] else [n mod 512]).
Definition on_bus (log : list wr) : list N := flat_map (fun w => packets (len (w_bytes w))) log.
Definition sent (log : list wr) : bytes := flat_map w_bytes log.
(** write sizes the program can have arrived at: 16384 halved some times *)
Definition write_limit (wm : N) : Prop := In wm [512; 1024; 2048; 4096; 8192; 16384].
(** The endpoint takes every write completely; the only errors are ones the
    program retries (EIO counts only while writes can still be made smaller). *)
Fixpoint benign (wm : N) (evs : list wev) : Prop :=
  match evs with
  | [] => True
  | WOk k :: r => 16384 <= k /\ benign wm r
  | WEio :: r => 512 < wm /\ benign (wm / 2) r
  | (WEintr | WEagain) :: r => benign wm r
  | _ => False
  end.
Definition full_packets (l : list N) : Prop := Forall (fun n => n = 512) l.
(** ends in exactly one short (or zero length) packet, and only there *)
Definition short_terminated (l : list N) : Prop :=
  exists pre s, l = pre ++ [s] /\ full_packets pre /\ s < 512.
