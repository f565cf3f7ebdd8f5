(** Event transmission: InterruptWriterThread (mts/transport/usb/threadio.cpp:559-710)
    together with the event related part of MTPTransporterUSB
    (mts/transport/usb/mtptransporterusb.cpp:85-115, 210-225, 259-480, 586-640).

    Two threads; each action is one step of one of them.  An event is
    represented by a number (its payload); payloads are never empty. *)
From Verif Require Import Base.

Definition MAX_EVENTS : N := 512.     (* threadio.cpp:60 *)
Definition MAX_FAIL : N := 3.         (* mtptransporterusb.cpp:350 *)

Inductive eb := EIdle | EBusy | ERetry | EDisabled.   (* m_events_busy *)
(** the interrupt writer thread *)
Inductive thr :=
| TOff          (* not running *)
| TStarting     (* started, has not reached m_wait.wait yet *)
| TWaiting      (* in m_wait.wait *)
| TWoken        (* woken by sendOne, about to look at the queue *)
| TWriting.     (* inside write(2) *)
Inductive res := RSuccess | RRetry.                    (* senderIdle(result) *)
(** sendData in the main thread *)
Inductive wst :=
| WFree
| WWaitEv       (* m_writer_busy, waiting for m_events_busy to change, 281-296 *)
| WBulk.        (* bulk writer thread running, 306-320 *)

Record est := mk_est {
  e_q : list N;            (* InterruptWriterThread::m_buffers *)
  e_cur : option N;        (* execute()'s dataptr *)
  e_th : thr;
  e_sigs : list res;       (* queued senderIdle signals *)
  e_w : wst;               (* m_writer_busy etc *)
  e_resp : bool;           (* m_responderBusy *)
  e_sess : bool;           (* m_inSession *)
  e_eb : eb;
  e_failed : N;            (* m_events_failed *)
  (* history *)
  h_added : list N;        (* events accepted by sendEvent *)
  h_sent : list N          (* events the endpoint accepted *)
}.

(** Constructor state 53-68. *)
Definition ev_init : est := mk_est [] None TOff [] WFree true false EIdle 0 [] [].

(** threadio.cpp:596-628 addData *)
Definition add_data (q : list N) (e : N) : list N :=
  (if MAX_EVENTS <=? len q then drop (len q - (MAX_EVENTS - 1)) q else q) ++ [e].

(** mtptransporterusb.cpp:352-385 sendQueuedEvent; sendOne (threadio.cpp:575-579)
    wakes the thread only if it is waiting. *)
Definition set_eb (s : est) (b : eb) : est :=
  mk_est (e_q s) (e_cur s) (e_th s) (e_sigs s) (e_w s) (e_resp s) (e_sess s) b (e_failed s) (h_added s) (h_sent s).
Definition wake (t : thr) : thr := match t with TWaiting => TWoken | _ => t end.
Definition send_queued (s : est) : est :=
  match e_w s with
  | WFree =>
    if e_resp s then s
    else if negb (e_sess s) then s
    else match e_eb s with
    | EDisabled | EBusy => s
    | _ =>
      if match e_eb s, e_q s with EIdle, [] => true | _, _ => false end then s
      else if MAX_FAIL <=? e_failed s then set_eb s EDisabled
      else mk_est (e_q s) (e_cur s) (wake (e_th s)) (e_sigs s) (e_w s) (e_resp s) (e_sess s) EBusy
             (e_failed s) (h_added s) (h_sent s)
    end
  | _ => s
  end.

Inductive eact :=
| MAdd (e : N)          (* sendEvent 387-414 *)
| MSession (b : bool)   (* sessionOpenChanged 330-346 *)
| MCmdPending           (* onCommandPending 107-113 *)
| MCmdFinished          (* onCommandFinished 98-105 *)
| MTimeout              (* eventTimeout 416-442 *)
| MCompleted            (* eventCompleted 443-480 on the oldest queued signal *)
| MSendData             (* sendData 268-283 *)
| MSendGo               (* sendData 297-303: events no longer busy, bulk write starts *)
| MSendEnd              (* sendData 311-327 *)
| MReset                (* reset 208-226 *)
| MClose                (* closeDevices 615-641 *)
| MOpen                 (* openDevices 606-612: m_intrWrite.start() *)
| TEnter                (* execute reaches m_wait.wait *)
| TStart                (* execute 652-670 after a wake-up *)
| TDone                 (* write(2) succeeded *)
| TFail                 (* write(2) failed with EINTR, EAGAIN or ESHUTDOWN *)
| TFatal.               (* write(2) failed otherwise: the thread exits *)

Definition upd_main (s : est) (resp sess : bool) (b : eb) (failed : N) : est :=
  mk_est (e_q s) (e_cur s) (e_th s) (e_sigs s) (e_w s) resp sess b failed (h_added s) (h_sent s).
Definition upd_w (s : est) (w : wst) : est :=
  mk_est (e_q s) (e_cur s) (e_th s) (e_sigs s) w (e_resp s) (e_sess s) (e_eb s) (e_failed s) (h_added s) (h_sent s).
Definition upd_q (s : est) (q : list N) (cur : option N) (t : thr) (sg : list res) : est :=
  mk_est q cur t sg (e_w s) (e_resp s) (e_sess s) (e_eb s) (e_failed s) (h_added s) (h_sent s).

Definition estep (s : est) (a : eact) : option est :=
  match a with
  | MAdd e =>
    if negb (e_sess s) then Some s
    else if MAX_FAIL <=? e_failed s then Some s
    else Some (send_queued
      (mk_est (add_data (e_q s) e) (e_cur s) (e_th s) (e_sigs s) (e_w s) (e_resp s) (e_sess s) (e_eb s)
        (e_failed s) (h_added s ++ [e]) (h_sent s)))
  | MSession b =>
    if Bool.eqb b (e_sess s) then Some s
    else Some (upd_main s (e_resp s) b
           (match e_eb s with EDisabled => EIdle | x => x end)
           (if b then 0 else e_failed s))
  | MCmdPending => Some (upd_main s true (e_sess s) (e_eb s) (e_failed s))
  | MCmdFinished =>
    if e_resp s then Some (send_queued (upd_main s false (e_sess s) (e_eb s) (e_failed s))) else Some s
  | MTimeout =>
    match e_w s with
    | WFree =>
      let f := e_failed s + 1 in
      let s1 := upd_main s (e_resp s) (e_sess s) (e_eb s) f in
      Some (if f =? MAX_FAIL then upd_q s1 [] (e_cur s) (e_th s) (e_sigs s) else s1)
    | _ => Some s
    end
  | MCompleted =>
    match e_sigs s with
    | [] => None
    | r :: rest =>
      let s1 := upd_q s (e_q s) (e_cur s) (e_th s) rest in
      match e_eb s with
      | EBusy =>
        match r with
        | RSuccess => Some (send_queued (upd_main s1 (e_resp s) (e_sess s) EIdle 0))
        | RRetry => Some (send_queued (set_eb s1 ERetry))
        end
      | _ => Some s1
      end
    end
  | MSendData => match e_w s with WFree => Some (upd_w s WWaitEv) | _ => Some s end
  | MSendGo => match e_w s, e_eb s with
               | WWaitEv, EBusy => None
               | WWaitEv, _ => Some (upd_w s WBulk)
               | _, _ => None
               end
  | MSendEnd => match e_w s with WBulk => Some (send_queued (upd_w s WFree)) | _ => None end
  | MReset => Some (upd_q s (e_q s) None TStarting (e_sigs s))
  | MClose => Some (upd_q s [] None TOff (e_sigs s))
  | MOpen => match e_th s with TOff => Some (upd_q s (e_q s) None TStarting (e_sigs s)) | _ => Some s end
  | TEnter => match e_th s with TStarting => Some (upd_q s (e_q s) (e_cur s) TWaiting (e_sigs s)) | _ => None end
  | TStart =>
    match e_th s with
    | TWoken =>
      match e_cur s, e_q s with
      | Some _, _ => Some (upd_q s (e_q s) (e_cur s) TWriting (e_sigs s))
      | None, [] => Some (upd_q s [] None TWaiting (e_sigs s ++ [RSuccess]))
      | None, e :: q => Some (upd_q s q (Some e) TWriting (e_sigs s))
      end
    | _ => None
    end
  | TDone =>
    match e_th s, e_cur s with
    | TWriting, Some e =>
      Some (mk_est (e_q s) None TWaiting (e_sigs s ++ [RSuccess]) (e_w s) (e_resp s) (e_sess s) (e_eb s)
              (e_failed s) (h_added s) (h_sent s ++ [e]))
    | _, _ => None
    end
  | TFail =>
    match e_th s with
    | TWriting => Some (upd_q s (e_q s) (e_cur s) TWaiting (e_sigs s ++ [RRetry]))
    | _ => None
    end
  | TFatal =>
    match e_th s with
    | TWriting => Some (upd_q s (e_q s) None TOff (e_sigs s))
    | _ => None
    end
  end.

Fixpoint erun (s : est) (l : list eact) : option est :=
  match l with [] => Some s | a :: r => match estep s a with Some s' => erun s' r | None => None end end.
Definition ereachable (s : est) : Prop := exists l, erun ev_init l = Some s.

(** ** Specification *)
(** [subseq a b]: a is b with some elements left out (order kept). *)
Inductive subseq {A} : list A -> list A -> Prop :=
| ss_nil l : subseq [] l
| ss_keep x a b : subseq a b -> subseq (x :: a) (x :: b)
| ss_skip x a b : subseq a b -> subseq a (x :: b).
