(** The control endpoint: ControlReaderThread (mts/transport/usb/threadio.cpp:189-303)
    on FunctionFS' ep0 file.

    The kernel's side of ep0 is environment and follows include/linux/usb/functionfs.h
    and Linux' f_fs.c (ffs_ep0_read, ffs_ep0_write, __ffs_event_add): reads return event
    records unless a setup request is waiting for its data stage; then a read in the
    direction of the request transfers the data stage and any transfer in the wrong
    direction stalls.  Any new event cancels a setup request that is being served. *)
From Verif Require Import Base.

(** struct usb_ctrlrequest *)
Record setup := mk_setup {
  s_type : N;    (* bRequestType *)
  s_req : N;     (* bRequest *)
  s_val : N;     (* wValue *)
  s_idx : N;     (* wIndex *)
  s_len : N      (* wLength *)
}.
Definition setup_ok (su : setup) : Prop :=
  s_type su < 256 /\ s_req su < 256 /\ s_val su < 65536 /\ s_idx su < 65536 /\ s_len su < 65536.
(** USB_DIR_IN *)
Definition dir_in (ty : N) : bool := N.testbit ty 7.

(** what the kernel reports: functionfs.h usb_functionfs_event_type *)
Inductive kev := KBind | KUnbind | KEnable | KDisable | KSetup (su : setup) | KSuspend | KResume.
Definition kev_ok (e : kev) : Prop := match e with KSetup su => setup_ok su | _ => True end.
Definition kev_type (e : kev) : N :=
  match e with KBind => 0 | KUnbind => 1 | KEnable => 2 | KDisable => 3 | KSetup _ => 4 | KSuspend => 5 | KResume => 6 end.
(** struct usb_functionfs_event: 8 bytes of setup packet, type, 3 bytes of padding *)
Definition rec_bytes (e : kev) : bytes :=
  match e with
  | KSetup su => s_type su :: s_req su :: le_enc 2 (s_val su) ++ le_enc 2 (s_idx su) ++ le_enc 2 (s_len su)
  | _ => repeat 0 8
  end ++ [kev_type e; 0; 0; 0].
Definition REC : N := 12.
Definition MAX_CONTROL : N := 64.   (* threadio.cpp:51 MAX_CONTROL_IN_SIZE *)

Inductive ep0 := NoSetup | Pending (su : setup) | Cancelled.
Inductive sig := SStart | SStop | SBind | SUnbind | SReset | SCancel.
(** observable history: what the kernel handed over, what the rest of the program was
    told, and how the request of the host was concluded *)
Inductive cev :=
| VRead (e : kev)
| VSig (g : sig)
| VData (b : bytes)                 (* data stage sent to the host *)
| VStall
| VAck (su : setup) (b : bytes).    (* data stage received from the host, request acknowledged *)

Record cst := mk_cst {
  c_q : list kev;          (* the kernel's queue *)
  c_ep0 : ep0;
  c_todo : list bytes;     (* records of the last read not yet handled: the loop 213-214 *)
  c_status : option N;     (* m_status; None: never assigned (the constructor 190-193 does not) *)
  c_log : list cev         (* newest first *)
}.
Definition ctl_init : cst := mk_cst [] NoSetup [] None [].

Definition note (v : cev) (s : cst) : cst :=
  mk_cst (c_q s) (c_ep0 s) (c_todo s) (c_status s) (v :: c_log s).
Definition set_ep0 (e : ep0) (s : cst) : cst := mk_cst (c_q s) e (c_todo s) (c_status s) (c_log s).

(** threadio.cpp:66-79 status_data: the 4 bytes sent *)
Definition status_data (st : N) : bytes :=
  match st with
  | 0 => le_enc 2 4 ++ le_enc 2 0x2001
  | 1 => le_enc 2 4 ++ le_enc 2 0x2019
  | _ => le_enc 2 4 ++ le_enc 2 0x201F
  end.

(** write(2) of [b] on ep0 *)
Definition ep0_write (b : bytes) (s : cst) : cst :=
  match c_ep0 s with
  | Pending su =>
    if dir_in (s_type su) then set_ep0 NoSetup (note (VData (take (s_len su) b)) s)
    else set_ep0 NoSetup (note VStall s)
  | Cancelled => set_ep0 NoSetup s      (* EIDRM *)
  | NoSetup => s                        (* ESRCH *)
  end.
(** read(2) of length 0 on ep0 *)
Definition ep0_read0 (s : cst) : cst :=
  match c_ep0 s with
  | Pending su =>
    if dir_in (s_type su) then set_ep0 NoSetup (note VStall s)
    else set_ep0 NoSetup (note (VAck su []) s)
  | Cancelled => set_ep0 NoSetup s
  | NoSetup => s                        (* EINVAL *)
  end.

(** 224-241 sendStatus.  After the first write the request is concluded, so a second
    write (short wLength) fails and the loop returns.  An unassigned m_status indexes
    status_data with an indeterminate value. *)
Definition send_status (s : cst) : outcome cst :=
  match c_status s with
  | None => UB
  | Some st => Ret (ep0_write (status_data st) s)
  end.
(** 157-174 IOThread::stall *)
Definition stall (dirIn : bool) (s : cst) : cst := if dirIn then ep0_read0 s else ep0_write [] s.

(** 277-303 setupRequest *)
Definition setup_request (r : bytes) (s : cst) : outcome cst :=
  let ty := nth 0 r 0 in
  let rq := nth 1 r 0 in
  if rq =? 0x67 then
    if ty =? 0xa1 then send_status s else Ret (stall (dir_in ty) s)
  else if rq =? 0x64 then Ret (note (VSig SCancel) s)
  else if rq =? 0x66 then Ret (note (VSig SReset) s)
  else Ret (stall (dir_in ty) s).

(** 246-275 handleEvent; the log line reads event_names[type], an array of 7 *)
Definition handle_event (r : bytes) (s : cst) : outcome cst :=
  match nth 8 r 0 with
  | 2 | 6 => Ret (note (VSig SStart) s)
  | 3 | 5 => Ret (note (VSig SStop) s)
  | 0 => Ret (note (VSig SBind) s)
  | 1 => Ret (note (VSig SUnbind) s)
  | 4 => setup_request r s
  | _ => UB
  end.

(** 211-212: the whole records in what was read *)
Fixpoint chop (n : nat) (l : bytes) : list bytes :=
  match n with O => [] | S m => take REC l :: chop m (drop REC l) end.
Definition records (l : bytes) : list bytes := chop (N.to_nat (len l / REC)) l.

Fixpoint last_setup (l : list kev) : option setup :=
  match l with
  | [] => None
  | KSetup su :: l' => match last_setup l' with Some x => Some x | None => Some su end
  | _ :: l' => last_setup l'
  end.
Definition is_setup (e : kev) : bool := match e with KSetup _ => true | _ => false end.

Inductive cact :=
| KPost (q : list kev)      (* the kernel's queue changes because an event arrives *)
| MSetStatus (st : N)       (* the main thread: setStatus 243-248 *)
| CRead (d : bytes)         (* 205: read(2) of 64 bytes; d is what the host sends in a data stage *)
| CIntr                     (* 206-209: read(2) fails *)
| CHandle.                  (* 213-214: next record *)

Definition cstep (a : cact) (s : cst) : outcome cst :=
  match a with
  | KPost q =>
    if len (filter is_setup q) <=? 1 then
      Ret (mk_cst q (match c_ep0 s with Pending _ => Cancelled | x => x end) (c_todo s) (c_status s) (c_log s))
    else Ret s
  | MSetStatus st => Ret (mk_cst (c_q s) (c_ep0 s) (c_todo s) (Some st) (c_log s))
  | CIntr => Ret s
  | CRead d =>
    match c_todo s with
    | _ :: _ => Ret s
    | [] =>
      match c_ep0 s with
      | Cancelled => Ret (set_ep0 NoSetup s)
      | Pending su =>
        if dir_in (s_type su) then Ret (set_ep0 NoSetup (note VStall s))
        else
          let d' := take (N.min MAX_CONTROL (s_len su)) d in
          Ret (mk_cst (c_q s) NoSetup (records d') (c_status s) (VAck su d' :: c_log s))
      | NoSetup =>
        let es := take (MAX_CONTROL / REC) (c_q s) in
        let q' := drop (MAX_CONTROL / REC) (c_q s) in
        Ret (mk_cst q' (match last_setup es with Some su => Pending su | None => NoSetup end)
               (records (concat (map rec_bytes es))) (c_status s) (rev (map VRead es) ++ c_log s))
      end
    end
  | CHandle =>
    match c_todo s with
    | [] => Ret s
    | r :: rest => handle_event r (mk_cst (c_q s) (c_ep0 s) rest (c_status s) (c_log s))
    end
  end.

Fixpoint crun (l : list cact) (s : cst) : outcome cst :=
  match l with
  | [] => Ret s
  | a :: l' => do s' <- cstep a s; crun l' s'
  end.
