(** MTPTransporterUSB::processReceivedData: cutting the received byte stream into
    containers (mts/transport/usb/mtptransporterusb.cpp:540-584). *)
From Verif Require Import Base.

(** One dataReceived(data, len, isFirstPacket, isLastPacket) signal. *)
Record delivery := mk_del { d_data : bytes; d_first : bool; d_last : bool }.

Section Env.
  (** fetchObjectSize (557-559): the responder is shown the container start and
      answers the announced object size (0 if it knows none). *)
  Variable fetch : bytes -> N.
  (** Does handling this delivery reset the connection (574-576)? *)
  Variable resets : delivery -> bool.

  (** One pass of the while loop 550-583.  [rl] = m_containerReadLen,
      [data] = the bytes of the current buffer not yet processed. *)
  Definition start_len (rl : N) (data : bytes) : outcome (N * bool) :=
    if rl =? 0 then
      if len data <? 4 then UB            (* 555 reads four bytes regardless *)
      else
        let claimed := le_dec (take 4 data) in
        if claimed =? 0xFFFFFFFF then
          let size := fetch data in
          Ret (if 0xFFFFFFFF - 12 <? size then u64 (size + 12) else claimed, true)
        else Ret (claimed, true)
    else Ret (rl, false).

  (** [isFirst] is the local isFirstPacket, which the loop never clears.  [None]:
      the loop is still running after [fuel] passes. *)
  Fixpoint frame_loop (fuel : nat) (rl : N) (isFirst : bool) (data : bytes)
    : option (outcome (N * list delivery)) :=
    match fuel with
    | O => None
    | S f =>
      match data with
      | [] => Some (Ret (rl, []))
      | _ =>
        match start_len rl data with
        | Ret (rl1, st) =>
          let first := isFirst || st in
          let chunk := if len data <? rl1 then len data else rl1 in
          let rl2 := rl1 - chunk in
          let d := mk_del (take chunk data) first (rl2 =? 0) in
          if resets d then Some (Ret (0, [d]))
          else match frame_loop f rl2 first (drop chunk data) with
               | Some (Ret (rl3, ds)) => Some (Ret (rl3, d :: ds))
               | r => r
               end
        | UB => Some UB
        | Abort => Some Abort
        end
      end
    end.

  Definition frame_packet (rl : N) (data : bytes) : option (outcome (N * list delivery)) :=
    frame_loop (S (length data)) rl false data.

  (** Successive buffers fetched by handleDataReady (489-511). *)
  Fixpoint frame_packets (rl : N) (ps : list bytes) : option (outcome (N * list delivery)) :=
    match ps with
    | [] => Some (Ret (rl, []))
    | p :: r =>
      match frame_packet rl p with
      | Some (Ret (rl1, ds)) =>
        match frame_packets rl1 r with
        | Some (Ret (rl2, ds')) => Some (Ret (rl2, ds ++ ds'))
        | x => x
        end
      | x => x
      end
    end.
End Env.

(** ** Specification *)

(** Putting deliveries back together: [None] when the flags are not exactly
    "first on the first chunk, last on the last chunk"; otherwise the finished
    containers and the unfinished one, if any. *)
Fixpoint assemble (open : option bytes) (ds : list delivery) : option (list bytes * option bytes) :=
  match ds with
  | [] => Some ([], open)
  | d :: r =>
    let acc := match open, d_first d with
               | None, true => Some (d_data d)
               | Some a, false => Some (a ++ d_data d)
               | _, _ => None
               end in
    match acc with
    | None => None
    | Some a =>
      if d_last d then
        match assemble None r with Some (cs, o) => Some (a :: cs, o) | None => None end
      else assemble (Some a) r
    end
  end.

(** A container whose length field tells its length: directly, or, when it is
    0xFFFFFFFF, through the object size announced for it. *)
Definition declares_length (fetch : bytes -> N) (c : bytes) : Prop :=
  12 <= len c < 2^64 /\
  ((le_dec (take 4 c) <> 0xFFFFFFFF /\ le_dec (take 4 c) = len c) \/
   (le_dec (take 4 c) = 0xFFFFFFFF /\ forall d,
      (exists x, d = c ++ x \/ c = d ++ x) -> 4 <= len d ->
      0xFFFFFFFF - 12 <= fetch d /\ len c = fetch d + 12)).

(** No packet boundary falls inside the four bytes of a length field. *)
Definition length_fields_uncut (cs ps : list bytes) : Prop :=
  forall p1 p2 c1 c c2, ps = p1 ++ p2 -> cs = c1 ++ c :: c2 ->
    ~ (len (concat c1) < len (concat p1) < len (concat c1) + 4).

(** [x] is what is left of [data] at a place where a container starts, when [rl]
    bytes of the current container are still outstanding. *)
Inductive container_start (fetch : bytes -> N) : N -> bytes -> bytes -> Prop :=
| cs_here data : container_start fetch 0 data data
| cs_rest a rest x : a <> [] -> container_start fetch 0 rest x ->
    container_start fetch (len a) (a ++ rest) x
| cs_next a rest x : a <> [] -> start_len fetch 0 (a ++ rest) = Ret (len a, true) ->
    container_start fetch 0 rest x -> container_start fetch 0 (a ++ rest) x.
