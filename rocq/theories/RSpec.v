(** Vocabulary for the responder theorems: what the initiator sees, which
    environments are considered. *)
From Verif Require Import Base Wire WireSpec Responder.

(** A well-formed command container: 12 byte header and up to five 32-bit parameters. *)
Definition command_bytes (op tid : N) (ps : list N) : bytes :=
  spec_header (12 + 4 * len ps) 1 op tid ++ concat (map (spec_int 4) ps).
Definition command_ok (op tid : N) (ps : list N) : Prop :=
  op < 2^16 /\ tid < 2^32 /\ len ps <= 5 /\ Forall (fun p => p < 2^32) ps.

(** Everything handed to the transport as a response container, newest first. *)
Definition response_of (e : act * ans) : option outc :=
  match fst e with
  | ASend o _ | AResend o _ => if o_type o =? TYPE_RESPONSE then Some o else None
  | _ => None
  end.
Fixpoint responses (log : list (act * ans)) : list outc :=
  match log with
  | [] => []
  | e :: r => match response_of e with Some o => o :: responses r | None => responses r end
  end.
(** The same for the data phase: first container and following raw content. *)
Definition data_of (e : act * ans) : option (outc + bytes) :=
  match fst e with
  | ASend o _ | AResend o _ => if o_type o =? TYPE_DATA then Some (inl o) else None
  | ASendRaw b _ => Some (inr b)
  | _ => None
  end.
Fixpoint datas (log : list (act * ans)) : list (outc + bytes) :=
  match log with
  | [] => []
  | e :: r => match data_of e with Some o => o :: datas r | None => datas r end
  end.
(** Storage and device calls, newest first. *)
Fixpoint calls (log : list (act * ans)) : list scall :=
  match log with
  | [] => []
  | (ACall c, _) :: r => c :: calls r
  | _ :: r => calls r
  end.
(** Calls that only ask (used for log output, readiness and event filtering). *)
Definition harmless (c : scall) : bool :=
  match c with SReady | SGetPath _ | SGetEvents _ => true | _ => false end.
(** Calls that may change the storage or the device. *)
Definition changes (c : scall) : bool :=
  match c with
  | SDelete _ _ | SAddItem _ _ _ | SWrite _ _ _ _ | SWritePartial _ _ _ _ _ | STruncate _ _ | SMove _ _ _
  | SCopy _ _ _ | SSetRefs _ _ | SSetProps _ _ _ | SSetEvents _ _ | SFlush _ | SDevSet _ _ => true
  | _ => false
  end.

Definition is_event (g : sig) : bool := match g with SigEvent _ _ => true | _ => false end.
(** No cancel, suspend or reset request arrives while the responder is busy;
    storage events may. *)
Definition undisturbed (env : list (act * ans) -> act -> ans) : Prop :=
  forall h a, forallb is_event (a_async (env h a)) = true.
(** The transport delivers. *)
Definition transport_works (env : list (act * ans) -> act -> ans) : Prop :=
  forall h b l, a_bool (env h (ASendRaw b l)) = true.
(** Storage has been enumerated. *)
Definition storage_is_ready (env : list (act * ans) -> act -> ans) : Prop :=
  forall h, a_bool (env h (ACall SReady)) = true.
(** The property tables: whatever is listed as supported has a description. *)
Definition tables_ok (props_by_type : N -> N * list N) (prop_desc : N -> N -> N * option objpropdesc) : Prop :=
  (forall c p, fst (prop_desc c p) = R_OK -> exists d, snd (prop_desc c p) = Some d) /\
  (forall c p, fst (props_by_type c) = R_OK -> In p (snd (props_by_type c)) -> exists d, snd (prop_desc c p) = Some d).

(** Waiting for a command. *)
Definition idle (s : rstate) : Prop := r_st s = IDLE \/ r_st s = TX_CANCEL.
