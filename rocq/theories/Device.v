(** The whole device: the responder working on a file system storage.  The storage
    factory (one storage, number 0x00010001) answers the responder's questions by
    calling the file system storage; the storage's state is what the calls recorded in
    the responder's log have made of it. *)
From Verif Require Import Base AList Wire FS FSSpec FSProps.
From Verif Require Responder RSpec.
Import Responder(act, ans, scall, ACall, mk_ans, a_async, mk_out).

Definition STORAGE := 0x00010001.
Definition no_info : objinfo := mk_objinfo 0 0 0 0 0 0 0 0 0 0 0 0 0 0 0 [] [] [] [].
(** an answer: code, numbers, bytes, object info *)
Definition reply (c : N) (nums : list N) (bs : bytes) (i : objinfo) : ans := mk_ans c nums bs i [] None [] true [].
Definition code (c : N) : ans := reply c [] [] no_info.

Section Device.
Variables (C : conf) (fuel : nat).
(** everything that is not file system storage: the transport, the device information, references,
    cached property values, event switches, and the signals arriving while waiting *)
Variable rest : list (act * ans) -> act -> ans.

Definition tell {A} (m : M A) (f : A -> ans) (w : fs) : outcome (ans * fs) :=
  match m w with Ret (a, w') => Ret (f a, w') | UB => UB | Abort => Abort end.
(** storagefactory.cpp:242-251 storageOfHandle, and 374-556: the owner does it *)
Definition owned {A} (h : N) (m : M A) (f : A -> ans) (w : fs) : outcome (ans * fs) :=
  if ahas h (s_handles w) then tell m f w else Ret (code R_InvalidObjectHandle, w).
Definition copy_or_clean (h parent : N) : M (N * N) :=
  r <- copy_object C fuel h parent true ;;
  (b <- has_handle (snd r) ;; l <- get (fun w => akeys (s_handles w)) ;;
   if (fst r =? R_StoreFull) && b then _ <- delete_item C fuel l (snd r) FMT_Undefined ;; ret tt else ret tt) ;;;
  ret r.
(** storagefactory.cpp; None: not file system storage *)
Definition storage (c : scall) : option (fs -> outcome (ans * fs)) :=
  match c with
  (* 208-211; enumeration has finished *)
  | Responder.SReady => Some (fun w => Ret (code R_OK, w))
  (* 332-340 *)
  | Responder.SStorageIds => Some (fun w => Ret (reply R_OK [STORAGE] [] no_info, w))
  (* 345-349 *)
  | Responder.SCheckStorage id => Some (fun w => Ret (code (if id =? STORAGE then R_OK else Responder.R_InvalidStorageID), w))
  (* 354-357 *)
  | Responder.SCheckHandle h => Some (fun w => Ret (code (if ahas h (s_handles w) then R_OK else R_InvalidObjectHandle), w))
  (* 299-327 *)
  | Responder.SGetHandles id fmt assoc => Some (fun w =>
      if (id =? Responder.ALL) || (id =? STORAGE) then tell (get_object_handles fmt assoc) (fun r => reply (fst r) (snd r) [] no_info) w
      else Ret (code Responder.R_InvalidStorageID, w))
  (* 479-487 *)
  | Responder.SGetInfo h => Some (owned h (get_object_info C h) (fun r => reply (fst r) [] [] (match snd r with Some o => o | None => no_info end)))
  (* 452-460: only for the log *)
  | Responder.SGetPath h => Some (fun w => Ret (code R_OK, w))
  (* 277-294 *)
  | Responder.SDelete h fmt => Some (fun w =>
      if (h =? Responder.ALL) || ahas h (s_handles w) then tell (delete_item C fuel (akeys (s_handles w)) h fmt) code w
      else Ret (code R_GeneralError, w))
  (* 256-272 *)
  | Responder.SAddItem id parent i => Some (fun w =>
      let id := if id =? 0 then STORAGE else id in
      if id =? STORAGE then tell (add_item C fuel i) (fun r => reply (fst r) (match snd r with Some (h, q) => [id; q; h] | None => [id; parent; 0] end) [] no_info) w
      else Ret (reply R_GeneralError [id; parent; 0] [] no_info, w))
  (* 492-556 *)
  | Responder.SWrite h d first last => Some (owned h (write_data C h d first last) code)
  | Responder.SWritePartial h off d first last => Some (owned h (write_partial C h off d first last) code)
  | Responder.STruncate h n => Some (owned h (truncate_item C h n) code)
  | Responder.SRead h n off => Some (owned h (read_data C h n off) (fun r => reply (fst r) [] (snd r) no_info))
  (* 427-447 *)
  | Responder.SMove h parent id => Some (fun w =>
      if id =? STORAGE then owned h (move_object C fuel h parent true) code w else Ret (code Responder.R_InvalidStorageID, w))
  (* 400-422; 413-416: the clean-up *)
  | Responder.SCopy h parent id => Some (fun w =>
      if id =? STORAGE then owned h (copy_or_clean h parent) (fun r => reply (fst r) [snd r] [] no_info) w else Ret (code Responder.R_InvalidStorageID, w))
  (* 633-647 *)
  | Responder.SSetProps h l _ => Some (owned h (set_props C fuel h (map (fun x => (opd_code (fst x), snd x)) l)) code)
  | _ => None
  end.

(** the storage's state after the calls in the log [l], of which all but the [n] oldest
    entries count; it was [w] then *)
Fixpoint state_after (n : nat) (w : fs) (l : list (act * ans)) : outcome fs :=
  if (length l <=? n)%nat then Ret w else
  match l with
  | [] => Ret w
  | (ACall c, _) :: l' =>
    match storage c, state_after n w l' with
    | Some m, Ret w1 => match m w1 with Ret (_, w2) => Ret w2 | UB => UB | Abort => Abort end
    | _, o => o
    end
  | _ :: l' => state_after n w l'
  end.
Definition with_async (l : list Responder.sig) (a : ans) : ans :=
  mk_ans (Responder.a_code a) (Responder.a_nums a) (Responder.a_bytes a) (Responder.a_info a) (Responder.a_vals a) (Responder.a_dpd a) (Responder.a_items a) (Responder.a_bool a) l.
(** the responder's environment *)
Definition device (n : nat) (w : fs) (l : list (act * ans)) (a : act) : ans :=
  match a with
  | ACall c => match storage c with
    | Some m => match state_after n w l with
      | Ret w1 => match m w1 with Ret (r, _) => with_async (a_async (rest l a)) r | _ => rest l a end
      | _ => rest l a
      end
    | None => rest l a
    end
  | _ => rest l a
  end.
End Device.
