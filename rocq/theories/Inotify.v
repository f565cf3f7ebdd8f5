(** Reading file system notifications: fsinotify.cpp:82-102 FSInotify::inotifyEventSlot, and
    the name as the receiver reads it, fsstorageplugin.cpp:2328.

    The buffer tmp[512] is on the stack: what a read(2) has not filled is arbitrary. *)
From Verif Require Import Base.

(** what a receiver of the signal sees: struct inotify_event; the name is a C string, absent
    if len is 0 *)
Record note := mk_note { k_wd : N; k_mask : N; k_cookie : N; k_name : option (list N) }.

Definition BUF : N := 512.
(** a field of the structure at [at]; None: outside the buffer (undefined) *)
Definition field (buf : list N) (at_ : N) : option N :=
  if at_ + 4 <=? BUF then Some (le_dec (take 4 (drop at_ buf))) else None.
(** a C string; None: no NUL before the end of the buffer *)
Fixpoint cstr (l : list N) : option (list N) :=
  match l with
  | [] => None
  | c :: l' => if c =? 0 then Some [] else match cstr l' with Some r => Some (c :: r) | None => None end
  end.

(** 94-101 the loop from [ptr]; None: undefined behaviour.  [fuel] bounds the iterations
    (proved to suffice: the pointer advances by at least 16) *)
Fixpoint slot (fuel : nat) (buf : list N) (nread ptr : N) : option (list note) :=
  if ptr <? nread then
    match fuel with
    | O => None
    | S fuel' =>
      match field buf ptr, field buf (ptr + 4), field buf (ptr + 8), field buf (ptr + 12) with
      | Some wd, Some mask, Some cookie, Some n =>
        match (if n =? 0 then Some None
               else match cstr (drop (ptr + 16) buf) with Some s => Some (Some s) | None => None end) with
        | Some name =>
          match slot fuel' buf nread (ptr + 16 + n) with
          | Some r => Some (mk_note wd mask cookie name :: r)
          | None => None
          end
        | None => None
        end
      | _, _, _, _ => None
      end
    end
  else Some [].

(** ** The kernel's side of read(2) on an inotify descriptor (inotify(7)) *)
(** an event waiting: the name, if any, is followed by at least one NUL *)
Record event := mk_event { e_wd : N; e_mask : N; e_cookie : N; e_name : option (list N); e_pad : nat }.
Definition name_bytes (e : event) : list N :=
  match e_name e with Some s => s ++ repeat 0 (S (e_pad e)) | None => [] end.
Definition record_bytes (e : event) : list N :=
  le_enc 4 (e_wd e) ++ le_enc 4 (e_mask e) ++ le_enc 4 (e_cookie e) ++ le_enc 4 (len (name_bytes e)) ++ name_bytes e.
(** as many whole events as fit; none if the first does not fit (EINVAL) *)
Fixpoint fitting (room : N) (q : list event) : list event :=
  match q with
  | [] => []
  | e :: q' => let n := len (record_bytes e) in if n <=? room then e :: fitting (room - n) q' else []
  end.
Definition sent (q : list event) : list N := concat (map record_bytes (fitting BUF q)).

(** one activation of the notifier: what is emitted and what still waits.  [junk]: the old
    contents of the buffer *)
Definition activate (junk : list N) (q : list event) : option (list note) * list event :=
  let d := sent q in
  (slot 32 (d ++ drop (len d) junk) (len d) 0, drop (len (fitting BUF q)) q).
