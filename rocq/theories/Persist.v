(** Persistent object ids: the table each storage keeps on disk
    (fsstorageplugin.cpp:518-655), and how ids are handed out by the factory
    (storagefactory.cpp:181-197, 678-681; fsstorageplugin.cpp:779-788, 1096-1113).

    A table is the list of the entries of a QHash<QString, MtpInt128> in the (arbitrary)
    order of iteration; a QString is a list of UTF-16 units; an id is a number below
    2^128 (MtpInt128 keeps its 16 bytes least significant first, mtptypes.h:702-782). *)
From Verif Require Import Base Wire FS.

Definition table := list (path * N).
Fixpoint pget (p : path) (t : table) : option N :=
  match t with [] => None | (q, u) :: r => if peqb p q then Some u else pget p r end.
Fixpoint pset (p : path) (u : N) (t : table) : table :=
  match t with [] => [(p, u)] | (q, v) :: r => if peqb p q then (q, u) :: r else (q, v) :: pset p u r end.
Definition pdel (p : path) (t : table) : table := filter (fun e => negb (peqb p (fst e))) t.

(** QString::toUtf8; a unit that is not part of a surrogate pair but should be is replaced
    by a question mark *)
Fixpoint to_utf8 (s : path) : bytes :=
  match s with
  | [] => []
  | u :: r =>
    if u <? 0x80 then u :: to_utf8 r
    else if u <? 0x800 then [0xC0 + u / 64; 0x80 + u mod 64] ++ to_utf8 r
    else if (0xD800 <=? u) && (u <? 0xE000) then
      match r with
      | v :: r' =>
        if (u <? 0xDC00) && (0xDC00 <=? v) && (v <? 0xE000) then
          let c := 0x10000 + (u - 0xD800) * 1024 + (v - 0xDC00) in
          [0xF0 + c / 262144; 0x80 + c / 4096 mod 64; 0x80 + c / 64 mod 64; 0x80 + c mod 64] ++ to_utf8 r'
        else 63 :: to_utf8 r
      | [] => [63]
      end
    else [0xE0 + u / 4096; 0x80 + u / 64 mod 64; 0x80 + u mod 64] ++ to_utf8 r
  end.
(** QString(const char * ): up to the first zero byte, decoded as UTF-8.  Simplified: every
    byte that does not begin a well formed sequence becomes U+FFFD (Qt may merge some of
    them), a leading byte order mark is kept (Qt drops it), overlong three and four byte
    forms are not rejected *)
Definition cont (b : N) : bool := (0x80 <=? b) && (b <? 0xC0).
Fixpoint from_utf8 (b : bytes) : path :=
  match b with
  | [] => []
  | c :: r =>
    if c =? 0 then []
    else if c <? 0x80 then c :: from_utf8 r
    else if (0xC2 <=? c) && (c <? 0xE0) then
      match r with
      | d :: r' => if cont d then ((c - 0xC0) * 64 + (d - 0x80)) :: from_utf8 r' else 0xFFFD :: from_utf8 r
      | [] => [0xFFFD]
      end
    else if (0xE0 <=? c) && (c <? 0xF0) then
      match r with
      | d :: e :: r' => if cont d && cont e then ((c - 0xE0) * 4096 + (d - 0x80) * 64 + (e - 0x80)) :: from_utf8 r' else 0xFFFD :: from_utf8 r
      | _ => 0xFFFD :: from_utf8 r
      end
    else if (0xF0 <=? c) && (c <? 0xF5) then
      match r with
      | d :: e :: f :: r' =>
        if cont d && cont e && cont f then
          let x := (c - 0xF0) * 262144 + (d - 0x80) * 4096 + (e - 0x80) * 64 + (f - 0x80) - 0x10000 in
          (0xD800 + x / 1024) :: (0xDC00 + x mod 1024) :: from_utf8 r'
        else 0xFFFD :: from_utf8 r
      | _ => 0xFFFD :: from_utf8 r
      end
    else 0xFFFD :: from_utf8 r
  end.

(** ** storePuoids, 590-655 *)
(** 623-652: the length written is the number of UTF-16 units, and that many bytes of the
    UTF-8 form are written *)
Definition entry_bytes (e : path * N) : bytes :=
  le_enc 4 (u32 (len (fst e))) ++ take (u32 (len (fst e))) (to_utf8 (fst e)) ++ le_enc 16 (snd e).
Definition store_bytes (largest : N) (t : table) : bytes :=
  le_enc 16 largest ++ le_enc 4 (u32 (len t)) ++ concat (map entry_bytes t).
(** how the destructor's attempt ends: 599-601 the file cannot be opened (the old one stays),
    some write fails (the file is emptied), or everything is written *)
Inductive fate := NotOpened | WriteFailed | Written.
Definition store (f : fate) (largest : N) (t : table) (old : bytes) : bytes :=
  match f with NotOpened => old | WriteFailed => [] | Written => store_bytes largest t end.

(** ** populatePuoids, 518-570 *)
(** QFile::read into a variable that holds [old]: at the end of the file fewer bytes, which
    replace the first bytes of the variable.  Result: number of bytes, new value, rest. *)
Definition fread (n : nat) (old : N) (f : bytes) : N * N * bytes :=
  let got := firstn n f in (len got, le_dec (got ++ drop (len got) (le_enc n old)), skipn n f).
(** 541-568; [k]: entries still to read; [l], [u]: pathnameLen and puoid as left by the
    previous entry.  Allocating a name of 2^32 - 1 bytes wraps (new char[0]) and the
    terminator is written out of bounds. *)
Fixpoint load_entries (k : nat) (l u : N) (f : bytes) (t : table) : outcome table :=
  match k with
  | O => Ret t
  | S k' =>
    let '(n1, l1, f1) := fread 4 l f in
    if n1 =? 0 then Ret t
    else if l1 =? 0xFFFFFFFF then UB
    else
      let name := take l1 f1 in
      if len name =? 0 then Ret t
      else
        let '(n3, u1, f3) := fread 16 u (drop l1 f1) in
        if n3 =? 0 then Ret t
        else load_entries k' l1 u1 f3 (pset (from_utf8 name) u1 t)
  end.
(** result: m_largestPuoid and m_puoidsMap *)
Definition load (f : bytes) : outcome (N * table) :=
  let '(n1, largest, f1) := fread 16 0 f in
  if n1 =? 0 then Ret (0, [])
  else
    let '(n2, count, f2) := fread 4 0 f1 in
    if n2 =? 0 then Ret (largest, [])
    else do t <- load_entries (N.to_nat count) 0 0 f2 []; Ret (largest, t).

(** ** Running storages *)
(** st_given: ids that items of this storage have got in this run *)
Record stor := mk_stor { st_file : N; st_largest : N; st_table : table; st_given : list N }.
(** d_counter: m_newPuoid; d_files: the files in ~/.local/mtp by name (the name is made of
    label and file system uuid, 425) *)
Record device := mk_dev { d_stors : list stor; d_counter : N; d_files : N -> bytes }.

(** storagefactory.cpp:175-200, for every plugin in turn: MtpInt128's greater-than *)
Definition raise (sgn : bool) (counter largest : N) : N :=
  if i128_gtb sgn (le_enc 16 largest) (le_enc 16 counter) then largest else counter.
Fixpoint load_all (files : N -> bytes) (keys : list N) : outcome (list stor) :=
  match keys with
  | [] => Ret []
  | k :: r => do lt <- load (files k); do ss <- load_all files r; Ret (mk_stor k (fst lt) (snd lt) [] :: ss)
  end.
Definition start (sgn : bool) (files : N -> bytes) (keys : list N) : outcome device :=
  do ss <- load_all files keys;
  Ret (mk_dev ss (fold_left (fun c s => raise sgn c (st_largest s)) ss 0) files).
(** the destructors, 489-492 *)
Fixpoint store_all (fates : N -> fate) (ss : list stor) (files : N -> bytes) : N -> bytes :=
  match ss with
  | [] => files
  | s :: r => store_all fates r (fun k => if k =? st_file s then store (fates k) (st_largest s) (st_table s) (files k) else files k)
  end.

Definition upd_stor (i : nat) (s : stor) (l : list stor) : list stor := firstn i l ++ s :: skipn (S i) l.
(** addItemToMaps, 1104-1112; requestNewPuoid 779-783; getPuoid, storagefactory.cpp:678-681.
    Result: the id the item gets *)
Definition add_path (i : nat) (p : path) (d : device) : option (N * device) :=
  match nth_error (d_stors d) i with
  | None => None
  | Some s =>
    match pget p (st_table s) with
    | Some u => Some (u, mk_dev (upd_stor i (mk_stor (st_file s) (st_largest s) (st_table s) (u :: st_given s)) (d_stors d)) (d_counter d) (d_files d))
    | None =>
      let u := le_dec (i128_incr (le_enc 16 (d_counter d))) in
      Some (u, mk_dev (upd_stor i (mk_stor (st_file s) u (pset p u (st_table s)) (u :: st_given s)) (d_stors d)) u (d_files d))
    end
  end.
(** setObjectPropertyValue of the file name, 2843-2849: the item keeps its id [u] *)
Definition rename_path (i : nat) (p q : path) (u : N) (d : device) : option device :=
  match nth_error (d_stors d) i with
  | None => None
  | Some s => Some (mk_dev (upd_stor i (mk_stor (st_file s) (st_largest s) (pset q u (pdel p (st_table s))) (st_given s)) (d_stors d)) (d_counter d) (d_files d))
  end.
(** removeUnusedPuoids, 575-585; [used]: m_pathNamesMap has the path *)
Definition remove_unused (i : nat) (used : path -> bool) (d : device) : option device :=
  match nth_error (d_stors d) i with
  | None => None
  | Some s => Some (mk_dev (upd_stor i (mk_stor (st_file s) (st_largest s) (filter (fun e => used (fst e)) (st_table s)) (st_given s)) (d_stors d)) (d_counter d) (d_files d))
  end.

(** Histories: the life of a device through restarts and crashes.  [Restart fates keys]: the
    service ends orderly and starts again with the storages [keys]; [Crash keys]: it dies
    without storing anything. *)
Inductive devop :=
| Add (i : nat) (p : path)
| Rename (i : nat) (p q : path) (u : N)
| Unused (i : nat) (used : path -> bool)
| Restart (fates : N -> fate) (keys : list N)
| Crash (keys : list N).
Definition absolute (p : path) : Prop := len p < 2^32 - 1 /\ exists r, p = slash :: r.
(** what the environment guarantees: path names are absolute and of sane length, tables fit
    in a QHash, a renamed item carries an id that was given to it, the 2^128 ids are not
    used up, the same storage is not configured twice *)
Definition devop_ok (o : devop) (d : device) : Prop :=
  match o with
  | Add i p => absolute p /\ d_counter d < 2^128 - 1 /\ (forall s, nth_error (d_stors d) i = Some s -> len (st_table s) < 2^31)
  | Rename i p q u => absolute q /\ (forall s, nth_error (d_stors d) i = Some s -> In u (st_given s) /\ len (st_table s) < 2^31)
  | Unused _ _ => True
  | Restart _ keys | Crash keys => NoDup keys
  end.
Definition dev_step (sgn : bool) (o : devop) (d : device) : outcome (option device) :=
  match o with
  | Add i p => Ret (match add_path i p d with Some (_, d') => Some d' | None => None end)
  | Rename i p q u => Ret (rename_path i p q u d)
  | Unused i used => Ret (remove_unused i used d)
  | Restart fates keys => do d' <- start sgn (store_all fates (d_stors d) (d_files d)) keys; Ret (Some d')
  | Crash keys => do d' <- start sgn (d_files d) keys; Ret (Some d')
  end.
Inductive life (sgn : bool) : device -> Prop :=
| life_new keys d : NoDup keys -> start sgn (fun _ => []) keys = Ret d -> life sgn d
| life_step d o d' : life sgn d -> devop_ok o d -> dev_step sgn o d = Ret (Some d') -> life sgn d'.
