(** FSStoragePlugin (mts/platform/storage/fsstorageplugin/fsstorageplugin.cpp): the
    object tree of one storage over a file system, and the operations on it.

    [StorageItem] objects live in a heap [s_heap]; a pointer to a missing object is
    [UB] when dereferenced.  The file system is [s_nodes]: a map from absolute path
    names to files and directories; what the model cannot know (does a system call
    fail, which watch number does inotify hand out, which handles and persistent ids
    does the factory hand out, what do symbolic links point to, how much space is
    free, how many bytes does one read or write move) is answered by the oracles in
    [conf], consulted at successive ticks [s_tick]; theorems quantify over them.

    Simplifications: a path name denotes the same file whichever way it is spelled
    (no aliasing through links, "." or ".."); modification times, thumbnails and image
    sizes are not tracked (they come from the oracle [c_extra]); writes reach the file
    at once (no buffering); Qt events processed in the middle of enumerating a folder
    are not modelled; ownership changes (fchown) are not modelled. *)
From Verif Require Import Base AList Wire.

Definition path := list N.          (* QString: UTF-16 units *)
Definition ptr := N.
Definition slash : N := 47.

Definition FMT_Undefined := 0x3000.   Definition FMT_Association := 0x3001.
Definition R_OK := 0x2001.            Definition R_GeneralError := 0x2002.
Definition R_InvalidObjectHandle := 0x2009. Definition R_StoreFull := 0x200C.
Definition R_ObjectWriteProtected := 0x200D. Definition R_AccessDenied := 0x200F.
Definition R_PartialDeletion := 0x2012. Definition R_InvalidParentObject := 0x201A.
Definition R_Invalid_ObjectProp_Value := 0xA803. Definition R_Invalid_Dataset := 0xA806.
Definition R_Invalid_ObjectReference := 0xA804.
Definition EV_ObjectAdded := 0x4002.  Definition EV_ObjectRemoved := 0x4003.
Definition EV_ObjectInfoChanged := 0x4007. Definition EV_StorageInfoChanged := 0x400C.
Definition ALL := 0xFFFFFFFF.

(** ** Paths *)
Fixpoint peqb (a b : path) : bool :=
  match a, b with
  | [], [] => true
  | x :: a', y :: b' => (x =? y) && peqb a' b'
  | _, _ => false
  end.
Fixpoint is_prefix (a b : path) : bool :=
  match a, b with
  | [], _ => true
  | x :: a', y :: b' => (x =? y) && is_prefix a' b'
  | _, _ => false
  end.
Fixpoint before_slash (r : path) : option path :=   (* on the reversed path *)
  match r with [] => None | c :: r' => if c =? slash then Some r' else before_slash r' end.
Fixpoint until_slash (r : path) : path :=
  match r with [] => [] | c :: r' => if c =? slash then [] else c :: until_slash r' end.
(** path.left(path.lastIndexOf('/')): the whole string if there is none *)
Definition parent_of (p : path) : path := match before_slash (rev p) with Some r => rev r | None => p end.
(** what follows the last '/' *)
Definition base_of (p : path) : path := rev (until_slash (rev p)).
Definition join (d n : path) : path := d ++ slash :: n.
Definition has_slash (p : path) : bool := existsb (N.eqb slash) p.

(** ** File system *)
Inductive node := File (data : bytes) | Dir.
Definition nodes := list (path * node).
Fixpoint node_at (p : path) (w : nodes) : option node :=
  match w with [] => None | (k, n) :: r => if peqb p k then Some n else node_at p r end.
Fixpoint set_node (p : path) (n : node) (w : nodes) : nodes :=
  match w with [] => [(p, n)] | (k, m) :: r => if peqb p k then (p, n) :: r else (k, m) :: set_node p n r end.
Definition del_node (p : path) (w : nodes) : nodes := filter (fun e => negb (peqb p (fst e))) w.
Definition exists_at (p : path) (w : nodes) : bool := match node_at p w with Some _ => true | None => false end.
Definition is_dir (p : path) (w : nodes) : bool := match node_at p w with Some Dir => true | _ => false end.
(** the names that do not denote an entry of a folder: empty, the folder itself, the one above *)
Definition dot_name (n : path) : bool := peqb n [] || peqb n [46] || peqb n [46;46].
(** QDir::entryInfoList with QDir::NoDotAndDotDot (1049): the paths of the entries *)
Definition entries_of (d : path) (w : nodes) : list path :=
  filter (fun k => has_slash k && peqb (parent_of k) d && negb (dot_name (base_of k))) (map fst w).
(** rename(2) moves everything below as well *)
Definition moved_key (a b k : path) : path :=
  if peqb k a then b else if is_prefix (a ++ [slash]) k then b ++ drop (len a) k else k.
Definition rename_nodes (a b : path) (w : nodes) : nodes := map (fun e => (moved_key a b (fst e), snd e)) w.
(** write of [bs] at [pos]: a gap is filled with zeros *)
Definition put_at (data : bytes) (pos : N) (bs : bytes) : bytes :=
  take pos data ++ repeat 0 (N.to_nat (pos - len data)) ++ bs ++ drop (pos + len bs) data.
(** ftruncate *)
Definition resize (data : bytes) (n : N) : bytes := take n data ++ repeat 0 (N.to_nat (n - len data)).

(** ** Objects: storageitem.h:40-75 *)
Record item := mk_item { i_handle : N; i_path : path; i_wd : option N; i_info : option objinfo; i_parent : option ptr;
                         i_first : option ptr; i_next : option ptr; i_puoid : N; i_events : bool }.
Definition new_item (p : path) : item := mk_item 0 p None None None None None 0 false.
Definition it_handle x i := mk_item x (i_path i) (i_wd i) (i_info i) (i_parent i) (i_first i) (i_next i) (i_puoid i) (i_events i).
Definition it_path x i := mk_item (i_handle i) x (i_wd i) (i_info i) (i_parent i) (i_first i) (i_next i) (i_puoid i) (i_events i).
Definition it_wd x i := mk_item (i_handle i) (i_path i) x (i_info i) (i_parent i) (i_first i) (i_next i) (i_puoid i) (i_events i).
Definition it_info x i := mk_item (i_handle i) (i_path i) (i_wd i) x (i_parent i) (i_first i) (i_next i) (i_puoid i) (i_events i).
Definition it_parent x i := mk_item (i_handle i) (i_path i) (i_wd i) (i_info i) x (i_first i) (i_next i) (i_puoid i) (i_events i).
Definition it_first x i := mk_item (i_handle i) (i_path i) (i_wd i) (i_info i) (i_parent i) x (i_next i) (i_puoid i) (i_events i).
Definition it_next x i := mk_item (i_handle i) (i_path i) (i_wd i) (i_info i) (i_parent i) (i_first i) x (i_puoid i) (i_events i).
Definition it_puoid x i := mk_item (i_handle i) (i_path i) (i_wd i) (i_info i) (i_parent i) (i_first i) (i_next i) x (i_events i).
Definition it_events x i := mk_item (i_handle i) (i_path i) (i_wd i) (i_info i) (i_parent i) (i_first i) (i_next i) (i_puoid i) x.

(** object info with some fields replaced *)
Definition oi_with (o : objinfo) (sid fmt size parent : N) (name : path) : objinfo :=
  mk_objinfo sid fmt (oi_protection o) size (oi_thumb_format o) (oi_thumb_size o) (oi_thumb_w o) (oi_thumb_h o)
    (oi_image_w o) (oi_image_h o) (oi_depth o) parent (oi_assoc_type o) (oi_assoc_desc o) (oi_seq o) name
    (oi_capture o) (oi_modified o) (oi_keywords o).
Definition oi_set_storage x o := oi_with o x (oi_format o) (oi_size o) (oi_parent o) (oi_name o).
Definition oi_set_size x o := oi_with o (oi_storage o) (oi_format o) x (oi_parent o) (oi_name o).
Definition oi_set_parent x o := oi_with o (oi_storage o) (oi_format o) (oi_size o) x (oi_name o).
Definition oi_set_name x o := oi_with o (oi_storage o) (oi_format o) (oi_size o) (oi_parent o) x.

(** ** State and configuration *)
Inductive link_policy := AllowAll | AllowWithinStorage | DenyAll.
Record conf := mk_conf {
  c_root : path;                       (* m_storagePath (canonical) *)
  c_excl : list path;                  (* m_excludePaths *)
  c_sid : N;                           (* m_storageId *)
  c_policy : link_policy;
  c_ext : path -> N;                   (* m_formatByExtTable applied to the extension, Undefined if absent *)
  c_fail : nat -> bool;                (* does the next system call fail? *)
  c_wd : nat -> option N;              (* next result of inotify_add_watch for an existing path; None: -1 *)
  c_handle : nat -> N;                 (* next object handle of the factory *)
  c_puoid : nat -> N;                  (* next persistent id of the factory *)
  c_link : nat -> path -> option path; (* Some t: the path is a symbolic link with canonical target t ([]: broken) *)
  c_extra : nat -> path -> objinfo;    (* untracked parts of an object info *)
  c_free : nat -> option N;            (* statvfs: free space; None: failure *)
  c_chunk : nat -> option N;           (* one read()/write(): None: -1, Some k: up to k+1 bytes *)
  c_cancel : nat -> bool               (* checkTransportEvents during a copy *)
}.
Record fs := mk_fs {
  s_heap : ptr -> option item; s_fresh : ptr; s_root : option ptr;
  s_handles : list (N * option ptr);   (* m_objectHandlesMap; [] inserts null pointers *)
  s_paths : path -> option N;          (* m_pathNamesMap *)
  s_puoids : path -> option N;         (* m_puoidsMap *)
  s_byid : N -> option N;              (* m_puoidToHandleMap *)
  s_wds : N -> option N;               (* m_watchDescriptorMap *)
  s_write : N;                         (* m_writeObjectHandle *)
  s_file : option (path * N);          (* m_dataFile: path and position *)
  s_cache : option (N * N * path);     (* m_iNotifyCache: wd, cookie, name of a moved-from event *)
  s_events : list (N * list N);        (* emitted eventGenerated, newest first *)
  s_nodes : nodes; s_tick : nat }.

Definition set_heap x s := mk_fs x (s_fresh s) (s_root s) (s_handles s) (s_paths s) (s_puoids s) (s_byid s) (s_wds s) (s_write s) (s_file s) (s_cache s) (s_events s) (s_nodes s) (s_tick s).
Definition set_fresh x s := mk_fs (s_heap s) x (s_root s) (s_handles s) (s_paths s) (s_puoids s) (s_byid s) (s_wds s) (s_write s) (s_file s) (s_cache s) (s_events s) (s_nodes s) (s_tick s).
Definition set_root x s := mk_fs (s_heap s) (s_fresh s) x (s_handles s) (s_paths s) (s_puoids s) (s_byid s) (s_wds s) (s_write s) (s_file s) (s_cache s) (s_events s) (s_nodes s) (s_tick s).
Definition set_handles x s := mk_fs (s_heap s) (s_fresh s) (s_root s) x (s_paths s) (s_puoids s) (s_byid s) (s_wds s) (s_write s) (s_file s) (s_cache s) (s_events s) (s_nodes s) (s_tick s).
Definition set_paths x s := mk_fs (s_heap s) (s_fresh s) (s_root s) (s_handles s) x (s_puoids s) (s_byid s) (s_wds s) (s_write s) (s_file s) (s_cache s) (s_events s) (s_nodes s) (s_tick s).
Definition set_puoids x s := mk_fs (s_heap s) (s_fresh s) (s_root s) (s_handles s) (s_paths s) x (s_byid s) (s_wds s) (s_write s) (s_file s) (s_cache s) (s_events s) (s_nodes s) (s_tick s).
Definition set_byid x s := mk_fs (s_heap s) (s_fresh s) (s_root s) (s_handles s) (s_paths s) (s_puoids s) x (s_wds s) (s_write s) (s_file s) (s_cache s) (s_events s) (s_nodes s) (s_tick s).
Definition set_wds x s := mk_fs (s_heap s) (s_fresh s) (s_root s) (s_handles s) (s_paths s) (s_puoids s) (s_byid s) x (s_write s) (s_file s) (s_cache s) (s_events s) (s_nodes s) (s_tick s).
Definition set_write x s := mk_fs (s_heap s) (s_fresh s) (s_root s) (s_handles s) (s_paths s) (s_puoids s) (s_byid s) (s_wds s) x (s_file s) (s_cache s) (s_events s) (s_nodes s) (s_tick s).
Definition set_file x s := mk_fs (s_heap s) (s_fresh s) (s_root s) (s_handles s) (s_paths s) (s_puoids s) (s_byid s) (s_wds s) (s_write s) x (s_cache s) (s_events s) (s_nodes s) (s_tick s).
Definition set_cache x s := mk_fs (s_heap s) (s_fresh s) (s_root s) (s_handles s) (s_paths s) (s_puoids s) (s_byid s) (s_wds s) (s_write s) (s_file s) x (s_events s) (s_nodes s) (s_tick s).
Definition set_events x s := mk_fs (s_heap s) (s_fresh s) (s_root s) (s_handles s) (s_paths s) (s_puoids s) (s_byid s) (s_wds s) (s_write s) (s_file s) (s_cache s) x (s_nodes s) (s_tick s).
Definition set_nodes x s := mk_fs (s_heap s) (s_fresh s) (s_root s) (s_handles s) (s_paths s) (s_puoids s) (s_byid s) (s_wds s) (s_write s) (s_file s) (s_cache s) (s_events s) x (s_tick s).
Definition set_tick x s := mk_fs (s_heap s) (s_fresh s) (s_root s) (s_handles s) (s_paths s) (s_puoids s) (s_byid s) (s_wds s) (s_write s) (s_file s) (s_cache s) (s_events s) (s_nodes s) x.

(** before enumeration; [puoids]: what populatePuoids loaded *)
Definition fs_init (puoids : path -> option N) (w : nodes) : fs :=
  mk_fs (fun _ => None) 1 None [] (fun _ => None) puoids (fun _ => None) (fun _ => None) 0 None None [] w 0.

(** ** Monad *)
Definition M (A : Type) := fs -> outcome (A * fs).
Definition ret {A} (a : A) : M A := fun s => Ret (a, s).
Definition bind {A B} (m : M A) (f : A -> M B) : M B :=
  fun s => match m s with Ret (a, s1) => f a s1 | UB => UB | Abort => Abort end.
Notation "x <- m ;; k" := (bind m (fun x => k)) (at level 61, m at next level, right associativity).
Notation "m ;;; k" := (bind m (fun _ => k)) (at level 61, right associativity).
Definition get {A} (g : fs -> A) : M A := fun s => Ret (g s, s).
Definition upd (f : fs -> fs) : M unit := fun s => Ret (tt, f s).
Definition crash {A} : M A := fun _ => UB.
(** the model's recursion bound is exhausted: says nothing about the program *)
Definition give_up {A} : M A := fun _ => Abort.
Definition when (b : bool) (m : M unit) : M unit := if b then m else ret tt.
Definition isok (c : N) : bool := c =? R_OK.

Definition pupd {A} (f : path -> A) (k : path) (v : A) : path -> A := fun x => if peqb x k then v else f x.
Definition nupd {A} (f : N -> A) (k : N) (v : A) : N -> A := fun x => if x =? k then v else f x.
(** pointers *)
Definition deref (p : ptr) : M item := fun s => match s_heap s p with Some i => Ret (i, s) | None => UB end.
Definition deref_opt (o : option ptr) : M item := match o with Some p => deref p | None => crash end.
Definition modify (p : ptr) (f : item -> item) : M unit :=
  fun s => match s_heap s p with Some i => Ret (tt, set_heap (nupd (s_heap s) p (Some (f i))) s) | None => UB end.
Definition alloc (i : item) : M ptr :=
  fun s => Ret (s_fresh s, set_fresh (s_fresh s + 1) (set_heap (nupd (s_heap s) (s_fresh s) (Some i)) s)).
Definition free (p : ptr) : M unit := upd (fun s => set_heap (nupd (s_heap s) p None) s).
(** m_objectInfo->: null is undefined behaviour *)
Definition info_of (i : item) : M objinfo := match i_info i with Some o => ret o | None => crash end.
Definition tick : M nat := fun s => Ret (s_tick s, set_tick (S (s_tick s)) s).
Definition emit (ev : N) (ps : list N) : M unit := upd (fun s => set_events ((ev, ps) :: s_events s) s).
(** m_objectHandlesMap: contains / value / operator[] *)
Definition has_handle (h : N) : M bool := get (fun s => ahas h (s_handles s)).
Definition handle_value (h : N) : M (option ptr) :=
  get (fun s => match aget h (s_handles s) with Some v => v | None => None end).
Definition handle_ref (h : N) : M (option ptr) :=
  fun s => match aget h (s_handles s) with
           | Some v => Ret (v, s)
           | None => Ret (None, set_handles (aset h None (s_handles s)) s) end.
Definition opt_eqb (a b : option N) : bool :=
  match a, b with Some x, Some y => x =? y | None, None => true | _, _ => false end.
Definition info_format (i : item) : N := match i_info i with Some o => oi_format o | None => 0 end.
Definition is_assoc (i : item) : bool := match i_info i with Some o => oi_format o =? FMT_Association | None => false end.

Section Ops.
Variable C : conf.

(** ** System calls *)
Definition fails : M bool := t <- tick ;; ret (c_fail C t).
(** QDir::rename / QFile::rename: refuses to replace an existing file *)
Definition sys_rename (a b : path) : M bool :=
  f <- fails ;; w <- get s_nodes ;;
  if f || negb (exists_at a w) then ret false
  else if peqb a b then ret true
  else if peqb (base_of b) [] || exists_at b w || is_prefix (a ++ [slash]) b || negb (is_dir (parent_of b) w) then ret false
  else upd (set_nodes (rename_nodes a b w)) ;;; ret true.
Definition sys_rmdir (p : path) : M bool :=
  f <- fails ;; w <- get s_nodes ;;
  if f || negb (is_dir p w) || negb (match entries_of p w with [] => true | _ => false end) then ret false
  else upd (set_nodes (del_node p w)) ;;; ret true.
Definition sys_remove (p : path) : M bool :=
  f <- fails ;; w <- get s_nodes ;;
  match node_at p w with
  | Some (File _) => if f then ret false else upd (set_nodes (del_node p w)) ;;; ret true
  | _ => ret false
  end.
(** all ancestors of a path *)
Fixpoint prefixes_from (acc r : path) : list path :=
  match r with [] => [] | c :: r' => (if (c =? slash) && negb (peqb acc []) then [acc] else []) ++ prefixes_from (acc ++ [c]) r' end.
Definition ancestors (p : path) : list path := prefixes_from [] p.
Definition mkpath (p : path) (w : nodes) : option nodes :=
  fold_left (fun a q => match a with
    | Some w => match node_at q w with Some Dir => Some w | Some (File _) => None | None => Some (set_node q Dir w) end
    | None => None end) (ancestors p ++ [p]) (Some w).
(** open with QIODevice::ReadWrite: creates a missing file *)
Definition sys_open_rw (p : path) : M bool :=
  f <- fails ;; w <- get s_nodes ;;
  if f then ret false else
  match node_at p w with
  | Some (File _) => ret true
  | Some Dir => ret false
  | None => if is_dir (parent_of p) w && negb (peqb (base_of p) []) then upd (set_nodes (set_node p (File []) w)) ;;; ret true else ret false
  end.
(** fsinotify.cpp:61-68: the kernel watches nothing that does not exist *)
Definition sys_add_watch (p : path) : M (option N) := t <- tick ;; w <- get s_nodes ;; ret (if exists_at p w then c_wd C t else None).

(** fsstorageplugin.cpp:790-835 *)
Definition create_file (p : path) (info : option objinfo) : M N :=
  ok <- sys_open_rw p ;;
  if negb ok then ret R_AccessDenied else
  let size := match info with Some o => oi_size o | None => 0 end in
  f <- fails ;;
  w <- get s_nodes ;;
  match node_at p w with
  | Some (File d) =>
    when (negb f) (upd (set_nodes (set_node p (File (if 0 <? size then resize d (N.max size (len d)) else [])) w))) ;;; ret R_OK
  | _ => ret R_OK
  end.
(** 837-855 *)
Definition create_directory (p : path) : M N :=
  w <- get s_nodes ;;
  if is_dir p w then ret R_OK else
  f <- fails ;;
  if f then ret R_GeneralError else
  match mkpath p w with Some w' => upd (set_nodes w') ;;; ret R_OK | None => ret R_GeneralError end.

(** ** Tree *)
(** 860-879 *)
Definition link_child (c par : option ptr) : M unit :=
  match c, par with
  | Some c, Some par =>
    modify c (it_parent (Some par)) ;;;
    pi <- deref par ;;
    match i_first pi with
    | None => modify par (it_first (Some c))
    | Some old => modify par (it_first (Some c)) ;;; modify c (it_next (Some old))
    end
  | _, _ => ret tt
  end.
(** 895-899: the search for the predecessor *)
Fixpoint find_pred (fuel : nat) (itr : option ptr) (c : ptr) : M (option ptr) :=
  match itr with
  | None => ret None
  | Some p =>
    i <- deref p ;;
    if opt_eqb (i_next i) (Some c) then ret (Some p) else
    match fuel with O => give_up | S f => find_pred f (i_next i) c end
  end.
(** 883-904 *)
Definition unlink_child (c : ptr) : M unit :=
  ci <- deref c ;;
  match i_parent ci with
  | None => ret tt
  | Some par =>
    pi <- deref par ;;
    (if opt_eqb (i_first pi) (Some c) then modify par (it_first (i_next ci)) else
      n <- get s_fresh ;;
      itr <- find_pred (N.to_nat n) (i_first pi) c ;;
      match itr with Some q => modify q (it_next (i_next ci)) | None => ret tt end) ;;;
    modify c (it_next None)
  end.
(** 909-918 *)
Definition find_by_path (p : path) : M (option ptr) :=
  h <- get (fun s => s_paths s p) ;;
  match h with Some h => handle_value h | None => ret None end.

(** 1742-1756 *)
Definition format_of (p : path) (w : nodes) : N := if is_dir p w then FMT_Association else c_ext C p.
(** 1772-1782 *)
Definition size_of (p : path) (w : nodes) : N := match node_at p w with Some (File d) => len d | _ => 0 end.
(** 1683-1737 *)
Definition populate_info (p : ptr) : M unit :=
  i <- deref p ;;
  match i_info i with
  | Some _ => ret tt
  | None =>
    t <- tick ;; w <- get s_nodes ;;
    ph <- match i_parent i with Some q => qi <- deref q ;; ret (i_handle qi) | None => ret 0 end ;;
    modify p (it_info (Some (oi_with (c_extra C t (i_path i)) (c_sid C) (format_of (i_path i) w) (size_of (i_path i) w) ph (base_of (i_path i)))))
  end.

(** 3117-3125 *)
Definition add_watch (p : ptr) : M unit :=
  i <- deref p ;;
  if is_assoc i then
    wd <- sys_add_watch (i_path i) ;;
    modify p (it_wd wd) ;;;
    match wd with Some n => upd (fun s => set_wds (nupd (s_wds s) n (Some (i_handle i))) s) | None => ret tt end
  else ret tt.
(** 3098-3104; m_watchDescriptorMap.remove(-1) finds nothing *)
Definition remove_watch (p : ptr) : M unit :=
  i <- deref p ;;
  if is_assoc i then
    match i_wd i with Some n => upd (fun s => set_wds (nupd (s_wds s) n None) s) | None => ret tt end
  else ret tt.
(** 3087-3096, 3106-3115: the watch of a folder and those of everything below *)
Fixpoint watch_rec (fuel : nat) (f : ptr -> M unit) (p : ptr) : M unit :=
  match fuel with
  | O => give_up
  | S n =>
    i <- deref p ;;
    if is_assoc i then
      f p ;;;
      i <- deref p ;;
      (fix loop (k : nat) (itr : option ptr) : M unit :=
         match itr with
         | None => ret tt
         | Some q => match k with
                     | O => give_up
                     | S k' => watch_rec n f q ;;; qi <- deref q ;; loop k' (i_next qi)
                     end
         end) n (i_first i)
    else ret tt
  end.

(** 1096-1113 *)
Definition add_to_maps (p : ptr) : M unit :=
  i <- deref p ;;
  upd (fun s => set_paths (pupd (s_paths s) (i_path i) (Some (i_handle i))) s) ;;;
  upd (fun s => set_handles (aset (i_handle i) (Some p) (s_handles s)) s) ;;;
  old <- get (fun s => s_puoids s (i_path i)) ;;
  match old with
  | None =>
    t <- tick ;;
    modify p (it_puoid (c_puoid C t)) ;;;
    upd (fun s => set_puoids (pupd (s_puoids s) (i_path i) (Some (c_puoid C t))) s)
  | Some u => modify p (it_puoid u)
  end.

(** 970-997: is the path refused by the symbolic link policy? *)
Definition within (root target : path) : bool :=
  (len root <? len target) && (nth (length root) target 0 =? slash) && is_prefix root target.
Definition link_refused (p : path) (l : option path) : bool :=
  match l with
  | None => false
  | Some target =>
    if peqb target [] then true else
    match c_policy C with
    | AllowAll => false
    | AllowWithinStorage => negb (within (c_root C) target)
    | DenyAll => true
    end
  end.

(** 1006-1032: the new item, linked below the folder of its path *)
Definition attach_new (p : path) (info : option objinfo) (handle : N) : M ptr :=
  me <- alloc (new_item p) ;;
  par <- find_by_path (parent_of p) ;;
  root <- get s_root ;;
  link_child (Some me) (match par with Some q => Some q | None => root end) ;;;
  (match info with
   | Some o => modify me (it_info (Some (oi_set_storage (c_sid C) o)))
   | None => populate_info me
   end) ;;;
  (if peqb p (c_root C) then modify me (it_handle 0)
   else if handle =? 0 then t <- tick ;; modify me (it_handle (c_handle C t))
   else modify me (it_handle handle)) ;;;
  ret me.
(** 959-1094.  [info]: the initiator's object info; [create]: createIfNotExist;
    [handle]: 0 for a new one.  Result: code and the item (if any). *)
Fixpoint add_to_storage (fuel : nat) (p : path) (info : option objinfo) (send create : bool) (handle : N) : M (N * option ptr) :=
  match fuel with
  | O => give_up
  | S f =>
    if existsb (peqb p) (c_excl C) then ret (R_AccessDenied, None) else
    t <- tick ;;
    if link_refused p (c_link C t p) then ret (R_AccessDenied, None) else
    known <- get (fun s => s_paths s p) ;;
    match known with
    | Some _ => q <- find_by_path p ;; ret (R_OK, q)
    | None =>
      me <- attach_new p info handle ;;
      i <- deref me ;;
      o <- info_of i ;;
      r <- (if oi_format o =? FMT_Association then
              r <- (if create then create_directory p else ret R_OK) ;;
              if negb (isok r) then ret r else
              add_watch me ;;;
              add_to_maps me ;;;
              w <- get s_nodes ;;
              (fix loop (l : list path) : M unit :=
                 match l with
                 | [] => ret tt
                 | e :: l' => _ <- add_to_storage f e None send create 0 ;; loop l'
                 end) (entries_of p w) ;;;
              ret R_OK
            else
              r <- (if create then create_file p info else ret R_OK) ;;
              if negb (isok r) then ret r else
              add_to_maps me ;;;
              i <- deref me ;;
              upd (fun s => set_byid (nupd (s_byid s) (i_puoid i) (Some (i_handle i))) s) ;;;
              ret R_OK) ;;
      if negb (isok r) then unlink_child me ;;; free me ;;; ret (r, None) else
      i <- deref me ;;
      when send (emit EV_ObjectAdded [i_handle i]) ;;;
      ret (R_OK, Some me)
    end
  end.

(** 467-470: the start of enumerateStorage_worker *)
Definition enumerate (fuel : nat) : M unit :=
  r <- add_to_storage fuel (c_root C) None false false 0 ;;
  match snd r with Some p => upd (set_root (Some p)) | None => ret tt end.

(** 1118-1147: result: code, and (handle, parent handle) if there is an item *)
Definition add_item (fuel : nat) (info : objinfo) : M (N * option (N * N)) :=
  let info := if oi_parent info =? ALL then oi_set_parent 0 info else info in
  b <- has_handle (oi_parent info) ;;
  if negb b then ret (R_InvalidParentObject, None) else
  q <- handle_ref (oi_parent info) ;;
  qi <- deref_opt q ;;
  r <- add_to_storage fuel (join (i_path qi) (oi_name info)) (Some info) false true 0 ;;
  match snd r with
  | None => ret (fst r, None)
  | Some p =>
    i <- deref p ;;
    ph <- match i_parent i with Some x => xi <- deref x ;; ret (i_handle xi) | None => ret 0 end ;;
    ret (fst r, Some (i_handle i, ph))
  end.

(** ** Deletion *)
(** 1314-1338 *)
Definition remove_from_storage (h : N) (send : bool) : M unit :=
  b <- has_handle h ;;
  (if b then
     v <- handle_value h ;;
     match v with
     | None => crash
     | Some p =>
       i <- deref p ;;
       (match i_wd i with Some _ => remove_watch p | None => ret tt end) ;;;
       upd (fun s => set_handles (adel h (s_handles s)) s) ;;;
       upd (fun s => set_paths (pupd (s_paths s) (i_path i) None) s) ;;;
       unlink_child p ;;;
       free p
     end
   else ret tt) ;;;
  when send (emit EV_ObjectRemoved [h]).
(** 1252-1309 *)
Fixpoint delete_helper (fuel : nat) (h : N) (phys send : bool) : M N :=
  match fuel with
  | O => give_up
  | S f =>
    b <- has_handle h ;;
    if negb b then ret R_InvalidObjectHandle else
    v <- handle_ref h ;;
    match v with
    | None => ret R_GeneralError
    | Some p =>
      root <- get s_root ;;
      if opt_eqb (Some p) root then ret R_ObjectWriteProtected else
      i <- deref p ;;
      match i_first i with
      | None =>
        ok <- (if phys then
                 o <- info_of i ;;
                 if (oi_format o =? FMT_Association) && negb (i_handle i =? 0) then
                   _ <- deref_opt (i_parent i) ;; sys_rmdir (i_path i)
                 else sys_remove (i_path i)
               else ret true) ;;
        if negb ok then ret R_GeneralError else
        remove_from_storage h send ;;; ret R_OK
      | Some _ =>
        notdel <- (fix loop (k : nat) : M bool :=
            i <- deref p ;;
            match i_first i with
            | None => ret false
            | Some c =>
              match k with
              | O => give_up
              | S k' =>
                ci <- deref c ;;
                r <- delete_helper f (i_handle ci) phys send ;;
                if negb (isok r) then ret true else loop k'
              end
            end) f ;;
        if (notdel : bool) then ret R_PartialDeletion
        else _ <- delete_helper f h true false ;; ret R_OK
      end
    end
  end.
(** 1202-1247.  [order]: the order in which the handle table is traversed. *)
Definition delete_item (fuel : nat) (order : list N) (h fmt : N) : M N :=
  if h =? ALL then
    (* the copy of the table keeps the pointers, also of items deleted meanwhile *)
    copy <- get s_handles ;;
    (fix loop (l : list N) (resp : N) (some failed : bool) : M N :=
       match l with
       | [] => ret (if some && failed then R_PartialDeletion else resp)
       | k :: l' =>
         resp <- (if negb (fmt =? 0) && negb (fmt =? FMT_Undefined) then
                    i <- deref_opt (match aget k copy with Some v => v | None => None end) ;;
                    if match i_info i with Some o => oi_format o =? fmt | None => false end then delete_helper fuel k true false else ret resp
                  else delete_helper fuel k true false) ;;
         loop l' resp (some || isok resp) (failed || (negb (isok resp) && negb (resp =? R_InvalidObjectHandle)))
       end) order R_GeneralError false false
  else delete_helper fuel h true false.

(** ** Enumeration: 1343-1418 *)
Fixpoint list_children (fuel : nat) (itr : option ptr) (fmt : N) : M (list N) :=
  match itr with
  | None => ret []
  | Some p =>
    i <- deref p ;;
    match fuel with
    | O => give_up
    | S f =>
      r <- list_children f (i_next i) fmt ;;
      ret (if (fmt =? 0) || (negb (fmt =? FMT_Undefined) && match i_info i with Some o => oi_format o =? fmt | None => false end)
           then i_handle i :: r else r)
    end
  end.
Fixpoint list_all (l : list (N * option ptr)) (fmt : N) : M (list N) :=
  match l with
  | [] => ret []
  | (h, v) :: l' =>
    if h =? 0 then list_all l' fmt
    else if fmt =? 0 then r <- list_all l' fmt ;; ret (h :: r)
    else i <- deref_opt v ;;
         r <- list_all l' fmt ;;
         ret (if match i_info i with Some o => oi_format o =? fmt | None => false end then h :: r else r)
  end.
Definition get_object_handles (fmt assoc : N) : M (N * list N) :=
  n <- get s_fresh ;;
  if assoc =? 0 then l <- get s_handles ;; r <- list_all l fmt ;; ret (R_OK, r)
  else if assoc =? ALL then
    root <- get s_root ;;
    match root with
    | Some p => i <- deref p ;; r <- list_children (N.to_nat n) (i_first i) fmt ;; ret (R_OK, r)
    | None => ret (R_InvalidParentObject, [])
    end
  else
    b <- has_handle assoc ;;
    if negb b then ret (R_InvalidParentObject, []) else
    v <- handle_value assoc ;;
    match v with
    | None => ret (R_InvalidParentObject, [])
    | Some p =>
      i <- deref p ;;
      if negb (is_assoc i) then ret (R_InvalidParentObject, []) else
      r <- list_children (N.to_nat n) (i_first i) fmt ;; ret (R_OK, r)
    end.

(** ** Moving and renaming *)
(** 1565-1580 *)
Fixpoint adjust_moved (fuel : nat) (anc : path) (p : ptr) : M unit :=
  match fuel with
  | O => give_up
  | S f =>
    i <- deref p ;;
    upd (fun s => set_paths (pupd (s_paths s) (i_path i) None) s) ;;;
    o <- info_of i ;;
    let dst := join anc (oi_name o) in
    modify p (it_path dst) ;;;
    upd (fun s => set_paths (pupd (s_paths s) dst (Some (i_handle i))) s) ;;;
    (fix loop (k : nat) (itr : option ptr) : M unit :=
       match itr with
       | None => ret tt
       | Some q => match k with
                   | O => give_up
                   | S k' => adjust_moved f dst q ;;; qi <- deref q ;; loop k' (i_next qi)
                   end
       end) f (i_first i)
  end.
(** the loop over the children of a moved item: 1633-1637, 2837-2841, 2959-2963 *)
Fixpoint adjust_children (fuel k : nat) (anc : path) (itr : option ptr) : M unit :=
  match itr with
  | None => ret tt
  | Some q => match k with
              | O => give_up
              | S k' => adjust_moved fuel anc q ;;; qi <- deref q ;; adjust_children fuel k' anc (i_next qi)
              end
  end.
(** 1585-1653, destination in the same storage *)
Definition move_object (fuel : nat) (h parent : N) (phys : bool) : M N :=
  b <- has_handle h ;;
  if negb b then ret R_InvalidObjectHandle else
  b <- has_handle parent ;;
  if negb b then ret R_InvalidParentObject else
  v <- handle_ref h ;; u <- handle_ref parent ;;
  match v, u with
  | Some p, Some q =>
    qi <- deref q ;; i <- deref p ;; o <- info_of i ;;
    let dst := join (i_path qi) (oi_name o) in
    k <- get (fun s => s_paths s dst) ;;
    if (oi_format o =? FMT_Association) && match k with Some _ => true | None => false end then ret R_InvalidParentObject else
    watch_rec fuel remove_watch p ;;;
    ok <- (if phys then sys_rename (i_path i) dst else ret true) ;;
    if negb ok then watch_rec fuel add_watch p ;;; ret R_InvalidParentObject else
    upd (fun s => set_paths (pupd (s_paths s) (i_path i) None) s) ;;;
    upd (fun s => set_paths (pupd (s_paths s) dst (Some h)) s) ;;;
    unlink_child p ;;;
    i <- deref p ;;
    adjust_children fuel fuel dst (i_first i) ;;;
    link_child (Some p) (Some q) ;;;
    modify p (it_path dst) ;;;
    modify p (fun i => it_info (match i_info i with Some o => Some (oi_set_parent parent o) | None => None end) i) ;;;
    watch_rec fuel add_watch p ;;;
    ret R_OK
  | _, _ => ret R_GeneralError
  end.

(** 3146-3159; the characters of FILENAMES_FILTER_REGEX (71) *)
Definition illegal_char (c : N) : bool :=
  (c <? 32) || existsb (N.eqb c) [60; 62; 58; 34; 47; 92; 124; 63; 42].
Definition all_dots (n : path) : bool := negb (peqb n []) && forallb (N.eqb 46) n.
Definition file_name_valid (n : path) (parent : option ptr) : M bool :=
  if existsb illegal_char n || all_dots n then ret false else
  qi <- deref_opt parent ;;
  k <- get (fun s => s_paths s (join (i_path qi) n)) ;;
  ret (match k with Some _ => false | None => true end).
(** 2800-2848: the file name among the values of SetObjectPropValue *)
Definition set_file_name (fuel : nat) (h : N) (n : path) : M N :=
  v <- handle_value h ;;
  match v with
  | None => ret R_GeneralError
  | Some p =>
    i <- deref p ;;
    ok <- file_name_valid n (i_parent i) ;;
    if negb ok then ret R_Invalid_ObjectProp_Value else
    let dst := rev (match before_slash (rev (i_path i)) with Some r => slash :: r | None => [] end) ++ n in
    ok <- sys_rename (i_path i) dst ;;
    when ok (
      upd (fun s => set_paths (pupd (s_paths s) (i_path i) None) s) ;;;
      upd (fun s => set_puoids (pupd (s_puoids s) (i_path i) None) s) ;;;
      o <- info_of i ;;
      modify p (it_path dst) ;;;
      modify p (it_info (Some (oi_set_name n o))) ;;;
      upd (fun s => set_paths (pupd (s_paths s) dst (Some h)) s) ;;;
      upd (fun s => set_puoids (pupd (s_puoids s) dst (Some (i_puoid i))) s) ;;;
      watch_rec fuel remove_watch p ;;;
      watch_rec fuel add_watch p ;;;
      adjust_children fuel fuel dst (i_first i)) ;;;
    ret R_OK
  end.

(** ** Reading and writing *)
(** the loop of readData, 1984-1996 *)
Fixpoint read_loop (fuel : nat) (data : bytes) (pos n : N) (acc : bytes) : M (N * bytes) :=
  if n =? 0 then ret (R_OK, acc) else
  match fuel with
  | O => give_up
  | S f =>
    t <- tick ;;
    match c_chunk C t with
    | None => ret (R_GeneralError, acc)
    | Some k =>
      let got := take (N.min (k + 1) n) (drop pos data) in
      if len got =? 0 then ret (R_GeneralError, acc)
      else read_loop f data (pos + len got) (n - len got) (acc ++ got)
    end
  end.
(** 1958-2005; the bytes count only if the code is OK *)
Definition read_data (h n off : N) : M (N * bytes) :=
  v <- handle_value h ;;
  match v with
  | None => ret (R_InvalidObjectHandle, [])
  | Some p =>
    i <- deref p ;;
    f <- fails ;; w <- get s_nodes ;;
    match node_at (i_path i) w with
    | Some (File d) =>
      if f then ret (R_AccessDenied, []) else
      if len d <? u64 (off + n) then ret (R_GeneralError, []) else
      f <- fails ;;
      if f || (0x8000000000000000 <=? off) then ret (R_GeneralError, []) else
      read_loop (N.to_nat n) d off n []
    | _ => ret (R_AccessDenied, [])
    end
  end.
(** 2010-2030; QFile::resize takes a signed size: ftruncate refuses a negative one *)
Definition truncate_item (h size : N) : M N :=
  b <- has_handle h ;;
  if negb b then ret R_InvalidObjectHandle else
  v <- handle_ref h ;;
  match v with
  | None => ret R_GeneralError
  | Some p =>
    i <- deref p ;;
    match i_info i with
    | None => ret R_GeneralError
    | Some o =>
      if oi_format o =? FMT_Association then ret R_GeneralError else
      f <- fails ;; w <- get s_nodes ;;
      match node_at (i_path i) w with
      | Some (File d) =>
        if f || (0x8000000000000000 <=? size) then ret R_GeneralError else
        upd (set_nodes (set_node (i_path i) (File (resize d size)) w)) ;;;
        modify p (it_info (Some (oi_set_size size o))) ;;;
        ret R_OK
      | _ => ret R_GeneralError
      end
    end
  end.
(** the loops of writeData (2098-2117) and writePartialData (2190-2199): [bs] at
    the position of m_dataFile *)
Fixpoint write_loop (fuel : nat) (bs : bytes) : M N :=
  match bs with
  | [] => ret R_OK
  | _ =>
    fo <- get s_file ;;
    match fo with
    | None => ret R_OK
    | Some (fp, pos) =>
      match fuel with
      | O => give_up
      | S f =>
        t <- tick ;;
        match c_chunk C t with
        | None => ret R_GeneralError
        | Some k =>
          w <- get s_nodes ;;
          let now := take (k + 1) bs in
          (* the open file may have been unlinked: the data goes nowhere *)
          (match node_at fp w with Some (File d) => upd (set_nodes (set_node fp (File (put_at d pos now)) w)) | _ => ret tt end) ;;;
          upd (set_file (Some (fp, pos + len now))) ;;;
          write_loop f (drop (k + 1) bs)
        end
      end
    end
  end.
(** 2035-2125.  [data]: None for the null buffer *)
Definition write_data (h : N) (data : option bytes) (first last : bool) : M N :=
  b <- has_handle h ;;
  if negb b then ret R_InvalidObjectHandle else
  v <- handle_ref h ;;
  match v with
  | None => ret R_GeneralError
  | Some p =>
    match data with
    | None =>
      if last then
        upd (set_write 0) ;;;
        fo <- get s_file ;;
        match fo with
        | None => ret R_OK
        | Some (fp, pos) =>
          w <- get s_nodes ;;
          f <- fails ;;
          (match node_at fp w with Some (File d) => when (negb f) (upd (set_nodes (set_node fp (File (resize d pos)) w))) | _ => ret tt end) ;;;
          upd (set_file None) ;;;
          i <- deref p ;; _ <- info_of i ;;
          ret R_OK
        end
      else crash   (* a null buffer in mid-transfer: never done by the callers *)
    | Some bs =>
      upd (set_write h) ;;;
      opened <- (if first then
           i <- deref p ;;
           ok <- sys_open_rw (i_path i) ;;
           if ok : bool then upd (set_file (Some (i_path i, 0))) ;;; _ <- info_of i ;; ret true
           else upd (set_file None) ;;; ret false
         else ret true) ;;
      if negb opened then ret R_GeneralError else
      if 0x80000000 <=? len bs then fo <- get s_file ;; ret (match fo with Some _ => R_GeneralError | None => R_OK end) else
      write_loop (length bs) bs
    end
  end.
(** 2130-2235; dataContent is never null *)
Definition write_partial (h off : N) (bs : bytes) (first last : bool) : M N :=
  b <- has_handle h ;;
  v <- (if b then handle_ref h else ret None) ;;
  let code := if negb b then R_InvalidObjectHandle else match v with None => R_GeneralError | Some _ => R_OK end in
  code <- (if isok code && first then
             i <- deref_opt v ;;
             upd (set_write h) ;;;
             ok <- sys_open_rw (i_path i) ;;
             if ok : bool then upd (set_file (Some (i_path i, 0))) ;;; ret R_OK else upd (set_file None) ;;; ret R_GeneralError
           else ret code) ;;
  fo <- get s_file ;;
  code <- (match fo with
           | Some (fp, _) =>
             if isok code then
               wh <- get s_write ;;
               if negb (wh =? h) then ret R_GeneralError else
               f <- fails ;;
               if f || (0x8000000000000000 <=? off) then ret R_GeneralError else
               upd (set_file (Some (fp, off))) ;;;
               write_loop (length bs) bs
             else ret code
           | None => ret code
           end) ;;
  (if negb (isok code) || last then
     fo <- get s_file ;;
     (match fo with
      | Some _ =>
        upd (set_file None) ;;;
        i <- deref_opt v ;; o <- info_of i ;;
        w <- get s_nodes ;;
        match v with Some p => modify p (it_info (Some (oi_set_size (size_of (i_path i) w) o))) | None => crash end
      | None => ret tt
      end) ;;;
     upd (set_write 0)
   else ret tt) ;;;
  ret code.

(** ** Copying *)
(** 1658-1678: getObjectInfo *)
Definition get_object_info (h : N) : M (N * option objinfo) :=
  b <- has_handle h ;;
  if negb b then ret (R_InvalidObjectHandle, None) else
  v <- handle_ref h ;;
  match v with
  | None => ret (R_GeneralError, None)
  | Some p => modify p (it_events true) ;;; populate_info p ;;; i <- deref p ;; ret (R_OK, i_info i)
  end.
Definition MAX_READ_LEN := 65536.
(** storageplugin.cpp:43-84, both objects in this storage *)
Fixpoint copy_loop (fuel dfuel : nat) (src dst : N) (off remaining : N) (result : N) : M N :=
  if (remaining =? 0) || negb (isok result) then ret result else
  match fuel with
  | O => give_up
  | S f =>
    let n := N.min remaining MAX_READ_LEN in
    r <- read_data src n off ;;
    t <- tick ;;
    if c_cancel C t then _ <- delete_item dfuel [] dst FMT_Undefined ;; ret R_GeneralError else
    if negb (isok (fst r)) then copy_loop f dfuel src dst off remaining (fst r) else
    r1 <- write_data dst (Some (snd r)) (off =? 0) false ;;
    r2 <- (if remaining - n =? 0 then write_data dst None false true else ret r1) ;;
    copy_loop f dfuel src dst (u32 (off + n)) (remaining - n) r2
  end.
Definition copy_data (fuel : nat) (src dst : N) : M N :=
  b1 <- has_handle src ;; b2 <- has_handle dst ;;
  if negb b1 || negb b2 then ret R_InvalidObjectHandle else
  r <- get_object_info src ;;
  if negb (isok (fst r)) then ret (fst r) else
  match snd r with
  | None => crash
  | Some o => let size := u32 (oi_size o) in copy_loop (N.to_nat (size / MAX_READ_LEN + 2)) fuel src dst 0 size R_OK
  end.
(** 1481-1495: does the target folder already contain the name? *)
Fixpoint any_path (l : list N) (p : path) : M bool :=
  match l with
  | [] => ret false
  | h :: l' =>
    v <- handle_value h ;;
    match v with
    | Some q => i <- deref q ;; if peqb (i_path i) p then ret true else any_path l' p
    | None => any_path l' p
    end
  end.
(** 1451-1560, destination in this storage.  Result: code, handle of the copy. *)
Fixpoint copy_object (fuel : nat) (h parent : N) (top : bool) : M (N * N) :=
  match fuel with
  | O => give_up
  | S f =>
    b <- has_handle h ;;
    if negb b then ret (R_InvalidObjectHandle, 0) else
    b <- has_handle parent ;;
    if negb b then ret (R_InvalidParentObject, 0) else
    v <- handle_ref h ;;
    match v with
    | None => ret (R_GeneralError, 0)
    | Some p =>
      i <- deref p ;;
      match i_info i with
      | None => ret (R_InvalidObjectHandle, 0)
      | Some o =>
        t <- tick ;;
        match c_free C t with
        | None => ret (R_GeneralError, 0)
        | Some free =>
          if free <? oi_size o then ret (R_StoreFull, 0) else
          v <- handle_value parent ;;
          match v with
          | None => ret (R_InvalidParentObject, 0)
          | Some q =>
            qi <- deref q ;;
            let dst := join (i_path qi) (oi_name o) in
            clash <- (if top && (oi_format o =? FMT_Association) then
                        r <- get_object_handles 0 parent ;;
                        if isok (fst r) then any_path (snd r) dst else ret false
                      else ret false) ;;
            if (clash : bool) then ret (R_InvalidParentObject, 0) else
            remove_watch q ;;;
            r <- add_item f (oi_set_storage (c_sid C) (oi_set_parent parent o)) ;;
            let copy := match snd r with Some (c, _) => c | None => 0 end in
            if negb (isok (fst r)) then add_watch q ;;; ret (fst r, copy) else
            if oi_format o =? FMT_Association then
              i <- deref p ;;
              res <- (fix loop (k : nat) (itr : option ptr) : M N :=
                 match itr with
                 | None => ret R_OK
                 | Some c => match k with
                   | O => give_up
                   | S k' => ci <- deref c ;;
                             r <- copy_object f (i_handle ci) copy false ;;
                             if negb (isok (fst r)) then ret (fst r) else
                             ci <- deref c ;; loop k' (i_next ci)
                   end
                 end) f (i_first i) ;;
              if negb (isok res) then ret (res, copy) else add_watch q ;;; ret (R_OK, copy)
            else
              r <- copy_data f h copy ;;
              if negb (isok r) then ret (r, copy) else add_watch q ;;; ret (R_OK, copy)
          end
        end
      end
    end
  end.

(** ** File system notifications *)
Inductive inote := NCreate | NDelete | NMovedFrom | NMovedTo | NCloseWrite.
Record ievent := mk_ev { ev_kind : inote; ev_wd : N; ev_cookie : N; ev_name : option path }.
(** 2866-2888 *)
Definition handle_fs_delete (fuel : nat) (wd : N) (name : path) : M unit :=
  ph <- get (fun s => s_wds s wd) ;;
  match ph with
  | None => ret tt
  | Some ph =>
    v <- handle_ref ph ;;
    match v with
    | None => ret tt
    | Some q =>
      qi <- deref q ;;
      h <- get (fun s => s_paths s (join (i_path qi) name)) ;;
      match h with
      | Some h => _ <- delete_helper fuel h false true ;; ret tt
      | None => ret tt
      end
    end
  end.
(** 2890-2911 *)
Definition handle_fs_create (fuel : nat) (wd : N) (name : path) : M unit :=
  ph <- get (fun s => match s_wds s wd with Some h => h | None => 0 end) ;;
  v <- handle_ref ph ;;
  match v with
  | None => ret tt
  | Some q =>
    qi <- deref q ;;
    if negb (opt_eqb (i_wd qi) (Some wd)) then ret tt else
    k <- get (fun s => s_paths s (join (i_path qi) name)) ;;
    match k with
    | Some _ => ret tt
    | None => _ <- add_to_storage fuel (join (i_path qi) name) None true false 0 ;; ret tt
    end
  end.
(** 2913-2988 *)
Definition handle_fs_move (fuel : nat) (wd1 : N) (n1 : path) (wd2 : N) (n2 : path) : M unit :=
  fh <- get (fun s => match s_wds s wd1 with Some h => h | None => 0 end) ;;
  th <- get (fun s => match s_wds s wd2 with Some h => h | None => 0 end) ;;
  v1 <- handle_value fh ;; v2 <- handle_value th ;;
  if (fh =? th) && peqb n1 n2 then ret tt else
  match v1, v2 with
  | Some fq, Some tq =>
    fi <- deref fq ;; ti <- deref tq ;;
    if negb (opt_eqb (i_wd fi) (Some wd1)) || negb (opt_eqb (i_wd ti) (Some wd2)) then ret tt else
    let old := join (i_path fi) n1 in
    mh <- get (fun s => match s_paths s old with Some h => h | None => 0 end) ;;
    if mh =? 0 then ret tt else
    mv <- handle_value mh ;;
    match mv with
    | None => ret tt
    | Some p =>
      let new := join (i_path ti) n2 in
      k <- get (fun s => s_paths s new) ;;
      match k with
      | Some _ => _ <- delete_helper fuel mh false true ;; ret tt
      | None =>
        (if fh =? th then
           upd (fun s => set_paths (pupd (s_paths s) old None) s) ;;;
           modify p (it_path new) ;;;
           i <- deref p ;; o <- info_of i ;;
           modify p (it_info (Some (oi_set_name n2 o))) ;;;
           upd (fun s => set_paths (pupd (s_paths s) new (Some mh)) s) ;;;
           adjust_children fuel fuel new (i_first i) ;;;
           watch_rec fuel remove_watch p ;;;
           watch_rec fuel add_watch p
         else _ <- move_object fuel mh th false ;; ret tt) ;;;
        modify p (it_info None) ;;;
        populate_info p ;;;
        fi <- deref fq ;;
        (if i_events fi then modify tq (it_events true) else ret tt) ;;;
        emit EV_ObjectInfoChanged [mh]
      end
    end
  | _, _ => ret tt
  end.
(** mtptypes.h:881-911 MTPObjectInfo::differsFrom *)
Definition info_differs (a b : objinfo) : bool :=
  negb ((oi_storage a =? oi_storage b) && (oi_format a =? oi_format b) && (oi_protection a =? oi_protection b) && (oi_size a =? oi_size b) &&
        (oi_thumb_format a =? oi_thumb_format b) && (oi_thumb_size a =? oi_thumb_size b) && (oi_thumb_w a =? oi_thumb_w b) && (oi_thumb_h a =? oi_thumb_h b) &&
        (oi_image_w a =? oi_image_w b) && (oi_image_h a =? oi_image_h b) && (oi_depth a =? oi_depth b) && (oi_parent a =? oi_parent b) &&
        (oi_assoc_type a =? oi_assoc_type b) && (oi_assoc_desc a =? oi_assoc_desc b) && (oi_seq a =? oi_seq b) && peqb (oi_name a) (oi_name b) &&
        peqb (oi_capture a) (oi_capture b) && peqb (oi_modified a) (oi_modified b) && peqb (oi_keywords a) (oi_keywords b)).
(** 3045-3085 *)
Definition handle_fs_modify (wd : N) (name : path) : M unit :=
  ph <- get (fun s => match s_wds s wd with Some h => h | None => 0 end) ;;
  v <- handle_value ph ;;
  match v with
  | None => ret tt
  | Some q =>
    qi <- deref q ;;
    if negb (opt_eqb (i_wd qi) (Some wd)) then ret tt else
    h <- get (fun s => match s_paths s (join (i_path qi) name) with Some h => h | None => 0 end) ;;
    wh <- get s_write ;;
    if (h =? 0) || (h =? wh) then ret tt else
    v <- handle_value h ;;
    match v with
    | None => crash
    | Some p =>
      i <- deref p ;;
      modify p (it_info None) ;;;
      populate_info p ;;;
      j <- deref p ;; o <- info_of j ;;
      when (match i_info i with Some x => info_differs x o | None => true end) (emit EV_ObjectInfoChanged [h])
    end
  end.
(** 2307-2370 (the storage info events, C65, are modelled elsewhere) *)
Definition inotify_event (fuel : nat) (e : option ievent) : M unit :=
  c <- get s_cache ;;
  match e with
  | None =>
    match c with
    | Some (wd, _, n) => handle_fs_delete fuel wd n ;;; upd (set_cache None)
    | None => ret tt
    end
  | Some e =>
    match ev_name e with
    | None => ret tt
    | Some name =>
      (match c with
       | Some (wd, ck, n) => when (negb (ck =? ev_cookie e)) (handle_fs_delete fuel wd n ;;; upd (set_cache None))
       | None => ret tt
       end) ;;;
      match ev_kind e with
      | NCreate => handle_fs_create fuel (ev_wd e) name
      | NDelete => handle_fs_delete fuel (ev_wd e) name
      (* fromEvent points into the cache, which the line above has cleared if the
         cookies differ *)
      | NMovedTo =>
        c <- get s_cache ;;
        match c with
        | Some (wd, ck, n) =>
          if ck =? ev_cookie e then handle_fs_move fuel wd n (ev_wd e) name ;;; upd (set_cache None)
          else handle_fs_create fuel (ev_wd e) name
        | None => handle_fs_create fuel (ev_wd e) name
        end
      | NMovedFrom =>
        c <- get s_cache ;;
        (match c with
         | Some (wd, _, n) => handle_fs_delete fuel wd n ;;; upd (set_cache None)
         | None => ret tt
         end) ;;;
        upd (set_cache (if ev_cookie e =? 0 then None else Some (ev_wd e, ev_cookie e, name)))
      | NCloseWrite => handle_fs_modify (ev_wd e) name
      end
    end
  end.
End Ops.
