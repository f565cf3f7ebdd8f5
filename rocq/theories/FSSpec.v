(** Specification vocabulary of the storage properties (C42-C53, C59, C61): what an
    initiator or another program can see of a storage, independent of the proofs. *)
From Coq Require Import Permutation.
From Verif Require Import Base AList Wire FS FSPath.

(** ** What is visible of an object, given its handle *)
Record view := mk_view { v_path : path; v_parent : option N; v_puoid : N; v_info : option objinfo }.
Definition parent_handle (s : fs) (i : item) : option N :=
  match i_parent i with Some q => match s_heap s q with Some j => Some (i_handle j) | None => None end | None => None end.
Definition view_of (s : fs) (i : item) : view := mk_view (i_path i) (parent_handle s i) (i_puoid i) (i_info i).
Definition look (s : fs) (h : N) : option view :=
  match aget h (s_handles s) with
  | Some (Some p) => match s_heap s p with Some i => Some (view_of s i) | None => None end
  | _ => None
  end.
Definition v_name (v : view) : option path := match v_info v with Some o => Some (oi_name o) | None => None end.
Definition v_format (v : view) : option N := match v_info v with Some o => Some (oi_format o) | None => None end.
Definition v_folder (v : view) : Prop := v_format v = Some FMT_Association.
Definition content (s : fs) (x : path) : option node := node_at x (s_nodes s).

(** the handles met by following the first-child and next-sibling pointers: a finite
    list, so there is no cycle *)
Inductive chain (s : fs) : option ptr -> list N -> Prop :=
| chain_nil : chain s None []
| chain_cons p i l : s_heap s p = Some i -> chain s (i_next i) l -> chain s (Some p) (i_handle i :: l).
Definition child_list (s : fs) (h : N) (l : list N) : Prop :=
  exists p i, aget h (s_handles s) = Some (Some p) /\ s_heap s p = Some i /\ chain s (i_first i) l.

(** [a] is [h] or one of the folders [h] is in *)
Inductive inside (s : fs) (a : N) : N -> Prop :=
| inside_self v : look s a = Some v -> inside s a a
| inside_child h v q : look s h = Some v -> v_parent v = Some q -> inside s a q -> inside s a h.

(** ** The tables agree *)
Record consistent (C : conf) (s : fs) : Prop := {
  (* every handle of the table denotes an object, once *)
  co_once : NoDup (akeys (s_handles s));
  co_live : forall h, In h (akeys (s_handles s)) -> look s h <> None;
  (* every object in memory is reachable by its handle *)
  co_known : forall p i, s_heap s p = Some i -> aget (i_handle i) (s_handles s) = Some (Some p);
  (* path names and handles correspond one to one *)
  co_path : forall h v, look s h = Some v -> s_paths s (v_path v) = Some h;
  co_path' : forall x h, s_paths s x = Some h -> exists v, look s h = Some v /\ v_path v = x;
  (* the root *)
  co_root : exists v, look s 0 = Some v /\ v_path v = c_root C /\ v_parent v = None;
  (* every other object is in a folder, is called parent path / name, and says so in its object info *)
  co_parent : forall h v, look s h = Some v -> h <> 0 -> exists q w o,
     v_parent v = Some q /\ look s q = Some w /\ v_info v = Some o /\ plain (oi_name o) /\ v_path v = join (v_path w) (oi_name o) /\ oi_parent o = q;
  co_rooted : forall h v, look s h = Some v -> inside s 0 h;
  (* the child list of an object holds exactly its children, once *)
  co_list : forall h v, look s h = Some v -> exists l, child_list s h l /\ NoDup l /\
     forall c, In c l <-> exists w, look s c = Some w /\ v_parent w = Some h;
  co_reserved : forall h v, look s h = Some v -> h <> ALL }.

(** ** Operations and histories *)
Inductive op :=
| OAdd (fuel : nat) (info : objinfo)                       (* SendObjectInfo / SendObjectPropList *)
| ODelete (fuel : nat) (h : N)                              (* DeleteObject *)
| ODeleteAll (fuel : nat) (order : list N) (fmt : N)        (* DeleteObject 0xFFFFFFFF *)
| OMove (fuel : nat) (h parent : N)                         (* MoveObject *)
| ORename (fuel : nat) (h : N) (name : path)                (* SetObjectPropValue, file name *)
| OCopy (fuel : nat) (h parent : N)                         (* CopyObject *)
| ORead (h n off : N)                                       (* GetObject, GetPartialObject *)
| OWrite (h : N) (data : option bytes) (first last : bool)  (* SendObject *)
| OPartial (h off : N) (bs : bytes) (first last : bool)     (* SendPartialObject64 *)
| OTruncate (h size : N)                                    (* TruncateObject64 *)
| OInfo (h : N)                                             (* GetObjectInfo *)
| OList (fmt assoc : N)                                     (* GetObjectHandles *)
| OEvent (fuel : nat) (e : option ievent)                   (* file system notification *)
| OWorld (w : nodes).                                       (* another program changes files *)
Definition exec (C : conf) (o : op) : M unit :=
  match o with
  | OAdd f i => _ <- add_item C f i ;; ret tt
  | ODelete f h => _ <- delete_item C f [] h 0 ;; ret tt
  | ODeleteAll f l m => _ <- delete_item C f l ALL m ;; ret tt
  | OMove f h q => _ <- move_object C f h q true ;; ret tt
  | ORename f h n => _ <- set_file_name C f h n ;; ret tt
  | OCopy f h q => _ <- copy_object C f h q true ;; ret tt
  | ORead h n off => _ <- read_data C h n off ;; ret tt
  | OWrite h d a b => _ <- write_data C h d a b ;; ret tt
  | OPartial h off bs a b => _ <- write_partial C h off bs a b ;; ret tt
  | OTruncate h n => _ <- truncate_item C h n ;; ret tt
  | OInfo h => _ <- get_object_info C h ;; ret tt
  | OList m a => _ <- get_object_handles m a ;; ret tt
  | OEvent f e => inotify_event C f e
  | OWorld w => upd (set_nodes w)
  end.

(** *** Situations the theorems exclude, because the program goes wrong in them (see
    DESIGN.md, Findings) or its callers never produce them *)
(** another program replaces a folder by a file, or the reverse, unnoticed *)
Definition kind_kept (s : fs) (v : view) (x : path) : Prop := v_folder v -> is_dir x (s_nodes s) = true.
Definition watched (s : fs) (wd : N) : N := match s_wds s wd with Some h => h | None => 0 end.
Definition note_ok (C : conf) (fuel : nat) (e : option ievent) (s : fs) : Prop :=
  match e with
  | Some e => match ev_name e with
    | Some name => plain name /\
      forall s1, (match s_cache s with Some (wd, ck, n) => when (negb (ck =? ev_cookie e)) (handle_fs_delete C fuel wd n ;;; upd (set_cache None)) | None => ret tt end) s = Ret (tt, s1) ->
      match ev_kind e with
      | NMovedTo => forall wd ck n, s_cache s1 = Some (wd, ck, n) -> ck = ev_cookie e -> plain n /\
          forall fv tv h v, look s1 (watched s1 wd) = Some fv -> look s1 (watched s1 (ev_wd e)) = Some tv -> s_paths s1 (join (v_path fv) n) = Some h -> look s1 h = Some v ->
            (watched s1 wd = watched s1 (ev_wd e) \/ n = name) /\ ~ inside s1 h (watched s1 (ev_wd e)) /\ kind_kept s1 v (join (v_path tv) name)
      | NCloseWrite => forall tv h v, look s1 (watched s1 (ev_wd e)) = Some tv -> s_paths s1 (join (v_path tv) name) = Some h -> look s1 h = Some v -> kind_kept s1 v (v_path v)
      | _ => True
      end
    | None => True
    end
  | None => True
  end.
Definition op_ok (C : conf) (o : op) (s : fs) : Prop :=
  match o with
  | OAdd _ i => plain (oi_name i)
  | ODelete _ h => h <> ALL
  (* every handle once; a format filter selects nothing but childless objects *)
  | ODeleteAll _ l m => Permutation l (akeys (s_handles s)) /\ (m = 0 \/ m = FMT_Undefined \/ forall h v c w, look s h = Some v -> v_format v = Some m -> look s c = Some w -> v_parent w <> Some h)
  (* a known name in the target folder still exists on disk *)
  | OMove _ h q => forall v w n, look s h = Some v -> look s q = Some w -> v_name v = Some n ->
      s_paths s (join (v_path w) n) <> None -> join (v_path w) n = v_path v \/ exists_at (join (v_path w) n) (s_nodes s) = true
  | ORename _ h _ => h <> 0
  | OCopy _ h _ => h <> 0
  | OWrite _ d _ l => d = None -> l = true
  | OPartial h _ _ first _ => exists v, look s h = Some v /\ (first = false -> s_file s = None \/ exists pos d, s_file s = Some (v_path v, pos) /\ content s (v_path v) = Some (File d))
  | OEvent f e => note_ok C f e s
  | _ => True
  end.
(** the states a storage can get into: enumeration, then any operations in any order,
    with any outcome of the system calls, and any changes by other programs between them *)
Inductive reachable (C : conf) : fs -> Prop :=
| reach_start fuel puoids w s : enumerate C fuel (fs_init puoids w) = Ret (tt, s) -> s_root s <> None -> reachable C s
| reach_step s o s' : reachable C s -> op_ok C o s -> exec C o s = Ret (tt, s') -> reachable C s'.

(** ** Places *)
Definition at_or_below (o x : path) : Prop := x = o \/ exists r, x = o ++ slash :: r.
(** [y] is to [new] what [x] is to [old] *)
Definition relocated (old new x y : path) : Prop := exists r, (r = [] \/ exists r', r = slash :: r') /\ x = old ++ r /\ y = new ++ r.

(** ** File contents *)
Definition byte (l : bytes) (k : N) : option N := nth_error l (N.to_nat k).
(** [d'] is [d] with [bs] written at [off]; a gap is filled with zeros *)
Definition patched (d : bytes) (off : N) (bs : bytes) (d' : bytes) : Prop :=
  len d' = (if len bs =? 0 then len d else N.max (len d) (off + len bs)) /\
  forall k, k < len d' -> byte d' k = if (off <=? k) && (k <? off + len bs) then byte bs (k - off) else if k <? len d then byte d k else Some 0.
(** the system calls do not fail *)
Definition works (C : conf) : Prop := (forall t, c_fail C t = false) /\ (forall t, c_chunk C t <> None).

(** ** File names: what SetObjectPropValue must refuse *)
Definition forbidden_char (c : N) : Prop := c < 32 \/ In c [60; 62; 58; 34; 47; 92; 124; 63; 42].   (* control characters, less, greater, colon, double quote, slash, backslash, bar, question mark, star *)
Definition only_dots (n : path) : Prop := n <> [] /\ forall c, In c n -> c = 46.
