(** Model of the free space announcements of a storage
    (mts/platform/storage/fsstorageplugin/fsstorageplugin.cpp). *)
From Coq Require Import NArith List Bool.
Import ListNotations.
From Verif Require Import Base.
Open Scope N_scope.

(** what statvfs answers: None = failure, Some (f_blocks, f_bavail, f_bsize) *)
Definition statvfs := option (N * N * N).

(** m_storageInfo.maxCapacity, m_storageInfo.freeSpace, m_reportedFreeSpace
    (fsstorageplugin.h:401; other fields of the storage info are left out) *)
Record space := mk_space { sp_cap : N; sp_free : N; sp_reported : N }.

(** constructor, fsstorageplugin.cpp:393,405-415 *)
Definition space_init (r : statvfs) : space :=
  match r with
  | None => mk_space 0 0 0
  | Some (blocks, avail, size) => mk_space (u64 (blocks * size)) (u64 (avail * size)) 0
  end.
(** FSStoragePlugin::storageInfo, fsstorageplugin.cpp:1431-1446; the result is the
    response code's success and the capacity and free space put into [info] *)
Definition storage_info (r : statvfs) (s : space) : (bool * N * N) * space :=
  match r with
  | None => ((false, sp_cap s, sp_free s), s)
  | Some (blocks, avail, size) =>
    let cap := u64 (blocks * size) in let free := u64 (avail * size) in
    ((true, cap, free), mk_space cap free (sp_reported s))
  end.
(** [int p = 100 * x / info.maxCapacity]: 64 bit unsigned product, then the low 32 bits *)
Definition percent_int (x cap : N) : N := u32 (u64 (100 * x) / cap).
(** FSStoragePlugin::sendStorageInfoChanged, fsstorageplugin.cpp:3026-3045; the result
    tells whether StorageInfoChanged was emitted *)
Definition send_info_changed (r : statvfs) (s : space) : bool * space :=
  let '((_, cap, free), s) := storage_info r s in
  if cap =? 0 then (false, s)
  else if percent_int (sp_reported s) cap =? percent_int free cap then (false, s)
  else (true, mk_space (sp_cap s) (sp_free s) free).

(** what happens to a storage: the host asks for the storage info, or a change of the
    file system makes the storage check its free space (fsstorageplugin.cpp:2899,2920,3077) *)
Inductive space_in := SAsk (r : statvfs) | SCheck (r : statvfs).
Definition space_step (i : space_in) (s : space) : bool * space :=
  match i with
  | SAsk r => (false, snd (storage_info r s))
  | SCheck r => send_info_changed r s
  end.
Fixpoint space_run (l : list space_in) (s : space) : list bool * space :=
  match l with
  | [] => ([], s)
  | i :: l => let (e, s1) := space_step i s in let (es, s2) := space_run l s1 in (e :: es, s2)
  end.
