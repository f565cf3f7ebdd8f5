(** StorageFactory (mts/platform/storage/storagefactory.cpp): storage and handle
    numbering, routing of requests to storage plugins, property cache upkeep.

    The storage plugins are a parameter: a world [W] of all their states, a
    test [owns] (StoragePlugin::checkHandle, const) and [exec], one virtual
    call on the plugin with a given storage id.  Every call that reaches a
    plugin is recorded in [f_log] (checkHandle itself is not recorded: it
    changes nothing). *)
From Verif Require Import Base AList PropCache Wire.

(** ** Handle numbering *)
(** storagefactory.cpp:671-676; state: m_newObjectHandle (quint32), result: handle *)
Definition new_handle (m : N) : N * N :=
  let m1 := u32 (m + 1) in (m1, if m1 =? 0xFFFFFFFF then 1 else m1).
(** the handles of n successive requests, starting from m *)
Fixpoint new_handles (n : nat) (m : N) : N * list N :=
  match n with
  | O => (m, [])
  | S k => let (m1, h) := new_handle m in let (m2, r) := new_handles k m1 in (m2, h :: r)
  end.
(** ** Storage numbering *)
(** 235-240 *)
Definition assign_storage_id (storageNo partitionNo : N) : N := u32 (N.lor (N.shiftl storageNo 16) partitionNo).
(** 113-122: the loop over the created storages; [quint8 i] wraps, so with 256 or
    more storages the condition [i < count] stays true forever; [fuel] bounds the
    iterations and None is "still running". *)
Fixpoint number_loop (fuel : nat) (i count : N) (acc : list (N * N)) : option (list (N * N)) :=
  if negb (i <? count) then Some acc else
  match fuel with
  | O => None
  | S f => number_loop f (u8 (i + 1)) count (aset (u32 (assign_storage_id 1 1 + i)) i acc)
  end.

(** ** Calls on plugins *)
Inductive pcall :=
| PAddItem (parent : N) (info : objinfo) | PDelete (h fmt : N) | PHandles (fmt assoc : N) | PInfo
| PGetRefs (h : N) | PSetRefs (h : N) (l : list N) | PCopy (h parent dst : N) | PMove (h parent dst : N)
| PPath (h : N) | PGetEvents (h : N) | PSetEvents (h : N) (b : bool) | PObjInfo (h : N)
| PWrite (h : N) (data : option (list N)) (first last : bool)
| PWritePartial (h off : N) (data : list N) (first last : bool)
| PTruncate (h size : N) | PRead (h len off : N)
| PProps (h : N) (props : list N) | PChildProps (h : N) (props : list N)
| PSetProps (h : N) (vals : list (N * variant)) (spl : bool).
(** everything a call can hand back *)
Record pres := { pr_resp : N; pr_handle : N; pr_parent : N; pr_handles : list N; pr_vals : list variant;
                 pr_childvals : list (N * list variant); pr_bytes : list N; pr_flag : bool }.
Definition pfail (c : N) : pres := {| pr_resp := c; pr_handle := 0; pr_parent := 0; pr_handles := []; pr_vals := [];
                 pr_childvals := []; pr_bytes := []; pr_flag := false |}.
Definition RESP_OK := 0x2001.
Definition RESP_GeneralError := 0x2002.
Definition RESP_InvalidStorageID := 0x2008.
Definition RESP_InvalidObjectHandle := 0x2009.
Definition RESP_StoreFull := 0x200C.
Definition PROP_Parent_Obj := 0xDC0B.

Section F.
Context {W : Type}.
Variable owns : W -> N -> N -> bool.
Variable exec : W -> N -> pcall -> W * pres.

Record fstate := { f_ids : list N;            (* keys of m_allStorages, iteration order *)
                   f_world : W;
                   f_cache : @pcache variant; (* m_objectPropertyCache *)
                   f_massq : list N;          (* m_massQueriedAssociations *)
                   f_log : list (N * pcall) }.
Definition f_setw (s : fstate) (w : W) l : fstate :=
  {| f_ids := f_ids s; f_world := w; f_cache := f_cache s; f_massq := f_massq s; f_log := l |}.
Definition f_setc (s : fstate) c : fstate :=
  {| f_ids := f_ids s; f_world := f_world s; f_cache := c; f_massq := f_massq s; f_log := f_log s |}.
Definition f_setm (s : fstate) m : fstate :=
  {| f_ids := f_ids s; f_world := f_world s; f_cache := f_cache s; f_massq := m; f_log := f_log s |}.
Definition f_has (s : fstate) (id : N) : bool := existsb (N.eqb id) (f_ids s).
Definition f_call (s : fstate) (id : N) (c : pcall) : fstate * pres :=
  let (w, r) := exec (f_world s) id c in (f_setw s w (f_log s ++ [(id, c)]), r).

(** 242-251 *)
Definition storage_of (s : fstate) (h : N) : option N := find (fun id => owns (f_world s) id h) (f_ids s).
(** the common shape of 374-398 and 452-556: the owner does it, or InvalidObjectHandle *)
Definition f_by_handle (s : fstate) (h : N) (c : pcall) : fstate * pres :=
  match storage_of s h with Some id => f_call s id c | None => (s, pfail RESP_InvalidObjectHandle) end.
(** 362-369: the storage with this id does it, or InvalidStorageID *)
Definition f_by_id (s : fstate) (id : N) (c : pcall) : fstate * pres :=
  if f_has s id then f_call s id c else (s, pfail RESP_InvalidStorageID).

(** 256-272; the chosen storage id is returned too (reference parameter) *)
Definition f_addItem (s : fstate) (id parent : N) (info : objinfo) : fstate * pres * N :=
  let id := if id =? 0 then assign_storage_id 1 1 else id in
  if f_has s id then (f_call s id (PAddItem parent info), id) else (s, pfail RESP_GeneralError, id).
(** 277-294 *)
Fixpoint f_delete_loop (ids : list N) (s : fstate) (h fmt : N) (r : pres) : fstate * pres :=
  match ids with
  | [] => (s, r)
  | id :: rest =>
    if (h =? 0xFFFFFFFF) || owns (f_world s) id h then
      let (s1, r1) := f_call s id (PDelete h fmt) in
      if h =? 0xFFFFFFFF then f_delete_loop rest s1 h fmt r1 else (s1, r1)
    else f_delete_loop rest s h fmt r
  end.
Definition f_delete (s : fstate) (h fmt : N) : fstate * pres :=
  let (s1, r) := f_delete_loop (f_ids s) s h fmt (pfail RESP_GeneralError) in
  (f_setc s1 (pc_remove (f_cache s1) h 0), r).
(** 299-327 *)
Fixpoint f_handles_loop (ids : list N) (s : fstate) (fmt assoc : N) (resp : N) (acc : list N) : fstate * (N * list N) :=
  match ids with
  | [] => (s, (resp, acc))
  | id :: rest =>
    let (s1, r) := f_call s id (PHandles fmt assoc) in
    if pr_resp r =? RESP_OK then f_handles_loop rest s1 fmt assoc (pr_resp r) (acc ++ pr_handles r)
    else (s1, (pr_resp r, acc))
  end.
Definition f_handles (s : fstate) (id fmt assoc : N) : fstate * (N * list N) :=
  if id =? 0xFFFFFFFF then f_handles_loop (f_ids s) s fmt assoc RESP_InvalidStorageID []
  else let (s1, r) := f_by_id s id (PHandles fmt assoc) in (s1, (pr_resp r, pr_handles r)).
(** 400-422 *)
Definition f_copy (s : fstate) (h parent dst : N) : fstate * pres :=
  if negb (f_has s dst) then (s, pfail RESP_InvalidStorageID) else
  match storage_of s h with
  | Some id =>
    let (s1, r) := f_call s id (PCopy h parent dst) in
    if pr_resp r =? RESP_StoreFull then (fst (f_delete s1 (pr_handle r) 0x3000), r) else (s1, r)
  | None => (s, pfail RESP_InvalidObjectHandle)
  end.
(** 427-447 *)
Definition f_move (s : fstate) (h parent dst : N) : fstate * pres :=
  if negb (f_has s dst) then (s, pfail RESP_InvalidStorageID) else
  match storage_of s h with
  | Some id =>
    let (s1, r) := f_call s id (PMove h parent dst) in
    if pr_resp r =? RESP_OK then (f_setc s1 (pc_remove (f_cache s1) h PROP_Parent_Obj), r) else (s1, r)
  | None => (s, pfail RESP_InvalidObjectHandle)
  end.
(** 558-631.  [l]: the requested codes with whatever value is in them; the
    result list is in the order the code leaves it in.  The method calls itself
    after the mass query; [fuel] bounds that recursion (None: still running). *)
Definition f_feed (c : @pcache variant) (props : list N) (vals : list (N * list variant)) : @pcache variant :=
  fold_left (fun c hv => pc_add_list c (fst hv) (combine props (snd hv))) vals c.
Fixpoint f_get_props (fuel : nat) (s : fstate) (h : N) (l : list (N * variant)) : option (fstate * (N * list (N * variant))) :=
  match fuel with
  | O => None
  | S f =>
    let (found, nf) := pc_get_list (f_cache s) h l in
    match nf with
    | [] => Some (s, (RESP_OK, found))
    | _ =>
      match storage_of s h with
      | None => Some (s, (RESP_InvalidObjectHandle, found))
      | Some id =>
        let (s1, r) := f_call s id (PObjInfo h) in
        if negb (pr_resp r =? RESP_OK) then Some (s1, (pr_resp r, found)) else
        if existsb (N.eqb (pr_parent r)) (f_massq s1) || (h =? 0) then
          let (s2, r2) := f_call s1 id (PProps h (map fst nf)) in
          if pr_resp r2 =? RESP_OK then
            let nf2 := combine (map fst nf) (pr_vals r2) in
            Some (f_setc s2 (pc_add_list (f_cache s2) h nf2), (RESP_OK, found ++ nf2))
          else Some (s2, (pr_resp r2, found))
        else
          let (s2, r2) := f_call s1 id (PChildProps (pr_parent r) (map fst nf)) in
          if negb (pr_resp r2 =? RESP_OK) then Some (s2, (pr_resp r2, found)) else
          let s3 := f_setm s2 (pr_parent r :: f_massq s2) in
          let s4 := f_setc s3 (f_feed (f_cache s3) (map fst nf) (pr_childvals r2)) in
          f_get_props f s4 h (found ++ nf)
      end
    end
  end.
(** 633-647 *)
Definition f_set_props (s : fstate) (h : N) (l : list (N * variant)) (spl : bool) : fstate * pres :=
  match storage_of s h with
  | Some id =>
    let (s1, r) := f_call s id (PSetProps h l spl) in
    if pr_resp r =? RESP_OK then (f_setc s1 (pc_add_list (f_cache s1) h l), r) else (s1, r)
  | None => (s, pfail RESP_InvalidObjectHandle)
  end.
(** 649-669 *)
Definition f_flush (s : fstate) (h : N) : fstate := f_setc s (pc_remove (f_cache s) h 0).
Definition EV_ObjectRemoved := 0x4003.
Definition EV_ObjectInfoChanged := 0x4007.
Definition EV_ObjectPropChanged := 0xC801.
Definition f_event (s : fstate) (ev p0 p1 : N) : fstate :=
  if ev =? EV_ObjectPropChanged then f_setc s (pc_remove (f_cache s) p0 p1)
  else if ev =? EV_ObjectInfoChanged then f_flush s p0
  else if ev =? EV_ObjectRemoved then
    f_setc (f_setm s (filter (fun x => negb (p0 =? x)) (f_massq s))) (pc_remove (f_cache s) p0 0)
  else s.

(** ** One request to the factory, uniformly *)
Inductive freq :=
| FAdd (id parent : N) (info : objinfo) | FDelete (h fmt : N) | FHandles (id fmt assoc : N) | FStorageInfo (id : N)
| FGetRefs (h : N) | FSetRefs (h : N) (l : list N) | FCopy (h parent dst : N) | FMove (h parent dst : N)
| FPath (h : N) | FGetEvents (h : N) | FSetEvents (h : N) (b : bool) | FObjInfo (h : N)
| FWrite (h : N) (data : option (list N)) (first last : bool)
| FWritePartial (h off : N) (data : list N) (first last : bool)
| FTruncate (h size : N) | FRead (h len off : N)
| FSetProps (h : N) (vals : list (N * variant)) (spl : bool).
Definition f_exec (s : fstate) (q : freq) : fstate * pres :=
  match q with
  | FAdd id p i => fst (f_addItem s id p i)
  | FDelete h f => f_delete s h f
  | FHandles id f a => let '(s1, (c, l)) := f_handles s id f a in
      (s1, {| pr_resp := c; pr_handle := 0; pr_parent := 0; pr_handles := l; pr_vals := []; pr_childvals := []; pr_bytes := []; pr_flag := false |})
  | FStorageInfo id => f_by_id s id PInfo
  | FGetRefs h => f_by_handle s h (PGetRefs h)
  | FSetRefs h l => f_by_handle s h (PSetRefs h l)
  | FCopy h p d => f_copy s h p d
  | FMove h p d => f_move s h p d
  | FPath h => f_by_handle s h (PPath h)
  | FGetEvents h => f_by_handle s h (PGetEvents h)
  | FSetEvents h b => f_by_handle s h (PSetEvents h b)
  | FObjInfo h => f_by_handle s h (PObjInfo h)
  | FWrite h d a b => f_by_handle s h (PWrite h d a b)
  | FWritePartial h o d a b => f_by_handle s h (PWritePartial h o d a b)
  | FTruncate h n => f_by_handle s h (PTruncate h n)
  | FRead h n o => f_by_handle s h (PRead h n o)
  | FSetProps h l b => f_set_props s h l b
  end.
End F.
