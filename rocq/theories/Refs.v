(** Object references: fsstorageplugin.cpp:2379-2606.  Objects are seen through what these
    functions use of them: the table of live handles and each object's format and persistent
    id.  (Every live item has object info, 1013-1020, so the null tests of 2410 and 2418 are
    tests for liveness.) *)
From Verif Require Import Base AList FS Persist.

Record obj := mk_obj { ob_format : N; ob_puoid : N }.
(** MTP_OBF_FORMAT_Abstract_Audio_Video_Playlist *)
Definition FMT_Playlist := 0xBA05.
(** m_objectHandlesMap; m_objectReferencesMap (in order of iteration) *)
Record refstate := mk_rs { rs_live : list (N * obj); rs_refs : list (N * list N) }.
Definition alive (s : refstate) (h : N) : bool := ahas h (rs_live s).

(** 2431-2450 *)
Definition remove_invalid (h : N) (m : list (N * list N)) : list (N * list N) :=
  adel h (map (fun e => (fst e, filter (fun x => negb (h =? x)) (snd e))) m).
(** 2379-2398 *)
Definition get_refs (h : N) (s : refstate) : N * list N * refstate :=
  if negb (alive s h) then (R_InvalidObjectHandle, [], mk_rs (rs_live s) (remove_invalid h (rs_refs s)))
  else match aget h (rs_refs s) with
       | None => (R_OK, [], s)
       | Some l => let l' := filter (alive s) l in (R_OK, l', mk_rs (rs_live s) (aset h l' (rs_refs s)))
       end.
(** 2404-2427; the path names collected for playlists are not used *)
Definition set_refs (h : N) (l : list N) (s : refstate) : N * refstate :=
  if negb (alive s h) then (R_InvalidObjectHandle, s)
  else if negb (forallb (alive s) l) then (R_Invalid_ObjectReference, s)
  else (R_OK, mk_rs (rs_live s) (aset h l (rs_refs s))).

(** What happens to a storage.  Deleting an object does not touch the references. *)
Inductive refop := Appear (h : N) (o : obj) | Vanish (h : N) | SetR (h : N) (l : list N) | GetR (h : N).
Definition ref_step (o : refop) (s : refstate) : refstate :=
  match o with
  | Appear h o => mk_rs (aset h o (rs_live s)) (rs_refs s)
  | Vanish h => mk_rs (adel h (rs_live s)) (rs_refs s)
  | SetR h l => snd (set_refs h l s)
  | GetR h => snd (get_refs h s)
  end.

(** ** storeObjectReferences, 2455-2556 *)
(** a file and the position in it *)
Definition file := (bytes * N)%type.
Definition fwrite (b : bytes) (f : file) : file := (take (snd f) (fst f) ++ b ++ drop (snd f + len b) (fst f), snd f + len b).
Definition seek (p : N) (f : file) : file := (fst f, p).
(** 2506-2522 *)
Fixpoint store_list (live : list (N * obj)) (l : list N) (n : N) (f : file) : N * file :=
  match l with
  | [] => (n, f)
  | x :: r => match aget x live with
              | None => store_list live r (sub32 n 1) f
              | Some o => store_list live r n (fwrite (le_enc 16 (ob_puoid o)) f)
              end
  end.
(** 2478-2543 *)
Fixpoint store_entries (live : list (N * obj)) (m : list (N * list N)) (n : N) (f : file) : N * file :=
  match m with
  | [] => (n, f)
  | (h, l) :: r =>
    match aget h live with
    | None => store_entries live r (sub32 n 1) f
    | Some o =>
      if ob_format o =? FMT_Playlist then store_entries live r (sub32 n 1) f
      else
        let f1 := fwrite (le_enc 16 (ob_puoid o)) f in
        let pos := snd f1 in
        let f2 := fwrite (le_enc 4 (u32 (len l))) f1 in
        let '(k, f3) := store_list live l (u32 (len l)) f2 in
        let f4 := seek (snd f3) (fwrite (le_enc 4 k) (seek pos f3)) in
        store_entries live r n f4
    end
  end.
Definition store_refs (s : refstate) : bytes :=
  let n := u32 (len (rs_refs s)) in
  let '(k, f) := store_entries (rs_live s) (rs_refs s) n (fwrite (le_enc 4 n) ([], 0)) in
  fst (fwrite (le_enc 4 k) (seek 0 f)).

(** ** populateObjectReferences, 2563-2606 *)
(** 2586-2598; [byid]: m_puoidToHandleMap; None: the function returns *)
Fixpoint load_list (byid : N -> option N) (k : nat) (u : N) (f : bytes) (acc : list N) : option (list N * N * bytes) :=
  match k with
  | O => Some (acc, u, f)
  | S k' =>
    let '(n, u1, f1) := fread 16 u f in
    if n =? 0 then None
    else load_list byid k' u1 f1 (match byid u1 with Some h => acc ++ [h] | None => acc end)
  end.
(** 2577-2603; [o], [c], [u]: objPuoid, noOfRefs and referencePuoid so far *)
Fixpoint load_objs (byid : N -> option N) (k : nat) (o c u : N) (f : bytes) (m : list (N * list N)) : list (N * list N) :=
  match k with
  | O => m
  | S k' =>
    let '(n1, o1, f1) := fread 16 o f in
    if n1 =? 0 then m else
    let '(n2, c1, f2) := fread 4 c f1 in
    if n2 =? 0 then m else
    match load_list byid (N.to_nat c1) u f2 [] with
    | None => m
    | Some (l, u1, f3) => load_objs byid k' o1 c1 u1 f3 (match byid o1 with Some h => aset h l m | None => m end)
    end
  end.
Definition load_refs (byid : N -> option N) (f : bytes) : list (N * list N) :=
  let '(n, k, f1) := fread 4 0 f in
  if n =? 0 then [] else load_objs byid (N.to_nat k) 0 0 0 f1 [].
