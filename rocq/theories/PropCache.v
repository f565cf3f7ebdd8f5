(** ObjectPropertyCache (mts/protocol/objectpropertycache.{h,cpp}).
    [V] is the type of values (QVariant). *)
From Verif Require Import Base AList.

Section PC.
Context {V : Type}.
(** objectpropertycache.h:126 m_propertyMap: QHash<ObjHandle, QHash<code, QVariant>> *)
Definition pcache := list (N * list (N * V)).
Definition pc_row (c : pcache) (h : N) : list (N * V) := match aget h c with Some m => m | None => [] end.
(** objectpropertycache.cpp:37-44; operator[] creates an empty row *)
Definition pc_add (c : pcache) (h p : N) (v : V) : pcache := aset h (aset p v (pc_row c h)) c.
(** 46-63: the list overloads *)
Fixpoint pc_add_list (c : pcache) (h : N) (l : list (N * V)) : pcache :=
  match l with [] => c | (p, v) :: r => pc_add_list (pc_add c h p v) h r end.
(** 65-74 *)
Definition pc_remove (c : pcache) (h p : N) : pcache :=
  let row := adel p (pc_row c h) in
  let c1 := aset h row c in
  if match row with [] => true | _ => false end || (0 =? p) then adel h c1 else c1.
(** 76-92 *)
Fixpoint pc_remove_list (c : pcache) (h : N) (l : list N) : pcache :=
  match l with [] => c | p :: r => pc_remove_list (pc_remove c h p) h r end.
(** 94-109 *)
Definition pc_get (c : pcache) (h p : N) : option V :=
  match aget h c with Some m => aget p m | None => None end.
(** 118-131: fills in what is found, moves the rest to the not-found list *)
Fixpoint pc_get_list (c : pcache) (h : N) (l : list (N * V)) : list (N * V) * list (N * V) :=
  match l with
  | [] => ([], [])
  | (p, v) :: r =>
    let (f, nf) := pc_get_list c h r in
    match pc_get c h p with Some w => ((p, w) :: f, nf) | None => (f, (p, v) :: nf) end
  end.

Inductive pcop :=
| PAdd (h p : N) (v : V) | PAddList (h : N) (l : list (N * V))
| PRemove (h p : N) | PRemoveList (h : N) (l : list N) | PClear.
Definition pcstep (c : pcache) (o : pcop) : pcache :=
  match o with
  | PAdd h p v => pc_add c h p v
  | PAddList h l => pc_add_list c h l
  | PRemove h p => pc_remove c h p
  | PRemoveList h l => pc_remove_list c h l
  | PClear => []          (* 133-136 *)
  end.
Definition pcrun (l : list pcop) : pcache := fold_left pcstep l [].

(** ** Specification: the last thing that happened to (h, p).
    Removing property 0x0000 means removing the whole object. *)
Definition eff (h p : N) (o : pcop) : option (option V) :=   (* None: untouched *)
  match o with
  | PAdd h' p' v => if (h =? h') && (p =? p') then Some (Some v) else None
  | PAddList h' l =>
    if h =? h' then
      (fix last (l : list (N * V)) := match l with [] => None | (p', v) :: r =>
         match last r with Some x => Some x | None => if p =? p' then Some (Some v) else None end end) l
    else None
  | PRemove h' p' => if (h =? h') && ((p =? p') || (p' =? 0)) then Some None else None
  | PRemoveList h' l => if (h =? h') && existsb (fun p' => (p =? p') || (p' =? 0)) l then Some None else None
  | PClear => Some None
  end.
Fixpoint last_effect (h p : N) (l : list pcop) : option V :=   (* newest operation first *)
  match l with [] => None | o :: r => match eff h p o with Some x => x | None => last_effect h p r end end.
End PC.
Arguments pcop : clear implicits.
