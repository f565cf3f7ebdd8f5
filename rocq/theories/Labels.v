(** Which folders are exported as storages, and under which labels:
    fsstoragepluginfactory.cpp:109-330.  Strings are lists of character codes. *)
From Coq Require Import NArith List Bool.
Import ListNotations.
From Verif Require Import Base AList.
Open Scope N_scope.

Definition str := list N.
Fixpoint str_eqb (a b : str) : bool :=
  match a, b with [], [] => true | x :: a, y :: b => (x =? y) && str_eqb a b | _, _ => false end.
(** QString's operator<, the order of the keys of a QMap *)
Fixpoint str_ltb (a b : str) : bool :=
  match a, b with
  | [], [] => false | [], _ :: _ => true | _ :: _, [] => false
  | x :: a, y :: b => (x <? y) || ((x =? y) && str_ltb a b)
  end.
Definition mem (x : str) (l : list str) : bool := existsb (str_eqb x) l.

(** A QMap<QString, QString>: pairs sorted by key *)
Definition smap := list (str * str).
Definition skeys (m : smap) : list str := map fst m.
Fixpoint sget (k : str) (m : smap) : option str :=
  match m with [] => None | (k', v) :: r => if str_eqb k k' then Some v else sget k r end.
Fixpoint sset (k v : str) (m : smap) : smap :=
  match m with
  | [] => [(k, v)]
  | (k', v') :: r => if str_eqb k k' then (k, v) :: r else if str_ltb k k' then (k, v) :: (k', v') :: r else (k', v') :: sset k v r
  end.

(** decimal digits: QString::arg(int) *)
Fixpoint decimal (fuel : nat) (n : N) : str :=
  match fuel with O => [] | S f => if n <? 10 then [48 + n] else decimal f (n / 10) ++ [48 + n mod 10] end.
(** 159-162: "%1 %2" and "%1.%2".  (If the label itself contains a place marker such as %1,
    QString::arg would substitute in the label; nothing below depends on that.) *)
Definition numbered (iteration : nat) (label : str) (index : N) : str :=
  label ++ [match iteration with O => 32 | S _ => 46 end] ++ decimal 20 index.

Definition count (l : str) (ls : list str) : N := N.of_nat (List.length (filter (str_eqb l) ls)).
(** 145-150: how often each label to be added occurs, reserved ones included.  The largest of
    these numbers; the reserved labels alone do not count *)
Definition label_count (reserved : list str) (m : smap) (l : str) : N := count l reserved + count l (map snd m).
Definition max_count (reserved : list str) (m : smap) : N := fold_right N.max 0 (map (label_count reserved m) (map snd m)).
(** 153-163: number the labels that occur more than once *)
Fixpoint renumber (iteration : nat) (counts : str -> N) (index : list (str * N)) (m : smap) : smap :=
  match m with
  | [] => []
  | (p, l) :: r =>
      if counts l <? 2 then (p, l) :: renumber iteration counts index r
      else
        let i := match find (fun e => str_eqb l (fst e)) index with Some e => snd e | None => 0 end + 1 in
        (p, numbered iteration l i) :: renumber iteration counts ((l, i) :: index) r
  end.
(** 123-165: at most five rounds *)
Fixpoint unique_loop (rounds iteration : nat) (reserved : list str) (m : smap) : smap :=
  match rounds with
  | O => m
  | S k => if max_count reserved m <? 2 then m else unique_loop k (S iteration) reserved (renumber iteration (label_count reserved m) [] m)
  end.
Definition make_labels_unique (m : smap) (reserved : list str) : smap := unique_loop 5 0 reserved m.

(** ** A configuration file and what it matches on this device *)
Inductive source :=
| SBroken                                                       (* 178-222: unreadable or incomplete: skipped *)
| SPath (description : str) (matches : list (str * bool))      (* 249-283: the paths the glob pattern matches, and whether lstat says directory;
                                                                   the description is empty if the pattern has a wildcard *)
| SBlock (description blockdev : str) (mounts : list (str * str)). (* 284-309: mount points and device names *)

(** 109-119 *)
Definition generate_label (device_labels : smap) (path : str) : str :=
  match sget path device_labels with Some (c :: l) => c :: l | _ => [67; 97; 114; 100] end.
(** 262-281 *)
Fixpoint match_paths (device_labels : smap) (exported : list str) (description : str) (l : list (str * bool)) (m : smap) : smap :=
  match l with
  | [] => m
  | (p, is_dir) :: r =>
      if negb is_dir || mem p (skeys m) || mem p exported then match_paths device_labels exported description r m
      else
        let desc := match description with [] => generate_label device_labels p | _ => description end in
        match_paths device_labels exported [] r (sset p desc m)
  end.
Fixpoint starts_with (pre s : str) : option str :=
  match pre, s with [], _ => Some s | x :: pre, y :: s => if x =? y then starts_with pre s else None | _ :: _, [] => None end.
(** 292-308 *)
Fixpoint match_mounts (exported : list str) (description blockdev : str) (l : list (str * str)) (m : smap) : smap :=
  match l with
  | [] => m
  | (p, dev) :: r =>
      if mem p (skeys m) || mem p exported then match_mounts exported description blockdev r m
      else match starts_with blockdev dev with
        | None => match_mounts exported description blockdev r m
        | Some rest =>
            let desc := if (match rest with [] => true | _ => false end) || str_eqb rest [112; 49] then description else description ++ [32] ++ rest in
            match_mounts exported description blockdev r (sset p desc m)
        end
  end.
Definition candidates (device_labels : smap) (exported : list str) (s : source) : smap :=
  match s with
  | SBroken => []
  | SPath d l => match_paths device_labels exported d l []
  | SBlock d b l => match_mounts exported d b l []
  end.
(** the storages exported so far: folder and label; 312-343 *)
Definition storages := list (str * str).
Fixpoint export (m : smap) (done : storages) : storages :=
  match m with
  | [] => done
  | (p, l) :: r => if mem p (map fst done) || mem l (map snd done) then export r done else export r (done ++ [(p, l)])
  end.
Definition configure (device_labels : smap) (s : source) (done : storages) : storages :=
  export (make_labels_unique (candidates device_labels (map fst done) s) (map snd done)) done.
(** 167-347: the set of exported folders and the set of reserved labels are those of the
    storages made so far *)
Definition create (device_labels : smap) (files : list source) : storages :=
  fold_left (fun done s => configure device_labels s done) files [].
