(** MTP timestamps: fsstorageplugin.cpp:73-331.  Strings are lists of character codes
    without the terminating zero.  The C library's time zone is a parameter. *)
From Coq Require Import ZArith List Bool Lia.
Import ListNotations.
Open Scope Z_scope.

(** ** The C library *)
(** the proleptic Gregorian calendar: days since 1970-01-01 of a date; the day of the
    month may exceed the month's length, as for timegm and mktime *)
Definition leap (y : Z) : bool := ((y mod 4 =? 0) && negb (y mod 100 =? 0)) || (y mod 400 =? 0).
Definition month_start (lp : bool) (m : Z) : Z :=   (* days in the months before month m (1..12) *)
  let f := if lp then 1 else 0 in
  if m =? 1 then 0 else if m =? 2 then 31 else if m =? 3 then 59 + f else if m =? 4 then 90 + f else if m =? 5 then 120 + f else if m =? 6 then 151 + f
  else if m =? 7 then 181 + f else if m =? 8 then 212 + f else if m =? 9 then 243 + f else if m =? 10 then 273 + f else if m =? 11 then 304 + f else 334 + f.
Definition year_start (y : Z) : Z := 365 * (y - 1970) + ((y - 1) / 4 - (y - 1) / 100 + (y - 1) / 400 - 477).
Definition days (y m d : Z) : Z := year_start y + month_start (leap y) m + (d - 1).
Definition seconds (y mo d h mi s : Z) : Z := days y mo d * 86400 + h * 3600 + mi * 60 + s.

Record tm := mk_tm { tm_year : Z; tm_mon : Z; tm_mday : Z; tm_hour : Z; tm_min : Z; tm_sec : Z }.   (* year and month as in the calendar *)
(** a date from a day number, counting years from March; 400 years are 146097 days, the
    first three centuries of them 36524 each, four years 1461 *)
Definition civil (n : Z) : Z * Z * Z :=
  let z := n + 719468 in
  let era := z / 146097 in
  let r := z mod 146097 in
  let c := Z.min 3 (r / 36524) in
  let r := r - 36524 * c in
  let q := r / 1461 in
  let r := r - 1461 * q in
  let a := Z.min 3 (r / 365) in
  let doy := r - 365 * a in
  let mp := (5 * doy + 2) / 153 in
  let d := doy - (153 * mp + 2) / 5 + 1 in
  let m := if mp <? 10 then mp + 3 else mp - 9 in
  (400 * era + 100 * c + 4 * q + a + (if m <=? 2 then 1 else 0), m, d).
Definition broken (x : Z) : tm :=
  let '(y, m, d) := civil (x / 86400) in let r := x mod 86400 in mk_tm y m d (r / 3600) (r / 60 mod 60) (r mod 60).

(** a time zone: the offset from UTC at each time (tm_gmtoff), and mktime *)
Record zone := mk_zone { gmtoff : Z -> Z; mktime : Z -> Z }.
Section Zone.
Variable z : zone.
(** localtime_r *)
Definition localtime (t : Z) : tm := broken (t + gmtoff z t).

(** ** Parsing *)
Definition cur (pos : list Z) : Z := match pos with [] => 0 | c :: _ => c end.
(** 83-94 *)
Definition to_digit (ch : Z) : Z := if (48 <=? ch) && (ch <=? 57) then ch - 48 else -1.
(** 96-119 *)
Fixpoint get_number_loop (wdt : nat) (pos : list Z) (value : Z) : option (Z * list Z) :=
  match wdt with
  | O => Some (value, pos)
  | S w => let digit := to_digit (cur pos) in if (digit <? 0) || (9 <? digit) then None else get_number_loop w (tl pos) (value * 10 + digit)
  end.
Definition get_number (wdt : nat) (pos : list Z) : option (Z * list Z) := get_number_loop wdt pos 0.
(** 121-133 *)
Definition get_constant (chr : Z) (pos : list Z) : option (list Z) := match pos with c :: r => if c =? chr then Some r else None | [] => None end.

Definition check (b : bool) {A} (k : option A) : option A := if b then k else None.
Notation "'let?' p := m 'in' k" := (match m with Some p => k | None => None end) (at level 200, p pattern, k at level 200).
(** 135-256; None: goto EXIT with t = -1 *)
Definition parse_opt (dt : list Z) : option Z :=
  let? (y, p) := get_number 4 dt in
  check (negb (y <? 1900)) (
  let? (mo, p) := get_number 2 p in
  check (negb ((mo <? 1) || (12 <? mo))) (
  let? (d, p) := get_number 2 p in
  check (negb ((d <? 1) || (31 <? d))) (
  let? p := get_constant 84 p in
  let? (h, p) := get_number 2 p in
  check (negb ((h <? 0) || (23 <? h))) (
  let? (mi, p) := get_number 2 p in
  check (negb ((mi <? 0) || (59 <? mi))) (
  let? (s, p) := get_number 2 p in
  check (negb ((s <? 0) || (59 <? s))) (
  let? p := match get_constant 46 p with Some p' => let? (_, p'') := get_number 1 p' in Some p'' | None => Some p end in
  let local := seconds y mo d h mi s in
  let c := cur p in
  if c =? 0 then Some (mktime z local)                       (* local time; the string is at its end *)
  else if c =? 90 then                                         (* 'Z': the position is not advanced, 250-252 *)
    let t := local in if negb (cur p =? 0) then Some (-1) else Some t
  else if (c =? 43) || (c =? 45) then
    let east := negb (c =? 45) in
    let? (oh, p) := get_number 2 (tl p) in
    check (negb ((oh <? 0) || (23 <? oh))) (
    let? (om, p) := get_number 2 p in
    check (negb ((om <? 0) || (59 <? om))) (
    let off := (oh * 60 + om) * 60 in
    let off := if east then off else - off in
    let t := mktime z local in
    let t := t + (off - gmtoff z (mktime z local)) in          (* mktime fills in tm_gmtoff *)
    if negb (cur p =? 0) then Some (-1) else Some t))
  else None)))))).
Definition parse (dt : list Z) : Z := match parse_opt dt with Some t => t | None => -1 end.

(** ** Formatting *)
(** printf's %0wd *)
Fixpoint digits (n : nat) (v : Z) : list Z := match n with O => [] | S m => digits m (v / 10) ++ [48 + v mod 10] end.
Fixpoint width (fuel : nat) (v : Z) : nat := match fuel with O => 1%nat | S f => if v <? 10 then 1%nat else S (width f (v / 10)) end.
Definition padded (w : nat) (v : Z) : list Z :=
  if v <? 0 then 45 :: digits (Nat.max (w - 1) (width 20 (- v))) (- v) else digits (Nat.max w (width 20 v)) v.
(** 258-301, 326-332: the empty string on failure *)
Definition format (t : Z) : list Z :=
  if t =? -1 then [] else
  let b := localtime t in
  let off_s := gmtoff z t in
  let east := negb (off_s <? 0) in
  let off_s := Z.abs off_s in
  let off_m := off_s / 60 in
  let off_h := off_m / 60 in
  let off_m := off_m mod 60 in
  let out := padded 4 (tm_year b) ++ padded 2 (tm_mon b) ++ padded 2 (tm_mday b) ++ [84] ++ padded 2 (tm_hour b) ++ padded 2 (tm_min b) ++ padded 2 (tm_sec b) ++
             [if east then 43 else 45] ++ padded 2 off_h ++ padded 2 off_m in
  if Z.of_nat (length out) <? 64 then out else [].
End Zone.

(** ** Specification *)
(** what POSIX says of mktime: it inverts localtime where that is possible *)
Definition zone_ok (z : zone) : Prop := forall local, (exists t, t + gmtoff z t = local) -> mktime z local + gmtoff z (mktime z local) = local.
(** a calendar date and a time of day *)
Record stamp := mk_stamp { st_y : Z; st_mo : Z; st_d : Z; st_h : Z; st_mi : Z; st_s : Z }.
Definition month_len (y m : Z) : Z := month_start (leap y) (m + 1) - month_start (leap y) m + (if m =? 12 then 31 else 0).
Definition legal (x : stamp) : Prop :=
  1900 <= st_y x <= 9999 /\ 1 <= st_mo x <= 12 /\ 1 <= st_d x <= month_len (st_y x) (st_mo x) /\ 0 <= st_h x <= 23 /\ 0 <= st_mi x <= 59 /\ 0 <= st_s x <= 59.
(** YYYYMMDDThhmmss, with an optional tenth of a second *)
Definition text (x : stamp) (tenth : option Z) : list Z :=
  digits 4 (st_y x) ++ digits 2 (st_mo x) ++ digits 2 (st_d x) ++ [84] ++ digits 2 (st_h x) ++ digits 2 (st_mi x) ++ digits 2 (st_s x) ++
  match tenth with Some f => [46; 48 + f] | None => [] end.
Definition tenth_ok (tenth : option Z) : Prop := match tenth with Some f => 0 <= f <= 9 | None => True end.
(** the seconds since 1970-01-01 on a clock showing this *)
Definition clock (x : stamp) : Z := seconds (st_y x) (st_mo x) (st_d x) (st_h x) (st_mi x) (st_s x).
(** +hhmm or -hhmm *)
Definition offset_text (minus : bool) (h m : Z) : list Z := [if minus then 45 else 43] ++ digits 2 h ++ digits 2 m.
Definition offset_of (minus : bool) (h m : Z) : Z := let o := h * 3600 + m * 60 in if minus then - o else o.
