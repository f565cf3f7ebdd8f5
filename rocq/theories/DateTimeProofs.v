From Coq Require Import ZArith List Bool Lia.
Import ListNotations.
From Verif Require Import DateTime.
Open Scope Z_scope.

(** *** The calendar *)
Lemma div_next y k : 0 < k -> y / k - (y - 1) / k = if y mod k =? 0 then 1 else 0.
Proof.
  intros K. pose proof (Z.div_mod y k ltac:(lia)) as D. pose proof (Z.mod_pos_bound y k K) as R. destruct (Z.eqb_spec (y mod k) 0) as [E|E].
  - assert ((y - 1) / k = y / k - 1); [|lia]. symmetry. apply (Z.div_unique _ _ _ (k - 1)); [lia|nia].
  - assert ((y - 1) / k = y / k); [|lia]. symmetry. apply (Z.div_unique _ _ _ (y mod k - 1)); [lia|nia].
Qed.
Lemma year_next y : year_start (y + 1) = year_start y + 365 + (if leap y then 1 else 0).
Proof.
  unfold year_start, leap. replace (y + 1 - 1) with y by lia. pose proof (div_next y 4 ltac:(lia)) as A. pose proof (div_next y 100 ltac:(lia)) as B. pose proof (div_next y 400 ltac:(lia)) as C.
  assert (M1 : y mod 400 = 0 -> y mod 100 = 0). { intros H. apply Z.mod_divide in H; [|lia]. destruct H as [k ->]. replace (k * 400) with (k * 4 * 100) by lia. apply Z.mod_mul. lia. }
  assert (M2 : y mod 100 = 0 -> y mod 4 = 0). { intros H. apply Z.mod_divide in H; [|lia]. destruct H as [k ->]. replace (k * 100) with (k * 25 * 4) by lia. apply Z.mod_mul. lia. }
  destruct (Z.eqb_spec (y mod 4) 0); destruct (Z.eqb_spec (y mod 100) 0); destruct (Z.eqb_spec (y mod 400) 0); cbn [andb orb negb]; lia.
Qed.
Lemma split12 mp : 0 <= mp <= 11 -> mp = 0 \/ mp = 1 \/ mp = 2 \/ mp = 3 \/ mp = 4 \/ mp = 5 \/ mp = 6 \/ mp = 7 \/ mp = 8 \/ mp = 9 \/ mp = 10 \/ mp = 11.
Proof. lia. Qed.
Lemma march_start f mp : 0 <= mp <= 9 -> month_start f (mp + 3) = 59 + (if f then 1 else 0) + (153 * mp + 2) / 5.
Proof. intros H. pose proof (split12 mp ltac:(lia)) as M. destruct f; repeat (destruct M as [M|M]; [subst mp; reflexivity|]); lia. Qed.
Lemma january_start f mp : 10 <= mp <= 11 -> month_start f (mp - 9) = (153 * mp + 2) / 5 - 306.
Proof. intros H. pose proof (split12 mp ltac:(lia)) as M. destruct f; repeat (destruct M as [M|M]; [subst mp; try reflexivity; lia|]); subst mp; reflexivity. Qed.
(** a day of the year starting in March *)
Lemma month_ok Y doy : 0 <= doy <= 365 ->
  let mp := (5 * doy + 2) / 153 in let d := doy - (153 * mp + 2) / 5 + 1 in let m := if mp <? 10 then mp + 3 else mp - 9 in
  days (Y + (if m <=? 2 then 1 else 0)) m d = year_start (Y + 1) - 306 + doy /\ 1 <= m <= 12 /\ 1 <= d <= 31.
Proof.
  intros H. cbv zeta. pose proof (Z.div_mod (5 * doy + 2) 153 ltac:(lia)) as D. pose proof (Z.mod_pos_bound (5 * doy + 2) 153 ltac:(lia)) as R. set (mp := (5 * doy + 2) / 153) in *. clearbody mp. pose proof (year_next Y) as N.
  pose proof (Z.div_mod (153 * mp + 2) 5 ltac:(lia)) as D5. pose proof (Z.mod_pos_bound (153 * mp + 2) 5 ltac:(lia)) as R5. unfold days.
  destruct (Z.ltb_spec mp 10) as [L|L].
  - destruct (Z.leb_spec (mp + 3) 2) as [L2|L2]; [lia|]. rewrite march_start by lia. rewrite Z.add_0_r. split; [|lia]. destruct (leap Y); lia.
  - destruct (Z.leb_spec (mp - 9) 2) as [L2|L2]; [|lia]. rewrite january_start by lia. split; [|lia]. lia.
Qed.
Lemma civil_ok n : let '(y, m, d) := civil n in days y m d = n /\ 1 <= m <= 12 /\ 1 <= d <= 31.
Proof.
  unfold civil. cbv zeta. set (z := n + 719468). set (era := z / 146097). pose proof (Z.div_mod z 146097 ltac:(lia)) as D1. pose proof (Z.mod_pos_bound z 146097 ltac:(lia)) as R1. fold era in D1. set (r1 := z mod 146097) in *. clearbody era r1.
  pose proof (Z.div_mod r1 36524 ltac:(lia)) as D2. pose proof (Z.mod_pos_bound r1 36524 ltac:(lia)) as R2. set (c := Z.min 3 (r1 / 36524)). assert (C : 0 <= c <= 3 /\ 0 <= r1 - 36524 * c <= 36524 /\ (c < 3 -> r1 - 36524 * c < 36524)) by lia. clearbody c.
  set (r2 := r1 - 36524 * c) in *. pose proof (Z.div_mod r2 1461 ltac:(lia)) as D3. pose proof (Z.mod_pos_bound r2 1461 ltac:(lia)) as R3. set (q := r2 / 1461) in *. assert (Q : 0 <= q <= 24) by lia. clearbody q.
  set (r3 := r2 - 1461 * q). assert (E3 : r2 = 1461 * q + r3) by lia. assert (R3' : 0 <= r3 < 1461) by lia. pose proof (Z.div_mod r3 365 ltac:(lia)) as D4. pose proof (Z.mod_pos_bound r3 365 ltac:(lia)) as R4. set (a := Z.min 3 (r3 / 365)). assert (A : 0 <= a <= 3 /\ 0 <= r3 - 365 * a <= 365) by lia. clearbody a r3.
  pose proof (month_ok (400 * era + 100 * c + 4 * q + a) (r3 - 365 * a) ltac:(lia)) as M. cbv zeta in M. destruct M as (M1 & M2). rewrite M1. split; [|exact M2]. unfold year_start.
  set (Y := 400 * era + 100 * c + 4 * q + a). replace (Y + 1 - 1) with Y by lia.
  assert (Y4 : Y / 4 = 100 * era + 25 * c + q) by (symmetry; apply (Z.div_unique _ _ _ a); unfold Y; lia).
  assert (Y100 : Y / 100 = 4 * era + c) by (symmetry; apply (Z.div_unique _ _ _ (4 * q + a)); unfold Y; lia).
  assert (Y400 : Y / 400 = era) by (symmetry; apply (Z.div_unique _ _ _ (100 * c + 4 * q + a)); unfold Y; lia).
  rewrite Y4, Y100, Y400. unfold Y, z in *. unfold r2 in *. lia.
Qed.
Lemma broken_ok x : let b := broken x in
  seconds (tm_year b) (tm_mon b) (tm_mday b) (tm_hour b) (tm_min b) (tm_sec b) = x /\ 1 <= tm_mon b <= 12 /\ 1 <= tm_mday b <= 31 /\ 0 <= tm_hour b <= 23 /\ 0 <= tm_min b <= 59 /\ 0 <= tm_sec b <= 59.
Proof.
  unfold broken. pose proof (civil_ok (x / 86400)) as C. destruct (civil (x / 86400)) as [[y m] d]. destruct C as (C1 & C2 & C3). cbn [tm_year tm_mon tm_mday tm_hour tm_min tm_sec]. unfold seconds. rewrite C1.
  pose proof (Z.div_mod x 86400 ltac:(lia)) as D. pose proof (Z.mod_pos_bound x 86400 ltac:(lia)) as R. set (r := x mod 86400) in *. pose proof (Z.div_mod r 3600 ltac:(lia)). pose proof (Z.mod_pos_bound r 3600 ltac:(lia)). pose proof (Z.div_mod r 60 ltac:(lia)). pose proof (Z.mod_pos_bound r 60 ltac:(lia)).
  assert (E : r / 3600 = r / 60 / 60) by (rewrite Z.div_div by lia; reflexivity). pose proof (Z.div_mod (r / 60) 60 ltac:(lia)). pose proof (Z.mod_pos_bound (r / 60) 60 ltac:(lia)). lia.
Qed.

(** *** Numbers *)
Lemma to_digit_char d : 0 <= d <= 9 -> to_digit (48 + d) = d.
Proof. intros H. unfold to_digit. destruct (Z.leb_spec 48 (48 + d)); [|lia]. destruct (Z.leb_spec (48 + d) 57); [|lia]. cbn [andb]. lia. Qed.
Lemma get_loop_app a b : forall v pos, get_number_loop (a + b) pos v = match get_number_loop a pos v with Some (v', p') => get_number_loop b p' v' | None => None end.
Proof. induction a as [|a IH]; intros v pos; [reflexivity|]. cbn [plus get_number_loop]. destruct ((to_digit (cur pos) <? 0) || (9 <? to_digit (cur pos))); [reflexivity|]. apply IH. Qed.
Lemma get_digits n : forall v r acc, 0 <= v < 10 ^ Z.of_nat n -> get_number_loop n (digits n v ++ r) acc = Some (acc * 10 ^ Z.of_nat n + v, r).
Proof.
  induction n as [|n IH]; intros v r acc H.
  - cbn [digits app get_number_loop]. change (10 ^ Z.of_nat 0) with 1 in H |- *. f_equal. f_equal. lia.
  - assert (P : 10 ^ Z.of_nat (S n) = 10 * 10 ^ Z.of_nat n) by (rewrite Nat2Z.inj_succ, Z.pow_succ_r by lia; reflexivity). replace (S n) with (n + 1)%nat at 1 by lia. rewrite get_loop_app. cbn [digits]. rewrite <- app_assoc.
    pose proof (Z.div_mod v 10 ltac:(lia)) as D. pose proof (Z.mod_pos_bound v 10 ltac:(lia)) as R. rewrite IH by (split; [apply Z.div_pos; lia|apply Z.div_lt_upper_bound; lia]).
    cbn [get_number_loop app cur tl]. rewrite to_digit_char by lia. destruct (Z.ltb_spec (v mod 10) 0); [lia|]. destruct (Z.ltb_spec 9 (v mod 10)); [lia|]. cbn [orb]. f_equal. f_equal. rewrite P. nia.
Qed.
Lemma get4 v r : 0 <= v <= 9999 -> get_number 4 (digits 4 v ++ r) = Some (v, r).
Proof. intros H. unfold get_number. rewrite get_digits by (change (10 ^ Z.of_nat 4) with 10000; lia). f_equal. Qed.
Lemma get2 v r : 0 <= v <= 99 -> get_number 2 (digits 2 v ++ r) = Some (v, r).
Proof. intros H. unfold get_number. rewrite get_digits by (change (10 ^ Z.of_nat 2) with 100; lia). f_equal. Qed.
Lemma padded4 v : 1000 <= v <= 9999 -> padded 4 v = digits 4 v.
Proof.
  intros H. unfold padded. destruct (Z.ltb_spec v 0); [lia|]. replace (Nat.max 4 (width 20 v)) with 4%nat; [reflexivity|].
  assert (v / 10 / 10 / 10 < 10) by (rewrite !Z.div_div by lia; apply Z.div_lt_upper_bound; lia). cbn [width]. destruct (v <? 10); [reflexivity|]. destruct (v / 10 <? 10); [reflexivity|]. destruct (v / 10 / 10 <? 10); [reflexivity|]. destruct (Z.ltb_spec (v / 10 / 10 / 10) 10); [reflexivity|lia].
Qed.
Lemma padded2 v : 0 <= v <= 99 -> padded 2 v = digits 2 v.
Proof.
  intros H. unfold padded. destruct (Z.ltb_spec v 0); [lia|]. replace (Nat.max 2 (width 20 v)) with 2%nat; [reflexivity|].
  assert (v / 10 < 10) by (apply Z.div_lt_upper_bound; lia). cbn [width]. destruct (v <? 10); [reflexivity|]. destruct (Z.ltb_spec (v / 10) 10); [reflexivity|lia].
Qed.

(** *** Parsing a text *)
Definition roughly (x : stamp) : Prop := 1900 <= st_y x <= 9999 /\ 1 <= st_mo x <= 12 /\ 1 <= st_d x <= 31 /\ 0 <= st_h x <= 23 /\ 0 <= st_mi x <= 59 /\ 0 <= st_s x <= 59.
Lemma legal_roughly x : legal x -> roughly x.
Proof.
  intros (A & B & D & E). split; [exact A|]. split; [exact B|]. split; [|exact E]. split; [lia|]. unfold month_len in D. assert (M : st_mo x = 1 \/ st_mo x = 2 \/ st_mo x = 3 \/ st_mo x = 4 \/ st_mo x = 5 \/ st_mo x = 6 \/ st_mo x = 7 \/ st_mo x = 8 \/ st_mo x = 9 \/ st_mo x = 10 \/ st_mo x = 11 \/ st_mo x = 12) by lia.
  destruct (leap (st_y x)); repeat (destruct M as [M|M]; [rewrite M in D; cbn in D; lia|]); rewrite M in D; cbn in D; lia.
Qed.
(** what happens after the date and time *)
Definition tail_opt (z : zone) (local : Z) (p : list Z) : option Z :=
  let c := cur p in
  if c =? 0 then Some (mktime z local)
  else if c =? 90 then (if negb (cur p =? 0) then Some (-1) else Some local)
  else if (c =? 43) || (c =? 45) then
    match get_number 2 (tl p) with
    | Some (oh, p) => check (negb ((oh <? 0) || (23 <? oh))) (match get_number 2 p with
       | Some (om, p) => check (negb ((om <? 0) || (59 <? om))) (
           let off := (oh * 60 + om) * 60 in let off := if negb (c =? 45) then off else - off in
           let t := mktime z local + (off - gmtoff z (mktime z local)) in if negb (cur p =? 0) then Some (-1) else Some t)
       | None => None end)
    | None => None
    end
  else None.
Lemma parse_text z x tenth r : roughly x -> tenth_ok tenth -> (tenth = None -> cur r <> 46) -> parse_opt z (text x tenth ++ r) = tail_opt z (clock x) r.
Proof.
  intros (A1 & A2 & A3 & A4 & A5 & A6) T H. unfold parse_opt, text. rewrite <- !app_assoc. rewrite get4 by lia. unfold check at 1. destruct (Z.ltb_spec (st_y x) 1900); [lia|]. cbn [negb].
  rewrite get2 by lia. unfold check at 1. destruct (Z.ltb_spec (st_mo x) 1); [lia|]. destruct (Z.ltb_spec 12 (st_mo x)); [lia|]. cbn [negb orb].
  rewrite get2 by lia. unfold check at 1. destruct (Z.ltb_spec (st_d x) 1); [lia|]. destruct (Z.ltb_spec 31 (st_d x)); [lia|]. cbn [negb orb].
  cbn [app get_constant]. rewrite Z.eqb_refl.
  rewrite get2 by lia. unfold check at 1. destruct (Z.ltb_spec (st_h x) 0); [lia|]. destruct (Z.ltb_spec 23 (st_h x)); [lia|]. cbn [negb orb].
  rewrite get2 by lia. unfold check at 1. destruct (Z.ltb_spec (st_mi x) 0); [lia|]. destruct (Z.ltb_spec 59 (st_mi x)); [lia|]. cbn [negb orb].
  rewrite get2 by lia. unfold check at 1. destruct (Z.ltb_spec (st_s x) 0); [lia|]. destruct (Z.ltb_spec 59 (st_s x)); [lia|]. cbn [negb orb].
  change (seconds (st_y x) (st_mo x) (st_d x) (st_h x) (st_mi x) (st_s x)) with (clock x).
  destruct tenth as [f|].
  - cbn [tenth_ok] in T. cbn [app get_constant]. rewrite Z.eqb_refl. unfold get_number at 1. cbn [get_number_loop cur tl]. rewrite to_digit_char by lia. destruct (Z.ltb_spec f 0); [lia|]. destruct (Z.ltb_spec 9 f); [lia|]. cbn [orb]. reflexivity.
  - assert (G : get_constant 46 ([] ++ r) = None). { destruct r as [|c r]; [reflexivity|]. cbn. destruct (Z.eqb_spec c 46); [exfalso; apply (H eq_refl); cbn; lia|reflexivity]. } rewrite G. reflexivity.
Qed.
Lemma tail_offset z local minus h m : 0 <= h <= 23 -> 0 <= m <= 59 -> tail_opt z local (offset_text minus h m) = Some (mktime z local + (offset_of minus h m - gmtoff z (mktime z local))).
Proof.
  intros Hh Hm. unfold tail_opt, offset_text, offset_of. cbn [app cur tl]. replace ((if minus then 45 else 43) =? 0) with false by (destruct minus; reflexivity). replace ((if minus then 45 else 43) =? 90) with false by (destruct minus; reflexivity).
  replace (((if minus then 45 else 43) =? 43) || ((if minus then 45 else 43) =? 45)) with true by (destruct minus; reflexivity). rewrite get2 by lia. unfold check. destruct (Z.ltb_spec h 0); [lia|]. destruct (Z.ltb_spec 23 h); [lia|]. cbn [negb orb].
  rewrite <- (app_nil_r (digits 2 m)). rewrite get2 by lia. destruct (Z.ltb_spec m 0); [lia|]. destruct (Z.ltb_spec 59 m); [lia|]. cbn [negb orb cur]. cbn [Z.eqb negb]. f_equal. destruct minus; cbn; lia.
Qed.
Lemma tail_zulu z local r : tail_opt z local (90 :: r) = Some (-1).
Proof. reflexivity. Qed.
(** *** Formatting *)
Definition of_tm (b : tm) : stamp := mk_stamp (tm_year b) (tm_mon b) (tm_mday b) (tm_hour b) (tm_min b) (tm_sec b).
Lemma format_text z t : t <> -1 -> 1900 <= tm_year (localtime z t) <= 9999 -> Z.abs (gmtoff z t) < 86400 ->
  let a := Z.abs (gmtoff z t) in format z t = text (of_tm (localtime z t)) None ++ offset_text (gmtoff z t <? 0) (a / 3600) (a / 60 mod 60).
Proof.
  intros Ht Hy Ha. cbv zeta. unfold format. destruct (Z.eqb_spec t (-1)); [contradiction|]. pose proof (broken_ok (t + gmtoff z t)) as B. cbv zeta in B. fold (localtime z t) in B. set (b := localtime z t) in *. set (a := Z.abs (gmtoff z t)) in *. destruct B as (_ & B1 & B2 & B3 & B4 & B5).
  assert (D : a / 60 / 60 = a / 3600) by (rewrite Z.div_div by lia; reflexivity). rewrite D. assert (O1 : 0 <= a / 3600 <= 23) by (split; [apply Z.div_pos; lia|apply Z.lt_succ_r, Z.div_lt_upper_bound; lia]). pose proof (Z.mod_pos_bound (a / 60) 60 ltac:(lia)) as O2.
  rewrite padded4 by lia. rewrite !padded2 by lia.
  assert (E : (if negb (gmtoff z t <? 0) then 43 else 45) = (if gmtoff z t <? 0 then 45 else 43)) by (destruct (gmtoff z t <? 0); reflexivity). rewrite E.
  set (out := digits 4 (tm_year b) ++ _). assert (EO : out = text (of_tm b) None ++ offset_text (gmtoff z t <? 0) (a / 3600) (a / 60 mod 60)). { unfold out, text, offset_text, of_tm. cbn [st_y st_mo st_d st_h st_mi st_s]. rewrite <- !app_assoc. reflexivity. }
  assert (L : length out = 20%nat) by reflexivity. rewrite L. cbn [Z.of_nat Z.ltb Z.compare Pos.of_succ_nat]. exact EO.
Qed.
