(** C56: timestamps. *)
From Coq Require Import ZArith List Bool Lia.
Import ListNotations.
From Verif Require Import DateTime DateTimeProofs.
Open Scope Z_scope.

(** formatting and parsing back: exact for every time the text can express, unless the
    clock shows the same local time twice (end of summer time) *)
Theorem C56_roundtrip_partial : forall z t, zone_ok z -> t <> -1 ->
  1900 <= tm_year (localtime z t) <= 9999 -> Z.abs (gmtoff z t) < 86400 -> gmtoff z t mod 60 = 0 ->
  (forall t', t' + gmtoff z t' = t + gmtoff z t -> t' = t) ->
  parse z (format z t) = t.
Proof.
  intros z t ZO Ht Hy Ha Hm Hu. pose proof (format_text z t Ht Hy Ha) as F. cbv zeta in F. rewrite F. pose proof (broken_ok (t + gmtoff z t)) as B. cbv zeta in B. fold (localtime z t) in B. destruct B as (B0 & B1 & B2 & B3 & B4 & B5).
  set (a := Z.abs (gmtoff z t)) in *. assert (O1 : 0 <= a / 3600 <= 23) by (split; [apply Z.div_pos; lia|apply Z.lt_succ_r, Z.div_lt_upper_bound; lia]). pose proof (Z.mod_pos_bound (a / 60) 60 ltac:(lia)) as O2.
  unfold parse. rewrite parse_text; [|unfold roughly, of_tm; cbn [st_y st_mo st_d st_h st_mi st_s]; lia|exact I|intros _; unfold offset_text; cbn [app cur]; destruct (gmtoff z t <? 0); discriminate].
  rewrite tail_offset by lia. assert (C : clock (of_tm (localtime z t)) = t + gmtoff z t) by exact B0. rewrite C. assert (M : mktime z (t + gmtoff z t) = t) by (apply Hu; apply ZO; eauto). rewrite M.
  assert (O : offset_of (gmtoff z t <? 0) (a / 3600) (a / 60 mod 60) = gmtoff z t); [|rewrite O; lia].
  assert (A : a / 3600 * 3600 + (a / 60 mod 60) * 60 = a).
  { assert (D : a / 3600 = a / 60 / 60) by (rewrite Z.div_div by lia; reflexivity). pose proof (Z.div_mod (a / 60) 60 ltac:(lia)). pose proof (Z.div_mod a 60 ltac:(lia)).
    assert (a mod 60 = 0); [|lia]. unfold a. destruct (Z.abs_spec (gmtoff z t)) as [[_ ->]|[_ ->]]; [exact Hm|]. apply Z.mod_opp_l_z; [lia|exact Hm]. }
  unfold offset_of. rewrite A. unfold a. destruct (Z.ltb_spec (gmtoff z t) 0); lia.
Qed.
(** a time without a zone is local time: the parsed time is one at which the local clock
    shows it, if there is one *)
Theorem C56_local_time : forall z x tenth, zone_ok z -> legal x -> tenth_ok tenth ->
  (exists t, t + gmtoff z t = clock x) -> let t := parse z (text x tenth) in t + gmtoff z t = clock x.
Proof.
  intros z x tenth ZO L T E. cbv zeta. unfold parse. rewrite <- (app_nil_r (text x tenth)). rewrite parse_text; [|apply legal_roughly; exact L|exact T|cbn; lia]. cbn [tail_opt cur Z.eqb]. apply ZO. exact E.
Qed.
(** a time with an offset is right if the offset is the local one *)
Theorem C56_offset_partial : forall z x tenth minus h m, zone_ok z -> legal x -> tenth_ok tenth -> 0 <= h <= 23 -> 0 <= m <= 59 ->
  (exists t, t + gmtoff z t = clock x) ->
  exists local_offset, local_offset = gmtoff z (mktime z (clock x)) /\
  (* off by twice the difference of the offsets *)
  parse z (text x tenth ++ offset_text minus h m) = (clock x - offset_of minus h m) + 2 * (offset_of minus h m - local_offset) /\
  (offset_of minus h m = local_offset -> parse z (text x tenth ++ offset_text minus h m) = clock x - offset_of minus h m).
Proof.
  intros z x tenth minus h m ZO L T Hh Hm E. exists (gmtoff z (mktime z (clock x))). split; [reflexivity|].
  assert (P : parse z (text x tenth ++ offset_text minus h m) = (clock x - offset_of minus h m) + 2 * (offset_of minus h m - gmtoff z (mktime z (clock x)))).
  { unfold parse. rewrite parse_text; [|apply legal_roughly; exact L|exact T|intros _; unfold offset_text; cbn [app cur]; destruct minus; discriminate]. rewrite tail_offset by assumption. pose proof (ZO (clock x) E). lia. }
  split; [exact P|]. intros H. lia.
Qed.
(** the full property fails: with the UTC zone, 2020-01-01 00:00:00+0100 is 23:00 on the
    day before, but is read as 01:00 *)
Definition utc : zone := mk_zone (fun _ => 0) (fun l => l).
Definition new_year : stamp := mk_stamp 2020 1 1 0 0 0.
Lemma utc_ok : zone_ok utc.
Proof. intros l _. cbn. lia. Qed.
Lemma new_year_legal : legal new_year.
Proof. unfold legal, month_len. cbn. lia. Qed.
Theorem C56_offset_refuted : zone_ok utc /\ legal new_year /\ clock new_year - offset_of false 1 0 = 1577833200 /\ parse utc (text new_year None ++ offset_text false 1 0) = 1577840400.
Proof. split; [exact utc_ok|]. split; [exact new_year_legal|]. split; vm_compute; reflexivity. Qed.
(** and UTC times are never accepted *)
Theorem C56_zulu_refuted : forall z x tenth, legal x -> tenth_ok tenth -> parse z (text x tenth ++ [90]) = -1.
Proof. intros z x tenth L T. unfold parse. rewrite parse_text; [|apply legal_roughly; exact L|exact T|intros _; discriminate]. reflexivity. Qed.
(** examples: a zone with summer time satisfies the hypotheses *)
Definition cet : zone := mk_zone (fun t => if t <? 1585443600 then 3600 else 7200)
  (fun l => if l <? 1585443600 + 3600 then l - 3600 else if l <? 1585443600 + 7200 then l - 3600 else l - 7200).
Lemma cet_ok : zone_ok cet.
Proof.
  intros l [t E]. cbn in *. destruct (Z.ltb_spec t 1585443600); destruct (Z.ltb_spec l 1585447200); destruct (Z.ltb_spec l 1585450800); try (exfalso; lia);
  repeat match goal with |- context [?a <? ?b] => destruct (Z.ltb_spec a b); try lia end.
Qed.
Example C56_example : zone_ok cet /\ gmtoff cet 1600000000 = 7200 /\ 1900 <= tm_year (localtime cet 1600000000) <= 9999 /\ gmtoff cet 1600000000 mod 60 = 0 /\
  (forall t', t' + gmtoff cet t' = 1600000000 + gmtoff cet 1600000000 -> t' = 1600000000) /\ format cet 1600000000 = [50;48;50;48;48;57;49;51;84;49;52;50;54;52;48;43;48;50;48;48].
Proof.
  split; [exact cet_ok|]. split; [reflexivity|]. split; [vm_compute; split; discriminate|]. split; [reflexivity|]. split; [|vm_compute; reflexivity].
  intros t'. cbn. destruct (Z.ltb_spec t' 1585443600); lia.
Qed.

Print Assumptions C56_roundtrip_partial.
Print Assumptions C56_local_time.
Print Assumptions C56_offset_partial.
Print Assumptions C56_offset_refuted.
Print Assumptions C56_zulu_refuted.
