(** More lemmas about Wire.v: whole-container round trips, parameters, MtpInt128. *)
From Verif Require Import Base Wire WireSpec WireProofs.

Lemma spec_header_len l ty c t : len (spec_header l ty c t) = 12.
Proof. unfold spec_header, spec_int. rewrite !len_app. unfold len; rewrite !le_enc_length. reflexivity. Qed.

Lemma spec_header_length l ty c t rest : l < w32 -> take 4 (spec_header l ty c t ++ rest) = le_enc 4 l.
Proof.
  intros H. unfold spec_header, spec_int. rewrite <- !app_assoc.
  exact (take_app_exact (le_enc 4 l) _).
Qed.

(** Receiving a whole well-formed container. *)
Lemma rx_new_ok type code tid bs : 12 + len bs < w32 ->
  exists r, rx_new (spec_header (12 + len bs) type code tid ++ bs) = Ret r /\
    rx_at r (spec_header (12 + len bs) type code tid) bs /\ rx_exp r = 12 + len bs.
Proof.
  intros H. unfold rx_new.
  assert (L : len (spec_header (12 + len bs) type code tid ++ bs) = 12 + len bs)
    by (rewrite len_app, spec_header_len; lia).
  rewrite L. destruct (12 + len bs <? 4) eqn:E; [lia|].
  rewrite spec_header_length by exact H. rewrite le_dec_enc. 
  change (256 ^ N.of_nat 4) with w32. rewrite N.mod_small by exact H.
  destruct (12 + len bs <? 12 + len bs) eqn:E2; [lia|].
  eexists; split; [reflexivity|]. unfold rx_at; cbn [rx_buf rx_off rx_exp].
  rewrite L, spec_header_len. unfold MTP_HEADER_SIZE. repeat split; try lia.
Qed.

(** The responder builds a container: any writes, then the value, then any
    writes.  A receiver that skips [before] reads the value back. *)
Lemma roundtrip {A} (m : txc -> outcome txc) (p : rxc -> outcome (A * rxc)) bs (a : A) :
  writes m bs -> reads p bs a ->
  forall type code tid est before after t0,
  tx_new type code tid est = Ret t0 ->
  12 + len (concat before) + len bs + len (concat after) <= 2147483392 ->
  exists t r r1 r2,
    (do t1 <- tx_serialize_all t0 before; do t2 <- m t1; tx_serialize_all t2 after) = Ret t /\
    tx_buffer t = spec_header (12 + len (concat before ++ bs ++ concat after)) type code tid
                  ++ concat before ++ bs ++ concat after /\
    rx_new (tx_buffer t) = Ret r /\
    rx_bytes (len (concat before)) r = Ret (concat before, r1) /\
    p r1 = Ret (a, r2) /\ rx_off r2 = rx_off r1 + len bs.
Proof.
  intros W R type code tid est before after t0 Hn Hl.
  destruct (tx_new_ok _ _ _ _ _ Hn) as (Hw & Hm & Hc & Hlg).
  assert (Ho : tx_off t0 = 12) by (unfold tx_off; rewrite Hm; apply spec_header_len).
  pose proof (writes_seq _ _ _ _ (fun t => tx_serialize_all_ok before t)
                (writes_seq _ _ _ _ W (fun t => tx_serialize_all_ok after t))) as WW.
  destruct (WW t0 Hw) as (t & Ht & Ha).
  { rewrite !len_app, Ho. unfold TXLIM. lia. }
  pose proof (tx_buffer_of _ _ _ _ _ _ _ Hn Ha) as Hb.
  destruct (rx_new_ok type code tid (concat before ++ bs ++ concat after)) as (r & Hr & Hat & _).
  { rewrite !len_app. unfold w32. lia. }
  destruct (rx_bytes_ok _ _ _ _ Hat) as (r1 & Hr1 & Hat1 & _).
  destruct (R _ _ _ Hat1) as (r2 & Hr2 & Hat2 & _).
  exists t, r, r1, r2. split; [exact Ht|]. split; [exact Hb|]. rewrite Hb. split; [exact Hr|].
  split; [exact Hr1|]. split; [exact Hr2|].
  destruct Hat1 as (_ & -> & _). destruct Hat2 as (_ & -> & _). rewrite !len_app. lia.
Qed.

Lemma le_enc_nth n : forall x i, (i < n)%nat -> nth i (le_enc n x) 0 = (x / 256 ^ N.of_nat i) mod 256.
Proof.
  induction n as [|n IH]; intros x i Hi; [lia|]. destruct i as [|i]; cbn [le_enc nth].
  - change (256 ^ N.of_nat 0) with 1. now rewrite N.div_1_r.
  - rewrite IH by lia. replace (N.of_nat (S i)) with (1 + N.of_nat i) by lia.
    rewrite N.pow_add_r, N.pow_1_r, N.div_div; [reflexivity|lia|].
    apply N.pow_nonzero; lia.
Qed.

(** ** Command parameters *)
Lemma rx_field_at pre mid post r off k :
  rx_buf r = pre ++ mid ++ post -> off = len pre -> k = len mid -> rx_field r off k = Ret (le_dec mid).
Proof.
  intros Hb -> ->. unfold rx_field. rewrite Hb, !len_app.
  destruct (_ <=? _) eqn:E; [|lia]. now rewrite drop_app_exact, take_app_exact.
Qed.

Lemma read_params_ok ps : Forall (fun p => p < 2^32) ps ->
  forall r pre post, rx_buf r = pre ++ concat (map (spec_int 4) ps) ++ post ->
  read_params r (len pre) (length ps) = Ret ps.
Proof.
  intros H; induction H as [|p ps Hp Hps IH]; intros r pre post Hb; cbn [length read_params]; [reflexivity|].
  cbn [map concat] in Hb.
  rewrite (rx_field_at pre (spec_int 4 p) (concat (map (spec_int 4) ps) ++ post) r (len pre) 4).
  2:{ now rewrite Hb, <- app_assoc. } 2: reflexivity.
  2:{ unfold spec_int, len. now rewrite le_enc_length. }
  cbn [obind]. unfold spec_int at 1. rewrite le_dec_enc.
  change (256 ^ N.of_nat 4) with (2^32). rewrite N.mod_small by exact Hp.
  replace (len pre + 4) with (len (pre ++ spec_int 4 p)).
  2:{ rewrite len_app. unfold spec_int at 1, len at 2. rewrite le_enc_length. lia. }
  rewrite (IH r (pre ++ spec_int 4 p) post). 2:{ now rewrite Hb, <- !app_assoc. }
  reflexivity.
Qed.

Lemma rx_params_ok code tid ps : len ps <= 5 -> Forall (fun p => p < 2^32) ps ->
  exists r, rx_new (spec_header (12 + 4 * len ps) 1 code tid ++ concat (map (spec_int 4) ps)) = Ret r
    /\ rx_params r = Ret (ps ++ repeat 0 (5 - length ps)).
Proof.
  intros Hl Hp. assert (L : len (concat (map (spec_int 4) ps)) = 4 * len ps)
    by apply len_concat_le.
  destruct (rx_new_ok 1 code tid (concat (map (spec_int 4) ps))) as (r & Hr & (Hb & Ho & _ & _) & He).
  { rewrite L. unfold w32. lia. }
  rewrite L in *. exists r; split; [exact Hr|]. unfold rx_params, rx_type.
  rewrite (rx_field_at (spec_int 4 (12 + 4 * len ps)) (spec_int 2 1)
             ((spec_int 2 code ++ spec_int 4 tid) ++ concat (map (spec_int 4) ps)) r 4 2).
  2:{ rewrite Hb. unfold spec_header. now rewrite <- !app_assoc. }
  2:{ unfold spec_int, len; now rewrite le_enc_length. }
  2: reflexivity.
  cbn [obind]. change (le_dec (spec_int 2 1) =? TYPE_COMMAND) with true. cbn iota.
  rewrite He. replace (sub32 (12 + 4 * len ps) MTP_HEADER_SIZE / 4) with (len ps)
    by (unfold sub32, MTP_HEADER_SIZE; lia).
  destruct (5 <? len ps) eqn:E; [lia|].
  replace (N.to_nat (len ps)) with (length ps) by (unfold len; lia).
  change MTP_HEADER_SIZE with 12. rewrite <- (spec_header_len (12 + 4 * len ps) 1 code tid).
  rewrite (read_params_ok ps Hp r _ []) by (rewrite Hb, app_nil_r; reflexivity).
  cbn [obind]. f_equal. unfold pad5.
  assert (length ps <= 5)%nat as H5 by (unfold len in Hl; lia).
  destruct ps as [|p1 [|p2 [|p3 [|p4 [|p5 [|p6 ps]]]]]]; cbn in *; try reflexivity; lia.
Qed.

(** ** MtpInt128 *)
Lemma le_dec_app a b : le_dec (a ++ b) = le_dec a + 256 ^ len a * le_dec b.
Proof.
  induction a as [|x a IH]; [cbn; lia|]. cbn [app le_dec]. rewrite IH, len_cons, N.pow_add_r, N.pow_1_r. lia.
Qed.
Lemma bytes_ok_take n l : bytes_ok l -> bytes_ok (take n l).
Proof. intros H. unfold take. rewrite <- (firstn_skipn (N.to_nat n) l) in H. now apply Forall_app in H. Qed.
Lemma bytes_ok_drop n l : bytes_ok l -> bytes_ok (drop n l).
Proof. intros H. unfold drop. rewrite <- (firstn_skipn (N.to_nat n) l) in H. now apply Forall_app in H. Qed.

Lemma i128_incr_num v : bytes_ok v -> len v = 16 -> le_dec (i128_incr v) = (le_dec v + 1) mod 2^128.
Proof.
  intros Hv Hl. unfold i128_incr.
  set (a := take 8 v). set (b := drop 8 v).
  assert (Ev : v = a ++ b) by (symmetry; apply take_drop).
  assert (La : len a = 8) by (unfold a; rewrite len_take, Hl; reflexivity).
  assert (Lb : len b = 8) by (unfold b; rewrite len_drop, Hl; reflexivity).
  assert (Ba : le_dec a < w64).
  { replace w64 with (256 ^ len a) by (rewrite La; reflexivity). now apply le_dec_bound, bytes_ok_take. }
  assert (Bb : le_dec b < w64).
  { replace w64 with (256 ^ len b) by (rewrite Lb; reflexivity). now apply le_dec_bound, bytes_ok_drop. }
  rewrite Ev, !le_dec_app, La, !le_dec_enc.
  replace (len (le_enc 8 (u64 (le_dec a + 1)))) with 8 by (unfold len; now rewrite le_enc_length).
  change (256 ^ N.of_nat 8) with w64. change (256 ^ 8) with w64.
  change (2^128) with (w64 * w64).
  generalize dependent (le_dec a). generalize dependent (le_dec b). clear.
  intros y Hy x Hx. unfold u64, w64 in *.
  destruct ((x + 1) mod 18446744073709551616 =? 0) eqn:E.
  - assert (x = 18446744073709551615) as -> by lia.
    change ((18446744073709551615 + 1) mod 18446744073709551616) with 0.
    destruct (N.eq_dec y 18446744073709551615) as [->|Hne]; [reflexivity|].
    rewrite (N.mod_small (y + 1)) by lia. rewrite (N.mod_small (y+1)) by lia.
    rewrite N.mod_small by lia. lia.
  - rewrite (N.mod_small (x+1)) by lia. rewrite (N.mod_small (x+1)) by lia.
    rewrite (N.mod_small y) by lia. rewrite N.mod_small by lia. lia.
Qed.

(** Big endian value of a list (most significant first). *)
Lemma cmp_top_unsigned : forall a b, length a = length b -> bytes_ok a -> bytes_ok b ->
  Z.compare (i128_cmp_from_top false a b) 0 = N.compare (le_dec (rev a)) (le_dec (rev b)).
Proof.
  induction a as [|x a IH]; intros [|y b] Hl Ha Hb; try discriminate; [reflexivity|].
  cbn [length] in Hl. injection Hl as Hl.
  apply Forall_cons_iff in Ha as [Hx Ha]. apply Forall_cons_iff in Hb as [Hy Hb].
  cbn [rev]. rewrite !le_dec_app. cbn [le_dec]. unfold len. rewrite !rev_length.
  rewrite <- Hl. set (P := 256 ^ N.of_nat (length a)).
  assert (Ba : le_dec (rev a) < P).
  { unfold P. rewrite <- (rev_length a). apply le_dec_bound. now apply Forall_rev. }
  assert (Bb : le_dec (rev b) < P).
  { unfold P. rewrite Hl, <- (rev_length b). apply le_dec_bound. now apply Forall_rev. }
  specialize (IH b Hl Ha Hb). revert IH.
  generalize dependent (le_dec (rev a)). generalize dependent (le_dec (rev b)).
  generalize dependent P. unfold byte_ok in *. clear - Hx Hy.
  intros P vb Hvb va Hva IH.
  cbn [i128_cmp_from_top]. unfold char_val. cbn [andb].
  destruct (Z.of_N x - Z.of_N y =? 0)%Z eqn:E.
  - assert (x = y) as -> by lia. rewrite IH.
    destruct (N.compare_spec va vb) as [->|H|H].
    + now rewrite N.compare_refl.
    + symmetry. apply N.compare_lt_iff. lia.
    + symmetry. apply N.compare_gt_iff. lia.
  - destruct (N.compare_spec x y) as [->|H|H]; [lia| |].
    + assert (va + P * (x + 256 * 0) < vb + P * (y + 256 * 0)) as G by nia.
      apply N.compare_lt_iff in G. rewrite G. apply Z.compare_lt_iff. lia.
    + assert (vb + P * (y + 256 * 0) < va + P * (x + 256 * 0)) as G by nia.
      apply N.compare_gt_iff in G. rewrite G. apply Z.compare_gt_iff. lia.
Qed.

Lemma cmp_top_zero sgn : forall a b, length a = length b -> bytes_ok a -> bytes_ok b ->
  i128_cmp_from_top sgn a b = 0%Z <-> a = b.
Proof.
  induction a as [|x a IH]; intros [|y b] Hl Ha Hb; try discriminate; [easy|].
  cbn [length] in Hl. injection Hl as Hl.
  apply Forall_cons_iff in Ha as [Hx Ha]. apply Forall_cons_iff in Hb as [Hy Hb].
  specialize (IH b Hl Ha Hb). cbn [i128_cmp_from_top]. unfold byte_ok in *.
  assert (C : (char_val sgn x - char_val sgn y = 0)%Z <-> x = y).
  { unfold char_val. destruct sgn; cbn [andb]; [|lia].
    destruct (128 <=? x) eqn:?, (128 <=? y) eqn:?; lia. }
  destruct (_ =? 0)%Z eqn:E.
  - rewrite IH. split; [intros ->; f_equal; apply C; lia|congruence].
  - split; [lia|]. intros [= -> ->]. assert (y = y) as Q by reflexivity. apply C in Q. lia.
Qed.

Lemma i128_eqb_spec sgn a b : bytes_ok a -> bytes_ok b -> len a = 16 -> len b = 16 ->
  i128_eqb sgn a b = true <-> le_dec a = le_dec b.
Proof.
  intros Ha Hb La Lb. unfold i128_eqb, i128_compare. rewrite Z.eqb_eq.
  assert (Hl : length a = length b) by (unfold len in *; lia).
  rewrite (cmp_top_zero sgn (rev a) (rev b));
    [|now rewrite !rev_length|now apply Forall_rev|now apply Forall_rev].
  split.
  - intros E. apply (f_equal (@rev N)) in E. rewrite !rev_involutive in E. now subst.
  - intros E. rewrite <- (le_enc_dec a Ha), <- (le_enc_dec b Hb), E, Hl. reflexivity.
Qed.

Lemma i128_gtb_unsigned a b : bytes_ok a -> bytes_ok b -> len a = 16 -> len b = 16 ->
  (i128_gtb false a b = true <-> le_dec b < le_dec a) /\
  (i128_ltb false a b = true <-> le_dec a < le_dec b).
Proof.
  intros Ha Hb La Lb. unfold i128_gtb, i128_ltb, i128_compare.
  assert (Hl : length (rev a) = length (rev b)) by (rewrite !rev_length; unfold len in *; lia).
  pose proof (cmp_top_unsigned (rev a) (rev b) Hl (Forall_rev Ha) (Forall_rev Hb)) as C.
  rewrite !rev_involutive in C.
  destruct (N.compare_spec (le_dec a) (le_dec b)) as [E|E|E].
  - apply Z.compare_eq_iff in C. rewrite C. rewrite E. split; split; intros H; try discriminate; lia.
  - rewrite Z.compare_lt_iff in C. split; split; lia.
  - rewrite Z.compare_gt_iff in C. split; split; lia.
Qed.
