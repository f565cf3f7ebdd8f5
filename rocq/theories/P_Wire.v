(** C01-C10: the MTP wire format.  The specification is WireSpec.v. *)
From Verif Require Import Base Wire WireSpec WireProofs2 WireProofs3.

(** ** C01 *)
Theorem C01_integers_survive : forall n x, In n [1; 2; 4; 8; 16]%nat -> x < 256 ^ N.of_nat n ->
  survives (fun t => tx_int n t x) (rx_int (N.of_nat n)) (map (byte_of x) (seq 0 n)) x.
Proof. exact (fun n x _ => survives_int n x). Qed.

(** ** C02: whatever is written, the bytes handed to the transport are header
    with the true length (or 0xFFFFFFFF when flagged over-long), then the items. *)
Theorem C02_header_and_content : forall type code tid est l,
  est < 2^32 - 12 -> Forall item_ok l -> 12 + len (concat (map spec_item l)) <= 2147483392 ->
  exists t, (do t0 <- tx_new type code tid est; tx_items t0 l) = Ret t /\
    tx_buffer t = spec_header (12 + len (concat (map spec_item l))) type code tid
                  ++ concat (map spec_item l) /\
    tx_buffer (tx_set_large t true) = spec_header 0xFFFFFFFF type code tid
                  ++ concat (map spec_item l).
Proof. exact items_container. Qed.

(** an explicitly set container length is sent as it is *)
Theorem C02_explicit_length : forall type code tid est l n,
  est < 2^32 - 12 -> 12 + len (concat l) <= 2147483392 ->
  exists t, (do t0 <- tx_new type code tid est; tx_serialize_all t0 l) = Ret t /\
    tx_buffer (tx_set_length t n) = spec_header n type code tid ++ concat l.
Proof. exact set_length_kept. Qed.

(** ** C03: independence from the capacity estimate: no write leaves the
    allocation (that would be [UB]) and nothing written earlier changes. *)
Theorem C03_growth_loses_nothing : forall type code tid est l1 l2,
  est < 2^32 - 12 -> 12 + len (concat (l1 ++ l2)) <= 2147483392 ->
  exists t1 t2,
    (do t0 <- tx_new type code tid est; tx_serialize_all t0 l1) = Ret t1 /\
    tx_serialize_all t1 l2 = Ret t2 /\
    tx_mem t1 = spec_header 0 type code tid ++ concat l1 /\
    tx_mem t2 = tx_mem t1 ++ concat l2 /\
    len (tx_mem t1) <= tx_cap t1 /\ len (tx_mem t2) <= tx_cap t2.
Proof. exact growth_ok. Qed.
(** Beyond 2 GiB the capacity computation wraps and a write leaves the buffer. *)
Theorem C03_over_2GiB_refuted : exists t0, tx_new 2 1 1 0 = Ret t0 /\
  tx_serialize_all t0 [big; big; big; repeat 0 2048] = UB /\
  12 + len (concat [big; big; big; repeat 0 2048]) < 2^32.
Proof. exact grow_fails_lt. Qed.

(** ** C04 *)
Theorem C04_strings_survive_partial : forall s, Forall (fun c => 0 < c < 65536) s ->
  (* missing: strings that begin with U+FEFF or U+FFFE, see C04_bom_refuted *)
  (forall c r, s = c :: r -> c <> 0xFEFF /\ c <> 0xFFFE) ->
  survives (fun t => tx_str t s) rx_str (spec_string (firstn 254 s)) (firstn 254 s)
  /\ len (spec_string (firstn 254 s)) <= 511.
Proof. exact survives_str. Qed.
(** a string with a NUL in it arrives as the part before the NUL *)
Theorem C04_up_to_nul : forall a b, Forall (fun c => 0 < c < 65536) a -> len a < 254 ->
  (forall c r, a = c :: r -> c <> 0xFEFF /\ c <> 0xFFFE) ->
  survives (fun t => tx_str t (a ++ 0 :: b)) rx_str (spec_string a) a.
Proof. exact survives_nul. Qed.
Theorem C04_bom_refuted : exists s, Forall (fun c => 0 < c < 65536) s /\ len s <= 254 /\
  ~ survives (fun t => tx_str t s) rx_str (spec_string s) s.
Proof. exact bom_lost. Qed.

(** ** C05 *)
Theorem C05_arrays_survive : forall k l, In k [1; 2; 4; 8]%nat ->
  Forall (fun x => x < 256 ^ N.of_nat k) l ->
  survives (fun t => tx_vec k t l) (rx_vec (N.of_nat k)) (spec_array k l) l.
Proof. exact survives_array_in. Qed.
Theorem C05_arrays128_survive : forall l, Forall (fun x => x < 256 ^ 16) l ->
  survives (fun t => tx_vec128 t l) (rx_vec 16) (spec_array 16 l) l.
Proof. exact survives_array128. Qed.

(** ** C06 *)
Theorem C06_values_survive : forall ty v, has_type ty v ->
  survives (fun t => tx_variant ty t v) (rx_variant ty) (spec_value ty v) v.
Proof. exact survives_variant. Qed.
Theorem C06_unsupported_type_writes_nothing : forall ty v t,
  ~ In ty [1;2;3;4;5;6;7;8;9;10;0x4001;0x4002;0x4003;0x4004;0x4005;0x4006;0x4007;0x4008;0x4009;
           0x400A;0xFFFF] ->
  tx_variant ty t v = Ret t.
Proof. exact variant_unknown. Qed.

(** ** C07 *)
Theorem C07_objectinfo_survives : forall o, objinfo_ok o ->
  survives (fun t => tx_objinfo t o) rx_objinfo
    (spec_objinfo (with_size o (oi_size o mod 2^32))) (with_size o (oi_size o mod 2^32)).
Proof. exact survives_objinfo. Qed.

(** ** C08 *)
(** The code has no bounds checks: a command whose length field is smaller than
    the transfer, a truncated dataset and an array count larger than the data all
    make it leave the buffer. *)
Theorem C08_bounds_refuted :
  (exists data, 12 <= len data /\ rx_new data = UB) /\
  (exists data r, rx_new data = Ret r /\ len data = rx_exp r /\ rx_int 4 r = UB) /\
  (exists data r, rx_new data = Ret r /\ len data = rx_exp r /\ rx_vec 4 r = UB) /\
  (exists data r, rx_new data = Ret r /\ len data = rx_exp r /\ rx_objinfo r = UB).
Proof. exact bounds_refuted. Qed.
(** What does hold: collecting a container from pieces never overruns its buffer,
    and an integer is read exactly when all its bytes were received. *)
Theorem C08_append_in_bounds_partial : forall m l r, len (rx_buf r) <= rx_exp r ->
  rx_exp r + m < 2^32 -> Forall (fun d => len d <= m) l ->
  exists r', rx_appends r l = Ret r' /\ len (rx_buf r') <= rx_exp r' /\ rx_exp r' = rx_exp r.
Proof. exact rx_appends_ok. Qed.
Theorem C08_read_needs_received_bytes_partial : forall k r,
  (exists x, rx_int k r = Ret x) <-> rx_off r + k <= len (rx_buf r).
Proof. exact rx_int_iff. Qed.

(** ** C09 *)
Theorem C09_parameters : forall code tid ps, len ps <= 5 -> Forall (fun p => p < 2^32) ps ->
  exists r, rx_new (spec_header (12 + 4 * len ps) 1 code tid ++ concat (map (spec_int 4) ps)) = Ret r
    /\ rx_params r = Ret (ps ++ repeat 0 (5 - length ps)).
Proof. exact rx_params_ok. Qed.
Theorem C09_six_parameters_refuted : exists ps r, len ps = 6 /\
  rx_new (spec_header (12 + 4 * len ps) 1 0x1001 0 ++ concat (map (spec_int 4) ps)) = Ret r /\
  rx_params r = UB.
Proof. exact six_params. Qed.

(** ** C10 (sgn: is plain char signed on the platform?) *)
Theorem C10_increment : forall v, bytes_ok v -> len v = 16 ->
  le_dec (i128_incr v) = (le_dec v + 1) mod 2^128.
Proof. exact i128_incr_num. Qed.
Theorem C10_equality : forall sgn a b, bytes_ok a -> bytes_ok b -> len a = 16 -> len b = 16 ->
  i128_eqb sgn a b = true <-> le_dec a = le_dec b.
Proof. exact i128_eqb_spec. Qed.
Theorem C10_order_unsigned_char_partial : forall a b,
  bytes_ok a -> bytes_ok b -> len a = 16 -> len b = 16 ->
  (i128_gtb false a b = true <-> le_dec b < le_dec a) /\
  (i128_ltb false a b = true <-> le_dec a < le_dec b).
Proof. exact i128_gtb_unsigned. Qed.
Theorem C10_order_signed_char_refuted : exists a b,
  bytes_ok a /\ bytes_ok b /\ len a = 16 /\ len b = 16 /\
  le_dec b < le_dec a /\ i128_gtb true a b = false.
Proof. exact i128_order_signed. Qed.

(** ** Examples: hypotheses are met *)
Example ex_C01 : In 4%nat [1;2;4;8;16]%nat /\ 0x12345678 < 256 ^ N.of_nat 4 /\
  map (byte_of 0x12345678) (seq 0 4) = [0x78; 0x56; 0x34; 0x12].
Proof. repeat split; cbn; auto. Qed.
Example ex_C02 : let l := [IVal 6 (VInt 7); IVal 0xFFFF (VStr [65; 66]); IVal 0x4004 (VVec 0x4004 [1; 2])] in
  Forall item_ok l /\ exists t, (do t0 <- tx_new 2 0x1001 9 0; tx_items t0 l) = Ret t /\
  tx_buffer t = [31;0;0;0; 2;0; 1;0x10; 9;0;0;0; 7;0;0;0; 3;65;0;66;0;0;0; 2;0;0;0;1;0;2;0].
Proof.
  split.
  - constructor; [apply ht_int; [cbn; tauto|reflexivity]|]. constructor.
    { apply ht_str; [repeat constructor; lia|cbn; lia|]. intros c r [= <- <-]; split; discriminate. }
    constructor; [|constructor]. apply ht_vec; [cbn; tauto|repeat constructor; reflexivity].
  - eexists; split; vm_compute; reflexivity.
Qed.
Example ex_C04 : str_ok [72; 105] /\ spec_string [72; 105] = [3; 72; 0; 105; 0; 0; 0].
Proof. split; [|reflexivity]. constructor; cbn; [repeat constructor; lia|lia|]. now intros c r [= <- <-]. Qed.
Example ex_C07 : objinfo_ok (mk_objinfo 65537 0x3000 0 5000000000 0 0 0 0 0 0 0 3 0 0 0 [65] [] [] []).
Proof.
  assert (E : str_ok []) by (constructor; [constructor|cbn; lia|discriminate]).
  constructor; try (vm_compute; reflexivity); try exact E.
  constructor; [repeat constructor; lia|vm_compute; discriminate|]. now intros c r [= <- <-].
Qed.
Example ex_C10 : le_dec (i128_incr (le_enc 16 (2^64 - 1))) = 2^64 /\ le_dec (i128_incr (le_enc 16 (2^128 - 1))) = 0.
Proof. split; reflexivity. Qed.

Print Assumptions C01_integers_survive.
Print Assumptions C02_header_and_content.
Print Assumptions C03_growth_loses_nothing.
Print Assumptions C03_over_2GiB_refuted.
Print Assumptions C04_strings_survive_partial.
Print Assumptions C04_bom_refuted.
Print Assumptions C05_arrays_survive.
Print Assumptions C05_arrays128_survive.
Print Assumptions C06_values_survive.
Print Assumptions C06_unsupported_type_writes_nothing.
Print Assumptions C07_objectinfo_survives.
Print Assumptions C08_bounds_refuted.
Print Assumptions C08_append_in_bounds_partial.
Print Assumptions C08_read_needs_received_bytes_partial.
Print Assumptions C09_parameters.
Print Assumptions C09_six_parameters_refuted.
Print Assumptions C10_increment.
Print Assumptions C10_equality.
Print Assumptions C10_order_unsigned_char_partial.
Print Assumptions C10_order_signed_char_refuted.
Print Assumptions C02_explicit_length.
Print Assumptions C04_up_to_nul.
