(** Lemmas behind P_Wire.v. *)
From Verif Require Import Base Wire WireSpec WireProofs WireProofs2.

Lemma spec_int_bytes n x : spec_int n x = map (byte_of x) (seq 0 n).
Proof.
  apply (nth_ext _ _ 0 (byte_of x 0)).
  - now rewrite map_length, seq_length, le_enc_length.
  - intros i Hi. unfold spec_int in *. rewrite le_enc_length in Hi. rewrite le_enc_nth by exact Hi.
    rewrite map_nth. rewrite seq_nth by exact Hi. reflexivity.
Qed.

Lemma survives_int n x : x < 256 ^ N.of_nat n ->
  survives (fun t => tx_int n t x) (rx_int (N.of_nat n)) (map (byte_of x) (seq 0 n)) x.
Proof.
  intros H. rewrite <- spec_int_bytes. unfold survives. intros.
  eapply roundtrip; eauto using writes_int, reads_int.
Qed.

Lemma writes_item i : item_ok i -> writes (fun t => tx_item t i) (spec_item i).
Proof.
  destruct i as [ty v|o|d|d]; cbn [item_ok spec_item tx_item]; intros H.
  - now apply writes_variant.
  - destruct H as [H1 H2]. eapply writes_ext, writes_objinfo, H1.
    rewrite N.mod_small by exact H2. destruct o; reflexivity.
  - now apply writes_opd.
  - now apply writes_dpd.
Qed.
Lemma writes_items l : Forall item_ok l -> writes (fun t => tx_items t l) (concat (map spec_item l)).
Proof.
  intros H; induction H as [|i l Hi Hl IH]; [apply writes_ret|].
  cbn [map concat tx_items]. apply (writes_seq _ _ _ _ (writes_item _ Hi) IH).
Qed.

Lemma items_container type code tid est l :
  est < 2^32 - 12 -> Forall item_ok l -> 12 + len (concat (map spec_item l)) <= 2147483392 ->
  exists t, (do t0 <- tx_new type code tid est; tx_items t0 l) = Ret t /\
    tx_buffer t = spec_header (12 + len (concat (map spec_item l))) type code tid
                  ++ concat (map spec_item l) /\
    tx_buffer (tx_set_large t true) = spec_header 0xFFFFFFFF type code tid
                  ++ concat (map spec_item l).
Proof.
  intros He Hl Hb. destruct (tx_new_total type code tid est He) as (t0 & E). rewrite E. cbn [obind].
  destruct (tx_new_ok _ _ _ _ _ E) as (Hw & Hm & Hc & Hlg).
  destruct (writes_items l Hl t0 Hw) as (t & -> & Ha).
  { unfold tx_off. rewrite Hm, spec_header_len. exact Hb. }
  exists t. split; [reflexivity|]. split; [exact (tx_buffer_of _ _ _ _ _ _ _ E Ha)|].
  destruct Ha as (Hm' & Hw' & Hc' & Hl'). unfold tx_buffer, tx_set_large; cbn [tx_mem tx_compute tx_large].
  rewrite Hc', Hc, Hm', Hm. unfold spec_header, spec_int. rewrite <- !app_assoc.
  f_equal.
Qed.

(** growth beyond 2 GiB *)
Lemma ser_step m cap bs : len bs < w32 -> len m + len bs < w32 ->
  tx_serialize (mk_txc m cap true false) bs =
  let need := len m + len bs in
  let cap' := if cap <? need then u32 (cap + u32 (need + 512)) else cap in
  if need <=? cap' then Ret (mk_txc (m ++ bs) cap' true false) else UB.
Proof.
  intros H1 H2. unfold tx_serialize, tx_expand, tx_memcpy, tx_off; cbn [tx_cap tx_mem tx_compute tx_large].
  assert (E : u32 (len bs) = len bs) by (unfold u32, w32 in *; lia). rewrite E.
  assert (E2 : u32 (len m + len bs) = len m + len bs) by (unfold u32, w32 in *; lia). rewrite E2.
  rewrite take_all by lia. cbn zeta.
  destruct (cap <? len m + len bs); reflexivity.
Qed.

Definition big : bytes := repeat 0 (N.to_nat 1073741824).
Lemma big_len : len big = 1073741824.
Proof. unfold big, len. rewrite repeat_length. lia. Qed.
Lemma grow_fails : exists t0, tx_new 2 1 1 0 = Ret t0 /\ tx_serialize_all t0 [big; big; big; repeat 0 2048] = UB.
Proof.
  eexists; split; [reflexivity|]. cbn [tx_serialize_all].
  set (h := le_enc 4 0 ++ le_enc 2 2 ++ le_enc 2 1 ++ le_enc 4 1).
  assert (Lh : len h = 12) by reflexivity. clearbody h.
  change (u32 (MTP_HEADER_SIZE + 0)) with 12.
  rewrite ser_step by (rewrite ?Lh, big_len; reflexivity). cbn zeta. rewrite Lh, big_len.
  change (if 12 + 1073741824 <=? (if 12 <? 12 + 1073741824 then u32 (12 + u32 (12 + 1073741824 + 512)) else 12)
          then Ret (mk_txc (h ++ big) (if 12 <? 12 + 1073741824 then u32 (12 + u32 (12 + 1073741824 + 512)) else 12) true false) else UB)
    with (@Ret txc (mk_txc (h ++ big) 1073742360 true false)). cbn [obind].
  assert (L1 : len (h ++ big) = 1073741836) by (rewrite len_app, Lh, big_len; reflexivity).
  rewrite ser_step by (rewrite ?L1, big_len; reflexivity). cbn zeta. rewrite L1, big_len.
  set (c := if 1073742360 <? 1073741836 + 1073741824 then _ else _).
  assert (c = 3221226532) as -> by reflexivity.
  change (1073741836 + 1073741824 <=? 3221226532) with true. cbn iota. cbn [obind].
  assert (L2 : len ((h ++ big) ++ big) = 2147483660) by (rewrite len_app, L1, big_len; reflexivity).
  rewrite ser_step by (rewrite ?L2, big_len; reflexivity). cbn zeta. rewrite L2, big_len.
  set (c := if 3221226532 <? 2147483660 + 1073741824 then _ else _).
  assert (c = 3221226532) as -> by reflexivity.
  change (2147483660 + 1073741824 <=? 3221226532) with true. cbn iota. cbn [obind].
  assert (L3 : len (((h ++ big) ++ big) ++ big) = 3221225484) by (rewrite len_app, L2, big_len; reflexivity).
  assert (L4 : len (repeat 0 2048) = 2048) by reflexivity.
  rewrite ser_step by (rewrite ?L3, ?L4; reflexivity). cbn zeta. rewrite L3, L4. reflexivity.
Qed.

Lemma survives_variant ty v : has_type ty v ->
  survives (fun t => tx_variant ty t v) (rx_variant ty) (spec_value ty v) v.
Proof.
  intros H type code tid est before after t0 Hn Hl.
  eapply roundtrip; eauto using writes_variant. apply reads_variant; [exact H|].
  destruct v; cbn [rx_small]; auto. cbn [spec_value] in Hl. unfold spec_array, spec_int in Hl.
  rewrite !len_app, len_concat_le in Hl. lia.
Qed.

Lemma survives_array k l : (0 < k)%nat -> Forall (fun x => x < 256 ^ N.of_nat k) l ->
  survives (fun t => tx_vec k t l) (rx_vec (N.of_nat k)) (spec_array k l) l.
Proof.
  intros Hk H type code tid est before after t0 Hn Hl.
  eapply roundtrip; eauto using writes_vec. apply reads_vec; [exact Hk|exact H|].
  unfold spec_array, spec_int in Hl.
  rewrite !len_app, len_concat_le in Hl. lia.
Qed.
Lemma survives_array128 l : Forall (fun x => x < 256 ^ 16) l ->
  survives (fun t => tx_vec128 t l) (rx_vec 16) (spec_array 16 l) l.
Proof.
  intros H type code tid est before after t0 Hn Hl.
  eapply roundtrip; eauto using writes_vec128. apply (reads_vec 16); [lia|exact H|].
  unfold spec_array, spec_int in Hl.
  rewrite !len_app, len_concat_le in Hl. lia.
Qed.

Lemma firstn_Forall {A} (P : A -> Prop) n l : Forall P l -> Forall P (firstn n l).
Proof. intros H. rewrite <- (firstn_skipn n l) in H. now apply Forall_app in H. Qed.

Lemma survives_str s : Forall (fun c => 0 < c < 65536) s ->
  (forall c r, s = c :: r -> c <> 0xFEFF /\ c <> 0xFFFE) ->
  survives (fun t => tx_str t s) rx_str (spec_string (firstn 254 s)) (firstn 254 s)
  /\ len (spec_string (firstn 254 s)) <= 511.
Proof.
  intros Hf Hb.
  assert (Ok : str_ok (firstn 254 s)).
  { constructor; [now apply firstn_Forall|unfold len; rewrite firstn_length; lia|].
    intros c r E. destruct s as [|c' s']; [discriminate|]. injection E as <- _. eapply Hb; reflexivity. }
  assert (Eq : until_nul (take 254 s) = firstn 254 s).
  { apply until_nul_ok. eapply Forall_impl; [|now apply firstn_Forall, Hf]. cbn. lia. }
  split.
  - intros type code tid est before after t0 Hn Hl.
    eapply roundtrip; eauto; [|now apply reads_str].
    rewrite <- Eq. apply writes_str.
  - destruct (firstn 254 s) as [|c r] eqn:E; [cbn; lia|]. rewrite <- E. 
    assert (L : len (firstn 254 s) <= 254) by (unfold len; rewrite firstn_length; lia).
    unfold spec_string. rewrite E at 1. rewrite len_cons, len_app, len_concat_le. change (len [0;0]) with 2. lia.
Qed.

(** a string is sent up to its first NUL *)
Lemma survives_nul a b : Forall (fun c => 0 < c < 65536) a -> len a < 254 ->
  (forall c r, a = c :: r -> c <> 0xFEFF /\ c <> 0xFFFE) ->
  survives (fun t => tx_str t (a ++ 0 :: b)) rx_str (spec_string a) a.
Proof.
  intros Hf Hl Hb.
  assert (Ok : str_ok a) by (constructor; [exact Hf|lia|exact Hb]).
  assert (Eq : until_nul (take 254 (a ++ 0 :: b)) = a).
  { unfold take. replace (N.to_nat 254) with (length a + S (253 - length a))%nat by (unfold len in Hl; lia).
    rewrite firstn_app_2. cbn [firstn]. generalize (firstn (253 - length a) b) as x. clear - Hf. intros x. induction a as [|c a IH]; [reflexivity|].
    apply Forall_cons_iff in Hf as [Hc Hf]. cbn [app until_nul]. destruct (c =? 0) eqn:E; [lia|]. f_equal. auto. }
  intros type code tid est before after t0 Hn Hlen.
  eapply roundtrip; eauto; [|now apply reads_str].
  rewrite <- Eq at 1. apply writes_str.
Qed.

Lemma survives_objinfo o : objinfo_ok o ->
  survives (fun t => tx_objinfo t o) rx_objinfo
    (spec_objinfo (with_size o (oi_size o mod 2^32))) (with_size o (oi_size o mod 2^32)).
Proof.
  intros H type code tid est before after t0 Hn Hl.
  eapply roundtrip; eauto using writes_objinfo. apply reads_objinfo.
  - destruct H; constructor; cbn; auto. lia.
  - cbn. apply N.mod_lt. lia.
Qed.

(** Reception: chunks of a container never overrun its buffer. *)
Fixpoint rx_appends (r : rxc) (l : list bytes) : outcome rxc :=
  match l with [] => Ret r | d :: l' => do r1 <- rx_append r d; rx_appends r1 l' end.

Lemma rx_appends_ok m : forall l r, len (rx_buf r) <= rx_exp r -> rx_exp r + m < 2^32 ->
  Forall (fun d => len d <= m) l ->
  exists r', rx_appends r l = Ret r' /\ len (rx_buf r') <= rx_exp r' /\ rx_exp r' = rx_exp r.
Proof.
  induction l as [|d l IH]; intros r H1 H2 H3; cbn [rx_appends]; [eauto|].
  apply Forall_cons_iff in H3 as [Hd H3]. unfold rx_append at 1.
  assert (E : u32 (len (rx_buf r) + len d) = len (rx_buf r) + len d) by (unfold u32; lia). rewrite E.
  destruct (_ <=? _) eqn:E1.
  - destruct (rx_exp r <? _) eqn:E2; [lia|]. cbn [obind].
    destruct (IH (mk_rxc (rx_buf r ++ d) (rx_exp r) (rx_off r))) as (r' & -> & Ha & Hb);
      cbn [rx_buf rx_exp]; rewrite ?len_app; auto; try lia. eauto.
  - cbn [obind]. now apply IH.
Qed.

(** A read succeeds exactly when all its bytes were received. *)
Lemma rx_int_iff k r : (exists x, rx_int k r = Ret x) <-> rx_off r + k <= len (rx_buf r).
Proof.
  unfold rx_int, rx_bytes. destruct (_ <=? _) eqn:E; cbn [obind]; split; try lia; eauto.
  intros (x & Hx). discriminate.
Qed.

Lemma growth_ok type code tid est l1 l2 :
  est < 2^32 - 12 -> 12 + len (concat (l1 ++ l2)) <= 2147483392 ->
  exists t1 t2,
    (do t0 <- tx_new type code tid est; tx_serialize_all t0 l1) = Ret t1 /\
    tx_serialize_all t1 l2 = Ret t2 /\
    tx_mem t1 = spec_header 0 type code tid ++ concat l1 /\
    tx_mem t2 = tx_mem t1 ++ concat l2 /\
    len (tx_mem t1) <= tx_cap t1 /\ len (tx_mem t2) <= tx_cap t2.
Proof.
  intros He Hb. destruct (tx_new_total type code tid est He) as (t0 & E). rewrite E. cbn [obind].
  destruct (tx_new_ok _ _ _ _ _ E) as (Hw & Hm & Hc & Hlg).
  rewrite concat_app, len_app in Hb.
  destruct (tx_serialize_all_ok l1 t0 Hw) as (t1 & -> & Ha1).
  { unfold tx_off. rewrite Hm, spec_header_len. unfold TXLIM. lia. }
  pose proof (appends_off _ _ _ Ha1) as Ho. unfold tx_off in Ho at 2. rewrite Hm, spec_header_len in Ho.
  destruct (tx_serialize_all_ok l2 t1 (appends_wf _ _ _ Ha1)) as (t2 & Ht2 & Ha2).
  { rewrite Ho. unfold TXLIM. lia. }
  exists t1, t2. destruct Ha1 as (M1 & (_ & W1 & _) & _). destruct Ha2 as (M2 & (_ & W2 & _) & _).
  unfold tx_off in *. rewrite <- Hm. auto 10.
Qed.

Lemma grow_fails_lt : exists t0, tx_new 2 1 1 0 = Ret t0 /\
  tx_serialize_all t0 [big; big; big; repeat 0 2048] = UB /\
  12 + len (concat [big; big; big; repeat 0 2048]) < 2^32.
Proof.
  destruct grow_fails as (t0 & H1 & H2). exists t0. split; [exact H1|]. split; [exact H2|].
  cbn [concat]. rewrite !len_app, !big_len. reflexivity.
Qed.

Lemma bom_lost : exists s, Forall (fun c => 0 < c < 65536) s /\ len s <= 254 /\
  ~ survives (fun t => tx_str t s) rx_str (spec_string s) s.
Proof.
  exists [0xFEFF; 65]. split; [repeat constructor; lia|]. split; [cbn; lia|].
  intros H. specialize (H 2 1 1 100 [] [] _ eq_refl).
  destruct H as (t & r & r1 & r2 & H1 & H2 & H3 & H4 & H5 & H6); [discriminate|].
  vm_compute in H1. injection H1 as <-. vm_compute in H3. injection H3 as <-.
  vm_compute in H4. injection H4 as <-. vm_compute in H5. discriminate.
Qed.

Lemma survives_array_in k l : In k [1; 2; 4; 8]%nat -> Forall (fun x => x < 256 ^ N.of_nat k) l ->
  survives (fun t => tx_vec k t l) (rx_vec (N.of_nat k)) (spec_array k l) l.
Proof. intros Hk. apply survives_array. cbn in Hk. lia. Qed.

Lemma variant_unknown ty v t :
  ~ In ty [1;2;3;4;5;6;7;8;9;10;0x4001;0x4002;0x4003;0x4004;0x4005;0x4006;0x4007;0x4008;0x4009;
           0x400A;0xFFFF] ->
  tx_variant ty t v = Ret t.
Proof.
  intros H. unfold tx_variant.
  repeat match goal with |- context [ty =? ?c] => destruct (ty =? c) eqn:?;
    [exfalso; apply H; cbn [In]; unfold DT_INT8, DT_UINT8, DT_INT16, DT_UINT16, DT_INT32, DT_UINT32,
     DT_INT64, DT_UINT64, DT_INT128, DT_UINT128, DT_AINT8, DT_AUINT8, DT_AINT16, DT_AUINT16, DT_AINT32,
     DT_AUINT32, DT_AINT64, DT_AUINT64, DT_AINT128, DT_AUINT128, DT_STR in *; lia|cbn [orb]] end.
  reflexivity.
Qed.

Lemma bounds_refuted :
  (exists data, 12 <= len data /\ rx_new data = UB) /\
  (exists data r, rx_new data = Ret r /\ len data = rx_exp r /\ rx_int 4 r = UB) /\
  (exists data r, rx_new data = Ret r /\ len data = rx_exp r /\ rx_vec 4 r = UB) /\
  (exists data r, rx_new data = Ret r /\ len data = rx_exp r /\ rx_objinfo r = UB).
Proof.
  repeat split.
  - exists (spec_header 11 1 0x1001 1). split; [vm_compute; discriminate|reflexivity].
  - exists (spec_header 13 2 0x1016 1 ++ [7]). eexists. repeat split; reflexivity.
  - exists (spec_header 20 2 0x9811 1 ++ [2;0;0;0; 1;0;0;0]). eexists. repeat split; reflexivity.
  - exists (spec_header 16 2 0x100C 1 ++ [1;0;1;0]). eexists. repeat split; reflexivity.
Qed.

Lemma six_params : exists ps r, len ps = 6 /\
  rx_new (spec_header (12 + 4 * len ps) 1 0x1001 0 ++ concat (map (spec_int 4) ps)) = Ret r /\
  rx_params r = UB.
Proof. exists [1;2;3;4;5;6]. eexists. repeat split; reflexivity. Qed.

Lemma i128_order_signed : exists a b,
  bytes_ok a /\ bytes_ok b /\ len a = 16 /\ len b = 16 /\
  le_dec b < le_dec a /\ i128_gtb true a b = false.
Proof.
  exists (le_enc 16 128), (le_enc 16 1).
  repeat split; try reflexivity; repeat constructor; unfold byte_ok; vm_compute; reflexivity.
Qed.

(** an explicitly set length is what is sent *)
Lemma set_length_kept type code tid est l n : est < 2^32 - 12 -> 12 + len (concat l) <= 2147483392 ->
  exists t, (do t0 <- tx_new type code tid est; tx_serialize_all t0 l) = Ret t /\
    tx_buffer (tx_set_length t n) = spec_header n type code tid ++ concat l.
Proof.
  intros He Hl. destruct (growth_ok type code tid est l []) as (t1 & t2 & E1 & _ & M & _); [exact He|now rewrite app_nil_r|].
  exists t1. split; [exact E1|]. unfold tx_buffer, tx_set_length; cbn [tx_compute tx_mem]. rewrite M.
  unfold spec_header, spec_int. rewrite <- !app_assoc. f_equal.
Qed.
