(** Lemmas about Wire.v. *)
From Verif Require Import Base Wire WireSpec.

(** ** Transmit side *)
Definition TXLIM : N := 2147483392.   (* 2^31 - 256 *)
Definition tx_wf (t : txc) : Prop := 12 <= tx_off t /\ tx_off t <= tx_cap t /\ tx_cap t < w32.
Definition appends (t t' : txc) (bs : bytes) : Prop :=
  tx_mem t' = tx_mem t ++ bs /\ tx_wf t' /\ tx_compute t' = tx_compute t /\ tx_large t' = tx_large t.

Lemma concat_flat {A B} (f : A -> list B) l : flat_map f l = concat (map f l).
Proof. apply flat_map_concat_map. Qed.

Lemma appends_off t t' bs : appends t t' bs -> tx_off t' = tx_off t + len bs.
Proof. intros (H & _); unfold tx_off; rewrite H, len_app; reflexivity. Qed.
Lemma appends_wf t t' bs : appends t t' bs -> tx_wf t'.
Proof. now intros (_ & H & _). Qed.
Lemma appends_trans t1 t2 t3 a b : appends t1 t2 a -> appends t2 t3 b -> appends t1 t3 (a ++ b).
Proof.
  intros (H1 & H2 & H3 & H4) (H5 & H6 & H7 & H8). repeat split; try congruence; try apply H6.
  now rewrite H5, H1, app_assoc.
Qed.
Lemma appends_refl t : tx_wf t -> appends t t [].
Proof. intros H; repeat split; try apply H. now rewrite app_nil_r. Qed.

Lemma tx_new_ok type code tid est t :
  tx_new type code tid est = Ret t -> 
  tx_wf t /\ tx_mem t = spec_header 0 type code tid /\ tx_compute t = true /\ tx_large t = false.
Proof.
  unfold tx_new, tx_wf, tx_off. destruct (u32 _ <? _) eqn:E; [discriminate|].
  intros H; apply Ret_inj in H; subst t. cbn [tx_mem tx_cap tx_compute tx_large].
  rewrite !len_app. unfold len; rewrite !le_enc_length. unfold u32, w32, MTP_HEADER_SIZE in *.
  repeat split; lia.
Qed.
Lemma tx_new_total type code tid est :
  est < w32 - 12 -> exists t, tx_new type code tid est = Ret t.
Proof.
  intros H. unfold tx_new. destruct (u32 _ <? _) eqn:E; [|eauto].
  unfold u32, w32, MTP_HEADER_SIZE in *. lia.
Qed.

Lemma tx_memcpy_ok t bs : tx_wf t -> tx_off t + len bs <= tx_cap t ->
  exists t', tx_memcpy t bs = Ret t' /\ appends t t' bs /\ tx_cap t' = tx_cap t.
Proof.
  intros (H1 & H2 & H3) H. unfold tx_memcpy.
  destruct (tx_off t + len bs <=? tx_cap t) eqn:E; [|lia].
  eexists; split; [reflexivity|]. unfold appends, tx_wf, tx_off in *. cbn [tx_mem tx_cap tx_compute tx_large].
  rewrite len_app. repeat split; lia.
Qed.

Lemma tx_expand_wf t n : tx_wf t -> tx_cap t + n + 512 < w32 -> 
  appends t (tx_expand t n) [] /\ tx_cap (tx_expand t n) = tx_cap t + n + 512.
Proof.
  intros (H1 & H2 & H3) H. unfold tx_expand, appends, tx_wf, tx_off, u32, w32 in *.
  cbn [tx_mem tx_cap tx_compute tx_large]. rewrite app_nil_r. repeat split; lia.
Qed.

Lemma tx_serialize_ok t bs : tx_wf t -> tx_off t + len bs <= TXLIM ->
  exists t', tx_serialize t bs = Ret t' /\ appends t t' bs.
Proof.
  intros Hw Hl. unfold tx_serialize. set (n := u32 (len bs)).
  assert (Hn : n = len bs) by (unfold n, u32, TXLIM in *; lia).
  assert (Ho : u32 (tx_off t + n) = tx_off t + len bs) by (unfold u32, TXLIM in *; lia).
  rewrite Ho, Hn, take_all by lia.
  destruct (tx_cap t <? tx_off t + len bs) eqn:E.
  - destruct (tx_expand_wf t (tx_off t + len bs) Hw) as [Ha Hc].
    { unfold w32, TXLIM in *; lia. }
    pose proof (appends_off _ _ _ Ha) as Hoff. rewrite len_nil in Hoff.
    destruct (tx_memcpy_ok _ bs (appends_wf _ _ _ Ha)) as (t' & -> & H & _); [lia|].
    exists t'; split; [reflexivity|]. exact (appends_trans _ _ _ _ _ Ha H).
  - destruct (tx_memcpy_ok t bs Hw) as (t' & -> & H & _); [lia|]. eauto.
Qed.

Lemma tx_serialize_all_ok l : forall t, tx_wf t -> tx_off t + len (concat l) <= TXLIM ->
  exists t', tx_serialize_all t l = Ret t' /\ appends t t' (concat l).
Proof.
  induction l as [|b r IH]; intros t Hw Hl; cbn [concat tx_serialize_all].
  - eexists; split; [reflexivity|]. now apply appends_refl.
  - cbn [concat] in Hl. rewrite len_app in Hl.
    destruct (tx_serialize_ok t b Hw) as (t1 & -> & H1); [lia|]. cbn [obind].
    destruct (IH t1 (appends_wf _ _ _ H1)) as (t2 & -> & H2).
    { rewrite (appends_off _ _ _ H1). lia. }
    eexists; split; [reflexivity|]. eapply appends_trans; eauto.
Qed.

(** A step lemma: run [m] from t, appending [bs], then continue. *)
Definition writes (m : txc -> outcome txc) (bs : bytes) : Prop :=
  forall t, tx_wf t -> tx_off t + len bs <= TXLIM -> exists t', m t = Ret t' /\ appends t t' bs.

Lemma writes_seq m1 m2 b1 b2 : writes m1 b1 -> writes m2 b2 ->
  writes (fun t => do t1 <- m1 t; m2 t1) (b1 ++ b2).
Proof.
  intros W1 W2 t Hw Hl. rewrite len_app in Hl.
  destruct (W1 t Hw) as (t1 & -> & H1); [lia|]. cbn [obind].
  destruct (W2 t1 (appends_wf _ _ _ H1)) as (t2 & -> & H2).
  { rewrite (appends_off _ _ _ H1). lia. }
  eexists; split; [reflexivity|]. eapply appends_trans; eauto.
Qed.
Lemma writes_ret : writes (fun t => Ret t) [].
Proof. intros t Hw _. eexists; split; [reflexivity|]. now apply appends_refl. Qed.
Lemma writes_bytes bs : writes (fun t => tx_serialize t bs) bs.
Proof. intros t; apply tx_serialize_ok. Qed.
Lemma writes_int k x : writes (fun t => tx_int k t x) (spec_int k x).
Proof. apply writes_bytes. Qed.
Lemma writes_ext m b b' : b = b' -> writes m b -> writes m b'.
Proof. now intros ->. Qed.

Lemma len_concat_le n l : len (concat (map (le_enc n) l)) = N.of_nat n * len l.
Proof.
  induction l as [|x l IH]; [cbn; lia|]. cbn [map concat].
  rewrite len_app, IH, len_cons. unfold len at 1. rewrite le_enc_length. lia.
Qed.

Lemma writes_vec k l : (0 < k)%nat -> writes (fun t => tx_vec k t l) (spec_array k l).
Proof.
  intros Hk t Hw Hl. unfold spec_array, spec_int in *. 
  assert (Hlen : len l < w32).
  { rewrite len_app, len_concat_le in Hl. unfold TXLIM, w32 in *.
    assert (len l <= N.of_nat k * len l) by nia. lia. }
  revert t Hw Hl. apply writes_seq.
  - eapply writes_ext, writes_int. unfold spec_int, u32, w32 in *. now rewrite N.mod_small by lia.
  - rewrite concat_flat. apply writes_bytes.
Qed.

Lemma writes_vec128 l : writes (fun t => tx_vec128 t l) (spec_array 16 l).
Proof.
  intros t Hw Hl. unfold tx_vec128, spec_array, spec_int in *.
  rewrite len_app, len_concat_le in Hl. unfold len at 1 in Hl. rewrite le_enc_length in Hl.
  set (n := u32 (len l)). assert (Hn : n = len l) by (unfold n, u32, TXLIM in *; lia).
  set (req := u32 (4 + n * 16)).
  assert (Hr : req = 4 + len l * 16) by (unfold req, u32, TXLIM in *; lia).
  assert (Hs : sub32 req 4 = len l * 16) by (unfold sub32, TXLIM in *; lia).
  rewrite Hs, concat_flat, take_all by (rewrite len_concat_le; lia).
  set (t1 := if tx_cap t <? u32 (tx_off t + req) then tx_expand t req else t).
  assert (H1 : appends t t1 [] /\ tx_off t + req <= tx_cap t1).
  { unfold t1. destruct (_ <? _) eqn:E.
    - destruct (tx_expand_wf t req Hw) as [Ha Hc].
      { destruct Hw as (? & ? & ?). unfold w32, u32, TXLIM in *. lia. }
      split; [exact Ha|]. rewrite Hc. destruct Hw as (? & ? & ?). lia.
    - split; [now apply appends_refl|]. unfold u32, TXLIM in *. lia. }
  destruct H1 as [H1 Hcap].
  pose proof (appends_off _ _ _ H1) as Ho1. rewrite len_nil in Ho1.
  unfold tx_int, tx_serialize.
  assert (L4 : len (le_enc 4 n) = 4) by (unfold len; now rewrite le_enc_length).
  rewrite L4. unfold TXLIM in *.
  replace (u32 (tx_off t1 + u32 4)) with (tx_off t1 + 4) by (unfold u32; lia).
  destruct (tx_cap t1 <? tx_off t1 + 4) eqn:E2; [lia|].
  rewrite take_all by (rewrite L4; unfold u32; lia).
  destruct (tx_memcpy_ok t1 (le_enc 4 n) (appends_wf _ _ _ H1)) as (t2 & -> & H2 & Hc2); [lia|].
  cbn [obind]. pose proof (appends_off _ _ _ H2) as Ho2.
  destruct (tx_memcpy_ok t2 (concat (map (le_enc 16) l)) (appends_wf _ _ _ H2)) as (t3 & E3 & H3 & _).
  { rewrite len_concat_le, Ho2, L4, Hc2. lia. }
  exists t3; split; [exact E3|]. rewrite Hn in H2.
  exact (appends_trans _ _ _ _ _ H1 (appends_trans _ _ _ _ _ H2 H3)).
Qed.

Lemma until_nul_ok s : Forall (fun c => c <> 0) s -> until_nul s = s.
Proof.
  intros H; induction H as [|c s Hc Hs IH]; [reflexivity|]. cbn [until_nul].
  destruct (c =? 0) eqn:E; [lia|]. now rewrite IH.
Qed.
Lemma until_nul_len s : len (until_nul s) <= len s.
Proof.
  induction s as [|c s IH]; cbn [until_nul]; [lia|].
  destruct (c =? 0); rewrite ?len_cons, ?len_nil in *; lia.
Qed.

Lemma writes_str s : writes (fun t => tx_str t s) (spec_string (until_nul (take 254 s))).
Proof.
  intros t Hw Hl. unfold tx_str. set (str := until_nul (take 254 s)) in *.
  assert (Hb : len str <= 254).
  { unfold str. pose proof (until_nul_len (take 254 s)). rewrite len_take in *. lia. }
  destruct (0 <? len str) eqn:E.
  - assert (Hs : spec_string str = (len str + 1) :: concat (map (spec_int 2) str) ++ [0; 0]).
    { unfold spec_string. destruct str; [cbn in E; lia|reflexivity]. }
    rewrite Hs in *. unfold u8.
    replace ((len str + 1) mod 256) with (len str + 1) by lia.
    destruct (len str + 1 =? 0) eqn:E2; [lia|].
    revert t Hw Hl.
    apply (writes_seq _ _ [len str + 1]); [apply writes_bytes|].
    intros t Hw Hl. destruct (len str + 1 =? 0) eqn:E3; [lia|]. revert t Hw Hl.
    eapply writes_ext, writes_bytes. rewrite concat_flat, map_app, concat_app. reflexivity.
  - assert (str = []) as -> by (destruct str; [reflexivity|rewrite len_cons in E; lia]).
    cbn [spec_string] in *. revert t Hw Hl.
    apply (writes_seq (fun t => tx_serialize t [0]) (fun t => Ret t) [0] []);
      [apply writes_bytes|apply writes_ret].
Qed.

Lemma str_ok_fix s : str_ok s -> until_nul (take 254 s) = s.
Proof.
  intros H; inversion H as [? ? Hin|? ? Hin|? ? Hin| |s' Hf Hl Hb]; subst.
  rewrite take_all by exact Hl. apply until_nul_ok.
  eapply Forall_impl; [|exact Hf]. cbn. lia.
Qed.
Lemma writes_str_ok s : str_ok s -> writes (fun t => tx_str t s) (spec_string s).
Proof. intros H. eapply writes_ext, writes_str. now rewrite str_ok_fix. Qed.

Ltac spec_in H := cbn [In] in H; repeat (destruct H as [H|H]; [try subst|]); try contradiction.

Lemma writes_variant ty v : has_type ty v -> writes (fun t => tx_variant ty t v) (spec_value ty v).
Proof.
  intros H; destruct H as [ty x Hin Hx|ty x Hin Hx|ty l Hin Hl|l Hl|s Hs Hl Hb].
  - assert (Hm : x mod 256 ^ N.of_nat (width ty) = x) by (apply N.mod_small; exact Hx).
    spec_in Hin;
      (match type of Hm with _ mod ?p = _ => let v := eval vm_compute in p in change p with v in Hm end);
      (match type of Hm with ?y = _ =>
         first [ refine (writes_ext _ (spec_int 1 y) _ _ (writes_int 1 y))
               | refine (writes_ext _ (spec_int 2 y) _ _ (writes_int 2 y))
               | refine (writes_ext _ (spec_int 4 y) _ _ (writes_int 4 y))
               | refine (writes_ext _ (spec_int 8 y) _ _ (writes_int 8 y)) ] end);
      rewrite Hm; reflexivity.
  - spec_in Hin; exact (writes_bytes (le_enc 16 x)).
  - assert (P : forall k, (0 < S k)%nat) by lia.
    spec_in Hin;
      first [ exact (writes_vec 1 l (P 0%nat)) | exact (writes_vec 2 l (P 1%nat))
            | exact (writes_vec 4 l (P 3%nat)) | exact (writes_vec 8 l (P 7%nat)) | exact (writes_vec128 l) ].
  - apply writes_vec128.
  - apply writes_str_ok. now constructor.
Qed.

Lemma writes_variants ty l : Forall (has_type ty) l ->
  writes (fun t => tx_variants ty t l) (concat (map (spec_value ty) l)).
Proof.
  intros H; induction H as [|v l Hv Hl IH].
  - apply writes_ret.
  - cbn [map concat]. apply (writes_seq _ _ _ _ (writes_variant _ _ Hv) IH).
Qed.

Lemma writes_form ty f : form_ok ty f -> writes (fun t => tx_form ty t f) (spec_form ty f).
Proof.
  destruct f as [|a b c|n vs| |n|s|n|n]; cbn [form_ok tx_form spec_form]; intros H;
    try apply writes_ret; try apply writes_int.
  - destruct H as (Ha & Hb & Hc).
    pose proof (writes_variants ty [a;b;c]) as W. cbn [map concat] in W. rewrite app_nil_r in W.
    apply W. repeat constructor; auto.
  - destruct H as [-> Hv]. apply writes_seq; [apply writes_int|now apply writes_variants].
  - now apply writes_str_ok.
Qed.

Ltac wseq := repeat (apply writes_seq; [first [apply writes_int | apply writes_variant; assumption]|]).

Lemma form_flag_spec f : form_flag f = spec_flag f.
Proof. destruct f; reflexivity. Qed.
Lemma writes_opd d : has_type (opd_type d) (opd_default d) -> form_ok (opd_type d) (opd_form d) ->
  writes (fun t => tx_opd t d) (spec_opd d).
Proof. intros H1 H2. unfold tx_opd, spec_opd. rewrite <- (form_flag_spec (opd_form d)). wseq. now apply writes_form. Qed.
Lemma writes_dpd d : has_type (dpd_type d) (dpd_default d) -> has_type (dpd_type d) (dpd_current d) ->
  form_ok (dpd_type d) (dpd_form d) -> writes (fun t => tx_dpd t d) (spec_dpd d).
Proof. intros H1 H2 H3. unfold tx_dpd, spec_dpd. rewrite <- (form_flag_spec (dpd_form d)). wseq. now apply writes_form. Qed.

Lemma writes_objinfo o : objinfo_ok o -> writes (fun t => tx_objinfo t o) (spec_objinfo (with_size o (oi_size o mod 2^32))).
Proof.
  intros H. unfold tx_objinfo, spec_objinfo, with_size.
  cbn [oi_storage oi_format oi_protection oi_size oi_thumb_format oi_thumb_size oi_thumb_w oi_thumb_h
       oi_image_w oi_image_h oi_depth oi_parent oi_assoc_type oi_assoc_desc oi_seq oi_name oi_capture
       oi_modified oi_keywords].
  wseq. repeat (apply writes_seq; [apply writes_str_ok; apply H|]). apply writes_str_ok, H.
Qed.

(** ** What is handed to the transport *)
Lemma take_eq {A} n (l : list A) : take n l = firstn (N.to_nat n) l. Proof. reflexivity. Qed.

Lemma tx_buffer_of type code tid est t t' bs :
  tx_new type code tid est = Ret t -> appends t t' bs ->
  tx_buffer t' = spec_header (12 + len bs) type code tid ++ bs.
Proof.
  intros Hn Ha. destruct (tx_new_ok _ _ _ _ _ Hn) as (Hw & Hm & Hc & Hl).
  destruct Ha as (Hm' & Hw' & Hc' & Hl'). unfold tx_buffer. rewrite Hc', Hc, Hl', Hl.
  unfold tx_off. rewrite Hm', Hm. unfold spec_header, spec_int. rewrite len_app.
  assert (L : len (le_enc 4 0 ++ le_enc 2 type ++ le_enc 2 code ++ le_enc 4 tid) = 12).
  { rewrite !len_app. unfold len; rewrite !le_enc_length. reflexivity. }
  rewrite L. rewrite <- !app_assoc. 
  f_equal.
Qed.

(** ** Receive side *)
Definition rx_at (r : rxc) (pre post : bytes) : Prop :=
  rx_buf r = pre ++ post /\ rx_off r = len pre /\ len (rx_buf r) <= rx_exp r /\ rx_exp r < w32.

Lemma rx_bytes_ok r pre bs post : rx_at r pre (bs ++ post) ->
  exists r', rx_bytes (len bs) r = Ret (bs, r') /\ rx_at r' (pre ++ bs) post /\ rx_exp r' = rx_exp r.
Proof.
  intros (Hb & Ho & Hl & He). unfold rx_bytes. rewrite Hb, Ho, !len_app in *.
  destruct (_ <=? _) eqn:E; [|lia].
  rewrite drop_app_exact, take_app_exact. eexists; split; [reflexivity|].
  unfold rx_at; cbn [rx_buf rx_off rx_exp]. rewrite <- app_assoc, !len_app. unfold u32, w32 in *.
  repeat split; lia.
Qed.

Definition reads {A} (m : rxc -> outcome (A * rxc)) (bs : bytes) (a : A) : Prop :=
  forall r pre post, rx_at r pre (bs ++ post) ->
    exists r', m r = Ret (a, r') /\ rx_at r' (pre ++ bs) post /\ rx_exp r' = rx_exp r.

Lemma reads_seq {A B} (m : rxc -> outcome (A * rxc)) (f : A -> rxc -> outcome (B * rxc)) b1 b2 a b :
  reads m b1 a -> reads (f a) b2 b ->
  reads (fun r => do (x, r1) <- m r; f x r1) (b1 ++ b2) b.
Proof.
  intros R1 R2 r pre post H. rewrite <- app_assoc in H.
  destruct (R1 r pre _ H) as (r1 & -> & H1 & E1). cbn [obind].
  destruct (R2 r1 _ _ H1) as (r2 & -> & H2 & E2).
  eexists; split; [reflexivity|]. rewrite app_assoc. split; [exact H2|congruence].
Qed.
Lemma reads_ret {A} (a : A) : reads (fun r => Ret (a, r)) [] a.
Proof. intros r pre post H. exists r. rewrite app_nil_r. auto. Qed.
Lemma reads_ext {A} (m m' : rxc -> outcome (A * rxc)) b b' a a' :
  (forall r, m r = m' r) -> b = b' -> a = a' -> reads m b a -> reads m' b' a'.
Proof. intros E -> -> H r pre post Hr. rewrite <- E. now apply H. Qed.
Lemma reads_bytes bs n : n = len bs -> reads (rx_bytes n) bs bs.
Proof. intros -> r pre post H. now apply rx_bytes_ok. Qed.

Lemma reads_int n x : x < 256 ^ N.of_nat n -> reads (rx_int (N.of_nat n)) (spec_int n x) x.
Proof.
  intros H. unfold rx_int, spec_int.
  eapply reads_ext with (m := fun r => do (b, r1) <- rx_bytes (N.of_nat n) r; Ret (le_dec b, r1));
    [reflexivity| |reflexivity|].
  2:{ eapply (reads_seq _ (fun b r1 => Ret (le_dec b, r1)) (le_enc n x) [] (le_enc n x) x).
      - apply reads_bytes. unfold len. now rewrite le_enc_length.
      - intros r pre post Hr. rewrite le_dec_enc, N.mod_small by exact H. now apply reads_ret. }
  apply app_nil_r.
Qed.

Lemma chunks_ok k l : Forall (fun x => x < 256 ^ N.of_nat k) l ->
  forall rest, chunks k (length l) (concat (map (le_enc k) l) ++ rest) = l.
Proof.
  intros H; induction H as [|x l Hx Hl IH]; intros rest; [reflexivity|].
  cbn [length chunks map concat]. rewrite <- app_assoc.
  rewrite firstn_app, le_enc_length, Nat.sub_diag. cbn [firstn]. rewrite app_nil_r.
  rewrite firstn_all2 by (rewrite le_enc_length; lia).
  rewrite skipn_app, le_enc_length, Nat.sub_diag, skipn_all2 by (rewrite le_enc_length; lia).
  cbn [skipn app]. rewrite IH, le_dec_enc, N.mod_small by exact Hx. reflexivity.
Qed.

Lemma reads_vec k l : (0 < k)%nat -> Forall (fun x => x < 256 ^ N.of_nat k) l ->
  N.of_nat k * len l < 2147483648 ->
  reads (rx_vec (N.of_nat k)) (spec_array k l) l.
Proof.
  intros Hk Hl Hlen. unfold rx_vec, spec_array.
  assert (Hn : len l < 2147483648) by nia.
  apply reads_seq with (a := len l).
  - apply (reads_int 4). cbn. lia.
  - intros r pre post Hr.
    destruct (2147483648 <=? len l) eqn:E1; [lia|].
    destruct (2147483648 <=? len l * N.of_nat k) eqn:E2; [lia|].
    replace (u32 (len l * N.of_nat k)) with (len (concat (map (spec_int k) l))).
    2:{ unfold spec_int. rewrite len_concat_le. unfold u32. lia. }
    destruct (rx_bytes_ok _ _ _ _ Hr) as (r' & -> & H1 & H2). cbn [obind].
    exists r'. split; [|auto]. f_equal. f_equal. rewrite Nnat.Nat2N.id.
    unfold len. rewrite Nnat.Nat2N.id. unfold spec_int.
    rewrite <- (app_nil_r (concat (map (le_enc k) l))). now apply chunks_ok.
Qed.

Lemma reads_str s : str_ok s -> reads rx_str (spec_string s) s.
Proof.
  intros H. inversion H as [? ? Hin|? ? Hin|? ? Hin| |s' Hf Hl Hb]; subst.
  unfold rx_str. destruct s as [|c s].
  - cbn [spec_string]. change [0] with (spec_int 1 0 ++ []).
    apply reads_seq with (a := 0); [apply (reads_int 1); reflexivity|].
    intros r pre post Hr. cbn. now apply reads_ret.
  - cbn [spec_string]. set (str := c :: s) in *.
    change ((len str + 1) :: concat (map (spec_int 2) str) ++ [0; 0])
      with ([len str + 1] ++ concat (map (spec_int 2) str) ++ [0; 0]).
    replace [len str + 1] with (spec_int 1 (len str + 1)).
    2:{ unfold spec_int; cbn [le_enc]. f_equal. lia. }
    apply reads_seq with (a := len str + 1);
      [apply (reads_int 1); change (256 ^ N.of_nat 1) with 256; lia|].
    intros r pre post Hr. destruct (0 <? len str + 1) eqn:E; [|lia].
    assert (Hcat : concat (map (spec_int 2) str) ++ [0; 0] = concat (map (le_enc 2) (str ++ [0]))).
    { rewrite map_app, concat_app. reflexivity. }
    rewrite Hcat in *.
    replace (2 * (len str + 1)) with (len (concat (map (le_enc 2) (str ++ [0])))).
    2:{ rewrite len_concat_le, len_app. cbn. lia. }
    destruct (rx_bytes_ok _ _ _ _ Hr) as (r' & -> & H1 & H2). cbn [obind].
    exists r'. split; [|auto]. f_equal. f_equal.
    replace (N.to_nat (len str + 1)) with (length (str ++ [0])).
    2:{ rewrite app_length. unfold len. cbn [length]. lia. }
    rewrite <- (app_nil_r (concat (map (le_enc 2) (str ++ [0])))).
    rewrite chunks_ok.
    2:{ apply Forall_app; split; [|repeat constructor].
        eapply Forall_impl; [|exact Hf]. intros a; change (256 ^ N.of_nat 2) with 65536; cbn beta; lia. }
    replace (len str + 1 - 1) with (len str) by lia. rewrite take_app_exact.
    unfold from_utf16. destruct (Hb c s eq_refl) as [B1 B2]. unfold str.
    destruct (c =? 0xFEFF) eqn:E1; [lia|]. destruct (c =? 0xFFFE) eqn:E2; [lia|]. reflexivity.
Qed.

(** Values whose arrays are small enough to be received at all. *)
Definition rx_small (ty : N) (v : variant) : Prop :=
  match v with VVec _ l => N.of_nat (width ty) * len l < 2147483648 | _ => True end.

Lemma reads_map {A B} (m : rxc -> outcome (A * rxc)) (f : A -> B) bs a :
  reads m bs a -> reads (fun r => do (x, r1) <- m r; Ret (f x, r1)) bs (f a).
Proof.
  intros R. rewrite <- (app_nil_r bs). apply reads_seq with (a := a); [exact R|apply reads_ret].
Qed.

Lemma reads_variant ty v : has_type ty v -> rx_small ty v -> reads (rx_variant ty) (spec_value ty v) v.
Proof.
  intros H Hs; destruct H as [ty x Hin Hx|ty x Hin Hx|ty l Hin Hl|l Hl|s Hf Hl Hb].
  - spec_in Hin; apply reads_map; first
      [ apply (reads_int 1); exact Hx | apply (reads_int 2); exact Hx
      | apply (reads_int 4); exact Hx | apply (reads_int 8); exact Hx ].
  - spec_in Hin; apply reads_map; apply (reads_int 16); exact Hx.
  - spec_in Hin; first
      [ apply (reads_map _ (VVec DT_AINT8)), (reads_vec 1); [lia|exact Hl|exact Hs]
      | apply (reads_map _ (VVec DT_AUINT8)), (reads_vec 1); [lia|exact Hl|exact Hs]
      | apply (reads_map _ (VVec DT_AINT16)), (reads_vec 2); [lia|exact Hl|exact Hs]
      | apply (reads_map _ (VVec DT_AUINT16)), (reads_vec 2); [lia|exact Hl|exact Hs]
      | apply (reads_map _ (VVec DT_AINT32)), (reads_vec 4); [lia|exact Hl|exact Hs]
      | apply (reads_map _ (VVec DT_AUINT32)), (reads_vec 4); [lia|exact Hl|exact Hs]
      | apply (reads_map _ (VVec DT_AINT64)), (reads_vec 8); [lia|exact Hl|exact Hs]
      | apply (reads_map _ (VVec DT_AUINT64)), (reads_vec 8); [lia|exact Hl|exact Hs]
      | apply (reads_map _ (VVec DT_AUINT128)), (reads_vec 16); [lia|exact Hl|exact Hs] ].
  - apply (reads_map _ (VVec DT_AUINT128)), (reads_vec 16); [lia|exact Hl|exact Hs].
  - apply (reads_map _ VStr), reads_str. now constructor.
Qed.

Lemma reads_objinfo o : objinfo_ok o -> oi_size o < 2^32 -> reads rx_objinfo (spec_objinfo o) o.
Proof.
  intros H Hs. unfold rx_objinfo, spec_objinfo. rewrite <- (app_nil_r (spec_string (oi_keywords o))).
  do 15 (eapply reads_seq; [first [apply (reads_int 4), H | apply (reads_int 2), H | apply (reads_int 4), Hs]|]).
  do 4 (eapply reads_seq; [apply reads_str, H|]).
  destruct o; apply reads_ret.
Qed.
