(** Proofs about Persist.v *)
From Verif Require Import Base Wire WireProofs2 FS FSPath Persist.

Lemma fread_enc n old x rest : fread n old (le_enc n x ++ rest) = (N.of_nat n, x mod 256 ^ N.of_nat n, rest).
Proof.
  unfold fread. rewrite firstn_app, le_enc_length, Nat.sub_diag. rewrite firstn_all2 by (rewrite le_enc_length; lia). cbn [firstn]. rewrite app_nil_r.
  unfold len. rewrite le_enc_length. rewrite skipn_app, le_enc_length, Nat.sub_diag. rewrite skipn_all2 by (rewrite le_enc_length; lia). cbn [skipn app].
  unfold drop. rewrite Nat2N.id. rewrite skipn_all2 by (rewrite le_enc_length; lia). rewrite app_nil_r, le_dec_enc. reflexivity.
Qed.
Lemma utf8_longer n s : (length s <= n)%nat -> len s <= len (to_utf8 s).
Proof.
  revert s. induction n as [|n IH]; intros [|u r] H; cbn [length] in *; try (exfalso; lia); try (unfold len; cbn; lia). cbn [to_utf8].
  assert (Hr : len r <= len (to_utf8 r)) by (apply IH; lia).
  destruct (u <? 0x80); [rewrite !len_cons; lia|]. destruct (u <? 0x800); [rewrite len_app, !len_cons; lia|].
  destruct ((0xD800 <=? u) && (u <? 0xE000)).
  - destruct r as [|v r']; [unfold len; cbn; lia|]. cbn [length] in H.
    destruct ((u <? 0xDC00) && (0xDC00 <=? v) && (v <? 0xE000)).
    + assert (len r' <= len (to_utf8 r')) by (apply IH; lia). cbv zeta. rewrite len_app, !len_cons. lia.
    + rewrite (len_cons 63), len_cons. lia.
  - rewrite len_app, !len_cons. lia.
Qed.
Lemma decode_shorter n b : (length b <= n)%nat -> len (from_utf8 b) <= len b.
Proof.
  revert b. induction n as [|n IH]; intros [|c r] H; cbn [length] in *; try (exfalso; lia); try (unfold len; cbn; lia). cbn [from_utf8].
  assert (Hr : len (from_utf8 r) <= len r) by (apply IH; lia).
  destruct (c =? 0); [rewrite len_cons, len_nil; lia|]. destruct (c <? 0x80); [rewrite !len_cons; lia|].
  destruct ((0xC2 <=? c) && (c <? 0xE0)).
  { destruct r as [|d r']; [unfold len; cbn; lia|]. cbn [length] in H. destruct (cont d); [|rewrite !(len_cons _ (d :: r')), len_cons; lia].
    assert (len (from_utf8 r') <= len r') by (apply IH; lia). rewrite !len_cons. lia. }
  destruct ((0xE0 <=? c) && (c <? 0xF0)).
  { destruct r as [|d [|e r']]; try (rewrite !len_cons in *; lia). cbn [length] in H. destruct (cont d && cont e); [|rewrite !(len_cons _ (d :: e :: r')), len_cons; lia].
    assert (len (from_utf8 r') <= len r') by (apply IH; lia). rewrite !len_cons. lia. }
  destruct ((0xF0 <=? c) && (c <? 0xF5)).
  { destruct r as [|d [|e [|f r']]]; try (rewrite !len_cons in *; lia). cbn [length] in H. destruct (cont d && cont e && cont f); [|rewrite !(len_cons _ (d :: e :: f :: r')), len_cons; lia].
    assert (len (from_utf8 r') <= len r') by (apply IH; lia). cbv zeta. rewrite !len_cons. lia. }
  rewrite !len_cons. lia.
Qed.

(** the key under which an entry comes back *)
Definition key_back (p : path) : path := from_utf8 (take (len p) (to_utf8 p)).
Lemma key_absolute p : absolute p -> absolute (key_back p).
Proof.
  intros (H & r & ->). unfold key_back. split.
  - pose proof (decode_shorter _ (take (len (slash :: r)) (to_utf8 (slash :: r))) (le_n _)) as D. rewrite len_take in D. lia.
  - cbn [to_utf8]. change (slash <? 0x80) with true. cbv iota. unfold take. rewrite len_cons. replace (N.to_nat (1 + len r)) with (S (length r)) by (unfold len; lia).
    cbn [firstn from_utf8]. change (slash =? 0) with false. change (slash <? 0x80) with true. cbv iota. eexists. reflexivity.
Qed.
Definition ascii (p : path) : Prop := Forall (fun u => 0 < u < 128) p.
Lemma ascii_utf8 p : ascii p -> to_utf8 p = p.
Proof. induction 1 as [|u r H H1 IH]; [reflexivity|]. cbn [to_utf8]. destruct (u <? 0x80) eqn:E; [|lia]. rewrite IH. reflexivity. Qed.
Lemma ascii_decode p : ascii p -> from_utf8 p = p.
Proof. induction 1 as [|u r H H1 IH]; [reflexivity|]. cbn [from_utf8]. destruct (u =? 0) eqn:E0; [lia|]. destruct (u <? 0x80) eqn:E; [|lia]. rewrite IH. reflexivity. Qed.
Lemma ascii_key p : ascii p -> key_back p = p.
Proof. intros H. unfold key_back. rewrite (ascii_utf8 p H), take_all by lia. apply ascii_decode, H. Qed.

(** ** Reading back *)
Definition entry_ok (e : path * N) : Prop := absolute (fst e) /\ snd e < 2^128.
Definition put (t : table) (e : path * N) : table := pset (key_back (fst e)) (snd e) t.
Lemma load_entries_eq es : Forall entry_ok es -> forall l u t, load_entries (length es) l u (concat (map entry_bytes es)) t = Ret (fold_left put es t).
Proof.
  induction 1 as [|[p u0] es [[Hp (r & Ep)] Hu] H IH]; intros l u t; [reflexivity|].
  cbn [fst snd] in *. cbn [length load_entries map concat fold_left].
  assert (L : u32 (len p) = len p) by (unfold u32; apply N.mod_small; lia).
  unfold entry_bytes at 1. cbn [fst snd]. rewrite L. rewrite <- !app_assoc. rewrite fread_enc. change (N.of_nat 4) with 4. change (4 =? 0) with false. cbv iota.
  replace (len p mod 256 ^ 4) with (len p) by (symmetry; apply N.mod_small; change (256 ^ 4) with 4294967296; lia).
  destruct (len p =? 0xFFFFFFFF) eqn:E1; [lia|].
  assert (LU : len (take (len p) (to_utf8 p)) = len p) by (rewrite len_take; pose proof (utf8_longer _ p (le_n _)); lia).
  set (nm := take (len p) (to_utf8 p)) in *. set (rest := le_enc 16 u0 ++ concat (map entry_bytes es)).
  replace (take (len p) (nm ++ rest)) with nm by (rewrite <- LU, take_app_exact; reflexivity). replace (drop (len p) (nm ++ rest)) with rest by (rewrite <- LU, drop_app_exact; reflexivity). subst rest. rewrite LU.
  destruct (len p =? 0) eqn:E2; [subst p; rewrite len_cons in E2; lia|]. rewrite fread_enc. change (N.of_nat 16) with 16. change (16 =? 0) with false. cbv iota.
  replace (u0 mod 256 ^ 16) with u0 by (symmetry; apply N.mod_small; change (256 ^ 16) with (2 ^ 128); exact Hu).
  rewrite IH. reflexivity.
Qed.
Lemma load_eq largest t : Forall entry_ok t -> largest < 2^128 -> len t < 2^32 -> load (store_bytes largest t) = Ret (largest, fold_left put t []).
Proof.
  intros Ht Hl Hn. unfold load, store_bytes. rewrite fread_enc. change (N.of_nat 16 =? 0) with false. cbv iota. rewrite fread_enc. change (N.of_nat 4 =? 0) with false. cbv iota.
  replace (largest mod 256 ^ N.of_nat 16) with largest by (symmetry; apply N.mod_small; change (256 ^ N.of_nat 16) with (2 ^ 128); exact Hl).
  replace (u32 (len t) mod 256 ^ N.of_nat 4) with (len t) by (unfold u32; change (256 ^ N.of_nat 4) with 4294967296; rewrite N.mod_mod by discriminate; symmetry; apply N.mod_small; exact Hn).
  unfold len. rewrite Nat2N.id, (load_entries_eq t Ht). reflexivity.
Qed.
Lemma pset_new p u t : ~ In p (map fst t) -> pset p u t = t ++ [(p, u)].
Proof.
  induction t as [|[q v] t IH]; intros H; [reflexivity|]. cbn [pset map In fst] in *. destruct (peqb p q) eqn:E; [apply peqb_eq in E; subst; tauto|]. rewrite IH by tauto. reflexivity.
Qed.
Lemma put_all t : forall acc, Forall (fun e => ascii (fst e)) t -> NoDup (map fst (acc ++ t)) -> fold_left put t acc = acc ++ t.
Proof.
  induction t as [|[p u] t IH]; intros acc Ha Hn; [rewrite app_nil_r; reflexivity|]. inversion Ha as [|x y A B]; subst. cbn [fold_left fst] in *. unfold put at 2. cbn [fst snd].
  rewrite (ascii_key p A). rewrite pset_new.
  - rewrite IH; [rewrite <- app_assoc; reflexivity|exact B|]. rewrite <- app_assoc. exact Hn.
  - rewrite map_app in Hn. cbn [map fst] in Hn. apply NoDup_remove_2 in Hn. intros X. apply Hn. apply in_or_app. left. exact X.
Qed.
Theorem reload largest t : Forall entry_ok t -> Forall (fun e => ascii (fst e)) t -> NoDup (map fst t) -> largest < 2^128 -> len t < 2^32 ->
  load (store_bytes largest t) = Ret (largest, t).
Proof. intros. rewrite load_eq by assumption. rewrite put_all by assumption. reflexivity. Qed.

(** ** The ids handed out are new *)
Definition stor_ok (s : stor) : Prop :=
  st_largest s < 2^128 /\ len (st_table s) <= 2^31 /\ Forall (fun e => absolute (fst e) /\ snd e <= st_largest s) (st_table s) /\ Forall (fun u => u <= st_largest s) (st_given s) /\ NoDup (map fst (st_table s)).
Definition file_ok (f : bytes) : Prop :=
  f = [] \/ exists l t, f = store_bytes l t /\ l < 2^128 /\ len t <= 2^31 /\ Forall (fun e => absolute (fst e) /\ snd e <= l) t.
Definition dev_ok (d : device) : Prop :=
  d_counter d < 2^128 /\ Forall (fun s => stor_ok s /\ st_largest s <= d_counter d) (d_stors d) /\ forall k, file_ok (d_files d k).

Lemma filter_length_le {A} (f : A -> bool) l : (length (filter f l) <= length l)%nat.
Proof. induction l as [|x l IH]; [reflexivity|]. cbn [filter]. destruct (f x); cbn [length]; lia. Qed.
Lemma pset_length p u t : len (pset p u t) <= len t + 1.
Proof. induction t as [|[q v] t IH]; [reflexivity|]. cbn [pset]. destruct (peqb p q); rewrite !len_cons in *; lia. Qed.
Lemma pset_all (P : path * N -> Prop) p u t : (forall q, In q (map fst t) -> peqb p q = true -> P (q, u)) -> P (p, u) -> Forall P t -> Forall P (pset p u t).
Proof.
  intros Hq Hp. induction 1 as [|[q v] t H H1 IH]; [constructor; auto|]. cbn [pset]. cbn [map In fst] in Hq. destruct (peqb p q) eqn:E.
  - constructor; [apply Hq; auto|exact H1].
  - constructor; [exact H|]. apply IH. intros q' Hq'. apply Hq. auto.
Qed.
Lemma pset_keys p u t : map fst (pset p u t) = map fst t \/ (~ In p (map fst t) /\ map fst (pset p u t) = map fst t ++ [p]).
Proof.
  induction t as [|[q v] t IH]; [right; split; [intros []|reflexivity]|]. cbn [pset]. destruct (peqb p q) eqn:E; [left; reflexivity|]. cbn [map fst].
  destruct IH as [IH|[IH1 IH2]]; [left; rewrite IH; reflexivity|]. right. split; [|rewrite IH2; reflexivity]. intros [X|X]; [subst; rewrite (proj2 (peqb_eq _ _) eq_refl) in E; discriminate|tauto].
Qed.
Lemma pset_nodup p u t : NoDup (map fst t) -> NoDup (map fst (pset p u t)).
Proof.
  intros H. destruct (pset_keys p u t) as [->|[H1 ->]]; [exact H|].
  rewrite <- (app_nil_r (map fst t ++ [p])), <- app_assoc. cbn [app]. apply NoDup_Add with (a := p) (l := map fst t ++ []); [apply Add_app|]. rewrite app_nil_r. auto.
Qed.
Lemma filter_nodup (f : path * N -> bool) t : NoDup (map fst t) -> NoDup (map fst (filter f t)).
Proof.
  induction t as [|e t IH]; intros H; [constructor|]. cbn [map] in H. inversion H as [|x y A B]; subst. cbn [filter]. destruct (f e); [|auto]. cbn [map]. constructor; [|auto].
  intros X. apply A. rewrite in_map_iff in *. destruct X as (e' & E1 & E2). apply filter_In in E2 as [E2 _]. eauto.
Qed.
Lemma fold_put_ok l t : forall acc, Forall (fun e => absolute (fst e) /\ snd e <= l) t -> Forall (fun e => absolute (fst e) /\ snd e <= l) acc -> NoDup (map fst acc) ->
  Forall (fun e => absolute (fst e) /\ snd e <= l) (fold_left put t acc) /\ len (fold_left put t acc) <= len acc + len t /\ NoDup (map fst (fold_left put t acc)).
Proof.
  induction t as [|[p u] t IH]; intros acc Ht Ha Hn; [cbn [fold_left]; rewrite len_nil; repeat split; [exact Ha|lia|exact Hn]|].
  inversion Ht as [|x y [A1 A2] B]; subst. cbn [fold_left fst snd] in *. unfold put at 2 4 6. cbn [fst snd].
  destruct (IH (pset (key_back p) u acc) B) as (H1 & H2 & H3).
  - apply pset_all; [|split; [apply key_absolute; exact A1|exact A2]|exact Ha]. intros q Hq _. split; [|exact A2]. cbn [fst]. rewrite Forall_forall in Ha. apply in_map_iff in Hq as (e & <- & He). apply Ha, He.
  - apply pset_nodup, Hn.
  - split; [exact H1|]. split; [|exact H3]. pose proof (pset_length (key_back p) u acc). rewrite len_cons. lia.
Qed.
Lemma load_ok f : file_ok f -> exists l t, load f = Ret (l, t) /\ forall k, stor_ok (mk_stor k l t []).
Proof.
  intros [->|(l & t & -> & Hl & Hn & Ht)].
  - exists 0, []. split; [reflexivity|]. intros k. unfold stor_ok. cbn. repeat split; try constructor; try lia.
  - exists l, (fold_left put t []). destruct (fold_put_ok l t [] Ht ltac:(constructor) ltac:(constructor)) as (H1 & H2 & H3).
    split; [apply load_eq; [|exact Hl|lia]|].
    + eapply Forall_impl; [|exact Ht]. intros e [A B]. split; [exact A|lia].
    + intros k. unfold stor_ok. cbn [st_largest st_table st_given]. rewrite len_nil in H2. split; [exact Hl|]. split; [lia|]. split; [exact H1|]. split; [constructor|exact H3].
Qed.
Lemma raise_max c l : c < 2^128 -> l < 2^128 -> raise false c l = N.max c l.
Proof.
  intros Hc Hl. unfold raise.
  destruct (i128_gtb_unsigned (le_enc 16 l) (le_enc 16 c) (le_enc_ok _ _) (le_enc_ok _ _)) as [H _]; [unfold len; rewrite le_enc_length; reflexivity|unfold len; rewrite le_enc_length; reflexivity|].
  rewrite !le_dec_enc in H. change (256 ^ N.of_nat 16) with (2 ^ 128) in H. rewrite (N.mod_small l), (N.mod_small c) in H by assumption.
  destruct (i128_gtb _ _ _); [assert (c < l) by (apply H; reflexivity); lia|]. destruct (N.lt_ge_cases c l) as [X|X]; [apply H in X; discriminate|lia].
Qed.
Lemma raise_all ss : forall c, c < 2^128 -> Forall stor_ok ss ->
  let c' := fold_left (fun c s => raise false c (st_largest s)) ss c in c' < 2^128 /\ c <= c' /\ Forall (fun s => stor_ok s /\ st_largest s <= c') ss.
Proof.
  induction ss as [|s ss IH]; intros c Hc H; [cbn; repeat split; [exact Hc|lia|constructor]|]. inversion H as [|x y A B]; subst. cbv zeta in *. cbn [fold_left].
  assert (R : raise false c (st_largest s) = N.max c (st_largest s)) by (apply raise_max; [exact Hc|apply A]). rewrite R.
  destruct (IH (N.max c (st_largest s))) as (H1 & H2 & H3); [destruct A; lia|exact B|]. split; [exact H1|]. split; [lia|]. constructor; [split; [exact A|lia]|exact H3].
Qed.
Lemma load_all_ok files keys : (forall k, file_ok (files k)) -> exists ss, load_all files keys = Ret ss /\ Forall stor_ok ss /\ map st_file ss = keys.
Proof.
  intros H. induction keys as [|k keys (ss & E & F & G)]; [exists []; repeat split; constructor|]. cbn [load_all]. destruct (load_ok (files k) (H k)) as (l & t & E1 & O). rewrite E1. cbn [obind]. rewrite E. cbn [obind fst snd].
  eexists. split; [reflexivity|]. split; [constructor; [apply O|exact F]|]. cbn [map st_file]. rewrite G. reflexivity.
Qed.
Lemma start_ok files keys : (forall k, file_ok (files k)) -> exists d, start false files keys = Ret d /\ dev_ok d /\ d_files d = files /\ map st_file (d_stors d) = keys.
Proof.
  intros H. destruct (load_all_ok files keys H) as (ss & E & F & G). unfold start. rewrite E. cbn [obind]. eexists. split; [reflexivity|].
  destruct (raise_all ss 0 ltac:(reflexivity) F) as (H1 & H2 & H3). repeat split; assumption.
Qed.
Lemma store_all_ok fates ss : forall files, Forall stor_ok ss -> (forall k, file_ok (files k)) -> forall k, file_ok (store_all fates ss files k).
Proof.
  induction ss as [|s ss IH]; intros files Hs H k; [apply H|]. inversion Hs as [|x y A B]; subst. cbn [store_all]. apply IH; [exact B|]. clear k. intros k. cbv beta. destruct (k =? st_file s); [|apply H].
  unfold store. destruct (fates k); [apply H|left; reflexivity|]. right. exists (st_largest s), (st_table s). destruct A as (A1 & A2 & A3 & _). auto.
Qed.
Lemma nth_upd {A} (P : A -> Prop) (i : nat) x l : Forall P l -> P x -> Forall P (firstn i l ++ x :: skipn (S i) l).
Proof.
  intros H Hx. apply Forall_app. split; [|constructor; [exact Hx|]]; apply Forall_forall; intros y Hy; rewrite Forall_forall in H; apply H.
  - rewrite <- (firstn_skipn i l). apply in_or_app. auto.
  - rewrite <- (firstn_skipn (S i) l). apply in_or_app. auto.
Qed.
Lemma incr_eq c : c < 2^128 - 1 -> le_dec (i128_incr (le_enc 16 c)) = c + 1.
Proof.
  intros H. rewrite i128_incr_num by (try apply le_enc_ok; unfold len; rewrite le_enc_length; reflexivity). rewrite le_dec_enc. change (256 ^ N.of_nat 16) with (2 ^ 128). rewrite (N.mod_small c) by lia. apply N.mod_small. lia.
Qed.
Lemma pget_In p u t : pget p t = Some u -> In (p, u) t.
Proof. induction t as [|[q v] t IH]; [discriminate|]. cbn [pget]. destruct (peqb p q) eqn:E; [intros H; injection H as ->; apply peqb_eq in E; subst; left; reflexivity|right; auto]. Qed.
Lemma add_ok i p d u d' : dev_ok d -> devop_ok (Add i p) d -> add_path i p d = Some (u, d') -> dev_ok d'.
Proof.
  intros (C & S & F) (Hp & Hc & Hn) E. unfold add_path in E. destruct (nth_error (d_stors d) i) as [s|] eqn:Es; [|discriminate].
  assert (Os : stor_ok s /\ st_largest s <= d_counter d) by (rewrite Forall_forall in S; apply S; eapply nth_error_In; exact Es). destruct Os as [(O1 & O2 & O3 & O4 & O5) O6]. specialize (Hn s eq_refl).
  destruct (pget p (st_table s)) as [v|] eqn:Ep.
  - apply (f_equal (fun x => match x with Some y => y | None => (0, d) end)) in E. apply (f_equal snd) in E. cbn [snd] in E. subst d'. split; [exact C|]. split; [|exact F]. cbn [d_stors d_counter]. apply nth_upd; [exact S|]. split; [|exact O6]. unfold stor_ok. cbn [st_largest st_table st_given]. repeat split; try assumption. constructor; [|exact O4].
    apply pget_In in Ep. rewrite Forall_forall in O3. apply (O3 _ Ep).
  - cbv zeta in E. rewrite (incr_eq _ Hc) in E. apply (f_equal (fun x => match x with Some y => y | None => (0, d) end)) in E. apply (f_equal snd) in E. cbn [snd] in E. subst d'. split; [cbn [d_counter]; lia|]. split; [|exact F]. cbn [d_stors d_counter]. apply nth_upd.
    + eapply Forall_impl; [|exact S]. intros x [A B]. split; [exact A|lia].
    + cbn [st_largest]. split; [|lia]. unfold stor_ok. cbn [st_largest st_table st_given]. split; [lia|]. split; [pose proof (pset_length p (d_counter d + 1) (st_table s)); lia|].
      split; [|split; [|apply pset_nodup; exact O5]].
      * apply pset_all; [|split; [exact Hp|cbn [snd]; lia]|].
        { intros q Hq _. split; [|cbn [snd]; lia]. cbn [fst]. apply in_map_iff in Hq as (e & <- & He). rewrite Forall_forall in O3. apply (O3 _ He). }
        { eapply Forall_impl; [|exact O3]. intros e [A B]. split; [exact A|lia]. }
      * constructor; [lia|]. eapply Forall_impl; [|exact O4]. intros x Hx. cbv beta in *. lia.
Qed.
Lemma step_ok o d d' : dev_ok d -> devop_ok o d -> dev_step false o d = Ret (Some d') -> dev_ok d'.
Proof.
  intros D O E. destruct o as [i p|i p q u|i used|fates keys|keys]; cbn [dev_step] in E.
  - destruct (add_path i p d) as [[u d1]|] eqn:E1; [|discriminate]. apply Ret_inj in E. assert (d1 = d') by congruence. subst d1. eapply add_ok; eassumption.
  - destruct D as (C & S & F). destruct O as (Oq & On). unfold rename_path in E. destruct (nth_error (d_stors d) i) as [s|] eqn:Es; [|discriminate].
    apply Ret_inj in E. assert (E2 : d' = mk_dev (upd_stor i (mk_stor (st_file s) (st_largest s) (pset q u (pdel p (st_table s))) (st_given s)) (d_stors d)) (d_counter d) (d_files d)) by congruence. subst d'. clear E.
    assert (Os : stor_ok s /\ st_largest s <= d_counter d) by (rewrite Forall_forall in S; apply S; eapply nth_error_In; exact Es). destruct Os as [(O1 & O2 & O3 & O4 & O5) O6]. destruct (On s eq_refl) as [Ou Ol].
    split; [exact C|]. split; [|exact F]. cbn [d_stors d_counter]. apply nth_upd; [exact S|]. split; [|exact O6]. unfold stor_ok. cbn [st_largest st_table st_given].
    assert (Hu : u <= st_largest s) by (rewrite Forall_forall in O4; apply O4; exact Ou).
    assert (FI : forall e, In e (pdel p (st_table s)) -> In e (st_table s)) by (intros e He; apply filter_In in He; tauto).
    assert (LF : len (pdel p (st_table s)) <= len (st_table s)) by (unfold pdel, len; pose proof (filter_length_le (fun e : path * N => negb (peqb p (fst e))) (st_table s)); lia).
    split; [exact O1|]. split; [pose proof (pset_length q u (pdel p (st_table s))); lia|]. split; [|split; [exact O4|apply pset_nodup, filter_nodup, O5]].
    apply pset_all; [|split; [exact Oq|exact Hu]|].
    { intros q' Hq _. split; [|exact Hu]. cbn [fst]. apply in_map_iff in Hq as (e & <- & He). rewrite Forall_forall in O3. apply (O3 _ (FI _ He)). }
    { apply Forall_forall. intros e He. rewrite Forall_forall in O3. apply O3, FI, He. }
  - destruct D as (C & S & F). unfold remove_unused in E. destruct (nth_error (d_stors d) i) as [s|] eqn:Es; [|discriminate].
    apply Ret_inj in E. assert (E2 : d' = mk_dev (upd_stor i (mk_stor (st_file s) (st_largest s) (filter (fun e => used (fst e)) (st_table s)) (st_given s)) (d_stors d)) (d_counter d) (d_files d)) by congruence. subst d'. clear E.
    assert (Os : stor_ok s /\ st_largest s <= d_counter d) by (rewrite Forall_forall in S; apply S; eapply nth_error_In; exact Es). destruct Os as [(O1 & O2 & O3 & O4 & O5) O6].
    split; [exact C|]. split; [|exact F]. cbn [d_stors d_counter]. apply nth_upd; [exact S|]. split; [|exact O6]. unfold stor_ok. cbn [st_largest st_table st_given].
    split; [exact O1|]. split; [unfold len in *; pose proof (filter_length_le (fun e : path * N => used (fst e)) (st_table s)); lia|]. split; [|split; [exact O4|apply filter_nodup, O5]].
    apply Forall_forall. intros e He. apply filter_In in He as [He _]. rewrite Forall_forall in O3. apply O3, He.
  - destruct D as (C & S & F). destruct (start_ok (store_all fates (d_stors d) (d_files d)) keys) as (d1 & E1 & E2 & _).
    { apply store_all_ok; [|exact F]. eapply Forall_impl; [|exact S]. intros s [A _]. exact A. }
    rewrite E1 in E. cbn [obind] in E. apply Ret_inj in E. assert (d1 = d') by congruence. subst. exact E2.
  - destruct D as (C & S & F). destruct (start_ok (d_files d) keys F) as (d1 & E1 & E2 & _). rewrite E1 in E. cbn [obind] in E. apply Ret_inj in E. assert (d1 = d') by congruence. subst. exact E2.
Qed.
Lemma life_ok d : life false d -> dev_ok d.
Proof.
  induction 1 as [keys d Hk E|d o d' H IH O E]; [|eapply step_ok; eassumption].
  destruct (start_ok (fun _ => []) keys) as (d1 & E1 & E2 & _); [left; reflexivity|]. rewrite E1 in E. apply Ret_inj in E. subst. exact E2.
Qed.

(** every storage keeps its own file *)
Lemma upd_files i s s' l : nth_error l i = Some s -> st_file s' = st_file s -> map st_file (upd_stor i s' l) = map st_file l.
Proof.
  intros H E. unfold upd_stor. rewrite map_app. cbn [map]. rewrite E. rewrite <- (firstn_skipn i l) at 3. rewrite map_app. f_equal.
  revert l H. induction i as [|i IH]; intros [|x l] H; try discriminate; cbn [nth_error skipn] in *; [injection H as ->; reflexivity|]. apply IH, H.
Qed.
Lemma load_all_files files keys ss : load_all files keys = Ret ss -> map st_file ss = keys.
Proof.
  revert ss. induction keys as [|k keys IH]; intros ss E; [apply Ret_inj in E; subst; reflexivity|]. cbn [load_all] in E. destruct (load (files k)) as [lt| |]; try discriminate. cbn [obind] in E.
  destruct (load_all files keys) as [s1| |] eqn:E1; try discriminate. cbn [obind] in E. apply Ret_inj in E. subst. cbn [map st_file]. rewrite (IH s1 eq_refl). reflexivity.
Qed.
Lemma start_files sgn files keys d : start sgn files keys = Ret d -> map st_file (d_stors d) = keys.
Proof. unfold start. destruct (load_all files keys) as [ss| |] eqn:E; try discriminate. cbn [obind]. intros X. apply Ret_inj in X. subst. cbn [d_stors]. eapply load_all_files. exact E. Qed.
Lemma life_files sgn d : life sgn d -> NoDup (map st_file (d_stors d)).
Proof.
  induction 1 as [keys d Hk E|d o d' H IH O E]; [rewrite (start_files _ _ _ _ E); exact Hk|].
  destruct o as [i p|i p q u|i used|fates keys|keys]; cbn [dev_step devop_ok] in *.
  - unfold add_path in E. destruct (nth_error (d_stors d) i) as [s|] eqn:Es; [|discriminate]. destruct (pget p (st_table s)); cbv zeta in E; apply Ret_inj in E; injection E as <-; cbn [d_stors]; rewrite (upd_files i s); auto.
  - unfold rename_path in E. destruct (nth_error (d_stors d) i) as [s|] eqn:Es; [|discriminate]. apply Ret_inj in E. injection E as <-. cbn [d_stors]. rewrite (upd_files i s); auto.
  - unfold remove_unused in E. destruct (nth_error (d_stors d) i) as [s|] eqn:Es; [|discriminate]. apply Ret_inj in E. injection E as <-. cbn [d_stors]. rewrite (upd_files i s); auto.
  - destruct (start _ _ keys) as [d1| |] eqn:E1; try discriminate. cbn [obind] in E. apply Ret_inj in E. injection E as <-. rewrite (start_files _ _ _ _ E1). exact O.
  - destruct (start _ _ keys) as [d1| |] eqn:E1; try discriminate. cbn [obind] in E. apply Ret_inj in E. injection E as <-. rewrite (start_files _ _ _ _ E1). exact O.
Qed.
Lemma store_all_other fates ss : forall files k, ~ In k (map st_file ss) -> store_all fates ss files k = files k.
Proof.
  induction ss as [|s ss IH]; intros files k H; [reflexivity|]. cbn [store_all map In] in *. rewrite IH by tauto. destruct (k =? st_file s) eqn:E; [apply N.eqb_eq in E; subst; tauto|reflexivity].
Qed.
Lemma store_all_own fates ss : forall files s, NoDup (map st_file ss) -> In s ss -> store_all fates ss files (st_file s) = store (fates (st_file s)) (st_largest s) (st_table s) (files (st_file s)).
Proof.
  induction ss as [|x ss IH]; intros files s Hn Hs; [destruct Hs|]. cbn [map] in Hn. inversion Hn as [|? ? A B]; subst. cbn [store_all]. destruct Hs as [->|Hs].
  - rewrite store_all_other by exact A. rewrite N.eqb_refl. reflexivity.
  - rewrite (IH _ s B Hs). destruct (st_file s =? st_file x) eqn:E; [|reflexivity]. exfalso. apply N.eqb_eq in E. apply A. rewrite <- E. apply in_map, Hs.
Qed.
Lemma load_all_nth files keys ss j k : load_all files keys = Ret ss -> nth_error keys j = Some k -> exists lt, load (files k) = Ret lt /\ nth_error ss j = Some (mk_stor k (fst lt) (snd lt) []).
Proof.
  revert ss j. induction keys as [|k0 keys IH]; intros ss j E H; [destruct j; discriminate|]. cbn [load_all] in E. destruct (load (files k0)) as [lt| |] eqn:E0; try discriminate. cbn [obind] in E.
  destruct (load_all files keys) as [s1| |] eqn:E1; try discriminate. cbn [obind] in E. apply Ret_inj in E. subst. destruct j as [|j]; cbn [nth_error] in *.
  - injection H as ->. exists lt. auto.
  - apply IH; auto.
Qed.
