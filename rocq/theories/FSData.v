(** Reading and writing object data: readData, writeData, writePartialData,
    truncateItem. *)
From Verif Require Import Base AList Wire FS FSPath FSTree FSLogic FSAdd FSAdd2 FSDel FSEv.


(** ** Bytes *)
Lemma len_repeat {A} (a : A) n : len (repeat a n) = N.of_nat n.
Proof. unfold len. now rewrite repeat_length. Qed.
Lemma put_pre d pos : len (take pos d ++ repeat 0 (N.to_nat (pos - len d))) = pos.
Proof. rewrite len_app, len_take, len_repeat. lia. Qed.
Lemma put_at_eq d pos bs : put_at d pos bs = (take pos d ++ repeat 0 (N.to_nat (pos - len d))) ++ bs ++ drop (pos + len bs) d.
Proof. unfold put_at. now rewrite <- app_assoc. Qed.
Lemma len_put d pos bs : len (put_at d pos bs) = N.max (len d) (pos + len bs).
Proof. rewrite put_at_eq, len_app, put_pre, len_app, len_drop. lia. Qed.
Lemma put_put d pos a b : put_at (put_at d pos a) (pos + len a) b = put_at d pos (a ++ b).
Proof.
  rewrite (put_at_eq (put_at d pos a)), len_put. rewrite !put_at_eq. set (pre := take pos d ++ _).
  assert (L : len (pre ++ a) = pos + len a) by (rewrite len_app; unfold pre; rewrite put_pre; reflexivity).
  rewrite (app_assoc pre a (drop _ _)). replace (pos + len a - N.max (len d) (pos + len a)) with 0 by lia. cbn [N.to_nat repeat]. rewrite app_nil_r.
  rewrite <- L at 1. rewrite take_app_exact. rewrite <- (drop_drop (len b) (pos + len a)). rewrite <- L at 1. rewrite drop_app_exact. rewrite len_app, drop_drop.
  rewrite <- !app_assoc. do 3 f_equal. f_equal. lia.
Qed.
Lemma put_start d bs : put_at d 0 bs = bs ++ drop (len bs) d.
Proof. rewrite put_at_eq, take_0. replace (0 - len d) with 0 by lia. reflexivity. Qed.
Lemma resize_put d bs : resize (put_at d 0 bs) (len bs) = bs.
Proof.
  unfold resize. rewrite put_start, take_app_exact, len_app. replace (len bs - _) with 0 by lia. cbn. apply app_nil_r.
Qed.

(** ** Only the disk, the open file and the clock change *)
Definition fsame (s s' : fs) : Prop :=
  exists w t f wr, s' = set_tick t (set_nodes w (set_file f (set_write wr s))) /\ (s_tick s <= t)%nat.
Lemma fsame_refl s : fsame s s.
Proof. exists (s_nodes s), (s_tick s), (s_file s), (s_write s). destruct s. auto. Qed.
Lemma fsame_trans a b c : fsame a b -> fsame b c -> fsame a c.
Proof.
  intros (w & t & f & wr & -> & L) (w' & t' & f' & wr' & -> & L'). cbn in L'. exists w', t', f', wr'. split; [reflexivity|lia].
Qed.
Lemma fsame_fields s s' : fsame s s' -> s_heap s' = s_heap s /\ s_fresh s' = s_fresh s /\ s_root s' = s_root s /\ s_handles s' = s_handles s /\
  s_paths s' = s_paths s /\ s_wds s' = s_wds s /\ s_puoids s' = s_puoids s /\ s_byid s' = s_byid s /\ s_events s' = s_events s /\ s_cache s' = s_cache s /\ (s_tick s <= s_tick s')%nat.
Proof. intros (w & t & f & wr & -> & L). cbn. auto 20. Qed.
Lemma fsame_wf C s s' ch r pend : WF C s ch r pend -> fsame s s' -> WF C s' ch r pend.
Proof. intros W F. apply fsame_fields in F as (A1 & A2 & A3 & A4 & A5 & A6 & _ & _ & _ & _ & A7). eapply wf_same; eauto. Qed.
Lemma fsame_nodes w s : fsame s (set_nodes w s).
Proof. exists w, (s_tick s), (s_file s), (s_write s). destruct s. auto. Qed.
Lemma fsame_tick s : fsame s (set_tick (S (s_tick s)) s).
Proof. exists (s_nodes s), (S (s_tick s)), (s_file s), (s_write s). split; [|lia]. destruct s. auto. Qed.
Lemma fsame_file f s : fsame s (set_file f s).
Proof. exists (s_nodes s), (s_tick s), f, (s_write s). destruct s. auto. Qed.
Lemma fsame_write f s : fsame s (set_write f s).
Proof. exists (s_nodes s), (s_tick s), (s_file s), f. destruct s. auto. Qed.
Lemma nsame_fsame s s' : nsame s s' -> fsame s s'.
Proof. intros (w & t & -> & L). exists w, t, (s_file s), (s_write s). split; [|exact L]. destruct s. reflexivity. Qed.

(** only the clock *)
Definition tsame (s s' : fs) : Prop := exists t, s' = set_tick t s /\ (s_tick s <= t)%nat.
Lemma tsame_refl s : tsame s s. Proof. exists (s_tick s). destruct s. auto. Qed.
Lemma tsame_trans a b c : tsame a b -> tsame b c -> tsame a c.
Proof. intros (t & -> & L) (t' & -> & L'). cbn in L'. exists t'. split; [reflexivity|lia]. Qed.
Lemma tsame_tick s : tsame s (set_tick (S (s_tick s)) s).
Proof. exists (S (s_tick s)). split; [reflexivity|lia]. Qed.
Lemma tsame_fsame s s' : tsame s s' -> fsame s s'.
Proof. intros (t & -> & L). exists (s_nodes s), t, (s_file s), (s_write s). split; [|exact L]. destruct s. reflexivity. Qed.

Section Data.
Variables (C : conf).

(** ** Reading *)
Lemma read_loop_ok data : forall fuel pos n acc s, (N.to_nat n <= fuel)%nat ->
  exists code bs s', read_loop C fuel data pos n acc s = Ret ((code, bs), s') /\ tsame s s' /\
    (code = R_OK -> exists got, bs = acc ++ got /\ got = take n (drop pos data) /\ len got = n) /\
    ((forall t, c_chunk C t <> None) -> pos + n <= len data -> code = R_OK).
Proof.
  induction fuel as [|f IH]; intros pos n acc s L.
  - assert (n = 0) by lia. subst n. cbn. exists R_OK, acc, s. split; [reflexivity|]. split; [apply tsame_refl|]. split; [|auto]. intros _. exists []. rewrite app_nil_r. auto.
  - cbn [read_loop]. destruct (n =? 0) eqn:En.
    { apply N.eqb_eq in En. subst n. exists R_OK, acc, s. split; [reflexivity|]. split; [apply tsame_refl|]. split; [|auto]. intros _. exists []. rewrite app_nil_r. auto. }
    unfold bind at 1, tick. destruct (c_chunk C (s_tick s)) as [k|] eqn:Ek.
    2:{ eexists _, _, _. split; [reflexivity|]. split; [apply tsame_tick|]. split; [discriminate|]. intros H. now apply H in Ek. }
    set (got := take (N.min (k + 1) n) (drop pos data)). destruct (len got =? 0) eqn:Eg.
    { eexists _, _, _. split; [reflexivity|]. split; [apply tsame_tick|]. split; [discriminate|]. intros _ H. exfalso. unfold got in Eg. rewrite len_take, len_drop in Eg. lia. }
    assert (Lg : len got <= n) by (unfold got; rewrite len_take; lia).
    destruct (IH (pos + len got) (n - len got) (acc ++ got) (set_tick (S (s_tick s)) s) ltac:(lia)) as (code & bs & s' & E & T & H1 & H2).
    rewrite E. exists code, bs, s'. split; [reflexivity|]. split; [eapply tsame_trans; [apply tsame_tick|exact T]|]. split.
    + intros K. destruct (H1 K) as (g & -> & Eg2 & L2). exists (got ++ g). split; [now rewrite app_assoc|]. split.
      * rewrite Eg2. replace (take n (drop pos data)) with (take (len got + (n - len got)) (drop pos data)) by (f_equal; lia).
        rewrite take_add, drop_drop. f_equal. unfold got at 1. destruct (N.le_gt_cases (N.min (k + 1) n) (len (drop pos data))) as [Q|Q].
        -- assert (len got = N.min (k + 1) n) as -> by (unfold got; rewrite len_take; lia). reflexivity.
        -- assert (len got = len (drop pos data)) as -> by (unfold got; rewrite len_take; lia). rewrite !take_all; lia || reflexivity.
      * rewrite len_app. lia.
    + intros H3 H4. apply H2; [exact H3|]. lia.
Qed.

Definition no_failures : Prop := (forall t, c_fail C t = false) /\ (forall t, c_chunk C t <> None).

Theorem read_data_any h n off s : (forall v, aget h (s_handles s) = Some v -> exists p i, v = Some p /\ s_heap s p = Some i) ->
  exists code bs s', read_data C h n off s = Ret ((code, bs), s') /\ tsame s s' /\
    (code = R_OK -> exists p i d, aget h (s_handles s) = Some (Some p) /\ s_heap s p = Some i /\ node_at (i_path i) (s_nodes s) = Some (File d) /\
       bs = take n (drop off d) /\ len bs = n) /\
    (aget h (s_handles s) = None -> code = R_InvalidObjectHandle) /\
    (no_failures -> forall p i d, aget h (s_handles s) = Some (Some p) -> s_heap s p = Some i -> node_at (i_path i) (s_nodes s) = Some (File d) ->
       off < 0x8000000000000000 -> n < 0x8000000000000000 -> off + n <= len d -> code = R_OK).
Proof.
  intros W. unfold read_data. unfold bind at 1. unfold handle_value, get at 1. destruct (aget h (s_handles s)) as [v|] eqn:E.
  2:{ eexists _, _, _. split; [reflexivity|]. split; [apply tsame_refl|]. split; [discriminate|]. split; [auto|]. intros _ p i d H; discriminate. }
  destruct (W v eq_refl) as (p & i & -> & Hp). unfold bind at 1, deref. rewrite Hp. unfold bind at 1. unfold fails at 1. unfold bind at 1, tick, ret at 1.
  unfold bind at 1, get at 1. cbn [s_nodes set_tick].
  set (s1 := set_tick (S (s_tick s)) s).
  destruct (node_at (i_path i) (s_nodes s)) as [[d|]|] eqn:En.
  2,3: eexists _, _, _; split; [reflexivity|]; split; [apply tsame_tick|]; split; [discriminate|]; split; [congruence|]; intros _ p0 i0 d0 H H1 H2; congruence.
  destruct (c_fail C (s_tick s)) eqn:Ef.
  { eexists _, _, _; split; [reflexivity|]; split; [apply tsame_tick|]; split; [discriminate|]; split; [congruence|]; intros [F _]; congruence. }
  destruct (len d <? u64 (off + n)) eqn:El.
  { eexists _, _, _; split; [reflexivity|]; split; [apply tsame_tick|]; split; [discriminate|]; split; [congruence|]. intros _ p0 i0 d0 H H1 H2 H3 H4 H5. exfalso.
    assert (d0 = d) by congruence. subst d0. unfold u64 in El. rewrite N.mod_small in El by lia. lia. }
  unfold bind at 1, fails, bind at 1, tick, ret at 1. set (s2 := set_tick _ s1).
  assert (T2 : tsame s s2) by (eapply tsame_trans; apply tsame_tick).
  destruct (c_fail C (s_tick s1) || (9223372036854775808 <=? off)) eqn:E2.
  { eexists _, _, _; split; [reflexivity|]; split; [exact T2|]; split; [discriminate|]; split; [congruence|]. intros [F _] p0 i0 d0 H H1 H2 H3 H4 H5. rewrite F in E2. cbn in E2. lia. }
  destruct (read_loop_ok d (N.to_nat n) off n [] s2 ltac:(lia)) as (code & bs & s' & A & T & H1 & H2). exists code, bs, s'. split; [exact A|]. split; [eapply tsame_trans; eassumption|]. split; [|split; [congruence|]].
  - intros K. destruct (H1 K) as (got & -> & G1 & G2). exists p, i, d. auto 10.
  - intros [_ F] p0 i0 d0 Q1 Q2 Q3 Q4 Q5 Q6. assert (d0 = d) by congruence. subst d0. apply H2; assumption.
Qed.
Theorem read_data_ok h n off s ch r : WF C s ch r None ->
  exists code bs s', read_data C h n off s = Ret ((code, bs), s') /\ tsame s s' /\
    (code = R_OK -> exists p i d, aget h (s_handles s) = Some (Some p) /\ s_heap s p = Some i /\ node_at (i_path i) (s_nodes s) = Some (File d) /\
       bs = take n (drop off d) /\ len bs = n) /\
    (aget h (s_handles s) = None -> code = R_InvalidObjectHandle) /\
    (no_failures -> forall p i d, aget h (s_handles s) = Some (Some p) -> s_heap s p = Some i -> node_at (i_path i) (s_nodes s) = Some (File d) ->
       off < 0x8000000000000000 -> n < 0x8000000000000000 -> off + n <= len d -> code = R_OK).
Proof. intros W. apply read_data_any. intros v E. destruct (wf_handle_ptr _ _ _ _ _ W h v E) as (p & i & A & B & _). eauto. Qed.

(** ** Writing *)
(** [d] after [bs] was written at [pos] by a loop of write calls *)
Definition wrote (d : bytes) (pos : N) (bs : bytes) : bytes := match bs with [] => d | _ => put_at d pos bs end.
Lemma wrote_app d pos a b : wrote (wrote d pos a) (pos + len a) b = wrote d pos (a ++ b).
Proof.
  destruct b as [|y b]; [now rewrite app_nil_r|]. destruct a as [|x a]; [cbn [app wrote]; rewrite len_nil; f_equal; lia|]. cbn [wrote app]. apply put_put.
Qed.
Lemma wrote_start d bs : wrote d 0 bs = bs ++ drop (len bs) d.
Proof. destruct bs as [|b bs]; [unfold wrote; change (len (@nil N)) with 0; now rewrite drop_0|]. apply put_start. Qed.

Lemma write_loop_ok : forall fuel bs s fp pos d, s_file s = Some (fp, pos) -> node_at fp (s_nodes s) = Some (File d) -> (length bs <= fuel)%nat ->
  exists code k s', write_loop C fuel bs s = Ret (code, s') /\ fsame s s' /\ s_write s' = s_write s /\ k <= len bs /\ (code = R_OK -> k = len bs) /\
    s_file s' = Some (fp, pos + k) /\ (forall x, node_at x (s_nodes s') = if peqb x fp then Some (File (wrote d pos (take k bs))) else node_at x (s_nodes s)) /\
    ((forall t, c_chunk C t <> None) -> code = R_OK).
Proof.
  assert (Z : forall s fp pos d code bs (b : Prop), s_file s = Some (fp, pos) -> node_at fp (s_nodes s) = Some (File d) -> (code = R_OK -> bs = []) -> (b -> code = R_OK) ->
    exists k, 0 <= k /\ k = 0 /\ (code = R_OK -> k = len bs) /\ s_file s = Some (fp, pos + k) /\
    (forall x, node_at x (s_nodes s) = if peqb x fp then Some (File (wrote d pos (take k bs))) else node_at x (s_nodes s))).
  { intros s fp pos d code bs b A B D E. exists 0. split; [lia|]. split; [reflexivity|]. split; [intros K; now rewrite (D K)|]. split; [rewrite N.add_0_r; exact A|].
    intros x. rewrite take_0. cbn [wrote]. destruct (peqb x fp) eqn:P; [|reflexivity]. apply peqb_eq in P as ->. exact B. }
  induction fuel as [|f IH]; intros bs s fp pos d Hf Hd L.
  - destruct bs as [|b bs]; [|cbn in L; lia]. cbn. destruct (Z s fp pos d R_OK [] True Hf Hd ltac:(auto) ltac:(auto)) as (k & _ & K0 & K1 & K2 & K3). exists R_OK, k, s. subst k.
    split; [reflexivity|]. split; [apply fsame_refl|]. split; [reflexivity|]. split; [lia|]. auto.
  - destruct bs as [|b bs].
    { cbn. destruct (Z s fp pos d R_OK [] True Hf Hd ltac:(auto) ltac:(auto)) as (k & _ & K0 & K1 & K2 & K3). exists R_OK, k, s. subst k.
      split; [reflexivity|]. split; [apply fsame_refl|]. split; [reflexivity|]. split; [lia|]. auto. }
    cbn [write_loop]. unfold bind at 1, get at 1. rewrite Hf. unfold bind at 1, tick. destruct (c_chunk C (s_tick s)) as [k|] eqn:Ek.
    2:{ destruct (Z s fp pos d R_GeneralError (b :: bs) False Hf Hd ltac:(discriminate) ltac:(tauto)) as (k & _ & K0 & K1 & K2 & K3). exists R_GeneralError, k, (set_tick (S (s_tick s)) s). subst k.
        split; [reflexivity|]. split; [apply fsame_tick|]. split; [reflexivity|]. split; [lia|]. split; [exact K1|]. split; [exact K2|]. split; [exact K3|]. intros H. now apply H in Ek. }
    unfold bind at 1, get at 1. cbn [s_nodes set_tick]. rewrite Hd. unfold bind at 1, upd at 1. unfold bind at 1, upd at 1.
    set (now := take (k + 1) (b :: bs)). set (rest := drop (k + 1) (b :: bs)).
    assert (NR : now ++ rest = b :: bs) by apply take_drop. assert (Ln : 1 <= len now) by (unfold now; rewrite len_take, len_cons; lia).
    set (s1 := set_file _ _).
    assert (F1 : fsame s s1). { eapply fsame_trans; [apply fsame_tick|]. eapply fsame_trans; [apply fsame_nodes|]. apply fsame_file. }
    assert (Hd1 : node_at fp (s_nodes s1) = Some (File (put_at d pos now))) by (unfold s1; cbn; rewrite node_at_set, peqb_refl; reflexivity).
    assert (Lr : (length rest <= f)%nat). { assert (X : len rest = len (b :: bs) - (k + 1)) by apply len_drop. rewrite len_cons in X. unfold len in X. cbn in L. lia. }
    destruct (IH rest s1 fp (pos + len now) _ eq_refl Hd1 Lr) as (code & j & s' & E & F & W & J & JK & SF & ND & OKK).
    rewrite E. exists code, (len now + j), s'. split; [reflexivity|]. split; [eapply fsame_trans; eassumption|]. split; [rewrite W; reflexivity|].
    assert (LL : len now + len rest = len (b :: bs)) by (rewrite <- len_app, NR; reflexivity).
    split; [lia|]. split; [intros K; specialize (JK K); lia|]. split; [rewrite SF; do 2 f_equal; lia|]. split; [|exact OKK].
    intros x. rewrite ND. destruct (peqb x fp) eqn:P; [|unfold s1; cbn; rewrite node_at_set, P; reflexivity].
    do 2 f_equal. replace (take (len now + j) (b :: bs)) with (now ++ take j rest).
    + rewrite <- wrote_app. f_equal. unfold wrote. destruct now as [|a now']; [cbn in Ln; lia|reflexivity].
    + rewrite <- NR. rewrite take_add. rewrite take_app_exact, drop_app_exact. reflexivity.
Qed.
Lemma write_loop_closed fuel bs s : s_file s = None -> write_loop C fuel bs s = Ret (R_OK, s).
Proof. intros E. destruct bs; [destruct fuel; reflexivity|]. destruct fuel; cbn [write_loop]; unfold bind, get; rewrite E; reflexivity. Qed.
(** whatever is open *)
Lemma write_loop_any : forall fuel bs s, (length bs <= fuel)%nat -> exists code s', write_loop C fuel bs s = Ret (code, s') /\ fsame s s' /\
  (match s_file s with Some (fp, _) => exists pos, s_file s' = Some (fp, pos) | None => s_file s' = None end) /\
  (forall x, (forall fp pos, s_file s = Some (fp, pos) -> x <> fp) -> node_at x (s_nodes s') = node_at x (s_nodes s)) /\
  (forall fp pos, s_file s = Some (fp, pos) -> (forall d, node_at fp (s_nodes s) <> Some (File d)) -> s_nodes s' = s_nodes s).
Proof.
  induction fuel as [|f IH]; intros bs s L.
  - destruct bs as [|b bs]; [|cbn in L; lia]. exists R_OK, s. split; [reflexivity|]. split; [apply fsame_refl|]. split; [destruct (s_file s) as [[fp pos]|]; eauto|]. auto.
  - destruct bs as [|b bs]; [exists R_OK, s; split; [reflexivity|]; split; [apply fsame_refl|]; split; [destruct (s_file s) as [[fp pos]|]; eauto|]; auto|].
    cbn [write_loop]. unfold bind at 1, get at 1. destruct (s_file s) as [[fp pos]|] eqn:Hf.
    2:{ exists R_OK, s. split; [reflexivity|]. split; [apply fsame_refl|]. auto. }
    unfold bind at 1, tick. destruct (c_chunk C (s_tick s)) as [k|] eqn:Ek.
    2:{ exists R_GeneralError, (set_tick (S (s_tick s)) s). split; [reflexivity|]. split; [apply fsame_tick|]. split; [exists pos; exact Hf|]. auto. }
    unfold bind at 1, get at 1. cbn [s_nodes set_tick]. set (m := match node_at fp (s_nodes s) with Some (File d) => _ | _ => _ end).
    set (s0 := set_tick (S (s_tick s)) s) in *.
    assert (A : exists s1, m s0 = Ret (tt, s1) /\ nsame s0 s1 /\ (forall x, x <> fp -> node_at x (s_nodes s1) = node_at x (s_nodes s)) /\ ((forall d, node_at fp (s_nodes s) <> Some (File d)) -> s_nodes s1 = s_nodes s)).
    { unfold m. destruct (node_at fp (s_nodes s)) as [[d|]|] eqn:En; (eexists; split; [reflexivity|]; split; [first [apply nsame_set|apply nsame_refl]|]; split; [intros x Nx|]); try reflexivity.
      - cbn. rewrite node_at_set. apply peqb_neq in Nx. now rewrite Nx.
      - intros H. now specialize (H d). }
    destruct A as (s1 & A1 & A2 & A3 & A4). unfold bind at 1. rewrite A1. unfold bind at 1, upd at 1.
    assert (Lr : (length (drop (k + 1) (b :: bs)) <= f)%nat). { assert (X : len (drop (k + 1) (b :: bs)) = len (b :: bs) - (k + 1)) by apply len_drop. rewrite len_cons in X. unfold len in X. cbn in L. unfold drop in *. lia. }
    destruct (IH _ (set_file (Some (fp, pos + len (take (k + 1) (b :: bs)))) s1) Lr) as (code & s' & E & F & G & H & K).
    exists code, s'. split; [exact E|]. split; [|split; [|split]].
    + eapply fsame_trans; [apply fsame_tick|]. eapply fsame_trans; [apply nsame_fsame; exact A2|]. eapply fsame_trans; [apply fsame_file|exact F].
    + cbn in G. exact G.
    + intros x Nx. rewrite H; [cbn; apply A3; eauto|]. intros fp' pos' E'. cbn in E'. injection E' as <- <-. eauto.
    + intros fp' pos' [= <- <-] ND. rewrite (K fp _ eq_refl); [cbn; apply A4; exact ND|]. cbn. rewrite (A4 ND). exact ND.
Qed.
End Data.
