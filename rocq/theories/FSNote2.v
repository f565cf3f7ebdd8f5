(** The plan of FSNote pairs notifications as specified. *)
From Verif Require Import Base AList Wire FS FSPath FSSpec FSNote.

Section Pair.
Variables (ops : list op).
Notation ck := (ckof ops).
Definition acts := fst (plan ck 0 None ops).
Definition left := snd (plan ck 0 None ops).

Lemma flush_spec k o : nth_error ops k = Some o -> (flushb o = true <-> flushes ops k).
Proof.
  intros E. unfold flushes, note. rewrite E. destruct o as [| | | | | | | | | | | |f [e|]|]; cbn [flushb]; try (split; [discriminate|intros [Z|[f' Z]]; [contradiction|discriminate]]).
  - destruct (ev_name e); split; auto; try discriminate; [intros _; left; discriminate|intros [Z|[f' Z]]; [contradiction|discriminate]].
  - split; [eauto|auto].
Qed.
Lemma fate_next : forall l k i, (forall m, nth_error l m = nth_error ops (k + m)) -> (i < k)%nat -> (forall x, (i < x < k)%nat -> ~ flushes ops x) ->
  (snd (fate ck k i l) = true /\ fst (fate ck k i l) = [] /\ forall j, ~ next_note ops i j) \/
  (exists j, next_note ops i j /\ snd (fate ck k i l) = false /\
     ((exists wd n, note ops j = Some (NMovedTo, wd, ck i, n) /\ fst (fate ck k i l) = [DoMove i j]) \/ ((forall wd n, note ops j <> Some (NMovedTo, wd, ck i, n)) /\ fst (fate ck k i l) = [DoDelete i]))).
Proof.
  induction l as [|o l IH]; intros k i HL Hi HN.
  - left. cbn [fate fst snd]. split; [reflexivity|]. split; [reflexivity|]. intros j (J1 & J2 & J3). assert (J : (j < k)%nat \/ (k <= j)%nat) by lia. destruct J as [J|J]; [exact (HN j (conj J1 J) J2)|].
    assert (Z : nth_error ops j = None). { specialize (HL (j - k)%nat). replace (k + (j - k))%nat with j in HL by lia. rewrite <- HL. destruct (j - k)%nat; reflexivity. }
    destruct J2 as [J2|[f J2]]; [unfold note in J2; rewrite Z in J2; contradiction|congruence].
  - pose proof (HL 0%nat) as H0. rewrite Nat.add_0_r in H0. cbn in H0. symmetry in H0. pose proof (flush_spec k o H0) as FS. cbn [fate]. destruct (flushb o) eqn:Ef.
    + right. exists k. split; [split; [exact Hi|split; [apply FS; reflexivity|intros x Hx; apply HN; exact Hx]]|]. cbn [fst snd]. split; [reflexivity|]. unfold note. rewrite H0.
      destruct o as [| | | | | | | | | | | |f [e|]|]; try discriminate Ef; [|right; split; [discriminate|reflexivity]]. cbn [flushb] in Ef. destruct (ev_name e) as [n|]; [|discriminate].
      destruct (ev_kind e); try (right; split; [discriminate|reflexivity]). destruct (ck i =? ev_cookie e) eqn:E; [apply N.eqb_eq in E; rewrite E; left; eauto|apply N.eqb_neq in E; right; split; [congruence|reflexivity]].
    + apply IH; [intros m; specialize (HL (S m)); rewrite Nat.add_succ_r in HL; exact HL|lia|]. intros x Hx. assert (J : (x < k)%nat \/ x = k) by lia. destruct J as [J| ->]; [apply HN; lia|]. intros Z. apply FS in Z. discriminate.
Qed.
Lemma at_index i o : nth_error ops i = Some o -> exists pend, match pend with Some j => (j < i)%nat | None => True end /\
   filter (about i) acts = filter (about i) (fst (plan ck i pend (o :: skipn (S i) ops))) /\ left = snd (plan ck i pend (o :: skipn (S i) ops)).
Proof.
  intros E. assert (L : (i < length ops)%nat) by (apply nth_error_Some; congruence). destruct (plan_skip ck i ops 0 None i ltac:(lia) ltac:(lia) I) as (pend & P1 & P2 & P3). cbn [plus] in *. exists pend. split; [exact P1|].
  assert (S : skipn i ops = o :: skipn (S i) ops). { clear -E. revert E. generalize ops as l0. induction i as [|i IH]; intros [|a l] E; try discriminate; cbn in E |- *; [injection E as <-; reflexivity|]. rewrite (IH l E). reflexivity. }
  rewrite S in P2, P3. auto.
Qed.
Lemma rest_at i m : nth_error (skipn (S i) ops) m = nth_error ops (S i + m).
Proof. generalize ops as l. induction (S i) as [|k IH]; intros l; [reflexivity|]. destruct l; [destruct m; reflexivity|]. cbn. apply IH. Qed.
Lemma note_inv i kd wd c n : note ops i = Some (kd, wd, c, n) -> exists f e, nth_error ops i = Some (OEvent f (Some e)) /\ ev_name e = Some n /\ ev_kind e = kd /\ ev_wd e = wd /\ ev_cookie e = c.
Proof.
  unfold note. destruct (nth_error ops i) as [o|]; [|discriminate]. destruct o as [| | | | | | | | | | | |f [e|]|]; try discriminate. destruct (ev_name e) eqn:En; [|discriminate]. intros [= <- <- <- <-]. exists f, e. auto.
Qed.
Lemma ck_at i kd wd c n : note ops i = Some (kd, wd, c, n) -> ck i = c.
Proof. intros H. unfold ckof. rewrite H. reflexivity. Qed.

(** what happens to each operation *)
Lemma other_once i o : nth_error ops i = Some o -> is_event o = false -> filter (about i) acts = [DoOther i].
Proof.
  intros E H. destruct (at_index i o E) as (pend & P1 & P2 & _). rewrite P2. cbn [plan]. assert (X : plan1 ck i pend o = ([DoOther i], pend)) by (destruct o; try reflexivity; discriminate H). rewrite X.
  destruct (plan ck (S i) pend (skipn (S i) ops)) as [b p2] eqn:Eb. cbn [fst]. rewrite filter_app. assert (PN : pend <> Some i) by (intros ->; lia). pose proof (plan_old ck (skipn (S i) ops) (S i) pend i ltac:(lia) PN) as [F _]. rewrite Eb in F. cbn [fst] in F. rewrite F. cbn. rewrite Nat.eqb_refl. reflexivity.
Qed.
Lemma single_once i kd wd c n a : note ops i = Some (kd, wd, c, n) -> a = match kd with NCreate => DoCreate i | NDelete => DoDelete i | _ => DoModify i end -> kd <> NMovedFrom -> kd <> NMovedTo -> filter (about i) acts = [a].
Proof.
  intros H Ha N1 N2. destruct (note_inv i kd wd c n H) as (f & e & E & En & Ek & _). destruct (at_index i _ E) as (pend & P1 & P2 & _). rewrite P2. cbn [plan plan1]. rewrite En, Ek.
  destruct (plan ck (S i) None (skipn (S i) ops)) as [b p2] eqn:Eb. pose proof (plan_old ck (skipn (S i) ops) (S i) None i ltac:(lia) ltac:(discriminate)) as [F _]. rewrite Eb in F. cbn [fst] in F.
  assert (NP : forall j, pend = Some j -> Nat.eqb j i = false) by (intros j ->; apply Nat.eqb_neq; lia).
  destruct kd; try contradiction; rewrite Eb; cbn [fst]; rewrite !filter_app, F; destruct pend as [j|]; cbn [filter about app]; rewrite ?(NP j eq_refl), Nat.eqb_refl, Ha; reflexivity.
Qed.
Lemma from_once i wd c n : note ops i = Some (NMovedFrom, wd, c, n) ->
  (left = Some i /\ filter (about i) acts = [] /\ forall j, ~ next_note ops i j) \/
  (exists j, next_note ops i j /\ left <> Some i /\
     ((exists wd' n', note ops j = Some (NMovedTo, wd', c, n') /\ filter (about i) acts = [DoMove i j]) \/ ((forall wd' n', note ops j <> Some (NMovedTo, wd', c, n')) /\ filter (about i) acts = [DoDelete i]))).
Proof.
  intros H. pose proof (ck_at i _ _ _ _ H) as HC. destruct (note_inv i _ wd c n H) as (f & e & E & En & Ek & _). destruct (at_index i _ E) as (pend & P1 & P2 & P3). rewrite P2, P3. cbn [plan plan1]. rewrite En, Ek.
  destruct (plan ck (S i) (Some i) (skipn (S i) ops)) as [b p2] eqn:Eb. destruct (plan_fate ck (skipn (S i) ops) (S i) i ltac:(lia)) as [F1 F2]. rewrite Eb in F1, F2. cbn [fst snd] in F1, F2.
  assert (NP : forall j, pend = Some j -> Nat.eqb j i = false) by (intros j ->; apply Nat.eqb_neq; lia).
  assert (X : filter (about i) (fst ((match pend with Some i0 => [DoDelete i0] | None => [] end ++ []) ++ b, p2)) = fst (fate ck (S i) i (skipn (S i) ops))). { cbn [fst]. rewrite !filter_app, F1. destruct pend as [j|]; cbn [filter about app]; rewrite ?(NP j eq_refl); reflexivity. }
  rewrite X. cbn [snd]. destruct (fate_next (skipn (S i) ops) (S i) i (rest_at i) ltac:(lia) ltac:(intros; lia)) as [(A1 & A2 & A3)|(j & A1 & A2 & A3)].
  - left. split; [apply F2; exact A1|]. auto.
  - right. exists j. split; [exact A1|]. split; [intros Z; apply F2 in Z; congruence|]. rewrite HC in A3. exact A3.
Qed.
Lemma to_once j wd c n : note ops j = Some (NMovedTo, wd, c, n) -> filter (about j) acts = [DoCreate j] \/ exists i, (i < j)%nat /\ filter (about j) acts = [DoMove i j].
Proof.
  intros H. destruct (note_inv j _ wd c n H) as (f & e & E & En & Ek & _). destruct (at_index j _ E) as (pend & P1 & P2 & _). rewrite P2. cbn [plan plan1]. rewrite En, Ek.
  destruct (plan ck (S j) None (skipn (S j) ops)) as [b p2] eqn:Eb. pose proof (plan_old ck (skipn (S j) ops) (S j) None j ltac:(lia) ltac:(discriminate)) as [F _]. rewrite Eb in F. cbn [fst] in F.
  destruct pend as [i|].
  - assert (NP : Nat.eqb i j = false) by (apply Nat.eqb_neq; lia). destruct (ck i =? ev_cookie e); rewrite Eb; cbn [fst]; rewrite filter_app, F; cbn [filter about app]; rewrite NP, Nat.eqb_refl; cbn; [right; exists i; auto|left; reflexivity].
  - rewrite Eb. cbn [fst]. rewrite filter_app, F. cbn [filter about app]. rewrite Nat.eqb_refl. left. reflexivity.
Qed.
Lemma next_unique i j j' : next_note ops i j -> next_note ops i j' -> j = j'.
Proof.
  intros (A1 & A2 & A3) (B1 & B2 & B3). destruct (Nat.lt_trichotomy j j') as [Z|[Z|Z]]; [|exact Z|]; exfalso; [apply (B3 j); [lia|exact A2]|apply (A3 j'); [lia|exact B2]].
Qed.
Lemma move_from i j : (i < j)%nat -> In (DoMove i j) acts -> exists wd c n wd' n', note ops i = Some (NMovedFrom, wd, c, n) /\ next_note ops i j /\ note ops j = Some (NMovedTo, wd', c, n').
Proof.
  intros L H. assert (Ii : In (DoMove i j) (filter (about i) acts)) by (apply filter_In; split; [exact H|cbn; rewrite Nat.eqb_refl; reflexivity]).
  destruct (note ops i) as [[[[kd wd] c] n]|] eqn:En.
  - destruct (match kd with NMovedFrom => true | NMovedTo => true | _ => false end) eqn:K.
    + destruct kd; try discriminate K.
      * destruct (from_once i wd c n En) as [(_ & Z & _)|(j' & A1 & _ & [(wd' & n' & A2 & A3)|(_ & A3)])]; [rewrite Z in Ii; destruct Ii| |rewrite A3 in Ii; destruct Ii as [Z|[]]; discriminate].
        rewrite A3 in Ii. destruct Ii as [Z|[]]. injection Z as ->. exists wd, c, n, wd', n'. auto.
      * destruct (to_once i wd c n En) as [Z|(i' & Z1 & Z)]; rewrite Z in Ii; destruct Ii as [Y|[]]; [discriminate|]. injection Y as ? ?. lia.
    + rewrite (single_once i kd wd c n _ En eq_refl) in Ii by (intros ->; discriminate). destruct Ii as [Z|[]]. destruct kd; discriminate.
  - assert (EE : nth_error ops i = None \/ exists o, nth_error ops i = Some o) by (destruct (nth_error ops i); eauto). destruct EE as [EE|[o EE]].
    + exfalso. assert (LL : (length ops <= i)%nat) by (apply nth_error_None; exact EE). destruct (plan_skip ck (length ops) ops 0 None i ltac:(lia) ltac:(lia) I) as (p & Q1 & Q2 & _). cbn [plus] in Q2. rewrite skipn_all in Q2. cbn in Q2. fold acts in Q2. rewrite Q2 in Ii. destruct Ii.
    + exfalso. destruct (is_event o) eqn:Ev; [|rewrite (other_once i o EE Ev) in Ii; destruct Ii as [Z|[]]; discriminate].
      destruct (at_index i o EE) as (pend & P1 & P2 & _). rewrite P2 in Ii. assert (NP : forall k, pend = Some k -> Nat.eqb k i = false) by (intros k ->; apply Nat.eqb_neq; lia). assert (PN : pend <> Some i) by (intros ->; lia).
      destruct o as [| | | | | | | | | | | |f [e|]|]; try discriminate Ev; cbn [plan plan1] in Ii.
      * unfold note in En. rewrite EE in En. destruct (ev_name e); [discriminate|]. pose proof (plan_old ck (skipn (S i) ops) (S i) pend i ltac:(lia) PN) as [F _]. destruct (plan ck (S i) pend _) as [b p2]. cbn [fst app] in *. rewrite F in Ii. destruct Ii.
      * pose proof (plan_old ck (skipn (S i) ops) (S i) None i ltac:(lia) ltac:(discriminate)) as [F _]. destruct (plan ck (S i) None _) as [b p2]. cbn [fst] in *. rewrite filter_app, F in Ii. destruct pend as [k|]; cbn [filter about app] in Ii; rewrite ?(NP k eq_refl) in Ii; destruct Ii.
Qed.
End Pair.
