From Verif Require Import Base Events.

Lemma subseq_refl {A} (l : list A) : subseq l l.
Proof. induction l; constructor; auto. Qed.
Lemma subseq_snoc {A} (a b : list A) x : subseq a b -> subseq (a ++ [x]) (b ++ [x]).
Proof.
  induction 1 as [l|y a b H IH|y a b H IH]; cbn [app].
  - induction l as [|y l IH]; cbn; [apply ss_keep, ss_nil|now apply ss_skip].
  - now apply ss_keep.
  - now apply ss_skip.
Qed.
Lemma subseq_trans {A} (b c : list A) : subseq b c -> forall a, subseq a b -> subseq a c.
Proof.
  induction 1 as [l|y b c H IH|y b c H IH]; intros a Ha.
  - inversion Ha; subst. constructor.
  - inversion Ha; subst; [constructor|apply ss_keep; auto|apply ss_skip; auto].
  - apply ss_skip; auto.
Qed.
Lemma subseq_app {A} (a b c d : list A) : subseq a b -> subseq c d -> subseq (a ++ c) (b ++ d).
Proof.
  induction 1 as [l|y a b H IH|y a b H IH]; intros Hc; cbn [app].
  - induction l as [|y l IH]; cbn; [exact Hc|now apply ss_skip].
  - apply ss_keep; auto.
  - apply ss_skip; auto.
Qed.
Lemma subseq_drop {A} n (l : list A) : subseq (drop n l) l.
Proof.
  unfold drop. generalize (N.to_nat n). intros k. revert l. induction k as [|k IH]; intros l; [apply subseq_refl|].
  destruct l as [|x l]; [constructor|]. cbn. apply ss_skip. apply IH.
Qed.

Definition curl (o : option N) : list N := match o with Some e => [e] | None => [] end.
Definition tokens (s : est) : nat :=
  (length (e_sigs s) + match e_th s with TWoken | TWriting => 1 | _ => 0 end)%nat.

Record einv (s : est) : Prop := {
  ei_len : len (e_q s) <= MAX_EVENTS;
  ei_sub : subseq (h_sent s ++ curl (e_cur s) ++ e_q s) (h_added s);
  ei_tok : (tokens s <= 1)%nat;
  ei_busy : tokens s = 1%nat -> e_eb s = EBusy;
  ei_bulk : e_w s = WBulk -> e_eb s <> EBusy;
  ei_cur : e_th s = TWriting -> e_cur s <> None
}.

Lemma add_data_len q e : len q <= MAX_EVENTS -> len (add_data q e) <= MAX_EVENTS.
Proof.
  unfold add_data, MAX_EVENTS. intros H. rewrite len_app. change (len [e]) with 1.
  destruct (512 <=? len q) eqn:E; rewrite ?len_drop; lia.
Qed.
Lemma add_data_spec q e : len q <= MAX_EVENTS ->
  add_data q e = drop (len q + 1 - 512) (q ++ [e]).
Proof.
  unfold add_data, MAX_EVENTS. intros H. destruct (512 <=? len q) eqn:E.
  - assert (len q = 512) as L by lia. rewrite L. change (512 - (512 - 1)) with 1. change (512 + 1 - 512) with 1.
    destruct q as [|x q]; [discriminate|]. reflexivity.
  - replace (len q + 1 - 512) with 0 by lia. reflexivity.
Qed.

Ltac esimp := cbn [e_q e_cur e_th e_sigs e_w e_resp e_sess e_eb e_failed h_added h_sent set_eb upd_main upd_w upd_q] in *.

Lemma send_queued_inv s : einv s -> einv (send_queued s).
Proof.
  intros H. unfold send_queued. destruct (e_w s) eqn:W; auto. destruct (e_resp s) eqn:R; auto.
  destruct (negb (e_sess s)) eqn:S; auto.
  assert (G : e_eb s = EIdle \/ e_eb s = ERetry -> einv (if MAX_FAIL <=? e_failed s then set_eb s EDisabled
     else mk_est (e_q s) (e_cur s) (wake (e_th s)) (e_sigs s) (e_w s) (e_resp s) (e_sess s) EBusy
             (e_failed s) (h_added s) (h_sent s))).
  { intros B. destruct H as [H1 H2 H3 H4 H5 H6].
    assert (T : tokens s = 0%nat).
    { destruct (tokens s) as [|[|n]]; [reflexivity| |lia]. specialize (H4 eq_refl). destruct B as [B|B]; rewrite B in H4; discriminate. }
    destruct (MAX_FAIL <=? e_failed s).
    - constructor; unfold tokens in *; esimp; auto; try discriminate. intros X; rewrite T in X; discriminate.
    - constructor; unfold tokens in *; esimp; auto; rewrite ?W; try discriminate.
      + destruct (e_th s); cbn in *; lia.
      + destruct (e_th s) eqn:Q; cbn in *; auto; discriminate. }
  destruct (e_eb s) eqn:B; auto.
  all: rewrite ?W, ?R in G; destruct (e_q s) as [|x l] eqn:Q; auto; apply G; auto.
Qed.

Lemma estep_inv s a s' : einv s -> estep s a = Some s' -> einv s'.
Proof.
  intros H. pose proof H as HH. destruct HH as [H1 H2 H3 H4 H5 H6].
  destruct a as [e|b| | | | | | | | | | | | | | | ]; cbn [estep].
  - (* MAdd *)
    destruct (negb (e_sess s)); [now intros [= <-]|]. destruct (MAX_FAIL <=? e_failed s); [now intros [= <-]|].
    intros [= <-]. apply send_queued_inv. constructor; unfold tokens in *; esimp; auto.
    + now apply add_data_len.
    + rewrite add_data_spec by exact H1.
      apply (subseq_trans ((h_sent s ++ curl (e_cur s) ++ e_q s) ++ [e])).
      * now apply subseq_snoc.
      * rewrite <- !app_assoc. apply subseq_app; [apply subseq_refl|]. apply subseq_app; [apply subseq_refl|]. apply subseq_drop.
  - destruct (Bool.eqb b (e_sess s)); [now intros [= <-]|]. intros [= <-].
    constructor; unfold tokens in *; esimp; auto.
    + intros T. rewrite (H4 T). reflexivity.
    + intros W. specialize (H5 W). destruct (e_eb s); congruence.
  - intros [= <-]. constructor; unfold tokens in *; esimp; auto.
  - destruct (e_resp s); intros [= <-]; auto. apply send_queued_inv. constructor; unfold tokens in *; esimp; auto.
  - destruct (e_w s) eqn:W; intros [= <-]; auto.
    destruct (_ =? MAX_FAIL); constructor; unfold tokens in *; esimp; auto; rewrite ?W; try discriminate.
    + eapply subseq_trans; [exact H2|]. apply subseq_app; [apply subseq_refl|].
      apply subseq_app; [apply subseq_refl|constructor].
  - destruct (e_sigs s) as [|r rest] eqn:S; [discriminate|].
    assert (Hb : e_eb s = EBusy).
    { apply H4. unfold tokens in *. rewrite S in *. cbn [length] in *. lia. }
    rewrite Hb.
    assert (T0 : (length rest + match e_th s with TWoken | TWriting => 1 | _ => 0 end = 0)%nat).
    { unfold tokens in H3. rewrite S in H3. cbn [length] in H3. lia. }
    destruct r; intros [= <-]; apply send_queued_inv; constructor; unfold tokens in *; esimp; auto; try lia; discriminate.
  - destruct (e_w s) eqn:W; intros [= <-]; auto. constructor; unfold tokens in *; esimp; auto. discriminate.
  - destruct (e_w s) eqn:W; try discriminate. destruct (e_eb s) eqn:B; try discriminate; intros [= <-];
      constructor; unfold tokens in *; esimp; auto; intros; rewrite ?B; try congruence; auto.
  - destruct (e_w s) eqn:W; try discriminate. intros [= <-]. apply send_queued_inv.
    constructor; unfold tokens in *; esimp; auto; try discriminate.
  - intros [= <-]. constructor; unfold tokens in *; esimp; auto; try discriminate.
    + eapply subseq_trans; [exact H2|]. apply subseq_app; [apply subseq_refl|].
      apply (subseq_app [] _ (e_q s)); [constructor|apply subseq_refl].
    + destruct (e_th s); lia.
    + destruct (e_th s); intros; apply H4; lia.
  - intros [= <-]. constructor; unfold tokens in *; esimp; auto; try discriminate.
    + eapply subseq_trans; [exact H2|]. apply subseq_app; [apply subseq_refl|constructor].
    + destruct (e_th s); lia.
    + destruct (e_th s); intros; apply H4; lia.
  - destruct (e_th s) eqn:T; intros [= <-]; auto. constructor; unfold tokens in *; rewrite T in *; esimp; auto; try discriminate.
    eapply subseq_trans; [exact H2|]. apply subseq_app; [apply subseq_refl|]. 
      apply (subseq_app [] _ (e_q s)); [constructor|apply subseq_refl].
  - destruct (e_th s) eqn:T; try discriminate; intros [= <-]. constructor; unfold tokens in *; rewrite T in *; esimp; auto; discriminate.
  - destruct (e_th s) eqn:T; try discriminate.
    assert (S0 : e_sigs s = []). { unfold tokens in H3. rewrite T in H3. destruct (e_sigs s); [reflexivity|cbn in H3; lia]. }
    destruct (e_cur s) as [e|] eqn:C; [|destruct (e_q s) as [|e q] eqn:Q]; intros [= <-];
      constructor; unfold tokens in *; rewrite T, S0 in *; esimp; cbn [app length] in *; auto; try discriminate; try lia.
    + rewrite len_cons in H1. lia.
  - destruct (e_th s) eqn:T; try discriminate. destruct (e_cur s) as [e|] eqn:C; [|discriminate].
    assert (S0 : e_sigs s = []). { unfold tokens in H3. rewrite T in H3. destruct (e_sigs s); [reflexivity|cbn in H3; lia]. }
    intros [= <-]. constructor; unfold tokens in *; rewrite T, S0 in *; esimp; cbn [app length curl] in *; auto; try discriminate; try lia.
    now rewrite <- app_assoc.
  - destruct (e_th s) eqn:T; try discriminate.
    assert (S0 : e_sigs s = []). { unfold tokens in H3. rewrite T in H3. destruct (e_sigs s); [reflexivity|cbn in H3; lia]. }
    intros [= <-]. constructor; unfold tokens in *; rewrite T, S0 in *; esimp; cbn [app length curl] in *; auto; try discriminate; try lia.
  - destruct (e_th s) eqn:T; try discriminate.
    assert (S0 : e_sigs s = []). { unfold tokens in H3. rewrite T in H3. destruct (e_sigs s); [reflexivity|cbn in H3; lia]. }
    intros [= <-]. constructor; unfold tokens in *; rewrite T, S0 in *; esimp; cbn [app length curl] in *; auto; try discriminate; try lia.
    eapply subseq_trans; [exact H2|]. apply subseq_app; [apply subseq_refl|]. 
      apply (subseq_app [] _ (e_q s)); [constructor|apply subseq_refl].
Qed.

Lemma einv_init : einv ev_init.
Proof. constructor; cbn; try discriminate; try lia. constructor. Qed.
Lemma erun_inv l : forall s s', einv s -> erun s l = Some s' -> einv s'.
Proof.
  induction l as [|a l IH]; intros s s' H; cbn [erun]; [now intros [= <-]|].
  destruct (estep s a) eqn:E; [|discriminate]. apply IH. eapply estep_inv; eauto.
Qed.
Lemma ereach_inv s : ereachable s -> einv s.
Proof. intros (l & H). eapply erun_inv; [apply einv_init|exact H]. Qed.

(** ** C19 *)
Lemma send_queued_starts s : e_eb s <> EBusy -> e_eb (send_queued s) = EBusy ->
  e_w s = WFree /\ e_resp s = false /\ e_sess s = true /\ e_failed s < MAX_FAIL.
Proof.
  unfold send_queued. intros H1 H2.
  destruct (e_w s); try congruence. destruct (e_resp s); [congruence|]. destruct (e_sess s); [|cbn in H2; congruence].
  cbn [negb] in H2. destruct (e_eb s) eqn:B; try congruence; destruct (e_q s); cbn in H2; try congruence;
    destruct (MAX_FAIL <=? e_failed s) eqn:F; cbn in H2; try congruence; repeat split; lia.
Qed.
Lemma send_queued_same s : e_w (send_queued s) = e_w s /\ e_resp (send_queued s) = e_resp s /\
  e_sess (send_queued s) = e_sess s /\ e_failed (send_queued s) = e_failed s.
Proof.
  unfold send_queued. destruct (e_w s) eqn:W; auto. destruct (e_resp s) eqn:R; auto. destruct (e_sess s) eqn:S; auto. cbn [negb].
  destruct (e_eb s); auto; destruct (e_q s); auto; destruct (MAX_FAIL <=? e_failed s); esimp; auto.
Qed.
Lemma starts_guarded s a s' : einv s -> estep s a = Some s' -> e_eb s <> EBusy -> e_eb s' = EBusy ->
  e_w s' = WFree /\ e_resp s' = false /\ e_sess s' = true /\ e_failed s' < MAX_FAIL.
Proof.
  intros I H N B. destruct I as [_ _ H3 H4 _ _].
  assert (G : forall x, e_eb x <> EBusy -> s' = send_queued x ->
     e_w s' = WFree /\ e_resp s' = false /\ e_sess s' = true /\ e_failed s' < MAX_FAIL).
  { intros x Hx ->. destruct (send_queued_same x) as (-> & -> & -> & ->). now apply send_queued_starts. }
  destruct a as [e|b| | | | | | | | | | | | | | | ]; cbn [estep] in H.
  - destruct (negb (e_sess s)); [congruence|]. destruct (MAX_FAIL <=? e_failed s); [congruence|].
    injection H as H. eapply G; [|symmetry; exact H]. exact N.
  - destruct (Bool.eqb b (e_sess s)); [congruence|]. injection H as <-. esimp. destruct (e_eb s); congruence.
  - injection H as <-. esimp. congruence.
  - destruct (e_resp s); injection H as H; [|congruence]. eapply G; [|symmetry; exact H]. exact N.
  - destruct (e_w s); injection H as <-; try congruence. destruct (_ =? MAX_FAIL); esimp; congruence.
  - destruct (e_sigs s) as [|r rest] eqn:S; [discriminate|].
    exfalso. apply N, H4. unfold tokens in *. rewrite S in *. cbn [length] in *. lia.
  - destruct (e_w s); injection H as <-; esimp; congruence.
  - destruct (e_w s); try discriminate; destruct (e_eb s) eqn:Q; try discriminate; injection H as <-; esimp; congruence.
  - destruct (e_w s); try discriminate. injection H as H. eapply G; [|symmetry; exact H]. exact N.
  - injection H as <-. esimp. congruence.
  - injection H as <-. esimp. congruence.
  - destruct (e_th s); injection H as <-; esimp; congruence.
  - destruct (e_th s); try discriminate; injection H as <-; esimp; congruence.
  - destruct (e_th s); try discriminate; destruct (e_cur s); [|destruct (e_q s)]; injection H as <-; esimp; congruence.
  - destruct (e_th s); try discriminate; destruct (e_cur s); try discriminate; injection H as <-; esimp; congruence.
  - destruct (e_th s); try discriminate; injection H as <-; esimp; congruence.
  - destruct (e_th s); try discriminate; injection H as <-; esimp; congruence.
Qed.

(** ** C20: a wedged state stays wedged *)
Definition wedged (s : est) : Prop := e_eb s = EBusy /\ tokens s = 0%nat /\ e_w s = WWaitEv.
Lemma wedged_step s a s' : wedged s -> estep s a = Some s' -> wedged s'.
Proof.
  intros (B & T & W) H. unfold wedged, tokens in *.
  assert (S : e_sigs s = []) by (destruct (e_sigs s); [reflexivity|cbn in T; lia]).
  assert (Q : forall x, e_w x = WWaitEv -> send_queued x = x) by (intros x Hx; unfold send_queued; now rewrite Hx).
  assert (T' : match e_th s with TWoken | TWriting => 1%nat | _ => 0%nat end = 0%nat) by lia. clear T.
  destruct a as [e|b| | | | | | | | | | | | | | | ]; cbn [estep] in H; rewrite ?W, ?B, ?S in H; try discriminate;
  repeat match type of H with
  | Some _ = Some _ => injection H as <-
  | context [if ?c then _ else _] => destruct c eqn:?
  | context [match e_th s with _ => _ end] => destruct (e_th s) eqn:?
  | None = Some _ => discriminate
  end; try discriminate; rewrite ?Q by (exact W || reflexivity); esimp;
  repeat split; rewrite ?S; cbn [length]; auto; try lia.
  all: try (rewrite ?Heqt; lia).
Qed.
Lemma wedged_run l : forall s s', wedged s -> erun s l = Some s' -> wedged s'.
Proof.
  induction l as [|a l IH]; intros s s' H; cbn [erun]; [now intros [= <-]|].
  destruct (estep s a) eqn:E; [|discriminate]. apply IH. eapply wedged_step; eauto.
Qed.
Lemma send_can_wedge : exists s, ereachable s /\ e_w s = WWaitEv /\
  forall l s', erun s l = Some s' -> e_w s' = WWaitEv.
Proof.
  eexists. split; [|split].
  - exists [MOpen; TEnter; MSession true; MCmdFinished; MAdd 1; TStart; MReset; TEnter; MSendData].
    vm_compute. reflexivity.
  - reflexivity.
  - intros l s' H. eapply wedged_run in H; [apply H|]. repeat split.
Qed.

(** Without resets, closes and fatal write errors a running writer keeps a token
    whenever the transporter thinks an event is being written. *)
Definition gentle (a : eact) : Prop := match a with MReset | MClose | TFatal => False | _ => True end.
Definition live (s : est) : Prop :=
  einv s /\ (e_eb s = EBusy -> tokens s = 1%nat) /\ (e_th s = TWaiting \/ e_th s = TWoken \/ e_th s = TWriting).
Lemma send_queued_live s : einv s -> (e_eb s = EBusy -> tokens s = 1%nat) -> (e_th s = TWaiting \/ e_th s = TWoken \/ e_th s = TWriting) ->
  live (send_queued s).
Proof.
  intros I H T. split; [now apply send_queued_inv|].
  unfold send_queued. destruct (e_w s) eqn:W; auto. destruct (e_resp s) eqn:R; auto. destruct (e_sess s) eqn:S; auto. cbn [negb].
  assert (G : e_eb s <> EBusy -> tokens (mk_est (e_q s) (e_cur s) (wake (e_th s)) (e_sigs s) (WFree) false true EBusy
             (e_failed s) (h_added s) (h_sent s)) = 1%nat /\ (wake (e_th s) = TWaiting \/ wake (e_th s) = TWoken \/ wake (e_th s) = TWriting)).
  { intros N. assert (T0 : tokens s = 0%nat).
    { destruct I as [_ _ H3 H4 _ _]. destruct (tokens s) as [|[|n]]; [reflexivity| |lia]. now rewrite H4 in N. }
    unfold tokens in *. esimp. destruct T as [T|[T|T]]; rewrite T in *; cbn [wake] in *; lia || (split; [lia|auto]). }
  assert (F : forall q, q = e_q s -> (e_eb s <> EBusy) ->
    (e_eb (if MAX_FAIL <=? e_failed s then set_eb s EDisabled else mk_est q (e_cur s) (wake (e_th s)) (e_sigs s) WFree false true EBusy
             (e_failed s) (h_added s) (h_sent s)) = EBusy ->
     tokens (if MAX_FAIL <=? e_failed s then set_eb s EDisabled else mk_est q (e_cur s) (wake (e_th s)) (e_sigs s) WFree false true EBusy
             (e_failed s) (h_added s) (h_sent s)) = 1%nat) /\
    (e_th (if MAX_FAIL <=? e_failed s then set_eb s EDisabled else mk_est q (e_cur s) (wake (e_th s)) (e_sigs s) WFree false true EBusy
             (e_failed s) (h_added s) (h_sent s)) = TWaiting \/
     e_th (if MAX_FAIL <=? e_failed s then set_eb s EDisabled else mk_est q (e_cur s) (wake (e_th s)) (e_sigs s) WFree false true EBusy
             (e_failed s) (h_added s) (h_sent s)) = TWoken \/
     e_th (if MAX_FAIL <=? e_failed s then set_eb s EDisabled else mk_est q (e_cur s) (wake (e_th s)) (e_sigs s) WFree false true EBusy
             (e_failed s) (h_added s) (h_sent s)) = TWriting)).
  { intros q -> N. destruct (MAX_FAIL <=? e_failed s); [esimp; split; [discriminate|exact T]|].
    destruct (G N) as [G1 G2]. split; [intros _; exact G1|exact G2]. }
  destruct (e_eb s) eqn:B.
  2,4: rewrite ?B; auto.
  - destruct (e_q s) as [|x l] eqn:Q; [rewrite ?B; auto|]. apply F; [reflexivity|discriminate].
  - apply F; [reflexivity|discriminate].
Qed.
Lemma live_step s a s' : live s -> gentle a -> estep s a = Some s' -> live s'.
Proof.
  intros (I & L & T) Ga H. pose proof (estep_inv _ _ _ I H) as I'.
  assert (Q : forall x, s' = send_queued x -> einv x -> (e_eb x = EBusy -> tokens x = 1%nat) ->
     (e_th x = TWaiting \/ e_th x = TWoken \/ e_th x = TWriting) -> live s').
  { intros x -> ? ? ?. now apply send_queued_live. }
  assert (I0 := I). destruct I0 as [H1 H2 H3 H4 H5 H6].
  destruct a as [e|b| | | | | | | | | | | | | | | ]; cbn [estep] in H; cbn [gentle] in Ga; try contradiction.
  - destruct (negb (e_sess s)) eqn:E; [injection H as <-; split; auto|].
    destruct (MAX_FAIL <=? e_failed s) eqn:F; [injection H as <-; split; auto|]. injection H as H.
    eapply Q; [symmetry; exact H| | |]; unfold tokens in *; esimp; auto.
    constructor; unfold tokens in *; esimp; auto.
    + now apply add_data_len.
    + rewrite add_data_spec by exact H1.
      apply (subseq_trans ((h_sent s ++ curl (e_cur s) ++ e_q s) ++ [e])); [now apply subseq_snoc|].
      rewrite <- !app_assoc. apply subseq_app; [apply subseq_refl|]. apply subseq_app; [apply subseq_refl|]. apply subseq_drop.
  - destruct (Bool.eqb b (e_sess s)); injection H as <-; (split; [assumption|]); unfold tokens in *; esimp; auto.
    split; [|exact T]. destruct (e_eb s); auto; discriminate.
  - injection H as <-. split; [assumption|]. unfold tokens in *; esimp; auto.
  - destruct (e_resp s); injection H as H; [|subst; split; auto].
    eapply Q; [symmetry; exact H| | |]; unfold tokens in *; esimp; auto.
    constructor; unfold tokens in *; esimp; auto.
  - destruct (e_w s) eqn:W; injection H as <-; (split; [assumption|]); unfold tokens in *; try destruct (_ =? MAX_FAIL); esimp; auto.
  - destruct (e_sigs s) as [|r rest] eqn:S; [discriminate|].
    assert (Hb : e_eb s = EBusy). { apply H4. unfold tokens in *. rewrite S in *. cbn [length] in *. lia. }
    rewrite Hb in H.
    assert (T0 : (length rest + match e_th s with TWoken | TWriting => 1 | _ => 0 end = 0)%nat).
    { unfold tokens in H3. rewrite S in H3. cbn [length] in H3. lia. }
    destruct r; injection H as H; (eapply Q; [symmetry; exact H| | |]); unfold tokens in *; esimp; auto; try discriminate;
      constructor; unfold tokens in *; esimp; auto; try lia; discriminate.
  - destruct (e_w s) eqn:W; injection H as <-; (split; [assumption|]); unfold tokens in *; esimp; auto.
  - destruct (e_w s) eqn:W; try discriminate; destruct (e_eb s) eqn:B; try discriminate; injection H as <-;
      (split; [assumption|]); unfold tokens in *; esimp; split; auto; rewrite B; discriminate.
  - destruct (e_w s) eqn:W; try discriminate. injection H as H. 
    eapply Q; [symmetry; exact H| | |]; unfold tokens in *; esimp; auto.
    constructor; unfold tokens in *; esimp; auto; try discriminate.
  - destruct (e_th s) eqn:E; injection H as <-; try (destruct T as [T|[T|T]]; discriminate);
      (split; [assumption|]); unfold tokens in *; rewrite ?E in *; auto.
  - destruct (e_th s) eqn:E; try discriminate. destruct T as [T|[T|T]]; discriminate.
  - destruct (e_th s) eqn:E; try discriminate. unfold tokens in L, H3. rewrite E in L, H3.
    assert (S0 : e_sigs s = []) by (destruct (e_sigs s); [reflexivity|cbn in H3; lia]).
    destruct (e_cur s) eqn:C; [|destruct (e_q s) eqn:Eq]; injection H as <-; (split; [assumption|]);
      unfold tokens in *; esimp; rewrite S0; cbn [length app]; split; auto.
  - destruct (e_th s) eqn:E; try discriminate. unfold tokens in L, H3. rewrite E in L, H3.
    assert (S0 : e_sigs s = []) by (destruct (e_sigs s); [reflexivity|cbn in H3; lia]).
    destruct (e_cur s) eqn:C; [|discriminate]; injection H as <-; (split; [assumption|]);
      unfold tokens in *; esimp; rewrite S0; cbn [length app]; split; auto.
  - destruct (e_th s) eqn:E; try discriminate. unfold tokens in L, H3. rewrite E in L, H3.
    assert (S0 : e_sigs s = []) by (destruct (e_sigs s); [reflexivity|cbn in H3; lia]).
    injection H as <-; (split; [assumption|]);
      unfold tokens in *; esimp; rewrite S0; cbn [length app]; split; auto.
Qed.
Lemma live_run l : forall s s', live s -> Forall gentle l -> erun s l = Some s' -> live s'.
Proof.
  induction l as [|a l IH]; intros s s' H F; cbn [erun]; [now intros [= <-]|].
  apply Forall_cons_iff in F as [Fa F].
  destruct (estep s a) eqn:E; [|discriminate]. apply IH; [|exact F]. eapply live_step; eauto.
Qed.

(** From a live waiting state, the writer thread finishing its write (possibly
    interrupted by the timeout) lets sendData go on. *)
Lemma live_send_completes s : live s -> e_w s = WWaitEv ->
  exists l s', (length l <= 4)%nat /\ Forall (fun a => In a [TStart; TFail; MCompleted; MSendGo]) l /\
    erun s l = Some s' /\ e_w s' = WBulk.
Proof.
  intros (I & L & T) W.
  assert (Go : forall x, e_w x = WWaitEv -> e_eb x <> EBusy -> exists y, estep x MSendGo = Some y /\ e_w y = WBulk).
  { intros x Wx Bx. cbn [estep]. rewrite Wx. destruct (e_eb x) eqn:Q; try congruence; eexists; split; reflexivity. }
  destruct (match e_eb s with EBusy => true | _ => false end) eqn:B.
  2:{ destruct (Go s W) as (y & E & Wy); [intros X; rewrite X in B; discriminate|].
      exists [MSendGo], y. cbn [erun]. rewrite E. repeat split; auto; cbn; lia || (repeat constructor; cbn; tauto). }
  assert (Hb : e_eb s = EBusy) by (destruct (e_eb s); congruence). specialize (L Hb).
  (* consuming one signal *)
  assert (Sig : forall x r, e_w x = WWaitEv -> e_eb x = EBusy -> e_sigs x = [r] ->
     exists y z, estep x MCompleted = Some y /\ estep y MSendGo = Some z /\ e_w z = WBulk).
  { intros x r Wx Bx Sx. cbn [estep]. rewrite Sx, Bx.
    assert (Q : forall y, e_w y = WWaitEv -> send_queued y = y) by (intros y Hy; unfold send_queued; now rewrite Hy).
    destruct r; (eexists; eexists; split; [reflexivity|]); rewrite Q by exact Wx; cbn [estep upd_main upd_q set_eb e_w e_eb];
      rewrite Wx; split; reflexivity. }
  destruct I as [_ _ _ _ _ H6]. unfold tokens in L.
  destruct (e_th s) eqn:E.
  1,2: destruct T as [T|[T|T]]; discriminate.
  - assert (exists r, e_sigs s = [r]) as (r & Sr) by (destruct (e_sigs s) as [|r [|? ?]]; cbn in L; try lia; eauto).
    destruct (Sig s r W Hb Sr) as (y & z & E1 & E2 & Wz). exists [MCompleted; MSendGo], z. cbn [erun]. rewrite E1, E2.
    repeat split; auto; cbn; lia || (repeat constructor; cbn; tauto).
  - assert (Sr : e_sigs s = []) by (destruct (e_sigs s); [reflexivity|cbn in L; lia]).
    destruct (e_cur s) as [c|] eqn:C; [|destruct (e_q s) as [|c q] eqn:Eq].
    + assert (A1 : estep s TStart = Some (upd_q s (e_q s) (Some c) TWriting [])) by (cbn [estep]; now rewrite E, C, Sr).
      assert (A2 : estep (upd_q s (e_q s) (Some c) TWriting []) TFail =
        Some (upd_q (upd_q s (e_q s) (Some c) TWriting []) (e_q s) (Some c) TWaiting [RRetry])) by reflexivity.
      destruct (Sig (upd_q (upd_q s (e_q s) (Some c) TWriting []) (e_q s) (Some c) TWaiting [RRetry]) RRetry) as (y & z & E1 & E2 & Wz); try assumption; try reflexivity.
      exists [TStart; TFail; MCompleted; MSendGo], z. split; [cbn; lia|]. split; [repeat constructor; cbn; tauto|].
      cbn [erun]. rewrite A1, A2, E1, E2. auto.
    + assert (A1 : estep s TStart = Some (upd_q s [] None TWaiting [RSuccess])) by (cbn [estep]; now rewrite E, C, Eq, Sr).
      destruct (Sig (upd_q s [] None TWaiting [RSuccess]) RSuccess) as (y & z & E1 & E2 & Wz); try assumption; try reflexivity.
      exists [TStart; MCompleted; MSendGo], z. split; [cbn; lia|]. split; [repeat constructor; cbn; tauto|].
      cbn [erun]. rewrite A1, E1, E2. auto.
    + assert (A1 : estep s TStart = Some (upd_q s q (Some c) TWriting [])) by (cbn [estep]; now rewrite E, C, Eq, Sr).
      assert (A2 : estep (upd_q s q (Some c) TWriting []) TFail =
        Some (upd_q (upd_q s q (Some c) TWriting []) q (Some c) TWaiting [RRetry])) by reflexivity.
      destruct (Sig (upd_q (upd_q s q (Some c) TWriting []) q (Some c) TWaiting [RRetry]) RRetry) as (y & z & E1 & E2 & Wz); try assumption; try reflexivity.
      exists [TStart; TFail; MCompleted; MSendGo], z. split; [cbn; lia|]. split; [repeat constructor; cbn; tauto|].
      cbn [erun]. rewrite A1, A2, E1, E2. auto.
  - assert (Sr : e_sigs s = []) by (destruct (e_sigs s); [reflexivity|cbn in L; lia]).
    assert (A1 : estep s TFail = Some (upd_q s (e_q s) (e_cur s) TWaiting [RRetry])) by (cbn [estep]; now rewrite E, Sr).
    destruct (Sig (upd_q s (e_q s) (e_cur s) TWaiting [RRetry]) RRetry) as (y & z & E1 & E2 & Wz); try assumption; try reflexivity.
    exists [TFail; MCompleted; MSendGo], z. split; [cbn; lia|]. split; [repeat constructor; cbn; tauto|].
    cbn [erun]. rewrite A1, E1, E2. auto.
Qed.

(** ** C19: when the failure count goes down *)
Lemma failed_decreases s a s' : estep s a = Some s' -> e_failed s' < e_failed s ->
  (a = MSession true /\ e_sess s = false) \/ (a = MCompleted /\ exists rest, e_sigs s = RSuccess :: rest).
Proof.
  intros H D.
  assert (Q : forall x, e_failed (send_queued x) = e_failed x) by (intros x; apply send_queued_same).
  destruct a as [e|b| | | | | | | | | | | | | | | ]; cbn [estep] in H;
  try (left; split; [reflexivity|]);
  repeat match type of H with
  | Some _ = Some _ => injection H as <-; rewrite ?Q in D; esimp; try lia
  | None = Some _ => discriminate
  | context [if ?c then _ else _] => destruct c eqn:?
  | context [match ?c with _ => _ end] => destruct c eqn:?
  end; rewrite ?Q in D; esimp; try lia; eauto.
  all: try (destruct b; esimp; [|lia]; destruct (e_sess s); [discriminate|auto]).
Qed.
(** ** C18: a completed event is never sent again: each step adds at most one
    event to the sent history, and it is the one at the head of what is pending. *)
Definition pending (s : est) : list N := curl (e_cur s) ++ e_q s.
Lemma sent_step s a s' : einv s -> estep s a = Some s' ->
  (h_sent s' = h_sent s) \/ (exists e, h_sent s' = h_sent s ++ [e] /\ pending s = e :: pending s').
Proof.
  intros I H.
  assert (Q : forall x, h_sent (send_queued x) = h_sent x).
  { intros x. unfold send_queued. destruct (e_w x); auto. destruct (e_resp x); auto. destruct (e_sess x); auto. cbn [negb].
    destruct (e_eb x); auto; destruct (e_q x); auto; destruct (MAX_FAIL <=? e_failed x); reflexivity. }
  destruct a as [e|b| | | | | | | | | | | | | | | ]; cbn [estep] in H;
  repeat match type of H with
  | Some _ = Some _ => injection H as <-; rewrite ?Q; esimp; auto
  | None = Some _ => discriminate
  | context [if ?c then _ else _] => destruct c eqn:?
  | context [match ?c with _ => _ end] => destruct c eqn:?
  end; rewrite ?Q; esimp; auto.
  right. eexists. split; [reflexivity|]. unfold pending. esimp. rewrite ?Heqo. reflexivity.
Qed.

(** ** No event is forgotten *)
Fixpoint orderly (s : est) (l : list eact) : Prop :=
  match l with
  | [] => True
  | a :: r => (forall b, a = MSession b -> e_resp s = true) /\ match estep s a with Some s' => orderly s' r | None => True end
  end.
Definition minded (s : est) : Prop :=
  (e_w s = WFree -> e_resp s = false -> e_sess s = true -> e_q s <> [] \/ e_eb s = ERetry -> e_eb s = EBusy \/ e_eb s = EDisabled) /\
  (e_eb s = EDisabled -> 3 <= e_failed s).
Lemma send_queued_minded s : (e_eb s = EDisabled -> 3 <= e_failed s) -> minded (send_queued s).
Proof.
  intros D. unfold send_queued, MAX_FAIL. destruct (e_w s) eqn:W; [|split; [congruence|exact D]..].
  destruct (e_resp s) eqn:R; [split; [congruence|exact D]|]. destruct (e_sess s) eqn:S; [|split; [cbn; congruence|exact D]]. cbn [negb].
  destruct (e_eb s) eqn:B; [|split; auto| |split; auto]; try (rewrite B; auto).
  - destruct (e_q s) eqn:Q.
    + split; [|congruence]. intros _ _ _ [X|X]; congruence.
    + destruct (3 <=? e_failed s) eqn:F; split; esimp; auto; try lia; discriminate.
  - destruct (3 <=? e_failed s) eqn:F; split; esimp; auto; try lia; discriminate.
Qed.
Lemma minded_same s s' : minded s -> e_w s' = e_w s \/ e_w s' <> WFree -> e_resp s' = e_resp s \/ e_resp s' = true ->
  e_sess s' = e_sess s -> (e_q s' = e_q s \/ e_q s' = []) -> e_eb s' = e_eb s -> e_failed s <= e_failed s' -> minded s'.
Proof.
  intros [J D] Hw Hr Hs Hq He Hf. split.
  - intros W R S X. rewrite He. apply J; try congruence; [destruct Hw; congruence|destruct Hr; congruence|].
    rewrite He in X. destruct X as [X|X]; [left; destruct Hq; congruence|now right].
  - rewrite He. intros X. apply D in X. lia.
Qed.
Lemma minded_step s a s' : minded s -> (forall b, a = MSession b -> e_resp s = true) -> estep s a = Some s' -> minded s'.
Proof.
  intros J O. pose proof J as [J1 D]. destruct a as [e|b| | | | | | | | | | | | | | | ]; cbn [estep].
  - destruct (negb (e_sess s)); [now intros [= <-]|]. destruct (MAX_FAIL <=? e_failed s); [now intros [= <-]|].
    intros [= <-]. apply send_queued_minded. exact D.
  - destruct (Bool.eqb b (e_sess s)); [now intros [= <-]|]. intros [= <-]. split; esimp.
    + rewrite (O b eq_refl). discriminate.
    + destruct (e_eb s); discriminate.
  - intros [= <-]. apply (minded_same s); esimp; auto. lia.
  - destruct (e_resp s) eqn:R; intros [= <-]; [apply send_queued_minded; exact D|exact J].
  - destruct (e_w s) eqn:W; intros [= <-]; auto.
    destruct (_ =? MAX_FAIL); apply (minded_same s); esimp; auto; lia.
  - destruct (e_sigs s) as [|r rest] eqn:S; [discriminate|].
    destruct (e_eb s) eqn:B; try destruct r; intros [= <-]; try (apply send_queued_minded; esimp; discriminate);
      try (apply (minded_same s); esimp; auto; try congruence; lia).
  - destruct (e_w s) eqn:W; intros [= <-]; auto; try (apply (minded_same s); esimp; auto; try lia; right; discriminate).
  - destruct (e_w s) eqn:W; try discriminate. destruct (e_eb s) eqn:B; try discriminate; intros [= <-];
      (apply (minded_same s); esimp; auto; try lia; right; discriminate).
  - destruct (e_w s) eqn:W; try discriminate. intros [= <-]. apply send_queued_minded. exact D.
  - intros [= <-]. apply (minded_same s); esimp; auto; lia.
  - intros [= <-]. apply (minded_same s); esimp; auto; lia.
  - destruct (e_th s); intros [= <-]; auto; try (apply (minded_same s); esimp; auto; lia).
  - destruct (e_th s); try discriminate; intros [= <-]; apply (minded_same s); esimp; auto; lia.
  - destruct (e_th s) eqn:T; try discriminate. destruct (e_cur s); [|destruct (e_q s) as [|e q] eqn:Q]; intros [= <-].
    + apply (minded_same s); esimp; auto; lia.
    + apply (minded_same s); esimp; auto; lia.
    + split; esimp; [|exact D]. intros W R S X. apply J1; auto. destruct X as [X|X]; auto. left. discriminate.
  - destruct (e_th s); try discriminate. destruct (e_cur s); [|discriminate]. intros [= <-]; apply (minded_same s); esimp; auto; lia.
  - destruct (e_th s); try discriminate. intros [= <-]; apply (minded_same s); esimp; auto; lia.
  - destruct (e_th s); try discriminate. intros [= <-]; apply (minded_same s); esimp; auto; lia.
Qed.
Lemma minded_run l : forall s s', minded s -> orderly s l -> erun s l = Some s' -> minded s'.
Proof.
  induction l as [|a l IH]; intros s s' H O; cbn [erun]; [now intros [= <-]|].
  cbn [orderly] in O. destruct O as [Oa O]. destruct (estep s a) eqn:E; [|discriminate].
  apply IH; [eapply minded_step; eauto|exact O].
Qed.
Lemma minded_init : minded ev_init.
Proof. split; cbn; discriminate. Qed.

(** ** A working endpoint empties the queue *)
Lemma drains : forall q s, e_q s = q -> e_th s = TWoken -> e_eb s = EBusy -> e_sigs s = [] ->
  e_w s = WFree -> e_resp s = false -> e_sess s = true ->
  exists l s', Forall (fun a => In a [TStart; TDone; MCompleted]) l /\ erun s l = Some s' /\
    h_sent s' = h_sent s ++ curl (e_cur s) ++ q /\ e_q s' = [] /\ e_cur s' = None.
Proof.
  assert (G : forall n q s, (length (curl (e_cur s) ++ q) <= n)%nat -> e_q s = q -> e_th s = TWoken -> e_eb s = EBusy -> e_sigs s = [] ->
    e_w s = WFree -> e_resp s = false -> e_sess s = true ->
    exists l s', Forall (fun a => In a [TStart; TDone; MCompleted]) l /\ erun s l = Some s' /\
      h_sent s' = h_sent s ++ curl (e_cur s) ++ q /\ e_q s' = [] /\ e_cur s' = None).
  { induction n as [|n IH]; intros q s L Q T B S W R Se.
    - exists [], s. destruct (e_cur s), q; cbn in L; try lia. cbn. rewrite app_nil_r. auto.
    - destruct (curl (e_cur s) ++ q) as [|e rest] eqn:P.
      { apply app_eq_nil in P as [P1 P2]. exists [], s. destruct (e_cur s); [discriminate|]. rewrite app_nil_r. subst q. repeat split; auto; cbn; auto. }
      (* the head goes out *)
      set (s3 := mk_est rest None (match rest with [] => TWaiting | _ => TWoken end) [] WFree false true (match rest with [] => EIdle | _ => EBusy end) 0 (h_added s) (h_sent s ++ [e])).
      assert (X : erun s [TStart; TDone; MCompleted] = Some s3).
      { cbn [erun estep]. rewrite T. destruct (e_cur s) as [c|] eqn:C; cbn [curl app] in P.
        - injection P as <- <-. esimp. cbn [estep]. esimp. rewrite S, B. cbn [app]. esimp.
          unfold send_queued, s3. esimp. rewrite W, R, Se, Q. cbn [negb]. destruct q; reflexivity.
        - rewrite Q, P. esimp. cbn [estep]. esimp. rewrite S, B. cbn [app]. esimp.
          unfold send_queued, s3. esimp. rewrite W, R, Se. cbn [negb]. destruct rest; reflexivity. }
      destruct rest as [|e2 rest].
      + exists [TStart; TDone; MCompleted], s3. split; [repeat apply Forall_cons; auto; cbn; tauto|]. split; [exact X|]. auto.
      + destruct (IH (e2 :: rest) s3) as (l & s' & F & Rn & Hs & Hq & Hc); try reflexivity; [cbn in *; lia|].
        exists ([TStart; TDone; MCompleted] ++ l), s'. split; [apply Forall_app; split; [repeat apply Forall_cons; auto; cbn; tauto|exact F]|].
        split; [|split; [|auto]].
        * assert (EA : forall l1 l2 x, erun x (l1 ++ l2) = match erun x l1 with Some y => erun y l2 | None => None end).
          { induction l1 as [|a l1 IH1]; intros l2 x; cbn [erun app]; [reflexivity|]. destruct (estep x a); [apply IH1|reflexivity]. }
          rewrite EA, X. exact Rn.
        * rewrite Hs. cbn [s3 h_sent e_cur curl app]. rewrite <- app_assoc. reflexivity. }
  intros q s. eapply G. reflexivity.
Qed.
