From Verif Require Import Base Ring.

Lemma slice_length m n : forall a, length (slice m a n) = n.
Proof. induction n; intros; cbn; auto. Qed.
Lemma slice_app m n k : forall a, slice m a (n + k) = slice m a n ++ slice m (a + N.of_nat n) k.
Proof.
  induction n; intros a; cbn [slice Nat.add app]; [f_equal; lia|].
  f_equal. rewrite IHn. do 2 f_equal. lia.
Qed.
Lemma slice_ext m m' n : forall a, (forall x, a <= x < a + N.of_nat n -> m x = m' x) -> slice m a n = slice m' a n.
Proof.
  induction n; intros a H; cbn [slice]; [reflexivity|]. f_equal; [apply H; lia|].
  apply IHn. intros x Hx. apply H. lia.
Qed.
Lemma store_out bs : forall m a x, ~ (a <= x < a + len bs) -> store m a bs x = m x.
Proof.
  induction bs as [|b r IH]; intros m a x H; [reflexivity|]. cbn [store]. rewrite len_cons in H.
  destruct (x =? a) eqn:E; [lia|]. apply IH. lia.
Qed.
Lemma slice_store bs : forall m a, slice (store m a bs) a (length bs) = bs.
Proof.
  induction bs as [|b r IH]; intros m a; [reflexivity|]. cbn [length slice store].
  rewrite N.eqb_refl. f_equal. rewrite <- (IH m (a + 1)) at 2.
  apply slice_ext. intros x Hx. destruct (x =? a) eqn:E; [lia|reflexivity].
Qed.

(** What is in the buffer, oldest first. *)
Definition content (s : ring) : bytes :=
  slice (g_mem s) (g_start s) (N.to_nat (g_size1 s)) ++ slice (g_mem s) 0 (N.to_nat (g_size2 s)).

Definition rd_inv (s : ring) : Prop :=
  match g_rd s with
  | RFlight off =>
      off + MAX_IN <= BUFSZ /\
      ((off = g_start s + g_size1 s /\ (g_size2 s = 0 \/ off = 0)) \/
       (off = g_size2 s /\ off + MAX_IN <= g_start s /\ BUFSZ < g_start s + g_size1 s + MAX_IN))
  | RDead => False
  | _ => True
  end.
Record inv (s : ring) : Prop := {
  i_end : g_start s + g_size1 s <= BUFSZ;
  i_two : g_size2 s <= g_start s;
  i_full : 0 < g_size2 s -> BUFSZ < g_start s + g_size1 s + MAX_IN;
  i_rd : rd_inv s;
  i_pend : g_pend s <= g_rem s;
  i_rem : g_rem s <= g_size1 s;
  i_ptr : 0 < g_rem s -> g_ptr s = g_start s;
  i_idle : g_busy s = false -> g_rem s = 0;
  i_fifo : exists rel, h_in s = rel ++ content s /\
             h_out s = rel ++ slice (g_mem s) (g_start s) (N.to_nat (g_pend s))
}.

Lemma inv_init m : inv (ring_init m).
Proof. constructor; unfold rd_inv; cbn; try lia. exists []. split; reflexivity. Qed.

(** Memory changes outside the content keep the history relation. *)
Lemma content_frame s m' :
  (forall x, g_start s <= x < g_start s + g_size1 s \/ x < g_size2 s -> m' x = g_mem s x) ->
  slice m' (g_start s) (N.to_nat (g_size1 s)) ++ slice m' 0 (N.to_nat (g_size2 s)) = content s.
Proof.
  intros H. unfold content. f_equal; apply slice_ext; intros x Hx; apply H; lia.
Qed.

Ltac inv_split H := destruct H as [He Ht Hf Hr Hp Hm Hq Hi (rel & F1 & F2)].

Lemma do_get_inv s n : inv s -> g_rem s = 0 -> inv (do_get s n).
Proof.
  intros H Hrem. inv_split H. unfold do_get, switch.
  assert (Hpend : g_pend s = 0) by lia. rewrite Hpend in F2. cbn [N.to_nat slice] in F2.
  destruct ((g_size1 s =? 0) && (0 <? g_size2 s)) eqn:E.
  - assert (g_size1 s = 0 /\ 0 < g_size2 s) as [E1 E2] by lia.
    constructor; unfold rd_inv in *; cbn [g_mem g_start g_size1 g_size2 g_rd g_sigs g_busy g_post g_ptr g_rem g_pend h_in h_out] in *;
      unfold BUFSZ, MAX_IN in *; try lia.
    + destruct (g_rd s) as [|off| |]; auto. lia.
    + intros; destruct (0 <? g_size2 s) eqn:?; lia.
    + exists rel. split; [|exact F2]. rewrite F1. f_equal. unfold content; cbn [g_mem g_start g_size1 g_size2].
      rewrite E1. cbn [N.to_nat slice app]. now rewrite app_nil_r.
  - constructor; unfold rd_inv in *; cbn [g_mem g_start g_size1 g_size2 g_rd g_sigs g_busy g_post g_ptr g_rem g_pend h_in h_out] in *; 
      unfold BUFSZ, MAX_IN in *; try lia; auto.
    + intros; destruct (0 <? g_size1 s) eqn:?; lia.
    + exists rel. split; [exact F1|exact F2].
Qed.

Lemma store1_out m x v y : x <> y -> store m x [v] y = m y.
Proof. intros. apply store_out. cbn. lia. Qed.

Lemma step_inv s a s' : inv s -> step s a = Some s' -> inv s'.
Proof.
  intros H. destruct a as [|x v|bs| | | | |k| | |]; cbn [step].
  - (* APick *)
    inv_split H. destruct (g_rd s) eqn:R; try discriminate. unfold get_offset.
    destruct (_ <=? BUFSZ) eqn:E1; [|destruct (_ <=? g_start s) eqn:E2; [|discriminate]];
      intros [= <-]; constructor; unfold rd_inv; cbn [g_mem g_start g_size1 g_size2 g_rd g_sigs g_busy g_post g_ptr g_rem g_pend h_in h_out] in *;
      unfold BUFSZ, MAX_IN in *; try lia; auto; exists rel; split; assumption.
  - (* AScribble *)
    inv_split H. destruct (g_rd s) as [|off| |] eqn:R; try discriminate.
    destruct (_ && _) eqn:E; [|discriminate]. intros [= <-].
    unfold rd_inv in Hr; rewrite R in Hr.
    assert (Hx : forall y, g_start s <= y < g_start s + g_size1 s \/ y < g_size2 s -> store (g_mem s) x [v] y = g_mem s y).
    { intros y Hy. apply store1_out. unfold BUFSZ, MAX_IN in *. lia. }
    constructor; unfold rd_inv; cbn [g_mem g_start g_size1 g_size2 g_rd g_sigs g_busy g_post g_ptr g_rem g_pend h_in h_out] in *; rewrite ?R; auto.
    exists rel. split.
    + rewrite F1. f_equal. unfold content; cbn [g_mem g_start g_size1 g_size2]. symmetry. now apply content_frame.
    + rewrite F2. f_equal. apply slice_ext. intros y Hy. symmetry; apply Hx. lia.
  - (* ADone *)
    inv_split H. destruct (g_rd s) as [|off| |] eqn:R; try discriminate.
    destruct (len bs <=? MAX_IN) eqn:E; [|discriminate].
    unfold rd_inv in Hr; rewrite R in Hr. unfold mark_new.
    assert (Hx : forall y, g_start s <= y < g_start s + g_size1 s \/ y < g_size2 s -> store (g_mem s) off bs y = g_mem s y).
    { intros y Hy. apply store_out. unfold BUFSZ, MAX_IN in *. lia. }
    destruct (off =? g_start s + g_size1 s) eqn:E1; [|destruct (off =? g_size2 s) eqn:E2].
    + intros [= <-]. assert (g_size2 s = 0) as Z by (unfold BUFSZ, MAX_IN in *; lia).
      constructor; unfold rd_inv; cbn [g_mem g_start g_size1 g_size2 g_rd g_sigs g_busy g_post g_ptr g_rem g_pend h_in h_out] in *;
        unfold BUFSZ, MAX_IN in *; try lia; auto.
      exists rel. split.
      * rewrite F1. unfold content; cbn [g_mem g_start g_size1 g_size2]. rewrite Z. cbn [N.to_nat slice]. rewrite !app_nil_r.
        rewrite <- app_assoc. f_equal.
        replace (N.to_nat (g_size1 s + len bs)) with (N.to_nat (g_size1 s) + length bs)%nat by (unfold len; lia).
        rewrite slice_app. replace (g_start s + N.of_nat (N.to_nat (g_size1 s))) with off by lia.
        rewrite slice_store. f_equal. apply slice_ext. intros y Hy. symmetry. apply Hx. lia.
      * rewrite F2. f_equal. apply slice_ext. intros y Hy. symmetry; apply Hx. lia.
    + intros [= <-].
      constructor; unfold rd_inv; cbn [g_mem g_start g_size1 g_size2 g_rd g_sigs g_busy g_post g_ptr g_rem g_pend h_in h_out] in *;
        unfold BUFSZ, MAX_IN in *; try lia; auto.
      exists rel. split.
      * rewrite F1. unfold content; cbn [g_mem g_start g_size1 g_size2].
        rewrite <- !app_assoc. f_equal. f_equal; [apply slice_ext; intros y Hy; symmetry; apply Hx; lia|].
        replace (N.to_nat (g_size2 s + len bs)) with (N.to_nat (g_size2 s) + length bs)%nat by (unfold len; lia).
        rewrite slice_app. replace (0 + N.of_nat (N.to_nat (g_size2 s))) with off by lia.
        rewrite slice_store. f_equal. apply slice_ext. intros y Hy. symmetry. apply Hx. lia.
      * rewrite F2. f_equal. apply slice_ext. intros y Hy. symmetry; apply Hx. lia.
    + unfold BUFSZ, MAX_IN in *; lia.
  - (* ARetry *)
    inv_split H. destruct (g_rd s) eqn:R; try discriminate. intros [= <-].
    constructor; unfold rd_inv; cbn [g_mem g_start g_size1 g_size2 g_rd g_sigs g_busy g_post g_ptr g_rem g_pend h_in h_out] in *; auto.
    exists rel; split; assumption.
  - (* AEmit *)
    inv_split H. destruct (g_rd s) eqn:R; try discriminate. intros [= <-].
    constructor; unfold rd_inv; cbn [g_mem g_start g_size1 g_size2 g_rd g_sigs g_busy g_post g_ptr g_rem g_pend h_in h_out] in *; auto.
    exists rel; split; assumption.
  - (* AGet *)
    destruct (_ && _) eqn:E; [|discriminate]. intros [= <-]. apply do_get_inv; [exact H|].
    apply (i_idle _ H). destruct (g_busy s); [discriminate|reflexivity].
  - (* ANested *)
    inv_split H. destruct (_ && _) eqn:E; [|discriminate]. intros [= <-].
    constructor; unfold rd_inv in *; cbn [g_mem g_start g_size1 g_size2 g_rd g_sigs g_busy g_post g_ptr g_rem g_pend h_in h_out] in *; auto; try discriminate.
    exists rel; split; assumption.
  - (* ARead *)
    inv_split H. destruct (_ && _) eqn:E; [|discriminate]. intros [= <-].
    constructor; unfold rd_inv in *; cbn [g_mem g_start g_size1 g_size2 g_rd g_sigs g_busy g_post g_ptr g_rem g_pend h_in h_out] in *; auto; try lia.
    exists rel. split; [exact F1|]. rewrite F2. replace (g_pend s) with 0 by lia. cbn [N.to_nat slice]. rewrite app_nil_r.
    now rewrite Hq by lia.
  - (* ARelease *)
    inv_split H. destruct (_ && _) eqn:E; [|discriminate]. unfold switch.
    assert (F1' : h_in s = (rel ++ slice (g_mem s) (g_start s) (N.to_nat (g_pend s))) ++
        slice (g_mem s) (g_start s + g_pend s) (N.to_nat (g_size1 s - g_pend s)) ++
        slice (g_mem s) 0 (N.to_nat (g_size2 s))).
    { rewrite F1. unfold content. rewrite <- !app_assoc. f_equal. rewrite app_assoc. f_equal.
      replace (N.to_nat (g_size1 s)) with (N.to_nat (g_pend s) + N.to_nat (g_size1 s - g_pend s))%nat by lia.
      rewrite slice_app. do 2 f_equal. lia. }
    destruct ((g_size1 s - g_pend s =? 0) && (0 <? g_size2 s)) eqn:E2; intros [= <-].
    + constructor; unfold rd_inv in *; cbn [g_mem g_start g_size1 g_size2 g_rd g_sigs g_busy g_post g_ptr g_rem g_pend h_in h_out] in *;
        unfold BUFSZ, MAX_IN in *; try lia.
      * destruct (g_rd s); auto. lia.
      * exists (rel ++ slice (g_mem s) (g_start s) (N.to_nat (g_pend s))). split.
        -- rewrite F1'. f_equal. unfold content; cbn [g_mem g_start g_size1 g_size2].
           replace (g_size1 s - g_pend s) with 0 by lia. cbn [N.to_nat slice app]. now rewrite app_nil_r.
        -- rewrite F2. cbn [N.to_nat slice]. now rewrite app_nil_r.
    + constructor; unfold rd_inv in *; cbn [g_mem g_start g_size1 g_size2 g_rd g_sigs g_busy g_post g_ptr g_rem g_pend h_in h_out] in *;
        unfold BUFSZ, MAX_IN in *; try lia.
      * destruct (g_rd s); auto. lia.
      * exists (rel ++ slice (g_mem s) (g_start s) (N.to_nat (g_pend s))). split; [exact F1'|].
        rewrite F2. cbn [N.to_nat slice]. now rewrite app_nil_r.
  - (* AFinish *)
    destruct (_ && _) eqn:E; [|discriminate].
    destruct (g_post s); intros [= <-]; [apply do_get_inv; [exact H|lia]|].
    inv_split H. 
    constructor; unfold rd_inv in *; cbn [g_mem g_start g_size1 g_size2 g_rd g_sigs g_busy g_post g_ptr g_rem g_pend h_in h_out] in *; auto; try lia.
    exists rel. split; [exact F1|]. rewrite F2. now replace (g_pend s) with 0 by lia.
  - (* AReset *)
    intros [= <-]. constructor; unfold rd_inv; cbn; try lia. exists []. split; reflexivity.
Qed.

Lemma run_inv l : forall s s', inv s -> run s l = Some s' -> inv s'.
Proof.
  induction l as [|a l IH]; intros s s' H; cbn [run]; [now intros [= <-]|].
  destruct (step s a) eqn:E; [|discriminate]. apply IH. eapply step_inv; eauto.
Qed.
Lemma run_app l1 : forall l2 s, run s (l1 ++ l2) = match run s l1 with Some s' => run s' l2 | None => None end.
Proof. induction l1 as [|a l1 IH]; intros l2 s; cbn [run app]; [reflexivity|]. destruct (step s a); [apply IH|reflexivity]. Qed.
Lemma reachable_inv s : reachable s -> inv s.
Proof. intros (m & l & H). eapply run_inv; [apply inv_init|exact H]. Qed.

(** ** Notifications and data: when can the reader go on, when is data left behind *)
Definition bN (b : bool) : N := if b then 1 else 0.
Definition is_marked (r : reader) : bool := match r with RMarked => true | _ => false end.
(** pieces of data the main thread has not been given yet *)
Definition groups (s : ring) : N := bN (g_rem s <? g_size1 s) + bN (0 <? g_size2 s).
(** notifications that will make it look *)
Definition cover (s : ring) : N := g_sigs s + bN (is_marked (g_rd s)) + bN (g_post s).
Record cinv (s : ring) : Prop := {
  c_inv : inv s;
  c_post : g_post s = true -> g_busy s = true;
  c_edge : g_rem s < g_size1 s -> g_start s + g_rem s + MAX_IN <= BUFSZ;
  c_cover : groups s <= cover s \/
    (groups s = cover s + 1 /\
     (0 < cover s \/
      (0 < g_rem s /\ g_rem s = g_size1 s /\ g_size2 s + MAX_IN <= BUFSZ) \/
      (g_size2 s = 0 /\ g_start s + g_size1 s + MAX_IN <= BUFSZ)))
}.
Lemma cinv_init m : cinv (ring_init m).
Proof. constructor; [apply inv_init|cbn; discriminate|cbn; lia|left; vm_compute; discriminate]. Qed.
Ltac fields := cbn [g_mem g_start g_size1 g_size2 g_rd g_sigs g_busy g_post g_ptr g_rem g_pend] in *.
Ltac cases := repeat match goal with |- context [if ?b then _ else _] => destruct b eqn:? | H : context [if ?b then _ else _] |- _ => destruct b eqn:? end.
Lemma do_get_cover s sigs : inv s -> g_rem s = 0 ->
  (g_rem s < g_size1 s -> g_start s + g_rem s + MAX_IN <= BUFSZ) ->
  (groups s <= sigs + bN (is_marked (g_rd s)) + 1 \/ groups s = sigs + bN (is_marked (g_rd s)) + 2 /\ (0 < sigs + bN (is_marked (g_rd s)) + 1 \/ (g_size2 s = 0 /\ g_start s + g_size1 s + MAX_IN <= BUFSZ))) ->
  inv (do_get s sigs) -> cinv (do_get s sigs).
Proof.
  intros H Z E Cv H'. inv_split H. constructor; [exact H'|unfold do_get, switch; destruct (_ && _); fields; auto; discriminate| |].
  - unfold do_get, switch. destruct (_ && _); fields; intros X; lia.
  - unfold groups, cover, bN in *. unfold do_get, switch. fields.
    destruct ((g_size1 s =? 0) && (0 <? g_size2 s)) eqn:E2; fields; rewrite N.ltb_irrefl; try (rewrite N.ltb_irrefl).
    + left. lia.
    + destruct (0 <? g_size2 s) eqn:S2; [|left; lia].
      destruct (g_rem s <? g_size1 s) eqn:S1; [|exfalso; lia].
      destruct (is_marked (g_rd s)) eqn:MK; [left; lia|].
      destruct (N.eq_dec sigs 0) as [->|]; [|left; lia]. right. split; [lia|]. right. left. lia.
Qed.
Lemma cinv_step s a s' : cinv s -> step s a = Some s' -> cinv s'.
Proof.
  intros [H Hpo Hed Hc] Hs. pose proof (step_inv _ _ _ H Hs) as H'. pose proof H as H0. inv_split H0.
  destruct a as [|x v|bs| | | | |k| | |]; cbn [step] in Hs.
  - destruct (g_rd s) eqn:R; try discriminate. destruct (get_offset s); [|discriminate].
    injection Hs as <-. constructor; [exact H'|fields; auto..].
    unfold groups, cover, is_marked in *. fields. rewrite R in Hc. exact Hc.
  - destruct (g_rd s) eqn:R; try discriminate. destruct (_ && _); [|discriminate].
    injection Hs as <-. constructor; [exact H'|fields; auto..].
    unfold groups, cover, is_marked in *. fields. rewrite R in *. exact Hc.
  - destruct (g_rd s) as [|off| |] eqn:R; try discriminate. destruct (len bs <=? MAX_IN); [|discriminate].
    unfold rd_inv in Hr; rewrite R in Hr. unfold mark_new in Hs. unfold groups, cover, is_marked, bN in Hc. rewrite R in Hc.
    destruct (off =? g_start s + g_size1 s) eqn:E1; [|destruct (off =? g_size2 s) eqn:E2]; injection Hs as <-;
      (constructor; [exact H'|fields; auto|fields; unfold MAX_IN, BUFSZ in *; lia|]);
      unfold groups, cover, is_marked, bN; fields; unfold MAX_IN, BUFSZ in *.
    + destruct (g_rem s <? g_size1 s) eqn:?, (g_rem s <? g_size1 s + len bs) eqn:?, (0 <? g_size2 s) eqn:?, (g_post s); lia.
    + destruct (g_rem s <? g_size1 s) eqn:?, (0 <? g_size2 s + len bs) eqn:?, (0 <? g_size2 s) eqn:?, (g_post s); lia.
    + exfalso. lia.
  - destruct (g_rd s) eqn:R; try discriminate.
    injection Hs as <-. constructor; [exact H'|fields; auto..].
    unfold groups, cover, is_marked in *. fields. rewrite R in Hc. exact Hc.
  - destruct (g_rd s) eqn:R; try discriminate.
    injection Hs as <-. constructor; [exact H'|fields; auto..].
    unfold groups, cover, is_marked, bN in *. fields. rewrite R in Hc.
    destruct Hc as [Hc|[Hc D]]; [left; lia|right; split; [lia|]]. destruct D as [D|D]; [left; lia|right; exact D].
  - destruct (_ && _) eqn:E; [|discriminate]. injection Hs as <-.
    assert (B : g_busy s = false) by (destruct (g_busy s); [discriminate|reflexivity]).
    assert (g_rem s = 0) as Z by (apply Hi; exact B).
    assert (g_post s = false) as P by (destruct (g_post s); [rewrite Hpo in B by reflexivity; discriminate|reflexivity]).
    apply do_get_cover; auto. unfold cover, bN in Hc. rewrite P in Hc.
    destruct Hc as [Hc|[Hc D]]; [left; unfold bN; lia|right; split; [unfold bN; lia|]]. unfold bN. lia.
  - destruct (_ && _) eqn:E; [|discriminate]. injection Hs as <-. constructor; [exact H'|fields; auto|fields; auto|].
    unfold groups, cover, bN in *. fields.
    destruct (g_rem s <? g_size1 s) eqn:?, (0 <? g_size2 s) eqn:?, (is_marked (g_rd s)), (g_post s); lia.
  - destruct (_ && _) eqn:E; [|discriminate]. injection Hs as <-. constructor; [exact H'|fields; auto..].
  - destruct (_ && _) eqn:E; [|discriminate]. unfold switch in Hs.
    destruct ((g_size1 s - g_pend s =? 0) && (0 <? g_size2 s)) eqn:E2; injection Hs as <-;
      (constructor; [exact H'|fields; auto|fields; unfold MAX_IN, BUFSZ in *; lia|]); unfold groups, cover, bN in *; fields; unfold MAX_IN, BUFSZ in *.
    + destruct (g_rem s - g_pend s <? g_size2 s) eqn:?, (0 <? 0) eqn:?, (0 <? g_size2 s) eqn:?, (g_rem s <? g_size1 s) eqn:?, (is_marked (g_rd s)), (g_post s); lia.
    + destruct (g_rem s - g_pend s <? g_size1 s - g_pend s) eqn:?, (0 <? g_size2 s) eqn:?, (g_rem s <? g_size1 s) eqn:?, (is_marked (g_rd s)), (g_post s); lia.
  - destruct (_ && _) eqn:E; [|discriminate]. assert (Z : g_rem s = 0) by lia. destruct (g_post s) eqn:P.
    + injection Hs as <-. apply do_get_cover; auto. unfold cover, bN in Hc. rewrite P in Hc.
      destruct Hc as [Hc|[Hc D]]; [left; unfold bN; lia|right; split; [unfold bN; lia|]]. left. unfold bN. lia.
    + injection Hs as <-. constructor; [exact H'|fields; discriminate| |].
      * fields. rewrite Z in *. exact Hed.
      * unfold groups, cover in *. fields. rewrite Z, P in *. exact Hc.
  - injection Hs as <-. constructor; [exact H'|fields; auto|fields; lia|].
    unfold groups, cover, bN. fields. left. rewrite N.ltb_irrefl. lia.
Qed.
Lemma cinv_run l : forall s s', cinv s -> run s l = Some s' -> cinv s'.
Proof.
  induction l as [|a l IH]; intros s s' H; cbn [run]; [now intros [= <-]|].
  destruct (step s a) eqn:E; [|discriminate]. apply IH. eapply cinv_step; eauto.
Qed.
Lemma reachable_cinv s : reachable s -> cinv s.
Proof. intros (m & l & R). eapply cinv_run; [apply cinv_init|exact R]. Qed.

(** Schedules in which a notification that arrives while another one is being handled finds
    no data at the front of the buffer, or is the first of its kind. *)
Fixpoint calm (s : ring) (l : list action) : Prop :=
  match l with
  | [] => True
  | a :: r => (a = ANested -> g_size2 s = 0 \/ g_post s = false) /\ match step s a with Some s' => calm s' r | None => True end
  end.
Definition reachable_calm (s : ring) : Prop := exists m l, calm (ring_init m) l /\ run (ring_init m) l = Some s.
Lemma covered_step s a s' : cinv s -> groups s <= cover s -> (a = ANested -> g_size2 s = 0 \/ g_post s = false) ->
  step s a = Some s' -> groups s' <= cover s'.
Proof.
  intros [H Hpo Hed _] Hc Hn Hs. pose proof H as H0. inv_split H0.
  destruct a as [|x v|bs| | | | |k| | |]; cbn [step] in Hs.
  - destruct (g_rd s) eqn:R; try discriminate. destruct (get_offset s); [|discriminate].
    injection Hs as <-. unfold groups, cover, is_marked in *. fields. rewrite R in Hc. exact Hc.
  - destruct (g_rd s) eqn:R; try discriminate. destruct (_ && _); [|discriminate].
    injection Hs as <-. unfold groups, cover, is_marked in *. fields. rewrite R in *. exact Hc.
  - destruct (g_rd s) as [|off| |] eqn:R; try discriminate. destruct (len bs <=? MAX_IN); [|discriminate].
    unfold rd_inv in Hr; rewrite R in Hr. unfold mark_new in Hs. unfold groups, cover, is_marked, bN in *. rewrite R in Hc.
    destruct (off =? g_start s + g_size1 s) eqn:E1; [|destruct (off =? g_size2 s) eqn:E2]; injection Hs as <-; fields; unfold MAX_IN, BUFSZ in *.
    + destruct (g_rem s <? g_size1 s) eqn:?, (g_rem s <? g_size1 s + len bs) eqn:?, (0 <? g_size2 s) eqn:?, (g_post s); lia.
    + destruct (g_rem s <? g_size1 s) eqn:?, (0 <? g_size2 s + len bs) eqn:?, (0 <? g_size2 s) eqn:?, (g_post s); lia.
    + exfalso. lia.
  - destruct (g_rd s) eqn:R; try discriminate. injection Hs as <-. unfold groups, cover, is_marked in *. fields. rewrite R in Hc. exact Hc.
  - destruct (g_rd s) eqn:R; try discriminate. injection Hs as <-. unfold groups, cover, is_marked, bN in *. fields. rewrite R in Hc. lia.
  - destruct (_ && _) eqn:E; [|discriminate]. injection Hs as <-.
    assert (B : g_busy s = false) by (destruct (g_busy s); [discriminate|reflexivity]).
    assert (g_rem s = 0) as Z by (apply Hi; exact B).
    assert (g_post s = false) as P by (destruct (g_post s); [rewrite Hpo in B by reflexivity; discriminate|reflexivity]).
    unfold groups, cover, bN in *. rewrite P in Hc. unfold do_get, switch.
    destruct ((g_size1 s =? 0) && (0 <? g_size2 s)) eqn:E2; fields; rewrite N.ltb_irrefl; try rewrite N.ltb_irrefl;
      destruct (g_rem s <? g_size1 s) eqn:?, (0 <? g_size2 s) eqn:?, (is_marked (g_rd s)); lia.
  - destruct (_ && _) eqn:E; [|discriminate]. injection Hs as <-. destruct (Hn eq_refl) as [X|X];
    unfold groups, cover, bN in *; fields; destruct (g_rem s <? g_size1 s) eqn:?, (0 <? g_size2 s) eqn:?, (is_marked (g_rd s)), (g_post s); try discriminate; lia.
  - destruct (_ && _) eqn:E; [|discriminate]. injection Hs as <-. exact Hc.
  - destruct (_ && _) eqn:E; [|discriminate]. unfold switch in Hs.
    destruct ((g_size1 s - g_pend s =? 0) && (0 <? g_size2 s)) eqn:E2; injection Hs as <-; unfold groups, cover, bN in *; fields.
    + destruct (g_rem s - g_pend s <? g_size2 s) eqn:?, (0 <? 0) eqn:?, (0 <? g_size2 s) eqn:?, (g_rem s <? g_size1 s) eqn:?, (is_marked (g_rd s)), (g_post s); lia.
    + destruct (g_rem s - g_pend s <? g_size1 s - g_pend s) eqn:?, (0 <? g_size2 s) eqn:?, (g_rem s <? g_size1 s) eqn:?, (is_marked (g_rd s)), (g_post s); lia.
  - destruct (_ && _) eqn:E; [|discriminate]. assert (Z : g_rem s = 0) by lia. destruct (g_post s) eqn:P; injection Hs as <-.
    + unfold groups, cover, bN in *. rewrite P in Hc. unfold do_get, switch.
      destruct ((g_size1 s =? 0) && (0 <? g_size2 s)) eqn:E2; fields; rewrite N.ltb_irrefl; try rewrite N.ltb_irrefl;
        destruct (g_rem s <? g_size1 s) eqn:?, (0 <? g_size2 s) eqn:?, (is_marked (g_rd s)); lia.
    + unfold groups, cover in *. fields. rewrite Z, P in *. exact Hc.
  - injection Hs as <-. unfold groups, cover, bN. fields. rewrite N.ltb_irrefl. lia.
Qed.
Lemma covered_run l : forall s s', cinv s -> groups s <= cover s -> calm s l -> run s l = Some s' -> groups s' <= cover s'.
Proof.
  induction l as [|a l IH]; intros s s' H Hg Hf; cbn [run]; [now intros [= <-]|].
  cbn [calm] in Hf. destruct Hf as [Ha Hf]. destruct (step s a) eqn:E; [|discriminate].
  apply IH; [eapply cinv_step; eauto|eapply covered_step; eauto|exact Hf].
Qed.

(** ** The statements used in P_Ring.v *)
Lemma slice_prefix m a n k : (k <= n)%nat -> exists r, slice m a n = slice m a k ++ r /\ length r = (n - k)%nat.
Proof.
  intros H. exists (slice m (a + N.of_nat k) (n - k)). rewrite <- slice_app, slice_length.
  split; [f_equal; lia|reflexivity].
Qed.
Lemma fifo s : reachable s ->
  exists rest, h_in s = h_out s ++ rest /\ len rest = g_size1 s + g_size2 s - g_pend s.
Proof.
  intros H. apply reachable_inv in H. inv_split H.
  destruct (slice_prefix (g_mem s) (g_start s) (N.to_nat (g_size1 s)) (N.to_nat (g_pend s))) as (r & E & L); [lia|].
  exists (r ++ slice (g_mem s) 0 (N.to_nat (g_size2 s))). split.
  - rewrite F1, F2. unfold content. rewrite E, !app_assoc. reflexivity.
  - rewrite len_app. unfold len. rewrite L, slice_length. lia.
Qed.
Lemma no_overwrite s off : reachable s -> g_rd s = RFlight off ->
  off + MAX_IN <= BUFSZ /\
  forall x, off <= x < off + MAX_IN ->
    ~ (g_start s <= x < g_start s + g_size1 s) /\ ~ (x < g_size2 s).
Proof.
  intros H R. apply reachable_inv in H. inv_split H. unfold rd_inv in Hr. rewrite R in Hr.
  unfold BUFSZ, MAX_IN in *. split; [lia|]. intros x Hx. lia.
Qed.
Lemma never_dead s : reachable s -> g_rd s <> RDead.
Proof. intros H. apply reachable_inv, i_rd in H. unfold rd_inv in H. destruct (g_rd s); congruence || contradiction. Qed.
Lemma room_when_empty s : reachable s -> g_size1 s = 0 -> g_size2 s = 0 -> exists off, get_offset s = Some off.
Proof.
  intros H E1 E2. apply reachable_inv in H. inv_split H. unfold get_offset.
  destruct (_ <=? BUFSZ) eqn:A; [eauto|]. destruct (_ <=? g_start s) eqn:B; [eauto|].
  unfold BUFSZ, MAX_IN in *. lia.
Qed.

Definition consumer (a : action) : Prop :=
  match a with AGet | ARead _ | ARelease | AFinish => True | _ => False end.
Definition stage (s : ring) : N := if g_busy s then if 0 <? g_pend s then 1 else 2 else 0.
Definition todo (s : ring) : N := 3 * (g_sigs s + bN (g_post s)) + stage s.

Lemma inv_room s : inv s -> g_size1 s = 0 -> g_size2 s = 0 -> get_offset s <> None.
Proof.
  intros H E1 E2. inv_split H. unfold get_offset.
  destruct (_ <=? BUFSZ) eqn:A; [discriminate|]. destruct (_ <=? g_start s) eqn:B; [discriminate|].
  unfold BUFSZ, MAX_IN in *. lia.
Qed.
Lemma quiet_room s : cinv s -> g_busy s = false -> g_sigs s = 0 -> is_marked (g_rd s) = false -> g_size2 s = 0 /\ get_offset s <> None.
Proof.
  intros [H Hpo Hed Hc] B S R. pose proof (inv_room s H) as Room. inv_split H.
  assert (g_rem s = 0) as Z by auto.
  assert (P : g_post s = false) by (destruct (g_post s); [rewrite Hpo in B by reflexivity; discriminate|reflexivity]).
  unfold groups, cover, bN in Hc. rewrite S, P, R, Z in Hc.
  destruct Hc as [Hc|[Hc [D|[D|[D1 D2]]]]]; [|lia|lia|].
  - destruct (0 <? g_size1 s) eqn:?, (0 <? g_size2 s) eqn:?; try lia. split; [lia|apply Room; lia].
  - split; [exact D1|]. unfold get_offset. destruct (_ <=? BUFSZ) eqn:A; [discriminate|]. lia.
Qed.
(** When the reader is blocked the consumer can act, and every consumer action
    decreases (bytes buffered, todo) lexicographically. *)
Lemma blocked_progress s : cinv s -> g_rd s = RIdle -> get_offset s = None ->
  exists a s', consumer a /\ step s a = Some s' /\ g_rd s' = RIdle /\
    (g_size1 s' + g_size2 s' < g_size1 s + g_size2 s \/
     g_size1 s' + g_size2 s' = g_size1 s + g_size2 s /\ todo s' < todo s).
Proof.
  intros Ci R G. pose proof (quiet_room s Ci) as Q. destruct Ci as [H Hpo Hed Hc].
  assert (Hs : 0 < g_size1 s + g_size2 s).
  { destruct (N.eq_dec (g_size1 s) 0), (N.eq_dec (g_size2 s) 0); try lia. exfalso. eapply inv_room; eauto. }
  inv_split H.
  destruct (g_busy s) eqn:B.
  - destruct (0 <? g_pend s) eqn:P.
    + exists ARelease. cbn [step]. rewrite B, P. cbn [andb]. unfold switch.
      destruct (_ && _) eqn:E; eexists; (split; [exact I|]); (split; [reflexivity|]); fields; (split; [exact R|]); left; lia.
    + destruct (0 <? g_rem s) eqn:M.
      * exists (ARead (g_rem s)). cbn [step]. rewrite B, M. replace (g_pend s =? 0) with true by lia.
        rewrite N.leb_refl. cbn [andb]. eexists. (split; [exact I|]); (split; [reflexivity|]).
        fields. (split; [exact R|]). right.
        unfold todo, stage; fields. rewrite B, P, M. lia.
      * exists AFinish. cbn [step]. rewrite B. replace (g_rem s =? 0) with true by lia. cbn [andb].
        destruct (g_post s) eqn:Po; eexists; (split; [exact I|]); (split; [reflexivity|]).
        -- unfold do_get, switch. destruct (_ && _) eqn:E; fields; (split; [exact R|]); right; unfold todo, stage, bN; fields;
             rewrite B, P, Po; change (0 <? 0) with false; cbv iota; lia.
        -- fields. (split; [exact R|]). right. unfold todo, stage; fields. rewrite B, P, Po. cbn [bN]. lia.
  - assert (g_rem s = 0) as Z by auto.
    assert (Po : g_post s = false) by (destruct (g_post s); [assert (false = true) by (apply Hpo; reflexivity); discriminate|reflexivity]).
    assert (0 < g_sigs s) as S.
    { destruct (N.eq_dec (g_sigs s) 0) as [S0|]; [|lia]. destruct (Q eq_refl S0); [rewrite R; reflexivity|]. congruence. }
    exists AGet. cbn [step]. rewrite B. replace (0 <? g_sigs s) with true by lia. cbn [andb negb].
    eexists. (split; [exact I|]); (split; [reflexivity|]).
    unfold do_get, switch. unfold todo, stage, bN. rewrite B, Po.
    destruct ((g_size1 s =? 0) && (0 <? g_size2 s)) eqn:E; fields; (split; [exact R|]); right;
      change (0 <? 0) with false; cbv iota; lia.
Qed.

Lemma reader_gets_room : forall c m s, cinv s -> g_rd s = RIdle ->
  N.to_nat (g_size1 s + g_size2 s) = c -> N.to_nat (todo s) = m ->
  exists l s' off, Forall consumer l /\ run s l = Some s' /\ get_offset s' = Some off.
Proof.
  induction c as [c IHc] using lt_wf_ind. induction m as [m IHm] using lt_wf_ind.
  intros s H R Ec Em. destruct (get_offset s) as [off|] eqn:G.
  { exists [], s, off. auto. }
  destruct (blocked_progress s H R G) as (a & s1 & Ca & St & R1 & D).
  pose proof (cinv_step _ _ _ H St) as H1.
  assert (X : exists l s' off, Forall consumer l /\ run s1 l = Some s' /\ get_offset s' = Some off).
  { destruct D as [D|[D1 D2]].
    - eapply IHc; [|exact H1|exact R1|reflexivity|reflexivity]. lia.
    - eapply IHm; [|exact H1|exact R1| |reflexivity]; lia. }
  destruct X as (l & s' & off & Fl & Rn & Go). exists (a :: l), s', off.
  split; [constructor; assumption|]. cbn [run]. rewrite St. auto.
Qed.
Lemma no_starvation s : reachable s -> g_rd s = RIdle ->
  exists l s' off, Forall consumer l /\ run s l = Some s' /\ get_offset s' = Some off.
Proof. intros H R. eapply reader_gets_room; eauto using reachable_cinv. Qed.
Lemma no_deadlock s : reachable s -> g_rd s = RIdle -> get_offset s = None -> g_busy s = true \/ 0 < g_sigs s.
Proof.
  intros H R G. destruct (g_busy s) eqn:B; [now left|]. right.
  destruct (N.eq_dec (g_sigs s) 0) as [Z|]; [|lia]. destruct (quiet_room s (reachable_cinv _ H) B Z) as [_ X]; [now rewrite R|congruence].
Qed.
Lemma not_stranded s : reachable_calm s -> g_busy s = false -> g_sigs s = 0 -> g_rd s <> RMarked ->
  h_out s = h_in s.
Proof.
  intros (m & l & Ca & Rn) B S R.
  assert (Hg : groups s <= cover s) by (eapply covered_run; [apply cinv_init| |exact Ca|exact Rn]; vm_compute; discriminate).
  assert (Ci : cinv s) by (apply reachable_cinv; exists m, l; exact Rn). destruct Ci as [H Hpo _ _]. inv_split H.
  assert (P : g_post s = false) by (destruct (g_post s); [rewrite Hpo in B by reflexivity; discriminate|reflexivity]).
  unfold groups, cover, bN, is_marked in Hg. rewrite (Hi B), S, P in Hg.
  assert (g_size1 s = 0 /\ g_size2 s = 0) as [Z1 Z2].
  { destruct (g_rd s); try congruence; destruct (0 <? g_size1 s) eqn:?, (0 <? g_size2 s) eqn:?; lia. }
  rewrite F1, F2. unfold content. rewrite Z1, Z2. replace (g_pend s) with 0 by lia. reflexivity.
Qed.
(** What is left behind comes out with the next packet. *)
Lemma next_packet s bs : reachable s -> g_busy s = false -> g_sigs s = 0 -> g_rd s = RIdle -> bs <> [] -> len bs <= MAX_IN ->
  exists s', run s [APick; ADone bs; AEmit; AGet; ARead (g_size1 s + len bs)] = Some s' /\ h_out s' = h_in s' /\ h_in s' = h_in s ++ bs.
Proof.
  intros H B S R Nb Lb. destruct (quiet_room s (reachable_cinv _ H) B S) as [Z2 G]; [now rewrite R|].
  destruct (get_offset s) as [off|] eqn:Go; [|congruence]. clear G.
  assert (L : 0 < len bs) by (destruct bs; [congruence|rewrite len_cons; lia]).
  assert (Rn : exists s', run s [APick; ADone bs; AEmit; AGet; ARead (g_size1 s + len bs)] = Some s' /\ g_pend s' = g_size1 s + len bs /\ g_size1 s' = g_size1 s + len bs /\ g_size2 s' = 0 /\ h_in s' = h_in s ++ bs).
  { pose proof (reachable_cinv _ H) as Ci. destruct Ci as [Hv Hpo Hed Hc]. inv_split Hv. assert (Z : g_rem s = 0) by auto.
    cbn [run step]. rewrite R, Go. cbn [g_rd]. replace (len bs <=? MAX_IN) with true by lia. unfold mark_new. fields.
    unfold get_offset in Go. rewrite Z2 in Go.
    destruct (g_start s + g_size1 s + MAX_IN <=? BUFSZ) eqn:A.
    - injection Go as <-. rewrite N.eqb_refl. fields. rewrite B, S. change (0 <? 0 + 1) with true. cbn [negb andb]. unfold do_get, switch. fields.
      rewrite Z2. change (0 <? 0) with false. rewrite andb_false_r. fields. rewrite N.eqb_refl. replace (0 <? g_size1 s + len bs) with true by lia. rewrite N.leb_refl. cbn [andb].
      eexists. split; [reflexivity|]. fields. repeat split.
    - destruct (0 + MAX_IN <=? g_start s) eqn:A2; [|discriminate]. injection Go as <-.
      (* everything was delivered: otherwise there is room behind it *)
      assert (Z1 : g_size1 s = 0).
      { assert (P : g_post s = false) by (destruct (g_post s); [rewrite Hpo in B by reflexivity; discriminate|reflexivity]).
        unfold groups, cover, is_marked, bN in Hc. rewrite S, P, R, Z, Z2 in Hc. change (0 <? 0) with false in Hc.
        destruct Hc as [Hc|[Hc [D|[D|[D1 D2]]]]]; [|lia|lia|lia]. destruct (0 <? g_size1 s) eqn:?; lia. }
      rewrite Z1 in *. replace (0 =? g_start s + 0) with false by (unfold MAX_IN, BUFSZ in *; lia).
      rewrite Z2, N.eqb_refl. fields. rewrite B, S. change (0 <? 0 + 1) with true. cbn [negb andb]. unfold do_get, switch. fields.
      rewrite ?Z1. rewrite N.eqb_refl. replace (0 <? 0 + len bs) with true by lia. cbn [andb]. fields. rewrite ?N.eqb_refl. replace (0 <? 0 + len bs) with true by lia. rewrite N.leb_refl. cbn [andb].
      eexists. split; [reflexivity|]. fields. repeat split. }
  destruct Rn as (s' & Rn & P1 & P2 & P3 & P4). exists s'. split; [exact Rn|]. split; [|exact P4].
  destruct H as (m & l & Hl). assert (Re : reachable s').
  { exists m, (l ++ [APick; ADone bs; AEmit; AGet; ARead (g_size1 s + len bs)]). rewrite run_app, Hl. exact Rn. }
  destruct (fifo _ Re) as (rest & E & Lr). rewrite P1, P2, P3 in Lr. assert (rest = []) as -> by (destruct rest; [reflexivity|rewrite len_cons in Lr; lia]).
  rewrite E, app_nil_r. reflexivity.
Qed.

(** The stranding schedule. *)
Definition full : bytes := repeat 0 16384.
Definition packet : list action := [APick; ADone full; AEmit].
Definition strand : list action :=
  packet ++ [AGet; ARead 16384; ARelease; AFinish] ++
  packet ++ [AGet] ++
  concat (repeat (packet ++ [ANested]) 15) ++
  [ARead 16384; ARelease; AFinish; ARead (16384 * 14); ARelease; AFinish].
Definition strand_check (m : mem) (l : list action) : bool :=
  match run (ring_init m) l with
  | Some s => negb (g_busy s) && (g_sigs s =? 0) && (g_size1 s =? 16384) &&
              match g_rd s with RIdle => true | _ => false end
  | None => false
  end.
Lemma stranded_of m l : strand_check m l = true ->
  exists s, reachable s /\ g_busy s = false /\ g_sigs s = 0 /\ g_rd s = RIdle /\ h_out s <> h_in s.
Proof.
  intros H. unfold strand_check in H.
  destruct (run (ring_init m) l) as [s|] eqn:R; [|discriminate].
  exists s. assert (Re : reachable s) by (exists m, l; exact R).
  apply andb_prop in H as [H H4]. apply andb_prop in H as [H H3]. apply andb_prop in H as [H1 H2].
  split; [exact Re|]. split; [now destruct (g_busy s)|]. split; [lia|].
  split; [now destruct (g_rd s)|].
  destruct (fifo s Re) as (rest & E & L). pose proof (reachable_inv _ Re) as I.
  pose proof (i_pend _ I). pose proof (i_idle _ I). pose proof (i_rem _ I).
  intros X. rewrite X in E. rewrite <- (app_nil_r (h_in s)) in E at 1. apply app_inv_head in E. subst rest.
  rewrite len_nil in L. destruct (g_busy s); [discriminate|]. lia.
Qed.
Lemma stranded : exists s, reachable s /\ g_busy s = false /\ g_sigs s = 0 /\ g_rd s = RIdle /\ h_out s <> h_in s.
Proof. apply (stranded_of (fun _ => 0) strand). lazy. reflexivity. Qed.
