(** A small Hoare logic for the responder monad. [bad]: what may be concluded when
    the code has undefined behaviour (True: partial, False: total correctness). *)
From Verif Require Import Base Wire WireSpec Responder RSpec WireProofs WireProofs2 WireProofs3.

Definition hoare (bad : Prop) {A} (P : rstate -> Prop) (m : M A) (Q : A -> rstate -> Prop) : Prop :=
  forall s, P s -> match m s with Ret (a, s1) => Q a s1 | _ => bad end.

Lemma h_ret (bad : Prop) A (a : A) (P : rstate -> Prop) (Q : A -> rstate -> Prop) : (forall s, P s -> Q a s) -> hoare bad P (ret a) Q.
Proof. intros H s Hs. apply H; exact Hs. Qed.
Lemma h_bind (bad : Prop) A B (m : M A) (f : A -> M B) P R Q :
  hoare bad P m R -> (forall a, hoare bad (R a) (f a) Q) -> hoare bad P (bind m f) Q.
Proof.
  intros H1 H2 s Hs. unfold bind. specialize (H1 s Hs). destruct (m s) as [[a s1]| |]; auto.
  apply H2; exact H1.
Qed.
Lemma h_get (bad : Prop) A B (g : rstate -> A) (f : A -> M B) P Q :
  (forall x, hoare bad (fun s => P s /\ g s = x) (f x) Q) -> hoare bad P (bind (get g) f) Q.
Proof. intros H s Hs. unfold bind, get. apply H. auto. Qed.
Lemma h_upd (bad : Prop) (g : rstate -> rstate) (P : rstate -> Prop) (Q : unit -> rstate -> Prop) : (forall s, P s -> Q tt (g s)) -> hoare bad P (upd g) Q.
Proof. intros H s Hs. apply H; exact Hs. Qed.
Lemma h_conseq (bad : Prop) A (m : M A) (P P' : rstate -> Prop) (Q Q' : A -> rstate -> Prop) :
  hoare bad P m Q -> (forall s, P' s -> P s) -> (forall a s, Q a s -> Q' a s) -> hoare bad P' m Q'.
Proof. intros H H1 H2 s Hs. specialize (H s (H1 s Hs)). destruct (m s) as [[a s1]| |]; auto. Qed.
Lemma h_post (bad : Prop) A (m : M A) (P : rstate -> Prop) (Q Q' : A -> rstate -> Prop) :
  hoare bad P m Q -> (forall a s, Q a s -> Q' a s) -> hoare bad P m Q'.
Proof. intros. eapply h_conseq; eauto. Qed.
Lemma h_pre (bad : Prop) A (m : M A) (P P' : rstate -> Prop) (Q : A -> rstate -> Prop) :
  hoare bad P m Q -> (forall s, P' s -> P s) -> hoare bad P' m Q.
Proof. intros. eapply h_conseq; eauto. Qed.
Lemma h_pure (bad : Prop) A (m : M A) (P : rstate -> Prop) (F : Prop) (Q : A -> rstate -> Prop) :
  (F -> hoare bad P m Q) -> hoare bad (fun s => P s /\ F) m Q.
Proof. intros H s [Hs HF]. apply H; assumption. Qed.
Lemma h_crash A (P : rstate -> Prop) (Q : A -> rstate -> Prop) : hoare True P crash Q.
Proof. intros s Hs. exact I. Qed.
Lemma h_crash_if (bad : Prop) A (P : rstate -> Prop) (Q : A -> rstate -> Prop) : bad -> hoare bad P crash Q.
Proof. intros Hb s Hs. exact Hb. Qed.
Lemma h_lift (bad : Prop) A (o : outcome A) (P : rstate -> Prop) (Q : A -> rstate -> Prop) :
  (forall a, o = Ret a -> forall s, P s -> Q a s) -> (o = UB -> bad) -> (o = Abort -> bad) -> hoare bad P (lift o) Q.
Proof. intros H1 H2 H3 s Hs. unfold lift. destruct o; auto. Qed.
Lemma h_ask (bad : Prop) env a (P : rstate -> Prop) (Q : ans -> rstate -> Prop) :
  (forall s, P s -> Q (env (r_log s) a) (add_log (a, env (r_log s) a) s)) -> hoare bad P (ask env a) Q.
Proof. intros H s Hs. apply H; exact Hs. Qed.
Lemma h_and (bad : Prop) A (m : M A) P (Q1 Q2 : A -> rstate -> Prop) :
  hoare bad P m Q1 -> hoare bad P m Q2 -> hoare bad P m (fun a s => Q1 a s /\ Q2 a s).
Proof. intros H1 H2 s Hs. specialize (H1 s Hs). specialize (H2 s Hs). destruct (m s) as [[a s1]| |]; auto. Qed.

(** ** Parsing of commands *)
Lemma rx_new_buf d r : rx_new d = Ret r -> rx_buf r = d.
Proof. unfold rx_new. repeat destruct (_ <? _); intros H; inversion H; reflexivity. Qed.
Lemma len_spec_int n x : len (spec_int n x) = N.of_nat n.
Proof. unfold spec_int, len. now rewrite le_enc_length. Qed.
Lemma header_code l ty c t rest r : rx_buf r = spec_header l ty c t ++ rest -> c < 2^16 -> rx_code r = Ret c.
Proof.
  intros Hb Hc. unfold rx_code.
  rewrite (rx_field_at (spec_int 4 l ++ spec_int 2 ty) (spec_int 2 c) (spec_int 4 t ++ rest)).
  - unfold spec_int. rewrite le_dec_enc. rewrite N.mod_small by exact Hc. reflexivity.
  - rewrite Hb. unfold spec_header. now rewrite <- !app_assoc.
  - rewrite len_app, !len_spec_int. reflexivity.
  - now rewrite len_spec_int.
Qed.
Lemma header_tid l ty c t rest r : rx_buf r = spec_header l ty c t ++ rest -> t < 2^32 -> rx_tid r = Ret t.
Proof.
  intros Hb Hc. unfold rx_tid.
  rewrite (rx_field_at (spec_int 4 l ++ spec_int 2 ty ++ spec_int 2 c) (spec_int 4 t) rest).
  - unfold spec_int. rewrite le_dec_enc. rewrite N.mod_small by exact Hc. reflexivity.
  - rewrite Hb. unfold spec_header. now rewrite <- !app_assoc.
  - rewrite !len_app, !len_spec_int. reflexivity.
  - now rewrite len_spec_int.
Qed.
Definition pars (ps : list N) : list N := ps ++ repeat 0 (5 - length ps).
Lemma parse_command op tid ps : command_ok op tid ps ->
  parse_req (command_bytes op tid ps) = Ret (mk_req op tid (pars ps)).
Proof.
  intros (Ho & Ht & Hl & Hp). destruct (rx_params_ok op tid ps Hl Hp) as (r & H1 & H2).
  unfold parse_req, command_bytes. rewrite H1. cbn [obind]. apply rx_new_buf in H1.
  rewrite (header_code _ _ _ _ _ _ H1 Ho). cbn [obind].
  rewrite (header_tid _ _ _ _ _ _ H1 Ht). cbn [obind]. rewrite H2. reflexivity.
Qed.

(** ** Normalising binds *)
Lemma h_assoc (bad : Prop) A B C (m : M A) (f : A -> M B) (g : B -> M C) P Q :
  hoare bad P (bind m (fun x => bind (f x) g)) Q -> hoare bad P (bind (bind m f) g) Q.
Proof.
  intros H s Hs. specialize (H s Hs). unfold bind in *. destruct (m s) as [[a s1]| |]; auto.
Qed.
Lemma h_retb (bad : Prop) A B (a : A) (g : A -> M B) P Q :
  hoare bad P (g a) Q -> hoare bad P (bind (ret a) g) Q.
Proof. intros H s Hs. exact (H s Hs). Qed.
Lemma h_updb (bad : Prop) B (u : rstate -> rstate) (g : unit -> M B) (P R : rstate -> Prop) Q :
  (forall s, P s -> R (u s)) -> hoare bad R (g tt) Q -> hoare bad P (bind (upd u) g) Q.
Proof. intros H1 H s Hs. exact (H _ (H1 s Hs)). Qed.
(** a step that keeps an invariant *)
Lemma h_inv (bad : Prop) A B (m : M A) (f : A -> M B) (I : rstate -> Prop) Q :
  hoare bad I m (fun _ => I) -> (forall a, hoare bad I (f a) Q) -> hoare bad I (bind m f) Q.
Proof. intros; eapply h_bind; eauto. Qed.

(** ** Predicates that storage events cannot disturb *)
Definition quiet_act (a : act) : bool :=
  match a with ACall c => harmless c | AEvent _ => true | _ => false end.
Definition quiet_closed (P : rstate -> Prop) : Prop :=
  forall s e, quiet_act (fst e) = true -> P s -> P (add_log e s).

Lemma events_quiet (bad : Prop) env (P : rstate -> Prop) busy l : quiet_closed P -> forallb is_event l = true ->
  hoare bad P (run_sigs env busy l) (fun _ => P).
Proof.
  intros HP. induction l as [|g l IH]; cbn [forallb run_sigs]; intros H.
  { apply h_ret; auto. }
  apply andb_prop in H as [Hg Hl].
  apply h_inv; [|intros _; apply IH; exact Hl].
  destruct g as [| | | |ev ps]; try discriminate. cbn [handle_sig]. unfold dispatch_event.
  assert (Hc : forall c, harmless c = true -> hoare bad P (call env c) (fun _ => P)).
  { intros c Hc. apply h_ask. intros s Hs. apply HP; auto. }
  apply h_inv.
  { destruct (_ && _).
    - apply h_inv; [apply Hc; reflexivity|intros _]. apply h_inv; [apply Hc; reflexivity|intros r]. apply h_ret; auto.
    - apply h_ret; auto. }
  intros en. destruct (_ && _); [apply h_ret; auto|].
  apply h_get; intros st. destruct (rst_eqb st SUSPEND); [apply h_ret; tauto|].
  apply h_bind with (R := fun _ => P); [|intros; apply h_ret; auto].
  apply h_ask. intros s [Hs _]. apply HP; auto.
Qed.
