(** When the responder resets the transport. *)
From Verif Require Import Base Wire WireSpec Framing Responder RSpec RLogic ROne2 RInv Usb UsbProofs.

Section R.
Variable env : list (act * ans) -> act -> ans.
Variable formats : list N.
Variable cat : N -> N.
Variable props_by_type : N -> N * list N.
Variable prop_desc : N -> N -> N * option objpropdesc.
Notation step := (step env formats cat props_by_type prop_desc).
Notation run := (run env formats cat props_by_type prop_desc).

Definition count (k : N) (s : rstate) : Prop := resets (r_log s) = k.
Lemma count_trans k a r s : match a with AReset => False | _ => True end -> count k s -> count k (add_log (a, r) s).
Proof. unfold count. destruct a; intros X H; try contradiction; exact H. Qed.
Lemma count_sig k busy g : hoare True (count k) (handle_sig env busy g) (fun _ => count k).
Proof.
  assert (A : forall c, hoare True (count k) (call env c) (fun _ => count k)) by (intros c; apply h_ask; intros s H; exact H).
  destruct g as [| | | |ev ps]; cbn [handle_sig].
  - unfold handle_cancel. apply h_get; intros rq. eapply h_pre; [|intros s [H _]; exact H].
    destruct rq as [q|]; [|apply h_ret; auto].
    apply h_inv; [apply h_upd; auto|intros _]. apply h_inv; [|intros _; apply h_upd; auto].
    destruct (_ || _); cbn [when]; [|apply h_ret; auto].
    apply h_get; intros pl. apply h_get; intros sq. eapply h_pre; [|intros s [[H _] _]; exact H].
    apply h_inv.
    { destruct (negb _); cbn [when]; [|apply h_ret; auto]. apply h_inv; [apply A|intro; apply h_ret; auto]. }
    intros _. destruct pl; apply h_upd; auto.
  - unfold close_session. repeat first [apply h_upd; solve [auto] | apply h_inv; [|intro] | apply h_ret; solve [auto] | apply A].
  - unfold handle_suspend. apply h_get; intros st. eapply h_pre; [|intros s [H _]; exact H].
    apply h_inv; [apply h_upd; auto|intro; apply h_upd; auto].
  - unfold handle_resume. apply h_get; intros p. eapply h_pre; [|intros s [H _]; exact H].
    apply h_inv; [apply h_upd; auto|intros _]. apply h_get; intros rs. eapply h_pre; [|intros s [H _]; exact H].
    destruct rs as [[o last]|]; [|apply h_ret; auto]. apply h_inv; [apply h_upd; auto|intros _].
    destruct (_ || _); [apply h_ret; auto|]. apply h_inv; [apply h_ask; auto|intro; apply h_ret; auto].
  - unfold dispatch_event. cbv zeta. apply h_inv.
    { destruct (_ && _); [|apply h_ret; auto]. apply h_inv; [apply A|intro].
      apply h_inv; [apply A|intro]. apply h_ret; auto. }
    intros en. destruct (_ && _); [apply h_ret; auto|]. apply h_get; intros st. eapply h_pre; [|intros s [H _]; exact H].
    destruct (rst_eqb _ _); [apply h_ret; auto|]. apply h_inv; [apply h_ask; auto|intro; apply h_ret; auto].
Qed.
Lemma count_command k q : hoare True (count k) (command_handler env formats cat props_by_type prop_desc q) (fun _ => count k).
Proof. apply i_command_all; intros; first [assumption | apply count_sig | apply count_trans; [|assumption]; destruct a; first [contradiction|exact Logic.I]]. Qed.
Lemma count_data k q data first last : hoare True (count k) (data_handler env cat prop_desc q data first last) (fun _ => count k).
Proof. apply i_data; intros; first [assumption | apply count_sig | apply count_trans; [|assumption]; destruct a; first [contradiction|exact Logic.I]]. Qed.
(** A reset is never forgotten *)
Lemma resets_grow data first last s s' : step (IRecv data first last) s = Ret (tt, s') -> resets (r_log s) <= resets (r_log s').
Proof.
  assert (R : forall x x', reset_transport env x = Ret (tt, x') -> resets (r_log x) <= resets (r_log x')).
  { intros x x' E. unfold reset_transport, bind, ask, ret in E. apply Ret_inj in E. apply (f_equal snd) in E. cbn [snd] in E. subst x'. change (resets (r_log x) <= resets (r_log x) + 1). lia. }
  assert (C : forall q x x', command_handler env formats cat props_by_type prop_desc q x = Ret (tt, x') -> resets (r_log x) <= resets (r_log x')).
  { intros q x x' E. pose proof (count_command (resets (r_log x)) q x eq_refl) as H. rewrite E in H. unfold count in H. lia. }
  cbn [Responder.step]. unfold receive. unfold bind at 1, get at 1.
  assert (CMD : forall x, r_log x = r_log s -> (upd (set_st IDLE) ;;; upd (set_req None) ;;; (if first && last then q <- lift (parse_req data) ;; upd (set_req (Some q)) ;;; upd (set_st (phase_state (q_code q))) ;;; command_handler env formats cat props_by_type prop_desc q else reset_transport env)) x = Ret (tt, s') -> resets (r_log s) <= resets (r_log s')).
  { intros x L. unfold bind at 1, upd at 1. unfold bind at 1, upd at 1. rewrite <- L. destruct (first && last); [|apply R]. unfold bind at 1, lift at 1. destruct (parse_req data) as [q| |]; [|discriminate..].
    unfold bind at 1, upd at 1. unfold bind at 1, upd at 1. apply C. }
  destruct (r_st s); try (apply CMD; reflexivity).
  - unfold bind at 1, get at 1. destruct (r_req s) as [q|]; [|unfold bind at 1, upd at 1; apply R].
    intros E. pose proof (count_data (resets (r_log s)) q data first last s eq_refl) as H. rewrite E in H. unfold count in H. lia.
  - unfold bind at 1, upd at 1. apply R.
  - unfold bind at 1, get at 1. destruct (first && negb (len (r_wait s) =? 0)); [unfold bind at 1, upd at 1; apply R|]. unfold upd. intros E. apply Ret_inj in E. apply (f_equal snd) in E. cbn [snd] in E. subst s'. apply N.le_refl.
Qed.
Lemma run_no_reset ds : forall s s', run (map to_input ds) s = Ret (tt, s') -> resets (r_log s') = resets (r_log s) -> no_reset env formats cat props_by_type prop_desc ds s s'.
Proof.
  induction ds as [|d ds IH]; intros s s' E H; cbn [map Responder.run no_reset] in *; [unfold ret in E; apply Ret_inj in E; congruence|].
  unfold bind in E. destruct (step (to_input d) s) as [[[] s1]| |] eqn:E1; try discriminate.
  pose proof (resets_grow _ _ _ _ _ E1) as G1. assert (G2 : resets (r_log s1) <= resets (r_log s')).
  { clear -E. revert s1 E. induction ds as [|x ds IH]; intros s1 E; cbn [map Responder.run] in E; [unfold ret in E; apply Ret_inj in E; apply (f_equal snd) in E; cbn [snd] in E; subst; apply N.le_refl|].
    unfold bind in E. destruct (step (to_input x) s1) as [[[] s2]| |] eqn:E1; try discriminate. pose proof (resets_grow _ _ _ _ _ E1). specialize (IH _ E). lia. }
  exists s1. split; [reflexivity|]. assert (Q : resets (r_log s1) = resets (r_log s)) by lia. split; [exact Q|]. apply IH; [exact E|lia].
Qed.
(** a command that is accepted does not reset *)
Lemma command_no_reset s op tid ps s' : idle s -> command_ok op tid ps -> step (command op tid ps) s = Ret (tt, s') -> resets (r_log s') = resets (r_log s).
Proof.
  intros Hi Hc E. rewrite (receive_idle env formats cat props_by_type prop_desc s op tid ps Hi Hc) in E.
  match type of E with _ _ _ _ _ ?q ?x = _ => pose proof (count_command (resets (r_log s)) q x eq_refl) as H end. rewrite E in H. exact H.
Qed.
End R.
