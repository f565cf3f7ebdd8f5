(** No data phase of SendObject that the responder takes to its end resets the transport. *)
From Verif Require Import Base Wire WireSpec Responder RSpec RLogic ROne2 RExec RSend RSend2 Usb UsbReset.

Section S.
Variable env : list (act * ans) -> act -> ans.
Variable formats : list N.
Variable cat : N -> N.
Variable props_by_type : N -> N * list N.
Variable prop_desc : N -> N -> N * option objpropdesc.

Notation step := (step env formats cat props_by_type prop_desc).
Notation run := (run env formats cat props_by_type prop_desc).

Lemma waiting_step q s data first last s' : waiting q s -> step (IRecv data first last) s = Ret (tt, s') -> resets (r_log s') = resets (r_log s).
Proof.
  intros [Hst Hrq] E. assert (X : step (IRecv data first last) s = data_handler env cat prop_desc q data first last s).
  { cbn [Responder.step]. unfold receive, bind at 1, get. rewrite Hst. unfold bind at 1. rewrite Hrq. reflexivity. }
  rewrite X in E. pose proof (count_data env cat prop_desc (resets (r_log s)) q data first last s eq_refl) as H. rewrite E in H. exact H.
Qed.
Lemma more_no_reset q h size bodies : forall w s s', receiving q h size w s ->
  (forall b, In b bodies -> code_of_write env h b R_OK) ->
  (forall pre b post, bodies = pre ++ b :: post -> post <> [] -> w + total (pre ++ [b]) < size) ->
  run (more_packets bodies) s = Ret (tt, s') -> resets (r_log s') = resets (r_log s).
Proof.
  induction bodies as [|b bodies IH]; intros w s s' HR Hw Hpre E; [unfold more_packets, Responder.run, ret in E; apply Ret_inj in E; congruence|].
  destruct bodies as [|b2 bodies].
  - cbn [more_packets Responder.run] in E. unfold bind in E. destruct (step (IRecv b false true) s) as [[[] s1]| |] eqn:E1; try discriminate. unfold ret in E. apply Ret_inj in E. apply (f_equal snd) in E. cbn [snd] in E. subst s'.
    destruct HR as (H1 & H2 & _). eapply waiting_step; [split; eassumption|exact E1].
  - change (more_packets (b :: b2 :: bodies)) with (IRecv b false false :: more_packets (b2 :: bodies)) in E. cbn [Responder.run] in E.
    assert (Hb : w + len b < size). { specialize (Hpre [] b (b2 :: bodies) eq_refl ltac:(discriminate)). cbn in Hpre. lia. }
    destruct (send_more env formats cat props_by_type prop_desc q h size w s b b false HR eq_refl (Hw b (or_introl eq_refl)) Hb) as (s1 & r & E1 & HR1 & El & Epl & Es).
    unfold bind at 1 in E. rewrite E1 in E. rewrite (IH (w + len b) s1 s' HR1 (fun x Hx => Hw x (or_intror Hx))); [rewrite El; reflexivity| |exact E].
    intros pre x post Hx Hp. specialize (Hpre (b :: pre) x post ltac:(cbn; rewrite Hx; reflexivity) Hp). cbn [total app] in Hpre. lia.
Qed.
Theorem send_no_reset s tid ps h size hdr bodies s' : idle s -> command_ok OP_SendObject tid ps -> storage_is_ready env ->
  r_session s <> 0 -> tid <> 0 -> tid <> 0xFFFFFFFF -> announced s h size 0 ->
  bodies <> [] -> len hdr = 12 -> (forall b, In b bodies -> code_of_write env h b R_OK) ->
  (forall pre b post, bodies = pre ++ b :: post -> post <> [] -> total (pre ++ [b]) < size) ->
  run (command OP_SendObject tid ps :: data_phase (object_packets hdr bodies)) s = Ret (tt, s') -> resets (r_log s') = resets (r_log s).
Proof.
  intros Hi Hc Hr Hs Ht1 Ht2 HA Hne Hh Hw Hpre E. cbn [Responder.run] in E. unfold bind at 1 in E.
  destruct (command_send env formats cat props_by_type prop_desc s tid ps h size Hi Hc Hr Hs Ht1 Ht2 HA) as (s1 & l1 & E1 & E2 & E3 & E4 & E5 & E6). rewrite E1 in E.
  rewrite <- (command_no_reset env formats cat props_by_type prop_desc s _ _ _ s1 Hi Hc E1).
  destruct bodies as [|b bodies]; [contradiction|]. assert (HP : is_packet true b (hdr ++ b)) by (exists hdr; auto).
  destruct bodies as [|b2 bodies].
  - cbn [object_packets data_phase Responder.run] in E. unfold bind in E. destruct (step (IRecv (hdr ++ b) true true) s1) as [[[] s2]| |] eqn:E7; try discriminate. unfold ret in E. apply Ret_inj in E. apply (f_equal snd) in E. cbn [snd] in E. subst s'.
    destruct E4 as (H1 & H2 & _). eapply waiting_step; [split; eassumption|exact E7].
  - change (data_phase (object_packets hdr (b :: b2 :: bodies))) with (IRecv (hdr ++ b) true false :: more_packets (b2 :: bodies)) in E. cbn [Responder.run] in E.
    assert (Hb : 0 + len b < size). { specialize (Hpre [] b (b2 :: bodies) eq_refl ltac:(discriminate)). cbn in Hpre. lia. }
    destruct (send_more env formats cat props_by_type prop_desc _ h size 0 s1 (hdr ++ b) b true E4 HP (Hw b (or_introl eq_refl)) Hb) as (s2 & r & F1 & HR1 & El & Epl & Es).
    unfold bind at 1 in E. rewrite F1 in E. rewrite (more_no_reset _ h size (b2 :: bodies) (0 + len b) s2 s' HR1 (fun x Hx => Hw x (or_intror Hx))); [rewrite El; reflexivity| |exact E].
    intros pre x post Hx Hp. specialize (Hpre (b :: pre) x post ltac:(cbn; rewrite Hx; reflexivity) Hp). cbn [total app] in Hpre. lia.
Qed.
End S.
