(** SendObject failing half-way, seen from the USB transport. *)
From Verif Require Import Base Wire WireSpec WireProofs WireProofs2 Framing FramingProofs Responder RSpec RLogic ROne2 RGate RExec RSession RSend RSend2 Usb UsbReset UsbWhole UsbSend P_Usb.

Section S.
Variable env : list (act * ans) -> act -> ans.
Variable formats : list N.
Variable cat : N -> N.
Variable props_by_type : N -> N * list N.
Variable prop_desc : N -> N -> N * option objpropdesc.
Hypothesis quiet : undisturbed env.
Notation step := (step env formats cat props_by_type prop_desc).
Notation usb_loop := (usb_loop env formats cat props_by_type prop_desc).
Notation usb_packets := (usb_packets env formats cat props_by_type prop_desc).

Lemma packets_app a : forall rl b s, usb_packets rl (a ++ b) s = match usb_packets rl a s with Some (Ret (rl1, s1)) => usb_packets rl1 b s1 | x => x end.
Proof.
  induction a as [|p a IH]; intros rl b s; [reflexivity|]. cbn [app Usb.usb_packets]. destruct (usb_loop (S (List.length p)) rl false p s) as [[[rl1 s1]| |]|]; [apply IH|reflexivity..].
Qed.
(** a packet within a container *)
Lemma mid_packet rl p s s' : p <> [] -> len p <= rl -> step (IRecv p false (rl - len p =? 0)) s = Ret (tt, s') ->
  usb_loop (S (List.length p)) rl false p s = Some (Ret (if resets (r_log s') =? resets (r_log s) then rl - len p else 0, s')).
Proof.
  intros NE LE E. cbn [Usb.usb_loop]. destruct p as [|b p]; [contradiction|]. set (d := b :: p) in *. assert (0 < len d) by (unfold d; rewrite len_cons; lia).
  unfold start_len. destruct (rl =? 0) eqn:E0; [apply N.eqb_eq in E0; lia|]. cbv zeta. cbn [orb].
  replace (if len d <? rl then len d else rl) with (len d) by (destruct (len d <? rl) eqn:X; [reflexivity|apply N.ltb_ge in X; lia]).
  rewrite (take_all (len d) d) by lia. unfold to_input. cbn [d_data d_first d_last]. rewrite E. destruct (resets (r_log s') =? resets (r_log s)); [|reflexivity].
  rewrite drop_all by lia. destruct (List.length d) eqn:L; [unfold d in L; discriminate|]. reflexivity.
Qed.
(** the first packet of a container that is at least as long *)
Lemma first_packet p rest n s s' : 4 <= len p -> plain_container (p ++ rest) -> n = len (p ++ rest) -> step (IRecv p true (n - len p =? 0)) s = Ret (tt, s') ->
  usb_loop (S (List.length p)) 0 false p s = Some (Ret (if resets (r_log s') =? resets (r_log s) then n - len p else 0, s')).
Proof.
  intros L4 [P1 P2] EN E. cbn [Usb.usb_loop]. destruct p as [|b p]; [unfold len in L4; cbn in L4; lia|]. set (d := b :: p) in *. rewrite take_prefix in P2 by exact L4. rewrite len_app in *.
  unfold start_len. change (0 =? 0) with true. cbv iota. destruct (len d <? 4) eqn:E4; [apply N.ltb_lt in E4; lia|]. cbv zeta. rewrite P2.
  destruct (len d + len rest =? 0xFFFFFFFF) eqn:EF; [apply N.eqb_eq in EF; lia|]. cbn [orb]. rewrite <- EN.
  replace (if len d <? n then len d else n) with (len d) by (destruct (len d <? n) eqn:X; [reflexivity|apply N.ltb_ge in X; lia]).
  rewrite (take_all (len d) d) by lia. unfold to_input. cbn [d_data d_first d_last]. rewrite E. destruct (resets (r_log s') =? resets (r_log s)); [|reflexivity].
  rewrite drop_all by lia. destruct (List.length d) eqn:L; [unfold d in L; discriminate|]. reflexivity.
Qed.
Lemma stray_step b last s : r_st s = IDLE -> exists s1 r, step (IRecv b false last) s = Ret (tt, s1) /\ r_log s1 = (AReset, r) :: r_log s /\ r_st s1 = IDLE.
Proof.
  intros Hs. cbn [Responder.step]. unfold receive, bind at 1, get. rewrite Hs. unfold bind, upd, reset_transport, ask, ret. cbn [andb].
  eexists _, _. split; [reflexivity|]. split; reflexivity.
Qed.
(** what is left of the data after the failed write: nothing or one packet *)
Lemma after_failure post s rl : r_st s = IDLE -> rl = len (concat post) -> Forall (fun b => b <> []) post -> (List.length post <= 1)%nat ->
  exists s1 l, usb_packets rl post s = Some (Ret (0, s1)) /\ r_log s1 = l ++ r_log s /\ responses l = [] /\ datas l = [] /\ changed l = [] /\ r_st s1 = IDLE.
Proof.
  intros Hs Hr HF HL. destruct post as [|b [|x post]]; [| |cbn in HL; lia].
  - cbn [concat] in Hr. subst rl. exists s, []. cbn [Usb.usb_packets]. auto 10.
  - cbn [concat] in Hr. rewrite app_nil_r in Hr. subst rl. apply Forall_cons_iff in HF as [NE _]. destruct (stray_step b (len b - len b =? 0) s Hs) as (s1 & r & E1 & E2 & E3).
    cbn [Usb.usb_packets]. rewrite (mid_packet (len b) b s s1 NE ltac:(lia) E1). rewrite E2. cbn [resets]. replace (resets (r_log s) + 1 =? resets (r_log s)) with false by (symmetry; apply N.eqb_neq; lia).
    exists s1, [(AReset, r)]. rewrite E2. repeat split. exact E3.
Qed.
Notation code_of_write := (code_of_write env).
Lemma usb_more_fail q h size c bad post : c <> R_OK -> c <> R_Undefined -> bad <> [] -> code_of_write h bad c -> Forall (fun b => b <> []) post -> (List.length post <= 1)%nat ->
  forall pre w s rl, receiving q h size w s ->
  (forall b, In b pre -> code_of_write h b R_OK /\ b <> []) -> w + total pre < size -> rl = len (concat (pre ++ bad :: post)) ->
  exists s1 l, usb_packets rl (pre ++ bad :: post) s = Some (Ret (0, s1)) /\ r_log s1 = l ++ r_log s /\ datas l = [] /\ r_st s1 = IDLE /\
    responses l = [resp_out c (q_tid q) []].
Proof.
  intros H1 H2 NB Hb HF HL. induction pre as [|b pre IH]; intros w s rl HR Hw Hlt Hrl.
  - cbn [app] in *. cbn [concat] in Hrl. rewrite len_app in Hrl. cbn [Usb.usb_packets].
    destruct (send_fail env formats cat props_by_type prop_desc quiet q h size w s bad bad false (rl - len bad =? 0) c HR eq_refl Hb H1 H2) as (s1 & l & E1 & E2 & E3 & E4 & E5 & E6 & E7 & E8 & E9).
    rewrite (mid_packet rl bad s s1 NB ltac:(lia) E1). destruct HR as (K1 & K2 & _).
    rewrite (waiting_step _ _ _ _ _ q s _ _ _ s1 (conj K1 K2) E1), N.eqb_refl.
    destruct (after_failure post s1 (rl - len bad) E3 ltac:(lia) HF HL) as (s2 & l2 & F1 & F2 & F3 & F4 & F5 & F6).
    exists s2, (l2 ++ l). split; [exact F1|]. rewrite F2, E2, app_assoc, datas_app, responses_app, F3, F4, E7, E8. auto 10.
  - cbn [app] in *. cbn [concat total] in *. rewrite len_app in Hrl. cbn [Usb.usb_packets]. destruct (Hw b (or_introl eq_refl)) as [W1 W2].
    destruct (send_more env formats cat props_by_type prop_desc q h size w s b b false HR eq_refl W1 ltac:(lia)) as (s1 & r & E1 & HR1 & El & _ & _).
    assert (NL : (rl - len b =? 0) = false). { apply N.eqb_neq. rewrite concat_app, len_app in Hrl. cbn [concat] in Hrl. rewrite len_app in Hrl. assert (0 < len bad) by (destruct bad; [contradiction|rewrite len_cons; lia]). lia. }
    rewrite (mid_packet rl b s s1 W2 ltac:(lia)) by (rewrite NL; exact E1). rewrite El. cbn [resets]. rewrite N.eqb_refl.
    destruct (IH (w + len b) s1 (rl - len b) HR1 (fun y Hy => Hw y (or_intror Hy)) ltac:(lia) ltac:(lia)) as (s2 & l & F1 & F2 & F3 & F4 & F5).
    exists s2, (l ++ [(ACall (SWrite h (Some b) false false), r)]). split; [exact F1|]. split; [rewrite F2, El, <- app_assoc; reflexivity|].
    rewrite datas_app, responses_app, F3, F5. auto.
Qed.
End S.
