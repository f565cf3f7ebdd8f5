(** The transport and the responder together depend on their environment only through the answers
    they receive (RExt.v for the responder alone). *)
From Verif Require Import Base Wire Framing FramingProofs P_Framing Responder RSpec RExt Usb.

Section S.
Variables (env env' : list (act * ans) -> act -> ans).
Variable formats : list N.
Variable cat : N -> N.
Variable props_by_type : N -> N * list N.
Variable prop_desc : N -> N -> N * option objpropdesc.

Definition uext (f f' : rstate -> option (outcome (N * rstate))) : Prop := forall s k s', f s = Some (Ret (k, s')) ->
  exists d, r_log s' = d ++ r_log s /\ (agrees env' (r_log s) (r_log s') -> f' s = Some (Ret (k, s'))).
Lemma x_usb_loop f : forall rl i data, uext (usb_loop env formats cat props_by_type prop_desc f rl i data) (usb_loop env' formats cat props_by_type prop_desc f rl i data).
Proof.
  induction f as [|f IH]; intros rl i data s k s' E; [discriminate|]. cbn [usb_loop] in *. destruct data as [|b data].
  { injection E as <- <-. exists []. auto. }
  destruct (start_len (fetch_size s) rl (b :: data)) as [[rl1 st]| |]; try discriminate. cbv zeta in *.
  match type of E with context[Responder.step _ _ _ _ _ ?x s] => set (x0 := x) in *; destruct (Responder.step env formats cat props_by_type prop_desc x0 s) as [[[] s1]| |] eqn:E1; try discriminate E end.
  destruct (x_step env env' formats cat props_by_type prop_desc x0 s tt s1 E1) as (d1 & L1 & _ & K1).
  destruct (resets (r_log s1) =? resets (r_log s)) eqn:ER.
  - destruct (IH _ _ _ _ _ _ E) as (d2 & L2 & K2). exists (d2 ++ d1). split; [rewrite L2, L1, app_assoc; reflexivity|].
    intros AG. rewrite L2, L1 in AG. apply agrees_sub in AG as [A1 A2]. rewrite (K1 ltac:(rewrite L1; exact A1)), ER. apply K2. rewrite L2, L1. exact A2.
  - injection E as <- <-. exists d1. split; [exact L1|]. intros AG. rewrite (K1 AG), ER. reflexivity.
Qed.
Theorem usb_same ps : forall rl, uext (usb_packets env formats cat props_by_type prop_desc rl ps) (usb_packets env' formats cat props_by_type prop_desc rl ps).
Proof.
  induction ps as [|p ps IH]; intros rl s k s' E; cbn [usb_packets] in *; [injection E as <- <-; exists []; auto|].
  destruct (usb_loop env _ _ _ _ _ rl false p s) as [[[rl1 s1]| |]|] eqn:E1; try discriminate.
  destruct (x_usb_loop _ _ _ _ _ _ _ E1) as (d1 & L1 & K1). destruct (IH _ _ _ _ E) as (d2 & L2 & K2).
  exists (d2 ++ d1). split; [rewrite L2, L1, app_assoc; reflexivity|].
  intros AG. rewrite L2, L1 in AG. apply agrees_sub in AG as [A1 A2]. rewrite (K1 ltac:(rewrite L1; exact A1)). apply K2. rewrite L2, L1. exact A2.
Qed.
End S.
