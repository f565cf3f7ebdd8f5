(** The USB transport and the responder together: MTPTransporterUSB::processReceivedData
    (mts/transport/usb/mtptransporterusb.cpp:540-584) emits dataReceived and fetchObjectSize, which
    MTPResponder handles synchronously (mtpresponder.cpp:155-160). *)
From Verif Require Import Base Wire WireSpec Framing FramingProofs P_Framing Responder RSpec RLogic ROne2.

Definition to_input (d : delivery) : input := IRecv (d_data d) (d_first d) (d_last d).
(** m_resetCount as far as the responder increments it (reset(), 303-318) *)
Fixpoint resets (l : list (act * ans)) : N :=
  match l with [] => 0 | (AReset, _) :: r => resets r + 1 | _ :: r => resets r end.

Section Usb.
Variable env : list (act * ans) -> act -> ans.
Variable formats : list N.
Variable cat : N -> N.
Variable props_by_type : N -> N * list N.
Variable prop_desc : N -> N -> N * option objpropdesc.
Notation step := (step env formats cat props_by_type prop_desc).
Notation run := (run env formats cat props_by_type prop_desc).

(** MTPResponder::fetchObjectSize, mtpresponder.cpp:2730-2744 *)
Definition fetch_size (s : rstate) (data : bytes) : N :=
  if (le_dec (take 2 (drop 4 data)) =? 2) && (le_dec (take 2 (drop 6 data)) =? OP_SendObject)
  then match r_pl s with Some p => pl_size p | None => 0 end else 0.
(** one buffer: the loop of Framing.v with the responder as the receiver.  After a reset the rest of
    the buffer is given up.  Not modelled: that a reset also empties the reader's ring buffer *)
Fixpoint usb_loop (fuel : nat) (rl : N) (isFirst : bool) (data : bytes) (s : rstate) : option (outcome (N * rstate)) :=
  match fuel with
  | O => None
  | S f =>
    match data with
    | [] => Some (Ret (rl, s))
    | _ =>
      match start_len (fetch_size s) rl data with
      | Ret (rl1, st) =>
        let first := isFirst || st in
        let chunk := if len data <? rl1 then len data else rl1 in
        let rl2 := rl1 - chunk in
        match step (to_input (mk_del (take chunk data) first (rl2 =? 0))) s with
        | Ret (_, s') =>
          if resets (r_log s') =? resets (r_log s) then usb_loop f rl2 first (drop chunk data) s' else Some (Ret (0, s'))
        | UB => Some UB
        | Abort => Some Abort
        end
      | UB => Some UB
      | Abort => Some Abort
      end
    end
  end.
Fixpoint usb_packets (rl : N) (ps : list bytes) (s : rstate) : option (outcome (N * rstate)) :=
  match ps with
  | [] => Some (Ret (rl, s))
  | p :: r =>
    match usb_loop (S (List.length p)) rl false p s with
    | Some (Ret (rl1, s1)) => usb_packets rl1 r s1
    | x => x
    end
  end.

(** the run goes through without a reset *)
Fixpoint no_reset (ds : list delivery) (s s' : rstate) : Prop :=
  match ds with
  | [] => s' = s
  | d :: r => exists s1, step (to_input d) s = Ret (tt, s1) /\ resets (r_log s1) = resets (r_log s) /\ no_reset r s1 s'
  end.
Lemma no_reset_app a b s s' : no_reset (a ++ b) s s' <-> exists s1, no_reset a s s1 /\ no_reset b s1 s'.
Proof.
  revert s. induction a as [|d a IH]; intros s; cbn [app no_reset]; [split; [intros H; exists s; auto|intros (s1 & -> & H); exact H]|].
  split; [intros (s1 & A & B & C); apply IH in C as (s2 & C & D); exists s2; split; [exists s1; auto|exact D]|].
  intros (s2 & (s1 & A & B & C) & D). exists s1. split; [exact A|]. split; [exact B|]. apply IH. exists s2. auto.
Qed.
Lemma no_reset_run ds : forall s s', no_reset ds s s' -> run (map to_input ds) s = Ret (tt, s').
Proof.
  induction ds as [|d ds IH]; intros s s' H; cbn [no_reset] in H; [subst; reflexivity|]. destruct H as (s1 & A & _ & C). cbn [map Responder.run]. unfold bind. rewrite A. apply IH. exact C.
Qed.
Definition plain_length (d : delivery) : Prop := d_first d = true -> le_dec (take 4 (d_data d)) <> 0xFFFFFFFF.
Lemma loop_frames f : forall rl i data s rl' ds s', frame_loop (fun _ => 0) (fun _ => false) f rl i data = Some (Ret (rl', ds)) ->
  Forall plain_length ds -> no_reset ds s s' -> usb_loop f rl i data s = Some (Ret (rl', s')).
Proof.
  induction f as [|f IH]; intros rl i data s rl' ds s' E P H; [discriminate|]. cbn [frame_loop usb_loop] in *. destruct data as [|b data]; [injection E as <- <-; cbn [no_reset] in H; subst; reflexivity|].
  set (dd := b :: data) in *. clearbody dd. clear b data.
  destruct (start_len (fun _ => 0) rl dd) as [[rl1 st]| |] eqn:ES; [|discriminate..]. cbv zeta in E. set (first := i || st) in *. set (chunk := if len dd <? rl1 then len dd else rl1) in *.
  destruct (frame_loop _ _ f (rl1 - chunk) first (drop chunk dd)) as [[[rl3 ds3]| |]|] eqn:EL; try discriminate. injection E as <- <-.
  apply Forall_cons_iff in P as [P1 P2]. cbn [no_reset] in H. destruct H as (s1 & A & B & C).
  assert (ES' : start_len (fetch_size s) rl dd = Ret (rl1, st)).
  { revert ES. unfold start_len. destruct (rl =? 0) eqn:E0; [|auto]. destruct (len dd <? 4) eqn:E4; [auto|]. cbv zeta. destruct (le_dec (take 4 dd) =? 0xFFFFFFFF) eqn:EF; [|auto].
    intros X. exfalso. change (0xFFFFFFFF - 12 <? 0) with false in X. cbv iota in X. injection X as <- <-. apply N.eqb_eq in EF. unfold plain_length in P1. cbn [d_first d_data] in P1.
    apply P1; [unfold first; apply orb_true_r|]. transitivity (le_dec (take 4 dd)); [f_equal|exact EF]. unfold chunk. rewrite EF. apply N.ltb_ge in E4.
    destruct (len dd <? 0xFFFFFFFF); [rewrite (take_all (len dd) dd) by lia; reflexivity|rewrite take_take; f_equal; lia]. }
  rewrite ES'. cbv zeta. fold first. fold chunk. rewrite A, B, N.eqb_refl. exact (IH _ _ _ _ _ _ _ EL P2 C).
Qed.
Lemma packets_frames ps : forall rl s rl' ds s', frame_packets (fun _ => 0) (fun _ => false) rl ps = Some (Ret (rl', ds)) ->
  Forall plain_length ds -> no_reset ds s s' -> usb_packets rl ps s = Some (Ret (rl', s')).
Proof.
  induction ps as [|p ps IH]; intros rl s rl' ds s' E P H; cbn [frame_packets usb_packets] in *; [injection E as <- <-; cbn [no_reset] in H; subst; reflexivity|].
  unfold frame_packet in E. destruct (frame_loop _ _ _ rl false p) as [[[rl1 ds1]| |]|] eqn:E1; try discriminate. destruct (frame_packets _ _ rl1 ps) as [[[rl2 ds2]| |]|] eqn:E2; try discriminate. injection E as <- <-.
  apply Forall_app in P as [P1 P2]. apply no_reset_app in H as (s1 & H1 & H2). rewrite (loop_frames _ _ _ _ _ _ _ _ E1 P1 H1). exact (IH _ _ _ _ _ E2 P2 H2).
Qed.
End Usb.
