(** Packets, containers and requests: the pieces the responder receives. *)
From Verif Require Import Base Wire WireSpec Framing FramingProofs P_Framing Responder RSpec RLogic ROne2 Usb.

(** the deliveries of a container cut into pieces *)
Fixpoint rest_dels (ps : list bytes) : list delivery :=
  match ps with [] => [] | [p] => [mk_del p false true] | p :: r => mk_del p false false :: rest_dels r end.
Definition dels (ps : list bytes) : list delivery :=
  match ps with [] => [] | [p] => [mk_del p true true] | p :: r => mk_del p true false :: rest_dels r end.
Lemma rest_inputs ps : map to_input (rest_dels ps) = more_packets ps.
Proof. induction ps as [|p ps IH]; [reflexivity|]. destruct ps as [|q ps]; [reflexivity|]. change (rest_dels (p :: q :: ps)) with (mk_del p false false :: rest_dels (q :: ps)). cbn [map]. rewrite IH. reflexivity. Qed.
Lemma dels_inputs ps : map to_input (dels ps) = data_phase ps.
Proof. destruct ps as [|p [|q ps]]; [reflexivity..|]. change (dels (p :: q :: ps)) with (mk_del p true false :: rest_dels (q :: ps)). cbn [map]. rewrite rest_inputs. reflexivity. Qed.
Lemma rest_data ps : concat (map d_data (rest_dels ps)) = concat ps.
Proof. induction ps as [|p ps IH]; [reflexivity|]. destruct ps as [|q ps]; [reflexivity|]. change (rest_dels (p :: q :: ps)) with (mk_del p false false :: rest_dels (q :: ps)). cbn [map concat d_data]. rewrite IH. reflexivity. Qed.
Lemma dels_data ps : concat (map d_data (dels ps)) = concat ps.
Proof. destruct ps as [|p [|q ps]]; [reflexivity..|]. change (dels (p :: q :: ps)) with (mk_del p true false :: rest_dels (q :: ps)). cbn [map concat d_data]. rewrite rest_data. reflexivity. Qed.

Definition cut (c : bytes) (ps : list bytes) : Prop := concat ps = c /\ ps <> [].
Lemma assembled ds : forall o cs, assemble o ds = Some (cs, None) ->
  match o with
  | None => exists pss, Forall2 cut cs pss /\ ds = concat (map dels pss)
  | Some a => exists ps c cs' pss, ps <> [] /\ cs = c :: cs' /\ c = a ++ concat ps /\ Forall2 cut cs' pss /\ ds = rest_dels ps ++ concat (map dels pss)
  end.
Proof.
  induction ds as [|d ds IH]; intros o cs E; cbn [assemble] in E.
  - injection E as <- ->. exists []. split; [constructor|reflexivity].
  - destruct d as [b f l]. cbn [d_first d_data d_last] in E. destruct o as [a|]; destruct f; try discriminate E; destruct l.
    + destruct (assemble None ds) as [[cs1 o1]|] eqn:E1; [|discriminate]. injection E as <- ->. apply IH in E1 as (pss & F & ->).
      exists [b], (a ++ b), cs1, pss. split; [discriminate|]. split; [reflexivity|]. split; [cbn [concat]; rewrite app_nil_r; reflexivity|]. split; [exact F|reflexivity].
    + apply IH in E as (ps & c & cs' & pss & N & -> & -> & F & ->). exists (b :: ps), ((a ++ b) ++ concat ps), cs', pss. split; [discriminate|]. split; [reflexivity|]. split; [cbn [concat]; rewrite app_assoc; reflexivity|]. split; [exact F|].
      destruct ps as [|p ps]; [contradiction|reflexivity].
    + destruct (assemble None ds) as [[cs1 o1]|] eqn:E1; [|discriminate]. injection E as <- ->. apply IH in E1 as (pss & F & ->).
      exists ([b] :: pss). split; [constructor; [split; [cbn [concat]; rewrite app_nil_r; reflexivity|discriminate]|exact F]|reflexivity].
    + apply IH in E as (ps & c & cs' & pss & N & -> & -> & F & ->). exists ((b :: ps) :: pss). split; [constructor; [split; [reflexivity|discriminate]|exact F]|].
      cbn [map concat]. destruct ps as [|p ps]; [contradiction|reflexivity].
Qed.

(** what a framing run delivers *)
Definition head_ok (d : delivery) : Prop := d_first d = true -> 4 <= len (d_data d) \/ d_last d = true.
Lemma len_take {A} n (l : list A) : len (take n l) = N.min n (len l).
Proof. unfold take, len. rewrite firstn_length. lia. Qed.
Lemma loop_shape f : forall rl i data rl' ds, (i = true -> rl = 0) -> frame_loop (fun _ => 0) (fun _ => false) f rl i data = Some (Ret (rl', ds)) ->
  Forall head_ok ds /\ concat (map d_data ds) = data /\ (forall ds1 d ds2, ds = ds1 ++ d :: ds2 -> d_last d = false -> ds2 = []).
Proof.
  induction f as [|f IH]; intros rl i data rl' ds HI E; [discriminate|]. cbn [frame_loop] in E. destruct data as [|b data].
  { injection E as <- <-. split; [constructor|]. split; [reflexivity|]. intros ds1 d ds2 X. destruct ds1; discriminate. }
  set (dd := b :: data) in *. assert (ND : 0 < len dd) by (unfold dd; rewrite len_cons; lia). clearbody dd. clear b data.
  destruct (start_len (fun _ => 0) rl dd) as [[rl1 st]| |] eqn:ES; [|discriminate..]. cbv zeta in E. set (first := i || st) in *. set (chunk := if len dd <? rl1 then len dd else rl1) in *.
  destruct (frame_loop _ _ f (rl1 - chunk) first (drop chunk dd)) as [[[rl3 ds3]| |]|] eqn:EL; try discriminate. injection E as <- <-.
  assert (CH : (chunk = len dd /\ len dd < rl1) \/ (chunk = rl1 /\ rl1 <= len dd)). { unfold chunk. destruct (len dd <? rl1) eqn:X; [apply N.ltb_lt in X; auto|apply N.ltb_ge in X; auto]. }
  destruct CH as [[CE CL]|[CE CL]].
  - (* the buffer ends inside the container *)
    replace (drop chunk dd) with (@nil N) in EL by (rewrite CE; symmetry; apply drop_all; lia).
    assert (ds3 = []) as -> by (destruct f; cbn [frame_loop] in EL; [discriminate|injection EL as _ <-; reflexivity]).
    split; [|split].
    + constructor; [|constructor]. intros HF. cbn [d_first d_data d_last] in *. left. rewrite CE, take_all by lia. unfold first in HF. revert ES. unfold start_len. destruct (rl =? 0) eqn:E0.
      * destruct (len dd <? 4) eqn:E4; [discriminate|]. apply N.ltb_ge in E4. intros _. exact E4.
      * intros X. injection X as <- <-. rewrite orb_false_r in HF. apply HI in HF. apply N.eqb_neq in E0. contradiction.
    + cbn [map concat d_data]. rewrite app_nil_r, CE. apply take_all. lia.
    + intros ds1 d ds2 X _. destruct ds1 as [|x [|y ds1]]; try discriminate. injection X as _ ->. reflexivity.
  - assert (Z : rl1 - chunk = 0) by lia. destruct (IH _ _ _ _ _ (fun _ => Z) EL) as (A & B & C). split; [|split].
    + constructor; [|exact A]. intros _. right. cbn [d_last]. rewrite Z. reflexivity.
    + cbn [map concat d_data]. rewrite B. apply take_drop.
    + intros ds1 d ds2 X L. destruct ds1 as [|x ds1].
      * cbn [app] in X. injection X as <- _. cbn [d_last] in L. rewrite Z in L. discriminate L.
      * cbn [app] in X. injection X as _ X. exact (C _ _ _ X L).
Qed.
Lemma packets_shape ps : forall rl rl' ds, frame_packets (fun _ => 0) (fun _ => false) rl ps = Some (Ret (rl', ds)) ->
  Forall head_ok ds /\ concat (map d_data ds) = concat ps /\
  (forall ds1 d ds2, ds = ds1 ++ d :: ds2 -> d_last d = false -> exists p1 p2, ps = p1 ++ p2 /\ concat (map d_data (ds1 ++ [d])) = concat p1).
Proof.
  induction ps as [|p ps IH]; intros rl rl' ds E; cbn [frame_packets] in E.
  { injection E as <- <-. split; [constructor|]. split; [reflexivity|]. intros ds1 d ds2 X. destruct ds1; discriminate. }
  unfold frame_packet in E. destruct (frame_loop _ _ _ rl false p) as [[[rl1 d1]| |]|] eqn:E1; try discriminate. destruct (frame_packets _ _ rl1 ps) as [[[rl2 d2]| |]|] eqn:E2; try discriminate. injection E as <- <-.
  destruct (loop_shape _ _ _ _ _ _ (fun X => match Bool.diff_false_true X with end) E1) as (A1 & B1 & C1). destruct (IH _ _ _ E2) as (A2 & B2 & C2).
  split; [apply Forall_app; auto|]. split; [rewrite map_app, concat_app, B1, B2; reflexivity|]. intros ds1 d ds2 X L.
  destruct (app_eq_app _ _ _ _ X) as (m & [[Y1 Y2]|[Y1 Y2]]).
  - (* in the first packet, or at its end *)
    destruct m as [|x m].
    + cbn [app] in Y2. rewrite app_nil_r in Y1. subst d1. symmetry in Y2. destruct (C2 [] d ds2 Y2 L) as (p1 & p2 & -> & Y). exists (p :: p1), p2. split; [reflexivity|]. rewrite map_app, concat_app, B1. cbn [concat]. f_equal. exact Y.
    + cbn [app] in Y2. injection Y2 as <- Y2. subst d1. pose proof (C1 _ _ _ eq_refl L) as ->. exists [p], ps. split; [reflexivity|]. cbn [concat]. rewrite app_nil_r. exact B1.
  - destruct (C2 m d ds2 Y2 L) as (p1 & p2 & -> & Y). exists (p :: p1), p2. split; [reflexivity|]. rewrite Y1, <- app_assoc, map_app, concat_app, B1, Y. reflexivity.
Qed.
