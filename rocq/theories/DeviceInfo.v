(** Announcing an object through the whole device. *)
From Verif Require Import Base AList Wire FS FSPath FSTree FSLogic FSAdd FSAdd2 FSSpec FSReach FSData FSData2 FSView FSProps P_FS P_FS3 P_FSProps Device DeviceProofs DeviceRead DeviceSend.
From Verif Require Responder RSpec RExt RRead RLogic ROne2 RExec RSession RSend P_Send P_SendInfo.
Import Responder(act, ans, scall, ACall, mk_ans, a_async).
Import RSend(changed).

(** waiting for storage and the like does not touch the files *)
Lemma noise_after C fuel n w base d : length base = n -> RExec.noise d -> state_after C fuel n w (d ++ base) = Ret w.
Proof.
  intros B. induction d as [|[a x] d IH]; intros N; [apply (after_base C fuel n w base B)|]. unfold RExec.noise in N. cbn [forallb fst] in N. apply andb_prop in N as [N1 N2].
  cbn [app]. rewrite (after_cons C fuel n w base B), (IH N2). destruct a as [c| | | | |]; try reflexivity. destruct c; try discriminate N1; reflexivity.
Qed.
Lemma after_more C fuel n w base1 w1 d : (n <= length base1)%nat -> state_after C fuel n w base1 = Ret w1 -> state_after C fuel n w (d ++ base1) = state_after C fuel (length base1) w1 (d ++ base1).
Proof.
  intros LE E. induction d as [|[a x] d IH].
  - cbn [app]. rewrite E. symmetry. apply (after_base C fuel _ w1 base1 eq_refl).
  - cbn [app]. rewrite (after_cons C fuel (length base1) w1 base1 eq_refl). cbn [state_after]. replace (length ((a, x) :: d ++ base1) <=? n)%nat with false by (symmetry; apply Nat.leb_gt; cbn [length]; rewrite app_length; lia).
    rewrite IH. reflexivity.
Qed.
Lemma device_more C fuel rest n w base1 w1 d a : (n <= length base1)%nat -> state_after C fuel n w base1 = Ret w1 -> device C fuel rest n w (d ++ base1) a = device C fuel rest (length base1) w1 (d ++ base1) a.
Proof. intros LE E. unfold device. destruct a as [c| | | | |]; try reflexivity. destruct (storage C fuel c) as [m|]; [|reflexivity]. rewrite (after_more C fuel n w base1 w1 d LE E). reflexivity. Qed.
(** a later part of a run: the device goes on from the state it has reached *)
Lemma run_more C fuel rest n w formats cat pt pd i s s' w1 : (n <= length (Responder.r_log s))%nat -> state_after C fuel n w (Responder.r_log s) = Ret w1 ->
  Responder.run (device C fuel rest (length (Responder.r_log s)) w1) formats cat pt pd i s = Ret (tt, s') -> Responder.run (device C fuel rest n w) formats cat pt pd i s = Ret (tt, s').
Proof.
  intros LE E R. apply (RExt.run_same _ _ _ _ _ _ _ _ _ R). intros pre a x l EQ L X.
  destruct (RExt.run_recorded _ _ _ _ _ _ _ _ R) as (d & L2 & _). rewrite L2 in EQ.
  assert (exists d2, l = d2 ++ Responder.r_log s) as (d2 & ->).
  { clear -EQ L. revert pre EQ. induction d as [|e d IH]; intros pre EQ.
    - cbn [app] in EQ. rewrite EQ in L. rewrite app_length in L. cbn [length] in L. lia.
    - destruct pre as [|e1 pre]; cbn [app] in EQ; [injection EQ as _ EQ; eauto|injection EQ as _ EQ; eauto]. }
  rewrite X. apply device_more; assumption.
Qed.
Lemma run_app env formats cat pt pd i j s s1 : Responder.run env formats cat pt pd i s = Ret (tt, s1) -> Responder.run env formats cat pt pd (i ++ j) s = Responder.run env formats cat pt pd j s1.
Proof.
  revert s. induction i as [|x i IH]; intros s E; [injection E as ->; reflexivity|]. cbn [app Responder.run] in *. unfold Responder.bind in *.
  destruct (Responder.step env formats cat pt pd x s) as [[[] s2]| |]; try discriminate. apply IH. exact E.
Qed.

Section A.
Variables (C : conf) (SO : supply_ok C).
(** what a successful addition means for the objects and the files *)
Lemma add_new w fuel info res w' : reachable C w -> plain (oi_name info) -> add_item C fuel info w = Ret (res, w') ->
  reachable C w' /\ (forall x u, look w x = Some u -> look w' x = Some u) /\
  match snd res with
  | Some (h, q) => fst res = R_OK /\ q = (if oi_parent info =? ALL then 0 else oi_parent info) /\
     exists v pv, look w' h = Some v /\ v_parent v = Some q /\ look w' q = Some pv /\ v_path v = join (v_path pv) (oi_name info) /\
       ((forall x u, look w x = Some u -> v_path u <> v_path v) -> look w h = None /\
          exists o, v_info v = Some o /\ oi_format o = oi_format info /\ oi_size o = oi_size info /\ oi_name o = oi_name info /\
            (oi_format info <> FMT_Association -> exists d, content w' (v_path v) = Some (File d)))
  | None => fst res <> R_OK
  end.
Proof.
  intros R PL E. destruct (reachable_good C w SO R) as (r & [[ch W] _]). pose proof (add_item_ok C SO r fuel info w ch W PL) as A. rewrite E in A. destruct A as (ch' & W' & X & A & _).
  split. { apply (reach_step C w (OAdd fuel info)); [exact R|exact PL|]. cbn [exec]. unfold bind. rewrite E. reflexivity. }
  split. { apply (look_all C r w ch w' ch' W W'). intros x i Hx. destruct (E_heap _ _ X x i Hx) as (i' & Hi & L). exists i'. split; [exact Hi|apply lk_kept; exact L]. }
  destruct (snd res) as [[h q]|]; [|exact A]. destruct A as (OK & me & i & qp & j & A1 & A2 & A3 & A4 & A5 & A6 & A7 & A8 & A9). split; [exact OK|]. split; [exact A7|].
  exists (view_of w' i), (view_of w' j). split; [rewrite <- A3; exact (look_of C w' ch' r W' me i A2)|]. split; [cbn [v_parent view_of]; unfold parent_handle; rewrite A4, A5, A6; reflexivity|].
  split; [rewrite <- A6; exact (look_of C w' ch' r W' qp j A5)|]. split; [exact A8|]. cbn [v_path view_of v_info]. intros FREE.
  assert (NP : s_paths w (i_path i) = None).
  { destruct (s_paths w (i_path i)) as [x|] eqn:EP; [|reflexivity]. destruct (W_path _ _ _ _ _ W _ _ EP) as (p & pi & P1 & P2 & P3 & _). destruct (FREE (i_handle pi) (view_of w pi) (look_of C w ch r W p pi P1)). exact P3. }
  destruct (A9 NP) as (B1 & B2 & B3). split.
  - apply (look_none C w ch r W). destruct (aget h (s_handles w)) as [y|] eqn:EH; [|reflexivity]. pose proof (E_h _ _ X h y EH) as Z. rewrite A1 in Z. injection Z as <-. destruct (W_h _ _ _ _ _ W h _ EH) as (p & pi & P1 & P2 & _). injection P1 as <-.
    subst me. pose proof (W_bd _ _ _ _ _ W _ _ P2). lia.
  - eexists. split; [exact B2|]. split; [reflexivity|]. split; [reflexivity|]. split; [reflexivity|]. intros NF. destruct (B3 NF) as (d & D & _). exists d. exact D.
Qed.
End A.
