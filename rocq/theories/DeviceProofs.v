(** Facts about the whole device. *)
From Verif Require Import Base AList Wire FS FSPath FSTree FSLogic FSSpec FSReach FSProps P_FS P_FS3 P_FSProps Device.
From Verif Require Responder RSpec RExt RRead.
Import Responder(act, ans, scall, ACall, mk_ans, a_async).

Section D.
Variables (C : conf) (fuel : nat) (rest : list (act * ans) -> act -> ans) (n : nat) (w : fs).
Notation device := (device C fuel rest n w).
Notation state_after := (state_after C fuel n w).

Lemma device_async l a : a_async (device l a) = a_async (rest l a).
Proof.
  unfold Device.device. destruct a as [c| | | | |]; try reflexivity. destruct (storage C fuel c) as [m|]; [|reflexivity].
  destruct (state_after l) as [w1| |]; try reflexivity. destruct (m w1) as [[r w2]| |]; reflexivity.
Qed.
Lemma device_undisturbed : RSpec.undisturbed rest -> RSpec.undisturbed device.
Proof. intros H h a. rewrite device_async. apply H. Qed.
Lemma device_transport : RSpec.transport_works rest -> RSpec.transport_works device.
Proof. intros H. exact H. Qed.
Lemma device_ready : RSpec.storage_is_ready rest -> RSpec.storage_is_ready device.
Proof. intros H l. unfold Device.device. cbn [storage]. destruct (state_after l); [reflexivity|apply H..]. Qed.
Lemma device_call l c m w1 r w2 : storage C fuel c = Some m -> state_after l = Ret w1 -> m w1 = Ret (r, w2) -> device l (ACall c) = with_async (a_async (rest l (ACall c))) r.
Proof. intros A B D. unfold Device.device. rewrite A, B, D. reflexivity. Qed.

End D.
Section B.
Variables (C : conf) (fuel : nat) (n : nat) (w : fs).
Notation state_after := (state_after C fuel n w).
Variable base : list (act * ans).
Hypothesis BASE : length base = n.
Lemma after_base : state_after base = Ret w.
Proof. destruct base as [|e b]; cbn [Device.state_after]; [destruct n; reflexivity|]. replace (length (e :: b) <=? n)%nat with true by (symmetry; apply Nat.leb_le; lia). reflexivity. Qed.
Lemma after_cons e d : state_after (e :: d ++ base) = match e with
  | (ACall c, _) => match storage C fuel c, state_after (d ++ base) with
    | Some m, Ret w1 => match m w1 with Ret (_, w2) => Ret w2 | UB => UB | Abort => Abort end
    | _, o => o end
  | _ => state_after (d ++ base) end.
Proof.
  cbn [Device.state_after]. replace (length (e :: d ++ base) <=? n)%nat with false by (symmetry; apply Nat.leb_gt; cbn [length]; rewrite app_length; lia). reflexivity.
Qed.
End B.

(** ** Questions leave the storage as it is *)
Section Q.
Variables (C : conf) (fuel : nat) (SO : supply_ok C).
Definition unchanged (w w' : fs) : Prop := reachable C w' /\ (forall x, look w' x = look w x) /\ (forall y, content w' y = content w y) /\ s_file w' = s_file w.
Lemma unchanged_refl w : reachable C w -> unchanged w w. Proof. intros R. split; [exact R|]. split; [reflexivity|]. split; reflexivity. Qed.
Lemma unchanged_trans a b c : unchanged a b -> unchanged b c -> unchanged a c.
Proof. intros (A1 & A2 & A3 & A4) (B1 & B2 & B3 & B4). split; [exact B1|]. split; [intros x; rewrite B2; apply A2|]. split; [intros y; rewrite B3; apply A3|congruence]. Qed.
Lemma known_look w h : reachable C w -> (ahas h (s_handles w) = true <-> look w h <> None).
Proof.
  intros R. destruct (reachable_good C w SO R) as (r & [[ch W] _]). pose proof (look_none C w ch r W h) as L. unfold ahas. destruct (aget h (s_handles w)) as [v|] eqn:E.
  - split; [intros _ Z; apply L in Z; congruence|reflexivity].
  - split; [discriminate|]. intros Z. contradiction Z. apply L. reflexivity.
Qed.
Lemma info_unchanged w h v : reachable C w -> look w h = Some v -> exists o w', get_object_info C h w = Ret ((R_OK, Some o), w') /\ v_info v = Some o /\ unchanged w w'.
Proof.
  intros R L. destruct (C70_object_info C w h v SO R L) as (o & w' & E & I & (U1 & U2 & _)). exists o, w'. split; [exact E|]. split; [exact I|]. split; [|split; [assumption|split; [assumption|]]].
  - apply (reach_step C w (OInfo h)); [exact R|exact Logic.I|]. cbn [exec]. unfold bind. rewrite E. reflexivity.
  - destruct (reachable_good C w SO R) as (r & [[ch W] _]). destruct (look_inv C w ch r W h v L) as (q & i & Hh & Hq & Ei & ->). destruct (W_info _ _ _ _ _ W q i Hq) as (o' & Ho & _).
    rewrite (FSCopy.get_info_eq C h w q i o' Hh Hq Ho) in E. apply Ret_inj in E. injection E as _ <-. reflexivity.
Qed.
Lemma read_unchanged w h k off : reachable C w -> exists c bs w', read_data C h k off w = Ret ((c, bs), w') /\ unchanged w w'.
Proof.
  intros R. destruct (reachable_good C w SO R) as (r & [[ch W] _]). destruct (FSData.read_data_ok C h k off w ch r W) as (c & bs & w' & E & T & _). exists c, bs, w'. split; [exact E|].
  destruct (C52_reads_exact C w h k off c bs w' E) as (_ & L & D & _). split; [|split; [assumption|split; [assumption|]]].
  - apply (reach_step C w (ORead h k off)); [exact R|exact Logic.I|]. cbn [exec]. unfold bind. rewrite E. reflexivity.
  - destruct T as (t & -> & _). reflexivity.
Qed.
Lemma list_unchanged w fmt assoc : reachable C w -> exists c l, get_object_handles fmt assoc w = Ret ((c, l), w).
Proof. intros R. destruct (reachable_good C w SO R) as (r & [[ch W] RT]). destruct (FSList.get_object_handles_ok C SO r fmt assoc w ch W RT) as (c & l & E & _). eauto. Qed.
Lemma query_step c m w : RSpec.changes c = false -> storage C fuel c = Some m -> reachable C w -> exists r w', m w = Ret (r, w') /\ unchanged w w'.
Proof.
  intros NC E R. destruct c; try discriminate NC; cbn [storage] in E; try discriminate E; injection E as <-; try (eexists; eexists; split; [reflexivity|apply unchanged_refl; exact R]).
  - destruct (_ || _); [|eexists; eexists; split; [reflexivity|apply unchanged_refl; exact R]]. unfold tell. destruct (list_unchanged w fmt assoc R) as (c & l & ->). eexists; eexists; split; [reflexivity|apply unchanged_refl; exact R].
  - unfold owned. destruct (ahas h (s_handles w)) eqn:K; [|eexists; eexists; split; [reflexivity|apply unchanged_refl; exact R]]. apply (known_look w h R) in K.
    destruct (look w h) as [v|] eqn:L; [|congruence]. destruct (info_unchanged w h v R L) as (o & w' & E & _ & U). unfold tell. rewrite E. eexists; eexists; split; [reflexivity|exact U].
  - unfold owned. destruct (ahas h (s_handles w)); [|eexists; eexists; split; [reflexivity|apply unchanged_refl; exact R]].
    destruct (read_unchanged w h n off R) as (c & bs & w' & E & U). unfold tell. rewrite E. eexists; eexists; split; [reflexivity|exact U].
Qed.
Definition asks_only (d : list (act * ans)) : bool := forallb (fun c => negb (RSpec.changes c)) (RSpec.calls d).
Lemma asks_after n w base d : reachable C w -> length base = n -> asks_only d = true -> exists w1, state_after C fuel n w (d ++ base) = Ret w1 /\ unchanged w w1.
Proof.
  intros R B. induction d as [|[a x] d IH]; intros A; [exists w; split; [apply after_base; exact B|apply unchanged_refl; exact R]|].
  unfold asks_only in A. destruct a as [c| | | | |]; cbn [RSpec.calls forallb] in A.
  2-6: destruct (IH A) as (w1 & E & U); exists w1; split; [|exact U]; cbn [app]; rewrite after_cons by exact B; exact E.
  apply andb_prop in A as [A1 A2]. destruct (IH A2) as (w1 & E & U). cbn [app]. rewrite after_cons by exact B. rewrite E. destruct (storage C fuel c) as [m|] eqn:S; [|exists w1; auto].
  destruct (query_step c m w1 ltac:(destruct (RSpec.changes c); [discriminate|reflexivity]) S (proj1 U)) as (r & w2 & E2 & U2). rewrite E2. exists w2. split; [reflexivity|]. eapply unchanged_trans; eassumption.
Qed.
End Q.
