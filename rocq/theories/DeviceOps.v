(** Operations on objects through the whole device: the conversation of a request with
    the storage, played on the storage's state. *)
From Verif Require Import Base AList Wire FS FSPath FSTree FSLogic FSSpec FSReach FSProps P_FS P_FS2 P_FS3 P_FSProps Device DeviceProofs DeviceInfo.
From Verif Require Responder RSpec RExt RLogic ROne2 RSession ROps P_Device.
Import Responder(act, ans, scall, ACall, mk_ans, a_async, r_log, r_st, r_session).
Import ROps(script, Ask, Finish, follows, asked, protocol).
Import P_Device(at_work, mk_at_work).

Lemma first_asked l c r conv : asked l = (c, r) :: conv -> exists l2 n0, l = l2 ++ (ACall c, r) :: n0 /\ asked n0 = [] /\ asked l2 = conv /\ RSpec.harmless c = false.
Proof.
  revert conv. induction l as [|[a x] l IH]; intros conv E; [discriminate|].
  assert (G : forall cv, asked l = (c, r) :: cv -> exists l2 n0, (a, x) :: l = l2 ++ (ACall c, r) :: n0 /\ asked n0 = [] /\ asked l2 = (match a with ACall c' => if RSpec.harmless c' then cv else cv ++ [(c', x)] | _ => cv end) /\ RSpec.harmless c = false).
  { intros cv F. destruct (IH cv F) as (l2 & n0 & -> & A & B & D). exists ((a, x) :: l2), n0. split; [reflexivity|]. split; [exact A|]. split; [|exact D]. cbn [asked]. rewrite B. destruct a; reflexivity. }
  cbn [asked] in E. destruct a as [c'| | | | |]; try (apply G; exact E). destruct (RSpec.harmless c') eqn:H; [apply G; exact E|].
  destruct (asked l) as [|e q] eqn:AL.
  - cbn in E. injection E as <- <- <-. exists [], l. auto.
  - cbn [app] in E. injection E as -> <-. exact (G q eq_refl).
Qed.

Section P.
Variables (C : conf) (fuel : nat) (rest : list (act * ans) -> act -> ans) (n : nat) (w0 : fs).
Notation D := (device C fuel rest n w0).
(** the conversation in [l], after [base], when the storage is in state [w], is the script's *)
Definition carries (l base : list (act * ans)) (w : fs) (sc : script) d code ps : Prop :=
  (n <= length base)%nat /\ state_after C fuel n w0 base = Ret w /\ RExt.agrees D base (l ++ base) /\ follows sc (asked l) d code ps.
Lemma quiet_after base w d : (n <= length base)%nat -> state_after C fuel n w0 base = Ret w -> asked d = [] -> state_after C fuel n w0 (d ++ base) = Ret w.
Proof.
  intros LE E. induction d as [|[a x] d IH]; intros A; [exact E|].
  assert (S : state_after C fuel n w0 ((a, x) :: d ++ base) = match a with ACall c => match storage C fuel c, state_after C fuel n w0 (d ++ base) with
      | Some m, Ret w1 => match m w1 with Ret (_, w2) => Ret w2 | UB => UB | Abort => Abort end | _, o => o end | _ => state_after C fuel n w0 (d ++ base) end).
  { cbn [state_after]. replace (length ((a, x) :: d ++ base) <=? n)%nat with false by (symmetry; apply Nat.leb_gt; cbn [length]; rewrite app_length; lia). destruct a; reflexivity. }
  cbn [app]. rewrite S. cbn [asked] in A. destruct a as [c| | | | |]; try (apply IH; exact A). destruct (RSpec.harmless c) eqn:H; [|exfalso; apply app_eq_nil in A as [_ A]; discriminate].
  rewrite (IH A). destruct c; try discriminate H; reflexivity.
Qed.
Lemma play_ask l base w c k d code ps m r w1 : carries l base w (Ask c k) d code ps -> RSpec.harmless c = false -> storage C fuel c = Some m -> m w = Ret (r, w1) ->
  exists l2 base2 z, l2 ++ base2 = l ++ base /\ carries l2 base2 w1 (k (with_async z r)) d code ps.
Proof.
  intros (LE & E & AG & F) H ST EM. inversion F as [|? ? r' conv ? ? ? H' F' EQ1 EQ2|? ? ? ? ? ? ? H']; [subst|congruence].
  destruct (first_asked l c r' conv ltac:(congruence)) as (l2 & n0 & -> & A & B & _). exists l2, ((ACall c, r') :: n0 ++ base), (a_async (rest (n0 ++ base) (ACall c))).
  pose proof (quiet_after base w n0 LE E A) as E2.
  assert (X : r' = with_async (a_async (rest (n0 ++ base) (ACall c))) r).
  { rewrite <- (AG l2 (ACall c) r' (n0 ++ base)); [|rewrite <- app_assoc; reflexivity|rewrite app_length; lia]. exact (device_call C fuel rest n w0 _ _ _ _ _ _ ST E2 EM). }
  split; [rewrite <- app_assoc; reflexivity|]. split; [cbn [length]; rewrite app_length; lia|]. split.
  { cbn [state_after]. replace (length ((ACall c, r') :: n0 ++ base) <=? n)%nat with false by (symmetry; apply Nat.leb_gt; cbn [length]; rewrite app_length; lia). rewrite ST, E2, EM. reflexivity. }
  split; [|rewrite B, <- X; exact F'].
  intros pre a x l E3 L3. apply (AG pre a x l); [rewrite <- E3, <- app_assoc; reflexivity|]. cbn [length] in L3. rewrite app_length in L3. lia.
Qed.
Lemma play_end l base w d1 c1 p1 d code ps : carries l base w (Finish d1 c1 p1) d code ps -> d = d1 /\ code = c1 /\ ps = p1 /\ state_after C fuel n w0 (l ++ base) = Ret w.
Proof.
  intros (LE & E & AG & F). inversion F as [? ? ? A1 A2|? ? ? ? ? ? ? ? ? A1 A2|]; subst. split; [reflexivity|]. split; [reflexivity|]. split; [reflexivity|]. apply (quiet_after base w l LE E). auto.
Qed.
End P.

(** a request on the device *)
Lemma device_request C fuel rest formats cat pt pd s w op tid ps sc : at_work C rest s w -> RSpec.tables_ok pt pd -> RSpec.command_ok op tid ps -> tid <> 0 -> tid <> 0xFFFFFFFF ->
  protocol formats cat pt pd op (fun i => nth i (RLogic.pars ps) 0) = Some sc ->
  exists s' l d c params, Responder.run (device C fuel rest (length (r_log s)) w) formats cat pt pd [ROne2.command op tid ps] s = Ret (tt, s') /\ r_log s' = l ++ r_log s /\ r_st s' = Responder.IDLE /\ r_session s' = r_session s /\
    RSpec.datas l = match d with Some pl => [inl (Responder.mk_out TYPE_DATA op tid pl)] | None => [] end /\ RSpec.responses l = [RSession.resp_out c tid params] /\
    carries C fuel rest (length (r_log s)) w l (r_log s) w sc d c params.
Proof.
  intros [SO R Q T RD ID SE] TO CO T1 T2 HP. set (n := length (r_log s)).
  destruct (ROps.request_ok (device C fuel rest n w) formats cat pt pd (device_undisturbed C fuel rest n w Q) TO op tid ps sc s (device_ready C fuel rest n w RD) ID CO SE T1 T2 HP) as (s' & l & d & c & params & E & L & I & S & F & DT & RS).
  exists s', l, d, c, params. split; [exact E|]. split; [exact L|]. split; [exact I|]. split; [exact S|]. split; [exact DT|]. split; [exact RS|].
  destruct (RExt.run_recorded _ _ _ _ _ _ _ _ E) as (d' & _ & AG). rewrite L in AG. split; [unfold n; lia|]. split; [apply after_base; reflexivity|]. split; [exact AG|exact F].
Qed.
