(** Receiving an object through the whole device. *)
From Verif Require Import Base AList Wire FS FSPath FSTree FSLogic FSSpec FSReach FSData FSData2 FSView FSProps P_FS P_FS3 P_FSProps Device DeviceProofs DeviceRead.
From Verif Require Responder RSpec RExt RRead ROne2 RExec RSession RSend P_Send.
Import Responder(act, ans, scall, ACall, mk_ans, a_async).
Import RSend(changed).

(** the storage's state, step by step along the changing calls *)
Lemma changed_cons a x d : changed ((a, x) :: d) = changed d ++ match a with ACall c => if RSpec.changes c then [c] else [] | _ => [] end.
Proof. unfold changed. destruct a as [c| | | | |]; cbn [RSpec.calls filter]; rewrite ?app_nil_r; try reflexivity. destruct (RSpec.changes c); cbn [rev]; rewrite ?app_nil_r; reflexivity. Qed.
Section Replay.
Variables (C : conf) (fuel : nat) (SO : supply_ok C) (n : nat) (w : fs) (base : list (act * ans)) (B : length base = n).
Variable P : list scall -> fs -> Prop.
Variable target : list scall.
Hypothesis P0 : P [] w.
Hypothesis Pq : forall cs a b, P cs a -> unchanged C a b -> P cs b.
Hypothesis Preach : forall cs a, P cs a -> reachable C a.
Hypothesis Pstep : forall cs c post a, target = cs ++ c :: post -> P cs a ->
  match storage C fuel c with Some m => exists r b, m a = Ret (r, b) /\ P (cs ++ [c]) b | None => P (cs ++ [c]) a end.
Lemma replay d : forall post, target = changed d ++ post -> exists a, state_after C fuel n w (d ++ base) = Ret a /\ P (changed d) a.
Proof.
  induction d as [|[e x] d IH]; intros post T; [exists w; split; [apply (after_base C fuel n w base B)|exact P0]|].
  rewrite changed_cons in *. cbn [app]. rewrite (after_cons C fuel n w base B). destruct e as [c| | | | |]; rewrite ?app_nil_r in *; try exact (IH post T).
  destruct (RSpec.changes c) eqn:CH.
  - rewrite <- app_assoc in T. destruct (IH _ T) as (a & E & Pa). rewrite E. pose proof (Pstep _ c post a T Pa) as S. destruct (storage C fuel c) as [m|]; [|eauto]. destruct S as (r & b & -> & Pb). eauto.
  - rewrite app_nil_r in *. destruct (IH _ T) as (a & E & Pa). rewrite E. destruct (storage C fuel c) as [m|] eqn:S; [|eauto].
    destruct (query_step C fuel SO c m a CH S (Preach _ _ Pa)) as (r & b & -> & U). exists b. split; [reflexivity|]. apply (Pq _ a); assumption.
Qed.
End Replay.

(** ** SendObject *)
Definition closed (cs : list scall) : bool := existsb (fun c => match c with Responder.SWrite _ None _ _ => true | _ => false end) cs.
Section S.
Variables (C : conf) (fuel : nat) (rest : list (act * ans) -> act -> ans) (SO : supply_ok C) (WK : works C).
Variables (w : fs) (h : N) (v : view) (d0 : bytes) (R : reachable C w) (HL : look w h = Some v) (HC : content w (v_path v) = Some (File d0)).
(** how the file has grown after the calls [cs] *)
Definition grown (cs : list scall) (a : fs) : Prop :=
  reachable C a /\ (forall x, look a x = look w x) /\ (forall y, y <> v_path v -> content a y = content w y) /\
  let b := P_Send.content_written h cs in
  if closed cs then content a (v_path v) = Some (File b) /\ s_file a = None
  else match cs with [] => content a (v_path v) = Some (File d0)
       | _ => s_file a = Some (v_path v, len b) /\ content a (v_path v) = Some (File (wrote d0 0 b)) end.
Lemma grown_start : grown [] w. Proof. split; [exact R|]. split; [reflexivity|]. split; [reflexivity|]. exact HC. Qed.
Lemma grown_same cs a b : grown cs a -> unchanged C a b -> grown cs b.
Proof.
  intros (A1 & A2 & A3 & A4) (U1 & U2 & U3 & U4). split; [exact U1|]. split; [intros x; rewrite U2; apply A2|]. split; [intros y Y; rewrite U3; apply A3; exact Y|].
  cbv zeta in *. rewrite U3, U4. exact A4.
Qed.
Lemma closed_app a b : closed (a ++ b) = closed a || closed b. Proof. apply existsb_app. Qed.
(** one more packet *)
Lemma grown_write cs a (b : bytes) first last : grown cs a -> closed cs = false -> first = match cs with [] => true | _ => false end -> len b < 0x80000000 ->
  exists a', write_data C h (Some b) first last a = Ret (R_OK, a') /\ grown (cs ++ [Responder.SWrite h (Some b) first last]) a'.
Proof.
  intros (A1 & A2 & A3 & A4) NC F LB. destruct (reachable_good C a SO A1) as (r & [[ch W] _]). destruct (look_inv C a ch r W h v ltac:(rewrite A2; exact HL)) as (p & i & Hh & Hp & Ei & Ev). assert (EP : v_path v = i_path i) by (rewrite Ev; reflexivity). clear Ev.
  cbv zeta in A4. rewrite NC in A4. rewrite EP in A4. unfold grown. rewrite EP in *.
  assert (X : exists a', write_data C h (Some b) first last a = Ret (R_OK, a') /\ fsame a a' /\ (forall x, x <> i_path i -> node_at x (s_nodes a') = node_at x (s_nodes a)) /\
    s_file a' = Some (i_path i, len (P_Send.content_written h cs ++ b)) /\ node_at (i_path i) (s_nodes a') = Some (File (wrote d0 0 (P_Send.content_written h cs ++ b)))).
  { destruct cs as [|c cs].
    - subst first. unfold content in A4. destruct (write_first_ok C r h b last a ch p i W Hh Hp) as (code & a' & E & FS & O & K & _ & _ & OK).
      assert (code = R_OK) by (apply OK; [exact WK|eauto|exact LB]). subst code. exists a'. split; [exact E|]. split; [exact FS|]. split; [exact O|]. destruct (K eq_refl) as (_ & d & D & F1 & F2). cbn [P_Send.content_written app].
      split; [exact F1|]. destruct D as [D|[D _]]; [|congruence]. replace d0 with d by congruence. exact F2.
    - subst first. destruct A4 as [A4 A5]. unfold content in A5. destruct (write_next_ok C r h b last a ch p i _ _ W Hh Hp A4 A5) as (code & a' & E & FS & O & K & _ & _ & OK).
      assert (code = R_OK) by (apply OK; [exact WK|exact LB]). subst code. exists a'. split; [exact E|]. split; [exact FS|]. split; [exact O|]. destruct (K eq_refl) as (_ & F1 & F2).
      rewrite len_app. split; [exact F1|]. rewrite F2. do 2 f_equal. rewrite <- (N.add_0_l (len (P_Send.content_written h (c :: cs)))). apply wrote_app. }
  destruct X as (a' & E & FS & O & F1 & F2). exists a'. split; [exact E|].
  split. { apply (reach_step C a (OWrite h (Some b) first last)); [exact A1|discriminate|]. cbn [exec]. unfold bind. rewrite E. reflexivity. }
  split; [intros x; rewrite <- A2; apply (fsame_look a a' FS)|]. split; [intros y Y; rewrite <- A3 by exact Y; apply O; exact Y|].
  cbv zeta. rewrite closed_app, NC. cbn [closed existsb orb]. rewrite P_Send.content_app. cbn [P_Send.content_written]. rewrite N.eqb_refl, app_nil_r.
  destruct cs; cbn [app]; split; assumption.
Qed.
(** the end *)
Lemma grown_close cs a : grown cs a -> closed cs = false -> cs <> [] -> exists a', write_data C h None false true a = Ret (R_OK, a') /\ grown (cs ++ [Responder.SWrite h None false true]) a'.
Proof.
  intros (A1 & A2 & A3 & A4) NC NE. destruct (reachable_good C a SO A1) as (r & [[ch W] _]). destruct (look_inv C a ch r W h v ltac:(rewrite A2; exact HL)) as (p & i & Hh & Hp & Ei & Ev). assert (EP : v_path v = i_path i) by (rewrite Ev; reflexivity). clear Ev.
  cbv zeta in A4. rewrite NC in A4. rewrite EP in A4. unfold grown. rewrite EP in *.
  assert (A5 : s_file a = Some (i_path i, len (P_Send.content_written h cs)) /\ content a (i_path i) = Some (File (wrote d0 0 (P_Send.content_written h cs)))) by (destruct cs; [contradiction|exact A4]). clear A4. destruct A5 as [A4 A5].
  destruct (write_close_ok C r h false a ch p i W Hh Hp) as (a' & cut & E & FS & F0 & O & K & CUT). specialize (CUT (proj1 WK)). subst cut. exists a'. split; [exact E|].
  split. { apply (reach_step C a (OWrite h None false true)); [exact A1|intros _; reflexivity|]. cbn [exec]. unfold bind. rewrite E. reflexivity. }
  split; [intros x; rewrite <- A2; apply (fsame_look a a' FS)|].
  split. { intros y Y. rewrite <- A3 by exact Y. apply O. intros fp pos Z. rewrite A4 in Z. injection Z as <- _. exact Y. }
  cbv zeta. rewrite closed_app. cbn [closed existsb orb]. rewrite orb_true_r. split; [|exact F0]. rewrite P_Send.content_app. cbn [P_Send.content_written]. rewrite app_nil_r.
  unfold content in *. rewrite (K _ _ _ A4 A5). do 2 f_equal. rewrite wrote_start, <- put_start. apply resize_put.
Qed.
(** the calls of one SendObject *)
Lemma chunk_split first bodies cs c post : RSend.chunk_writes h first bodies ++ [Responder.SWrite h None false true] = cs ++ c :: post -> bodies <> [] ->
  closed cs = false /\ ((exists b l, c = Responder.SWrite h (Some b) (match cs with [] => first | _ => false end) l /\ In b bodies) \/ (c = Responder.SWrite h None false true /\ cs <> [] /\ post = [])).
Proof.
  revert first cs. induction bodies as [|b bodies IH]; intros first cs EQ NE; [contradiction|]. destruct bodies as [|b2 bodies].
  - cbn [RSend.chunk_writes app] in EQ. destruct cs as [|c1 cs]; cbn [app] in EQ.
    + injection EQ as <- _. split; [reflexivity|]. left. exists b, true. split; [reflexivity|left; reflexivity].
    + injection EQ as <- EQ. destruct cs as [|c2 cs]; cbn [app] in EQ; [|injection EQ as _ EQ; destruct cs; discriminate EQ]. injection EQ as <- <-. split; [reflexivity|]. right. split; [reflexivity|]. split; [discriminate|reflexivity].
  - change (RSend.chunk_writes h first (b :: b2 :: bodies)) with (Responder.SWrite h (Some b) first false :: RSend.chunk_writes h false (b2 :: bodies)) in EQ. cbn [app] in EQ. destruct cs as [|c1 cs]; cbn [app] in EQ.
    + injection EQ as <- _. split; [reflexivity|]. left. exists b, false. split; [reflexivity|left; reflexivity].
    + injection EQ as <- EQ. destruct (IH false cs EQ ltac:(discriminate)) as [K1 K2]. split; [exact K1|]. destruct K2 as [(x & l & -> & I)|(-> & N & P)].
      * left. exists x, l. split; [destruct cs; reflexivity|right; exact I].
      * right. split; [reflexivity|]. split; [discriminate|exact P].
Qed.
(** the device, claiming that every write succeeded *)
Definition boast (n : nat) (l : list (act * ans)) (a : act) : ans :=
  let r := device C fuel rest n w l a in
  match a with
  | ACall (Responder.SWrite _ (Some _) _ _) => mk_ans R_OK (Responder.a_nums r) (Responder.a_bytes r) (Responder.a_info r) (Responder.a_vals r) (Responder.a_dpd r) (Responder.a_items r) (Responder.a_bool r) (a_async r)
  | _ => r
  end.
Lemma boast_undisturbed n : RSpec.undisturbed rest -> RSpec.undisturbed (boast n).
Proof. intros Q l a. pose proof (device_undisturbed C fuel rest n w Q l a) as D. unfold boast. cbv zeta. destruct a as [[]| | | | |]; try exact D. destruct data; exact D. Qed.
Lemma boast_ready n : RSpec.storage_is_ready rest -> RSpec.storage_is_ready (boast n).
Proof. intros Q l. exact (device_ready C fuel rest n w Q l). Qed.
(** and it is so *)
Lemma boast_true n base d bodies post b first last : length base = n -> bodies <> [] -> (forall b, In b bodies -> len b < 0x80000000) ->
  RSend.chunk_writes h true bodies ++ [Responder.SWrite h None false true] = changed d ++ Responder.SWrite h (Some b) first last :: post ->
  boast n (d ++ base) (ACall (Responder.SWrite h (Some b) first last)) = device C fuel rest n w (d ++ base) (ACall (Responder.SWrite h (Some b) first last)).
Proof.
  intros B NE LB T.
  assert (STEP : forall cs c post a, RSend.chunk_writes h true bodies ++ [Responder.SWrite h None false true] = cs ++ c :: post -> grown cs a ->
    match storage C fuel c with Some m => exists r b, m a = Ret (r, b) /\ grown (cs ++ [c]) b | None => grown (cs ++ [c]) a end).
  { intros cs c post' a EQ G. destruct (chunk_split true bodies cs c post' EQ NE) as [NC CS]. destruct G as (A1 & A2 & A3). assert (K : ahas h (s_handles a) = true) by (apply (known_look C SO a h A1); rewrite A2, HL; discriminate).
    destruct CS as [(x & l & -> & I)|(-> & N & ->)]; cbn [storage]; unfold owned; rewrite K; unfold tell.
    - match goal with |- context [write_data C h (Some x) ?f l a] => destruct (grown_write cs a x f l (conj A1 (conj A2 A3)) NC eq_refl (LB x I)) as (a' & E & G) end. rewrite E. eauto.
    - destruct (grown_close cs a (conj A1 (conj A2 A3)) NC N) as (a' & E & G). rewrite E. eauto. }
  destruct (replay C fuel SO n w base B grown _ grown_start grown_same (fun cs a G => proj1 G) STEP d _ T) as (a & E & G).
  destruct (chunk_split true bodies _ _ _ T NE) as [NC CS]. destruct CS as [(x & l & EX & I)|(EX & _)]; [|discriminate]. injection EX as <- -> _.
  destruct (grown_write (changed d) a b (match changed d with [] => true | _ => false end) last G NC eq_refl (LB b I)) as (a' & E' & _).
  unfold boast. cbv zeta. set (F := match changed d with [] => true | _ => false end) in *. clearbody F.
  erewrite (device_call C fuel rest n w (d ++ base) (Responder.SWrite h (Some b) F last) _ a (code R_OK) a' eq_refl E); [reflexivity|].
  destruct G as (A1 & A2 & _). unfold owned. replace (ahas h (s_handles a)) with true by (symmetry; apply (known_look C SO a h A1); rewrite A2, HL; discriminate). unfold tell. rewrite E'. reflexivity.
Qed.
Lemma sent_state n base d bodies : length base = n -> bodies <> [] -> (forall b, In b bodies -> len b < 0x80000000) ->
  changed d = RSend.chunk_writes h true bodies ++ [Responder.SWrite h None false true] ->
  exists a, state_after C fuel n w (d ++ base) = Ret a /\ grown (changed d) a.
Proof.
  intros B NE LB T. apply (replay C fuel SO n w base B grown (changed d) grown_start grown_same (fun cs a G => proj1 G)) with (post := []); [|rewrite app_nil_r; reflexivity].
  intros cs c post' a EQ G. rewrite T in EQ. destruct (chunk_split true bodies cs c post' EQ NE) as [NC CS]. destruct G as (A1 & A2 & A3). assert (K : ahas h (s_handles a) = true) by (apply (known_look C SO a h A1); rewrite A2, HL; discriminate).
  destruct CS as [(x & l & -> & I)|(-> & N & ->)]; cbn [storage]; unfold owned; rewrite K; unfold tell.
  - match goal with |- context [write_data C h (Some x) ?f l a] => destruct (grown_write cs a x f l (conj A1 (conj A2 A3)) NC eq_refl (LB x I)) as (a' & E & G) end. rewrite E. eauto.
  - destruct (grown_close cs a (conj A1 (conj A2 A3)) NC N) as (a' & E & G). rewrite E. eauto.
Qed.
End S.
