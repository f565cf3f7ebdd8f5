(** Receiving an object announced by a property list: between the content and the closing
    call the storage is asked to set properties other than the file name (C98). *)
From Verif Require Import Base AList Wire FS FSPath FSTree FSLogic FSSpec FSReach FSData FSData2 FSView FSProps P_FS P_FS3 P_FSProps Device DeviceProofs DeviceRead DeviceSend.
From Verif Require Responder RSpec RExt RRead ROne2 RExec RSession RSend P_Send.
Import Responder(act, ans, scall, ACall, mk_ans, a_async).
Import RSend(changed).

(** the calls between the content and the closing call change nothing: values of properties other than the name *)
Definition nameless (vals : list (objpropdesc * variant)) : Prop := forall d x, In (d, x) vals -> opd_code d <> 0xDC07.
Definition between (h : N) (mid : list scall) : Prop := forall c, In c mid -> exists vals, c = Responder.SSetProps h vals true /\ nameless vals.
Lemma named_only pd vals : (forall cat p d, snd (pd cat p) = Some d -> opd_code d = p) -> RSend.but_the_name pd vals -> nameless vals.
Proof. intros K B d x I. destruct (B d x I) as (cat & p & NE & E). rewrite (K _ _ _ E). exact NE. Qed.
Lemma nothing_set C fuel h vals a : supply_ok C -> reachable C a -> look a h <> None -> nameless vals ->
  set_props C fuel h (map (fun x => (opd_code (fst x), snd x)) vals) a = Ret (R_OK, a).
Proof.
  intros SO R L NL. assert (NN : forall x, ~ In (0xDC07, x) (map (fun x => (opd_code (fst x), snd x)) vals)).
  { intros x I. apply in_map_iff in I as ([d y] & E & I). cbn [fst snd] in E. injection E as E _. exact (NL d y I E). }
  destruct (reachable_good C a SO R) as (r & [[ch W] _]).
  destruct (set_props C fuel h (map (fun x => (opd_code (fst x), snd x)) vals) a) as [[c a']| |] eqn:E.
  - destruct (C71_only_the_name_partial C fuel h _ a c a' SO R NN E) as [-> ->]. destruct (look a h); [reflexivity|contradiction].
  - exfalso. unfold set_props, bind, handle_value, get in E. assert (LP : forall m, (forall x, ~ In (0xDC07, x) m) -> set_loop C fuel h m a = Ret (R_OK, a)).
    { induction m as [|[p x] m IH]; intros H; [reflexivity|]. cbn [set_loop]. destruct (p =? 0xDC07) eqn:Q; [apply N.eqb_eq in Q; subst p; exfalso; apply (H x); left; reflexivity|]. apply IH. intros y Hy. apply (H y). right. exact Hy. }
    destruct (aget h (s_handles a)) as [[q|]|]; [rewrite (LP _ NN) in E; discriminate|discriminate|discriminate].
  - exfalso. unfold set_props, bind, handle_value, get in E. assert (LP : forall m, (forall x, ~ In (0xDC07, x) m) -> set_loop C fuel h m a = Ret (R_OK, a)).
    { induction m as [|[p x] m IH]; intros H; [reflexivity|]. cbn [set_loop]. destruct (p =? 0xDC07) eqn:Q; [apply N.eqb_eq in Q; subst p; exfalso; apply (H x); left; reflexivity|]. apply IH. intros y Hy. apply (H y). right. exact Hy. }
    destruct (aget h (s_handles a)) as [[q|]|]; [rewrite (LP _ NN) in E; discriminate|discriminate|discriminate].
Qed.
Section S.
Variables (C : conf) (fuel : nat) (rest : list (act * ans) -> act -> ans) (SO : supply_ok C) (WK : works C).
Variables (w : fs) (h : N) (v : view) (d0 : bytes) (R : reachable C w) (HL : look w h = Some v) (HC : content w (v_path v) = Some (File d0)).
Notation grown := (grown C w h v d0).
(** the calls of one SendObject *)
Lemma chunk_split2 first bodies mid cs c post : between h mid -> RSend.chunk_writes h first bodies ++ mid ++ [Responder.SWrite h None false true] = cs ++ c :: post -> bodies <> [] ->
  closed cs = false /\ ((exists b l, c = Responder.SWrite h (Some b) (match cs with [] => first | _ => false end) l /\ In b bodies) \/
    (cs <> [] /\ exists vals, c = Responder.SSetProps h vals true /\ nameless vals) \/ (c = Responder.SWrite h None false true /\ cs <> [] /\ post = [])).
Proof.
  intros BT. assert (TAIL : forall m cs, between h m -> m ++ [Responder.SWrite h None false true] = cs ++ c :: post ->
     closed cs = false /\ ((exists vals, c = Responder.SSetProps h vals true /\ nameless vals) \/ (c = Responder.SWrite h None false true /\ post = []))).
  { clear. induction m as [|x m IH]; intros cs BT EQ.
    - destruct cs as [|c1 cs]; cbn [app] in EQ; [injection EQ as <- <-; split; [reflexivity|right; auto]|injection EQ as _ EQ; destruct cs; discriminate EQ].
    - destruct cs as [|c1 cs]; cbn [app] in EQ.
      + injection EQ as <- _. split; [reflexivity|]. left. exact (BT x (or_introl eq_refl)).
      + injection EQ as <- EQ. destruct (IH cs (fun y I => BT y (or_intror I)) EQ) as [A B]. destruct (BT x (or_introl eq_refl)) as (vals & -> & _). split; [exact A|exact B]. }
  revert first cs. induction bodies as [|b bodies IH]; intros first cs EQ NE; [contradiction|]. destruct bodies as [|b2 bodies].
  - cbn [RSend.chunk_writes app] in EQ. destruct cs as [|c1 cs]; cbn [app] in EQ.
    + injection EQ as <- _. split; [reflexivity|]. left. exists b, true. split; [reflexivity|left; reflexivity].
    + injection EQ as <- EQ. destruct (TAIL mid cs BT EQ) as [A B]. split; [exact A|]. right. destruct B as [B|[B1 B2]]; [left; split; [discriminate|exact B]|right; split; [exact B1|split; [discriminate|exact B2]]].
  - change (RSend.chunk_writes h first (b :: b2 :: bodies)) with (Responder.SWrite h (Some b) first false :: RSend.chunk_writes h false (b2 :: bodies)) in EQ. cbn [app] in EQ. destruct cs as [|c1 cs]; cbn [app] in EQ.
    + injection EQ as <- _. split; [reflexivity|]. left. exists b, false. split; [reflexivity|left; reflexivity].
    + injection EQ as <- EQ. destruct (IH false cs EQ ltac:(discriminate)) as [K1 K2]. split; [exact K1|]. destruct K2 as [(x & l & -> & I)|[[N K]|(-> & N & P)]].
      * left. exists x, l. split; [destruct cs; reflexivity|right; exact I].
      * right; left. split; [discriminate|exact K].
      * right; right. split; [reflexivity|]. split; [discriminate|exact P].
Qed.
Lemma grown_set cs vals a : grown cs a -> closed cs = false -> cs <> [] -> nameless vals ->
  set_props C fuel h (map (fun x => (opd_code (fst x), snd x)) vals) a = Ret (R_OK, a) /\ grown (cs ++ [Responder.SSetProps h vals true]) a.
Proof.
  intros (A1 & A2 & A3 & A4) NC NE NL. split; [apply nothing_set; try assumption; rewrite A2, HL; discriminate|].
  split; [exact A1|]. split; [exact A2|]. split; [exact A3|]. cbv zeta in *. rewrite closed_app. cbn [closed existsb]. rewrite orb_false_r. rewrite P_Send.content_app. cbn [P_Send.content_written]. rewrite app_nil_r.
  rewrite NC in *. destruct cs; [contradiction|exact A4].
Qed.
Lemma step2 bodies mid cs c post a : between h mid -> bodies <> [] -> (forall b, In b bodies -> len b < 0x80000000) ->
  RSend.chunk_writes h true bodies ++ mid ++ [Responder.SWrite h None false true] = cs ++ c :: post -> grown cs a ->
  match storage C fuel c with Some m => exists r b, m a = Ret (r, b) /\ grown (cs ++ [c]) b | None => grown (cs ++ [c]) a end.
Proof.
  intros BT NE LB EQ G. destruct (chunk_split2 true bodies mid cs c post BT EQ NE) as [NC CS]. destruct G as (A1 & A2 & A3).
  assert (K : ahas h (s_handles a) = true) by (apply (known_look C SO a h A1); rewrite A2, HL; discriminate).
  destruct CS as [(x & l & -> & I)|[(N & vals & -> & NL)|(-> & N & ->)]]; cbn [storage]; unfold owned; rewrite K; unfold tell.
  - match goal with |- context [write_data C h (Some x) ?f l a] => destruct (grown_write C SO WK w h v d0 HL HC cs a x f l (conj A1 (conj A2 A3)) NC eq_refl (LB x I)) as (a' & E & G) end. rewrite E. eauto.
  - destruct (grown_set cs vals a (conj A1 (conj A2 A3)) NC N NL) as [E G]. rewrite E. eauto.
  - destruct (grown_close C SO WK w h v d0 HL HC cs a (conj A1 (conj A2 A3)) NC N) as (a' & E & G). rewrite E. eauto.
Qed.
Lemma boast_true2 n base d bodies mid post b first last : length base = n -> between h mid -> bodies <> [] -> (forall b, In b bodies -> len b < 0x80000000) ->
  RSend.chunk_writes h true bodies ++ mid ++ [Responder.SWrite h None false true] = changed d ++ Responder.SWrite h (Some b) first last :: post ->
  boast C fuel rest w n (d ++ base) (ACall (Responder.SWrite h (Some b) first last)) = device C fuel rest n w (d ++ base) (ACall (Responder.SWrite h (Some b) first last)).
Proof.
  intros B BT NE LB T.
  destruct (replay C fuel SO n w base B grown _ (grown_start C w h v d0 R HC) (grown_same C w h v d0) (fun cs a G => proj1 G) (fun cs c post a EQ G => step2 bodies mid cs c post a BT NE LB EQ G) d _ T) as (a & E & G).
  destruct (chunk_split2 true bodies mid _ _ _ BT T NE) as [NC CS]. destruct CS as [(x & l & EX & I)|[(_ & vals & EX & _)|(EX & _)]]; [|discriminate|discriminate]. injection EX as <- -> _.
  destruct (grown_write C SO WK w h v d0 HL HC (changed d) a b (match changed d with [] => true | _ => false end) last G NC eq_refl (LB b I)) as (a' & E' & _).
  unfold boast. cbv zeta. set (F := match changed d with [] => true | _ => false end) in *. clearbody F.
  erewrite (device_call C fuel rest n w (d ++ base) (Responder.SWrite h (Some b) F last) _ a (code R_OK) a' eq_refl E); [reflexivity|].
  destruct G as (A1 & A2 & _). unfold owned. replace (ahas h (s_handles a)) with true by (symmetry; apply (known_look C SO a h A1); rewrite A2, HL; discriminate). unfold tell. rewrite E'. reflexivity.
Qed.
Lemma sent_state2 n base d bodies mid : length base = n -> between h mid -> bodies <> [] -> (forall b, In b bodies -> len b < 0x80000000) ->
  changed d = RSend.chunk_writes h true bodies ++ mid ++ [Responder.SWrite h None false true] ->
  exists a, state_after C fuel n w (d ++ base) = Ret a /\ grown (changed d) a.
Proof.
  intros B BT NE LB T. apply (replay C fuel SO n w base B grown (changed d) (grown_start C w h v d0 R HC) (grown_same C w h v d0) (fun cs a G => proj1 G)) with (post := []); [|rewrite app_nil_r; reflexivity].
  intros cs c post a EQ G. rewrite T in EQ. exact (step2 bodies mid cs c post a BT NE LB EQ G).
Qed.
End S.
