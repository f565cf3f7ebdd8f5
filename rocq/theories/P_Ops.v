(** C80: queries and management operations ask what the host asked and relay the answer. *)
From Coq Require Import Sorting.Permutation Sorting.Sorted.
From Verif Require Import Base Wire WireSpec Responder RSpec RLogic ROne2 RGate RExec RSession RSend RSend2 RColl RPropList RDemo ROps.

(** Each of fourteen operations, whatever its parameters and whatever the storage and the device
    answer: the questions put to them are, in order and with the host's own arguments, those of
    the operation's script ([protocol]); the data phase (if any) carries what they answered; one
    response ends the transaction, with the code of the step that decided it. *)
Theorem C80_asks_and_relays : forall env formats cat props_by_type prop_desc op tid ps sc s,
  undisturbed env -> tables_ok props_by_type prop_desc -> storage_is_ready env -> idle s -> command_ok op tid ps ->
  r_session s <> 0 -> tid <> 0 -> tid <> 0xFFFFFFFF ->
  protocol formats cat props_by_type prop_desc op (fun i => nth i (pars ps) 0) = Some sc ->
  exists s' l d c params, run env formats cat props_by_type prop_desc [command op tid ps] s = Ret (tt, s') /\ r_log s' = l ++ r_log s /\ r_st s' = IDLE /\ r_session s' = r_session s /\
    follows sc (asked l) d c params /\
    datas l = match d with Some pl => [inl (mk_out TYPE_DATA op tid pl)] | None => [] end /\ responses l = [resp_out c tid params].
Proof. intros env formats cat pbt pd op tid ps sc s Hq Ht. apply request_ok; assumption. Qed.
(** The list sent by GetObjectHandles is the storage's list in increasing order. *)
Theorem C80_handles_sorted : forall l, Permutation l (isort l) /\ Sorted N.le (isort l).
Proof. intros l. split; [apply isort_perm|apply isort_sorted]. Qed.
(** Helpers: the changing calls of a log are among the questions recorded. *)
Lemma changed_asked l : changed l = filter changes (map fst (asked l)).
Proof.
  unfold changed. induction l as [|[a r] l IH]; [reflexivity|]. destruct a as [c|o b|b' b|o b|o|]; try exact IH.
  cbn [calls asked]. cbn [filter]. destruct (changes c) eqn:E.
  - replace (harmless c) with false by (destruct c; try discriminate E; reflexivity). cbn [rev]. rewrite IH, map_app, filter_app. cbn [map filter fst]. rewrite E. reflexivity.
  - rewrite IH. destruct (harmless c); [reflexivity|]. rewrite map_app, filter_app. cbn [map filter fst]. rewrite E, app_nil_r. reflexivity.
Qed.
Lemma follows_all (P : scall * ans -> Prop) sc conv d c ps : follows sc conv d c ps ->
  forall Q : script -> Prop, Q sc -> (forall c k, Q (Ask c k) -> forall r, P (c, r) /\ Q (k r)) -> Forall P conv.
Proof.
  induction 1 as [|c0 k r conv d code ps Hh F IH|c0 k r conv d code ps Hh F IH]; intros Q H0 HQ; [constructor| |].
  - destruct (HQ _ _ H0 r) as [A B]. constructor; [exact A|]. exact (IH Q B HQ).
  - destruct (HQ _ _ H0 r) as [A B]. exact (IH Q B HQ).
Qed.
(** a script with no changing question *)
Inductive reads_only : script -> Prop :=
| ro_finish d c ps : reads_only (Finish d c ps)
| ro_ask c k : changes c = false -> (forall r, reads_only (k r)) -> reads_only (Ask c k).
(** The queries among them change nothing. *)
Theorem C80_queries_change_nothing : forall env formats cat props_by_type prop_desc op tid ps s,
  undisturbed env -> tables_ok props_by_type prop_desc -> storage_is_ready env -> idle s -> command_ok op tid ps ->
  r_session s <> 0 -> tid <> 0 -> tid <> 0xFFFFFFFF ->
  In op [OP_GetDeviceInfo; OP_GetStorageIDs; OP_GetStorageInfo; OP_GetNumObjects; OP_GetObjectHandles; OP_GetObjectInfo; OP_GetDevicePropDesc;
         OP_GetDevicePropValue; OP_GetObjectPropsSupported; OP_GetObjectPropDesc; OP_GetObjectPropValue] ->
  exists s' l, run env formats cat props_by_type prop_desc [command op tid ps] s = Ret (tt, s') /\ r_log s' = l ++ r_log s /\ changed l = [].
Proof.
  intros env formats cat pbt pd op tid ps s Hq Ht Hr Hi Hc Hs Ht1 Ht2 Hop.
  assert (HP : exists sc, protocol formats cat pbt pd op (fun i => nth i (pars ps) 0) = Some sc /\ reads_only sc).
  { set (p := fun i => nth i (pars ps) 0). clearbody p. clear - Hop.
    repeat (destruct Hop as [<-|Hop]; [eexists; split; [reflexivity|]|]); [..|destruct Hop]; unfold relay, good, fail, provided, select, ok; cbv zeta;
    repeat (intros; match goal with
      | |- reads_only (Finish _ _ _) => constructor
      | |- reads_only (Ask _ _) => constructor; [reflexivity|]
      | |- reads_only (if ?b then _ else _) => destruct b
      | |- reads_only (match a_dpd ?r with _ => _ end) => destruct (a_dpd r)
      | |- reads_only (let (_, _) := ?x in _) => destruct x
      | |- reads_only (match ?x with Some _ => _ | None => _ end) => destruct x
      end); constructor. }
  destruct HP as (sc & HP & RO).
  destruct (request_ok env formats cat pbt pd Hq Ht op tid ps sc s Hr Hi Hc Hs Ht1 Ht2 HP) as (s' & l & d & c & params & E & L & _ & _ & F & _).
  exists s', l. split; [exact E|]. split; [exact L|]. rewrite changed_asked.
  assert (A : Forall (fun x => changes (fst x) = false) (asked l)).
  { eapply follows_all; [exact F|exact RO|]. intros c0 k H r. inversion H; subst. split; [assumption|]. auto. }
  clear - A. induction A as [|x m H A IH]; [reflexivity|]. cbn [map filter]. rewrite H. exact IH.
Qed.

(** The hypotheses hold for a device in a session; a MoveObject whose new parent is unknown is
    refused without a move, one whose parent is the root moves. *)
Example ex_C80 :
  let unknown (h : N) := demo (fun a => match a with ACall (SCheckHandle x) => if x =? h then Some (RDemo.fail R_InvalidObjectHandle) else None | _ => None end) in
  undisturbed (unknown 9) /\ storage_is_ready (unknown 9) /\ tables_ok props0 desc0 /\ idle in_session /\ command_ok OP_MoveObject 5 [4; 1; 9] /\
  (exists s1, demo_run (unknown 9) [command OP_MoveObject 5 [4; 1; 9]] in_session = Ret (tt, s1) /\
     map fst (asked (r_log s1)) = [SCheckHandle 4; SCheckStorage 1; SCheckHandle 9] /\ responses (r_log s1) = [resp_out R_InvalidParentObject 5 []]) /\
  (exists s1, demo_run (unknown 9) [command OP_MoveObject 5 [4; 1; 0]] in_session = Ret (tt, s1) /\
     map fst (asked (r_log s1)) = [SCheckHandle 4; SCheckStorage 1; SMove 4 0 1] /\ responses (r_log s1) = [resp_out R_OK 5 []]) /\
  (exists s1, demo_run (unknown 9) [command OP_GetObjectHandles 5 [ALL; 0x3000; 8]] in_session = Ret (tt, s1) /\
     map fst (asked (r_log s1)) = [SCheckHandle 8; SGetHandles ALL 0x3000 8] /\ datas (r_log s1) = [inl (mk_out TYPE_DATA OP_GetObjectHandles 5 (PItems [ids32 [0; 7; 0x00010001]]))]).
Proof.
  cbv zeta. repeat split; try (intros; eexists; reflexivity); try reflexivity.
  - intros h a. unfold demo. destruct a as [c| | | | |]; try reflexivity. destruct c; try reflexivity. destruct (h0 =? 9); reflexivity.
  - left. reflexivity.
  - vm_compute. discriminate.
  - repeat constructor.
  - eexists. split; [vm_compute; reflexivity|]. split; reflexivity.
  - eexists. split; [vm_compute; reflexivity|]. split; reflexivity.
  - eexists. split; [vm_compute; reflexivity|]. split; reflexivity.
Qed.
Print Assumptions C80_asks_and_relays.
Print Assumptions C80_handles_sorted.
Print Assumptions C80_queries_change_nothing.
