(** C27: every advertised operation is implemented. *)
From Verif Require Import Base Wire WireSpec Responder RSpec RLogic ROne2 RDemo RAdv.

(** every advertised operation has an entry in the dispatch table, and it is not the
    one that answers OperationNotSupported; the list contains the built-in operations *)
Theorem C27_has_handler : forall env formats cat props_by_type prop_desc op, In op advertised_ops ->
  In op (map fst (op_table env formats cat props_by_type prop_desc)) /\
  ~ In op [OP_SetObjectProtection; OP_ResetDevicePropValue; OP_GetInterdependentPropDesc].
Proof.
  intros *. intros H.
  assert (A : forallb (fun op => existsb (N.eqb op) (map fst (op_table env formats cat props_by_type prop_desc)) &&
    negb (existsb (N.eqb op) [OP_SetObjectProtection; OP_ResetDevicePropValue; OP_GetInterdependentPropDesc])) advertised_ops = true) by reflexivity.
  rewrite forallb_forall in A. specialize (A op H). apply andb_prop in A as [A1 A2]. split.
  - apply existsb_exists in A1 as (x & Hx & E). apply N.eqb_eq in E. subst x. exact Hx.
  - intros Hin. apply negb_true_iff in A2. apply Bool.not_true_iff_false in A2. apply A2. apply existsb_exists. exists op. split; [exact Hin|apply N.eqb_refl].
Qed.
Theorem C27_advertises_all : forall op, In op builtin_ops \/ In op config_ops -> In op advertised_ops.
Proof.
  intros op H.
  assert (A : forallb (fun o => existsb (N.eqb o) advertised_ops) (builtin_ops ++ config_ops) = true) by reflexivity.
  rewrite forallb_forall in A. assert (Hi : In op (builtin_ops ++ config_ops)) by (apply in_or_app; exact H).
  specialize (A op Hi). apply existsb_exists in A as (x & Hx & E). apply N.eqb_eq in E. subst x. exact Hx.
Qed.
(** In every history in which the commands are advertised operations, no response is
    OperationNotSupported -- provided storage and device never produce that code, and
    no suspend request arrives (see below). *)
Theorem C27_never_unsupported_partial : forall env formats cat props_by_type prop_desc inputs s',
  env_supports env -> tables_support props_by_type prop_desc -> (forall h a, ~ In SigSuspend (a_async (env h a))) ->
  only_advertised env formats cat props_by_type prop_desc inputs r_init ->
  run env formats cat props_by_type prop_desc inputs r_init = Ret (tt, s') ->
  Forall (fun o => o_code o <> R_OperationNotSupported) (responses (r_log s')).
Proof.
  intros *. intros H1 H2 H3 H4 H5.
  assert (K0 : K r_init).
  { split; [constructor|]. split; [discriminate|]. split; [exact I|]. split; [exact I|]. split; discriminate. }
  exact (proj1 (never_unsupported env formats cat props_by_type prop_desc H1 H2 H3 inputs r_init s' K0 H4 H5)).
Qed.
(** With a suspend request the responder can come to believe that it waits for the
    data phase of GetThumb, and answers OperationNotSupported.  Operations: suspend
    while SetObjectReferences waits for its data; GetThumb (not answered at all, see
    C21); resume; any packet. *)
Definition no_thumb := demo (fun a => match a with ACall (SGetProps _ _) => Some (fail R_GeneralError) | _ => None end).
Theorem C27_suspend_refuted : exists s',
  demo_run no_thumb [command OP_SetObjectReferences 5 [7]; ISig SigSuspend; command OP_GetThumb 6 [7]; ISig SigResume;
                     IRecv (spec_header 12 2 OP_GetThumb 6) true true] in_session = Ret (tt, s') /\
  map o_code (responses (r_log s')) = [R_OperationNotSupported].
Proof. eexists. split; [vm_compute; reflexivity|]. reflexivity. Qed.
Example ex_C27 : env_supports plain /\ tables_support props0 desc0 /\ (forall h a, ~ In SigSuspend (a_async (plain h a))) /\
  let inputs := [command OP_OpenSession 1 [1]; command OP_GetObjectHandles 2 [0xFFFFFFFF; 0; 0]] in
  only_advertised plain [0x3000] cat0 props0 desc0 inputs r_init /\
  exists s', demo_run plain inputs r_init = Ret (tt, s') /\ map o_code (responses (r_log s')) = [R_OK; R_OK].
Proof.
  split; [intros h a; vm_compute; discriminate|]. split; [split; intros; vm_compute; discriminate|]. split; [intros h a X; exact X|].
  cbv zeta. split; [|eexists; split; vm_compute; reflexivity].
  assert (Hp : forall op tid ps q, command_ok op tid ps -> parse_req (command_bytes op tid ps) = Ret q -> q_code q = op).
  { intros op tid ps q Hc Hq. rewrite (parse_command op tid ps Hc) in Hq. apply Ret_inj in Hq. subst q. reflexivity. }
  assert (Hok1 : command_ok OP_OpenSession 1 [1]) by (repeat split; try (repeat constructor); discriminate).
  assert (Hok2 : command_ok OP_GetObjectHandles 2 [0xFFFFFFFF; 0; 0]) by (repeat split; try (repeat constructor); discriminate).
  cbn [only_advertised]. split.
  - intros _ q Hq. rewrite (Hp _ _ _ _ Hok1 Hq). vm_compute. tauto.
  - intros s1 _. split; [|intros; exact I]. intros _ q Hq. rewrite (Hp _ _ _ _ Hok2 Hq). vm_compute. tauto.
Qed.
Print Assumptions C27_has_handler.
Print Assumptions C27_advertises_all.
Print Assumptions C27_never_unsupported_partial.
Print Assumptions C27_suspend_refuted.
