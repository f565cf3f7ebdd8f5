(** A concrete environment for examples and counterexamples: every storage and
    device call succeeds, the transport delivers, nothing arrives meanwhile --
    except what [special] says. *)
From Verif Require Import Base Wire WireSpec Responder RSpec.

Definition info0 : objinfo := blank_info 0x00010001 20000 0 0x3000 [97].
Definition ok_ans : ans := mk_ans R_OK [0x00010001; 0; 7] [] info0 [] None [] true [].
Definition fail (code : N) : ans := mk_ans code [] [] info0 [] None [] false [].
Definition with_async (l : list sig) : ans := mk_ans R_OK [0x00010001; 0; 7] [] info0 [] None [] true l.
Definition demo (special : act -> option ans) : list (act * ans) -> act -> ans :=
  fun _ a => match special a with Some r => r | None => ok_ans end.
Definition plain : list (act * ans) -> act -> ans := demo (fun _ => None).
Definition cat0 (_ : N) : N := CAT_COMMON.
Definition opd0 (p : N) : objpropdesc := mk_opd p DT_UINT16 true (VInt 0) 0 FNone.
Definition props0 (_ : N) : N * list N := (R_OK, [0xDC01; PROP_File_Name]).
Definition desc0 (_ p : N) : N * option objpropdesc := (R_OK, Some (opd0 p)).
Definition demo_step env := step env [0x3000] cat0 props0 desc0.
Definition demo_run env := run env [0x3000] cat0 props0 desc0.
(** an initiator that has opened session 1 *)
Definition in_session : rstate := set_session 1 r_init.

Lemma tables_ok_demo : tables_ok props0 desc0.
Proof. split; intros; eexists; reflexivity. Qed.
Lemma plain_undisturbed : undisturbed plain. Proof. intros h a. reflexivity. Qed.
Lemma plain_ready : storage_is_ready plain. Proof. intros h. reflexivity. Qed.
Lemma plain_transport : transport_works plain. Proof. intros h b l. reflexivity. Qed.
