(** C89, continued: the result of an operation, not only its effect, is settled once enough steps are
    allowed.  The theorems about requests (C83, C86, C94) speak of [fuel] for which the storage operation
    returns; here such [fuel] is shown to exist in every reachable state, and all larger ones to give
    the same result. *)
From Verif Require Import Base AList Wire FS FSPath FSTree FSLogic FSSpec FSReach FSTerm FSTerm2 FSTerm3 FSFuel FSTerm4 FSTerm5 FSLoop FSDemo P_Term.

Lemma ends_with {A} C s (o : op) (m : nat -> M A) : supply_ok C -> reachable C s -> (forall f, op_ok C (bounded f o) s) -> copy_sane s o ->
  (forall f, exec C (bounded f o) = bind (m f) (fun _ => ret tt)) -> mono m -> exists F a s', forall f, (F <= f)%nat -> m f s = Ret (a, s').
Proof.
  intros SO R OK CS EQ MO. destruct (C89_every_operation_ends_partial C s o SO R OK CS) as (F & s1 & H).
  pose proof (H F (Nat.le_refl _)) as H1. rewrite EQ in H1. unfold bind in H1. destruct (m F s) as [[a s2]| |] eqn:E; [|discriminate..].
  exists F, a, s2. intros f L. rewrite (MO F f L s); [exact E|rewrite E; discriminate].
Qed.

Theorem C89_add_result : forall C s i, supply_ok C -> reachable C s -> (forall f, op_ok C (OAdd f i) s) ->
  exists F res s', forall f, (F <= f)%nat -> add_item C f i s = Ret (res, s').
Proof.
  intros C s i SO R OK. apply (ends_with C s (OAdd 0 i) (fun f => add_item C f i) SO R OK Logic.I); [reflexivity|]. intros f f' L. apply add_item_mle. exact L.
Qed.
Theorem C89_delete_result : forall C s h, supply_ok C -> reachable C s -> (forall f, op_ok C (ODelete f h) s) ->
  exists F c s', forall f, (F <= f)%nat -> delete_item C f [] h 0 s = Ret (c, s').
Proof.
  intros C s h SO R OK. apply (ends_with C s (ODelete 0 h) (fun f => delete_item C f [] h 0) SO R OK Logic.I); [reflexivity|]. intros f f' L. apply delete_item_mle. exact L.
Qed.
Theorem C89_delete_all_result : forall C s l m, supply_ok C -> reachable C s -> (forall f, op_ok C (ODeleteAll f l m) s) ->
  exists F c s', forall f, (F <= f)%nat -> delete_item C f l ALL m s = Ret (c, s').
Proof.
  intros C s l m SO R OK. apply (ends_with C s (ODeleteAll 0 l m) (fun f => delete_item C f l ALL m) SO R OK Logic.I); [reflexivity|]. intros f f' L. apply delete_item_mle. exact L.
Qed.
Theorem C89_move_result : forall C s h q, supply_ok C -> reachable C s -> (forall f, op_ok C (OMove f h q) s) ->
  exists F c s', forall f, (F <= f)%nat -> move_object C f h q true s = Ret (c, s').
Proof.
  intros C s h q SO R OK. apply (ends_with C s (OMove 0 h q) (fun f => move_object C f h q true) SO R OK Logic.I); [reflexivity|]. intros f f' L. apply move_mle. exact L.
Qed.
Theorem C89_rename_result : forall C s h n, supply_ok C -> reachable C s -> (forall f, op_ok C (ORename f h n) s) ->
  exists F c s', forall f, (F <= f)%nat -> set_file_name C f h n s = Ret (c, s').
Proof.
  intros C s h n SO R OK. apply (ends_with C s (ORename 0 h n) (fun f => set_file_name C f h n) SO R OK Logic.I); [reflexivity|]. intros f f' L. apply rename_mle. exact L.
Qed.
(** of a file, or of a folder into a folder that is neither it nor inside it *)
Theorem C89_copy_result : forall C s h q, supply_ok C -> reachable C s -> (forall f, op_ok C (OCopy f h q) s) ->
  (forall v w, look s h = Some v -> v_folder v -> look s q = Some w -> v_folder w /\ ~ inside s h q) ->
  exists F c s', forall f, (F <= f)%nat -> copy_object C f h q true s = Ret (c, s').
Proof.
  intros C s h q SO R OK CS. apply (ends_with C s (OCopy 0 h q) (fun f => copy_object C f h q true) SO R OK CS); [reflexivity|]. intros f f' L. apply copy_mle. exact L.
Qed.

(** with a bound just large enough, and a larger one, the folder /s/a of the demonstration disk is deleted with
    its contents; with a smaller one the recursion is cut short *)
Example C89_result_example : (forall f, op_ok quiet (ODelete f 7) (demo_start quiet)) /\
  match delete_item quiet 4 [] 7 0 (demo_start quiet) with Ret (c, s') => c = R_OK /\ look s' 12 = None | _ => False end /\
  match delete_item quiet 9 [] 7 0 (demo_start quiet) with Ret (c, s') => c = R_OK /\ look s' 12 = None | _ => False end.
Proof. split; [intros f X; vm_compute in X; discriminate X|]. split; vm_compute; auto. Qed.

Print Assumptions C89_add_result.
Print Assumptions C89_delete_result.
Print Assumptions C89_delete_all_result.
Print Assumptions C89_move_result.
Print Assumptions C89_rename_result.
Print Assumptions C89_copy_result.
