(** C65: free space announcements. *)
From Coq Require Import NArith List Bool Lia.
Import ListNotations.
From Verif Require Import Base FreeSpace.
Open Scope N_scope.

(** ** Specification *)
(** the file system has [cap] bytes, and measurements give at most that *)
Definition measures (cap : N) (r : statvfs) : Prop :=
  match r with None => True | Some (blocks, avail, size) => blocks * size = cap /\ avail * size <= cap end.
Definition stat_of (i : space_in) : statvfs := match i with SAsk r => r | SCheck r => r end.
Definition is_check (i : space_in) : bool := match i with SAsk _ => false | SCheck _ => true end.
Definition percentage (cap free : N) : N := 100 * free / cap.
(** free space last measured *)
Definition measured (free : N) (r : statvfs) : N := match r with None => free | Some (_, avail, size) => avail * size end.
(** The announcements a host should see: at each check one exactly if the percentage
    measured differs from the one at the last announcement (0 before the first). *)
Fixpoint expected (cap free announced : N) (l : list space_in) : list bool :=
  match l with
  | [] => []
  | i :: l =>
    let free := measured free (stat_of i) in
    let p := percentage cap free in
    if is_check i && negb (p =? announced) then true :: expected cap free p l
    else false :: expected cap free announced l
  end.

(** ** Proofs *)
Definition fits (cap : N) : Prop := 0 < cap < 184467440737095517.
Lemma u64_id x : x < 18446744073709551616 -> u64 x = x.
Proof. intros. apply N.mod_small. assumption. Qed.
Lemma percent_small cap x : fits cap -> x <= cap -> percent_int x cap = percentage cap x.
Proof.
  intros [C1 C2] H. unfold percent_int, percentage. rewrite u64_id by lia. apply N.mod_small. apply N.le_lt_trans with 100; [|lia].
  apply N.div_le_upper_bound; lia.
Qed.
Record agrees (cap free announced : N) (s : space) : Prop := {
  ag_cap : sp_cap s = cap; ag_free : sp_free s = free; ag_le : free <= cap;
  ag_rep : sp_reported s <= cap; ag_ann : percentage cap (sp_reported s) = announced }.
Lemma info_agrees cap free ann s r : fits cap -> measures cap r -> agrees cap free ann s ->
  exists ok, fst (storage_info r s) = (ok, cap, measured free r) /\ agrees cap (measured free r) ann (snd (storage_info r s)).
Proof.
  intros F M [A1 A2 A3 A4 A5]. destruct r as [[[b a] z]|]; cbn [storage_info measured fst snd] in *.
  - destruct M as [M1 M2]. destruct F as [F1 F2]. rewrite !u64_id by lia. exists true. rewrite M1. split; [reflexivity|]. split; cbn [sp_cap sp_free sp_reported]; auto.
  - exists false. rewrite A1, A2. split; [reflexivity|]. split; auto.
Qed.
Lemma run_expected cap : fits cap -> forall l free ann s, Forall (fun i => measures cap (stat_of i)) l -> agrees cap free ann s ->
  fst (space_run l s) = expected cap free ann l.
Proof.
  intros F. induction l as [|i l IH]; intros free ann s M A; [reflexivity|]. apply Forall_cons_iff in M as [M1 M2].
  destruct (info_agrees cap free ann s (stat_of i) F M1 A) as (ok & E1 & A1). destruct F as [F1 F2]. pose proof (conj F1 F2) as F. change (fits cap) in F.
  destruct i as [r|r]; cbn [space_run space_step stat_of is_check expected andb negb] in *.
  - specialize (IH _ _ _ M2 A1). destruct (space_run l (snd (storage_info r s))) as [es s2]. cbn [fst] in *. rewrite IH. reflexivity.
  - unfold send_info_changed. destruct (storage_info r s) as [[[ok' cap'] free'] s1]. cbn [fst snd] in E1, A1.
    assert (cap' = cap /\ free' = measured free r) as [-> ->] by (split; congruence). clear E1.
    destruct (cap =? 0) eqn:Z; [apply N.eqb_eq in Z; lia|]. clear Z. destruct A1 as [B1 B2 B3 B4 B5].
    rewrite !percent_small by assumption. rewrite B5. rewrite (N.eqb_sym ann). destruct (percentage cap (measured free r) =? ann) eqn:P; cbn [negb].
    + specialize (IH (measured free r) ann s1 M2 ltac:(split; assumption)). destruct (space_run l s1). cbn [fst] in *. rewrite IH. reflexivity.
    + specialize (IH (measured free r) (percentage cap (measured free r)) (mk_space (sp_cap s1) (sp_free s1) (measured free r)) M2 ltac:(split; auto)). destruct (space_run l (mk_space _ _ _)). cbn [fst] in *. rewrite IH. reflexivity.
Qed.

(** C65, for a file system whose capacity does not change, is not zero and is below 184 PB. *)
Theorem C65_exact_partial : forall cap start history, 0 < cap < 184467440737095517 -> start <> None ->
  measures cap start -> Forall (fun i => measures cap (stat_of i)) history ->
  fst (space_run history (space_init start)) = expected cap (measured 0 start) 0 history.
Proof.
  intros cap start l F N M H. apply run_expected; [exact F|exact H|]. destruct start as [[[b a] z]|]; [|contradiction]. destruct M as [M1 M2]. cbn [space_init measured]. rewrite !u64_id by lia.
  split; cbn [sp_cap sp_free sp_reported]; auto; try lia.
Qed.
(** Whatever the capacity does, without measurements nothing is announced while the
    storage has no capacity. *)
Theorem C65_no_capacity : forall history, Forall (fun i => stat_of i = None) history ->
  Forall (fun e => e = false) (fst (space_run history (space_init None))).
Proof.
  intros l H. assert (G : forall s, sp_cap s = 0 -> Forall (fun e => e = false) (fst (space_run l s))); [|apply G; reflexivity].
  induction H as [|i l E H IH]; intros s Z; [constructor|]. destruct i as [r|r]; cbn [stat_of] in E; subst r; cbn [space_run space_step storage_info snd].
  - specialize (IH s Z). destruct (space_run l s). constructor; [reflexivity|exact IH].
  - unfold send_info_changed, storage_info. rewrite Z. change (0 =? 0) with true. cbv iota. specialize (IH s Z). destruct (space_run l s). constructor; [reflexivity|exact IH].
Qed.
(** When the capacity changes the last announcement is converted to the new capacity:
    50 of 100 was announced (50%), then 100 of 200 (50% again) is announced too. *)
Theorem C65_capacity_refuted : exists history,
  fst (space_run history (space_init (Some (100, 50, 1)))) = [true; true] /\
  (forall i, In i history -> exists b a z, stat_of i = Some (b, a, z) /\ percentage (b * z) (a * z) = 50).
Proof.
  exists [SCheck (Some (100, 50, 1)); SCheck (Some (200, 100, 1))]. split; [vm_compute; reflexivity|]. intros i [<-|[<-|[]]]; cbn [stat_of]; do 3 eexists; (split; [reflexivity|vm_compute; reflexivity]).
Qed.
(** Beyond 184 PB the percentage wraps: everything free is computed as 0% and not announced. *)
Theorem C65_huge_refuted : exists cap,
  fst (space_run [SCheck (Some (cap, cap, 1))] (space_init (Some (cap, cap, 1)))) = [false] /\ percentage cap cap = 100.
Proof. exists 4611686018427387904. split; vm_compute; reflexivity. Qed.
(** example *)
Example C65_example :
  let l := [SCheck (Some (1000, 900, 4096)); SCheck (Some (1000, 905, 4096)); SAsk (Some (1000, 200, 4096)); SCheck None; SCheck (Some (1000, 899, 4096)); SCheck (Some (1000, 0, 4096))] in
  measures 4096000 (Some (1000, 1000, 4096)) /\ Forall (fun i => measures 4096000 (stat_of i)) l /\
  fst (space_run l (space_init (Some (1000, 1000, 4096)))) = [true; false; false; true; true; true].
Proof. split; [split; lia|]. split; [repeat constructor; cbn [stat_of measures]; lia|vm_compute; reflexivity]. Qed.
Print Assumptions C65_exact_partial.
Print Assumptions C65_no_capacity.
Print Assumptions C65_capacity_refuted.
Print Assumptions C65_huge_refuted.
