(** A small concrete storage, to show that the hypotheses of the storage theorems are
    met by non-trivial states. *)
From Coq Require Import Permutation.
From Verif Require Import Base AList Wire FS FSPath FSLogic FSSpec.

Definition str (l : list N) : path := l.
(* "/s", "/s/a", "/s/a/b", "/s/c", "/s/a/d" *)
Definition pS := [47;115].  Definition pA := [47;115;47;97].  Definition pB := [47;115;47;97;47;98].
Definition pC := [47;115;47;99].  Definition pD := [47;115;47;97;47;100].
Definition no_info : objinfo := mk_objinfo 0 0 0 0 0 0 0 0 0 0 0 0 0 0 0 [] [] [] [].
(** handles 1,2,3,... skipping 0xFFFFFFFF *)
Definition demo_handle (t : nat) : N := let n := N.of_nat t + 1 in if n <? ALL then n else n + 1.
Definition demo_conf (excl : list path) (fail : nat -> bool) (chunk : nat -> option N) : conf :=
  mk_conf pS excl 65537 AllowWithinStorage (fun _ => FMT_Undefined) fail (fun t => Some (N.of_nat t)) demo_handle
    (fun t => N.of_nat t + 1000) (fun _ _ => None) (fun _ _ => no_info) (fun _ => Some 1000000) chunk (fun _ => false).
Definition quiet := demo_conf [] (fun _ => false) (fun _ => Some 2).
Lemma demo_supply excl fail chunk : supply_ok (demo_conf excl fail chunk).
Proof.
  constructor; cbn; unfold demo_handle.
  - intros t. cbv zeta. destruct (_ <? _); lia.
  - intros t. cbv zeta. destruct (N.ltb_spec (N.of_nat t + 1) ALL); unfold ALL in *; lia.
  - intros t t'. cbv zeta. destruct (N.ltb_spec (N.of_nat t + 1) ALL); destruct (N.ltb_spec (N.of_nat t' + 1) ALL); lia.
Qed.
Definition demo_disk : nodes := [(pS, Dir); (pA, Dir); (pB, File [1;2;3;4;5]); (pC, File [7;8]); (pD, Dir)].
Definition run_or (m : outcome (unit * fs)) : fs := match m with Ret (_, s) => s | _ => fs_init (fun _ => None) [] end.
Definition demo_start (C : conf) : fs := run_or (enumerate C 10 (fs_init (fun _ => None) demo_disk)).
Definition known (s : fs) : list (N * path) :=
  map (fun h => (h, match look s h with Some v => v_path v | None => [] end)) (akeys (s_handles s)).
