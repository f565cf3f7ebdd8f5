(** Storage: more of what goes wrong outside the hypotheses of the storage theorems
    (C42, C46, C47, C50, C59), and the names refused for the storage root (C49). *)
From Coq Require Import Permutation.
From Verif Require Import Base AList Wire FS FSPath FSLogic FSSpec FSReach FSDemo P_FS2 P_FS3 P_FS4.

(** ** C42: the parent of an object need not be a folder: when another program replaces a
    known file by a folder and the initiator then sends an object into it *)
Definition swapped : nodes := [(pS, Dir); (pA, Dir); (pB, Dir); (pC, File [7;8]); (pD, Dir)].
Definition par1 := set_nodes swapped (demo_start quiet).
Definition par2 := run_or (exec quiet (OAdd 10 (send_info 12 FMT_Undefined [120])) par1).
Lemma par1_reachable : reachable quiet par1.
Proof. apply (reach_step quiet (demo_start quiet) (OWorld swapped)); [exact demo_reachable|exact Logic.I|reflexivity]. Qed.
Lemma par2_reachable : reachable quiet par2.
Proof. apply (reach_step quiet par1 (OAdd 10 (send_info 12 FMT_Undefined [120]))); [exact par1_reachable| |vm_compute; reflexivity]. split; [reflexivity|intros [Z|[]]; discriminate]. Qed.
Theorem C42_parent_not_a_folder_refuted : exists s h v q w, reachable quiet s /\ look s h = Some v /\ v_parent v = Some q /\ look s q = Some w /\ ~ v_folder w.
Proof.
  exists par2, 24. eexists. exists 12. eexists. split; [exact par2_reachable|]. split; [vm_compute; reflexivity|]. split; [vm_compute; reflexivity|]. split; [vm_compute; reflexivity|]. vm_compute. discriminate.
Qed.

(** ** C46: moving an object to a place a vanished object is still known at is answered OK
    and leaves two handles with the same path *)
Definition van1 := run_or (exec quiet (OAdd 10 (send_info 7 FMT_Undefined [99])) (demo_start quiet)).
Definition van2 := set_nodes demo_disk van1.
Lemma van1_reachable : reachable quiet van1.
Proof. apply (reach_step quiet (demo_start quiet) (OAdd 10 (send_info 7 FMT_Undefined [99]))); [exact demo_reachable| |vm_compute; reflexivity]. split; [reflexivity|intros [Z|[]]; discriminate]. Qed.
Lemma van2_reachable : reachable quiet van2.
Proof. apply (reach_step quiet van1 (OWorld demo_disk)); [exact van1_reachable|exact Logic.I|reflexivity]. Qed.
Theorem C46_vanished_target_refuted : exists s s' h h' v v', reachable quiet s /\ move_object quiet 10 h 7 true s = Ret (R_OK, s') /\
  h <> h' /\ look s' h = Some v /\ look s' h' = Some v' /\ v_path v = v_path v'.
Proof.
  exists van2. eexists. exists 21, 24. eexists. eexists. split; [exact van2_reachable|]. split; [vm_compute; reflexivity|]. split; [discriminate|].
  split; [vm_compute; reflexivity|]. split; [vm_compute; reflexivity|]. vm_compute. reflexivity.
Qed.

(** ** C47: copying to a folder that has an object of that name replaces its content, and
    answers with its handle *)
Theorem C47_occupied_refuted : exists s s' h v, reachable quiet s /\ copy_object quiet 10 21 7 true s = Ret ((R_OK, h), s') /\
  look s h = Some v /\ content s (v_path v) = Some (File []) /\ content s' (v_path v) = Some (File [7;8]).
Proof.
  exists van1. eexists. exists 24. eexists. split; [exact van1_reachable|]. split; [vm_compute; reflexivity|]. split; [vm_compute; reflexivity|]. split; vm_compute; reflexivity.
Qed.

(** ** C49: the root of the storage cannot get an invalid name either (it is in no folder) *)
Theorem C49_invalid_names_root : forall C s fuel n, supply_ok C -> reachable C s ->
  (exists c, In c n /\ forbidden_char c) \/ only_dots n -> set_file_name C fuel 0 n s = Ret (R_Invalid_ObjectProp_Value, s).
Proof.
  intros C s fuel n SO R BAD. destruct (reachable_good C s SO R) as (r & [[ch W] HR]). pose proof (wf_consistent C SO s ch r W) as CO.
  destruct (co_root C s CO) as (v & Lv & _). destruct (look_inv C s ch r W 0 v Lv) as (p & i & A1 & A2 & A3 & _).
  unfold set_file_name. unfold bind at 1. unfold handle_value, get at 1. rewrite A1. unfold bind at 1. unfold deref at 1. rewrite A2. unfold bind at 1.
  assert (FV : file_name_valid n (i_parent i) s = Ret (false, s)); [|rewrite FV; reflexivity].
  unfold file_name_valid. destruct (existsb illegal_char n || all_dots n) eqn:X; [reflexivity|]. apply orb_false_iff in X as [X1 X2]. exfalso. destruct BAD as [(c & Hc & F)|(N1 & N2)].
  - assert (existsb illegal_char n = true); [|congruence]. apply existsb_exists. exists c. split; [exact Hc|]. unfold illegal_char. apply orb_true_iff. destruct F as [F|F]; [left; apply N.ltb_lt; exact F|right]. apply existsb_exists. exists c. split; [exact F|apply N.eqb_refl].
  - assert (all_dots n = true); [|congruence]. unfold all_dots. apply andb_true_iff. split; [destruct n; [contradiction|reflexivity]|]. apply forallb_forall. intros c Hc. rewrite (N2 c Hc). reflexivity.
Qed.
Example C49_root_example : set_file_name quiet 10 0 [46;46] (demo_start quiet) = Ret (R_Invalid_ObjectProp_Value, demo_start quiet).
Proof. apply C49_invalid_names_root; [apply demo_supply|exact demo_reachable|]. right. split; [discriminate|]. intros c [<-|[<-|[]]]; reflexivity. Qed.

(** ** C50: when shortening the file at the end fails, the send is still answered OK *)
Lemma reach25 : reachable (fail_at 25) (demo_start (fail_at 25)).
Proof. apply reach_start with (fuel := 10%nat) (puoids := fun _ => None) (w := demo_disk); [vm_compute; reflexivity|vm_compute; discriminate]. Qed.
Theorem C50_not_cut_refuted : exists s s' v, reachable (fail_at 25) s /\ look s 12 = Some v /\ send_segments (fail_at 25) 12 [9] [[8]] s = Ret (R_OK, s') /\
  content s' (v_path v) = Some (File [9;8;3;4;5]).
Proof. exists (demo_start (fail_at 25)). eexists. eexists. split; [exact reach25|]. split; [vm_compute; reflexivity|]. split; vm_compute; reflexivity. Qed.

(** ** C59: a file moved out of the storage stays exported when no other notification follows *)
Definition out0 : nodes := [(pS, Dir); (pA, Dir); (pB, File [1;2;3;4;5]); (pD, Dir)].
Definition out1 := set_nodes out0 (demo_start quiet).
Definition out_ev := OEvent 10 (Some (mk_ev NMovedFrom (wd_of (demo_start quiet) 0) 5 (Some [99]))).
Definition out2 := run_or (exec quiet out_ev out1).
Lemma out2_reachable : reachable quiet out2.
Proof.
  apply (reach_step quiet out1 out_ev); [apply (reach_step quiet (demo_start quiet) (OWorld out0)); [exact demo_reachable|exact Logic.I|reflexivity]| |vm_compute; reflexivity].
  split; [split; [reflexivity|intros [Z|[]]; discriminate]|]. intros s1 _. exact Logic.I.
Qed.
Theorem C59_last_one_refuted : exists s v, reachable quiet s /\ exec quiet out_ev out1 = Ret (tt, s) /\ look s 21 = Some v /\ content s (v_path v) = None.
Proof. exists out2. eexists. split; [exact out2_reachable|]. split; [vm_compute; reflexivity|]. split; vm_compute; reflexivity. Qed.

Print Assumptions C42_parent_not_a_folder_refuted.
Print Assumptions C46_vanished_target_refuted.
Print Assumptions C47_occupied_refuted.
Print Assumptions C49_invalid_names_root.
Print Assumptions C50_not_cut_refuted.
Print Assumptions C59_last_one_refuted.
