(** Operations only change files in the exported folder (C48), whatever happens. *)
From Verif Require Import Base AList Wire FS FSPath FSTree FSLogic FSAdd FSAdd2 FSDel FSSub FSMove FSMove2 FSMove3 FSEv FSData FSFrame FSSpec FSReach FSKeep.

Section Conf.
Variables (C : conf) (SO : supply_ok C) (w0 : nodes).
Notation root := (c_root C).
Definition inroot (x : path) : Prop := under root x = true.
Definition files_in (s : fs) : Prop := forall fp pos, s_file s = Some (fp, pos) -> inroot fp.
Definition disk_in (w : nodes) : Prop := forall y, node_at y w <> node_at y w0 -> inroot y \/ (under y root = true /\ node_at y w0 = None /\ node_at y w = Some Dir).
Definition Iconf (s : fs) : Prop := (forall p i, s_heap s p = Some i -> inroot (i_path i)) /\ files_in s /\ disk_in (s_nodes s).
Lemma conf_keeper : keeper C Iconf inroot (fun _ => True).
Proof.
  split.
  - intros s s' (A & B & D) E1 E2 E3 E4 E5. unfold Iconf, files_in. rewrite E1, E2, E3. auto.
  - intros s p i0 j (A & B & D) Hp Hj. split; [|split; [exact B|exact D]]. intros q i. cbn [s_heap set_heap]. unfold nupd. destruct (q =? p); [intros [= <-]; rewrite Hj; exact (A p i0 Hp)|apply A].
  - intros s p j (A & B & D) U _. split; [|split; [exact B|exact D]]. intros q i. cbn [s_heap set_heap]. unfold nupd. destruct (q =? p); [intros [= <-]; exact U|apply A].
  - auto.
  - intros s p (A & B & D). split; [|split; [exact B|exact D]]. intros q i. cbn [s_heap set_heap]. unfold nupd. destruct (q =? p); [discriminate|apply A].
  - intros s p i (A & _) H. exact (A p i H).
  - intros s w (A & B & D) H. split; [exact A|]. split; [exact B|]. intros y Hy. cbn [s_nodes set_nodes] in *.
    assert (DEC : node_at y w = node_at y (s_nodes s) \/ node_at y w <> node_at y (s_nodes s)).
    { assert (DL : forall a b : bytes, {a = b} + {a <> b}) by apply (list_eq_dec N.eq_dec). assert (DN : forall a b : node, {a = b} + {a <> b}) by decide equality. destruct (node_at y w) as [a|], (node_at y (s_nodes s)) as [b|]; try (right; discriminate); [|left; reflexivity]. destruct (DN a b) as [->|N]; [left; reflexivity|right; congruence]. }
    destruct DEC as [Eq|Ne]; [rewrite Eq in Hy |- *; apply D; exact Hy|].
    destruct (H y Ne) as [U|(p & U & Uy & E1 & E2)]; [left; exact U|]. destruct (under_comparable y root p Uy U) as [Z|Z]; [|left; exact Z]. 
    destruct (node_at y w0) as [n|] eqn:E0; [|right; auto]. destruct (D y) as [U'|(U' & Z1 & Z2)]; [congruence|left; exact U'|congruence].
  - intros d y U V. exact (under_trans root d y U V).
Qed.
Lemma conf_dkeeper : dkeeper Iconf inroot.
Proof.
  split.
  - intros s fp pos (A & B & D) U. split; [exact A|]. split; [|exact D]. intros x k [= <- _]. exact U.
  - intros s (A & B & D). split; [exact A|]. split; [|exact D]. intros x k. discriminate.
  - intros s h H. exact H.
  - intros s fp pos (A & B & D) E. exact (B fp pos E).
Qed.
Lemma conf_cache s c : Iconf s -> Iconf (set_cache c s).
Proof. intros H. exact H. Qed.
Lemma kp_set_cache c : kp Iconf (upd (set_cache c)).
Proof. intros s a s' H E. injection E as <- <-. split; [exact H|exact Logic.I]. Qed.
Lemma kp_conf_event fuel e : kp Iconf (inotify_event C fuel e).
Proof.
  pose proof conf_keeper as K. unfold inotify_event. eapply kp_bind; [apply kp_get|intros c _].
  assert (DEL : forall wd n, kp Iconf (handle_fs_delete C fuel wd n ;;; upd (set_cache None))) by (intros; eapply kp_bind; [apply (kp_fs_delete C _ _ _ K)|intros; apply kp_set_cache]).
  destruct e as [e|]; [|destruct c as [[[wd ck] n]|]; [apply DEL|apply kp_ret; exact Logic.I]]. destruct (ev_name e) as [name|]; [|apply kp_ret; exact Logic.I].
  eapply kp_bind with (Q := any); [destruct c as [[[wd ck] n]|]; [apply kp_when; apply DEL|apply kp_ret; exact Logic.I]|intros _ _].
  destruct (ev_kind e).
  - apply (kp_fs_create C _ _ _ K).
  - apply (kp_fs_delete C _ _ _ K).
  - eapply kp_bind; [apply kp_get|intros c2 _]. eapply kp_bind with (Q := any); [destruct c2 as [[[wd ck] n]|]; [apply DEL|apply kp_ret; exact Logic.I]|intros _ _; apply kp_set_cache].
  - eapply kp_bind; [apply kp_get|intros c2 _]. destruct c2 as [[[wd ck] n]|]; [|apply (kp_fs_create C _ _ _ K)]. destruct (ck =? ev_cookie e); [|apply (kp_fs_create C _ _ _ K)]. eapply kp_bind; [apply (kp_fs_move C _ _ _ K (fun _ => Logic.I))|intros; apply kp_set_cache].
  - apply (kp_fs_modify C _ _ _ K).
Qed.
End Conf.
Lemma file_keeper C k : keeper C (fun s => s_file s = k) (fun _ => True) (fun _ => True).
Proof. split; intros; cbn in *; auto; congruence. Qed.
Lemma set_file_name_file C fuel h n s code s' : set_file_name C fuel h n s = Ret (code, s') -> s_file s' = s_file s.
Proof. intros E. exact (proj1 (kp_set_file_name C _ _ _ (file_keeper C (s_file s)) (fun _ => Logic.I) fuel h n (fun _ => Logic.I) s code s' eq_refl E)). Qed.

Lemma conf_start C (fuel : nat) puoids w s : enumerate C fuel (fs_init puoids w) = Ret (tt, s) -> Iconf C w s.
Proof.
  intros E. assert (H0 : Iconf C w (fs_init puoids w)) by (split; [intros p i; discriminate|]; split; [intros fp pos; discriminate|]; intros y Hy; contradiction). pose proof (conf_keeper C w) as K.
  assert (H : kp (Iconf C w) (enumerate C fuel)); [|exact (proj1 (H _ _ _ H0 E))]. unfold enumerate. eapply kp_bind; [apply (kp_add C _ _ _ K); apply under_refl|intros r _]. destruct (snd r); [|apply kp_ret; exact Logic.I]. apply (kp_upd C _ _ _ K). intros; cbn; auto.
Qed.
Definition not_world (o : op) : Prop := match o with OWorld _ => False | _ => True end.
Lemma conf_step C (SO : supply_ok C) r s o s' : good C r s -> files_in C s -> op_ok C o s -> not_world o -> exec C o s = Ret (tt, s') -> Iconf C (s_nodes s) s'.
Proof.
  intros G HF HO HW E. destruct G as [[ch W] HR]. pose proof (conf_keeper C (s_nodes s)) as K. pose proof (conf_dkeeper C (s_nodes s)) as D.
  assert (H0 : Iconf C (s_nodes s) s). { split; [|split; [exact HF|intros y Hy; contradiction]]. intros p i Hp. exact (wf_under_root C s ch r None W p i Hp). }
  assert (ALL : forall A (m : M A), kp (Iconf C (s_nodes s)) m -> (m ;;; ret tt) s = Ret (tt, s') -> Iconf C (s_nodes s) s'). { intros A m Hm Em. unfold bind in Em. destruct (m s) as [[a s1]| |] eqn:E1; try discriminate. unfold ret in Em. assert (s1 = s') by congruence. subst. exact (proj1 (Hm _ _ _ H0 E1)). }
  destruct o; cbn [exec] in E; lazymatch type of E with bind (set_file_name _ _ _ _) _ _ = _ => idtac | _ => try (refine (ALL _ _ _ E)) end.
  - apply (kp_add_item C _ _ _ K).
  - apply (kp_delete_item C _ _ _ K).
  - apply (kp_delete_item C _ _ _ K).
  - apply (kp_move C _ _ _ K (fun _ => Logic.I)).
  - unfold bind in E. destruct (set_file_name C fuel h name s) as [[code s1]| |] eqn:E1; try discriminate. unfold ret in E. assert (s1 = s') by congruence. subst s1.
    pose proof (set_file_name_file C fuel h name s code s' E1) as EF. assert (HNR : aget h (s_handles s) <> Some (Some r)). { cbn in HO. intros Z. apply HO. destruct (W_h _ _ _ _ _ W h _ Z) as (p & i & [= <-] & Hp & Hh & _). destruct (root_look C s ch r W) as (ri & A1 & A2 & _). congruence. }
    pose proof (set_file_name_ok C r fuel h name s ch W HNR) as OK. rewrite E1 in OK. destruct OK as (ch' & W' & OK). split; [intros p i Hp; exact (wf_under_root C s' ch' r None W' p i Hp)|]. split; [unfold files_in; rewrite EF; exact HF|].
    intros y Hy. left. destruct (aget h (s_handles s)) as [[p|]|] eqn:Eh; [|exfalso; apply Hy; destruct OK as [_ ->]; reflexivity|exfalso; apply Hy; destruct OK as [_ ->]; reflexivity].
    destruct OK as (i & q & j & Hp & Hq & Hj & [(_ & -> & _)|[(_ & -> & _)|(_ & RN)]]); [contradiction|contradiction|]. destruct (RN_disk _ _ _ _ _ _ _ RN) as [_ Dm]. unfold disk_moved in Dm. rewrite Dm in Hy. destruct (peqb _ _); [contradiction|].
    pose proof (wf_under_root C s ch r None W p i Hp) as U1. pose proof (wf_under_root C s ch r None W q j Hj) as U2. apply (under_join _ _ name) in U2.
    destruct (under (i_path i) y) eqn:V1; [exact (under_trans _ _ _ U1 V1)|]. destruct (under (join (i_path j) name) y) eqn:V2; [exact (under_trans _ _ _ U2 V2)|]. rewrite node_rename in Hy by assumption. contradiction.
  - apply (kp_copy C _ _ _ K D).
  - apply (kp_read C _ _ _ K).
  - apply (kp_write_data C _ _ _ K D).
  - apply (kp_write_partial C _ _ _ K D).
  - apply (kp_truncate C _ _ _ K).
  - apply (kp_get_info C _ _ _ K).
  - apply (kp_get_handles C _ _ _ K).
  - exact (proj1 (kp_conf_event C (s_nodes s) fuel e s tt s' H0 E)).
  - contradiction.
Qed.
Lemma reachable_files C (SO : supply_ok C) s : reachable C s -> files_in C s.
Proof.
  induction 1 as [fuel puoids w s E _|s o s' R IH HO E]; [exact (proj1 (proj2 (conf_start C fuel puoids w s E)))|].
  destruct (reachable_good C s SO R) as (r & G). destruct o as [| | | | | | | | | | | | |w]; try (eapply conf_step; [exact SO|exact G|exact IH|exact HO|exact Logic.I|exact E]).
  cbn in E. injection E as <-. exact IH.
Qed.
