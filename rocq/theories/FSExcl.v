(** Which paths become objects (C61). *)
From Verif Require Import Base AList Wire FS FSPath FSTree FSLogic FSAdd FSAdd2 FSDel FSEv FSData FSFrame FSSpec FSReach FSKeep.

(** ** Specification *)
(** what the configured policy says about a link found at time [t] *)
Definition link_allowed (C : conf) (t : nat) (x : path) : Prop :=
  match c_link C t x with
  | None => True                                   (* not a symbolic link *)
  | Some target => target <> [] /\                 (* dangling *)
      match c_policy C with
      | AllowAll => True
      | AllowWithinStorage => exists r, target = c_root C ++ slash :: r
      | DenyAll => False
      end
  end.
Definition exportable (C : conf) (x : path) : Prop := ~ In x (c_excl C) /\ exists t, link_allowed C t x.
(** the operation gives existing objects new paths *)
Definition relocates (o : op) (s : fs) : Prop :=
  match o with
  | OMove _ _ _ | ORename _ _ _ => True
  | OEvent _ (Some e) => ev_kind e = NMovedTo /\ ev_name e <> None /\ exists wd n, s_cache s = Some (wd, ev_cookie e, n)
  | _ => False
  end.
(** histories in which nothing is renamed or moved *)
Inductive reachable_still (C : conf) : fs -> Prop :=
| still_start fuel puoids w s : enumerate C fuel (fs_init puoids w) = Ret (tt, s) -> s_root s <> None -> reachable_still C s
| still_step s o s' : reachable_still C s -> op_ok C o s -> ~ relocates o s -> exec C o s = Ret (tt, s') -> reachable_still C s'.

(** ** Proof *)
Lemma within_spec root target : within root target = true -> exists r, target = root ++ slash :: r.
Proof.
  unfold within. rewrite !andb_true_iff. intros [[_ H] P]. apply is_prefix_spec in P as [r ->]. rewrite app_nth2, Nat.sub_diag in H by lia. destruct r as [|c r]; [discriminate|]. cbn in H. apply N.eqb_eq in H as ->. eauto.
Qed.
Section Excl.
Variables (C : conf) (h0 : ptr -> option item).
Definition Ix (s : fs) : Prop := forall p i', s_heap s p = Some i' -> (exists q i, h0 q = Some i /\ i_path i = i_path i') \/ exportable C (i_path i').
Lemma ix_keeper : keeper C Ix (fun _ => True) (exportable C).
Proof.
  split; auto.
  - intros s s' H E _ _ _ _ p i Hp. rewrite E in Hp. exact (H p i Hp).
  - intros s p i j H Hp Hj q k. cbn [s_heap set_heap]. unfold nupd. destruct (q =? p); [intros [= <-]|apply H]. rewrite Hj. exact (H p i Hp).
  - intros s p j H _ U q k. cbn [s_heap set_heap]. unfold nupd. destruct (q =? p); [intros [= <-]; right; exact U|apply H].
  - intros p t E1 E2. split.
    + intros Z. assert (existsb (peqb p) (c_excl C) = true); [|congruence]. apply existsb_exists. exists p. split; [exact Z|apply peqb_refl].
    + exists t. unfold link_allowed. unfold link_refused in E2. destruct (c_link C t p) as [target|]; [|exact Logic.I]. destruct (peqb target []) eqn:Z; [discriminate|]. apply peqb_neq in Z. split; [exact Z|]. destruct (c_policy C); [exact Logic.I| |discriminate]. apply negb_false_iff in E2. apply within_spec. exact E2.
  - intros s p H q k. cbn [s_heap set_heap]. unfold nupd. destruct (q =? p); [discriminate|apply H].
Qed.
Lemma ix_dkeeper : dkeeper Ix (fun _ => True).
Proof. split; auto. Qed.
Lemma kp_ix_cache c : kp Ix (upd (set_cache c)).
Proof. intros s a s' H E. injection E as <- <-. split; [exact H|exact Logic.I]. Qed.
Lemma ix_event fuel e s s' : Ix s -> ~ relocates (OEvent fuel e) s -> inotify_event C fuel e s = Ret (tt, s') -> Ix s'.
Proof.
  intros HI HN E. pose proof ix_keeper as K. cbn [relocates] in HN.
  assert (DEL : forall wd n, kp Ix (handle_fs_delete C fuel wd n ;;; upd (set_cache None))) by (intros; eapply kp_bind; [apply (kp_fs_delete C _ _ _ K)|intros; apply kp_ix_cache]).
  unfold inotify_event, bind at 1, get in E. destruct e as [e|]; [|destruct (s_cache s) as [[[wd ck] n]|]; [exact (proj1 (DEL wd n s tt s' HI E))|unfold ret in E; apply Ret_inj, (f_equal snd) in E; cbn [snd] in E; subst s'; exact HI]].
  destruct (ev_name e) as [name|]; [|unfold ret in E; apply Ret_inj, (f_equal snd) in E; cbn [snd] in E; subst s'; exact HI]. unfold bind at 1 in E.
  match type of E with match ?X with _ => _ end = _ => destruct X as [[u s1]| |] eqn:E1; try discriminate end.
  assert (H1 : Ix s1 /\ (ev_kind e = NMovedTo -> forall wd n, s_cache s1 <> Some (wd, ev_cookie e, n))).
  { destruct (s_cache s) as [[[wd ck] n]|] eqn:Ec.
    - unfold when in E1. destruct (negb (ck =? ev_cookie e)) eqn:Ek.
      + split; [exact (proj1 (DEL wd n s u s1 HI E1))|]. intros _ wd' n'. unfold bind in E1. destruct (handle_fs_delete C fuel wd n s) as [[a s2]| |]; try discriminate. unfold upd in E1. apply Ret_inj, (f_equal snd) in E1. cbn [snd] in E1. subst s1. discriminate.
      + unfold ret in E1. apply Ret_inj, (f_equal snd) in E1. cbn [snd] in E1. subst s1. split; [exact HI|]. intros Z wd' n' _. apply HN. split; [exact Z|]. split; [discriminate|]. apply negb_false_iff, N.eqb_eq in Ek. subst ck. eauto.
    - unfold ret in E1. apply Ret_inj, (f_equal snd) in E1. cbn [snd] in E1. subst s1. split; [exact HI|]. intros _ wd n. congruence. }
  destruct H1 as [H1 H2]. destruct (ev_kind e).
  - exact (proj1 (kp_fs_create C _ _ _ K fuel _ _ s1 tt s' H1 E)).
  - exact (proj1 (kp_fs_delete C _ _ _ K fuel _ _ s1 tt s' H1 E)).
  - assert (KK : kp Ix (c <- get s_cache ;; (match c with Some (wd, _, n) => handle_fs_delete C fuel wd n ;;; upd (set_cache None) | None => ret tt end) ;;; upd (set_cache (if ev_cookie e =? 0 then None else Some (ev_wd e, ev_cookie e, name))))).
    { eapply kp_bind; [apply kp_get|intros c2 _]. eapply kp_bind with (Q := any); [destruct c2 as [[[wd ck] n]|]; [apply DEL|apply kp_ret; exact Logic.I]|intros _ _; apply kp_ix_cache]. }
    exact (proj1 (KK s1 tt s' H1 E)).
  - unfold bind at 1, get in E. destruct (s_cache s1) as [[[wd ck] n]|] eqn:Ec; [|exact (proj1 (kp_fs_create C _ _ _ K fuel _ _ s1 tt s' H1 E))].
    destruct (ck =? ev_cookie e) eqn:Ek; [|exact (proj1 (kp_fs_create C _ _ _ K fuel _ _ s1 tt s' H1 E))]. apply N.eqb_eq in Ek. subst ck. exfalso. apply (H2 eq_refl wd n). reflexivity.
  - exact (proj1 (kp_fs_modify C _ _ _ K _ _ s1 tt s' H1 E)).
Qed.
Lemma ix_step o s s' : Ix s -> ~ relocates o s -> exec C o s = Ret (tt, s') -> Ix s'.
Proof.
  intros H0 HN E. pose proof ix_keeper as K. pose proof ix_dkeeper as D.
  assert (ALL : forall A (m : M A), kp Ix m -> (m ;;; ret tt) s = Ret (tt, s') -> Ix s'). { intros A m Hm Em. unfold bind in Em. destruct (m s) as [[a s1]| |] eqn:E1; try discriminate. unfold ret in Em. assert (s1 = s') by congruence. subst. exact (proj1 (Hm _ _ _ H0 E1)). }
  destruct o; cbn [exec] in E; try (exfalso; apply HN; exact Logic.I).
  - refine (ALL _ _ _ E). apply (kp_add_item C _ _ _ K).
  - refine (ALL _ _ _ E). apply (kp_delete_item C _ _ _ K); auto.
  - refine (ALL _ _ _ E). apply (kp_delete_item C _ _ _ K); auto.
  - refine (ALL _ _ _ E). apply (kp_copy C _ _ _ K D).
  - refine (ALL _ _ _ E). apply (kp_read C _ _ _ K).
  - refine (ALL _ _ _ E). apply (kp_write_data C _ _ _ K D).
  - refine (ALL _ _ _ E). apply (kp_write_partial C _ _ _ K D).
  - refine (ALL _ _ _ E). apply (kp_truncate C _ _ _ K).
  - refine (ALL _ _ _ E). apply (kp_get_info C _ _ _ K).
  - refine (ALL _ _ _ E). apply (kp_get_handles C _ _ _ K).
  - eapply ix_event; eassumption.
  - unfold upd in E. apply Ret_inj, (f_equal snd) in E. cbn [snd] in E. subst s'. exact H0.
Qed.
End Excl.
Lemma ix_init C fuel puoids w s : enumerate C fuel (fs_init puoids w) = Ret (tt, s) -> Ix C (fun _ => None) s.
Proof.
  intros E. assert (H0 : Ix C (fun _ => None) (fs_init puoids w)) by (intros p i; discriminate). pose proof (ix_keeper C (fun _ => None)) as K.
  assert (H : kp (Ix C (fun _ => None)) (enumerate C fuel)); [|exact (proj1 (H _ _ _ H0 E))]. unfold enumerate. eapply kp_bind; [apply (kp_add C _ _ _ K); exact Logic.I|intros r _]. destruct (snd r); [|apply kp_ret; exact Logic.I]. apply (kp_upd C _ _ _ K). intros; cbn; auto.
Qed.
Lemma still_reachable C s : reachable_still C s -> reachable C s.
Proof. induction 1; [eapply reach_start; eassumption|eapply reach_step; eassumption]. Qed.
Lemma still_ix C s : reachable_still C s -> Ix C (fun _ => None) s.
Proof. induction 1 as [|s o s' R IH HO HN E]; [eapply ix_init; eassumption|eapply ix_step; eassumption]. Qed.
