(** C97: every folder object keeps being watched. *)
From Verif Require Import Base AList Wire FS FSPath FSTree FSLogic FSAdd FSAdd2 FSDel FSSub FSSpec FSReach FSEv FSAnn FSDemo P_FS4 FSWatch FSWatch2 FSFirm FSWatch3 FSWatch4 FSWatch5.

(** the kernel accepts every watch on what exists (and none on what does not:
    [sys_add_watch]), and a watch number is never given out again *)
Definition kernel_watches (C : conf) : Prop := (forall t, c_wd C t <> None) /\ (forall t t' n, c_wd C t = Some n -> c_wd C t' = Some n -> t = t').
(** what happens in the folder is heard: it has a watch number, and notifications with
    that number are taken to be about it *)
Definition folder_watched (s : fs) (h : N) : Prop := exists p i n, aget h (s_handles s) = Some (Some p) /\ s_heap s p = Some i /\ i_wd i = Some n /\ s_wds s n = Some h.
(** no file name extension stands for a folder *)
Definition files_are_files (C : conf) : Prop := forall p, c_ext C p <> FMT_Association.
(** a copy that was made was made completely, and no folder was gone from the disk before *)
Definition copy_done (C : conf) (o : op) (s s' : fs) : Prop := forall f h q, o = OCopy f h q ->
  (exists c, copy_object C f h q true s = Ret ((R_OK, c), s')) /\ (forall k w, look s k = Some w -> v_folder w -> content s (v_path w) <> None).
(** the folder is not on the disk any more, found out while moving it *)
Definition gone (o : op) (s' : fs) (v : view) : Prop := content s' (v_path v) = None /\ ((exists f h q, o = OMove f h q) \/ (exists f e, o = OEvent f e)).
(** the folder is in a folder that was renamed *)
Definition in_renamed (o : op) (s : fs) (h : N) : Prop := exists f g n, o = ORename f g n /\ inside s g h /\ h <> g.

Section PWatch.
Variables (C : conf) (KW : kernel_watches C) (NF : files_are_files C) (SO : supply_ok C).
Let WT := proj1 KW. Let WI := proj2 KW.

Lemma hearing_watched s ch r p i : WF C s ch r None -> s_heap s p = Some i -> (hearing s i <-> folder_watched s (i_handle i)).
Proof.
  intros W Hp. destruct (W_live _ _ _ _ _ W p i Hp ltac:(discriminate)) as [A _]. split.
  - intros (n & N1 & N2). exists p, i, n. auto.
  - intros (q & j & n & B1 & B2 & B3 & B4). rewrite A in B1. injection B1 as <-. rewrite Hp in B2. injection B2 as <-. exists n. auto.
Qed.
Lemma kind_folder s i : i_info i <> None -> (v_folder (view_of s i) <-> kind i = Some true) /\ (~ v_folder (view_of s i) <-> kind i = Some false).
Proof.
  intros HN. unfold v_folder, v_format, kind, view_of. cbn. destruct (i_info i) as [o|]; [|contradiction]. destruct (N.eqb_spec (oi_format o) FMT_Association) as [->|Z]; split; split; intros H; try congruence; try (intros; congruence).
Qed.
Lemma wf_kind s ch r p i : WF C s ch r None -> s_heap s p = Some i -> kind i <> None /\ i_info i <> None.
Proof. intros W Hp. destruct (W_info _ _ _ _ _ W p i Hp) as (o & O1 & _). unfold kind. rewrite O1. split; congruence. Qed.
Lemma inv_of D K s : asrt C D K s -> inv C s. Proof. apply A_inv. Qed.
Lemma init_inv pu w : asrt C (fun _ => False) (fun _ _ _ => True) (fs_init pu w).
Proof. constructor; auto; [constructor; cbn; discriminate|]. intros x (i & H & _). discriminate. Qed.
Lemma enumerate_w fuel pu w s : enumerate C fuel (fs_init pu w) = Ret (tt, s) -> asrt C (fun _ => False) (fun _ _ _ => True) s.
Proof.
  intros E. assert (N : nt C (enumerate C fuel)); [|exact (N _ _ _ _ _ (init_inv pu w) E)]. unfold enumerate. apply nt_bind; [apply (nt_add C WT WI NF); auto|intros a]. destruct (snd a); [apply nt_upd; intros; cbn; auto 10|apply nt_ret].
Qed.
Lemma to_KE b s D : asrt C D (K0 b) s -> asrt C D (KE b) s.
Proof. intros H. eapply asrt_ease; [exact H|auto]. Qed.
Lemma vis_under s ch r : WF C s ch r None -> forall p x i, s_heap s p = Some i -> vis (lview (s_heap s)) p x -> exists k, s_heap s x = Some k /\ under (i_path i) (i_path k) = true.
Proof.
  intros W. pose proof (T_seg _ _ _ (W_T _ _ _ _ _ W)) as SG.
  assert (B : (forall a x, vis (lview (s_heap s)) a x -> forall i, s_heap s a = Some i -> exists k, s_heap s x = Some k /\ under (i_path i) (i_path k) = true) /\
     (forall o x, visl (lview (s_heap s)) o x -> forall a i l1 l2, s_heap s a = Some i -> ch a = l1 ++ l2 -> seg (s_heap s) o l2 -> exists k, s_heap s x = Some k /\ under (i_path i) (i_path k) = true)).
  { apply (vis_both (lview (s_heap s)) (fun a x => forall i, s_heap s a = Some i -> exists k, s_heap s x = Some k /\ under (i_path i) (i_path k) = true)
      (fun o x => forall a i l1 l2, s_heap s a = Some i -> ch a = l1 ++ l2 -> seg (s_heap s) o l2 -> exists k, s_heap s x = Some k /\ under (i_path i) (i_path k) = true)).
    - intros a f n L i Ha. exists i. split; [exact Ha|apply under_refl].
    - intros a f n x L _ IH i Ha. rewrite (lview_some _ _ _ Ha) in L. injection L as <- _ _. exact (IH a i [] (ch a) Ha eq_refl (SG a i Ha)).
    - intros q x _ IH a i l1 l2 Ha Ech SQ. destruct l2 as [|q' l2]; [discriminate|]. destruct SQ as [[= <-] (qi & Hq & _)]. destruct (IH qi Hq) as (k & K1 & K2). exists k. split; [exact K1|].
      destruct (child_path C s ch r W a i q qi Ha) as (n & _ & En); [rewrite Ech; apply in_or_app; right; left; reflexivity|exact Hq|]. eapply under_trans; [|exact K2]. rewrite En. apply under_join. apply under_refl.
    - intros q f n b x L _ IH a i l1 l2 Ha Ech SQ. destruct l2 as [|q' l2]; [discriminate|]. destruct SQ as [[= <-] (qi & Hq & SQ)]. rewrite (lview_some _ _ _ Hq) in L. injection L as _ <- _. apply (IH a i (l1 ++ [q]) l2 Ha); [rewrite <- app_assoc; exact Ech|exact SQ]. }
  intros p x i Hp V. exact (proj1 B p x V i Hp).
Qed.
Definition excused (o : op) (s s' : fs) (x : ptr) : Prop := deaf s x \/ ((exists f e, o = OEvent f e) /\ was_file s x) \/
  (missing s' x /\ ((exists f h q, o = OMove f h q) \/ (exists f e, o = OEvent f e))) \/
  (exists f g n p, o = ORename f g n /\ aget g (s_handles s) = Some (Some p) /\ vis (lview (s_heap s)) p x /\ x <> p).
Lemma step_w r o s s' : good C r s -> inv C s -> op_ok C o s -> exec C o s = Ret (tt, s') ->
  exists D, asrt C D (KE s) s' /\ (copy_done C o s s' -> forall x, D x -> excused o s s' x).
Proof.
  intros G V OK E. pose proof G as [[ch W] R].
  assert (HA : asrt C (deaf s) (K0 s) s) by (apply asrt_start; [exact V|intros x i Hx; exact (proj1 (wf_kind _ _ _ _ _ W Hx))]).
  assert (PL : forall A (m : M A), nt C m -> (exists a, m s = Ret (a, s')) -> exists D, asrt C D (KE s) s' /\ (copy_done C o s s' -> forall x, D x -> excused o s s' x)).
  { intros A m N (a & Em). exists (deaf s). split; [|intros _ x Z; left; exact Z]. apply to_KE. exact (N _ _ _ _ _ HA Em). }
  assert (EX : forall A (m : M A), bind m (fun _ => ret tt) s = Ret (tt, s') -> exists a, m s = Ret (a, s')).
  { intros A m Em. unfold bind in Em. destruct (m s) as [[a s1]| |]; try discriminate. injection Em as <-. eauto. }
  destruct o; cbn [exec] in E.
  - eapply PL; [apply (nt_add_item C WT WI NF)|apply EX; exact E].
  - eapply PL; [apply (nt_delete_item C)|apply EX; exact E].
  - eapply PL; [apply (nt_delete_item C)|apply EX; exact E].
  - apply EX in E as (a & E). assert (X : asrt C (fun x => deaf s x \/ missing s' x) (K0 s) s') by (refine (move_w C WT WI r _ _ _ true s ch _ _ a s' W _ HA E); intros Z; discriminate Z).
    eexists. split; [apply to_KE; exact X|]. intros _ x [Z|Z]; [left; exact Z|right; right; left]. split; [exact Z|left; eauto].
  - apply EX in E as (a & E). eexists. split; [apply to_KE; exact (setname_w C WT WI _ _ _ _ _ _ _ _ HA E)|]. intros _ x [Z|(p & Z1 & Z2 & Z3)]; [left; exact Z|right; right; right]. eauto 10.
  - apply EX in E as ([c y] & E).
    assert (TOP : asrt C top (KE s) s') by (apply to_KE; refine (copy_top C WT WI NF (K0 s) _ _ _ true s (c, y) s' _ E); eapply asrt_weak; [exact HA|intros x _; exact Logic.I]).
    exists (fun x => top x /\ (copy_done C (OCopy fuel h parent) s s' -> deaf s x)). split.
    + destruct TOP as [I1 I2 I3 I4 I5]. constructor; [exact I1|exact I2|exact I3|exact I4|]. intros x Hx. split; [exact Logic.I|]. intros CD. destruct (CD _ _ _ eq_refl) as [(c' & E') HS]. rewrite E in E'. injection E' as -> ->.
      assert (SS : solid s).
      { intros y0 i Hy A. assert (L : look s (i_handle i) = Some (view_of s i)) by exact (look_of C s ch r W y0 i Hy). destruct (wf_kind _ _ _ _ _ W Hy) as [_ NI]. pose proof (HS _ _ L (proj2 (proj1 (kind_folder s i NI)) (proj1 (assoc_kind i) A))) as Z.
        unfold exists_at. unfold content in Z. cbn [v_path view_of] in Z. destruct (node_at (i_path i) (s_nodes s)); [reflexivity|contradiction]. }
      destruct (copy_w C WT WI NF _ _ _ true (deaf s) (K0 s) s (R_OK, c') s' HA SS E) as [X _]. destruct X as [_ _ _ _ X5]. apply X5; [exact Hx|reflexivity].
    + intros CD x [_ Z]. left. exact (Z CD).
  - eapply PL; [apply (nt_read C)|apply EX; exact E].
  - eapply PL; [apply (nt_write_data C)|apply EX; exact E].
  - eapply PL; [apply (nt_write_partial C)|apply EX; exact E].
  - eapply PL; [apply (nt_truncate C)|apply EX; exact E].
  - eapply PL; [apply (nt_get_info C)|apply EX; exact E].
  - eapply PL; [apply (nt_get_handles C)|apply EX; exact E].
  - eexists. split; [exact (event_w C NF WT WI r fuel e s tt s' G OK HA E)|]. intros _ x [[Z|Z]|Z]; [left; exact Z|right; left; split; [eauto|exact Z]|right; right; left; split; [exact Z|right; eauto]].
  - eapply PL with (m := upd (set_nodes w)); [apply nt_upd; intros; cbn; auto 10|exists tt; exact E].
Qed.
Lemma reach_inv s : reachable C s -> inv C s.
Proof.
  intros R. induction R as [fuel pu w s E NR|s o s' R IH PRE E].
  - exact (inv_of _ _ _ (enumerate_w fuel pu w s E)).
  - destruct (reachable_good C s SO R) as (r & G). destruct (step_w r o s s' G IH PRE E) as (D & X & _). exact (inv_of _ _ _ X).
Qed.
Theorem enumerated fuel pu w s h v : enumerate C fuel (fs_init pu w) = Ret (tt, s) -> look s h = Some v -> v_folder v -> folder_watched s h.
Proof.
  intros E L F. pose proof (enumerate_ok C fuel pu w SO) as X. rewrite E in X. destruct X as [(ch & r & W & HR)|(_ & HH & _)]; [|unfold look in L; rewrite HH in L; discriminate].
  destruct (look_inv C s ch r W h v L) as (p & i & B1 & B2 & B3 & ->). destruct (wf_kind _ _ _ _ _ W B2) as [_ NI]. apply (proj1 (kind_folder s i NI)) in F.
  assert (Z : hearing s i \/ ~ hearing s i).
  { unfold hearing. destruct (i_wd i) as [n|]; [|right; intros (n & Z & _); discriminate]. destruct (s_wds s n) as [h1|] eqn:E1; [|right; intros (n1 & Z1 & Z2); injection Z1 as <-; congruence].
    destruct (N.eq_dec h1 (i_handle i)) as [->|Nh]; [left; eauto|right; intros (n1 & Z1 & Z2); injection Z1 as <-; congruence]. }
  destruct Z as [Z|Z]; [rewrite <- B3; apply (hearing_watched s ch r p i W B2); exact Z|]. exfalso. apply (A_d _ _ _ _ (enumerate_w _ _ _ _ E) p). exists i. split; [exact B2|]. split; [congruence|exact Z].
Qed.
Theorem kept o s s' h v : reachable C s -> op_ok C o s -> exec C o s = Ret (tt, s') -> copy_done C o s s' -> look s' h = Some v -> v_folder v ->
  folder_watched s' h \/ (exists w, look s h = Some w /\ ((v_folder w /\ ~ folder_watched s h) \/ ((exists f e, o = OEvent f e) /\ ~ v_folder w))) \/ gone o s' v \/ in_renamed o s h.
Proof.
  intros R OK E CD L F. destruct (reachable_good C s SO R) as (r & G). destruct (step_w r o s s' G (reach_inv s R) OK E) as (D & X & HD). specialize (HD CD).
  pose proof (step_ok C SO r o s G OK) as G'. rewrite E in G'. pose proof G as [[ch W] _]. destruct G' as [[ch' W'] _].
  destruct (look_inv C s' ch' r W' h v L) as (p & i & B1 & B2 & B3 & ->). destruct (wf_kind _ _ _ _ _ W' B2) as [_ NI]. apply (proj1 (kind_folder s' i NI)) in F.
  assert (Z : hearing s' i \/ ~ hearing s' i).
  { unfold hearing. destruct (i_wd i) as [n|]; [|right; intros (n & Z & _); discriminate]. destruct (s_wds s' n) as [h1|] eqn:E1; [|right; intros (n1 & Z1 & Z2); injection Z1 as <-; congruence].
    destruct (N.eq_dec h1 (i_handle i)) as [->|Nh]; [left; eauto|right; intros (n1 & Z1 & Z2); injection Z1 as <-; congruence]. }
  destruct Z as [Z|Z]; [left; rewrite <- B3; apply (hearing_watched s' ch' r p i W' B2); exact Z|]. right.
  assert (Dp : D p). { apply (A_d _ _ _ _ X p). exists i. split; [exact B2|]. split; [congruence|exact Z]. }
  pose proof (A_k _ _ _ _ X p i B2) as KP. destruct (HD p Dp) as [(j & H1 & H2 & H3)|[[HE (j & H1 & H2)]|[[(j & H1 & H2) HO]|(f & g & n & q & HO & H1 & H2 & H3)]]].
  - left. destruct (KP (V_bd C s (reach_inv s R) p j H1)) as (j' & J1 & J2). rewrite H1 in J1. injection J1 as <-. exists (view_of s j). rewrite <- B3, J2. split; [exact (look_of C s ch r W p j H1)|].
    destruct (wf_kind _ _ _ _ _ W H1) as [KN IN]. left. split; [apply (proj1 (kind_folder s j IN)); destruct (kind j) as [[|]|]; congruence|]. intros FW. apply H3. apply (hearing_watched s ch r p j W H1). exact FW.
  - left. destruct (KP (V_bd C s (reach_inv s R) p j H1)) as (j' & J1 & J2). rewrite H1 in J1. injection J1 as <-. exists (view_of s j). rewrite <- B3, J2. split; [exact (look_of C s ch r W p j H1)|].
    destruct (wf_kind _ _ _ _ _ W H1) as [KN IN]. right. split; [exact HE|]. apply (proj2 (kind_folder s j IN)). exact H2.
  - right. left. rewrite B2 in H1. injection H1 as <-. split; [|exact HO]. unfold content. cbn [v_path view_of]. unfold exists_at in H2. destruct (node_at (i_path i) (s_nodes s')); [discriminate|reflexivity].
  - right. right. destruct (W_h _ _ _ _ _ W g _ H1) as (q' & qi & Eq & Hq & Hqh & _). injection Eq as <-. destruct (vis_under s ch r W q p qi Hq H2) as (k & K1 & K2). destruct (KP (V_bd C s (reach_inv s R) p k K1)) as (j' & J1 & J2). rewrite K1 in J1. injection J1 as <-.
    assert (Eh : h = i_handle k) by congruence. exists f, g, n. split; [exact HO|]. split; [rewrite Eh, <- Hqh; eapply (under_inside C s ch r W); eassumption|]. intros Z2. apply H3. eapply (wf_uniq _ _ _ _ _ W); [exact K1|exact Hq|discriminate|discriminate|congruence].
Qed.
End PWatch.

(** ** C97 *)
Theorem C97_enumeration_partial : forall C fuel puoids w s h v, kernel_watches C -> files_are_files C -> supply_ok C -> enumerate C fuel (fs_init puoids w) = Ret (tt, s) ->
  look s h = Some v -> v_folder v -> folder_watched s h.
Proof. intros C fuel pu w s h v KW NF SO. apply enumerated; assumption. Qed.
Theorem C97_kept_partial : forall C s o s' h v, kernel_watches C -> files_are_files C -> supply_ok C -> reachable C s -> op_ok C o s -> exec C o s = Ret (tt, s') -> copy_done C o s s' ->
  look s' h = Some v -> v_folder v ->
  folder_watched s' h \/
  (exists w, look s h = Some w /\ v_folder w /\ ~ folder_watched s h) \/                        (* it was not watched before *)
  (exists w f e, o = OEvent f e /\ look s h = Some w /\ ~ v_folder w) \/                        (* it was no folder before *)
  gone o s' v \/                                                                                (* there is no such folder *)
  in_renamed o s h.                                                                             (* the folder around it was renamed *)
Proof.
  intros C s o s' h v KW NF SO R OK E CD L F. destruct (kept C KW NF SO o s s' h v R OK E CD L F) as [Z|[(w & Lw & [[Z1 Z2]|[(f & e & Z1) Z2]])|[Z|Z]]]; [auto|right; left; eauto|right; right; left; eauto 6|auto 6|auto 6].
Qed.
(** what an object is does not change *)
Definition same_kinds (s s' : fs) : Prop := forall h v v', look s h = Some v -> look s' h = Some v' -> v_folder v' -> v_folder v.
(** the histories in which every copy that was tried worked, no file became a folder, no
    folder that was moved was gone, and no folder with folders in it was renamed *)
Definition plain_step (o : op) (s s' : fs) : Prop := same_kinds s s' /\ forall h v, look s' h = Some v -> v_folder v -> ~ gone o s' v /\ ~ in_renamed o s h.
Inductive calm (C : conf) : fs -> Prop :=
| calm_start fuel puoids w s : enumerate C fuel (fs_init puoids w) = Ret (tt, s) -> s_root s <> None -> calm C s
| calm_step s o s' : calm C s -> op_ok C o s -> exec C o s = Ret (tt, s') -> copy_done C o s s' -> plain_step o s s' -> calm C s'.
Lemma calm_reachable C s : calm C s -> reachable C s.
Proof. intros H. induction H; [eapply reach_start; eassumption|eapply reach_step; eassumption]. Qed.
Theorem C97_history_partial : forall C s h v, kernel_watches C -> files_are_files C -> supply_ok C -> calm C s -> look s h = Some v -> v_folder v -> folder_watched s h.
Proof.
  intros C s h v KW NF SO H. revert h v. induction H as [fuel pu w s E NR|s o s' H IH OK E CD [SK PS]]; intros h v L F; [eapply enumerated; eassumption|].
  destruct (C97_kept_partial C s o s' h v KW NF SO (calm_reachable C s H) OK E CD L F) as [Z|[(w & Lw & Fw & Nw)|[(w & f & e & _ & Lw & Nw)|[Z|Z]]]]; [exact Z| | | |].
  - exfalso. apply Nw. exact (IH h w Lw Fw).
  - exfalso. apply Nw. exact (SK h w v Lw L F).
  - exfalso. exact (proj1 (PS h v L F) Z).
  - exfalso. exact (proj2 (PS h v L F) Z).
Qed.

(** ** Non-vacuity *)
Lemma quiet_watches excl fail chunk : kernel_watches (demo_conf excl fail chunk).
Proof. split; [discriminate|]. intros t t' n. cbn. intros E1 E2. rewrite <- E2 in E1. injection E1 as E1. apply Nnat.Nat2N.inj. exact E1. Qed.
Lemma quiet_files excl fail chunk : files_are_files (demo_conf excl fail chunk).
Proof. intros p. vm_compute. discriminate. Qed.
Definition watch_of (s : fs) (h : N) : option N := match aget h (s_handles s) with Some (Some p) => match s_heap s p with Some i => i_wd i | None => None end | _ => None end.
(** moving the folder /s/a/d to the storage root gives it another watch *)
Definition after_move := run_or (exec quiet (OMove 10 16 0) (demo_start quiet)).
Lemma after_move_exec : op_ok quiet (OMove 10 16 0) (demo_start quiet) /\ exec quiet (OMove 10 16 0) (demo_start quiet) = Ret (tt, after_move).
Proof.
  split; [|vm_compute; reflexivity]. intros v w n Hv Hw Hn Hk. vm_compute in Hv. injection Hv as <-. vm_compute in Hw. injection Hw as <-. vm_compute in Hn. injection Hn as <-. exfalso. apply Hk. vm_compute. reflexivity.
Qed.
Example C97_example : folder_watched after_move 16 /\ watch_of after_move 16 <> watch_of (demo_start quiet) 16.
Proof.
  split; [|vm_compute; discriminate].
  destruct (C97_kept_partial quiet (demo_start quiet) (OMove 10 16 0) after_move 16 (match look after_move 16 with Some v => v | None => mk_view [] None 0 None end) (quiet_watches _ _ _) (quiet_files _ _ _) (demo_supply _ _ _) demo_reachable (proj1 after_move_exec) (proj2 after_move_exec)) as [Z|[(w & L & F & NW)|[(w & f & e & Z & _)|[[Z _]|(f & g & n & Z & _)]]]].
  - intros f h q Z. discriminate.
  - vm_compute. reflexivity.
  - vm_compute. reflexivity.
  - exact Z.
  - exfalso. apply NW. eapply (C97_enumeration_partial quiet 10 (fun _ => None) demo_disk); [apply quiet_watches|apply quiet_files|apply demo_supply|vm_compute; reflexivity|exact L|exact F].
  - discriminate.
  - vm_compute in Z. discriminate Z.
  - discriminate.
Qed.

(** ** What is not kept *)
Lemma reach30 : reachable (stop_at 30) (demo_start (stop_at 30)).
Proof. apply reach_start with (fuel := 10%nat) (puoids := fun _ => None) (w := demo_disk); [vm_compute; reflexivity|vm_compute; discriminate]. Qed.
Lemma not_watched s h n : watch_of s h = Some n -> s_wds s n <> Some h -> ~ folder_watched s h.
Proof. intros A B (p & i & m & C1 & C2 & C3 & C4). unfold watch_of in A. rewrite C1, C2, C3 in A. injection A as ->. contradiction. Qed.
(** a copy that fails half-way leaves the folder it copied into without its watch: what
    other programs do in it is not noticed any more *)
Theorem C97_failed_copy_refuted : exists C s s' h v c, kernel_watches C /\ files_are_files C /\ supply_ok C /\ reachable C s /\ copy_object C 10 12 h true s = Ret ((R_GeneralError, c), s') /\
  look s' h = Some v /\ v_folder v /\ folder_watched s h /\ ~ folder_watched s' h.
Proof.
  exists (stop_at 30), (demo_start (stop_at 30)). eexists. exists 16. eexists. eexists. split; [apply quiet_watches|]. split; [apply quiet_files|]. split; [apply demo_supply|]. split; [exact reach30|]. split; [vm_compute; reflexivity|].
  split; [vm_compute; reflexivity|]. split; [vm_compute; reflexivity|]. split.
  - eapply (C97_enumeration_partial (stop_at 30) 10 (fun _ => None) demo_disk); [apply quiet_watches|apply quiet_files|apply demo_supply|vm_compute; reflexivity|vm_compute; reflexivity|vm_compute; reflexivity].
  - eapply not_watched; [vm_compute; reflexivity|]. vm_compute. discriminate.
Qed.
(** renaming the folder /s/a to /s/x watches the folder in it under its old path, /s/a/d,
    which is not there any more: what other programs do in /s/x/d is not noticed *)
Definition after_rename := run_or (exec quiet (ORename 10 7 [120]) (demo_start quiet)).
Theorem C97_rename_refuted : exists v, op_ok quiet (ORename 10 7 [120]) (demo_start quiet) /\ exec quiet (ORename 10 7 [120]) (demo_start quiet) = Ret (tt, after_rename) /\
  look after_rename 16 = Some v /\ v_folder v /\ content after_rename (v_path v) = Some Dir /\ folder_watched (demo_start quiet) 16 /\ ~ folder_watched after_rename 16 /\ folder_watched after_rename 7.
Proof.
  eexists. split; [discriminate|]. split; [vm_compute; reflexivity|]. split; [vm_compute; reflexivity|]. split; [vm_compute; reflexivity|]. split; [vm_compute; reflexivity|]. split; [|split].
  - eapply (C97_enumeration_partial quiet 10 (fun _ => None) demo_disk); [apply quiet_watches|apply quiet_files|apply demo_supply|vm_compute; reflexivity|vm_compute; reflexivity|vm_compute; reflexivity].
  - intros (p & i & m & C1 & C2 & C3 & C4). vm_compute in C1. injection C1 as <-. vm_compute in C2. injection C2 as <-. vm_compute in C3. discriminate C3.
  - eexists. eexists. eexists. split; [vm_compute; reflexivity|]. split; [vm_compute; reflexivity|]. split; vm_compute; reflexivity.
Qed.
(** a file that another program replaces by a folder of the same name becomes a folder
    object when it is looked up again, and that one has no watch *)
Definition turned_ev := OEvent 10 (Some (mk_ev NCloseWrite (match watch_of (demo_start quiet) 7 with Some n => n | None => 0 end) 0 (Some [98]))).
Definition turned_world : nodes := [(pS, Dir); (pA, Dir); (pB, Dir); (pC, File [7;8]); (pD, Dir)].
Definition turned := run_or (exec quiet turned_ev (set_nodes turned_world (demo_start quiet))).
Theorem C97_replaced_file_refuted : exists v, reachable quiet turned /\ look turned 12 = Some v /\ v_folder v /\ content turned (v_path v) = Some Dir /\ ~ folder_watched turned 12.
Proof.
  eexists. split; [|split; [vm_compute; reflexivity|]; split; [vm_compute; reflexivity|]; split; [vm_compute; reflexivity|]].
  - apply (reach_step quiet (set_nodes turned_world (demo_start quiet)) turned_ev).
    + apply (reach_step quiet (demo_start quiet) (OWorld turned_world)); [exact demo_reachable|exact Logic.I|reflexivity].
    + split; [split; [reflexivity|intros [Z|[]]; discriminate]|]. intros s1 E1. assert (E2 : s1 = set_nodes turned_world (demo_start quiet)) by (apply Ret_inj in E1; congruence). subst s1. clear E1.
      intros v0 h w L1 L2 L3 F. exfalso. revert F. assert (V0 : v_path v0 = pA) by (vm_compute in L1; injection L1 as <-; reflexivity). rewrite V0 in L2. clear L1 V0. vm_compute in L2. injection L2 as <-. vm_compute in L3. injection L3 as <-. vm_compute. discriminate.
    + vm_compute. reflexivity.
  - intros (p & i & m & C1 & C2 & C3 & C4). vm_compute in C1. injection C1 as <-. vm_compute in C2. injection C2 as <-. vm_compute in C3. discriminate C3.
Qed.

Print Assumptions C97_enumeration_partial.
Print Assumptions C97_kept_partial.
Print Assumptions C97_history_partial.
Print Assumptions C97_failed_copy_refuted.
Print Assumptions C97_rename_refuted.
Print Assumptions C97_replaced_file_refuted.
