(** The operations and the watch descriptors: what other programs do. *)
From Verif Require Import Base AList Wire FS FSPath FSTree FSLogic FSAdd FSAdd2 FSDel FSSub FSMove FSMove2 FSSpec FSReach FSEv FSAnn FSAnn2 FSWatch FSWatch2 FSFirm FSWatch3 FSWatch4.

Section Watch5.
Variables (C : conf) (NF : forall q, c_ext C q <> FMT_Association) (WT : forall t, c_wd C t <> None) (WI : forall t t' n, c_wd C t = Some n -> c_wd C t' = Some n -> t = t') (r : ptr).
Notation asrt := (asrt C). Notation tr3 := (tr3 C). Notation nt := (nt C). Notation good := (good C r).
Implicit Types (D : ptr -> Prop) (K : ptr -> N -> option bool -> Prop).
Ltac nt1 := lazymatch goal with
  | |- nt (bind _ _) => apply nt_bind; [|intros ?]
  | |- nt (deref _) => apply nt_deref
  | |- nt (deref_opt _) => apply nt_deref_opt
  | |- nt (ret _) => apply nt_ret
  | |- nt crash => apply nt_crash
  | |- nt give_up => apply nt_giveup
  | |- nt (get _) => apply nt_get
  | |- nt tick => apply nt_tick
  | |- nt (free _) => apply nt_free
  | |- nt (emit _ _) => apply nt_emit
  | |- nt (info_of _) => apply nt_info
  | |- nt (handle_ref _) => apply nt_handle_ref
  | |- nt (handle_value _) => apply nt_handle_value
  | |- nt (has_handle _) => apply nt_has_handle
  | |- nt (when _ _) => apply nt_when
  | |- nt (upd _) => apply nt_upd; intros; cbn; auto 10
  | |- nt (modify _ _) => apply nt_modify; intros; auto
  | |- nt (match ?x with _ => _ end) => destruct x
  end.
Ltac ntx := repeat nt1.
Tactic Notation "ntl" tactic3(t) := repeat first [t | nt1].



(** *** Renaming: the folders below are watched again under their old paths *)
Lemma node_in p : forall w, exists_at p w = true <-> In p (map fst w).
Proof.
  induction w as [|[k v] w IH]; [split; [discriminate|intros []]|]. unfold exists_at in *. cbn [node_at map fst]. destruct (peqb p k) eqn:E.
  - apply peqb_eq in E. subst k. split; [intros _; left; reflexivity|reflexivity].
  - apply peqb_neq in E. rewrite IH. split; [intros Z; right; exact Z|intros [Z|Z]; [congruence|exact Z]].
Qed.
Lemma renamed_there a b w : exists_at a w = true -> exists_at b (rename_nodes a b w) = true.
Proof.
  intros H. apply node_in in H. apply node_in. unfold rename_nodes. rewrite map_map. cbn [fst]. apply in_map_iff in H as ([k v] & <- & H). apply in_map_iff. exists (k, v). split; [|exact H]. cbn [fst]. rewrite moved_key_under by apply under_refl. apply repath_self.
Qed.
Lemma setname_w fuel h n s c s' D K : asrt D K s -> set_file_name C fuel h n s = Ret (c, s') ->
  asrt (fun x => D x \/ exists p, aget h (s_handles s) = Some (Some p) /\ vis (lview (s_heap s)) p x /\ x <> p) K s'.
Proof.
  intros HA E. assert (OUT : forall s0, asrt D K s0 -> asrt (fun x => D x \/ exists p, aget h (s_handles s) = Some (Some p) /\ vis (lview (s_heap s)) p x /\ x <> p) K s0) by (intros s0 H0; eapply asrt_weak; [exact H0|auto]).
  unfold set_file_name in E. inv E v s1 E1. injection E1 as <- <-. destruct (aget h (s_handles s)) as [[p|]|] eqn:Hh; [|injection E as <- <-; apply OUT; exact HA..].
  inv E i s1 E1. apply deref_inv in E1 as [-> Hp]. inv E ok s1 E1. assert (s1 = s) as ->.
  { unfold file_name_valid in E1. destruct (_ || _); [injection E1 as _ <-; reflexivity|]. inv E1 qi s2 E2. assert (s2 = s) as -> by (destruct (i_parent i); [apply deref_inv in E2 as [-> _]; reflexivity|discriminate]). inv E1 k s3 E3. injection E3 as <- <-. injection E1 as _ <-. reflexivity. }
  destruct (negb ok); [injection E as <- <-; apply OUT; exact HA|]. clear E1 ok. set (dst := rev _ ++ n) in *.
  inv E ok s1 E1. pose proof (nt_rename C _ _ _ _ _ _ _ HA E1) as HA1. destruct (rename_cases C (i_path i) dst s) as (ok' & s1' & E1' & X). rewrite E1 in E1'. injection E1' as <- <-.
  assert (EH : s_heap s1 = s_heap s /\ (ok = true -> exists_at dst (s_nodes s1) = true)).
  { destruct X as [[-> ->]|(-> & X1 & [[X2 ->]|(_ & _ & _ & _ & _ & ->)])]; cbn [s_heap s_nodes set_nodes set_tick]; split; try reflexivity; [discriminate|intros _; rewrite <- X2; exact X1|intros _; apply renamed_there; exact X1]. }
  destruct EH as [EH EX]. clear X. inv E u s9 E9. injection E as <- <-. destruct ok; cbn [when] in E9; [|injection E9 as _ <-; apply OUT; exact HA1]. specialize (EX eq_refl).
  inv E9 u1 s2 E2. assert (N2 : nt (upd (fun s => set_paths (pupd (s_paths s) (i_path i) None) s))) by nt1. pose proof (N2 _ _ _ _ _ HA1 E2) as HA2. injection E2 as _ <-.
  inv E9 u2 s3 E3. assert (N3 : nt (upd (fun s => set_puoids (pupd (s_puoids s) (i_path i) None) s))) by nt1. pose proof (N3 _ _ _ _ _ HA2 E3) as HA3. injection E3 as _ <-.
  inv E9 o s4 E4. apply info_inv in E4 as [-> Eo]. match type of E9 with _ ?st = _ => set (s3 := st) in * end. assert (EH3 : s_heap s3 = s_heap s) by exact EH.
  inv E9 u3 s4 E4. assert (N4 : nt (modify p (it_path dst))) by nt1. pose proof (N4 _ _ _ _ _ HA3 E4) as HA4. pose proof E4 as L4. apply (lsame_mod p (it_path dst)) in L4; [|auto]. unfold modify in E4. rewrite EH3, Hp in E4. injection E4 as _ <-. match type of E9 with _ ?st = _ => set (s4 := st) in * end.
  inv E9 u4 s5 E5. assert (HA5 : asrt D K s5). { eapply (mod_info C D K p s4); [exact HA4| |exact E5]. intros j Hj. unfold s4 in Hj. cbn [s_heap set_heap] in Hj. rewrite nupd_eq in Hj. injection Hj as <-. exists o. split; [exact Eo|reflexivity]. }
  pose proof E5 as L5. unfold modify in E5. unfold s4 in E5 at 1. cbn [s_heap set_heap] in E5. rewrite nupd_eq in E5. injection E5 as _ <-. match type of E9 with _ ?st = _ => set (s5 := st) in * end.
  assert (LS5 : lsame s s5).
  { intros x. unfold s5, s4, lview. cbn [s_heap set_heap]. unfold nupd. destruct (x =? p) eqn:Z; [|try rewrite EH3; reflexivity]. apply N.eqb_eq in Z. subst x. rewrite Hp. unfold is_assoc. cbn. rewrite Eo. reflexivity. }
  inv E9 u5 s6 E6. assert (N6 : nt (upd (fun s => set_paths (pupd (s_paths s) dst (Some h)) s))) by nt1. pose proof (N6 _ _ _ _ _ HA5 E6) as HA6. injection E6 as _ <-.
  inv E9 u6 s7 E7. assert (N7 : nt (upd (fun s => set_puoids (pupd (s_puoids s) dst (Some (i_puoid i))) s))) by nt1. pose proof (N7 _ _ _ _ _ HA6 E7) as HA7. injection E7 as _ <-. match type of E9 with _ ?st = _ => set (s7 := st) in * end.
  assert (E8 : exists s8, (watch_rec fuel remove_watch p;;; watch_rec fuel (add_watch C) p) s7 = Ret (tt, s8) /\ adjust_children fuel fuel dst (i_first i) s8 = Ret (u, s9)).
  { unfold bind in E9 |- *. destruct (watch_rec fuel remove_watch p s7) as [[[] s8]| |]; try discriminate. destruct (watch_rec fuel (add_watch C) p s8) as [[[] s10]| |]; try discriminate. exists s10. auto. }
  destruct E8 as (s8 & E8 & EA). destruct (rewatch_w C WT WI fuel p D K s7 tt s8 HA7 E8) as [_ HA8].
  refine (nt_adjust_children C fuel dst fuel (i_first i) _ _ _ _ _ _ EA). eapply asrt_weak; [exact HA8|]. intros x [Z|[Z1 Z2]]; [auto|right]. exists p. split; [reflexivity|]. split; [eapply vis_ext; [|exact Z1]; intros y; symmetry; apply LS5|].
  intros ->. destruct Z2 as (j & J1 & J2). change (s_nodes s7) with (s_nodes s1) in J2. unfold s7, s5, s4 in J1. cbn [s_heap set_heap set_paths set_puoids] in J1. rewrite nupd_eq in J1. injection J1 as <-. cbn [i_path it_info it_path] in J2. congruence.
Qed.
(** relative to a base state [b]: what its items were *)
Definition K0 (b : fs) : ptr -> N -> option bool -> Prop := fun x h k => x < s_fresh b -> exists i, s_heap b x = Some i /\ h = i_handle i /\ k = kind i.
Definition KE (b : fs) : ptr -> N -> option bool -> Prop := fun x h _ => x < s_fresh b -> exists i, s_heap b x = Some i /\ h = i_handle i.
Definition was_file (b : fs) (x : ptr) : Prop := exists i, s_heap b x = Some i /\ kind i = Some false.
Definition DE (b : fs) : ptr -> Prop := fun x => deaf b x \/ was_file b x.
Lemma asrt_start b : inv C b -> (forall x i, s_heap b x = Some i -> kind i <> None) -> asrt (deaf b) (K0 b) b.
Proof.
  intros V HK. constructor; [exact V| | | |auto].
  - intros x Hx h k Z. lia.
  - intros x h k Z Hx. destruct (Z Hx) as (i & A1 & A2 & A3). exfalso. apply (HK x i A1). auto.
  - intros x i Hx _. exists i. auto.
Qed.
Lemma asrt_ease b s D (D' : ptr -> Prop) : asrt D (K0 b) s -> (forall x, D x -> D' x) -> asrt D' (KE b) s.
Proof.
  intros [V A1 A2 A3 A4] HD. constructor; [exact V| | | |auto].
  - intros x Hx h k. unfold KE. intros Z. destruct (A1 x Hx h k Z) as (i & B1 & B2 & _). exists i. auto.
  - intros x h k Z. exact Z.
  - intros x i Hx Z. destruct (A3 x i Hx Z) as (j & B1 & B2 & _). exists j. auto.
Qed.
(** an object looked up again on the disk *)
Lemma refresh_w b s p u s' D : asrt D (K0 b) s -> p < s_fresh b -> modify p (it_info None) s = Ret (u, s') -> asrt (fun x => D x \/ was_file b x) (KE b) s'.
Proof.
  intros HA Hb E. unfold modify in E. destruct (s_heap s p) as [i|] eqn:Hp; [|discriminate]. injection E as <- <-.
  pose proof (asrt_ease b s D (fun x => D x \/ was_file b x) HA ltac:(intros x Z; left; exact Z)) as HE. destruct (A_k _ _ _ _ HA p i Hp Hb) as (i0 & B1 & B2 & B3).
  eapply asrt_item; [exact HE|exact Hp|reflexivity| |auto|].
  - intros _. exists i0. auto.
  - intros _ Hh. destruct (kind i) as [[|]|] eqn:Ek.
    + left. apply (A_d _ _ _ _ HA). exists i. split; [exact Hp|]. split; [congruence|]. exact Hh.
    + right. exists i0. auto.
    + left. apply (A_d _ _ _ _ HA). exists i. split; [exact Hp|]. split; [congruence|]. exact Hh.
Qed.
(** what is missing stays so while only object infos change *)
Definition still_missing (s s' : fs) : Prop := forall x, missing s x -> missing s' x.
Lemma sm_modify p f : (forall i, i_path (f i) = i_path i) -> tr still_missing (modify p f).
Proof.
  intros Hf s a s' E. unfold modify in E. destruct (s_heap s p) as [j|] eqn:Hp; [|discriminate]. injection E as <- <-. intros x (i & H1 & H2). unfold missing. cbn [s_heap set_heap s_nodes]. unfold nupd. destruct (x =? p) eqn:Z; [|exists i; auto].
  apply N.eqb_eq in Z. subst x. rewrite Hp in H1. injection H1 as ->. exists (f i). rewrite Hf. auto.
Qed.
Lemma sm_refl s : still_missing s s. Proof. intros x Z. exact Z. Qed.
Lemma sm_trans a b c : still_missing a b -> still_missing b c -> still_missing a c. Proof. intros H1 H2 x Z. auto. Qed.
Lemma sm_upd f : (forall s, s_heap (f s) = s_heap s /\ s_nodes (f s) = s_nodes s) -> tr still_missing (upd f).
Proof. intros H s a s' E. injection E as <- <-. destruct (H s) as [H1 H2]. intros x (i & Z1 & Z2). exists i. rewrite H1, H2. auto. Qed.
Lemma sm_populate p : tr still_missing (populate_info C p).
Proof.
  unfold populate_info. apply (FSAnn.tr_bind _ sm_trans); [apply (FSAnn.tr_deref _ sm_refl)|intros i]. destruct (i_info i); [apply (FSAnn.tr_ret _ sm_refl)|]. apply (FSAnn.tr_bind _ sm_trans); [intros s a s' E; injection E as <- <-; intros x (i0 & Z1 & Z2); exists i0; auto|intros t]. apply (FSAnn.tr_bind _ sm_trans); [apply (FSAnn.tr_get _ sm_refl)|intros w].
  apply (FSAnn.tr_bind _ sm_trans); [|intros ph; apply sm_modify; reflexivity]. destruct (i_parent i); [|apply (FSAnn.tr_ret _ sm_refl)]. apply (FSAnn.tr_bind _ sm_trans); [apply (FSAnn.tr_deref _ sm_refl)|intros q; apply (FSAnn.tr_ret _ sm_refl)].
Qed.
Lemma live_below s D K p i : asrt D K s -> s_heap s p = Some i -> p < s_fresh s.
Proof. intros HA Hp. exact (V_bd C s (A_inv _ _ _ _ HA) p i Hp). Qed.
Lemma nt_fs_delete f wd n : nt (handle_fs_delete C f wd n).
Proof. unfold handle_fs_delete. ntl (apply nt_delete). Qed.
Lemma nt_fs_create f wd n : nt (handle_fs_create C f wd n).
Proof. unfold handle_fs_create. ntl (apply (nt_add C WT WI NF); auto). Qed.
Lemma delete_fresh f wd n s u s' : good s -> handle_fs_delete C f wd n s = Ret (u, s') -> s_fresh s' = s_fresh s.
Proof.
  intros [[ch W] R] E. unfold handle_fs_delete in E. inv E ph s1 E1. injection E1 as <- <-. destruct (s_wds s wd) as [h|] eqn:Eh; [|injection E as <- <-; reflexivity].
  destruct (watch_owner C r s ch wd h W Eh) as (q & j & A1 & A2 & A3). inv E v s1 E1. unfold handle_ref in E1. rewrite A1 in E1. injection E1 as <- <-.
  inv E qi s1 E1. apply deref_inv in E1 as [-> _]. inv E k s1 E1. injection E1 as <- <-. destruct (s_paths s _) as [x|]; [|injection E as <- <-; reflexivity].
  inv E c s1 E1. injection E as <- <-. pose proof (delete_helper_ok C r f x false true s ch W R) as X. rewrite E1 in X. destruct X as (ch' & _ & X).
  destruct (aget x (s_handles s)) as [[p|]|]; [|destruct X as [-> _]; reflexivity..]. destruct (p =? r); [destruct X as [-> _]; reflexivity|]. destruct X as (i & _ & _ & D). apply (D_fresh _ _ _ (L_shr _ _ _ _ _ _ D)).
Qed.
Lemma modify_w b wd n s u s' : asrt (deaf b) (K0 b) s -> s_fresh s = s_fresh b -> handle_fs_modify C wd n s = Ret (u, s') -> asrt (DE b) (KE b) s'.
Proof.
  intros HA EF E. assert (OUT : asrt (DE b) (KE b) s) by (eapply asrt_ease; [exact HA|intros x Z; left; exact Z]).
  unfold handle_fs_modify in E. inv E ph s1 E1. injection E1 as <- <-. inv E v s1 E1. injection E1 as <- <-. destruct (match aget _ (s_handles s) with Some v => v | None => None end) as [q|]; [|injection E as <- <-; exact OUT].
  inv E qi s1 E1. apply deref_inv in E1 as [-> Hq]. destruct (negb _); [injection E as <- <-; exact OUT|]. inv E h s1 E1. injection E1 as <- <-. set (h := match s_paths s _ with Some h => h | None => 0 end) in *.
  inv E wh s1 E1. injection E1 as <- <-. destruct (_ || _); [injection E as <- <-; exact OUT|]. inv E v s1 E1. injection E1 as <- <-. destruct (aget h (s_handles s)) as [[p|]|] eqn:Hh; [|discriminate..].
  inv E i s1 E1. apply deref_inv in E1 as [-> Hi]. inv E u1 s1 E1. assert (Hb : p < s_fresh b) by (rewrite <- EF; eapply live_below; eassumption). pose proof (refresh_w b s p u1 s1 _ HA Hb E1) as H1. clear E1. change (asrt (DE b) (KE b) s1) in H1.
  match type of E with ?prog s1 = _ => assert (N : nt prog) end; [|exact (N _ _ _ _ _ H1 E)]. ntl (apply nt_populate).
Qed.
Lemma move_event_w b f wd1 n1 wd2 n2 s u s' : good s -> fs_move_pre wd1 n1 wd2 n2 s -> asrt (deaf b) (K0 b) s -> s_fresh s = s_fresh b -> handle_fs_move C f wd1 n1 wd2 n2 s = Ret (u, s') -> asrt (fun x => DE b x \/ missing s' x) (KE b) s'.
Proof.
  intros [[ch W] R] (P1 & P2 & PRE) HA EF E. assert (EZ : forall s0, asrt (deaf b) (K0 b) s0 -> asrt (fun x => DE b x \/ missing s0 x) (KE b) s0) by (intros s0 H0; eapply asrt_ease; [exact H0|intros x Z; left; left; exact Z]).
  assert (OUT : asrt (fun x => DE b x \/ missing s x) (KE b) s) by auto.
  unfold handle_fs_move in E. inv E fh s1 E1. injection E1 as <- <-. inv E th s1 E1. injection E1 as <- <-. inv E v1 s1 E1. injection E1 as <- <-. inv E v2 s1 E1. injection E1 as <- <-.
  set (fh := match s_wds s wd1 with Some h => h | None => 0 end) in *. set (th := match s_wds s wd2 with Some h => h | None => 0 end) in *.
  destruct (_ && _); [injection E as <- <-; exact OUT|].
  destruct (aget fh (s_handles s)) as [[fq|]|] eqn:F1; [|injection E as <- <-; exact OUT..].
  destruct (aget th (s_handles s)) as [[tq|]|] eqn:T1; [|injection E as <- <-; exact OUT..].
  inv E fi s1 E1. apply deref_inv in E1 as [-> F2]. inv E ti s1 E1. apply deref_inv in E1 as [-> T2]. destruct (_ || _); [injection E as <- <-; exact OUT|].
  inv E mh s1 E1. injection E1 as <- <-. destruct (s_paths s (join (i_path fi) n1)) as [mh|] eqn:Em; [|injection E as <- <-; exact OUT]. destruct (mh =? 0); [injection E as <- <-; exact OUT|].
  inv E mv s1 E1. injection E1 as <- <-. destruct (aget mh (s_handles s)) as [[p|]|] eqn:Hm; [|injection E as <- <-; exact OUT..].
  inv E k s1 E1. injection E1 as <- <-. destruct (s_paths s (join (i_path ti) n2)) as [x|].
  { inv E c s1 E1. injection E as <- <-. apply EZ. refine (nt_delete C f mh false true _ _ _ _ _ HA E1). }
  inv E u1 s1 E1.
  destruct (W_h _ _ _ _ _ W mh _ Hm) as (p' & i & Ep & Hp & _). injection Ep as <-.
  assert (Hb : p < s_fresh b) by (rewrite <- EF; eapply live_below; eassumption).
  assert (H1 : asrt (fun x => deaf b x \/ missing s1 x) (K0 b) s1).
  { destruct (fh =? th) eqn:Eft.
    - inv E1 v1 s2 E2. match type of E2 with ?m s = _ => assert (N2 : nt m) by nt1 end. pose proof (N2 _ _ _ _ _ HA E2) as HA2. clear N2 E2.
      inv E1 v2 s3 E3. match type of E3 with ?m s2 = _ => assert (N3 : nt m) by nt1 end. pose proof (N3 _ _ _ _ _ HA2 E3) as HA3. clear N3 E3.
      inv E1 k s4 E4. apply deref_inv in E4 as [-> Hk]. inv E1 o s4 E4. apply info_inv in E4 as [-> Eo].
      inv E1 v3 s4 E4. assert (HA4 : asrt (deaf b) (K0 b) s4) by (eapply (mod_info C _ _ p s3); [exact HA3| |exact E4]; intros j Hj; rewrite Hk in Hj; injection Hj as <-; exists o; split; [exact Eo|reflexivity]). clear E4.
      inv E1 v4 s5 E5. match type of E5 with ?m s4 = _ => assert (N5 : nt m) by nt1 end. pose proof (N5 _ _ _ _ _ HA4 E5) as HA5. clear N5 E5.
      inv E1 v5 s6 E6. pose proof (nt_adjust_children C f _ _ _ _ _ _ _ _ HA5 E6) as HA6. eapply (rewatch_end C WT WI); [exact HA6|exact E1].
    - inv E1 c s2 E2. injection E1 as <- <-. eapply (move_w C WT WI r f mh th false s ch); [exact W| |exact HA|exact E2].
      intros _ p0 q0 i0 j0 B1 B2 B3 B4. rewrite Hm in B1. injection B1 as <-. rewrite T1 in B2. injection B2 as <-. rewrite T2 in B4. injection B4 as <-.
      destruct (PRE fq fi tq ti p i0 mh eq_refl F2 eq_refl T2 Em Hm B3) as (_ & Q & _). exact Q. }
  assert (SM : still_missing s1 s').
  { inv E u2 s2 E2. eapply sm_trans; [eapply (sm_modify p (it_info None)); [reflexivity|exact E2]|]. inv E u3 s3 E3. eapply sm_trans; [eapply sm_populate; exact E3|]. inv E fi2 s4 E4. apply deref_inv in E4 as [-> _]. inv E u4 s4 E4.
    assert (S4 : still_missing s3 s4) by (destruct (i_events fi2); [eapply (sm_modify tq (it_events true)); [reflexivity|exact E4]|injection E4 as _ <-; apply sm_refl]). eapply sm_trans; [exact S4|]. eapply sm_upd; [|exact E]. auto. }
  inv E u2 s2 E2. pose proof (refresh_w b s1 p u2 s2 _ H1 Hb E2) as H2. clear E2.
  assert (H3 : asrt (fun x => DE b x \/ missing s' x) (KE b) s2) by (eapply asrt_weak; [exact H2|]; intros x [[Z|Z]|Z]; [left; left; exact Z|right; apply SM; exact Z|left; right; exact Z]).
  match type of E with ?prog s2 = _ => assert (N : nt prog) end; [|exact (N _ _ _ _ _ H3 E)]. ntl (apply nt_populate).
Qed.
Lemma event_w f e s u s' : good s -> op_ok C (OEvent f e) s -> asrt (deaf s) (K0 s) s -> inotify_event C f e s = Ret (u, s') -> asrt (fun x => DE s x \/ missing s' x) (KE s) s'.
Proof.
  intros G OK HA E. apply (note_event_pre C r f e s G) in OK. assert (EZ : forall s0, asrt (deaf s) (K0 s) s0 -> asrt (fun x => DE s x \/ missing s0 x) (KE s) s0) by (intros s0 H0; eapply asrt_ease; [exact H0|intros x Z; left; left; exact Z]).
  assert (NC : forall c, nt (upd (set_cache c))) by (intros c; nt1).
  unfold inotify_event in E. inv E c s1 E1. injection E1 as <- <-. destruct e as [e|].
  2:{ apply EZ. match type of E with ?prog s = _ => assert (N : nt prog) end; [|exact (N _ _ _ _ _ HA E)]. ntl (first [apply nt_fs_delete|apply NC]). }
  destruct (ev_name e) as [name|] eqn:En; [|injection E as <- <-; apply EZ; exact HA]. cbn [event_pre] in OK. rewrite En in OK. destruct OK as [Pn OK].
  inv E u1 s1 E1. destruct u1.
  assert (X : asrt (deaf s) (K0 s) s1 /\ good s1 /\ s_fresh s1 = s_fresh s).
  { destruct (s_cache s) as [[[wd ck] n]|]; [|injection E1 as <-; auto]. destruct (negb (ck =? ev_cookie e)); cbn [when] in E1; [|injection E1 as <-; auto].
    inv E1 u1 s2 E2. injection E1 as <-. pose proof (handle_fs_delete_ok C r f wd n s G) as X. rewrite E2 in X. split; [|split; [apply good_cache; exact X|]].
    - pose proof (nt_fs_delete f wd n _ _ _ _ _ HA E2) as Y. eapply asrt_same; [exact Y|reflexivity..|cbn; lia].
    - cbn. exact (delete_fresh _ _ _ _ _ _ G E2). }
  destruct X as (H1 & G1 & F1). specialize (OK s1 E1). clear E1.
  destruct (ev_kind e).
  - apply EZ. exact (nt_fs_create f _ _ _ _ _ _ _ H1 E).
  - apply EZ. exact (nt_fs_delete f _ _ _ _ _ _ _ H1 E).
  - apply EZ. match type of E with ?prog s1 = _ => assert (N : nt prog) end; [|exact (N _ _ _ _ _ H1 E)]. ntl (first [apply nt_fs_delete|apply NC]).
  - inv E c s2 E2. injection E2 as <- <-. destruct (s_cache s1) as [[[wd ck] n]|] eqn:Ec; [|apply EZ; exact (nt_fs_create f _ _ _ _ _ _ _ H1 E)].
    destruct (ck =? ev_cookie e) eqn:Ek; [|apply EZ; exact (nt_fs_create f _ _ _ _ _ _ _ H1 E)].
    inv E u2 s2 E2. pose proof (move_event_w s f wd n (ev_wd e) name s1 u2 s2 G1 ltac:(eapply OK; [reflexivity|lia]) H1 F1 E2) as X. assert (SM : still_missing s2 s') by (eapply sm_upd; [|exact E]; auto). pose proof (NC _ _ _ _ _ _ X E) as Y. eapply asrt_weak; [exact Y|]. intros x [Z|Z]; [auto|right; apply SM; exact Z].
  - eapply asrt_weak; [exact (modify_w s _ _ _ _ _ H1 F1 E)|auto].
Qed.
End Watch5.
