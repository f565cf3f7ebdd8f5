(** Copying a folder into itself never ends (C89). *)
From Verif Require Import Base AList Wire FS FSPath FSTree FSLogic FSAdd FSAdd2 FSSub FSDel FSEv FSData FSData2 FSList FSFrame FSCopy FSCopy2 FSSpec FSReach FSTerm FSTerm5.

Lemma mkpath_some p w : (forall y d, under y p = true -> node_at y w <> Some (File d)) -> exists w', mkpath p w = Some w'.
Proof.
  intros H. unfold mkpath. set (g := fun a q => _).
  assert (G : forall l w, (forall y d, In y l -> node_at y w <> Some (File d)) -> exists w', fold_left g l (Some w) = Some w').
  { induction l as [|q l IH]; intros w0 H0; [eexists; reflexivity|]. cbn [fold_left]. unfold g at 2. destruct (node_at q w0) as [[d|]|] eqn:Eq.
    - exfalso. apply (H0 q d (or_introl eq_refl) Eq).
    - apply IH. intros y d Hy. apply H0. right. exact Hy.
    - apply IH. intros y d Hy. rewrite node_at_set. destruct (peqb y q); [discriminate|]. apply H0. right. exact Hy. }
  apply G. intros y d Hy. apply H. apply in_app_or in Hy as [Hy|[->|[]]]; [|apply under_refl]. apply prefixes_under in Hy. exact Hy.
Qed.
Section L.
Variables (C : conf) (SO : supply_ok C) (r : ptr).
Hypotheses (NF : forall t, c_fail C t = false) (NX : c_excl C = []) (NL : forall t p, c_link C t p = None).

Lemma add_dir fuel info s ch q j : WF C s ch r None -> s_heap s q = Some j -> i_handle j = oi_parent info -> oi_parent info <> ALL -> plain (oi_name info) -> oi_format info = FMT_Association ->
  s_paths s (join (i_path j) (oi_name info)) = None -> (forall y, under (join (i_path j) (oi_name info)) y = true -> node_at y (s_nodes s) = None) ->
  (forall y d, under y (join (i_path j) (oi_name info)) = true -> node_at y (s_nodes s) <> Some (File d)) ->
  exists h ph s' j', add_item C (S fuel) info s = Ret ((R_OK, Some (h, ph)), s') /\ s_heap s' q = Some j' /\ i_first j' = Some (s_fresh s) /\
    node_at (join (i_path j) (oi_name info)) (s_nodes s') = Some Dir.
Proof.
  intros W Hq Eh Na Pn Ef Hpath HN HF. set (D := join (i_path j) (oi_name info)) in *. destruct (W_live _ _ _ _ _ W q j Hq ltac:(discriminate)) as [B _]. rewrite Eh in B.
  unfold add_item. cbv zeta. rewrite (proj2 (N.eqb_neq _ _) Na). unfold bind at 1, has_handle, ahas, get at 1. rewrite B. cbn [negb]. unfold bind at 1, handle_ref. rewrite B.
  unfold bind at 1, deref_opt, deref at 1. rewrite Hq. fold D. unfold bind at 1. cbn [add_to_storage]. rewrite NX. cbn [existsb]. unfold bind at 1, tick at 1. rewrite NL. cbn [link_refused]. unfold bind at 1, get at 1. cbn [s_paths set_tick]. rewrite Hpath.
  set (s0 := set_tick _ s). pose proof (fsame_wf _ _ _ _ _ _ W (tsame_fsame _ _ (tsame_tick s))) as W0. fold s0 in W0.
  destruct (attach_exec C SO s0 ch r q j (oi_name info) (Some info) W0 Hq Pn Hpath) as (s1 & i & o & EA & W1 & (FI & _) & EP & EI & EPar & _ & _ & EO & _ & _ & (H & t & ES & _ & HQ & _)); [intros o [= <-]; auto|].
  change (s_fresh s0) with (s_fresh s) in *. set (me := s_fresh s) in *. fold D in EA, EP. unfold bind at 1. rewrite EA. unfold bind at 1, deref at 1. rewrite FI. unfold bind at 1, info_of. rewrite EI. unfold ret at 1.
  subst o. cbn [oi_format oi_set_storage]. replace (oi_format (oi_set_storage (c_sid C) info)) with FMT_Association by (destruct info; cbn in *; congruence). change (FMT_Association =? FMT_Association) with true. cbv iota.
  assert (Nqm : me <> q) by (intros E; pose proof (W_bd _ _ _ _ _ W q j Hq); unfold me in E; lia).
  assert (N1 : s_nodes s1 = s_nodes s) by (rewrite ES; reflexivity).
  destruct (mkpath_some D (s_nodes s1)) as (w' & MK); [rewrite N1; exact HF|].
  assert (NB : nothing_below D w'). { intros y U Ny. destruct (mkpath_ok _ _ _ MK) as [A _]. destruct (A y) as [E|(E & _)]; [rewrite E, N1; apply HN; exact U|]. exfalso. apply Ny. symmetry. apply under_len_eq; [exact E|]. apply under_len. exact U. }
  assert (CD : exists t', create_directory C D s1 = Ret (R_OK, set_nodes w' (set_tick t' s1))).
  { unfold create_directory, bind, get at 1. unfold is_dir. rewrite N1, (HN D (under_refl D)). unfold fails, tick, bind, ret. rewrite NF. rewrite N1 in MK. rewrite MK. exists (S (s_tick s1)). reflexivity. }
  destruct CD as (t' & CD). set (s2 := set_nodes w' (set_tick t' s1)) in *.
  assert (Hme2 : s_heap s2 me = Some i) by exact FI.
  assert (AW : exists s3 i3, add_watch C me s2 = Ret (tt, s3) /\ s_heap s3 me = Some i3 /\ i_path i3 = D /\ i_parent i3 = Some q /\ s_nodes s3 = w' /\ s_heap s3 q = s_heap s1 q).
  { unfold add_watch, bind at 1, deref at 1. rewrite Hme2. unfold is_assoc. rewrite EI. replace (oi_format (oi_set_storage (c_sid C) info)) with FMT_Association by (destruct info; cbn in *; congruence). change (FMT_Association =? FMT_Association) with true. cbv iota.
    unfold sys_add_watch, modify, bind, deref, tick, get, ret, upd. cbn [s_heap set_tick]. rewrite ?Hme2.
    destruct (exists_at _ _); [destruct (c_wd C (s_tick s2)) as [n|]|]; cbv beta iota.
    all: eexists; eexists; split; [reflexivity|]; cbn [s_heap set_tick set_heap set_wds s_nodes]; rewrite nupd_eq, nupd_neq by congruence; split; [reflexivity|]; destruct i; cbn in *; repeat split; auto. }
  destruct AW as (s3 & i3 & AW & Hme3 & P3 & Par3 & N3 & Q3).
  assert (AM : exists s4 i4, add_to_maps C me s3 = Ret (tt, s4) /\ s_heap s4 me = Some i4 /\ i_parent i4 = Some q /\ s_nodes s4 = w' /\ s_heap s4 q = s_heap s1 q).
  { unfold add_to_maps, bind at 1, deref at 1. rewrite Hme3. unfold bind at 1, upd at 1. unfold bind at 1, upd at 1. unfold bind at 1, get at 1. cbn [s_puoids set_paths set_handles].
    destruct (s_puoids s3 (i_path i3)) as [u|].
    - unfold modify, bind, deref. cbn [s_heap set_paths set_handles]. rewrite Hme3. unfold upd. eexists. exists (it_puoid u i3). split; [reflexivity|]. cbn [s_heap set_heap s_nodes set_paths set_handles]. rewrite nupd_eq, nupd_neq by congruence. destruct i3; cbn in *; auto.
    - unfold bind, tick, modify, deref. cbn [s_heap set_paths set_handles set_tick]. rewrite Hme3. unfold upd. eexists. eexists. split; [reflexivity|]. cbn [s_heap set_heap s_nodes set_paths set_handles set_tick set_puoids]. rewrite nupd_eq, nupd_neq by congruence. split; [reflexivity|]. destruct i3; cbn in *; auto. }
  destruct AM as (s4 & i4 & AM & Hme4 & Par4 & N4 & Q4).
  assert (Q1 : s_heap s1 q = Some (it_first (Some me) j)) by (rewrite ES; exact HQ). rewrite Q1 in Q4.
  unfold bind at 1. unfold bind at 1. rewrite CD. change (negb (isok R_OK)) with false. cbv iota. unfold bind at 1. rewrite AW. unfold bind at 1. rewrite AM. unfold bind at 1, get at 1. rewrite N4, (entries_none _ _ NB). unfold bind at 1, ret at 1. unfold ret at 1. change (negb (isok R_OK)) with false. cbv iota.
  unfold bind at 1, deref at 1. rewrite Hme4. unfold bind at 1, when, ret at 1. unfold ret at 1. cbn [snd fst]. unfold bind at 1, deref at 1. rewrite Hme4, Par4. unfold bind at 1. unfold bind at 1, deref at 1. rewrite Q4. unfold ret at 1. unfold ret.
  exists (i_handle i4), (i_handle j), s4, (it_first (Some me) j). split; [destruct j; reflexivity|]. split; [exact Q4|]. split; [destruct j; reflexivity|]. fold D. rewrite N4. exact (proj2 (mkpath_ok _ _ _ MK)).
Qed.
Lemma add_zero info s ch q j : WF C s ch r None -> s_heap s q = Some j -> i_handle j = oi_parent info -> oi_parent info <> ALL -> add_item C 0 info s = Abort.
Proof.
  intros W Hq Eh Na. destruct (W_live _ _ _ _ _ W q j Hq ltac:(discriminate)) as [B _]. rewrite Eh in B. unfold add_item. cbv zeta. rewrite (proj2 (N.eqb_neq _ _) Na). unfold bind at 1, has_handle, ahas, get at 1. rewrite B. cbn [negb]. unfold bind at 1, handle_ref. rewrite B.
  unfold bind at 1, deref_opt, deref at 1. rewrite Hq. reflexivity.
Qed.
Lemma no_clash s ch top o parent D : WF C s ch r None -> s_root s = Some r -> s_paths s D = None ->
  (if top && (oi_format o =? FMT_Association) then bind (get_object_handles 0 parent) (fun r0 => if isok (fst r0) then any_path (snd r0) D else ret false) else ret false) s = Ret (false, s).
Proof.
  intros W HR HD. destruct (top && _); [|reflexivity]. destruct (clash_state C SO r 0 parent D s ch W HR) as (b & E). rewrite E. destruct b; [|reflexivity]. exfalso.
  unfold bind at 1 in E. destruct (get_object_handles_ok C SO r 0 parent s ch W HR) as (code & l & E1 & _). rewrite E1 in E. cbn [fst snd] in E. destruct (isok code); [|discriminate]. clear E1.
  revert E. induction l as [|h l IH]; [discriminate|]. cbn [any_path]. unfold bind at 1, handle_value, get at 1. destruct (aget h (s_handles s)) as [[x|]|]; [|exact IH|exact IH]. unfold bind at 1, deref. destruct (s_heap s x) as [xi|] eqn:Hx; [|discriminate].
  destruct (peqb (i_path xi) D) eqn:EP; [|exact IH]. intros _. apply peqb_eq in EP. destruct (W_live _ _ _ _ _ W x xi Hx ltac:(discriminate)) as (_ & B). congruence.
Qed.
Theorem self_copy : forall f s ch top h p i o, WF C s ch r None -> s_root s = Some r -> h <> 0 -> aget h (s_handles s) = Some (Some p) -> s_heap s p = Some i -> i_info i = Some o -> oi_format o = FMT_Association ->
  (forall t, exists free, c_free C t = Some free /\ oi_size o <= free) ->
  s_paths s (join (i_path i) (oi_name o)) = None -> (forall y, under (join (i_path i) (oi_name o)) y = true -> node_at y (s_nodes s) = None) ->
  (forall y d, under y (join (i_path i) (oi_name o)) = true -> node_at y (s_nodes s) <> Some (File d)) ->
  copy_object C f h h top s = Abort.
Proof.
  induction f as [|f IH]; intros s ch top h p i o W HR Hh0 Hh Hp Ho AS FR HD HN HF; [reflexivity|]. cbn [copy_object]. set (D := join (i_path i) (oi_name o)) in *.
  destruct (W_h _ _ _ _ _ W h _ Hh) as (p0 & i0 & B1 & B2 & Eph & _). injection B1 as <-. rewrite Hp in B2. injection B2 as <-.
  assert (Npr : p <> r). { intros ->. destruct (W_root _ _ _ _ _ W) as (ri & A & _ & _ & B). rewrite Hp in A. injection A as <-. congruence. }
  destruct (wf_parent _ _ _ _ _ W p i Hp Npr) as (pp & pj & o' & P1 & P2 & P3 & P4 & P5 & P6 & P7). rewrite Ho in P4. injection P4 as <-.
  unfold bind at 1, has_handle, get at 1. unfold ahas at 1. rewrite Hh. cbn [negb]. unfold bind at 1, get at 1. unfold ahas at 1. rewrite Hh. cbn [negb].
  unfold bind at 1, handle_ref at 1. rewrite Hh. unfold bind at 1, deref at 1. rewrite Hp, Ho. unfold bind at 1, tick at 1. destruct (FR (s_tick s)) as (free & EF & LF). rewrite EF. replace (free <? oi_size o) with false by (symmetry; apply N.ltb_ge; exact LF).
  set (s1 := set_tick _ s). pose proof (fsame_wf _ _ _ _ _ _ W (tsame_fsame _ _ (tsame_tick s))) as W1. fold s1 in W1.
  unfold bind at 1, handle_value, get at 1. change (s_handles s1) with (s_handles s). rewrite Hh. unfold bind at 1, deref at 1. change (s_heap s1) with (s_heap s). rewrite Hp. cbv zeta. fold D.
  pose proof (no_clash s1 ch top o h D W1 HR HD) as NC. unfold bind at 1. rewrite NC. cbv iota.
  destruct (remove_watch_ok C s1 ch r None p i W1 Hp) as (s2 & E2 & W2 & X2 & Y2 & _). unfold bind at 1. rewrite E2. destruct (wsame_fields _ _ X2) as (FR2 & R2 & HH2 & _).
  assert (Np : h <> ALL) by (intros E; apply (wf_notall _ SO _ _ _ _ W p i Hp); congruence).
  set (info := oi_set_storage (c_sid C) (oi_set_parent h o)). assert (Hp2 : s_heap s2 p = Some i) by (rewrite Y2; exact Hp).
  assert (PT2 : s_paths s2 = s_paths s /\ s_nodes s2 = s_nodes s) by (destruct X2 as (? & ? & ? & -> & _); split; reflexivity). destruct PT2 as [PT2 ND2].
  destruct f as [|f]; [unfold bind at 1; rewrite (add_zero info s2 ch p i W2 Hp2 Eph Np); reflexivity|].
  destruct (add_dir f info s2 ch p i W2 Hp2 Eph Np P5 AS) as (hc & ph & s3 & j3 & EA & HQ & FQ & ND); [rewrite PT2; exact HD|rewrite ND2; exact HN|rewrite ND2; exact HF|]. change (oi_name info) with (oi_name o) in ND. fold D in ND.
  unfold bind at 1. rewrite EA. cbn [fst snd]. change (negb (isok R_OK)) with false. cbv iota. rewrite AS. change (FMT_Association =? FMT_Association) with true. cbv iota.
  unfold bind at 1, deref at 1. rewrite HQ, FQ. change ((fix loop (k : nat) (itr : option ptr) {struct k} : M N := match itr with None => ret R_OK | Some c => match k with O => give_up | S k' => ci <- deref c ;; r <- copy_object C (S f) (i_handle ci) hc false ;; if negb (isok (fst r)) then ret (fst r) else ci <- deref c ;; loop k' (i_next ci) end end)) with (cl C hc (S f)).
  pose proof (add_item_ok C SO r (S f) info s2 ch W2 P5) as AI. rewrite EA in AI. destruct AI as (ch3 & W3 & X3 & R3 & _). cbn [fst snd] in R3. destruct R3 as (_ & c & ci & q3 & q3i & M1 & M2 & M3 & M4 & M5 & M6 & M7 & M8 & M9).
  change (oi_parent info) with h in M7. rewrite (proj2 (N.eqb_neq _ _) Np) in M7. destruct (E_heap _ _ X3 p i Hp2) as (j3' & HQ' & LK). rewrite HQ in HQ'. injection HQ' as <-. apply lk_fields in LK as (LK1 & LK2 & _).
  assert (q3 = p) as -> by (eapply (wf_uniq _ _ _ _ _ W3); [exact M5|exact HQ|discriminate|discriminate|congruence]). rewrite HQ in M5. injection M5 as <-. rewrite LK2 in M8. change (i_path ci = D) in M8.
  destruct (M9 ltac:(rewrite M8, PT2; exact HD)) as (-> & MI & _).
  pose proof (add_item_one C r (S f) info s2 ch p i _ s3 W2 Hp2 Eph Np ltac:(intros y U _; rewrite ND2; apply HN; exact U) EA) as AF. change (join (i_path i) (oi_name info)) with D in AF.
  unfold bind at 1. cbn [cl]. unfold bind at 1, deref at 1. rewrite M2. rewrite M3. unfold bind at 1.
  set (o3 := oi_set_storage (c_sid C) (oi_set_parent ph info)) in *. assert (EN : oi_name o3 = oi_name o) by reflexivity. assert (SL : ~ In slash (oi_name o)) by apply P5.
  assert (LD : len (join D (oi_name o)) > len D) by (rewrite len_join; lia).
  rewrite (IH s3 ch3 false hc (s_fresh s2) ci o3 W3); [reflexivity|..].
  - rewrite (E_root _ _ X3), R2. exact HR.
  - intros E. assert (Z : s_fresh s2 = r) by (eapply (wf_zero _ SO); [exact W3|exact M2|congruence]). assert (Hr : s_heap s2 r <> None) by (destruct (W_root _ _ _ _ _ W2) as (ri & A & _); congruence). destruct (s_heap s2 r) as [ri|] eqn:Er; [|contradiction]. pose proof (W_bd _ _ _ _ _ W2 r ri Er). lia.
  - exact M1.
  - exact M2.
  - exact MI.
  - exact AS.
  - exact FR.
  - rewrite EN, M8. destruct (s_paths s3 (join D (oi_name o))) as [dh|] eqn:ED; [|reflexivity]. exfalso. destruct (W_path _ _ _ _ _ W3 _ dh ED) as (x & xi & Z1 & _ & Z3 & _).
    destruct (A_path _ _ _ _ _ AF x xi Z1) as [(xk & Z4 & Z5)|Z4]; [|rewrite Z3 in Z4; rewrite <- Z4 in LD; lia].
    destruct (tracked_anc C r s2 ch p i (oi_name o) W2 Hp2 P5 x xk Z4) as (y & yi & Y1 & Y3); [rewrite Z5, Z3; apply under_join, under_refl|]. destruct (W_live _ _ _ _ _ W2 y yi Y1 ltac:(discriminate)) as (_ & B). fold D in Y3. rewrite Y3, PT2 in B. congruence.
  - rewrite EN, M8. intros y U. assert (UD : under D y = true) by (eapply under_trans; [apply under_join, under_refl|exact U]). destruct (A_node _ _ _ _ _ AF y) as [E|(_ & [<-|(E & _)])].
    + rewrite E, ND2. apply HN. exact UD.
    + exfalso. apply under_len in U. lia.
    + exfalso. apply under_len in U. apply under_len in E. lia.
  - rewrite EN, M8. intros y d U E. apply under_join_inv in U as [->|U]; [| |exact SL].
    + destruct (A_node _ _ _ _ _ AF (join D (oi_name o))) as [E'|(_ & [E'|(E' & _)])].
      * rewrite E', ND2, HN in E; [discriminate|apply under_join, under_refl].
      * rewrite <- E' in LD. lia.
      * apply under_len in E'. lia.
    + destruct (A_node _ _ _ _ _ AF y) as [E'|(_ & [<-|(_ & _ & E')])].
      * rewrite E', ND2 in E. apply (HF y d U E).
      * congruence.
      * congruence.
Qed.
End L.
