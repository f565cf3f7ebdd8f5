(** C81: changes made behind the responder's back are announced to the host. *)
From Verif Require Import Base AList Wire FS FSPath FSTree FSLogic FSAdd2 FSDel FSMove3 FSSpec FSReach FSEv FSAnn FSAnn2 FSDemo P_FS4 P_FS5.

Definition announced (s s' : fs) (c h : N) : Prop := exists evs, s_events s' = evs ++ s_events s /\ In (c, [h]) evs.

Section Facts.
Variables (C : conf) (SO : supply_ok C).

Lemma has_look r s h : good C r s -> (has s h <-> look s h <> None).
Proof.
  intros [[ch W] _]. pose proof (look_none C s ch r W h) as L. unfold has. split.
  - intros [p Hp] Z. apply L in Z. congruence.
  - intros N. destruct (aget h (s_handles s)) as [v|] eqn:E; [|exfalso; apply N, L; reflexivity]. destruct (W_h _ _ _ _ _ W h v E) as (p & i & -> & _). eauto.
Qed.
Lemma filled_child r s h : good C r s -> filled s h -> exists c w, look s c = Some w /\ v_parent w = Some h.
Proof.
  intros [[ch W] R] (p & i & A & B & F). pose proof (wf_consistent C SO s ch r W) as CO.
  assert (L : look s h = Some (view_of s i)) by (unfold look; rewrite A, B; reflexivity).
  destruct (co_list C s CO h _ L) as (l & (p' & i' & A' & B' & CH) & _ & CL).
  assert (p' = p) by congruence. subst p'. assert (i' = i) by congruence. subst i'.
  destruct (i_first i) as [c|]; [|congruence]. inversion CH as [|c' ci l' X Y]; subst. destruct (proj1 (CL (i_handle ci)) (or_introl eq_refl)) as (w & D). eauto.
Qed.
(** handles not issued yet are unknown *)
Lemma fresh_unknown r s t : good C r s -> (s_tick s <= t)%nat -> ~ has s (c_handle C t).
Proof.
  intros [[ch W] _] LE [p Hp]. destruct (W_h _ _ _ _ _ W _ _ Hp) as (q & i & _ & A & B & _).
  destruct (N.eq_dec q r) as [->|Nr].
  - destruct (W_root _ _ _ _ _ W) as (ri & R1 & _ & _ & R2). apply (so_nz _ SO t). congruence.
  - destruct (W_sup _ _ _ _ _ W q i A Nr) as (t' & L & E). assert (t' = t) by (apply (so_inj _ SO); congruence). lia.
Qed.

Record summary (s s' : fs) (la li lr : list N) : Prop := {
  su_ev : s_events s' = (map ann_added la ++ map ann_info li ++ map ann_removed lr) ++ s_events s;
  su_na : NoDup la; su_ni : NoDup li; su_nr : NoDup lr;
  su_a : forall h, In h la <-> ~ has s h /\ has s' h;
  su_i : forall h, In h li -> has s h /\ has s' h;
  su_r : forall h, In h lr -> has s h /\ ~ has s' h;
  su_c : forall h, has s h -> ~ has s' h -> In h lr \/ filled s h }.
Lemma summarize r s s1 s' : good C r s -> shrank s s1 -> change C s1 s' -> exists la li lr, summary s s' la li lr.
Proof.
  intros G S1 CH.
  assert (FR : forall h, (exists t, (s_tick s1 <= t < s_tick s')%nat /\ h = c_handle C t) -> ~ has s h).
  { intros h (t & L & ->). apply (fresh_unknown r s t G). pose proof (sh_tick _ _ S1). lia. }
  destruct (sh_l _ _ S1) as (lr & E1 & N1 & R1 & R2).
  destruct CH as [ST|[T|[S2|GR]]].
  - exists [], [], lr. constructor; try apply NoDup_nil; cbn [map app]; auto.
    + rewrite (st_ev _ _ ST), E1. reflexivity.
    + intros h. split; [intros []|]. intros [A B]. apply (st_has _ _ ST) in B. apply (sh_has _ _ _ S1) in B. contradiction.
    + intros h [].
    + intros h H. split; [apply R1, H|]. intros Z. apply (st_has _ _ ST) in Z. exact (proj2 (R1 h H) Z).
    + intros h A B. apply R2; [exact A|]. intros Z. apply B, (st_has _ _ ST), Z.
  - destruct T as (k & K1 & K2 & K3 & K4). exists [], [k], lr. constructor; try apply NoDup_nil; cbn [map app]; auto.
    + rewrite K2, E1. reflexivity.
    + constructor; [intros []|apply NoDup_nil].
    + intros h. split; [intros []|]. intros [A B]. apply K3 in B. apply (sh_has _ _ _ S1) in B. contradiction.
    + intros h [<-|[]]. split; [exact (sh_has _ _ _ S1 K1)|apply K3, K1].
    + intros h H. split; [apply R1, H|]. intros Z. apply K3 in Z. exact (proj2 (R1 h H) Z).
    + intros h A B. apply R2; [exact A|]. intros Z. apply B, K3, Z.
  - pose proof (shrank_trans _ _ _ S1 S2) as S12. destruct (sh_l _ _ S12) as (l & F1 & F2 & F3 & F4). exists [], [], l. constructor; try apply NoDup_nil; cbn [map app]; auto.
    + intros h. split; [intros []|]. intros [A B]. apply (sh_has _ _ _ S12) in B. contradiction.
    + intros h [].
  - destruct (gr_l _ _ _ GR) as (la & F1 & F2 & F3 & F4). exists la, [], lr. constructor; try apply NoDup_nil; cbn [map app]; auto.
    + rewrite F1, E1. rewrite app_assoc. reflexivity.
    + intros h. split.
      * intros HI. split; [apply FR, F4, HI|apply F2; now right].
      * intros [A B]. apply F2 in B as [B|B]; [apply (sh_has _ _ _ S1) in B; contradiction|exact B].
    + intros h [].
    + intros h H. split; [apply R1, H|]. intros Z. apply F2 in Z as [Z|Z]; [exact (proj2 (R1 h H) Z)|]. exact (FR h (F4 h Z) (proj1 (R1 h H))).
    + intros h A B. apply R2; [exact A|]. intros Z. apply B, F2. now left.
Qed.
End Facts.

(** One notification from the file system: every object that appears is announced as
    added, once, and nothing else is; only objects that are gone are announced as removed,
    at most once, and every object that is gone is announced unless it is a folder that
    still had contents; changes are announced for objects known before and after only.
    (Missing from the full claim: folders removed together with their contents, see below.) *)
Theorem C81_announced_partial : forall C s f e s', supply_ok C -> reachable C s -> op_ok C (OEvent f e) s -> exec C (OEvent f e) s = Ret (tt, s') ->
  exists evs, s_events s' = evs ++ s_events s /\ NoDup evs /\
    (forall h, In (EV_ObjectAdded, [h]) evs <-> look s h = None /\ look s' h <> None) /\
    (forall h, In (EV_ObjectRemoved, [h]) evs -> look s h <> None /\ look s' h = None) /\
    (forall h, look s h <> None -> look s' h = None -> In (EV_ObjectRemoved, [h]) evs \/ exists c w, look s c = Some w /\ v_parent w = Some h) /\
    (forall h, In (EV_ObjectInfoChanged, [h]) evs -> look s h <> None /\ look s' h <> None) /\
    (forall c ps, In (c, ps) evs -> (c = EV_ObjectAdded \/ c = EV_ObjectRemoved \/ c = EV_ObjectInfoChanged) /\ exists h, ps = [h]).
Proof.
  intros C s f e s' SO R HO E. assert (R' : reachable C s') by (eapply reach_step; eassumption).
  destruct (reachable_good C s SO R) as (r & G). destruct (reachable_good C s' SO R') as (r' & G').
  assert (H1 : forall h, has s h <-> look s h <> None) by (intros h; exact (has_look C r s h G)).
  assert (H2 : forall h, has s' h <-> look s' h <> None) by (intros h; exact (has_look C r' s' h G')).
  assert (D : forall h (t : fs), look t h = None \/ look t h <> None) by (intros h t; destruct (look t h); [right; discriminate|left; reflexivity]).
  destruct (event_note C SO r f e s s' G HO E) as (s1 & S1 & CH).
  destruct (summarize C SO r s s1 s' G S1 CH) as (la & li & lr & [EV NA NI NR SA SI SR SC]).
  exists (map ann_added la ++ map ann_info li ++ map ann_removed lr). split; [exact EV|].
  assert (IN : forall c ps, In (c, ps) (map ann_added la ++ map ann_info li ++ map ann_removed lr) <->
    exists h, ps = [h] /\ ((c = EV_ObjectAdded /\ In h la) \/ (c = EV_ObjectInfoChanged /\ In h li) \/ (c = EV_ObjectRemoved /\ In h lr))).
  { intros c ps. rewrite !in_app_iff, !in_map_iff. unfold ann_added, ann_info, ann_removed. split.
    - intros [(h & Q & Z)|[(h & Q & Z)|(h & Q & Z)]]; injection Q as <- <-; exists h; tauto.
    - intros (h & -> & [[-> Z]|[[-> Z]|[-> Z]]]); [left|right; left|right; right]; exists h; tauto. }
  assert (ND : forall (g : N -> N * list N) l, (forall x y, g x = g y -> x = y) -> NoDup l -> NoDup (map g l)) by (intros g l INJ N; apply FinFun.Injective_map_NoDup; assumption).
  split.
  { apply NoDup_app_disj; [apply ND; [intros x y Q; injection Q; auto|assumption]|apply NoDup_app_disj; [apply ND; [intros x y Q; injection Q; auto|assumption]|apply ND; [intros x y Q; injection Q; auto|assumption]|]|].
    - intros x A B. apply in_map_iff in A as (h & <- & _). apply in_map_iff in B as (k & Q & _). discriminate Q.
    - intros x A B. apply in_map_iff in A as (h & <- & _). apply in_app_iff in B as [B|B]; apply in_map_iff in B as (k & Q & _); discriminate Q. }
  split.
  { intros h. rewrite IN. split.
    - intros (k & Q & [[_ Z]|[[Z _]|[Z _]]]); [|discriminate Z..]. injection Q as <-. apply SA in Z as [A B]. split; [|apply H2, B]. destruct (D h s) as [X|X]; [exact X|]. apply H1 in X. contradiction.
    - intros [A B]. exists h. split; [reflexivity|]. left. split; [reflexivity|]. apply SA. split; [rewrite H1; congruence|apply H2, B]. }
  split.
  { intros h Z. apply IN in Z as (k & Q & [[Z _]|[[Z _]|[_ Z]]]); [discriminate Z..|]. injection Q as <-. destruct (SR h Z) as [A B]. split; [apply H1, A|]. destruct (D h s') as [X|X]; [exact X|]. apply H2 in X. contradiction. }
  split.
  { intros h A B. destruct (SC h) as [Z|Z]; [apply H1, A|rewrite H2; congruence| |].
    - left. apply IN. exists h. tauto.
    - right. exact (filled_child C SO r s h G Z). }
  split.
  { intros h Z. apply IN in Z as (k & Q & [[Z _]|[[_ Z]|[Z _]]]); [discriminate Z| |discriminate Z]. injection Q as <-. destruct (SI h Z) as [A B]. split; [apply H1, A|apply H2, B]. }
  intros c ps Z. apply IN in Z as (h & -> & Z). split; [|eauto]. tauto.
Qed.

(** The host's own operations announce nothing: it learns their effect from the response. *)
Theorem C81_own_silent : forall C o s s', (forall f e, o <> OEvent f e) -> exec C o s = Ret (tt, s') -> s_events s' = s_events s.
Proof. intros C o s s'. apply own_silent. Qed.

(** A file known to the host is rewritten by another program: the object's information
    is read again from the disk, and the change is announced exactly when any of it differs. *)
Theorem C81_rewritten : forall C s f wd ck n q w h v o d, supply_ok C -> reachable C s -> s_cache s = None ->
  let e := OEvent f (Some (mk_ev NCloseWrite wd ck (Some n))) in
  op_ok C e s -> s_wds s wd = Some q -> look s q = Some w -> look s h = Some v -> v_path v = join (v_path w) n -> v_info v = Some o -> h <> 0 -> h <> s_write s ->
  content s (v_path v) = Some (File d) ->
  exists s' v' o', exec C e s = Ret (tt, s') /\ look s' h = Some v' /\ v_path v' = v_path v /\ v_info v' = Some o' /\
    oi_size o' = len d /\
    (o = o' -> s_events s' = s_events s) /\ (o <> o' -> s_events s' = (EV_ObjectInfoChanged, [h]) :: s_events s).
Proof.
  intros C s f wd ck n q w h v o d SO R HC e HO HW Hq Hh HP HI H0 HWR HD.
  destruct (reachable_good C s SO R) as (r & [[ch W] RT]).
  destruct (look_inv C s ch r W q w Hq) as (qp & qi & Q1 & Q2 & Q3 & ->). destruct (look_inv C s ch r W h v Hh) as (p & i & P1 & P2 & P3 & ->).
  cbn [v_path v_info view_of] in HP, HI, HD. destruct (W_wd _ _ _ _ _ W wd q HW) as (qp' & qi' & X1 & X2 & X3 & _).
  assert (qp' = qp). { destruct (W_live _ _ _ _ _ W qp' qi' X1 ltac:(discriminate)) as [Y _]. congruence. } subst qp'. assert (qi' = qi) by congruence. subst qi'.
  destruct (W_live _ _ _ _ _ W p i P2 ltac:(discriminate)) as [_ PA]. rewrite HP, P3 in PA.
  assert (Nr : p <> r). { intros ->. destruct (root_look C s ch r W) as (ri & D1 & D2 & _). congruence. }
  assert (KK : is_assoc i = true -> is_dir (i_path i) (s_nodes s) = true).
  { destruct HO as [_ HO]. specialize (HO s). rewrite HC in HO. specialize (HO eq_refl). cbn [ev_kind ev_wd] in HO.
    assert (WA : watched s wd = q) by (unfold watched; rewrite HW; reflexivity). rewrite WA in HO. intros IA.
    apply (HO _ h _ Hq ltac:(exact PA) Hh). unfold v_folder, v_format. cbn. unfold is_assoc in IA. rewrite HI in *. apply N.eqb_eq in IA. congruence. }
  destruct (refresh_ok C r s ch p i W P2 Nr KK) as (s' & o' & EX & W' & Hp' & _ & (HE & ES) & O1 & O2 & O3).
  assert (BODY : exec C e s = Ret (tt, (if info_differs o o' then set_events ((EV_ObjectInfoChanged, [h]) :: s_events s') s' else s'))).
  { cbn [exec e]. unfold inotify_event. unfold bind at 1. unfold get at 1. cbn [ev_name]. rewrite HC. unfold bind at 1. unfold ret at 1. cbn [ev_kind ev_wd]. unfold handle_fs_modify.
    unfold bind at 1. unfold get at 1. rewrite HW. unfold bind at 1. unfold handle_value, get at 1. rewrite Q1. unfold bind at 1. unfold deref at 1. rewrite Q2.
    rewrite X3. cbn [opt_eqb]. rewrite N.eqb_refl. cbn [negb]. unfold bind at 1. unfold get at 1. unfold bind at 1. unfold get at 1. rewrite PA.
    apply N.eqb_neq in H0 as H0'. apply N.eqb_neq in HWR as HWR'. rewrite H0', HWR'. cbn [orb]. unfold bind at 1. unfold get at 1. rewrite P1. unfold bind at 1. unfold deref at 1. rewrite P2.
    unfold bind at 1. unfold bind in EX at 1. destruct (modify p (it_info None) s) as [[u s1]| |]; [|discriminate|discriminate].
    unfold bind at 1. rewrite EX. unfold bind at 1. unfold deref at 1. rewrite Hp'. unfold bind at 1. unfold info_of. cbn [i_info it_info]. unfold ret at 1. rewrite HI. unfold when. destruct (info_differs o o'); reflexivity. }
  set (s'' := if info_differs o o' then _ else _) in BODY. exists s''.
  assert (L : look s' h = Some (view_of s' (it_info (Some o') i))). { pose proof (look_of C s' ch r W' p _ Hp') as L. cbn [i_handle it_info] in L. rewrite P3 in L. exact L. }
  exists (view_of s' (it_info (Some o') i)), o'. split; [exact BODY|]. split; [unfold s''; destruct (info_differs o o'); exact L|]. split; [reflexivity|]. split; [reflexivity|].
  split; [rewrite O2; unfold size_of, content in *; rewrite HD; reflexivity|].
  assert (EV : s_events s' = s_events s) by (rewrite ES; reflexivity).
  split; intros Z.
  - apply info_differs_same in Z. unfold s''. rewrite Z. exact EV.
  - destruct (info_differs o o') eqn:ED; [unfold s''; cbn; rewrite EV; reflexivity|]. apply info_differs_same in ED. contradiction.
Qed.

(** concrete cases: /s/c is deleted by another program (announced); /s/c grows to three bytes (announced) *)
Notation quiet := FSDemo.quiet.
Definition del_ev := OEvent 10 (Some (mk_ev NDelete (wd_of (demo_start quiet) 0) 0 (Some [99]))).
Definition cw_ev := OEvent 10 (Some (mk_ev NCloseWrite (wd_of (demo_start quiet) 0) 0 (Some [99]))).
Definition no_c : nodes := [(pS, Dir); (pA, Dir); (pB, File [1;2;3;4;5]); (pD, Dir)].
Definition big_c : nodes := [(pS, Dir); (pA, Dir); (pB, File [1;2;3;4;5]); (pD, Dir); (pC, File [7;8;9])].
Lemma world_reachable w : reachable quiet (set_nodes w (demo_start quiet)).
Proof. apply (reach_step quiet (demo_start quiet) (OWorld w)); [exact demo_reachable|exact Logic.I|reflexivity]. Qed.
Example C81_deleted_example : reachable quiet (set_nodes no_c (demo_start quiet)) /\ op_ok quiet del_ev (set_nodes no_c (demo_start quiet)) /\
  exists s', exec quiet del_ev (set_nodes no_c (demo_start quiet)) = Ret (tt, s') /\ s_events s' = [(EV_ObjectRemoved, [21])] /\ look s' 21 = None.
Proof.
  split; [apply world_reachable|]. split; [split; [split; [reflexivity|intros [Z|[]]; discriminate]|intros s1 _; exact Logic.I]|].
  eexists. split; [vm_compute; reflexivity|]. split; vm_compute; reflexivity.
Qed.
Example C81_rewritten_example : let s := set_nodes big_c (demo_start quiet) in exists w v, reachable quiet s /\ s_cache s = None /\ op_ok quiet cw_ev s /\
  s_wds s (wd_of (demo_start quiet) 0) = Some 0 /\ look s 0 = Some w /\ look s 21 = Some v /\ v_path v = join (v_path w) [99] /\ 21 <> s_write s /\ content s (v_path v) = Some (File [7;8;9]).
Proof.
  intros s. eexists. eexists. split; [apply world_reachable|]. split; [vm_compute; reflexivity|].
  assert (C0 : s_cache s = None) by (vm_compute; reflexivity).
  assert (P0 : forall tv h v, look s (watched s (wd_of (demo_start quiet) 0)) = Some tv -> s_paths s (join (v_path tv) [99]) = Some h -> look s h = Some v -> kind_kept s v (v_path v)).
  { assert (L0 : exists tv, look s (watched s (wd_of (demo_start quiet) 0)) = Some tv /\ s_paths s (join (v_path tv) [99]) = Some 21 /\ exists v, look s 21 = Some v /\ v_format v = Some FMT_Undefined).
    { eexists. split; [vm_compute; reflexivity|]. split; [vm_compute; reflexivity|]. eexists. split; vm_compute; reflexivity. }
    destruct L0 as (tv & A & B & v & D & F). intros tv' h' v' A' B' D' K. rewrite A in A'. injection A' as <-. rewrite B in B'. injection B' as <-. rewrite D in D'. injection D' as <-. unfold v_folder in K. rewrite F in K. discriminate K. }
  split.
  { split; [split; [reflexivity|intros [Z|[]]; discriminate]|]. intros s1 E. rewrite C0 in E. injection E as <-. exact P0. }
  split; [vm_compute; reflexivity|]. split; [vm_compute; reflexivity|]. split; [vm_compute; reflexivity|]. split; [vm_compute; reflexivity|]. split; [vm_compute; discriminate|vm_compute; reflexivity].
Qed.

(** ** What is missing *)
(** A folder with contents is moved out of the storage. Its contents are announced as
    removed and are no longer exported; the folder itself stays exported, and is not
    announced, although nothing is left of it on disk. *)
Definition gone0 : nodes := [(pS, Dir); (pC, File [7;8])].
Definition gone_ev := OEvent 10 (Some (mk_ev NMovedFrom (wd_of (demo_start quiet) 0) 5 (Some [97]))).
Definition gone1 := set_nodes gone0 (demo_start quiet).
Definition gone2 := run_or (exec quiet gone_ev gone1).
Definition gone3 := run_or (exec quiet (OEvent 10 None) gone2).
Lemma gone2_reachable : reachable quiet gone2.
Proof.
  apply (reach_step quiet gone1 gone_ev); [apply world_reachable| |vm_compute; reflexivity].
  split; [split; [reflexivity|intros [Z|[]]; discriminate]|]. intros s1 _. exact Logic.I.
Qed.
Theorem C59_folder_moved_out_refuted : exists s s' v, reachable quiet s /\ op_ok quiet (OEvent 10 None) s /\ exec quiet (OEvent 10 None) s = Ret (tt, s') /\
  s_cache s' = None /\ look s' 7 = Some v /\ content s' (v_path v) = None /\ look s 12 <> None /\ look s' 12 = None.
Proof.
  exists gone2, gone3. eexists. split; [exact gone2_reachable|]. split; [exact Logic.I|]. split; [vm_compute; reflexivity|]. split; [vm_compute; reflexivity|].
  split; [vm_compute; reflexivity|]. split; [vm_compute; reflexivity|]. split; [vm_compute; discriminate|vm_compute; reflexivity].
Qed.
(** Another program has meanwhile created an empty folder of the same name: the
    responder deletes that folder from the disk, and the host is not told that the
    folder is gone. *)
Definition again2 := set_nodes ((pA, Dir) :: gone0) gone2.
Definition again3 := run_or (exec quiet (OEvent 10 None) again2).
Theorem C81_folder_refuted : exists s s', reachable quiet s /\ op_ok quiet (OEvent 10 None) s /\ exec quiet (OEvent 10 None) s = Ret (tt, s') /\
  look s 7 <> None /\ look s' 7 = None /\ ~ In (EV_ObjectRemoved, [7]) (s_events s') /\
  content s pA = Some Dir /\ content s' pA = None.
Proof.
  exists again2, again3. split.
  { apply (reach_step quiet gone2 (OWorld ((pA, Dir) :: gone0))); [exact gone2_reachable|exact Logic.I|reflexivity]. }
  split; [exact Logic.I|]. split; [vm_compute; reflexivity|]. split; [vm_compute; discriminate|]. split; [vm_compute; reflexivity|].
  split; [|split; vm_compute; reflexivity]. assert (E : s_events again3 = [(EV_ObjectRemoved, [12]); (EV_ObjectRemoved, [16])]) by (vm_compute; reflexivity). rewrite E. intros [Z|[Z|[]]]; discriminate Z.
Qed.
(** /s/c is renamed to /s/a/b, which existed: the object at /s/a/b keeps the size of the
    file that was overwritten, and no change of it is announced. *)
Definition over0 : nodes := [(pS, Dir); (pA, Dir); (pB, File [7;8]); (pD, Dir)].
Definition over1 := set_nodes over0 (demo_start quiet).
Definition over_ev := OEvent 10 (Some (mk_ev NMovedFrom (wd_of (demo_start quiet) 0) 5 (Some [99]))).
Definition over_to := OEvent 10 (Some (mk_ev NMovedTo (wd_of (demo_start quiet) 7) 5 (Some [98]))).
Definition over2 := run_or (exec quiet over_ev over1).
Definition over3 := run_or (exec quiet over_to over2).
Theorem C81_overwritten_refuted : exists s s' v o, reachable quiet s /\ exec quiet over_to s = Ret (tt, s') /\ look s' 12 = Some v /\ v_info v = Some o /\ oi_size o = 5 /\
  content s' (v_path v) = Some (File [7;8]) /\ ~ In (EV_ObjectInfoChanged, [12]) (s_events s').
Proof.
  exists over2, over3. eexists. eexists. split.
  { apply (reach_step quiet over1 over_ev); [apply world_reachable| |vm_compute; reflexivity]. split; [split; [reflexivity|intros [Z|[]]; discriminate]|]. intros s1 _. exact Logic.I. }
  split; [vm_compute; reflexivity|]. split; [vm_compute; reflexivity|]. split; [vm_compute; reflexivity|]. split; [reflexivity|]. split; [vm_compute; reflexivity|].
  assert (E : s_events over3 = [(EV_ObjectRemoved, [21])]) by (vm_compute; reflexivity). rewrite E. intros [Z|[]]; discriminate Z.
Qed.

Print Assumptions C81_announced_partial.
Print Assumptions C81_own_silent.
Print Assumptions C81_rewritten.
Print Assumptions C59_folder_moved_out_refuted.
Print Assumptions C81_folder_refuted.
Print Assumptions C81_overwritten_refuted.
