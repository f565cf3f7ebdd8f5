(** Storage: moving, renaming, copying (C46, C47, C49). *)
From Coq Require Import Permutation.
From Verif Require Import Base AList Wire FS FSPath FSTree FSLogic FSAdd FSAdd2 FSDel FSSub FSMove FSMove2 FSMove3 FSEv FSData FSData2 FSList FSFrame FSCopy FSCopy2 FSSpec FSReach FSView FSDemo.

(** the effect of moving the object [h], so far at [old], to [new] in folder [q] under the name [n] *)
Record moved_to (s : fs) (h : N) (old new : path) (q : N) (n : path) (s' : fs) : Prop := {
  (* same handles before and after *)
  mt_none : forall x, look s x = None -> look s' x = None;
  (* objects that are not moved look exactly as before *)
  mt_other : forall x v, look s x = Some v -> ~ inside s h x -> look s' x = Some v;
  (* the object and everything in it keep handle and persistent id and have the new path *)
  mt_same : forall x v, look s x = Some v -> inside s h x -> exists v', look s' x = Some v' /\ v_puoid v' = v_puoid v /\ relocated old new (v_path v) (v_path v') /\
     (x <> h -> v_parent v' = v_parent v /\ v_info v' = v_info v) /\ (x = h -> v_parent v' = Some q /\ v_name v' = Some n);
  (* the files move likewise *)
  mt_files : (forall y, at_or_below new y -> content s y = None) -> (forall y z, relocated old new y z -> content s' z = content s y) /\
     (forall y, at_or_below old y -> content s' y = None) /\ (forall y, ~ at_or_below old y -> ~ at_or_below new y -> content s' y = content s y) }.

Lemma moved_view C (SO : supply_ok C) r s ch s' ch' p i q j n new : WF C s ch r None -> WF C s' ch' r None -> s_heap s p = Some i -> p <> r -> s_heap s q = Some j ->
  moved s p q (i_path i) new n s' -> (i_path i = new \/ s_nodes s' = rename_nodes (i_path i) new (s_nodes s)) -> (i_path i = new -> s_nodes s' = s_nodes s) -> under (i_path i) (i_path j) = false ->
  (exists_at (i_path i) (s_nodes s) = true) -> new = join (i_path j) n ->
  moved_to s (i_handle i) (i_path i) new (i_handle j) n s'.
Proof.
  intros W W' Hp Np Hq M DK DK' CL EX ENEW.
  assert (INS : forall x xi, s_heap s x = Some xi -> (inside s (i_handle i) (i_handle xi) <-> under (i_path i) (i_path xi) = true)) by (intros x xi Hx; exact (not_inside C r s ch _ p i x xi W Hp eq_refl Hx)).
  assert (HND : forall q0 j0, s_heap s q0 = Some j0 -> exists j1, s_heap s' q0 = Some j1 /\ i_handle j1 = i_handle j0) by (intros q0 j0 H0; destruct (M_items _ _ _ _ _ _ _ M q0 j0 H0) as (j1 & A1 & A2 & _); eauto).
  constructor.
  - intros x Lx. apply (look_none C s ch r W) in Lx. apply (look_none C s' ch' r W'). rewrite (M_handles _ _ _ _ _ _ _ M). exact Lx.
  - intros x v Lx Nx. destruct (look_inv C s ch r W x v Lx) as (y & yi & A1 & A2 & <- & ->). destruct (M_items _ _ _ _ _ _ _ M y yi A2) as (y' & B1 & B2 & B3 & B4 & B5). assert (U : under (i_path i) (i_path yi) = false). { destruct (under (i_path i) (i_path yi)) eqn:U; [|reflexivity]. exfalso. apply Nx. apply (INS y yi A2). exact U. }
    assert (Ny : y <> p) by (intros ->; rewrite Hp in A2; injection A2 as <-; rewrite under_refl in U; discriminate). destruct (B5 Ny) as [B6 B7]. rewrite <- Lx. eapply look_keep; try eassumption; [|intros; eauto].
    unfold newpath in B4. rewrite U in B4. repeat split; assumption.
  - intros x v Lx Ix. destruct (look_inv C s ch r W x v Lx) as (y & yi & A1 & A2 & <- & ->). apply (INS y yi A2) in Ix. destruct (M_items _ _ _ _ _ _ _ M y yi A2) as (y' & B1 & B2 & B3 & B4 & B5). exists (view_of s' y'). split; [rewrite <- B2; exact (look_of C s' ch' r W' y y' B1)|]. split; [exact B3|]. split.
    + cbn. apply relocated_spec. split; [exact Ix|]. unfold newpath in B4. rewrite Ix in B4. exact B4.
    + split.
      * intros Nh. assert (Ny : y <> p) by (intros ->; rewrite Hp in A2; injection A2 as <-; contradiction). destruct (B5 Ny) as [B6 B7]. cbn. split; [|exact B7]. unfold parent_handle. rewrite B6. destruct (i_parent yi) as [q0|] eqn:E0; [|reflexivity].
        assert (Nyr : y <> r). { intros ->. destruct (W_root _ _ _ _ _ W) as (ri & R1 & R2 & _). congruence. } destruct (wf_parent _ _ _ _ _ W y yi A2 Nyr) as (q1 & j1 & o1 & Q1 & Q2 & _). rewrite E0 in Q1. injection Q1 as <-. destruct (HND q0 j1 Q2) as (j2 & J1 & J2). rewrite Q2, J1, J2. reflexivity.
      * intros Eh. assert (y = p) as -> by (eapply (wf_uniq _ _ _ _ _ W); eauto; discriminate). destruct (M_item _ _ _ _ _ _ _ M) as (k' & j' & oi & K1 & K2 & K3 & K4 & K5 & K6). rewrite B1 in K1. injection K1 as <-. rewrite Hq in K2. injection K2 as <-.
        unfold v_name. cbn. unfold parent_handle. rewrite K3, K4, K5. destruct (HND q j Hq) as (j2 & J1 & J2). rewrite J1, J2. auto.
  - intros HN. assert (NE : i_path i <> new). { intros Q. assert (content s new = None) by (apply HN; left; reflexivity). unfold content, exists_at in *. rewrite Q in EX. rewrite H in EX. discriminate. }
    destruct DK as [DK|DK]; [contradiction|]. assert (RN := rename_at (i_path i) new (s_nodes s) (fun y Uy => HN y (proj2 (at_or_below_under new y) Uy))). rewrite <- DK in RN.
    assert (NU : under new (i_path i) = false). { destruct (under new (i_path i)) eqn:U; [|reflexivity]. exfalso. assert (content s (i_path i) = None) by (apply HN, at_or_below_under; exact U). unfold content, exists_at in *. rewrite H in EX. discriminate. }
    assert (UN : under (i_path i) new = false).
    { destruct (under (i_path i) new) eqn:U; [|reflexivity]. exfalso. destruct (M_item _ _ _ _ _ _ _ M) as (k' & j' & oi & K1 & K2 & K3 & K4 & K5 & K6). rewrite Hq in K2. injection K2 as <-.
      destruct (W_info _ _ _ _ _ W' p k' K1) as (o2 & O1 & O2). destruct (M_items _ _ _ _ _ _ _ M q j Hq) as (jq & J1 & _). destruct (O2 q jq K3 J1) as (O3 & _). rewrite K4 in O1. injection O1 as <-. rewrite K5 in O3. rewrite ENEW in U. apply under_join_inv in U as [U|U]; [congruence|congruence|apply O3]. }
    split; [|split].
    + intros y z Z. apply relocated_spec in Z as [U ->]. unfold content. rewrite RN, (repath_under _ _ _ U), (repath_back _ _ _ U). reflexivity.
    + intros y Uy. apply at_or_below_under in Uy. unfold content. rewrite RN, Uy. destruct (under new y) eqn:V; [|reflexivity]. exfalso. destruct (under_comparable _ _ _ Uy V) as [X|X]; congruence.
    + intros y N1 N2. unfold content. rewrite RN. destruct (under new y) eqn:V; [exfalso; apply N2, at_or_below_under; exact V|]. destruct (under (i_path i) y) eqn:V2; [exfalso; apply N1, at_or_below_under; exact V2|reflexivity].
Qed.

(** ** C46: MoveObject *)
Theorem C46_move_partial : forall C s fuel h q code s', supply_ok C -> reachable C s -> op_ok C (OMove fuel h q) s -> move_object C fuel h q true s = Ret (code, s') ->
  (code = R_OK -> exists v w n, look s h = Some v /\ look s q = Some w /\ v_name v = Some n /\ h <> 0 /\ moved_to s h (v_path v) (join (v_path w) n) q n s') /\
  (code <> R_OK -> (forall x, look s' x = look s x) /\ forall y, content s' y = content s y).
Proof.
  intros C s fuel h q code s' SO R PRE E. destruct (reachable_good C s SO R) as (r & G). pose proof G as [[ch W] HR].
  assert (MP : move_pre s h q true).
  { intros p0 q0 i0 j0 o0 H1 H2 H3 H4 H5. split; [|discriminate]. intros K. destruct (W_h _ _ _ _ _ W h _ H1) as (p' & i' & A1 & A2 & A3 & _). injection A1 as <-. rewrite H3 in A2. injection A2 as <-. destruct (W_h _ _ _ _ _ W q _ H2) as (q' & j' & B1 & B2 & B3 & _). injection B1 as <-. rewrite H4 in B2. injection B2 as <-.
    destruct (PRE (view_of s i0) (view_of s j0) (oi_name o0)) as [X|X]; [rewrite <- A3; exact (look_of C s ch r W p0 i0 H3)|rewrite <- B3; exact (look_of C s ch r W q0 j0 H4)|unfold v_name; cbn; rewrite H5; reflexivity|exact K|left; exact X|right; split; [reflexivity|exact X]]. }
  pose proof (move_object_ok C r fuel h q true s ch W MP) as H. rewrite E in H. destruct H as (ch' & W' & H).
  destruct (aget h (s_handles s)) as [[p|]|] eqn:Hh; [|destruct H as [-> ->]; split; [discriminate|auto]|destruct H as [-> ->]; split; [discriminate|auto]].
  destruct (aget q (s_handles s)) as [[pq|]|] eqn:Hq; [|destruct H as [-> ->]; split; [discriminate|auto]|destruct H as [-> ->]; split; [discriminate|auto]].
  destruct H as (i & j & o & Hp & Hpq & Ho & [(-> & Np & MD)|(-> & MF & _)]).
  - split; [intros _|contradiction]. destruct (W_h _ _ _ _ _ W h _ Hh) as (p' & i' & A1 & A2 & A3 & _). injection A1 as <-. rewrite Hp in A2. injection A2 as <-. destruct (W_h _ _ _ _ _ W q _ Hq) as (q' & j' & B1 & B2 & B3 & _). injection B1 as <-. rewrite Hpq in B2. injection B2 as <-.
    exists (view_of s i), (view_of s j), (oi_name o). split; [rewrite <- A3; exact (look_of C s ch r W p i Hp)|]. split; [rewrite <- B3; exact (look_of C s ch r W pq j Hpq)|]. split; [unfold v_name; cbn; rewrite Ho; reflexivity|].
    split; [intros ->; apply Np; eapply (root_handle C SO s ch r W); eassumption|]. subst h q. cbn. pose proof (MD_disk _ _ _ _ _ _ _ _ MD) as (EX & DK). unfold disk_moved in DK.
    eapply (moved_view C SO r s ch s' ch' p i pq j (oi_name o)); eauto.
    + apply (MD_moved _ _ _ _ _ _ _ _ MD).
    + destruct (peqb (i_path i) (join (i_path j) (oi_name o))) eqn:P; [left; apply peqb_eq; exact P|right; exact DK].
    + intros Q. rewrite Q, peqb_refl in DK. exact DK.
    + apply (MD_clean _ _ _ _ _ _ _ _ MD).
  - split; [discriminate|intros _]. split; [intros x; eapply (wsame_look C r s ch s' ch'); eassumption|]. intros y. unfold content. destruct (wsame_fields _ _ MF) as (_ & _ & _ & _ & EN & _). rewrite EN. reflexivity.
Qed.

(** ** C46, C49: SetObjectPropValue of the file name *)
(** nothing stands in the way of giving the object [v] in the folder [w] the name [n] *)
Definition can_rename (C : conf) (s : fs) (v w : view) (n : path) : Prop :=
  (forall t, c_fail C t = false) /\ content s (v_path v) <> None /\ content s (v_path w) = Some Dir /\ content s (join (v_path w) n) = None /\ n <> [].
Theorem C46_rename_partial : forall C s fuel h n code s', supply_ok C -> reachable C s -> h <> 0 -> set_file_name C fuel h n s = Ret (code, s') ->
  (code = R_OK -> exists v q w, look s h = Some v /\ v_parent v = Some q /\ look s q = Some w /\
      (moved_to s h (v_path v) (join (v_path w) n) q n s' \/ ~ can_rename C s v w n /\ (forall x, look s' x = look s x) /\ forall y, content s' y = content s y)) /\
  (code <> R_OK -> (forall x, look s' x = look s x) /\ forall y, content s' y = content s y).
Proof.
  intros C s fuel h n code s' SO R H0 E. destruct (reachable_good C s SO R) as (r & G). pose proof G as [[ch W] HR].
  assert (NR : aget h (s_handles s) <> Some (Some r)). { intros X. destruct (W_h _ _ _ _ _ W h _ X) as (p' & i' & A1 & A2 & A3 & _). injection A1 as <-. destruct (W_root _ _ _ _ _ W) as (ri & B1 & _ & _ & B2). rewrite A2 in B1. injection B1 as <-. congruence. }
  pose proof (set_file_name_ok C r fuel h n s ch W NR) as H. rewrite E in H. destruct H as (ch' & W' & H).
  destruct (aget h (s_handles s)) as [[p|]|] eqn:Hh; [|destruct H as [-> ->]; split; [discriminate|auto]|destruct H as [-> ->]; split; [discriminate|auto]].
  destruct H as (i & q & j & Hp & Pq & Hq & H). destruct (W_h _ _ _ _ _ W h _ Hh) as (p' & i' & A1 & A2 & A3 & _). injection A1 as <-. rewrite Hp in A2. injection A2 as <-.
  assert (VW : look s h = Some (view_of s i) /\ v_parent (view_of s i) = Some (i_handle j) /\ look s (i_handle j) = Some (view_of s j)).
  { split; [rewrite <- A3; exact (look_of C s ch r W p i Hp)|]. split; [cbn; apply (parent_is C s ch r W q j p i); assumption|exact (look_of C s ch r W q j Hq)]. }
  destruct VW as (V1 & V2 & V3). destruct H as [(-> & -> & _)|[(-> & -> & SR)|(-> & RN)]]; [split; [discriminate|auto]| |].
  - split; [intros _|contradiction]. exists (view_of s i), (i_handle j), (view_of s j). split; [exact V1|]. split; [exact V2|]. split; [exact V3|]. right. split; [|split; reflexivity].
    intros (NF & K1 & K2 & K3 & K4). unfold content in K1, K2, K3. cbn [v_path view_of] in K1, K2, K3. destruct (wf_parent _ _ _ _ _ W p i Hp ltac:(intros ->; apply NR; reflexivity)) as (q' & j' & o & P1 & P2 & _ & _ & P5 & P6 & _). rewrite Pq in P1. injection P1 as <-. rewrite Hq in P2. injection P2 as <-.
    pose proof E as E2. unfold set_file_name in E2. unfold bind at 1 in E2. unfold handle_value in E2. unfold get at 1 in E2. rewrite Hh in E2. unfold bind at 1 in E2. unfold deref at 1 in E2. rewrite Hp in E2. unfold bind at 1 in E2. rewrite Pq in E2. unfold file_name_valid in E2. destruct (existsb illegal_char n || all_dots n) eqn:LG.
    { cbn in E2. apply Ret_inj in E2. discriminate E2. }
    clear E2. apply orb_false_iff in LG as [LG _]. assert (NS : ~ In slash n) by (apply legal_noslash; exact LG).
    unfold sys_rename, fails, bind, tick, ret, get in SR. rewrite NF in SR. cbn [s_nodes set_tick orb] in SR.
    replace (exists_at (i_path i) (s_nodes s)) with true in SR by (symmetry; unfold exists_at; destruct (node_at (i_path i) (s_nodes s)); [reflexivity|contradiction]). cbn [negb] in SR.
    destruct (peqb (i_path i) _); [discriminate|]. rewrite base_join, parent_join in SR by exact NS.
    replace (peqb n []) with false in SR by (symmetry; apply peqb_neq; exact K4). replace (exists_at (join (i_path j) n) (s_nodes s)) with false in SR by (symmetry; unfold exists_at; rewrite K3; reflexivity).
    replace (is_dir (i_path j) (s_nodes s)) with true in SR by (symmetry; unfold is_dir; rewrite K2; reflexivity). cbn [orb negb] in SR.
    destruct (is_prefix (i_path i ++ [slash]) (join (i_path j) n)) eqn:PX; [|discriminate].
    assert (U : under (i_path i) (join (i_path j) n) = true) by (unfold under; rewrite PX; apply orb_true_r). apply under_join_inv in U as [U|U]; [|apply under_len in U; rewrite P6, len_join in U; lia|exact NS]. rewrite U, K3 in K1. apply K1. reflexivity.
  - split; [intros _|contradiction]. exists (view_of s i), (i_handle j), (view_of s j). split; [exact V1|]. split; [exact V2|]. split; [exact V3|]. left. rewrite <- A3. cbn. pose proof (RN_disk _ _ _ _ _ _ _ RN) as (EX & DK). unfold disk_moved in DK.
    eapply (moved_view C SO r s ch s' ch' p i q j n); eauto.
    + intros ->. apply NR. reflexivity.
    + apply (RN_moved _ _ _ _ _ _ _ RN).
    + destruct (peqb (i_path i) (join (i_path j) n)) eqn:P; [left; apply peqb_eq; exact P|right; exact DK].
    + intros Q. rewrite Q, peqb_refl in DK. exact DK.
    + destruct (under (i_path i) (i_path j)) eqn:U; [|reflexivity]. apply under_len in U. pose proof (wf_len _ _ _ _ _ W p i q j Hp Pq Hq). lia.
Qed.

(** ** C49 *)
Theorem C49_invalid_names : forall C s fuel h n v q w, supply_ok C -> reachable C s -> h <> 0 -> look s h = Some v -> v_parent v = Some q -> look s q = Some w ->
  (exists c, In c n /\ forbidden_char c) \/ only_dots n \/ (exists x u, look s x = Some u /\ v_path u = join (v_path w) n) ->
  set_file_name C fuel h n s = Ret (R_Invalid_ObjectProp_Value, s).
Proof.
  intros C s fuel h n v q w SO R H0 Lv Pv Lw BAD. destruct (reachable_good C s SO R) as (r & [[ch W] HR]).
  destruct (look_inv C s ch r W h v Lv) as (p & i & A1 & A2 & A3 & ->). destruct (look_inv C s ch r W q w Lw) as (pq & j & B1 & B2 & B3 & ->). cbn in Pv. rewrite <- B3 in Pv. apply (parent_is C s ch r W pq j p i B2 A2) in Pv.
  unfold set_file_name. unfold bind at 1. unfold handle_value, get at 1. rewrite A1. unfold bind at 1. unfold deref at 1. rewrite A2. unfold bind at 1. rewrite Pv.
  assert (FV : file_name_valid n (Some pq) s = Ret (false, s)).
  { unfold file_name_valid. destruct (existsb illegal_char n || all_dots n) eqn:X; [reflexivity|]. apply orb_false_iff in X as [X1 X2].
    destruct BAD as [(c & Hc & F)|[(N1 & N2)|(x & u & Lu & Eu)]].
    - exfalso. assert (existsb illegal_char n = true); [|congruence]. apply existsb_exists. exists c. split; [exact Hc|]. unfold illegal_char. apply orb_true_iff. destruct F as [F|F]; [left; apply N.ltb_lt; exact F|right]. apply existsb_exists. exists c. split; [exact F|apply N.eqb_refl].
    - exfalso. assert (all_dots n = true); [|congruence]. unfold all_dots. apply andb_true_iff. split; [destruct n; [contradiction|reflexivity]|]. apply forallb_forall. intros c Hc. rewrite (N2 c Hc). reflexivity.
    - unfold bind at 1. cbn [deref_opt]. unfold deref at 1. rewrite B2. unfold bind at 1. unfold get at 1. destruct (look_inv C s ch r W x u Lu) as (y & yi & D1 & D2 & D3 & ->). change (i_path yi = join (i_path j) n) in Eu. destruct (W_live _ _ _ _ _ W y yi D2 ltac:(discriminate)) as [_ D4]. rewrite <- Eu, D4. reflexivity. }
  rewrite FV. reflexivity.
Qed.

(** ** C47 *)
(** nothing at the destination, neither known nor on disk *)
Definition vacant (s : fs) (d : path) : Prop := (forall x v, look s x = Some v -> v_path v <> d) /\ forall y, at_or_below d y -> content s y = None.
Definition only_folders_contain (s : fs) : Prop := forall x v q w, look s x = Some v -> v_parent v = Some q -> look s q = Some w -> v_folder w.
Theorem C47_copy_partial : forall C s fuel h q code hc s', supply_ok C -> reachable C s -> h <> 0 -> copy_object C fuel h q true s = Ret ((code, hc), s') -> code = R_OK ->
  exists v w n, look s h = Some v /\ look s q = Some w /\ v_name v = Some n /\
  let new := join (v_path w) n in
  (* nothing that existed changes *)
  (forall x u, look s x = Some u -> look s' x = Some u) /\
  (forall y, ~ at_or_below new y -> content s' y = content s y \/ content s y = None /\ content s' y = Some Dir /\ at_or_below y new) /\
  (* the copy *)
  (exists u, look s' hc = Some u /\ v_path u = new /\ v_parent u = Some q) /\
  (* every object in the source has a new counterpart, and nothing else is new *)
  (vacant s new -> ~ inside s h q -> only_folders_contain s ->
     (forall x xv, look s x = Some xv -> inside s h x -> exists y yv xo yo, look s y = None /\ look s' y = Some yv /\ relocated (v_path v) new (v_path xv) (v_path yv) /\ v_info xv = Some xo /\ v_info yv = Some yo /\
        oi_name yo = oi_name xo /\ oi_format yo = oi_format xo /\ oi_size yo = oi_size xo /\
        (works C -> oi_format xo <> FMT_Association -> forall d, content s (v_path xv) = Some (File d) -> oi_size xo = len d -> len d < 4294967296 -> content s' (v_path yv) = Some (File d)))) /\
  (forall y yv, look s' y = Some yv -> look s y = Some yv \/ look s y = None /\ at_or_below new (v_path yv)).
Proof.
  intros C s fuel h q code hc s' SO R H0 E EC. destruct (reachable_good C s SO R) as (r & [[ch W] HR]). pose proof (copy_object_ok C SO r fuel h q true s ch W HR H0) as H. rewrite E in H. destruct H as ((ch' & W') & [(X & _)|(p & i & o & pq & j & Hh & Hp & Ho & Hq & Hpq & CF & _ & OKP)]); [contradiction|].
  cbv zeta in CF, OKP. destruct (OKP EC) as (_ & (c & ci & C1 & C2 & C3 & C4) & TR). clear OKP. rewrite EC in CF. change (isok R_OK) with true in CF.
  destruct (W_h _ _ _ _ _ W h _ Hh) as (p' & i' & A1 & A2 & A3 & _). injection A1 as <-. rewrite Hp in A2. injection A2 as <-. destruct (W_h _ _ _ _ _ W q _ Hq) as (q' & j' & B1 & B2 & B3 & _). injection B1 as <-. rewrite Hpq in B2. injection B2 as <-.
  exists (view_of s i), (view_of s j), (oi_name o). split; [rewrite <- A3; exact (look_of C s ch r W p i Hp)|]. split; [rewrite <- B3; exact (look_of C s ch r W pq j Hpq)|]. split; [unfold v_name; cbn; rewrite Ho; reflexivity|]. cbv zeta. cbn [v_path view_of]. set (new := join (i_path j) (oi_name o)) in *.
  assert (ALLK : forall x u, look s x = Some u -> look s' x = Some u) by (apply (look_all C r s ch s' ch' W W'); intros x xi Hx; exact (K_keep _ _ _ _ _ CF x xi Hx (or_introl eq_refl))).
  assert (NEW : forall y yi, s_heap s' y = Some yi -> s_heap s y = None -> look s (i_handle yi) = None).
  { intros y yi Hy Hn. destruct (look s (i_handle yi)) as [u|] eqn:L; [|reflexivity]. exfalso. destruct (look_inv C s ch r W _ _ L) as (z & zi & Z1 & Z2 & Z3 & _). destruct (K_keep _ _ _ _ _ CF z zi Z2 (or_introl eq_refl)) as (zi' & Z4 & (Z5 & _)).
    assert (z = y) as -> by (eapply (wf_uniq _ _ _ _ _ W'); eauto; try discriminate; congruence). congruence. }
  split; [exact ALLK|]. split; [|split; [|split]].
  - intros y Ny. unfold content. destruct (K_node _ _ _ _ _ CF y) as [D|(D1 & D2 & D3)]; [destruct (under new y) eqn:U; [exfalso; apply Ny, at_or_below_under; exact U|reflexivity]|auto|]. right. split; [exact D2|]. split; [exact D3|apply at_or_below_under; exact D1].
  - exists (view_of s' ci). split; [unfold look; rewrite C1, C2; reflexivity|]. split; [exact C3|]. cbn. unfold parent_handle. rewrite C4. destruct (K_keep _ _ _ _ _ CF pq j Hpq (or_introl eq_refl)) as (j2 & J1 & (J2 & _)). rewrite J1. congruence.
  - intros VAC NI OF x xv Lx Ix. destruct (look_inv C s ch r W x xv Lx) as (xp & xi & X1 & X2 & <- & ->). apply (not_inside C r s ch h p i xp xi W Hp A3 X2) in Ix.
    assert (FD : fresh_dst s new). { split; [|intros y Uy; apply (proj2 VAC), at_or_below_under; exact Uy]. intros z zi Hz. apply (proj1 VAC (i_handle zi) (view_of s zi)). exact (look_of C s ch r W z zi Hz). }
    assert (NU : under (i_path i) new = false).
    { destruct (under (i_path i) new) eqn:U; [|reflexivity]. exfalso. assert (Pl : ~ In slash (oi_name o)). { assert (Npr : p <> r) by (intros ->; destruct (W_root _ _ _ _ _ W) as (ri & RA & _ & _ & RB); congruence). destruct (wf_parent _ _ _ _ _ W p i Hp Npr) as (pp & pj & o' & P1 & P2 & P3 & P4 & P5 & _). rewrite Ho in P4. injection P4 as <-. apply P5. }
      apply under_join_inv in U as [U|U]; [|apply NI; rewrite <- B3; apply (not_inside C r s ch h p i pq j W Hp A3 Hpq); exact U|exact Pl].
      destruct (proj1 VAC (i_handle i) (view_of s i)); [exact (look_of C s ch r W p i Hp)|exact U]. }
    assert (FU : folders_under (i_path i) s).
    { intros a ai b bi Ha Pa Hb _. assert (v_folder (view_of s bi)). { eapply (OF (i_handle ai) (view_of s ai) (i_handle bi)); [exact (look_of C s ch r W a ai Ha)|cbn; apply (parent_is C s ch r W b bi a ai Hb Ha); exact Pa|exact (look_of C s ch r W b bi Hb)]. }
      unfold v_folder, v_format in H. cbn in H. unfold is_assoc. destruct (i_info bi); [|discriminate]. apply N.eqb_eq. congruence. }
    destruct (TR FD NU FU xp xi X2 Ix) as (y & yi & xo & yo & E1 & E2 & E3 & E4 & E5 & E6 & E7 & E8 & E9). exists (i_handle yi), (view_of s' yi), xo, yo.
    split; [apply (NEW y yi E1); destruct (s_heap s y) as [y0|] eqn:E0; [|reflexivity]; pose proof (W_bd _ _ _ _ _ W y y0 E0); lia|]. split; [exact (look_of C s' ch' r W' y yi E1)|]. split; [apply relocated_spec; split; [exact Ix|exact E3]|].
    split; [exact E4|]. split; [exact E5|]. split; [exact E6|]. split; [exact E7|]. split; [exact E8|]. intros [F1 F2] NA d Hd Es El. unfold content. cbn. rewrite E3. apply E9; auto. split; auto.
  - intros y yv Ly. destruct (look_inv C s' ch' r W' y yv Ly) as (yp & yi & Y1 & Y2 & <- & ->). destruct (K_new _ _ _ _ _ CF yp yi Y2) as [(y0 & Z1 & (Z2 & _))|(Z1 & Z2)].
    + left. rewrite Z2. pose proof (look_of C s ch r W yp y0 Z1) as L. pose proof (ALLK _ _ L) as L'. rewrite Z2 in Ly. rewrite Ly in L'. congruence.
    + right. split; [|apply at_or_below_under; exact Z2]. apply (NEW yp yi Y2). destruct (s_heap s yp) as [y0|] eqn:E0; [|reflexivity]. pose proof (W_bd _ _ _ _ _ W yp y0 E0). lia.
Qed.
(** Whatever comes of it - also a copy that fails half way - only the destination is affected. *)
Theorem C47_outside : forall C s fuel h q code hc s', supply_ok C -> reachable C s -> h <> 0 -> copy_object C fuel h q true s = Ret ((code, hc), s') ->
  (look s h = None \/ look s q = None -> code <> R_OK /\ (forall x, look s' x = look s x) /\ forall y, content s' y = content s y) /\
  (forall v w n, look s h = Some v -> look s q = Some w -> v_name v = Some n -> let new := join (v_path w) n in
     (forall x u, look s x = Some u -> ~ at_or_below new (v_path u) -> look s' x = Some u) /\
     (forall y, ~ at_or_below new y -> content s' y = content s y \/ content s y = None /\ content s' y = Some Dir /\ at_or_below y new)).
Proof.
  intros C s fuel h q code hc s' SO R H0 E. destruct (reachable_good C s SO R) as (r & [[ch W] HR]). pose proof (copy_object_ok C SO r fuel h q true s ch W HR H0) as H. rewrite E in H.
  destruct H as ((ch' & W') & [(X & T & _)|(p & i & o & pq & j & Hh & Hp & Ho & Hq & Hpq & CF & _)]).
  - assert (LK : forall x, look s' x = look s x) by (intros x; exact (tsame_look s s' T x)).
    assert (CT : forall y, content s' y = content s y) by (intros y; destruct T as (t & -> & _); reflexivity).
    split; [intros _; auto|]. intros v w n LH LQ VN. cbv zeta. split; [intros x u LX _; rewrite LK; exact LX|intros y _; left; apply CT].
  - destruct (W_h _ _ _ _ _ W h _ Hh) as (p' & i' & A1 & A2 & A3 & _). injection A1 as <-. rewrite Hp in A2. injection A2 as <-. destruct (W_h _ _ _ _ _ W q _ Hq) as (q' & j' & B1 & B2 & B3 & _). injection B1 as <-. rewrite Hpq in B2. injection B2 as <-.
    assert (LH : look s h = Some (view_of s i)) by (rewrite <- A3; exact (look_of C s ch r W p i Hp)). assert (LQ : look s q = Some (view_of s j)) by (rewrite <- B3; exact (look_of C s ch r W pq j Hpq)).
    split; [intros [Z|Z]; congruence|]. intros v w n LH' LQ' VN. rewrite LH in LH'. injection LH' as <-. rewrite LQ in LQ'. injection LQ' as <-. unfold v_name in VN. cbn in VN. rewrite Ho in VN. injection VN as <-. cbv zeta. cbn [v_path view_of]. set (new := join (i_path j) (oi_name o)) in *. split.
    + intros x u LX NB. destruct (look_inv C s ch r W x u LX) as (xp & xi & X1 & X2 & <- & ->). cbn [v_path view_of] in NB.
      assert (U : under new (i_path xi) = false) by (destruct (under new (i_path xi)) eqn:U; [exfalso; apply NB, at_or_below_under; exact U|reflexivity]).
      destruct (K_keep _ _ _ _ _ CF xp xi X2 (or_intror U)) as (xi' & X3 & X4). rewrite <- LX. eapply (look_keep C r s ch s' ch' xp xi xi' W W' X2 X3 X4).
      intros a b PA HA. destruct (wf_parent _ _ _ _ _ W xp xi X2) as (a' & b' & o' & P1 & P2 & P3 & P4 & P5 & P6 & P7). { intros ->. destruct (W_root _ _ _ _ _ W) as (ri & RA & RB & RC & RD). congruence. }
      rewrite PA in P1. injection P1 as <-. rewrite HA in P2. injection P2 as <-.
      destruct (K_keep _ _ _ _ _ CF a b HA) as (b2 & B4 & (B5 & _)); [right; destruct (under new (i_path b)) eqn:UB; [|reflexivity]; rewrite P6, (under_join new (i_path b) (oi_name o') UB) in U; discriminate|]. eauto.
    + intros y Ny. unfold content. destruct (K_node _ _ _ _ _ CF y) as [D|(D1 & D2 & D3)]; [destruct (under new y) eqn:U; [exfalso; apply Ny, at_or_below_under; exact U|reflexivity]|auto|]. right. split; [exact D2|]. split; [exact D3|apply at_or_below_under; exact D1].
Qed.
(** The handle given back, also by a copy that failed: none, or an object at the destination
    (unless a failed copy took that object with it). *)
Theorem C47_handle : forall C s fuel h q code hc s', supply_ok C -> reachable C s -> h <> 0 -> copy_object C fuel h q true s = Ret ((code, hc), s') ->
  (look s h = None \/ look s q = None -> hc = 0) /\
  (forall v w n, look s h = Some v -> look s q = Some w -> v_name v = Some n -> hc = 0 \/ forall u, look s' hc = Some u -> at_or_below (join (v_path w) n) (v_path u)).
Proof.
  intros C s fuel h q code hc s' SO R H0 E. destruct (reachable_good C s SO R) as (r & [[ch W] HR]). pose proof (copy_object_ok C SO r fuel h q true s ch W HR H0) as H. rewrite E in H.
  destruct H as ((ch' & W') & [(X & T & Z)|(p & i & o & pq & j & Hh & Hp & Ho & Hq & Hpq & _ & HC & _)]); [split; auto|].
  destruct (W_h _ _ _ _ _ W h _ Hh) as (p' & i' & A1 & A2 & A3 & _). injection A1 as <-. rewrite Hp in A2. injection A2 as <-. destruct (W_h _ _ _ _ _ W q _ Hq) as (q' & j' & B1 & B2 & B3 & _). injection B1 as <-. rewrite Hpq in B2. injection B2 as <-.
  assert (LH : look s h = Some (view_of s i)) by (rewrite <- A3; exact (look_of C s ch r W p i Hp)). assert (LQ : look s q = Some (view_of s j)) by (rewrite <- B3; exact (look_of C s ch r W pq j Hpq)).
  split; [intros [Y|Y]; congruence|]. intros v w n LH' LQ' VN. rewrite LH in LH'. injection LH' as <-. rewrite LQ in LQ'. injection LQ' as <-. unfold v_name in VN. cbn in VN. rewrite Ho in VN. injection VN as <-. cbn [v_path view_of].
  destruct HC as [Z|HC]; [left; exact Z|right]. intros u Lu. destruct (look_inv C s' ch' r W' hc u Lu) as (c & ci & C1 & C2 & _ & ->). apply at_or_below_under. exact (HC c ci C1 C2).
Qed.
Print Assumptions C46_move_partial.
Print Assumptions C46_rename_partial.
Print Assumptions C49_invalid_names.
Print Assumptions C47_copy_partial.
Print Assumptions C47_outside.
Print Assumptions C47_handle.
