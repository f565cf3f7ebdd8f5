(** CopyObject keeps the storage consistent and touches nothing but the copy. *)
From Verif Require Import Base AList Wire FS FSPath FSTree FSLogic FSAdd FSAdd2 FSDel FSEv FSData FSData2 FSList FSFrame FSCopy.

Section Copy2.
Variables (C : conf) (SO : supply_ok C) (r : ptr).

Lemma wf_events s ch p i : WF C s ch r None -> s_heap s p = Some i -> WF C (set_heap (nupd (s_heap s) p (Some (it_events true i))) s) ch r None.
Proof. intros W Hp. eapply wf_hsame; [exact W|]. eapply hsame_put; [exact Hp|apply isame_events]. Qed.

Lemma seg_next H : forall l o x xi y, seg H o l -> In x l -> H x = Some xi -> i_next xi = Some y -> In y l.
Proof.
  induction l as [|z l IH]; intros o x xi y Hs Hin Hx Hy; [contradiction|]. destruct Hs as [_ (i & Hi & Hr)]. destruct Hin as [->|Hin].
  - rewrite Hx in Hi. injection Hi as <-. rewrite Hy in Hr. apply seg_some in Hr as (r0 & ->). cbn. auto.
  - right. eapply IH; eassumption.
Qed.

(** one file *)
Theorem copy_data_ok fuel src dst s ch ps is pd id o : WF C s ch r None -> s_root s = Some r ->
  aget src (s_handles s) = Some (Some ps) -> s_heap s ps = Some is -> i_info is = Some o -> aget dst (s_handles s) = Some (Some pd) -> s_heap s pd = Some id ->
  match copy_data C fuel src dst s with
  | Ret (code, s') => (exists ch', WF C s' ch' r None) /\ cf (i_path id) None (isok code) s s' /\
      (code = R_OK -> (forall y, y <> i_path id -> node_at y (s_nodes s') = node_at y (s_nodes s)) /\ hsame s s' /\
         (u32 (oi_size o) = 0 -> s_nodes s' = s_nodes s) /\
         (u32 (oi_size o) <> 0 -> i_path is <> i_path id -> forall d d0, node_at (i_path is) (s_nodes s) = Some (File d) -> node_at (i_path id) (s_nodes s) = Some (File d0) ->
            u32 (oi_size o) <= len d /\ exists k cut, k <= u32 (oi_size o) /\ u32 (oi_size o) - k <= MAX_READ_LEN /\
              node_at (i_path id) (s_nodes s') = Some (File (take k d ++ if cut : bool then [] else drop k d0)) /\
              (no_failures C -> k = u32 (oi_size o) /\ cut = true)))
  | UB => False | Abort => True end.
Proof.
  intros W HR Hsrc Hps Ho Hdst Hpd. unfold copy_data. unfold bind at 1. unfold has_handle at 1, get at 1. unfold ahas at 1. rewrite Hsrc. unfold bind at 1. unfold has_handle at 1, get at 1. unfold ahas at 1. rewrite Hdst. cbn [negb orb].
  unfold bind at 1. rewrite (get_info_eq C src s ps is o Hsrc Hps Ho). cbn [fst snd]. change (isok R_OK) with true. cbn [negb].
  set (s1 := set_heap _ s). cbv zeta. assert (W1 : WF C s1 ch r None) by (apply wf_events; assumption).
  assert (C1 : forall f, cf (i_path id) None f s s1) by (intros f; apply cf_events; exact Hps).
  assert (H1 : hsame s s1) by (apply (hsame_put s ps is); [exact Hps|apply isame_events]).
  assert (A1 : exists is', s_heap s1 ps = Some is' /\ i_path is' = i_path is) by (exists (it_events true is); split; [apply nupd_eq|reflexivity]). destruct A1 as (is' & A1 & A2).
  assert (B1 : exists id', s_heap s1 pd = Some id' /\ i_path id' = i_path id).
  { destruct (K_keep _ _ _ _ _ (C1 true) pd id Hpd (or_introl eq_refl)) as (id' & B1 & (_ & B2 & _)). eauto. } destruct B1 as (id' & B1 & B2).
  assert (U : u32 (oi_size o) < 4294967296) by (unfold u32; apply N.mod_lt; lia).
  pose proof (copy_loop_ok C SO r src dst fuel (N.to_nat (u32 (oi_size o) / MAX_READ_LEN + 2)) 0 (u32 (oi_size o)) R_OK s1 ch ps is' pd id' W1 HR Hsrc A1 Hdst B1 ltac:(lia) ltac:(auto)) as H.
  destruct (copy_loop C _ fuel src dst 0 (u32 (oi_size o)) R_OK s1) as [[code s2]| |]; try exact H. destruct H as (G1 & G2 & G3). split; [exact G1|]. rewrite B2 in *. split; [eapply cf_trans; [apply C1|exact G2]|].
  intros K. destruct (G3 K) as (_ & G4 & G5 & G6 & G7). split; [exact G5|]. split; [apply hsame_trans with (b := s1); [exact H1|apply fsame_hsame; exact G4]|]. split; [intros E; rewrite (G6 E); reflexivity|].
  intros Nz Hne d d0 Hd Hd0. rewrite A2 in *. destruct (G7 Nz Hne d d0 Hd) as (J1 & k & cut & J2).
  - unfold before_write. rewrite N.eqb_refl. exact Hd0.
  - split; [lia|]. exists k, cut. rewrite N.add_0_l in J2. exact J2.
Qed.

Lemma any_path_state p : forall l s, (forall h, In h l -> exists q i, aget h (s_handles s) = Some (Some q) /\ s_heap s q = Some i) -> exists b, any_path l p s = Ret (b, s).
Proof.
  induction l as [|h l IH]; intros s Hl; [exists false; reflexivity|]. cbn [any_path]. unfold bind at 1, handle_value, get at 1. destruct (Hl h (or_introl eq_refl)) as (q & i & A & B). rewrite A.
  unfold bind at 1, deref. rewrite B. destruct (peqb (i_path i) p); [exists true; reflexivity|]. apply IH. intros h' Hh'. apply Hl. right. exact Hh'.
Qed.
Lemma clash_state fmt parent dst s ch : WF C s ch r None -> s_root s = Some r ->
  exists b, bind (get_object_handles fmt parent) (fun r0 => if isok (fst r0) then any_path (snd r0) dst else ret false) s = Ret (b, s).
Proof.
  intros W HR. unfold bind at 1. destruct (get_object_handles_ok C SO r fmt parent s ch W HR) as (code & l & E & _ & H). rewrite E. cbn [fst snd]. destruct (isok code); [|exists false; reflexivity].
  apply any_path_state. intros h Hh.
  assert (L : exists p i, s_heap s p = Some i /\ i_handle i = h).
  { destruct (parent =? 0); [|destruct (parent =? ALL); [|destruct (aget parent (s_handles s)) as [[q|]|]]].
    - apply H in Hh as (p & i & A & _ & B & _). eauto.
    - apply H in Hh as (p & i & A & _ & B & _). eauto.
    - destruct H as (j & _ & H). destruct (is_assoc j); [apply H in Hh as (p & i & A & _ & B & _); eauto|]. destruct H as [_ ->]. contradiction.
    - destruct H as [_ ->]. contradiction.
    - destruct H as [_ ->]. contradiction. }
  destruct L as (p & i & A & <-). destruct (W_live _ _ _ _ _ W p i A ltac:(discriminate)) as [B _]. eauto.
Qed.

(** *** sibling lists during a copy *)
Definition links (D : path) (X : option ptr) (s s' : fs) : Prop :=
  forall x i, s_heap s x = Some i -> under D (i_path i) = false ->
    exists i', s_heap s' x = Some i' /\ i_path i' = i_path i /\ i_next i' = i_next i /\ (X <> Some x -> i_first i' = i_first i).
Lemma links_refl D X s : links D X s s.
Proof. intros x i Hx _. eauto. Qed.
Lemma links_trans D X a b c : links D X a b -> links D X b c -> links D X a c.
Proof.
  intros P Q x i Hx HU. destruct (P x i Hx HU) as (i1 & A1 & A2 & A3 & A4). destruct (Q x i1 A1 ltac:(congruence)) as (i2 & B1 & B2 & B3 & B4). exists i2. repeat split; try congruence. intros NX. rewrite B4, A4 by exact NX. reflexivity.
Qed.
Lemma links_X D X s s' : links D None s s' -> links D X s s'.
Proof. intros P x i Hx HU. destruct (P x i Hx HU) as (i' & A1 & A2 & A3 & A4). exists i'. repeat split; auto. intros _. apply A4. discriminate. Qed.
Lemma links_below D D' X s s' : links D' X s s' -> under D D' = true -> (forall x i, X = Some x -> s_heap s x = Some i -> under D (i_path i) = true) -> links D None s s'.
Proof.
  intros P U HX x i Hx HU. destruct (P x i Hx) as (i' & A1 & A2 & A3 & A4).
  - destruct (under D' (i_path i)) eqn:E; [|reflexivity]. rewrite (under_trans _ _ _ U E) in HU. discriminate.
  - exists i'. repeat split; auto. intros _. apply A4. intros E. rewrite (HX x i E Hx) in HU. discriminate.
Qed.
Lemma links_wsame D X s s' : wsame s s' -> links D X s s'.
Proof. intros W x i Hx _. destruct (wsame_fwd _ _ x i W Hx) as [w A]. eexists. split; [exact A|]. repeat split. Qed.
Lemma links_hsame D X s s' : hsame s s' -> links D X s s'.
Proof. intros H x i Hx _. destruct (H_fw _ _ H x i Hx) as (b & A & B). exists b. split; [exact A|]. repeat split; [apply B|apply B|]. intros _. apply B. Qed.
Lemma links_lnk D q s s' : ext s s' -> lnk q s s' -> links D (Some q) s s'.
Proof.
  intros E L x i Hx _. destruct (L x i Hx) as (i' & A1 & A2 & A3). destruct (E_heap _ _ E x i Hx) as (i2 & B1 & B2). rewrite A1 in B1. injection B1 as <-. apply lk_fields in B2 as (_ & B2 & _). exists i'. repeat split; auto. intros N. apply A3. congruence.
Qed.
Lemma seg_links D s s' : links D None s s' -> forall l o, (forall x i, In x l -> s_heap s x = Some i -> under D (i_path i) = false) -> seg (s_heap s) o l -> seg (s_heap s') o l.
Proof. intros L l o HU. apply seg_frame. intros x i Hx Hi. destruct (L x i Hi (HU x i Hx Hi)) as (i' & A1 & _ & A3 & _). eauto. Qed.

(** *** what a copy of a tree is *)
(** the object [xi], found in [s] below [A], has a copy in [s'] at the same place below [B] *)
Definition copy_of (s : fs) (A B : path) (s' : fs) (xi : item) : Prop :=
  exists y yi xo yo, s_heap s' y = Some yi /\ s_fresh s <= y /\ i_path yi = repath A B (i_path xi) /\ i_info xi = Some xo /\ i_info yi = Some yo /\
    oi_name yo = oi_name xo /\ oi_format yo = oi_format xo /\ oi_size yo = oi_size xo /\
    (no_failures C -> oi_format xo <> FMT_Association -> forall d, node_at (i_path xi) (s_nodes s) = Some (File d) -> oi_size xo = len d -> len d < 4294967296 ->
       node_at (repath A B (i_path xi)) (s_nodes s') = Some (File d)).
Definition tree_copied (s : fs) (A B : path) (s' : fs) : Prop := forall x xi, s_heap s x = Some xi -> under A (i_path xi) = true -> copy_of s A B s' xi.
(** nothing is known or stored at the destination *)
Definition fresh_dst (s : fs) (D : path) : Prop := (forall x i, s_heap s x = Some i -> i_path i <> D) /\ forall y, under D y = true -> node_at y (s_nodes s) = None.
(** only folders contain something *)
Definition folders_under (A : path) (s : fs) : Prop := forall x xi y yi, s_heap s x = Some xi -> i_parent xi = Some y -> s_heap s y = Some yi -> under A (i_path yi) = true -> is_assoc yi = true.

Lemma copy_of_later s A B s4 s5 xi : copy_of s A B s4 xi -> (forall y yi, s_heap s4 y = Some yi -> exists yi', s_heap s5 y = Some yi' /\ kept yi yi') ->
  (forall d, node_at (repath A B (i_path xi)) (s_nodes s4) = Some (File d) -> node_at (repath A B (i_path xi)) (s_nodes s5) = Some (File d)) -> copy_of s A B s5 xi.
Proof.
  intros (y & yi & xo & yo & E1 & E2 & E3 & E4 & E5 & E6 & E7 & E8 & E9) HK HN. destruct (HK y yi E1) as (yi' & F1 & (G1 & G2 & G3 & G4 & G5)).
  exists y, yi', xo, yo. split; [exact F1|]. split; [exact E2|]. split; [congruence|]. split; [exact E4|]. split; [congruence|]. repeat split; auto.
Qed.
Lemma tracked_anc s ch q j n : WF C s ch r None -> s_heap s q = Some j -> plain n -> forall x xi, s_heap s x = Some xi -> under (join (i_path j) n) (i_path xi) = true ->
  exists c ci, s_heap s c = Some ci /\ i_path ci = join (i_path j) n.
Proof.
  intros W Hq Hn x xi. remember (len (i_path xi)) as m eqn:Em. revert x xi Em. induction m as [m IH] using (well_founded_induction N.lt_wf_0). intros x xi Em Hx U.
  destruct (N.eq_dec x r) as [->|Nr].
  - exfalso. destruct (W_root _ _ _ _ _ W) as (ri & A & _ & B & _). rewrite Hx in A. injection A as <-. pose proof (wf_under_root _ _ _ _ _ W q j Hq) as V. apply under_len in U, V. rewrite B, len_join in U. lia.
  - destruct (wf_parent _ _ _ _ _ W x xi Hx Nr) as (y & k & o & A1 & A2 & A3 & A4 & A5 & A6 & A7). rewrite A6 in U. apply under_join_inv in U as [U|U]; [|eapply (IH (len (i_path k))); [|reflexivity|exact A2|exact U]|apply A5].
    + exists x, xi. split; [exact Hx|congruence].
    + rewrite Em. eapply wf_len; eassumption.
Qed.
Lemma below_child s ch p i : WF C s ch r None -> s_heap s p = Some i -> forall x j, s_heap s x = Some j -> under (i_path i) (i_path j) = true -> x <> p ->
  exists c ci, In c (ch p) /\ s_heap s c = Some ci /\ under (i_path ci) (i_path j) = true.
Proof.
  intros W Hp x j. remember (len (i_path j)) as n eqn:En. revert x j En. induction n as [n IH] using (well_founded_induction N.lt_wf_0).
  intros x j En Hx U Nx.
  assert (Nr : x <> r).
  { intros ->. destruct (W_root _ _ _ _ _ W) as (ri & A & _ & B & _). rewrite Hx in A. injection A as <-.
    pose proof (wf_under_root _ _ _ _ _ W p i Hp) as V. apply Nx. eapply (wf_path_uniq _ _ _ _ _ W); [exact Hx|exact Hp|discriminate|discriminate|].
    apply under_len_eq; [exact U|]. rewrite B. apply under_len. exact V. }
  destruct (wf_parent _ _ _ _ _ W x j Hx Nr) as (y & k & o & A1 & A2 & A3 & A4 & A5 & A6 & A7).
  rewrite A6 in U. apply under_join_inv in U as [U|U]; [|destruct (N.eq_dec y p) as [->|Ny]|apply A5].
  - exfalso. apply Nx. eapply (wf_path_uniq _ _ _ _ _ W); [exact Hx|exact Hp|discriminate|discriminate|congruence].
  - exists x, j. split; [exact A3|]. split; [exact Hx|apply under_refl].
  - destruct (IH (len (i_path k)) ltac:(rewrite En; eapply wf_len; eassumption) y k eq_refl A2 U Ny) as (c & ci & B1 & B2 & B3). exists c, ci. split; [exact B1|]. split; [exact B2|]. rewrite A6. apply under_join. exact B3.
Qed.
Lemma sib_disjoint D n n' : plain n -> plain n' -> n <> n' -> under (join D n) (join D n') = false.
Proof.
  intros P P' N. destruct (under (join D n) (join D n')) eqn:E; [|reflexivity]. exfalso. apply under_join_inv in E as [E|E]; [|apply under_len in E; rewrite len_join in E; lia|apply P'].
  apply join_inj in E as [_ E]; [contradiction|apply P|apply P'].
Qed.
Lemma add_item_one fuel info s ch q j res s' : WF C s ch r None -> s_heap s q = Some j -> i_handle j = oi_parent info -> oi_parent info <> ALL ->
  nothing_below (join (i_path j) (oi_name info)) (s_nodes s) ->
  add_item C fuel info s = Ret (res, s') -> afq (eq (join (i_path j) (oi_name info))) (join (i_path j) (oi_name info)) true s s'.
Proof.
  intros W Hq Eh Na HN E. unfold add_item in E. cbv zeta in E. rewrite (proj2 (N.eqb_neq _ _) Na) in E. destruct (W_live _ _ _ _ _ W q j Hq ltac:(discriminate)) as [B _]. rewrite Eh in B.
  unfold bind at 1 in E. unfold has_handle, ahas in E. unfold get in E at 1. rewrite B in E. cbn [negb] in E. unfold bind at 1 in E. unfold handle_ref in E. rewrite B in E.
  unfold bind at 1 in E. unfold deref_opt in E. unfold deref in E at 1. rewrite Hq in E. unfold bind at 1 in E.
  destruct (add_to_storage C fuel (join (i_path j) (oi_name info)) (Some info) false true 0 s) as [[[rc om] s1]| |] eqn:E1; try discriminate.
  pose proof (add_one C fuel _ _ _ _ _ s _ _ HN E1) as A. cbn [snd fst] in E. destruct om as [p|]; [|apply Ret_inj in E; injection E as <- <-; exact A].
  unfold bind at 1 in E. unfold deref in E at 1. destruct (s_heap s1 p) as [i|]; [|discriminate]. unfold bind at 1 in E. destruct (i_parent i) as [x|].
  - unfold bind at 1 in E. unfold deref in E. destruct (s_heap s1 x); [|discriminate]. unfold ret in E. apply Ret_inj in E. injection E as <- <-. exact A.
  - unfold ret in E. apply Ret_inj in E. injection E as <- <-. exact A.
Qed.

(** the result of CopyObject *)
Definition copied (h parent : N) (s : fs) (code hc : N) (s' : fs) : Prop :=
  (code <> R_OK /\ tsame s s' /\ hc = 0) \/
  exists p i o q j, let D := join (i_path j) (oi_name o) in
    aget h (s_handles s) = Some (Some p) /\ s_heap s p = Some i /\ i_info i = Some o /\ aget parent (s_handles s) = Some (Some q) /\ s_heap s q = Some j /\
    cf D (Some q) (isok code) s s' /\
    (* the handle given back, also by a copy that failed: none, or an object at the destination *)
    (hc = 0 \/ forall c ci, aget hc (s_handles s') = Some (Some c) -> s_heap s' c = Some ci -> under D (i_path ci) = true) /\
    (code = R_OK -> links D (Some q) s s' /\
      (exists c ci, aget hc (s_handles s') = Some (Some c) /\ s_heap s' c = Some ci /\ i_path ci = D /\ i_parent ci = Some q) /\
      (fresh_dst s D -> under (i_path i) D = false -> folders_under (i_path i) s -> tree_copied s (i_path i) D s')).

(** renewing the watch *)
Lemma rewatch s ch q j D s0 : WF C s ch r None -> s_heap s q = Some j -> ~ has_entry s (i_handle j) -> cf D (Some q) true s0 s ->
  exists s', add_watch C q s = Ret (tt, s') /\ WF C s' ch r None /\ cf D (Some q) true s0 s' /\ wsame s s'.
Proof.
  intros W Hq He K. destruct (add_watch_ok C s ch r None q j W Hq He) as (s' & A1 & A2 & A3 & A4 & _). exists s'. split; [exact A1|]. split; [exact A2|]. split; [|exact A3].
  eapply cf_trans; [exact K|]. apply cf_wsame; [exact A3|]. intros n x i Hn Hx Nx. destruct (A4 n _ Hn) as [B|[B _]]; [exact B|]. exfalso. apply Nx. f_equal.
  eapply (wf_uniq _ _ _ _ _ W); [exact Hq|exact Hx|discriminate|discriminate|congruence].
Qed.

Theorem copy_object_ok : forall fuel h parent top s ch, WF C s ch r None -> s_root s = Some r -> h <> 0 ->
  match copy_object C fuel h parent top s with
  | Ret ((code, hc), s') => (exists ch', WF C s' ch' r None) /\ copied h parent s code hc s'
  | UB => False | Abort => True end.
Proof.
  induction fuel as [|fuel IH]; intros h parent top s ch W HR Hh0; [exact I|]. cbn [copy_object].
  unfold bind at 1. unfold has_handle at 1, get at 1. unfold ahas at 1. destruct (aget h (s_handles s)) as [v|] eqn:Hh; cbn [negb].
  2:{ unfold ret. split; [eauto|]. left. split; [discriminate|]. split; [apply tsame_refl|reflexivity]. }
  unfold bind at 1. unfold has_handle at 1, get at 1. unfold ahas at 1. destruct (aget parent (s_handles s)) as [v'|] eqn:Hpar; cbn [negb].
  2:{ unfold ret. split; [eauto|]. left. split; [discriminate|]. split; [apply tsame_refl|reflexivity]. }
  destruct (wf_handle_ptr _ _ _ _ _ W h v Hh) as (p & i & -> & Hp & Eph). destruct (wf_handle_ptr _ _ _ _ _ W parent v' Hpar) as (q & j & -> & Hq & Eqh).
  assert (Npr : p <> r). { intros ->. destruct (W_root _ _ _ _ _ W) as (ri & A & _ & _ & B). rewrite Hp in A. injection A as <-. congruence. }
  destruct (wf_parent _ _ _ _ _ W p i Hp Npr) as (pp & pj & o & P1 & P2 & P3 & P4 & P5 & P6 & P7).
  unfold bind at 1, handle_ref. rewrite Hh. unfold bind at 1. unfold deref at 1. rewrite Hp, P4.
  unfold bind at 1, tick at 1. set (s1 := set_tick _ s). assert (T1 : tsame s s1) by apply tsame_tick. pose proof (fsame_wf _ _ _ _ _ _ W (tsame_fsame _ _ T1)) as W1.
  destruct (c_free C (s_tick s)) as [free|]; [|unfold ret; split; [eauto|]; left; split; [discriminate|split; [exact T1|reflexivity]]].
  destruct (free <? oi_size o); [unfold ret; split; [eauto|]; left; split; [discriminate|split; [exact T1|reflexivity]]|].
  unfold bind at 1, handle_value, get at 1. change (s_handles s1) with (s_handles s). rewrite Hpar. unfold bind at 1. unfold deref at 1. change (s_heap s1) with (s_heap s). rewrite Hq. cbv zeta.
  assert (CL : exists b, (if top && (oi_format o =? FMT_Association) then bind (get_object_handles 0 parent) (fun r0 => if isok (fst r0) then any_path (snd r0) (join (i_path j) (oi_name o)) else ret false) else ret false) s1 = Ret (b, s1)).
  { destruct (top && _); [eapply clash_state; [exact W1|exact HR]|exists false; reflexivity]. }
  destruct CL as (clash & CL). unfold bind at 1. rewrite CL. clear CL. destruct clash; [unfold ret; split; [eauto|]; left; split; [discriminate|split; [exact T1|reflexivity]]|].
  assert (Hq1 : s_heap s1 q = Some j) by exact Hq.
  destruct (remove_watch_ok C s1 ch r None q j W1 Hq1) as (s2 & E2 & W2 & X2 & Y2 & ZW2 & NE2). unfold bind at 1. rewrite E2.
  specialize (NE2 (sole_live C _ _ _ _ _ _ W1 eq_refl Hq1)). destruct (wsame_fields _ _ X2) as (_ & R2 & HH2 & _).
  set (D := join (i_path j) (oi_name o)).
  assert (C2 : forall f, cf D (Some q) f s s2).
  { intros f. eapply cf_trans; [apply cf_fsame; [apply tsame_fsame; exact T1|reflexivity]|]. apply cf_wsame; [exact X2|]. intros n x k Hn _ _. apply ZW2. exact Hn. }
  set (info := oi_set_storage (c_sid C) (oi_set_parent parent o)).
  assert (Np : parent <> ALL) by (intros E; apply (wf_notall _ SO _ _ _ _ W q j Hq); congruence).
  assert (Epi : oi_parent info = parent) by reflexivity.
  pose proof (add_item_ok C SO r fuel info s2 ch W2 P5) as AI. unfold bind at 1. destruct (add_item C fuel info s2) as [[[rc om] s3]| |] eqn:EA; try exact AI.
  assert (Hq2 : s_heap s2 q = Some j) by (rewrite Y2; exact Hq).
  pose proof (add_item_frame C r fuel info s2 ch q j _ _ W2 Hq2 Eqh Np EA) as AF. change (join (i_path j) (oi_name info)) with D in AF.
  destruct AI as (ch3 & W3 & X3 & R3 & LN3). cbn [fst snd] in *.
  assert (L3 : links D (Some q) s s3).
  { apply links_trans with (b := s2); [apply links_trans with (b := s1); [intros x k Hx _; exists k; auto|apply links_wsame; exact X2]|]. apply links_lnk; [exact X3|]. eapply LN3; [exact Hq2|]. rewrite Epi, (proj2 (N.eqb_neq _ _) Np). exact Eqh. }
  assert (C3n : forall f, cf D None f s2 s3) by (intros f; eapply (cf_add C r); [exact W2|exact X3|exact AF]).
  assert (C3 : forall f, cf D (Some q) f s s3) by (intros f; eapply cf_trans; [apply C2|apply cf_X; apply C3n]).
  assert (UD : under D (i_path j) = false). { destruct (under D (i_path j)) eqn:E; [|reflexivity]. apply under_len in E. unfold D in E. rewrite len_join in E. lia. }
  (* the watch of q may be renewed *)
  assert (RW : forall s4 ch4, WF C s4 ch4 r None -> cf D None true s3 s4 -> exists s', add_watch C q s4 = Ret (tt, s') /\ WF C s' ch4 r None /\ cf D (Some q) true s s' /\ wsame s4 s').
  { intros s4 ch4 W4 C4. pose proof (cf_trans _ _ _ _ _ _ (C3n true) C4) as C24.
    destruct (K_keep _ _ _ _ _ C24 q j Hq2 (or_introl eq_refl)) as (j4 & Hq4 & (KH & _)). eapply rewatch; [exact W4|exact Hq4| |eapply cf_trans; [apply C3|apply cf_X; exact C4]].
    intros (n & Hn). rewrite KH in Hn. apply NE2. exists n. eapply (K_wd _ _ _ _ _ C24 n q j Hn Hq2); [discriminate|exact UD]. }
  assert (fin : forall code s', cf D (Some q) (isok code) s s' -> code <> R_OK -> forall hc, hc = 0 \/ (forall c ci, aget hc (s_handles s') = Some (Some c) -> s_heap s' c = Some ci -> under D (i_path ci) = true) -> copied h parent s code hc s').
  { intros code s' K1 K2 hc K3. right. exists p, i, o, q, j. split; [exact Hh|]. split; [exact Hp|]. split; [exact P4|]. split; [exact Hpar|]. split; [exact Hq|]. split; [exact K1|]. split; [exact K3|]. intros; contradiction. }
  set (PRE := fresh_dst s D /\ under (i_path i) D = false /\ folders_under (i_path i) s).
  destruct (isok rc) eqn:Erc; cbn [negb].
  2:{ assert (Nrc : rc <> R_OK) by (intros ->; discriminate). unfold bind at 1. destruct (RW s3 ch3 W3 (cf_refl _ _ _ _)) as (s4 & A1 & A2 & A3 & _). rewrite A1. unfold ret. split; [eauto|]. apply fin; [apply cf_down; exact A3|exact Nrc|]. left. destruct om as [[h' ph']|]; [destruct R3 as [R3 _]; contradiction|reflexivity]. }
  apply N.eqb_eq in Erc. destruct om as [[hc ph]|]; [|contradiction]. destruct R3 as (_ & c & ci & q3 & j3 & M1 & M2 & M3 & M4 & M5 & M6 & M7 & M8 & M9).
  rewrite Epi, (proj2 (N.eqb_neq _ _) Np) in M7. destruct (E_heap _ _ X3 q j Hq2) as (j3' & HQ & L). apply lk_fields in L as (L1 & L2 & _).
  assert (q3 = q) as -> by (eapply (wf_uniq _ _ _ _ _ W3); [exact M5|exact HQ|discriminate|discriminate|congruence]). rewrite HQ in M5. injection M5 as <-.
  rewrite L2 in M8. change (i_path ci = D) in M8.
  assert (done : forall s4 ch4, WF C s4 ch4 r None -> cf D None true s3 s4 -> links D None s3 s4 -> (PRE -> tree_copied s (i_path i) D s4) -> match (add_watch C q;;; ret (R_OK, hc)) s4 with Ret (code, hc0, s') => (exists ch', WF C s' ch' r None) /\ copied h parent s code hc0 s' | UB => False | Abort => True end).
  { intros s4 ch4 W4 C4 L4 TR4. unfold bind at 1. destruct (RW s4 ch4 W4 C4) as (s5 & A1 & A2 & A3 & A4). rewrite A1. unfold ret. split; [eauto|]. right. exists p, i, o, q, j. split; [exact Hh|]. split; [exact Hp|]. split; [exact P4|]. split; [exact Hpar|]. split; [exact Hq|].
    assert (HCI : exists c0 ci0, aget hc (s_handles s5) = Some (Some c0) /\ s_heap s5 c0 = Some ci0 /\ i_path ci0 = D /\ i_parent ci0 = Some q).
    { destruct (K_keep _ _ _ _ _ C4 c ci M2 (or_introl eq_refl)) as (ci4 & B1 & (B2 & B3 & B4 & _)). destruct (wsame_fwd _ _ c ci4 A4 B1) as (w & B5).
      exists c, (it_wd w ci4). split; [|split; [exact B5|split; [exact (eq_trans B3 M8)|exact (eq_trans B4 M4)]]]. destruct (W_live _ _ _ _ _ A2 c _ B5 ltac:(discriminate)) as [B6 _]. cbn in B6. congruence. }
    split; [exact A3|]. split; [right; destruct HCI as (c0 & ci0 & N1 & N2 & N3 & _); intros ? ? N4 N5; rewrite N1 in N4; injection N4 as <-; rewrite N2 in N5; injection N5 as <-; rewrite N3; apply under_refl|]. intros _. split; [apply links_trans with (b := s3); [exact L3|]; apply links_trans with (b := s4); [apply links_X; exact L4|apply links_wsame; exact A4]|]. split.
    2:{ intros Q1 Q2 Q3 x xi Hx Ux. eapply copy_of_later; [exact (TR4 (conj Q1 (conj Q2 Q3)) x xi Hx Ux)| |].
        - intros y yi Hy. destruct (wsame_fwd _ _ y yi A4 Hy) as (w & B). eauto using wd_kept.
        - destruct (wsame_fields _ _ A4) as (_ & _ & _ & _ & EN & _). intros dd. fold D. rewrite EN. auto. }
    exact HCI. }
  assert (HCF : forall s4 ch4 X f, WF C s4 ch4 r None -> cf D X f s3 s4 -> forall c0 ci0, aget hc (s_handles s4) = Some (Some c0) -> s_heap s4 c0 = Some ci0 -> under D (i_path ci0) = true).
  { intros s4 ch4 X f W4 C4 c0 ci0 N1 N2. destruct (W_h _ _ _ _ _ W4 hc _ N1) as (p' & i' & A1 & A2 & A3 & _). injection A1 as <-. rewrite N2 in A2. injection A2 as <-.
    destruct (K_new _ _ _ _ _ C4 c0 ci0 N2) as [(z & B1 & (B2 & B3 & _))|(_ & B2)]; [|exact B2]. assert (c0 = c) as -> by (eapply (wf_uniq _ _ _ _ _ W3); [exact B1|exact M2|discriminate|discriminate|congruence]).
    rewrite M2 in B1. injection B1 as <-. rewrite B3, M8. apply under_refl. }
  assert (HR3 : s_root s3 = Some r) by (rewrite (E_root _ _ X3), R2; exact HR).
  assert (HP3 : exists i3, s_heap s3 p = Some i3 /\ kept i i3). { apply (K_keep _ _ _ _ _ (C3 true) p i Hp). auto. } destruct HP3 as (i3 & HP3 & KP3).
  (* facts about the copy of a whole tree *)
  assert (PR : PRE -> (forall x xi, s_heap s x = Some xi -> under D (i_path xi) = false) /\ (forall y, under (i_path i) y = true -> under D y = false) /\ nothing_below D (s_nodes s2) /\ s_paths s2 D = None).
  { intros (Q1 & Q2 & Q3). assert (V : forall x xi, s_heap s x = Some xi -> under D (i_path xi) = false).
    { intros x xi Hx. destruct (under D (i_path xi)) eqn:E; [|reflexivity]. exfalso. destruct (tracked_anc s ch q j (oi_name o) W Hq P5 x xi Hx E) as (c0 & ci0 & B1 & B2). exact (proj1 Q1 c0 ci0 B1 B2). }
    split; [exact V|]. split.
    - intros y Uy. destruct (under D y) eqn:E; [|reflexivity]. exfalso. destruct (under_comparable _ _ _ Uy E) as [B|B]; [congruence|]. rewrite (V p i Hp) in B. discriminate.
    - split.
      + intros y U _. destruct (wsame_fields _ _ X2) as (_ & _ & _ & _ & EN & _). rewrite EN. apply (proj2 Q1). exact U.
      + destruct (s_paths s2 D) as [hd|] eqn:E; [|reflexivity]. exfalso. destruct (W_path _ _ _ _ _ W2 D hd E) as (x & xi & B1 & _ & B2 & _). rewrite Y2 in B1. exact (proj1 Q1 x xi B1 B2). }
  assert (SELF : PRE -> s_fresh s <= c /\ exists co, i_info ci = Some co /\ oi_name co = oi_name o /\ oi_format co = oi_format o /\ oi_size co = oi_size o /\ on_disk C D info s3).
  { intros HPRE. destruct (PR HPRE) as (_ & _ & _ & Z). rewrite M8 in M9. destruct (M9 Z) as (Z1 & Z2 & Z3). split; [rewrite Z1; pose proof (K_fresh _ _ _ _ _ (C2 true)); lia|]. eexists. split; [exact Z2|]. repeat split. exact Z3. }
  assert (NS3 : forall y d, under (i_path i) y = true -> PRE -> node_at y (s_nodes s) = Some (File d) -> node_at y (s_nodes s3) = Some (File d)).
  { intros y dd Uy HPRE Hy. destruct (PR HPRE) as (_ & V & _). destruct (K_node _ _ _ _ _ (C3 true) y (V y Uy)) as [B|(_ & B & _)]; congruence. }
  destruct (oi_format o =? FMT_Association) eqn:Efmt.
  - unfold bind at 1. unfold deref at 1. rewrite HP3. unfold bind at 1.
    (* the loop over the children *)
    assert (CHI : forall c' ci', In c' (ch3 p) -> s_heap s3 c' = Some ci' -> exists n', plain n' /\ i_path ci' = join (i_path i) n' /\ c' <> r).
    { intros c' ci' Hin Hc'. destruct (wf_child _ _ _ _ _ W3 p i3 c' HP3 Hin) as (ci2 & B1 & B2 & B3). rewrite Hc' in B1. injection B1 as <-. destruct (W_info _ _ _ _ _ W3 c' ci' Hc') as (o' & _ & O2). destruct (O2 p i3 B2 HP3) as (O3 & O4 & _).
      exists (oi_name o'). split; [exact O3|]. split; [|exact B3]. destruct KP3 as (_ & KP & _). congruence. }
    assert (LOOP : forall k itr s4 ch4, WF C s4 ch4 r None -> cf D None true s3 s4 -> links D None s3 s4 -> (forall x, itr = Some x -> x <> r /\ exists xi, s_heap s4 x = Some xi) ->
      (PRE -> exists dn l, ch3 p = dn ++ l /\ seg (s_heap s4) itr l /\ (forall c' ci', In c' l -> s_heap s3 c' = Some ci' -> fresh_dst s4 (repath (i_path i) D (i_path ci'))) /\
         (forall c' ci', In c' dn -> s_heap s3 c' = Some ci' -> forall x xi, s_heap s x = Some xi -> under (i_path ci') (i_path xi) = true -> copy_of s (i_path i) D s4 xi)) ->
      match (fix loop (k : nat) (itr : option ptr) : M N :=
                 match itr with
                 | None => ret R_OK
                 | Some c => match k with
                   | O => give_up
                   | S k' => bind (deref c) (fun ci => bind (copy_object C fuel (i_handle ci) hc false) (fun r0 =>
                             if negb (isok (fst r0)) then ret (fst r0) else bind (deref c) (fun ci0 => loop k' (i_next ci0))))
                   end
                 end) k itr s4 with
      | Ret (res, s') => (exists ch', WF C s' ch' r None) /\ cf D None (isok res) s3 s' /\ (res = R_OK -> links D None s3 s' /\
           (PRE -> forall c' ci', In c' (ch3 p) -> s_heap s3 c' = Some ci' -> forall x xi, s_heap s x = Some xi -> under (i_path ci') (i_path xi) = true -> copy_of s (i_path i) D s' xi))
      | UB => False | Abort => True end).
    { assert (END : forall s4 ch4, WF C s4 ch4 r None -> cf D None true s3 s4 -> links D None s3 s4 ->
         (PRE -> exists dn l, ch3 p = dn ++ l /\ seg (s_heap s4) None l /\ (forall c' ci', In c' l -> s_heap s3 c' = Some ci' -> fresh_dst s4 (repath (i_path i) D (i_path ci'))) /\
         (forall c' ci', In c' dn -> s_heap s3 c' = Some ci' -> forall x xi, s_heap s x = Some xi -> under (i_path ci') (i_path xi) = true -> copy_of s (i_path i) D s4 xi)) ->
         (exists ch', WF C s4 ch' r None) /\ cf D None (isok R_OK) s3 s4 /\ (R_OK = R_OK -> links D None s3 s4 /\
           (PRE -> forall c' ci', In c' (ch3 p) -> s_heap s3 c' = Some ci' -> forall x xi, s_heap s x = Some xi -> under (i_path ci') (i_path xi) = true -> copy_of s (i_path i) D s4 xi))).
      { intros s4 ch4 W4 C4 L4 INV. split; [eauto|]. split; [exact C4|]. intros _. split; [exact L4|]. intros HPRE. destruct (INV HPRE) as (dn & l & B1 & B2 & _ & B4).
        assert (l = []) as -> by (destruct l; [reflexivity|destruct B2; discriminate]). rewrite app_nil_r in B1. rewrite B1. exact B4. }
      induction k as [|k IHk]; intros itr s4 ch4 W4 C4 L4 Hitr INV.
      { destruct itr as [x|]; [exact I|]. unfold ret. eapply END; eassumption. }
      destruct itr as [x|]; [|unfold ret; eapply END; eassumption]. destruct (Hitr x eq_refl) as (Nx & xi & Hx). unfold bind at 1. unfold deref at 1. rewrite Hx. unfold bind at 1.
      assert (HR4 : s_root s4 = Some r) by (rewrite (K_root _ _ _ _ _ C4); exact HR3).
      assert (Hx0 : i_handle xi <> 0) by (intros E; apply Nx; eapply (wf_zero _ SO); eassumption).
      pose proof (IH (i_handle xi) hc false s4 ch4 W4 HR4 Hx0) as H. destruct (copy_object C fuel (i_handle xi) hc false s4) as [[[c5 hc5] s5]| |]; try exact H.
      destruct H as ((ch5 & W5) & H). cbn [fst].
      destruct (K_keep _ _ _ _ _ C4 c ci M2 (or_introl eq_refl)) as (ci4 & HC4 & (KC1 & KC2 & _)).
      destruct (W_live _ _ _ _ _ W4 c ci4 HC4 ltac:(discriminate)) as [HC4h _]. rewrite KC1, M3 in HC4h.
      destruct (W_live _ _ _ _ _ W4 x xi Hx ltac:(discriminate)) as [Hxh _].
      assert (Ud : under D (i_path ci4) = true) by (rewrite KC2, M8; apply under_refl).
      (* what the recursive call did *)
      assert (H' : (c5 <> R_OK /\ tsame s4 s5) \/ exists o', i_info xi = Some o' /\ cf (join D (oi_name o')) (Some c) (isok c5) s4 s5 /\
         (c5 = R_OK -> links (join D (oi_name o')) (Some c) s4 s5 /\ (fresh_dst s4 (join D (oi_name o')) -> under (i_path xi) (join D (oi_name o')) = false -> folders_under (i_path xi) s4 -> tree_copied s4 (i_path xi) (join D (oi_name o')) s5))).
      { destruct H as [(HA & HB & _)|(p' & i' & o' & q' & j' & H1 & H2 & H3 & H4 & H5 & H6 & _ & H7)]; [left; exact (conj HA HB)|right]. rewrite Hxh in H1. injection H1 as <-. rewrite Hx in H2. injection H2 as <-. rewrite HC4h in H4. injection H4 as <-. rewrite HC4 in H5. injection H5 as <-.
        rewrite KC2, M8 in H6, H7. exists o'. split; [exact H3|]. split; [exact H6|]. intros K. destruct (H7 K) as (H8 & _ & H9). auto. }
      clear H. assert (C45 : cf D None (isok c5) s4 s5).
      { destruct H' as [(H1 & H2)|(o' & H3 & H6 & H7)].
        - apply cf_fsame; [apply tsame_fsame; exact H2|]. destruct H2 as (t & -> & _). reflexivity.
        - eapply cf_below; [exact H6|apply under_join, under_refl|]. intros x0 i0 [= <-] Hx0'. rewrite HC4 in Hx0'. injection Hx0' as <-. exact Ud. }
      destruct (isok c5) eqn:E5; cbn [negb].
      - apply N.eqb_eq in E5. destruct H' as [(H1 & _)|(o' & H3 & H6 & H7)]; [contradiction|]. destruct (H7 E5) as (H8 & H9).
        assert (L45 : links D None s4 s5). { eapply links_below; [exact H8|apply under_join, under_refl|]. intros x0 i0 [= <-] Hx0'. rewrite HC4 in Hx0'. injection Hx0' as <-. exact Ud. }
        unfold bind at 1. destruct (K_keep _ _ _ _ _ C45 x xi Hx (or_introl eq_refl)) as (xi5 & B1 & (_ & B2 & B4 & _)). unfold deref at 1. rewrite B1.
        apply (IHk _ s5 ch5 W5); [eapply cf_trans; eassumption|eapply links_trans; eassumption| |].
        + intros y Ey. destruct (wf_parent _ _ _ _ _ W5 x xi5 B1 Nx) as (pp5 & pj5 & _ & Q1 & Q2 & Q3 & _).
          assert (In y (ch5 pp5)) by (eapply seg_next; [exact (T_seg _ _ _ (W_T _ _ _ _ _ W5) pp5 pj5 Q2)|exact Q3|exact B1|exact Ey]).
          destruct (wf_child _ _ _ _ _ W5 pp5 pj5 y Q2 H) as (yi & Y1 & _ & Y3). eauto.
        + intros HPRE. destruct (INV HPRE) as (dn & l & G1 & G2 & G3 & G4). destruct (PR HPRE) as (V1 & V2 & _). destruct (proj2 HPRE) as (PR2 & PR3).
          destruct l as [|x0 l]; [discriminate G2|]. destruct G2 as (G2 & xi0 & G5 & G6). injection G2 as <-. rewrite Hx in G5. injection G5 as <-.
          (* the child in the earlier states *)
          assert (Hx3 : exists xi3, s_heap s3 x = Some xi3 /\ kept xi3 xi).
          { destruct (wf_child _ _ _ _ _ W3 p i3 x HP3) as (ci2 & D1 & _); [rewrite G1; apply in_or_app; right; left; reflexivity|]. destruct (K_keep _ _ _ _ _ C4 x ci2 D1 (or_introl eq_refl)) as (z & D2 & D3). exists ci2. split; [exact D1|]. congruence. }
          destruct Hx3 as (xi3 & Hx3 & (_ & Ex3 & _ & _ & Exi)). assert (Inx : In x (ch3 p)) by (rewrite G1; apply in_or_app; right; left; reflexivity).
          destruct (CHI x xi3 Inx Hx3) as (nx & Pnx & Epx & _). assert (En : oi_name o' = nx /\ plain (oi_name o')).
          { destruct (wf_parent _ _ _ _ _ W4 x xi Hx Nx) as (pq & pqi & oo & T1' & T2' & T3' & T4' & T5' & T6' & _). rewrite H3 in T4'. injection T4' as <-. split; [|exact T5']. rewrite Ex3, Epx in T6'. apply join_inj in T6' as [_ T6']; [congruence|apply Pnx|apply T5']. }
          destruct En as (En & Pn'). assert (Ux : under (i_path i) (i_path xi) = true) by (rewrite Ex3, Epx; apply under_join, under_refl).
          assert (ED : join D (oi_name o') = repath (i_path i) D (i_path xi)). { rewrite Ex3, Epx, repath_join by apply under_refl. rewrite repath_self, En. reflexivity. }
          assert (FR : fresh_dst s4 (join D (oi_name o'))) by (rewrite ED, Ex3; apply (G3 x xi3); [left; reflexivity|exact Hx3]).
          assert (NU : under (i_path xi) (join D (oi_name o')) = false).
          { destruct (under (i_path xi) (join D (oi_name o'))) eqn:E; [|reflexivity]. exfalso. apply under_join_inv in E as [E|E]; [| |apply Pn'].
            - rewrite Ex3, Epx in E. apply join_inj in E as [E _]; [|apply Pnx|apply Pn']. rewrite E in PR2. rewrite under_refl in PR2. discriminate.
            - rewrite (under_trans _ _ _ Ux E) in PR2. discriminate. }
          pose proof (cf_trans _ _ _ _ _ _ (C3 true) (cf_X D (Some q) _ _ _ C4)) as C04.
          assert (OLD : forall y yi, s_heap s4 y = Some yi -> under (i_path i) (i_path yi) = true -> exists y0, s_heap s y = Some y0 /\ kept y0 yi).
          { intros y yi Hy Uy. destruct (K_new _ _ _ _ _ C04 y yi Hy) as [(y0 & D1 & D2)|(_ & D2)]; [eauto|]. rewrite (V2 _ Uy) in D2. discriminate. }
          assert (FU : folders_under (i_path xi) s4).
          { intros y yi z zi Hy Py Hz Uz. pose proof (under_trans _ _ _ Ux Uz) as Uz'. destruct (OLD z zi Hz Uz') as (z0 & D1 & (_ & D2 & _ & _ & D5)).
            destruct (N.eq_dec y r) as [->|Ny]. { exfalso. destruct (W_root _ _ _ _ _ W4) as (ri & R1 & R2' & _). rewrite Hy in R1. injection R1 as <-. congruence. }
            destruct (wf_parent _ _ _ _ _ W4 y yi Hy Ny) as (z' & zi' & oy & T1' & T2' & _ & _ & _ & T6' & _). rewrite Py in T1'. injection T1' as <-. rewrite Hz in T2'. injection T2' as <-.
            destruct (OLD y yi Hy) as (y0 & F1 & (_ & F2 & F3 & _)); [rewrite T6'; apply under_join; exact Uz'|].
            assert (A0 : is_assoc z0 = true) by (apply (PR3 y y0 z z0 F1); [congruence|exact D1|congruence]). unfold is_assoc in *. rewrite D5. exact A0. }
          pose proof (H9 FR NU FU) as TR.
          exists (dn ++ [x]), l. split; [rewrite <- app_assoc; exact G1|]. destruct (L45 x xi Hx (V2 _ Ux)) as (xi5' & I1 & _ & I3 & _). rewrite B1 in I1. injection I1 as <-. rewrite I3.
          assert (NDl : NoDup (dn ++ x :: l)) by (rewrite <- G1; eapply (T_nd _ _ _ (W_T _ _ _ _ _ W3)); exact HP3).
          assert (UDD : forall y, node_at y (s_nodes s5) = node_at y (s_nodes s4) \/ under (join D (oi_name o')) y = true \/ under y (join D (oi_name o')) = true /\ node_at y (s_nodes s4) = None).
          { intros y. destruct (under (join D (oi_name o')) y) eqn:E; [auto|]. destruct (K_node _ _ _ _ _ H6 y E) as [D1|(D1 & D2 & _)]; auto. }
          split; [|split].
          * eapply seg_links; [exact L45| |exact G6]. intros y yi Hy Hyi. apply V2. destruct (wf_child _ _ _ _ _ W3 p i3 y HP3) as (y3 & D1 & _); [rewrite G1; apply in_or_app; right; right; exact Hy|].
            destruct (K_keep _ _ _ _ _ C4 y y3 D1 (or_introl eq_refl)) as (y4 & D2 & (_ & D3 & _)). rewrite Hyi in D2. injection D2 as <-. destruct (CHI y y3) as (ny & _ & D4 & _); [rewrite G1; apply in_or_app; right; right; exact Hy|exact D1|]. rewrite D3, D4. apply under_join, under_refl.
          * intros c' ci' Hin Hc'. assert (Inc : In c' (ch3 p)) by (rewrite G1; apply in_or_app; right; right; exact Hin). destruct (CHI c' ci' Inc Hc') as (n' & Pn2 & Ep' & _).
            assert (Nn : oi_name o' <> n').
            { rewrite En. intros Q. assert (Epp : i_path xi3 = i_path ci') by congruence. assert (x = c') by (eapply (wf_path_uniq _ _ _ _ _ W3); [exact Hx3|exact Hc'|discriminate|discriminate|exact Epp]). subst c'.
              apply NoDup_remove_2 in NDl. apply NDl. apply in_or_app. right. exact Hin. }
            assert (E'' : repath (i_path i) D (i_path ci') = join D n') by (rewrite Ep', repath_join by apply under_refl; rewrite repath_self; reflexivity).
            destruct (G3 c' ci' (or_intror Hin) Hc') as [F1 F2]. rewrite E'' in *. pose proof (sib_disjoint D _ _ Pn' Pn2 Nn) as DJ1. pose proof (sib_disjoint D _ _ Pn2 Pn' (fun Q => Nn (eq_sym Q))) as DJ2. split.
            -- intros y yi Hy Ey. destruct (K_new _ _ _ _ _ H6 y yi Hy) as [(y0 & D1 & (_ & D2 & _))|(_ & D2)]; [exact (F1 y y0 D1 (eq_trans (eq_sym D2) Ey))|]. rewrite Ey, DJ1 in D2. discriminate.
            -- intros y Uy. destruct (UDD y) as [D1|[D1|(D1 & _)]]; [rewrite D1; apply F2; exact Uy|exfalso..].
               ++ destruct (under_comparable _ _ _ D1 Uy) as [D2|D2]; congruence.
               ++ rewrite (under_trans _ _ _ Uy D1) in DJ2. discriminate.
          * intros c' ci' Hin Hc' y yi Hy Uy. apply in_app_or in Hin as [Hin|[<-|[]]].
            -- (* an earlier child *)
               assert (Inc : In c' (ch3 p)) by (rewrite G1; apply in_or_app; left; exact Hin). destruct (CHI c' ci' Inc Hc') as (n' & Pn2 & Ep' & _).
               assert (Nn : oi_name o' <> n').
               { rewrite En. intros Q. assert (Epp : i_path xi3 = i_path ci') by congruence. assert (x = c') by (eapply (wf_path_uniq _ _ _ _ _ W3); [exact Hx3|exact Hc'|discriminate|discriminate|exact Epp]). subst c'.
                 apply NoDup_remove_2 in NDl. apply NDl. apply in_or_app. left. exact Hin. }
               eapply copy_of_later; [exact (G4 c' ci' Hin Hc' y yi Hy Uy)|intros z zi Hz; exact (K_keep _ _ _ _ _ H6 z zi Hz (or_introl eq_refl))|].
               intros dd Hd. destruct (UDD (repath (i_path i) D (i_path yi))) as [D1|[D1|(D1 & D2)]]; [congruence| |congruence]. exfalso.
               assert (Uz : under (join D n') (repath (i_path i) D (i_path yi)) = true).
               { replace (join D n') with (repath (i_path i) D (i_path ci')) by (rewrite Ep', repath_join by apply under_refl; rewrite repath_self; reflexivity). apply under_spec in Uy as [->|[rr Er]]; [apply under_refl|]. rewrite Er.
                 rewrite Ep'. unfold repath at 2. unfold join. rewrite <- !app_assoc. rewrite drop_app_len. apply under_spec. right. exists rr. rewrite repath_app. rewrite <- !app_assoc. reflexivity. }
               pose proof (sib_disjoint D _ _ Pn' Pn2 Nn) as DJ1. pose proof (sib_disjoint D _ _ Pn2 Pn' (fun Q => Nn (eq_sym Q))) as DJ2. destruct (under_comparable _ _ _ D1 Uz); congruence.
            -- (* the child just copied *)
               rewrite Hx3 in Hc'. injection Hc' as <-. assert (Uy' : under (i_path xi) (i_path yi) = true) by (rewrite Ex3; exact Uy).
               destruct (K_keep _ _ _ _ _ C04 y yi Hy (or_introl eq_refl)) as (yi4 & D1 & (D2 & D3 & D4 & D5 & D6)).
               destruct (TR y yi4 D1 ltac:(rewrite D3; exact Uy')) as (z & zi & xo & zo & E1' & E2' & E3' & E4' & E5' & E6' & E7' & E8' & E9').
               assert (ER : repath (i_path xi) (join D (oi_name o')) (i_path yi4) = repath (i_path i) D (i_path yi)).
               { rewrite D3, ED. apply under_spec in Uy' as [->|[rr Er]]; [apply repath_self|]. rewrite Er, repath_app. rewrite Ex3, Epx. unfold join. rewrite <- !app_assoc. rewrite !repath_app. rewrite <- !app_assoc. reflexivity. }
               rewrite ER in *. exists z, zi, xo, zo. split; [exact E1'|]. split; [pose proof (K_fresh _ _ _ _ _ C04); lia|]. split; [exact E3'|]. split; [congruence|]. split; [exact E5'|]. repeat split; auto.
               intros NF NA dd Hd Es El. apply (E9' NF NA dd); auto. rewrite D3. destruct (K_node _ _ _ _ _ C04 (i_path yi) (V2 _ (under_trans _ _ _ Ux Uy'))) as [J|(_ & J & _)]; congruence.
      - assert (N5 : c5 <> R_OK) by (intros ->; discriminate). unfold ret. split; [eauto|]. rewrite E5. split; [eapply cf_trans; [apply cf_down; exact C4|exact C45]|]. intros; contradiction. }
    pose proof (LOOP fuel (i_first i3) s3 ch3 W3 (cf_refl _ _ _ _) (links_refl _ _ _)) as LP.
    assert (HF : forall x, i_first i3 = Some x -> x <> r /\ exists xi, s_heap s3 x = Some xi).
    { intros x Ex. pose proof (T_seg _ _ _ (W_T _ _ _ _ _ W3) p i3 HP3) as Sg. rewrite Ex in Sg. apply seg_some in Sg as (l' & El).
      destruct (wf_child _ _ _ _ _ W3 p i3 x HP3) as (xi & Y1 & _ & Y3); [rewrite El; left; reflexivity|]. eauto. }
    specialize (LP HF).
    assert (INV0 : PRE -> exists dn l, ch3 p = dn ++ l /\ seg (s_heap s3) (i_first i3) l /\ (forall c' ci', In c' l -> s_heap s3 c' = Some ci' -> fresh_dst s3 (repath (i_path i) D (i_path ci'))) /\
         (forall c' ci', In c' dn -> s_heap s3 c' = Some ci' -> forall x xi, s_heap s x = Some xi -> under (i_path ci') (i_path xi) = true -> copy_of s (i_path i) D s3 xi)).
    { intros HPRE. exists [], (ch3 p). split; [reflexivity|]. split; [exact (T_seg _ _ _ (W_T _ _ _ _ _ W3) p i3 HP3)|]. split; [|intros c' ci' []].
      intros c' ci' Hin Hc'. destruct (CHI c' ci' Hin Hc') as (n' & Pn2 & Ep' & _). rewrite Ep', repath_join by apply under_refl. rewrite repath_self.
      destruct (PR HPRE) as (V1 & V2 & V3 & V4). pose proof (add_item_one fuel info s2 ch q j _ _ W2 Hq2 Eqh Np V3 EA) as AO. change (join (i_path j) (oi_name info)) with D in AO. split.
      - intros x xi Hx Ex. destruct (A_path _ _ _ _ _ AO x xi Hx) as [(x0 & D1 & D2)|D1].
        + rewrite Y2 in D1. pose proof (V1 x x0 D1) as D3. rewrite D2, Ex, (under_join D D n' (under_refl D)) in D3. discriminate.
        + rewrite Ex in D1. apply (f_equal len) in D1. rewrite len_join in D1. lia.
      - intros y Uy. apply (nothing_afq _ _ _ _ V3 AO).
        + eapply under_trans; [apply under_join, under_refl|exact Uy].
        + intros ->. apply under_len in Uy. rewrite len_join in Uy. lia. }
    specialize (LP INV0).
    match type of LP with match ?X with _ => _ end => destruct X as [[res s4]| |] end; try exact LP. destruct LP as ((ch4 & W4) & C4 & R4). destruct (isok res) eqn:E4; cbn [negb].
    + apply N.eqb_eq in E4. destruct (R4 E4) as (L4 & TR4). eapply done; try eassumption. intros HPRE x xi Hx Ux.
      destruct (N.eq_dec x p) as [->|Nxp].
      * rewrite Hp in Hx. injection Hx as <-. destruct (SELF HPRE) as (Z1 & co & Z2 & Z3 & Z4 & Z5 & _). destruct (K_keep _ _ _ _ _ C4 c ci M2 (or_introl eq_refl)) as (ci4 & F1 & (F2 & F3 & F4 & F5 & F6)).
        exists c, ci4, o, co. split; [exact F1|]. split; [exact Z1|]. split; [rewrite repath_self; congruence|]. split; [exact P4|]. split; [congruence|]. repeat split; auto. intros _ NA. exfalso. apply NA. apply N.eqb_eq. exact Efmt.
      * (* below a child *)
        assert (EXC : exists c' ci', In c' (ch3 p) /\ s_heap s3 c' = Some ci' /\ under (i_path ci') (i_path xi) = true).
        { destruct (K_keep _ _ _ _ _ (C3 true) x xi Hx (or_introl eq_refl)) as (xi3 & F1 & (_ & F3 & _)). rewrite <- F3. eapply (below_child s3 ch3 p i3 W3 HP3 x xi3 F1); [|exact Nxp]. destruct KP3 as (_ & KP & _). rewrite KP, F3. exact Ux. }
        destruct EXC as (c' & ci' & F1 & F2 & F3). exact (TR4 HPRE c' ci' F1 F2 x xi Hx F3).
    + assert (N4 : res <> R_OK) by (intros ->; discriminate). unfold ret. split; [eauto|]. apply fin; [|exact N4|right; eapply HCF; eassumption]. rewrite E4. eapply cf_trans; [apply C3|apply cf_X; exact C4].
  - unfold bind at 1. assert (Hh3 : aget h (s_handles s3) = Some (Some p)).
    { destruct (W_live _ _ _ _ _ W3 p i3 HP3 ltac:(discriminate)) as [B _]. destruct KP3 as (KP & _). congruence. }
    assert (HI3 : i_info i3 = Some o) by (destruct KP3 as (_ & _ & _ & _ & KI); congruence). assert (HPP3 : i_path i3 = i_path i) by (destruct KP3 as (_ & KI & _); congruence).
    pose proof (copy_data_ok fuel h hc s3 ch3 p i3 c ci o W3 HR3 Hh3 HP3 HI3 M1 M2) as H.
    destruct (copy_data C fuel h hc s3) as [[c4 s4]| |]; try exact H. destruct H as ((ch4 & W4) & H2 & H3). rewrite M8 in H2, H3. destruct (isok c4) eqn:E4; cbn [negb].
    + apply N.eqb_eq in E4. destruct (H3 E4) as (J1 & J2 & J3 & J4). eapply done; try eassumption; [apply links_hsame; exact J2|]. intros HPRE x xi Hx Ux.
      assert (x = p) as ->.
      { destruct (N.eq_dec x p) as [E|Nxp]; [exact E|exfalso]. destruct (below_child s ch p i W Hp x xi Hx Ux Nxp) as (c' & ci' & F1 & F2 & F3).
        destruct (wf_child _ _ _ _ _ W p i c' Hp F1) as (c2 & G1 & G2 & _). pose proof (proj2 (proj2 HPRE) c' c2 p i G1 G2 Hp (under_refl _)) as G3. unfold is_assoc in G3. rewrite P4 in G3. congruence. }
      rewrite Hp in Hx. injection Hx as <-. destruct (SELF HPRE) as (Z1 & co & Z2 & Z3 & Z4 & Z5 & Z6). destruct (K_keep _ _ _ _ _ H2 c ci M2 (or_introl eq_refl)) as (ci4 & F1 & (F2 & F3 & F4 & F5 & F6)).
      exists c, ci4, o, co. split; [exact F1|]. split; [exact Z1|]. rewrite repath_self. split; [congruence|]. split; [exact P4|]. split; [congruence|]. repeat split; auto.
      intros NF NA d Hd Es El. destruct (Z6 NA) as (d0 & Z7 & Z8). assert (Eu : u32 (oi_size o) = len d) by (rewrite Es; unfold u32; apply N.mod_small; exact El).
      destruct (N.eq_dec (len d) 0) as [E0|E0].
      * rewrite J3 by congruence. rewrite Z7, (Z8 (proj1 NF) ltac:(cbn; congruence)). destruct d; [reflexivity|rewrite len_cons in E0; lia].
      * assert (NPD : i_path i3 <> D). { rewrite HPP3. intros Q. pose proof (proj1 (proj2 HPRE)) as Q2. rewrite Q, under_refl in Q2. discriminate. }
        destruct (J4 ltac:(congruence) NPD d d0) as (_ & k & cut & J5 & J6 & J7 & J8).
        -- rewrite HPP3. apply (NS3 _ _ (under_refl _) HPRE Hd).
        -- exact Z7.
        -- destruct (J8 NF) as (-> & ->). rewrite J7, Eu, app_nil_r, take_all by lia. reflexivity.
    + assert (N4 : c4 <> R_OK) by (intros ->; discriminate). unfold ret. split; [eauto|]. apply fin; [|exact N4|right; eapply HCF; eassumption]. rewrite E4. eapply cf_trans; [apply C3|apply cf_X; exact H2].
Qed.
End Copy2.
