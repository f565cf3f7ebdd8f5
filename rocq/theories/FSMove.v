(** Moving and renaming: adjustMovedItem, moveObject, setObjectPropertyValue (file
    name) and handleFSMove keep a storage well-formed. *)
From Verif Require Import Base AList Wire FS FSPath FSTree FSLogic FSAdd FSAdd2 FSDel FSSub.

(** *** The path table after a move *)
Definition pvis1 (o d : path) (H : heap) (F : path -> option N) (x : ptr) : path -> option N :=
  match H x with Some i => pupd (pupd F (i_path i) None) (repath o d (i_path i)) (Some (i_handle i)) | None => F end.
Definition pvis (o d : path) (H : heap) (L : list ptr) (F : path -> option N) : path -> option N := fold_left (pvis1 o d H) L F.
Lemma pvis_ext o d H H' : forall L F, (forall x, In x L -> match H x, H' x with Some i, Some i' => i_path i' = i_path i /\ i_handle i' = i_handle i | None, None => True | _, _ => False end) ->
  pvis o d H' L F = pvis o d H L F.
Proof.
  induction L as [|x L IH]; intros F HX; [reflexivity|]. cbn [pvis fold_left]. unfold pvis in IH. rewrite IH by (intros y Hy; apply HX; right; exact Hy). f_equal.
  specialize (HX x (or_introl eq_refl)). unfold pvis1. destruct (H x), (H' x); try contradiction; [|reflexivity]. destruct HX as [-> ->]. reflexivity.
Qed.
Lemma pvis_class o d H F : forall L, (forall x x' i i', In x L -> In x' L -> H x = Some i -> H x' = Some i' -> x <> x' -> repath o d (i_path i) <> i_path i') ->
  forall y, (exists x i, In x L /\ H x = Some i /\ y = repath o d (i_path i) /\ pvis o d H L F y = Some (i_handle i)) \/
    ((forall x i, In x L -> H x = Some i -> repath o d (i_path i) <> y) /\
     (((exists x i, In x L /\ H x = Some i /\ i_path i = y) /\ pvis o d H L F y = None) \/
      ((forall x i, In x L -> H x = Some i -> i_path i <> y) /\ pvis o d H L F y = F y))).
Proof.
  induction L as [|x L IH] using rev_ind; intros HD y.
  - right. split; [intros x i []|]. right. split; [intros x i []|reflexivity].
  - assert (HD' : forall x x' i i', In x L -> In x' L -> H x = Some i -> H x' = Some i' -> x <> x' -> repath o d (i_path i) <> i_path i').
    { intros a a' i i' Ha Ha'. apply HD; apply in_or_app; left; assumption. }
    specialize (IH HD' y). unfold pvis in *. rewrite fold_left_app. cbn [fold_left]. set (F1 := fold_left (pvis1 o d H) L F) in *.
    unfold pvis1 at 1 2 3. destruct (H x) as [i|] eqn:Hx.
    2:{ destruct IH as [(z & i & A1 & A2 & A3 & A4)|[A1 A2]].
        - left. exists z, i. split; [apply in_or_app; left; exact A1|]. auto.
        - right. split; [intros z i Hz Ez; apply in_app_or in Hz as [Hz|[<-|[]]]; [eauto|congruence]|].
          destruct A2 as [[(z & i & B1 & B2 & B3) A2]|[B1 A2]].
          + left. split; [|exact A2]. exists z, i. split; [apply in_or_app; left; exact B1|]. auto.
          + right. split; [|exact A2]. intros z i Hz Ez. apply in_app_or in Hz as [Hz|[<-|[]]]; [eauto|congruence]. }
    destruct (path_dec y (repath o d (i_path i))) as [->|Ny].
    { left. exists x, i. split; [apply in_or_app; right; left; reflexivity|]. split; [exact Hx|]. split; [reflexivity|apply pupd_eq]. }
    destruct (path_dec y (i_path i)) as [Ey|Ny2].
    { right. split.
      - intros z k Hz Ez. destruct (N.eq_dec z x) as [->|Nz]; [rewrite Hx in Ez; injection Ez as <-; congruence|]. apply in_app_or in Hz as [Hz|[->|[]]]; [|contradiction].
        rewrite Ey. apply (HD z x); auto; apply in_or_app; [left; exact Hz|right; left; reflexivity].
      - left. split; [exists x, i; split; [apply in_or_app; right; left; reflexivity|auto]|]. rewrite pupd_neq by exact Ny. rewrite Ey. apply pupd_eq. }
    rewrite (pupd_neq _ _ (repath o d (i_path i))) by exact Ny. rewrite (pupd_neq _ _ (i_path i)) by exact Ny2.
    destruct IH as [(z & k & A1 & A2 & A3 & A4)|[A1 A2]].
    + left. exists z, k. split; [apply in_or_app; left; exact A1|]. auto.
    + right. split; [intros z k Hz Ez; apply in_app_or in Hz as [Hz|[<-|[]]]; [eauto|rewrite Hx in Ez; injection Ez as <-; congruence]|].
      destruct A2 as [[(z & k & B1 & B2 & B3) A2]|[B1 A2]].
      * left. split; [|exact A2]. exists z, k. split; [apply in_or_app; left; exact B1|]. auto.
      * right. split; [|exact A2]. intros z k Hz Ez. apply in_app_or in Hz as [Hz|[<-|[]]]; [eauto|rewrite Hx in Ez; injection Ez as <-; congruence].
Qed.

(** *** adjustMovedItem over a list of items *)
Definition vis1 (o d : path) (s : fs) (x : ptr) : fs :=
  match s_heap s x with
  | Some i => set_paths (pvis1 o d (s_heap s) (s_paths s) x) (set_heap (nupd (s_heap s) x (Some (it_path (repath o d (i_path i)) i))) s)
  | None => s end.
Definition vis (o d : path) (L : list ptr) (s : fs) : fs := fold_left (vis1 o d) L s.
Lemma vis_app o d L1 L2 s : vis o d (L1 ++ L2) s = vis o d L2 (vis o d L1 s).
Proof. apply fold_left_app. Qed.
Lemma vis_out o d : forall L s x, ~ In x L -> s_heap (vis o d L s) x = s_heap s x.
Proof.
  induction L as [|y L IH]; intros s x Hx; [reflexivity|]. cbn [vis fold_left]. unfold vis in IH. rewrite IH by (intros X; apply Hx; right; exact X).
  unfold vis1. destruct (s_heap s y) as [i|]; [|reflexivity]. cbn. apply nupd_neq. intros ->. apply Hx. left. reflexivity.
Qed.
Lemma vis_in o d : forall L s x i, NoDup L -> In x L -> s_heap s x = Some i -> s_heap (vis o d L s) x = Some (it_path (repath o d (i_path i)) i).
Proof.
  induction L as [|y L IH]; intros s x i ND Hx Hi; [contradiction|]. apply NoDup_cons_iff in ND as [Ny ND]. cbn [vis fold_left]. fold (vis o d L (vis1 o d s y)).
  destruct Hx as [->|Hx].
  - rewrite vis_out by exact Ny. unfold vis1. rewrite Hi. cbn. apply nupd_eq.
  - apply IH; [exact ND|exact Hx|]. unfold vis1. destruct (s_heap s y) as [j|]; [|exact Hi]. cbn. rewrite nupd_neq by congruence. exact Hi.
Qed.
Lemma vis_paths o d : forall L s, NoDup L -> s_paths (vis o d L s) = pvis o d (s_heap s) L (s_paths s).
Proof.
  induction L as [|y L IH]; intros s ND; [reflexivity|]. apply NoDup_cons_iff in ND as [Ny ND]. cbn [vis pvis fold_left]. fold (vis o d L (vis1 o d s y)).
  rewrite (IH _ ND). unfold vis1. destruct (s_heap s y) as [j|] eqn:Hy.
  - cbn [s_heap s_paths set_paths set_heap]. apply pvis_ext. intros x Hx. rewrite nupd_neq by congruence. destruct (s_heap s x); auto.
  - unfold pvis1. rewrite Hy. reflexivity.
Qed.
Lemma vis_same o d : forall L s, exists H F, vis o d L s = set_paths F (set_heap H s).
Proof.
  induction L as [|y L IH]; intros s; [exists (s_heap s), (s_paths s); destruct s; reflexivity|]. cbn [vis fold_left]. fold (vis o d L (vis1 o d s y)).
  destruct (IH (vis1 o d s y)) as (H & F & ->). unfold vis1. destruct (s_heap s y); [|eauto]. exists H, F. reflexivity.
Qed.

Section Adjust.
Variables (C : conf) (s0 : fs) (ch : ptr -> list ptr) (r : ptr) (W : WF C s0 ch r None) (o d : path).
(** the part of the reference tree below [x] is untouched in [s] (up to watches) *)
Definition intact (s : fs) (x : ptr) : Prop := forall y i k, s_heap s0 x = Some i -> s_heap s0 y = Some k -> under (i_path i) (i_path k) = true -> exists w, s_heap s y = Some (it_wd w k).
Lemma intact_vis q j c c' L s : s_heap s0 q = Some j -> In c (ch q) -> In c' (ch q) -> c <> c' -> tr (fun _ => true) ch c L -> intact s c' -> intact (vis o d L s) c'.
Proof.
  intros Hq Hc Hc' Ne HL IN y i k Hi Hy U. destruct (wf_child _ _ _ _ _ W q j c Hq Hc) as (ci & Hci & _).
  destruct (proj1 (tr_facts C s0 ch r W (fun _ => true)) c L HL ci Hci) as [MEM _].
  rewrite vis_out; [eapply IN; eassumption|]. intros Hin. destruct (MEM y Hin) as (i1 & j1 & A1 & A2 & A3). rewrite Hy in A2. injection A2 as <-.
  eapply (sib_disjoint C s0 ch r W q j c c'); eassumption.
Qed.
Lemma adjust_loop_exec fuel : (forall p i q j s, s_heap s0 p = Some i -> i_parent i = Some q -> s_heap s0 q = Some j -> under o (i_path j) = true -> intact s p ->
    match adjust_moved fuel (repath o d (i_path j)) p s with Ret (_, s') => exists L, tr (fun _ => true) ch p L /\ s' = vis o d L s | UB => False | Abort => True end) ->
  forall q j, s_heap s0 q = Some j -> under o (i_path j) = true ->
  forall k l itr s, seg (s_heap s) itr l -> (forall c, In c l -> In c (ch q)) -> NoDup l -> (forall c, In c l -> intact s c) ->
    match adjust_children fuel k (repath o d (i_path j)) itr s with Ret (_, s') => exists L, trs (fun _ => true) ch l L /\ s' = vis o d L s | UB => False | Abort => True end.
Proof.
  intros IH q j Hq U. induction k as [|k IHk]; intros l itr s SG Hl ND HI; destruct l as [|c l]; cbn [seg] in SG.
  - rewrite SG. exists []. split; [constructor|reflexivity].
  - destruct SG as [-> _]. exact I.
  - rewrite SG. exists []. split; [constructor|reflexivity].
  - destruct SG as [-> (c1 & Hc1 & SG)]. cbn [adjust_children]. destruct (wf_child _ _ _ _ _ W q j c Hq (Hl c (or_introl eq_refl))) as (ci & Hci & Hpar & _).
    pose proof (HI c (or_introl eq_refl)) as Ic. destruct (Ic c ci ci Hci Hci (under_refl _)) as (w & Hcs). rewrite Hc1 in Hcs. injection Hcs as ->.
    unfold bind at 1. specialize (IH c ci q j s Hci Hpar Hq U Ic). destruct (adjust_moved fuel (repath o d (i_path j)) c s) as [[[] s1]| |]; try exact IH.
    destruct IH as (L1 & T1 & ->). destruct (proj1 (tr_facts C s0 ch r W (fun _ => true)) c L1 T1 ci Hci) as [MEM ND1].
    destruct (proj1 (tr_closed ch _) c L1 T1 ltac:(auto)) as [Hin _]. apply NoDup_cons_iff in ND as [Nc ND].
    unfold bind at 1. unfold deref at 1. rewrite (vis_in o d L1 s c _ ND1 Hin Hc1). cbn [i_next it_path it_wd].
    specialize (IHk l (i_next ci) (vis o d L1 s)). cbn [i_next it_wd] in SG.
    assert (X : forall c', In c' l -> intact (vis o d L1 s) c').
    { intros c' Hc'. eapply (intact_vis q j c c'); [exact Hq|apply Hl; left; reflexivity|apply Hl; right; exact Hc'|congruence|exact T1|apply HI; right; exact Hc']. }
    assert (SG' : seg (s_heap (vis o d L1 s)) (i_next ci) l).
    { eapply seg_frame; [|exact SG]. intros x xi Hx Hxi. destruct (in_dec N.eq_dec x L1) as [Hy|Hy].
      - rewrite (vis_in o d L1 s x _ ND1 Hy Hxi). eexists. split; [reflexivity|reflexivity].
      - rewrite vis_out by exact Hy. eauto. }
    specialize (IHk SG' ltac:(intros c' Hc'; apply Hl; right; exact Hc') ND X).
    destruct (adjust_children fuel k (repath o d (i_path j)) (i_next ci) (vis o d L1 s)) as [[[] s2]| |]; try exact IHk.
    destruct IHk as (L2 & T2 & ->). exists (L1 ++ L2). split; [constructor; assumption|]. symmetry. apply vis_app.
Qed.
Lemma adjust_moved_exec : forall fuel p i q j s, s_heap s0 p = Some i -> i_parent i = Some q -> s_heap s0 q = Some j -> under o (i_path j) = true -> intact s p ->
    match adjust_moved fuel (repath o d (i_path j)) p s with Ret (_, s') => exists L, tr (fun _ => true) ch p L /\ s' = vis o d L s | UB => False | Abort => True end.
Proof.
  induction fuel as [|fuel IH]; intros p i q j s Hp Hpar Hq U HI; [exact I|]. cbn [adjust_moved].
  destruct (HI p i i Hp Hp (under_refl _)) as (w & Hps). unfold bind at 1. unfold deref at 1. rewrite Hps.
  unfold bind at 1. unfold upd at 1. destruct (W_info _ _ _ _ _ W p i Hp) as (oi & O1 & O2). destruct (O2 q j Hpar Hq) as (O3 & O4 & _).
  unfold bind at 1. unfold info_of at 1. cbn [i_info it_wd i_path i_handle i_first]. rewrite O1. unfold ret at 1.
  assert (ED : join (repath o d (i_path j)) (oi_name oi) = repath o d (i_path i)) by (rewrite O4; symmetry; apply repath_join; exact U).
  rewrite ED. unfold bind at 1. unfold modify at 1. cbn [s_heap set_paths]. rewrite Hps. unfold bind at 1. unfold upd at 1. cbn [s_paths set_heap set_paths].
  match goal with |- context [i_first i] => idtac end.
  assert (LP : forall k itr st, (fix loop (k0 : nat) (itr0 : option ptr) {struct k0} : M unit :=
       match itr0 with
       | Some q0 => match k0 with 0%nat => give_up | S k' => adjust_moved fuel (repath o d (i_path i)) q0;;; qi <- deref q0;; loop k' (i_next qi) end
       | None => ret tt
       end) k itr st = adjust_children fuel k (repath o d (i_path i)) itr st).
  { induction k as [|k IHk]; intros [x|] st; try reflexivity. cbn [adjust_children]. unfold bind. destruct (adjust_moved fuel (repath o d (i_path i)) x st) as [[u s2]| |]; try reflexivity.
    destruct (deref x s2) as [[xi s3]| |]; try reflexivity. apply IHk. }
  rewrite LP.
  match goal with |- context [adjust_children fuel fuel _ _ ?st] => assert (EV : st = vis1 o d s p) end.
  { unfold vis1, pvis1. rewrite Hps. cbn [i_path i_handle it_wd]. destruct s; reflexivity. }
  rewrite EV. clear LP.
  assert (U2 : under o (i_path i) = true) by (rewrite O4; apply under_join; exact U).
  assert (HX : forall c, In c (ch p) -> intact (vis1 o d s p) c).
  { intros c Hc y ci k Hci Hy Uy. destruct (child_path C s0 ch r W p i c ci Hp Hc Hci) as (n & _ & En).
    destruct (HI y i k Hp Hy ltac:(eapply under_trans; [|exact Uy]; rewrite En; apply under_join, under_refl)) as (w' & Hys). exists w'.
    unfold vis1. rewrite Hps. cbn. rewrite nupd_neq; [exact Hys|]. intros ->. rewrite Hp in Hy. injection Hy as <-. apply under_len in Uy. rewrite En, len_join in Uy. lia. }
  pose proof (T_seg _ _ _ (W_T _ _ _ _ _ W) p i Hp) as SG.
  assert (SG' : seg (s_heap (vis1 o d s p)) (i_first i) (ch p)).
  { eapply seg_frame; [|exact SG]. intros c ci Hc Hci. destruct (HX c Hc c ci ci Hci Hci (under_refl _)) as (w' & E). rewrite E. eexists. split; reflexivity. }
  pose proof (adjust_loop_exec fuel IH p i Hp U2 fuel (ch p) (i_first i) (vis1 o d s p) SG' ltac:(auto) (T_nd _ _ _ (W_T _ _ _ _ _ W) p i Hp) HX) as R.
  destruct (adjust_children fuel fuel (repath o d (i_path i)) (i_first i) (vis1 o d s p)) as [[[] s2]| |]; try exact R.
  destruct R as (L & T1 & ->). exists (p :: L). split; [constructor; [reflexivity|exact T1]|]. reflexivity.
Qed.
Lemma adjust_children_exec fuel k p i s : s_heap s0 p = Some i -> under o (i_path i) = true -> (forall c, In c (ch p) -> intact s c) ->
  match adjust_children fuel k (repath o d (i_path i)) (i_first i) s with Ret (_, s') => exists L, trs (fun _ => true) ch (ch p) L /\ s' = vis o d L s | UB => False | Abort => True end.
Proof.
  intros Hp U HX. apply (adjust_loop_exec fuel (adjust_moved_exec fuel) p i Hp U); auto.
  - pose proof (T_seg _ _ _ (W_T _ _ _ _ _ W) p i Hp) as SG. eapply seg_frame; [|exact SG]. intros c ci Hc Hci. destruct (HX c Hc c ci ci Hci Hci (under_refl _)) as (w' & E). rewrite E. eexists. split; reflexivity.
  - exact (T_nd _ _ _ (W_T _ _ _ _ _ W) p i Hp).
Qed.
End Adjust.

(** *** What a move of the object [p] from the path [o] to [d], into the folder [q], does *)
Definition newpath (o d x : path) : path := if under o x then repath o d x else x.
Record moved (s : fs) (p q : ptr) (o d n : path) (s' : fs) : Prop := {
  M_items : forall x k, s_heap s x = Some k -> exists k', s_heap s' x = Some k' /\ i_handle k' = i_handle k /\ i_puoid k' = i_puoid k /\ i_path k' = newpath o d (i_path k) /\
              (x <> p -> i_parent k' = i_parent k /\ i_info k' = i_info k);
  M_none : forall x, s_heap s x = None -> s_heap s' x = None;
  M_item : exists k' j oi, s_heap s' p = Some k' /\ s_heap s q = Some j /\ i_parent k' = Some q /\ i_info k' = Some oi /\ oi_name oi = n /\ oi_parent oi = i_handle j;
  M_fresh : s_fresh s' = s_fresh s;
  M_root : s_root s' = s_root s;
  M_handles : s_handles s' = s_handles s;
  M_tick : (s_tick s <= s_tick s')%nat }.

Section Moved.
Variables (C : conf) (s : fs) (ch : ptr -> list ptr) (r : ptr) (W : WF C s ch r None).
Variables (p q : ptr) (i j : item) (n : path).
Hypothesis Hp : s_heap s p = Some i.
Hypothesis Hq : s_heap s q = Some j.
Hypothesis Nr : p <> r.
Hypothesis Pn : plain n.
Hypothesis Nu : under (i_path i) (i_path j) = false.
Let o := i_path i.
Let d := join (i_path j) n.
Hypothesis Fr : d = o \/ s_paths s d = None.

Lemma d_under_root : under (c_root C) d = true.
Proof. unfold d. apply under_join. eapply wf_under_root; eassumption. Qed.
Lemma d_free x k : s_heap s x = Some k -> under d (i_path k) = true -> under o (i_path k) = true.
Proof.
  intros Hx U. destruct Fr as [E|E]; [rewrite <- E; exact U|]. exfalso.
  destruct (anc_live C s ch r W d d_under_root x k Hx U) as (y & k' & Hy & Ey). destruct (W_live _ _ _ _ _ W y k' Hy ltac:(discriminate)) as [_ A]. congruence.
Qed.
Lemma d_incomparable : d = o \/ (under o d = false /\ under d o = false).
Proof.
  destruct Fr as [E|E]; [auto|]. right. split.
  - destruct (under o d) eqn:U; [|reflexivity]. unfold d in U. apply under_join_inv in U as [U|U]; [|unfold o in U; congruence|apply Pn].
    exfalso. assert (Ed : d = o) by (unfold d; congruence). rewrite Ed in E. destruct (W_live _ _ _ _ _ W p i Hp ltac:(discriminate)) as [_ A]. unfold o in E. congruence.
  - destruct (under d o) eqn:U; [|reflexivity]. exfalso. destruct (anc_live C s ch r W d d_under_root p i Hp U) as (y & k' & Hy & Ey). destruct (W_live _ _ _ _ _ W y k' Hy ltac:(discriminate)) as [_ A]. congruence.
Qed.
Lemma newpath_not x : under o x = false -> newpath o d x = x.
Proof. unfold newpath. intros ->. reflexivity. Qed.
Lemma newpath_in x : under o x = true -> newpath o d x = repath o d x.
Proof. unfold newpath. intros ->. reflexivity. Qed.
Lemma repath_id x : d = o -> under o x = true -> repath o d x = x.
Proof. intros E. rewrite E. rewrite under_spec. intros [->|[t ->]]; [apply repath_self|apply repath_app]. Qed.
Lemma HDp L : (forall x, In x L -> at_under s p x) -> forall x x' a a', In x L -> In x' L -> s_heap s x = Some a -> s_heap s x' = Some a' -> x <> x' -> repath o d (i_path a) <> i_path a'.
Proof.
  intros MEM x x' a a' Hx Hx' Ha Ha' Ne E. destruct (MEM x Hx) as (i1 & a1 & A1 & A2 & A3). rewrite Ha in A2. injection A2 as <-. rewrite Hp in A1. injection A1 as <-. fold o in A3.
  destruct (MEM x' Hx') as (i1 & a1 & B1 & B2 & B3). rewrite Ha' in B2. injection B2 as <-. rewrite Hp in B1. injection B1 as <-. fold o in B3.
  destruct d_incomparable as [Ed|[U1 U2]].
  - rewrite repath_id in E by assumption. apply Ne. eapply (wf_path_uniq _ _ _ _ _ W); eauto; discriminate.
  - pose proof (repath_under o d _ A3) as V. rewrite E in V. destruct (under_comparable o d _ B3 V); congruence.
Qed.
(** the path table maps exactly the new paths *)
Lemma paths_moved L : tr (fun _ => true) ch p L ->
  (forall x k, s_heap s x = Some k -> pvis o d (s_heap s) L (s_paths s) (newpath o d (i_path k)) = Some (i_handle k)) /\
  (forall y h, pvis o d (s_heap s) L (s_paths s) y = Some h -> exists x k, s_heap s x = Some k /\ newpath o d (i_path k) = y /\ i_handle k = h).
Proof.
  intros HL. destruct (proj1 (tr_facts C s ch r W (fun _ => true)) p L HL i Hp) as [MEM ND].
  pose proof (tr_complete C s ch r W p i L HL Hp) as ALLIN.
  pose proof (pvis_class o d (s_heap s) (s_paths s) L (HDp L MEM)) as CL.
  assert (UM : forall x k, In x L -> s_heap s x = Some k -> under o (i_path k) = true).
  { intros x k Hx Hk. destruct (MEM x Hx) as (i1 & a1 & B1 & B2 & B3). rewrite Hk in B2. injection B2 as <-. rewrite Hp in B1. injection B1 as <-. exact B3. }
  split.
  - intros x k Hx. destruct (under o (i_path k)) eqn:U.
    + rewrite newpath_in by exact U. destruct (CL (repath o d (i_path k))) as [(y & ky & A1 & A2 & A3 & A4)|[A1 _]].
      * rewrite A4. f_equal. apply repath_inj in A3; [|exact U|eapply UM; eassumption]. assert (y = x) by (eapply (wf_path_uniq _ _ _ _ _ W); eauto; discriminate). subst y. congruence.
      * exfalso. apply (A1 x k); auto. eapply ALLIN; eassumption.
    + rewrite newpath_not by exact U. destruct (CL (i_path k)) as [(y & ky & A1 & A2 & A3 & A4)|[A1 [[(y & ky & B1 & B2 & B3) _]|[_ B]]]].
      * exfalso. pose proof (repath_under o d _ (UM y ky A1 A2)) as V. rewrite <- A3 in V. pose proof (d_free x k Hx V). congruence.
      * exfalso. pose proof (UM y ky B1 B2). congruence.
      * rewrite B. apply (W_live _ _ _ _ _ W x k Hx). discriminate.
  - intros y h E. destruct (CL y) as [(x & k & A1 & A2 & A3 & A4)|[A1 [[_ B]|[B1 B]]]].
    + exists x, k. split; [exact A2|]. split; [rewrite A3; apply newpath_in; eapply UM; eassumption|congruence].
    + congruence.
    + rewrite B in E. destruct (W_path _ _ _ _ _ W y h E) as (x & k & D1 & D2 & D3 & _). exists x, k. split; [exact D1|]. split; [|exact D2].
      rewrite newpath_not; [exact D3|]. destruct (under o (i_path k)) eqn:U; [|reflexivity]. exfalso. apply (B1 x k); auto. eapply ALLIN; eassumption.
Qed.
Lemma wf_moved s' ch' L : tr (fun _ => true) ch p L -> moved s p q o d n s' -> T (s_heap s') ch' (eq r) -> WD s' ->
  (forall y, s_paths s' y = pvis o d (s_heap s) L (s_paths s) y) -> WF C s' ch' r None.
Proof.
  intros HL MV TT HWD HP. destruct (paths_moved L HL) as [P1 P2]. destruct MV.
  assert (BW : forall x k', s_heap s' x = Some k' -> exists k, s_heap s x = Some k /\ i_handle k' = i_handle k /\ i_puoid k' = i_puoid k /\ i_path k' = newpath o d (i_path k) /\ (x <> p -> i_parent k' = i_parent k /\ i_info k' = i_info k)).
  { intros x k' Hx. destruct (s_heap s x) as [k|] eqn:E; [|rewrite (M_none0 x E) in Hx; discriminate]. destruct (M_items0 x k E) as (k2 & A & B). rewrite Hx in A. injection A as <-. eauto. }
  constructor; rewrite ?M_fresh0, ?M_root0, ?M_handles0.
  - exact TT.
  - intros x k' Hx. destruct (BW x k' Hx) as (k & A & _). eapply (W_bd _ _ _ _ _ W); exact A.
  - apply (W_nd _ _ _ _ _ W).
  - intros h v Hv. destruct (W_h _ _ _ _ _ W h v Hv) as (x & k & A1 & A2 & A3 & _). destruct (M_items0 x k A2) as (k' & B1 & B2 & _). exists x, k'. split; [exact A1|]. split; [exact B1|]. split; [congruence|discriminate].
  - intros x k' Hx _. destruct (BW x k' Hx) as (k & A1 & A2 & A3 & A4 & _). rewrite A2, A4. split; [apply (W_live _ _ _ _ _ W x k A1); discriminate|]. rewrite HP. eapply P1; exact A1.
  - intros y h. rewrite HP. intros E. destruct (P2 y h E) as (x & k & A1 & A2 & A3). destruct (M_items0 x k A1) as (k' & B1 & B2 & B3 & B4 & _). exists x, k'. split; [exact B1|]. split; [congruence|]. split; [congruence|discriminate].
  - intros x k' Hx. destruct (N.eq_dec x p) as [->|Nx].
    + destruct M_item0 as (k2 & j2 & oi & A1 & A2 & A3 & A4 & A5 & A6). rewrite Hx in A1. injection A1 as <-. rewrite Hq in A2. injection A2 as <-. exists oi. split; [exact A4|].
      intros q' jq E1 E2. rewrite A3 in E1. injection E1 as <-. destruct (M_items0 q j Hq) as (j' & B1 & B2 & _ & B4 & _). rewrite E2 in B1. injection B1 as <-.
      rewrite A5. split; [exact Pn|]. split; [|congruence]. rewrite B4. rewrite newpath_not by exact Nu.
      destruct (BW p k' Hx) as (k & D1 & _ & _ & D4 & _). rewrite Hp in D1. injection D1 as <-. rewrite D4. unfold newpath. fold o. rewrite under_refl. apply repath_self.
    + destruct (BW x k' Hx) as (k & A1 & A2 & A3 & A4 & A5). destruct (A5 Nx) as [A6 A7]. destruct (W_info _ _ _ _ _ W x k A1) as (oi & B1 & B2). exists oi. split; [congruence|].
      intros y ky' E1 E2. rewrite A6 in E1. destruct (BW y ky' E2) as (ky & D1 & D2 & _ & D4 & _). destruct (B2 y ky E1 D1) as (F1 & F2 & F3). split; [exact F1|]. split; [|congruence].
      rewrite A4, D4, F2. destruct (under o (i_path ky)) eqn:U.
      * rewrite (newpath_in (i_path ky) U). rewrite newpath_in by (apply under_join; exact U). apply repath_join. exact U.
      * rewrite (newpath_not (i_path ky) U). apply newpath_not. destruct (under o (join (i_path ky) (oi_name oi))) eqn:V; [|reflexivity]. exfalso.
        apply under_join_inv in V as [V|V]; [|congruence|apply F1]. apply Nx. eapply (wf_path_uniq _ _ _ _ _ W); [exact A1|exact Hp|discriminate|discriminate|]. unfold o in V. congruence.
  - destruct (W_root _ _ _ _ _ W) as (ri & A1 & A2 & A3 & A4). destruct (M_items0 r ri A1) as (r' & B1 & B2 & _ & B4 & B5). exists r'. split; [exact B1|]. destruct (B5 ltac:(congruence)) as [B6 _].
    split; [congruence|]. split; [|congruence]. rewrite B4, A3. apply newpath_not. destruct (under o (c_root C)) eqn:U; [|reflexivity]. exfalso. apply Nr.
    eapply (wf_path_uniq _ _ _ _ _ W); [exact Hp|exact A1|discriminate|discriminate|]. rewrite A3. symmetry. apply under_len_eq; [exact U|]. apply under_len. eapply wf_under_root; eassumption.
  - intros x k' Hx Nx. destruct (BW x k' Hx) as (k & A1 & A2 & _). destruct (W_sup _ _ _ _ _ W x k A1 Nx) as (t & B1 & B2). exists t. split; [lia|congruence].
  - exact HWD.
  - apply (W_rt _ _ _ _ _ W).
Qed.
End Moved.
