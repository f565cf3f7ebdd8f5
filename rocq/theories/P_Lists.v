(** C43: linking and unlinking children, in any order. *)
From Verif Require Import Base AList Wire FS FSPath FSTree.

(** ** Specification *)
Inductive lop := Link (c p : ptr) | Unlink (c : ptr).
(** the children of every folder, newest first *)
Notation lists := (ptr -> list ptr).
Definition spec_do (L : lists) (o : lop) : lists :=
  match o with
  | Link c p => fun x => if x =? p then c :: L p else L x
  | Unlink c => fun x => remove N.eq_dec c (L x)
  end.
Definition spec_run (ops : list lop) (L : lists) : lists := fold_left spec_do ops L.
(** only what is nobody's child is linked, not to itself; only a child is unlinked *)
Definition sensible (live : ptr -> Prop) (L : lists) (o : lop) : Prop :=
  match o with
  | Link c p => live c /\ live p /\ c <> p /\ forall x, ~ In c (L x)
  | Unlink c => exists p, In c (L p)
  end.
Fixpoint all_sensible (live : ptr -> Prop) (L : lists) (ops : list lop) : Prop :=
  match ops with [] => True | o :: r => sensible live L o /\ all_sensible live (spec_do L o) r end.
(** following the next-sibling pointers from [o] gives [l] and then ends *)
Inductive follows (s : fs) : option ptr -> list ptr -> Prop :=
| follows_end : follows s None []
| follows_next p i l : s_heap s p = Some i -> follows s (i_next i) l -> follows s (Some p) (p :: l).
(** the program *)
Definition do_lop (o : lop) : M unit :=
  match o with Link c p => link_child (Some c) (Some p) | Unlink c => unlink_child c end.
Fixpoint do_all (ops : list lop) : M unit := match ops with [] => ret tt | o :: r => do_lop o ;;; do_all r end.
(** no item has children yet, and all of them have been allocated *)
Definition unlinked_items (s : fs) : Prop := forall p i, s_heap s p = Some i -> i_first i = None /\ i_next i = None /\ p < s_fresh s.
Definition live (s : fs) (p : ptr) : Prop := exists i, s_heap s p = Some i.

(** ** Proof *)
Record inv (s : fs) (L : lists) (R : ptr -> Prop) : Prop := {
  v_T : T (s_heap s) L R;
  v_b : bounded (s_heap s) (s_fresh s);
  v_R : forall c, R c <-> live s c /\ forall x, ~ In c (L x);
  v_n : forall c i, R c -> s_heap s c = Some i -> i_next i = None;
  v_l : forall x c, In c (L x) -> live s x /\ x <> c }.
Lemma inv_start s : unlinked_items s -> inv s (fun _ => []) (live s).
Proof.
  intros U. split.
  - split.
    + intros p i E. exact (proj1 (U p i E)).
    + intros p i E N. exfalso. apply N. exists i. exact E.
    + intros q j c _ [].
    + intros; constructor.
  - intros p i E. exact (proj2 (proj2 (U p i E))).
  - intros c. split; [intros H; split; [exact H|intros x []]|intros [H _]; exact H].
  - intros c i _ E. exact (proj1 (proj2 (U c i E))).
  - intros x c [].
Qed.
Lemma T_iff H ch ch' R R' : T H ch R -> (forall x, ch x = ch' x) -> (forall x i, H x = Some i -> (R x <-> R' x)) -> T H ch' R'.
Proof.
  intros [A B C D] E F. split.
  - intros p i Hp. rewrite <- E. eauto.
  - intros p i Hp N. destruct (B p i Hp) as (q & j & X & Y & Z); [rewrite (F p i Hp); exact N|]. exists q, j. rewrite <- E. auto.
  - intros q j c Hq Hc. rewrite <- E in Hc. destruct (C q j c Hq Hc) as (i & X & Y & Z). exists i. rewrite <- (F c i X). auto.
  - intros q j Hq. rewrite <- E. eauto.
Qed.
Lemma remove_split (c : N) l1 l2 : ~ In c (l1 ++ l2) -> remove N.eq_dec c (l1 ++ c :: l2) = l1 ++ l2.
Proof.
  intros N. rewrite remove_app. cbn [remove]. destruct (N.eq_dec c c) as [_|X]; [|congruence].
  rewrite !notin_remove; [reflexivity| |]; intros X; apply N; apply in_or_app; auto.
Qed.
Lemma find_pred_is c : forall f o s r s', find_pred f o c s = Ret (Some r, s') -> s' = s /\ exists i, s_heap s r = Some i /\ i_next i = Some c.
Proof.
  induction f as [|f IH]; intros o s r s'; cbn [find_pred]; destruct o as [p|]; unfold bind, ret, deref; try discriminate.
  - destruct (s_heap s p) as [i|] eqn:Hp; [|discriminate]. destruct (opt_eqb (i_next i) (Some c)) eqn:Q; [|discriminate].
    intros E. apply Ret_inj in E. injection E as <- <-. split; [reflexivity|]. exists i. split; [exact Hp|]. destruct (i_next i) as [n|]; cbn in Q; [f_equal; lia|discriminate].
  - destruct (s_heap s p) as [i|] eqn:Hp; [|discriminate]. destruct (opt_eqb (i_next i) (Some c)) eqn:Q; [|apply IH].
    intros E. apply Ret_inj in E. injection E as <- <-. split; [reflexivity|]. exists i. split; [exact Hp|]. destruct (i_next i) as [n|]; cbn in Q; [f_equal; lia|discriminate].
Qed.
Lemma find_pred_same c : forall f o s r s', find_pred f o c s = Ret (r, s') -> s' = s.
Proof.
  induction f as [|f IH]; intros o s r s'; cbn [find_pred]; destruct o as [p|]; unfold bind, ret, deref; try discriminate.
  - destruct (s_heap s p) as [i|]; [|discriminate]. destruct (opt_eqb _ _); [|discriminate]. intros E. apply Ret_inj in E. congruence.
  - intros E. apply Ret_inj in E. congruence.
  - destruct (s_heap s p) as [i|]; [|discriminate]. destruct (opt_eqb _ _); [|apply IH]. intros E. apply Ret_inj in E. congruence.
  - intros E. apply Ret_inj in E. congruence.
Qed.
Lemma modify_next p f s s' x i i' : modify p f s = Ret (tt, s') -> s_heap s x = Some i -> s_heap s' x = Some i' -> (x = p -> i_next (f i) = i_next i) -> i_next i' = i_next i.
Proof.
  unfold modify. destruct (s_heap s p) as [j|] eqn:Hp; [|discriminate]. intros E Hx Hx' K. apply Ret_inj in E. injection E as <-. cbn [s_heap set_heap] in Hx'.
  unfold nupd in Hx'. destruct (x =? p) eqn:X; [|congruence]. assert (x = p) by lia. subst x. rewrite Hp in Hx. injection Hx as <-. injection Hx' as <-. auto.
Qed.
Lemma modify_live p f s s' x i : modify p f s = Ret (tt, s') -> s_heap s x = Some i -> exists i', s_heap s' x = Some i'.
Proof.
  unfold modify. destruct (s_heap s p) as [j|] eqn:Hp; [|discriminate]. intros E Hx. apply Ret_inj in E. injection E as <-. cbn [s_heap set_heap].
  unfold nupd. destruct (x =? p); eauto.
Qed.
Lemma unlink_next c s s' x i i' : unlink_child c s = Ret (tt, s') -> x <> c -> s_heap s x = Some i -> i_next i <> Some c -> s_heap s' x = Some i' -> i_next i' = i_next i.
Proof.
  intros E Nx Hx Nn Hx'. unfold unlink_child, bind at 1, deref in E. destruct (s_heap s c) as [ci|] eqn:Hc; [|discriminate].
  destruct (i_parent ci) as [par|]; [|apply Ret_inj in E; congruence].
  unfold bind at 1, deref in E. destruct (s_heap s par) as [pi|] eqn:Hp; [|discriminate]. unfold bind at 1 in E.
  destruct (opt_eqb (i_first pi) (Some c)).
  - destruct (modify par (it_first (i_next ci)) s) as [[[] s1]| |] eqn:E1; [|discriminate..].
    destruct (modify_live _ _ _ _ _ _ E1 Hx) as (i1 & H1).
    rewrite (modify_next _ _ _ _ _ _ _ E H1 Hx'); [|congruence]. apply (modify_next _ _ _ _ _ _ _ E1 Hx H1). reflexivity.
  - unfold bind at 1, get in E. unfold bind at 1 in E.
    destruct (find_pred (N.to_nat (s_fresh s)) (i_first pi) c s) as [[[q|] s0]| |] eqn:EF; [| |discriminate..].
    + apply find_pred_is in EF as (-> & qi & Hq & Hn).
      destruct (modify q (it_next (i_next ci)) s) as [[[] s1]| |] eqn:E1; [|discriminate..].
      destruct (modify_live _ _ _ _ _ _ E1 Hx) as (i1 & H1).
      rewrite (modify_next _ _ _ _ _ _ _ E H1 Hx'); [|congruence]. apply (modify_next _ _ _ _ _ _ _ E1 Hx H1). intros ->. congruence.
    + apply find_pred_same in EF. subst s0. unfold ret in E.
      apply (modify_next _ _ _ _ _ _ _ E Hx Hx'). congruence.
Qed.
Lemma lop_step s L R o : inv s L R -> sensible (live s) L o ->
  exists s' R', do_lop o s = Ret (tt, s') /\ inv s' (spec_do L o) R' /\ (forall x, live s' x <-> live s x).
Proof.
  intros [VT VB VR VN VL] SE. destruct o as [c p|c]; cbn [sensible do_lop spec_do] in *.
  - destruct SE as ((ci & Hc) & (pi & Hp) & Hne & Hno).
    assert (Rc : R c) by (apply VR; split; [exists ci; exact Hc|exact Hno]).
    destruct (link_exec c p s ci pi Hc Hp Hne (VN c ci Rc Hc)) as (H' & E & EH).
    exists (set_heap H' s), (fun x => R x /\ x <> c). split; [exact E|].
    assert (HL : forall x, (exists i, H' x = Some i) <-> live s x).
    { intros x. rewrite EH. unfold linked, nupd, live. destruct (x =? c) eqn:X; [|destruct (x =? p) eqn:Y]; [| |tauto].
      - replace x with c by lia. split; intros _; eauto.
      - replace x with p by lia. split; intros _; eauto. }
    split; [|exact HL]. split; cbn [s_heap set_heap s_fresh].
    + eapply T_iff; [exact (link_T _ H' _ _ _ _ _ _ VT Hc Hp Hne Rc EH)| |].
      * intros x. unfold nupd. destruct (x =? p); reflexivity.
      * intros x i _. reflexivity.
    + intros x i Hx. destruct (proj1 (HL x) (ex_intro _ i Hx)) as (j & Hj). exact (VB x j Hj).
    + intros x. change (live (set_heap H' s) x) with (exists i, H' x = Some i). rewrite HL. rewrite VR. split.
      * intros [[A B] D]. split; [exact A|]. intros y. destruct (y =? p); [|apply B]. intros [->|X]; [congruence|exact (B _ X)].
      * intros [A B]. split; [split; [exact A|]|].
        -- intros y. specialize (B y). destruct (y =? p) eqn:Y; [|exact B]. replace y with p by lia. intros X. apply B. right. exact X.
        -- intros ->. apply (B p). rewrite N.eqb_refl. left. reflexivity.
    + intros x i [A B] Hx. rewrite EH in Hx. unfold linked, nupd in Hx. destruct (x =? c) eqn:X; [lia|]. destruct (x =? p) eqn:Y.
      * apply (f_equal (fun o => match o with Some i => i_next i | None => None end)) in Hx. cbn [i_next it_first] in Hx. rewrite <- Hx. replace x with p in A by lia. exact (VN p pi A Hp).
      * exact (VN x i A Hx).
    + intros x y. change (live (set_heap H' s) x) with (exists i, H' x = Some i). rewrite HL. destruct (x =? p) eqn:X; [|apply VL].
      replace x with p by lia. intros [<-|Y]; [split; [exists pi; exact Hp|congruence]|apply VL; exact Y].
  - destruct SE as (p & Hin). destruct (VL p c Hin) as ((pi & Hp) & Hne).
    destruct (T_ch _ _ _ VT p pi c Hp Hin) as (ci & Hc & Hpar & HR).
    destruct (unlink_exec L R c s ci VT VB Hc HR) as (H' & par & l1 & l2 & E & E1 & E2 & HLK & E3 & E4 & HT'); [congruence|].
    assert (par = p) by congruence. subst par.
    pose proof (T_nd _ _ _ VT p pi Hp) as ND. rewrite E2 in ND. pose proof (NoDup_remove_2 _ _ _ ND) as NI.
    assert (UN : forall x, x <> p -> ~ In c (L x)).
    { intros x Nx X. destruct (VL x c X) as ((xi & Hx) & _). destruct (T_ch _ _ _ VT x xi c Hx X) as (i & A & B & _). congruence. }
    assert (EQ : forall x, nupd L p (l1 ++ l2) x = remove N.eq_dec c (L x)).
    { intros x. unfold nupd. destruct (x =? p) eqn:X; [replace x with p by lia; rewrite E2; symmetry; apply remove_split; exact NI|]. symmetry. apply notin_remove. apply UN. lia. }
    assert (HL : forall x, (exists i, H' x = Some i) <-> live s x).
    { intros x. split; intros (i & Hx); [destruct (hlk_bwd _ _ _ _ HLK Hx) as (j & Hj & _)|destruct (hlk_fwd _ _ _ _ HLK Hx) as (j & Hj & _)]; exists j; exact Hj. }
    exists (set_heap H' s), (fun x => R x \/ x = c). split; [exact E|]. split; [|exact HL]. split; cbn [s_heap set_heap s_fresh].
    + eapply T_iff; [exact HT'|exact EQ|intros; reflexivity].
    + intros x i Hx. destruct (proj1 (HL x) (ex_intro _ i Hx)) as (j & Hj). exact (VB x j Hj).
    + intros x. change (live (set_heap H' s) x) with (exists i, H' x = Some i). rewrite HL. rewrite VR. split.
      * intros [[A B]| ->]; [split; [exact A|]; intros y X; apply in_remove in X; exact (B y (proj1 X))|].
        split; [exists ci; exact Hc|]. intros y. apply remove_In.
      * intros [A B]. destruct (N.eq_dec x c) as [->|Nx]; [right; reflexivity|left]. split; [exact A|]. intros y X. apply (B y). apply in_in_remove; [exact Nx|exact X].
    + intros x i HRx Hx. destruct (N.eq_dec x c) as [->|Nx].
      * rewrite E3 in Hx. apply (f_equal (fun o => match o with Some i => i_next i | None => None end)) in Hx. symmetry. exact Hx.
      * destruct HRx as [HRx|HRx]; [|contradiction]. destruct (N.eq_dec x p) as [->|Np].
        2:{ rewrite E4 in Hx; [exact (VN x i HRx Hx)|exact Np|]. intros X. destruct (T_ch _ _ _ VT p pi x Hp X) as (? & _ & _ & Z). contradiction. }
        pose proof (VN p pi HRx Hp) as NN.
        rewrite (unlink_next c s (set_heap H' s) p pi i E Nx Hp); [exact NN|congruence|exact Hx].
    + intros x y. change (live (set_heap H' s) x) with (exists i, H' x = Some i). rewrite HL. intros X. apply in_remove in X. apply VL. exact (proj1 X).
Qed.
Lemma live_iff (f g : ptr -> Prop) : (forall x, f x <-> g x) -> forall ops L, all_sensible f L ops -> all_sensible g L ops.
Proof.
  intros E. induction ops as [|o r IH]; intros L; [auto|]. intros [A B]. split; [|apply IH; exact B].
  destruct o as [c p|c]; [|exact A]. cbn [sensible] in *. rewrite <- !E. exact A.
Qed.
Lemma lops_run : forall ops s L R, inv s L R -> all_sensible (live s) L ops ->
  exists s' R', do_all ops s = Ret (tt, s') /\ inv s' (spec_run ops L) R'.
Proof.
  induction ops as [|o r IH]; intros s L R V SE; [exists s, R; auto|]. destruct SE as [S1 S2].
  destruct (lop_step s L R o V S1) as (s1 & R1 & E & V1 & LV). cbn [do_all]. unfold bind. rewrite E.
  apply (IH s1 _ R1 V1). revert S2. apply live_iff. intros x. rewrite LV. reflexivity.
Qed.
Lemma seg_follows s : forall l o, seg (s_heap s) o l -> follows s o l.
Proof.
  induction l as [|q r IH]; intros o; cbn [seg]; [intros ->; constructor|]. intros [-> (i & Hi & Hr)]. econstructor; [exact Hi|apply IH; exact Hr].
Qed.

(** ** C43 *)
(** Whatever links and unlinks are done in whatever order: nothing crashes, and following
    the sibling pointers of every folder gives exactly its children, each once, and ends. *)
Theorem C43_sibling_lists : forall s ops, unlinked_items s -> all_sensible (live s) (fun _ => []) ops ->
  let L := spec_run ops (fun _ => []) in
  exists s', do_all ops s = Ret (tt, s') /\
    forall p i, s_heap s' p = Some i -> follows s' (i_first i) (L p) /\ NoDup (L p) /\
      forall c, In c (L p) -> exists ci, s_heap s' c = Some ci /\ i_parent ci = Some p.
Proof.
  intros s ops U SE L. destruct (lops_run ops s _ _ (inv_start s U) SE) as (s' & R & E & [VT _ _ _ _]). fold L in VT.
  exists s'. split; [exact E|]. intros p i Hp. split; [apply seg_follows; exact (T_seg _ _ _ VT p i Hp)|].
  split; [exact (T_nd _ _ _ VT p i Hp)|]. intros c Hc. destruct (T_ch _ _ _ VT p i c Hp Hc) as (ci & A & B & _). exists ci. auto.
Qed.
(** seven links and unlinks of six items *)
Definition pool : fs := set_fresh 6 (set_heap (fun p => if p <? 6 then Some (new_item [47]) else None) (fs_init (fun _ => None) [])).
Definition some_ops : list lop := [Link 1 0; Link 2 0; Link 3 0; Link 4 1; Unlink 2; Link 2 4; Unlink 1].
Example C43_example : unlinked_items pool /\ all_sensible (live pool) (fun _ => []) some_ops /\ spec_run some_ops (fun _ => []) 0 = [3].
Proof.
  assert (LV : forall p, p < 6 -> live pool p) by (intros p H; exists (new_item [47]); cbn; replace (p <? 6) with true by lia; reflexivity).
  split; [|split; [|reflexivity]].
  - intros p i. cbn [pool s_heap set_heap set_fresh s_fresh]. destruct (p <? 6) eqn:E; [|discriminate]. intros [= <-]. split; [reflexivity|]. split; [reflexivity|lia].
  - cbn [all_sensible some_ops sensible spec_do].
    assert (NO : forall (A B : list N) (x p c : N), ~ In c A -> ~ In c B -> ~ In c (if x =? p then A else B)) by (intros A B x p c HA HB; destruct (x =? p); assumption).
    repeat match goal with |- _ /\ _ => split end; try (apply LV; lia); try discriminate; try exact Logic.I.
    all: try (exists 0; vm_compute; auto; fail).
    all: intros x; try (destruct (x =? 0)); try (destruct (x =? 1)); vm_compute; intuition discriminate.
Qed.
Print Assumptions C43_sibling_lists.
