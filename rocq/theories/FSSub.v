(** Subtrees as lists, and the recursive walks over them: watches and path changes. *)
From Verif Require Import Base AList Wire FS FSPath FSTree FSLogic FSAdd FSAdd2 FSDel.

Section Tr.
Variables (A : ptr -> bool) (ch : ptr -> list ptr).
(** the items reached from [p] through items satisfying [A], in preorder *)
Inductive tr : ptr -> list ptr -> Prop :=
| tr_yes p L : A p = true -> trs (ch p) L -> tr p (p :: L)
| tr_no p : A p = false -> tr p []
with trs : list ptr -> list ptr -> Prop :=
| trs_nil : trs [] []
| trs_cons q l L1 L2 : tr q L1 -> trs l L2 -> trs (q :: l) (L1 ++ L2).
End Tr.
Scheme tr_min := Minimality for tr Sort Prop with trs_min := Minimality for trs Sort Prop.
Combined Scheme tr_mut from tr_min, trs_min.

Lemma tr_det A ch : (forall p L, tr A ch p L -> forall L', tr A ch p L' -> L = L') /\ (forall l L, trs A ch l L -> forall L', trs A ch l L' -> L = L').
Proof.
  apply tr_mut.
  - intros p L Hp _ IH L' H'. inversion H'; subst; [f_equal; apply IH; assumption|congruence].
  - intros p Hp L' H'. inversion H'; subst; [congruence|reflexivity].
  - intros L' H'. inversion H'; subst. reflexivity.
  - intros q l L1 L2 _ IH1 _ IH2 L' H'. inversion H'; subst. f_equal; auto.
Qed.
Lemma tr_ext A A' ch ch' : (forall x, A x = A' x) ->
  (forall p L, tr A ch p L -> (forall x, In x L -> ch' x = ch x) -> tr A' ch' p L) /\
  (forall l L, trs A ch l L -> (forall x, In x L -> ch' x = ch x) -> trs A' ch' l L).
Proof.
  intros HA. apply tr_mut.
  - intros p L Hp _ IH Hc. apply tr_yes; [rewrite <- HA; exact Hp|]. rewrite Hc by (left; reflexivity). apply IH. intros x Hx. apply Hc. right. exact Hx.
  - intros p Hp _. apply tr_no. rewrite <- HA. exact Hp.
  - intros _. apply trs_nil.
  - intros q l L1 L2 _ IH1 _ IH2 Hc. apply trs_cons; [apply IH1|apply IH2]; intros x Hx; apply Hc; apply in_or_app; auto.
Qed.

Section TrWF.
Variables (C : conf) (s : fs) (ch : ptr -> list ptr) (r : ptr) (W : WF C s ch r None).
Definition at_under (p : ptr) (x : ptr) : Prop := exists i j, s_heap s p = Some i /\ s_heap s x = Some j /\ under (i_path i) (i_path j) = true.
Lemma child_path q j c ci : s_heap s q = Some j -> In c (ch q) -> s_heap s c = Some ci -> exists n, plain n /\ i_path ci = join (i_path j) n.
Proof.
  intros Hq Hc Hci. destruct (wf_child _ _ _ _ _ W q j c Hq Hc) as (i & A1 & A2 & A3). rewrite Hci in A1. injection A1 as <-.
  destruct (W_info _ _ _ _ _ W c ci Hci) as (o & O1 & O2). destruct (O2 q j A2 Hq) as (O3 & O4 & _). eauto.
Qed.
Lemma sib_disjoint q j c c' ci ci' x : s_heap s q = Some j -> In c (ch q) -> In c' (ch q) -> s_heap s c = Some ci -> s_heap s c' = Some ci' -> c <> c' ->
  under (i_path ci) x = true -> under (i_path ci') x = true -> False.
Proof.
  intros Hq Hc Hc' Hci Hci' Ne U U'. destruct (child_path q j c ci Hq Hc Hci) as (n & Pn & En). destruct (child_path q j c' ci' Hq Hc' Hci') as (n' & Pn' & En').
  apply Ne. eapply (wf_path_uniq _ _ _ _ _ W); [exact Hci|exact Hci'|discriminate|discriminate|].
  destruct (under_comparable _ _ _ U U') as [V|V].
  - rewrite En' in V. apply under_join_inv in V as [V|V]; [congruence| |apply Pn']. apply under_len in V. rewrite En, len_join in V. lia.
  - rewrite En in V. apply under_join_inv in V as [V|V]; [congruence| |apply Pn]. apply under_len in V. rewrite En', len_join in V. lia.
Qed.
Lemma tr_facts A : (forall p L, tr A ch p L -> forall i, s_heap s p = Some i -> (forall x, In x L -> at_under p x) /\ NoDup L) /\
  (forall l L, trs A ch l L -> forall q j, s_heap s q = Some j -> (forall c, In c l -> In c (ch q)) -> NoDup l ->
     (forall x, In x L -> exists c, In c l /\ at_under c x) /\ NoDup L).
Proof.
  apply tr_mut.
  - intros p L Hp HL IH i Hi. destruct (IH p i Hi ltac:(auto) (T_nd _ _ _ (W_T _ _ _ _ _ W) p i Hi)) as [IH1 IH2]. split.
    + intros x [<-|Hx]; [exists i, i; auto using under_refl|]. destruct (IH1 x Hx) as (c & Hc & (ci & j & A1 & A2 & A3)).
      exists i, j. split; [exact Hi|]. split; [exact A2|]. destruct (child_path p i c ci Hi Hc A1) as (n & _ & En). eapply under_trans; [|exact A3]. rewrite En. apply under_join, under_refl.
    + constructor; [|exact IH2]. intros Hx. destruct (IH1 p Hx) as (c & Hc & (ci & j & A1 & A2 & A3)). rewrite Hi in A2. injection A2 as <-.
      destruct (child_path p i c ci Hi Hc A1) as (n & _ & En). apply under_len in A3. rewrite En, len_join in A3. lia.
  - intros p Hp i Hi. split; [intros x []|constructor].
  - intros q j Hq _ _. split; [intros x []|constructor].
  - intros c l L1 L2 H1 IH1 H2 IH2 q j Hq Hl ND. apply NoDup_cons_iff in ND as [Nc ND].
    destruct (wf_child _ _ _ _ _ W q j c Hq (Hl c (or_introl eq_refl))) as (ci & Hci & _).
    destruct (IH1 ci Hci) as [A1 A2]. destruct (IH2 q j Hq ltac:(intros; apply Hl; right; assumption) ND) as [B1 B2]. split.
    + intros x Hx. apply in_app_or in Hx as [Hx|Hx]; [exists c; split; [left; reflexivity|auto]|]. destruct (B1 x Hx) as (c' & D1 & D2). exists c'. split; [right; exact D1|exact D2].
    + clear - A1 A2 B1 B2 Hq Hl Nc W Hci. assert (DJ : forall x, In x L1 -> In x L2 -> False).
      { intros x X1 X2. destruct (A1 x X1) as (i1 & j1 & E1 & E2 & E3). destruct (B1 x X2) as (c' & Hc' & (i2 & j2 & F1 & F2 & F3)).
        rewrite E2 in F2. injection F2 as <-. eapply (sib_disjoint q j c c'); [exact Hq|apply Hl; left; reflexivity|apply Hl; right; exact Hc'|exact E1|exact F1| |exact E3|exact F3].
        intros ->. contradiction. }
      clear - A2 B2 DJ. induction L1 as [|a L1 IH]; [exact B2|]. apply NoDup_cons_iff in A2 as [Na A2]. cbn [app]. constructor.
      * intros Ha. apply in_app_or in Ha as [Ha|Ha]; [contradiction|]. eapply DJ; [left; reflexivity|exact Ha].
      * apply IH; [exact A2|]. intros x X1 X2. eapply DJ; [right; exact X1|exact X2].
Qed.
(** the full walk reaches everything below *)
Lemma tr_closed A : (forall p L, tr A ch p L -> (forall x, A x = true) -> In p L /\ forall y c, In y L -> In c (ch y) -> In c L) /\
  (forall l L, trs A ch l L -> (forall x, A x = true) -> (forall c, In c l -> In c L) /\ forall y c, In y L -> In c (ch y) -> In c L).
Proof.
  apply tr_mut.
  - intros p L Hp _ IH HA. destruct (IH HA) as [IH1 IH2]. split; [left; reflexivity|]. intros y c [<-|Hy] Hc; right; [apply IH1; exact Hc|eapply IH2; eassumption].
  - intros p Hp HA. rewrite HA in Hp. discriminate.
  - intros _. split; intros; contradiction.
  - intros q l L1 L2 _ IH1 _ IH2 HA. destruct (IH1 HA) as [A1 A2], (IH2 HA) as [B1 B2]. split.
    + intros c [<-|Hc]; apply in_or_app; auto.
    + intros y c Hy Hc. apply in_or_app. apply in_app_or in Hy as [Hy|Hy]; [left; eapply A2; eassumption|right; eapply B2; eassumption].
Qed.
Lemma tr_complete p i L : tr (fun _ => true) ch p L -> s_heap s p = Some i -> forall x j, s_heap s x = Some j -> under (i_path i) (i_path j) = true -> In x L.
Proof.
  intros HL Hp. destruct (proj1 (tr_closed _) p L HL ltac:(auto)) as [K1 K2].
  intros x j. remember (len (i_path j)) as n eqn:En. revert x j En. induction n as [n IH] using (well_founded_induction N.lt_wf_0). intros x j En Hx U.
  destruct (N.eq_dec x p) as [->|Nx]; [exact K1|].
  assert (Nr : x <> r).
  { intros ->. destruct (W_root _ _ _ _ _ W) as (ri & A & _ & B & _). rewrite Hx in A. injection A as <-.
    apply Nx. eapply (wf_path_uniq _ _ _ _ _ W); [exact Hx|exact Hp|discriminate|discriminate|]. apply under_len_eq; [exact U|]. rewrite B. apply under_len.
    eapply wf_under_root; eassumption. }
  destruct (wf_parent _ _ _ _ _ W x j Hx Nr) as (y & k & o & A1 & A2 & A3 & A4 & A5 & A6 & A7).
  assert (U' : under (i_path i) (i_path k) = true).
  { rewrite A6 in U. apply under_join_inv in U as [U|U]; [|exact U|apply A5]. exfalso. apply Nx. eapply (wf_path_uniq _ _ _ _ _ W); [exact Hx|exact Hp|discriminate|discriminate|congruence]. }
  eapply K2; [|exact A3]. eapply (IH (len (i_path k))); [|reflexivity|exact A2|exact U']. rewrite En. eapply wf_len; eassumption.
Qed.
(** an ancestor path of a live item is the path of a live item *)
Lemma anc_live d : under (c_root C) d = true -> forall x j, s_heap s x = Some j -> under d (i_path j) = true -> exists y k, s_heap s y = Some k /\ i_path k = d.
Proof.
  intros Hd x j. remember (len (i_path j)) as n eqn:En. revert x j En. induction n as [n IH] using (well_founded_induction N.lt_wf_0). intros x j En Hx U.
  destruct (N.eq_dec x r) as [->|Nr].
  - destruct (W_root _ _ _ _ _ W) as (ri & A & _ & B & _). rewrite Hx in A. injection A as <-. exists r, j. split; [exact Hx|].
    apply under_len_eq; [exact U|]. rewrite B. apply under_len. exact Hd.
  - destruct (wf_parent _ _ _ _ _ W x j Hx Nr) as (y & k & o & A1 & A2 & A3 & A4 & A5 & A6 & A7).
    rewrite A6 in U. apply under_join_inv in U as [U|U]; [exists x, j; split; [exact Hx|congruence]| |apply A5].
    eapply (IH (len (i_path k))); [|reflexivity|exact A2|exact U]. rewrite En. eapply wf_len; eassumption.
Qed.
End TrWF.

(** *** Running a command on every item of a list *)
Inductive runs (f : ptr -> M unit) : list ptr -> fs -> fs -> Prop :=
| runs_nil s : runs f [] s s
| runs_cons x L s s1 s2 : f x s = Ret (tt, s1) -> runs f L s1 s2 -> runs f (x :: L) s s2.
Lemma runs_app f L1 L2 a b c : runs f L1 a b -> runs f L2 b c -> runs f (L1 ++ L2) a c.
Proof. induction 1; intros H2; [exact H2|]. cbn [app]. econstructor; eauto. Qed.
Definition shape (H : heap) (ch : ptr -> list ptr) : Prop :=
  (forall p i, H p = Some i -> seg H (i_first i) (ch p)) /\ (forall q j c, H q = Some j -> In c (ch q) -> exists i, H c = Some i).
Lemma T_shape H ch R : T H ch R -> shape H ch.
Proof. intros HT. split; [apply (T_seg _ _ _ HT)|]. intros q j c Hq Hc. destruct (T_ch _ _ _ HT q j c Hq Hc) as (i & A & _). eauto. Qed.
Definition assocb (H : heap) (x : ptr) : bool := match H x with Some i => is_assoc i | None => false end.
Lemma hwd_assocb H H' x : hwd H H' -> assocb H' x = assocb H x.
Proof. intros X. specialize (X x). unfold assocb. destruct (H x), (H' x); try contradiction; auto. destruct X as [w ->]. reflexivity. Qed.
Lemma hwd_fwd H H' x i : hwd H H' -> H x = Some i -> exists w, H' x = Some (it_wd w i).
Proof. intros X Hx. specialize (X x). rewrite Hx in X. destruct (H' x); [|contradiction]. destruct X as [w ->]. eauto. Qed.
Lemma hwd_bwd H H' x i' : hwd H H' -> H' x = Some i' -> exists i w, H x = Some i /\ i' = it_wd w i.
Proof. intros X Hx. specialize (X x). rewrite Hx in X. destruct (H x); [|contradiction]. destruct X as [w ->]. eauto. Qed.
Lemma hwd_seg H H' o l : hwd H H' -> seg H o l -> seg H' o l.
Proof. intros X. apply seg_frame. intros q i _ Hq. destruct (hwd_fwd _ _ _ _ X Hq) as (w & A). eexists. split; [exact A|reflexivity]. Qed.
Lemma hwd_shape H H' ch : hwd H H' -> shape H ch -> shape H' ch.
Proof.
  intros X [S1 S2]. split.
  - intros p i' Hp. destruct (hwd_bwd _ _ _ _ X Hp) as (i & w & A & ->). apply (hwd_seg _ _ _ _ X). exact (S1 p i A).
  - intros q j' c Hq Hc. destruct (hwd_bwd _ _ _ _ X Hq) as (j & w & A & _). destruct (S2 q j c A Hc) as (i & B). destruct (hwd_fwd _ _ _ _ X B) as (w' & D). eauto.
Qed.
Definition watchful (f : ptr -> M unit) : Prop := forall x s i, s_heap s x = Some i -> exists s1, f x s = Ret (tt, s1) /\ hwd (s_heap s) (s_heap s1).
Lemma watch_rec_exec f ch A : watchful f -> forall fuel p s i, shape (s_heap s) ch -> s_heap s p = Some i -> (forall x, A x = assocb (s_heap s) x) ->
  match watch_rec fuel f p s with
  | Ret (_, s') => exists L, tr A ch p L /\ runs f L s s' /\ hwd (s_heap s) (s_heap s')
  | UB => False | Abort => True end.
Proof.
  intros Hf. induction fuel as [|fuel IH]; intros p s i SH Hp HA; [exact I|]. cbn [watch_rec]. unfold bind at 1. unfold deref at 1. rewrite Hp.
  assert (EA : A p = is_assoc i) by (rewrite HA; unfold assocb; rewrite Hp; reflexivity).
  destruct (is_assoc i) eqn:Ea.
  2:{ exists []. split; [apply tr_no; exact EA|]. split; [constructor|apply hwd_refl]. }
  destruct (Hf p s i Hp) as (s1 & E1 & X1). unfold bind at 1. rewrite E1. destruct (hwd_fwd _ _ _ _ X1 Hp) as (w & Hp1).
  unfold bind at 1. unfold deref at 1. rewrite Hp1. cbn [i_first it_wd].
  assert (LOOP : forall k l itr s2, seg (s_heap s2) itr l -> shape (s_heap s2) ch -> (forall x, A x = assocb (s_heap s2) x) ->
     match (fix loop (k : nat) (itr : option ptr) : M unit :=
         match itr with
         | None => ret tt
         | Some q => match k with
                     | O => give_up
                     | S k' => watch_rec fuel f q ;;; qi <- deref q ;; loop k' (i_next qi)
                     end
         end) k itr s2 with
     | Ret (_, s3) => exists L, trs A ch l L /\ runs f L s2 s3 /\ hwd (s_heap s2) (s_heap s3)
     | UB => False | Abort => True end).
  { induction k as [|k IHk]; intros l itr s2 SG S2 HA2; destruct l as [|q l]; cbn [seg] in SG.
    - rewrite SG. exists []. split; [constructor|]. split; [constructor|apply hwd_refl].
    - destruct SG as [-> _]. exact I.
    - rewrite SG. exists []. split; [constructor|]. split; [constructor|apply hwd_refl].
    - destruct SG as [-> (j & Hj & SG)]. unfold bind at 1. specialize (IH q s2 j S2 Hj HA2). destruct (watch_rec fuel f q s2) as [[[] s3]| |]; try exact IH.
      destruct IH as (L1 & T1 & R1 & X2). destruct (hwd_fwd _ _ _ _ X2 Hj) as (w2 & Hj3). unfold bind at 1. unfold deref at 1. rewrite Hj3. cbn [i_next it_wd].
      specialize (IHk l (i_next j) s3 (hwd_seg _ _ _ _ X2 SG) (hwd_shape _ _ _ X2 S2) ltac:(intros x; rewrite (hwd_assocb _ _ x X2); apply HA2)).
      match goal with |- match ?X with _ => _ end => destruct X as [[u s4]| |] end; try exact IHk. destruct IHk as (L2 & T2 & R2 & X3).
      exists (L1 ++ L2). split; [constructor; assumption|]. split; [eapply runs_app; eassumption|eapply hwd_trans; eassumption]. }
  specialize (LOOP fuel (ch p) (i_first i) s1 ltac:(apply (hwd_seg _ _ _ _ X1); apply (proj1 SH); exact Hp) (hwd_shape _ _ _ X1 SH) ltac:(intros x; rewrite (hwd_assocb _ _ x X1); apply HA)).
  match goal with |- match ?X with _ => _ end => destruct X as [[u s4]| |] end; try exact LOOP. destruct LOOP as (L & T2 & R2 & X3).
  exists (p :: L). split; [constructor; assumption|]. split; [econstructor; eassumption|eapply hwd_trans; eassumption].
Qed.

(** *** The watch table *)
(** watch entries belong to live folders; handles are unique *)
Definition WD (s : fs) : Prop := forall n h, s_wds s n = Some h -> exists p i, s_heap s p = Some i /\ i_handle i = h /\ i_wd i = Some n /\ is_assoc i = true.
Definition HU (H : heap) : Prop := forall x y i j, H x = Some i -> H y = Some j -> i_handle i = i_handle j -> x = y.
Lemma wf_HU C s ch r : WF C s ch r None -> HU (s_heap s).
Proof. intros W x y i j Hx Hy E. eapply (wf_uniq _ _ _ _ _ W); eauto; discriminate. Qed.
Lemma hwd_HU H H' : hwd H H' -> HU H -> HU H'.
Proof.
  intros X U x y i j Hx Hy E. destruct (hwd_bwd _ _ _ _ X Hx) as (i0 & w & A & ->). destruct (hwd_bwd _ _ _ _ X Hy) as (j0 & w' & B & ->). eapply U; eauto.
Qed.
Lemma remove_watch_x p s i : s_heap s p = Some i -> exists s', remove_watch p s = Ret (tt, s') /\ wsame s s' /\ s_heap s' = s_heap s /\
    (forall n h, s_wds s' n = Some h -> s_wds s n = Some h) /\ (WD s -> HU (s_heap s) -> ~ has_entry s' (i_handle i)).
Proof.
  intros Hp. unfold remove_watch. unfold bind at 1. unfold deref at 1. rewrite Hp.
  assert (Hsame : is_assoc i = false \/ i_wd i = None -> WD s -> HU (s_heap s) -> ~ has_entry s (i_handle i)).
  { intros D W U (n & Hh). destruct (W n _ Hh) as (x & j & B1 & B2 & B3 & B4). assert (x = p) by (eapply U; eauto). subst x.
    rewrite Hp in B1. injection B1 as <-. destruct D; congruence. }
  destruct (is_assoc i) eqn:Ea; [|exists s; split; [reflexivity|]; auto 10 using wsame_refl].
  destruct (i_wd i) as [n|] eqn:Ew; [|exists s; split; [reflexivity|]; auto 10 using wsame_refl].
  eexists. split; [reflexivity|].
  assert (Hd : forall m h, s_wds (set_wds (nupd (s_wds s) n None) s) m = Some h -> s_wds s m = Some h /\ m <> n).
  { intros m h. cbn. unfold nupd. destruct (m =? n) eqn:E; [discriminate|]. intros Hm. split; [exact Hm|lia]. }
  split; [|split; [reflexivity|split; [intros m h Hm; apply Hd; exact Hm|]]].
  - exists (s_heap s), (nupd (s_wds s) n None), (s_tick s). split; [destruct s; reflexivity|]. split; [apply hwd_refl|lia].
  - intros W U (m & Hm). apply Hd in Hm as [Hm Nm]. destruct (W m _ Hm) as (x & j & B1 & B2 & B3 & B4). assert (x = p) by (eapply U; eauto). subst x.
    rewrite Hp in B1. injection B1 as <-. congruence.
Qed.
Lemma add_watch_x C p s i : s_heap s p = Some i -> exists s', add_watch C p s = Ret (tt, s') /\ wsame s s' /\
    (forall n h, s_wds s' n = Some h -> s_wds s n = Some h \/ h = i_handle i) /\ (WD s -> HU (s_heap s) -> ~ has_entry s (i_handle i) -> WD s').
Proof.
  intros Hp. unfold add_watch. unfold bind at 1. unfold deref at 1. rewrite Hp. destruct (is_assoc i) eqn:Ea.
  2:{ exists s. split; [reflexivity|]. split; [apply wsame_refl|]. auto. }
  set (t := s_tick s). set (wd := if exists_at (i_path i) (s_nodes s) then c_wd C t else None).
  assert (EX : exists s', (bind (sys_add_watch C (i_path i)) (fun w' => modify p (it_wd w');;; match w' with Some n => upd (fun s => set_wds (nupd (s_wds s) n (Some (i_handle i))) s) | None => ret tt end)) s = Ret (tt, s')
      /\ s' = set_tick (S t) (set_wds (match wd with Some n => nupd (s_wds s) n (Some (i_handle i)) | None => s_wds s end) (set_heap (nupd (s_heap s) p (Some (it_wd (wd) i))) s))).
  { eexists. split; [|reflexivity]. unfold sys_add_watch. unfold bind at 1. unfold bind at 1. unfold tick at 1. unfold bind at 1. unfold get at 1. cbn [s_nodes set_tick]. unfold ret at 1. change (if exists_at (i_path i) (s_nodes s) then c_wd C (s_tick s) else None) with wd. unfold bind at 1. unfold modify at 1. cbn [s_heap set_tick]. rewrite Hp. destruct wd; reflexivity. }
  destruct EX as (s' & EX & Es'). exists s'. split; [exact EX|].
  assert (Hwd : forall n h, s_wds s' n = Some h -> s_wds s n = Some h \/ (wd = Some n /\ h = i_handle i)).
  { intros n h. rewrite Es'. cbn. destruct (wd) as [m|] eqn:Em; [|auto]. unfold nupd. destruct (n =? m) eqn:E; [|auto]. intros [= <-]. right. split; [f_equal; lia|reflexivity]. }
  assert (Hoth : forall x, x <> p -> s_heap s' x = s_heap s x) by (intros x Nx; rewrite Es'; cbn; apply nupd_neq; exact Nx).
  split; [|split].
  - rewrite Es'. eexists _, _, _. split; [reflexivity|]. split; [|unfold t; lia]. intros x. unfold nupd. destruct (x =? p) eqn:E.
    + replace x with p by lia. rewrite Hp. eauto.
    + destruct (s_heap s x) as [j|]; [|exact I]. exists (i_wd j). symmetry. apply it_wd_same.
  - intros n h Hh. destruct (Hwd n h Hh) as [A|[A ->]]; auto.
  - intros W U Hn n h Hh. destruct (Hwd n h Hh) as [A|[A ->]].
    + destruct (W n h A) as (x & j & B1 & B2 & B3 & B4). assert (Nx : x <> p).
      { intros ->. rewrite Hp in B1. injection B1 as <-. apply Hn. exists n. congruence. }
      exists x, j. rewrite Hoth by exact Nx. auto.
    + exists p, (it_wd (wd) i). split; [rewrite Es'; cbn; apply nupd_eq|]. auto.
Qed.
Lemma wsame_hwd s s' : wsame s s' -> hwd (s_heap s) (s_heap s').
Proof. intros (H & D & t & -> & A & _). exact A. Qed.
Lemma watchful_remove : watchful remove_watch.
Proof. intros x s i Hx. destruct (remove_watch_x x s i Hx) as (s' & E & WS & _). exists s'. split; [exact E|apply wsame_hwd; exact WS]. Qed.
Lemma watchful_add C : watchful (add_watch C).
Proof. intros x s i Hx. destruct (add_watch_x C x s i Hx) as (s' & E & WS & _). exists s'. split; [exact E|apply wsame_hwd; exact WS]. Qed.
Lemma runs_remove L s s' : runs remove_watch L s s' -> (forall x, In x L -> exists i, s_heap s x = Some i) ->
  wsame s s' /\ s_heap s' = s_heap s /\ (forall n h, s_wds s' n = Some h -> s_wds s n = Some h) /\
  (WD s -> HU (s_heap s) -> WD s' /\ forall x i, In x L -> s_heap s x = Some i -> ~ has_entry s' (i_handle i)).
Proof.
  induction 1 as [s|x L s s1 s2 E R IH]; intros HL.
  - split; [apply wsame_refl|]. split; [reflexivity|]. split; [auto|]. intros W U. split; [exact W|]. intros x i [].
  - destruct (HL x (or_introl eq_refl)) as (i & Hi). destruct (remove_watch_x x s i Hi) as (s1' & E' & WS & EH & D & NE). rewrite E in E'. injection E' as <-.
    destruct (IH ltac:(intros y Hy; rewrite EH; apply HL; right; exact Hy)) as (WS2 & EH2 & D2 & NE2).
    split; [eapply wsame_trans; eassumption|]. split; [congruence|]. split; [auto|]. intros W U.
    assert (W1 : WD s1). { intros n h Hn. rewrite EH. apply W. apply D. exact Hn. }
    destruct (NE2 W1 ltac:(rewrite EH; exact U)) as [W2 NE3]. split; [exact W2|]. intros y j [<-|Hy] Hj.
    + rewrite Hi in Hj. injection Hj as <-. intros (n & Hn). apply (NE W U). exists n. apply D2. exact Hn.
    + apply (NE3 y j Hy). rewrite EH. exact Hj.
Qed.
Lemma runs_add C L s s' : runs (add_watch C) L s s' -> NoDup L -> (forall x, In x L -> exists i, s_heap s x = Some i /\ ~ has_entry s (i_handle i)) ->
  WD s -> HU (s_heap s) -> wsame s s' /\ WD s' /\ (forall n h, s_wds s' n = Some h -> s_wds s n = Some h \/ exists x i, In x L /\ s_heap s x = Some i /\ h = i_handle i).
Proof.
  induction 1 as [s|x L s s1 s2 E R IH]; intros ND HL W U.
  - split; [apply wsame_refl|]. auto.
  - apply NoDup_cons_iff in ND as [Nx ND]. destruct (HL x (or_introl eq_refl)) as (i & Hi & Hn). destruct (add_watch_x C x s i Hi) as (s1' & E' & WS & D & W1). rewrite E in E'. injection E' as <-.
    specialize (W1 W U Hn). pose proof (wsame_hwd _ _ WS) as X.
    destruct (IH ND) as (WS2 & W2 & D2).
    + intros y Hy. destruct (HL y (or_intror Hy)) as (j & Hj & Nj). destruct (hwd_fwd _ _ _ _ X Hj) as (w & Hj1). exists (it_wd w j). split; [exact Hj1|]. cbn [i_handle it_wd].
      intros (n & A). destruct (D n _ A) as [B|B]; [apply Nj; exists n; exact B|]. assert (y = x) by (eapply U; eauto). subst y. contradiction.
    + exact W1.
    + eapply hwd_HU; eassumption.
    + split; [eapply wsame_trans; eassumption|]. split; [exact W2|]. intros n h Hh. destruct (D2 n h Hh) as [A|(y & j & A1 & A2 & A3)].
      * destruct (D n h A) as [B|B]; [auto|]. right. exists x, i. split; [left; reflexivity|]. auto.
      * right. destruct (hwd_bwd _ _ _ _ X A2) as (j0 & w & B & ->). exists y, j0. split; [right; exact A1|]. auto.
Qed.
