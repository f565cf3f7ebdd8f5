(** Copying: what CopyObject leaves alone, and that it keeps the storage consistent. *)
From Verif Require Import Base AList Wire FS FSPath FSTree FSLogic FSAdd FSAdd2 FSDel FSEv FSData FSData2 FSList FSFrame.

(** an object that is still the same object *)
Definition kept (i i' : item) : Prop :=
  i_handle i' = i_handle i /\ i_path i' = i_path i /\ i_parent i' = i_parent i /\ i_puoid i' = i_puoid i /\ i_info i' = i_info i.
Lemma kept_refl i : kept i i. Proof. repeat split. Qed.
Lemma kept_trans a b c : kept a b -> kept b c -> kept a c.
Proof. unfold kept. intuition congruence. Qed.
Lemma lk_kept i i' : lk i i' -> kept i i'.
Proof. intros L. apply lk_fields in L as (A1 & A2 & A3 & A4 & A5 & A6 & A7). repeat split; auto. Qed.
Lemma wd_kept i w : kept i (it_wd w i). Proof. destruct i; repeat split. Qed.

(** the effect of writing a copy to the path [D]; [full]: nothing was removed;
    [X]: the folder whose watch may have been renewed *)
Record cf (D : path) (X : option ptr) (full : bool) (s s' : fs) : Prop := {
  K_keep : forall x i, s_heap s x = Some i -> full = true \/ under D (i_path i) = false -> exists i', s_heap s' x = Some i' /\ kept i i';
  K_new : forall x i', s_heap s' x = Some i' -> (exists i, s_heap s x = Some i /\ kept i i') \/ (s_fresh s <= x /\ under D (i_path i') = true);
  K_fresh : s_fresh s <= s_fresh s';
  K_root : s_root s' = s_root s;
  K_tick : (s_tick s <= s_tick s')%nat;
  K_node : forall y, under D y = false -> node_at y (s_nodes s') = node_at y (s_nodes s) \/ (under y D = true /\ node_at y (s_nodes s) = None /\ node_at y (s_nodes s') = Some Dir);
  K_puoid : forall y u, s_puoids s y = Some u -> s_puoids s' y = Some u;
  K_wd : forall n x i, s_wds s' n = Some (i_handle i) -> s_heap s x = Some i -> X <> Some x -> under D (i_path i) = false -> s_wds s n = Some (i_handle i) }.
Lemma cf_refl D X f s : cf D X f s s.
Proof. constructor; auto; try lia; eauto using kept_refl. Qed.
Lemma cf_trans D X f a b c : cf D X f a b -> cf D X f b c -> cf D X f a c.
Proof.
  intros P Q. constructor.
  - intros x i Hx HU. destruct (K_keep _ _ _ _ _ P x i Hx HU) as (j & A & B). destruct (K_keep _ _ _ _ _ Q x j A) as (k & E & F); [destruct B as (_ & B & _); rewrite B; exact HU|]. exists k. split; [exact E|]. eapply kept_trans; eassumption.
  - intros x k Hx. destruct (K_new _ _ _ _ _ Q x k Hx) as [(j & A & B)|(A & B)].
    + destruct (K_new _ _ _ _ _ P x j A) as [(i & F & G)|(F & G)]; [left; exists i; split; [exact F|eapply kept_trans; eassumption]|]. right. split; [exact F|]. destruct B as (_ & B & _). congruence.
    + right. split; [|exact B]. pose proof (K_fresh _ _ _ _ _ P). lia.
  - pose proof (K_fresh _ _ _ _ _ P). pose proof (K_fresh _ _ _ _ _ Q). lia.
  - rewrite (K_root _ _ _ _ _ Q). apply (K_root _ _ _ _ _ P).
  - pose proof (K_tick _ _ _ _ _ P). pose proof (K_tick _ _ _ _ _ Q). lia.
  - intros y Hy. destruct (K_node _ _ _ _ _ Q y Hy) as [A|(A0 & A & B)]; destruct (K_node _ _ _ _ _ P y Hy) as [E|(E0 & E & F)]; [left; congruence|right; repeat split; congruence|right; repeat split; congruence|congruence].
  - intros y u Hu. apply (K_puoid _ _ _ _ _ Q), (K_puoid _ _ _ _ _ P). exact Hu.
  - intros n x i Hn Hx NX HU. destruct (K_keep _ _ _ _ _ P x i Hx (or_intror HU)) as (j & A & (B1 & B2 & _)). apply (K_wd _ _ _ _ _ P n x i); auto. rewrite <- B1 in Hn |- *. apply (K_wd _ _ _ _ _ Q n x j); auto. rewrite B2. exact HU.
Qed.

Lemma cf_down D X s s' : cf D X true s s' -> forall f, cf D X f s s'.
Proof. intros P f. destruct P. constructor; auto. Qed.
Lemma cf_X D X f s s' : cf D None f s s' -> cf D X f s s'.
Proof. intros P. destruct P. constructor; auto. intros. eapply K_wd0; eauto. discriminate. Qed.
(** a copy written below [D] *)
Lemma cf_below D D' X f s s' : cf D' X f s s' -> under D D' = true -> (forall x i, X = Some x -> s_heap s x = Some i -> under D (i_path i) = true) -> cf D None f s s'.
Proof.
  intros P U HX.
  assert (V : forall y, under D y = false -> under D' y = false).
  { intros y Hy. destruct (under D' y) eqn:E; [|reflexivity]. rewrite (under_trans _ _ _ U E) in Hy. discriminate. }
  destruct P. constructor; auto.
  - intros x i Hx [H|H]; eauto.
  - intros x i' Hx. destruct (K_new0 x i' Hx) as [A|[A B]]; [auto|]. right. split; [exact A|]. eapply under_trans; eassumption.
  - intros y Hy. destruct (K_node0 y (V y Hy)) as [A|(A & B)]; [auto|]. right. split; [|exact B]. destruct (under_comparable y D D' A U) as [E|E]; [exact E|congruence].
  - intros n x i H1 H2 _ H4. eapply K_wd0; eauto. intros E. rewrite (HX x i E H2) in H4. discriminate.
Qed.
(** the single steps *)
Lemma cf_wsame D X f s s' : wsame s s' -> (forall n x i, s_wds s' n = Some (i_handle i) -> s_heap s x = Some i -> X <> Some x -> s_wds s n = Some (i_handle i)) -> cf D X f s s'.
Proof.
  intros W HX. destruct (wsame_fields _ _ W) as (E1 & E2 & _ & _ & E5 & E6 & _ & _ & _ & _ & _ & E7). constructor; rewrite ?E1, ?E2, ?E5, ?E6; auto; try lia.
  - intros x i Hx _. destruct (wsame_fwd _ _ x i W Hx) as [w A]. eauto using wd_kept.
  - intros x i' Hx. destruct (wsame_bwd _ _ x i' W Hx) as (i & w & A & ->). left. eauto using wd_kept.
  - intros n x i A B F _. eapply HX; eauto.
Qed.
Lemma cf_fsame D X f s s' : fsame s s' -> (forall y, under D y = false -> node_at y (s_nodes s') = node_at y (s_nodes s)) -> cf D X f s s'.
Proof.
  intros F HN. apply fsame_fields in F as (A1 & A2 & A3 & A4 & A5 & A6 & A7 & A8 & _ & _ & A9). constructor; rewrite ?A1, ?A2, ?A3, ?A6, ?A7; auto; try lia; eauto using kept_refl.
Qed.
Lemma cf_shr D X s s' : shr D s s' -> cf D X false s s'.
Proof.
  intros S. constructor.
  - intros x i Hx [H|H]; [discriminate|]. destruct (s_heap s' x) as [i'|] eqn:E.
    + destruct (D_heap _ _ _ S x i' E) as (i0 & A & B). rewrite Hx in A. injection A as <-. eauto using lk_kept.
    + rewrite (D_gone _ _ _ S x i Hx E) in H. discriminate.
  - intros x i' Hx. destruct (D_heap _ _ _ S x i' Hx) as (i & A & B). left. eauto using lk_kept.
  - rewrite (D_fresh _ _ _ S). lia.
  - apply (D_root _ _ _ S).
  - apply (D_tick _ _ _ S).
  - intros y Hy. destruct (D_disk _ _ _ S y) as [A|[A _]]; [auto|congruence].
  - rewrite (D_puoids _ _ _ S). auto.
  - intros n x i A _ _ _. apply (D_wd _ _ _ S). exact A.
Qed.
Section Copy.
Variables (C : conf) (SO : supply_ok C) (r : ptr).

Lemma cf_add D X f s s' ch : WF C s ch r None -> ext s s' -> af D true s s' -> cf D X f s s'.
Proof.
  intros W E A. constructor.
  - intros x i Hx _. destruct (E_heap _ _ E x i Hx) as (i' & B1 & B2). eauto using lk_kept.
  - intros x i' Hx. destruct (s_heap s x) as [i|] eqn:Hs.
    + destruct (E_heap _ _ E x i Hs) as (i2 & B1 & B2). left. exists i. split; [reflexivity|]. rewrite Hx in B1. injection B1 as <-. apply lk_kept. exact B2.
    + right. split; [eapply (E_new _ _ E); eassumption|]. destruct (A_path _ _ _ _ _ A x i' Hx) as [(i & B & _)|B]; [congruence|exact B].
  - apply (E_fresh _ _ E).
  - apply (E_root _ _ E).
  - apply (E_tick _ _ E).
  - intros y Hy. destruct (A_node _ _ _ _ _ A y) as [B|(_ & [B|(B1 & B2 & B3)])]; [auto|unfold below in B; congruence|auto].
  - apply (A_puoid _ _ _ _ _ A).
  - intros n x i Hn Hx _ _. apply (E_wd _ _ E); [exact Hn|]. apply ahas_aget. destruct (W_live _ _ _ _ _ W x i Hx ltac:(discriminate)) as [B _]. eauto.
Qed.
(** addItem's frame *)
Lemma add_item_frame fuel info s ch q j res s' : WF C s ch r None -> s_heap s q = Some j -> i_handle j = oi_parent info -> oi_parent info <> ALL ->
  add_item C fuel info s = Ret (res, s') -> af (join (i_path j) (oi_name info)) true s s'.
Proof.
  intros W Hq Eh Na E. unfold add_item in E. cbv zeta in E. rewrite (proj2 (N.eqb_neq _ _) Na) in E. destruct (W_live _ _ _ _ _ W q j Hq ltac:(discriminate)) as [B _]. rewrite Eh in B.
  unfold bind at 1 in E. unfold has_handle, ahas in E. unfold get in E at 1. rewrite B in E. cbn [negb] in E. unfold bind at 1 in E. unfold handle_ref in E. rewrite B in E.
  unfold bind at 1 in E. unfold deref_opt in E. unfold deref in E at 1. rewrite Hq in E. unfold bind at 1 in E.
  destruct (add_to_storage C fuel (join (i_path j) (oi_name info)) (Some info) false true 0 s) as [[[rc om] s1]| |] eqn:E1; try discriminate.
  pose proof (add_frame C fuel _ _ _ _ _ s _ _ E1) as A. cbn [snd fst] in E. destruct om as [p|]; [|apply Ret_inj in E; injection E as <- <-; exact A].
  unfold bind at 1 in E. unfold deref in E at 1. destruct (s_heap s1 p) as [i|]; [|discriminate]. unfold bind at 1 in E. destruct (i_parent i) as [x|].
  - unfold bind at 1 in E. unfold deref in E. destruct (s_heap s1 x); [|discriminate]. unfold ret in E. apply Ret_inj in E. injection E as <- <-. exact A.
  - unfold ret in E. apply Ret_inj in E. injection E as <- <-. exact A.
Qed.
Lemma get_info_eq h s p i o : aget h (s_handles s) = Some (Some p) -> s_heap s p = Some i -> i_info i = Some o ->
  get_object_info C h s = Ret ((R_OK, Some o), set_heap (nupd (s_heap s) p (Some (it_events true i))) s).
Proof.
  intros Hh Hp Ho. unfold get_object_info, bind at 1, has_handle, get at 1, ahas. rewrite Hh. cbn [negb]. unfold bind at 1, handle_ref. rewrite Hh. unfold bind at 1, modify. rewrite Hp.
  unfold bind at 1, populate_info, bind at 1, deref. cbn [s_heap set_heap]. rewrite nupd_eq. cbn [i_info it_events]. rewrite Ho. unfold ret at 1. unfold bind at 1, deref. cbn [s_heap set_heap]. rewrite nupd_eq. unfold ret. cbn [i_info it_events]. rewrite Ho. reflexivity.
Qed.
Lemma cf_events D X f s p i : s_heap s p = Some i -> cf D X f s (set_heap (nupd (s_heap s) p (Some (it_events true i))) s).
Proof.
  intros Hp. constructor; cbn; auto; try lia.
  - intros x j Hx _. unfold nupd. destruct (x =? p) eqn:E; [|eauto using kept_refl]. apply N.eqb_eq in E as ->. rewrite Hp in Hx. injection Hx as <-. eexists. split; [reflexivity|]. repeat split.
  - intros x j. unfold nupd. destruct (x =? p) eqn:E; [|eauto using kept_refl]. apply N.eqb_eq in E as ->. intros [= <-]. left. exists i. split; [exact Hp|]. repeat split.
Qed.

(** ** copyData *)
(** [d0]: the destination before the copy, [d]: the source *)
Definition before_write (D : path) (off : N) (d0 : bytes) (d : bytes) (s : fs) : Prop :=
  if off =? 0 then node_at D (s_nodes s) = Some (File d0)
  else s_file s = Some (D, off) /\ node_at D (s_nodes s) = Some (File (wrote d0 0 (take off d))).

Theorem copy_loop_ok src dst dfuel : forall fuel off rem result s ch ps is pd id, WF C s ch r None -> s_root s = Some r ->
  aget src (s_handles s) = Some (Some ps) -> s_heap s ps = Some is -> aget dst (s_handles s) = Some (Some pd) -> s_heap s pd = Some id ->
  off + rem < 4294967296 ->
  (off = 0 \/ (exists d, s_file s = Some (i_path id, off) /\ node_at (i_path id) (s_nodes s) = Some (File d))) ->
  match copy_loop C fuel dfuel src dst off rem result s with
  | Ret (code, s') => (exists ch', WF C s' ch' r None) /\ cf (i_path id) None (isok code) s s' /\
      (code = R_OK -> result = R_OK /\ fsame s s' /\ (forall y, y <> i_path id -> node_at y (s_nodes s') = node_at y (s_nodes s)) /\ (rem = 0 -> s' = s) /\
         (rem <> 0 -> i_path is <> i_path id -> forall d d0, node_at (i_path is) (s_nodes s) = Some (File d) -> before_write (i_path id) off d0 d s ->
            off + rem <= len d /\ exists k cut, k <= rem /\ rem - k <= MAX_READ_LEN /\
              node_at (i_path id) (s_nodes s') = Some (File (take (off + k) d ++ if cut : bool then [] else drop (off + k) d0)) /\
              (no_failures C -> k = rem /\ cut = true)))
  | UB => False | Abort => True end.
Proof.
  induction fuel as [|fuel IH]; intros off rem result s ch ps is pd id W HR Hsrc Hps Hdst Hpd Hlt Hfile.
  { cbn [copy_loop]. destruct ((rem =? 0) || negb (isok result)) eqn:E0; [|exact I]. unfold ret. split; [eauto|]. split; [apply cf_refl|]. intros ->. cbn in E0. rewrite orb_false_r in E0. apply N.eqb_eq in E0.
    repeat split; auto using fsame_refl; contradiction. }
  cbn [copy_loop]. destruct ((rem =? 0) || negb (isok result)) eqn:E0.
  { unfold ret. split; [eauto|]. split; [apply cf_refl|]. intros ->. cbn in E0. rewrite orb_false_r in E0. apply N.eqb_eq in E0. repeat split; auto using fsame_refl; contradiction. }
  apply orb_false_iff in E0 as [E0 Er]. apply N.eqb_neq in E0. apply negb_false_iff, N.eqb_eq in Er. cbv zeta. set (n := N.min rem MAX_READ_LEN).
  assert (Hn : 0 < n /\ n <= rem /\ n <= MAX_READ_LEN) by (unfold n, MAX_READ_LEN; lia). assert (Hn2 : n < 0x80000000) by (unfold n, MAX_READ_LEN; lia).
  unfold bind at 1. destruct (read_data_ok C src n off s ch r W) as (rc & bs & s1 & R1 & R2 & R3 & _ & _). rewrite R1.
  unfold bind at 1. unfold tick at 1. set (s2 := set_tick _ s1).
  assert (T2 : tsame s s2) by (eapply tsame_trans; [exact R2|apply tsame_tick]).
  assert (F2 : fsame s s2) by (apply tsame_fsame; exact T2). pose proof (fsame_wf _ _ _ _ _ _ W F2) as W2.
  pose proof (fsame_fields _ _ F2) as (X1 & X2 & X3 & X4 & _).
  assert (N2 : s_nodes s2 = s_nodes s /\ s_file s2 = s_file s) by (destruct T2 as (t & -> & _); auto). destruct N2 as [N2 N3]. clearbody s2.
  assert (C2 : forall f, cf (i_path id) None f s s2) by (intros f; apply cf_fsame; [exact F2|intros; congruence]).
  destruct (c_cancel C (s_tick s1)).
  { unfold bind at 1. destruct (N.eq_dec dst ALL) as [Ea|Ea].
    { exfalso. destruct (wf_handle_ptr _ _ _ _ _ W dst _ Hdst) as (p' & i' & _ & A & B). apply (wf_notall _ SO _ _ _ _ W p' i' A). congruence. }
    unfold delete_item. rewrite (proj2 (N.eqb_neq _ _) Ea).
    pose proof (delete_helper_ok C r dfuel dst true false s2 ch W2 ltac:(congruence)) as DH. rewrite X4, Hdst in DH.
    destruct (delete_helper C dfuel dst true false s2) as [[c3 s3]| |]; try exact DH. destruct DH as (ch3 & W3 & DH). unfold ret. split; [eauto|]. split; [|discriminate].
    change (isok R_GeneralError) with false. eapply cf_trans; [apply C2|]. destruct (pd =? r).
    - destruct DH as [-> _]. apply cf_refl.
    - destruct DH as (i3 & A & _ & L). rewrite X1, Hpd in A. injection A as <-. apply cf_shr. apply (L_shr _ _ _ _ _ _ L). }
  cbn [fst snd]. destruct (isok rc) eqn:Erc; cbn [negb].
  2:{ pose proof (IH off rem rc s2 ch ps is pd id W2 ltac:(congruence) ltac:(congruence) ltac:(congruence) ltac:(congruence) ltac:(congruence) Hlt) as H.
      specialize (H ltac:(rewrite N2, N3; exact Hfile)). destruct (copy_loop C fuel dfuel src dst off rem rc s2) as [[c3 s3]| |]; try exact H.
      destruct H as (H1 & H2 & H3). split; [exact H1|]. split; [eapply cf_trans; [apply C2|exact H2]|]. intros K. destruct (H3 K) as [H4 _]. rewrite H4 in Erc. discriminate. }
  apply N.eqb_eq in Erc. destruct (R3 Erc) as (p' & i' & d' & Q1 & Q2 & Q3 & Q4 & Q5). rewrite Hsrc in Q1. injection Q1 as <-. rewrite Hps in Q2. injection Q2 as <-.
  (* the write *)
  assert (WR : exists c1 s3, write_data C dst (Some bs) (off =? 0) false s2 = Ret (c1, s3) /\ fsame s2 s3 /\ (forall x, x <> i_path id -> node_at x (s_nodes s3) = node_at x (s_nodes s2)) /\
     ((c1 <> R_OK /\ s_file s3 = None /\ s_nodes s3 = s_nodes s2 /\ off = 0) \/ exists dd k, k <= n /\ (c1 = R_OK -> k = n) /\ node_at (i_path id) (s_nodes s3) = Some (File dd) /\ s_file s3 = Some (i_path id, off + k) /\
         forall d0 d, before_write (i_path id) off d0 d s2 -> take n (drop off d) = bs -> len (take off d) = off -> dd = wrote d0 0 (take (off + k) d)) /\
     (no_failures C -> (off = 0 -> exists d0, node_at (i_path id) (s_nodes s2) = Some (File d0)) -> c1 = R_OK)).
  { assert (TT : forall k d, k <= n -> take n (drop off d) = bs -> take k bs = take k (drop off d)).
    { intros k d Hk <-. rewrite take_take. f_equal. lia. }
    destruct (off =? 0) eqn:Eo.
    - apply N.eqb_eq in Eo. subst off.
      destruct (write_first_ok C r dst bs false s2 ch pd id W2 ltac:(congruence) ltac:(congruence)) as (c1 & s3 & A1 & A2 & A3 & _ & _ & A4 & A5). exists c1, s3. split; [exact A1|]. split; [exact A2|]. split; [exact A3|].
      split; [|intros NF Hd; apply (A5 NF (Hd eq_refl)); lia]. destruct (A4 ltac:(lia)) as [(B1 & B2 & B3)|(d1 & k & B1 & B2 & B3 & B4 & B5)]; [left; auto|right].
      exists (wrote d1 0 (take k bs)), k. split; [lia|]. split; [intros K; rewrite (B3 K); exact Q5|]. split; [exact B5|]. split; [rewrite B4; do 2 f_equal; lia|]. intros d0 d BW Ed _. unfold before_write in BW. rewrite N.eqb_refl in BW.
      rewrite (TT k d) by (lia || exact Ed). rewrite N.add_0_l, drop_0. f_equal. destruct B1 as [B1|[B1 ->]]; congruence.
    - apply N.eqb_neq in Eo. destruct Hfile as [Hf|(d1 & Hf1 & Hf2)]; [contradiction|].
      destruct (write_next_ok C r dst bs false s2 ch pd id off d1 W2 ltac:(congruence) ltac:(congruence) ltac:(congruence) ltac:(congruence)) as (c1 & s3 & A1 & A2 & A3 & _ & _ & A4 & A5). exists c1, s3. split; [exact A1|]. split; [exact A2|]. split; [exact A3|].
      split; [|intros NF _; apply (A5 NF); lia]. right. destruct (A4 ltac:(lia)) as (k & B2 & B3 & B4 & B5). eexists _, k. split; [lia|]. split; [intros K; rewrite (B3 K); exact Q5|]. split; [exact B5|]. split; [exact B4|].
      intros d0 d BW Ed El. unfold before_write in BW. rewrite (proj2 (N.eqb_neq _ _) Eo) in BW. destruct BW as [_ BW].
      rewrite N2, Hf2 in BW. injection BW as ->. rewrite <- El at 2. rewrite <- (N.add_0_l (len _)). rewrite wrote_app. f_equal. rewrite take_add. f_equal. apply TT; [lia|exact Ed]. }
  destruct WR as (c1 & s3 & A1 & A2 & A3 & A4 & A5). unfold bind at 1. rewrite A1.
  assert (F3 : fsame s s3) by (exact (fsame_trans _ _ _ F2 A2)). pose proof (fsame_wf _ _ _ _ _ _ W F3) as W3. pose proof (fsame_fields _ _ F3) as (Y1 & Y2 & Y3 & Y4 & _).
  assert (C3 : forall f, cf (i_path id) None f s s3).
  { intros f. apply cf_fsame; [exact F3|]. intros y Hy. rewrite A3, N2; [reflexivity|]. intros ->. rewrite under_refl in Hy. discriminate. }
  replace (u32 (off + n)) with (off + n) by (unfold u32; symmetry; apply N.mod_small; lia).
  assert (LE : forall d, node_at (i_path is) (s_nodes s) = Some (File d) -> d' = d /\ off + n <= len d /\ len (take off d) = off).
  { intros d Hd. assert (d' = d) as -> by congruence. split; [reflexivity|]. rewrite Q4, len_take, len_drop in Q5. rewrite len_take. lia. }
  assert (NF1 : no_failures C -> forall d0 d, before_write (i_path id) off d0 d s -> c1 = R_OK).
  { intros NF d0 d HB. apply (A5 NF). intros ->. unfold before_write in HB. rewrite N.eqb_refl in HB. rewrite N2. eauto. }
  assert (BW2 : forall d0 d, before_write (i_path id) off d0 d s -> before_write (i_path id) off d0 d s2) by (intros d0 d; unfold before_write; rewrite N2, N3; auto).
  destruct (rem - n =? 0) eqn:Elast.
  - apply N.eqb_eq in Elast. unfold bind at 1. destruct (write_close_ok C r dst false s3 ch pd id W3 ltac:(congruence) ltac:(congruence)) as (s4 & cut & D1 & D2 & D3 & D4 & D5 & D6). rewrite D1.
    assert (EL : copy_loop C fuel dfuel src dst (off + n) (rem - n) R_OK s4 = Ret (R_OK, s4)) by (destruct fuel; cbn [copy_loop]; rewrite Elast; reflexivity). rewrite EL.
    assert (F4 : fsame s s4) by (exact (fsame_trans _ _ _ F3 D2)). split; [exists ch; exact (fsame_wf _ _ _ _ _ _ W F4)|].
    assert (D4' : forall y, y <> i_path id -> node_at y (s_nodes s4) = node_at y (s_nodes s)).
    { intros y Hy. rewrite D4; [rewrite A3, N2 by exact Hy; reflexivity|]. intros fp pos E. destruct A4 as [(_ & A4 & _)|(dd & k & _ & _ & _ & A4 & _)]; congruence. }
    split; [apply cf_fsame; [exact F4|]; intros y Hy; apply D4'; intros ->; rewrite under_refl in Hy; discriminate|].
    intros _. split; [exact Er|]. split; [exact F4|]. split; [exact D4'|]. split; [intros; contradiction|]. intros _ Hne d d0 Hd HB. destruct (LE d Hd) as (_ & L1 & L2). split; [lia|].
    destruct A4 as [(G1 & G2 & G3 & G4)|(dd & k & G1 & G2 & G3 & G4 & G5)].
    + exists 0, false. split; [lia|]. split; [lia|]. split; [|intros NF; contradiction (G1 (NF1 NF d0 d HB))]. subst off. unfold before_write in HB. rewrite N.eqb_refl in HB. rewrite N.add_0_r, take_0, drop_0. cbn [app].
      rewrite D4 by (intros fp pos E; congruence). rewrite G3, N2. exact HB.
    + exists k, cut. split; [lia|]. split; [lia|]. split; [|intros NF; split; [rewrite (G2 (NF1 NF d0 d HB)); lia|apply D6; apply NF]].
      rewrite (D5 _ _ _ G4 G3). rewrite (G5 d0 d (BW2 _ _ HB) ltac:(rewrite Q4; do 2 f_equal; symmetry; apply LE; exact Hd) L2). do 2 f_equal.
      assert (LL : len (take (off + k) d) = off + k) by (rewrite len_take; lia). destruct cut.
      * rewrite app_nil_r. rewrite <- LL at 2. rewrite wrote_start, <- put_start. apply resize_put.
      * rewrite wrote_start, LL. reflexivity.
  - apply N.eqb_neq in Elast. unfold bind at 1. unfold ret at 1. destruct (isok c1) eqn:Ec1.
    + apply N.eqb_eq in Ec1. destruct A4 as [(G1 & _)|(dd & k & G1 & G2 & G3 & G4 & G5)]; [contradiction|]. specialize (G2 Ec1). subst k.
      pose proof (IH (off + n) (rem - n) c1 s3 ch ps is pd id W3 ltac:(congruence) ltac:(congruence) ltac:(congruence) ltac:(congruence) ltac:(congruence) ltac:(lia)) as H.
      specialize (H ltac:(right; eauto)). destruct (copy_loop C fuel dfuel src dst (off + n) (rem - n) c1 s3) as [[c5 s5]| |]; try exact H.
      destruct H as (H1 & H2 & H3). split; [exact H1|]. split; [eapply cf_trans; [apply C3|exact H2]|]. intros K. destruct (H3 K) as (_ & H5 & H6 & H7 & H8). split; [exact Er|]. split; [exact (fsame_trans _ _ _ F3 H5)|].
      split; [intros y Hy; rewrite H6, A3, N2 by exact Hy; reflexivity|]. split; [intros; contradiction|].
      intros _ Hne d d0 Hd HB. destruct (LE d Hd) as (Ed & L1 & L2). destruct (H8 Elast Hne d d0) as (J1 & k & cut & J2 & J3 & J4 & J5).
      * rewrite A3, N2 by exact Hne. exact Hd.
      * unfold before_write. rewrite (proj2 (N.eqb_neq (off + n) 0)) by lia. split; [exact G4|]. rewrite G3. do 2 f_equal. apply G5; [|congruence|exact L2]. apply BW2. exact HB.
      * replace (off + n + k) with (off + (n + k)) in J4 by lia. split; [lia|]. exists (n + k), cut. split; [lia|]. split; [lia|]. split; [exact J4|]. intros NF. destruct (J5 NF) as [-> ->]. split; [lia|reflexivity].
    + assert (EL : copy_loop C fuel dfuel src dst (off + n) (rem - n) c1 s3 = Ret (c1, s3)) by (destruct fuel; cbn [copy_loop]; rewrite Ec1; rewrite orb_true_r; reflexivity). rewrite EL.
      split; [eauto|]. split; [rewrite Ec1; apply C3|]. intros ->. discriminate.
Qed.
End Copy.
