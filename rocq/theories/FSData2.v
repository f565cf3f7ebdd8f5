(** Whole transfers: writeData with its closing call, writePartialData,
    truncateItem, getObjectInfo. *)
From Verif Require Import Base AList Wire FS FSPath FSTree FSLogic FSAdd FSAdd2 FSDel FSEv FSData.

(** ** Items that differ only in details the tree does not depend on *)
Record isame (a b : item) : Prop := {
  IS_h : i_handle b = i_handle a; IS_path : i_path b = i_path a; IS_wd : i_wd b = i_wd a; IS_par : i_parent b = i_parent a;
  IS_first : i_first b = i_first a; IS_next : i_next b = i_next a; IS_puoid : i_puoid b = i_puoid a;
  IS_info : forall o, i_info a = Some o -> exists o', i_info b = Some o' /\ oi_name o' = oi_name o /\ oi_parent o' = oi_parent o /\ oi_format o' = oi_format o;
  IS_none : i_info a = None -> i_info b = None }.
Lemma isame_refl a : isame a a.
Proof. constructor; eauto. Qed.
Lemma isame_trans a b c : isame a b -> isame b c -> isame a c.
Proof.
  intros X Y. constructor; try (etransitivity; [apply Y|apply X]).
  - intros o E. destruct (IS_info _ _ X o E) as (o1 & E1 & A1 & A2 & A3). destruct (IS_info _ _ Y o1 E1) as (o2 & E2 & B1 & B2 & B3). exists o2. repeat split; congruence.
  - intros E. apply (IS_none _ _ Y), (IS_none _ _ X). exact E.
Qed.
Lemma isame_assoc a b : isame a b -> is_assoc b = is_assoc a.
Proof.
  intros X. unfold is_assoc. destruct (i_info a) as [o|] eqn:E.
  - destruct (IS_info _ _ X o E) as (o' & -> & _ & _ & ->). reflexivity.
  - rewrite (IS_none _ _ X E). reflexivity.
Qed.
Record hsame (s s' : fs) : Prop := {
  H_fw : forall x a, s_heap s x = Some a -> exists b, s_heap s' x = Some b /\ isame a b;
  H_bw : forall x b, s_heap s' x = Some b -> exists a, s_heap s x = Some a /\ isame a b;
  H_fresh : s_fresh s' = s_fresh s; H_root : s_root s' = s_root s; H_handles : s_handles s' = s_handles s; H_paths : s_paths s' = s_paths s;
  H_wds : s_wds s' = s_wds s; H_puoids : s_puoids s' = s_puoids s; H_byid : s_byid s' = s_byid s; H_tick : (s_tick s <= s_tick s')%nat }.
Lemma hsame_refl s : hsame s s.
Proof. constructor; eauto using isame_refl. Qed.
Lemma hsame_trans a b c : hsame a b -> hsame b c -> hsame a c.
Proof.
  intros X Y. constructor; try (etransitivity; [apply Y|apply X]).
  - intros x i Hx. destruct (H_fw _ _ X x i Hx) as (j & A & B). destruct (H_fw _ _ Y x j A) as (k & D & E). exists k. split; [exact D|]. eapply isame_trans; eassumption.
  - intros x i Hx. destruct (H_bw _ _ Y x i Hx) as (j & A & B). destruct (H_bw _ _ X x j A) as (k & D & E). exists k. split; [exact D|]. eapply isame_trans; eassumption.
  - pose proof (H_tick _ _ X). pose proof (H_tick _ _ Y). lia.
Qed.
Lemma fsame_hsame s s' : fsame s s' -> hsame s s'.
Proof.
  intros F. apply fsame_fields in F as (A1 & A2 & A3 & A4 & A5 & A6 & A7 & A8 & _ & _ & A9). constructor; try congruence; try exact A9; intros x a; rewrite A1; eauto using isame_refl.
Qed.
Lemma wf_hsame C s s' ch r : WF C s ch r None -> hsame s s' -> WF C s' ch r None.
Proof.
  intros W H. constructor.
  - eapply T_ext; [apply (W_T _ _ _ _ _ W)|intros y; reflexivity|]. intros y. destruct (s_heap s y) as [a|] eqn:Hy.
    + destruct (H_fw _ _ H y a Hy) as (b & -> & I). split; [apply I|]. split; apply I.
    + destruct (s_heap s' y) as [b|] eqn:E; [|exact I]. destruct (H_bw _ _ H y b E) as (a & A & _). congruence.
  - rewrite (H_fresh _ _ H). intros y b Hy. destruct (H_bw _ _ H y b Hy) as (a & A & _). eapply (W_bd _ _ _ _ _ W); exact A.
  - rewrite (H_handles _ _ H). apply (W_nd _ _ _ _ _ W).
  - rewrite (H_handles _ _ H). intros h v Hv. destruct (W_h _ _ _ _ _ W h v Hv) as (y & a & A1 & A2 & A3 & _). destruct (H_fw _ _ H y a A2) as (b & B & I). exists y, b. split; [exact A1|]. split; [exact B|]. split; [rewrite (IS_h _ _ I); exact A3|discriminate].
  - rewrite (H_handles _ _ H), (H_paths _ _ H). intros y b Hy _. destruct (H_bw _ _ H y b Hy) as (a & A & I). rewrite (IS_h _ _ I), (IS_path _ _ I). apply (W_live _ _ _ _ _ W y a A). discriminate.
  - rewrite (H_paths _ _ H). intros z h Hz. destruct (W_path _ _ _ _ _ W z h Hz) as (y & a & A1 & A2 & A3 & _). destruct (H_fw _ _ H y a A1) as (b & B & I). exists y, b. split; [exact B|]. rewrite (IS_h _ _ I), (IS_path _ _ I). split; [exact A2|]. split; [exact A3|discriminate].
  - intros y b Hy. destruct (H_bw _ _ H y b Hy) as (a & A & I). destruct (W_info _ _ _ _ _ W y a A) as (o & O1 & O2). destruct (IS_info _ _ I o O1) as (o' & E1 & E2 & E3 & E4). exists o'. split; [exact E1|].
    intros q j' F1 F2. destruct (H_bw _ _ H q j' F2) as (j & G & J). rewrite (IS_par _ _ I) in F1. rewrite E2, E3, (IS_path _ _ I), (IS_path _ _ J), (IS_h _ _ J). exact (O2 q j F1 G).
  - destruct (W_root _ _ _ _ _ W) as (ri & A1 & A2 & A3 & A4). destruct (H_fw _ _ H r ri A1) as (b & B & I). exists b. rewrite (IS_par _ _ I), (IS_path _ _ I), (IS_h _ _ I). auto.
  - intros y b Hy Ny. destruct (H_bw _ _ H y b Hy) as (a & A & I). destruct (W_sup _ _ _ _ _ W y a A Ny) as (t & T1 & T2). exists t. rewrite (IS_h _ _ I). pose proof (H_tick _ _ H). split; [lia|exact T2].
  - rewrite (H_wds _ _ H). intros m h Hm. destruct (W_wd _ _ _ _ _ W m h Hm) as (y & a & A1 & A2 & A3 & A4). destruct (H_fw _ _ H y a A1) as (b & B & I). exists y, b. rewrite (IS_h _ _ I), (IS_wd _ _ I), (isame_assoc _ _ I). auto.
  - rewrite (H_root _ _ H). apply (W_rt _ _ _ _ _ W).
Qed.
Lemma hsame_put s p i j : s_heap s p = Some i -> isame i j -> hsame s (set_heap (nupd (s_heap s) p (Some j)) s).
Proof.
  intros Hp I. constructor; try reflexivity; try apply le_n; cbn; intros x a Hx.
  - unfold nupd. destruct (x =? p) eqn:E; [|eauto using isame_refl]. apply N.eqb_eq in E as ->. exists j. split; [reflexivity|]. congruence.
  - unfold nupd in Hx. destruct (x =? p) eqn:E; [|eauto using isame_refl]. apply N.eqb_eq in E as ->. exists i. split; [exact Hp|]. congruence.
Qed.
Lemma isame_size i o n : i_info i = Some o -> isame i (it_info (Some (oi_set_size n o)) i).
Proof. intros E. constructor; try reflexivity; [|congruence]. intros o' E'. rewrite E in E'. injection E' as <-. eexists. split; [reflexivity|]. auto. Qed.
Lemma isame_events i b : isame i (it_events b i).
Proof. constructor; try reflexivity; cbn; eauto. Qed.

Section Data2.
Variables (C : conf) (r : ptr).

(** opening for writing *)
Lemma open_rw_ok p s : exists ok s', sys_open_rw C p s = Ret (ok, s') /\ nsame s s' /\
  (if ok then exists d, node_at p (s_nodes s') = Some (File d) /\ (node_at p (s_nodes s) = Some (File d) \/ (node_at p (s_nodes s) = None /\ d = [])) /\
     (forall x, x <> p -> node_at x (s_nodes s') = node_at x (s_nodes s))
   else s_nodes s' = s_nodes s) /\
  ((forall t, c_fail C t = false) -> (exists d, node_at p (s_nodes s) = Some (File d)) -> ok = true).
Proof.
  unfold sys_open_rw, bind at 1, fails, bind at 1, tick, ret at 1. unfold bind at 1, get at 1. cbn [s_nodes set_tick]. set (s1 := set_tick _ s).
  destruct (c_fail C (s_tick s)) eqn:Ef.
  { exists false, s1. split; [reflexivity|]. split; [apply nsame_tick|]. split; [reflexivity|]. intros H. rewrite H in Ef. discriminate. }
  destruct (node_at p (s_nodes s)) as [[d|]|] eqn:E.
  - exists true, s1. split; [reflexivity|]. split; [apply nsame_tick|]. split; [|auto]. exists d. split; [exact E|]. split; [auto|]. reflexivity.
  - exists false, s1. split; [reflexivity|]. split; [apply nsame_tick|]. split; [reflexivity|]. intros _ [d H]; discriminate.
  - destruct (is_dir (parent_of p) (s_nodes s) && negb (peqb (base_of p) [])).
    + unfold bind, upd, ret. eexists _, _. split; [reflexivity|]. split; [eapply nsame_trans; [apply nsame_tick|apply nsame_set]|]. split; [|auto].
      exists []. cbn. rewrite node_at_set, peqb_refl. split; [reflexivity|]. split; [auto|]. intros x Hx. rewrite node_at_set. apply peqb_neq in Hx. now rewrite Hx.
    + exists false, s1. split; [reflexivity|]. split; [apply nsame_tick|]. split; [reflexivity|]. intros _ [d H]; discriminate.
Qed.

(** ** writeData *)
(** the first segment *)
Lemma write_first_ok h bs last s ch p i : WF C s ch r None -> aget h (s_handles s) = Some (Some p) -> s_heap s p = Some i ->
  exists code s', write_data C h (Some bs) true last s = Ret (code, s') /\ fsame s s' /\ (forall x, x <> i_path i -> node_at x (s_nodes s') = node_at x (s_nodes s)) /\
    (code = R_OK -> len bs < 0x80000000 /\ exists d, (node_at (i_path i) (s_nodes s) = Some (File d) \/ (node_at (i_path i) (s_nodes s) = None /\ d = [])) /\
       s_file s' = Some (i_path i, len bs) /\ node_at (i_path i) (s_nodes s') = Some (File (wrote d 0 bs))) /\
    ((forall fp pos, s_file s = Some (fp, pos) -> fp = i_path i) -> forall fp pos, s_file s' = Some (fp, pos) -> fp = i_path i) /\
    (len bs < 0x80000000 -> (code <> R_OK /\ s_file s' = None /\ s_nodes s' = s_nodes s) \/
       exists d k, (node_at (i_path i) (s_nodes s) = Some (File d) \/ (node_at (i_path i) (s_nodes s) = None /\ d = [])) /\ k <= len bs /\ (code = R_OK -> k = len bs) /\
         s_file s' = Some (i_path i, k) /\ node_at (i_path i) (s_nodes s') = Some (File (wrote d 0 (take k bs)))) /\
    (no_failures C -> (exists d, node_at (i_path i) (s_nodes s) = Some (File d)) -> len bs < 0x80000000 -> code = R_OK).
Proof.
  intros W Hh Hp. unfold write_data. unfold bind at 1. unfold has_handle, get at 1. unfold ahas. rewrite Hh. cbn [negb]. unfold bind at 1, handle_ref. rewrite Hh.
  unfold bind at 1, upd at 1. unfold bind at 1. unfold bind at 1, deref. cbn [s_heap set_write]. rewrite Hp. unfold bind at 1.
  destruct (open_rw_ok (i_path i) (set_write h s)) as (ok & s1 & E & NS & OKx & OKy). rewrite E.
  assert (F1 : fsame s s1) by (eapply fsame_trans; [apply fsame_write|apply nsame_fsame; exact NS]).
  destruct ok.
  2:{ unfold bind at 1, upd at 1, ret at 1. cbn [negb]. unfold ret. eexists _, _. split; [reflexivity|]. split; [eapply fsame_trans; [exact F1|apply fsame_file]|].
      split; [intros; cbn; rewrite OKx; reflexivity|]. split; [discriminate|]. split; [cbn; discriminate|]. split; [intros _; left; split; [discriminate|]; split; [reflexivity|exact OKx]|].
      intros [NF _] Hd _. specialize (OKy NF Hd). discriminate. }
  destruct OKx as (d & D1 & D2 & D3).
  unfold bind at 1, upd at 1. unfold bind at 1. destruct (W_info _ _ _ _ _ W p i Hp) as (o & Ho & _). unfold info_of. rewrite Ho. unfold ret at 1 2. cbn [negb].
  set (s2 := set_file _ s1). assert (F2 : fsame s s2) by (eapply fsame_trans; [exact F1|apply fsame_file]).
  destruct (2147483648 <=? len bs) eqn:EL.
  { unfold bind at 1, get at 1. cbn [s_file s2 set_file]. unfold ret. eexists _, _. split; [reflexivity|]. split; [exact F2|]. split; [exact D3|]. split; [discriminate|]. split; [intros _ fp pos; unfold s2; cbn; congruence|]. split; lia. }
  destruct (write_loop_ok C (length bs) bs s2 (i_path i) 0 d eq_refl D1 (le_n _)) as (code & k & s3 & E3 & F3 & W3 & K1 & K2 & K3 & K4 & K5).
  exists code, s3. split; [exact E3|]. split; [exact (fsame_trans _ _ _ F2 F3)|]. split; [|split; [|split; [|split]]].
  - intros x Hx. rewrite K4. assert (P : peqb x (i_path i) = false) by (apply peqb_neq; exact Hx). rewrite P. cbn. apply D3. exact Hx.
  - intros K. specialize (K2 K). split; [lia|]. exists d. split; [exact D2|]. split; [rewrite K3; do 2 f_equal; lia|]. rewrite K4, peqb_refl, K2, take_all by lia. reflexivity.
  - intros _ fp pos Q. rewrite K3 in Q. congruence.
  - intros _. right. exists d, k. split; [exact D2|]. split; [exact K1|]. split; [exact K2|]. split; [exact K3|]. rewrite K4, peqb_refl. reflexivity.
  - intros [_ NC] _ _. apply K5. exact NC.
Qed.
(** a later segment *)
Lemma write_next_ok h bs last s ch p i pos d : WF C s ch r None -> aget h (s_handles s) = Some (Some p) -> s_heap s p = Some i ->
  s_file s = Some (i_path i, pos) -> node_at (i_path i) (s_nodes s) = Some (File d) ->
  exists code s', write_data C h (Some bs) false last s = Ret (code, s') /\ fsame s s' /\ (forall x, x <> i_path i -> node_at x (s_nodes s') = node_at x (s_nodes s)) /\
    (code = R_OK -> len bs < 0x80000000 /\ s_file s' = Some (i_path i, pos + len bs) /\ node_at (i_path i) (s_nodes s') = Some (File (wrote d pos bs))) /\
    (forall fp pos', s_file s' = Some (fp, pos') -> fp = i_path i) /\
    (len bs < 0x80000000 -> exists k, k <= len bs /\ (code = R_OK -> k = len bs) /\ s_file s' = Some (i_path i, pos + k) /\ node_at (i_path i) (s_nodes s') = Some (File (wrote d pos (take k bs)))) /\
    (no_failures C -> len bs < 0x80000000 -> code = R_OK).
Proof.
  intros W Hh Hp Hf Hd. unfold write_data. unfold bind at 1. unfold has_handle, get at 1. unfold ahas. rewrite Hh. cbn [negb]. unfold bind at 1, handle_ref. rewrite Hh.
  unfold bind at 1, upd at 1. unfold bind at 1. unfold ret at 1. cbn [negb].
  set (s2 := set_write h s). assert (F2 : fsame s s2) by apply fsame_write.
  destruct (2147483648 <=? len bs) eqn:EL.
  { unfold bind at 1, get at 1. replace (s_file s2) with (Some (i_path i, pos)) by (symmetry; exact Hf). unfold ret. eexists _, _. split; [reflexivity|]. split; [exact F2|]. split; [reflexivity|]. split; [discriminate|]. split; [intros fp pos'; unfold s2; cbn; congruence|]. split; lia. }
  destruct (write_loop_ok C (length bs) bs s2 (i_path i) pos d Hf Hd (le_n _)) as (code & k & s3 & E3 & F3 & W3 & K1 & K2 & K3 & K4 & K5).
  exists code, s3. split; [exact E3|]. split; [exact (fsame_trans _ _ _ F2 F3)|]. split; [|split; [|split; [|split]]].
  - intros x Hx. rewrite K4. assert (P : peqb x (i_path i) = false) by (apply peqb_neq; exact Hx). rewrite P. reflexivity.
  - intros K. specialize (K2 K). split; [lia|]. split; [rewrite K3; do 2 f_equal; lia|]. rewrite K4, peqb_refl, K2, take_all by lia. reflexivity.
  - intros fp pos' Q. rewrite K3 in Q. congruence.
  - intros _. exists k. split; [exact K1|]. split; [exact K2|]. split; [exact K3|]. rewrite K4, peqb_refl. reflexivity.
  - intros [_ NC] _. apply K5. exact NC.
Qed.
(** the closing call *)
Lemma write_close_ok h first s ch p i : WF C s ch r None -> aget h (s_handles s) = Some (Some p) -> s_heap s p = Some i ->
  exists s' cut, write_data C h None first true s = Ret (R_OK, s') /\ fsame s s' /\ s_file s' = None /\
    (forall x, (forall fp pos, s_file s = Some (fp, pos) -> x <> fp) -> node_at x (s_nodes s') = node_at x (s_nodes s)) /\
    (forall fp pos d, s_file s = Some (fp, pos) -> node_at fp (s_nodes s) = Some (File d) ->
       node_at fp (s_nodes s') = Some (File (if cut : bool then resize d pos else d))) /\ ((forall t, c_fail C t = false) -> cut = true).
Proof.
  intros W Hh Hp. unfold write_data. unfold bind at 1. unfold has_handle, get at 1. unfold ahas. rewrite Hh. cbn [negb]. unfold bind at 1, handle_ref. rewrite Hh.
  unfold bind at 1, upd at 1. unfold bind at 1, get at 1. cbn [s_file set_write]. destruct (s_file s) as [[fp pos]|] eqn:Hf.
  2:{ unfold ret. exists (set_write 0 s), true. split; [reflexivity|]. split; [apply fsame_write|]. split; [exact Hf|]. split; [reflexivity|]. split; [discriminate|auto]. }
  unfold bind at 1, get at 1. unfold bind at 1, fails, bind at 1, tick, ret at 1. cbn [s_tick set_write s_nodes]. unfold bind at 1. set (s1 := set_tick _ _).
  assert (F1 : fsame s s1) by exact (fsame_trans _ _ _ (fsame_write 0 s) (fsame_tick (set_write 0 s))).
  set (m := match node_at fp (s_nodes s) with Some (File d) => _ | _ => _ end).
  assert (A : exists s2, m s1 = Ret (tt, s2) /\ fsame s1 s2 /\ (forall x, x <> fp -> node_at x (s_nodes s2) = node_at x (s_nodes s)) /\
     (forall d, node_at fp (s_nodes s) = Some (File d) -> node_at fp (s_nodes s2) = Some (File (if negb (c_fail C (s_tick s)) then resize d pos else d)))).
  { unfold m. destruct (node_at fp (s_nodes s)) as [[d|]|] eqn:En; [destruct (c_fail C (s_tick s)); cbn [negb when]|..].
    1,3,4: exists s1; split; [reflexivity|]; split; [apply fsame_refl|]; split; [reflexivity|]; intros d'; try discriminate; unfold s1; cbn; congruence.
    unfold upd. eexists. split; [reflexivity|]. split; [apply fsame_nodes|]. split.
    - intros x Hx. cbn. rewrite node_at_set. apply peqb_neq in Hx. now rewrite Hx.
    - intros d' [= <-]. cbn. rewrite node_at_set, peqb_refl. reflexivity. }
  destruct A as (s2 & A1 & A2 & A3 & A4). rewrite A1. unfold bind at 1, upd at 1. unfold bind at 1, deref. cbn [s_heap set_file].
  assert (Hp2 : s_heap s2 p = Some i). { apply fsame_fields in A2 as (X & _). apply fsame_fields in F1 as (Y & _). congruence. }
  rewrite Hp2. destruct (W_info _ _ _ _ _ W p i Hp) as (o & Ho & _). unfold bind at 1, info_of. rewrite Ho. unfold ret.
  exists (set_file None s2), (negb (c_fail C (s_tick s))). split; [reflexivity|]. split; [eapply fsame_trans; [exact F1|]; eapply fsame_trans; [exact A2|apply fsame_file]|]. split; [reflexivity|].
  split; [intros x Hx; cbn; apply A3; eauto|]. split; [|intros Q; rewrite Q; reflexivity]. intros fp' pos' d [= <- <-] Hd. cbn. apply A4. exact Hd.
Qed.
(** any call *)
Lemma write_data_any h data first last s ch : WF C s ch r None -> (data = None -> last = true) ->
  exists code s', write_data C h data first last s = Ret (code, s') /\ fsame s s'.
Proof.
  intros W HL. destruct (aget h (s_handles s)) as [v|] eqn:Hh.
  2:{ unfold write_data, bind at 1, has_handle, get at 1, ahas. rewrite Hh. cbn. unfold ret. eauto using fsame_refl. }
  destruct (wf_handle_ptr _ _ _ _ _ W h v Hh) as (p & i & -> & Hp & _). destruct data as [bs|].
  - destruct first.
    + destruct (write_first_ok h bs last s ch p i W Hh Hp) as (code & s' & A & B & _). eauto.
    + unfold write_data. unfold bind at 1. unfold has_handle, get at 1. unfold ahas. rewrite Hh. cbn [negb]. unfold bind at 1, handle_ref. rewrite Hh.
      unfold bind at 1, upd at 1. unfold bind at 1. unfold ret at 1. cbn [negb]. destruct (2147483648 <=? len bs).
      * unfold bind, get, ret. eexists _, _. split; [reflexivity|apply fsame_write].
      * destruct (write_loop_any C (length bs) bs (set_write h s) (le_n _)) as (code & s' & A & B & _). exists code, s'. split; [exact A|]. eapply fsame_trans; [apply fsame_write|exact B].
  - rewrite (HL eq_refl). destruct (write_close_ok h first s ch p i W Hh Hp) as (s' & cut & A & B & _). eauto.
Qed.

(** The protocol of a transfer: the first segment, the others, the closing call
    (mtpresponder.cpp SendObject, storageplugin.cpp:75-78) *)
Fixpoint write_rest (h : N) (l : list bytes) : M N :=
  match l with
  | [] => write_data C h None false true
  | b :: l' => r <- write_data C h (Some b) false false ;; if isok r then write_rest h l' else ret r
  end.
Definition write_object (h : N) (b : bytes) (l : list bytes) : M N :=
  r <- write_data C h (Some b) true false ;; if isok r then write_rest h l else ret r.

Lemma write_rest_ok h p i : forall l s ch pos d, WF C s ch r None -> aget h (s_handles s) = Some (Some p) -> s_heap s p = Some i ->
  s_file s = Some (i_path i, pos) -> node_at (i_path i) (s_nodes s) = Some (File d) ->
  exists code s' cut, write_rest h l s = Ret (code, s') /\ fsame s s' /\ (forall x, x <> i_path i -> node_at x (s_nodes s') = node_at x (s_nodes s)) /\
   (code = R_OK -> s_file s' = None /\ node_at (i_path i) (s_nodes s') = Some (File (let all := wrote d pos (concat l) in if cut : bool then resize all (pos + len (concat l)) else all))) /\
   ((forall t, c_fail C t = false) -> cut = true).
Proof.
  induction l as [|b l IH]; intros s ch pos d W Hh Hp Hf Hd; cbn [write_rest concat].
  - destruct (write_close_ok h false s ch p i W Hh Hp) as (s' & cut & A1 & A2 & A3 & A4 & A5 & A6). exists R_OK, s', cut. split; [exact A1|]. split; [exact A2|]. split; [|split; [|exact A6]].
    + intros x Hx. apply A4. intros fp pos' E. rewrite Hf in E. congruence.
    + intros _. split; [exact A3|]. rewrite (A5 _ _ _ Hf Hd). cbn. change (len (@nil N)) with 0. rewrite N.add_0_r. reflexivity.
  - destruct (write_next_ok h b false s ch p i pos d W Hh Hp Hf Hd) as (c1 & s1 & A1 & A2 & A3 & A4 & _). unfold bind at 1. rewrite A1. destruct (isok c1) eqn:E1.
    + apply N.eqb_eq in E1. destruct (A4 E1) as (_ & B1 & B2). pose proof (fsame_fields _ _ A2) as (X1 & _ & _ & X4 & _).
      destruct (IH s1 ch _ _ (fsame_wf _ _ _ _ _ _ W A2) ltac:(congruence) ltac:(congruence) B1 B2) as (code & s' & cut & D1 & D2 & D3 & D4 & D5).
      exists code, s', cut. split; [exact D1|]. split; [eapply fsame_trans; eassumption|]. split; [intros x Hx; rewrite D3, A3; auto|]. split; [|exact D5].
      intros K. destruct (D4 K) as (G1 & G2). split; [exact G1|]. rewrite G2. cbv zeta. rewrite wrote_app, len_app, N.add_assoc. reflexivity.
    + exists c1, s1, true. split; [reflexivity|]. split; [exact A2|]. split; [exact A3|]. split; [|auto]. intros K. rewrite K in E1. discriminate.
Qed.
Theorem write_object_ok h b l s ch p i : WF C s ch r None -> aget h (s_handles s) = Some (Some p) -> s_heap s p = Some i ->
  exists code s' cut, write_object h b l s = Ret (code, s') /\ fsame s s' /\ (forall x, x <> i_path i -> node_at x (s_nodes s') = node_at x (s_nodes s)) /\
   (code = R_OK -> s_file s' = None /\ exists d, (node_at (i_path i) (s_nodes s) = Some (File d) \/ (node_at (i_path i) (s_nodes s) = None /\ d = [])) /\
      node_at (i_path i) (s_nodes s') = Some (File (b ++ concat l ++ if cut : bool then [] else drop (len (b ++ concat l)) d))) /\
   ((forall t, c_fail C t = false) -> cut = true).
Proof.
  intros W Hh Hp. unfold write_object. destruct (write_first_ok h b false s ch p i W Hh Hp) as (c1 & s1 & A1 & A2 & A3 & A4 & _). unfold bind at 1. rewrite A1. destruct (isok c1) eqn:E1.
  - apply N.eqb_eq in E1. destruct (A4 E1) as (_ & d & B0 & B1 & B2). pose proof (fsame_fields _ _ A2) as (X1 & _ & _ & X4 & _).
    destruct (write_rest_ok h p i l s1 ch _ _ (fsame_wf _ _ _ _ _ _ W A2) ltac:(congruence) ltac:(congruence) B1 B2) as (code & s' & cut & D1 & D2 & D3 & D4 & D5).
    exists code, s', cut. split; [exact D1|]. split; [eapply fsame_trans; eassumption|]. split; [intros x Hx; rewrite D3, A3; auto|]. split; [|exact D5].
    intros K. destruct (D4 K) as (G1 & G2). split; [exact G1|]. exists d. split; [exact B0|]. rewrite G2. cbv zeta. rewrite <- (N.add_0_l (len b)). rewrite wrote_app. rewrite N.add_0_l, wrote_start.
    rewrite <- len_app. destruct cut; [|rewrite <- app_assoc; reflexivity]. do 2 f_equal. rewrite app_nil_r. rewrite <- put_start. apply resize_put.
  - exists c1, s1, true. split; [reflexivity|]. split; [exact A2|]. split; [exact A3|]. split; [|auto]. intros K. rewrite K in E1. discriminate.
Qed.

(** ** truncateItem *)
Theorem truncate_item_ok h size s ch : WF C s ch r None ->
  exists code s', truncate_item C h size s = Ret (code, s') /\ hsame s s' /\
   (code = R_OK -> exists p i o d, aget h (s_handles s) = Some (Some p) /\ s_heap s p = Some i /\ i_info i = Some o /\ oi_format o <> FMT_Association /\
      node_at (i_path i) (s_nodes s) = Some (File d) /\ (forall x, node_at x (s_nodes s') = if peqb x (i_path i) then Some (File (resize d size)) else node_at x (s_nodes s)) /\
      s_heap s' p = Some (it_info (Some (oi_set_size size o)) i)) /\
   (code <> R_OK -> tsame s s').
Proof.
  intros W. unfold truncate_item, bind at 1, has_handle, get at 1, ahas. destruct (aget h (s_handles s)) as [v|] eqn:Hh; cbn [negb].
  2:{ unfold ret. eexists _, _. split; [reflexivity|]. split; [apply hsame_refl|]. split; [discriminate|]. intros; apply tsame_refl. }
  destruct (wf_handle_ptr _ _ _ _ _ W h v Hh) as (p & i & -> & Hp & _). unfold bind at 1, handle_ref. rewrite Hh. unfold bind at 1, deref. rewrite Hp.
  destruct (W_info _ _ _ _ _ W p i Hp) as (o & Ho & _). rewrite Ho. destruct (oi_format o =? FMT_Association) eqn:Ef.
  { unfold ret. eexists _, _. split; [reflexivity|]. split; [apply hsame_refl|]. split; [discriminate|]. intros; apply tsame_refl. }
  unfold bind at 1, fails, bind at 1, tick, ret at 1. unfold bind at 1, get at 1. cbn [s_nodes set_tick].
  set (s1 := set_tick _ s). assert (T1 : tsame s s1) by apply tsame_tick.
  assert (Z : exists code s', ret R_GeneralError s1 = Ret (code, s') /\ hsame s s' /\ (code = R_OK -> False) /\ (code <> R_OK -> tsame s s')).
  { unfold ret. eexists _, _. split; [reflexivity|]. split; [apply fsame_hsame, tsame_fsame; exact T1|]. split; [discriminate|auto]. }
  destruct Z as (c0 & s0 & Z1 & Z2 & Z3 & Z4).
  destruct (node_at (i_path i) (s_nodes s)) as [[d|]|] eqn:En; [destruct (c_fail C (s_tick s) || (9223372036854775808 <=? size))|..].
  1,3,4: exists c0, s0; split; [exact Z1|]; split; [exact Z2|]; split; [intros K; destruct (Z3 K)|exact Z4].
  unfold bind at 1, upd at 1. unfold bind at 1, modify. cbn [s_heap set_nodes]. replace (s_heap s1 p) with (Some i) by (symmetry; exact Hp). unfold ret.
  eexists _, _. split; [reflexivity|]. split; [|split; [|congruence]].
  - eapply hsame_trans; [apply fsame_hsame, tsame_fsame; exact T1|]. apply hsame_trans with (b := set_nodes (set_node (i_path i) (File (resize d size)) (s_nodes s)) s1); [apply fsame_hsame, fsame_nodes|]. apply (hsame_put (set_nodes (set_node (i_path i) (File (resize d size)) (s_nodes s)) s1) p i); [exact Hp|]. apply isame_size. exact Ho.
  - intros _. exists p, i, o, d. split; [reflexivity|]. split; [exact Hp|]. split; [exact Ho|]. split; [intros X; rewrite X in Ef; discriminate|]. split; [exact En|]. split.
    + intros x. cbn. apply node_at_set.
    + cbn. apply nupd_eq.
Qed.

(** ** writePartialData *)
Theorem write_partial_ok h off bs first last s ch p i : WF C s ch r None -> aget h (s_handles s) = Some (Some p) -> s_heap s p = Some i ->
  (first = false -> s_file s = None \/ exists pos d, s_file s = Some (i_path i, pos) /\ node_at (i_path i) (s_nodes s) = Some (File d)) ->
  exists code s', write_partial C h off bs first last s = Ret (code, s') /\ hsame s s' /\
   (forall x, x <> i_path i -> node_at x (s_nodes s') = node_at x (s_nodes s)) /\ (forall x, x <> p -> s_heap s' x = s_heap s x) /\
   (code = R_OK -> (first = true \/ s_file s <> None) -> exists d, (node_at (i_path i) (s_nodes s) = Some (File d) \/ (first = true /\ node_at (i_path i) (s_nodes s) = None /\ d = [])) /\
       node_at (i_path i) (s_nodes s') = Some (File (wrote d off bs)) /\
       (last = false -> s_file s' = Some (i_path i, off + len bs) /\ s_write s' = h) /\
       (last = true -> s_file s' = None /\ exists o, i_info i = Some o /\ s_heap s' p = Some (it_info (Some (oi_set_size (len (wrote d off bs)) o)) i))) /\
   (code <> R_OK -> s_file s' = None).
Proof.
  intros W Hh Hp Hfile. unfold write_partial. unfold bind at 1. unfold has_handle, get at 1. unfold ahas. rewrite Hh. cbn [negb]. unfold bind at 1, handle_ref. rewrite Hh. cbv zeta.
  change (isok R_OK) with true. cbn [andb]. destruct (W_info _ _ _ _ _ W p i Hp) as (o & Ho & _).
  (* the tail: closing *)
  pose (tail := fun code : N => (if negb (isok code) || last then
     fo <- get s_file ;;
     (match fo with
      | Some _ =>
        upd (set_file None) ;;; i <- deref_opt (Some p) ;; o <- info_of i ;; w <- get s_nodes ;;
        modify p (it_info (Some (oi_set_size (size_of (i_path i) w) o)))
      | None => ret tt
      end) ;;; upd (set_write 0) else ret tt) ;;; ret code).
  assert (TAIL : forall code s1, s_heap s1 = s_heap s -> exists s', tail code s1 = Ret (code, s') /\ s_nodes s' = s_nodes s1 /\ hsame s1 s' /\ (forall x, x <> p -> s_heap s' x = s_heap s1 x) /\
     (if negb (isok code) || last then s_file s' = None /\ (s_file s1 <> None -> s_heap s' p = Some (it_info (Some (oi_set_size (size_of (i_path i) (s_nodes s1)) o)) i)) else s' = s1)).
  { intros code s1 EH. unfold tail, bind at 1. destruct (negb (isok code) || last).
    2:{ unfold ret. exists s1. split; [reflexivity|]. split; [reflexivity|]. split; [apply hsame_refl|]. auto. }
    unfold bind at 1, get at 1. destruct (s_file s1) as [f|] eqn:Ef.
    - unfold bind at 1. unfold bind at 1, upd at 1. unfold bind at 1, deref_opt, deref. cbn [s_heap set_file]. rewrite EH, Hp. unfold bind at 1, info_of. rewrite Ho. unfold ret at 1.
      unfold bind at 1, get at 1. unfold modify. cbn [s_heap set_file]. rewrite EH, Hp. unfold upd, ret.
      eexists. split; [reflexivity|]. split; [reflexivity|]. split; [|split].
      + eapply hsame_trans; [apply fsame_hsame, (fsame_file None)|]. eapply hsame_trans; [|apply fsame_hsame, fsame_write].
        assert (HP : s_heap (set_file None s1) p = Some i) by (cbn; rewrite EH; exact Hp).
        pose proof (hsame_put (set_file None s1) p i (it_info (Some (oi_set_size (size_of (i_path i) (s_nodes s1)) o)) i) HP (isame_size _ _ _ Ho)) as Q. cbn in Q. rewrite EH in Q. exact Q.
      + intros x Hx. cbn. rewrite nupd_neq by exact Hx. rewrite ?EH; reflexivity.
      + split; [reflexivity|]. intros _. cbn. apply nupd_eq.
    - unfold bind at 1, ret at 1. unfold upd, ret. eexists. split; [reflexivity|]. split; [reflexivity|]. split; [apply fsame_hsame, fsame_write|]. split; [reflexivity|]. split; [exact Ef|congruence]. }
  (* opening *)
  set (mopen := if first then _ else _).
  assert (OPEN : exists code s1, mopen s = Ret (code, s1) /\ fsame s s1 /\ (forall x, x <> i_path i -> node_at x (s_nodes s1) = node_at x (s_nodes s)) /\
     (code = R_OK -> (s_file s1 = None /\ first = false /\ s_file s = None) \/ exists pos d, s_file s1 = Some (i_path i, pos) /\ node_at (i_path i) (s_nodes s1) = Some (File d) /\
          (node_at (i_path i) (s_nodes s) = Some (File d) \/ (first = true /\ node_at (i_path i) (s_nodes s) = None /\ d = []))) /\
     (code <> R_OK -> s_file s1 = None)).
  { unfold mopen. destruct first.
    - unfold bind at 1, deref_opt, deref. rewrite Hp. unfold bind at 1, upd at 1. unfold bind at 1. destruct (open_rw_ok (i_path i) (set_write h s)) as (ok & s1 & E & NS & OKx & _). rewrite E.
      assert (F1 : fsame s s1) by (eapply fsame_trans; [apply fsame_write|apply nsame_fsame; exact NS]). destruct ok.
      + destruct OKx as (d & D1 & D2 & D3). unfold bind, upd, ret. eexists _, _. split; [reflexivity|]. split; [eapply fsame_trans; [exact F1|apply fsame_file]|]. split; [exact D3|].
        split; [|congruence]. intros _. right. exists 0, d. split; [reflexivity|]. split; [exact D1|]. cbn in D2. destruct D2 as [D2|[D2 D4]]; [auto|]. right. auto.
      + unfold bind, upd, ret. eexists _, _. split; [reflexivity|]. split; [eapply fsame_trans; [exact F1|apply fsame_file]|]. split; [intros x _; cbn; rewrite OKx; reflexivity|]. split; [discriminate|]. reflexivity.
    - unfold ret. eexists _, _. split; [reflexivity|]. split; [apply fsame_refl|]. split; [reflexivity|]. split; [|congruence]. intros _. destruct (Hfile eq_refl) as [E|(pos & d & E1 & E2)]; [auto|].
      right. exists pos, d. auto. }
  destruct OPEN as (c1 & s1 & O1 & O2 & O3 & O4 & O5). unfold bind at 1. rewrite O1. unfold bind at 1, get at 1.
  pose proof (fsame_fields _ _ O2) as (HE1 & _).
  (* writing *)
  set (mwrite := match s_file s1 with Some _ => _ | None => _ end).
  assert (WRITE : exists code s2, mwrite s1 = Ret (code, s2) /\ fsame s1 s2 /\ (forall x, x <> i_path i -> node_at x (s_nodes s2) = node_at x (s_nodes s1)) /\
     (code = R_OK -> c1 = R_OK /\ ((s_file s1 = None /\ s2 = s1) \/ exists d, node_at (i_path i) (s_nodes s1) = Some (File d) /\ node_at (i_path i) (s_nodes s2) = Some (File (wrote d off bs)) /\
          s_file s2 = Some (i_path i, off + len bs) /\ s_write s2 = h))).
  { unfold mwrite. destruct (s_file s1) as [[fp pos0]|] eqn:Ef; [|unfold ret; exists c1, s1; split; [reflexivity|]; split; [apply fsame_refl|]; split; [reflexivity|]; auto].
    destruct (isok c1) eqn:E1; [|unfold ret; exists c1, s1; split; [reflexivity|]; split; [apply fsame_refl|]; split; [reflexivity|]; intros K; rewrite K in E1; discriminate].
    apply N.eqb_eq in E1. destruct (O4 E1) as [(X & _)|(pos & d & X1 & X2 & X3)]; [discriminate|]. injection X1 as -> ->.
    unfold bind at 1, get at 1. destruct (negb (s_write s1 =? h)) eqn:Ew; [unfold ret; eexists _, s1; split; [reflexivity|]; split; [apply fsame_refl|]; split; [reflexivity|]; discriminate|].
    unfold bind at 1, fails, bind at 1, tick, ret at 1. destruct (c_fail C (s_tick s1) || (9223372036854775808 <=? off)).
    { unfold ret. eexists _, _. split; [reflexivity|]. split; [apply fsame_tick|]. split; [reflexivity|]. discriminate. }
    unfold bind at 1, upd at 1. set (s2 := set_file _ _).
    assert (F2 : fsame s1 s2) by (eapply fsame_trans; [apply fsame_tick|apply fsame_file]).
    destruct (write_loop_ok C (length bs) bs s2 (i_path i) off d eq_refl X2 (le_n _)) as (code & k & s3 & E3 & F3 & W3 & K1 & K2 & K3 & K4 & K5).
    exists code, s3. split; [exact E3|]. split; [eapply fsame_trans; eassumption|]. split; [intros x Hx; rewrite K4; apply peqb_neq in Hx; rewrite Hx; reflexivity|].
    intros K. split; [exact E1|]. right. exists d. split; [exact X2|]. rewrite K4, peqb_refl, (K2 K), take_all by lia. split; [reflexivity|]. split; [rewrite K3, (K2 K); reflexivity|].
    rewrite W3. unfold s2. cbn. apply negb_false_iff in Ew. apply N.eqb_eq in Ew. exact Ew. }
  destruct WRITE as (c2 & s2 & P1 & P2 & P3 & P4). unfold bind at 1. rewrite P1.
  pose proof (fsame_fields _ _ P2) as (HE2 & _).
  destruct (TAIL c2 s2 ltac:(congruence)) as (s3 & T1 & T2 & T3 & T4 & T5).
  exists c2, s3. split; [exact T1|]. split; [eapply hsame_trans; [apply fsame_hsame; exact O2|]; eapply hsame_trans; [apply fsame_hsame; exact P2|exact T3]|].
  split; [intros x Hx; rewrite T2, P3, O3; auto|]. split; [intros x Hx; rewrite T4, HE2, HE1; auto|]. split.
  - intros K HF. rewrite K in T5. change (isok R_OK) with true in T5. cbn [negb orb] in T5. destruct (P4 K) as (Kc & [[N1 N2]|(d & N1 & N2 & N3 & N4)]).
    { exfalso. destruct (O4 Kc) as [(Y1 & Y2 & Y3)|(pos & d & Y1 & _)]; [|congruence]. destruct HF; congruence. }
    exists d. split; [|split; [|split]].
    + destruct (O4 Kc) as [(Y1 & Y2 & Y3)|(pos & d' & Y1 & Y2 & Y3)].
      * destruct HF; congruence.
      * assert (d' = d) by congruence. subst d'. exact Y3.
    + rewrite T2. exact N2.
    + intros ->. subst s3. split; [exact N3|exact N4].
    + intros ->. destruct T5 as [T5 T6]. split; [exact T5|]. exists o. split; [exact Ho|]. rewrite T6 by congruence. unfold size_of. rewrite N2. reflexivity.
  - intros K. assert (isok c2 = false) as Q by (apply N.eqb_neq; exact K). rewrite Q in T5. cbn [negb orb] in T5. apply T5.
Qed.

(** ** getObjectInfo *)
Lemma get_object_info_ok h s ch : WF C s ch r None -> exists res s', get_object_info C h s = Ret (res, s') /\ hsame s s' /\ s_nodes s' = s_nodes s /\
  s_file s' = s_file s /\
  match aget h (s_handles s) with
  | Some (Some p) => exists i, s_heap s p = Some i /\ res = (R_OK, i_info i) /\ i_info i <> None
  | _ => res = (R_InvalidObjectHandle, None) /\ s' = s
  end.
Proof.
  intros W. unfold get_object_info, bind at 1, has_handle, get at 1, ahas. destruct (aget h (s_handles s)) as [v|] eqn:Hh; cbn [negb].
  2:{ unfold ret. eexists _, _. split; [reflexivity|]. split; [apply hsame_refl|]. auto. }
  destruct (wf_handle_ptr _ _ _ _ _ W h v Hh) as (p & i & -> & Hp & _). unfold bind at 1, handle_ref. rewrite Hh. unfold bind at 1, modify. rewrite Hp.
  destruct (W_info _ _ _ _ _ W p i Hp) as (o & Ho & _).
  unfold bind at 1, populate_info, bind at 1, deref. cbn [s_heap set_heap]. rewrite nupd_eq. cbn [i_info it_events]. rewrite Ho. unfold ret at 1. unfold bind at 1, deref. cbn [s_heap set_heap]. rewrite nupd_eq.
  unfold ret. eexists _, _. split; [reflexivity|]. split; [apply hsame_put with (i := i); [exact Hp|apply isame_events]|]. split; [reflexivity|]. split; [reflexivity|]. exists i. split; [reflexivity|]. cbn. split; congruence.
Qed.
End Data2.
