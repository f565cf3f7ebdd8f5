(** Renaming through SetObjectPropValue, and refreshing an object info. *)
From Verif Require Import Base AList Wire FS FSPath FSTree FSLogic FSAdd FSAdd2 FSDel FSSub FSMove FSMove2.

Lemma dst_of_name p n : In slash p -> rev (match before_slash (rev p) with Some r => slash :: r | None => [] end) ++ n = join (parent_of p) n.
Proof.
  intros H. destruct (before_slash_some (rev p)) as [d E]; [now apply in_rev in H|]. rewrite E. unfold join, parent_of. rewrite E. cbn [rev]. rewrite <- app_assoc. reflexivity.
Qed.
Lemma legal_noslash n : existsb illegal_char n = false -> ~ In slash n.
Proof.
  intros E H. assert (X : existsb illegal_char n = true) by (apply existsb_exists; exists slash; split; [exact H|vm_compute; reflexivity]). congruence.
Qed.

Section Rename.
Variables (C : conf) (SO : supply_ok C) (r : ptr).

Record renamed (s : fs) (p : ptr) (i : item) (q : ptr) (j : item) (n : path) (s' : fs) : Prop := {
  RN_moved : moved s p q (i_path i) (join (i_path j) n) n s';
  RN_disk : exists_at (i_path i) (s_nodes s) = true /\ disk_moved (i_path i) (join (i_path j) n) (s_nodes s) (s_nodes s');
  RN_plain : plain n;
  RN_legal : existsb illegal_char n = false /\ all_dots n = false;
  RN_free : s_paths s (join (i_path j) n) = None;
  RN_puoids : forall x, s_puoids s' x = if peqb x (join (i_path j) n) then Some (i_puoid i) else if peqb x (i_path i) then None else s_puoids s x }.

Theorem set_file_name_ok fuel h n s ch : WF C s ch r None -> aget h (s_handles s) <> Some (Some r) ->
  match set_file_name C fuel h n s with
  | Ret (code, s') => exists ch', WF C s' ch' r None /\
      match aget h (s_handles s) with
      | Some (Some p) => exists i q j, s_heap s p = Some i /\ i_parent i = Some q /\ s_heap s q = Some j /\
          ((code = R_Invalid_ObjectProp_Value /\ s' = s /\ (existsb illegal_char n = true \/ all_dots n = true \/ s_paths s (join (i_path j) n) <> None)) \/
           (code = R_OK /\ s' = set_tick (S (s_tick s)) s /\ sys_rename C (i_path i) (join (i_path j) n) s = Ret (false, s')) \/
           (code = R_OK /\ renamed s p i q j n s'))
      | _ => code = R_GeneralError /\ s' = s
      end
  | UB => False | Abort => True end.
Proof.
  intros W HNR. unfold set_file_name. unfold bind at 1. unfold handle_value, get at 1.
  destruct (aget h (s_handles s)) as [v|] eqn:Eh; [|exists ch; auto].
  destruct (W_h _ _ _ _ _ W h v Eh) as (p & i & -> & Hp & Hih & _). assert (Nr : p <> r) by congruence.
  unfold bind at 1. unfold deref at 1. rewrite Hp.
  destruct (wf_parent _ _ _ _ _ W p i Hp Nr) as (q & j & o & A1 & A2 & A3 & A4 & A5 & A6 & A7).
  assert (DOWN : forall (code : N) s' ch', WF C s' ch' r None ->
     ((code = R_Invalid_ObjectProp_Value /\ s' = s /\ (existsb illegal_char n = true \/ all_dots n = true \/ s_paths s (join (i_path j) n) <> None)) \/
           (code = R_OK /\ s' = set_tick (S (s_tick s)) s /\ sys_rename C (i_path i) (join (i_path j) n) s = Ret (false, s')) \/ (code = R_OK /\ renamed s p i q j n s')) ->
     exists ch0, WF C s' ch0 r None /\ exists i0 q0 j0, Some i = Some i0 /\ i_parent i0 = Some q0 /\ s_heap s q0 = Some j0 /\
          ((code = R_Invalid_ObjectProp_Value /\ s' = s /\ (existsb illegal_char n = true \/ all_dots n = true \/ s_paths s (join (i_path j0) n) <> None)) \/
           (code = R_OK /\ s' = set_tick (S (s_tick s)) s /\ sys_rename C (i_path i0) (join (i_path j0) n) s = Ret (false, s')) \/ (code = R_OK /\ renamed s p i0 q0 j0 n s'))).
  { intros code s' ch' W' D. exists ch'. split; [exact W'|]. exists i, q, j. auto. }
  unfold bind at 1. unfold file_name_valid at 1. destruct (existsb illegal_char n) eqn:E1; cbn [orb].
  { unfold ret. cbn [negb]. apply (DOWN _ _ ch W). left. auto. }
  destruct (all_dots n) eqn:E2.
  { unfold ret. cbn [negb]. apply (DOWN _ _ ch W). left. auto. }
  rewrite A1. unfold bind at 1. unfold deref_opt, deref at 1. rewrite A2. unfold bind at 1. unfold get at 1. unfold ret at 1.
  destruct (s_paths s (join (i_path j) n)) as [x|] eqn:Ep; cbn [negb].
  { apply (DOWN _ _ ch W). left. split; [reflexivity|]. split; [reflexivity|]. right. right. congruence. }
  assert (NS : ~ In slash n) by (apply legal_noslash; exact E1).
  rewrite dst_of_name by (rewrite A6; unfold join; apply in_or_app; right; left; reflexivity). 
  assert (EPP : parent_of (i_path i) = i_path j) by (rewrite A6; apply parent_join; apply A5). rewrite EPP.
  set (dst := join (i_path j) n) in *. set (o0 := i_path i) in *.
  assert (Ndo : o0 <> dst).
  { intros E. destruct (W_live _ _ _ _ _ W p i Hp ltac:(discriminate)) as [_ B]. fold o0 in B. congruence. }
  destruct (rename_cases C o0 dst s) as (ok & s1 & EREN & CASES).
  unfold bind at 1. rewrite EREN. destruct CASES as [[-> E]|(-> & Ex & [[E _]|(_ & U & Nx & Dp & Bs & E)])]; [|contradiction|].
  { cbn [when]. unfold bind at 1. unfold ret at 1. rewrite E. apply (DOWN _ _ ch); [eapply wf_same; [exact W|..]; cbn; auto|]. right. left. rewrite <- E. auto. }
  assert (Pn : plain n).
  { split; [|exact NS]. unfold dot_name. rewrite !orb_false_iff, !peqb_neq. split; [split|]; intros En; [|subst n; discriminate|subst n; discriminate]. subst n. apply Bs. unfold dst. apply base_join. exact NS. }
  assert (NU : under o0 (i_path j) = false).
  { destruct (under o0 (i_path j)) eqn:V; [|reflexivity]. apply under_len in V. subst o0. rewrite A6, len_join in V. lia. }
  assert (FR : dst = o0 \/ s_paths s dst = None) by auto.
  cbn [when]. unfold bind at 1. unfold bind at 1. unfold upd at 1. unfold bind at 1. unfold upd at 1. unfold bind at 1. unfold info_of. rewrite A4. unfold ret at 1.
  unfold bind at 1. unfold modify at 1. rewrite E. cbn [s_heap set_puoids set_paths set_nodes set_tick]. rewrite Hp. unfold bind at 1. unfold modify at 1. cbn [s_heap set_heap]. rewrite nupd_eq.
  unfold bind at 1. unfold upd at 1. unfold bind at 1. unfold upd at 1.
  match goal with |- context [watch_rec fuel remove_watch p;;; ?K] => set (KK := K) end.
  match goal with |- context [(watch_rec fuel remove_watch p;;; KK) ?st] => set (s2 := st) end.
  set (ip := it_info (Some (oi_set_name n o)) (it_path dst i)).
  assert (Hp2 : s_heap s2 p = Some ip) by (unfold s2; cbn; apply nupd_eq).
  assert (H2o : forall x, x <> p -> s_heap s2 x = s_heap s x) by (intros x Nx'; unfold s2; cbn; rewrite !nupd_neq by exact Nx'; reflexivity).
  assert (ITEM2 : forall x k, s_heap s x = Some k -> exists k', s_heap s2 x = Some k' /\ i_handle k' = i_handle k /\ i_wd k' = i_wd k /\ is_assoc k' = is_assoc k /\ i_first k' = i_first k /\ i_next k' = i_next k /\ i_parent k' = i_parent k).
  { intros x k Hx. destruct (N.eq_dec x p) as [->|Nxp]; [|rewrite H2o by exact Nxp; eauto 10]. rewrite Hp in Hx. injection Hx as <-. exists ip. split; [exact Hp2|]. unfold ip, is_assoc. cbn. rewrite A4. cbn. auto 10. }
  assert (NONE2 : forall x, s_heap s x = None -> s_heap s2 x = None) by (intros x Hx; rewrite H2o by congruence; exact Hx).
  assert (T2 : T (s_heap s2) ch (eq r)).
  { eapply T_ext; [apply (W_T _ _ _ _ _ W)|intros x; reflexivity|]. intros x. destruct (s_heap s x) as [k|] eqn:Hx; [|rewrite (NONE2 x Hx); exact I]. destruct (ITEM2 x k Hx) as (k' & -> & B). tauto. }
  assert (HU2 : HU (s_heap s2)).
  { intros x y a b Hx Hy Ehh. destruct (s_heap s x) as [a0|] eqn:Hx0; [|rewrite (NONE2 x Hx0) in Hx; discriminate]. destruct (s_heap s y) as [b0|] eqn:Hy0; [|rewrite (NONE2 y Hy0) in Hy; discriminate].
    destruct (ITEM2 x a0 Hx0) as (a' & B1 & B2 & _). destruct (ITEM2 y b0 Hy0) as (b' & D1 & D2 & _). rewrite Hx in B1. injection B1 as <-. rewrite Hy in D1. injection D1 as <-. eapply (wf_HU _ _ _ _ W); [exact Hx0|exact Hy0|congruence]. }
  assert (WD2 : WD s2).
  { intros m h' Hm. destruct (W_wd _ _ _ _ _ W m h' Hm) as (x & k & B1 & B2 & B3 & B4). destruct (ITEM2 x k B1) as (k' & D1 & D2 & D3 & D4 & _). exists x, k'. split; [exact D1|]. split; [congruence|]. split; congruence. }
  (* watches *)
  pose proof (watch_rec_exec remove_watch ch (assocb (s_heap s2)) watchful_remove fuel p s2 ip (T_shape _ _ _ T2) Hp2 ltac:(auto)) as X3.
  unfold bind at 1. destruct (watch_rec fuel remove_watch p s2) as [[[] s3]| |]; try exact X3. destruct X3 as (L & T3 & R3 & _).
  destruct (proj1 (tr_facts C s ch r W (assocb (s_heap s2))) p L T3 i Hp) as [MEML NDL].
  assert (LIVE2 : forall x, In x L -> exists k, s_heap s2 x = Some k).
  { intros x Hx. destruct (MEML x Hx) as (? & k & _ & B & _). destruct (ITEM2 x k B) as (k' & D & _). eauto. }
  destruct (runs_remove L s2 s3 R3 LIVE2) as (WS3 & EH3 & D3 & X3). destruct (X3 WD2 HU2) as [WD3 NE3].
  unfold KK. unfold bind at 1.
  assert (Hp3 : s_heap s3 p = Some ip) by (rewrite EH3; exact Hp2).
  pose proof (watch_rec_exec (add_watch C) ch (assocb (s_heap s2)) (watchful_add C) fuel p s3 ip ltac:(rewrite EH3; apply (T_shape _ _ _ T2)) Hp3 ltac:(rewrite EH3; auto)) as X4.
  destruct (watch_rec fuel (add_watch C) p s3) as [[[] s4]| |]; try exact X4. destruct X4 as (L' & T4 & R4 & _).
  assert (L' = L) by (eapply (proj1 (tr_det _ _)); eassumption). subst L'.
  destruct (runs_add C L s3 s4 R4 NDL) as (WS4 & WD4 & _).
  { intros x Hx. rewrite EH3. destruct (LIVE2 x Hx) as (k & Hk). exists k. split; [exact Hk|]. eapply NE3; eassumption. }
  { exact WD3. } { rewrite EH3. exact HU2. }
  assert (WS : wsame s2 s4) by (eapply wsame_trans; eassumption).
  destruct (wsame_fields _ _ WS) as (K1 & K2 & K3 & K4 & K5 & K6 & K7 & K8 & K9 & K10 & K11 & K12).
  destruct (wsame_fwd _ _ _ _ WS Hp2) as (wp & Hp4).
  assert (H4o : forall x k, x <> p -> s_heap s x = Some k -> exists w, s_heap s4 x = Some (it_wd w k)).
  { intros x k Nxp Hx. apply (wsame_fwd _ _ _ _ WS). rewrite H2o by exact Nxp. exact Hx. }
  assert (H4n : forall x, s_heap s x = None -> s_heap s4 x = None).
  { intros x Hx. destruct (s_heap s4 x) as [k|] eqn:Ek; [|reflexivity]. destruct (wsame_bwd _ _ _ _ WS Ek) as (k' & w & B & _). rewrite (NONE2 x Hx) in B. discriminate. }
  (* children *)
  assert (INTC : forall c, In c (ch p) -> intact s s4 c).
  { intros c Hc y ci k Hci Hy Uy. destruct (child_path C s ch r W p i c ci Hp Hc Hci) as (m & _ & Em). apply H4o; [|exact Hy].
    intros ->. rewrite Hp in Hy. injection Hy as <-. apply under_len in Uy. rewrite Em, len_join in Uy. lia. }
  pose proof (adjust_children_exec C s ch r W o0 dst fuel fuel p i s4 Hp (under_refl _) INTC) as X5. unfold o0 in X5 at 1. rewrite repath_self in X5.
  destruct (adjust_children fuel fuel dst (i_first i) s4) as [[[] s5]| |]; try exact X5. destruct X5 as (Lc & T5 & E5). unfold ret.
  assert (TP : tr (fun _ => true) ch p (p :: Lc)) by (constructor; [reflexivity|exact T5]).
  destruct (proj1 (tr_facts C s ch r W (fun _ => true)) p (p :: Lc) TP i Hp) as [MEM NDp]. pose proof NDp as ND'. apply NoDup_cons_iff in ND' as [NpL ND].
  assert (MEMU : forall x k, In x Lc -> s_heap s x = Some k -> under o0 (i_path k) = true /\ x <> p).
  { intros x k Hx Hk. destruct (MEM x (or_intror Hx)) as (i1 & k1 & B1 & B2 & B3). rewrite Hk in B2. injection B2 as <-. rewrite Hp in B1. injection B1 as <-. split; [exact B3|intros ->; contradiction]. }
  assert (LIVEc : forall x, In x Lc -> exists k, s_heap s x = Some k). { intros x Hx. destruct (MEM x (or_intror Hx)) as (? & k & _ & B & _). eauto. }
  assert (ITEM : forall x k, s_heap s x = Some k -> exists k' w, s_heap s5 x = Some k' /\ s_heap s4 x = Some (it_path (i_path (if x =? p then ip else k)) (it_wd w k')) /\
     i_handle k' = i_handle k /\ i_puoid k' = i_puoid k /\ i_path k' = newpath o0 dst (i_path k) /\ i_first k' = i_first k /\ i_next k' = i_next k /\ i_parent k' = i_parent k /\ is_assoc k' = is_assoc k /\ i_wd k' = w /\ (x <> p -> i_info k' = i_info k)).
  { intros x k Hx. destruct (N.eq_dec x p) as [->|Nxp].
    - rewrite Hp in Hx. injection Hx as <-. rewrite E5, vis_out by exact NpL. exists (it_wd wp ip), wp. split; [exact Hp4|]. rewrite N.eqb_refl. split; [exact Hp4|]. unfold newpath. fold o0. rewrite under_refl, repath_self.
      unfold is_assoc. cbn. rewrite A4. cbn. repeat split; try reflexivity. contradiction.
    - destruct (H4o x k Nxp Hx) as (w & Hx4). replace (x =? p) with false by lia. destruct (in_dec N.eq_dec x Lc) as [Hin|Hin].
      + destruct (MEMU x k Hin Hx) as [Ux _]. rewrite E5, (vis_in _ _ _ _ _ _ ND Hin Hx4). eexists _, w. split; [reflexivity|]. split; [rewrite Hx4; destruct k; reflexivity|]. cbn. unfold newpath. rewrite Ux. unfold is_assoc. cbn. auto 15.
      + rewrite E5, vis_out by exact Hin. exists (it_wd w k), w. split; [exact Hx4|]. split; [rewrite Hx4; destruct k; reflexivity|]. cbn. unfold newpath.
        destruct (under o0 (i_path k)) eqn:Ux; [exfalso; destruct (tr_complete C s ch r W p i (p :: Lc) TP Hp x k Hx Ux) as [<-|X]; contradiction|]. unfold is_assoc. cbn. auto 15. }
  assert (NONE : forall x, s_heap s x = None -> s_heap s5 x = None).
  { intros x Hx. rewrite E5, vis_out; [apply H4n; exact Hx|]. intros Hin. destruct (LIVEc x Hin). congruence. }
  destruct (vis_same o0 dst Lc s4) as (HV & FV & EV).
  assert (EF : forall A (g : fs -> A), (forall H F t, g (set_paths F (set_heap H t)) = g t) -> g s5 = g s4) by (intros A g Hg; rewrite E5, EV; apply Hg).
  assert (MVD : moved s p q o0 dst n s5).
  { constructor.
    - intros x k Hx. destruct (ITEM x k Hx) as (k' & w & B1 & _ & B2 & B3 & B4 & _ & _ & B5 & _ & _ & B6). exists k'. auto 10.
    - exact NONE.
    - destruct (ITEM p i Hp) as (k' & w & B1 & B0 & _ & _ & _ & _ & _ & B5 & _ & B6 & _). exists k', j, (oi_set_name n o). split; [exact B1|]. split; [exact A2|]. split; [congruence|].
      rewrite Hp4, N.eqb_refl in B0. apply (f_equal (fun z => match z with Some t => i_info t | None => None end)) in B0. cbn in B0. split; [congruence|]. cbn. auto.
    - rewrite (EF _ s_fresh) by reflexivity. exact K1.
    - rewrite (EF _ s_root) by reflexivity. exact K2.
    - rewrite (EF _ s_handles) by reflexivity. exact K3.
    - rewrite (EF _ s_tick) by reflexivity. unfold s2 in K12. cbn in K12. lia. }
  assert (T6 : T (s_heap s5) ch (eq r)).
  { eapply T_ext; [apply (W_T _ _ _ _ _ W)|intros x; reflexivity|]. intros x. destruct (s_heap s x) as [k|] eqn:Hx; [|rewrite (NONE x Hx); exact I]. destruct (ITEM x k Hx) as (k' & w & -> & B). tauto. }
  assert (WD5 : WD s5).
  { intros m h' Hm. rewrite (EF _ s_wds) in Hm by reflexivity. destruct (WD4 m h' Hm) as (x & k4 & B1 & B2 & B3 & B4). destruct (s_heap s x) as [k|] eqn:Hx; [|rewrite (H4n x Hx) in B1; discriminate].
    destruct (ITEM x k Hx) as (k' & w & D1 & D2 & D4 & D5 & D6 & D7 & D8 & D9 & D10 & D11 & _). rewrite B1 in D2. assert (D2' : k4 = it_path (i_path (if x =? p then ip else k)) (it_wd w k')) by congruence. clear D2. subst k4. cbn in B2, B3, B4. exists x, k'. split; [exact D1|]. split; [exact B2|]. split; [congruence|]. exact B4. }
  assert (W5 : WF C s5 ch r None).
  { apply (wf_moved C s ch r W p q i j n Hp A2 Nr Pn NU FR s5 ch (p :: Lc) TP MVD T6 WD5). intros y.
    rewrite E5, (vis_paths _ _ Lc s4 ND). unfold pvis at 2. cbn [fold_left]. fold (pvis (i_path i) (join (i_path j) n) (s_heap s) Lc (pvis1 (i_path i) (join (i_path j) n) (s_heap s) (s_paths s) p)).
    fold o0 dst. assert (EP : s_paths s4 = pvis1 o0 dst (s_heap s) (s_paths s) p).
    { unfold pvis1. rewrite Hp. fold o0. rewrite repath_self. rewrite K4. unfold s2. cbn. rewrite Hih. reflexivity. }
    rewrite EP. rewrite (pvis_ext _ _ (s_heap s) (s_heap s4)); [reflexivity|]. intros x Hx. destruct (LIVEc x Hx) as (k & Hk). destruct (MEMU x k Hx Hk) as [_ Nxp]. destruct (H4o x k Nxp Hk) as (w & B). rewrite Hk, B. auto. }
  apply (DOWN _ _ _ W5). right. right. split; [reflexivity|]. constructor; auto.
  - fold o0 dst. split; [exact Ex|]. unfold disk_moved. apply peqb_neq in Ndo. rewrite Ndo. rewrite (EF _ s_nodes) by reflexivity. rewrite K5. reflexivity.
  - intros x. rewrite (EF _ s_puoids) by reflexivity. rewrite K6. unfold s2. cbn. unfold pupd. reflexivity.
Qed.

(** a new object info read from the disk *)
Lemma refresh_ok s ch p i : WF C s ch r None -> s_heap s p = Some i -> p <> r -> (is_assoc i = true -> is_dir (i_path i) (s_nodes s) = true) ->
  exists s' o, (modify p (it_info None) ;;; populate_info C p) s = Ret (tt, s') /\ WF C s' ch r None /\
    s_heap s' p = Some (it_info (Some o) i) /\ (forall x, x <> p -> s_heap s' x = s_heap s x) /\
    (exists H, s' = set_tick (S (s_tick s)) (set_heap H s)) /\
    oi_format o = format_of C (i_path i) (s_nodes s) /\ oi_size o = size_of (i_path i) (s_nodes s) /\ oi_name o = base_of (i_path i).
Proof.
  intros W Hp Nr Hd. destruct (wf_parent _ _ _ _ _ W p i Hp Nr) as (q & j & o & A1 & A2 & A3 & A4 & A5 & A6 & A7).
  assert (Nqp : q <> p) by (intros ->; exact (wf_noself _ _ _ _ _ W p i Hp A1)).
  set (o' := oi_with (c_extra C (s_tick s) (i_path i)) (c_sid C) (format_of C (i_path i) (s_nodes s)) (size_of (i_path i) (s_nodes s)) (i_handle j) (base_of (i_path i))).
  assert (EX : exists s', (modify p (it_info None) ;;; populate_info C p) s = Ret (tt, s') /\ s' = set_tick (S (s_tick s)) (set_heap (nupd (nupd (s_heap s) p (Some (it_info None i))) p (Some (it_info (Some o') i))) s)).
  { eexists. split; [|reflexivity]. unfold bind at 1. unfold modify at 1. rewrite Hp. unfold populate_info. unfold bind at 1. unfold deref at 1. cbn [s_heap set_heap]. rewrite nupd_eq. cbn [i_info it_info].
    unfold bind at 1. unfold tick at 1. unfold bind at 1. unfold get at 1. cbn [i_parent it_info]. rewrite A1. unfold bind at 1. unfold bind at 1. unfold deref at 1. cbn [s_heap set_heap set_tick]. rewrite nupd_neq by exact Nqp. rewrite A2. unfold ret at 1.
    unfold modify. cbn [s_heap set_heap set_tick]. rewrite nupd_eq. reflexivity. }
  destruct EX as (s' & EX & Es'). exists s', o'. split; [exact EX|].
  assert (Hp' : s_heap s' p = Some (it_info (Some o') i)) by (rewrite Es'; cbn; apply nupd_eq).
  assert (Ho : forall x, x <> p -> s_heap s' x = s_heap s x) by (intros x Nx; rewrite Es'; cbn; rewrite !nupd_neq by exact Nx; reflexivity).
  assert (BW : forall x k', s_heap s' x = Some k' -> exists k, s_heap s x = Some k /\ i_handle k' = i_handle k /\ i_path k' = i_path k /\ i_wd k' = i_wd k /\ i_parent k' = i_parent k /\ (x <> p -> k' = k)).
  { intros x k' Hx. destruct (N.eq_dec x p) as [->|Nx]; [rewrite Hp' in Hx; injection Hx as <-; exists i; cbn; repeat split; auto; try contradiction|]. rewrite (Ho x Nx) in Hx. exists k'. auto 10. }
  assert (FW : forall x k, s_heap s x = Some k -> exists k', s_heap s' x = Some k' /\ i_handle k' = i_handle k /\ i_path k' = i_path k /\ i_wd k' = i_wd k /\ i_parent k' = i_parent k /\ i_first k' = i_first k /\ i_next k' = i_next k /\ (x <> p -> k' = k)).
  { intros x k Hx. destruct (N.eq_dec x p) as [->|Nx]; [rewrite Hp in Hx; injection Hx as <-; eexists; split; [exact Hp'|]; cbn; repeat split; auto; try contradiction|]. exists k. rewrite (Ho x Nx). auto 10. }
  split; [|split; [exact Hp'|split; [exact Ho|]]].
  - constructor.
    + eapply T_ext; [apply (W_T _ _ _ _ _ W)|intros x; reflexivity|]. intros x. destruct (s_heap s x) as [k|] eqn:Hx.
      * destruct (FW x k Hx) as (k' & -> & B). tauto.
      * rewrite Ho by congruence. rewrite Hx. exact I.
    + intros x k' Hx. destruct (BW x k' Hx) as (k & B & _). rewrite Es'. cbn. eapply (W_bd _ _ _ _ _ W); exact B.
    + rewrite Es'. apply (W_nd _ _ _ _ _ W).
    + intros h v Hv. rewrite Es' in Hv. destruct (W_h _ _ _ _ _ W h v Hv) as (x & k & B1 & B2 & B3 & _). destruct (FW x k B2) as (k' & D1 & D2 & _). exists x, k'. split; [exact B1|]. split; [exact D1|]. split; [congruence|discriminate].
    + intros x k' Hx _. destruct (BW x k' Hx) as (k & B1 & B2 & B3 & _). rewrite B2, B3. rewrite Es'. apply (W_live _ _ _ _ _ W x k B1). discriminate.
    + intros y h Hy. rewrite Es' in Hy. destruct (W_path _ _ _ _ _ W y h Hy) as (x & k & B1 & B2 & B3 & _). destruct (FW x k B1) as (k' & D1 & D2 & D3 & _). exists x, k'. split; [exact D1|]. split; [congruence|]. split; [congruence|discriminate].
    + intros x k' Hx. destruct (N.eq_dec x p) as [->|Nx].
      * rewrite Hp' in Hx. injection Hx as <-. exists o'. split; [reflexivity|]. cbn [i_parent it_info i_path]. intros q' j' E1 E2. rewrite A1 in E1. injection E1 as <-. rewrite (Ho q Nqp), A2 in E2. injection E2 as <-.
        unfold o', oi_with. cbn [oi_name oi_parent]. rewrite A6. rewrite (base_join _ _ (proj2 A5)). auto.
      * rewrite (Ho x Nx) in Hx. destruct (W_info _ _ _ _ _ W x k' Hx) as (ox & O1 & O2). exists ox. split; [exact O1|]. intros q' j' E1 E2. destruct (BW q' j' E2) as (j0 & D1 & D2 & D3 & _). rewrite D2, D3. eapply O2; eassumption.
    + destruct (W_root _ _ _ _ _ W) as (ri & B1 & B2 & B3 & B4). exists ri. rewrite Ho by congruence. auto.
    + intros x k' Hx Nx. destruct (BW x k' Hx) as (k & B1 & B2 & _). destruct (W_sup _ _ _ _ _ W x k B1 Nx) as (t & D1 & D2). exists t. rewrite Es'. cbn. split; [lia|congruence].
    + intros m h' Hm. rewrite Es' in Hm. destruct (W_wd _ _ _ _ _ W m h' Hm) as (x & k & B1 & B2 & B3 & B4). destruct (N.eq_dec x p) as [->|Nx].
      * rewrite Hp in B1. injection B1 as <-. exists p, (it_info (Some o') i). split; [exact Hp'|]. split; [exact B2|]. split; [exact B3|]. unfold is_assoc, o', oi_with. cbn [i_info it_info oi_format]. unfold format_of. rewrite (Hd B4). reflexivity.
      * exists x, k. rewrite (Ho x Nx). auto.
    + rewrite Es'. apply (W_rt _ _ _ _ _ W).
  - split; [eexists; exact Es'|]. auto.
Qed.
End Rename.
