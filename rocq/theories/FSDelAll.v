(** Deletion on a disk that works, and DeleteObject for all objects of a format. *)
From Verif Require Import Base AList Wire FS FSPath FSTree FSLogic FSAdd FSAdd2 FSDel FSList FSSpec FSReach FSEv FSView FSTerm3 FSTerm4.

Lemma in_node w y : node_at y w <> None -> In y (map fst w).
Proof. induction w as [|[k n] w IH]; cbn [map fst node_at]; intros H; [congruence|]. destruct (peqb y k) eqn:E; [left; symmetry; apply peqb_eq; exact E|right; auto]. Qed.
Section DelAll.
Variables (C : conf) (SO : supply_ok C) (r : ptr).

(** the disk below [P] is what the storage believes *)
Definition acc (s : fs) (P : path) : Prop :=
  (forall x j, s_heap s x = Some j -> under P (i_path j) = true -> if is_assoc j then node_at (i_path j) (s_nodes s) = Some Dir else exists d, node_at (i_path j) (s_nodes s) = Some (File d)) /\
  (forall y, under P y = true -> node_at y (s_nodes s) <> None -> exists x j, s_heap s x = Some j /\ i_path j = y).
Lemma acc_below s P Q : under P Q = true -> acc s P -> acc s Q.
Proof. intros U [A B]. split; [intros x j Hx Ux; apply (A x j Hx); eapply under_trans; eassumption|intros y Uy; apply B; eapply under_trans; eassumption]. Qed.
Lemma lk_assoc i j : lk i j -> is_assoc j = is_assoc i.
Proof. intros L. apply lk_fields in L as (_ & _ & _ & A & _). unfold is_assoc. rewrite A. reflexivity. Qed.

(** an object without children *)
Lemma leaf_delete fuel s ch p i send : WF C s ch r None -> s_root s = Some r -> s_heap s p = Some i -> p <> r -> i_first i = None ->
  exists s' ch', WF C s' ch' r None /\ s_root s' = Some r /\
    ((delete_helper C (S fuel) (i_handle i) true send s = Ret (R_OK, s') /\ deleted s p i true R_OK s' /\ s_heap s' p = None /\ (forall y, node_at y (s_nodes s') = if peqb y (i_path i) then None else node_at y (s_nodes s))) \/
     (delete_helper C (S fuel) (i_handle i) true send s = Ret (R_GeneralError, s') /\ nsame s s' /\ s_nodes s' = s_nodes s /\
      ~ ((forall t, c_fail C t = false) /\ (if is_assoc i then node_at (i_path i) (s_nodes s) = Some Dir /\ entries_of (i_path i) (s_nodes s) = [] else exists d, node_at (i_path i) (s_nodes s) = Some (File d))))).
Proof.
  intros W Hr Hp Nr Hf. pose proof (delete_helper_ok C r (S fuel) (i_handle i) true send s ch W Hr) as DH.
  destruct (W_live _ _ _ _ _ W p i Hp ltac:(discriminate)) as [Hh _].
  assert (NZ : (i_handle i =? 0) = false). { apply N.eqb_neq. intros Z. apply Nr. eapply (root_handle C SO s ch r W); eassumption. }
  destruct (W_info _ _ _ _ _ W p i Hp) as (o & O1 & _).
  destruct (phys_ok C r s ch p i true W Hp Nr) as (ok & s1 & E1 & N1 & D1 & D2 & D3 & _).
  assert (EX : delete_helper C (S fuel) (i_handle i) true send s = (if negb ok then ret R_GeneralError else remove_from_storage (i_handle i) send ;;; ret R_OK) s1).
  { cbn [delete_helper]. unfold bind at 1. unfold has_handle, get at 1. unfold ahas. rewrite Hh. cbn [negb]. unfold bind at 1. unfold handle_ref. rewrite Hh. unfold bind at 1. unfold get at 1. rewrite Hr. cbn [opt_eqb]. rewrite (proj2 (N.eqb_neq _ _) Nr).
    unfold bind at 1. unfold deref at 1. rewrite Hp, Hf. unfold bind at 1. rewrite E1. reflexivity. }
  assert (W1 : WF C s1 ch r None) by (eapply nsame_wf; eassumption). destruct (nsame_fields _ _ N1) as (G1 & _). assert (Hp1 : s_heap s1 p = Some i) by (rewrite G1; exact Hp).
  destruct ok; cbn [negb] in EX.
  - destruct (remove_ok C r s1 ch p i send W1 Hp1 Nr Hf) as (s2 & ch2 & E2 & W2 & S2 & H2 & N2 & _).
    exists s2, ch2. split; [exact W2|]. rewrite EX in *. unfold bind in *. rewrite E2 in *. unfold ret in *. rewrite Hh, (proj2 (N.eqb_neq _ _) Nr) in DH. destruct DH as (ch' & W' & i' & Hi' & _ & DD). rewrite Hp in Hi'. injection Hi' as <-.
    split; [rewrite (D_root _ _ _ (L_shr _ _ _ _ _ _ DD)); exact Hr|]. left. split; [reflexivity|]. split; [exact DD|]. split; [exact H2|]. intros y. rewrite N2. destruct (peqb y (i_path i)) eqn:EY; [apply peqb_eq in EY as ->; apply D2; reflexivity|].
    destruct (D1 y) as [Y|[Y _]]; [exact Y|]. subst y. rewrite peqb_refl in EY. discriminate.
  - exists s1, ch. split; [exact W1|]. split; [destruct N1 as (? & ? & -> & _); exact Hr|]. right. split; [exact EX|]. split; [exact N1|]. split; [apply D3; reflexivity|]. intros [WK HD].
    revert E1. unfold bind at 1. unfold info_of. rewrite O1. unfold ret at 1. unfold is_assoc in HD. rewrite O1 in HD. rewrite NZ. cbn [negb]. rewrite andb_true_r. destruct (oi_format o =? FMT_Association).
    + destruct HD as [HD1 HD2]. destruct (wf_parent _ _ _ _ _ W p i Hp Nr) as (q & j & o' & A1 & A2 & _). unfold bind at 1. rewrite A1. unfold deref_opt, deref. rewrite A2. unfold sys_rmdir, fails, tick, bind, get, ret, upd. cbn [s_nodes set_tick]. rewrite WK. unfold is_dir. rewrite HD1, HD2. cbn [orb negb]. discriminate.
    + destruct HD as [d HD]. unfold sys_remove, fails, tick, bind, get, ret, upd. cbn [s_nodes set_tick]. rewrite HD, WK. discriminate.
Qed.

(** a subtree known in full is deleted in full *)
Theorem delete_works : (forall t, c_fail C t = false) -> forall fuel s ch p i send code s', WF C s ch r None -> s_root s = Some r -> s_heap s p = Some i -> p <> r -> acc s (i_path i) ->
  delete_helper C fuel (i_handle i) true send s = Ret (code, s') -> code = R_OK /\ s_heap s' p = None.
Proof.
  intros WK. induction fuel as [|fuel IH]; intros s ch p i send code s' W Hr Hp Nr AC E; [discriminate|].
  assert (ENT : forall s ch i, WF C s ch r None -> s_heap s p = Some i -> acc s (i_path i) -> i_first i = None -> is_assoc i = true -> entries_of (i_path i) (s_nodes s) = []).
  { clear s ch i W Hr Hp AC E. intros s ch i W Hp [A B] Hf IA. destruct (entries_of (i_path i) (s_nodes s)) as [|e l] eqn:EE; [reflexivity|exfalso].
    assert (IN : In e (entries_of (i_path i) (s_nodes s))) by (rewrite EE; left; reflexivity). pose proof (entries_spec _ _ _ IN) as [_ J]. unfold entries_of in IN. apply filter_In in IN as [IN _]. apply node_in in IN.
    destruct (B e) as (x & j & Hx & Pj); [rewrite J; apply under_join, under_refl|exact IN|].
    apply (child_below C r s ch p i W Hp x j Hx); [rewrite Pj, J; apply under_join, under_refl| |].
    - intros ->. rewrite Hp in Hx. injection Hx as <-. assert (L : len e = len (i_path i)) by congruence. rewrite J, len_join in L. lia.
    - apply (first_none C r s ch p i None W Hp). exact Hf. }
  destruct (i_first i) as [c0|] eqn:Ef.
  2:{ destruct (leaf_delete fuel s ch p i send W Hr Hp Nr Ef) as (s2 & ch2 & _ & _ & [(E2 & _ & H2 & _)|(_ & _ & _ & F)]).
      - rewrite E2 in E. apply Ret_inj in E. injection E as <- <-. auto.
      - exfalso. apply F. split; [exact WK|]. pose proof (proj1 AC p i Hp (under_refl _)) as X. destruct (is_assoc i) eqn:IA; [split; [exact X|]|exact X]. eapply ENT; eassumption. }
  cbn [delete_helper] in E. destruct (W_live _ _ _ _ _ W p i Hp ltac:(discriminate)) as [Hh _].
  unfold bind at 1 in E. unfold has_handle, get at 1 in E. unfold ahas in E. rewrite Hh in E. cbn [negb] in E. unfold bind at 1 in E. unfold handle_ref in E. rewrite Hh in E. unfold bind at 1 in E. unfold get at 1 in E. rewrite Hr in E. cbn [opt_eqb] in E. rewrite (proj2 (N.eqb_neq _ _) Nr) in E.
  unfold bind at 1 in E. unfold deref at 1 in E. rewrite Hp, Ef in E. unfold bind at 1 in E.
  assert (LOOP : forall k s1 ch1 i1, WF C s1 ch1 r None -> s_root s1 = Some r -> s_heap s1 p = Some i1 -> i_path i1 = i_path i -> i_handle i1 = i_handle i -> acc s1 (i_path i) -> forall b s2,
     (fix loop (k : nat) : M bool :=
            i <- deref p ;;
            match i_first i with
            | None => ret false
            | Some c =>
              match k with
              | O => give_up
              | S k' =>
                ci <- deref c ;;
                r <- delete_helper C fuel (i_handle ci) true send ;;
                if negb (isok r) then ret true else loop k'
              end
            end) k s1 = Ret (b, s2) -> b = false /\ exists ch2 i2, WF C s2 ch2 r None /\ s_root s2 = Some r /\ s_heap s2 p = Some i2 /\ i_path i2 = i_path i /\ i_handle i2 = i_handle i /\ acc s2 (i_path i)).
  { induction k as [|k IHk]; intros s1 ch1 i1 W1 R1 Hi1 P1 Q1 A1 b s2 E1; unfold bind at 1 in E1; unfold deref at 1 in E1; rewrite Hi1 in E1.
    - destruct (i_first i1); [discriminate|]. unfold ret in E1. apply Ret_inj in E1. injection E1 as <- <-. split; [reflexivity|]. exists ch1, i1. auto 10.
    - destruct (i_first i1) as [c|] eqn:Ef1. 2:{ unfold ret in E1. apply Ret_inj in E1. injection E1 as <- <-. split; [reflexivity|]. exists ch1, i1. auto 10. }
      pose proof (T_seg _ _ _ (W_T _ _ _ _ _ W1) p i1 Hi1) as SG. rewrite Ef1 in SG. destruct (seg_some _ _ _ SG) as (rest & Ech).
      destruct (wf_child _ _ _ _ _ W1 p i1 c Hi1) as (ci & Hc & Hcp & Ncr); [rewrite Ech; left; reflexivity|].
      unfold bind at 1 in E1. unfold deref at 1 in E1. rewrite Hc in E1. unfold bind at 1 in E1.
      destruct (W_info _ _ _ _ _ W1 c ci Hc) as (o & O1 & O2). destruct (O2 p i1 Hcp Hi1) as (O3 & O4 & O5).
      assert (Ucp : under (i_path i) (i_path ci) = true) by (rewrite O4, P1; apply under_join, under_refl).
      pose proof (delete_helper_ok C r fuel (i_handle ci) true send s1 ch1 W1 R1) as DH.
      destruct (delete_helper C fuel (i_handle ci) true send s1) as [[rc s3]| |] eqn:ED; try discriminate.
      destruct (IH s1 ch1 c ci send rc s3 W1 R1 Hc Ncr (acc_below _ _ _ Ucp A1) ED) as [-> GC]. cbn [isok negb] in E1. change (isok R_OK) with true in E1. cbn [negb] in E1.
      destruct DH as (ch3 & W3 & DH). destruct (W_live _ _ _ _ _ W1 c ci Hc ltac:(discriminate)) as [Hch _]. rewrite Hch, (proj2 (N.eqb_neq _ _) Ncr) in DH. destruct DH as (ci' & Hc' & _ & DL). rewrite Hc in Hc'. injection Hc' as <-.
      pose proof (L_shr _ _ _ _ _ _ DL) as SH. destruct (L_gone _ _ _ _ _ _ DL GC) as [_ GONE].
      assert (Hi3 : exists i3, s_heap s3 p = Some i3).
      { destruct (s_heap s3 p) as [i3|] eqn:E3; [eauto|]. pose proof (D_gone _ _ _ SH p i1 Hi1 E3) as U. apply under_len in U. rewrite O4, len_join in U. lia. }
      destruct Hi3 as (i3 & Hi3). destruct (D_heap _ _ _ SH p i3 Hi3) as (i0 & X1 & X2). rewrite Hi1 in X1. injection X1 as <-. apply lk_fields in X2 as (X2 & X3 & _).
      apply (IHk s3 ch3 i3 W3 ltac:(rewrite (D_root _ _ _ SH); exact R1) Hi3 ltac:(congruence) ltac:(congruence)) in E1; [exact E1|].
      destruct A1 as [AA AB]. split.
      + intros x j Hx Ux. destruct (D_heap _ _ _ SH x j Hx) as (j1 & Y1 & Y2). pose proof (lk_assoc _ _ Y2) as Y4. apply lk_fields in Y2 as (_ & Y3 & _). rewrite Y3 in Ux |- *. rewrite Y4. specialize (AA x j1 Y1 Ux).
        destruct (D_disk _ _ _ SH (i_path j1)) as [Z|[Z _]]; [rewrite Z; exact AA|]. exfalso. rewrite (GONE x j1 Y1 Z) in Hx. discriminate.
      + intros y Uy Ny. destruct (D_disk _ _ _ SH y) as [Z|[_ Z]]; [|contradiction]. destruct (AB y Uy ltac:(congruence)) as (x & j & Hx & Pj). destruct (s_heap s3 x) as [j3|] eqn:E3.
        * destruct (D_heap _ _ _ SH x j3 E3) as (j1 & Y1 & Y2). rewrite Hx in Y1. injection Y1 as <-. apply lk_fields in Y2 as (_ & Y3 & _). exists x, j3. split; [exact E3|congruence].
        * exfalso. apply Ny. rewrite <- Pj. exact (L_disk _ _ _ _ _ _ DL eq_refl x j Hx E3). }
  match type of E with match ?X with _ => _ end = _ => destruct X as [[b s2]| |] eqn:EL end; try discriminate.
  destruct (LOOP _ s ch i W Hr Hp eq_refl eq_refl AC b s2 EL) as (-> & ch2 & i2 & W2 & R2 & Hi2 & P2 & Q2 & A2). unfold bind at 1 in E.
  destruct (delete_helper C fuel (i_handle i) true false s2) as [[rc s3]| |] eqn:ED; try discriminate. unfold ret in E. apply Ret_inj in E. injection E as <- <-. split; [reflexivity|].
  rewrite <- Q2 in ED. apply (IH s2 ch2 p i2 false rc s3 W2 R2 Hi2 Nr); [rewrite P2; exact A2|exact ED].
Qed.

(** ** All objects of a format *)
Notation good := (good C r).
Definition childless (s : fs) (fmt : N) : Prop := forall h v c w, look s h = Some v -> v_format v = Some fmt -> look s c = Some w -> v_parent w <> Some h.
Definition deletable (s : fs) (v : view) : Prop :=
  if match v_info v with Some o => oi_format o =? FMT_Association | None => false end then content s (v_path v) = Some Dir /\ entries_of (v_path v) (s_nodes s) = [] else exists d, content s (v_path v) = Some (File d).
Lemma leaf_step fuel s k p i : good s -> s_heap s p = Some i -> i_handle i = k -> k <> 0 -> (forall c w, look s c = Some w -> v_parent w <> Some k) ->
  exists s', good s' /\
    ((delete_helper C (S fuel) k true false s = Ret (R_OK, s') /\ look s' k = None /\ (forall x, x <> k -> look s' x = look s x) /\ (forall y, content s' y = if peqb y (i_path i) then None else content s y) /\
      (forall x j, s_heap s x = Some j -> x <> p -> exists j', s_heap s' x = Some j' /\ lk j j')) \/
     (delete_helper C (S fuel) k true false s = Ret (R_GeneralError, s') /\ (forall x, look s' x = look s x) /\ (forall y, content s' y = content s y) /\ s_heap s' = s_heap s /\
      ~ ((forall t, c_fail C t = false) /\ deletable s (view_of s i)))).
Proof.
  intros [[ch W] HR] Hp Hk NZ NC. assert (Nr : p <> r). { intros ->. destruct (W_root _ _ _ _ _ W) as (ri & A & _ & _ & B). congruence. }
  assert (Hf : i_first i = None).
  { destruct (i_first i) as [c|] eqn:Ef; [|reflexivity]. exfalso. pose proof (T_seg _ _ _ (W_T _ _ _ _ _ W) p i Hp) as Sg. rewrite Ef in Sg. apply seg_some in Sg as (l & El).
    destruct (wf_child _ _ _ _ _ W p i c Hp) as (ci & X1 & X2 & X3); [rewrite El; left; reflexivity|]. apply (NC (i_handle ci) (view_of s ci)); [exact (look_of C s ch r W c ci X1)|]. cbn. rewrite <- Hk. apply (parent_is C s ch r W p i c ci); assumption. }
  destruct (leaf_delete fuel s ch p i false W HR Hp Nr Hf) as (s' & ch' & W' & R' & H). rewrite Hk in H. exists s'. split; [split; [eauto|exact R']|]. destruct H as [(E & D & G & N')|(E & NS & N' & F)]; [left|right]; (split; [exact E|]).
  - pose proof (L_shr _ _ _ _ _ _ D) as S1.
    assert (KEEP : forall x j, s_heap s x = Some j -> x <> p -> exists j', s_heap s' x = Some j' /\ lk j j').
    { intros x j Hx Nx. destruct (s_heap s' x) as [j'|] eqn:E'.
      - destruct (D_heap _ _ _ S1 x j' E') as (j0 & A & B). rewrite Hx in A. injection A as <-. eauto.
      - exfalso. pose proof (D_gone _ _ _ S1 x j Hx E') as U. apply (child_below C r s ch p i W Hp x j Hx U Nx). apply (first_none C r s ch p i None W Hp). exact Hf. }
    split. { destruct (look s' k) as [v'|] eqn:E'; [|reflexivity]. exfalso. destruct (look_inv C s' ch' r W' _ _ E') as (y & yi & A1 & A2 & A3 & _). destruct (D_heap _ _ _ S1 y yi A2) as (y0 & A4 & A5). apply lk_fields in A5 as (A5 & _).
      assert (y = p) as -> by (eapply (wf_uniq _ _ _ _ _ W); eauto; try discriminate; congruence). congruence. }
    split. { intros x Nx. destruct (look s x) as [v|] eqn:Lx.
      - destruct (look_inv C s ch r W x v Lx) as (y & yi & A1 & A2 & A3 & ->). assert (Ny : y <> p) by (intros ->; congruence). destruct (KEEP y yi A2 Ny) as (y' & B1 & B2). rewrite <- Lx, <- A3. eapply look_keep; try eassumption; [apply lk_kept; exact B2|].
        intros q j Pq Hq. assert (Nq : q <> p). { intros ->. rewrite Hp in Hq. injection Hq as <-. apply (NC x _ Lx). cbn. rewrite <- Hk. apply (parent_is C s ch r W p i y yi); assumption. } destruct (KEEP q j Hq Nq) as (j' & J1 & J2). apply lk_fields in J2 as (J2 & _). eauto.
      - destruct (look s' x) as [v'|] eqn:E'; [|reflexivity]. rewrite (shr_look C r s ch s' ch' _ W W' S1 x v' E') in Lx. discriminate. }
    split; [intros y; apply N'|exact KEEP].
  - destruct (nsame_fields _ _ NS) as (G1 & _ & _ & G4 & _). destruct NS as (a & b & EE & NS). 
    split; [intros x; unfold look, view_of, parent_handle; rewrite EE; reflexivity|]. split; [intros y; unfold content; rewrite N'; reflexivity|]. split; [exact G1|]. intros [WK HD]. apply F. split; [exact WK|]. exact HD.
Qed.

Definition wantf (fmt : N) (v : view) : Prop := v_format v = Some fmt.
Lemma format_loop fuel fmt copy : negb (fmt =? 0) && negb (fmt =? FMT_Undefined) = true -> forall l resp some failed s, good s -> NoDup l ->
  (forall k, In k l -> exists p i, aget k copy = Some (Some p) /\ s_heap s p = Some i /\ i_handle i = k) -> childless s fmt ->
  exists code s', del_loop C fmt copy (S fuel) l resp some failed s = Ret (code, s') /\ good s' /\
    (forall x v, look s' x = Some v -> look s x = Some v) /\
    (forall x v, look s x = Some v -> ~ (In x l /\ wantf fmt v) -> look s' x = Some v) /\
    (forall y, content s' y = content s y \/ exists x v, In x l /\ look s x = Some v /\ wantf fmt v /\ v_path v = y) /\
    (forall x v, In x l -> look s x = Some v -> wantf fmt v -> content s' (v_path v) = (match look s' x with None => None | Some _ => content s (v_path v) end)) /\
    (code = R_OK -> (isok resp = true -> some = true) -> failed = false /\ forall x v, In x l -> look s x = Some v -> wantf fmt v -> look s' x = None) /\
    ((forall x v, In x l -> look s x = Some v -> ~ wantf fmt v) -> s' = s) /\
    ((forall t, c_fail C t = false) -> (forall x v, In x l -> look s x = Some v -> wantf fmt v -> x <> 0 /\ deletable s v) -> forall x v, In x l -> look s x = Some v -> wantf fmt v -> look s' x = None) /\
    ((some = true -> failed = true \/ resp = R_OK) -> (some = true \/ exists x v, In x l /\ look s x = Some v /\ look s' x = None) -> code = R_OK \/ code = R_PartialDeletion).
Proof.
  intros EF. induction l as [|k l IH]; intros resp some failed s G ND HL CL.
  { exists (if some && failed then R_PartialDeletion else resp), s. split; [reflexivity|]. split; [exact G|]. split; [auto|]. split; [auto|]. split; [auto|]. split; [intros x v []|]. split; [|split; [reflexivity|split; [intros _ _ x v []|]]].
    2:{ intros HI [->|(x & v & [] & _)]. cbn [andb]. destruct failed; [auto|]. destruct (HI eq_refl) as [X|X]; [discriminate|auto]. }
    intros Ec Hs. split; [|intros x v []]. destruct failed; [|reflexivity]. destruct some; cbn [andb] in Ec; [discriminate|]. subst resp. discriminate (Hs eq_refl). }
  apply NoDup_cons_iff in ND as [N1 N2]. destruct (HL k (or_introl eq_refl)) as (p & i & A1 & A2 & A3). pose proof G as [[ch W] HR].
  assert (Lk : look s k = Some (view_of s i)) by (rewrite <- A3; exact (look_of C s ch r W p i A2)).
  cbn [del_loop]. rewrite EF. unfold bind at 1. unfold bind at 1. rewrite A1. cbn [deref_opt]. unfold deref at 1. rewrite A2.
  assert (MW : wantf fmt (view_of s i) <-> match i_info i with Some o => oi_format o =? fmt | None => false end = true).
  { unfold wantf, v_format. cbn. destruct (i_info i) as [o|]; [|split; discriminate]. rewrite N.eqb_eq. split; congruence. }
  destruct (match i_info i with Some o => oi_format o =? fmt | None => false end) eqn:EM.
  2:{ unfold ret at 1. assert (NW : ~ wantf fmt (view_of s i)) by (rewrite MW; discriminate).
      destruct (IH resp (some || isok resp) (failed || negb (isok resp) && negb (resp =? R_InvalidObjectHandle)) s G N2 ltac:(intros; apply HL; right; assumption) CL) as (code & s' & E & G' & B1 & B2 & B3 & B4 & B5 & B6 & B7 & B8).
      assert (SP : forall x v, In x (k :: l) -> look s x = Some v -> wantf fmt v -> In x l) by (intros x v [<-|IN] LX WX; [rewrite Lk in LX; injection LX as <-; contradiction|exact IN]).
      exists code, s'. split; [exact E|]. split; [exact G'|]. split; [exact B1|]. split; [intros x v LX NX; apply B2; [exact LX|]; intros [X1 X2]; apply NX; split; [right; exact X1|exact X2]|].
      split; [intros y; destruct (B3 y) as [Y|(x & v & Y & Z)]; [auto|right; exists x, v; split; [right; exact Y|exact Z]]|]. split; [intros x v IN LX WX; exact (B4 x v (SP x v IN LX WX) LX WX)|].
      split. { intros Ec Hs. destruct (B5 Ec) as [B51 B52]; [intros ->; apply orb_true_r|]. apply orb_false_iff in B51 as [B51 _]. split; [exact B51|]. intros x v IN LX WX. exact (B52 x v (SP x v IN LX WX) LX WX). }
      split; [intros NO; apply B6; intros x v IN; apply NO; right; exact IN|]. split; [intros WK HD x v IN LX WX; apply (B7 WK) with (v := v); auto; [|exact (SP x v IN LX WX)]; intros x' v' IN'; apply HD; right; exact IN'|].
      intros HI HS. apply B8.
      - destruct (isok resp) eqn:IO; [intros _; right; apply N.eqb_eq; exact IO|]. rewrite orb_false_r. intros Hs. destruct (HI Hs) as [-> | ->]; [left; reflexivity|discriminate IO].
      - destruct HS as [->|(x & v & [<-|IN] & LX & NX)]; [left; reflexivity| |right; eauto]. exfalso. assert (Z : look s' k = Some v) by (apply B2; [exact LX|intros [Z _]; contradiction]). congruence. }
  assert (WK0 : wantf fmt (view_of s i)) by (apply MW; reflexivity).
  destruct (N.eq_dec k 0) as [->|NZ].
  { (* the root, which is not deleted *)
    assert (p = r) as -> by (eapply (root_handle C SO s ch r W); eassumption).
    assert (ER : delete_helper C (S fuel) 0 true false s = Ret (R_ObjectWriteProtected, s)).
    { cbn [delete_helper]. destruct (W_live _ _ _ _ _ W r i A2 ltac:(discriminate)) as [Hh _]. rewrite A3 in Hh. unfold bind at 1. unfold has_handle, get at 1. unfold ahas. rewrite Hh. cbn [negb]. unfold bind at 1. unfold handle_ref. rewrite Hh. unfold bind at 1. unfold get at 1. rewrite HR. cbn [opt_eqb]. rewrite N.eqb_refl. reflexivity. }
    rewrite ER. cbv iota beta.
    destruct (IH R_ObjectWriteProtected (some || isok R_ObjectWriteProtected) (failed || negb (isok R_ObjectWriteProtected) && negb (R_ObjectWriteProtected =? R_InvalidObjectHandle)) s G N2 ltac:(intros; apply HL; right; assumption) CL) as (code & s' & E & G' & B1 & B2 & B3 & B4 & B5 & B6 & B7 & B8).
    exists code, s'. split; [exact E|]. split; [exact G'|]. split; [exact B1|]. split; [intros x v LX NX; apply B2; [exact LX|]; intros [X1 X2]; apply NX; split; [right; exact X1|exact X2]|].
    split; [intros y; destruct (B3 y) as [Y|(x & v & Y & Z)]; [auto|right; exists x, v; split; [right; exact Y|exact Z]]|].
    split. { intros x v [<-|IN] LX WX; [|exact (B4 x v IN LX WX)]. rewrite (B2 0 v LX) by (intros [X _]; contradiction). destruct (B3 (v_path v)) as [Y|(x & u & Y1 & Y2 & Y3 & Y4)]; [exact Y|].
      exfalso. assert (x = 0) as ->; [|contradiction]. destruct (wf_consistent C SO s ch r W). pose proof (co_path _ _ Y2) as P1. pose proof (co_path _ _ LX) as P2. rewrite Y4, P2 in P1. congruence. }
    split. { intros Ec Hs. exfalso. destruct (B5 Ec) as [B51 _]; [discriminate|]. apply orb_false_iff in B51 as [_ B51]. discriminate. }
    split; [intros NO; exfalso; exact (NO 0 _ (or_introl eq_refl) Lk WK0)|]. split; [intros WK HD; exfalso; destruct (HD 0 _ (or_introl eq_refl) Lk WK0) as [Z _]; apply Z; reflexivity|].
    intros HI HS. apply B8; [intros _; left; apply orb_true_r|]. destruct HS as [->|(x & v & [<-|IN] & LX & NX)]; [left; reflexivity| |right; eauto]. exfalso. assert (Z : look s' 0 = Some v) by (apply B2; [exact LX|intros [Z _]; contradiction]). congruence. }
  destruct (leaf_step fuel s k p i G A2 A3 NZ ltac:(intros c w Lc; exact (CL k _ c w Lk WK0 Lc))) as (s1 & G1 & [(E1 & LK1 & LO & CT & HP)|(E1 & LO & CT & HP & NF)]); rewrite E1; cbv iota beta.
  - assert (CL1 : childless s1 fmt).
    { intros h v c w Lh Wh Lc. assert (Nh : h <> k) by congruence. assert (Nc : c <> k) by congruence. rewrite LO in Lh, Lc by assumption. exact (CL h v c w Lh Wh Lc). }
    assert (HL1 : forall k', In k' l -> exists p' j, aget k' copy = Some (Some p') /\ s_heap s1 p' = Some j /\ i_handle j = k').
    { intros k' IN. destruct (HL k' (or_intror IN)) as (p' & j & B1 & B2 & B3). destruct (HP p' j B2) as (j' & J1 & J2); [intros ->; congruence|]. exists p', j'. apply lk_fields in J2 as (J2 & _). repeat split; auto. congruence. }
    assert (PU : forall x v, look s x = Some v -> x <> k -> v_path v <> i_path i).
    { intros x v LX NX EP. destruct (wf_consistent C SO s ch r W). pose proof (co_path _ _ Lk) as P1. pose proof (co_path _ _ LX) as P2. cbn in P1. rewrite EP, P1 in P2. congruence. }
    destruct (IH R_OK (some || isok R_OK) (failed || negb (isok R_OK) && negb (R_OK =? R_InvalidObjectHandle)) s1 G1 N2 HL1 CL1) as (code & s' & E & G' & B1 & B2 & B3 & B4 & B5 & B6 & B7 & B8).
    assert (GK : look s' k = None) by (destruct (look s' k) as [v|] eqn:L; [apply B1 in L; congruence|reflexivity]).
    assert (BACK : forall x v, In x l -> look s x = Some v -> look s1 x = Some v) by (intros x v IN LX; rewrite LO; [exact LX|intros ->; contradiction]).
    exists code, s'. split; [exact E|]. split; [exact G'|]. split. { intros x v L. apply B1 in L. destruct (N.eq_dec x k) as [->|NX]; [congruence|]. rewrite LO in L by exact NX. exact L. }
    split. { intros x v LX NX. assert (Nk : x <> k) by (intros ->; apply NX; split; [left; reflexivity|]; rewrite Lk in LX; injection LX as <-; exact WK0). apply B2; [rewrite LO by exact Nk; exact LX|]. intros [X1 X2]. apply NX. split; [right; exact X1|exact X2]. }
    split. { intros y. destruct (B3 y) as [Y|(x & v & Y1 & Y2 & Y3 & Y4)].
      - rewrite CT in Y. destruct (peqb y (i_path i)) eqn:EY; [|auto]. apply peqb_eq in EY. right. exists k, (view_of s i). split; [left; reflexivity|]. auto.
      - right. exists x, v. split; [right; exact Y1|]. split; [|auto]. rewrite LO in Y2; [exact Y2|]. intros ->. contradiction. }
    split. { intros x v [<-|IN] LX WX.
      - rewrite GK. rewrite Lk in LX. injection LX as <-. cbn. destruct (B3 (i_path i)) as [Y|(x & u & Y1 & Y2 & Y3 & Y4)]; [rewrite Y, CT, peqb_refl; reflexivity|].
        exfalso. assert (NX : x <> k) by (intros ->; contradiction). rewrite LO in Y2 by exact NX. exact (PU x u Y2 NX Y4).
      - rewrite (B4 x v IN (BACK x v IN LX) WX). destruct (look s' x); [|reflexivity]. rewrite CT. destruct (peqb (v_path v) (i_path i)) eqn:EY; [|reflexivity]. apply peqb_eq in EY. exfalso. apply (PU x v LX); [intros ->; contradiction|exact EY]. }
    split. { intros Ec _. destruct (B5 Ec) as [B51 B52]; [intros _; apply orb_true_r|]. apply orb_false_iff in B51 as [B51 _]. split; [exact B51|]. intros x v [<-|IN] LX WX; [exact GK|]. exact (B52 x v IN (BACK x v IN LX) WX). }
    split; [intros NO; exfalso; exact (NO k _ (or_introl eq_refl) Lk WK0)|].
    split; [|intros _ _; apply B8; [intros _; right; reflexivity|left; apply orb_true_r]].
    intros WK HD x v [<-|IN] LX WX; [exact GK|]. apply (B7 WK) with (v := v); auto. intros x' v' IN' LX' WX'. assert (NX' : x' <> k) by (intros ->; contradiction). rewrite LO in LX' by exact NX'. destruct (HD x' v' (or_intror IN') LX' WX') as [H1 H2]. split; [exact H1|].
    pose proof (PU x' v' LX' NX') as PX. assert (CX : content s1 (v_path v') = content s (v_path v')). { rewrite CT. destruct (peqb (v_path v') (i_path i)) eqn:EY; [apply peqb_eq in EY; contradiction|reflexivity]. }
    unfold deletable in *. rewrite CX. destruct (match v_info v' with Some o => oi_format o =? FMT_Association | None => false end); [|exact H2]. destruct H2 as [H2 H3]. split; [exact H2|].
    destruct (entries_of (v_path v') (s_nodes s1)) as [|e es] eqn:EE; [reflexivity|exfalso].
    assert (IN2 : In e (entries_of (v_path v') (s_nodes s1))) by (rewrite EE; left; reflexivity). unfold entries_of in IN2. apply filter_In in IN2 as [I1 I2]. apply node_in in I1. change (node_at e (s_nodes s1)) with (content s1 e) in I1. rewrite CT in I1. destruct (peqb e (i_path i)); [congruence|]. apply in_node in I1.
    assert (IN3 : In e (entries_of (v_path v') (s_nodes s))) by (apply filter_In; split; assumption). rewrite H3 in IN3. exact IN3.
  - assert (CL1 : childless s1 fmt) by (intros h v c w Lh Wh Lc; rewrite LO in Lh, Lc; exact (CL h v c w Lh Wh Lc)).
    assert (HL1 : forall k', In k' l -> exists p' j, aget k' copy = Some (Some p') /\ s_heap s1 p' = Some j /\ i_handle j = k') by (intros k' IN; rewrite HP; apply HL; right; exact IN).
    destruct (IH R_GeneralError (some || isok R_GeneralError) (failed || negb (isok R_GeneralError) && negb (R_GeneralError =? R_InvalidObjectHandle)) s1 G1 N2 HL1 CL1) as (code & s' & E & G' & B1 & B2 & B3 & B4 & B5 & B6 & B7 & B8).
    exists code, s'. split; [exact E|]. split; [exact G'|]. split; [intros x v L; apply B1 in L; rewrite LO in L; exact L|].
    split. { intros x v LX NX. apply B2; [rewrite LO; exact LX|]. intros [X1 X2]. apply NX. split; [right; exact X1|exact X2]. }
    split. { intros y. destruct (B3 y) as [Y|(x & v & Y1 & Y2 & Y3 & Y4)]; [left; rewrite Y; apply CT|]. right. exists x, v. rewrite LO in Y2. split; [right; exact Y1|auto]. }
    split. { intros x v [<-|IN] LX WX.
      - rewrite (B2 k v) by (try (rewrite LO; exact LX); intros [X _]; contradiction). destruct (B3 (v_path v)) as [Y|(x & u & Y1 & Y2 & Y3 & Y4)]; [rewrite Y; apply CT|].
        exfalso. rewrite LO in Y2. assert (x = k) as ->; [|contradiction]. destruct (wf_consistent C SO s ch r W). pose proof (co_path _ _ Y2) as P1. pose proof (co_path _ _ LX) as P2. rewrite Y4, P2 in P1. congruence.
      - rewrite (B4 x v IN) by (try (rewrite LO; exact LX); exact WX). destruct (look s' x); [apply CT|reflexivity]. }
    split. { intros Ec _. exfalso. destruct (B5 Ec) as [B51 _]; [discriminate|]. apply orb_false_iff in B51 as [_ B51]. discriminate. }
    split; [intros NO; exfalso; exact (NO k _ (or_introl eq_refl) Lk WK0)|].
    split. 2:{ intros HI HS. apply B8; [intros _; left; apply orb_true_r|]. destruct HS as [->|(x & v & [<-|IN] & LX & NX)]; [left; reflexivity| |right; exists x, v; rewrite LO; auto]. exfalso. assert (Z : look s' k = Some v) by (apply B2; [rewrite LO; exact LX|intros [Z _]; contradiction]). congruence. }
    intros WK HD. exfalso. apply NF. split; [exact WK|]. destruct (HD k _ (or_introl eq_refl) Lk WK0) as [_ Z]. exact Z.
Qed.

(** ** Everything *)
Lemma acc_shrink s P p i code s' : acc s P -> s_heap s p = Some i -> under P (i_path i) = true -> deleted s p i true code s' -> s_heap s' p = None -> acc s' P.
Proof.
  intros [AA AB] Hp U DL GC. pose proof (L_shr _ _ _ _ _ _ DL) as SH. destruct (L_gone _ _ _ _ _ _ DL GC) as [_ GONE]. split.
  - intros x j Hx Ux. destruct (D_heap _ _ _ SH x j Hx) as (j1 & Y1 & Y2). pose proof (lk_assoc _ _ Y2) as Y4. apply lk_fields in Y2 as (_ & Y3 & _). rewrite Y3 in Ux |- *. rewrite Y4. specialize (AA x j1 Y1 Ux).
    destruct (D_disk _ _ _ SH (i_path j1)) as [Z|[Z _]]; [rewrite Z; exact AA|]. exfalso. rewrite (GONE x j1 Y1 Z) in Hx. discriminate.
  - intros y Uy Ny. destruct (D_disk _ _ _ SH y) as [Z|[_ Z]]; [|contradiction]. destruct (AB y Uy ltac:(congruence)) as (x & j & Hx & Pj). destruct (s_heap s' x) as [j3|] eqn:E3.
    + destruct (D_heap _ _ _ SH x j3 E3) as (j1 & Y1 & Y2). rewrite Hx in Y1. injection Y1 as <-. apply lk_fields in Y2 as (_ & Y3 & _). exists x, j3. split; [exact E3|congruence].
    + exfalso. apply Ny. rewrite <- Pj. exact (L_disk _ _ _ _ _ _ DL eq_refl x j Hx E3).
Qed.
Lemma any_loop fuel fmt copy : (forall t, c_fail C t = false) -> negb (fmt =? 0) && negb (fmt =? FMT_Undefined) = false -> forall l resp some failed s code s', good s -> acc s (c_root C) ->
  del_loop C fmt copy fuel l resp some failed s = Ret (code, s') ->
  good s' /\ acc s' (c_root C) /\ shr (c_root C) s s' /\ (forall k, In k l -> k <> 0 -> look s' k = None) /\ (exists ri, s_heap s' r = Some ri) /\
  ((failed = true \/ In 0 l) -> (some = true \/ exists k, In k l /\ k <> 0 /\ look s k <> None) -> code = R_PartialDeletion).
Proof.
  intros WK EF. 
  assert (ST : forall k s c s1, good s -> acc s (c_root C) -> delete_helper C fuel k true false s = Ret (c, s1) -> good s1 /\ acc s1 (c_root C) /\ shr (c_root C) s s1 /\ (k <> 0 -> look s1 k = None) /\ (k = 0 -> c = R_ObjectWriteProtected) /\ (k <> 0 -> look s k <> None -> c = R_OK) /\ (c = R_OK \/ s1 = s)).
  { intros k s c s1 [[ch W] HR] AC E. pose proof (delete_helper_ok C r fuel k true false s ch W HR) as DH. rewrite E in DH. destruct DH as (ch' & W' & DH). destruct (root_look C s ch r W) as (ri & RI1 & RI2 & RI3 & _).
    destruct (aget k (s_handles s)) as [[p|]|] eqn:Ek.
    2,3: destruct DH as [-> ->]; assert (LN : look s k = None) by (unfold look; rewrite Ek; reflexivity); split; [split; eauto|]; split; [exact AC|]; split; [apply shr_refl|]; split; [intros _; exact LN|]; split; [intros ->; congruence|split; [congruence|auto]].
    destruct (W_h _ _ _ _ _ W k _ Ek) as (p' & i & EP & Hp & Hk & _). injection EP as <-. destruct (p =? r) eqn:Epr.
    - destruct DH as [-> ->]. apply N.eqb_eq in Epr as ->. rewrite RI1 in Hp. injection Hp as <-. split; [split; eauto|]. split; [exact AC|]. split; [apply shr_refl|]. split; [congruence|]. split; [reflexivity|split; [congruence|auto]].
    - apply N.eqb_neq in Epr. destruct DH as (i' & Hi' & _ & DL). rewrite Hp in Hi'. injection Hi' as <-. pose proof (wf_under_root _ _ _ _ _ W p i Hp) as U. rewrite <- Hk in E.
      destruct (delete_works WK fuel s ch p i false c s1 W HR Hp Epr (acc_below _ _ _ U AC) E) as [-> GC].
      assert (NZ : k <> 0) by (intros ->; apply Epr; eapply (root_handle C SO s ch r W); eassumption).
      split; [split; [eauto|rewrite (D_root _ _ _ (L_shr _ _ _ _ _ _ DL)); exact HR]|]. split; [eapply acc_shrink; eassumption|]. split; [eapply shr_weaken; [exact U|apply (L_shr _ _ _ _ _ _ DL)]|]. split; [|split; [congruence|split; [reflexivity|auto]]].
      intros _. destruct (look s1 k) as [v'|] eqn:E'; [|reflexivity]. exfalso. destruct (look_inv C s1 ch' r W' _ _ E') as (y & yi & B1 & B2 & B3 & _). destruct (D_heap _ _ _ (L_shr _ _ _ _ _ _ DL) y yi B2) as (y0 & B4 & B5). apply lk_fields in B5 as (B5 & _).
      assert (y = p) as -> by (eapply (wf_uniq _ _ _ _ _ W); eauto; try discriminate; congruence). congruence. }
  induction l as [|k l IH]; intros resp some failed s code s' G AC E.
  { cbn [del_loop] in E. unfold ret in E. apply Ret_inj in E. injection E as <- <-. split; [exact G|]. split; [exact AC|]. split; [apply shr_refl|]. split; [intros k []|]. split; [|intros [->|[]] [->|(k & [] & _)]; reflexivity]. destruct G as [[ch W] _]. destruct (W_root _ _ _ _ _ W) as (ri & A & _). eauto. }
  cbn [del_loop] in E. rewrite EF in E. unfold bind at 1 in E. destruct (delete_helper C fuel k true false s) as [[c s1]| |] eqn:ED; try discriminate.
  destruct (ST k s c s1 G AC ED) as (G1 & AC1 & S1 & K1 & K2 & K3 & K7). pose proof (IH _ _ _ _ _ _ G1 AC1 E) as (G2 & AC2 & S2 & K4 & K5 & K6).
  split; [exact G2|]. split; [exact AC2|]. split; [eapply shr_trans; eassumption|].
  assert (GK : k <> 0 -> look s' k = None). { intros NZ. destruct (look s' k) as [v|] eqn:L; [|reflexivity]. destruct G1 as [[ch1 W1] _]. destruct G2 as [[ch2 W2] _]. apply (shr_look C r s1 ch1 s' ch2 _ W1 W2 S2) in L. rewrite K1 in L by exact NZ. discriminate. }
  split; [intros k' [<-|IN] NZ; [apply GK; exact NZ|apply K4; assumption]|]. split; [exact K5|].
  intros HF HS. apply K6; clear K6.
  - destruct HF as [->|[KZ|IN]]; [left; reflexivity| |right; exact IN]. left. rewrite (K2 KZ). apply orb_true_r.
  - destruct HS as [->|(k0 & [<-|I1] & I2 & I3)]; [left; reflexivity|left; rewrite (K3 I2 I3); apply orb_true_r|]. destruct K7 as [->| ->]; [left; apply orb_true_r|]. right. exists k0. auto.
Qed.
End DelAll.
