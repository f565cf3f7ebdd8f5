(** Editing a file in place through the whole device: what the requests' writes make of
    the file (C87). *)
From Verif Require Import Base AList Wire FS FSPath FSTree FSLogic FSData FSData2 FSView FSSpec FSReach FSProps P_FS P_FS2 P_FS3 Device DeviceProofs DeviceInfo DeviceOps.
From Verif Require Responder RSpec RExt RLogic ROne2 RSession RSend ROps REdit2 P_Device.
Import Responder(act, ans, scall, ACall, r_log, r_st, r_session, r_edit).
Import ROps(script, Ask, Finish, follows, asked).
Import P_Device(at_work, mk_at_work).

(** ** One write *)
Section W.
Variables (C : conf).
(** the file of object [h] is open for the writes that follow the first *)
Definition open_for (h : N) (v : view) (first : bool) (w : fs) : Prop :=
  first = true \/ exists pos d, s_file w = Some (v_path v, pos) /\ s_write w = h /\ content w (v_path v) = Some (File d).
Definition same_but_size (v u : view) : Prop := v_path u = v_path v /\ v_parent u = v_parent v /\ v_puoid u = v_puoid v /\ v_name u = v_name v /\ v_format u = v_format v.
Lemma same_refl v : same_but_size v v. Proof. repeat split. Qed.
Lemma same_trans a b c : same_but_size a b -> same_but_size b c -> same_but_size a c.
Proof. unfold same_but_size. intros (A1 & A2 & A3 & A4 & A5) (B1 & B2 & B3 & B4 & B5). repeat split; congruence. Qed.

Lemma partial_works h off bs first last s p i d c s' : works C -> aget h (s_handles s) = Some (Some p) -> s_heap s p = Some i ->
  node_at (i_path i) (s_nodes s) = Some (File d) -> first = true \/ (exists pos, s_file s = Some (i_path i, pos) /\ s_write s = h) -> off < 9223372036854775808 ->
  write_partial C h off bs first last s = Ret (c, s') -> c = R_OK.
Proof.
  intros [WF WC] Hh Hp Hn HF LT. unfold write_partial. unfold bind at 1. unfold has_handle, get at 1. unfold ahas. rewrite Hh. cbn [negb]. unfold bind at 1, handle_ref. rewrite Hh. cbv zeta.
  change (isok R_OK) with true. cbn [andb]. set (mopen := if first then _ else _).
  assert (OPEN : exists s1 pos, mopen s = Ret (R_OK, s1) /\ s_file s1 = Some (i_path i, pos) /\ s_write s1 = h /\ node_at (i_path i) (s_nodes s1) = Some (File d)).
  { unfold mopen. destruct first.
    - unfold bind at 1, deref_opt, deref. rewrite Hp. unfold bind at 1, upd at 1. unfold bind at 1. unfold sys_open_rw. unfold bind at 1, fails, bind at 1, tick, ret at 1. unfold bind at 1, get at 1. cbn [s_nodes set_tick set_write s_tick]. rewrite WF, Hn.
      unfold ret at 1, bind, upd, ret. eexists _, 0. split; [reflexivity|]. split; [reflexivity|]. split; [reflexivity|]. exact Hn.
    - destruct HF as [X|(pos & F1 & F2)]; [discriminate|]. unfold ret. exists s, pos. auto. }
  destruct OPEN as (s1 & pos & O1 & O2 & O3 & O4). unfold bind at 1. rewrite O1. unfold bind at 1, get at 1. rewrite O2. change (isok R_OK) with true. cbv iota. unfold bind at 1. unfold bind at 1, get at 1. rewrite O3. rewrite N.eqb_refl. cbn [negb].
  unfold bind at 1, fails, bind at 1, tick, ret at 1. rewrite WF. replace (9223372036854775808 <=? off) with false by lia. cbn [orb]. unfold bind at 1, upd at 1. set (s2 := set_file _ _).
  destruct (write_loop_ok C (length bs) bs s2 (i_path i) off d eq_refl O4 (le_n _)) as (code & k & s3 & E3 & _ & _ & _ & _ & _ & _ & K). rewrite E3, (K WC). change (isok R_OK) with true. cbn [negb orb].
  set (t := if last then _ else _). unfold bind. destruct (t s3) as [[? ?]| |]; [|discriminate|discriminate]. unfold ret. intros [= <- _]. reflexivity.
Qed.
Lemma write_partial_any w h v off bs first last : supply_ok C -> reachable C w -> look w h = Some v -> open_for h v first w ->
  exists c w', write_partial C h off bs first last w = Ret (c, w') /\ reachable C w' /\
    (forall y, y <> v_path v -> content w' y = content w y) /\ (forall x, x <> h -> look w' x = look w x) /\
    (exists u, look w' h = Some u /\ same_but_size v u) /\
    (c = R_OK -> exists d, (content w (v_path v) = Some (File d) \/ first = true /\ content w (v_path v) = None /\ d = []) /\ content w' (v_path v) = Some (File (wrote d off bs)) /\
       (last = false -> open_for h v false w') /\ (last = true -> exists u o, look w' h = Some u /\ v_info u = Some o /\ oi_size o = len (wrote d off bs))) /\
    (works C -> off < 9223372036854775808 -> (exists d, content w (v_path v) = Some (File d)) -> c = R_OK).
Proof.
  intros SO R Lv OF. destruct (reachable_good C w SO R) as (r & [[ch W] HR]). destruct (look_inv C w ch r W h v Lv) as (p & i & A1 & A2 & A3 & ->).
  assert (PRE : first = false -> s_file w = None \/ exists pos d, s_file w = Some (i_path i, pos) /\ node_at (i_path i) (s_nodes w) = Some (File d)).
  { intros E. destruct OF as [X|(pos & d & X1 & _ & X2)]; [congruence|]. right. exists pos, d. auto. }
  destruct (write_partial_ok C r h off bs first last w ch p i W A1 A2 PRE) as (c & w' & E & H & O & OH & K & _). exists c, w'. split; [exact E|].
  assert (R' : reachable C w').
  { apply (reach_step C w (OPartial h off bs first last) w' R); [exists (view_of w i); split; [exact Lv|exact PRE]|]. cbn [exec]. unfold bind. rewrite E. reflexivity. }
  split; [exact R'|]. split; [exact O|].
  assert (W' : WF C w' ch r None) by (eapply wf_hsame; eassumption). destruct (H_fw _ _ H p i A2) as (i' & I1 & I2).
  assert (Lh : look w' h = Some (view_of w' i')) by (rewrite <- A3, <- (IS_h _ _ I2); exact (look_of C w' ch r W' p i' I1)).
  assert (PK : forall q j, s_heap w q = Some j -> exists j', s_heap w' q = Some j' /\ i_handle j' = i_handle j) by (intros q j Hq; destruct (H_fw _ _ H q j Hq) as (j' & J1 & J2); exists j'; split; [exact J1|apply J2]).
  assert (OL : forall x u, x <> h -> look w x = Some u -> look w' x = Some u).
  { intros x u Nx Lx. destruct (look_inv C w ch r W x u Lx) as (y & yi & B1 & B2 & <- & ->). rewrite <- Lx. eapply (look_keep C r w ch w' ch y yi yi); try eassumption.
    + rewrite OH; [exact B2|]. intros ->. congruence.
    + repeat split.
    + intros q j _ Hq. apply PK. exact Hq. }
  split; [|split; [|split]].
  - intros x Nx. destruct (look w x) as [u|] eqn:Lx; [apply OL; assumption|]. destruct (look w' x) as [u'|] eqn:Lx'; [|reflexivity]. exfalso.
    destruct (look_inv C w' ch r W' x u' Lx') as (y & yi & B1 & B2 & B3 & _). rewrite (H_handles _ _ H) in B1. destruct (H_bw _ _ H y yi B2) as (a & Q1 & Q2). pose proof (look_of C w ch r W y a Q1) as LL. rewrite <- (IS_h _ _ Q2), B3 in LL. congruence.
  - eexists. split; [exact Lh|]. unfold same_but_size. cbn [view_of v_path v_parent v_puoid]. split; [apply (IS_path _ _ I2)|].
    assert (PH : parent_handle w' i' = parent_handle w i).
    { unfold parent_handle. rewrite (IS_par _ _ I2). destruct (i_parent i) as [q|] eqn:EQ; [|reflexivity]. destruct (N.eq_dec p r) as [->|Nr]. { destruct (W_root _ _ _ _ _ W) as (ri & X & Y & _). congruence. }
      destruct (wf_parent _ _ _ _ _ W p i A2 Nr) as (q' & j & o & Q1 & Q2 & _). rewrite EQ in Q1. injection Q1 as <-. destruct (PK q j Q2) as (j' & J1 & J2). rewrite Q2, J1, J2. reflexivity. }
    split; [exact PH|]. split; [apply (IS_puoid _ _ I2)|]. unfold v_name, v_format. cbn [view_of v_info]. destruct (i_info i) as [o|] eqn:IO; [destruct (IS_info _ _ I2 o IO) as (o' & -> & N1 & _ & N3); cbn; rewrite N1, N3; auto|rewrite (IS_none _ _ I2 IO); auto].
  - intros ->. assert (HF : first = true \/ s_file w <> None) by (destruct OF as [X|(pos & d & X & _)]; [auto|right; congruence]). destruct (K eq_refl HF) as (d & D1 & D2 & D3 & D4). exists d.
    split; [destruct D1 as [D1|D1]; auto|]. split; [exact D2|]. split.
    + intros EL. right. destruct (D3 EL) as [F1 F2]. eexists _, _. split; [exact F1|]. split; [exact F2|exact D2].
    + intros EL. destruct (D4 EL) as (_ & o & O1 & O2). rewrite I1 in O2. injection O2 as ->. eexists. eexists. split; [exact Lh|]. split; reflexivity.
  - intros WK LT (d & Hd). apply (partial_works h off bs first last w p i d c w' WK A1 A2 Hd); [|exact LT|exact E]. destruct OF as [X|(pos & d' & X1 & X2 & _)]; [auto|right; exists pos; auto].
Qed.
Lemma truncate_works w h v o d size : supply_ok C -> reachable C w -> works C -> look w h = Some v -> v_info v = Some o -> oi_format o <> FMT_Association -> content w (v_path v) = Some (File d) -> size < 9223372036854775808 ->
  exists w', truncate_item C h size w = Ret (R_OK, w').
Proof.
  intros SO R [WKF _] Lv VI NF HC LT. destruct (reachable_good C w SO R) as (r & [[ch W] HR]). destruct (look_inv C w ch r W h v Lv) as (p & i & A1 & A2 & A3 & ->).
  unfold truncate_item, bind at 1, has_handle, get at 1, ahas. rewrite A1. cbn [negb]. unfold bind at 1, handle_ref. rewrite A1. unfold bind at 1, deref. rewrite A2. cbn [view_of v_info] in VI. rewrite VI.
  replace (oi_format o =? FMT_Association) with false by (symmetry; apply N.eqb_neq; exact NF). unfold bind at 1, fails, bind at 1, tick, ret at 1. unfold bind at 1, get at 1. cbn [s_nodes set_tick]. unfold content in HC. cbn [view_of v_path] in HC. rewrite HC, WKF.
  replace (9223372036854775808 <=? size) with false by lia. cbn [orb]. unfold bind at 1, upd at 1. unfold bind at 1, modify. cbn [s_heap set_nodes set_tick]. rewrite A2. eexists. reflexivity.
Qed.
End W.

(** ** The writes of a request *)
Section P.
Variables (C : conf) (fuel : nat) (rest : list (act * ans) -> act -> ans) (n : nat) (w0 : fs).
(** what the writes of [bytes] at [off] make of the storage [w], the answer being [c] *)
Definition written (w : fs) (h : N) (v : view) (off : N) (bs : bytes) (first : bool) (c : N) (w' : fs) : Prop :=
  reachable C w' /\ (forall y, y <> v_path v -> content w' y = content w y) /\ (forall x, x <> h -> look w' x = look w x) /\
  (exists u, look w' h = Some u /\ same_but_size v u) /\
  (c = R_OK -> exists d, (content w (v_path v) = Some (File d) \/ first = true /\ content w (v_path v) = None /\ d = []) /\ content w' (v_path v) = Some (File (wrote d off bs)) /\
     exists u o, look w' h = Some u /\ v_info u = Some o /\ oi_size o = len (wrote d off bs)) /\
  (works C -> off + len bs < 9223372036854775808 -> (exists d, content w (v_path v) = Some (File d)) -> c = R_OK).

Lemma play_parts h bodies : bodies <> [] -> supply_ok C -> forall off first l base w v d c ps, reachable C w -> look w h = Some v -> open_for h v first w ->
  carries C fuel rest n w0 l base w (REdit2.partial_script h off first bodies) d c ps ->
  d = None /\ ps = [] /\ exists w', state_after C fuel n w0 (l ++ base) = Ret w' /\ written w h v off (concat bodies) first c w'.
Proof.
  intros NE SO. induction bodies as [|b bodies IH]; [contradiction|]. clear NE. intros off first l base w v d c ps R Lv OF K.
  assert (HAS : ahas h (s_handles w) = true) by (unfold look, ahas in *; destruct (aget h (s_handles w)); [reflexivity|discriminate]).
  destruct bodies as [|b2 bodies].
  - cbn [REdit2.partial_script] in K. destruct (write_partial_any C w h v off b first true SO R Lv OF) as (c1 & w1 & E & R1 & O1 & O2 & O3 & O4 & O5).
    destruct (play_ask C fuel rest n w0 l base w _ _ d c ps _ (code c1) w1 K eq_refl eq_refl) as (l2 & b2 & z & EL & K2). { unfold owned, tell. rewrite HAS, E. reflexivity. }
    unfold ROps.fail in K2. destruct (play_end C fuel rest n w0 l2 b2 w1 _ _ _ d c ps K2) as (-> & -> & -> & SA). split; [reflexivity|]. split; [reflexivity|]. exists w1. rewrite <- EL. split; [exact SA|].
    cbn [concat]. rewrite app_nil_r. split; [exact R1|]. split; [exact O1|]. split; [exact O2|]. split; [exact O3|]. change (Responder.a_code (with_async z (code c1))) with c1. split.
    + intros EC. destruct (O4 EC) as (d0 & D1 & D2 & _ & D4). exists d0. auto.
    + intros WK LT X. apply O5; [exact WK|lia|exact X].
  - change (REdit2.partial_script h off first (b :: b2 :: bodies)) with (Ask (Responder.SWritePartial h off b first false) (fun a => if ROps.ok (Responder.a_code a) then REdit2.partial_script h (off + len b) false (b2 :: bodies) else ROps.fail (Responder.a_code a))) in K.
    destruct (write_partial_any C w h v off b first false SO R Lv OF) as (c1 & w1 & E & R1 & O1 & O2 & (u & U1 & U2) & O4 & O5).
    destruct (play_ask C fuel rest n w0 l base w _ _ d c ps _ (code c1) w1 K eq_refl eq_refl) as (l2 & bb & z & EL & K2). { unfold owned, tell. rewrite HAS, E. reflexivity. }
    change (Responder.a_code (with_async z (code c1))) with c1 in K2. cbn beta in K2. change (Responder.a_code (with_async z (code c1))) with c1 in K2. destruct (ROps.ok c1) eqn:OK.
    + assert (c1 = R_OK) by (apply N.eqb_eq; exact OK). subst c1. destruct (O4 eq_refl) as (d0 & D1 & D2 & D3 & _). pose proof U2 as (UP & _).
      destruct (IH ltac:(discriminate) (off + len b) false l2 bb w1 u d c ps R1 U1) as (Z1 & Z2 & w' & SA & Y1 & Y2 & Y3 & (u2 & Y4 & Y5) & Y6 & Y7); [|exact K2|].
      { destruct (D3 eq_refl) as [X|(pos & d1 & X1 & X2 & X3)]; [discriminate|]. right. exists pos, d1. rewrite UP. auto. }
      split; [exact Z1|]. split; [exact Z2|]. exists w'. rewrite <- EL. split; [exact SA|]. split; [exact Y1|]. rewrite UP in *. split; [intros y Ny; rewrite Y2, O1; auto|]. split; [intros x Nx; rewrite Y3, O2; auto|].
      split; [exists u2; split; [exact Y4|eapply same_trans; eassumption]|]. change (concat (b :: b2 :: bodies)) with (b ++ concat (b2 :: bodies)). split.
      * intros EC. destruct (Y6 EC) as (d1 & [X|(X & _)] & X2 & X3); [|discriminate]. rewrite D2 in X. injection X as <-. rewrite wrote_app in X2, X3. exists d0. auto.
      * intros WK LT X. rewrite len_app in LT. apply Y7; [exact WK|lia|eauto].
    + unfold ROps.fail in K2. destruct (play_end C fuel rest n w0 l2 bb w1 _ _ _ d c ps K2) as (-> & -> & -> & SA). split; [reflexivity|]. split; [reflexivity|]. exists w1. rewrite <- EL. split; [exact SA|].
      split; [exact R1|]. split; [exact O1|]. split; [exact O2|]. split; [exists u; auto|]. split; [intros ->; discriminate|]. intros WK LT X. exfalso. cbn [concat] in LT. rewrite len_app in LT. rewrite (O5 WK ltac:(lia) X) in OK. discriminate.
Qed.
End P.
