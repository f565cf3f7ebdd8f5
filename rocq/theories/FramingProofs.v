From Verif Require Import Base Framing.

Lemma take_prefix {A} (l r : list A) n : n <= len l -> take n (l ++ r) = take n l.
Proof.
  intros H. unfold take. rewrite firstn_app. unfold len in H.
  replace (N.to_nat n - length l)%nat with 0%nat by lia. cbn [firstn]. now rewrite app_nil_r.
Qed.

Lemma app_cut {A} (a b c d : list A) : a ++ b = c ++ d -> len a <= len c ->
  exists x, c = a ++ x /\ b = x ++ d.
Proof.
  revert c. induction a as [|h a IH]; intros c E L.
  - exists c. auto.
  - destruct c as [|h' c]; [rewrite len_cons in L; unfold len in L; cbn in L; lia|].
    injection E as -> E. destruct (IH c E) as (x & -> & ->).
    { rewrite !len_cons in L. lia. }
    exists x. auto.
Qed.

Section P.
  Variable fetch : bytes -> N.
  Variable resets : delivery -> bool.
  Hypothesis Hres : forall d, resets d = false.
  Local Notation loop := (frame_loop fetch resets).

  Lemma start_ok c x y : declares_length fetch c -> (exists z, x = c ++ z \/ c = x ++ z) -> 4 <= len x ->
    y = x -> start_len fetch 0 y = Ret (len c, true).
  Proof.
    intros (Hl & Hd) Hz H4 ->. unfold start_len. change (0 =? 0) with true. cbn iota.
    destruct (len x <? 4) eqn:E; [lia|].
    assert (T : take 4 x = take 4 c).
    { destruct Hz as (z & [->| ->]); [apply take_prefix; lia|symmetry; apply take_prefix; lia]. }
    rewrite T. cbn zeta. destruct Hd as [[H1 H2]|[H1 H2]].
    - destruct (_ =? _) eqn:Q; [lia|]. now rewrite H2.
    - rewrite H1. change (0xFFFFFFFF =? 0xFFFFFFFF) with true. cbn iota.
      destruct (H2 x Hz H4) as [A B].
      destruct (_ <? fetch x) eqn:Q; do 2 f_equal.
      + rewrite B. unfold u64. change (2^64) with 18446744073709551616 in Hl. rewrite N.mod_small; lia.
      + lia.
  Qed.

  (** [cur]: unreceived rest of the current container, [pre]: its received part;
      [cs] the following containers. *)
  Definition open_of (pre cur : bytes) : option bytes := match cur with [] => None | _ => Some pre end.
  Definition whole (pre cur : bytes) : list bytes := match cur with [] => [] | _ => [pre ++ cur] end.

  Definition goodcut (q : bytes) (cur : bytes) (cs : list bytes) : Prop :=
    forall c1 c c2, cs = c1 ++ c :: c2 ->
      ~ (len cur + len (concat c1) < len q < len cur + len (concat c1) + 4).

  Lemma loop_nil fuel rl f : (0 < fuel)%nat -> loop fuel rl f [] = Some (Ret (rl, [])).
  Proof. destruct fuel; [lia|reflexivity]. Qed.

  Lemma loop_cons fuel rl f data rl1 st : data <> [] -> start_len fetch rl data = Ret (rl1, st) ->
    loop (S fuel) rl f data =
      let first := f || st in
      let chunk := if len data <? rl1 then len data else rl1 in
      let rl2 := rl1 - chunk in
      let d := mk_del (take chunk data) first (rl2 =? 0) in
      match loop fuel rl2 first (drop chunk data) with
      | Some (Ret (rl3, ds)) => Some (Ret (rl3, d :: ds))
      | r => r
      end.
  Proof.
    intros Hd Hs. cbn [frame_loop]. destruct data as [|b q]; [congruence|].
    rewrite Hs. cbn zeta. rewrite Hres. reflexivity.
  Qed.

  Lemma len_pos {A} (l : list A) : l <> [] -> 0 < len l.
  Proof. destruct l; [congruence|]. rewrite len_cons. lia. Qed.
  Lemma nonempty_of_pos {A} (l : list A) : 0 < len l -> l <> [].
  Proof. intros H ->. unfold len in H; cbn in H; lia. Qed.

  Lemma loop_spec : forall fuel p cur pre cs tail isF,
    (length p < fuel)%nat ->
    Forall (declares_length fetch) cs ->
    p ++ tail = cur ++ concat cs ->
    goodcut p cur cs ->
    (isF = true -> cur = []) ->
    exists cur' pre' cs' ds done,
      loop fuel (len cur) isF p = Some (Ret (len cur', ds)) /\
      tail = cur' ++ concat cs' /\
      assemble (open_of pre cur) ds = Some (done, open_of pre' cur') /\
      whole pre cur ++ cs = done ++ whole pre' cur' ++ cs' /\
      Forall (fun d => d_data d <> []) ds /\
      Forall (declares_length fetch) cs' /\ (exists X, cs = X ++ cs').
  Proof.
    induction fuel as [|fuel IH]; intros p cur pre cs tail isF Hf Hcs Hp Hg Hi; [lia|].
    destruct (list_eq_dec N.eq_dec p []) as [->|Hne].
    { rewrite loop_nil by lia. exists cur, pre, cs, [], []. cbn [assemble app] in *. repeat split; auto. exists []; reflexivity. }
    pose proof (len_pos _ Hne) as Lp.
    assert (Hfuel : (0 < fuel)%nat) by (unfold len in Lp; lia).
    destruct (list_eq_dec N.eq_dec cur []) as [->|Hcur].
    - (* a new container starts *)
      destruct cs as [|c cs].
      { cbn in Hp. destruct p; [congruence|discriminate]. }
      cbn [concat app] in Hp. apply Forall_cons_iff in Hcs as [Hc Hcs].
      assert (H4 : 4 <= len p).
      { specialize (Hg [] c cs eq_refl). cbn [concat] in Hg. rewrite !(@len_nil N) in Hg. lia. }
      assert (Hl : 12 <= len c) by apply Hc.
      assert (Hz : exists z, p = c ++ z \/ c = p ++ z).
      { destruct (N.le_gt_cases (len p) (len c)) as [L|L].
        - destruct (app_cut _ _ _ _ Hp L) as (x & -> & _). eauto.
        - destruct (app_cut _ _ _ _ (eq_sym Hp)) as (x & -> & _); [lia|]. eauto. }
      rewrite (loop_cons fuel (len []) isF p (len c) true Hne (start_ok c p p Hc Hz H4 eq_refl)).
      cbn zeta. rewrite orb_true_r.
      destruct (len p <? len c) eqn:E.
      + destruct (app_cut p tail c (concat cs) Hp) as (x & Ex & Et); [lia|].
        rewrite take_all, drop_all by lia. rewrite loop_nil by exact Hfuel.
        assert (Lx : len c - len p = len x) by (rewrite Ex, len_app; lia).
        assert (Nx : x <> []) by (apply nonempty_of_pos; lia).
        rewrite Lx. destruct (len x =? 0) eqn:E0; [lia|].
        eexists x, p, cs, [_], []. split; [reflexivity|]. split; [exact Et|].
        cbn [assemble d_first d_last d_data open_of]. split; [destruct x; [congruence|reflexivity]|].
        cbn [whole app]. split; [destruct x; [congruence|rewrite Ex; reflexivity]|].
        split; [repeat constructor; exact Hne|]. split; [exact Hcs|]. exists [c]; reflexivity.
      + destruct (app_cut c (concat cs) p tail (eq_sym Hp)) as (p2 & Ep & Et); [lia|].
        subst p. rewrite take_app_exact, drop_app_exact. rewrite N.sub_diag.
        destruct (IH p2 [] [] cs tail true) as (cur' & pre' & cs' & ds & done & R1 & R2 & R3 & R4 & R5 & R6 & X & RX); auto.
        * rewrite app_length in Hf. unfold len in Hl. lia.
        * intros c1 d c2 -> Hx. apply (Hg (c :: c1) d c2 eq_refl).
          cbn [concat]. rewrite !len_app, ?(@len_nil N) in *. lia.
        * change (len []) with 0 in R1. rewrite R1.
          eexists cur', pre', cs', (_ :: ds), (c :: done). split; [reflexivity|]. split; [exact R2|].
          cbn [assemble d_first d_last d_data open_of whole app] in *.
          rewrite N.eqb_refl. rewrite R3. split; [reflexivity|]. split; [f_equal; exact R4|].
          split; [|split; [exact R6|exists (c :: X); rewrite RX; reflexivity]]. constructor; [|exact R5]. cbn. apply nonempty_of_pos. lia.
    - (* continuing the current container *)
      pose proof (len_pos _ Hcur) as Lc.
      assert (isF = false) as -> by (destruct isF; [exfalso; auto|reflexivity]).
      assert (Hs : start_len fetch (len cur) p = Ret (len cur, false)).
      { unfold start_len. destruct (len cur =? 0) eqn:E; [lia|reflexivity]. }
      rewrite (loop_cons fuel (len cur) false p _ _ Hne Hs). cbn zeta. cbn [orb].
      destruct (len p <? len cur) eqn:E.
      + destruct (app_cut p tail cur (concat cs) Hp) as (x & Ex & Et); [lia|].
        rewrite take_all, drop_all by lia. rewrite loop_nil by exact Hfuel.
        assert (Lx : len cur - len p = len x) by (rewrite Ex, len_app; lia).
        assert (Nx : x <> []) by (apply nonempty_of_pos; lia).
        rewrite Lx. destruct (len x =? 0) eqn:E0; [lia|].
        eexists x, (pre ++ p), cs, [_], []. split; [reflexivity|]. split; [exact Et|].
        assert (O : open_of pre cur = Some pre) by (destruct cur; [congruence|reflexivity]).
        cbn [assemble d_first d_last d_data]. rewrite O. split; [destruct x; [congruence|reflexivity]|].
        assert (W : whole pre cur = [pre ++ cur]) by (destruct cur; [congruence|reflexivity]). rewrite W.
        split; [destruct x; [congruence|]; cbn [whole app]; rewrite Ex, <- app_assoc; reflexivity|].
        split; [repeat constructor; exact Hne|]. split; [exact Hcs|]. exists []; reflexivity.
      + destruct (app_cut cur (concat cs) p tail (eq_sym Hp)) as (p2 & Ep & Et); [lia|].
        subst p. rewrite take_app_exact, drop_app_exact. rewrite N.sub_diag.
        destruct (IH p2 [] [] cs tail false) as (cur' & pre' & cs' & ds & done & R1 & R2 & R3 & R4 & R5 & R6 & X & RX); auto.
        * rewrite app_length in Hf. unfold len in Lc. lia.
        * intros c1 d c2 -> Hx. apply (Hg c1 d c2 eq_refl).
          rewrite !len_app, ?(@len_nil N) in *. lia.
        * change (len []) with 0 in R1. rewrite R1.
          eexists cur', pre', cs', (_ :: ds), ((pre ++ cur) :: done). split; [reflexivity|]. split; [exact R2|].
          assert (O : open_of pre cur = Some pre) by (destruct cur; [congruence|reflexivity]).
          assert (W : whole pre cur = [pre ++ cur]) by (destruct cur; [congruence|reflexivity]).
          cbn [assemble d_first d_last d_data whole app] in *. rewrite O, W.
          rewrite N.eqb_refl. cbn [open_of] in R3. rewrite R3. split; [reflexivity|]. split; [cbn [app]; f_equal; exact R4|].
          split; [|split; [exact R6|exists X; exact RX]]. constructor; [|exact R5]. cbn. exact Hcur.
  Qed.

  Lemma assemble_app : forall d1 d2 o done o',
    assemble o d1 = Some (done, o') ->
    assemble o (d1 ++ d2) = match assemble o' d2 with Some (cs, r) => Some (done ++ cs, r) | None => None end.
  Proof.
    induction d1 as [|d d1 IH]; intros d2 o done o' H; cbn [assemble app] in *.
    - injection H as <- <-. cbn. destruct (assemble o d2) as [[? ?]|]; reflexivity.
    - destruct o as [a|], (d_first d); try discriminate; destruct (d_last d).
      + destruct (assemble None d1) as [[cs r]|] eqn:E; [|discriminate]. injection H as <- <-.
        rewrite (IH d2 _ _ _ E). destruct (assemble r d2) as [[? ?]|]; reflexivity.
      + rewrite (IH d2 _ _ _ H). reflexivity.
      + destruct (assemble None d1) as [[cs r]|] eqn:E; [|discriminate]. injection H as <- <-.
        rewrite (IH d2 _ _ _ E). destruct (assemble r d2) as [[? ?]|]; reflexivity.
      + rewrite (IH d2 _ _ _ H). reflexivity.
  Qed.

  Lemma declares_nonempty l : Forall (declares_length fetch) l -> concat l = [] -> l = [].
  Proof.
    destruct l as [|c l]; [reflexivity|]. intros H E. apply Forall_cons_iff in H as [(H & _) _].
    cbn in E. apply app_eq_nil in E as [-> _]. rewrite (@len_nil N) in H. lia.
  Qed.

  Lemma packets_spec : forall ps cur pre cs,
    Forall (declares_length fetch) cs ->
    concat ps = cur ++ concat cs ->
    (forall p1 p2, ps = p1 ++ p2 -> goodcut (concat p1) cur cs) ->
    exists ds, frame_packets fetch resets (len cur) ps = Some (Ret (0, ds)) /\
      assemble (open_of pre cur) ds = Some (whole pre cur ++ cs, None) /\
      Forall (fun d => d_data d <> []) ds.
  Proof.
    induction ps as [|p ps IH]; intros cur pre cs Hcs Hp Hg.
    - cbn [concat] in Hp. symmetry in Hp. apply app_eq_nil in Hp as [-> E].
      apply declares_nonempty in E; [|exact Hcs]. subst cs. exists []. cbn. auto.
    - cbn [concat] in Hp.
      destruct (loop_spec (S (length p)) p cur pre cs (concat ps) false) as
        (cur' & pre' & cs' & ds & done & R1 & R2 & R3 & R4 & R5 & R6 & X & RX); auto; try discriminate.
      { specialize (Hg [p] ps eq_refl). cbn [concat] in Hg. now rewrite app_nil_r in Hg. }
      destruct (IH cur' pre' cs' R6 R2) as (ds' & S1 & S2 & S3).
      { intros p1 p2 -> c1 c c2 -> Hx.
        apply (Hg (p :: p1) p2 eq_refl (X ++ c1) c c2); [now rewrite RX, <- app_assoc|].
        cbn [concat]. rewrite concat_app, !len_app.
        assert (len p + len cur' = len cur + len (concat X)).
        { apply (f_equal len) in Hp. rewrite R2, RX in Hp. rewrite ?concat_app, ?len_app in Hp. cbn [concat] in Hp. rewrite ?len_app in Hp. lia. }
        lia. }
      cbn [frame_packets]. unfold frame_packet. rewrite R1, S1.
      exists (ds ++ ds'). split; [reflexivity|]. split.
      + rewrite (assemble_app _ _ _ _ _ R3), S2. now rewrite R4.
      + apply Forall_app. auto.
  Qed.
End P.

Lemma framing_ok fetch resets cs ps :
  (forall d, resets d = false) -> Forall (declares_length fetch) cs ->
  concat ps = concat cs -> length_fields_uncut cs ps ->
  exists ds, frame_packets fetch resets 0 ps = Some (Ret (0, ds)) /\
    assemble None ds = Some (cs, None) /\ Forall (fun d => d_data d <> []) ds.
Proof.
  intros Hr Hcs Hp Hu.
  destruct (packets_spec fetch resets Hr ps [] [] cs Hcs Hp) as (ds & H1 & H2 & H3); [|exists ds; auto].
  intros p1 p2 E c1 c c2 E2 Hx. apply (Hu p1 p2 c1 c c2 E E2).
  rewrite !(@len_nil N) in Hx. lia.
Qed.

(** Termination *)
Lemma loop_term fetch resets : forall fuel rl f data, (length data < fuel)%nat ->
  frame_loop fetch resets fuel rl f data = None ->
  exists x, container_start fetch rl data x /\ x <> [] /\ start_len fetch 0 x = Ret (0, true).
Proof.
  induction fuel as [|fuel IH]; intros rl f data Hl H; [lia|]. cbn [frame_loop] in H.
  destruct data as [|b q] eqn:E; [discriminate|]. rewrite <- E in *.
  assert (Hd : data <> []) by (subst; discriminate). clear E b q.
  destruct (start_len fetch rl data) as [[rl1 st]| |] eqn:S; try discriminate.
  cbn zeta in H. destruct (resets _); [discriminate|].
  assert (Cases : (rl = 0 /\ st = true) \/ (rl <> 0 /\ rl1 = rl)).
  { unfold start_len in S. destruct (rl =? 0) eqn:Z.
    - left. split; [lia|]. destruct (len data <? 4); [discriminate|]. cbn zeta in S.
      destruct (_ =? 0xFFFFFFFF); apply Ret_inj, (f_equal snd) in S; cbn [snd] in S; congruence.
    - right. apply Ret_inj, (f_equal fst) in S; cbn [fst] in S. split; [lia|congruence]. }
  destruct (N.eq_dec rl1 0) as [->|Hn].
  - destruct Cases as [[-> ->]|[A B]]; [|congruence].
    exists data. split; [constructor|]. auto.
  - set (chunk := if len data <? rl1 then len data else rl1) in *.
    pose proof (len_pos _ Hd) as Lp.
    assert (Hc : 0 < chunk) by (unfold chunk; destruct (len data <? rl1); lia).
    destruct (frame_loop fetch resets fuel (rl1 - chunk) (f || st) (drop chunk data)) as [r|] eqn:R.
    { destruct r as [[? ?]| |]; discriminate. }
    destruct (len data <? rl1) eqn:Q.
    + exfalso. unfold chunk in R. rewrite drop_all in R by lia.
      destruct fuel; [unfold len in Lp; lia|discriminate].
    + unfold chunk in R. rewrite N.sub_diag in R.
      assert (Lt : len (take rl1 data) = rl1) by (rewrite len_take; lia).
      apply IH in R. 2:{ unfold drop. rewrite skipn_length. unfold len in *. lia. }
      destruct R as (x & E1 & E2 & E3). exists x. split; [|auto].
      assert (Na : take rl1 data <> []) by (apply nonempty_of_pos; lia).
      rewrite <- (take_drop rl1 data). destruct Cases as [[-> ->]|[A B]].
      * apply cs_next; [exact Na| |exact E1]. rewrite take_drop, Lt. exact S.
      * subst rl1. rewrite <- Lt at 1. apply cs_rest; assumption.
Qed.

Lemma hang : forall fuel, frame_loop (fun _ => 0) (fun _ => false) fuel 0 false [0; 0; 0; 0] = None.
Proof.
  assert (H : forall fuel f, frame_loop (fun _ => 0) (fun _ => false) fuel 0 f [0; 0; 0; 0] = None).
  { induction fuel as [|n IH]; intros f; [reflexivity|]. cbn [frame_loop].
    change (start_len (fun _ => 0) 0 [0; 0; 0; 0]) with (@Ret (N * bool) (0, true)). cbn iota zeta beta.
    change (len [0;0;0;0] <? 0) with false. cbn iota. change (drop 0 [0; 0; 0; 0]) with [0;0;0;0].
    change (0 - 0) with 0. now rewrite IH. }
  intros; apply H.
Qed.

Lemma start_zero fetch x : start_len fetch 0 x = Ret (0, true) -> (forall d, fetch d < 2^64 - 12) ->
  4 <= len x /\ le_dec (take 4 x) = 0.
Proof.
  intros H Hf. unfold start_len in H. change (0 =? 0) with true in H. cbn iota in H.
  destruct (len x <? 4) eqn:E; [discriminate|]. cbn zeta in H.
  destruct (_ =? 0xFFFFFFFF) eqn:Q.
  - exfalso. apply Ret_inj in H. injection H as H. specialize (Hf x).
    change (2^64) with 18446744073709551616 in Hf. unfold u64 in H.
    destruct (_ <? fetch x) eqn:W; [rewrite N.mod_small in H|]; lia.
  - apply Ret_inj in H. injection H as H. split; lia.
Qed.

Lemma terminates_unless_zero fetch resets rl data :
  (forall d, fetch d < 2^64 - 12) ->
  (forall x, container_start fetch rl data x -> 4 <= len x -> le_dec (take 4 x) <> 0) ->
  exists r, frame_packet fetch resets rl data = Some r.
Proof.
  intros Hf Hz. unfold frame_packet. destruct (frame_loop _ _ _ _ _ _) as [r|] eqn:E; [eauto|].
  exfalso. apply loop_term in E; [|lia]. destruct E as (x & E1 & E2 & E3).
  apply start_zero in E3 as [L Z]; [|exact Hf]. eapply Hz; eauto.
Qed.
Lemma loop_reset fetch resets : forall fuel rl f data rl' ds,
  frame_loop fetch resets fuel rl f data = Some (Ret (rl', ds)) -> (exists d, In d ds /\ resets d = true) ->
  rl' = 0 /\ exists before d, ds = before ++ [d] /\ resets d = true /\ Forall (fun x => resets x = false) before.
Proof.
  induction fuel as [|n IH]; intros rl f data rl' ds H X; [discriminate|]. cbn [frame_loop] in H.
  destruct data as [|b data]; [injection H as <- <-; destruct X as (d & [] & _)|].
  destruct (start_len fetch rl (b :: data)) as [[rl1 st]| |]; try discriminate.
  set (chunk := if len (b :: data) <? rl1 then len (b :: data) else rl1) in *.
  set (d0 := mk_del (take chunk (b :: data)) (f || st) (rl1 - chunk =? 0)) in *.
  destruct (resets d0) eqn:R.
  - injection H as <- <-. split; [reflexivity|]. exists [], d0. auto.
  - destruct (frame_loop fetch resets n (rl1 - chunk) (f || st) (drop chunk (b :: data))) as [[[rl3 ds3]| |]|] eqn:E; try discriminate.
    injection H as <- <-. destruct (IH _ _ _ _ _ E) as (-> & before & d & -> & Hd & Hb).
    { destruct X as (d & [<-|Hi] & Hd); [congruence|eauto]. }
    split; [reflexivity|]. exists (d0 :: before), d. auto.
Qed.
