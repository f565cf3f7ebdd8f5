From Verif Require Import Base BulkWriter.

Lemma bw_bytes : forall evs wm zero data r wm' log,
  bw_loop evs wm zero data = Some (r, wm', log) ->
  exists rest, data = sent log ++ rest /\ (r = true <-> rest = []).
Proof.
  assert (Z : forall data : bytes, ((len data =? 0) = true <-> data = [])).
  { intros [|b d]; [easy|]. rewrite len_cons. split; [lia|discriminate]. }
  induction evs as [|e evs IH]; intros wm zero data r wm' log H; cbn [bw_loop] in H.
  - destruct (_ || _); [discriminate|]. injection H as <- <- <-. exists data. split; [reflexivity|apply Z].
  - destruct (_ || _); [|injection H as <- <- <-; exists data; split; [reflexivity|apply Z]].
    destruct e; try (injection H as <- <- <-; exists data; split; [reflexivity|apply Z]); try (eapply IH; exact H).
    + set (now := if len data <? wm then len data else wm) in *. cbn zeta in H.
      destruct (bw_loop evs wm _ (drop (N.min k now) data)) as [[[r0 w0] l0]|] eqn:E; [|discriminate].
      injection H as <- <- <-. apply IH in E as (rest & E1 & E2). exists rest. split; [|exact E2].
      cbn [sent flat_map w_bytes]. rewrite <- app_assoc. change (flat_map w_bytes l0) with (sent l0).
      rewrite <- E1. symmetry. apply take_drop.
    + destruct (PKT <? wm); [eapply IH; exact H|].
      injection H as <- <- <-; exists data; split; [reflexivity|apply Z].
Qed.

Lemma limit_half wm : write_limit wm -> PKT <? wm = true -> write_limit (wm / 2).
Proof. unfold write_limit, PKT; cbn [In]. intros [<-|[<-|[<-|[<-|[<-|[<-|[]]]]]]]; vm_compute; try discriminate; tauto. Qed.
Lemma limit_ok wm : write_limit wm -> wm mod 512 = 0 /\ 512 <= wm <= 16384.
Proof. unfold write_limit; cbn [In]. intros [<-|[<-|[<-|[<-|[<-|[<-|[]]]]]]]; vm_compute; repeat split; discriminate. Qed.

Lemma bw_limit : forall evs wm zero data r wm' log, write_limit wm ->
  bw_loop evs wm zero data = Some (r, wm', log) -> write_limit wm'.
Proof.
  induction evs as [|e evs IH]; intros wm zero data r wm' log W H; cbn [bw_loop] in H.
  - destruct (_ || _); [discriminate|]. now injection H as <- <- <-.
  - destruct (_ || _); [|now injection H as <- <- <-].
    destruct e; try (injection H as <- <- <-; exact W); try (eapply IH; [exact W|exact H]).
    + cbn zeta in H. destruct (bw_loop _ _ _ _) as [[[r0 w0] l0]|] eqn:E; [|discriminate].
      injection H as <- <- <-. eapply IH; eauto.
    + destruct (PKT <? wm) eqn:P; [|now injection H as <- <- <-].
      eapply IH; [|exact H]. now apply limit_half.
Qed.

Lemma full_repeat n : full_packets (repeat 512 n).
Proof. induction n; cbn; constructor; auto. Qed.

Lemma packets_full n : n <> 0 -> n mod 512 = 0 -> full_packets (packets n).
Proof.
  intros H M. unfold packets. destruct (n =? 0) eqn:E; [lia|].
  destruct (_ mod _ =? 0) eqn:E2; [|lia]. rewrite app_nil_r. apply full_repeat.
Qed.
Lemma packets_short n : n = 0 \/ n mod 512 <> 0 -> short_terminated (packets n).
Proof.
  intros H. unfold packets. destruct (n =? 0) eqn:E.
  - exists [], 0. repeat split; constructor.
  - destruct (_ mod _ =? 0) eqn:E2; [lia|]. exists (repeat 512 (N.to_nat (n / 512))), (n mod 512).
    split; [reflexivity|]. split; [apply full_repeat|]. apply N.mod_lt. lia.
Qed.
Lemma short_app l1 l2 : full_packets l1 -> short_terminated l2 -> short_terminated (l1 ++ l2).
Proof.
  intros F (p & s & -> & Fp & S). exists (l1 ++ p), s. rewrite app_assoc. split; [reflexivity|].
  split; [apply Forall_app; auto|exact S].
Qed.

Lemma bw_packets : forall evs wm zero data r wm' log, write_limit wm ->
  benign wm evs ->
  bw_loop evs wm zero data = Some (r, wm', log) ->
  r = true ->
  (zero = true -> len data mod 512 = 0) ->
  if zero || negb (len data mod 512 =? 0) then short_terminated (on_bus log)
  else full_packets (on_bus log).
Proof.
  induction evs as [|e evs IH]; intros wm zero data r wm' log W F H R Hz; cbn [bw_loop] in H.
  - destruct ((0 <? len data) || zero) eqn:C; [discriminate|]. injection H as <- <- <-.
    assert (len data = 0) by lia. destruct zero; [rewrite orb_true_r in C; discriminate|].
    rewrite H. change (0 mod 512 =? 0) with true. constructor.
  - destruct ((0 <? len data) || zero) eqn:C.
    2:{ injection H as <- <- <-. assert (len data = 0) as -> by lia. destruct zero; [rewrite orb_true_r in C; discriminate|].
        change (0 mod 512 =? 0) with true. constructor. }
    pose proof (limit_ok wm W) as [Wm Wb].
    destruct e; cbn [benign] in F; try contradiction; [destruct F as [Fe F]|destruct F as [Fe F]| |]; try (eapply IH; eauto; fail).
    + set (now := if len data <? wm then len data else wm) in *. cbn zeta in H.
      assert (N.min k now = now) as En by (unfold now; destruct (len data <? wm) eqn:?; lia).
      rewrite En in H.
      destruct (bw_loop evs wm _ (drop now data)) as [[[r0 w0] l0]|] eqn:E; [|discriminate].
      injection H as -> <- <-. cbn [on_bus flat_map w_bytes].
      assert (Ln : len (take now data) = now).
      { rewrite len_take. unfold now. destruct (len data <? wm) eqn:?; lia. }
      rewrite Ln. change (flat_map (fun w => packets (len (w_bytes w))) l0) with (on_bus l0).
      assert (Ld : len (drop now data) = len data - now) by apply len_drop.
      specialize (IH _ _ _ _ _ _ W F E R). rewrite Ld in IH.
      destruct (len data =? 0) eqn:D0.
      * (* the zero length packet *)
        assert (zero = true) as -> by (destruct zero; [reflexivity|lia]). cbn [orb].
        assert (now = 0) as Hn by (unfold now; destruct (len data <? wm) eqn:?; lia).
        rewrite Hn in *. replace (len data - 0) with 0 in IH by lia.
        specialize (IH ltac:(discriminate)). change (0 mod 512 =? 0) with true in IH. cbn [orb negb] in IH.
        (* after it the loop ends at once *)
        assert (Hl : l0 = []).
        { assert (drop 0 data = []) as Hd by (destruct data; [reflexivity|rewrite len_cons in D0; lia]).
          rewrite Hd in E. destruct evs; cbn in E; injection E as _ _ <-; reflexivity. }
        rewrite Hl. rewrite app_nil_r. apply packets_short. auto.
      * destruct (len data <? wm) eqn:Q.
        -- (* last data write *)
           unfold now in *. rewrite N.sub_diag in IH.
           specialize (IH ltac:(intros; reflexivity)). change (0 mod 512 =? 0) with true in IH. rewrite orb_false_r in IH.
           destruct (len data mod 512 =? 0) eqn:M; cbn [negb].
           ++ rewrite orb_false_r. assert (Fp : full_packets (packets (len data))) by (apply packets_full; lia).
              destruct zero; [now apply short_app|apply Forall_app; auto].
           ++ destruct zero; [lia|]. cbn [orb].
              assert (Hl : l0 = []).
              { rewrite drop_all in E by lia. destruct evs; cbn in E; injection E as _ _ <-; reflexivity. }
              rewrite Hl. cbn [on_bus flat_map]. rewrite app_nil_r. apply packets_short. lia.
        -- unfold now in *. assert (Mod : (len data - wm) mod 512 = len data mod 512) by lia.
           rewrite Mod in IH. specialize (IH Hz).
           assert (Fp : full_packets (packets wm)) by (apply packets_full; lia).
           destruct (zero || _); [now apply short_app|apply Forall_app; auto].
    + destruct (PKT <? wm) eqn:P; [|unfold PKT in P; lia].
      eapply IH; [|exact F|exact H|exact R|exact Hz]. now apply limit_half.
Qed.

Lemma bw_success : forall evs wm zero data r wm' log, write_limit wm -> benign wm evs ->
  bw_loop evs wm zero data = Some (r, wm', log) -> r = true.
Proof.
  induction evs as [|e evs IH]; intros wm zero data r wm' log W F H; cbn [bw_loop] in H.
  - destruct ((0 <? len data) || zero) eqn:C; [discriminate|]. injection H as <- <- <-. lia.
  - destruct ((0 <? len data) || zero) eqn:C; [|injection H as <- <- <-; lia].
    destruct e; cbn [benign] in F; try contradiction; [destruct F as [Fe F]|destruct F as [Fe F]| |]; try (eapply IH; eauto; fail).
    + cbn zeta in H. destruct (bw_loop _ _ _ _) as [[[r0 w0] l0]|] eqn:E; [|discriminate].
      injection H as <- <- <-. eapply IH; eauto.
    + destruct (PKT <? wm) eqn:P; [|unfold PKT in P; lia].
      eapply IH; [|exact F|exact H]. now apply limit_half.
Qed.

Lemma execute_prefix evs wm terminate data r wm' log :
  bw_execute evs wm terminate data = Some (r, wm', log) ->
  exists rest, data = sent log ++ rest /\ (r = true <-> rest = []).
Proof. apply bw_bytes. Qed.

Lemma execute_packets evs wm terminate data r wm' log :
  write_limit wm -> benign wm evs ->
  bw_execute evs wm terminate data = Some (r, wm', log) ->
  r = true /\ sent log = data /\ write_limit wm' /\
  (terminate = true -> short_terminated (on_bus log)) /\
  (terminate = false -> len data mod 512 = 0 -> full_packets (on_bus log)).
Proof.
  intros W B H. unfold bw_execute in H. pose proof (bw_success _ _ _ _ _ _ _ W B H) as R.
  split; [exact R|]. destruct (bw_bytes _ _ _ _ _ _ _ H) as (rest & E1 & E2).
  apply E2 in R as R2. rewrite R2, app_nil_r in E1. split; [now symmetry|].
  split; [eapply bw_limit; eauto|].
  pose proof (bw_packets _ _ _ _ _ _ _ W B H R) as P. unfold PKT in *.
  split.
  - intros ->. cbn [andb] in *. destruct (len data mod 512 =? 0) eqn:E; cbn in P.
    + apply P. lia.
    + apply P. discriminate.
  - intros -> M. cbn [andb] in *. rewrite M in P. apply P. discriminate.
Qed.

(** With enough cooperative events the transfer finishes. *)
Lemma bw_progress : forall n wm zero data, 0 < wm -> wm <= 16384 -> (length data <= n)%nat ->
  exists r wm' log, bw_loop (repeat (WOk 16384) (S n)) wm zero data = Some (r, wm', log).
Proof.
  induction n as [|n IH]; intros wm zero data W W2 L.
  - destruct data; [|cbn in L; lia]. destruct zero; cbn [repeat bw_loop]; change (0 <? len (@nil N)) with false;
      cbn [orb]; cbn zeta; [|eauto]. unfold drop. rewrite skipn_nil. change (len (@nil N) =? 0) with true.
    cbn iota. cbn [bw_loop]. change ((0 <? len (@nil N)) || false) with false. eauto.
  - change (repeat (WOk 16384) (S (S n))) with (WOk 16384 :: repeat (WOk 16384) (S n)).
    remember (repeat (WOk 16384) (S n)) as evs eqn:Ev.
    cbn [bw_loop]. destruct ((0 <? len data) || zero) eqn:C; [|eauto]. cbn zeta.
    set (m := N.min _ _).
    destruct (IH wm (if len data =? 0 then false else zero) (drop m data) W W2) as (r & w & l & E).
    { unfold drop. rewrite skipn_length. destruct data as [|b d]; [cbn; lia|].
      assert (0 < m). { unfold m. pose proof (len_cons b d). destruct (len (b :: d) <? wm) eqn:?; lia. }
      cbn [length] in *. lia. }
    rewrite E. eauto.
Qed.
Lemma execute_finishes wm terminate data : write_limit wm ->
  exists r wm' log, bw_execute (repeat (WOk 16384) (S (length data))) wm terminate data = Some (r, wm', log).
Proof. intros W. apply limit_ok in W as [_ W]. apply bw_progress; lia. Qed.

Lemma zlp_refuted : exists evs data r wm' log,
  bw_execute evs 16384 true data = Some (r, wm', log) /\ r = true /\ ~ short_terminated (on_bus log).
Proof.
  exists [WOk 512; WEshutdown], (repeat 7 512). eexists _, _, _. split; [vm_compute; reflexivity|].
  split; [reflexivity|]. intros (pre & s & E & _ & S).
  destruct pre as [|a [|b pre]]; try discriminate. injection E as E. subst s. vm_compute in S. discriminate.
Qed.
