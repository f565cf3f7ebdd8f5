(** Any cut of a sequence of containers in USB packets reaches the responder as those containers,
    each cut in pieces at packet boundaries. *)
From Verif Require Import Base Wire WireSpec WireProofs Framing FramingProofs P_Framing Responder RSpec RLogic ROne2 Usb UsbProofs UsbReset.

(** a container whose length field states its own length *)
Definition plain_container (c : bytes) : Prop := 12 <= len c < 0xFFFFFFFF /\ le_dec (take 4 c) = len c.
(** no packet ends inside the first n bytes of the container that follows the containers c1 *)
Definition uncut (ps : list bytes) (c1 : list bytes) (n : N) : Prop :=
  forall p1 p2, ps = p1 ++ p2 -> ~ (len (concat c1) < len (concat p1) < len (concat c1) + n).

Lemma plain_declares c : plain_container c -> declares_length (fun _ => 0) c.
Proof. intros [H1 H2]. split; [lia|]. left. rewrite H2. lia. Qed.

Lemma cut_len cs pss : Forall2 cut cs pss -> len (concat (map d_data (concat (map dels pss)))) = len (concat cs).
Proof.
  induction 1 as [|c q cs pss [H1 H2] _ IH]; [reflexivity|]. cbn [map concat]. rewrite map_app, concat_app, !len_app, IH, dels_data, H1. reflexivity.
Qed.
Lemma dels_first p q r : dels (p :: q :: r) = mk_del p true false :: rest_dels (q :: r).
Proof. reflexivity. Qed.

Lemma loop_small f : forall rl i data rl' ds, frame_loop (fun _ => 0) (fun _ => false) f rl i data = Some (Ret (rl', ds)) ->
  Forall (fun d => len (d_data d) <= len data) ds.
Proof.
  induction f as [|f IH]; intros rl i data rl' ds E; [discriminate|]. cbn [frame_loop] in E. destruct data as [|b data]; [injection E as <- <-; constructor|].
  set (dd := b :: data) in *. clearbody dd. clear b data.
  destruct (start_len (fun _ => 0) rl dd) as [[rl1 st]| |] eqn:ES; [|discriminate..]. cbv zeta in E. set (first := i || st) in *. set (chunk := if len dd <? rl1 then len dd else rl1) in *.
  destruct (frame_loop _ _ f (rl1 - chunk) first (drop chunk dd)) as [[[rl3 ds3]| |]|] eqn:EL; try discriminate. injection E as <- <-.
  constructor; [cbn [d_data]; rewrite len_take; lia|]. eapply Forall_impl; [|exact (IH _ _ _ _ _ EL)]. intros d H. cbn beta in H. etransitivity; [exact H|].
  rewrite len_drop. lia.
Qed.
Lemma packets_small ps : forall rl rl' ds, frame_packets (fun _ => 0) (fun _ => false) rl ps = Some (Ret (rl', ds)) ->
  Forall (fun d => exists p, In p ps /\ len (d_data d) <= len p) ds.
Proof.
  induction ps as [|p ps IH]; intros rl rl' ds E; cbn [frame_packets] in E; [injection E as <- <-; constructor|].
  unfold frame_packet in E. destruct (frame_loop _ _ _ rl false p) as [[[rl1 d1]| |]|] eqn:E1; try discriminate. destruct (frame_packets _ _ rl1 ps) as [[[rl2 d2]| |]|] eqn:E2; try discriminate. injection E as <- <-.
  apply Forall_app. split; [eapply Forall_impl; [|exact (loop_small _ _ _ _ _ _ E1)]; intros d H; exists p; split; [left; reflexivity|exact H]|].
  eapply Forall_impl; [|exact (IH _ _ _ E2)]. intros d (x & I & H). exists x. split; [right; exact I|exact H].
Qed.
Lemma dels_pieces q : map d_data (dels q) = q.
Proof.
  destruct q as [|p [|p' q]]; [reflexivity..|]. rewrite dels_first. cbn [map d_data]. f_equal. generalize (p' :: q). clear. intros l. induction l as [|x l IH]; [reflexivity|]. destruct l as [|y l]; [reflexivity|]. change (rest_dels (x :: y :: l)) with (mk_del x false false :: rest_dels (y :: l)). cbn [map d_data]. f_equal. exact IH.
Qed.
Lemma all_pieces (P : bytes -> Prop) pss : Forall (fun d => P (d_data d)) (concat (map dels pss)) -> Forall (Forall P) pss.
Proof.
  induction pss as [|q pss IH]; intros H; [constructor|]. cbn [map concat] in H. apply Forall_app in H as [A B]. constructor; [|exact (IH B)]. rewrite <- (dels_pieces q). apply Forall_map. exact A.
Qed.

Lemma pieces ps cs : Forall plain_container cs -> concat ps = concat cs -> length_fields_uncut cs ps ->
  exists pss, Forall2 cut cs pss /\ Forall (fun q => match q with [] => False | p :: _ => 4 <= len p end) pss /\
    Forall (Forall (fun x => x <> [] /\ exists p, In p ps /\ len x <= len p)) pss /\
    (forall c1 c c2 q1 q q2 n, cs = c1 ++ c :: c2 -> pss = q1 ++ q :: q2 -> List.length c1 = List.length q1 -> n <= len c -> uncut ps c1 n ->
       exists p r, q = p :: r /\ p ++ concat r = c /\ n <= len p) /\
    (forall env formats cat props_by_type prop_desc s s',
       run env formats cat props_by_type prop_desc (concat (map data_phase pss)) s = Ret (tt, s') -> resets (r_log s') = resets (r_log s) ->
       usb_packets env formats cat props_by_type prop_desc 0 ps s = Some (Ret (0, s'))).
Proof.
  intros HP HC HL. destruct (framing_ok (fun _ => 0) (fun _ => false) cs ps (fun _ => eq_refl)) as (ds & E & EA & EN).
  { eapply Forall_impl; [|exact HP]. exact plain_declares. }
  { exact HC. }
  { exact HL. }
  pose proof (assembled ds None cs EA) as (pss & HF & HD). destruct (packets_shape ps 0 0 ds E) as (S1 & S2 & S3).
  assert (NE : Forall (Forall (fun x => x <> [] /\ exists p, In p ps /\ len x <= len p)) pss).
  { apply (all_pieces (fun x => x <> [] /\ exists p, In p ps /\ len x <= len p)). rewrite <- HD. apply Forall_and; [exact EN|exact (packets_small _ _ _ _ E)]. }
  assert (H4 : Forall (fun q => match q with [] => False | p :: _ => 4 <= len p end) pss).
  { clear -HD S1 HF HP. subst ds. revert S1 HP. induction HF as [|c q cs pss [H1 H2] _ IH]; intros S1 HP; [constructor|]. cbn [map concat] in S1. apply Forall_app in S1 as [A B]. apply Forall_cons_iff in HP as [P1 P2]. constructor; [|exact (IH B P2)].
    destruct q as [|p [|p' q]]; [contradiction| |].
    - cbn [concat] in H1. rewrite app_nil_r in H1. subst p. destruct P1; lia.
    - rewrite dels_first in A. apply Forall_cons_iff in A as [A _]. destruct (A eq_refl) as [X|X]; [exact X|discriminate]. }
  exists pss. split; [exact HF|]. split; [exact H4|]. split; [exact NE|]. split.
  - intros c1 c c2 q1 q q2 n Ec Eq Hl Hn HU.
    assert (F1 : Forall2 cut c1 q1 /\ cut c q).
    { clear -HF Ec Eq Hl. subst cs pss. revert q1 Hl HF. induction c1 as [|x c1 IH]; intros [|y q1] Hl HF; try discriminate; cbn [app] in HF; inversion HF as [|? ? ? ? A B]; subst; clear HF.
      - split; [constructor|exact A].
      - destruct (IH q1 ltac:(injection Hl; auto) B) as [I1 I2]. split; [constructor; assumption|exact I2]. }
    destruct F1 as [F1 [F2 F3]]. destruct q as [|p [|p' q]]; [contradiction|cbn [concat] in F2; rewrite app_nil_r in F2; subst p; exists c, []; cbn [concat]; rewrite app_nil_r; auto|].
    exists p, (p' :: q). split; [reflexivity|]. split; [exact F2|]. destruct (N.le_gt_cases n (len p)) as [G|G]; [exact G|exfalso].
    assert (ED : ds = concat (map dels q1) ++ mk_del p true false :: (rest_dels (p' :: q) ++ concat (map dels q2))).
    { rewrite HD, Eq, map_app, concat_app. cbn [map concat]. rewrite dels_first. reflexivity. }
    destruct (S3 _ _ _ ED eq_refl) as (p1 & p2 & Ep & Ed). apply (HU p1 p2 Ep).
    rewrite <- Ed, map_app, concat_app, len_app, (cut_len _ _ F1). cbn [map concat d_data]. rewrite app_nil_r.
    rewrite Eq in NE. apply Forall_app in NE as [_ NE]. apply Forall_cons_iff in NE as [NE _]. apply Forall_cons_iff in NE as [[N1 _] _].
    assert (0 < len p) by (destruct p; [contradiction|rewrite len_cons; lia]). lia.
  - intros env formats cat props_by_type prop_desc s s' ER EQ. apply (packets_frames env formats cat props_by_type prop_desc ps 0 s 0 ds s' E).
    + rewrite HD. clear -HF H4 HP. revert H4 HP. induction HF as [|c q cs pss [H1 H2] _ IH]; intros H4 HP; [constructor|]. cbn [map concat]. apply Forall_cons_iff in H4 as [A B]. apply Forall_cons_iff in HP as [P1 P2]. apply Forall_app. split; [|exact (IH B P2)].
      assert (T : forall p r, q = p :: r -> le_dec (take 4 p) <> 0xFFFFFFFF).
      { intros p r ->. cbn [concat] in H1. assert (X : take 4 p = take 4 c) by (rewrite <- H1; symmetry; apply take_prefix; exact A). rewrite X. destruct P1 as [P1 P3]. rewrite P3. lia. }
      destruct q as [|p [|p' q]]; [contradiction| |].
      * constructor; [|constructor]. intros _. apply (T p []). reflexivity.
      * rewrite dels_first. constructor; [intros _; apply (T p (p' :: q)); reflexivity|]. generalize (p' :: q). clear. intros l. induction l as [|x l IH]; [constructor|]. destruct l as [|y l]; [constructor; [intros X; discriminate|constructor]|].
        change (rest_dels (x :: y :: l)) with (mk_del x false false :: rest_dels (y :: l)). constructor; [intros X; discriminate|exact IH].
    + apply run_no_reset; [|exact EQ]. rewrite HD. rewrite concat_map, map_map. rewrite <- ER. f_equal. f_equal. apply map_ext. exact dels_inputs.
Qed.
