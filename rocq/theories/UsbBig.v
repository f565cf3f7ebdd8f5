(** A data container too long for its length field: 0xFFFFFFFF there, and the length taken from the
    announced size (MTPResponder::fetchObjectSize, mtpresponder.cpp:2730-2744). *)
From Verif Require Import Base Wire WireSpec WireProofs Framing Responder RSpec RLogic ROne2 RExec RSend RSend2 Usb UsbProofs UsbReset UsbWhole UsbSend UsbFail.

Section B.
Variable env : list (act * ans) -> act -> ans.
Variable formats : list N.
Variable cat : N -> N.
Variable props_by_type : N -> N * list N.
Variable prop_desc : N -> N -> N * option objpropdesc.
Notation step := (step env formats cat props_by_type prop_desc).
Notation run := (run env formats cat props_by_type prop_desc).
Notation usb_loop := (usb_loop env formats cat props_by_type prop_desc).
Notation usb_packets := (usb_packets env formats cat props_by_type prop_desc).

(** the packets after the first fill the container exactly *)
Lemma more_usb q h size bodies : forall w s s' rl, receiving q h size w s -> bodies <> [] -> Forall (fun b => 0 < len b) bodies ->
  (forall b, In b bodies -> code_of_write env h b R_OK) ->
  (forall pre b post, bodies = pre ++ b :: post -> post <> [] -> w + total (pre ++ [b]) < size) ->
  rl = total bodies -> run (more_packets bodies) s = Ret (tt, s') -> usb_packets rl bodies s = Some (Ret (0, s')).
Proof.
  induction bodies as [|b bodies IH]; intros w s s' rl HR NE NZ Hw Hpre RL E; [contradiction|].
  apply Forall_cons_iff in NZ as [Z1 Z2]. assert (NB : b <> []) by (intros ->; unfold len in Z1; cbn in Z1; lia).
  destruct bodies as [|b2 bodies].
  - cbn [total] in RL. cbn [more_packets Responder.run] in E. unfold bind in E. destruct (step (IRecv b false true) s) as [[[] s1]| |] eqn:E1; try discriminate.
    unfold ret in E. apply Ret_inj in E. apply (f_equal snd) in E. cbn [snd] in E. subst s'.
    destruct HR as (H1 & H2 & _). cbn [Usb.usb_packets].
    rewrite (mid_packet env formats cat props_by_type prop_desc rl b s s1 NB) by (try lia; replace (rl - len b =? 0) with true by (symmetry; apply N.eqb_eq; lia); exact E1).
    rewrite (waiting_step _ _ _ _ _ q s _ _ _ s1 (conj H1 H2) E1), N.eqb_refl. cbn [Usb.usb_packets]. do 3 f_equal. lia.
  - change (more_packets (b :: b2 :: bodies)) with (IRecv b false false :: more_packets (b2 :: bodies)) in E. cbn [Responder.run] in E.
    assert (Hb : w + len b < size). { specialize (Hpre [] b (b2 :: bodies) eq_refl ltac:(discriminate)). cbn in Hpre. lia. }
    destruct (send_more env formats cat props_by_type prop_desc q h size w s b b false HR eq_refl (Hw b (or_introl eq_refl)) Hb) as (s1 & r & E1 & HR1 & El & Epl & Es).
    unfold bind at 1 in E. rewrite E1 in E. set (rest := b2 :: bodies) in *. cbn [total] in RL.
    assert (TR : 0 < total rest). { unfold rest. cbn [total]. apply Forall_cons_iff in Z2 as [X _]. lia. }
    cbn [Usb.usb_packets].
    rewrite (mid_packet env formats cat props_by_type prop_desc rl b s s1 NB) by (try lia; replace (rl - len b =? 0) with false by (symmetry; apply N.eqb_neq; lia); exact E1).
    rewrite El. cbn [resets]. rewrite N.eqb_refl.
    apply (IH (w + len b) s1 s' (rl - len b) HR1); [discriminate|exact Z2|intros x Hx; apply Hw; right; exact Hx| |lia|exact E].
    intros pre x post Hx Hp. specialize (Hpre (b :: pre) x post ltac:(cbn; rewrite Hx; reflexivity) Hp). cbn [total app] in Hpre. lia.
Qed.
(** the bytes of such a container *)
Definition known_size (s : rstate) : N := match r_pl s with Some p => pl_size p | None => 0 end.
Definition long_container (s : rstate) : N := if 0xFFFFFFFF - 12 <? known_size s then known_size s + 12 else 0xFFFFFFFF.
(** the first packet *)
Lemma big_packet p n s s' : 12 <= len p -> le_dec (take 4 p) = 0xFFFFFFFF -> le_dec (take 2 (drop 4 p)) = 2 -> le_dec (take 2 (drop 6 p)) = OP_SendObject ->
  known_size s + 12 < 2^64 -> n = long_container s -> len p <= n -> step (IRecv p true (n - len p =? 0)) s = Ret (tt, s') ->
  usb_loop (S (List.length p)) 0 false p s = Some (Ret (if resets (r_log s') =? resets (r_log s) then n - len p else 0, s')).
Proof.
  intros L12 P1 P2 P3 S2 EN LE E. cbn [Usb.usb_loop]. destruct p as [|b p]; [unfold len in L12; cbn in L12; lia|]. set (d := b :: p) in *.
  unfold start_len. change (0 =? 0) with true. cbv iota. destruct (len d <? 4) eqn:E4; [apply N.ltb_lt in E4; lia|]. cbv zeta. rewrite P1.
  change (0xFFFFFFFF =? 0xFFFFFFFF) with true. cbv iota.
  assert (F : fetch_size s d = known_size s) by (unfold fetch_size; rewrite P2, P3; reflexivity). rewrite F.
  assert (R : (if 0xFFFFFFFF - 12 <? known_size s then u64 (known_size s + 12) else 0xFFFFFFFF) = n).
  { unfold long_container in EN. change (2^64) with 18446744073709551616 in S2. destruct (0xFFFFFFFF - 12 <? known_size s) eqn:X; [unfold u64; rewrite N.mod_small by lia; lia|lia]. }
  rewrite R. cbn [orb].
  replace (if len d <? n then len d else n) with (len d) by (destruct (len d <? n) eqn:X; [reflexivity|apply N.ltb_ge in X; lia]).
  rewrite (take_all (len d) d) by lia. unfold to_input. cbn [d_data d_first d_last]. rewrite E. destruct (resets (r_log s') =? resets (r_log s)); [|reflexivity].
  rewrite drop_all by lia. destruct (List.length d) eqn:L; [unfold d in L; discriminate|]. reflexivity.
Qed.
(** a command that does not reset, in a packet of its own *)
Lemma command_packet op tid ps s s' : idle s -> command_ok op tid ps -> step (command op tid ps) s = Ret (tt, s') ->
  usb_loop (S (List.length (command_bytes op tid ps))) 0 false (command_bytes op tid ps) s = Some (Ret (0, s')).
Proof.
  intros Hi Hc E. destruct (P_Usb.command_plain op tid ps Hc) as [P1 P2].
  rewrite (first_packet env formats cat props_by_type prop_desc (command_bytes op tid ps) [] (len (command_bytes op tid ps)) s s').
  - rewrite (command_no_reset env formats cat props_by_type prop_desc s _ _ _ s' Hi Hc E), N.eqb_refl. do 3 f_equal. lia.
  - lia.
  - rewrite app_nil_r. split; assumption.
  - rewrite app_nil_r. reflexivity.
  - rewrite N.sub_diag. exact E.
Qed.
(** the whole data phase *)
Theorem big_usb s s' tid ps h size hdr bodies : idle s -> command_ok OP_SendObject tid ps -> storage_is_ready env ->
  r_session s <> 0 -> tid <> 0 -> tid <> 0xFFFFFFFF -> announced s h size 0 ->
  known_size s + 12 < 2^64 -> 12 + total bodies = long_container s -> total bodies <= size ->
  hdr = spec_header 0xFFFFFFFF 2 OP_SendObject tid -> bodies <> [] -> Forall (fun b => 0 < len b) (tl bodies) ->
  (forall b, In b bodies -> code_of_write env h b R_OK) ->
  run (command OP_SendObject tid ps :: data_phase (object_packets hdr bodies)) s = Ret (tt, s') ->
  usb_packets 0 (command_bytes OP_SendObject tid ps :: object_packets hdr bodies) s = Some (Ret (0, s')).
Proof.
  intros Hi Hc Hr Hs Ht1 Ht2 HA S2 TT LE EH NE NZ Hw E. cbn [Responder.run] in E. unfold bind at 1 in E.
  assert (Hh : len hdr = 12) by (subst hdr; apply WireProofs2.spec_header_len).
  assert (Hpre : forall pre b post, bodies = pre ++ b :: post -> post <> [] -> total (pre ++ [b]) < size).
  { intros pre b post -> Hp. rewrite !P_Send.total_app in *. cbn [total]. destruct post as [|x post]; [contradiction|].
    assert (0 < len x). { rewrite Forall_forall in NZ. apply NZ. destruct pre; cbn; [left; reflexivity|]. apply in_or_app. right; right; left; reflexivity. }
    cbn [total] in LE. lia. }
  destruct (command_send env formats cat props_by_type prop_desc s tid ps h size Hi Hc Hr Hs Ht1 Ht2 HA) as (s1 & l1 & E1 & E2 & E3 & E4 & E5 & E6). rewrite E1 in E.
  cbn [Usb.usb_packets]. rewrite (command_packet _ _ _ s s1 Hi Hc E1).
  assert (KS : known_size s1 = known_size s) by (unfold known_size; rewrite E5; reflexivity).
  assert (LC : long_container s1 = long_container s) by (unfold long_container; rewrite KS; reflexivity).
  set (n := long_container s) in *.
  destruct bodies as [|b bodies]; [contradiction|]. cbn [tl] in NZ. assert (HP : is_packet true b (hdr ++ b)) by (exists hdr; auto).
  assert (B : forall s2, step (IRecv (hdr ++ b) true (n - len (hdr ++ b) =? 0)) s1 = Ret (tt, s2) ->
    usb_loop (S (List.length (hdr ++ b))) 0 false (hdr ++ b) s1 = Some (Ret (if resets (r_log s2) =? resets (r_log s1) then n - len (hdr ++ b) else 0, s2))).
  { intros s2 X. apply (big_packet (hdr ++ b) n s1 s2).
    - rewrite len_app. lia.
    - subst hdr. reflexivity.
    - subst hdr. reflexivity.
    - subst hdr. reflexivity.
    - rewrite KS. exact S2.
    - symmetry. exact LC.
    - rewrite len_app. cbn [total] in TT. lia.
    - exact X. }
  destruct bodies as [|b2 bodies].
  - cbn [object_packets data_phase Responder.run] in E. unfold bind in E. destruct (step (IRecv (hdr ++ b) true true) s1) as [[[] s2]| |] eqn:E7; try discriminate. unfold ret in E. apply Ret_inj in E. apply (f_equal snd) in E. cbn [snd] in E. subst s'.
    cbn [object_packets total] in *. assert (Z : n - len (hdr ++ b) = 0) by (rewrite len_app; lia).
    cbn [Usb.usb_packets]. rewrite (B s2) by (rewrite Z; exact E7). destruct E4 as (H1 & H2 & _). rewrite (waiting_step _ _ _ _ _ _ s1 _ _ _ s2 (conj H1 H2) E7), N.eqb_refl, Z. reflexivity.
  - change (data_phase (object_packets hdr (b :: b2 :: bodies))) with (IRecv (hdr ++ b) true false :: more_packets (b2 :: bodies)) in E. cbn [Responder.run] in E.
    assert (Hb : 0 + len b < size). { specialize (Hpre [] b (b2 :: bodies) eq_refl ltac:(discriminate)). cbn in Hpre. lia. }
    destruct (send_more env formats cat props_by_type prop_desc _ h size 0 s1 (hdr ++ b) b true E4 HP (Hw b (or_introl eq_refl)) Hb) as (s2 & r & F1 & HR1 & El & Epl & Es).
    unfold bind at 1 in E. rewrite F1 in E. set (rest := b2 :: bodies) in *.
    assert (TR : 0 < total rest). { unfold rest. cbn [total]. apply Forall_cons_iff in NZ as [X _]. lia. }
    cbn [total] in TT. cbn [object_packets Usb.usb_packets].
    rewrite (B s2) by (replace (n - len (hdr ++ b) =? 0) with false by (symmetry; apply N.eqb_neq; rewrite len_app; lia); exact F1).
    rewrite El. cbn [resets]. rewrite N.eqb_refl.
    apply (more_usb _ h size rest (0 + len b) s2 s' _ HR1); [discriminate|exact NZ|intros x Hx; apply Hw; right; exact Hx| |rewrite len_app; lia|exact E].
    intros pre x post Hx Hp. specialize (Hpre (b :: pre) x post ltac:(cbn; rewrite Hx; reflexivity) Hp). cbn [total app] in Hpre. rewrite N.add_0_l. exact Hpre.
Qed.
End B.
