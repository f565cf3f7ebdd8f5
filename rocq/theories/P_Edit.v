(** C87: editing an object in place (BeginEditObject, SendPartialObject64,
    TruncateObject64, EndEditObject), from the request to the file. *)
From Verif Require Import Base AList Wire FS FSPath FSTree FSLogic FSData FSView FSSpec FSReach FSProps FSDemo P_FS P_FS2 P_FS3 P_FS4 P_FSProps Device DeviceProofs DeviceRead DeviceInfo DeviceOps DeviceEdit P_Device P_DeviceOps.
From Verif Require WireSpec Responder RSpec RExt RLogic RGate ROne2 RSession RSend ROps REdit2 RDemo.
Import Responder(act, ans, scall, rstate, r_log, r_st, r_session, r_edit, OP_BeginEditObject, OP_EndEditObject, OP_TruncateObject64, OP_SendPartialObject64).
Import RSpec(responses, datas, command_ok, tables_ok).
Import ROne2(command, data_phase).
Import RSession(resp_out).
Import RSend(object_packets).
Import ROps(follows, asked, Ask, Finish).

(** ** Specification *)
(** the object being edited *)
Definition editing (s : rstate) : option N := option_map fst (r_edit s).
(** the request [i] is answered with one response [c] without parameters and no data, the session goes on *)
Definition answered (D : list (act * ans) -> act -> ans) formats cat pt pd i s s' tid c : Prop :=
  exists l, Responder.run D formats cat pt pd i s = Ret (tt, s') /\ r_st s' = Responder.IDLE /\ r_session s' = r_session s /\ r_log s' = l ++ r_log s /\ datas l = [] /\ responses l = [resp_out c tid []].
(** why a request to change [h] in place is refused: nothing is being edited, or another object is *)
Definition not_editing (s : rstate) (h c : N) : Prop :=
  (editing s = None /\ c = R_GeneralError) \/ (exists e, editing s = Some e /\ e <> h /\ c = R_InvalidObjectHandle).
Definition reports_size (w : fs) (h size : N) : Prop := exists u o, look w h = Some u /\ v_info u = Some o /\ oi_size o = size.

(** ** Proofs *)
Lemma play_none C fuel rest n w0 l base w c k d code ps : carries C fuel rest n w0 l base w (Ask c k) d code ps -> RSpec.harmless c = false -> storage C fuel c = None ->
  exists l2 base2 r, l2 ++ base2 = l ++ base /\ carries C fuel rest n w0 l2 base2 w (k r) d code ps.
Proof.
  intros (LE & E & AG & F) H ST. inversion F as [|? ? r' conv ? ? ? H' F' EQ1 EQ2|? ? ? ? ? ? ? H']; [subst|congruence].
  destruct (first_asked l c r' conv ltac:(congruence)) as (l2 & n0 & -> & A & B & _). exists l2, ((Responder.ACall c, r') :: n0 ++ base), r'.
  pose proof (quiet_after C fuel rest n w0 base w n0 LE E A) as E2.
  split; [rewrite <- app_assoc; reflexivity|]. split; [cbn [length]; rewrite app_length; lia|]. split.
  { cbn [state_after]. replace (length ((Responder.ACall c, r') :: n0 ++ base) <=? n)%nat with false by (symmetry; apply Nat.leb_gt; cbn [length]; rewrite app_length; lia). rewrite ST. exact E2. }
  split; [|rewrite B; exact F'].
  intros pre a x l E3 L3. apply (AG pre a x l); [rewrite <- E3, <- app_assoc; reflexivity|]. cbn [length] in L3. rewrite app_length in L3. lia.
Qed.
Lemma carried C fuel rest formats cat pt pd i s s' l w sc d c ps : Responder.run (device C fuel rest (length (r_log s)) w) formats cat pt pd i s = Ret (tt, s') -> r_log s' = l ++ r_log s -> follows sc (asked l) d c ps ->
  carries C fuel rest (length (r_log s)) w l (r_log s) w sc d c ps.
Proof.
  intros E L F. destruct (RExt.run_recorded _ _ _ _ _ _ _ _ E) as (d' & _ & AG). rewrite L in AG. split; [lia|]. split; [apply after_base; reflexivity|]. split; [exact AG|exact F].
Qed.
Lemma refused_kept C fuel rest formats cat pt pd i s s' w c tid : reachable C w -> Responder.run (device C fuel rest (length (r_log s)) w) formats cat pt pd i s = Ret (tt, s') ->
  REdit2.ends s s' (ROps.fail c) tid -> answered (device C fuel rest (length (r_log s)) w) formats cat pt pd i s s' tid c /\ storage_kept C fuel s s' w.
Proof.
  intros R E (l & c' & A1 & A2 & A3 & A4 & A5 & A6). pose proof (carried _ _ _ _ _ _ _ _ _ _ _ _ _ _ _ _ E A3 A4) as K. apply play_end in K as (_ & -> & _ & K). rewrite <- A3 in K.
  split; [exists l; auto 10|]. exists w. auto.
Qed.

(** SendPartialObject64: while editing the object the data replaces the bytes at the offset
    (a gap is filled with zeros); otherwise nothing happens *)
Theorem C87_send_partial : forall C fuel rest formats cat props_by_type prop_desc s w tid h lo hi n hdr bodies,
  at_work C rest s w -> command_ok OP_SendPartialObject64 tid [h; lo; hi; n] -> tid <> 0 -> tid <> 0xFFFFFFFF ->
  (* the data, cut into packets in any way *)
  len hdr = 12 -> bodies <> [] -> let off := hi * 2^32 + lo in off + len (concat bodies) < 2^64 ->
  exists s' c, answered (device C fuel rest (length (r_log s)) w) formats cat props_by_type prop_desc (command OP_SendPartialObject64 tid [h; lo; hi; n] :: data_phase (object_packets hdr bodies)) s s' tid c /\
    editing s' = editing s /\
    (not_editing s h c /\ storage_kept C fuel s s' w \/
     editing s = Some h /\ (look w h = None -> c = R_InvalidObjectHandle /\ storage_kept C fuel s s' w) /\
     forall v, look w h = Some v -> exists w', state_after C fuel (length (r_log s)) w (r_log s') = Ret w' /\ reachable C w' /\
       (* nothing but the file is touched *)
       (forall y, y <> v_path v -> content w' y = content w y) /\ (forall x, x <> h -> look w' x = look w x) /\ (exists u, look w' h = Some u /\ same_but_size v u) /\
       (* success: the bytes are there, and the size is right *)
       (c = R_OK -> exists d d', (content w (v_path v) = Some (File d) \/ content w (v_path v) = None /\ d = []) /\ content w' (v_path v) = Some (File d') /\
          patched d off (concat bodies) d' /\ reports_size w' h (len d')) /\
       (* and it succeeds if the file is there and the disk works *)
       (works C -> off + len (concat bodies) < 2^63 -> (exists d, content w (v_path v) = Some (File d)) -> c = R_OK)).
Proof.
  intros C fuel rest formats cat pt pd s w tid h lo hi n hdr bodies AW CO T1 T2 H12 NE off LT. pose proof AW as [SO R Q T RD ID SE]. set (D := device C fuel rest (length (r_log s)) w).
  destruct (REdit2.send_partial_ok D formats cat pt pd (device_undisturbed C fuel rest _ w Q) s tid h lo hi n hdr bodies (device_ready C fuel rest _ w RD) ID CO SE T1 T2 H12 NE LT) as (s' & E & EN & ED).
  fold off in EN. exists s'. unfold REdit2.only_editing in EN. unfold editing. destruct (r_edit s) as [[e x]|] eqn:RE.
  2:{ destruct (refused_kept _ _ _ _ _ _ _ _ _ _ _ _ _ R E EN) as [A B]. exists R_GeneralError. split; [exact A|]. split; [exact ED|]. left. split; [left; unfold editing; rewrite RE; auto|exact B]. }
  destruct (e =? h) eqn:EH.
  2:{ destruct (refused_kept _ _ _ _ _ _ _ _ _ _ _ _ _ R E EN) as [A B]. exists R_InvalidObjectHandle. split; [exact A|]. split; [exact ED|]. left. split; [right; exists e; unfold editing; rewrite RE; apply N.eqb_neq in EH; auto|exact B]. }
  apply N.eqb_eq in EH. subst e. destruct EN as (l & c & A1 & A2 & A3 & A4 & A5 & A6). exists c. split; [exists l; auto 10|]. split; [exact ED|]. right. split; [reflexivity|].
  pose proof (carried _ _ _ _ _ _ _ _ _ _ _ _ _ _ _ _ E A3 A4) as K. split.
  - intros LK. assert (NH : ahas h (s_handles w) = false). { destruct (ahas h (s_handles w)) eqn:X; [|reflexivity]. exfalso. exact (proj1 (known_look C SO w h R) X LK). }
    destruct bodies as [|b bodies]; [contradiction|].
    assert (EM : forall b f la m, storage C fuel (Responder.SWritePartial h off b f la) = Some m -> m w = Ret (code R_InvalidObjectHandle, w)) by (intros ? ? ? m [= <-]; unfold owned; rewrite NH; reflexivity).
    destruct bodies as [|b2 bodies].
    + destruct (play_ask C fuel rest _ w l _ w _ _ None c [] _ _ _ K eq_refl eq_refl (EM _ _ _ _ eq_refl)) as (l1 & b1 & z & E1 & K1). apply play_end in K1 as (_ & -> & _ & K1). split; [reflexivity|]. exists w. rewrite A3, <- E1. auto.
    + change (REdit2.partial_script h off true (b :: b2 :: bodies)) with (Ask (Responder.SWritePartial h off b true false) (fun a => if ROps.ok (Responder.a_code a) then REdit2.partial_script h (off + len b) false (b2 :: bodies) else ROps.fail (Responder.a_code a))) in K.
      destruct (play_ask C fuel rest _ w l _ w _ _ None c [] _ _ _ K eq_refl eq_refl (EM _ _ _ _ eq_refl)) as (l1 & b1 & z & E1 & K1). change (ROps.ok _) with false in K1. cbv iota in K1. apply play_end in K1 as (_ & -> & _ & K1). split; [reflexivity|]. exists w. rewrite A3, <- E1. auto.
  - intros v LK. destruct (play_parts C fuel rest (length (r_log s)) w h bodies NE SO off true l (r_log s) w v None c [] R LK (or_introl eq_refl) K) as (_ & _ & w' & SA & B1 & B2 & B3 & B4 & B5 & B6).
    exists w'. rewrite A3. split; [exact SA|]. split; [exact B1|]. split; [exact B2|]. split; [exact B3|]. split; [exact B4|]. split; [|exact B6].
    intros EC. destruct (B5 EC) as (d & D1 & D2 & D3). exists d, (wrote d off (concat bodies)). split; [destruct D1 as [D1|(_ & D1)]; auto|]. split; [exact D2|]. split; [apply wrote_patched|exact D3].
Qed.
(** TruncateObject64: the file gets the size, 64 bits of it; what is cut off is gone, what
    is added is zero *)
Theorem C87_truncate : forall C fuel rest formats cat props_by_type prop_desc s w tid h lo hi,
  at_work C rest s w -> command_ok OP_TruncateObject64 tid [h; lo; hi] -> tid <> 0 -> tid <> 0xFFFFFFFF -> let size := hi * 2^32 + lo in
  exists s' c, answered (device C fuel rest (length (r_log s)) w) formats cat props_by_type prop_desc [command OP_TruncateObject64 tid [h; lo; hi]] s s' tid c /\ editing s' = editing s /\
    (not_editing s h c /\ storage_kept C fuel s s' w \/
     editing s = Some h /\ (c <> R_OK -> storage_kept C fuel s s' w) /\ (look w h = None -> c = R_InvalidObjectHandle) /\
     (c = R_OK -> exists w' v d d', state_after C fuel (length (r_log s)) w (r_log s') = Ret w' /\ reachable C w' /\
        look w h = Some v /\ ~ v_folder v /\ content w (v_path v) = Some (File d) /\ content w' (v_path v) = Some (File d') /\
        len d' = size /\ (forall k, k < size -> byte d' k = (if k <? len d then byte d k else Some 0)) /\
        (forall y, y <> v_path v -> content w' y = content w y) /\ reports_size w' h size) /\
     (* and it succeeds if the file is there and the disk works *)
     (works C -> size < 2^63 -> forall v d o, look w h = Some v -> v_info v = Some o -> oi_format o <> FMT_Association -> content w (v_path v) = Some (File d) -> c = R_OK)).
Proof.
  intros C fuel rest formats cat pt pd s w tid h lo hi AW CO T1 T2 size. pose proof AW as [SO R Q T RD ID SE]. set (D := device C fuel rest (length (r_log s)) w).
  destruct (REdit2.truncate_ok D formats cat pt pd (device_undisturbed C fuel rest _ w Q) s tid h lo hi (device_ready C fuel rest _ w RD) ID CO SE T1 T2) as (s' & E & EN & ED).
  fold size in EN. exists s'. unfold REdit2.only_editing in EN. unfold editing. destruct (r_edit s) as [[e x]|] eqn:RE.
  2:{ destruct (refused_kept _ _ _ _ _ _ _ _ _ _ _ _ _ R E EN) as [A B]. exists R_GeneralError. split; [exact A|]. rewrite ED. split; [reflexivity|]. left. split; [left; unfold editing; rewrite RE; auto|exact B]. }
  destruct (e =? h) eqn:EH.
  2:{ destruct (refused_kept _ _ _ _ _ _ _ _ _ _ _ _ _ R E EN) as [A B]. exists R_InvalidObjectHandle. split; [exact A|]. rewrite ED. split; [reflexivity|]. left. split; [right; exists e; unfold editing; rewrite RE; apply N.eqb_neq in EH; auto|exact B]. }
  apply N.eqb_eq in EH. subst e. destruct EN as (l & c & A1 & A2 & A3 & A4 & A5 & A6). exists c. split; [exists l; auto 10|]. split; [rewrite ED; reflexivity|]. right. split; [reflexivity|].
  pose proof (carried _ _ _ _ _ _ _ _ _ _ _ _ _ _ _ _ E A3 A4) as K.
  pose proof (known_look C SO w h R) as KL. destruct (look w h) as [v|] eqn:LK.
  - destruct (reachable_good C w SO R) as (r & [[ch W] HR]). destruct (FSData2.truncate_item_ok C r h size w ch W) as (c1 & w1 & ET & _). destruct (C51_truncate C w h size c1 w1 SO R ET) as [TO TN].
    assert (R1 : reachable C w1). { apply (reach_step C w (OTruncate h size) w1 R Logic.I). cbn [exec]. unfold bind. rewrite ET. reflexivity. }
    destruct (play_ask C fuel rest _ w l _ w _ _ None c [] _ (code c1) w1 K eq_refl eq_refl) as (l1 & b1 & z & E1 & K1). { unfold owned, tell. rewrite (proj2 KL ltac:(discriminate)), ET. reflexivity. }
    apply play_end in K1 as (_ & -> & _ & K1). change (Responder.a_code (with_async z (code c1))) with c1. rewrite E1, <- A3 in K1.
    split; [intros NC; exists w1; destruct (TN NC); auto|]. split; [discriminate|]. split.
    + intros EC. destruct (TO EC) as (v' & d & d' & X1 & X2 & X3 & X4 & X5 & X6 & X7 & X8). exists w1, v', d, d'. rewrite LK in X1. split; [exact K1|]. split; [exact R1|]. split; [exact X1|]. auto 10.
    + intros WK LT v0 d o [= <-] VI NF HC. destruct (truncate_works C w h v o d size SO R WK LK VI NF HC LT) as (w2 & E2). rewrite ET in E2. apply Ret_inj in E2. congruence.
  - assert (NH : ahas h (s_handles w) = false) by (destruct (ahas h (s_handles w)); [exfalso; apply (proj1 KL); reflexivity|reflexivity]).
    destruct (play_ask C fuel rest _ w l _ w _ _ None c [] _ (code R_InvalidObjectHandle) w K eq_refl eq_refl) as (l1 & b1 & z & E1 & K1). { unfold owned. rewrite NH. reflexivity. }
    apply play_end in K1 as (_ & -> & _ & K1). change (Responder.a_code (with_async z (code R_InvalidObjectHandle))) with R_InvalidObjectHandle. rewrite E1, <- A3 in K1.
    split; [intros _; exists w; auto|]. split; [reflexivity|]. split; [discriminate|]. discriminate.
Qed.
(** BeginEditObject: only an object that exists can be edited; nothing in the storage changes *)
Theorem C87_begin : forall C fuel rest formats cat props_by_type prop_desc s w tid h,
  at_work C rest s w -> command_ok OP_BeginEditObject tid [h] -> tid <> 0 -> tid <> 0xFFFFFFFF ->
  exists s', answered (device C fuel rest (length (r_log s)) w) formats cat props_by_type prop_desc [command OP_BeginEditObject tid [h]] s s' tid (match look w h with Some _ => R_OK | None => R_InvalidObjectHandle end) /\
    editing s' = (match look w h with Some _ => Some h | None => editing s end) /\ storage_kept C fuel s s' w.
Proof.
  intros C fuel rest formats cat pt pd s w tid h AW CO T1 T2. pose proof AW as [SO R Q T RD ID SE]. set (D := device C fuel rest (length (r_log s)) w).
  destruct (REdit2.begin_ok D formats cat pt pd (device_undisturbed C fuel rest _ w Q) s tid h (device_ready C fuel rest _ w RD) ID CO SE T1 T2) as (s' & l & c & E & A1 & A2 & A3 & A4 & A5 & A6 & A7 & A8).
  exists s'. pose proof (carried _ _ _ _ _ _ _ _ _ _ _ _ _ _ _ _ E A3 A4) as K. unfold REdit2.begin_script, ROps.provided in K.
  pose proof (known_look C SO w h R) as KL. set (ok := ahas h (s_handles w)) in KL.
  destruct (play_ask C fuel rest _ w l _ w _ _ None c [] _ (code (if ok then R_OK else R_InvalidObjectHandle)) w K eq_refl eq_refl eq_refl) as (l1 & b1 & z & E1 & K1). cbn beta in K1.
  change (Responder.a_code (with_async z (code (if ok then R_OK else R_InvalidObjectHandle)))) with (if ok then R_OK else R_InvalidObjectHandle) in K1. destruct (look w h) as [v|].
  - replace ok with true in K1 by (symmetry; apply KL; discriminate). change (ROps.ok R_OK) with true in K1. cbv iota in K1.
    destruct (play_none C fuel rest _ w l1 b1 w _ _ None c [] K1 eq_refl eq_refl) as (l2 & b2 & r & E2 & K2). apply play_end in K2 as (_ & -> & _ & K2). rewrite E2, E1, <- A3 in K2.
    split; [exists l; auto 10|]. split; [unfold editing; rewrite (A7 eq_refl); reflexivity|]. exists w. auto.
  - replace ok with false in K1 by (destruct ok; [exfalso; apply KL; reflexivity|reflexivity]). change (ROps.ok R_InvalidObjectHandle) with false in K1. cbv iota in K1. apply play_end in K1 as (_ & -> & _ & K1). rewrite E1, <- A3 in K1.
    split; [exists l; auto 10|]. split; [unfold editing; rewrite A8 by discriminate; reflexivity|]. exists w. auto.
Qed.
(** EndEditObject: only of the object being edited; nothing in the storage changes *)
Theorem C87_end : forall C fuel rest formats cat props_by_type prop_desc s w tid h,
  at_work C rest s w -> command_ok OP_EndEditObject tid [h] -> tid <> 0 -> tid <> 0xFFFFFFFF ->
  exists s' c, answered (device C fuel rest (length (r_log s)) w) formats cat props_by_type prop_desc [command OP_EndEditObject tid [h]] s s' tid c /\ storage_kept C fuel s s' w /\
    (editing s = Some h /\ c = R_OK /\ editing s' = None \/ not_editing s h c /\ editing s' = editing s).
Proof.
  intros C fuel rest formats cat pt pd s w tid h AW CO T1 T2. pose proof AW as [SO R Q T RD ID SE]. set (D := device C fuel rest (length (r_log s)) w).
  destruct (REdit2.end_ok D formats cat pt pd (device_undisturbed C fuel rest _ w Q) s tid h (device_ready C fuel rest _ w RD) ID CO SE T1 T2) as (s' & E & EN & ED).
  exists s'. unfold REdit2.only_editing in EN. destruct (r_edit s) as [[e x]|] eqn:RE.
  2:{ destruct (refused_kept _ _ _ _ _ _ _ _ _ _ _ _ _ R E EN) as [A B]. exists R_GeneralError. split; [exact A|]. split; [exact B|]. right. unfold not_editing, editing. rewrite ED, RE. split; [left; auto|reflexivity]. }
  destruct (e =? h) eqn:EH.
  2:{ destruct (refused_kept _ _ _ _ _ _ _ _ _ _ _ _ _ R E EN) as [A B]. exists R_InvalidObjectHandle. split; [exact A|]. split; [exact B|]. right. unfold not_editing, editing. rewrite ED, RE. split; [right; exists e; apply N.eqb_neq in EH; auto|reflexivity]. }
  apply N.eqb_eq in EH. subst e. destruct EN as (l & c & A1 & A2 & A3 & A4 & A5 & A6). exists c. pose proof (carried _ _ _ _ _ _ _ _ _ _ _ _ _ _ _ _ E A3 A4) as K. unfold REdit2.end_script in K.
  destruct (play_none C fuel rest _ w l _ w _ _ None c [] K eq_refl eq_refl) as (l1 & b1 & r & E1 & K1). destruct (play_none C fuel rest _ w l1 b1 w _ _ None c [] K1 eq_refl eq_refl) as (l2 & b2 & r2 & E2 & K2). apply play_end in K2 as (_ & -> & _ & K2). rewrite E2, E1, <- A3 in K2.
  split; [exists l; auto 10|]. split; [exists w; auto|]. left. unfold editing. rewrite ED, RE. auto.
Qed.
(** a whole edit: begin, write, end; on a working disk the file is then the old one with
    the bytes written at the offset *)
Theorem C87_whole_edit : forall C fuel rest formats cat props_by_type prop_desc s w t1 t2 t3 h lo hi n hdr bodies v d,
  at_work C rest s w -> works C -> look w h = Some v -> content w (v_path v) = Some (File d) ->
  command_ok OP_BeginEditObject t1 [h] -> command_ok OP_SendPartialObject64 t2 [h; lo; hi; n] -> command_ok OP_EndEditObject t3 [h] ->
  t1 <> 0 -> t1 <> 0xFFFFFFFF -> t2 <> 0 -> t2 <> 0xFFFFFFFF -> t3 <> 0 -> t3 <> 0xFFFFFFFF ->
  len hdr = 12 -> bodies <> [] -> let off := hi * 2^32 + lo in off + len (concat bodies) < 2^63 ->
  exists s' l w' d', Responder.run (device C fuel rest (length (r_log s)) w) formats cat props_by_type prop_desc
      ([command OP_BeginEditObject t1 [h]] ++ (command OP_SendPartialObject64 t2 [h; lo; hi; n] :: data_phase (object_packets hdr bodies)) ++ [command OP_EndEditObject t3 [h]]) s = Ret (tt, s') /\
    r_st s' = Responder.IDLE /\ r_log s' = l ++ r_log s /\ datas l = [] /\ responses l = [resp_out R_OK t3 []; resp_out R_OK t2 []; resp_out R_OK t1 []] /\ editing s' = None /\
    state_after C fuel (length (r_log s)) w (r_log s') = Ret w' /\ reachable C w' /\
    content w' (v_path v) = Some (File d') /\ patched d off (concat bodies) d' /\ reports_size w' h (len d') /\
    (forall y, y <> v_path v -> content w' y = content w y) /\ (forall x, x <> h -> look w' x = look w x).
Proof.
  intros C fuel rest formats cat pt pd s w t1 t2 t3 h lo hi n hdr bodies v d AW WK LK HC C1 C2 C3 A1 A2 B1 B2 D1 D2 H12 NE off LT. pose proof AW as [SO R Q T RD ID SE].
  destruct (C87_begin C fuel rest formats cat pt pd s w t1 h AW C1 A1 A2) as (s1 & (l1 & E1 & I1 & S1 & L1 & DT1 & RS1) & ED1 & w1 & SA1 & R1 & LK1 & CT1). rewrite LK in *.
  assert (AW1 : at_work C rest s1 w1) by (split; try assumption; [left; exact I1|congruence]).
  destruct (C87_send_partial C fuel rest formats cat pt pd s1 w1 t2 h lo hi n hdr bodies AW1 C2 B1 B2 H12 NE ltac:(change (2^63) with 9223372036854775808 in LT; fold off; lia)) as (s2 & c2 & (l2 & E2 & I2 & S2 & L2 & DT2 & RS2) & ED2 & [[[[X _]|(e & X & Y & _)] _]|(_ & _ & K)]); [congruence|congruence|].
  fold off in K. destruct (K v ltac:(rewrite LK1; exact LK)) as (w2 & SA2 & R2 & O1 & O2 & O3 & O4 & O5).
  assert (c2 = R_OK) by (apply O5; [exact WK|exact LT|exists d; rewrite CT1; exact HC]). subst c2. destruct (O4 eq_refl) as (d0 & d' & [P0|[P0 _]] & P1 & P2 & P3); rewrite CT1, HC in P0; [|discriminate]. injection P0 as <-.
  assert (AW2 : at_work C rest s2 w2) by (split; try assumption; [left; exact I2|congruence]).
  destruct (C87_end C fuel rest formats cat pt pd s2 w2 t3 h AW2 C3 D1 D2) as (s3 & c3 & (l3 & E3 & I3 & S3 & L3 & DT3 & RS3) & (w3 & SA3 & R3 & LK3 & CT3) & [(_ & -> & ED3)|[[[X _]|(e & X & Y & _)] _]]); [|congruence|congruence].
  assert (LE1 : (length (r_log s) <= length (r_log s1))%nat) by (rewrite L1, app_length; lia). assert (LE2 : (length (r_log s1) <= length (r_log s2))%nat) by (rewrite L2, app_length; lia).
  assert (SA2' : state_after C fuel (length (r_log s)) w (r_log s2) = Ret w2) by (rewrite L2 in *; rewrite (after_more C fuel _ w _ w1 l2 LE1 SA1); exact SA2).
  exists s3, (l3 ++ l2 ++ l1), w3, d'. split.
  { rewrite (run_app _ _ _ _ _ _ _ _ _ E1). rewrite (run_app _ _ _ _ _ _ _ _ _ (run_more _ _ _ _ _ _ _ _ _ _ _ _ _ LE1 SA1 E2)). apply (run_more _ _ _ _ _ _ _ _ _ _ _ _ w2); [lia|exact SA2'|exact E3]. }
  split; [exact I3|]. split; [rewrite L3, L2, L1, !app_assoc; reflexivity|]. split; [rewrite !RGate.datas_app, DT1, DT2, DT3; reflexivity|]. split; [rewrite !RGate.responses_app, RS1, RS2, RS3; reflexivity|]. split; [exact ED3|].
  assert (LE3 : (length (r_log s) <= length (r_log s2))%nat) by lia. split. { rewrite L3 in *. rewrite (after_more C fuel _ w _ w2 l3 LE3 SA2'). exact SA3. }
  split; [exact R3|]. split; [rewrite CT3; exact P1|]. split; [exact P2|]. split; [destruct P3 as (u & o & U1 & U2); exists u, o; rewrite LK3; auto|]. split; [intros y Ny; rewrite CT3, O1, CT1; auto|]. intros x Nx. rewrite LK3, O2, LK1; auto.
Qed.

(** ** Examples *)
(** requests on the demonstration disk: responses, the file of object 12 *)
Definition demo_edit (i : list Responder.input) : option (list Responder.outc * option node) :=
  match Responder.run (device FSDemo.quiet 10 calm 0 (demo_start FSDemo.quiet)) [] RDemo.cat0 RDemo.props0 RDemo.desc0 i RDemo.in_session with
  | Ret (_, s') => match state_after FSDemo.quiet 10 0 (demo_start FSDemo.quiet) (r_log s') with
    | Ret w' => Some (responses (r_log s'), content w' pB)
    | _ => None end
  | _ => None end.
Example C87_hypotheses : exists v, look (demo_start FSDemo.quiet) 12 = Some v /\ content (demo_start FSDemo.quiet) (v_path v) = Some (File [1;2;3;4;5]) /\ works FSDemo.quiet /\ v_path v = pB.
Proof. eexists. split; [vm_compute; reflexivity|]. split; [vm_compute; reflexivity|]. split; [split; intros t; [reflexivity|discriminate]|vm_compute; reflexivity]. Qed.
Example C87_example :
  demo_edit ([command OP_BeginEditObject 5 [12]] ++ (command OP_SendPartialObject64 6 [12; 4; 0; 3] :: data_phase (object_packets (WireSpec.spec_header 15 2 OP_SendPartialObject64 6) [[9]; [8; 7]])) ++ [command OP_EndEditObject 7 [12]])
    = Some ([resp_out R_OK 7 []; resp_out R_OK 6 []; resp_out R_OK 5 []], Some (File [1;2;3;4;9;8;7])) /\
  demo_edit ([command OP_BeginEditObject 5 [12]; command OP_TruncateObject64 6 [12; 2; 0]]) = Some ([resp_out R_OK 6 []; resp_out R_OK 5 []], Some (File [1;2])) /\
  demo_edit ([command OP_BeginEditObject 5 [21]; command OP_TruncateObject64 6 [12; 2; 0]]) = Some ([resp_out R_InvalidObjectHandle 6 []; resp_out R_OK 5 []], Some (File [1;2;3;4;5])).
Proof. split; [|split]; vm_compute; reflexivity. Qed.

Print Assumptions C87_send_partial.
Print Assumptions C87_truncate.
Print Assumptions C87_begin.
Print Assumptions C87_end.
Print Assumptions C87_whole_edit.
