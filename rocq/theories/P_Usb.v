(** C92: the USB transport and the responder together.  What the initiator writes to the bulk pipe is
    one stream of bytes; how it is cut into packets is up to the host's USB driver. *)
From Verif Require Import Base Wire WireSpec WireProofs WireProofs2 Framing FramingProofs P_Framing Responder RSpec RLogic ROne2 RExec RSend RSend2 RColl RDemo RSession Usb UsbProofs UsbReset UsbWhole UsbSend.
From Verif Require Import DeviceProofs.
From Verif Require AList FS FSSpec FSReach FSDemo P_FS4 Device P_Device P_Responder.

(** ** Commands, several in a packet *)
Definition request : Type := N * N * list N.
Definition bytes_of (r : request) : bytes := match r with (op, tid, ps) => command_bytes op tid ps end.
(** the requests of C21: no data phase, the storage present if it is needed, reads of it working *)
Definition answerable (env : list (act * ans) -> act -> ans) (r : request) : Prop :=
  match r with (op, tid, ps) => command_ok op tid ps /\ has_data_phase op = false /\ op <> OP_GetThumb /\
    (needs_storage op = true -> storage_is_ready env) /\ (reads_object op -> reads_succeed env) end.
(** each container of the stream lies in one packet *)
Definition whole (packets cs : list bytes) : Prop := forall c1 c c2, cs = c1 ++ c :: c2 -> uncut packets c1 (len c).
Definition answers (r : request) (o : outc) : Prop :=
  match r with (_, tid, _) => o_type o = TYPE_RESPONSE /\ (o_tid o = tid mod 65536 \/ o_tid o = tid) end.

Lemma len_ints ps : len (concat (map (spec_int 4) ps)) = 4 * len ps.
Proof. induction ps as [|p ps IH]; [reflexivity|]. cbn [map concat]. rewrite len_app, IH, len_cons, len_spec_int. change (N.of_nat 4) with 4. lia. Qed.
Lemma header_plain n ty c t body : n = 12 + len body -> n < 0xFFFFFFFF -> plain_container (spec_header n ty c t ++ body).
Proof.
  intros E H. assert (L : len (spec_header n ty c t ++ body) = n) by (rewrite len_app, spec_header_len; lia).
  split; [rewrite L; lia|]. rewrite L, spec_header_length by (unfold w32; lia). rewrite le_dec_enc. change (256 ^ N.of_nat 4) with 4294967296. apply N.mod_small. lia.
Qed.
Lemma command_plain op tid ps : command_ok op tid ps -> plain_container (command_bytes op tid ps).
Proof. intros (_ & _ & H & _). unfold command_bytes. apply header_plain; rewrite ?len_ints; lia. Qed.

Lemma whole_uncut packets cs : Forall plain_container cs -> whole packets cs -> length_fields_uncut cs packets.
Proof.
  intros HP HW p1 p2 c1 c c2 E1 E2 H. apply (HW c1 c c2 E2 p1 p2 E1). rewrite E2 in HP. apply Forall_app in HP as [_ HP]. apply Forall_cons_iff in HP as [[P _] _]. lia.
Qed.
Lemma alone q p r : q = p :: r -> Forall (fun x : bytes => x <> [] /\ True) q -> len (p ++ concat r) <= len p -> r = [].
Proof.
  intros -> H L. destruct r as [|x r]; [reflexivity|exfalso]. apply Forall_cons_iff in H as [_ H]. apply Forall_cons_iff in H as [[H _] _]. cbn [concat] in L. rewrite !len_app in L. destruct x; [contradiction|rewrite len_cons in L; lia].
Qed.

(** Containers that each lie in one packet - several to a packet, packets of any size - reach the
    responder one by one: the effect is that of handling them one after the other. *)
Theorem C92_whole_containers : forall env formats cat props_by_type prop_desc packets cs s s',
  Forall plain_container cs -> concat packets = concat cs -> whole packets cs ->
  run env formats cat props_by_type prop_desc (map (fun c => IRecv c true true) cs) s = Ret (tt, s') -> resets (r_log s') = resets (r_log s) ->
  usb_packets env formats cat props_by_type prop_desc 0 packets s = Some (Ret (0, s')).
Proof.
  intros env formats cat pt pd packets cs s s' HP HC HW ER EQ.
  destruct (pieces packets cs HP HC (whole_uncut _ _ HP HW)) as (pss & H1 & H2 & H3 & H4 & H5).
  apply H5; [|exact EQ]. rewrite <- ER. f_equal.
  assert (S : pss = map (fun c => [c]) cs).
  { assert (G : forall q1 q c1 c, List.length c1 = List.length q1 -> (exists c2 q2, cs = c1 ++ c :: c2 /\ pss = q1 ++ q :: q2) -> q = [c]).
    { intros q1 q c1 c HL (c2 & q2 & E1 & E2). destruct (H4 c1 c c2 q1 q q2 (len c) E1 E2 HL ltac:(lia) (HW c1 c c2 E1)) as (p & r & Eq & Ec & Hn).
      assert (Er : r = []). { apply (alone q p r Eq); [|rewrite Ec; exact Hn]. rewrite E2 in H3. apply Forall_app in H3 as [_ H3]. apply Forall_cons_iff in H3 as [H3 _]. eapply Forall_impl; [|exact H3]. intros x [X _]. auto. }
      subst r q. cbn [concat] in Ec. rewrite app_nil_r in Ec. subst. reflexivity. }
    clear -H1 G. revert G. assert (Z : forall a b, List.length a = List.length b -> (forall q1 q c1 c, List.length c1 = List.length q1 -> (exists c2 q2, a ++ cs = c1 ++ c :: c2 /\ b ++ pss = q1 ++ q :: q2) -> q = [c]) -> pss = map (fun c => [c]) cs).
    { induction H1 as [|c q cs pss _ H1 IH]; intros a b HL G; [reflexivity|]. cbn [map]. f_equal.
      - apply (G b q a c HL). exists cs, pss. auto.
      - apply (IH (a ++ [c]) (b ++ [q])); [rewrite !app_length, HL; reflexivity|]. intros q1 q' c1 c' HL' (c2 & q2 & E1 & E2). apply (G q1 q' c1 c' HL'). exists c2, q2. rewrite <- app_assoc in E1, E2. auto. }
    intros G. apply (Z [] [] eq_refl). exact G. }
  rewrite S. clear. induction cs as [|c cs IH]; [reflexivity|]. cbn [map concat]. rewrite IH. reflexivity.
Qed.

Lemma commands_run env formats cat pt pd : undisturbed env -> transport_works env -> tables_ok pt pd -> forall reqs s, idle s -> Forall (answerable env) reqs ->
  exists s' outs, run env formats cat pt pd (map (fun c => IRecv c true true) (map bytes_of reqs)) s = Ret (tt, s') /\ resets (r_log s') = resets (r_log s) /\
    responses (r_log s') = rev outs ++ responses (r_log s) /\ Forall2 answers reqs outs /\ idle s'.
Proof.
  intros Q T TB reqs. induction reqs as [|[[op tid] ps] reqs IH]; intros s ID A.
  - exists s, []. cbn [map Responder.run]. unfold ret. auto.
  - apply Forall_cons_iff in A as [(A1 & A2 & A3 & A4 & A5) A]. destruct (ROne2.one_response env formats cat pt pd Q T s op tid ps ID A1 A2 A3 A4 TB A5) as (s1 & o & E1 & R1 & O1 & O2 & O3).
    destruct (IH s1 (or_introl O3) A) as (s2 & outs & E2 & X2 & R2 & F2 & I2). exists s2, (o :: outs). cbn [map Responder.run bytes_of]. unfold bind.
    change (IRecv (command_bytes op tid ps) true true) with (command op tid ps). rewrite E1. split; [exact E2|]. split; [rewrite X2; exact (command_no_reset env formats cat pt pd s op tid ps s1 ID A1 E1)|].
    split; [rewrite R2, R1; cbn [rev]; rewrite <- app_assoc; reflexivity|]. split; [|exact I2]. constructor; [|exact F2]. split; [exact O1|exact O2].
Qed.
(** Any number of commands: one response each, in their order, with their transaction numbers, and the
    device is ready for the next one. *)
Theorem C92_commands : forall env formats cat props_by_type prop_desc reqs packets s,
  undisturbed env -> transport_works env -> tables_ok props_by_type prop_desc -> idle s -> Forall (answerable env) reqs ->
  concat packets = concat (map bytes_of reqs) -> whole packets (map bytes_of reqs) ->
  exists s' outs, usb_packets env formats cat props_by_type prop_desc 0 packets s = Some (Ret (0, s')) /\
    responses (r_log s') = rev outs ++ responses (r_log s) /\ Forall2 answers reqs outs /\ idle s'.
Proof.
  intros env formats cat pt pd reqs packets s Q T TB ID A HC HW. destruct (commands_run env formats cat pt pd Q T TB reqs s ID A) as (s' & outs & E & X & R & F & I).
  exists s', outs. split; [|auto]. apply (C92_whole_containers env formats cat pt pd packets (map bytes_of reqs) s s'); try assumption.
  apply Forall_map. eapply Forall_impl; [|exact A]. intros [[op tid] ps] (H & _). exact (command_plain op tid ps H).
Qed.

(** ** A request with data *)
Lemma two_containers packets a b : plain_container a -> plain_container b -> concat packets = a ++ b -> uncut packets [] (len a) -> forall n, 4 <= n -> n <= len b -> uncut packets [a] n ->
  exists p rest, p ++ concat rest = b /\ n <= len p /\ Forall (fun x => x <> [] /\ exists y, In y packets /\ len x <= len y) (p :: rest) /\
    forall env formats cat pt pd s s', run env formats cat pt pd (IRecv a true true :: data_phase (p :: rest)) s = Ret (tt, s') -> resets (r_log s') = resets (r_log s) ->
      usb_packets env formats cat pt pd 0 packets s = Some (Ret (0, s')).
Proof.
  intros PA PB HC UA n H4 Hn UB. destruct (pieces packets [a; b]) as (pss & H1 & H2 & H3 & G & H5).
  { constructor; [exact PA|constructor; [exact PB|constructor]]. } { rewrite HC. cbn [concat]. rewrite app_nil_r. reflexivity. }
  { intros p1 p2 c1 c c2 E1 E2 H. destruct c1 as [|x c1].
    - apply (UA p1 p2 E1). cbn [concat] in *. destruct PA. lia.
    - destruct c1 as [|y c1]; [|destruct c1; discriminate]. injection E2 as <- <- <-. apply (UB p1 p2 E1). lia. }
  destruct pss as [|q1 [|q2 [|q3 pss]]]; [inversion H1|inversion H1 as [|? ? ? ? ? X]; inversion X| |inversion H1 as [|? ? ? ? ? X]; inversion X as [|? ? ? ? ? Y]; inversion Y].
  destruct (G [] a [b] [] q1 [q2] (len a) eq_refl eq_refl eq_refl ltac:(lia) UA) as (p & r & Eq & Ec & Hp).
  assert (r = []). { apply (alone q1 p r Eq); [|rewrite Ec; exact Hp]. apply Forall_cons_iff in H3 as [H3 _]. eapply Forall_impl; [|exact H3]. intros x [X _]. auto. } subst r q1. cbn [concat] in Ec. rewrite app_nil_r in Ec. subst p.
  destruct (G [a] b [] [[a]] q2 [] n eq_refl eq_refl eq_refl Hn UB) as (p & r & Eq & Ec & Hp'). subst q2.
  exists p, r. split; [exact Ec|]. split; [exact Hp'|]. split. { apply Forall_cons_iff in H3 as [_ H3]. apply Forall_cons_iff in H3 as [H3 _]. exact H3. }
  intros env formats cat pt pd s s' ER EQ. apply H5; [|exact EQ]. rewrite <- ER. cbn [map concat]. rewrite app_nil_r. reflexivity.
Qed.
Lemma waiting_more env formats cat pt pd q s data first s' : waiting q s -> pass_through (q_code q) = false ->
  step env formats cat pt pd (IRecv data first false) s = Ret (tt, s') -> waiting q s'.
Proof.
  intros [Hst Hrq] Hp E. assert (X : step env formats cat pt pd (IRecv data first false) s = data_handler env cat pd q data first false s).
  { cbn [Responder.step]. unfold receive, bind at 1, get. rewrite Hst. unfold bind at 1. rewrite Hrq. reflexivity. }
  rewrite X in E. unfold data_handler in E. rewrite Hp in E. cbn [negb andb] in E. unfold bind at 1, get at 1 in E. unfold bind at 1 in E.
  destruct first.
  - unfold bind at 1, lift in E. destruct (rx_new data) as [r| |]; try discriminate. unfold upd, ret in E. apply Ret_inj in E. apply (f_equal snd) in E. cbn [snd] in E. subst s'. split; [exact Hst|exact Hrq].
  - unfold bind at 1, get in E. destruct (r_data s) as [r0|].
    + unfold bind at 1, lift in E. destruct (rx_append r0 data) as [r| |]; try discriminate. unfold upd, ret in E. apply Ret_inj in E. apply (f_equal snd) in E. cbn [snd] in E. subst s'. split; [exact Hst|exact Hrq].
    + unfold ret in E. apply Ret_inj in E. apply (f_equal snd) in E. cbn [snd] in E. subst s'. split; assumption.
Qed.
Lemma more_quiet env formats cat pt pd q rest : pass_through (q_code q) = false -> forall s s', waiting q s -> run env formats cat pt pd (more_packets rest) s = Ret (tt, s') -> resets (r_log s') = resets (r_log s).
Proof.
  intros Hp. induction rest as [|p rest IH]; intros s s' W E; [unfold more_packets, Responder.run, ret in E; apply Ret_inj in E; congruence|].
  destruct rest as [|p2 rest].
  - cbn [more_packets Responder.run] in E. unfold bind in E. destruct (step env formats cat pt pd (IRecv p false true) s) as [[[] s1]| |] eqn:E1; try discriminate. unfold ret in E. apply Ret_inj in E. apply (f_equal snd) in E. cbn [snd] in E. subst s'. exact (waiting_step _ _ _ _ _ _ _ _ _ _ _ W E1).
  - change (more_packets (p :: p2 :: rest)) with (IRecv p false false :: more_packets (p2 :: rest)) in E. cbn [Responder.run] in E. unfold bind at 1 in E. destruct (step env formats cat pt pd (IRecv p false false) s) as [[[] s1]| |] eqn:E1; try discriminate.
    rewrite (IH s1 s' (waiting_more _ _ _ _ _ _ _ _ _ _ W Hp E1) E). exact (waiting_step _ _ _ _ _ _ _ _ _ _ _ W E1).
Qed.
Lemma phase_quiet env formats cat pt pd q ps s s' : pass_through (q_code q) = false -> waiting q s -> run env formats cat pt pd (data_phase ps) s = Ret (tt, s') -> resets (r_log s') = resets (r_log s).
Proof.
  intros Hp W E. destruct ps as [|p [|p2 ps]].
  - unfold data_phase, Responder.run, ret in E. apply Ret_inj in E. congruence.
  - cbn [data_phase Responder.run] in E. unfold bind in E. destruct (step env formats cat pt pd (IRecv p true true) s) as [[[] s1]| |] eqn:E1; try discriminate. unfold ret in E. apply Ret_inj in E. apply (f_equal snd) in E. cbn [snd] in E. subst s'. exact (waiting_step _ _ _ _ _ _ _ _ _ _ _ W E1).
  - change (data_phase (p :: p2 :: ps)) with (IRecv p true false :: more_packets (p2 :: ps)) in E. cbn [Responder.run] in E. unfold bind at 1 in E. destruct (step env formats cat pt pd (IRecv p true false) s) as [[[] s1]| |] eqn:E1; try discriminate.
    rewrite (more_quiet _ _ _ _ _ _ _ Hp s1 s' (waiting_more _ _ _ _ _ _ _ _ _ _ W Hp E1) E). exact (waiting_step _ _ _ _ _ _ _ _ _ _ _ W E1).
Qed.
Definition data_bytes (op tid : N) (body : bytes) : bytes := spec_header (12 + len body) 2 op tid ++ body.

(** A request with a data phase that the responder collects (every one except object content): the
    packets may cut the data anywhere but in its length field, and may join command and data; the
    outcome is exactly that of the data arriving in one piece. *)
Theorem C92_data_request : forall env formats cat props_by_type prop_desc op tid ps body packets s s',
  undisturbed env -> idle s -> command_ok op tid ps -> has_data_phase op = true -> pass_through op = false ->
  (needs_storage op = true -> storage_is_ready env) -> 12 + len body < 0xFFFFFFFF ->
  concat packets = command_bytes op tid ps ++ data_bytes op tid body ->
  uncut packets [] (len (command_bytes op tid ps)) -> uncut packets [command_bytes op tid ps] 4 ->
  run env formats cat props_by_type prop_desc [command op tid ps; IRecv (data_bytes op tid body) true true] s = Ret (tt, s') ->
  usb_packets env formats cat props_by_type prop_desc 0 packets s = Some (Ret (0, s')) /\
  ((forall h o d f l, a_code (env h (ACall (SWrite o d f l))) <> R_Undefined) ->
   exists o, responses (r_log s') = o :: responses (r_log s) /\ answers (op, tid, ps) o /\ idle s').
Proof.
  intros env formats cat pt pd op tid ps body packets s s' Q ID CO HD NP RD LT HC U1 U2 ER.
  assert (PB : plain_container (data_bytes op tid body)) by (apply header_plain; [reflexivity|exact LT]).
  split.
  2:{ intros WD. destruct (ROne2.one_response_data env formats cat pt pd Q s op tid ps [data_bytes op tid body] s' ID CO HD ltac:(discriminate) RD WD ER) as (o & A & B & C & D). exists o. split; [exact A|]. split; [split; assumption|left; exact D]. }
  destruct (two_containers packets _ _ (command_plain op tid ps CO) PB HC U1 4 ltac:(lia)) as (p & rest & E1 & E2 & E3 & E4); [destruct PB as [PB _]; lia|exact U2|].
  set (q := mk_req op tid (pars ps)).
  cbn [Responder.run] in ER. unfold bind at 1 in ER. destruct (step env formats cat pt pd (command op tid ps) s) as [[[] s1]| |] eqn:ES; try discriminate.
  assert (W : waiting q s1).
  { pose proof ES as X. rewrite (receive_idle env formats cat pt pd s op tid ps ID CO) in X.
    assert (Hph : phase_state op = WAIT_DATA) by (unfold phase_state; rewrite HD; reflexivity).
    fold q in X. match type of X with _ ?s0 = _ => pose proof (stays_command env formats cat pt pd WAIT_DATA (or_intror eq_refl) True q (responses (r_log s)) RD (or_introl Logic.I) HD s0) as H end.
    specialize (H ltac:(split; [reflexivity|split; [exact Hph|reflexivity]])). rewrite X in H. destruct H as (_ & A & B). split; assumption. }
  assert (CA : forall p' r', 4 <= len p' -> p' ++ concat r' = data_bytes op tid body ->
     run env formats cat pt pd (data_phase (p' :: r')) s1 = conclude env cat pd (r_resp s1) q (set_data (Some (mk_rxc (data_container q body) (12 + len body) 12)) s1)).
  { intros p' r' L4 EC. destruct CO as (C1 & C2 & _). apply collect_any; try assumption; [reflexivity|unfold w32; lia]. }
  assert (ER' : run env formats cat pt pd (data_phase (p :: rest)) s1 = Ret (tt, s')).
  { rewrite (CA p rest E2 E1). rewrite <- (CA (data_bytes op tid body) []); [exact ER|destruct PB as [PB _]; lia|cbn [concat]; apply app_nil_r]. }
  apply E4.
  - cbn [Responder.run]. unfold bind at 1. change (IRecv (command_bytes op tid ps) true true) with (command op tid ps). rewrite ES. exact ER'.
  - rewrite (phase_quiet env formats cat pt pd q _ s1 s' NP W ER'). exact (command_no_reset env formats cat pt pd s op tid ps s1 ID CO ES).
Qed.

(** ** The content of an object *)
(** SendObject on the storage: the initiator announced object h with the size of the content, and sends
    command and content cut into packets in any way that leaves the command and the header of the content
    whole.  The file is then exactly these bytes. *)
Theorem C92_send_object : forall C fuel rest formats cat props_by_type prop_desc s w tid ps h v old i body packets,
  P_Device.at_work C rest s w -> FSSpec.works C -> FSSpec.look w h = Some v -> FSSpec.content w (FSSpec.v_path v) = Some (FS.File old) ->
  r_pl s = None -> r_seq s = Some (mk_ss i h 0) -> oi_size i = len body -> 12 + len body < 0xFFFFFFFF ->
  command_ok OP_SendObject tid ps -> tid <> 0 -> tid <> 0xFFFFFFFF ->
  concat packets = command_bytes OP_SendObject tid ps ++ data_bytes OP_SendObject tid body -> (forall p, In p packets -> len p < 2^31) ->
  uncut packets [] (len (command_bytes OP_SendObject tid ps)) -> uncut packets [command_bytes OP_SendObject tid ps] 12 ->
  exists s' l w', usb_packets (Device.device C fuel rest (List.length (r_log s)) w) formats cat props_by_type prop_desc 0 packets s = Some (Ret (0, s')) /\
    r_st s' = IDLE /\ r_session s' = r_session s /\ r_log s' = l ++ r_log s /\ datas l = [] /\ responses l = [resp_out R_OK tid []] /\
    Device.state_after C fuel (List.length (r_log s)) w (r_log s') = Ret w' /\ FSSpec.reachable C w' /\ (forall x, FSSpec.look w' x = FSSpec.look w x) /\
    FSSpec.content w' (FSSpec.v_path v) = Some (FS.File body) /\ (forall y, y <> FSSpec.v_path v -> FSSpec.content w' y = FSSpec.content w y).
Proof.
  intros C fuel rest formats cat pt pd s w tid ps h v old i body packets AW WK LK HC PL SQ SZ LT CO T1 T2 EC SM U1 U2.
  assert (PB : plain_container (data_bytes OP_SendObject tid body)) by (apply header_plain; [reflexivity|exact LT]).
  destruct (two_containers packets _ _ (command_plain _ tid ps CO) PB EC U1 12 ltac:(lia)) as (p & r & E1 & E2 & E3 & E4); [destruct PB as [PB _]; lia|exact U2|].
  set (hdr := spec_header (12 + len body) 2 OP_SendObject tid). assert (LH : len hdr = 12) by apply spec_header_len.
  assert (EP : p = hdr ++ drop 12 p /\ drop 12 p ++ concat r = body).
  { unfold data_bytes in E1. fold hdr in E1. assert (X : take 12 p = hdr). { rewrite <- (take_prefix p (concat r) 12 E2), E1. rewrite take_prefix by lia. rewrite take_all by lia. reflexivity. }
    rewrite <- (take_drop 12 p) in E1. rewrite X, <- app_assoc in E1. apply app_inv_head in E1. split; [rewrite <- X at 1; symmetry; apply take_drop|exact E1]. }
  destruct EP as [EP EB].
  assert (EO : object_packets hdr (drop 12 p :: r) = p :: r) by (cbn [object_packets]; rewrite <- EP; reflexivity).
  assert (TL : concat (drop 12 p :: r) = body) by exact EB.
  destruct (P_Device.send_content C fuel rest formats cat pt pd s w tid ps h v old i hdr (drop 12 p :: r)) as (s' & l & w' & A1 & A2 & A3 & A4 & A5 & A6 & A7 & A8 & A9 & A10 & A11 & A12); try assumption.
  - rewrite TL. exact SZ.
  - rewrite TL. change (2^32) with 4294967296. lia.
  - discriminate.
  - cbn [tl]. apply Forall_cons_iff in E3 as [_ E3]. eapply Forall_impl; [|exact E3]. intros x [X _]. destruct x; [contradiction|rewrite len_cons; lia].
  - intros b I. assert (Y : exists x, In x (p :: r) /\ len b <= len x). { destruct I as [<-|I]; [exists p; split; [left; reflexivity|rewrite len_drop; lia]|exists b; split; [right; exact I|lia]]. }
    destruct Y as (x & I1 & I2). rewrite Forall_forall in E3. destruct (E3 x I1) as (_ & y & I3 & I4). specialize (SM y I3). lia.
  - rewrite EO in A1. rewrite TL in A10. exists s', l, w'. split; [exact (E4 _ _ _ _ _ _ _ A1 A12)|]. auto 12.
Qed.

(** ** The proviso is needed *)
(** A command cut in two packets - the length field whole - is taken for garbage: the transport is reset
    and the request never answered. *)
Theorem C92_cut_command_refuted : let c := command_bytes OP_GetStorageIDs 5 [] in
  exists s', usb_packets plain [] cat0 props0 desc0 0 [firstn 8 c; skipn 8 c] in_session = Some (Ret (0, s')) /\
    responses (r_log s') = [] /\ resets (r_log s') = 2.
Proof. cbv zeta. eexists. split; [vm_compute; reflexivity|]. split; vm_compute; reflexivity. Qed.

(** ** Examples *)
Lemma uncut_by (packets c1 : list bytes) n : (forall k, (k <= List.length packets)%nat -> let m := len (concat (firstn k packets)) in m <= len (concat c1) \/ len (concat c1) + n <= m) -> uncut packets c1 n.
Proof.
  intros H p1 p2 E. specialize (H (List.length p1)). rewrite E, app_length, firstn_app, PeanoNat.Nat.sub_diag, firstn_all in H. cbn [firstn] in H. rewrite app_nil_r in H. specialize (H ltac:(lia)). cbv zeta in H. lia.
Qed.
(** three requests in two packets, the first two together *)
Definition ex_reqs : list request := [(OP_GetStorageIDs, 5, []); (OP_GetObject, 6, [7]); (OP_CloseSession, 7, [])].
Definition ex_packets : list bytes := [bytes_of (OP_GetStorageIDs, 5, []) ++ bytes_of (OP_GetObject, 6, [7]); bytes_of (OP_CloseSession, 7, [])].
Example C92_commands_hypotheses : Forall (answerable plain) ex_reqs /\ concat ex_packets = concat (map bytes_of ex_reqs) /\ whole ex_packets (map bytes_of ex_reqs).
Proof.
  split; [|split; [vm_compute; reflexivity|]].
  - assert (R : storage_is_ready plain) by (intros h; reflexivity). assert (S : reads_succeed plain) by (intros h o n off; reflexivity).
    repeat constructor; try exact R; try exact S; try discriminate.
  - intros c1 c c2 E. apply uncut_by. intros k Hk. cbn [ex_packets List.length] in Hk.
    assert (K : (k = 0 \/ k = 1 \/ k = 2)%nat) by lia.
    destruct c1 as [|a [|b [|d c1]]]; [| | |exfalso; apply (f_equal (@List.length bytes)) in E; cbn in E; rewrite app_length in E; cbn in E; lia].
    all: vm_compute in E; repeat match goal with H : _ :: _ = _ :: _ |- _ => injection H as; subst end.
    all: destruct K as [->|[->| ->]]; vm_compute; first [left; discriminate|right; discriminate].
Qed.
Example C92_commands_example : exists s', usb_packets plain [] cat0 props0 desc0 0 ex_packets in_session = Some (Ret (0, s')) /\
  map (fun o => (o_code o, o_tid o)) (responses (r_log s')) = [(R_OK, 7); (R_OK, 6); (R_OK, 5)].
Proof. eexists. split; [vm_compute; reflexivity|]. vm_compute. reflexivity. Qed.
(** command and the first six bytes of the data in one packet, the rest in two more *)
Definition ex_body : bytes := [1;0;0;0; 9;0;0;0].
Definition ex_data : bytes := data_bytes OP_SetObjectReferences 6 ex_body.
Definition ex_cut : list bytes := [command_bytes OP_SetObjectReferences 6 [7] ++ firstn 6 ex_data; firstn 9 (skipn 6 ex_data); skipn 15 ex_data].
Example C92_data_hypotheses : concat ex_cut = command_bytes OP_SetObjectReferences 6 [7] ++ ex_data /\
  uncut ex_cut [] (len (command_bytes OP_SetObjectReferences 6 [7])) /\ uncut ex_cut [command_bytes OP_SetObjectReferences 6 [7]] 4 /\
  exists s', run plain [] cat0 props0 desc0 [command OP_SetObjectReferences 6 [7]; IRecv ex_data true true] in_session = Ret (tt, s') /\
    map o_code (responses (r_log s')) = [R_OK] /\ In (SSetRefs 7 [9]) (calls (r_log s')).
Proof.
  split; [vm_compute; reflexivity|]. split; [|split].
  1,2: apply uncut_by; intros k Hk; cbn [ex_cut List.length] in Hk; assert (K : (k = 0 \/ k = 1 \/ k = 2 \/ k = 3)%nat) by lia;
    destruct K as [->|[->|[->| ->]]]; vm_compute; first [left; discriminate|right; discriminate].
  eexists. split; [vm_compute; reflexivity|]. split; [vm_compute; reflexivity|]. vm_compute. auto.
Qed.
Example C92_data_example : exists s', usb_packets plain [] cat0 props0 desc0 0 ex_cut in_session = Some (Ret (0, s')) /\ In (SSetRefs 7 [9]) (calls (r_log s')).
Proof. eexists. split; [vm_compute; reflexivity|]. vm_compute. auto. Qed.
(** two new bytes for the file /s/a/b of the demonstration disk, cut between them *)
Definition ex_announced : rstate := set_seq (Some (mk_ss (mk_objinfo 65537 0x3000 0 2 0 0 0 0 0 0 0 0 0 0 0 [] [] [] []) 12 0)) in_session.
Definition ex_send : list bytes := [command_bytes OP_SendObject 6 [] ++ spec_header 14 2 OP_SendObject 6; [9]; [8]].
Example C92_send_hypotheses : concat ex_send = command_bytes OP_SendObject 6 [] ++ data_bytes OP_SendObject 6 [9; 8] /\
  uncut ex_send [] (len (command_bytes OP_SendObject 6 [])) /\ uncut ex_send [command_bytes OP_SendObject 6 []] 12.
Proof.
  split; [vm_compute; reflexivity|].
  split; apply uncut_by; intros k Hk; cbn [ex_send List.length] in Hk; assert (K : (k = 0 \/ k = 1 \/ k = 2 \/ k = 3)%nat) by lia;
    destruct K as [->|[->|[->| ->]]]; vm_compute; first [left; discriminate|right; discriminate].
Qed.
Example C92_send_example :
  match usb_packets (Device.device FSDemo.quiet 10 P_Device.calm 0 (FSDemo.demo_start FSDemo.quiet)) [] cat0 props0 desc0 0 ex_send ex_announced with
  | Some (Ret (_, s')) => match Device.state_after FSDemo.quiet 10 0 (FSDemo.demo_start FSDemo.quiet) (r_log s') with
    | Ret w' => Some (responses (r_log s'), FSSpec.content w' FSDemo.pB) | _ => None end
  | _ => None end = Some ([resp_out R_OK 6 []], Some (FS.File [9; 8])).
Proof. vm_compute. reflexivity. Qed.
Print Assumptions C92_whole_containers.
Print Assumptions C92_commands.
Print Assumptions C92_data_request.
Print Assumptions C92_send_object.
Print Assumptions C92_cut_command_refuted.
