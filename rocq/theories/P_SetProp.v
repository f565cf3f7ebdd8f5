(** C88: setting an object property (SetObjectPropValue), from the request to the disk. *)
From Verif Require Import Base AList Wire FS FSPath FSTree FSLogic FSData FSView FSSpec FSReach FSTerm FSProps FSDemo P_FS P_FS2 P_FS3 P_FS4 P_FS5 P_FSProps Device DeviceProofs DeviceRead DeviceInfo DeviceOps P_Device P_DeviceOps P_Edit.
From Verif Require WireSpec Responder RSpec RExt RLogic ROne2 RSession ROps REdit2 RSetProp RDemo Pod P_Pod.
Import Responder(act, ans, scall, rstate, r_log, r_st, r_session, OP_SetObjectPropValue).
Import RSpec(responses, datas, command_ok, tables_ok).
Import ROne2(command, data_phase).
Import ROps(follows, asked, Ask, Finish).

(** ** Specification *)
(** the file name property *)
Definition FILE_NAME : N := 0xDC07.
(** the data phase of the request, cut into packets in any way *)
Definition value_packets (prop_desc : N -> N -> N * option objpropdesc) (tid p : N) (v : variant) (packets : list bytes) : Prop :=
  exists p1 rest body, packets = p1 :: rest /\ 4 <= len p1 /\ concat packets = WireSpec.spec_header (12 + len body) 2 OP_SetObjectPropValue tid ++ body /\ 12 + len body < 2^32 /\ RSetProp.value_body prop_desc p v body.
(** names that cannot be given to an object in the folder [f] *)
Definition bad_name (w : fs) (f : view) (n : path) : Prop :=
  (exists x, In x n /\ forbidden_char x) \/ only_dots n \/ exists x e, look w x = Some e /\ v_path e = join (v_path f) n.
(** the effect of writing the property that is described by [d] *)
Definition property_written (C : conf) (fuel : nat) (s s' : rstate) (w : fs) (h : N) (u : view) (d : objpropdesc) (v : variant) (c : N) : Prop :=
  (* a property that is read only stays as it is *)
  (opd_getset d = false -> c = R_AccessDenied /\ storage_kept C fuel s s' w) /\
  (* nothing but the name is stored *)
  (opd_getset d = true -> opd_code d <> FILE_NAME -> c = R_OK /\ storage_kept C fuel s s' w) /\
  (* the object is renamed, on the disk and in the storage *)
  (opd_getset d = true -> opd_code d = FILE_NAME -> h <> 0 -> forall n, v = VStr n ->
     exists q f, v_parent u = Some q /\ look w q = Some f /\
     (bad_name w f n -> c = R_Invalid_ObjectProp_Value) /\ (~ bad_name w f n -> c = R_OK) /\
     (c <> R_OK -> storage_kept C fuel s s' w) /\
     (c = R_OK -> (storage_kept C fuel s s' w /\ ~ can_rename C w u f n) \/
        exists w', state_after C fuel (length (r_log s)) w (r_log s') = Ret w' /\ reachable C w' /\ moved_to w h (v_path u) (join (v_path f) n) q n w')).

(** ** Proofs *)
Lemma unchanged_info C w h v : supply_ok C -> reachable C w -> look w h = Some v -> exists o w', get_object_info C h w = Ret ((R_OK, Some o), w') /\ v_info v = Some o /\ reachable C w' /\ (forall x, look w' x = look w x) /\ (forall y, content w' y = content w y).
Proof.
  intros SO R L. destruct (C70_object_info C w h v SO R L) as (o & w' & E & I & (U1 & U2 & _)). exists o, w'. split; [exact E|]. split; [exact I|]. split; [|split; assumption].
  apply (reach_step C w (OInfo h)); [exact R|exact Logic.I|]. cbn [exec]. unfold bind. rewrite E. reflexivity.
Qed.
Lemma invalid_only C fuel h n s v q f c s' : supply_ok C -> reachable C s -> h <> 0 -> look s h = Some v -> v_parent v = Some q -> look s q = Some f -> set_file_name C fuel h n s = Ret (c, s') -> c = R_OK \/ bad_name s f n.
Proof.
  intros SO R Hh LV VP LF E. destruct (reachable_good C s SO R) as (r & [[ch W] HR]). destruct (look_inv C s ch r W h v LV) as (p & i & A1 & A2 & A3 & ->). destruct (look_inv C s ch r W q f LF) as (pq & j & B1 & B2 & B3 & ->).
  assert (NR : aget h (s_handles s) <> Some (Some r)). { intros X. rewrite A1 in X. injection X as ->. destruct (W_root _ _ _ _ _ W) as (ri & X1 & _ & _ & X2). rewrite A2 in X1. injection X1 as <-. congruence. }
  pose proof (FSMove3.set_file_name_ok C r fuel h n s ch W NR) as H. rewrite E, A1 in H. destruct H as (ch' & _ & i' & q' & j' & H1 & H2 & H3 & H). rewrite A2 in H1. injection H1 as <-.
  assert (q' = pq) as ->. { cbn in VP. rewrite <- B3 in VP. apply (parent_is C s ch r W pq j p i B2 A2) in VP. congruence. }
  rewrite B2 in H3. injection H3 as <-. destruct H as [(-> & _ & BAD)|[(-> & _)|(-> & _)]]; [|auto|auto]. right. destruct BAD as [X|[X|X]].
  - left. apply existsb_exists in X as (x & X1 & X2). exists x. split; [exact X1|]. unfold illegal_char in X2. apply orb_true_iff in X2 as [X2|X2]; [left; apply N.ltb_lt; exact X2|right]. apply existsb_exists in X2 as (y & Y1 & Y2). apply N.eqb_eq in Y2. subst y. exact Y1.
  - right. left. unfold all_dots in X. apply andb_true_iff in X as [X1 X2]. split; [intros ->; discriminate X1|]. intros x Hx. rewrite forallb_forall in X2. symmetry. apply N.eqb_eq, X2, Hx.
  - right. right. destruct (s_paths s (join (i_path j) n)) as [x|] eqn:EP; [|contradiction]. destruct (W_path _ _ _ _ _ W _ x EP) as (y & yi & Y1 & _ & Y3 & _). exists (i_handle yi), (view_of s yi). split; [exact (look_of C s ch r W y yi Y1)|exact Y3].
Qed.
Lemma only_one k (v : variant) : k <> FILE_NAME -> forall x, ~ In (0xDC07, x) [(k, v)].
Proof. intros N x [X|[]]. apply N. unfold FILE_NAME. congruence. Qed.
Theorem C88_set_property : forall C rest formats cat props_by_type prop_desc s w tid h p v packets,
  at_work C rest s w -> tables_ok props_by_type prop_desc -> command_ok OP_SetObjectPropValue tid [h; p] -> tid <> 0 -> tid <> 0xFFFFFFFF -> value_packets prop_desc tid p v packets ->
  exists F, forall fuel, (F <= fuel)%nat ->
  exists s' c, answered (device C fuel rest (length (r_log s)) w) formats cat props_by_type prop_desc (command OP_SetObjectPropValue tid [h; p] :: data_phase packets) s s' tid c /\
    match look w h with
    | None => c = R_InvalidObjectHandle /\ storage_kept C fuel s s' w
    | Some u => exists o, v_info u = Some o /\
        match prop_desc (cat (oi_format o)) (p mod 65536) with
        | (k, Some d) => if k =? R_OK then property_written C fuel s s' w h u d v c else c = k /\ storage_kept C fuel s s' w
        | (k, None) => c = k /\ storage_kept C fuel s s' w
        end
    end.
Proof.
  intros C rest formats cat pt pd s w tid h p v packets AW TO CO T1 T2 (p1 & rs & body & -> & H4 & HP & HL & HB). pose proof AW as [SO R Q T RD ID SE].
  assert (RUN : forall fuel, exists s', Responder.run (device C fuel rest (length (r_log s)) w) formats cat pt pd (command OP_SetObjectPropValue tid [h; p] :: data_phase (p1 :: rs)) s = Ret (tt, s') /\ REdit2.ends s s' (RSetProp.set_script cat pd h p v) tid).
  { intros fuel. exact (RSetProp.set_value_ok (device C fuel rest (length (r_log s)) w) formats cat pt pd (device_undisturbed C fuel rest _ w Q) TO s tid h p v body p1 rs (device_ready C fuel rest _ w RD) ID CO SE T1 T2 HL H4 HP HB). }
  pose proof (known_look C SO w h R) as KL. destruct (look w h) as [u|] eqn:LK.
  2:{ exists O. intros fuel _. destruct (RUN fuel) as (s' & E & (l & c & A1 & A2 & A3 & A4 & A5 & A6)). exists s', c. split; [exists l; auto 10|]. pose proof (carried _ _ _ _ _ _ _ _ _ _ _ _ _ _ _ _ E A3 A4) as K.
      assert (NH : ahas h (s_handles w) = false) by (destruct (ahas h (s_handles w)); [exfalso; apply (proj1 KL); reflexivity|reflexivity]).
      unfold RSetProp.set_script, RSetProp.find_prop at 1 in K. destruct (play_ask C fuel rest _ w l _ w _ _ None c [] _ (code R_InvalidObjectHandle) w K eq_refl eq_refl) as (l1 & b1 & z & E1 & K1). { unfold owned. rewrite NH. reflexivity. }
      cbn beta in K1. change (Responder.a_code (with_async z (code R_InvalidObjectHandle))) with R_InvalidObjectHandle in K1. change (ROps.ok R_InvalidObjectHandle) with false in K1. cbv iota in K1. apply play_end in K1 as (_ & -> & _ & K1). rewrite E1, <- A3 in K1. split; [reflexivity|]. exists w. auto. }
  assert (AH : ahas h (s_handles w) = true) by (apply KL; discriminate).
  destruct (unchanged_info C w h u SO R LK) as (o & w1 & EI1 & VI & R1 & L1 & C1).
  assert (LK1 : look w1 h = Some u) by (rewrite L1; exact LK). destruct (unchanged_info C w1 h u SO R1 LK1) as (o2 & w2 & EI2 & VI2 & R2 & L2 & C2). rewrite VI in VI2. injection VI2 as <-.
  assert (AH1 : ahas h (s_handles w1) = true) by (apply (known_look C SO w1 h R1); congruence). assert (LK2 : look w2 h = Some u) by (rewrite L2; exact LK1). assert (AH2 : ahas h (s_handles w2) = true) by (apply (known_look C SO w2 h R2); congruence).
  destruct (reachable_good C w2 SO R2) as (r & [[ch W] HR]). destruct (rename_terminates C w2 ch r W) as (F & TERM). exists F. intros fuel LF.
  destruct (RUN fuel) as (s' & E & (l & c & A1 & A2 & A3 & A4 & A5 & A6)). exists s', c. split; [exists l; auto 10|]. exists o. split; [exact VI|]. pose proof (carried _ _ _ _ _ _ _ _ _ _ _ _ _ _ _ _ E A3 A4) as K.
  assert (KEPT : forall w3, state_after C fuel (length (r_log s)) w (r_log s') = Ret w3 -> reachable C w3 -> (forall x, look w3 x = look w2 x) -> (forall y, content w3 y = content w2 y) -> storage_kept C fuel s s' w).
  { intros w3 X1 X2 X3 X4. exists w3. split; [exact X1|]. split; [exact X2|]. split; [intros x; rewrite X3, L2; apply L1|intros y; rewrite X4, C2; apply C1]. }
  unfold RSetProp.set_script, RSetProp.find_prop at 1 in K. destruct (play_ask C fuel rest _ w l _ w _ _ None c [] _ (reply R_OK [] [] o) w1 K eq_refl eq_refl) as (l1 & b1 & z & E1 & K1). { unfold owned, tell. rewrite AH, EI1. reflexivity. }
  cbn beta in K1. change (Responder.a_code (with_async z (reply R_OK [] [] o))) with R_OK in K1. change (ROps.ok R_OK) with true in K1. cbv iota in K1. change (Responder.a_info (with_async z (reply R_OK [] [] o))) with o in K1.
  destruct (pd (cat (oi_format o)) (p mod 65536)) as [k [d|]] eqn:EP.
  2:{ apply play_end in K1 as (_ & -> & _ & K1). rewrite E1, <- A3 in K1. split; [reflexivity|]. apply (KEPT w1 K1 R1); intros x; congruence. }
  change (ROps.ok k) with (k =? R_OK) in K1. destruct (k =? R_OK) eqn:EK.
  2:{ apply play_end in K1 as (_ & -> & _ & K1). rewrite E1, <- A3 in K1. split; [reflexivity|]. apply (KEPT w1 K1 R1); intros x; congruence. }
  unfold property_written. destruct (opd_getset d) eqn:GS.
  2:{ apply play_end in K1 as (_ & -> & _ & K1). rewrite E1, <- A3 in K1. split; [|split; discriminate]. intros _. split; [reflexivity|]. apply (KEPT w1 K1 R1); intros x; congruence. }
  unfold RSetProp.find_prop in K1. destruct (play_ask C fuel rest _ w l1 b1 w1 _ _ None c [] _ (reply R_OK [] [] o) w2 K1 eq_refl eq_refl) as (l2 & b2 & z2 & E2 & K2). { unfold owned, tell. rewrite AH1, EI2. reflexivity. }
  cbn beta in K2. change (Responder.a_code (with_async z2 (reply R_OK [] [] o))) with R_OK in K2. change (ROps.ok R_OK) with true in K2. cbv iota in K2. change (Responder.a_info (with_async z2 (reply R_OK [] [] o))) with o in K2. rewrite EP in K2.
  change (ROps.ok k) with (k =? R_OK) in K2. rewrite EK in K2.
  assert (PLAY : forall c3 w3, set_props C fuel h [(opd_code d, v)] w2 = Ret (c3, w3) -> c = c3 /\ state_after C fuel (length (r_log s)) w (r_log s') = Ret w3).
  { intros c3 w3 ES. destruct (play_ask C fuel rest _ w l2 b2 w2 _ _ None c [] _ (code c3) w3 K2 eq_refl eq_refl) as (l3 & b3 & z3 & E3 & K3). { unfold owned, tell. rewrite AH2. cbn [map fst snd]. rewrite ES. reflexivity. }
    apply play_end in K3 as (_ & -> & _ & K3). rewrite E3, E2, E1, <- A3 in K3. split; [reflexivity|exact K3]. }
  split; [discriminate|]. split.
  - intros _ NN. assert (ES : exists c3 w3, set_props C fuel h [(opd_code d, v)] w2 = Ret (c3, w3)).
    { unfold set_props, bind, handle_value, get. destruct (aget h (s_handles w2)) as [[x|]|]; try (eexists; eexists; reflexivity). cbn [set_loop]. apply N.eqb_neq in NN. unfold FILE_NAME in NN. rewrite NN. eexists; eexists; reflexivity. }
    destruct ES as (c3 & w3 & ES). destruct (PLAY _ _ ES) as [-> K3]. destruct (C71_only_the_name_partial C fuel h _ w2 c3 w3 SO R2 (only_one _ _ NN) ES) as [-> ->]. rewrite LK2. split; [reflexivity|]. apply (KEPT w2 K3 R2); reflexivity.
  - intros _ EN Hh n ->. unfold FILE_NAME in EN. rewrite EN in PLAY.
    pose proof (wf_consistent C SO w2 ch r W) as CO2.
    destruct (look_inv C w2 ch r W h u LK2) as (pp & i & B1 & B2 & B3 & EU).
    assert (NR : pp <> r). { intros ->. destruct (W_root _ _ _ _ _ W) as (ri & X1 & _ & _ & X2). rewrite B2 in X1. injection X1 as <-. congruence. }
    destruct (wf_parent _ _ _ _ _ W pp i B2 NR) as (q' & j & oo & P1 & P2 & _). assert (VP : v_parent u = Some (i_handle j)) by (rewrite EU; apply (parent_is C w2 ch r W q' j pp i P2 B2); exact P1).
    assert (LQ : look w2 (i_handle j) = Some (view_of w2 j)) by exact (look_of C w2 ch r W q' j P2).
    exists (i_handle j), (view_of w2 j). split; [exact VP|]. assert (LQ0 : look w (i_handle j) = Some (view_of w2 j)) by (rewrite <- L1, <- L2; exact LQ). split; [exact LQ0|].
    pose proof (C71_name_partial C fuel h (VStr n) w2 ltac:(congruence)) as EQ. cbn [variant_str] in EQ. unfold bind in EQ.
    destruct (set_file_name C fuel h n w2) as [[c3 w3]| |] eqn:EF.
    + assert (ES : set_props C fuel h [(0xDC07, VStr n)] w2 = Ret (c3, w3)) by (rewrite EQ; unfold ret; destruct (isok c3) eqn:OK; [apply N.eqb_eq in OK; subst c3; reflexivity|reflexivity]).
      destruct (PLAY _ _ ES) as [-> K3]. destruct (C46_rename_partial C w2 fuel h n c3 w3 SO R2 Hh EF) as [X1 X2].
      assert (R3 : reachable C w3). { apply (reach_step C w2 (ORename fuel h n) w3 R2 Hh). cbn [exec]. unfold bind. rewrite EF. reflexivity. }
      split; [|split; [|split]].
      2:{ intros GOOD. destruct (invalid_only C fuel h n w2 u (i_handle j) (view_of w2 j) c3 w3 SO R2 Hh LK2 VP LQ EF) as [->|BAD]; [reflexivity|]. exfalso. apply GOOD. destruct BAD as [X|[X|(x & e & Y1 & Y2)]]; [left; exact X|right; left; exact X|]. right. right. exists x, e. split; [rewrite <- L1, <- L2; exact Y1|exact Y2]. }
      * intros BAD. assert (EV : set_file_name C fuel h n w2 = Ret (R_Invalid_ObjectProp_Value, w2)). { eapply C49_invalid_names; try eassumption. destruct BAD as [X|[X|(x & e & Y1 & Y2)]]; [auto|auto|]. right. right. exists x, e. split; [rewrite L2, L1; exact Y1|exact Y2]. }
        rewrite EF in EV. apply Ret_inj in EV. congruence.
      * intros NC. destruct (X2 NC) as [Y1 Y2]. exact (KEPT w3 K3 R3 Y1 Y2).
      * intros EC. destruct (X1 EC) as (v' & q & f & Z1 & Z2 & Z3 & Z4). rewrite LK2 in Z1. injection Z1 as <-. rewrite VP in Z2. injection Z2 as <-. rewrite LQ in Z3. injection Z3 as <-.
        destruct Z4 as [Z4|(Z4 & Z5 & Z6)].
        -- right. exists w3. split; [exact K3|]. split; [exact R3|]. destruct Z4 as [M1 M2 M3 M4].
           assert (LL : forall x, look w2 x = look w x) by (intros x; rewrite L2; apply L1). assert (CC : forall y, content w2 y = content w y) by (intros y; rewrite C2; apply C1).
           assert (INS : forall x, inside w h x <-> inside w2 h x). { intros x. split; intros X; induction X as [a La|a b q La Pa X IH]; try (eapply inside_self; rewrite ?LL; eassumption); try (eapply inside_self; rewrite <- ?LL; eassumption); eapply inside_child; [|eassumption|exact IH|..]; rewrite ?LL; try eassumption; rewrite <- LL; eassumption. }
           constructor.
           ++ intros x X. apply M1. rewrite LL. exact X.
           ++ intros x y X NI. apply M2; [rewrite LL; exact X|]. intros J. apply NI, INS. exact J.
           ++ intros x y X I. apply M3; [rewrite LL; exact X|apply INS; exact I].
           ++ intros X. destruct M4 as (N1 & N2 & N3); [intros y Y; rewrite CC; apply X; exact Y|]. split; [intros y zz Y; rewrite (N1 y zz Y); apply CC|]. split; [exact N2|]. intros y Y1 Y2. rewrite (N3 y Y1 Y2). apply CC.
        -- left. split; [exact (KEPT w3 K3 R3 Z5 Z6)|]. intros (Q1 & Q2 & Q3 & Q4 & Q5). apply Z4. split; [exact Q1|]. rewrite !C2, !C1. auto.
    + exfalso. pose proof (reachable_step C w2 (ORename fuel h n) SO R2 Hh) as X. cbn [exec] in X. unfold bind in X. rewrite EF in X. apply X. reflexivity.
    + exfalso. exact (TERM fuel h n LF EF).
Qed.

(** ** The tables of the device *)
(** the name of an object of any kind can be set, as a string; its identity cannot: storage,
    format, protection, size, dates, parent, persistent id *)
Theorem C88_shipped : forall pv c,
  (exists d, Pod.pod_desc pv c FILE_NAME = (R_OK, Some d) /\ opd_code d = FILE_NAME /\ opd_getset d = true /\ opd_type d = 0xFFFF) /\
  (forall p, In p [0xDC01; 0xDC02; 0xDC03; 0xDC04; 0xDC08; 0xDC09; 0xDC0B; 0xDC41] -> exists d, Pod.pod_desc pv c p = (R_OK, Some d) /\ opd_code d = p /\ opd_getset d = false).
Proof.
  intros pv c. split.
  - eexists. unfold Pod.pod_desc. cbn [Pod.common_map]. split; [reflexivity|]. repeat split.
  - intros p I. cbn [In] in I. repeat (destruct I as [<-|I]; [eexists; split; [unfold Pod.pod_desc; reflexivity|split; reflexivity]|]). contradiction.
Qed.

(** ** Examples *)
Definition name_packet (tid : N) (n : path) : bytes := let body := WireSpec.spec_value 0xFFFF (VStr n) in WireSpec.spec_header (12 + len body) 2 OP_SetObjectPropValue tid ++ body.
Lemma name_packets pv tid n : WireSpec.has_type 0xFFFF (VStr n) -> 12 + len (WireSpec.spec_value 0xFFFF (VStr n)) < 2^32 -> 4 <= len (name_packet tid n) -> value_packets (Pod.pod_desc pv) tid FILE_NAME (VStr n) [name_packet tid n].
Proof.
  intros HT HL H4. exists (name_packet tid n), [], (WireSpec.spec_value 0xFFFF (VStr n)). split; [reflexivity|]. split; [exact H4|]. split; [cbn [concat]; rewrite app_nil_r; reflexivity|]. split; [exact HL|].
  intros c d c' d' E1 _ E2. change (FILE_NAME mod 65536) with FILE_NAME in *. destruct (C88_shipped pv c') as [(d2 & E3 & _ & _ & ET) _]. rewrite E2 in E3. injection E3 as ->. rewrite ET. split; [exact HT|]. split; [exact Logic.I|reflexivity].
Qed.
(** renaming the file /s/c of the demonstration disk to /s/z: every hypothesis is met, and nothing stands in the way *)
Example C88_hypotheses : value_packets (Pod.pod_desc P_Pod.shipped_provider) 5 FILE_NAME (VStr [122]) [name_packet 5 [122]] /\
  exists v f, look (demo_start FSDemo.quiet) 21 = Some v /\ look (demo_start FSDemo.quiet) 0 = Some f /\ can_rename FSDemo.quiet (demo_start FSDemo.quiet) v f [122] /\ v_path v = pC.
Proof.
  split; [apply name_packets; [repeat constructor; try (vm_compute; congruence); intros c r H; injection H as <- <-; split; discriminate|vm_compute; reflexivity|vm_compute; discriminate]|].
  eexists. eexists. split; [vm_compute; reflexivity|]. split; [vm_compute; reflexivity|]. split; [|reflexivity].
  split; [reflexivity|]. split; [vm_compute; discriminate|]. split; [vm_compute; reflexivity|]. split; [vm_compute; reflexivity|discriminate].
Qed.
Definition demo_set (i : list Responder.input) : option (list Responder.outc * option node * option node) :=
  match Responder.run (device FSDemo.quiet 10 calm 0 (demo_start FSDemo.quiet)) [] (fun _ => 0) (Pod.pod_props P_Pod.shipped_provider) (Pod.pod_desc P_Pod.shipped_provider) i RDemo.in_session with
  | Ret (_, s') => match state_after FSDemo.quiet 10 0 (demo_start FSDemo.quiet) (r_log s') with
    | Ret w' => Some (responses (r_log s'), content w' pC, content w' [47;115;47;122])
    | _ => None end
  | _ => None end.
Example C88_example :
  demo_set (command OP_SetObjectPropValue 5 [21; FILE_NAME] :: data_phase [name_packet 5 [122]]) = Some ([RSession.resp_out R_OK 5 []], None, Some (File [7;8])) /\
  demo_set (command OP_SetObjectPropValue 5 [21; FILE_NAME] :: data_phase [name_packet 5 [47]]) = Some ([RSession.resp_out R_Invalid_ObjectProp_Value 5 []], Some (File [7;8]), None) /\
  demo_set (command OP_SetObjectPropValue 5 [21; 0xDC04] :: data_phase [name_packet 5 [122]]) = Some ([RSession.resp_out R_AccessDenied 5 []], Some (File [7;8]), None).
Proof. split; [|split]; vm_compute; reflexivity. Qed.
Print Assumptions C88_set_property.
Print Assumptions C88_shipped.
