(** C98: an object announced by a property list, from the requests to the files. *)
From Verif Require Import Base AList Wire FS FSPath FSTree FSLogic FSSpec FSReach FSProps FSDemo P_FS4 Device DeviceProofs DeviceRead DeviceSend DeviceSend2 DeviceInfo DeviceOps P_Device.
From Verif Require Usb Responder RSpec RLogic ROne2 RExec RSession RRead RSend RSend2 RSendList RExt ROps RPropList REdit2 RDemo P_Read P_Send P_SendList WireSpec.
Import Responder(act, ans, scall, rstate, r_log, r_st, r_session, o_code, o_pay, o_type, o_tid, u32_item, PItems, OP_SendObjectPropList, OP_SendObject, OP_GetObject).
Import RSpec(responses, datas, command_ok).
Import ROne2(command, data_phase).
Import RSend(object_packets, announced).
Import RSession(resp_out).
Import RSendList(judged, j_bad, j_unnamed, j_named, Bad, Unnamed, Named, fits, new_object, NAME).
Import RPropList(element, element_ok, list_bytes, el_prop, el_value).
Import RRead(packets, transfers).

(** the verdict on a list is determined by the list *)
Lemma first_unique {A} (P : A -> Prop) pre : forall pre' e e' post post', pre ++ e :: post = pre' ++ e' :: post' -> Forall P pre -> Forall P pre' -> ~ P e -> ~ P e' -> pre = pre' /\ e = e' /\ post = post'.
Proof.
  induction pre as [|x pre IH]; intros [|x' pre'] e e' post post' E F F' N N'; cbn [app] in E.
  - injection E as -> ->. auto.
  - injection E as -> E. apply Forall_inv in F'. contradiction.
  - injection E as <- E. apply Forall_inv in F. contradiction.
  - injection E as <- E. destruct (IH pre' e e' post post' E (Forall_inv_tail F) (Forall_inv_tail F') N N') as (-> & -> & ->). auto.
Qed.
Lemma last_unique {A} (P : A -> Prop) pre pre' e e' post post' : pre ++ e :: post = pre' ++ e' :: post' -> Forall P post -> Forall P post' -> ~ P e -> ~ P e' -> pre = pre' /\ e = e' /\ post = post'.
Proof.
  intros E F F' N N'. apply (f_equal (@rev A)) in E. rewrite !rev_app_distr in E. cbn [rev] in E. rewrite <- !app_assoc in E. cbn [app] in E.
  destruct (first_unique P (rev post) (rev post') e e' (rev pre) (rev pre') E) as (A1 & A2 & A3); try assumption; try (apply Forall_rev; assumption).
  apply (f_equal (@rev A)) in A1. apply (f_equal (@rev A)) in A3. rewrite !rev_involutive in *. auto.
Qed.
Lemma judged_det good els v1 v2 : judged good els v1 -> judged good els v2 -> v1 = v2.
Proof.
  assert (BU : forall pre e post, good e = false -> Forall (fun x => good x = true) (pre ++ e :: post) -> False).
  { intros pre e post B F. apply Forall_app in F as [_ F]. apply Forall_inv in F. congruence. }
  assert (UN : forall pre e post, el_prop e = NAME -> Forall (fun x => el_prop x <> NAME) (pre ++ e :: post) -> False).
  { intros pre e post B F. apply Forall_app in F as [_ F]. apply Forall_inv in F. congruence. }
  intros J1 J2. destruct J1 as [pre e post F B|els F N|pre e post n F P V N].
  - inversion J2 as [pre' e' post' F' B' EQ|els' F' N' EQ|pre' e' post' n' F' P' V' N' EQ]; subst.
    + destruct (first_unique (fun x => good x = true) pre pre' e e' post post' (eq_sym EQ)) as (-> & _); try assumption; try congruence; reflexivity.
    + destruct (BU pre e post B F').
    + rewrite EQ in F'. destruct (BU pre e post B F').
  - inversion J2 as [pre' e' post' F' B' EQ|els' F' N' EQ|pre' e' post' n' F' P' V' N' EQ]; subst.
    + destruct (BU pre' e' post' B' F).
    + reflexivity.
    + destruct (UN pre' e' post' P' N).
  - inversion J2 as [pre' e' post' F' B' EQ|els' F' N' EQ|pre' e' post' n' F' P' V' N' EQ]; subst.
    + rewrite <- EQ in F. destruct (BU pre' e' post' B' F).
    + destruct (UN pre e post P N').
    + destruct (last_unique (fun x => el_prop x <> NAME) pre pre' e e' post post' (eq_sym EQ)) as (-> & -> & _); try assumption; try tauto. congruence.
Qed.

(** Announcing: SendObjectPropList with a list that has a file name, in whatever packets.
    If the storage can create the object, the response names a handle under which it is now
    listed, in the requested folder, under the last file name of the list, and the content to
    come next is its content; every other object is as before; and if no object had that place
    it is a new one of the announced format and size.  Else the response has the storage's code
    and the place of the file name in the list. *)
Theorem C98_announce : forall C fuel rest formats cat props_by_type prop_desc s w tid st parent fmt lo els i nm p1 more res w',
  at_work C rest s w -> st = 0 \/ st = STORAGE -> parent = 0 \/ parent = Responder.ALL \/ look w parent <> None ->
  Forall element_ok els -> (forall e, In e els -> el_prop e = NAME -> exists n, el_value e = VStr n) ->
  judged (fits prop_desc (cat (fmt mod 65536))) els (Named i nm) -> plain nm -> nm <> [] ->
  12 + len (list_bytes els) < 2^32 -> 4 <= len p1 ->
  p1 ++ concat more = WireSpec.spec_header (12 + len (list_bytes els)) 2 OP_SendObjectPropList tid ++ list_bytes els ->
  command_ok OP_SendObjectPropList tid [st; parent; fmt; 0; lo] -> tid <> 0 -> tid <> 0xFFFFFFFF ->
  add_item C fuel (new_object st parent (fmt mod 65536) lo nm) w = Ret (res, w') ->
  exists s' l o, Responder.run (device C fuel rest (length (r_log s)) w) formats cat props_by_type prop_desc (command OP_SendObjectPropList tid [st; parent; fmt; 0; lo] :: data_phase (p1 :: more)) s = Ret (tt, s') /\
    r_st s' = Responder.IDLE /\ r_session s' = r_session s /\ r_log s' = l ++ r_log s /\ datas l = [] /\
    responses l = [o] /\ o_type o = TYPE_RESPONSE /\ o_tid o mod 65536 = tid mod 65536 /\
    state_after C fuel (length (r_log s)) w (r_log s') = Ret w' /\ reachable C w' /\ (forall x u, look w x = Some u -> look w' x = Some u) /\
    match snd res with
    | Some (h, q) => q = (if parent =? Responder.ALL then 0 else parent) /\ o_code o = R_OK /\ o_pay o = PItems (map u32_item [STORAGE; q; h]) /\
        Responder.r_seq s' = Responder.r_seq s /\ (exists p, Responder.r_pl s' = Some p /\ Responder.pl_handle p = h /\ Responder.pl_size p = lo /\ Responder.pl_cur p = 0) /\
        exists v pv, look w' h = Some v /\ v_parent v = Some q /\ look w' q = Some pv /\ v_path v = join (v_path pv) nm /\
          ((forall x u, look w x = Some u -> v_path u <> v_path v) -> look w h = None /\
             exists o, v_info v = Some o /\ oi_format o = fmt mod 65536 /\ oi_size o = lo /\ oi_name o = nm /\
               (fmt mod 65536 <> FMT_Association -> exists d, content w' (v_path v) = Some (File d)))
    | None => fst res <> R_OK /\ o_code o = fst res /\ o_pay o = PItems (map u32_item [0; 0; 0; i])
    end.
Proof.
  intros C fuel rest formats cat pt pd s w tid st parent fmt lo els i nm p1 more res w' [SO R Q T RD ID SE] ST PA HE HN JU PL NN HL H4 HP CO T1 T2 EA.
  set (n := length (r_log s)). set (D := device C fuel rest n w).
  destruct (RSendList.prop_list_ok D formats cat pt pd (device_undisturbed C fuel rest n w Q) s tid st parent fmt 0 lo els p1 more (device_ready C fuel rest n w RD) ID CO SE T1 T2 HE HN HL H4 HP)
    as (s' & v & c & ps & E & J & (l & o & I & S & L & F & DT & RS & OT & OC & OP & OTID) & SQ & _ & PLOK).
  assert (v = Named i nm) by exact (judged_det _ _ _ _ J JU). subst v.
  destruct (add_new C SO w fuel (new_object st parent (fmt mod 65536) lo nm) res w' R PL EA) as (R' & KEEP & A). cbn [oi_name oi_parent oi_format oi_size new_object] in A.
  assert (K : carries C fuel rest n w l (r_log s) w (RSendList.list_script st parent (fmt mod 65536) 0 lo (Named i nm)) None c ps).
  { destruct (RExt.run_recorded _ _ _ _ _ _ _ _ E) as (d' & _ & AG). rewrite L in AG. split; [unfold n; lia|]. split; [apply after_base; reflexivity|]. split; [exact AG|exact F]. }
  assert (FIN : c = fst res /\ ps = match snd res with Some (h, q) => [STORAGE; q; h] | None => [0; 0; 0; i] end /\ state_after C fuel n w (r_log s') = Ret w').
  { unfold RSendList.list_script in K. change (0 =? 0) with true in K. cbv iota zeta in K. rewrite L. destruct nm as [|u nm]; [contradiction|]. cbn [RSendList.add_script] in K.
    set (rep := reply (fst res) (match snd res with Some (h, q) => [STORAGE; q; h] | None => [STORAGE; parent; 0] end) [] no_info).
    assert (ADD : forall l1 b1, l1 ++ b1 = l ++ r_log s -> carries C fuel rest n w l1 b1 w (RSendList.add_script st parent (fmt mod 65536) lo (Named i (u :: nm))) None c ps ->
       c = fst res /\ ps = match snd res with Some (h, q) => [STORAGE; q; h] | None => [0; 0; 0; i] end /\ state_after C fuel n w (l ++ r_log s) = Ret w').
    { intros l1 b1 EQ K1. cbn [RSendList.add_script] in K1.
      assert (EM : forall m, storage C fuel (Responder.SAddItem st parent (new_object st parent (fmt mod 65536) lo (u :: nm))) = Some m -> m w = Ret (rep, w')).
      { intros m [= <-]. cbv zeta. replace (if st =? 0 then STORAGE else st) with STORAGE by (destruct ST as [->| ->]; reflexivity). change (STORAGE =? STORAGE) with true. cbv iota. unfold tell. rewrite EA. reflexivity. }
      destruct (play_ask C fuel rest n w l1 b1 w _ _ None c ps _ _ _ K1 eq_refl eq_refl (EM _ eq_refl)) as (l2 & b2 & z & E2 & K2).
      change (Responder.a_code (with_async z rep)) with (fst res) in K2. unfold ROps.ok in K2. destruct (snd res) as [[h q]|] eqn:SR.
      - destruct A as (FO & _). rewrite FO in K2. change (R_OK =? Responder.R_OK) with true in K2. cbv iota in K2.
        destruct (play_end C fuel rest n w l2 b2 w' _ _ _ _ _ _ K2) as (_ & -> & -> & SA). rewrite E2, EQ in SA. split; [symmetry; exact FO|]. split; [unfold rep; reflexivity|exact SA].
      - assert (fst res =? Responder.R_OK = false) as FO by (apply N.eqb_neq; exact A). rewrite FO in K2.
        destruct (play_end C fuel rest n w l2 b2 w' _ _ _ _ _ _ K2) as (_ & -> & -> & SA). rewrite E2, EQ in SA. split; [reflexivity|]. split; [reflexivity|exact SA]. }
    assert (PLC : forall l1 b1, l1 ++ b1 = l ++ r_log s -> carries C fuel rest n w l1 b1 w (if (parent =? 0) || (parent =? 4294967295) then RSendList.add_script st parent (fmt mod 65536) lo (Named i (u :: nm)) else ROps.provided (Responder.SCheckHandle parent) (RSendList.add_script st parent (fmt mod 65536) lo (Named i (u :: nm)))) None c ps ->
       c = fst res /\ ps = match snd res with Some (h, q) => [STORAGE; q; h] | None => [0; 0; 0; i] end /\ state_after C fuel n w (l ++ r_log s) = Ret w').
    { intros l1 b1 EQ K1. destruct ((parent =? 0) || (parent =? 4294967295)) eqn:PP; [exact (ADD l1 b1 EQ K1)|].
      assert (LP : ahas parent (s_handles w) = true).
      { apply (known_look C SO w parent R). apply orb_false_iff in PP as [P1 P2]. apply N.eqb_neq in P1. apply N.eqb_neq in P2. destruct PA as [X|[X|X]]; [contradiction|contradiction|exact X]. }
      assert (EM : forall m, storage C fuel (Responder.SCheckHandle parent) = Some m -> m w = Ret (code R_OK, w)) by (intros m [= <-]; rewrite LP; reflexivity).
      unfold ROps.provided in K1. destruct (play_ask C fuel rest n w l1 b1 w _ _ None c ps _ _ _ K1 eq_refl eq_refl (EM _ eq_refl)) as (l2 & b2 & z & E2 & K2). apply (ADD l2 b2); [congruence|exact K2]. }
    destruct ST as [->| ->].
    - apply (PLC l (r_log s) eq_refl). exact K.
    - change (STORAGE =? 0) with false in K. cbv iota in K. unfold ROps.provided in K.
      destruct (play_ask C fuel rest n w l (r_log s) w _ _ None c ps _ _ _ K eq_refl eq_refl eq_refl) as (l2 & b2 & z & E2 & K2). apply (PLC l2 b2 E2). exact K2. }
  destruct FIN as (-> & -> & SA). exists s', l, o. split; [exact E|]. split; [exact I|]. split; [exact S|]. split; [exact L|]. split; [exact DT|]. split; [exact RS|]. split; [exact OT|]. split; [exact OTID|].
  split; [exact SA|]. split; [exact R'|]. split; [exact KEEP|]. destruct (snd res) as [[h q]|].
  - destruct A as (FO & QE & A). split; [exact QE|]. split; [rewrite OC; exact FO|]. split; [exact OP|]. split; [exact SQ|]. split; [exact (PLOK FO)|exact A].
  - split; [exact A|]. split; [exact OC|exact OP].
Qed.
(** Nothing is added, and the answer says why, when the storage or the folder is not there, the
    object has 4 GiB or more, or the list has an element out of place or no file name. *)
Theorem C98_refused : forall C fuel rest formats cat props_by_type prop_desc s w tid st parent fmt hi lo els v p1 more,
  at_work C rest s w ->
  Forall element_ok els -> (forall e, In e els -> el_prop e = NAME -> exists n, el_value e = VStr n) -> judged (fits prop_desc (cat (fmt mod 65536))) els v ->
  12 + len (list_bytes els) < 2^32 -> 4 <= len p1 ->
  p1 ++ concat more = WireSpec.spec_header (12 + len (list_bytes els)) 2 OP_SendObjectPropList tid ++ list_bytes els ->
  command_ok OP_SendObjectPropList tid [st; parent; fmt; hi; lo] -> tid <> 0 -> tid <> 0xFFFFFFFF ->
  let no_storage := st <> 0 /\ st <> STORAGE in
  let no_folder := parent <> 0 /\ parent <> Responder.ALL /\ look w parent = None in
  let no_name := forall i n, v = Named i n -> n = [] in
  no_storage \/ no_folder \/ hi <> 0 \/ no_name ->
  exists s' l o, Responder.run (device C fuel rest (length (r_log s)) w) formats cat props_by_type prop_desc (command OP_SendObjectPropList tid [st; parent; fmt; hi; lo] :: data_phase (p1 :: more)) s = Ret (tt, s') /\
    r_st s' = Responder.IDLE /\ r_log s' = l ++ r_log s /\ datas l = [] /\ responses l = [o] /\ state_after C fuel (length (r_log s)) w (r_log s') = Ret w /\
    (no_storage -> o_code o = Responder.R_InvalidStorageID) /\
    (~ no_storage -> no_folder -> o_code o = R_InvalidObjectHandle) /\
    (~ no_storage -> ~ no_folder -> hi <> 0 -> o_code o = Responder.R_Object_Too_Large) /\
    (~ no_storage -> ~ no_folder -> hi = 0 -> o_code o = Responder.R_Invalid_Dataset).
Proof.
  intros C fuel rest formats cat pt pd s w tid st parent fmt hi lo els v p1 more [SO R Q T RD ID SE] HE HN JU HL H4 HP CO T1 T2 NS NF NN WHY.
  set (n := length (r_log s)). set (D := device C fuel rest n w).
  destruct (RSendList.prop_list_ok D formats cat pt pd (device_undisturbed C fuel rest n w Q) s tid st parent fmt hi lo els p1 more (device_ready C fuel rest n w RD) ID CO SE T1 T2 HE HN HL H4 HP)
    as (s' & v' & c & ps & E & J & (l & o & I & S & L & F & DT & RS & OT & OC & OP & OTID) & SQ & _ & _).
  assert (v' = v) by exact (judged_det _ _ _ _ J JU). subst v'.
  assert (K : carries C fuel rest n w l (r_log s) w (RSendList.list_script st parent (fmt mod 65536) hi lo v) None c ps).
  { destruct (RExt.run_recorded _ _ _ _ _ _ _ _ E) as (d' & _ & AG). rewrite L in AG. split; [unfold n; lia|]. split; [apply after_base; reflexivity|]. split; [exact AG|exact F]. }
  exists s', l, o. split; [exact E|]. split; [exact I|]. split; [exact L|]. split; [exact DT|]. split; [exact RS|]. rewrite OC, L. clear E I S F OC SQ J.
  assert (SIZED : forall l1 b1, l1 ++ b1 = l ++ r_log s -> (hi <> 0 \/ NN) ->
     carries C fuel rest n w l1 b1 w (if hi =? 0 then RSendList.add_script st parent (fmt mod 65536) lo v else ROps.fail Responder.R_Object_Too_Large) None c ps ->
     state_after C fuel n w (l ++ r_log s) = Ret w /\ (hi <> 0 -> c = Responder.R_Object_Too_Large) /\ (hi = 0 -> c = Responder.R_Invalid_Dataset)).
  { intros l1 b1 EQ WH K1. destruct (hi =? 0) eqn:EH.
    - apply N.eqb_eq in EH. destruct WH as [WH|WH]; [contradiction|]. unfold RSendList.add_script, RSendList.refuse in K1.
      destruct v as [j| |j nm]; [| |rewrite (WH j nm eq_refl) in K1]; destruct (play_end C fuel rest n w l1 b1 w _ _ _ _ _ _ K1) as (_ & -> & -> & SA); rewrite EQ in SA; (split; [exact SA|split; [contradiction|reflexivity]]).
    - apply N.eqb_neq in EH. unfold ROps.fail in K1. destruct (play_end C fuel rest n w l1 b1 w _ _ _ _ _ _ K1) as (_ & -> & -> & SA). rewrite EQ in SA. split; [exact SA|]. split; [reflexivity|contradiction]. }
  assert (PLACED : forall l1 b1, l1 ++ b1 = l ++ r_log s -> (NF \/ hi <> 0 \/ NN) ->
     carries C fuel rest n w l1 b1 w (let sized := if hi =? 0 then RSendList.add_script st parent (fmt mod 65536) lo v else ROps.fail Responder.R_Object_Too_Large in
        if (parent =? 0) || (parent =? 4294967295) then sized else ROps.provided (Responder.SCheckHandle parent) sized) None c ps ->
     state_after C fuel n w (l ++ r_log s) = Ret w /\ (NF -> c = R_InvalidObjectHandle) /\ (~ NF -> hi <> 0 -> c = Responder.R_Object_Too_Large) /\ (~ NF -> hi = 0 -> c = Responder.R_Invalid_Dataset)).
  { cbv zeta. intros l1 b1 EQ WH K1. destruct ((parent =? 0) || (parent =? 4294967295)) eqn:PP.
    - assert (NNF : ~ NF). { intros (A & B & _). apply orb_true_iff in PP as [P|P]; apply N.eqb_eq in P; [exact (A P)|exact (B P)]. }
      destruct (SIZED l1 b1 EQ ltac:(tauto) K1) as (A & B1 & B2). split; [exact A|]. split; [contradiction|]. split; [intros _; exact B1|intros _; exact B2].
    - apply orb_false_iff in PP as [P1 P2]. apply N.eqb_neq in P1. apply N.eqb_neq in P2. unfold ROps.provided in K1.
      destruct (ahas parent (s_handles w)) eqn:AH.
      + assert (NNF : ~ NF). { intros (_ & _ & A). apply (known_look C SO w parent R) in AH. contradiction. }
        assert (EM : forall m, storage C fuel (Responder.SCheckHandle parent) = Some m -> m w = Ret (code R_OK, w)) by (intros m [= <-]; rewrite AH; reflexivity).
        destruct (play_ask C fuel rest n w l1 b1 w _ _ None c ps _ _ _ K1 eq_refl eq_refl (EM _ eq_refl)) as (l2 & b2 & z & E2 & K2).
        destruct (SIZED l2 b2 ltac:(congruence) ltac:(tauto) K2) as (A & B1 & B2). split; [exact A|]. split; [contradiction|]. split; [intros _; exact B1|intros _; exact B2].
      + assert (YNF : NF). { split; [exact P1|]. split; [exact P2|]. destruct (look w parent) eqn:LP; [|reflexivity]. assert (X : look w parent <> None) by (rewrite LP; discriminate). apply (known_look C SO w parent R) in X. congruence. }
        assert (EM : forall m, storage C fuel (Responder.SCheckHandle parent) = Some m -> m w = Ret (code R_InvalidObjectHandle, w)) by (intros m [= <-]; rewrite AH; reflexivity).
        destruct (play_ask C fuel rest n w l1 b1 w _ _ None c ps _ _ _ K1 eq_refl eq_refl (EM _ eq_refl)) as (l2 & b2 & z & E2 & K2).
        change (ROps.ok (Responder.a_code (with_async z (code R_InvalidObjectHandle)))) with false in K2. cbv iota in K2. unfold ROps.fail in K2.
        destruct (play_end C fuel rest n w l2 b2 w _ _ _ _ _ _ K2) as (_ & -> & -> & SA). rewrite E2, EQ in SA. split; [exact SA|]. split; [reflexivity|]. split; intros X; contradiction. }
  unfold RSendList.list_script in K. destruct (st =? 0) eqn:E0.
  - apply N.eqb_eq in E0. assert (NNS : ~ NS) by (intros [A _]; contradiction). destruct (PLACED l (r_log s) eq_refl ltac:(tauto) K) as (A & B1 & B2 & B3). split; [exact A|]. split; [contradiction|]. split; [intros _; exact B1|]. split; [intros _; exact B2|intros _; exact B3].
  - apply N.eqb_neq in E0. unfold ROps.provided in K. destruct (st =? STORAGE) eqn:E1.
    + apply N.eqb_eq in E1. assert (NNS : ~ NS) by (intros [_ A]; contradiction).
      assert (EM : forall m, storage C fuel (Responder.SCheckStorage st) = Some m -> m w = Ret (code R_OK, w)) by (intros m [= <-]; rewrite E1; reflexivity).
      destruct (play_ask C fuel rest n w l (r_log s) w _ _ None c ps _ _ _ K eq_refl eq_refl (EM _ eq_refl)) as (l2 & b2 & z & E2 & K2).
      destruct (PLACED l2 b2 E2 ltac:(tauto) K2) as (A & B1 & B2 & B3). split; [exact A|]. split; [contradiction|]. split; [intros _; exact B1|]. split; [intros _; exact B2|intros _; exact B3].
    + assert (YNS : NS) by (split; [exact E0|apply N.eqb_neq; exact E1]).
      assert (EM : forall m, storage C fuel (Responder.SCheckStorage st) = Some m -> m w = Ret (code Responder.R_InvalidStorageID, w)) by (intros m [= <-]; rewrite E1; reflexivity).
      destruct (play_ask C fuel rest n w l (r_log s) w _ _ None c ps _ _ _ K eq_refl eq_refl (EM _ eq_refl)) as (l2 & b2 & z & E2 & K2).
      change (ROps.ok (Responder.a_code (with_async z (code Responder.R_InvalidStorageID)))) with false in K2. cbv iota in K2. unfold ROps.fail in K2.
      destruct (play_end C fuel rest n w l2 b2 w _ _ _ _ _ _ K2) as (_ & -> & -> & SA). rewrite E2 in SA. split; [exact SA|]. split; [reflexivity|]. split; [contradiction|]. split; contradiction.
Qed.
(** the content, and that the transport is not reset *)
Lemma content_sent : forall C fuel rest formats cat props_by_type prop_desc s w tid ps h v old hdr bodies,
  at_work C rest s w -> works C -> (forall c p d, snd (prop_desc c p) = Some d -> opd_code d = p) ->
  look w h = Some v -> content w (v_path v) = Some (File old) -> announced s h (len (concat bodies)) 0 ->
  bodies <> [] -> Forall (fun b => 0 < len b) (tl bodies) -> (forall b, In b bodies -> len b < 2^31) -> len hdr = 12 ->
  command_ok OP_SendObject tid ps -> tid <> 0 -> tid <> 0xFFFFFFFF ->
  exists s' l w', Responder.run (device C fuel rest (length (r_log s)) w) formats cat props_by_type prop_desc (command OP_SendObject tid ps :: data_phase (object_packets hdr bodies)) s = Ret (tt, s') /\
    r_st s' = Responder.IDLE /\ r_session s' = r_session s /\ r_log s' = l ++ r_log s /\ datas l = [] /\ responses l = [resp_out R_OK tid []] /\
    Responder.r_seq s' = None /\ Responder.r_pl s' = None /\
    state_after C fuel (length (r_log s)) w (r_log s') = Ret w' /\ reachable C w' /\ (forall x, look w' x = look w x) /\
    content w' (v_path v) = Some (File (concat bodies)) /\ (forall y, y <> v_path v -> content w' y = content w y) /\
    Usb.resets (r_log s') = Usb.resets (r_log s) /\
    Responder.run (boast C fuel rest w (length (r_log s))) formats cat props_by_type prop_desc (command OP_SendObject tid ps :: data_phase (object_packets hdr bodies)) s = Ret (tt, s').
Proof.
  intros C fuel rest formats cat pt pd s w tid ps h v old hdr bodies [SO R Q T RD ID SE] WK PD HL HC HA NE NZ LB HD CO T1 T2.
  assert (LB' : forall b, In b bodies -> len b < 0x80000000) by (intros b I; exact (LB b I)).
  set (n := length (r_log s)).
  assert (WR : forall b, In b bodies -> RSend.code_of_write (boast C fuel rest w n) h b R_OK) by (intros b I hist f g; reflexivity).
  assert (TOT : forall pre b post, bodies = pre ++ b :: post -> post <> [] -> RSend.total (pre ++ [b]) < len (concat bodies)).
  { rewrite <- P_Send.total_len. intros pre b post -> Hp. rewrite !P_Send.total_app. cbn [RSend.total]. destruct post as [|x post]; [contradiction|].
    assert (0 < len x). { rewrite Forall_forall in NZ. apply NZ. destruct pre; cbn; [left; reflexivity|]. apply in_or_app. right; right; left; reflexivity. }
    cbn [RSend.total]. lia. }
  destruct (RSend.send_object_ok (boast C fuel rest w n) formats cat pt pd (boast_undisturbed C fuel rest w n Q) s tid ps h (len (concat bodies)) hdr bodies ID CO (boast_ready C fuel rest w n RD) SE T1 T2 HA NE HD)
    as (s' & l & E1 & E2 & E3 & E4 & E5 & E6 & E7 & E8).
  { exact WR. }
  { exact TOT. }
  { right. rewrite P_Send.total_len. reflexivity. }
  pose proof (UsbSend.send_no_reset (boast C fuel rest w n) formats cat pt pd s tid ps h (len (concat bodies)) hdr bodies s' ID CO (boast_ready C fuel rest w n RD) SE T1 T2 HA NE HD WR TOT E1) as RES.
  rewrite P_Send.total_len, N.ltb_irrefl in E8. destruct E8 as (K1 & cs & K2 & K3).
  assert (CS : exists mid, cs = mid ++ [Responder.SWrite h None false true] /\ between h mid).
  { destruct K2 as [[_ ->]|[_ (vals & B & ->)]]; [exists []; split; [reflexivity|intros c []]|]. exists [Responder.SSetProps h vals true]. split; [reflexivity|]. intros c [<-|[]]. exists vals. split; [reflexivity|exact (named_only pd vals PD B)]. }
  destruct CS as (mid & -> & BT).
  destruct (sent_state2 C fuel SO WK w h v old R HL HC n (r_log s) l bodies mid eq_refl BT NE LB' K3) as (w' & A & G).
  exists s', l, w'. split.
  { apply (RExt.run_same _ _ _ _ _ _ _ _ _ E1). intros pre a x l1 EQ LE X.
    destruct a as [[]| | | | |]; try (symmetry; exact X). destruct data as [b|]; [|symmetry; exact X].
    assert (exists d2 d1, l1 = d2 ++ r_log s /\ l = d1 ++ (Responder.ACall (Responder.SWrite h0 (Some b) first last), x) :: d2) as (d2 & d1 & -> & EL).
    { rewrite E2 in EQ. clear -EQ LE. revert pre EQ. induction l as [|e l IH]; intros pre EQ.
      - cbn [app] in EQ. rewrite EQ in LE. rewrite app_length in LE. cbn [length] in LE. lia.
      - destruct pre as [|e1 pre]; cbn [app] in EQ.
        + injection EQ as -> <-. exists l, []. auto.
        + injection EQ as <- EQ. destruct (IH pre EQ) as (d2 & d1 & A & B). exists d2, (e :: d1). split; [exact A|]. cbn [app]. congruence. }
    rewrite EL, RSend.changed_app, changed_cons in K3. cbn [RSpec.changes] in K3. rewrite <- app_assoc in K3. cbn [app] in K3. symmetry in K3.
    destruct (chunk_split2 h true bodies mid _ _ _ BT K3 NE) as [_ [(y & g & EY & _)|[(_ & vals & EY & _)|(EY & _)]]]; [|discriminate|discriminate]. injection EY as -> _ _ _.
    rewrite X. symmetry. eapply (boast_true2 C fuel rest SO WK w h v old R HL HC n (r_log s) d2 bodies mid); [reflexivity|exact BT|exact NE|exact LB'|exact K3]. }
  split; [exact E3|]. split; [exact E6|]. split; [exact E2|]. split; [exact E7|]. split; [exact K1|]. split; [exact E4|]. split; [exact E5|]. rewrite E2. split; [exact A|].
  destruct G as (G1 & G2 & G3 & G4). split; [exact G1|]. split; [exact G2|]. split; [|split; [exact G3|split; [rewrite <- E2; exact RES|exact E1]]].
  rewrite K3 in G4. cbv zeta in G4. rewrite app_assoc, closed_app, orb_true_r in G4. destruct G4 as [G4 _]. rewrite G4, !P_Send.content_app. cbn [P_Send.content_written].
  rewrite app_nil_r, (proj1 (P_Send.content_chunks h bodies true)).
  replace (P_Send.content_written h mid) with (@nil N); [rewrite app_nil_r; reflexivity|]. clear -BT. induction mid as [|c mid IH]; [reflexivity|]. destruct (BT c (or_introl eq_refl)) as (vals & -> & _). cbn [P_Send.content_written]. apply IH. intros y I. apply BT. right; exact I.
Qed.
(** The content, for an object announced in either way and of any size: in whatever packets it
    comes, the file then holds exactly these bytes; no other file, and no object's description,
    is touched; the response is OK.  (Each property's description has that property's code.) *)
Theorem C98_content : forall C fuel rest formats cat props_by_type prop_desc s w tid ps h v old hdr bodies,
  at_work C rest s w -> works C -> (forall c p d, snd (prop_desc c p) = Some d -> opd_code d = p) ->
  look w h = Some v -> content w (v_path v) = Some (File old) -> announced s h (len (concat bodies)) 0 ->
  bodies <> [] -> Forall (fun b => 0 < len b) (tl bodies) -> (forall b, In b bodies -> len b < 2^31) -> len hdr = 12 ->
  command_ok OP_SendObject tid ps -> tid <> 0 -> tid <> 0xFFFFFFFF ->
  exists s' l w', Responder.run (device C fuel rest (length (r_log s)) w) formats cat props_by_type prop_desc (command OP_SendObject tid ps :: data_phase (object_packets hdr bodies)) s = Ret (tt, s') /\
    r_st s' = Responder.IDLE /\ r_session s' = r_session s /\ r_log s' = l ++ r_log s /\ datas l = [] /\ responses l = [resp_out R_OK tid []] /\
    Responder.r_seq s' = None /\ Responder.r_pl s' = None /\
    state_after C fuel (length (r_log s)) w (r_log s') = Ret w' /\ reachable C w' /\ (forall x, look w' x = look w x) /\
    content w' (v_path v) = Some (File (concat bodies)) /\ (forall y, y <> v_path v -> content w' y = content w y).
Proof.
  intros. destruct (content_sent C fuel rest formats cat props_by_type prop_desc s w tid ps h v old hdr bodies) as (s' & l & w' & X1 & X2 & X3 & X4 & X5 & X6 & X7 & X8 & X9 & X10 & X11 & X12 & X13 & _); try assumption.
  exists s', l, w'. auto 20.
Qed.
(** Store and read back: SendObjectPropList, SendObject and GetObject of the handle the device
    chose.  The bytes that come back are the bytes sent. *)
Theorem C98_round_trip : forall C fuel rest formats cat props_by_type prop_desc s w t1 t2 t3 st parent fmt els i nm p1 more hdr bodies h q w1 pv,
  at_work C rest s w -> works C -> (forall c p d, snd (prop_desc c p) = Some d -> opd_code d = p) -> Responder.r_seq s = None ->
  st = 0 \/ st = STORAGE -> parent = 0 \/ parent = Responder.ALL \/ look w parent <> None ->
  (* a property list with a file name that is not taken in the folder, for a file of the size of the content *)
  Forall element_ok els -> (forall e, In e els -> el_prop e = NAME -> exists n, el_value e = VStr n) ->
  judged (fits prop_desc (cat (fmt mod 65536))) els (Named i nm) -> plain nm -> nm <> [] -> fmt mod 65536 <> FMT_Association -> len (concat bodies) <= 0xFFFFFFFF - 12 ->
  look w q = Some pv -> (forall x u, look w x = Some u -> v_path u <> join (v_path pv) nm) ->
  (* its packets, and those of the content *)
  12 + len (list_bytes els) < 2^32 -> 4 <= len p1 -> p1 ++ concat more = WireSpec.spec_header (12 + len (list_bytes els)) 2 OP_SendObjectPropList t1 ++ list_bytes els ->
  bodies <> [] -> Forall (fun b => 0 < len b) (tl bodies) -> (forall b, In b bodies -> len b < 2^31) -> len hdr = 12 ->
  command_ok OP_SendObjectPropList t1 [st; parent; fmt; 0; len (concat bodies)] -> command_ok OP_SendObject t2 [] -> t1 <> 0 -> t1 <> 0xFFFFFFFF -> t2 <> 0 -> t2 <> 0xFFFFFFFF -> t3 <> 0 -> t3 < 0xFFFFFFFF ->
  (* the storage creates it as [h] *)
  add_item C fuel (new_object st parent (fmt mod 65536) (len (concat bodies)) nm) w = Ret ((R_OK, Some (h, q)), w1) -> h < 2^32 ->
  exists s' l1 l2 l3 o w' v, Responder.run (device C fuel rest (length (r_log s)) w) formats cat props_by_type prop_desc
      ((command OP_SendObjectPropList t1 [st; parent; fmt; 0; len (concat bodies)] :: data_phase (p1 :: more)) ++ (command OP_SendObject t2 [] :: data_phase (object_packets hdr bodies)) ++ [command OP_GetObject t3 [h]]) s = Ret (tt, s') /\
    r_st s' = Responder.IDLE /\ r_log s' = l3 ++ l2 ++ l1 ++ r_log s /\
    datas l1 = [] /\ responses l1 = [o] /\ o_code o = R_OK /\ o_pay o = PItems (map u32_item [STORAGE; q; h]) /\
    datas l2 = [] /\ responses l2 = [resp_out R_OK t2 []] /\
    transfers OP_GetObject t3 (concat bodies) (packets l3) /\ responses l3 = [resp_out R_OK t3 []] /\
    state_after C fuel (length (r_log s)) w (r_log s') = Ret w' /\ reachable C w' /\
    look w h = None /\ look w' h = Some v /\ v_parent v = Some q /\ v_path v = join (v_path pv) nm /\ content w' (v_path v) = Some (File (concat bodies)) /\
    (forall x u, look w x = Some u -> look w' x = Some u).
Proof.
  intros C fuel rest formats cat pt pd s w t1 t2 t3 st parent fmt els i nm p1 more hdr bodies h q w1 pv AW WK PD SQ0 ST PA HE HN JU PL NN NF LE LQ FREE HL H4 HP NE NZ LB HD CO1 CO2 T1 T1' T2 T2' T3 T3' EA Hh.
  set (n := length (r_log s)).
  destruct (C98_announce C fuel rest formats cat pt pd s w t1 st parent fmt (len (concat bodies)) els i nm p1 more _ w1 AW ST PA HE HN JU PL NN HL H4 HP CO1 T1 T1' EA) as (s1 & l1 & o1 & E1 & I1 & SE1 & L1 & D1 & RS1 & _ & _ & A1 & R1 & KEEP & K). cbn [snd] in K.
  destruct K as (QE & OC & OP & SQ & (p & P1 & P2 & P3 & P4) & v & pv' & V1 & V2 & V3 & V4 & V5). assert (pv' = pv) by (pose proof (KEEP q pv LQ); congruence). subst pv'.
  destruct V5 as (NEW & inf & VI & VF & VS & VN & VC); [intros x u X; rewrite V4; exact (FREE x u X)|]. destruct (VC NF) as (d0 & VD).
  destruct AW as [SO R Q T RD ID SE]. assert (AW1 : at_work C rest s1 w1) by (split; try assumption; [left; exact I1|congruence]).
  assert (HA : announced s1 h (len (concat bodies)) 0) by (apply (RSend.by_props s1 _ _ _ p); [congruence|exact P1|exact P2|exact P3|exact P4|change (2^64) with 18446744073709551616; lia]).
  destruct (C98_content C fuel rest formats cat pt pd s1 w1 t2 [] h v d0 hdr bodies AW1 WK PD V1 VD HA NE NZ LB HD CO2 T2 T2')
    as (s2 & l2 & w2 & E2 & I2 & SE2 & L2 & D2 & RS2 & _ & _ & A2 & R2 & LK2 & VC2 & O2).
  assert (AW2 : at_work C rest s2 w2) by (split; try assumption; [left; exact I2|congruence]).
  assert (HF : holds_file w2 h (concat bodies)) by (exists v, inf; rewrite LK2; split; [exact V1|]; split; [exact VC2|]; split; [exact VI|]; split; congruence).
  destruct (C82_get_object C fuel rest formats cat pt pd s2 w2 t3 h (concat bodies) AW2 WK HF LE T3 T3' Hh) as (s3 & l3 & E3 & I3 & L3 & TR & RS3 & w3 & A3 & R3 & LK3 & C3).
  apply step_run in E3.
  assert (N1 : (n <= length (r_log s1))%nat) by (rewrite L1, app_length; unfold n; lia). assert (N2 : (length (r_log s1) <= length (r_log s2))%nat) by (rewrite L2, app_length; lia).
  assert (A2' : state_after C fuel n w (r_log s2) = Ret w2) by (rewrite L2 in *; rewrite (after_more C fuel n w (r_log s1) w1 l2 N1 A1); exact A2).
  exists s3, l1, l2, l3, o1, w3, v. split.
  { rewrite (run_app _ _ _ _ _ _ _ s s1 E1). rewrite (run_app _ _ _ _ _ _ _ s1 s2 (run_more C fuel rest n w _ _ _ _ _ s1 s2 w1 N1 A1 E2)). exact (run_more C fuel rest n w _ _ _ _ _ s2 s3 w2 ltac:(lia) A2' E3). }
  split; [exact I3|]. split; [rewrite L3, L2, L1; reflexivity|]. split; [exact D1|]. split; [exact RS1|]. split; [exact OC|]. split; [exact OP|]. split; [exact D2|]. split; [exact RS2|]. split; [exact TR|]. split; [exact RS3|].
  split. { rewrite L3 in *. rewrite (after_more C fuel n w (r_log s2) w2 l3 ltac:(lia) A2'). exact A3. }
  split; [exact R3|]. split; [exact NEW|]. split; [rewrite LK3, LK2; exact V1|]. split; [exact V2|]. split; [exact V4|]. split; [rewrite C3; exact VC2|].
  intros x u X. rewrite LK3, LK2. apply KEEP. exact X.
Qed.
(** a concrete case: [5; 6; 7] as /s/n with a one element list, from the demonstration disk *)
Definition n_list : list element := [RPropList.mk_el 0 NAME DT_STR (VStr [110])].
Definition n_bytes : bytes := WireSpec.spec_header (12 + len (list_bytes n_list)) 2 OP_SendObjectPropList 1 ++ list_bytes n_list.
Example C98_hypotheses : Forall element_ok n_list /\ (forall e, In e n_list -> el_prop e = NAME -> exists n, el_value e = VStr n) /\
  judged (fits RDemo.desc0 (RDemo.cat0 0x3000)) n_list (Named 0 [110]) /\ plain [110] /\ (forall c p d, snd (RDemo.desc0 c p) = Some d -> opd_code d = p) /\
  command_ok OP_SendObjectPropList 1 [0; 0; 0x3000; 0; 3] /\ Responder.r_seq RDemo.in_session = None /\
  exists w1 h pv, add_item FSDemo.quiet 5 (new_object 0 0 0x3000 3 [110]) (demo_start FSDemo.quiet) = Ret ((R_OK, Some (h, 0)), w1) /\ h < 2^32 /\
    look (demo_start FSDemo.quiet) 0 = Some pv /\ forall x u, look (demo_start FSDemo.quiet) x = Some u -> v_path u <> join (v_path pv) [110].
Proof.
  split. { constructor; [|constructor]. split; [reflexivity|]. split; [reflexivity|]. split; [reflexivity|]. split; [|exact Logic.I]. repeat constructor; try (vm_compute; congruence); intros c r H; injection H as <- <-; split; discriminate. }
  split. { intros e [<-|[]] _. exists [110]. reflexivity. }
  split. { apply (j_named _ [] _ [] [110]); [repeat constructor|reflexivity|reflexivity|constructor]. }
  split. { split; [reflexivity|]. intros [Z|[]]; discriminate. }
  split. { intros c p d E. injection E as <-. reflexivity. }
  split. { split; [reflexivity|]. split; [reflexivity|]. split; [vm_compute; discriminate|]. repeat constructor. }
  split; [reflexivity|].
  destruct P_Device.C84_hypotheses as (_ & _ & _ & _ & w1 & h & pv & E & X). exists w1, h, pv. split; [exact E|exact X].
Qed.
Example C98_example : exists s', Responder.run (device FSDemo.quiet 5 calm 0 (demo_start FSDemo.quiet)) [] RDemo.cat0 RDemo.props0 RDemo.desc0
    ((command OP_SendObjectPropList 1 [0; 0; 0x3000; 0; 3] :: data_phase [firstn 20 n_bytes; skipn 20 n_bytes]) ++
     (command OP_SendObject 2 [] :: data_phase (object_packets P_Send.hdr12 [[5]; [6; 7]])) ++ [command OP_GetObject 3 [24]]) RDemo.in_session = Ret (tt, s') /\
  map o_code (responses (r_log s')) = [R_OK; R_OK; R_OK] /\ map P_Read.payload_len (packets (r_log s')) = [(3, true)].
Proof. eexists. split; [vm_compute; reflexivity|]. split; vm_compute; reflexivity. Qed.

(** a folder that is not there; a list whose second element is about another object *)
Example C98_refused_example :
  (look (demo_start FSDemo.quiet) 99 = None /\ judged (fits RDemo.desc0 (RDemo.cat0 0x3000)) P_SendList.bad_list (Bad 1)) /\
  match Responder.run (device FSDemo.quiet 5 calm 0 (demo_start FSDemo.quiet)) [] RDemo.cat0 RDemo.props0 RDemo.desc0
    (command OP_SendObjectPropList 1 [0; 99; 0x3000; 0; 3] :: data_phase [n_bytes]) RDemo.in_session with Ret (_, s') => map o_code (responses (r_log s')) | _ => [] end = [R_InvalidObjectHandle].
Proof. split; [split; [vm_compute; reflexivity|apply (j_bad _ P_SendList.ex_list); [repeat constructor|reflexivity]]|vm_compute; reflexivity]. Qed.

Print Assumptions C98_announce.
Print Assumptions C98_refused.
Print Assumptions C98_content.
Print Assumptions C98_round_trip.
