(** Which object SendObject goes to (C32); cancelling it (C33). *)
From Verif Require Import Base Wire WireSpec Responder RSpec RLogic ROne2 RGate RExec RInv RSession RSend.

Section Send2.
Variable env : list (act * ans) -> act -> ans.
Variable formats : list N.
Variable cat : N -> N.
Variable props_by_type : N -> N * list N.
Variable prop_desc : N -> N -> N * option objpropdesc.
Hypothesis quiet : undisturbed env.
Notation step := (step env formats cat props_by_type prop_desc).
Notation run := (run env formats cat props_by_type prop_desc).

(** ** A failing write, wherever it is *)
Theorem send_object_fail s tid ps h size hdr pre bad post c : idle s -> command_ok OP_SendObject tid ps -> storage_is_ready env ->
  r_session s <> 0 -> tid <> 0 -> tid <> 0xFFFFFFFF -> announced s h size 0 -> len hdr = 12 ->
  (forall b, In b pre -> code_of_write env h b R_OK) -> code_of_write env h bad c -> c <> R_OK -> c <> R_Undefined ->
  total pre < size ->
  exists s' l, run (command OP_SendObject tid ps :: data_phase (object_packets hdr (pre ++ bad :: post))) s = Ret (tt, s') /\
    r_log s' = l ++ r_log s /\ datas l = [] /\ responses l = [resp_out c tid []] /\
    changed l = plain_writes h true pre ++
      [SWrite h (Some bad) (match pre with [] => true | _ => false end) (match post with [] => true | _ => false end); SWrite h None false true].
Proof.
  intros Hi Hc Hr Hs Ht1 Ht2 HA Hh Hw Hb H1 H2 Hlt.
  destruct (command_send env formats cat props_by_type prop_desc s tid ps h size Hi Hc Hr Hs Ht1 Ht2 HA) as (s1 & l1 & E1 & E2 & E3 & E4 & E5 & E6).
  cbn [Responder.run]. unfold bind at 1. rewrite E1.
  assert (Hgo : exists s' l, run (data_phase (object_packets hdr (pre ++ bad :: post))) s1 = Ret (tt, s') /\
    r_log s' = l ++ r_log s1 /\ datas l = [] /\ responses l = [resp_out c tid []] /\
    changed l = plain_writes h true pre ++
      [SWrite h (Some bad) (match pre with [] => true | _ => false end) (match post with [] => true | _ => false end); SWrite h None false true]).
  { destruct pre as [|b pre].
    - cbn [app object_packets plain_writes]. set (last := match post with [] => true | _ => false end).
      assert (HP : is_packet true bad (hdr ++ bad)) by (exists hdr; auto).
      destruct (send_fail env formats cat props_by_type prop_desc quiet _ h size 0 s1 (hdr ++ bad) bad true last c E4 HP Hb H1 H2) as (s2 & l & F1 & F2 & F3 & F4 & F5 & F6 & F7 & F8 & F9).
      destruct (stray env formats cat props_by_type prop_desc post s2 F3) as (s3 & l2 & G1 & G2 & G3 & G4 & G5).
      exists s3, (l2 ++ l). split.
      { destruct post as [|x post]; [cbn [data_phase Responder.run] in *|
          change (data_phase ((hdr ++ bad) :: x :: post)) with (IRecv (hdr ++ bad) true false :: more_packets (x :: post)); cbn [Responder.run]];
        unfold bind; unfold last in F1; rewrite F1; exact G1. }
      split; [rewrite G2, F2, <- app_assoc; reflexivity|]. rewrite datas_app, responses_app, changed_app, G3, G4, G5, F7, F8, F9. repeat split.
    - cbn [app object_packets]. destruct (pre ++ bad :: post) as [|x t] eqn:Ex; [destruct pre; discriminate|].
      change (data_phase ((hdr ++ b) :: x :: t)) with (IRecv (hdr ++ b) true false :: more_packets (x :: t)). cbn [Responder.run total] in *.
      assert (HP : is_packet true b (hdr ++ b)) by (exists hdr; auto).
      destruct (send_more env formats cat props_by_type prop_desc _ h size 0 s1 (hdr ++ b) b true E4 HP (Hw b (or_introl eq_refl)) ltac:(lia)) as (s2 & r & F1 & HR & Fl & _ & _).
      unfold bind at 1. rewrite F1. rewrite <- Ex.
      destruct (more_fail env formats cat props_by_type prop_desc quiet _ h size c bad post pre (0 + len b) s2 HR (fun y Hy => Hw y (or_intror Hy)) Hb H1 H2 ltac:(lia)) as (s3 & l & G1 & G2 & G3 & G4 & G5).
      exists s3, (l ++ [(ACall (SWrite h (Some b) true false), r)]). split; [exact G1|]. split; [rewrite G2, Fl, <- app_assoc; reflexivity|].
      rewrite datas_app, responses_app, changed_app, G3, G4, G5. repeat split. }
  destruct Hgo as (s' & l & G1 & G2 & G3 & G4 & G5).
  exists s', (l ++ l1). split; [exact G1|]. split; [rewrite G2, E2, <- app_assoc; reflexivity|].
  rewrite datas_app, responses_app, changed_app, (noise_datas l1), (noise_responses l1), (noise_changed l1) by exact E3.
  rewrite G3, G4, G5. repeat split.
Qed.

(** ** Announcements *)
Definition waiting (q : req) (s : rstate) : Prop := r_st s = WAIT_DATA /\ r_req s = Some q.
Lemma respond_eq q code ps s : active s ->
  exists l r, noise l /\ respond_with env q code ps s =
    Ret (tt, set_log (l ++ (ASend (mk_out TYPE_RESPONSE code (q_tid q) (PItems (map u32_item ps))) true, r) :: r_log s) (after_response s)).
Proof.
  intros Ha. unfold respond_with.
  destruct (send_resp_eq env quiet (mk_out TYPE_RESPONSE code (q_tid q) (PItems (map u32_item ps))) s Ha eq_refl) as (l & r & Hl & He).
  exists l, r. split; [exact Hl|]. unfold bind. rewrite He. reflexivity.
Qed.
Lemma rd_inv A (f : rxc -> outcome (A * rxc)) B (k : A -> M B) s x :
  (y <- rd f ;; k y) s = Ret x -> exists y d, k y (set_data d s) = Ret x.
Proof.
  unfold rd, get_rx. unfold bind at 1, bind at 1, bind at 1, get. destruct (r_data s) as [r|]; cbn [need]; [|discriminate].
  unfold ret at 1. unfold bind at 1. unfold lift. destruct (f r) as [[y r1]| |]; try discriminate.
  unfold bind, upd, ret. intros H. exists y, (Some r1). exact H.
Qed.
(** the front part of the data phase of a command whose data is collected first *)
Lemma data_front q s data first last s' :
  waiting q s -> pass_through (q_code q) = false -> step (IRecv data first last) s = Ret (tt, s') ->
  (* nothing yet *) (last = false /\ exists d, s' = set_data d s) \/
  (* refused *) (last = true /\ exists c d, c <> R_OK /\ (upd (set_resp c) ;;; send_response env c) (set_data d s) = Ret (tt, s')) \/
  (* handled *) (last = true /\ exists d,
     (if q_code q =? OP_SendObjectInfo then d_sendObjectInfo env q
      else if q_code q =? OP_SetObjectPropList then d_setObjectPropList env cat prop_desc q
      else if q_code q =? OP_SendObjectPropList then d_sendObjectPropList env cat prop_desc q
      else if q_code q =? OP_SetDevicePropValue then d_setDevicePropValue env q
      else if q_code q =? OP_SetObjectPropValue then d_setObjPropValue env cat prop_desc q
      else if q_code q =? OP_SetObjectReferences then d_setObjReferences env q
      else (upd (set_resp R_OperationNotSupported) ;;; send_response env R_OperationNotSupported)) (set_data d s) = Ret (tt, s')).
Proof.
  intros [Hst Hrq] Hp H. cbn [Responder.step] in H. unfold receive, bind at 1, get in H. rewrite Hst in H.
  unfold bind at 1 in H. rewrite Hrq in H. unfold data_handler in H. unfold bind at 1, get in H. rewrite Hp in H.
  unfold bind at 1 in H.
  match type of H with match ?m with _ => _ end = _ => destruct m as [[[] s1]| |] eqn:E1; try discriminate end.
  assert (Hs1 : exists d, s1 = set_data d s).
  { destruct first.
    - unfold bind, lift, upd in E1. destruct (rx_new data); try discriminate. apply Ret_inj in E1. injection E1 as <-. eauto.
    - unfold bind, get, lift, upd, ret in E1. destruct (r_data s) as [r|] eqn:Ed.
      + destruct (rx_append r data); try discriminate. apply Ret_inj in E1. injection E1 as <-. eauto.
      + apply Ret_inj in E1. injection E1 as <-. exists None. destruct s; cbn in *; subst; reflexivity. }
  destruct Hs1 as (d & ->). cbn [negb andb] in H. destruct last; cbn [negb] in H.
  2:{ left. split; [reflexivity|]. apply Ret_inj in H. injection H as <-. eauto. }
  right. unfold bind at 1, get in H. cbn [r_data set_data] in H. unfold bind at 1 in H.
  match type of H with match ?m with _ => _ end = _ => destruct m as [[resp1 s1]| |] eqn:E2; try discriminate end.
  assert (Hs1 : s1 = set_data d s).
  { destruct d as [r|]; [|apply Ret_inj in E2; injection E2 as _ <-; reflexivity].
    destruct (isok (r_resp s)); [|apply Ret_inj in E2; injection E2 as _ <-; reflexivity].
    unfold bind, lift, ret in E2. destruct (rx_tid r); try discriminate. destruct (rx_code r); try discriminate.
    apply Ret_inj in E2. injection E2 as _ <-. reflexivity. }
  subst s1. clear E1 E2. cbv zeta in H. destruct (isok resp1) eqn:E3; cbn [negb] in H.
  2:{ left. split; [reflexivity|]. exists resp1, d. split; [intros ->; discriminate|]. exact H. }
  right. split; [reflexivity|]. exists d.
  unfold pass_through in Hp. apply orb_false_elim in Hp as [Hp1 Hp2]. rewrite Hp1, Hp2 in H. exact H.
Qed.
(** what an announcing operation has answered *)
Definition answered_with (l : list (act * ans)) (o : outc) : Prop := responses l = [o] /\ datas l = [].
Lemma refused_eq c q s d s' : waiting q s -> (upd (set_resp c) ;;; send_response env c) (set_data d s) = Ret (tt, s') ->
  exists l r, noise l /\ s' = set_log (l ++ (ASend (resp_out c (q_tid q) []) true, r) :: r_log s) (after_response (set_resp c (set_data d s))).
Proof.
  intros [Hst Hrq] H. unfold bind, upd in H.
  destruct (response_eq env quiet c (set_resp c (set_data d s)) q (or_intror Hst) Hrq) as (l & r & Hl & He).
  rewrite He in H. apply Ret_inj in H. injection H as <-. exists l, r. split; [exact Hl|reflexivity].
Qed.
Lemma one_response l o r l0 : noise l -> o_type o = TYPE_RESPONSE -> responses l0 = [] -> datas l0 = [] ->
  answered_with (l ++ (ASend o true, r) :: l0) o /\ changed (l ++ (ASend o true, r) :: l0) = changed l0.
Proof.
  intros Hl Ho H1 H2. unfold answered_with. rewrite responses_app, datas_app, changed_app.
  rewrite (noise_responses l), (noise_datas l), (noise_changed l) by exact Hl.
  cbn [responses datas response_of data_of fst app]. rewrite Ho. change (TYPE_RESPONSE =? TYPE_RESPONSE) with true. cbv iota.
  change (TYPE_RESPONSE =? TYPE_DATA) with false. cbv iota. rewrite H1, H2, app_nil_r. repeat split.
Qed.
Theorem info_announces q s data first last s' :
  waiting q s -> q_code q = OP_SendObjectInfo -> step (IRecv data first last) s = Ret (tt, s') ->
  exists l, r_log s' = l ++ r_log s /\
   ((last = false /\ l = [] /\ r_seq s' = r_seq s /\ r_pl s' = r_pl s) \/
    exists o, answered_with l o /\
      if o_code o =? R_OK
      then exists i r, changed l = [SAddItem (par q 0) (par q 1) i] /\
           In (ACall (SAddItem (par q 0) (par q 1) i), r) l /\ a_code r = R_OK /\
           o_pay o = PItems (map u32_item [a_num r 0; a_num r 1; a_num r 2]) /\
           r_pl s' = None /\ r_seq s' = Some (mk_ss i (a_num r 2) 0)
      else (r_seq s' = r_seq s /\ r_pl s' = r_pl s) \/ (r_seq s' = None /\ r_pl s' = None)).
Proof.
  intros HW Hq H. destruct (data_front q s data first last s' HW) as [(-> & d & ->)|[(-> & c & d & Hc & Hh)|(-> & d & Hh)]]; [rewrite Hq; reflexivity|exact H|..].
  - exists []. split; [reflexivity|]. left. repeat split.
  - destruct (refused_eq c q s d s' HW Hh) as (l & r & Hl & ->). eexists (l ++ [_]). split; [cbn; rewrite <- app_assoc; reflexivity|].
    right. exists (resp_out c (q_tid q) []). split; [apply (one_response l _ r [] Hl); reflexivity|].
    cbn [o_code resp_out]. replace (c =? R_OK) with false by lia. left. split; reflexivity.
  - rewrite Hq in Hh. change (OP_SendObjectInfo =? OP_SendObjectInfo) with true in Hh. cbv iota in Hh.
    unfold d_sendObjectInfo in Hh. unfold bind at 1, upd in Hh. apply rd_inv in Hh as (o & d1 & Hh).
    destruct HW as [Hst Hrq].
    destruct (oi_size o =? 0xFFFFFFFF) eqn:Es.
    + unfold bind, upd in Hh. set (s1 := set_seq _ _) in Hh.
      destruct (respond_eq q R_Object_Too_Large [] s1 (or_intror Hst)) as (l & r & Hl & He). rewrite He in Hh. apply Ret_inj in Hh. injection Hh as <-.
      eexists (l ++ [_]). split; [cbn; rewrite <- app_assoc; reflexivity|]. right. eexists. split; [apply (one_response l _ r [] Hl); reflexivity|].
      cbn [o_code]. change (R_Object_Too_Large =? R_OK) with false. right. split; reflexivity.
    + cbv zeta in Hh. unfold bind at 1, call, ask in Hh. set (c := SAddItem _ _ _) in Hh. set (r := env _ _) in Hh.
      destruct (isok (a_code r)) eqn:Ei.
      * unfold bind at 1, upd in Hh. set (s1 := set_seq _ _) in Hh.
        destruct (respond_eq q R_OK [a_num r 0; a_num r 1; a_num r 2] s1 (or_intror Hst)) as (l & r2 & Hl & He). rewrite He in Hh. apply Ret_inj in Hh. injection Hh as <-.
        eexists (l ++ [_; _]). split; [cbn; rewrite <- app_assoc; reflexivity|]. right. eexists.
        destruct (one_response l _ r2 [(ACall c, r)] Hl (eq_refl : o_type (mk_out TYPE_RESPONSE R_OK (q_tid q) (PItems (map u32_item [a_num r 0; a_num r 1; a_num r 2]))) = TYPE_RESPONSE) eq_refl eq_refl) as [K1 K2].
        split; [exact K1|]. cbn [o_code]. change (R_OK =? R_OK) with true. cbv iota.
        exists (with_parent o (par q 1)), r. split; [exact K2|]. split; [apply in_or_app; right; right; left; reflexivity|].
        split; [unfold isok in Ei; lia|]. repeat split.
      * unfold bind, upd in Hh. set (s1 := set_seq _ _) in Hh.
        destruct (respond_eq q (a_code r) [] s1 (or_intror Hst)) as (l & r2 & Hl & He). rewrite He in Hh. apply Ret_inj in Hh. injection Hh as <-.
        eexists (l ++ [_; _]). split; [cbn; rewrite <- app_assoc; reflexivity|]. right. eexists.
        split; [eapply (one_response l _ r2 [(ACall c, r)] Hl); reflexivity|]. cbn [o_code]. unfold isok in Ei. rewrite Ei. right. split; reflexivity.
Qed.
Lemma scan_inv n : forall i c acc fn s s1 x, scan_list prop_desc n i c acc fn s = Ret (x, s1) -> exists d, s1 = set_data d s.
Proof.
  induction n as [|n IH]; intros i c acc fn s s1 x H; cbn [scan_list] in H.
  - apply Ret_inj in H. injection H as _ <-. exists (r_data s). destruct s; reflexivity.
  - apply rd_inv in H as (h & d & H). destruct (negb (h =? 0)). { apply Ret_inj in H. injection H as _ <-. eauto. }
    apply rd_inv in H as (p & d2 & H). destruct (negb _). { apply Ret_inj in H. injection H as _ <-. exists d2. reflexivity. }
    apply rd_inv in H as (ty & d3 & H). apply rd_inv in H as (v & d4 & H).
    apply IH in H as (d5 & ->). exists d5. reflexivity.
Qed.
Theorem props_announce q s p data first last s' :
  waiting q s -> q_code q = OP_SendObjectPropList -> r_pl s = Some p -> step (IRecv data first last) s = Ret (tt, s') ->
  exists l, r_log s' = l ++ r_log s /\ r_seq s' = r_seq s /\
   ((last = false /\ l = [] /\ r_pl s' = r_pl s) \/
    exists o, answered_with l o /\
      if o_code o =? R_OK
      then exists i r p', changed l = [SAddItem (pl_storage p) (pl_parent p) i] /\ oi_size i = pl_size p /\
           In (ACall (SAddItem (pl_storage p) (pl_parent p) i), r) l /\ a_code r = R_OK /\
           o_pay o = PItems (map u32_item [a_num r 0; a_num r 1; a_num r 2]) /\
           r_pl s' = Some p' /\ pl_handle p' = a_num r 2 /\ pl_size p' = pl_size p /\ pl_cur p' = pl_cur p
      else exists p', r_pl s' = Some p').
Proof.
  intros HW Hq Hp H. destruct (data_front q s data first last s' HW) as [(-> & d & ->)|[(-> & c & d & Hc & Hh)|(-> & d & Hh)]]; [rewrite Hq; reflexivity|exact H|..].
  - exists []. split; [reflexivity|]. split; [reflexivity|]. left. repeat split.
  - destruct (refused_eq c q s d s' HW Hh) as (l & r & Hl & ->). eexists (l ++ [_]). split; [cbn; rewrite <- app_assoc; reflexivity|].
    split; [reflexivity|]. right. exists (resp_out c (q_tid q) []). split; [apply (one_response l _ r [] Hl); reflexivity|].
    cbn [o_code resp_out]. replace (c =? R_OK) with false by lia. exists p. exact Hp.
  - rewrite Hq in Hh. change (OP_SendObjectPropList =? OP_SendObjectInfo) with false in Hh. change (OP_SendObjectPropList =? OP_SetObjectPropList) with false in Hh.
    change (OP_SendObjectPropList =? OP_SendObjectPropList) with true in Hh. cbv iota in Hh.
    unfold d_sendObjectPropList in Hh. unfold bind at 1, get in Hh. cbn [r_pl set_data] in Hh. rewrite Hp in Hh. apply rd_inv in Hh as (n & d1 & Hh).
    destruct HW as [Hst Hrq]. unfold bind at 1 in Hh.
    match type of Hh with match ?m with _ => _ end = _ => destruct m as [[[[elems bad] fname] s1]| |] eqn:E1; try discriminate end.
    apply scan_inv in E1 as (d2 & ->). cbv zeta in Hh. unfold bind at 1, upd in Hh.
    assert (Hbad : forall code ps s0, code <> R_OK -> r_st s0 = WAIT_DATA -> r_log s0 = r_log s -> r_seq s0 = r_seq s -> (exists p', r_pl s0 = Some p') ->
       respond_with env q code ps s0 = Ret (tt, s') -> exists l : list (act * ans),
        r_log s' = l ++ r_log s /\ r_seq s' = r_seq s /\ ((true = false /\ l = [] /\ r_pl s' = r_pl s) \/ exists o, answered_with l o /\
         if o_code o =? R_OK then exists i r p', changed l = [SAddItem (pl_storage p) (pl_parent p) i] /\ oi_size i = pl_size p /\
           In (ACall (SAddItem (pl_storage p) (pl_parent p) i), r) l /\ a_code r = R_OK /\
           o_pay o = PItems (map u32_item [a_num r 0; a_num r 1; a_num r 2]) /\
           r_pl s' = Some p' /\ pl_handle p' = a_num r 2 /\ pl_size p' = pl_size p /\ pl_cur p' = pl_cur p
         else exists p', r_pl s' = Some p')).
    { intros code ps s0 Hcode Hst0 Hlog0 Hseq0 Hpl0 Hresp.
      destruct (respond_eq q code ps s0 (or_intror Hst0)) as (l & r & Hl & He). rewrite He in Hresp. apply Ret_inj in Hresp. injection Hresp as <-.
      eexists (l ++ [_]). split; [cbn; rewrite Hlog0, <- app_assoc; reflexivity|]. split; [exact Hseq0|]. right. eexists. split; [apply (one_response l _ r [] Hl); reflexivity|].
      cbn [o_code]. replace (code =? R_OK) with false by lia. exact Hpl0. }
    destruct bad as [i|].
    { eapply Hbad; [| | | | |exact Hh]; try reflexivity; [discriminate|exact Hst|eexists; reflexivity]. }
    destruct fname as [[i name]|].
    2:{ eapply Hbad; [| | | | |exact Hh]; try reflexivity; [discriminate|exact Hst|eexists; reflexivity]. }
    destruct name as [|x name].
    { eapply Hbad; [| | | | |exact Hh]; try reflexivity; [discriminate|exact Hst|eexists; reflexivity]. }
    unfold bind at 1, call, ask in Hh. set (c := SAddItem _ _ _) in Hh. set (r := env _ _) in Hh. unfold bind at 1 in Hh.
    set (s1 := set_pl _ _) in Hh.
    destruct (isok (a_code r)) eqn:Ei.
    + destruct (respond_eq q R_OK [a_num r 0; a_num r 1; a_num r 2] s1 (or_intror Hst)) as (l & r2 & Hl & He). rewrite He in Hh. apply Ret_inj in Hh. injection Hh as <-.
      eexists (l ++ [_; _]). split; [cbn; rewrite <- app_assoc; reflexivity|]. split; [reflexivity|]. right. eexists.
      destruct (one_response l _ r2 [(ACall c, r)] Hl (eq_refl : o_type (mk_out TYPE_RESPONSE R_OK (q_tid q) (PItems (map u32_item [a_num r 0; a_num r 1; a_num r 2]))) = TYPE_RESPONSE) eq_refl eq_refl) as [K1 K2].
      split; [exact K1|]. cbn [o_code]. change (R_OK =? R_OK) with true. cbv iota.
      eexists _, r, _. split; [exact K2|]. split; [reflexivity|]. split; [apply in_or_app; right; right; left; reflexivity|].
      split; [unfold isok in Ei; lia|]. repeat split.
    + destruct (respond_eq q (a_code r) [0; 0; 0; i] s1 (or_intror Hst)) as (l & r2 & Hl & He). rewrite He in Hh. apply Ret_inj in Hh. injection Hh as <-.
      eexists (l ++ [_; _]). split; [cbn; rewrite <- app_assoc; reflexivity|]. split; [reflexivity|]. right. eexists.
      split; [eapply (one_response l _ r2 [(ACall c, r)] Hl); reflexivity|]. cbn [o_code]. unfold isok in Ei. rewrite Ei. eexists; reflexivity.
Qed.

(** ** Other commands leave the announcement alone *)
Definition announcing (code : N) : bool := existsb (N.eqb code) [OP_SendObjectInfo; OP_SendObject; OP_SendObjectPropList; OP_CloseSession].
Definition held (a : option sendseq) (b : option plinfo) (s : rstate) : Prop := r_seq s = a /\ r_pl s = b.
Lemma held_quiet a b : quiet_closed (held a b). Proof. intros s e _ H. exact H. Qed.
Lemma held_sig a b busy g : (exists h x, In g (a_async (env h x))) -> hoare True (held a b) (handle_sig env busy g) (fun _ => held a b).
Proof.
  intros (h & x & Hg). pose proof (quiet h x) as Hq. rewrite forallb_forall in Hq. specialize (Hq g Hg).
  pose proof (events_quiet True env (held a b) busy [g] (held_quiet a b)) as H. cbn [forallb run_sigs] in H.
  rewrite Hq in H. specialize (H eq_refl). intros s Hs. specialize (H s Hs). unfold bind, ret in H.
  destruct (handle_sig env busy g s) as [[[] s1]| |]; exact H.
Qed.
Ltac hc := intros; first [assumption | apply held_sig; assumption].
Ltac pickH := lazymatch goal with
  | |- hoare _ _ (h_getDeviceInfo _ _) _ => apply i_getDeviceInfo
  | |- hoare _ _ (h_getStorageIDs _ _) _ => apply i_getStorageIDs
  | |- hoare _ _ (h_getStorageInfo _ _) _ => apply i_getStorageInfo
  | |- hoare _ _ (h_getNumObjects _ _ _) _ => apply i_getNumObjects
  | |- hoare _ _ (h_getObjectHandles _ _ _) _ => apply i_getObjectHandles
  | |- hoare _ _ (h_getObjectInfo _ _) _ => apply i_getObjectInfo
  | |- hoare _ _ (h_getObject _ _) _ => apply i_getObject
  | |- hoare _ _ (h_getThumb _ _ _) _ => apply i_getThumb
  | |- hoare _ _ (h_deleteObject _ _) _ => apply i_deleteObject
  | |- hoare _ _ (h_check_only _) _ => apply i_check_only
  | |- hoare _ _ (h_getPartialObject _ _) _ => apply i_getPartial
  | |- hoare _ _ (h_unsupported _ _) _ => apply i_unsupported
  | |- hoare _ _ (h_getDevicePropDesc _ _) _ => apply i_getDevicePropDesc
  | |- hoare _ _ (h_getDevicePropValue _ _) _ => apply i_getDevicePropValue
  | |- hoare _ _ (h_setDevicePropValue _ _) _ => apply i_setDevicePropValue
  | |- hoare _ _ (h_moveObject _ _) _ => apply i_moveObject
  | |- hoare _ _ (h_copyObject _ _) _ => apply i_copyObject
  | |- hoare _ _ (h_getPartialObject64 _ _) _ => apply i_getPartial64
  | |- hoare _ _ (h_sendPartialObject64 _) _ => apply i_sendPartial
  | |- hoare _ _ (h_truncateObject64 _ _) _ => apply i_truncate
  | |- hoare _ _ (h_beginEdit _ _) _ => apply i_beginEdit
  | |- hoare _ _ (h_endEdit _ _) _ => apply i_endEdit
  | |- hoare _ _ (h_getObjPropsSupported _ _ _ _) _ => apply i_getObjPropsSupported
  | |- hoare _ _ (h_getObjPropDesc _ _ _ _) _ => apply i_getObjPropDesc
  | |- hoare _ _ (h_getObjPropValue _ _ _ _) _ => apply i_getObjPropValue
  | |- hoare _ _ (h_setObjPropValue _ _ _ _) _ => apply i_setObjPropValue
  | |- hoare _ _ (h_getObjectPropList _ _ _ _ _) _ => apply i_getObjectPropList
  | |- hoare _ _ (h_getObjReferences _ _) _ => apply i_getObjReferences
  | |- hoare _ _ (h_skip _ _) _ => apply i_skip
  end.
Ltac peel := match goal with |- hoare _ _ (match (if ?b then _ else _) with _ => _ end) _ => destruct b eqn:?E end.
Lemma held_response a b c : hoare True (held a b) (send_response env c) (fun _ => held a b).
Proof.
  unfold send_response. apply h_get; intros rq. eapply h_pre; [|intros s [H _]; exact H]. destruct rq; [|apply h_ret; auto].
  apply h_inv; [apply i_send; hc|intro; apply h_ret; auto].
Qed.
Lemma held_response1 a b c p : hoare True (held a b) (send_response1 env c p) (fun _ => held a b).
Proof.
  unfold send_response1. apply h_get; intros rq. eapply h_pre; [|intros s [H _]; exact H]. destruct rq; [|intros s Hs; exact I].
  apply h_inv; [apply i_send; hc|intro; apply h_ret; auto].
Qed.
Lemma held_open a b q : hoare True (held a b) (h_openSession env q) (fun _ => held a b).
Proof.
  unfold h_openSession. apply h_get; intros sid. eapply h_pre; [|intros s [H _]; exact H].
  destruct (_ =? _); [apply held_response|]. destruct (negb _); [apply held_response1|].
  apply h_inv; [apply h_upd; hc|intros _]. apply h_inv; [apply held_response|intros _]. apply h_inv; [apply h_ask; hc|intro; apply h_ret; hc].
Qed.
Lemma held_command a b q : announcing (q_code q) = false ->
  hoare True (held a b) (command_handler env formats cat props_by_type prop_desc q) (fun _ => held a b).
Proof.
  intros Ha. cbn [announcing existsb] in Ha. unfold announcing in Ha. cbn [existsb] in Ha.
  apply orb_false_elim in Ha as [A1 Ha]. apply orb_false_elim in Ha as [A2 Ha]. apply orb_false_elim in Ha as [A3 Ha]. apply orb_false_elim in Ha as [A4 _].
  unfold command_handler. cbv zeta. apply h_inv.
  { destruct (_ && _); cbn [when]; [apply h_inv; [apply h_ask; hc|intro; apply h_ret; hc]|apply h_ret; hc]. }
  intros _. apply h_inv; [apply h_upd; hc|intros _]. apply h_inv; [apply h_ask; hc|intros r].
  destruct (_ && _); [apply h_inv; [apply h_upd; hc|intros _; apply h_upd; hc]|].
  unfold op_table; cbn [lookup_op].
  repeat (peel; [ first [ solve [congruence] | solve [pickH; hc] | apply held_open ] | clear E ]).
  apply held_response.
Qed.
Lemma held_data a b q data first last : announcing (q_code q) = false ->
  hoare True (held a b) (data_handler env cat prop_desc q data first last) (fun _ => held a b).
Proof.
  intros Ha. unfold announcing in Ha. cbn [existsb] in Ha.
  apply orb_false_elim in Ha as [A1 Ha]. apply orb_false_elim in Ha as [A2 Ha]. apply orb_false_elim in Ha as [A3 Ha]. apply orb_false_elim in Ha as [A4 _].
  unfold data_handler. apply h_get; intros resp0. eapply h_pre; [|intros s [H _]; exact H].
  apply h_inv.
  { destruct (pass_through _); [apply h_upd; hc|]. destruct first.
    - apply h_inv; [apply h_lift; auto|intro; apply h_upd; hc].
    - apply h_get; intros d. eapply h_pre; [|intros s [H _]; exact H]. destruct d; [|apply h_ret; auto].
      apply h_inv; [apply h_lift; auto|intro; apply h_upd; hc]. }
  intros _. destruct (_ && _); [apply h_ret; hc|]. apply h_get; intros d. eapply h_pre; [|intros s [H _]; exact H].
  apply h_inv.
  { destruct d; [|apply h_ret; hc]. destruct (isok resp0); [|apply h_ret; hc].
    apply h_inv; [apply h_lift; auto|intro]. apply h_inv; [apply h_lift; auto|intro]. apply h_ret; hc. }
  intros resp1. cbv zeta.
  assert (Hf : forall c (bb : bool), hoare True (held a b) (upd (set_resp c) ;;; when bb (send_response env c)) (fun _ => held a b)).
  { intros c bb. apply h_inv; [apply h_upd; hc|intros _]. destruct bb; cbn [when]; [apply held_response|apply h_ret; hc]. }
  destruct (negb _); [apply Hf|]. rewrite A1, A2.
  destruct (q_code q =? OP_SendPartialObject64); [apply h_inv; [apply i_dSendPartial; hc|intro; apply Hf]|].
  destruct (q_code q =? OP_SetObjectPropList); [apply i_dSetObjectPropList; hc|]. rewrite A3.
  destruct (q_code q =? OP_SetDevicePropValue); [apply i_dSetDevicePropValue; hc|].
  destruct (q_code q =? OP_SetObjectPropValue); [apply i_dSetObjPropValue; hc|].
  destruct (q_code q =? OP_SetObjectReferences); [apply i_dSetObjReferences; hc|]. apply Hf.
Qed.
Theorem held_step s data first last s' :
  (forall q, parse_req data = Ret q -> announcing (q_code q) = false) ->
  (forall q, r_req s = Some q -> announcing (q_code q) = false) ->
  step (IRecv data first last) s = Ret (tt, s') -> r_seq s' = r_seq s /\ r_pl s' = r_pl s.
Proof.
  intros Hq Hr H.
  assert (K : hoare True (fun s0 => held (r_seq s) (r_pl s) s0 /\ r_req s0 = r_req s) (receive env formats cat props_by_type prop_desc data first last) (fun _ => held (r_seq s) (r_pl s))).
  { unfold receive. apply h_get; intros st.
    assert (Hrs : hoare True (held (r_seq s) (r_pl s)) (reset_transport env) (fun _ => held (r_seq s) (r_pl s))).
    { unfold reset_transport. apply h_inv; [apply h_ask; hc|intro; apply h_ret; hc]. }
    assert (Hcmd : hoare True (held (r_seq s) (r_pl s)) (upd (set_st IDLE);;; upd (set_req None);;;
       (if first && last then q <- lift (parse_req data);; upd (set_req (Some q));;; upd (set_st (phase_state (q_code q)));;;
          command_handler env formats cat props_by_type prop_desc q else reset_transport env)) (fun _ => held (r_seq s) (r_pl s))).
    { apply h_inv; [apply h_upd; hc|intros _]. apply h_inv; [apply h_upd; hc|intros _].
      destruct (_ && _); [|exact Hrs].
      apply h_bind with (R := fun q s0 => held (r_seq s) (r_pl s) s0 /\ parse_req data = Ret q).
      { apply h_lift; auto. }
      intros q. apply h_pure. intros Hp. apply h_inv; [apply h_upd; hc|intros _]. apply h_inv; [apply h_upd; hc|intros _].
      apply held_command, Hq, Hp. }
    destruct st; try (eapply h_pre; [exact Hcmd|intros s0 [[K _] _]; exact K]).
    - apply h_get; intros rq. intros s0 (((K1 & K2) & _) & K4). destruct rq as [q|].
      + apply held_data; [|exact K1]. apply Hr. congruence.
      + apply h_inv with (I := held (r_seq s) (r_pl s)); [apply h_upd; hc|intros _; exact Hrs|exact K1].
    - eapply h_pre; [apply h_inv with (I := held (r_seq s) (r_pl s)); [apply h_upd; hc|intros _; exact Hrs]|intros s0 [[K _] _]; exact K].
    - apply h_get; intros wt. eapply h_pre; [|intros s0 [[[K _] _] _]; exact K]. destruct (first && negb (len wt =? 0)); [|apply h_upd; hc].
      apply h_inv; [apply h_upd; hc|intros _; exact Hrs]. }
  specialize (K s (conj (conj eq_refl eq_refl) eq_refl)). cbn [Responder.step] in H. rewrite H in K. exact K.
Qed.

(** ** Nothing announced *)
Theorem send_object_none s tid ps data : idle s -> command_ok OP_SendObject tid ps -> storage_is_ready env ->
  r_session s <> 0 -> tid <> 0 -> tid <> 0xFFFFFFFF -> r_seq s = None -> r_pl s = None ->
  exists s' l, run [command OP_SendObject tid ps; IRecv data true true] s = Ret (tt, s') /\
    r_log s' = l ++ r_log s /\ r_st s' = IDLE /\ answered_with l (resp_out R_NoValidObjectInfo tid []) /\ changed l = [].
Proof.
  intros Hi Hc Hr Hs Ht1 Ht2 Hsq Hpl.
  destruct (command_eq env formats cat props_by_type prop_desc s _ _ _ Hi Hc (fun _ => Hr)) as (l & Hl & He).
  cbn [Responder.run]. unfold bind at 1. rewrite He.
  change (lookup_op OP_SendObject _) with (Some h_sendObject). cbv iota. unfold h_sendObject, check, bind at 1 2 3 4, get, upd, ret at 1.
  cbn [r_seq r_pl r_session set_log set_resp started set_st set_req]. change (q_tid _) with tid.
  assert (Hp : pre_check (r_session s) tid = R_OK).
  { unfold pre_check. destruct (r_session s =? 0) eqn:E1; [lia|]. destruct (tid =? 0) eqn:E2; [lia|]. destruct (tid =? 0xFFFFFFFF) eqn:E3; [lia|]. reflexivity. }
  rewrite Hp, Hsq, Hpl. change (isok R_OK) with true. cbv iota.
  set (s1 := set_resp _ _). unfold bind at 1.
  assert (E1 : step (IRecv data true true) s1 = (upd (set_resp R_NoValidObjectInfo) ;;; send_response env R_NoValidObjectInfo) (set_data None s1)).
  { reflexivity. }
  rewrite E1. unfold bind at 1, upd.
  destruct (response_eq env quiet R_NoValidObjectInfo (set_resp R_NoValidObjectInfo (set_data None s1)) (mk_req OP_SendObject tid (pars ps)) (or_intror eq_refl) eq_refl) as (l2 & r & Hl2 & He2).
  rewrite He2. eexists _, (l2 ++ (_ :: l)). split; [reflexivity|]. split; [cbn; rewrite <- app_assoc; reflexivity|]. split; [reflexivity|].
  destruct (one_response l2 (resp_out R_NoValidObjectInfo tid []) r l Hl2 eq_refl (noise_responses l Hl) (noise_datas l Hl)) as [K1 K2].
  split; [exact K1|]. etransitivity; [exact K2|]. apply noise_changed, Hl.
Qed.

(** ** Cancel *)
Theorem cancel_send q h size w s : receiving q h size w s -> h <> 0 ->
  exists s' r, step (ISig SigCancel) s = Ret (tt, s') /\ r_log s' = (ACall (SDelete h FMT_Undefined), r) :: r_log s /\
    idle s' /\ r_req s' = None /\ r_seq s' = None /\ r_pl s' = None /\ r_session s' = r_session s.
Proof.
  intros (H1 & H2 & H3 & H4 & HA) Hh. cbn [Responder.step handle_sig]. unfold handle_cancel. unfold bind at 1, get. rewrite H2.
  unfold bind at 1, upd. rewrite H3. change (_ || _) with true. cbn [when]. unfold bind at 1. unfold bind at 1. cbn [r_pl set_st].
  unfold bind at 1. cbn [r_seq set_st]. cbv zeta.
  destruct HA as [i A1 A2 A3 A4|p A1 A2 A3 A4 A5 A6].
  - rewrite A1, A2. cbn [ss_handle]. replace (h =? 0) with false by lia. cbn [negb when]. unfold bind, call, ask, ret, delete_stored, upd.
    eexists _, _. split; [reflexivity|]. split; [reflexivity|]. split; [right; reflexivity|]. repeat split. exact A1.
  - rewrite A2. rewrite A3. replace (h =? 0) with false by lia. cbn [negb when]. unfold bind, call, ask, ret, delete_stored, upd.
    eexists _, _. split; [reflexivity|]. split; [reflexivity|]. split; [right; reflexivity|]. repeat split. exact A1.
Qed.
(** every state in the middle of a send is of that kind *)
Definition open_packets (hdr : bytes) (pre : list bytes) : list input :=
  map (fun x => IRecv (snd x) (fst x) false) (combine (true :: repeat false (length pre)) (object_packets hdr pre)).
Lemma mid_send q h size hdr pre s : receiving q h size 0 s -> len hdr = 12 -> pre <> [] ->
  (forall b, In b pre -> code_of_write env h b R_OK) -> total pre < size ->
  exists s1 l, run (open_packets hdr pre) s = Ret (tt, s1) /\
    receiving q h size (total pre) s1 /\ r_log s1 = l ++ r_log s /\ r_session s1 = r_session s /\ responses l = [] /\ datas l = [] /\ changed l = plain_writes h true pre.
Proof.
  intros HR Hh Hne Hw Hlt. destruct pre as [|b pre]; [contradiction|]. unfold open_packets. cbn [object_packets combine map fst snd Responder.run].
  assert (HP : is_packet true b (hdr ++ b)) by (exists hdr; auto). cbn [total] in Hlt.
  destruct (send_more env formats cat props_by_type prop_desc q h size 0 s (hdr ++ b) b true HR HP (Hw b (or_introl eq_refl)) ltac:(lia)) as (s1 & r & E1 & HR1 & El & _ & Es).
  unfold bind at 1. rewrite E1. rewrite N.add_0_l in HR1.
  assert (G : forall rest n w s0, (length rest <= n)%nat -> receiving q h size w s0 -> (forall x, In x rest -> code_of_write env h x R_OK) -> w + total rest < size ->
    exists s2 l, run (map (fun x => IRecv (snd x) (fst x) false) (combine (repeat false n) rest)) s0 = Ret (tt, s2) /\
      receiving q h size (w + total rest) s2 /\ r_log s2 = l ++ r_log s0 /\ r_session s2 = r_session s0 /\ responses l = [] /\ datas l = [] /\ changed l = plain_writes h false rest).
  { induction rest as [|x rest IH]; intros n w s0 Hn HR0 Hw0 Hlt0.
    - exists s0, []. cbn [total]. rewrite N.add_0_r. split; [destruct n; reflexivity|]. split; [exact HR0|]. repeat split.
    - destruct n as [|n]; [cbn in Hn; lia|]. cbn [repeat combine map fst snd Responder.run]. cbn [total] in Hlt0.
      destruct (send_more env formats cat props_by_type prop_desc q h size w s0 x x false HR0 eq_refl (Hw0 x (or_introl eq_refl)) ltac:(lia)) as (s2 & r2 & F1 & F2 & F3 & _ & Fs).
      unfold bind at 1. rewrite F1.
      destruct (IH n (w + len x) s2) as (s3 & l & G1 & G2 & G3 & Gs & G4 & G5 & G6); [cbn in Hn; lia|exact F2|intros y Hy; apply Hw0; right; exact Hy|lia|].
      exists s3, (l ++ [(ACall (SWrite h (Some x) false false), r2)]). split; [exact G1|]. split; [cbn [total]; rewrite N.add_assoc; exact G2|].
      split; [rewrite G3, F3, <- app_assoc; reflexivity|]. split; [congruence|]. rewrite responses_app, datas_app, changed_app, G4, G5, G6. repeat split. }
  destruct (G pre (length (b :: pre)) (len b) s1) as (s2 & l & F1 & F2 & F3 & Fs & F4 & F5 & F6); [cbn; lia|exact HR1|intros x Hx; apply Hw; right; exact Hx|exact Hlt|].
  exists s2, (l ++ [(ACall (SWrite h (Some b) true false), r)]). split; [exact F1|]. split; [exact F2|].
  split; [rewrite F3, El, <- app_assoc; reflexivity|]. split; [congruence|]. rewrite responses_app, datas_app, changed_app, F4, F5, F6. repeat split.
Qed.
Lemma run_app a b s : run (a ++ b) s = (run a ;;; run b) s.
Proof.
  revert s. induction a as [|i a IH]; intros s; [reflexivity|]. cbn [app Responder.run]. unfold bind in *.
  destruct (step i s) as [[[] s1]| |]; [apply IH|reflexivity..].
Qed.
Theorem send_cancel s tid ps h size hdr pre : idle s -> command_ok OP_SendObject tid ps -> storage_is_ready env ->
  r_session s <> 0 -> tid <> 0 -> tid <> 0xFFFFFFFF -> announced s h size 0 -> h <> 0 -> len hdr = 12 ->
  (forall b, In b pre -> code_of_write env h b R_OK) -> total pre < size ->
  exists s' l, run (command OP_SendObject tid ps :: open_packets hdr pre ++ [ISig SigCancel]) s = Ret (tt, s') /\
    r_log s' = l ++ r_log s /\ responses l = [] /\ datas l = [] /\
    changed l = plain_writes h true pre ++ [SDelete h FMT_Undefined] /\
    idle s' /\ r_session s' = r_session s /\ r_seq s' = None /\ r_pl s' = None.
Proof.
  intros Hi Hc Hr Hs Ht1 Ht2 HA H0 Hh Hw Hlt.
  destruct (command_send env formats cat props_by_type prop_desc s tid ps h size Hi Hc Hr Hs Ht1 Ht2 HA) as (s1 & l1 & E1 & E2 & E3 & E4 & E5 & E6).
  cbn [Responder.run]. unfold bind at 1. rewrite E1. rewrite run_app. unfold bind at 1.
  assert (Hm : exists s2 l, run (open_packets hdr pre) s1 = Ret (tt, s2) /\
    receiving (mk_req OP_SendObject tid (pars ps)) h size (total pre) s2 /\ r_log s2 = l ++ r_log s1 /\ r_session s2 = r_session s1 /\
    responses l = [] /\ datas l = [] /\ changed l = plain_writes h true pre).
  { destruct pre as [|b pre]; [exists s1, []; split; [reflexivity|]; split; [exact E4|]; repeat split|].
    destruct (mid_send _ h size hdr (b :: pre) s1 E4 Hh ltac:(discriminate) Hw Hlt) as (s2 & l & F1 & F2 & F3 & Fs & F4 & F5 & F6).
    exists s2, l. auto 10. }
  destruct Hm as (s2 & l & F1 & F2 & F3 & F4 & F5 & F6 & F7). rewrite F1. cbn [Responder.run].
  destruct (cancel_send _ h size _ s2 F2 H0) as (s3 & r & G1 & G2 & G3 & G4 & G5 & G6 & G7).
  unfold bind. rewrite G1. exists s3, ((ACall (SDelete h FMT_Undefined), r) :: l ++ l1). split; [reflexivity|].
  split; [rewrite G2, F3, E2; cbn [app]; rewrite <- app_assoc; reflexivity|].
  change ((ACall (SDelete h FMT_Undefined), r) :: l ++ l1) with ([(ACall (SDelete h FMT_Undefined), r)] ++ l ++ l1).
  rewrite !responses_app, !datas_app, !changed_app, F5, F6, F7, (noise_datas l1), (noise_responses l1), (noise_changed l1) by exact E3.
  split; [reflexivity|]. split; [reflexivity|]. split; [reflexivity|]. split; [exact G3|]. split; [congruence|]. split; assumption.
Qed.
End Send2.
