(** C31-C33: receiving objects, for every cut of the content into packets, every
    storage behaviour and every cancel point. *)
From Verif Require Import Base Wire WireSpec Responder RSpec RLogic ROne2 RGate RExec RSession RSend RSend2 RDemo.

(** bytes written to object [h], in order *)
Fixpoint content_written (h : N) (cs : list scall) : bytes :=
  match cs with
  | [] => []
  | SWrite h' (Some d) _ _ :: r => if h' =? h then d ++ content_written h r else content_written h r
  | _ :: r => content_written h r
  end.
(** calls concerning object [h] only *)
Definition only_on (h : N) (c : scall) : bool :=
  match c with
  | SWrite h' _ _ _ | SSetProps h' _ _ | STruncate h' _ | SDelete h' _ => h' =? h
  | _ => false
  end.
Lemma content_app h a b : content_written h (a ++ b) = content_written h a ++ content_written h b.
Proof.
  induction a as [|c a IH]; [reflexivity|]. cbn [app content_written]. destruct c; try exact IH. destruct data; try exact IH.
  destruct (_ =? _); [rewrite IH, app_assoc; reflexivity|exact IH].
Qed.
Lemma content_chunks h bodies : forall first, content_written h (chunk_writes h first bodies) = concat bodies /\
  forallb (only_on h) (chunk_writes h first bodies) = true.
Proof.
  induction bodies as [|b bodies IH]; intros first; [split; reflexivity|].
  destruct bodies as [|b2 bodies].
  - cbn. rewrite N.eqb_refl. split; reflexivity.
  - change (chunk_writes h first (b :: b2 :: bodies)) with (SWrite h (Some b) first false :: chunk_writes h false (b2 :: bodies)).
    cbn [content_written forallb only_on]. rewrite N.eqb_refl. destruct (IH false) as [-> ->]. split; reflexivity.
Qed.
Lemma content_plain h bodies : forall first, content_written h (plain_writes h first bodies) = concat bodies /\
  forallb (only_on h) (plain_writes h first bodies) = true.
Proof.
  induction bodies as [|b bodies IH]; intros first; [split; reflexivity|].
  cbn [plain_writes content_written forallb only_on]. rewrite N.eqb_refl. destruct (IH false) as [-> ->]. split; reflexivity.
Qed.
Lemma content_finish pd s h cs : finishing pd s h cs -> content_written h cs = [] /\ forallb (only_on h) cs = true.
Proof. intros [[_ ->]|[_ (v & _ & ->)]]; cbn; rewrite ?N.eqb_refl; split; reflexivity. Qed.
Lemma total_app a b : total (a ++ b) = total a + total b.
Proof. induction a as [|x a IH]; cbn [total app]; lia. Qed.
Lemma total_len l : total l = len (concat l).
Proof. induction l as [|x l IH]; cbn [total concat]; [reflexivity|]. rewrite len_app, IH. reflexivity. Qed.

(** ** C31 *)
(** [announced s h size 0]: the object to be received, with its size.
    [object_packets]: the data container cut into packets, the first holding the 12
    byte header (empty packets other than the first one do not occur on the wire).
    The whole content arrived and was written: OK; it was short: IncompleteTransfer
    and the object is emptied.  Missing for the full statement: content longer than
    announced (refuted below). *)
Theorem C31_stored_partial : forall env formats cat props_by_type prop_desc s tid ps h size hdr bodies,
  undisturbed env -> storage_is_ready env -> idle s -> command_ok OP_SendObject tid ps ->
  r_session s <> 0 -> tid <> 0 -> tid <> 0xFFFFFFFF -> announced s h size 0 ->
  bodies <> [] -> Forall (fun b => 0 < len b) (tl bodies) -> len hdr = 12 ->
  (forall b, In b bodies -> code_of_write env h b R_OK) ->
  len (concat bodies) <= size ->
  exists s' l, run env formats cat props_by_type prop_desc (command OP_SendObject tid ps :: data_phase (object_packets hdr bodies)) s = Ret (tt, s') /\
    r_log s' = l ++ r_log s /\ r_st s' = IDLE /\ datas l = [] /\
    content_written h (changed l) = concat bodies /\ forallb (only_on h) (changed l) = true /\
    responses l = [resp_out (if len (concat bodies) =? size then R_OK else R_IncompleteTransfer) tid []] /\
    (len (concat bodies) < size -> In (STruncate h 0) (changed l)).
Proof.
  intros *. intros Hq Hr Hi Hc Hs Ht1 Ht2 HA Hne Hnz Hh Hw Hle.
  rewrite <- total_len in *.
  destruct (send_object_ok env formats cat props_by_type prop_desc Hq s tid ps h size hdr bodies Hi Hc Hr Hs Ht1 Ht2 HA Hne Hh Hw)
    as (s' & l & E1 & E2 & E3 & E4 & E5 & E6 & E7 & E8).
  { intros pre b post -> Hp. rewrite !total_app in *. cbn [total] in *. destruct post as [|x post]; [contradiction|].
    assert (0 < len x). { rewrite Forall_forall in Hnz. apply Hnz. destruct pre; cbn; [left; reflexivity|]. apply in_or_app. right; right; left; reflexivity. }
    cbn [total] in Hle. lia. }
  { right. exact Hle. }
  exists s', l. split; [exact E1|]. split; [exact E2|]. split; [exact E3|]. split; [exact E7|].
  destruct (content_chunks h bodies true) as [C1 C2].
  destruct (total bodies <? size) eqn:E.
  - destruct E8 as [K1 K2]. rewrite K1, K2, content_app, forallb_app, C1, C2. cbn [content_written forallb only_on]. rewrite N.eqb_refl, app_nil_r.
    replace (total bodies =? size) with false by lia. repeat split. intros _. apply in_or_app. right; left; reflexivity.
  - destruct E8 as [K1 (cs & K2 & K3)]. apply content_finish in K2 as [K4 K5].
    rewrite K1, K3, content_app, forallb_app, C1, C2, K4, K5, app_nil_r.
    replace (total bodies =? size) with true by lia. repeat split. lia.
Qed.
(** a write fails: its code is the answer, whatever comes after; never OK *)
Theorem C31_write_failure_partial : forall env formats cat props_by_type prop_desc s tid ps h size hdr pre bad post c,
  undisturbed env -> storage_is_ready env -> idle s -> command_ok OP_SendObject tid ps ->
  r_session s <> 0 -> tid <> 0 -> tid <> 0xFFFFFFFF -> announced s h size 0 -> len hdr = 12 ->
  (forall b, In b pre -> code_of_write env h b R_OK) -> code_of_write env h bad c -> c <> R_OK -> c <> R_Undefined ->
  len (concat pre) < size ->
  exists s' l, run env formats cat props_by_type prop_desc (command OP_SendObject tid ps :: data_phase (object_packets hdr (pre ++ bad :: post))) s = Ret (tt, s') /\
    r_log s' = l ++ r_log s /\ datas l = [] /\ responses l = [resp_out c tid []] /\
    content_written h (changed l) = concat pre ++ bad /\ forallb (only_on h) (changed l) = true.
Proof.
  intros *. intros Hq Hr Hi Hc Hs Ht1 Ht2 HA Hh Hw Hb H1 H2 Hlt. rewrite <- total_len in Hlt.
  destruct (send_object_fail env formats cat props_by_type prop_desc Hq s tid ps h size hdr pre bad post c Hi Hc Hr Hs Ht1 Ht2 HA Hh Hw Hb H1 H2 Hlt)
    as (s' & l & E1 & E2 & E3 & E4 & E5).
  exists s', l. split; [exact E1|]. split; [exact E2|]. split; [exact E3|]. split; [exact E4|].
  destruct (content_plain h pre true) as [C1 C2]. rewrite E5, content_app, forallb_app, C1, C2.
  cbn [content_written forallb only_on]. rewrite N.eqb_refl, app_nil_r. split; reflexivity.
Qed.
(** content longer than announced is answered OK all the same *)
Definition got_info : rstate := set_seq (Some (mk_ss (blank_info 0x00010001 4 0 0x3000 [97]) 7 0)) in_session.
Definition hdr12 : bytes := command_bytes OP_SendObject 5 [].
Theorem C31_longer_refuted :
  let bodies := [[1; 2; 3; 4; 5; 6]] in
  announced got_info 7 4 0 /\ 4 < len (concat bodies) /\
  exists s', demo_run plain (command OP_SendObject 5 [] :: data_phase (object_packets hdr12 bodies)) got_info = Ret (tt, s') /\
    responses (r_log s') = [resp_out R_OK 5 []].
Proof.
  split; [eapply by_info; reflexivity|]. split; [reflexivity|].
  eexists. split; [vm_compute; reflexivity|]. reflexivity.
Qed.
(** and when the announced size is reached before the last packet, the rest is
    thrown away and the transport reset *)
Theorem C31_early_ok_refuted :
  let bodies := [[1; 2; 3; 4]; [5; 6]] in
  exists s', demo_run plain (command OP_SendObject 5 [] :: data_phase (object_packets hdr12 bodies)) got_info = Ret (tt, s') /\
    responses (r_log s') = [resp_out R_OK 5 []] /\ content_written 7 (changed (r_log s')) = [1; 2; 3; 4] /\ In AReset (map fst (r_log s')).
Proof.
  eexists. split; [vm_compute; reflexivity|]. split; [reflexivity|]. split; [reflexivity|]. cbn. auto 10.
Qed.
(** non-vacuity: an announced object of 6 bytes arriving in two packets *)
Definition got_info6 : rstate := set_seq (Some (mk_ss (blank_info 0x00010001 6 0 0x3000 [97]) 7 0)) in_session.
Example ex_C31 :
  let bodies := [[1; 2; 3; 4]; [5; 6]] in
  undisturbed plain /\ storage_is_ready plain /\ idle got_info6 /\ command_ok OP_SendObject 5 [] /\ announced got_info6 7 6 0 /\
  Forall (fun b => 0 < len b) (tl bodies) /\ len hdr12 = 12 /\ (forall b, In b bodies -> code_of_write plain 7 b R_OK) /\ len (concat bodies) = 6.
Proof.
  split; [apply plain_undisturbed|]. split; [apply plain_ready|]. split; [left; reflexivity|].
  split; [repeat split; try constructor; discriminate|]. split; [eapply by_info; reflexivity|].
  split; [repeat constructor|]. split; [reflexivity|]. split; [|reflexivity]. intros b _ hist f l. reflexivity.
Qed.

(** ** C32 *)
(** after SendObjectInfo answered OK the object is the one whose handle was
    reported; a refused one leaves no new announcement *)
Theorem C32_info_partial : forall env formats cat props_by_type prop_desc q s data first last s',
  undisturbed env -> r_st s = WAIT_DATA -> r_req s = Some q -> q_code q = OP_SendObjectInfo ->
  step env formats cat props_by_type prop_desc (IRecv data first last) s = Ret (tt, s') ->
  exists l, r_log s' = l ++ r_log s /\
   ((last = false /\ l = [] /\ r_seq s' = r_seq s /\ r_pl s' = r_pl s) \/
    exists o, responses l = [o] /\ datas l = [] /\
      if o_code o =? R_OK
      then exists i sid parent h, (oi_size i < 2^32 -> announced s' h (oi_size i) 0) /\
           r_seq s' = Some (mk_ss i h 0) /\ r_pl s' = None /\ o_pay o = PItems (map u32_item [sid; parent; h]) /\
           exists r, changed l = [SAddItem (par q 0) (par q 1) i] /\ In (ACall (SAddItem (par q 0) (par q 1) i), r) l /\ a_code r = R_OK /\ h = a_num r 2
      else (r_seq s' = r_seq s /\ r_pl s' = r_pl s) \/ (r_seq s' = None /\ r_pl s' = None)).
Proof.
  intros *. intros Hq H1 H2 H3 H.
  destruct (info_announces env formats cat props_by_type prop_desc Hq q s data first last s' (conj H1 H2) H3 H) as (l & E1 & E2).
  exists l. split; [exact E1|]. destruct E2 as [E2|(o & [K1 K2] & K3)]; [left; exact E2|]. right. exists o. split; [exact K1|]. split; [exact K2|].
  destruct (o_code o =? R_OK); [|exact K3]. destruct K3 as (i & r & J1 & J2 & J3 & J4 & J5 & J6).
  exists i, (a_num r 0), (a_num r 1), (a_num r 2). split; [intros Hlt; eapply by_info; eauto|]. split; [exact J6|]. split; [exact J5|]. split; [exact J4|]. exists r. auto.
Qed.
(** the same for SendObjectPropList, provided no earlier SendObjectInfo is pending *)
Theorem C32_props_partial : forall env formats cat props_by_type prop_desc q s p data first last s',
  undisturbed env -> r_st s = WAIT_DATA -> r_req s = Some q -> q_code q = OP_SendObjectPropList ->
  r_pl s = Some p -> pl_cur p = 0 -> pl_size p < 2^64 -> r_seq s = None ->
  step env formats cat props_by_type prop_desc (IRecv data first last) s = Ret (tt, s') ->
  exists l, r_log s' = l ++ r_log s /\
   ((last = false /\ l = [] /\ r_pl s' = r_pl s) \/
    exists o, responses l = [o] /\ datas l = [] /\
      (o_code o = R_OK -> exists i sid parent h,
           announced s' h (pl_size p) 0 /\ o_pay o = PItems (map u32_item [sid; parent; h]) /\
           exists r, changed l = [SAddItem (pl_storage p) (pl_parent p) i] /\ In (ACall (SAddItem (pl_storage p) (pl_parent p) i), r) l /\ a_code r = R_OK /\ h = a_num r 2)).
Proof.
  intros *. intros Hq H1 H2 H3 Hp Hcur Hsz Hseq H.
  destruct (props_announce env formats cat props_by_type prop_desc Hq q s p data first last s' (conj H1 H2) H3 Hp H) as (l & E1 & Es & E2).
  exists l. split; [exact E1|]. destruct E2 as [(X1 & X2 & X3)|(o & [K1 K2] & K3)]; [left; auto|]. right. exists o. split; [exact K1|]. split; [exact K2|].
  intros Ho. rewrite Ho in K3. change (R_OK =? R_OK) with true in K3. cbv iota in K3.
  destruct K3 as (i & r & p' & J1 & J2 & J3 & J4 & J5 & J6 & J7 & J8 & J9).
  exists i, (a_num r 0), (a_num r 1), (a_num r 2). split.
  { eapply by_props; [congruence|exact J6|exact J7|exact J8|congruence|]. exact Hsz. }
  split; [exact J5|]. exists r. auto.
Qed.
(** no other command touches the announcement *)
Theorem C32_kept_partial : forall env formats cat props_by_type prop_desc s data first last s',
  undisturbed env ->
  (forall q, parse_req data = Ret q -> ~ In (q_code q) [OP_SendObjectInfo; OP_SendObject; OP_SendObjectPropList; OP_CloseSession]) ->
  (forall q, r_req s = Some q -> ~ In (q_code q) [OP_SendObjectInfo; OP_SendObject; OP_SendObjectPropList; OP_CloseSession]) ->
  step env formats cat props_by_type prop_desc (IRecv data first last) s = Ret (tt, s') ->
  r_seq s' = r_seq s /\ r_pl s' = r_pl s.
Proof.
  intros *. intros Hq H1 H2 H.
  assert (Ha : forall c, ~ In c [OP_SendObjectInfo; OP_SendObject; OP_SendObjectPropList; OP_CloseSession] -> announcing c = false).
  { intros c Hc. unfold announcing. destruct (existsb _ _) eqn:E; [|reflexivity]. apply existsb_exists in E as (x & Hx & Hx2).
    apply N.eqb_eq in Hx2. subst x. contradiction. }
  eapply held_step; eauto.
Qed.
(** nothing announced: refused, nothing written *)
Theorem C32_refused_partial : forall env formats cat props_by_type prop_desc s tid ps data,
  undisturbed env -> storage_is_ready env -> idle s -> command_ok OP_SendObject tid ps ->
  r_session s <> 0 -> tid <> 0 -> tid <> 0xFFFFFFFF -> r_seq s = None -> r_pl s = None ->
  exists s' l, run env formats cat props_by_type prop_desc [command OP_SendObject tid ps; IRecv data true true] s = Ret (tt, s') /\
    r_log s' = l ++ r_log s /\ r_st s' = IDLE /\ responses l = [resp_out R_NoValidObjectInfo tid []] /\ datas l = [] /\ changed l = [].
Proof.
  intros *. intros Hq Hr Hi Hc Hs Ht1 Ht2 H1 H2.
  destruct (send_object_none env formats cat props_by_type prop_desc Hq s tid ps data Hi Hc Hr Hs Ht1 Ht2 H1 H2) as (s' & l & E1 & E2 & E3 & [E4 E5] & E6).
  exists s', l. auto 10.
Qed.
(** SendObjectInfo for object 7, then SendObjectPropList for object 9: SendObject
    writes into 7, with the size announced for 9 *)
Definition two_env : list (act * ans) -> act -> ans :=
  fun hist a => match a with
  | ACall (SAddItem _ _ _) => if existsb (fun e => match fst e with ACall (SAddItem _ _ _) => true | _ => false end) hist
      then mk_ans R_OK [0x00010001; 0; 9] [] info0 [] None [] true [] else mk_ans R_OK [0x00010001; 0; 7] [] info0 [] None [] true []
  | _ => ok_ans end.
Definition info_data (tid : N) (o : objinfo) : bytes :=
  spec_header (12 + len (spec_objinfo o)) 2 OP_SendObjectInfo tid ++ spec_objinfo o.
Definition name_list : bytes :=   (* one element: object 0, File_Name, string "b" *)
  spec_int 4 1 ++ spec_int 4 0 ++ spec_int 2 PROP_File_Name ++ spec_int 2 DT_STR ++ [2; 98; 0; 0; 0].
Definition list_data (tid : N) : bytes := spec_header (12 + len name_list) 2 OP_SendObjectPropList tid ++ name_list.
Definition two_announcements : list input :=
  [ command OP_SendObjectInfo 2 [0x00010001; 0]; IRecv (info_data 2 (blank_info 0x00010001 4 0 0x3000 [97])) true true;
    command OP_SendObjectPropList 3 [0x00010001; 0; 0x3000; 0; 2]; IRecv (list_data 3) true true;
    command OP_SendObject 5 []; IRecv (hdr12 ++ [1; 2]) true true ].
Theorem C32_latest_refuted : exists s', demo_run two_env two_announcements in_session = Ret (tt, s') /\
  map o_code (responses (r_log s')) = [R_OK; R_OK; R_OK] /\
  nth 1 (map o_pay (responses (r_log s'))) (PItems []) = PItems (map u32_item [0x00010001; 0; 9]) /\
  content_written 7 (changed (r_log s')) = [1; 2] /\ content_written 9 (changed (r_log s')) = [].
Proof. eexists. split; [vm_compute; reflexivity|]. repeat split. Qed.
Example ex_C32 : exists s', demo_run plain (firstn 2 two_announcements) in_session = Ret (tt, s') /\ announced s' 7 4 0.
Proof. eexists. split; [vm_compute; reflexivity|]. eapply by_info; reflexivity. Qed.

(** ** C33 *)
(** the cancel arrives after the command and any number of packets *)
Theorem C33_cancel_partial : forall env formats cat props_by_type prop_desc s tid ps h size hdr pre,
  undisturbed env -> storage_is_ready env -> idle s -> command_ok OP_SendObject tid ps ->
  r_session s <> 0 -> tid <> 0 -> tid <> 0xFFFFFFFF -> announced s h size 0 -> h <> 0 -> len hdr = 12 ->
  (forall b, In b pre -> code_of_write env h b R_OK) -> len (concat pre) < size ->
  exists s' l, run env formats cat props_by_type prop_desc (command OP_SendObject tid ps :: open_packets hdr pre ++ [ISig SigCancel]) s = Ret (tt, s') /\
    r_log s' = l ++ r_log s /\ responses l = [] /\ datas l = [] /\
    changed l = plain_writes h true pre ++ [SDelete h FMT_Undefined] /\
    (* ready for the next command, in the same session, nothing announced *)
    idle s' /\ r_session s' = r_session s /\ r_seq s' = None /\ r_pl s' = None.
Proof.
  intros *. intros Hq Hr Hi Hc Hs Ht1 Ht2 HA H0 Hh Hw Hlt. rewrite <- total_len in Hlt.
  eapply send_cancel; eassumption.
Qed.
(** with two announcements pending, the object deleted is not the one written to *)
Theorem C33_wrong_object_refuted :
  exists s', demo_run two_env (firstn 5 two_announcements ++ [IRecv (hdr12 ++ [1]) true false; ISig SigCancel]) in_session = Ret (tt, s') /\
    content_written 7 (changed (r_log s')) = [1] /\ In (SDelete 9 FMT_Undefined) (changed (r_log s')) /\ ~ In (SDelete 7 FMT_Undefined) (changed (r_log s')).
Proof.
  eexists. split; [vm_compute; reflexivity|]. split; [reflexivity|]. split; [cbn; auto 10|].
  cbn. intros K. repeat (destruct K as [K|K]; [discriminate|]). exact K.
Qed.
Example ex_C33 : announced got_info6 7 6 0 /\ (forall b, In b [[1; 2]; [3]] -> code_of_write plain 7 b R_OK) /\ len (concat [[1; 2]; [3]]) < 6.
Proof. split; [eapply by_info; reflexivity|]. split; [|reflexivity]. intros b _ hist f l. reflexivity. Qed.
Print Assumptions C31_stored_partial.
Print Assumptions C31_write_failure_partial.
Print Assumptions C31_longer_refuted.
Print Assumptions C31_early_ok_refuted.
Print Assumptions C32_info_partial.
Print Assumptions C32_props_partial.
Print Assumptions C32_kept_partial.
Print Assumptions C32_refused_partial.
Print Assumptions C32_latest_refuted.
Print Assumptions C33_cancel_partial.
Print Assumptions C33_wrong_object_refuted.
