(** C85, C86: listing, describing, deleting, moving and copying objects, from the
    request to the files. *)
From Coq Require Import Sorting.Permutation Sorting.Sorted.
From Verif Require FSView FSPath.
From Verif Require Import Base AList Wire FS FSPath FSTree FSLogic FSSpec FSReach FSProps FSDemo P_FS P_FS2 P_FS3 P_FS4 P_FS6 P_FSProps Device DeviceProofs DeviceRead DeviceInfo DeviceOps P_Device.
From Verif Require WireSpec Responder RSpec RLogic ROne2 RSession ROps RDemo P_Ops.
Import Responder(act, ans, scall, rstate, r_log, r_st, r_session, OP_GetObjectHandles, OP_GetNumObjects, OP_GetObjectInfo, OP_DeleteObject, OP_MoveObject, OP_CopyObject).
Import RSpec(responses, datas, command_ok, tables_ok).
Import ROne2(command).
Import RSession(resp_out).
Import ROps(ids32).

(** ** C85 *)
(** the objects a listing is to contain: of the format asked for (0: of any); with folder
    0 everywhere, with folder 0xFFFFFFFF at the top level, else directly in the folder *)
Definition chosen (w : fs) (fmt folder h : N) : Prop :=
  exists v, look w h = Some v /\ (fmt = 0 \/ v_format v = Some fmt) /\
    (folder = 0 /\ h <> 0 \/ folder = Responder.ALL /\ v_parent v = Some 0 \/ folder <> 0 /\ folder <> Responder.ALL /\ v_parent v = Some folder).
Definition listable (w : fs) (folder : N) : Prop := folder = 0 \/ folder = Responder.ALL \/ exists f, look w folder = Some f /\ v_folder f.
Definition no_such (w : fs) (folder : N) : N := match look w folder with Some _ => R_InvalidParentObject | None => R_InvalidObjectHandle end.

Lemma handles_of C w fmt assoc : supply_ok C -> reachable C w -> fmt <> FMT_Undefined \/ assoc = 0 ->
  exists code l, get_object_handles fmt assoc w = Ret ((code, l), w) /\ NoDup l /\
    (listable w assoc -> code = R_OK /\ forall h, In h l <-> chosen w fmt assoc h) /\ (~ listable w assoc -> code = R_InvalidParentObject).
Proof.
  intros SO R HF. destruct (C44_enumeration_partial C w fmt assoc SO R HF) as (code & l & E & ND & H0 & H1 & H2). exists code, l. split; [exact E|]. split; [exact ND|]. unfold chosen, listable. split.
  - intros [->|[->|(f & A & B)]].
    + destruct (H0 eq_refl) as [X Y]. split; [exact X|]. intros h. rewrite Y. split.
      * intros (Z & v & L & W). exists v. split; [exact L|]. split; [exact W|]. left. auto.
      * intros (v & L & W & [[_ Z]|[[Z _]|[Z _]]]); [|discriminate Z|congruence]. split; [exact Z|]. exists v. auto.
    + destruct (H1 eq_refl) as [X Y]. split; [exact X|]. intros h. rewrite Y. split.
      * intros (v & L & P & W). exists v. split; [exact L|]. split; [exact W|]. right; left. auto.
      * intros (v & L & W & [[Z _]|[[_ Z]|[_ [Z _]]]]); [discriminate Z| |congruence]. exists v. auto.
    + destruct (N.eq_dec assoc 0) as [->|N0].
      { destruct (H0 eq_refl) as [X Y]. split; [exact X|]. intros h. rewrite Y. split.
        * intros (Z & v & L & W). exists v. split; [exact L|]. split; [exact W|]. left. auto.
        * intros (v & L & W & [[_ Z]|[[Z _]|[Z _]]]); [|discriminate Z|congruence]. split; [exact Z|]. exists v. auto. }
      destruct (N.eq_dec assoc ALL) as [->|N1].
      { destruct (H1 eq_refl) as [X Y]. split; [exact X|]. intros h. rewrite Y. split.
        * intros (v & L & P & W). exists v. split; [exact L|]. split; [exact W|]. right; left. auto.
        * intros (v & L & W & [[Z _]|[[_ Z]|[_ [Z _]]]]); [discriminate Z| |exfalso; apply Z; reflexivity]. exists v. auto. }
      destruct (proj1 (H2 N0 N1) f A B) as [X Y]. split; [exact X|]. intros h. rewrite Y. split.
      * intros (v & L & P & W). exists v. split; [exact L|]. split; [exact W|]. right; right. auto.
      * intros (v & L & W & [[Z _]|[[Z _]|[_ [_ Z]]]]); [congruence|exfalso; apply N1; exact Z|]. exists v. auto.
  - intros NL. assert (N0 : assoc <> 0) by tauto. assert (N1 : assoc <> ALL) by (intros X; apply NL; right; left; exact X). apply (proj2 (H2 N0 N1)). intros f A B. apply NL. right; right. eauto.
Qed.
Lemma listable_dec C w folder : supply_ok C -> reachable C w -> listable w folder \/ ~ listable w folder.
Proof.
  intros SO R. unfold listable. destruct (N.eq_dec folder 0); [tauto|]. destruct (N.eq_dec folder Responder.ALL); [tauto|]. destruct (look w folder) as [f|] eqn:E; [|right; intros [?|[?|(f & A & _)]]; congruence].
  destruct (C44_enumeration_partial C w 0 folder SO R ltac:(left; discriminate)) as (code & l & _ & _ & _ & _ & H). destruct (H n n0) as [A B].
  unfold v_folder. destruct (v_format f) as [m|] eqn:V; [|right; intros [?|[?|(g & X & Y)]]; try congruence; unfold v_folder in Y; congruence].
  destruct (N.eq_dec m FMT_Association) as [->|K]; [left; right; right; exists f; auto|right; intros [?|[?|(g & X & Y)]]; try congruence; unfold v_folder in Y; congruence].
Qed.
(** what a selection ends with: [report] or [refuse], the storage being as it was *)
Lemma select_run C fuel rest n w0 formats l base w st fmt folder report refuse d code ps : supply_ok C -> reachable C w -> st = Responder.ALL \/ st = STORAGE -> fmt < 65536 -> fmt = 0 \/ In fmt formats -> fmt <> FMT_Undefined \/ folder = 0 ->
  carries C fuel rest n w0 l base w (ROps.select formats st fmt folder report refuse) d code ps ->
  exists l2 base2, l2 ++ base2 = l ++ base /\
  ((listable w folder /\ exists hs a, NoDup hs /\ (forall h, In h hs <-> chosen w fmt folder h) /\ Responder.a_code a = R_OK /\ Responder.a_nums a = hs /\ carries C fuel rest n w0 l2 base2 w (report a) d code ps) \/
   (~ listable w folder /\ look w folder <> None /\ exists a, Responder.a_code a = R_InvalidParentObject /\ carries C fuel rest n w0 l2 base2 w (report a) d code ps) \/
   (~ listable w folder /\ look w folder = None /\ carries C fuel rest n w0 l2 base2 w (refuse R_InvalidObjectHandle) d code ps)).
Proof.
  intros SO R ST F1 F2 HF K. unfold ROps.select in K. cbv zeta in K. rewrite (N.mod_small fmt 65536 F1) in K.
  assert (FM : (fmt =? 0) || existsb (N.eqb fmt) formats = true).
  { destruct F2 as [->|I]; [reflexivity|]. apply orb_true_iff. right. apply existsb_exists. exists fmt. split; [exact I|apply N.eqb_refl]. }
  rewrite FM in K. clear FM F2.
  set (wf := if (folder =? 0) || (folder =? 4294967295) then _ else _) in K.
  assert (K2 : exists l1 base1, l1 ++ base1 = l ++ base /\ carries C fuel rest n w0 l1 base1 w wf d code ps).
  { destruct ST as [->| ->]; [exists l, base; split; [reflexivity|exact K]|]. change (STORAGE =? 4294967295) with false in K. cbv iota in K.
    destruct (play_ask C fuel rest n w0 l base w _ _ d code ps _ _ _ K eq_refl eq_refl eq_refl) as (l1 & b1 & z & E1 & K1). exists l1, b1. split; [exact E1|exact K1]. }
  destruct K2 as (l1 & base1 & <- & K2). clear K.
  set (them := ROps.Ask (Responder.SGetHandles st fmt folder) report) in *.
  assert (FIN : forall l3 b3, carries C fuel rest n w0 l3 b3 w them d code ps -> exists l4 b4 a, l4 ++ b4 = l3 ++ b3 /\ carries C fuel rest n w0 l4 b4 w (report a) d code ps /\
     exists hs c, get_object_handles fmt folder w = Ret ((c, hs), w) /\ Responder.a_code a = c /\ Responder.a_nums a = hs).
  { intros l3 b3 K3. destruct (handles_of C w fmt folder SO R HF) as (c & hs & E & _).
    assert (EM : forall m, storage C fuel (Responder.SGetHandles st fmt folder) = Some m -> m w = Ret (reply c hs [] no_info, w)).
    { cbn [storage]. intros m [= <-]. replace ((st =? Responder.ALL) || (st =? STORAGE)) with true by (destruct ST as [->| ->]; reflexivity). unfold tell. rewrite E. reflexivity. }
    destruct (play_ask C fuel rest n w0 l3 b3 w _ _ d code ps _ _ _ K3 eq_refl eq_refl (EM _ eq_refl)) as (l4 & b4 & z & E4 & K4). exists l4, b4. eexists. split; [exact E4|]. split; [exact K4|]. exists hs, c. auto. }
  destruct (handles_of C w fmt folder SO R HF) as (c & hs & E & ND & HL & HN).
  assert (CASES : forall l3 b3, l3 ++ b3 = l1 ++ base1 -> (listable w folder \/ look w folder <> None) -> carries C fuel rest n w0 l3 b3 w them d code ps -> exists l2 base2, l2 ++ base2 = l1 ++ base1 /\
  ((listable w folder /\ exists hs a, NoDup hs /\ (forall h, In h hs <-> chosen w fmt folder h) /\ Responder.a_code a = R_OK /\ Responder.a_nums a = hs /\ carries C fuel rest n w0 l2 base2 w (report a) d code ps) \/
   (~ listable w folder /\ look w folder <> None /\ exists a, Responder.a_code a = R_InvalidParentObject /\ carries C fuel rest n w0 l2 base2 w (report a) d code ps) \/
   (~ listable w folder /\ look w folder = None /\ carries C fuel rest n w0 l2 base2 w (refuse R_InvalidObjectHandle) d code ps))).
  { intros l3 b3 E3 OR K3. destruct (FIN l3 b3 K3) as (l4 & b4 & a & E4 & K4 & hs' & c' & E' & A1 & A2). rewrite E in E'. injection E' as <- <-. exists l4, b4. split; [congruence|].
    destruct (listable_dec C w folder SO R) as [Y|Y]; [left; split; [exact Y|]|right; left; split; [exact Y|]; split; [tauto|]; exists a; split; [rewrite A1; exact (HN Y)|exact K4]].
    destruct (HL Y) as [-> Z]. exists hs, a. auto. }
  destruct ((folder =? 0) || (folder =? 4294967295)) eqn:FO; subst wf.
  - apply (CASES l1 base1 eq_refl); [|exact K2]. left. apply orb_true_iff in FO as [FO|FO]; apply N.eqb_eq in FO; [left; exact FO|right; left; exact FO].
  - destruct (play_ask C fuel rest n w0 l1 base1 w _ _ d code ps _ _ _ K2 eq_refl eq_refl eq_refl) as (l3 & b3 & z & E3 & K3). cbn [with_async Device.code reply Responder.a_code] in K3.
    pose proof (known_look C SO w folder R) as KL. destruct (ahas folder (s_handles w)) eqn:AH.
    + apply (CASES l3 b3 E3); [right; apply KL; reflexivity|exact K3].
    + assert (LN : look w folder = None) by (destruct (look w folder); [exfalso; assert (false = true) by (apply KL; discriminate); discriminate|reflexivity]).
      exists l3, b3. split; [exact E3|]. right; right. split; [|split; [exact LN|exact K3]].
      intros [Z|[Z|(f & Z & _)]]; [subst folder; discriminate FO|rewrite Z in FO; discriminate FO|congruence].
Qed.

(** GetObjectHandles: exactly the objects meant, each once, in increasing order *)
Theorem C85_get_object_handles : forall C fuel rest formats cat props_by_type prop_desc s w tid st fmt folder,
  at_work C rest s w -> tables_ok props_by_type prop_desc -> st = Responder.ALL \/ st = STORAGE -> fmt < 65536 -> fmt = 0 \/ In fmt formats -> fmt <> FMT_Undefined \/ folder = 0 ->
  command_ok OP_GetObjectHandles tid [st; fmt; folder] -> tid <> 0 -> tid <> 0xFFFFFFFF ->
  exists s' l, Responder.run (device C fuel rest (length (r_log s)) w) formats cat props_by_type prop_desc [command OP_GetObjectHandles tid [st; fmt; folder]] s = Ret (tt, s') /\
    r_st s' = Responder.IDLE /\ r_session s' = r_session s /\ r_log s' = l ++ r_log s /\ storage_kept C fuel s s' w /\
    (listable w folder -> responses l = [resp_out R_OK tid []] /\ exists hs, datas l = [inl (Responder.mk_out TYPE_DATA OP_GetObjectHandles tid (Responder.PItems [ids32 hs]))] /\
       NoDup hs /\ Sorted N.le hs /\ forall h, In h hs <-> chosen w fmt folder h) /\
    (~ listable w folder -> datas l = [] /\ responses l = [resp_out (no_such w folder) tid []]).
Proof.
  intros C fuel rest formats cat pt pd s w tid st fmt folder AW TO ST F1 F2 HF CO T1 T2. pose proof AW as [SO R Q T RD ID SE].
  destruct (device_request C fuel rest formats cat pt pd s w OP_GetObjectHandles tid [st; fmt; folder] _ AW TO CO T1 T2 eq_refl) as (s' & l & d & c & params & E & L & I & S & DT & RS & K). cbn [nth RLogic.pars app] in K.
  exists s', l. split; [exact E|]. split; [exact I|]. split; [exact S|]. split; [exact L|].
  destruct (select_run C fuel rest _ w formats l (r_log s) w st fmt folder _ _ d c params SO R ST F1 F2 HF K) as (l2 & b2 & E2 & CA). rewrite <- E2 in L.
  assert (KEPT : state_after C fuel (length (r_log s)) w (l2 ++ b2) = Ret w -> storage_kept C fuel s s' w).
  { intros X. exists w. rewrite L. split; [exact X|]. split; [exact R|]. auto. }
  destruct CA as [(LI & hs & a & ND & HS & A1 & A2 & K2)|[(NL & LS & a & A1 & K2)|(NL & LS & K2)]].
  - unfold ROps.relay in K2. rewrite A1 in K2. change (ROps.ok R_OK) with true in K2. cbv iota in K2. apply play_end in K2 as (-> & -> & -> & K2). split; [exact (KEPT K2)|]. split; [intros _|contradiction].
    split; [exact RS|]. exists (Responder.isort hs). rewrite A2 in DT. split; [exact DT|]. pose proof (ROps.isort_perm hs) as P. split; [exact (Permutation_NoDup P ND)|]. split; [apply ROps.isort_sorted|].
    intros h. rewrite <- HS. split; apply Permutation_in; [apply Permutation_sym; exact P|exact P].
  - unfold ROps.relay in K2. rewrite A1 in K2. change (ROps.ok R_InvalidParentObject) with false in K2. cbv iota in K2. apply play_end in K2 as (-> & -> & -> & K2). split; [exact (KEPT K2)|]. split; [contradiction|intros _].
    split; [exact DT|]. unfold no_such. destruct (look w folder); [exact RS|congruence].
  - apply play_end in K2 as (-> & -> & -> & K2). split; [exact (KEPT K2)|]. split; [contradiction|intros _].
    split; [exact DT|]. unfold no_such. rewrite LS. exact RS.
Qed.
(** GetNumObjects: their number *)
Theorem C85_get_num_objects : forall C fuel rest formats cat props_by_type prop_desc s w tid st fmt folder,
  at_work C rest s w -> tables_ok props_by_type prop_desc -> st = Responder.ALL \/ st = STORAGE -> fmt < 65536 -> fmt = 0 \/ In fmt formats -> fmt <> FMT_Undefined \/ folder = 0 ->
  command_ok OP_GetNumObjects tid [st; fmt; folder] -> tid <> 0 -> tid <> 0xFFFFFFFF ->
  exists s' l, Responder.run (device C fuel rest (length (r_log s)) w) formats cat props_by_type prop_desc [command OP_GetNumObjects tid [st; fmt; folder]] s = Ret (tt, s') /\
    r_st s' = Responder.IDLE /\ r_session s' = r_session s /\ r_log s' = l ++ r_log s /\ storage_kept C fuel s s' w /\ datas l = [] /\
    (listable w folder -> exists hs, NoDup hs /\ (forall h, In h hs <-> chosen w fmt folder h) /\ responses l = [resp_out R_OK tid [len hs mod 2^32]]) /\
    (~ listable w folder -> exists k, responses l = [resp_out (no_such w folder) tid [k]]).
Proof.
  intros C fuel rest formats cat pt pd s w tid st fmt folder AW TO ST F1 F2 HF CO T1 T2. pose proof AW as [SO R Q T RD ID SE].
  destruct (device_request C fuel rest formats cat pt pd s w OP_GetNumObjects tid [st; fmt; folder] _ AW TO CO T1 T2 eq_refl) as (s' & l & d & c & params & E & L & I & S & DT & RS & K). cbn [nth RLogic.pars app] in K.
  exists s', l. split; [exact E|]. split; [exact I|]. split; [exact S|]. split; [exact L|].
  destruct (select_run C fuel rest _ w formats l (r_log s) w st fmt folder _ _ d c params SO R ST F1 F2 HF K) as (l2 & b2 & E2 & CA). rewrite <- E2 in L.
  assert (KEPT : state_after C fuel (length (r_log s)) w (l2 ++ b2) = Ret w -> storage_kept C fuel s s' w).
  { intros X. exists w. rewrite L. split; [exact X|]. split; [exact R|]. auto. }
  destruct CA as [(LI & hs & a & ND & HS & A1 & A2 & K2)|[(NL & LS & a & A1 & K2)|(NL & LS & K2)]]; apply play_end in K2 as (-> & -> & -> & K2); (split; [exact (KEPT K2)|]); (split; [exact DT|]).
  - split; [intros _|contradiction]. exists hs. split; [exact ND|]. split; [exact HS|]. rewrite A1, A2 in RS. exact RS.
  - split; [contradiction|intros _]. unfold no_such. destruct (look w folder); [|congruence]. rewrite A1 in RS. eexists. exact RS.
  - split; [contradiction|intros _]. unfold no_such. rewrite LS. eexists. exact RS.
Qed.
(** GetObjectInfo: the object's dataset *)
Theorem C85_get_object_info : forall C fuel rest formats cat props_by_type prop_desc s w tid h,
  at_work C rest s w -> tables_ok props_by_type prop_desc -> command_ok OP_GetObjectInfo tid [h] -> tid <> 0 -> tid <> 0xFFFFFFFF ->
  exists s' l, Responder.run (device C fuel rest (length (r_log s)) w) formats cat props_by_type prop_desc [command OP_GetObjectInfo tid [h]] s = Ret (tt, s') /\
    r_st s' = Responder.IDLE /\ r_session s' = r_session s /\ r_log s' = l ++ r_log s /\ storage_kept C fuel s s' w /\
    match look w h with
    | Some v => exists o, v_info v = Some o /\ datas l = [inl (Responder.mk_out TYPE_DATA OP_GetObjectInfo tid (Responder.PItems [WireSpec.IObj o]))] /\ responses l = [resp_out R_OK tid []]
    | None => datas l = [] /\ responses l = [resp_out R_InvalidObjectHandle tid []]
    end.
Proof.
  intros C fuel rest formats cat pt pd s w tid h AW TO CO T1 T2. pose proof AW as [SO R Q T RD ID SE].
  destruct (device_request C fuel rest formats cat pt pd s w OP_GetObjectInfo tid [h] _ AW TO CO T1 T2 eq_refl) as (s' & l & d & c & params & E & L & I & S & DT & RS & K). cbn [nth RLogic.pars app] in K.
  exists s', l. split; [exact E|]. split; [exact I|]. split; [exact S|]. split; [exact L|].
  pose proof (known_look C SO w h R) as KL. destruct (look w h) as [v|] eqn:LK.
  - destruct (info_unchanged C SO w h v R LK) as (o & w' & EI & VI & U1 & U2 & U3 & _).
    assert (EM : forall m, storage C fuel (Responder.SGetInfo h) = Some m -> m w = Ret (reply R_OK [] [] o, w')).
    { cbn [storage]. intros m [= <-]. unfold owned. rewrite (proj2 KL) by discriminate. unfold tell. rewrite EI. reflexivity. }
    destruct (play_ask C fuel rest _ w l _ w _ _ d c params _ _ _ K eq_refl eq_refl (EM _ eq_refl)) as (l1 & b1 & z & E1 & K1). apply play_end in K1 as (-> & -> & -> & K1).
    split; [exists w'; rewrite L, <- E1; auto|]. exists o. auto.
  - assert (EM : forall m, storage C fuel (Responder.SGetInfo h) = Some m -> m w = Ret (code R_InvalidObjectHandle, w)).
    { cbn [storage]. intros m [= <-]. unfold owned. destruct (ahas h (s_handles w)); [exfalso; apply (proj1 KL); reflexivity|reflexivity]. }
    destruct (play_ask C fuel rest _ w l _ w _ _ d c params _ _ _ K eq_refl eq_refl (EM _ eq_refl)) as (l1 & b1 & z & E1 & K1). apply play_end in K1 as (-> & -> & -> & K1).
    split; [exists w; rewrite L, <- E1; auto|]. auto.
Qed.

(** ** C86 *)
Lemma root_look_some C w : supply_ok C -> reachable C w -> exists v, look w 0 = Some v.
Proof. intros SO R. destruct (reachable_good C w SO R) as (r & [[ch W] _]). destruct (root_look C w ch r W) as (ri & _ & _ & A & _). eauto. Qed.
(** DeleteObject; [delete_item .. = Ret ..] and the like below only say that the storage
    model's recursion bound suffices, and name the storage's answer *)
Theorem C86_delete_object : forall C fuel rest formats cat props_by_type prop_desc s w tid h fmt c w',
  at_work C rest s w -> tables_ok props_by_type prop_desc -> command_ok OP_DeleteObject tid [h; fmt] -> tid <> 0 -> tid <> 0xFFFFFFFF -> h <> Responder.ALL ->
  delete_item C fuel [] h 0 w = Ret (c, w') ->
  exists s' l, Responder.run (device C fuel rest (length (r_log s)) w) formats cat props_by_type prop_desc [command OP_DeleteObject tid [h; fmt]] s = Ret (tt, s') /\
    r_st s' = Responder.IDLE /\ r_session s' = r_session s /\ r_log s' = l ++ r_log s /\ datas l = [] /\
    state_after C fuel (length (r_log s)) w (r_log s') = Ret w' /\ reachable C w' /\
    responses l = [resp_out (match look w h with Some _ => c | None => R_GeneralError end) tid []] /\
    (* everything outside the object is as before *)
    (forall x v, look w x = Some v -> ~ inside w h x -> look w' x = Some v) /\ (forall x v, look w' x = Some v -> look w x = Some v) /\
    (forall y, content w' y = content w y \/ exists v, look w h = Some v /\ at_or_below (v_path v) y /\ content w' y = None) /\
    (* success: everything in the object is gone, object and file; and itself, unless it was a folder with objects in it *)
    (c = R_OK -> forall x v, inside w h x -> x <> h \/ (forall y u, look w y = Some u -> v_parent u <> Some h) -> look w x = Some v -> look w' x = None /\ content w' (v_path v) = None) /\
    (* the root cannot be deleted *)
    (h = 0 -> c <> R_OK /\ w' = w).
Proof.
  intros C fuel rest formats cat pt pd s w tid h fmt c w' AW TO CO T1 T2 NA ED. pose proof AW as [SO R Q T RD ID SE].
  destruct (device_request C fuel rest formats cat pt pd s w OP_DeleteObject tid [h; fmt] _ AW TO CO T1 T2 eq_refl) as (s' & l & d & c0 & params & E & L & I & S & DT & RS & K). cbn [nth RLogic.pars app] in K.
  exists s', l. split; [exact E|]. split; [exact I|]. split; [exact S|]. split; [exact L|].
  destruct (C45_deletion_partial C w fuel h c w' SO R NA ED) as (D1 & D2 & D3 & D4 & D5 & D6 & D7 & D8).
  pose proof (known_look C SO w h R) as KL.
  assert (EM : forall m, storage C fuel (Responder.SDelete h (fmt mod 65536)) = Some m -> m w = Ret (code (match look w h with Some _ => c | None => R_GeneralError end), w')).
  { cbn [storage]. intros m [= <-]. rewrite (proj2 (N.eqb_neq h Responder.ALL) NA). cbn [orb]. destruct (ahas h (s_handles w)).
    - destruct (look w h) as [v|]; [|exfalso; apply (proj1 KL); reflexivity]. unfold tell. unfold delete_item in ED |- *. rewrite (proj2 (N.eqb_neq h ALL) NA) in ED |- *. rewrite ED. reflexivity.
    - destruct (look w h) as [v|] eqn:LK; [exfalso; assert (false = true) by (apply KL; discriminate); discriminate|]. destruct (D8 eq_refl) as [_ ->]. reflexivity. }
  destruct (play_ask C fuel rest _ w l _ w _ _ d c0 params _ _ _ K eq_refl eq_refl (EM _ eq_refl)) as (l1 & b1 & z & E1 & K1). apply play_end in K1 as (-> & -> & -> & K1).
  split; [exact DT|]. split; [rewrite L, <- E1; exact K1|]. split; [apply (reach_step C w (ODelete fuel h) w' R NA); cbn [exec]; unfold bind; rewrite ED; reflexivity|]. split; [exact RS|].
  split; [exact D1|]. split; [exact D2|]. split; [exact D3|]. split; [|exact D7].
  intros OK x v IN H LX. destruct (D4 OK) as (_ & _ & D4'). destruct (N.eq_dec x h) as [->|NX]; [|exact (D4' x v IN NX LX)].
  destruct H as [H|H]; [congruence|]. exact (D5 OK H v LX).
Qed.
(** MoveObject; the name may not be taken by a known object whose file has vanished *)
Theorem C86_move_object : forall C fuel rest formats cat props_by_type prop_desc s w tid h q c w',
  at_work C rest s w -> tables_ok props_by_type prop_desc -> command_ok OP_MoveObject tid [h; STORAGE; q] -> tid <> 0 -> tid <> 0xFFFFFFFF ->
  op_ok C (OMove fuel h q) w -> move_object C fuel h q true w = Ret (c, w') ->
  exists s' l, Responder.run (device C fuel rest (length (r_log s)) w) formats cat props_by_type prop_desc [command OP_MoveObject tid [h; STORAGE; q]] s = Ret (tt, s') /\
    r_st s' = Responder.IDLE /\ r_session s' = r_session s /\ r_log s' = l ++ r_log s /\ datas l = [] /\
    match look w h, look w q with
    | None, _ => storage_kept C fuel s s' w /\ responses l = [resp_out R_InvalidObjectHandle tid []]
    | Some _, None => storage_kept C fuel s s' w /\ responses l = [resp_out R_InvalidParentObject tid []]
    | Some v, Some f => responses l = [resp_out c tid []] /\
        (c = R_OK -> h <> 0 /\ state_after C fuel (length (r_log s)) w (r_log s') = Ret w' /\ reachable C w' /\
           exists n, v_name v = Some n /\ moved_to w h (v_path v) (join (v_path f) n) q n w') /\
        (c <> R_OK -> storage_kept C fuel s s' w)
    end.
Proof.
  intros C fuel rest formats cat pt pd s w tid h q c w' AW TO CO T1 T2 OO EM. pose proof AW as [SO R Q T RD ID SE].
  destruct (device_request C fuel rest formats cat pt pd s w OP_MoveObject tid [h; STORAGE; q] _ AW TO CO T1 T2 eq_refl) as (s' & l & d & c0 & params & E & L & I & S & DT & RS & K). cbn [nth RLogic.pars app] in K.
  exists s', l. split; [exact E|]. split; [exact I|]. split; [exact S|]. split; [exact L|].
  assert (KEPT : state_after C fuel (length (r_log s)) w (l ++ r_log s) = Ret w -> storage_kept C fuel s s' w). { intros X. exists w. rewrite L. auto. }
  pose proof (known_look C SO w h R) as KL. pose proof (known_look C SO w q R) as KQ. destruct (root_look_some C w SO R) as (v0 & RL).
  unfold ROps.provided in K. destruct (play_ask C fuel rest _ w l _ w _ _ d c0 params _ _ _ K eq_refl eq_refl eq_refl) as (l1 & b1 & z1 & E1 & K1). cbn [with_async code reply Responder.a_code] in K1.
  destruct (ahas h (s_handles w)) eqn:AH.
  2:{ change (ROps.ok R_InvalidObjectHandle) with false in K1. apply play_end in K1 as (-> & -> & -> & K1). split; [exact DT|]. destruct (look w h); [exfalso; assert (false = true) by (apply KL; discriminate); discriminate|]. rewrite E1 in K1. auto. }
  destruct (look w h) as [v|] eqn:LH; [|exfalso; apply (proj1 KL); reflexivity]. change (ROps.ok R_OK) with true in K1. cbv iota in K1.
  destruct (play_ask C fuel rest _ w l1 b1 w _ _ d c0 params _ _ _ K1 eq_refl eq_refl eq_refl) as (l2 & b2 & z2 & E2 & K2). cbn [with_async code reply Responder.a_code] in K2. change (ROps.ok (if STORAGE =? STORAGE then R_OK else Responder.R_InvalidStorageID)) with true in K2. cbv iota zeta in K2.
  set (mv := ROps.Ask (Responder.SMove h q STORAGE) _) in K2.
  assert (FIN : forall l3 b3, l3 ++ b3 = l ++ r_log s -> carries C fuel rest (length (r_log s)) w l3 b3 w mv d c0 params -> d = None /\ c0 = c /\ params = [] /\ state_after C fuel (length (r_log s)) w (l ++ r_log s) = Ret w').
  { intros l3 b3 E3 K3. assert (EMV : forall m, storage C fuel (Responder.SMove h q STORAGE) = Some m -> m w = Ret (code c, w')).
    { cbn [storage]. intros m [= <-]. change (STORAGE =? STORAGE) with true. cbv iota. unfold owned. rewrite AH. unfold tell. rewrite EM. reflexivity. }
    destruct (play_ask C fuel rest _ w l3 b3 w _ _ d c0 params _ _ _ K3 eq_refl eq_refl (EMV _ eq_refl)) as (l4 & b4 & z4 & E4 & K4). apply play_end in K4 as (-> & -> & -> & K4). rewrite E4, E3 in K4. auto. }
  assert (DONE : forall f, look w q = Some f -> d = None /\ c0 = c /\ params = [] /\ state_after C fuel (length (r_log s)) w (l ++ r_log s) = Ret w' -> datas l = [] /\ (responses l = [resp_out c tid []] /\
      (c = R_OK -> h <> 0 /\ state_after C fuel (length (r_log s)) w (r_log s') = Ret w' /\ reachable C w' /\ exists n, v_name v = Some n /\ moved_to w h (v_path v) (join (v_path f) n) q n w') /\ (c <> R_OK -> storage_kept C fuel s s' w))).
  { intros f LQ (-> & -> & -> & K3). split; [exact DT|]. split; [exact RS|].
    destruct (C46_move_partial C w fuel h q c w' SO R OO EM) as [M1 M2].
    assert (R' : reachable C w'). { apply (reach_step C w (OMove fuel h q) w' R OO). cbn [exec]. unfold bind. rewrite EM. reflexivity. }
    split.
    - intros OK. destruct (M1 OK) as (v' & f' & n & A & B & D & N0 & MT). rewrite LH in A. injection A as <-. rewrite LQ in B. injection B as <-. split; [exact N0|]. rewrite L. split; [exact K3|]. split; [exact R'|]. eauto.
    - intros NK. destruct (M2 NK) as [A B]. exists w'. rewrite L. auto. }
  destruct (q =? 0) eqn:Q0.
  - apply N.eqb_eq in Q0. subst q. rewrite RL. apply DONE; [exact RL|]. apply (FIN l2 b2); [congruence|exact K2].
  - destruct (play_ask C fuel rest _ w l2 b2 w _ _ d c0 params _ _ _ K2 eq_refl eq_refl eq_refl) as (l3 & b3 & z3 & E3 & K3). cbn [with_async code reply Responder.a_code] in K3.
    destruct (ahas q (s_handles w)) eqn:AQ.
    + destruct (look w q) as [f|] eqn:LQ; [|exfalso; apply (proj1 KQ); reflexivity]. apply (DONE f eq_refl). apply (FIN l3 b3); [congruence|exact K3].
    + destruct (look w q) as [f|] eqn:LQ; [exfalso; assert (false = true) by (apply KQ; discriminate); discriminate|]. change (ROps.ok R_InvalidObjectHandle) with false in K3. apply play_end in K3 as (-> & -> & -> & K3).
      split; [exact DT|]. split; [apply KEPT; congruence|exact RS].
Qed.
(** CopyObject; a copy that did not fit (R_StoreFull) is cleaned up: C86_copy_full *)
Theorem C86_copy_object : forall C fuel rest formats cat props_by_type prop_desc s w tid h q c hc w',
  at_work C rest s w -> tables_ok props_by_type prop_desc -> command_ok OP_CopyObject tid [h; STORAGE; q] -> tid <> 0 -> tid <> 0xFFFFFFFF -> h <> 0 ->
  copy_object C fuel h q true w = Ret ((c, hc), w') -> c <> R_StoreFull ->
  exists s' l, Responder.run (device C fuel rest (length (r_log s)) w) formats cat props_by_type prop_desc [command OP_CopyObject tid [h; STORAGE; q]] s = Ret (tt, s') /\
    r_st s' = Responder.IDLE /\ r_session s' = r_session s /\ r_log s' = l ++ r_log s /\ datas l = [] /\
    match look w h, look w q with
    | None, _ => storage_kept C fuel s s' w /\ responses l = [resp_out R_InvalidObjectHandle tid [0]]
    | Some _, None => storage_kept C fuel s s' w /\ responses l = [resp_out R_InvalidParentObject tid [0]]
    | Some v, Some f => responses l = [resp_out c tid [hc]] /\ state_after C fuel (length (r_log s)) w (r_log s') = Ret w' /\ reachable C w' /\
        (forall n, v_name v = Some n -> let new := join (v_path f) n in
          (* nothing but the destination is affected *)
          (forall x u, look w x = Some u -> ~ at_or_below new (v_path u) -> look w' x = Some u) /\
          (forall y, ~ at_or_below new y -> content w' y = content w y \/ content w y = None /\ content w' y = Some Dir /\ at_or_below y new) /\
          (c = R_OK ->
             (forall x u, look w x = Some u -> look w' x = Some u) /\
             (exists u, look w' hc = Some u /\ v_path u = new /\ v_parent u = Some q) /\
             (* every object in the source has a counterpart with the same content *)
             (vacant w new -> ~ inside w h q -> only_folders_contain w ->
                forall x xv, look w x = Some xv -> inside w h x -> exists y yv xo yo, look w y = None /\ look w' y = Some yv /\ relocated (v_path v) new (v_path xv) (v_path yv) /\
                  v_info xv = Some xo /\ v_info yv = Some yo /\ oi_name yo = oi_name xo /\ oi_format yo = oi_format xo /\ oi_size yo = oi_size xo /\
                  (works C -> oi_format xo <> FMT_Association -> forall d, content w (v_path xv) = Some (File d) -> oi_size xo = len d -> len d < 2^32 -> content w' (v_path yv) = Some (File d)))))
    end.
Proof.
  intros C fuel rest formats cat pt pd s w tid h q c hc w' AW TO CO T1 T2 H0 EC NSF. pose proof AW as [SO R Q T RD ID SE].
  destruct (device_request C fuel rest formats cat pt pd s w OP_CopyObject tid [h; STORAGE; q] _ AW TO CO T1 T2 eq_refl) as (s' & l & d & c0 & params & E & L & I & S & DT & RS & K). cbn [nth RLogic.pars app] in K.
  exists s', l. split; [exact E|]. split; [exact I|]. split; [exact S|]. split; [exact L|].
  assert (KEPT : state_after C fuel (length (r_log s)) w (l ++ r_log s) = Ret w -> storage_kept C fuel s s' w). { intros X. exists w. rewrite L. auto. }
  pose proof (known_look C SO w h R) as KL. pose proof (known_look C SO w q R) as KQ. destruct (root_look_some C w SO R) as (v0 & RL).
  cbv zeta in K. destruct (play_ask C fuel rest _ w l _ w _ _ d c0 params _ _ _ K eq_refl eq_refl eq_refl) as (l1 & b1 & z1 & E1 & K1). cbn [with_async code reply Responder.a_code] in K1.
  destruct (ahas h (s_handles w)) eqn:AH.
  2:{ change (ROps.ok R_InvalidObjectHandle) with false in K1. apply play_end in K1 as (-> & -> & -> & K1). split; [exact DT|]. destruct (look w h); [exfalso; assert (false = true) by (apply KL; discriminate); discriminate|]. rewrite E1 in K1. auto. }
  destruct (look w h) as [v|] eqn:LH; [|exfalso; apply (proj1 KL); reflexivity]. change (ROps.ok R_OK) with true in K1. cbv iota in K1.
  destruct (play_ask C fuel rest _ w l1 b1 w _ _ d c0 params _ _ _ K1 eq_refl eq_refl eq_refl) as (l2 & b2 & z2 & E2 & K2). cbn [with_async code reply Responder.a_code] in K2. change (ROps.ok (if STORAGE =? STORAGE then R_OK else Responder.R_InvalidStorageID)) with true in K2. cbv iota zeta in K2.
  set (cp := ROps.Ask (Responder.SCopy h q STORAGE) _) in K2.
  assert (FIN : forall l3 b3, l3 ++ b3 = l ++ r_log s -> carries C fuel rest (length (r_log s)) w l3 b3 w cp d c0 params -> d = None /\ c0 = c /\ params = [hc] /\ state_after C fuel (length (r_log s)) w (l ++ r_log s) = Ret w').
  { intros l3 b3 E3 K3. assert (EMV : forall m, storage C fuel (Responder.SCopy h q STORAGE) = Some m -> m w = Ret (reply c [hc] [] no_info, w')).
    { cbn [storage]. intros m [= <-]. change (STORAGE =? STORAGE) with true. cbv iota. unfold owned. rewrite AH. unfold tell, copy_or_clean, bind at 1. rewrite EC. unfold bind, has_handle, get, ret. cbn [fst snd]. rewrite (proj2 (N.eqb_neq c R_StoreFull) NSF). reflexivity. }
    destruct (play_ask C fuel rest _ w l3 b3 w _ _ d c0 params _ _ _ K3 eq_refl eq_refl (EMV _ eq_refl)) as (l4 & b4 & z4 & E4 & K4). apply play_end in K4 as (-> & -> & -> & K4). rewrite E4, E3 in K4. auto. }
  assert (R' : reachable C w'). { apply (reach_step C w (OCopy fuel h q) w' R H0). cbn [exec]. unfold bind. rewrite EC. reflexivity. }
  destruct (C47_outside C w fuel h q c hc w' SO R H0 EC) as [_ OUT].
  match goal with |- _ /\ ?G => assert (DONE : forall f, look w q = Some f -> d = None /\ c0 = c /\ params = [hc] /\ state_after C fuel (length (r_log s)) w (l ++ r_log s) = Ret w' -> datas l = [] /\ G) end.
  { intros f LQ (-> & -> & -> & K3). split; [exact DT|]. rewrite LQ. split; [exact RS|]. rewrite L. split; [exact K3|]. split; [exact R'|].
    intros n VN. cbv zeta. destruct (OUT v f n LH LQ VN) as [O1 O2]. split; [exact O1|]. split; [exact O2|]. intros OK.
    destruct (C47_copy_partial C w fuel h q c hc w' SO R H0 EC OK) as (v' & f' & n' & A & B & D & F1 & _ & F3 & F4 & _). rewrite LH in A. injection A as <-. rewrite LQ in B. injection B as <-. rewrite VN in D. injection D as <-.
    split; [exact F1|]. split; [exact F3|]. exact F4. }
  destruct (q =? 0) eqn:Q0.
  - apply N.eqb_eq in Q0. subst q. apply (DONE v0 RL). apply (FIN l2 b2); [congruence|exact K2].
  - destruct (play_ask C fuel rest _ w l2 b2 w _ _ d c0 params _ _ _ K2 eq_refl eq_refl eq_refl) as (l3 & b3 & z3 & E3 & K3). cbn [with_async code reply Responder.a_code] in K3.
    destruct (ahas q (s_handles w)) eqn:AQ.
    + destruct (look w q) as [f|] eqn:LQ; [|exfalso; apply (proj1 KQ); reflexivity]. apply (DONE f eq_refl). apply (FIN l3 b3); [congruence|exact K3].
    + clear DONE. destruct (look w q) as [f|] eqn:LQ; [exfalso; assert (false = true) by (apply KQ; discriminate); discriminate|]. change (ROps.ok R_InvalidObjectHandle) with false in K3. apply play_end in K3 as (-> & -> & -> & K3).
      split; [exact DT|]. split; [apply KEPT; congruence|exact RS].
Qed.

(** CopyObject of something that does not fit: what was copied so far is deleted again.
    [hc] names the incomplete copy (0: none), [w1] is the storage before the cleaning and
    [dc] the outcome of the deletion. *)
Theorem C86_copy_full : forall C fuel rest formats cat props_by_type prop_desc s w tid h q hc w1 dc w',
  at_work C rest s w -> tables_ok props_by_type prop_desc -> command_ok OP_CopyObject tid [h; STORAGE; q] -> tid <> 0 -> tid <> 0xFFFFFFFF -> h <> 0 ->
  copy_object C fuel h q true w = Ret ((R_StoreFull, hc), w1) ->
  match look w1 hc with Some _ => delete_item C fuel [] hc 0 w1 = Ret (dc, w') | None => w' = w1 end ->
  exists s' l, Responder.run (device C fuel rest (length (r_log s)) w) formats cat props_by_type prop_desc [command OP_CopyObject tid [h; STORAGE; q]] s = Ret (tt, s') /\
    r_st s' = Responder.IDLE /\ r_session s' = r_session s /\ r_log s' = l ++ r_log s /\ datas l = [] /\
    exists v f, look w h = Some v /\ look w q = Some f /\
    responses l = [resp_out R_StoreFull tid [hc]] /\ state_after C fuel (length (r_log s)) w (r_log s') = Ret w' /\ reachable C w' /\
    forall n, v_name v = Some n -> let new := join (v_path f) n in
      (* nothing but the destination is affected *)
      (forall x u, look w x = Some u -> ~ at_or_below new (v_path u) -> look w' x = Some u) /\
      (forall y, ~ at_or_below new y -> content w' y = content w y \/ content w y = None /\ content w' y = Some Dir /\ at_or_below y new) /\
      (* nothing is deleted but the copy, which is at the destination *)
      (hc = 0 -> w' = w1) /\ (forall u, look w1 hc = Some u -> hc = 0 \/ at_or_below new (v_path u)) /\
      (* and if the deletion succeeds the copy is gone, objects and files: all that is in it, and itself unless objects were in it *)
      (look w1 hc <> None -> dc = R_OK -> forall x u, inside w1 hc x -> x <> hc \/ (forall y z, look w1 y = Some z -> v_parent z <> Some hc) -> look w1 x = Some u ->
         look w' x = None /\ content w' (v_path u) = None) /\
      (* whatever was there before is still there, with its files (the target is a folder, or a file is copied) *)
      (q = 0 \/ v_folder f \/ ~ v_folder v ->
         (forall x u, look w x = Some u -> look w' x = Some u) /\
         (forall x u d, look w x = Some u -> content w (v_path u) = Some (File d) -> content w' (v_path u) = Some (File d))).
Proof.
  intros C fuel rest formats cat pt pd s w tid h q hc w1 dc w' AW TO CO T1 T2 H0 EC ED. pose proof AW as [SO R Q T RD ID SE].
  destruct (device_request C fuel rest formats cat pt pd s w OP_CopyObject tid [h; STORAGE; q] _ AW TO CO T1 T2 eq_refl) as (s' & l & d & c0 & params & E & L & I & S & DT & RS & K). cbn [nth RLogic.pars app] in K.
  exists s', l. split; [exact E|]. split; [exact I|]. split; [exact S|]. split; [exact L|].
  pose proof (known_look C SO w h R) as KL. pose proof (known_look C SO w q R) as KQ. destruct (root_look_some C w SO R) as (v0 & RL).
  destruct (C47_outside C w fuel h q R_StoreFull hc w1 SO R H0 EC) as [EARLY OUT]. destruct (C47_handle C w fuel h q R_StoreFull hc w1 SO R H0 EC) as [HEARLY HOUT].
  assert (R1 : reachable C w1). { apply (reach_step C w (OCopy fuel h q) w1 R H0). cbn [exec]. unfold bind. rewrite EC. reflexivity. }
  pose proof (known_look C SO w1 hc R1) as KC.
  assert (NALL : look w1 hc <> None -> hc <> ALL). { intros LK. destruct (look w1 hc) as [u|] eqn:LU; [|contradiction]. destruct (reachable_good C w1 SO R1) as (r & [[ch W] _]). destruct (look_inv C w1 ch r W hc u LU) as (p & i & P1 & P2 & P3 & _). rewrite <- P3. apply (wf_notall _ SO _ _ _ _ W p i P2). }
  assert (CLEAN : copy_or_clean C fuel h q w = Ret ((R_StoreFull, hc), w') /\ reachable C w' /\ (hc = 0 -> w' = w1)).
  { unfold copy_or_clean. unfold bind at 1. rewrite EC. unfold bind, has_handle, get, ret. cbn [fst snd]. change (R_StoreFull =? R_StoreFull) with true. cbn [andb].
    destruct (ahas hc (s_handles w1)) eqn:AC.
    - destruct (look w1 hc) as [u|] eqn:LU; [|exfalso; apply (proj1 KC); reflexivity]. assert (NA : hc <> ALL) by (apply NALL; discriminate).
      split; [|split].
      + unfold delete_item in ED |- *. rewrite (proj2 (N.eqb_neq hc ALL) NA) in ED |- *. rewrite ED. reflexivity.
      + apply (reach_step C w1 (ODelete fuel hc) w' R1 NA). cbn [exec]. unfold bind. rewrite ED. reflexivity.
      + intros Z. exact (proj2 (proj1 (proj2 (proj2 (proj2 (proj2 (proj2 (proj2 (C45_deletion_partial C w1 fuel hc dc w' SO R1 NA ED))))))) Z)).
    - destruct (look w1 hc) as [u|] eqn:LU; [exfalso; assert (false = true) by (apply KC; discriminate); discriminate|]. subst w'. auto. }
  destruct CLEAN as (CLEAN & R' & HC0).
  assert (BOTH : ahas h (s_handles w) = true /\ ahas q (s_handles w) = true).
  { destruct fuel as [|fuel']; [discriminate EC|]. cbn [copy_object] in EC. unfold bind at 1 in EC. unfold has_handle at 1, get at 1 in EC. destruct (ahas h (s_handles w)); cbn [negb] in EC; [|apply Ret_inj in EC; apply (f_equal (fun z => fst (fst z))) in EC; cbn [fst] in EC; discriminate EC].
    unfold bind at 1 in EC. unfold has_handle at 1, get at 1 in EC. destruct (ahas q (s_handles w)); cbn [negb] in EC; [auto|apply Ret_inj in EC; apply (f_equal (fun z => fst (fst z))) in EC; cbn [fst] in EC; discriminate EC]. }
  destruct BOTH as [AH AQ].
  cbv zeta in K. destruct (play_ask C fuel rest _ w l _ w _ _ d c0 params _ _ _ K eq_refl eq_refl eq_refl) as (l1 & b1 & z1 & E1 & K1). cbn [with_async code reply Responder.a_code] in K1.
  rewrite AH in K1.
  destruct (look w h) as [v|] eqn:LH; [|exfalso; apply (proj1 KL); [exact AH|reflexivity]]. change (ROps.ok R_OK) with true in K1. cbv iota in K1.
  destruct (play_ask C fuel rest _ w l1 b1 w _ _ d c0 params _ _ _ K1 eq_refl eq_refl eq_refl) as (l2 & b2 & z2 & E2 & K2). cbn [with_async code reply Responder.a_code] in K2. change (ROps.ok (if STORAGE =? STORAGE then R_OK else Responder.R_InvalidStorageID)) with true in K2. cbv iota zeta in K2.
  set (cp := ROps.Ask (Responder.SCopy h q STORAGE) _) in K2.
  assert (FIN : forall l3 b3, l3 ++ b3 = l ++ r_log s -> carries C fuel rest (length (r_log s)) w l3 b3 w cp d c0 params -> d = None /\ c0 = R_StoreFull /\ params = [hc] /\ state_after C fuel (length (r_log s)) w (l ++ r_log s) = Ret w').
  { intros l3 b3 E3 K3. assert (EMV : forall m, storage C fuel (Responder.SCopy h q STORAGE) = Some m -> m w = Ret (reply R_StoreFull [hc] [] no_info, w')).
    { cbn [storage]. intros m [= <-]. change (STORAGE =? STORAGE) with true. cbv iota. unfold owned. rewrite AH. unfold tell. rewrite CLEAN. reflexivity. }
    destruct (play_ask C fuel rest _ w l3 b3 w _ _ d c0 params _ _ _ K3 eq_refl eq_refl (EMV _ eq_refl)) as (l4 & b4 & z4 & E4 & K4). apply play_end in K4 as (-> & -> & -> & K4). rewrite E4, E3 in K4. auto. }
  match goal with |- _ /\ ?G => assert (DONE : forall f, look w q = Some f -> d = None /\ c0 = R_StoreFull /\ params = [hc] /\ state_after C fuel (length (r_log s)) w (l ++ r_log s) = Ret w' -> datas l = [] /\ G) end.
  { intros f LQ (-> & -> & -> & K3). split; [exact DT|]. exists v, f. split; [reflexivity|]. split; [exact LQ|]. split; [exact RS|]. rewrite L. split; [exact K3|]. split; [exact R'|].
    intros n VN. cbv zeta. destruct (OUT v f n eq_refl LQ VN) as [O1 O2]. pose proof (HOUT v f n eq_refl LQ VN) as HO.
    assert (ABT : forall u, look w1 hc = Some u -> hc = 0 \/ at_or_below (join (v_path f) n) (v_path u)). { intros u LU. destruct HO as [Z|HO]; [auto|right; apply HO; exact LU]. }
    pose proof (C47_no_space C w fuel h q hc w1 v f SO R H0 EC LH LQ) as NS.
    destruct (look w1 hc) as [u0|] eqn:LU.
    2:{ subst w'. split; [exact O1|]. split; [exact O2|]. split; [reflexivity|]. split; [intros u Z; discriminate Z|]. split; [intros Z; exfalso; apply Z; reflexivity|]. intros QF. destruct (NS QF) as (N1 & N2 & _). auto. }
    assert (NA : hc <> ALL) by (apply NALL; discriminate). destruct (C45_deletion_partial C w1 fuel hc dc w' SO R1 NA ED) as (D1 & D2 & D3 & D4 & D5 & D6 & D7 & D8).
    split; [|split; [|split; [exact HC0|split; [exact ABT|split]]]].
    - intros x u LX NB. destruct (N.eq_dec hc 0) as [Z|NZ]; [rewrite (HC0 Z); exact (O1 x u LX NB)|]. apply D1; [exact (O1 x u LX NB)|]. intros IN. apply NB.
      destruct (ABT u0 eq_refl) as [Z|AB]; [contradiction|]. destruct (reachable_good C w1 SO R1) as (r & [[ch W] _]). destruct (look_inv C w1 ch r W hc u0 LU) as (p & i & _ & P2 & P3 & ->). destruct (look_inv C w1 ch r W x u (O1 x u LX NB)) as (px & xi & _ & X2 & X3 & ->).
      rewrite <- X3 in IN. apply (FSView.not_inside C r w1 ch hc p i px xi W P2 P3 X2) in IN. apply FSView.at_or_below_under in AB. apply FSView.at_or_below_under. exact (FSPath.under_trans _ _ _ AB IN).
    - intros y NY. destruct (D3 y) as [Q1|(u & LU' & AB & _)]; [rewrite Q1; exact (O2 y NY)|]. destruct (N.eq_dec hc 0) as [Z|NZ]; [rewrite (HC0 Z); exact (O2 y NY)|].
      exfalso. apply NY. rewrite LU in LU'. injection LU' as <-. destruct (ABT u0 eq_refl) as [Z|AB']; [contradiction|]. apply FSView.at_or_below_under in AB, AB'. apply FSView.at_or_below_under. exact (FSPath.under_trans _ _ _ AB' AB).
    - intros _ OK x u IN H LX. destruct (D4 OK) as (_ & _ & D4'). destruct (N.eq_dec x hc) as [->|NX]; [|exact (D4' x u IN NX LX)]. destruct H as [H|H]; [congruence|]. exact (D5 OK H u LX).
    - intros QF. destruct (NS QF) as (N1 & N2 & N3). destruct N3 as [Z|N3]; [rewrite (HC0 Z); auto|]. pose proof (N3 n VN) as FREE.
      assert (BEL : forall u y, look w1 hc = Some u -> hc <> 0 -> at_or_below (v_path u) y -> at_or_below (join (v_path f) n) y).
      { intros u y LU' NZ AB. rewrite LU in LU'. injection LU' as <-. destruct (ABT u0 eq_refl) as [Z|AB']; [contradiction|]. apply FSView.at_or_below_under in AB, AB'. apply FSView.at_or_below_under. exact (FSPath.under_trans _ _ _ AB' AB). }
      destruct (N.eq_dec hc 0) as [Z|NZ]; [rewrite (HC0 Z); auto|]. split.
      + intros x u LX. apply D1; [exact (N1 x u LX)|]. intros IN. apply (FREE x u LX). apply (BEL u0 (v_path u) LU NZ).
        destruct (reachable_good C w1 SO R1) as (r & [[ch W] _]). destruct (look_inv C w1 ch r W hc u0 LU) as (p & i & _ & P2 & P3 & ->). destruct (look_inv C w1 ch r W x u (N1 x u LX)) as (px & xi & _ & X2 & X3 & ->).
        rewrite <- X3 in IN. apply (FSView.not_inside C r w1 ch hc p i px xi W P2 P3 X2) in IN. apply FSView.at_or_below_under. exact IN.
      + intros x u dd LX CX. destruct (D3 (v_path u)) as [Q1|(u1 & LU' & AB & _)]; [rewrite Q1; exact (N2 x u dd LX CX)|]. exfalso. exact (FREE x u LX (BEL u1 _ LU' NZ AB)). }
  destruct (q =? 0) eqn:Q0.
  - apply N.eqb_eq in Q0. subst q. apply (DONE v0 RL). apply (FIN l2 b2); [congruence|exact K2].
  - destruct (play_ask C fuel rest _ w l2 b2 w _ _ d c0 params _ _ _ K2 eq_refl eq_refl eq_refl) as (l3 & b3 & z3 & E3 & K3). cbn [with_async code reply Responder.a_code] in K3.
    rewrite AQ in K3. destruct (look w q) as [f|] eqn:LQ; [|exfalso; apply (proj1 KQ); [exact AQ|reflexivity]]. apply (DONE f eq_refl). apply (FIN l3 b3); [congruence|exact K3].
Qed.

(** ** Examples *)
(** requests on the demonstration disk: responses, number of data phases, objects then known *)
Definition demo_run (op : N) (ps : list N) : option (list Responder.outc * nat * list N) :=
  match Responder.run (device FSDemo.quiet 10 calm 0 (demo_start FSDemo.quiet)) [] RDemo.cat0 RDemo.props0 RDemo.desc0 [command op 5 ps] RDemo.in_session with
  | Ret (_, s') => match state_after FSDemo.quiet 10 0 (demo_start FSDemo.quiet) (r_log s') with
    | Ret w' => Some (responses (r_log s'), length (datas (r_log s')), akeys (s_handles w'))
    | _ => None end
  | _ => None end.
Example C85_hypotheses : command_ok OP_GetObjectHandles 5 [STORAGE; 0; 7] /\ listable (demo_start FSDemo.quiet) 7 /\ chosen (demo_start FSDemo.quiet) 0 7 12 /\ ~ listable (demo_start FSDemo.quiet) 12.
Proof.
  split. { split; [reflexivity|]. split; [reflexivity|]. split; [discriminate|]. repeat constructor; reflexivity. }
  split. { right; right. eexists. split; vm_compute; reflexivity. }
  split. { eexists. split; [vm_compute; reflexivity|]. split; [left; reflexivity|]. right; right. split; [discriminate|]. split; [discriminate|]. vm_compute. reflexivity. }
  intros [H|[H|(f & H & G)]]; [discriminate H|discriminate H|]. vm_compute in H. injection H as <-. vm_compute in G. discriminate G.
Qed.
Example C85_example : demo_run OP_GetObjectHandles [STORAGE; 0; 7] = Some ([resp_out R_OK 5 []], 1%nat, [0; 7; 12; 16; 21]) /\
  demo_run OP_GetNumObjects [STORAGE; 0; 0] = Some ([resp_out R_OK 5 [4]], 0%nat, [0; 7; 12; 16; 21]) /\ demo_run OP_GetObjectInfo [12] = Some ([resp_out R_OK 5 []], 1%nat, [0; 7; 12; 16; 21]).
Proof. split; [|split]; vm_compute; reflexivity. Qed.
Example C86_example : demo_run OP_DeleteObject [7; 0] = Some ([resp_out R_OK 5 []], 0%nat, [0; 21]) /\ demo_run OP_DeleteObject [99; 0] = Some ([resp_out R_GeneralError 5 []], 0%nat, [0; 7; 12; 16; 21]) /\
  demo_run OP_MoveObject [21; STORAGE; 7] = Some ([resp_out R_OK 5 []], 0%nat, [0; 7; 12; 16; 21]) /\ demo_run OP_CopyObject [21; STORAGE; 7] = Some ([resp_out R_OK 5 [25]], 0%nat, [0; 7; 12; 16; 21; 25]).
Proof. split; [|split; [|split]]; vm_compute; reflexivity. Qed.

(** 3 bytes free: copying the folder /s/a with its file of 5 bytes into /s/e makes the folder
    21, fails, and the folder is deleted again *)
Example C86_copy_full_example : 
  match copy_object small 10 7 16 true small_start with
  | Ret ((c, hc), w1) => c = R_StoreFull /\ hc = 21 /\ akeys (s_handles w1) = [0; 7; 12; 16; 21] /\
      match delete_item small 10 [] hc 0 w1 with Ret (dc, w') => dc = R_OK /\ akeys (s_handles w') = [0; 7; 12; 16] /\ content w' (join pE [97]) = None | _ => False end
  | _ => False end /\
  match Responder.run (device small 10 calm 0 small_start) [] RDemo.cat0 RDemo.props0 RDemo.desc0 [command OP_CopyObject 5 [7; STORAGE; 16]] RDemo.in_session with
  | Ret (_, s') => responses (r_log s') = [resp_out R_StoreFull 5 [21]] /\
      match state_after small 10 0 small_start (r_log s') with Ret w' => akeys (s_handles w') = [0; 7; 12; 16] | _ => False end
  | _ => False end.
Proof. split; vm_compute; repeat split; reflexivity. Qed.

Print Assumptions C85_get_object_handles.
Print Assumptions C85_get_num_objects.
Print Assumptions C85_get_object_info.
Print Assumptions C86_delete_object.
Print Assumptions C86_move_object.
Print Assumptions C86_copy_object.
Print Assumptions C86_copy_full.
