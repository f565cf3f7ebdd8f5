(** C32: SendObjectInfo hands the storage exactly the dataset the initiator sent. *)
From Verif Require Import Base Wire WireSpec WireProofs WireProofs2 Responder RSpec RLogic ROne2 RGate RExec RSession RSend RSend2 RColl RPropList RDemo.

Lemma len_string s : str_ok s -> len (spec_string s) <= 511.
Proof.
  intros H. inversion H; subst. unfold spec_string. destruct s as [|c r]; [cbn; lia|]. rewrite len_cons, len_app.
  assert (X : len (concat (map (spec_int 2) (c :: r))) = 2 * len (c :: r)).
  { generalize (c :: r). clear. intros l. induction l as [|x l IH]; [reflexivity|]. cbn [map concat]. rewrite len_app, IH, len_cons, len_spec_int. lia. }
  rewrite X. change (len [0; 0]) with 2. lia.
Qed.
Lemma len_info o : objinfo_ok o -> len (spec_objinfo o) <= 2096.
Proof.
  intros H. unfold spec_objinfo. rewrite !len_app, !len_spec_int.
  pose proof (len_string _ (ok_name _ H)). pose proof (len_string _ (ok_capture _ H)). pose proof (len_string _ (ok_modified _ H)). pose proof (len_string _ (ok_keywords _ H)). lia.
Qed.
(** a response carrying the whole transaction number *)
Definition answer (code tid : N) (ps : list N) : outc := mk_out TYPE_RESPONSE code tid (PItems (map u32_item ps)).
Lemma info_request : forall env formats cat props_by_type prop_desc s tid st parent o p1 rest,
  undisturbed env -> storage_is_ready env -> idle s -> command_ok OP_SendObjectInfo tid [st; parent] ->
  r_session s <> 0 -> tid <> 0 -> tid <> 0xFFFFFFFF ->
  objinfo_ok o -> oi_size o < 0xFFFFFFFF -> 4 <= len p1 ->
  p1 ++ concat rest = spec_header (12 + len (spec_objinfo o)) 2 OP_SendObjectInfo tid ++ spec_objinfo o ->
  let sent := with_parent o parent in
  exists s' n1 n2 ra, let a := env (n1 ++ r_log s) (ACall (SAddItem st parent sent)) in
    let out := if a_code a =? R_OK then answer R_OK tid [a_num a 0; a_num a 1; a_num a 2] else answer (a_code a) tid [] in
    run env formats cat props_by_type prop_desc (command OP_SendObjectInfo tid [st; parent] :: data_phase (p1 :: rest)) s = Ret (tt, s') /\
    r_log s' = n2 ++ (ASend out true, ra) :: (ACall (SAddItem st parent sent), a) :: n1 ++ r_log s /\ noise n1 /\ noise n2 /\
    r_st s' = IDLE /\ r_session s' = r_session s /\ r_pl s' = None /\
    r_seq s' = if a_code a =? R_OK then Some (mk_ss sent (a_num a 2) 0) else None.
Proof.
  intros env formats cat pbt pd s tid st parent o p1 rest Hq Hr Hi Hc Hs Ht1 Ht2 Ho Hz H4 HP sent.
  destruct (check_only_eq env formats cat pbt pd s OP_SendObjectInfo tid [st; parent] ltac:(cbn; tauto) Hi Hc Hr Hs Ht1 Ht2) as (s1 & n1 & E1 & N1 & L1 & W & R1 & S1).
  set (q := mk_req OP_SendObjectInfo tid (pars [st; parent])) in *.
  pose proof (len_info o Ho) as LB. assert (Hw : 12 + len (spec_objinfo o) < w32) by (unfold w32; lia). destruct Hc as (C1 & C2 & _).
  pose proof (collect env formats cat pbt pd q s1 p1 rest (spec_objinfo o) W R1 eq_refl C1 C2 Hw H4 HP) as EC.
  pose proof (container_at q (spec_objinfo o) Hw) as At. set (s2 := set_data _ s1) in EC. unfold handler in EC. change (q_code q) with OP_SendObjectInfo in EC.
  change (OP_SendObjectInfo =? OP_SendObjectInfo) with true in EC. cbv iota in EC.
  unfold d_sendObjectInfo in EC. change (par q 0) with st in EC. change (par q 1) with parent in EC.
  match type of At with rx_at ?a ?b _ => assert (At0 : rx_at a b (spec_objinfo o ++ [])) by (rewrite app_nil_r; exact At) end. clear At.
  unfold bind at 1 in EC. unfold upd at 1 in EC. set (s2' := set_pl None s2) in EC.
  match type of EC with _ = bind (rd rx_objinfo) ?k _ => destruct (rd_eq objinfo rx_objinfo (spec_objinfo o) o _ k s2' _ _ [] (reads_objinfo o Ho ltac:(lia)) eq_refl At0) as (r2 & At2 & E2) end.
  rewrite E2 in EC. cbv beta in EC. replace (oi_size o =? 0xFFFFFFFF) with false in EC by lia. cbv zeta in EC. rewrite call_eq in EC. fold sent in EC.
  set (s3' := set_data (Some r2) s2') in *. set (a := env _ (ACall (SAddItem st parent sent))) in EC. set (s3 := add_log _ s3') in EC.
  assert (A3 : active s3) by (right; apply W). assert (Q3 : r_req s3 = Some q) by apply W.
  assert (LL : r_log s3' = n1 ++ r_log s) by exact L1.
  change (isok (a_code a)) with (a_code a =? R_OK) in EC. rewrite run_cons, E1.
  destruct (a_code a =? R_OK) eqn:EA.
  - unfold bind at 1 in EC. unfold upd at 1 in EC. destruct (respond_eq env Hq q R_OK [a_num a 0; a_num a 1; a_num a 2] (set_seq (Some (mk_ss sent (a_num a 2) 0)) s3) A3) as (n2 & r & N2 & E5). rewrite E5 in EC.
    eexists. exists n1, n2, r. cbv zeta. rewrite <- LL. fold a. rewrite EA.
    split; [exact EC|]. split; [reflexivity|]. split; [exact N1|]. split; [exact N2|]. split; [reflexivity|]. split; [exact S1|]. split; reflexivity.
  - unfold bind at 1 in EC. unfold upd at 1 in EC. destruct (respond_eq env Hq q (a_code a) [] (set_seq None s3) A3) as (n2 & r & N2 & E5). rewrite E5 in EC.
    eexists. exists n1, n2, r. cbv zeta. rewrite <- LL. fold a. rewrite EA.
    split; [exact EC|]. split; [reflexivity|]. split; [exact N1|]. split; [exact N2|]. split; [reflexivity|]. split; [exact S1|]. split; reflexivity.
Qed.
(** However the dataset is cut into packets, the storage is asked once, to add the object
    described, under the parent given in the request.  If it does, the response names
    the storage, the parent and the handle it chose, and SendObject is expected next for
    that object; otherwise its code is the response. *)
Theorem C32_info_request : forall env formats cat props_by_type prop_desc s tid st parent o p1 rest,
  undisturbed env -> storage_is_ready env -> idle s -> command_ok OP_SendObjectInfo tid [st; parent] ->
  r_session s <> 0 -> tid <> 0 -> tid <> 0xFFFFFFFF ->
  objinfo_ok o -> oi_size o < 0xFFFFFFFF -> 4 <= len p1 ->
  p1 ++ concat rest = spec_header (12 + len (spec_objinfo o)) 2 OP_SendObjectInfo tid ++ spec_objinfo o ->
  let sent := with_parent o parent in
  exists s' d (a : ans), run env formats cat props_by_type prop_desc (command OP_SendObjectInfo tid [st; parent] :: data_phase (p1 :: rest)) s = Ret (tt, s') /\
    r_log s' = d ++ r_log s /\ In (ACall (SAddItem st parent sent), a) d /\ changed d = [SAddItem st parent sent] /\ datas d = [] /\ r_st s' = IDLE /\
    (if a_code a =? R_OK
    then responses d = [answer R_OK tid [a_num a 0; a_num a 1; a_num a 2]] /\ announced s' (a_num a 2) (oi_size o) 0
    else responses d = [answer (a_code a) tid []] /\ r_seq s' = None /\ r_pl s' = None).
Proof.
  intros env formats cat pbt pd s tid st parent o p1 rest Hq Hr Hi Hc Hs Ht1 Ht2 Ho Hz H4 HP sent.
  destruct (info_request env formats cat pbt pd s tid st parent o p1 rest Hq Hr Hi Hc Hs Ht1 Ht2 Ho Hz H4 HP) as (s' & n1 & n2 & r & K). cbv zeta in K. fold sent in K.
  set (a := env _ _) in K. set (out := if a_code a =? R_OK then answer R_OK tid [a_num a 0; a_num a 1; a_num a 2] else answer (a_code a) tid []) in K. destruct K as (E & L & N1 & N2 & ST & _ & PL & SQ).
  exists s', (n2 ++ (ASend out true, r) :: (ACall (SAddItem st parent sent), a) :: n1), a.
  split; [exact E|]. split; [rewrite L, <- app_assoc; reflexivity|]. split; [apply in_or_app; right; right; left; reflexivity|].
  destruct (one_response n2 out r ((ACall (SAddItem st parent sent), a) :: n1) N2) as [[B1 B2] B4].
  { unfold out. destruct (_ =? _); reflexivity. } { cbn. apply noise_responses, N1. } { cbn. apply noise_datas, N1. }
  split; [rewrite B4; change ((ACall (SAddItem st parent sent), a) :: n1) with ([(ACall (SAddItem st parent sent), a)] ++ n1); rewrite changed_app, (noise_changed n1 N1); reflexivity|].
  split; [exact B2|]. split; [exact ST|]. rewrite B1. unfold out. destruct (a_code a =? R_OK); [split; [reflexivity|]|auto].
  apply (by_info s' _ _ _ sent); [exact PL|exact SQ|reflexivity|change (2^32) with 4294967296; lia].
Qed.
(** non-vacuity: a dataset arriving in two packets *)
Definition ex_info : objinfo := mk_objinfo 65537 0x3000 0 6 0 0 0 0 0 0 0 0 0 0 0 [97; 98] [] [] [].
Example ex_C32_info : objinfo_ok ex_info /\ command_ok OP_SendObjectInfo 5 [0; 0] /\ undisturbed plain /\ storage_is_ready plain /\ idle in_session.
Proof.
  split; [|split; [|split; [apply plain_undisturbed|split; [apply plain_ready|left; reflexivity]]]].
  - assert (S0 : str_ok []) by (constructor; [constructor|cbn; lia|discriminate]). split; try reflexivity; try exact S0.
    constructor; [repeat (constructor; [lia|]); constructor|cbn; lia|]. intros c r E. injection E as <- _. split; discriminate.
  - split; [reflexivity|]. split; [reflexivity|]. split; [discriminate|]. repeat constructor; reflexivity.
Qed.
Print Assumptions C32_info_request.
