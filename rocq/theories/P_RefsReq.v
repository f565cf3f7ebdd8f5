(** C55: the requests that set and get object references. *)
From Verif Require Import Base Wire WireSpec WireProofs WireProofs2 Responder RSpec RLogic ROne2 RGate RExec RSession RSend RSend2 RColl RPropList RDemo.
Lemma len_le n x : len (le_enc n x) = N.of_nat n. Proof. unfold len. rewrite le_enc_length. reflexivity. Qed.
(** SetObjectReferences hands the storage exactly the list sent, however the data is cut
    into packets, and answers what the storage says. *)
Theorem C55_set_request : forall env formats cat props_by_type prop_desc s tid h l p1 rest,
  undisturbed env -> storage_is_ready env -> idle s -> command_ok OP_SetObjectReferences tid [h] ->
  r_session s <> 0 -> tid <> 0 -> tid <> 0xFFFFFFFF ->
  Forall (fun x => x < 2^32) l -> 4 * len l < 2^31 -> 4 <= len p1 ->
  p1 ++ concat rest = spec_header (12 + len (spec_array 4 l)) 2 OP_SetObjectReferences tid ++ spec_array 4 l ->
  exists s' d r, run env formats cat props_by_type prop_desc (command OP_SetObjectReferences tid [h] :: data_phase (p1 :: rest)) s = Ret (tt, s') /\
    r_log s' = d ++ r_log s /\ In (ACall (SSetRefs h l), r) d /\ changed d = [SSetRefs h l] /\ datas d = [] /\ responses d = [resp_out (a_code r) tid []].
Proof.
  intros env formats cat pbt pd s tid h l p1 rest Hq Hr Hi Hc Hs Ht1 Ht2 Hl Hn H4 HP.
  destruct (check_only_eq env formats cat pbt pd s OP_SetObjectReferences tid [h] ltac:(cbn; tauto) Hi Hc Hr Hs Ht1 Ht2) as (s1 & n1 & E1 & N1 & L1 & W & R1 & S1).
  rewrite run_cons, E1. set (q := mk_req OP_SetObjectReferences tid (pars [h])) in *.
  assert (LB : len (spec_array 4 l) = 4 + 4 * len l).
  { unfold spec_array. rewrite len_app. unfold spec_int at 1. rewrite len_le. f_equal. clear. induction l as [|x l IH]; [reflexivity|]. cbn [map concat]. rewrite len_app, IH, len_cons. unfold spec_int. rewrite len_le. lia. }
  assert (Hw : 12 + len (spec_array 4 l) < w32) by (rewrite LB; unfold w32; lia). destruct Hc as (C1 & C2 & _).
  rewrite (collect env formats cat pbt pd q s1 p1 rest (spec_array 4 l) W R1 eq_refl C1 C2 Hw H4 HP).
  pose proof (container_at q (spec_array 4 l) Hw) as At. set (s2 := set_data _ s1). unfold handler. change (q_code q) with OP_SetObjectReferences.
  change (OP_SetObjectReferences =? OP_SendObjectInfo) with false. change (OP_SetObjectReferences =? OP_SetObjectPropList) with false. change (OP_SetObjectReferences =? OP_SendObjectPropList) with false. change (OP_SetObjectReferences =? OP_SetDevicePropValue) with false. change (OP_SetObjectReferences =? OP_SetObjectPropValue) with false. change (OP_SetObjectReferences =? OP_SetObjectReferences) with true. cbv iota.
  unfold d_setObjReferences. change (par q 0) with h.
  match type of At with rx_at ?a ?b _ => assert (At0 : rx_at a b (spec_array 4 l ++ [])) by (rewrite app_nil_r; exact At) end. clear At.
  destruct (rd_eq (list N) (rx_vec 4) (spec_array 4 l) l _ (fun l0 => r <- call env (SSetRefs h l0) ;; send_response env (a_code r)) s2 _ _ [] (reads_vec 4 l ltac:(lia) Hl Hn) eq_refl At0) as (r2 & At2 & E2).
  rewrite E2. rewrite call_eq. set (a := env _ (ACall (SSetRefs h l))). set (s3 := add_log _ _).
  assert (A3 : active s3) by (right; apply W). assert (Q3 : r_req s3 = Some q) by apply W.
  destruct (response_eq env Hq (a_code a) s3 q A3 Q3) as (n2 & r & N2 & E5). rewrite E5.
  exists (set_log (n2 ++ (ASend (resp_out (a_code a) tid []) true, r) :: r_log s3) (after_response s3)), (n2 ++ (ASend (resp_out (a_code a) tid []) true, r) :: (ACall (SSetRefs h l), a) :: n1), a.
  split; [reflexivity|]. split; [cbn [r_log set_log]; change (r_log s3) with ((ACall (SSetRefs h l), a) :: r_log s1); rewrite L1, <- app_assoc; reflexivity|].
  split; [apply in_or_app; right; right; left; reflexivity|].
  destruct (one_response n2 (resp_out (a_code a) tid []) r ((ACall (SSetRefs h l), a) :: n1) N2 eq_refl) as [[A1 A2] A4].
  { cbn. apply noise_responses, N1. } { cbn. apply noise_datas, N1. }
  split; [rewrite A4; change ((ACall (SSetRefs h l), a) :: n1) with ([(ACall (SSetRefs h l), a)] ++ n1); rewrite changed_app, (noise_changed n1 N1); reflexivity|]. split; assumption.
Qed.
(** GetObjectReferences sends the list the storage returned. *)
Theorem C55_get_request : forall env formats cat props_by_type prop_desc s tid h,
  undisturbed env -> storage_is_ready env -> idle s -> command_ok OP_GetObjectReferences tid [h] ->
  r_session s <> 0 -> tid <> 0 -> tid <> 0xFFFFFFFF ->
  exists s' d r, run env formats cat props_by_type prop_desc [command OP_GetObjectReferences tid [h]] s = Ret (tt, s') /\
    r_log s' = d ++ r_log s /\ In (ACall (SGetRefs h), r) d /\ changed d = [] /\
    datas d = (if a_code r =? R_OK then [inl (mk_out TYPE_DATA OP_GetObjectReferences tid (PItems [IVal 0x4006 (VVec 0x4006 (a_nums r))]))] else []) /\
    responses d = [resp_out (a_code r) tid []].
Proof.
  intros env formats cat pbt pd s tid h Hq Hr Hi Hc Hs Ht1 Ht2. rewrite run1.
  destruct (command_eq env formats cat pbt pd s _ tid _ Hi Hc (fun _ => Hr)) as (l & Hl & ->).
  change (lookup_op OP_GetObjectReferences _) with (Some (h_getObjReferences env)). cbv iota. unfold h_getObjReferences, check. unfold bind at 1, bind at 1, get, ret at 1.
  set (s1 := set_log _ _). change (r_session s1) with (r_session s). change (q_tid _) with tid.
  assert (PC : pre_check (r_session s) tid = R_OK) by (unfold pre_check; destruct (r_session s =? 0) eqn:E1; [lia|]; destruct (tid =? 0) eqn:E2; [lia|]; destruct (tid =? 0xFFFFFFFF) eqn:E3; [lia|]; reflexivity).
  rewrite PC. change (isok R_OK) with true. cbn [negb].
  set (q := {| q_code := OP_GetObjectReferences; q_tid := tid; q_par := pars [h] |}). change (par q 0) with h.
  rewrite call_eq. set (r := env _ _). set (s2 := add_log _ s1). assert (A2 : active s2) by apply started_active.
  unfold isok. destruct (a_code r =? R_OK) eqn:OK.
  - apply N.eqb_eq in OK. set (pl := PItems _). unfold data_then.
    destruct (send_data_eq env Hq (data_out q pl) true s2 A2 eq_refl) as (n1 & a1 & N1 & _ & E1). unfold bind at 1. rewrite E1. cbn [when]. set (s3 := set_log _ s2).
    destruct (response_eq env Hq R_OK s3 q A2 eq_refl) as (n2 & a2 & N2 & E2). rewrite E2.
    exists (set_log (n2 ++ (ASend (mk_out TYPE_RESPONSE R_OK (u16 (q_tid q)) (PItems [])) true, a2) :: r_log s3) (after_response s3)), (n2 ++ (ASend (resp_out R_OK tid []) true, a2) :: n1 ++ (ASend (data_out q pl) true, a1) :: (ACall (SGetRefs h), r) :: l), r.
    split; [reflexivity|]. split; [cbn [r_log set_log]; change (r_log s3) with (n1 ++ (ASend (data_out q pl) true, a1) :: (ACall (SGetRefs h), r) :: l ++ r_log s); rewrite <- app_assoc; cbn [app]; rewrite <- app_assoc; reflexivity|].
    split; [apply in_or_app; right; right; apply in_or_app; right; right; left; reflexivity|].
    rewrite OK. change (R_OK =? R_OK) with true. cbv iota.
    rewrite datas_app, responses_app, changed_app, (noise_datas n2 N2), (noise_responses n2 N2), (noise_changed n2 N2).
    change ((ASend (resp_out R_OK tid []) true, a2) :: n1 ++ (ASend (data_out q pl) true, a1) :: (ACall (SGetRefs h), r) :: l) with ([(ASend (resp_out R_OK tid []) true, a2)] ++ n1 ++ [(ASend (data_out q pl) true, a1); (ACall (SGetRefs h), r)] ++ l).
    rewrite !datas_app, !responses_app, !changed_app, (noise_datas n1 N1), (noise_responses n1 N1), (noise_changed n1 N1), (noise_datas l Hl), (noise_responses l Hl), (noise_changed l Hl).
    split; [reflexivity|]. split; reflexivity.
  - destruct (response_eq env Hq (a_code r) s2 q A2 eq_refl) as (n2 & a2 & N2 & E2). rewrite E2.
    exists (set_log (n2 ++ (ASend (resp_out (a_code r) tid []) true, a2) :: r_log s2) (after_response s2)), (n2 ++ (ASend (resp_out (a_code r) tid []) true, a2) :: (ACall (SGetRefs h), r) :: l), r.
    split; [reflexivity|]. split; [cbn [r_log set_log]; change (r_log s2) with ((ACall (SGetRefs h), r) :: l ++ r_log s); rewrite <- app_assoc; reflexivity|].
    split; [apply in_or_app; right; right; left; reflexivity|]. rewrite OK.
    destruct (one_response n2 (resp_out (a_code r) tid []) a2 ((ACall (SGetRefs h), r) :: l) N2 eq_refl) as [[A1 A2'] A4].
    { cbn. apply noise_responses, Hl. } { cbn. apply noise_datas, Hl. }
    split; [rewrite A4; change ((ACall (SGetRefs h), r) :: l) with ([(ACall (SGetRefs h), r)] ++ l); rewrite changed_app, (noise_changed l Hl); reflexivity|]. split; assumption.
Qed.
Example ex_C55_requests :
  let data := [spec_header 24 2 OP_SetObjectReferences 6 ++ [2;0]; [0;0;9;0;0;0]; [4;1;0;0]] in
  concat data = spec_header (12 + len (spec_array 4 [9; 260])) 2 OP_SetObjectReferences 6 ++ spec_array 4 [9; 260] /\
  exists s1, demo_run plain (command OP_SetObjectReferences 6 [7] :: data_phase data) in_session = Ret (tt, s1) /\
    map o_code (responses (r_log s1)) = [R_OK] /\ In (SSetRefs 7 [9; 260]) (calls (r_log s1)).
Proof. cbv zeta. split; [reflexivity|]. eexists. split; [vm_compute; reflexivity|]. split; [reflexivity|]. vm_compute. auto 10. Qed.
Print Assumptions C55_set_request.
Print Assumptions C55_get_request.
