(** C66: device properties. *)
From Verif Require Import Base Wire WireSpec WireProofs WireProofs2 Responder RSpec RLogic ROne2 RGate RExec RSession RSend RSend2 RColl RPropList Pod RDemo.

(** ** Specification *)
(** the value last written to a device property, in a conversation (newest entry first) *)
Fixpoint last_set (code : N) (start : list N) (l : list (act * ans)) : list N :=
  match l with
  | [] => start
  | (ACall (SDevSet c v), _) :: r => if c =? code then v else last_set code start r
  | _ :: r => last_set code start r
  end.
(** The device information: MtpDeviceInfo::setDeviceFriendlyName and setSyncPartner
    (mtpdeviceinfo.cpp:516-533) keep the value written; the other values may change at
    any time ([others]); descriptions are those of the property pod (Pod.dev_desc). *)
Definition device_now (start : provider) (others : list (act * ans) -> provider) (l : list (act * ans)) : provider :=
  let o := others l in
  mk_provider (pv_audio_channels o) (pv_video_channels o) (pv_codecs o) (pv_audio_bitrate o) (pv_video_bitrate o) (pv_fps o)
    (pv_image_w o) (pv_image_h o) (pv_video_w o) (pv_video_h o) (pv_battery o)
    (last_set DEV_Sync_Partner (pv_partner start) l) (last_set DEV_Friendly_Name (pv_friendly start) l) (pv_icon o) (pv_device_type o).
Definition device_env (start : provider) (others : list (act * ans) -> provider) (env : list (act * ans) -> act -> ans) : Prop :=
  forall l c, (a_code (env l (ACall (SDevDesc c))), a_dpd (env l (ACall (SDevDesc c)))) = dev_desc start (device_now start others l) c.
Definition names : list N := [DEV_Friendly_Name; DEV_Sync_Partner].
Definition set_data_bytes (tid : N) (v : list N) : bytes := spec_header (12 + len (spec_string v)) 2 OP_SetDevicePropValue tid ++ spec_string v.

(** ** Proofs *)
Lemma last_set_app code start a b : (forall v, ~ In (SDevSet code v) (calls a)) -> last_set code start (a ++ b) = last_set code start b.
Proof.
  induction a as [|[x r] a IH]; intros H; [reflexivity|]. cbn [app]. destruct x as [c| | | | |]; cbn [last_set calls] in *; try (apply IH; exact H).
  destruct c; cbn [last_set] in *; try (apply IH; intros v Hv; exact (H v (or_intror Hv))).
  destruct (code0 =? code) eqn:E; [apply N.eqb_eq in E; subst; exfalso; exact (H s (or_introl eq_refl))|]. apply IH. intros v Hv. exact (H v (or_intror Hv)).
Qed.
Lemma noise_last code start l b : noise l -> last_set code start (l ++ b) = last_set code start b.
Proof.
  intros H. apply last_set_app. intros v Hv. apply noise_calls in H. rewrite forallb_forall in H. specialize (H _ Hv). discriminate.
Qed.
Lemma spec_string_len v : str_ok v -> len (spec_string v) <= 512.
Proof.
  intros H. inversion H as [| | | |s A B C]; subst. destruct v as [|c v]; [vm_compute; discriminate|]. cbn [spec_string]. set (w := c :: v) in *.
  rewrite len_cons, len_app. unfold spec_int. rewrite len_concat_le. change (len [0; 0]) with 2. lia.
Qed.

(** only descriptions were asked for *)
Definition still (l : list (act * ans)) : Prop := responses l = [] /\ datas l = [] /\ changed l = [] /\ existsb changes (calls l) = false.
Lemma still_cons c r l : noise l -> still ((ACall (SDevDesc c), r) :: l).
Proof.
  intros H. unfold still. change ((ACall (SDevDesc c), r) :: l) with ([(ACall (SDevDesc c), r)] ++ l). rewrite responses_app, datas_app, changed_app, (noise_responses l H), (noise_datas l H), (noise_changed l H).
  repeat split. cbn [app calls existsb changes]. cbn. apply noise_calls in H. induction (calls l) as [|x t IH]; [reflexivity|]. cbn in *. apply andb_prop in H as [H1 H2]. rewrite IH by exact H2. destruct x; cbn in *; try discriminate; reflexivity.
Qed.

Section Dev.
Variable env : list (act * ans) -> act -> ans.
Variable formats : list N.
Variable cat : N -> N.
Variable props_by_type : N -> N * list N.
Variable prop_desc : N -> N -> N * option objpropdesc.
Variables (start : provider) (others : list (act * ans) -> provider).
Hypothesis quiet : undisturbed env.
Hypothesis device : device_env start others env.
Notation step := (step env formats cat props_by_type prop_desc).
Notation run := (run env formats cat props_by_type prop_desc).

Lemma precheck_ok s tid : r_session s <> 0 -> tid <> 0 -> tid <> 0xFFFFFFFF -> pre_check (r_session s) tid = R_OK.
Proof. intros H1 H2 H3. unfold pre_check. destruct (r_session s =? 0) eqn:E1; [lia|]. destruct (tid =? 0) eqn:E2; [lia|]. destruct (tid =? 0xFFFFFFFF) eqn:E3; [lia|]. reflexivity. Qed.
Lemma set_command s tid code ps : idle s -> command_ok OP_SetDevicePropValue tid (code :: ps) -> code < 2^16 ->
  r_session s <> 0 -> tid <> 0 -> tid <> 0xFFFFFFFF ->
  exists s1 l, step (command OP_SetDevicePropValue tid (code :: ps)) s = Ret (tt, s1) /\ still l /\ r_log s1 = l ++ r_log s /\
    waiting (mk_req OP_SetDevicePropValue tid (pars (code :: ps))) s1 /\ r_session s1 = r_session s /\
    r_resp s1 = (match dev_desc start start code with (0x2001, Some _) => R_OK | _ => R_DevicePropNotSupported end).
Proof.
  intros Hi Hc Hcode Hs Ht1 Ht2. destruct (command_eq env formats cat props_by_type prop_desc s _ tid _ Hi Hc ltac:(discriminate)) as (l & Hl & ->).
  change (lookup_op OP_SetDevicePropValue _) with (Some (h_setDevicePropValue env)). cbv iota. unfold h_setDevicePropValue, check. unfold bind at 1, bind at 1, get, ret at 1.
  set (s1 := set_log _ _). change (r_session s1) with (r_session s). change (q_tid _) with tid. rewrite (precheck_ok s tid Hs Ht1 Ht2). change (isok R_OK) with true. cbn [negb].
  change (par {| q_code := OP_SetDevicePropValue; q_tid := tid; q_par := pars (code :: ps) |} 0) with code.
  replace (u16 code) with code by (unfold u16; symmetry; apply N.mod_small; exact Hcode). rewrite call_eq. set (r := env _ _).
  eexists _, ((ACall (SDevDesc code), r) :: l). split; [reflexivity|]. split; [exact (still_cons _ _ _ Hl)|]. split; [reflexivity|]. split; [split; reflexivity|]. split; [reflexivity|].
  cbn [r_resp set_resp]. pose proof (device (r_log s1) code) as D. change (env (r_log s1) (ACall (SDevDesc code))) with r in D.
  unfold dev_desc in *. unfold isok.
  repeat match type of D with (_, _) = (if ?b then _ else _) => destruct b; [injection D as D1 D2; rewrite D1, D2; reflexivity|] end. injection D as D1 D2. rewrite D2. reflexivity.
Qed.
Lemma set_name s tid code v p1 rest : idle s -> command_ok OP_SetDevicePropValue tid [code] -> In code names ->
  r_session s <> 0 -> tid <> 0 -> tid <> 0xFFFFFFFF -> str_ok v -> 4 <= len p1 -> p1 ++ concat rest = set_data_bytes tid v ->
  exists s' l, run (command OP_SetDevicePropValue tid [code] :: data_phase (p1 :: rest)) s = Ret (tt, s') /\ r_log s' = l ++ r_log s /\
    datas l = [] /\ responses l = [resp_out R_OK tid []] /\ changed l = [SDevSet code v] /\ idle s' /\ r_session s' = r_session s /\
    (forall d, last_set code d (r_log s') = v).
Proof.
  intros Hi Hc Hcode Hs Ht1 Ht2 Hv H4 HP.
  assert (C16 : code < 2^16) by (destruct Hcode as [<-|[<-|[]]]; reflexivity).
  destruct (set_command s tid code [] Hi Hc C16 Hs Ht1 Ht2) as (s1 & l & E1 & N1 & L1 & W & S1 & R1). rewrite run_cons, E1.
  set (q := mk_req OP_SetDevicePropValue tid (pars [code])) in *.
  assert (R : r_resp s1 = R_OK) by (rewrite R1; destruct Hcode as [<-|[<-|[]]]; reflexivity). clear R1.
  pose proof (spec_string_len v Hv) as Lv. assert (Hw : 12 + len (spec_string v) < w32) by (unfold w32; lia). destruct Hc as (C1 & C2 & _).
  rewrite (collect env formats cat props_by_type prop_desc q s1 p1 rest (spec_string v) W R eq_refl C1 C2 Hw H4 HP).
  pose proof (container_at q (spec_string v) Hw) as At. set (s2 := set_data _ s1). unfold handler. change (q_code q) with OP_SetDevicePropValue.
  change (OP_SetDevicePropValue =? OP_SendObjectInfo) with false. change (OP_SetDevicePropValue =? OP_SetObjectPropList) with false. change (OP_SetDevicePropValue =? OP_SendObjectPropList) with false. change (OP_SetDevicePropValue =? OP_SetDevicePropValue) with true. cbv iota.
  unfold d_setDevicePropValue. change (u16 (par q 0)) with (u16 code). replace (u16 code) with code by (unfold u16; symmetry; apply N.mod_small; exact C16). cbv zeta.
  replace ((code =? DEV_Friendly_Name) || (code =? DEV_Sync_Partner)) with true by (destruct Hcode as [<-|[<-|[]]]; reflexivity).
  match type of At with rx_at ?a ?b _ => assert (At0 : rx_at a b (spec_string v ++ [])) by (rewrite app_nil_r; exact At) end. clear At.
  unfold bind at 1. destruct (rd_eq (list N) rx_str (spec_string v) v _ (fun s0 => _ <- call env (SDevSet code s0) ;; ret tt) s2 _ _ [] (reads_str v Hv) eq_refl At0) as (r2 & At2 & E2).
  rewrite E2. unfold bind at 1, call at 1, ask at 1. cbv zeta. unfold ret at 1. set (a := env _ (ACall (SDevSet code v))). set (s3 := add_log _ _).
  assert (A3 : active s3) by (right; apply W). assert (Q3 : r_req s3 = Some q) by apply W.
  destruct (response_eq env quiet R_OK s3 q A3 Q3) as (n2 & r & N2 & E5). rewrite E5.
  exists (set_log (n2 ++ (ASend (resp_out R_OK tid []) true, r) :: r_log s3) (after_response s3)), (n2 ++ (ASend (resp_out R_OK tid []) true, r) :: (ACall (SDevSet code v), a) :: l).
  split; [reflexivity|]. split; [cbn [r_log set_log]; change (r_log s3) with ((ACall (SDevSet code v), a) :: r_log s1); rewrite L1, <- app_assoc; reflexivity|].
  destruct (one_response n2 (resp_out R_OK tid []) r ((ACall (SDevSet code v), a) :: l) N2 eq_refl) as [[A1 A2] A4].
  { cbn. apply N1. } { cbn. apply N1. }
  split; [exact A2|]. split; [exact A1|]. split; [rewrite A4; change ((ACall (SDevSet code v), a) :: l) with ([(ACall (SDevSet code v), a)] ++ l); rewrite changed_app, (proj1 (proj2 (proj2 N1))); reflexivity|].
  split; [left; reflexivity|]. split; [exact S1|]. intros d. cbn [r_log set_log]. rewrite (noise_last code d n2 _ N2). cbn [last_set]. change (r_log s3) with ((ACall (SDevSet code v), a) :: r_log s1). cbn [last_set]. rewrite N.eqb_refl. reflexivity.
Qed.
Lemma refuse_set s tid code ps body p1 rest : idle s -> command_ok OP_SetDevicePropValue tid (code :: ps) -> code < 2^16 ->
  ~ In code [0x5001; 0xD401; 0xD402; 0xD405; 0xD407] ->
  r_session s <> 0 -> tid <> 0 -> tid <> 0xFFFFFFFF -> 12 + len body < 2^32 -> 4 <= len p1 -> p1 ++ concat rest = spec_header (12 + len body) 2 OP_SetDevicePropValue tid ++ body ->
  exists s', run (command OP_SetDevicePropValue tid (code :: ps) :: data_phase (p1 :: rest)) s = Ret (tt, s') /\
    answered (resp_out R_DevicePropNotSupported tid []) s s'.
Proof.
  intros Hi Hc C16 Hn Hs Ht1 Ht2 HL H4 HP.
  destruct (set_command s tid code ps Hi Hc C16 Hs Ht1 Ht2) as (s1 & l & E1 & N1 & L1 & W & S1 & R1). rewrite run_cons, E1.
  set (q := mk_req OP_SetDevicePropValue tid (pars (code :: ps))) in *.
  assert (R : r_resp s1 = R_DevicePropNotSupported).
  { rewrite R1. unfold dev_desc. cbn [In] in Hn.
    destruct (code =? 0x5001) eqn:X1; [apply N.eqb_eq in X1; intuition congruence|]. destruct (code =? 0xD401) eqn:X2; [apply N.eqb_eq in X2; intuition congruence|].
    destruct (code =? 0xD402) eqn:X3; [apply N.eqb_eq in X3; intuition congruence|]. destruct (code =? 0xD405) eqn:X4; [apply N.eqb_eq in X4; intuition congruence|].
    destruct (code =? 0xD407) eqn:X5; [apply N.eqb_eq in X5; intuition congruence|]. reflexivity. }
  destruct Hc as (C1 & C2 & _).
  rewrite (collect_any env formats cat props_by_type prop_desc R_DevicePropNotSupported q s1 p1 rest body W R eq_refl C1 C2 HL H4 HP).
  unfold conclude. change (isok R_DevicePropNotSupported) with false. cbv iota. unfold bind at 1, upd. set (s2 := set_resp _ _).
  destruct (response_eq env quiet R_DevicePropNotSupported s2 q (or_intror (proj1 W)) (proj2 W)) as (n2 & r & N2 & E5). rewrite E5. eexists. split; [reflexivity|].
  exists (n2 ++ (ASend (resp_out R_DevicePropNotSupported tid []) true, r) :: l). destruct N1 as (A1 & A2 & A3 & A4).
  destruct (one_response n2 (resp_out R_DevicePropNotSupported tid []) r l N2 eq_refl A1 A2) as [[B1 B2] _].
  split; [cbn [r_log set_log]; change (r_log s2) with (r_log s1); rewrite L1, <- app_assoc; reflexivity|]. split; [|split; assumption].
  rewrite calls_app, existsb_app, (noise_nochange n2 N2). exact A4.
Qed.
Lemma get_name s tid code : idle s -> command_ok OP_GetDevicePropValue tid [code] -> In code names ->
  r_session s <> 0 -> tid <> 0 -> tid <> 0xFFFFFFFF ->
  exists s' l, run [command OP_GetDevicePropValue tid [code]] s = Ret (tt, s') /\ r_log s' = l ++ r_log s /\
    datas l = [inl (mk_out TYPE_DATA OP_GetDevicePropValue tid (PItems [IVal 0xFFFF (VStr (last_set code (if code =? DEV_Friendly_Name then pv_friendly start else pv_partner start) (r_log s)))]))] /\
    responses l = [resp_out R_OK tid []] /\ changed l = [] /\ idle s' /\ r_session s' = r_session s.
Proof.
  intros Hi Hc Hcode Hs Ht1 Ht2. rewrite run1.
  destruct (command_eq env formats cat props_by_type prop_desc s _ tid _ Hi Hc ltac:(discriminate)) as (l & Hl & ->).
  change (lookup_op OP_GetDevicePropValue _) with (Some (h_getDevicePropValue env)). cbv iota. unfold h_getDevicePropValue, check. unfold bind at 1, bind at 1, get, ret at 1.
  set (s1 := set_log _ _). change (r_session s1) with (r_session s). change (q_tid _) with tid. rewrite (precheck_ok s tid Hs Ht1 Ht2). change (isok R_OK) with true. cbn [negb].
  set (q := {| q_code := OP_GetDevicePropValue; q_tid := tid; q_par := pars [code] |}). change (par q 0) with code.
  assert (C16 : code < 2^16) by (destruct Hcode as [<-|[<-|[]]]; reflexivity).
  replace (u16 code) with code by (unfold u16; symmetry; apply N.mod_small; exact C16). rewrite call_eq. set (r := env _ _).
  pose proof (device (r_log s1) code) as D. change (env (r_log s1) (ACall (SDevDesc code))) with r in D.
  assert (DD : exists d, a_dpd r = Some d /\ a_code r = R_OK /\ dpd_type d = 0xFFFF /\ dpd_current d = VStr (last_set code (if code =? DEV_Friendly_Name then pv_friendly start else pv_partner start) (r_log s1))).
  { destruct Hcode as [<-|[<-|[]]]; injection D as D1 D2; rewrite D1, D2; eexists; repeat split. }
  destruct DD as (d & -> & D2 & D3 & D4). rewrite D2. change (isok R_OK) with true. cbv iota. rewrite D3, D4.
  change (r_log s1) with (l ++ r_log s). rewrite (noise_last _ _ l _ Hl). set (pl := PItems _). set (s2 := add_log _ s1).
  unfold data_then. assert (A2 : active s2) by apply started_active.
  destruct (send_data_eq env quiet (data_out q pl) true s2 A2 eq_refl) as (n1 & a1 & N1 & _ & E1). unfold bind at 1. rewrite E1. cbn [when]. set (s3 := set_log _ s2).
  destruct (response_eq env quiet R_OK s3 q A2 eq_refl) as (n2 & a2 & N2 & E2). rewrite E2.
  exists (set_log (n2 ++ (ASend (mk_out TYPE_RESPONSE R_OK (u16 (q_tid q)) (PItems [])) true, a2) :: r_log s3) (after_response s3)), (n2 ++ (ASend (resp_out R_OK tid []) true, a2) :: n1 ++ (ASend (data_out q pl) true, a1) :: (ACall (SDevDesc code), r) :: l).
  split; [reflexivity|]. split; [cbn [r_log set_log]; change (r_log s3) with (n1 ++ (ASend (data_out q pl) true, a1) :: (ACall (SDevDesc code), r) :: l ++ r_log s); rewrite <- app_assoc; cbn [app]; rewrite <- app_assoc; reflexivity|].
  rewrite datas_app, responses_app, changed_app, (noise_datas n2 N2), (noise_responses n2 N2), (noise_changed n2 N2).
  change ((ASend (resp_out R_OK tid []) true, a2) :: n1 ++ (ASend (data_out q pl) true, a1) :: (ACall (SDevDesc code), r) :: l) with ([(ASend (resp_out R_OK tid []) true, a2)] ++ n1 ++ [(ASend (data_out q pl) true, a1); (ACall (SDevDesc code), r)] ++ l).
  rewrite !datas_app, !responses_app, !changed_app, (noise_datas n1 N1), (noise_responses n1 N1), (noise_changed n1 N1), (noise_datas l Hl), (noise_responses l Hl), (noise_changed l Hl).
  split; [reflexivity|]. split; [reflexivity|]. split; [reflexivity|]. split; [left; reflexivity|reflexivity].
Qed.
End Dev.

(** C66 for the two writable properties: a write is answered OK and whatever happens
    then (any inputs, any other commands) a later read returns the value written,
    unless the property was written again. *)
Theorem C66_visible_partial : forall env formats cat props_by_type prop_desc start others s tid code v p1 rest,
  undisturbed env -> device_env start others env -> idle s -> command_ok OP_SetDevicePropValue tid [code] -> In code names ->
  r_session s <> 0 -> tid <> 0 -> tid <> 0xFFFFFFFF -> str_ok v -> 4 <= len p1 -> p1 ++ concat rest = set_data_bytes tid v ->
  exists s1 l1, run env formats cat props_by_type prop_desc (command OP_SetDevicePropValue tid [code] :: data_phase (p1 :: rest)) s = Ret (tt, s1) /\
    r_log s1 = l1 ++ r_log s /\ datas l1 = [] /\ responses l1 = [resp_out R_OK tid []] /\ changed l1 = [SDevSet code v] /\ idle s1 /\ r_session s1 = r_session s /\
    forall inputs s2 l2 tid2, run env formats cat props_by_type prop_desc inputs s1 = Ret (tt, s2) -> r_log s2 = l2 ++ r_log s1 ->
      (forall w, ~ In (SDevSet code w) (calls l2)) -> idle s2 -> r_session s2 <> 0 -> tid2 <> 0 -> tid2 < 0xFFFFFFFF ->
      exists s3 l3, run env formats cat props_by_type prop_desc [command OP_GetDevicePropValue tid2 [code]] s2 = Ret (tt, s3) /\ r_log s3 = l3 ++ r_log s2 /\
        datas l3 = [inl (mk_out TYPE_DATA OP_GetDevicePropValue tid2 (PItems [IVal 0xFFFF (VStr v)]))] /\ responses l3 = [resp_out R_OK tid2 []].
Proof.
  intros env formats cat pbt pd start others s tid code v p1 rest Q D Hi Hc Hcode Hs Ht1 Ht2 Hv H4 HP.
  destruct (set_name env formats cat pbt pd start others Q D s tid code v p1 rest Hi Hc Hcode Hs Ht1 Ht2 Hv H4 HP) as (s1 & l1 & E1 & E2 & E3 & E4 & E5 & E6 & E7 & E8).
  exists s1, l1. do 7 (split; [assumption|]). intros inputs s2 l2 tid2 _ L2 NS I2 SS2 T1 T2.
  assert (C2 : command_ok OP_GetDevicePropValue tid2 [code]).
  { repeat split; [lia|discriminate|]. constructor; [destruct Hcode as [<-|[<-|[]]]; reflexivity|constructor]. }
  destruct (get_name env formats cat pbt pd start others Q D s2 tid2 code I2 C2 Hcode SS2 T1 ltac:(lia)) as (s3 & l3 & F1 & F2 & F3 & F4 & _).
  exists s3, l3. split; [exact F1|]. split; [exact F2|]. split; [|exact F4]. rewrite F3, L2, (last_set_app _ _ l2 _ NS), E8. reflexivity.
Qed.
(** A property without a description is refused and nothing changes. *)
Theorem C66_unknown_refused : forall env formats cat props_by_type prop_desc start others s tid code ps body p1 rest,
  undisturbed env -> device_env start others env -> idle s -> command_ok OP_SetDevicePropValue tid (code :: ps) -> code < 2^16 ->
  ~ In code [0x5001; 0xD401; 0xD402; 0xD405; 0xD407] ->
  r_session s <> 0 -> tid <> 0 -> tid <> 0xFFFFFFFF -> 12 + len body < 2^32 -> 4 <= len p1 -> p1 ++ concat rest = spec_header (12 + len body) 2 OP_SetDevicePropValue tid ++ body ->
  exists s' l, run env formats cat props_by_type prop_desc (command OP_SetDevicePropValue tid (code :: ps) :: data_phase (p1 :: rest)) s = Ret (tt, s') /\
    r_log s' = l ++ r_log s /\ existsb changes (calls l) = false /\ datas l = [] /\ responses l = [resp_out R_DevicePropNotSupported tid []].
Proof.
  intros env formats cat pbt pd start others s tid code ps body p1 rest Q D Hi Hc C16 Hn Hs Ht1 Ht2 HL H4 HP.
  destruct (refuse_set env formats cat pbt pd start others Q D s tid code ps body p1 rest Hi Hc C16 Hn Hs Ht1 Ht2 HL H4 HP) as (s' & E & l & A). exists s', l. auto.
Qed.
(** A device for examples. *)
Definition a_device : provider := mk_provider [] [] [] (0, 0) (0, 0) (0, 0) (0, 0) (0, 0) (0, 0) (0, 0) 80 [80] [70] [] 3.
Definition device_answers (l : list (act * ans)) (a : act) : ans :=
  match a with
  | ACall (SDevDesc c) => let (code, d) := dev_desc a_device (device_now a_device (fun _ => a_device) l) c in mk_ans code [] [] info0 [] d [] true []
  | _ => ok_ans
  end.
Lemma device_answers_ok : device_env a_device (fun _ => a_device) device_answers /\ undisturbed device_answers.
Proof.
  split; [intros l c; cbn [device_answers]; destruct (dev_desc _ _ _); reflexivity|]. intros l a. destruct a as [c| | | | |]; try reflexivity. destruct c; try reflexivity. cbn [device_answers]. destruct (dev_desc _ _ _). reflexivity.
Qed.
(** A write to a read-only property (the battery level) is answered OK without effect. *)
Theorem C66_read_only_refuted : device_env a_device (fun _ => a_device) device_answers /\ undisturbed device_answers /\
  exists s1 s2, demo_run device_answers (command OP_SetDevicePropValue 5 [0x5001] :: data_phase [spec_header 13 2 OP_SetDevicePropValue 5 ++ [10]]) in_session = Ret (tt, s1) /\
    responses (r_log s1) = [resp_out R_OK 5 []] /\ changed (r_log s1) = [] /\
    demo_run device_answers [command OP_GetDevicePropValue 6 [0x5001]] s1 = Ret (tt, s2) /\
    datas (r_log s2) = [inl (mk_out TYPE_DATA OP_GetDevicePropValue 6 (PItems [IVal 2 (VInt 80)]))].
Proof.
  split; [apply device_answers_ok|]. split; [apply device_answers_ok|]. eexists. eexists. split; [vm_compute; reflexivity|]. split; [reflexivity|]. split; [reflexivity|]. split; [vm_compute; reflexivity|reflexivity].
Qed.
(** example for C66_visible_partial: the friendly name becomes AB *)
Example ex_C66 : idle in_session /\ command_ok OP_SetDevicePropValue 5 [DEV_Friendly_Name] /\ In DEV_Friendly_Name names /\ str_ok [65; 66] /\
  exists s1 s2, demo_run device_answers (command OP_SetDevicePropValue 5 [DEV_Friendly_Name] :: data_phase [take 9 (set_data_bytes 5 [65; 66]); drop 9 (set_data_bytes 5 [65; 66])]) in_session = Ret (tt, s1) /\
    demo_run device_answers [command OP_GetDevicePropValue 6 [DEV_Friendly_Name]] s1 = Ret (tt, s2) /\
    datas (r_log s2) = [inl (mk_out TYPE_DATA OP_GetDevicePropValue 6 (PItems [IVal 0xFFFF (VStr [65; 66])]))].
Proof.
  split; [left; reflexivity|]. split; [repeat split; try constructor; discriminate || reflexivity || constructor|]. split; [left; reflexivity|].
  split; [apply ht_str; [repeat constructor|vm_compute; discriminate|intros c r H; injection H as <- <-; split; discriminate]|].
  eexists. eexists. split; [vm_compute; reflexivity|]. split; [vm_compute; reflexivity|reflexivity].
Qed.
Print Assumptions C66_visible_partial.
Print Assumptions C66_unknown_refused.
Print Assumptions C66_read_only_refuted.
