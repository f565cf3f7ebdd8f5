(** C72, C73: the control endpoint. *)
From Verif Require Import Base Control ControlProofs.

(** ** C72  Host requests and bus state changes are passed on exactly and answered once.

    [signals]/[reads] list, oldest first, what the program was told and what the kernel
    reported; [meaning] (ControlProofs.v) is the dictionary between them.  [short]: data
    stages shorter than one 12-byte kernel record - the class defines 6 bytes for Cancel
    and none for Reset. *)
Theorem C72_passed_on_in_order_partial : forall l s,
  Forall short l -> crun l ctl_init = Ret s -> c_todo s = [] ->
  signals (c_log s) = flat_map meaning (reads (c_log s)).
Proof. exact signals_are_meanings. Qed.

(** Nothing the kernel reports crashes the thread once a status has been set. *)
Theorem C72_no_crash_partial : forall l st, Forall short l ->
  exists s, crun (MSetStatus st :: l) ctl_init = Ret s.
Proof.
  intros l st F. cbn [crun cstep obind]. eapply crun_ret; [exact F| |reflexivity].
  exists []. split; reflexivity.
Qed.

(** No request is answered twice, whatever the host sends: the conclusions (data sent,
    stall, acknowledgement) never outnumber the requests reported. *)
Theorem C72_answered_at_most_once : forall l s,
  crun l ctl_init = Ret s ->
  len (filter conclusion (c_log s)) <= len (filter is_setup (reads (c_log s))).
Proof.
  intros l s H. apply crun_cinv in H; [|split; vm_compute; discriminate].
  destruct H as [A _]. lia.
Qed.

(** How a request has to end: the device status for a proper status request, stall for
    requests the class does not define, and for Cancel and Reset the data stage is taken
    and acknowledged (stalled if the host asks for data instead). *)
Definition due (su : setup) (st : N) (d : bytes) : cev :=
  if (s_req su =? 0x67) && (s_type su =? 0xa1) then
    VData (take (s_len su) (le_enc 2 4 ++ le_enc 2 (nth (N.to_nat st) [0x2001; 0x2019; 0x201F] 0)))
  else if ((s_req su =? 0x64) || (s_req su =? 0x66)) && negb (128 <=? s_type su) then
    VAck su (take (N.min 64 (s_len su)) d)
  else VStall.

(** A request that nothing overtakes is passed on and concluded, exactly as due, by the
    time the thread waits for the next event. *)
Theorem C72_answered : forall s su st d d0,
  setup_ok su -> st <= 2 ->
  c_q s = [KSetup su] -> c_ep0 s = NoSetup -> c_todo s = [] -> c_status s = Some st ->
  exists s', crun [CRead d0; CHandle; CRead d] s = Ret s' /\
    c_log s' = due su st d :: map VSig (meaning (KSetup su)) ++ VRead (KSetup su) :: c_log s /\
    c_ep0 s' = NoSetup /\ c_q s' = [].
Proof.
  intros [q e t stt lg] [ty rq v i l] st d d0 (T & R & _ & _ & L) Hst. cbn [c_q c_ep0 c_todo c_status c_log s_type s_req s_len] in *.
  intros -> -> -> ->.
  assert (DI : dir_in ty = (128 <=? ty)).
  { unfold dir_in. rewrite N.testbit_eqb, N.eqb_sym. change (2 ^ 7) with 128.
    destruct (128 <=? ty) eqn:E; [apply N.leb_le in E|apply N.leb_gt in E].
    - rewrite <- (N.div_unique ty 128 1 (ty - 128)) by lia. reflexivity.
    - rewrite N.div_small by exact E. reflexivity. }
  assert (ST : status_data st = le_enc 2 4 ++ le_enc 2 (nth (N.to_nat st) [0x2001; 0x2019; 0x201F] 0)).
  { assert (st = 0 \/ st = 1 \/ st = 2) as [->|[->| ->]] by lia; reflexivity. }
  cbn [crun cstep c_todo c_ep0 c_q c_status c_log obind].
  replace (take (MAX_CONTROL / REC) [KSetup (mk_setup ty rq v i l)]) with [KSetup (mk_setup ty rq v i l)] by reflexivity.
  replace (drop (MAX_CONTROL / REC) [KSetup (mk_setup ty rq v i l)]) with (@nil kev) by reflexivity.
  rewrite records_events. cbn [map rev app last_setup obind c_todo c_q c_ep0 c_status c_log].
  unfold handle_event, rec_bytes. cbn [nth app le_enc kev_type s_type s_req s_val s_idx s_len].
  unfold setup_request. cbn [nth].
  unfold due. cbn [s_type s_req s_len meaning]. rewrite <- DI, <- ST.
  destruct (rq =? 0x67) eqn:E1.
  - apply N.eqb_eq in E1. subst rq.
    change (0x67 =? 0x64) with false. change (0x67 =? 0x66) with false. cbn [andb orb map app].
    destruct (ty =? 0xa1) eqn:E2.
    + apply N.eqb_eq in E2. subst ty.
      unfold send_status, ep0_write. cbn [c_status c_ep0 s_type]. change (dir_in 0xa1) with true. cbv iota.
      cbn [set_ep0 note obind c_todo c_ep0 c_q c_status c_log s_len].
      eexists. split; [reflexivity|]. cbn [c_log c_ep0 c_q]. auto.
    + unfold stall, ep0_read0, ep0_write. cbn [c_ep0 s_type].
      destruct (dir_in ty); cbn [set_ep0 note obind c_todo c_ep0 c_q c_status c_log s_len];
        (eexists; split; [reflexivity|]; cbn [c_log c_ep0 c_q]; auto).
  - cbn [andb].
    destruct (rq =? 0x64) eqn:E2; [|destruct (rq =? 0x66) eqn:E3].
    + cbn [orb andb map app note obind c_todo c_ep0 c_q c_status c_log s_type s_len].
      destruct (dir_in ty); cbn [negb set_ep0 note obind c_todo c_ep0 c_q c_status c_log s_len];
        (eexists; split; [reflexivity|]; cbn [c_log c_ep0 c_q]; auto).
    + cbn [orb andb map app note obind c_todo c_ep0 c_q c_status c_log s_type s_len].
      destruct (dir_in ty); cbn [negb set_ep0 note obind c_todo c_ep0 c_q c_status c_log s_len];
        (eexists; split; [reflexivity|]; cbn [c_log c_ep0 c_q]; auto).
    + cbn [orb andb map app]. unfold stall, ep0_read0, ep0_write. cbn [c_ep0 s_type].
      destruct (dir_in ty); cbn [set_ep0 note obind c_todo c_ep0 c_q c_status c_log s_len];
        (eexists; split; [reflexivity|]; cbn [c_log c_ep0 c_q]; auto).
Qed.

(** False for longer data stages: the bytes the host sends with a Cancel are read as if
    they were kernel records.  Here the host makes the device believe it was unbound, and
    with a type above 6 the log line reads outside its table. *)
Definition long_cancel := mk_setup 0x21 0x64 0 0 12.
Theorem C72_forged_events_refuted :
  (exists l s, crun l ctl_init = Ret s /\ c_todo s = [] /\
     reads (c_log s) = [KBind; KEnable; KSetup long_cancel] /\
     signals (c_log s) = [SBind; SStart; SCancel; SUnbind]) /\
  (exists l, crun (MSetStatus 0 :: l) ctl_init = UB).
Proof.
  split.
  - exists [KPost [KBind; KEnable; KSetup long_cancel]; CRead []; CHandle; CHandle; CHandle;
            CRead (rec_bytes KUnbind); CHandle].
    eexists. split; [vm_compute; reflexivity|]. repeat split.
  - exists [KPost [KSetup long_cancel]; CRead []; CHandle; CRead [0;0;0;0;0;0;0;0;200;0;0;0]; CHandle].
    vm_compute. reflexivity.
Qed.

(** ** C73  The status answered is the one last set. *)
Theorem C73_last_status_partial : forall l s s' b,
  Forall short l ->
  crun l ctl_init = Ret s -> cstep CHandle s = Ret s' -> c_log s' = VData b :: c_log s -> b <> [] ->
  exists st su, last_set l = Some st /\ c_ep0 s = Pending su /\ b = take (s_len su) (status_data st).
Proof.
  intros l s s' b F R H L NE.
  pose proof (crun_status l _ _ R) as ST. cbn [ctl_init c_status] in ST.
  fold (last_set l) in ST.
  cbn [cstep] in H. destruct (c_todo s) as [|r rest]; [injection H as <-|].
  { exfalso. apply (f_equal (@length cev)) in L. cbn in L. lia. }
  unfold handle_event in H.
  assert (K : forall g, Ret (note (VSig g) (mk_cst (c_q s) (c_ep0 s) rest (c_status s) (c_log s))) = Ret s' -> False).
  { intros g E. apply Ret_inj in E. subst s'. cbn [note c_log] in L. discriminate. }
  destruct (nth 8 r 0) as [|p]; [exfalso; eapply K; eauto|].
  do 3 (try (destruct p as [p|p|])); try discriminate H; try (exfalso; eapply K; eauto; fail).
  assert (W : forall x, ep0_write x (mk_cst (c_q s) (c_ep0 s) rest (c_status s) (c_log s)) = s' ->
              exists su, c_ep0 s = Pending su /\ b = take (s_len su) x).
  { intros x E. subst s'. unfold ep0_write in L. cbn [c_ep0] in L.
    destruct (c_ep0 s) as [|su|].
    - exfalso. cbn [c_log] in L. apply (f_equal (@length cev)) in L. cbn in L. lia.
    - destruct (dir_in _); cbn [set_ep0 note c_log] in L; [injection L as <-; eauto|discriminate L].
    - exfalso. cbn [set_ep0 c_log] in L. apply (f_equal (@length cev)) in L. cbn in L. lia. }
  assert (S : forall x, stall x (mk_cst (c_q s) (c_ep0 s) rest (c_status s) (c_log s)) = s' -> False).
  { intros [|] E; cbn [stall] in E.
    - subst s'. unfold ep0_read0 in L. cbn [c_ep0] in L. destruct (c_ep0 s) as [|su|].
      + cbn [c_log] in L. apply (f_equal (@length cev)) in L. cbn in L. lia.
      + destruct (dir_in _); cbn [set_ep0 note c_log] in L; discriminate.
      + cbn [set_ep0 c_log] in L. apply (f_equal (@length cev)) in L. cbn in L. lia.
    - destruct (W [] E) as [su [_ B]]. apply NE. rewrite B. unfold take. now rewrite firstn_nil. }
  unfold setup_request in H.
  destruct (_ =? 0x67); [destruct (_ =? 0xa1)|destruct (_ =? 0x64); [|destruct (_ =? 0x66)]].
  - unfold send_status in H. cbn [c_status] in H. rewrite ST in H.
    destruct (last_set l) as [st|] eqn:LS; [|discriminate]. apply Ret_inj in H.
    rewrite ST in W. destruct (W _ H) as [su [A B]]. eauto.
  - exfalso. apply Ret_inj in H. eapply S; eauto.
  - exfalso. eapply K; eauto.
  - exfalso. eapply K; eauto.
  - exfalso. apply Ret_inj in H. eapply S; eauto.
Qed.

(** False before the first one: m_status is never initialised. *)
Theorem C73_uninitialised_refuted : exists l, Forall short l /\
  crun l ctl_init = UB /\ last_set l = None.
Proof.
  exists [KPost [KSetup (mk_setup 0xa1 0x67 0 0 4)]; CRead []; CHandle].
  split; [repeat constructor|]. split; reflexivity.
Qed.

(** ** Concrete cases *)
Example ex_C72 : exists s,
  crun [MSetStatus 1; KPost [KBind; KEnable; KSetup (mk_setup 0xa1 0x67 0 0 2)]; CRead []; CHandle; CHandle; CHandle;
        KPost [KSetup (mk_setup 0x21 0x64 0 0 6)]; CRead []; CHandle; CRead [1;0x40;5;0;0;0]; KPost [KSuspend]; CRead []; CHandle] ctl_init = Ret s
  /\ signals (c_log s) = [SBind; SStart; SCancel; SStop] /\ c_todo s = []
  /\ filter conclusion (c_log s) = [VAck (mk_setup 0x21 0x64 0 0 6) [1;0x40;5;0;0;0]; VData [4; 0]].
Proof. eexists. split; [vm_compute; reflexivity|]. repeat split. Qed.
Example ex_C73 : exists s s', crun [MSetStatus 0; MSetStatus 1; KPost [KSetup (mk_setup 0xa1 0x67 0 0 4)]; CRead []] ctl_init = Ret s
  /\ cstep CHandle s = Ret s' /\ c_log s' = VData [4; 0; 0x19; 0x20] :: c_log s.
Proof. do 2 eexists. split; [vm_compute; reflexivity|]. split; vm_compute; reflexivity. Qed.

Print Assumptions C72_passed_on_in_order_partial.
Print Assumptions C72_no_crash_partial.
Print Assumptions C72_answered_at_most_once.
Print Assumptions C72_answered.
Print Assumptions C72_forged_events_refuted.
Print Assumptions C73_last_status_partial.
Print Assumptions C73_uninitialised_refuted.
