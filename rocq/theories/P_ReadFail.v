(** C95: downloads from a disk that may fail at any moment. *)
From Verif Require Import Base AList Wire FS FSPath FSTree FSLogic FSSpec FSReach FSData FSView FSProps FSDemo P_FS P_FS3 P_FS4 P_FSProps Device DeviceProofs DeviceRead.
From Verif Require Responder RSpec RExt ROne2 RLogic RSession RRead RReadFail RSend P_Read P_Device RDemo.
Import Responder(act, ans, scall, ACall, mk_ans, a_async, r_log, r_st, r_session, a_code, a_bytes, OP_GetObject, OP_GetPartialObject, OP_GetPartialObject64).
Import RSpec(responses, command_ok).
Import ROne2(command).
Import RRead(packets, transfers).
Import RReadFail(stops, failed_read).
Import RSession(resp_out).
Import P_Device(at_work, storage_kept).

Section R.
Variables (C : conf) (fuel : nat) (rest : list (act * ans) -> act -> ans) (SO : supply_ok C).
Variables (n : nat) (w : fs) (h : N) (c : bytes) (R : reachable C w) (L63 : len c < 2^63).
Variables (v : view) (o : objinfo) (HL : look w h = Some v) (HC : content w (v_path v) = Some (File c)) (HI : v_info v = Some o) (HS : oi_size o = len c) (HF : oi_format o <> FMT_Association).
Notation E := (guarded (device C fuel rest n w) (stub o c) n).
Lemma E_tries : RReadFail.tries E h c.
Proof.
  split.
  - intros l. destruct (E_info C fuel rest SO n w h c R v o HL HI l) as (y & ->). reflexivity.
  - intros l. destruct (E_info C fuel rest SO n w h c R v o HL HI l) as (y & ->). exact HF.
  - intros l. destruct (E_info C fuel rest SO n w h c R v o HL HI l) as (y & ->). exact HS.
  - intros l k off B. unfold guarded. destruct (asks_since n l) eqn:A; [|reflexivity].
    destruct (since_after C fuel n w l SO R A) as (w1 & S & U). destruct U as (R1 & L1 & C1 & _).
    destruct (read_unchanged C SO w1 h k off R1) as (c0 & bs & w2 & G & _).
    erewrite (device_call C fuel rest n w l (Responder.SRead h k off) _ w1 _ w2 eq_refl S).
    2:{ unfold owned. replace (ahas h (s_handles w1)) with true by (symmetry; apply (known_look C SO w1 h R1); rewrite L1, HL; discriminate). unfold tell. rewrite G. reflexivity. }
    cbn. intros K0. subst c0.
    destruct (reachable_good C w1 SO R1) as (r & [[ch W] _]). destruct (read_data_ok C h k off w1 ch r W) as (c1 & b1 & w3 & G1 & _ & K & _). rewrite G in G1. apply Ret_inj in G1. injection G1 as <- <- <-.
    destruct (K eq_refl) as (p & i & d & P1 & P2 & P3 & P4 & _). rewrite <- L1 in HL. unfold look in HL. rewrite P1, P2 in HL. injection HL as <-. unfold content in C1, HC. rewrite <- C1 in HC. cbn [v_path view_of] in HC. congruence.
Qed.
End R.

(** The requests for object content: operation, parameters, object, offset, number of bytes *)
Inductive asks_for : N -> list N -> N -> N -> N -> Prop :=
| asks_whole h : asks_for OP_GetObject [h] h 0 (0xFFFFFFFF - 12)
| asks_part h off n : off < 2^32 -> n < 2^32 -> asks_for OP_GetPartialObject [h; off; n] h off n
| asks_part64 h lo hi n : lo < 2^32 -> hi < 2^32 -> n < 2^32 -> asks_for OP_GetPartialObject64 [h; lo; hi; n] h (hi * 2^32 + lo) n.

Lemma any_read (C : conf) fuel rest formats cat pt pd s w op ps tid h off n c :
  at_work C rest s w -> holds_file w h c -> len c < 2^63 -> asks_for op ps h off n -> off <= len c ->
  tid <> 0 -> tid < 0xFFFFFFFF -> h < 2^32 ->
  exists s' l, Responder.step (device C fuel rest (length (r_log s)) w) formats cat pt pd (command op tid ps) s = Ret (tt, s') /\
    r_log s' = l ++ r_log s /\ storage_kept C fuel s s' w /\ RReadFail.outcome_of c Responder.WAIT_RESP op tid (take n (drop off c)) s' l.
Proof.
  intros [SO R Q T RD ID SE] (v & o & HL & HC & HI & HS & HF) L63 AF LE T1 T2 Hh.
  set (m := length (r_log s)). set (D := device C fuel rest m w).
  assert (Hps : command_ok op tid ps).
  { inversion AF; subst; (split; [reflexivity|]); (split; [lia|]); (split; [discriminate|]); repeat constructor; assumption. }
  assert (EX : exists s' l, Responder.step (guarded D (stub o c) m) formats cat pt pd (command op tid ps) s = Ret (tt, s') /\
    r_log s' = l ++ r_log s /\ RReadFail.outcome_of c Responder.WAIT_RESP op tid (take n (drop off c)) s' l).
  { pose proof (RReadFail.read_command_any (guarded D (stub o c) m) (E_undisturbed C fuel rest m w c o Q) (E_transport C fuel rest m w c o T) h c
      (E_tries C fuel rest SO m w h c R v o HL HC HI HS HF) formats cat pt pd (E_ready C fuel rest m w c o RD) op tid ps s) as K.
    inversion AF as [h0|h0 off0 n0 B1 B2|h0 lo hi n0 B1 B2 B3]; subst.
    - exact (K (fun _ => 0) (fun _ => 0xFFFFFFFF - 12) ID Hps SE T1 ltac:(lia) eq_refl eq_refl L63 LE eq_refl).
    - exact (K (fun q => Responder.par q 1) (fun q => Responder.par q 2) ID Hps SE T1 ltac:(lia) eq_refl eq_refl L63 LE B2).
    - assert (Ho : Responder.off64 lo hi = hi * 2^32 + lo). { unfold Responder.off64, u64. apply N.mod_small. change (2^32) with 4294967296 in *. nia. }
      pose proof (K (fun q => Responder.off64 (Responder.par q 1) (Responder.par q 2)) (fun q => Responder.par q 3) ID Hps SE T1 ltac:(lia) eq_refl eq_refl L63) as K1.
      cbv zeta beta in K1. change (Responder.off64 (Responder.par _ 1) (Responder.par _ 2)) with (Responder.off64 lo hi) in K1. rewrite Ho in K1. exact (K1 LE B3). }
  destruct EX as (s' & l & S1 & S3 & S4). exists s', l. destruct S4 as (S4 & S5).
  pose proof S4 as S6. apply inside_asks in S4. apply step_run in S1. apply (guarded_run D _ m _ _ _ _ _ _ _ l eq_refl S1 S3) in S4 as S7. apply step_run in S7.
  split; [exact S7|]. split; [exact S3|]. split; [|split; [exact S6|exact S5]].
  destruct (asks_after C fuel SO m w (r_log s) l R eq_refl S4) as (w' & A & B1 & B2 & B3 & _). exists w'. rewrite S3. auto.
Qed.

(** ** C95 *)
(** The storage holds the file [c] under [h]; the disk may fail at any read.  The
    initiator gets either all that was asked for and OK; or, if nothing has been sent
    yet, an error that the disk reported; or a beginning of the content, declared with its
    full length and not marked as complete, and no response.  The storage is unchanged. *)
Theorem C95_never_passed_off : forall C fuel rest formats cat props_by_type prop_desc s w op ps tid h off n c,
  at_work C rest s w -> holds_file w h c -> len c < 2^63 -> asks_for op ps h off n -> off <= len c ->
  tid <> 0 -> tid < 0xFFFFFFFF -> h < 2^32 ->
  exists s' l, Responder.step (device C fuel rest (length (r_log s)) w) formats cat props_by_type prop_desc (command op tid ps) s = Ret (tt, s') /\
    r_log s' = l ++ r_log s /\ storage_kept C fuel s s' w /\
    let asked := take n (drop off c) in
    ((exists p, responses l = [resp_out R_OK tid p]) /\ transfers op tid asked (packets l) \/
     (exists code p, responses l = [resp_out code tid p] /\ failed_read code l) /\ packets l = [] \/
     responses l = [] /\ (exists code, failed_read code l) /\ stops op tid asked (packets l)).
Proof.
  intros C fuel rest formats cat pt pd s w op ps tid h off n c AW HF L63 AF LE T1 T2 Hh.
  destruct (any_read C fuel rest formats cat pt pd s w op ps tid h off n c AW HF L63 AF LE T1 T2 Hh) as (s' & l & S & L & K & _ & O).
  exists s', l. split; [exact S|]. split; [exact L|]. split; [exact K|]. cbv zeta.
  destruct O as [(_ & A & B)|[(code & _ & A & B & D)|(code & _ & A & B & D)]].
  - left. split; [exists (if op =? OP_GetPartialObject then [if Responder.MAX_CONTENT <? len (take n (drop off c)) then 0xFFFFFFFF else len (take n (drop off c))] else []); exact B|exact A].
  - right; left. split; [|exact B]. exists code. eexists. split; [exact D|exact A].
  - right; right. split; [exact D|]. split; [exists code; exact A|exact B].
Qed.
(** The third way leaves the two sides out of step: the initiator's next packet, whatever
    it is, is thrown away and the transport reset. *)
Theorem C95_next_request_refuted : forall C fuel rest formats cat props_by_type prop_desc s w op ps tid h off n c,
  at_work C rest s w -> holds_file w h c -> len c < 2^63 -> asks_for op ps h off n -> off <= len c ->
  tid <> 0 -> tid < 0xFFFFFFFF -> h < 2^32 ->
  forall s' l, Responder.step (device C fuel rest (length (r_log s)) w) formats cat props_by_type prop_desc (command op tid ps) s = Ret (tt, s') ->
    r_log s' = l ++ r_log s -> responses l = [] ->
    forall env2 packet first last, exists s2 r, Responder.step env2 formats cat props_by_type prop_desc (Responder.IRecv packet first last) s' = Ret (tt, s2) /\
      r_log s2 = (Responder.AReset, r) :: r_log s'.
Proof.
  intros C fuel rest formats cat pt pd s w op ps tid h off n c AW HF L63 AF LE T1 T2 Hh s' l S L RS env2 d f b.
  destruct (any_read C fuel rest formats cat pt pd s w op ps tid h off n c AW HF L63 AF LE T1 T2 Hh) as (s1 & l1 & S1 & L1 & _ & _ & O).
  rewrite S in S1. apply Ret_inj in S1. assert (s1 = s') by congruence. subst s1. rewrite L in L1. apply app_inv_tail in L1. subst l1.
  assert (ST : r_st s' = Responder.WAIT_RESP).
  { rewrite RS in O. destruct O as [(_ & _ & B)|[(code & _ & A & B & D)|(code & A & _)]]; [discriminate B|discriminate D|exact A]. }
  destruct (RReadFail.discarded env2 formats cat pt pd d f b s' ST) as (s2 & r & E1 & E2 & _). exists s2, r. auto.
Qed.
(** a disk whose 22nd operation, the opening of the file for reading, fails *)
Example C95_example : at_work (fail_at 22) P_Device.calm RDemo.in_session (demo_start (fail_at 22)) /\
  holds_file (demo_start (fail_at 22)) 12 [1; 2; 3; 4; 5] /\ asks_for OP_GetObject [12] 12 0 (0xFFFFFFFF - 12) /\
  exists s', Responder.step (device (fail_at 22) 5 P_Device.calm 0 (demo_start (fail_at 22))) [] RDemo.cat0 RDemo.props0 RDemo.desc0 (command OP_GetObject 5 [12]) RDemo.in_session = Ret (tt, s') /\
    responses (r_log s') = [resp_out 0x200F 5 []] /\ packets (r_log s') = [].
Proof.
  split. { split; [apply demo_supply|exact reach22|apply P_Device.calm_ok..|left; reflexivity|discriminate]. }
  split. { eexists. eexists. split; [vm_compute; reflexivity|]. split; [vm_compute; reflexivity|]. split; [vm_compute; reflexivity|]. split; [reflexivity|discriminate]. }
  split; [constructor|]. eexists. split; [vm_compute; reflexivity|]. split; vm_compute; reflexivity.
Qed.
(** an object of 20000 bytes of which the second read fails: data, no response, and the next
    request is thrown away *)
Example C95_middle : 
  let env := RDemo.demo (fun a => match a with ACall (Responder.SRead _ _ off) => if off =? 0 then None else Some (RDemo.fail Responder.R_GeneralError) | _ => None end) in
  exists s1 s2, RDemo.demo_step env (command OP_GetObject 9 [7]) RDemo.in_session = Ret (tt, s1) /\ length (packets (r_log s1)) = 1%nat /\ responses (r_log s1) = [] /\
    RDemo.demo_step env (command OP_GetObject 10 [7]) s1 = Ret (tt, s2) /\ responses (r_log s2) = [].
Proof. eexists. eexists. split; [vm_compute; reflexivity|]. split; [vm_compute; reflexivity|]. split; [vm_compute; reflexivity|]. split; vm_compute; reflexivity. Qed.
Print Assumptions C95_never_passed_off.
Print Assumptions C95_next_request_refuted.
