(** C96: the value of an object property, from the request to the object. *)
From Verif Require Import Base AList Wire FS FSPath FSTree FSLogic FSSpec FSReach FSProps FSDemo P_FS P_FS2 P_FS3 P_FS4 P_FSProps Device DeviceProofs DeviceRead DeviceInfo DeviceOps P_Device.
From Verif Require WireSpec Responder RSpec RExt RLogic ROne2 RSession ROps RDemo P_Ops.
Import Responder(act, ans, scall, rstate, ACall, r_log, r_st, r_session, OP_GetObjectPropValue).
Import RSpec(responses, datas, command_ok, tables_ok).
Import ROne2(command).
Import RSession(resp_out).
Import ROps(asked, follows, Ask).

(** ** Specification *)
(** What the storage factory answers when asked for one property of one object, after the log [l]:
    the value the object has now.  That the factory's cache does not change this is C57 (all
    announced changes delivered, nothing written and not yet flushed); that the storage computes
    the object's value is C70. *)
Definition serves (C : conf) (fuel : nat) (rest : list (act * ans) -> act -> ans) (n : nat) (w : fs) : Prop :=
  forall l w1 h v d x, state_after C fuel n w l = Ret w1 -> look w1 h = Some v -> property_of v (opd_code d) x ->
    let r := rest l (ACall (Responder.SGetProps h [d])) in Responder.a_code r = R_OK /\ map snd (Responder.a_vals r) = [x].

(** ** Proofs *)
(** a question that is not for the file system storage *)
Lemma play_other C fuel rest n w0 l base w c k d code ps : carries C fuel rest n w0 l base w (Ask c k) d code ps -> RSpec.harmless c = false -> storage C fuel c = None ->
  exists l2 n0, l2 ++ (ACall c, rest (n0 ++ base) (ACall c)) :: n0 ++ base = l ++ base /\ state_after C fuel n w0 (n0 ++ base) = Ret w /\
    carries C fuel rest n w0 l2 ((ACall c, rest (n0 ++ base) (ACall c)) :: n0 ++ base) w (k (rest (n0 ++ base) (ACall c))) d code ps.
Proof.
  intros (LE & E & AG & F) H ST. inversion F as [|? ? r' conv ? ? ? H' F' EQ1 EQ2|? ? ? ? ? ? ? H']; [subst|congruence].
  destruct (first_asked l c r' conv ltac:(congruence)) as (l2 & n0 & -> & A & B & _). exists l2, n0.
  pose proof (quiet_after C fuel rest n w0 base w n0 LE E A) as E2.
  assert (X : r' = rest (n0 ++ base) (ACall c)).
  { rewrite <- (AG l2 (ACall c) r' (n0 ++ base)); [|rewrite <- app_assoc; reflexivity|rewrite app_length; lia]. unfold device. rewrite ST. reflexivity. }
  rewrite <- X. split; [rewrite <- app_assoc; reflexivity|]. split; [exact E2|]. split; [cbn [length]; rewrite app_length; lia|]. split.
  { cbn [state_after]. replace (length ((ACall c, r') :: n0 ++ base) <=? n)%nat with false by (symmetry; apply Nat.leb_gt; cbn [length]; rewrite app_length; lia). rewrite ST, E2. reflexivity. }
  split; [|rewrite B; exact F'].
  intros pre a x l E3 L3. apply (AG pre a x l); [rewrite <- E3, <- app_assoc; reflexivity|]. cbn [length] in L3. rewrite app_length in L3. lia.
Qed.

(** ** C96 *)
Theorem C96_get_value : forall C fuel rest formats cat props_by_type prop_desc s w tid h p,
  at_work C rest s w -> tables_ok props_by_type prop_desc -> serves C fuel rest (length (r_log s)) w ->
  command_ok OP_GetObjectPropValue tid [h; p] -> tid <> 0 -> tid <> 0xFFFFFFFF -> p < 65536 ->
  exists s' l, Responder.run (device C fuel rest (length (r_log s)) w) formats cat props_by_type prop_desc [command OP_GetObjectPropValue tid [h; p]] s = Ret (tt, s') /\
    r_st s' = Responder.IDLE /\ r_session s' = r_session s /\ r_log s' = l ++ r_log s /\ storage_kept C fuel s s' w /\
    match look w h with
    | None => datas l = [] /\ responses l = [resp_out R_InvalidObjectHandle tid []]
    | Some v => forall fmt, v_format v = Some fmt ->
      match prop_desc (cat fmt) p with
      | (c, Some d) =>
        if c =? R_OK then
          (* a property of objects of this format, and one that every object has: its value, in its type *)
          forall x, opd_code d = p -> property_of v p x ->
            datas l = [inl (Responder.mk_out TYPE_DATA OP_GetObjectPropValue tid (Responder.PItems [WireSpec.IVal (opd_type d) x]))] /\ responses l = [resp_out R_OK tid []]
        else datas l = [] /\ responses l = [resp_out c tid []]
      | (c, None) => datas l = [] /\ responses l = [resp_out c tid []]
      end
    end.
Proof.
  intros C fuel rest formats cat pt pd s w tid h p AW TO SV CO T1 T2 PB. pose proof AW as [SO R Q T RD ID SE].
  destruct (device_request C fuel rest formats cat pt pd s w OP_GetObjectPropValue tid [h; p] _ AW TO CO T1 T2 eq_refl) as (s' & l & d & c & params & E & L & I & S & DT & RS & K). cbn [nth RLogic.pars app] in K.
  rewrite (N.mod_small p 65536 PB) in K.
  exists s', l. split; [exact E|]. split; [exact I|]. split; [exact S|]. split; [exact L|].
  pose proof (known_look C SO w h R) as KL. destruct (look w h) as [v|] eqn:LK.
  - destruct (info_unchanged C SO w h v R LK) as (o & w' & EI & VI & U1 & U2 & U3 & _).
    assert (EM : forall m, storage C fuel (Responder.SGetInfo h) = Some m -> m w = Ret (reply R_OK [] [] o, w')).
    { cbn [storage]. intros m [= <-]. unfold owned. rewrite (proj2 KL) by discriminate. unfold tell. rewrite EI. reflexivity. }
    destruct (play_ask C fuel rest _ w l _ w _ _ d c params _ _ _ K eq_refl eq_refl (EM _ eq_refl)) as (l1 & b1 & z & E1 & K1). cbn [with_async reply Responder.a_code Responder.a_info] in K1. change (ROps.ok R_OK) with true in K1. cbv iota in K1.
    assert (KEPT : forall l2 b2, l2 ++ b2 = l1 ++ b1 -> state_after C fuel (length (r_log s)) w (l2 ++ b2) = Ret w' -> storage_kept C fuel s s' w).
    { intros l2 b2 X Y. exists w'. rewrite L, <- E1, <- X. auto. }
    assert (VF : v_format v = Some (oi_format o)) by (unfold v_format; rewrite VI; reflexivity).
    destruct (pd (cat (oi_format o)) p) as [c1 [d1|]] eqn:PD.
    + unfold ROps.ok in K1 at 1. change Responder.R_OK with R_OK in K1. destruct (c1 =? R_OK) eqn:OK1.
      * destruct (play_other C fuel rest _ w l1 b1 w' _ _ d c params K1 eq_refl eq_refl) as (l2 & n0 & E2 & ST2 & K2). cbv zeta in K2.
        assert (FIN : storage_kept C fuel s s' w /\ (Responder.a_code (rest (n0 ++ b1) (ACall (Responder.SGetProps h [d1]))) = R_OK ->
                   d = Some (Responder.PItems [WireSpec.IVal (opd_type d1) (match Responder.a_vals (rest (n0 ++ b1) (ACall (Responder.SGetProps h [d1]))) with [(_, x)] => x | _ => VNull end)]) /\ c = R_OK /\ params = [])).
        { set (r2 := rest (n0 ++ b1) _) in *. destruct (Responder.a_code r2 =? Responder.R_ObjectProp_Not_Supported) eqn:NS.
          - apply N.eqb_eq in NS. split; [|rewrite NS; discriminate].
            destruct K2 as (LE & ST & AG & F). inversion F as [|? ? r' conv ? ? ? H' F' EQ1 EQ2|? ? ? ? ? ? ? H' F']; [discriminate H'|subst].
            unfold ROps.relay in F'. unfold ROps.ok in F'. rewrite NS in F'. change (Responder.R_ObjectProp_Not_Supported =? Responder.R_OK) with false in F'. cbv iota in F'.
            assert (K3 : carries C fuel rest (length (r_log s)) w l2 ((ACall (Responder.SGetProps h [d1]), r2) :: n0 ++ b1) w' (ROps.fail Responder.R_ObjectProp_Not_Supported) d c params) by (split; [exact LE|split; [exact ST|split; [exact AG|exact F']]]).
            apply play_end in K3 as (_ & _ & _ & K3). exact (KEPT _ _ E2 K3).
          - unfold ROps.relay, ROps.ok in K2. change Responder.R_OK with R_OK in K2. destruct (Responder.a_code r2 =? R_OK) eqn:OK2; apply play_end in K2 as (-> & -> & -> & K2); (split; [exact (KEPT _ _ E2 K2)|]); intros X; [auto|]. rewrite X in OK2. discriminate. }
        destruct FIN as [FK FV]. split; [exact FK|]. intros fmt HF. rewrite VF in HF. injection HF as <-. rewrite PD, OK1. intros x PC PV.
        destruct (SV (n0 ++ b1) w' h v d1 x) as [V1 V2]; [exact ST2|rewrite U2; exact LK|rewrite PC; exact PV|].
        destruct (FV V1) as (-> & -> & ->). split; [|exact RS]. rewrite DT. set (a := Responder.a_vals _) in *. destruct a as [|[? y] [|? ?]]; try discriminate V2. cbn in V2. injection V2 as ->. reflexivity.
      * apply play_end in K1 as (-> & -> & -> & K1). split; [exact (KEPT _ _ eq_refl K1)|]. intros fmt HF. rewrite VF in HF. injection HF as <-. rewrite PD, OK1. auto.
    + apply play_end in K1 as (-> & -> & -> & K1). split; [exact (KEPT _ _ eq_refl K1)|]. intros fmt HF. rewrite VF in HF. injection HF as <-. rewrite PD. auto.
  - assert (EM : forall m, storage C fuel (Responder.SGetInfo h) = Some m -> m w = Ret (code R_InvalidObjectHandle, w)).
    { cbn [storage]. intros m [= <-]. unfold owned. destruct (ahas h (s_handles w)); [exfalso; apply (proj1 KL); reflexivity|reflexivity]. }
    destruct (play_ask C fuel rest _ w l _ w _ _ d c params _ _ _ K eq_refl eq_refl (EM _ eq_refl)) as (l1 & b1 & z & E1 & K1). apply play_end in K1 as (-> & -> & -> & K1).
    split; [exists w; rewrite L, <- E1; auto|]. auto.
Qed.
(** ** Such a factory *)
Definition answering (C : conf) (fuel : nat) (n : nat) (w : fs) (l : list (act * ans)) (a : act) : ans :=
  match a with
  | ACall (Responder.SGetProps h [d]) =>
    match state_after C fuel n w l with
    | Ret w1 => match look w1 h with
      | Some v => match v_info v with
        | Some o => match prop_case (opd_code d) o (v_puoid v) [] with
          | Some x => Responder.mk_ans R_OK [] [] no_info [(opd_code d, x)] None [] true []
          | None => calm l a
          end
        | None => calm l a
        end
      | None => calm l a
      end
    | _ => calm l a
    end
  | _ => calm l a
  end.
Lemma answering_serves C fuel n w : serves C fuel (answering C fuel n w) n w.
Proof.
  intros l w1 h v d x ST LK (o & Ho & PV). cbn [answering]. rewrite ST, LK, Ho.
  assert (P : prop_case (opd_code d) o (v_puoid v) [] = Some x).
  { cbn [In] in PV. repeat (destruct PV as [PV|PV]; [injection PV as <- <-; reflexivity|]). contradiction. }
  rewrite P. split; reflexivity.
Qed.
Lemma answering_field {A} (f : ans -> A) C fuel n w : (forall c nums bs i vals dpd items, f (Responder.mk_ans c nums bs i vals dpd items true []) = f (Responder.mk_ans R_OK [] [] no_info [] None [] true [])) ->
  forall l a, f (answering C fuel n w l a) = f (calm l a).
Proof.
  intros H l a. unfold answering. destruct a as [[]| | | | |]; try reflexivity. destruct ds as [|d [|? ?]]; try reflexivity.
  destruct (state_after C fuel n w l) as [w1| |]; try reflexivity. destruct (look w1 h) as [v|]; try reflexivity. destruct (v_info v) as [o|]; try reflexivity. destruct (prop_case _ _ _ _); try reflexivity. apply H.
Qed.
Lemma answering_ok C fuel n w : RSpec.undisturbed (answering C fuel n w) /\ RSpec.transport_works (answering C fuel n w) /\ RSpec.storage_is_ready (answering C fuel n w).
Proof.
  destruct calm_ok as (A & B & D). split; [|split].
  - intros l a. rewrite (answering_field Responder.a_async) by reflexivity. apply A.
  - intros l b x. apply (B l b x).
  - intros l. apply (D l).
Qed.
(** the size of /s/a/b is asked for; and that of an object that does not exist *)
Definition demo_rest := answering FSDemo.quiet 5 0 (demo_start FSDemo.quiet).
Definition demo_run (m : Responder.input) (s : rstate) : outcome (unit * rstate) :=
  Responder.run (device FSDemo.quiet 5 demo_rest 0 (demo_start FSDemo.quiet)) [] RDemo.cat0 RDemo.props0 RDemo.desc0 [m] s.
Example C96_example : exists s' s'',
  at_work FSDemo.quiet demo_rest RDemo.in_session (demo_start FSDemo.quiet) /\ serves FSDemo.quiet 5 demo_rest (length (r_log RDemo.in_session)) (demo_start FSDemo.quiet) /\
  demo_run (command OP_GetObjectPropValue 5 [12; 0xDC04]) RDemo.in_session = Ret (tt, s') /\
  datas (r_log s') = [inl (Responder.mk_out TYPE_DATA OP_GetObjectPropValue 5 (Responder.PItems [WireSpec.IVal DT_UINT16 (VInt 5)]))] /\
  responses (r_log s') = [resp_out R_OK 5 []] /\
  demo_run (command OP_GetObjectPropValue 6 [13; 0xDC04]) s' = Ret (tt, s'') /\
  responses (r_log s'') = [resp_out R_InvalidObjectHandle 6 []; resp_out R_OK 5 []].
Proof.
  eexists. eexists. destruct (answering_ok FSDemo.quiet 5 0 (demo_start FSDemo.quiet)) as (A & B & D).
  split; [split; [apply demo_supply|apply P_Device.demo_at_work|exact A|exact B|exact D|apply P_Device.demo_at_work|apply P_Device.demo_at_work]|].
  split; [apply answering_serves|]. split; [vm_compute; reflexivity|]. split; [vm_compute; reflexivity|]. split; [vm_compute; reflexivity|]. split; vm_compute; reflexivity.
Qed.
Print Assumptions C96_get_value.
