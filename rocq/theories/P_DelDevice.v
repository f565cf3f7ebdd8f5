(** C94 at the device: DeleteObject(0xFFFFFFFF, format), from the request to the files. *)
From Coq Require Import Permutation.
From Verif Require Import Base AList Wire FS FSPath FSTree FSLogic FSSpec FSReach FSDemo P_FS P_FS4 Device DeviceProofs DeviceRead DeviceInfo DeviceOps P_Device P_DelAll.
From Verif Require WireSpec Responder RSpec RLogic ROne2 RSession ROps RDemo.
Import Responder(act, ans, scall, rstate, r_log, r_st, r_session, OP_DeleteObject).
Import RSpec(responses, datas, command_ok, tables_ok).
Import ROne2(command).
Import RSession(resp_out).

Lemma delete_all_run C fuel rest formats cat pt pd s w tid fmt c w' : at_work C rest s w -> tables_ok pt pd -> command_ok OP_DeleteObject tid [ALL; fmt] -> tid <> 0 -> tid <> 0xFFFFFFFF ->
  delete_item C fuel (akeys (s_handles w)) ALL (fmt mod 65536) w = Ret (c, w') ->
  exists s' l, Responder.run (device C fuel rest (length (r_log s)) w) formats cat pt pd [command OP_DeleteObject tid [ALL; fmt]] s = Ret (tt, s') /\
    r_st s' = Responder.IDLE /\ r_session s' = r_session s /\ r_log s' = l ++ r_log s /\ datas l = [] /\ responses l = [resp_out c tid []] /\
    state_after C fuel (length (r_log s)) w (r_log s') = Ret w'.
Proof.
  intros AW TO CO T1 T2 ED. pose proof AW as [SO R Q T RD ID SE].
  destruct (device_request C fuel rest formats cat pt pd s w OP_DeleteObject tid [ALL; fmt] _ AW TO CO T1 T2 eq_refl) as (s' & l & d & c0 & params & E & L & I & S & DT & RS & K). cbn [nth RLogic.pars app] in K.
  exists s', l. split; [exact E|]. split; [exact I|]. split; [exact S|]. split; [exact L|].
  assert (EM : forall m, storage C fuel (Responder.SDelete ALL (fmt mod 65536)) = Some m -> m w = Ret (code c, w')).
  { cbn [storage]. intros m [= <-]. change (ALL =? Responder.ALL) with true. cbn [orb]. unfold tell. rewrite ED. reflexivity. }
  destruct (play_ask C fuel rest _ w l _ w _ _ d c0 params _ _ _ K eq_refl eq_refl (EM _ eq_refl)) as (l1 & b1 & z & E1 & K1). apply play_end in K1 as (-> & -> & -> & K1).
  split; [exact DT|]. split; [exact RS|]. rewrite L, <- E1. exact K1.
Qed.

(** all objects of a format *)
Theorem C94_format_request : forall C fuel rest formats cat props_by_type prop_desc s w tid fmt,
  at_work C rest s w -> tables_ok props_by_type prop_desc -> command_ok OP_DeleteObject tid [ALL; fmt] -> tid <> 0 -> tid <> 0xFFFFFFFF ->
  fmt < 65536 -> fmt <> 0 -> fmt <> FMT_Undefined -> (forall h v c u, look w h = Some v -> v_format v = Some fmt -> look w c = Some u -> v_parent u <> Some h) ->
  exists s' l c w', Responder.run (device C (S fuel) rest (length (r_log s)) w) formats cat props_by_type prop_desc [command OP_DeleteObject tid [ALL; fmt]] s = Ret (tt, s') /\
    r_st s' = Responder.IDLE /\ r_session s' = r_session s /\ r_log s' = l ++ r_log s /\ datas l = [] /\ responses l = [resp_out c tid []] /\
    state_after C (S fuel) (length (r_log s)) w (r_log s') = Ret w' /\ reachable C w' /\
    (forall x v, look w x = Some v -> v_format v <> Some fmt -> look w' x = Some v) /\
    (forall x v, look w' x = Some v -> look w x = Some v) /\
    (forall x v, look w x = Some v -> v_format v = Some fmt -> content w' (v_path v) = match look w' x with Some _ => content w (v_path v) | None => None end) /\
    (forall y, (forall x v, look w x = Some v -> v_format v = Some fmt -> v_path v <> y) -> content w' y = content w y) /\
    (c = R_OK -> forall x v, look w x = Some v -> v_format v = Some fmt -> look w' x = None) /\
    ((forall t, c_fail C t = false) -> (forall x v, look w x = Some v -> v_format v = Some fmt -> x <> 0 /\ removable w v) -> forall x v, look w x = Some v -> v_format v = Some fmt -> look w' x = None).
Proof.
  intros C fuel rest formats cat pt pd s w tid fmt AW TO CO T1 T2 LT N0 NU CL. pose proof AW as [SO R Q T RD ID SE].
  destruct (C94_format_partial C w fuel (akeys (s_handles w)) fmt SO R N0 NU (Permutation_refl _) CL) as (c & w' & E & R' & B1 & B2 & B3 & B4 & B5 & B6 & B7 & _).
  destruct (delete_all_run C (S fuel) rest formats cat pt pd s w tid fmt c w' AW TO CO T1 T2) as (s' & l & A1 & A2 & A3 & A4 & A5 & A6 & A7); [rewrite N.mod_small by exact LT; exact E|].
  exists s', l, c, w'. repeat (split; [assumption|]). assumption.
Qed.
(** everything *)
Theorem C94_everything_request : forall C rest formats cat props_by_type prop_desc s w tid,
  at_work C rest s w -> tables_ok props_by_type prop_desc -> command_ok OP_DeleteObject tid [ALL; 0] -> tid <> 0 -> tid <> 0xFFFFFFFF -> (forall t, c_fail C t = false) -> accurate w 0 ->
  exists F, forall fuel, (F <= fuel)%nat ->
  exists s' l c w', Responder.run (device C fuel rest (length (r_log s)) w) formats cat props_by_type prop_desc [command OP_DeleteObject tid [ALL; 0]] s = Ret (tt, s') /\
    r_st s' = Responder.IDLE /\ r_session s' = r_session s /\ r_log s' = l ++ r_log s /\ datas l = [] /\ responses l = [resp_out c tid []] /\
    state_after C fuel (length (r_log s)) w (r_log s') = Ret w' /\ reachable C w' /\
    (forall x, x <> 0 -> look w' x = None) /\ (exists v, look w' 0 = Some v /\ look w 0 = Some v) /\
    (forall y, at_or_below (c_root C) y -> y <> c_root C -> content w' y = None) /\ content w' (c_root C) = content w (c_root C) /\ (forall y, ~ at_or_below (c_root C) y -> content w' y = content w y).
Proof.
  intros C rest formats cat pt pd s w tid AW TO CO T1 T2 WK AC. pose proof AW as [SO R Q T RD ID SE].
  destruct (C94_everything_partial C w (akeys (s_handles w)) SO R WK (Permutation_refl _) AC) as (F & H). exists F. intros fuel LE. destruct (H fuel LE) as (c & w' & E & R' & B1 & B2 & B3 & B4 & B5 & _).
  destruct (delete_all_run C fuel rest formats cat pt pd s w tid 0 c w' AW TO CO T1 T2) as (s' & l & A1 & A2 & A3 & A4 & A5 & A6 & A7); [exact E|].
  exists s', l, c, w'. repeat (split; [assumption|]). assumption.
Qed.
(** one object with all that is below it, on a disk that works: C45_working_disk at the device *)
Theorem C94_tree_request : forall C rest formats cat props_by_type prop_desc s w tid h v,
  at_work C rest s w -> tables_ok props_by_type prop_desc -> command_ok OP_DeleteObject tid [h] -> tid <> 0 -> tid <> 0xFFFFFFFF -> (forall t, c_fail C t = false) ->
  h <> 0 -> look w h = Some v -> accurate w h ->
  exists F, forall fuel, (F <= fuel)%nat ->
  exists s' l w', Responder.run (device C fuel rest (length (r_log s)) w) formats cat props_by_type prop_desc [command OP_DeleteObject tid [h]] s = Ret (tt, s') /\
    r_st s' = Responder.IDLE /\ r_session s' = r_session s /\ r_log s' = l ++ r_log s /\ datas l = [] /\ responses l = [resp_out R_OK tid []] /\
    state_after C fuel (length (r_log s)) w (r_log s') = Ret w' /\ reachable C w' /\
    (forall x, inside w h x -> look w' x = None) /\ (forall x, ~ inside w h x -> look w' x = look w x) /\
    (forall y, at_or_below (v_path v) y -> content w' y = None) /\ (forall y, ~ at_or_below (v_path v) y -> content w' y = content w y).
Proof.
  intros C rest formats cat pt pd s w tid h v AW TO CO T1 T2 WK NZ LH AC. pose proof AW as [SO R Q T RD ID SE].
  destruct (C45_working_disk C w h v SO R WK NZ LH AC) as (F & H). exists F. intros fuel LE. destruct (H fuel LE) as (w' & E & B1 & B2 & B3 & B4).
  assert (NA : h <> ALL). { destruct (reachable_good C w SO R) as (r & [[ch W] _]). destruct (look_inv C w ch r W h v LH) as (p & i & _ & A2 & <- & _). eapply (wf_notall _ SO); eassumption. }
  destruct (device_request C fuel rest formats cat pt pd s w OP_DeleteObject tid [h] _ AW TO CO T1 T2 eq_refl) as (s' & l & d & c0 & params & E0 & L & I & S & DT & RS & K). cbn [nth RLogic.pars app] in K.
  exists s', l, w'. split; [exact E0|]. split; [exact I|]. split; [exact S|]. split; [exact L|].
  pose proof (known_look C SO w h R) as KL.
  assert (EM : forall m, storage C fuel (Responder.SDelete h (0 mod 65536)) = Some m -> m w = Ret (code R_OK, w')).
  { cbn [storage]. intros m [= <-]. rewrite (proj2 (N.eqb_neq h Responder.ALL) NA). cbn [orb]. rewrite (proj2 KL) by congruence. unfold tell, delete_item. unfold delete_item in E. rewrite (proj2 (N.eqb_neq h ALL) NA) in E |- *. rewrite E. reflexivity. }
  destruct (play_ask C fuel rest _ w l _ w _ _ d c0 params _ _ _ K eq_refl eq_refl (EM _ eq_refl)) as (l1 & b1 & z & E1 & K1). apply play_end in K1 as (-> & -> & -> & K1).
  split; [exact DT|]. split; [exact RS|]. split; [rewrite L, <- E1; exact K1|]. split; [apply (reach_step C w (ODelete fuel h) w' R NA); cbn [exec]; unfold bind; rewrite E; reflexivity|]. auto.
Qed.
(** the hypotheses are met: P_Device.demo_at_work, P_DelAll.C94_accurate; and the folder /s/a is deleted with what is in it *)
Example C94_example : exists s' w', Responder.run (device FSDemo.quiet 5 calm 0 (demo_start FSDemo.quiet)) [] RDemo.cat0 RDemo.props0 RDemo.desc0 [command OP_DeleteObject 1 [7]] RDemo.in_session = Ret (tt, s') /\
  map (fun o => (Responder.o_code o, Responder.o_tid o)) (responses (r_log s')) = [(R_OK, 1)] /\ state_after FSDemo.quiet 5 0 (demo_start FSDemo.quiet) (r_log s') = Ret w' /\ akeys (s_handles w') = [0; 21] /\ content w' [47;115;47;97;47;98] = None.
Proof. eexists. eexists. split; [vm_compute; reflexivity|]. split; [vm_compute; reflexivity|]. split; [vm_compute; reflexivity|]. split; vm_compute; reflexivity. Qed.
Print Assumptions C94_format_request.
Print Assumptions C94_everything_request.
Print Assumptions C94_tree_request.
