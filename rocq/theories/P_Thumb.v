(** C90: GetThumb sends the thumbnail the storage has. *)
From Verif Require Import Base Wire WireSpec Responder RSpec RLogic ROne2 RGate RExec RSession RDemo ROps RThumb.
From Verif Require Pod P_Pod.

(** One question is put to the storage, for the sample data of the object the host named; if the
    storage answers, the data phase is one container with exactly the bytes it answered with,
    and one OK response follows.  Missing: if the storage refuses (an unknown object, for one),
    no response is sent at all (C21, C27). *)
Theorem C90_thumbnail_partial : forall env formats cat props_by_type prop_desc s tid h d,
  undisturbed env -> storage_is_ready env -> idle s -> command_ok OP_GetThumb tid [h] -> r_session s <> 0 -> tid <> 0 -> tid <> 0xFFFFFFFF ->
  snd (prop_desc CAT_IMAGE 0xDC86) = Some d -> (forall l, a_code (env l (ACall (SGetProps h [d]))) = R_OK) ->
  exists s' l r, run env formats cat props_by_type prop_desc [command OP_GetThumb tid [h]] s = Ret (tt, s') /\ r_log s' = l ++ r_log s /\ r_st s' = IDLE /\ r_session s' = r_session s /\
    asked l = [(SGetProps h [d], r)] /\ (exists l1, r = env l1 (ACall (SGetProps h [d]))) /\ responses l = [resp_out R_OK tid []] /\
    exists b, datas l = [inl (thumb_data tid b)] /\ forall p v, a_vals r = [(p, v)] -> b = bytes_of v.
Proof.
  intros env formats cat pt pd s tid h d Q Hr Hi Hc Hs T1 T2 HD HO.
  destruct (thumb_ok env formats cat pt pd Q s tid h d Hr Hi Hc Hs T1 T2 HD HO) as (s' & l & r & E & A1 & A2 & A3 & A4 & A5 & A6 & A7).
  exists s', l, r. repeat (split; [assumption|]). eexists. split; [exact A6|]. intros p v ->. reflexivity.
Qed.
(** If the storage refuses, whatever the reason, nothing at all is sent, and the responder
    keeps waiting for a response nobody is going to produce. *)
Theorem C90_refused_refuted : forall env formats cat props_by_type prop_desc s tid h d,
  storage_is_ready env -> idle s -> command_ok OP_GetThumb tid [h] -> r_session s <> 0 -> tid <> 0 -> tid <> 0xFFFFFFFF ->
  snd (prop_desc CAT_IMAGE 0xDC86) = Some d -> (forall l, a_code (env l (ACall (SGetProps h [d]))) <> R_OK) ->
  exists s' l, run env formats cat props_by_type prop_desc [command OP_GetThumb tid [h]] s = Ret (tt, s') /\ r_log s' = l ++ r_log s /\
    r_st s' = WAIT_RESP /\ datas l = [] /\ responses l = [].
Proof. intros env formats cat pt pd s tid h d. apply thumb_refused. Qed.
(** The description asked with is that of the sample data: an array of bytes *)
Theorem C90_shipped : forall pv, exists d, Pod.pod_desc pv CAT_IMAGE 0xDC86 = (R_OK, Some d) /\ opd_code d = 0xDC86 /\ opd_type d = 0x4002.
Proof. intros pv. eexists. split; [unfold Pod.pod_desc; reflexivity|]. split; reflexivity. Qed.

(** an object with a thumbnail of three bytes *)
Definition has_thumb := demo (fun a => match a with ACall (SGetProps _ _) => Some (mk_ans R_OK [] [] info0 [(0xDC86, VVec 0x4002 [1;2;255])] None [] true []) | _ => None end).
Example C90_example :
  undisturbed has_thumb /\ storage_is_ready has_thumb /\ idle in_session /\ command_ok OP_GetThumb 5 [4] /\ (forall h d l, a_code (has_thumb l (ACall (SGetProps h [d]))) = R_OK) /\
  match run has_thumb [] cat0 (Pod.pod_props P_Pod.shipped_provider) (Pod.pod_desc P_Pod.shipped_provider) [command OP_GetThumb 5 [4]] in_session with
  | Ret (_, s') => (datas (r_log s'), responses (r_log s'))
  | _ => ([], [])
  end = ([inl (mk_out TYPE_DATA OP_GetThumb 5 (PRaw [1;2;255] 15))], [resp_out R_OK 5 []]).
Proof.
  split; [intros l a; unfold has_thumb, demo; destruct a as [c| | | | |]; try reflexivity; destruct c; reflexivity|]. split; [intros l; reflexivity|]. split; [left; reflexivity|]. split; [split; [reflexivity|]; split; [reflexivity|]; split; [vm_compute; discriminate|]; repeat constructor|]. split; [reflexivity|].
  vm_compute. reflexivity.
Qed.
Print Assumptions C90_thumbnail_partial.
Print Assumptions C90_shipped.
Print Assumptions C90_refused_refuted.
