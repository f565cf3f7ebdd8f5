(** C58: the property cache is a faithful map, for every history of operations. *)
From Verif Require Import Base AList PropCache PropCacheProofs.

Theorem C58_lookup_is_last_effect : forall V (history : list (pcop V)) h p,
  pc_get (pcrun history) h p = last_effect h p (rev history).
Proof. intros V. exact pcrun_spec. Qed.
(** operations on other objects, or on other properties of the object, change nothing *)
Theorem C58_other_objects_unaffected : forall V (history : list (pcop V)) o h p,
  eff h p o = None -> pc_get (pcrun (history ++ [o])) h p = pc_get (pcrun history) h p.
Proof.
  intros V history o h p E. unfold pcrun. rewrite fold_left_app. cbn [fold_left]. rewrite pc_get_step. now rewrite E.
Qed.
Theorem C58_batch_lookup : forall V (history : list (pcop V)) h l,
  let fn := pc_get_list (pcrun history) h l in
  map fst (fst fn) = filter (fun p => match pc_get (pcrun history) h p with Some _ => true | None => false end) (map fst l) /\
  (forall p v, In (p, v) (fst fn) -> pc_get (pcrun history) h p = Some v) /\
  snd fn = filter (fun q => match pc_get (pcrun history) h (fst q) with Some _ => false | None => true end) l.
Proof. intros V history. exact (pc_get_list_spec (pcrun history)). Qed.

Example ex_C58 : let hist := [PAdd 1 0xDC01 7; PAdd 2 0xDC01 8; PAdd 1 0xDC07 9; PRemove 1 0xDC01; PAddList 3 [(5,1);(5,2)]] in
  pc_get (pcrun hist) 1 0xDC01 = None /\ pc_get (pcrun hist) 1 0xDC07 = Some 9 /\ pc_get (pcrun hist) 2 0xDC01 = Some 8 /\
  pc_get (pcrun hist) 3 5 = Some 2 /\ pc_get (pcrun (hist ++ [PRemove 1 0])) 1 0xDC07 = None.
Proof. vm_compute. repeat split. Qed.
Print Assumptions C58_lookup_is_last_effect.
Print Assumptions C58_other_objects_unaffected.
Print Assumptions C58_batch_lookup.
