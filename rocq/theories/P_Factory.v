(** C41 (handle numbering) and C60 (routing): for every behaviour [owns]/[exec] of
    the storage plugins, every set of storages and every request. *)
From Verif Require Import Base AList PropCache Wire Factory FactoryProofs.

(** ** C41 *)
(** The first n handles handed out by a fresh responder are 1, 2, ..., n: all
    different, none of them 0 or 0xFFFFFFFF -- as long as n < 0xFFFFFFFF. *)
Theorem C41_allocation_partial : forall n, N.of_nat n < 0xFFFFFFFF ->
  NoDup (snd (new_handles n 0)) /\ length (snd (new_handles n 0)) = n /\
  (forall h, In h (snd (new_handles n 0)) <-> 1 <= h <= N.of_nat n).
Proof.
  intros n H. rewrite new_handles_seq by lia. cbn [snd]. repeat split.
  - apply NoDup_nseq.
  - clear H. change (0 + 1) with 1. generalize 1. induction n as [|n IH]; intros a; cbn [nseq length]; [reflexivity|now rewrite IH].
  - apply In_nseq in H0. lia.
  - apply In_nseq in H0. lia.
  - intros. apply In_nseq. lia.
Qed.
(** a later allocation never repeats an earlier one within the first 2^32-2 *)
Theorem C41_fresh_partial : forall n k, N.of_nat n + N.of_nat k < 0xFFFFFFFF ->
  forall h, In h (snd (new_handles n 0)) -> ~ In h (snd (new_handles k (fst (new_handles n 0)))).
Proof.
  intros n k H h HI HJ. rewrite (new_handles_seq n 0) in HI, HJ by lia. cbn [fst snd] in *.
  rewrite new_handles_seq in HJ by lia. cbn [snd] in HJ. apply In_nseq in HI. apply In_nseq in HJ. lia.
Qed.
(** No request, however many came before, is answered with the reserved 0xFFFFFFFF. *)
Theorem C41_never_the_wildcard : forall n m h, In h (snd (new_handles n m)) -> h < 0xFFFFFFFF.
Proof.
  induction n as [|n IH]; intros m h H; [destruct H|]. cbn [new_handles] in H. unfold new_handle in H.
  destruct (new_handles n (u32 (m + 1))) as [m2 r] eqn:E. cbn [snd] in H. destruct H as [<-|H].
  - assert (u32 (m + 1) < 2^32) by (unfold u32; apply N.mod_lt; lia). destruct (_ =? _) eqn:F; lia.
  - apply (IH (u32 (m + 1))). now rewrite E.
Qed.
(** What breaks it: request number 2^32-1 is answered with handle 1 again, the
    next one with the reserved handle 0 (whatever is still alive). *)
Theorem C41_wraparound_refuted :
  forall m, m = 0xFFFFFFFE -> snd (new_handles 3 m) = [1; 0; 1] /\ snd (new_handles 1 0) = [1].
Proof. intros m ->. split; reflexivity. Qed.
Example ex_C41 : new_handles 4 0 = (4, [1;2;3;4]) /\ fst (new_handles 2 0xFFFFFFFC) = 0xFFFFFFFE.
Proof. split; reflexivity. Qed.

(** ** C60 *)
Theorem C60_storage_ids : forall n, N.of_nat n <= 255 ->
  exists l, number_loop (S n) 0 (N.of_nat n) [] = Some l /\
    akeys l = nseq 0x00010001 n /\ NoDup (akeys l) /\ (forall i, i < N.of_nat n -> aget (0x00010001 + i) l = Some i).
Proof.
  intros n H. pose proof (number_loop_spec n 0 [] H) as E. change (0 + N.of_nat n) with (N.of_nat n) in E.
  rewrite E by (intros x []). clear E. eexists. split; [reflexivity|]. cbn [app].
  assert (K : akeys (map (fun j => (65537 + j, j)) (nseq 0 n)) = nseq 65537 n).
  { unfold akeys. rewrite map_map. cbn [fst].
    assert (G : forall n a, map (fun j => 65537 + j) (nseq a n) = nseq (65537 + a) n).
    { clear. induction n as [|n IH]; intros a; cbn [nseq map]; [reflexivity|]. rewrite IH. now rewrite N.add_assoc. }
    exact (G n 0). }
  split; [exact K|]. assert (ND : NoDup (akeys (map (fun j => (65537 + j, j)) (nseq 0 n)))) by (rewrite K; apply NoDup_nseq).
  split; [exact ND|]. intros i Hi. apply In_aget; [exact ND|]. apply in_map_iff. exists i. split; [reflexivity|]. apply In_nseq. lia.
Qed.
(** with 256 or more storages the constructor never finishes *)
Theorem C60_256_storages_refuted : forall count, 256 <= count -> forall steps, number_loop steps 0 count [] = None.
Proof. intros count H steps. apply number_loop_runs; [exact H|reflexivity]. Qed.

(** An object request goes to the one storage owning the object, unchanged, and
    to no other; its answer is that storage's answer.  (A copy that filled the
    target store is followed by a clean-up, see C60_copy_cleanup.) *)
Theorem C60_object_requests : forall W owns exec (s : @fstate W) q h c id,
  about q = Some (h, c) ->
  In id (f_ids s) -> owns (f_world s) id h = true ->
  (forall id', In id' (f_ids s) -> owns (f_world s) id' h = true -> id' = id) ->
  (forall d, destination q = Some d -> In d (f_ids s)) ->
  let r := exec (f_world s) id c in
  pr_resp (snd (f_exec owns exec s q)) = pr_resp (snd r) /\
  ((exists hh p d, q = FCopy hh p d /\ pr_resp (snd r) = RESP_StoreFull) \/
   (f_log (fst (f_exec owns exec s q)) = f_log s ++ [(id, c)] /\
    f_world (fst (f_exec owns exec s q)) = fst r /\ snd (f_exec owns exec s q) = snd r)).
Proof. intros W owns exec s q h c id HA HI HO HU HD. apply (routed owns exec s q h c id HA); [now apply storage_of_unique|exact HD]. Qed.
Theorem C60_copy_cleanup : forall W owns exec (s : @fstate W) h p d id,
  In id (f_ids s) -> owns (f_world s) id h = true ->
  (forall id', In id' (f_ids s) -> owns (f_world s) id' h = true -> id' = id) -> In d (f_ids s) ->
  let r := exec (f_world s) id (PCopy h p d) in
  pr_resp (snd r) = RESP_StoreFull -> pr_handle (snd r) <> 0xFFFFFFFF ->
  forall id2, find (fun i => owns (fst r) i (pr_handle (snd r))) (f_ids s) = Some id2 ->
  f_log (fst (f_exec owns exec s (FCopy h p d))) = f_log s ++ [(id, PCopy h p d); (id2, PDelete (pr_handle (snd r)) 0x3000)].
Proof. intros W owns exec s h p d id HI HO HU HD. apply copy_storefull; [now apply storage_of_unique|exact HD]. Qed.
Theorem C60_unknown_handle : forall W owns exec (s : @fstate W) q h c,
  about q = Some (h, c) -> (forall id, In id (f_ids s) -> owns (f_world s) id h = false) ->
  f_log (fst (f_exec owns exec s q)) = f_log s /\ f_world (fst (f_exec owns exec s q)) = f_world s /\
  pr_resp (snd (f_exec owns exec s q)) =
    match destination q with
    | Some d => if f_has s d then RESP_InvalidObjectHandle else RESP_InvalidStorageID
    | None => match q with FDelete _ _ => RESP_GeneralError | _ => RESP_InvalidObjectHandle end
    end.
Proof. intros W owns exec. exact (unknown_handle owns exec). Qed.
Theorem C60_unknown_destination : forall W owns exec (s : @fstate W) q d,
  destination q = Some d -> ~ In d (f_ids s) ->
  fst (f_exec owns exec s q) = s /\ pr_resp (snd (f_exec owns exec s q)) = RESP_InvalidStorageID.
Proof. intros W owns exec. exact (unknown_destination owns exec). Qed.
Theorem C60_storage_requests : forall W owns exec (s : @fstate W) q id c,
  names_storage q = Some (id, c) -> In id (f_ids s) ->
  f_log (fst (f_exec owns exec s q)) = f_log s ++ [(id, c)] /\
  pr_resp (snd (f_exec owns exec s q)) = pr_resp (snd (exec (f_world s) id c)) /\
  f_world (fst (f_exec owns exec s q)) = fst (exec (f_world s) id c).
Proof. intros W owns exec. exact (routed_storage owns exec). Qed.
Theorem C60_unknown_storage : forall W owns exec (s : @fstate W) q id c,
  names_storage q = Some (id, c) -> ~ In id (f_ids s) ->
  fst (f_exec owns exec s q) = s /\
  pr_resp (snd (f_exec owns exec s q)) = match q with FAdd _ _ _ => RESP_GeneralError | _ => RESP_InvalidStorageID end.
Proof. intros W owns exec. exact (unknown_storage owns exec). Qed.
(** requests addressed to everything reach every storage exactly once *)
Theorem C60_delete_all : forall W owns exec (s : @fstate W) fmt,
  f_log (fst (f_exec owns exec s (FDelete 0xFFFFFFFF fmt))) = f_log s ++ map (fun id => (id, PDelete 0xFFFFFFFF fmt)) (f_ids s).
Proof. intros W owns exec. exact (delete_all owns exec). Qed.
Theorem C60_enumerate_all : forall W owns exec (s : @fstate W) fmt assoc ans,
  f_ids s <> [] ->
  (forall id, In id (f_ids s) -> fst (exec (f_world s) id (PHandles fmt assoc)) = f_world s /\
     pr_resp (snd (exec (f_world s) id (PHandles fmt assoc))) = RESP_OK /\
     pr_handles (snd (exec (f_world s) id (PHandles fmt assoc))) = ans id) ->
  pr_resp (snd (f_exec owns exec s (FHandles 0xFFFFFFFF fmt assoc))) = RESP_OK /\
  pr_handles (snd (f_exec owns exec s (FHandles 0xFFFFFFFF fmt assoc))) = concat (map ans (f_ids s)).
Proof.
  intros W owns exec s fmt assoc ans HN H. cbn [f_exec]. unfold f_handles.
  destruct (handles_loop_all exec fmt assoc ans (f_ids s) s RESP_InvalidStorageID [] H) as [E _].
  change (0xFFFFFFFF =? 0xFFFFFFFF) with true. cbv iota.
  destruct (f_handles_loop exec (f_ids s) s fmt assoc RESP_InvalidStorageID []) as [s1 [c l]]. cbn [snd] in *.
  injection E as -> ->. cbn. destruct (f_ids s); [now destruct HN|split; reflexivity].
Qed.

(** A concrete world: two storages, 0x00010001 owning handles 1-2 and 0x00010002 owning 3. *)
Definition ex_owns (_ : unit) (id h : N) : bool := if id =? 0x00010001 then (h =? 1) || (h =? 2) else h =? 3.
Definition ex_exec (w : unit) (_ : N) (c : pcall) : unit * pres :=
  (w, match c with PCopy _ _ _ => {| pr_resp := RESP_StoreFull; pr_handle := 3; pr_parent := 0; pr_handles := []; pr_vals := [];
                                    pr_childvals := []; pr_bytes := []; pr_flag := false |}
              | _ => pfail RESP_OK end).
Definition ex_s : @fstate unit := {| f_ids := [0x00010002; 0x00010001]; f_world := tt; f_cache := []; f_massq := []; f_log := [] |}.
Example ex_C60 :
  f_log (fst (f_exec ex_owns ex_exec ex_s (FTruncate 2 10))) = [(0x00010001, PTruncate 2 10)] /\
  f_log (fst (f_exec ex_owns ex_exec ex_s (FTruncate 3 10))) = [(0x00010002, PTruncate 3 10)] /\
  f_log (fst (f_exec ex_owns ex_exec ex_s (FTruncate 4 10))) = [] /\
  f_log (fst (f_exec ex_owns ex_exec ex_s (FCopy 1 0 0x00010002))) = [(0x00010001, PCopy 1 0 0x00010002); (0x00010002, PDelete 3 0x3000)] /\
  number_loop 10 0 2 [] = Some [(0x00010001, 0); (0x00010002, 1)].
Proof. vm_compute. repeat split. Qed.

Print Assumptions C41_allocation_partial.
Print Assumptions C41_fresh_partial.
Print Assumptions C41_wraparound_refuted.
Print Assumptions C60_storage_ids.
Print Assumptions C60_256_storages_refuted.
Print Assumptions C60_object_requests.
Print Assumptions C60_copy_cleanup.
Print Assumptions C60_unknown_handle.
Print Assumptions C60_unknown_destination.
Print Assumptions C60_storage_requests.
Print Assumptions C60_unknown_storage.
Print Assumptions C60_delete_all.
Print Assumptions C60_enumerate_all.
Print Assumptions C41_never_the_wildcard.
