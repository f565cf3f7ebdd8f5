(** Lemmas about Factory.v. *)
From Verif Require Import Base AList PropCache Wire Factory.
Require Import Coq.Arith.Arith.

Fixpoint nseq (a : N) (n : nat) : list N := match n with O => [] | S k => a :: nseq (a + 1) k end.
Lemma In_nseq n : forall a x, In x (nseq a n) <-> a <= x < a + N.of_nat n.
Proof.
  induction n as [|n IH]; intros a x; cbn [nseq In]; [lia|]. rewrite IH. lia.
Qed.
Lemma NoDup_nseq n : forall a, NoDup (nseq a n).
Proof. induction n as [|n IH]; intros a; cbn [nseq]; constructor; [rewrite In_nseq; lia|apply IH]. Qed.

Lemma new_handles_seq n : forall m, m + N.of_nat n <= 0xFFFFFFFE ->
  new_handles n m = (m + N.of_nat n, nseq (m + 1) n).
Proof.
  induction n as [|n IH]; intros m H; cbn [new_handles nseq].
  - f_equal. lia.
  - unfold new_handle. assert (E : u32 (m + 1) = m + 1) by (unfold u32; apply N.mod_small; lia).
    rewrite E. destruct (m + 1 =? 0xFFFFFFFF) eqn:E1; [lia|]. rewrite IH by lia.
    f_equal. lia.
Qed.

Lemma assign_11 : assign_storage_id 1 1 = 0x00010001.
Proof. reflexivity. Qed.
Lemma number_loop_step f i count acc : i < count ->
  number_loop (S f) i count acc = number_loop f (u8 (i + 1)) count (aset (u32 (0x00010001 + i)) i acc).
Proof. intros H. cbn [number_loop]. destruct (i <? count) eqn:E; [|lia]. cbn [negb]. now rewrite assign_11. Qed.
Lemma number_loop_done f i count acc : count <= i -> number_loop f i count acc = Some acc.
Proof. intros H. destruct f; cbn [number_loop]; destruct (i <? count) eqn:E; try lia; reflexivity. Qed.
Lemma aset_new {V} k (v : V) l : ~ In k (akeys l) -> aset k v l = l ++ [(k, v)].
Proof.
  induction l as [|[j w] r IH]; cbn [aset akeys map fst In app]; intros H; [reflexivity|].
  destruct (k =? j) eqn:E; [exfalso; apply H; left; lia|]. f_equal. apply IH. tauto.
Qed.
Lemma number_loop_spec n : forall i acc, i + N.of_nat n <= 255 ->
  (forall x, In x (akeys acc) -> x < 0x00010001 + i) ->
  number_loop (S n) i (i + N.of_nat n) acc = Some (acc ++ map (fun j => (0x00010001 + j, j)) (nseq i n)).
Proof.
  induction n as [|n IH]; intros i acc H HA.
  - rewrite number_loop_done by lia. cbn [nseq map]. now rewrite app_nil_r.
  - rewrite number_loop_step by lia.
    assert (E : u8 (i + 1) = i + 1) by (unfold u8; apply N.mod_small; lia). rewrite E.
    assert (E2 : u32 (65537 + i) = 65537 + i) by (unfold u32; apply N.mod_small; lia). rewrite E2.
    rewrite aset_new by (intros HI; apply HA in HI; lia).
    replace (i + N.of_nat (S n)) with (i + 1 + N.of_nat n) by lia. rewrite IH.
    + cbn [nseq map]. now rewrite <- app_assoc.
    + lia.
    + intros x. unfold akeys. rewrite map_app. rewrite in_app_iff. cbn [map In fst]. intros [HI|[HI|[]]]; [apply HA in HI|]; lia.
Qed.
Lemma number_loop_runs count : 256 <= count -> forall f i acc, i < 256 -> number_loop f i count acc = None.
Proof.
  intros HC. induction f as [|f IH]; intros i acc Hi; cbn [number_loop]; destruct (i <? count) eqn:E; try lia; cbn [negb]; [reflexivity|].
  apply IH. unfold u8. apply N.mod_lt. discriminate.
Qed.

Section F.
Context {W : Type}.
Variable owns : W -> N -> N -> bool.
Variable exec : W -> N -> pcall -> W * pres.
Notation fstate := (@fstate W).
Notation f_exec := (@f_exec W owns exec).

Lemma storage_of_none s h : storage_of owns s h = None <-> forall id, In id (f_ids s) -> owns (f_world s) id h = false.
Proof.
  unfold storage_of. split.
  - intros H id HI. exact (find_none _ _ H id HI).
  - intros H. destruct (find _ (f_ids s)) eqn:E; [|reflexivity]. apply find_some in E as [E1 E2]. rewrite H in E2; [discriminate|exact E1].
Qed.
Lemma storage_of_unique s h id : In id (f_ids s) -> owns (f_world s) id h = true ->
  (forall id', In id' (f_ids s) -> owns (f_world s) id' h = true -> id' = id) -> storage_of owns s h = Some id.
Proof.
  intros HI HO HU. unfold storage_of. destruct (find _ (f_ids s)) eqn:E.
  - apply find_some in E as [E1 E2]. f_equal. now apply HU.
  - pose proof (find_none _ _ E id HI) as E2. cbn beta in E2. rewrite HO in E2. discriminate.
Qed.
Lemma f_has_iff (s : fstate) id : f_has s id = true <-> In id (f_ids s).
Proof.
  unfold f_has. rewrite existsb_exists. split; [intros (x & H1 & H2); apply N.eqb_eq in H2; now subst|].
  intros H. exists id. split; [exact H|apply N.eqb_refl].
Qed.
Lemma f_has_false (s : fstate) id : ~ In id (f_ids s) -> f_has s id = false.
Proof. intros H. destruct (f_has s id) eqn:E; [|reflexivity]. apply f_has_iff in E. contradiction. Qed.
Lemma delete_loop_none h fmt r s : h <> 0xFFFFFFFF -> forall ids,
  (forall id, In id ids -> owns (f_world s) id h = false) -> f_delete_loop owns exec ids s h fmt r = (s, r).
Proof.
  intros Hh. induction ids as [|id ids IH]; cbn [f_delete_loop In]; intros H; [reflexivity|].
  destruct (h =? 0xFFFFFFFF) eqn:E; [lia|]. rewrite (H id) by tauto. cbn [orb]. apply IH. intros; apply H; tauto.
Qed.
Lemma delete_loop_one h fmt r s id : h <> 0xFFFFFFFF -> forall ids,
  find (fun id => owns (f_world s) id h) ids = Some id ->
  f_delete_loop owns exec ids s h fmt r = f_call exec s id (PDelete h fmt).
Proof.
  intros Hh. induction ids as [|a ids IH]; cbn [f_delete_loop find]; intros H; [discriminate|].
  destruct (h =? 0xFFFFFFFF) eqn:E; [lia|]. cbn [orb]. destruct (owns (f_world s) a h) eqn:E1.
  - injection H as ->. now destruct (f_call exec s id (PDelete h fmt)).
  - now apply IH.
Qed.
Lemma delete_loop_all fmt ids : forall r s,
  f_log (fst (f_delete_loop owns exec ids s 0xFFFFFFFF fmt r)) = f_log s ++ map (fun id => (id, PDelete 0xFFFFFFFF fmt)) ids.
Proof.
  induction ids as [|a ids IH]; intros r s; cbn [f_delete_loop map fst]; [now rewrite app_nil_r|].
  change (0xFFFFFFFF =? 0xFFFFFFFF) with true. cbn [orb].
  unfold f_call. destruct (exec (f_world s) a (PDelete 4294967295 fmt)) as [w r1]. rewrite IH.
  cbn [f_log f_setw]. now rewrite <- app_assoc.
Qed.
Lemma f_call_log (s : fstate) id c : f_log (fst (f_call exec s id c)) = f_log s ++ [(id, c)].
Proof. unfold f_call. destruct (exec (f_world s) id c). reflexivity. Qed.
Lemma f_call_world (s : fstate) id c : f_world (fst (f_call exec s id c)) = fst (exec (f_world s) id c).
Proof. unfold f_call. destruct (exec (f_world s) id c). reflexivity. Qed.
Lemma f_call_res (s : fstate) id c : snd (f_call exec s id c) = snd (exec (f_world s) id c).
Proof. unfold f_call. destruct (exec (f_world s) id c). reflexivity. Qed.
Lemma f_call_ids (s : fstate) id c : f_ids (fst (f_call exec s id c)) = f_ids s.
Proof. unfold f_call. destruct (exec (f_world s) id c). reflexivity. Qed.

(** ** Specification vocabulary *)
(** the object a request is about, and the plugin call that carries it out *)
Definition about (q : freq) : option (N * pcall) :=
  match q with
  | FGetRefs h => Some (h, PGetRefs h) | FSetRefs h l => Some (h, PSetRefs h l)
  | FPath h => Some (h, PPath h) | FGetEvents h => Some (h, PGetEvents h) | FSetEvents h b => Some (h, PSetEvents h b)
  | FObjInfo h => Some (h, PObjInfo h) | FWrite h d a b => Some (h, PWrite h d a b)
  | FWritePartial h o d a b => Some (h, PWritePartial h o d a b) | FTruncate h n => Some (h, PTruncate h n)
  | FRead h n o => Some (h, PRead h n o) | FSetProps h l b => Some (h, PSetProps h l b)
  | FCopy h p d => Some (h, PCopy h p d) | FMove h p d => Some (h, PMove h p d)
  | FDelete h f => if h =? 0xFFFFFFFF then None else Some (h, PDelete h f)
  | FAdd _ _ _ | FHandles _ _ _ | FStorageInfo _ => None
  end.
(** the storage a request names, and the call *)
Definition names_storage (q : freq) : option (N * pcall) :=
  match q with
  | FAdd id p i => Some (if id =? 0 then 0x00010001 else id, PAddItem p i)
  | FHandles id f a => if id =? 0xFFFFFFFF then None else Some (id, PHandles f a)
  | FStorageInfo id => Some (id, PInfo)
  | _ => None
  end.
Definition destination (q : freq) : option N := match q with FCopy _ _ d | FMove _ _ d => Some d | _ => None end.

Lemma f_copy_log s h p d id : f_has s d = true -> storage_of owns s h = Some id ->
  let r := exec (f_world s) id (PCopy h p d) in
  snd (f_copy owns exec s h p d) = snd r /\
  (pr_resp (snd r) <> RESP_StoreFull -> f_log (fst (f_copy owns exec s h p d)) = f_log s ++ [(id, PCopy h p d)] /\
     f_world (fst (f_copy owns exec s h p d)) = fst r).
Proof.
  intros Hd HS. unfold f_copy. rewrite Hd, HS. cbn [negb]. cbv zeta.
  pose proof (f_call_log s id (PCopy h p d)) as E1. pose proof (f_call_res s id (PCopy h p d)) as E2.
  pose proof (f_call_world s id (PCopy h p d)) as E3.
  destruct (f_call exec s id (PCopy h p d)) as [s1 r]. cbn [fst snd] in *. rewrite <- E2.
  destruct (pr_resp r =? RESP_StoreFull) eqn:E; cbn [fst snd].
  - split; [reflexivity|]. intros HH. exfalso. apply HH. lia.
  - auto.
Qed.

Lemma routed s q h c id : about q = Some (h, c) -> storage_of owns s h = Some id ->
  (forall d, destination q = Some d -> In d (f_ids s)) ->
  let r := exec (f_world s) id c in
  pr_resp (snd (f_exec s q)) = pr_resp (snd r) /\
  ((exists hh p d, q = FCopy hh p d /\ pr_resp (snd r) = RESP_StoreFull) \/
   (f_log (fst (f_exec s q)) = f_log s ++ [(id, c)] /\ f_world (fst (f_exec s q)) = fst r /\ snd (f_exec s q) = snd r)).
Proof.
  intros HA HS HD. cbv zeta. destruct q; cbn [about] in HA; try discriminate; cbn [Factory.f_exec];
    try (injection HA as <- <-; unfold f_by_handle; rewrite HS;
         rewrite ?f_call_res; split; [reflexivity|right; now rewrite f_call_log, f_call_world]).
  - (* delete *) destruct (h0 =? 0xFFFFFFFF) eqn:E; [discriminate|]. injection HA as <- <-. unfold f_delete.
    rewrite (delete_loop_one h0 fmt (pfail RESP_GeneralError) s id); [|lia|exact HS].
    pose proof (f_call_log s id (PDelete h0 fmt)) as E1. pose proof (f_call_res s id (PDelete h0 fmt)) as E2.
    pose proof (f_call_world s id (PDelete h0 fmt)) as E3.
    destruct (f_call exec s id (PDelete h0 fmt)) as [s1 r]. cbn [fst snd] in *. rewrite E2. split; [reflexivity|]. right.
    cbn [f_setc f_log f_world]. auto.
  - (* copy *) injection HA as <- <-. destruct (f_copy_log s h0 parent dst id) as [E1 E2].
    + apply f_has_iff. apply HD. reflexivity.
    + exact HS.
    + rewrite E1. split; [reflexivity|].
      destruct (N.eq_dec (pr_resp (snd (exec (f_world s) id (PCopy h0 parent dst)))) RESP_StoreFull) as [E|E].
      * left. eauto.
      * right. destruct (E2 E) as [E3 E4]. auto.
  - (* move *) injection HA as <- <-. unfold f_move.
    replace (f_has s dst) with true by (symmetry; apply f_has_iff, HD; reflexivity). rewrite HS. cbn [negb].
    pose proof (f_call_log s id (PMove h0 parent dst)) as E1. pose proof (f_call_res s id (PMove h0 parent dst)) as E2.
    pose proof (f_call_world s id (PMove h0 parent dst)) as E3.
    destruct (f_call exec s id (PMove h0 parent dst)) as [s1 r]. cbn [fst snd] in *. rewrite <- E2.
    destruct (pr_resp r =? RESP_OK); cbn [fst snd f_setc f_log f_world]; split; auto.
  - (* set props *) injection HA as <- <-. unfold f_set_props. rewrite HS.
    pose proof (f_call_log s id (PSetProps h0 vals spl)) as E1. pose proof (f_call_res s id (PSetProps h0 vals spl)) as E2.
    pose proof (f_call_world s id (PSetProps h0 vals spl)) as E3.
    destruct (f_call exec s id (PSetProps h0 vals spl)) as [s1 r]. cbn [fst snd] in *. rewrite <- E2.
    destruct (pr_resp r =? RESP_OK); cbn [fst snd f_setc f_log f_world]; split; auto.
Qed.

(** the clean-up after a full target store *)
Lemma copy_storefull s h p d id : storage_of owns s h = Some id -> In d (f_ids s) ->
  let r := exec (f_world s) id (PCopy h p d) in
  pr_resp (snd r) = RESP_StoreFull -> pr_handle (snd r) <> 0xFFFFFFFF ->
  forall id2, find (fun i => owns (fst r) i (pr_handle (snd r))) (f_ids s) = Some id2 ->
  f_log (fst (f_exec s (FCopy h p d))) = f_log s ++ [(id, PCopy h p d); (id2, PDelete (pr_handle (snd r)) 0x3000)].
Proof.
  intros HS Hd r HR HH id2 HF. cbn [Factory.f_exec]. unfold f_copy.
  replace (f_has s d) with true by (symmetry; apply f_has_iff, Hd). rewrite HS. cbn [negb]. subst r.
  pose proof (f_call_log s id (PCopy h p d)) as E1. pose proof (f_call_res s id (PCopy h p d)) as E2.
  pose proof (f_call_world s id (PCopy h p d)) as E3. pose proof (f_call_ids s id (PCopy h p d)) as E4.
  destruct (f_call exec s id (PCopy h p d)) as [s1 r]. cbn [fst snd] in *. rewrite <- E2 in *. rewrite HR, N.eqb_refl. cbn [fst].
  unfold f_delete. rewrite (delete_loop_one (pr_handle r) 0x3000 (pfail RESP_GeneralError) s1 id2); [|exact HH|rewrite E3, E4; exact HF].
  pose proof (f_call_log s1 id2 (PDelete (pr_handle r) 0x3000)) as E5.
  destruct (f_call exec s1 id2 (PDelete (pr_handle r) 0x3000)) as [s2 r2]. cbn [fst f_setc f_log] in *.
  rewrite E5, E1, <- app_assoc. reflexivity.
Qed.

Lemma unknown_handle s q h c : about q = Some (h, c) -> (forall id, In id (f_ids s) -> owns (f_world s) id h = false) ->
  f_log (fst (f_exec s q)) = f_log s /\ f_world (fst (f_exec s q)) = f_world s /\
  pr_resp (snd (f_exec s q)) =
    match destination q with
    | Some d => if f_has s d then RESP_InvalidObjectHandle else RESP_InvalidStorageID
    | None => match q with FDelete _ _ => RESP_GeneralError | _ => RESP_InvalidObjectHandle end
    end.
Proof.
  intros HA HN. pose proof (proj2 (storage_of_none s h) HN) as HS.
  destruct q; cbn [about] in HA; try discriminate; cbn [Factory.f_exec destination];
    try (injection HA as <- <-; unfold f_by_handle; rewrite HS; now cbn).
  - destruct (h0 =? 0xFFFFFFFF) eqn:E; [discriminate|]. injection HA as <- <-. unfold f_delete.
    rewrite delete_loop_none; [now cbn|lia|exact HN].
  - injection HA as <- <-. unfold f_copy. destruct (f_has s dst); cbn [negb]; [rewrite HS|]; now cbn.
  - injection HA as <- <-. unfold f_move. destruct (f_has s dst); cbn [negb]; [rewrite HS|]; now cbn.
  - injection HA as <- <-. unfold f_set_props. rewrite HS; now cbn.
Qed.

Lemma unknown_destination s q d : destination q = Some d -> ~ In d (f_ids s) ->
  fst (f_exec s q) = s /\ pr_resp (snd (f_exec s q)) = RESP_InvalidStorageID.
Proof.
  intros HD HN. destruct q; cbn [destination] in HD; try discriminate; injection HD as <-; cbn [Factory.f_exec];
    unfold f_copy, f_move; rewrite (f_has_false s dst HN); now cbn.
Qed.

Lemma routed_storage s q id c : names_storage q = Some (id, c) -> In id (f_ids s) ->
  f_log (fst (f_exec s q)) = f_log s ++ [(id, c)] /\ pr_resp (snd (f_exec s q)) = pr_resp (snd (exec (f_world s) id c)) /\
  f_world (fst (f_exec s q)) = fst (exec (f_world s) id c).
Proof.
  intros HA HI. apply f_has_iff in HI. destruct q; cbn [names_storage] in HA; try discriminate; cbn [Factory.f_exec].
  - injection HA as HA1 <-. unfold f_addItem. rewrite assign_11, HA1, HI. cbn [fst]. now rewrite f_call_log, f_call_res, f_call_world.
  - destruct (id0 =? 0xFFFFFFFF) eqn:E; [discriminate|]. injection HA as -> <-. unfold f_handles. rewrite E. unfold f_by_id. rewrite HI.
    pose proof (f_call_log s id (PHandles fmt assoc)) as E1. pose proof (f_call_res s id (PHandles fmt assoc)) as E2.
    pose proof (f_call_world s id (PHandles fmt assoc)) as E3.
    destruct (f_call exec s id (PHandles fmt assoc)) as [s1 r]. cbn [fst snd pr_resp] in *. now rewrite E2.
  - injection HA as -> <-. unfold f_by_id. rewrite HI. now rewrite f_call_log, f_call_res, f_call_world.
Qed.
Lemma unknown_storage s q id c : names_storage q = Some (id, c) -> ~ In id (f_ids s) ->
  fst (f_exec s q) = s /\
  pr_resp (snd (f_exec s q)) = match q with FAdd _ _ _ => RESP_GeneralError | _ => RESP_InvalidStorageID end.
Proof.
  intros HA HI. apply f_has_false in HI. destruct q; cbn [names_storage] in HA; try discriminate; cbn [Factory.f_exec].
  - injection HA as HA1 <-. unfold f_addItem. rewrite assign_11, HA1, HI. now cbn.
  - destruct (id0 =? 0xFFFFFFFF) eqn:E; [discriminate|]. injection HA as -> <-. unfold f_handles. rewrite E. unfold f_by_id. rewrite HI. now cbn.
  - injection HA as -> <-. unfold f_by_id. rewrite HI. now cbn.
Qed.
Lemma delete_all s fmt : f_log (fst (f_exec s (FDelete 0xFFFFFFFF fmt))) = f_log s ++ map (fun id => (id, PDelete 0xFFFFFFFF fmt)) (f_ids s).
Proof.
  cbn [Factory.f_exec]. unfold f_delete.
  pose proof (delete_loop_all fmt (f_ids s) (pfail RESP_GeneralError) s) as E.
  destruct (f_delete_loop owns exec (f_ids s) s 4294967295 fmt (pfail RESP_GeneralError)) as [s1 r]. exact E.
Qed.
(** enumeration over all storages: if every storage answers OK without changing
    the world, the answer is the concatenation in storage order *)
Lemma handles_loop_all fmt assoc (ans : N -> list N) : forall ids s resp acc,
  (forall id, In id ids -> fst (exec (f_world s) id (PHandles fmt assoc)) = f_world s /\
     pr_resp (snd (exec (f_world s) id (PHandles fmt assoc))) = RESP_OK /\
     pr_handles (snd (exec (f_world s) id (PHandles fmt assoc))) = ans id) ->
  snd (f_handles_loop exec ids s fmt assoc resp acc) = (match ids with [] => resp | _ => RESP_OK end, acc ++ concat (map ans ids)) /\
  f_world (fst (f_handles_loop exec ids s fmt assoc resp acc)) = f_world s.
Proof.
  induction ids as [|a ids IH]; intros s resp acc H; cbn [f_handles_loop map concat].
  - rewrite app_nil_r. now cbn.
  - destruct (H a (or_introl eq_refl)) as (E1 & E2 & E3). unfold f_call.
    destruct (exec (f_world s) a (PHandles fmt assoc)) as [w r] eqn:EX. cbn [fst snd] in *. subst w.
    rewrite E2, N.eqb_refl. destruct (IH (f_setw s (f_world s) (f_log s ++ [(a, PHandles fmt assoc)])) RESP_OK (acc ++ pr_handles r)) as [E4 E5].
    + intros id HI. cbn [f_world f_setw]. apply H. now right.
    + rewrite E4. split; [|exact E5]. rewrite <- app_assoc, E3. destruct ids; reflexivity.
Qed.
End F.
