(** SetObjectPropList (C39). *)
From Verif Require Import Base Wire WireSpec WireProofs WireProofs2 Responder RSpec RLogic ROne2 RGate RExec RSession RSend RSend2 RColl.

(** ** Vocabulary *)
(** an element of the list the host sends: object, property, data type, value *)
Record element := mk_el { el_handle : N; el_prop : N; el_type : N; el_value : variant }.
Definition element_ok (e : element) : Prop :=
  el_handle e < 2^32 /\ el_prop e < 2^16 /\ el_type e < 2^16 /\ has_type (el_type e) (el_value e) /\ rx_small (el_type e) (el_value e).
Definition element_bytes (e : element) : bytes :=
  spec_int 4 (el_handle e) ++ spec_int 2 (el_prop e) ++ spec_int 2 (el_type e) ++ spec_value (el_type e) (el_value e).
(** the dataset: number of elements, then the elements *)
Definition list_bytes (l : list element) : bytes := spec_int 4 (len l) ++ concat (map element_bytes l).

Section PL.
Variable cat : N -> N.
Variable prop_desc : N -> N -> N * option objpropdesc.
(** the conversation with the storage about one element, oldest entry first: the element
    was applied *)
Inductive applied (e : element) : list (act * ans) -> Prop :=
| applied_intro r1 d r2 : a_code r1 = R_OK -> prop_desc (cat (oi_format (a_info r1))) (el_prop e) = (R_OK, Some d) ->
    opd_getset d = true -> a_code r2 = R_OK ->
    applied e [(ACall (SGetInfo (el_handle e)), r1); (ACall (SSetProps (el_handle e) [(d, el_value e)] false), r2)].
(** or it failed with code c *)
Inductive failed (e : element) (c : N) : list (act * ans) -> Prop :=
| failed_object r1 : a_code r1 = c -> failed e c [(ACall (SGetInfo (el_handle e)), r1)]
| failed_prop r1 d : a_code r1 = R_OK -> prop_desc (cat (oi_format (a_info r1))) (el_prop e) = (c, d) ->
    failed e c [(ACall (SGetInfo (el_handle e)), r1)]
| failed_readonly r1 d : a_code r1 = R_OK -> prop_desc (cat (oi_format (a_info r1))) (el_prop e) = (R_OK, Some d) ->
    opd_getset d = false -> c = R_AccessDenied -> failed e c [(ACall (SGetInfo (el_handle e)), r1)]
| failed_storage r1 d r2 : a_code r1 = R_OK -> prop_desc (cat (oi_format (a_info r1))) (el_prop e) = (R_OK, Some d) ->
    opd_getset d = true -> a_code r2 = c ->
    failed e c [(ACall (SGetInfo (el_handle e)), r1); (ACall (SSetProps (el_handle e) [(d, el_value e)] false), r2)].
(** [processed i els conv c ps]: the elements from number i on were processed in order
    until the end (c = OK, no parameters) or the first failure (its code c and number) *)
Inductive processed : N -> list element -> list (act * ans) -> N -> list N -> Prop :=
| pr_end i : processed i [] [] R_OK []
| pr_next i e els l1 l2 c ps : applied e l1 -> processed (i + 1) els l2 c ps -> processed i (e :: els) (l1 ++ l2) c ps
| pr_stop i e els l c : failed e c l -> c <> R_OK -> processed i (e :: els) l c [i].

Section Env.
Variable env : list (act * ans) -> act -> ans.
Variable formats : list N.
Variable props_by_type : N -> N * list N.
Hypothesis tables : tables_ok props_by_type prop_desc.
Notation step := (step env formats cat props_by_type prop_desc).
Notation run := (run env formats cat props_by_type prop_desc).

Lemma call_eq c (A : Type) (k : ans -> M A) s : (r <- call env c ;; k r) s = k (env (r_log s) (ACall c)) (add_log (ACall c, env (r_log s) (ACall c)) s).
Proof. reflexivity. Qed.
Lemma loop_ok els : forall i s r pre post, Forall element_ok els -> i + len els < 2^32 -> r_data s = Some r -> rx_at r pre (concat (map element_bytes els) ++ post) ->
  exists l c ps d j, processed i els l c ps /\
    set_list_loop env cat prop_desc (List.length els) i s = Ret ((c, j), set_log (rev l ++ r_log s) (set_data d s)) /\
    (if c =? R_OK then ps = [] else ps = [sub32 j 1]).
Proof.
  induction els as [|e els IH]; intros i s r pre post F Hn Hd At.
  - exists [], R_OK, [], (r_data s), i. split; [constructor|]. split; [destruct s; reflexivity|reflexivity].
  - apply Forall_cons_iff in F as [(O1 & O2 & O3 & O4 & O5) F]. cbn [map concat] in At. unfold element_bytes in At at 1. rewrite <- !app_assoc in At.
    rewrite len_cons in Hn.
    cbn [List.length set_list_loop].
    destruct (rd_eq N (rx_int 4) (spec_int 4 (el_handle e)) (el_handle e) _ (fun h => r0 <- call env (SGetInfo h) ;;
       (c <- (if negb (isok (a_code r0)) then ret (a_code r0) else
          p <- rd (rx_int 2) ;; (let (c1, d) := prop_desc (cat (oi_format (a_info r0))) p in
          if negb (isok c1) then ret c1 else d0 <- need d ;; (if negb (opd_getset d0) then ret R_AccessDenied else
          ty <- rd (rx_int 2) ;; v <- rd (rx_variant ty) ;; r2 <- call env (SSetProps h [(d0, v)] false) ;; ret (a_code r2)))) ;;
       if isok c then set_list_loop env cat prop_desc (List.length els) (i + 1) else ret (c, i + 1))) s r pre _ (reads_int 4 _ O1) Hd At) as (r1 & At1 & E1).
    rewrite E1. clear E1 At. set (s1 := set_data (Some r1) s). rewrite call_eq. set (a1 := env (r_log s1) (ACall (SGetInfo (el_handle e)))). set (s2 := add_log _ s1).
    assert (SUB : sub32 (i + 1) 1 = i) by (unfold sub32; change (1 mod 4294967296) with 1; lia).
    destruct (isok (a_code a1)) eqn:OK1; cbn [negb].
    2:{ unfold bind at 1, ret at 1. rewrite OK1. eexists [_], (a_code a1), [i], (Some r1), (i + 1). split; [apply pr_stop; [apply (failed_object e _ a1); reflexivity|intros X; unfold isok in OK1; rewrite X in OK1; discriminate]|].
        split; [reflexivity|]. unfold isok in OK1. rewrite OK1, SUB. reflexivity. }
    assert (OK1' : a_code a1 = R_OK) by (apply N.eqb_eq; exact OK1).
    unfold bind at 1.
    destruct (rd_eq N (rx_int 2) (spec_int 2 (el_prop e)) (el_prop e) _ (fun p => let (c1, d) := prop_desc (cat (oi_format (a_info a1))) p in
          if negb (isok c1) then ret c1 else d0 <- need d ;; (if negb (opd_getset d0) then ret R_AccessDenied else
          ty <- rd (rx_int 2) ;; v <- rd (rx_variant ty) ;; r2 <- call env (SSetProps (el_handle e) [(d0, v)] false) ;; ret (a_code r2))) s2 r1 _ _ (reads_int 2 _ O2) eq_refl At1) as (r2 & At2 & E2).
    rewrite E2. clear E2 At1. set (s3 := set_data (Some r2) s2).
    destruct (prop_desc (cat (oi_format (a_info a1))) (el_prop e)) as [c1 od] eqn:PD.
    destruct (isok c1) eqn:OK2; cbn [negb].
    2:{ unfold ret at 1. rewrite OK2. eexists [_], c1, [i], (Some r2), (i + 1). split; [apply pr_stop; [apply (failed_prop e _ a1 od); assumption|intros X; unfold isok in OK2; rewrite X in OK2; discriminate]|].
        split; [reflexivity|]. unfold isok in OK2. rewrite OK2, SUB. reflexivity. }
    apply N.eqb_eq in OK2. subst c1. destruct (proj1 tables (cat (oi_format (a_info a1))) (el_prop e)) as (d & Ed); [rewrite PD; reflexivity|]. rewrite PD in Ed. cbn [snd] in Ed. subst od.
    unfold bind at 1, need, ret at 1. destruct (opd_getset d) eqn:GS; cbn [negb].
    2:{ unfold ret at 1. change (isok R_AccessDenied) with false. eexists [_], R_AccessDenied, [i], (Some r2), (i + 1). split; [apply pr_stop; [apply (failed_readonly e _ a1 d); auto|discriminate]|].
        split; [reflexivity|]. change (R_AccessDenied =? R_OK) with false. cbv iota. rewrite SUB. reflexivity. }
    destruct (rd_eq N (rx_int 2) (spec_int 2 (el_type e)) (el_type e) _ (fun ty => v <- rd (rx_variant ty) ;; r2 <- call env (SSetProps (el_handle e) [(d, v)] false) ;; ret (a_code r2)) s3 r2 _ _ (reads_int 2 _ O3) eq_refl At2) as (r3 & At3 & E3).
    rewrite E3. clear E3 At2. set (s4 := set_data (Some r3) s3).
    destruct (rd_eq variant (rx_variant (el_type e)) (spec_value (el_type e) (el_value e)) (el_value e) _ (fun v => r2 <- call env (SSetProps (el_handle e) [(d, v)] false) ;; ret (a_code r2)) s4 r3 _ _ (reads_variant _ _ O4 O5) eq_refl At3) as (r4 & At4 & E4).
    rewrite E4. clear E4 At3. set (s5 := set_data (Some r4) s4). rewrite call_eq. set (a2 := env (r_log s5) _). unfold ret at 1.
    destruct (isok (a_code a2)) eqn:OK3.
    2:{ eexists [_; _], (a_code a2), [i], (Some r4), (i + 1). split; [apply pr_stop; [apply (failed_storage e _ a1 d a2); auto|intros X; unfold isok in OK3; rewrite X in OK3; discriminate]|].
        split; [reflexivity|]. unfold isok in OK3. rewrite OK3, SUB. reflexivity. }
    assert (OK3' : a_code a2 = R_OK) by (apply N.eqb_eq; exact OK3).
    destruct (IH (i + 1) (add_log (ACall (SSetProps (el_handle e) [(d, el_value e)] false), a2) s5) r4 _ post F ltac:(lia) eq_refl At4) as (l & c & ps & dd & j & P & E5 & E6).
    exists ([(ACall (SGetInfo (el_handle e)), a1); (ACall (SSetProps (el_handle e) [(d, el_value e)] false), a2)] ++ l), c, ps, dd, j.
    split; [apply pr_next; [apply (applied_intro e a1 d a2); assumption|exact P]|]. split; [|exact E6].
    rewrite E5. rewrite rev_app_distr. cbn [rev app]. rewrite <- !app_assoc. reflexivity.
Qed.
Hypothesis quiet : undisturbed env.
Theorem set_prop_list_ok s tid ps els p1 rest : storage_is_ready env -> idle s -> command_ok OP_SetObjectPropList tid ps ->
  r_session s <> 0 -> tid <> 0 -> tid <> 0xFFFFFFFF ->
  Forall element_ok els -> 12 + len (list_bytes els) < 2^32 -> 4 <= len p1 ->
  p1 ++ concat rest = spec_header (12 + len (list_bytes els)) 2 OP_SetObjectPropList tid ++ list_bytes els ->
  exists s' n1 n2 r l c rps, run (command OP_SetObjectPropList tid ps :: data_phase (p1 :: rest)) s = Ret (tt, s') /\
    noise n1 /\ noise n2 /\ processed 0 els l c rps /\
    r_log s' = n2 ++ (ASend (resp_out c tid rps) true, r) :: rev l ++ n1 ++ r_log s /\ r_st s' = IDLE.
Proof.
  intros Hr Hi Hc Hs Ht1 Ht2 HE HL H4 HP.
  destruct (check_only_eq env formats cat props_by_type prop_desc s OP_SetObjectPropList tid ps ltac:(cbn; tauto) Hi Hc Hr Hs Ht1 Ht2) as (s1 & n1 & E1 & N1 & L1 & W & R1 & S1).
  rewrite run_cons, E1. set (q := mk_req OP_SetObjectPropList tid (pars ps)) in *.
  assert (Hw : 12 + len (list_bytes els) < w32) by exact HL.
  destruct Hc as (C1 & C2 & _).
  rewrite (collect env formats cat props_by_type prop_desc q s1 p1 rest (list_bytes els) W R1 eq_refl C1 C2 Hw H4 HP).
  set (D := data_container q (list_bytes els)). pose proof (container_at q (list_bytes els) Hw) as At. fold D in At.
  set (s2 := set_data _ s1). unfold handler. change (q_code q) with OP_SetObjectPropList.
  change (OP_SetObjectPropList =? OP_SendObjectInfo) with false. change (OP_SetObjectPropList =? OP_SetObjectPropList) with true. cbv iota.
  unfold d_setObjectPropList.
  assert (Hn : len els < 2^32).
  { apply N.le_lt_trans with (len (list_bytes els)); [|lia]. unfold list_bytes. rewrite len_app. clear. assert (len els <= len (concat (map element_bytes els))); [|lia].
    induction els as [|e els IH]; [vm_compute; discriminate|]. cbn [map concat]. rewrite len_cons, len_app. unfold element_bytes at 1. rewrite !len_app. unfold spec_int at 1, len at 2. rewrite le_enc_length. lia. }
  set (cont := fun n => '(c, i) <- set_list_loop env cat prop_desc (N.to_nat n) 0 ;; (if isok c then send_response env R_OK else send_response1 env c (sub32 i 1))).
  unfold list_bytes in At.
  destruct (rd_eq N (rx_int 4) (spec_int 4 (len els)) (len els) _ cont s2 _ _ (concat (map element_bytes els)) (reads_int 4 _ Hn) eq_refl At) as (r2 & At2 & E2).
  change ((n <- rd (rx_int 4) ;; cont n) s2 = cont (len els) (set_data (Some r2) s2)) in E2.
  match goal with |- exists s' n1 n2 r l c rps, ?X = _ /\ _ => replace X with (cont (len els) (set_data (Some r2) s2)) by (rewrite <- E2; reflexivity) end. clear E2. unfold cont.
  replace (N.to_nat (len els)) with (List.length els) by (unfold len; rewrite Nnat.Nat2N.id; reflexivity).
  rewrite <- (app_nil_r (concat (map element_bytes els))) in At2.
  destruct (loop_ok els 0 (set_data (Some r2) s2) r2 _ [] HE ltac:(lia) eq_refl At2) as (l & c & rps & d & j & P & E3 & E4).
  unfold bind at 1. rewrite E3. set (s3 := set_log _ _).
  assert (A3 : active s3) by (right; apply W). assert (Q3 : r_req s3 = Some q) by apply W.
  unfold isok. destruct (c =? R_OK) eqn:OK.
  - apply N.eqb_eq in OK. subst c. subst rps. destruct (response_eq env quiet R_OK s3 q A3 Q3) as (n2 & r & N2 & E5). rewrite E5.
    eexists _, n1, n2, r, l, R_OK, []. split; [reflexivity|]. split; [exact N1|]. split; [exact N2|]. split; [exact P|]. split; [|reflexivity].
    cbn [r_log set_log]. unfold s3. cbn [r_log set_log]. change (r_log (set_data (Some r2) s2)) with (r_log s1). rewrite L1. reflexivity.
  - subst rps. destruct (response1_eq env quiet c (sub32 j 1) s3 q A3 Q3) as (n2 & r & N2 & E5). rewrite E5.
    eexists _, n1, n2, r, l, c, [sub32 j 1]. split; [reflexivity|]. split; [exact N1|]. split; [exact N2|]. split; [exact P|]. split; [|reflexivity].
    cbn [r_log set_log]. unfold s3. cbn [r_log set_log]. change (r_log (set_data (Some r2) s2)) with (r_log s1). rewrite L1. reflexivity.
Qed.
End Env.
End PL.
