(** Operations that ask the storage (or the device) and relay the answer (C80). *)
From Coq Require Import Sorting.Permutation Sorting.Sorted.
From Verif Require Import Base Wire WireSpec Responder RSpec RLogic ROne2 RGate RExec RSession RSend RSend2 RColl RPropList.

(** ** Specification *)
(** what an operation does, step by step: ask something and go on with the answer, or finish
    with data (if any), a response code and response parameters *)
Inductive script :=
| Finish (data : option payload) (code : N) (params : list N)
| Ask (c : scall) (k : ans -> script).
(** [follows sc conv d c ps]: questions and answers [conv], in order, are the script's, and end
    with this result.  Questions for log output ([harmless]) are left out of [conv] *)
Inductive follows : script -> list (scall * ans) -> option payload -> N -> list N -> Prop :=
| follows_finish d c ps : follows (Finish d c ps) [] d c ps
| follows_ask c k r conv d code ps : harmless c = false -> follows (k r) conv d code ps ->
    follows (Ask c k) ((c, r) :: conv) d code ps
| follows_log c k r conv d code ps : harmless c = true -> follows (k r) conv d code ps ->
    follows (Ask c k) conv d code ps.
(** the questions in a log (newest entry first), oldest first *)
Fixpoint asked (l : list (act * ans)) : list (scall * ans) :=
  match l with
  | [] => []
  | (ACall c, r) :: l' => if harmless c then asked l' else asked l' ++ [(c, r)]
  | _ :: l' => asked l'
  end.
Definition ok (c : N) : bool := c =? R_OK.
Definition fail (c : N) : script := Finish None c [].
Definition good (items : list item) : script := Finish (Some (PItems items)) R_OK [].
Definition relay (r : ans) (items : list item) : script := if ok (a_code r) then good items else fail (a_code r).
Definition ids16 (l : list N) : item := IVal 0x4004 (VVec 0x4004 l).
Definition ids32 (l : list N) : item := IVal 0x4006 (VVec 0x4006 l).
(** checks, then the rest *)
Definition provided (c : scall) (rest : script) : script := Ask c (fun r => if ok (a_code r) then rest else fail (a_code r)).

Section Protocol.
Variable formats : list N.
Variable cat : N -> N.
Variable props_by_type : N -> N * list N.
Variable prop_desc : N -> N -> N * option objpropdesc.

(** GetNumObjects and GetObjectHandles: the storage unless all are meant, the format unless any
    is, the folder unless all or the top level are meant *)
Definition select (storage fmt folder : N) (report : ans -> script) (refuse : N -> script) : script :=
  let ask_them := Ask (SGetHandles storage (fmt mod 65536) folder) report in
  let with_folder := if (folder =? 0) || (folder =? 0xFFFFFFFF) then ask_them
                     else Ask (SCheckHandle folder) (fun r => if ok (a_code r) then ask_them else refuse (a_code r)) in
  let with_format := if (fmt =? 0) || existsb (N.eqb (fmt mod 65536)) formats then with_folder
                     else refuse R_Invalid_ObjectProp_Format in
  if storage =? 0xFFFFFFFF then with_format
  else Ask (SCheckStorage storage) (fun r => if ok (a_code r) then with_format else refuse (a_code r)).

Definition protocol (op : N) (p : nat -> N) : option script :=
  if op =? OP_GetStorageIDs then Some (Ask SStorageIds (fun r => relay r [ids32 (a_nums r)]))
  else if op =? OP_GetStorageInfo then
    Some (provided (SCheckStorage (p 0%nat)) (Ask (SStorageInfo (p 0%nat)) (fun r =>
            if ok (a_code r) then provided (SCheckStorage (p 0%nat)) (good (a_items r)) else fail (a_code r))))
  else if op =? OP_GetNumObjects then
    Some (select (p 0%nat) (p 1%nat) (p 2%nat) (fun r => Finish None (a_code r) [u32 (len (a_nums r))]) (fun c => Finish None c [0]))
  else if op =? OP_GetObjectHandles then
    Some (select (p 0%nat) (p 1%nat) (p 2%nat) (fun r => relay r [ids32 (isort (a_nums r))]) fail)
  else if op =? OP_GetObjectInfo then Some (Ask (SGetInfo (p 0%nat)) (fun r => relay r [IObj (a_info r)]))
  else if op =? OP_DeleteObject then Some (Ask (SDelete (p 0%nat) (p 1%nat mod 65536)) (fun r => fail (a_code r)))
  else if op =? OP_GetDevicePropDesc then
    Some (Ask (SDevDesc (p 0%nat mod 65536)) (fun r => match a_dpd r with Some d => relay r [IDpd d] | None => fail (a_code r) end))
  else if op =? OP_GetDevicePropValue then
    Some (Ask (SDevDesc (p 0%nat mod 65536)) (fun r => match a_dpd r with Some d => relay r [IVal (dpd_type d) (dpd_current d)] | None => fail (a_code r) end))
  else if op =? OP_MoveObject then
    Some (provided (SCheckHandle (p 0%nat)) (provided (SCheckStorage (p 1%nat))
      (let move := Ask (SMove (p 0%nat) (p 2%nat) (p 1%nat)) (fun r => fail (a_code r)) in
       if p 2%nat =? 0 then move else Ask (SCheckHandle (p 2%nat)) (fun r => if ok (a_code r) then move else fail R_InvalidParentObject))))
  else if op =? OP_CopyObject then
    Some (let stop c := Finish None c [0] in
      Ask (SCheckHandle (p 0%nat)) (fun r1 => if ok (a_code r1) then
        Ask (SCheckStorage (p 1%nat)) (fun r2 => if ok (a_code r2) then
          let copy := Ask (SCopy (p 0%nat) (p 2%nat) (p 1%nat)) (fun r => Finish None (a_code r) [a_num r 0]) in
          if p 2%nat =? 0 then copy else Ask (SCheckHandle (p 2%nat)) (fun r => if ok (a_code r) then copy else stop R_InvalidParentObject)
        else stop (a_code r2)) else stop (a_code r1)))
  else if op =? OP_GetObjectPropDesc then
    Some (if cat (p 1%nat mod 65536) =? CAT_UNSUPPORTED then fail R_Invalid_ObjectProp_Format
          else match prop_desc (cat (p 1%nat mod 65536)) (p 0%nat mod 65536) with
               | (c, Some d) => if ok c then good [IOpd d] else fail c
               | (c, None) => fail c
               end)
  else if op =? OP_GetObjectPropValue then
    Some (Ask (SGetInfo (p 0%nat)) (fun r => if ok (a_code r) then
      match prop_desc (cat (oi_format (a_info r))) (p 1%nat mod 65536) with
      | (c, Some d) => if ok c then
          Ask (SGetProps (p 0%nat) [d]) (fun r2 =>
            let rest := relay r2 [IVal (opd_type d) (match a_vals r2 with [(_, v)] => v | _ => VNull end)] in
            if a_code r2 =? R_ObjectProp_Not_Supported then Ask (SGetPath (p 0%nat)) (fun _ => rest) else rest)
        else fail c
      | (c, None) => fail c
      end else fail (a_code r)))
  else if op =? OP_GetObjectPropsSupported then
    Some (let (c, l) := props_by_type (cat (p 0%nat mod 65536)) in if ok c then good [ids16 l] else fail c)
  else if op =? OP_GetDeviceInfo then Some (Ask SDevInfo (fun r => good (a_items r)))
  else None.
End Protocol.

(** ** Proofs *)
Section X.
Variable env : list (act * ans) -> act -> ans.
Variable formats : list N.
Variable cat : N -> N.
Variable props_by_type : N -> N * list N.
Variable prop_desc : N -> N -> N * option objpropdesc.
Hypothesis quiet : undisturbed env.
Hypothesis tables : tables_ok props_by_type prop_desc.
Notation step := (step env formats cat props_by_type prop_desc).
Notation run := (run env formats cat props_by_type prop_desc).

(** the result of a handler on an active state *)
Definition result (q : req) (sc : script) (m : M unit) : Prop :=
  forall s, active s -> r_req s = Some q -> pre_check (r_session s) (q_tid q) = R_OK -> exists n d c ps,
    m s = Ret (tt, set_log (n ++ r_log s) (after_response s)) /\ follows sc (asked n) d c ps /\
    datas n = match d with Some pl => [inl (data_out q pl)] | None => [] end /\ responses n = [resp_out c (q_tid q) ps].

Lemma noise_asked n : noise n -> asked n = [].
Proof.
  unfold noise. induction n as [|[a r] n IH]; [reflexivity|]. cbn [forallb fst]. intros H. apply andb_prop in H as [H1 H2].
  destruct a as [c|o l|b l|o l|o|]; cbn [quiet_act] in H1; try discriminate H1; cbn [asked]; [rewrite H1|]; apply IH; exact H2.
Qed.
Lemma asked_app a b : asked (a ++ b) = asked b ++ asked a.
Proof.
  induction a as [|[x r] a IH]; [cbn; rewrite app_nil_r; reflexivity|]. cbn [app asked].
  destruct x; try exact IH. destruct (harmless c); [exact IH|]. rewrite IH, app_assoc. reflexivity.
Qed.
Lemma res_ret q c : result q (fail c) (send_response env c).
Proof.
  intros s A Q _. destruct (response_eq env quiet c s q A Q) as (n & a & Hn & E). rewrite E.
  exists (n ++ [(ASend (resp_out c (q_tid q) []) true, a)]), None, c, []. rewrite <- app_assoc.
  split; [reflexivity|]. rewrite asked_app, datas_app, responses_app, (noise_asked n Hn), (noise_datas n Hn), (noise_responses n Hn).
  split; [constructor|]. split; reflexivity.
Qed.
Lemma res_ret1 q c p : result q (Finish None c [p]) (send_response1 env c p).
Proof.
  intros s A Q _. destruct (response1_eq env quiet c p s q A Q) as (n & a & Hn & E). rewrite E.
  exists (n ++ [(ASend (resp_out c (q_tid q) [p]) true, a)]), None, c, [p]. rewrite <- app_assoc.
  split; [reflexivity|]. rewrite asked_app, datas_app, responses_app, (noise_asked n Hn), (noise_datas n Hn), (noise_responses n Hn).
  split; [constructor|]. split; reflexivity.
Qed.
Lemma res_data q pl c : result q (Finish (Some pl) c []) (data_then env q pl c).
Proof.
  intros s A Q _. unfold data_then. destruct (send_data_eq env quiet (data_out q pl) true s A eq_refl) as (n1 & a1 & N1 & _ & E1). unfold bind at 1. rewrite E1. cbn [when]. set (s3 := set_log _ s).
  destruct (response_eq env quiet c s3 q A Q) as (n2 & a2 & N2 & E2). rewrite E2.
  exists (n2 ++ [(ASend (resp_out c (q_tid q) []) true, a2)] ++ n1 ++ [(ASend (data_out q pl) true, a1)]), (Some pl), c, [].
  split; [unfold s3; cbn [r_log set_log]; rewrite <- !app_assoc; reflexivity|].
  rewrite !asked_app, !datas_app, !responses_app, (noise_asked n1 N1), (noise_datas n1 N1), (noise_responses n1 N1), (noise_asked n2 N2), (noise_datas n2 N2), (noise_responses n2 N2).
  split; [constructor|]. split; reflexivity.
Qed.
Lemma res_ask q c k f : (forall r, result q (k r) (f r)) -> result q (Ask c k) (r <- call env c ;; f r).
Proof.
  intros H s A Q PC. rewrite call_eq. set (r := env _ _).
  destruct (H r (add_log (ACall c, r) s) A Q PC) as (n & d & c' & ps & E & F & D & R). rewrite E.
  exists (n ++ [(ACall c, r)]), d, c', ps. rewrite <- app_assoc.
  split; [reflexivity|]. rewrite asked_app, datas_app, responses_app, D, R. cbn [asked].
  split; [|split; [destruct d; reflexivity|reflexivity]].
  destruct (harmless c) eqn:Hc; [eapply follows_log; eassumption|]. apply follows_ask; assumption.
Qed.
Lemma res_loop q c k f : (forall r, result q (k r) (f r)) -> result q (Ask c k) (r <- call_loop env c ;; f r).
Proof.
  intros H s A Q PC. unfold call_loop. change ((r <- (r <- call env c ;; run_sigs env false (a_async r) ;;; ret r) ;; f r) s)
    with ((x <- (run_sigs env false (a_async (env (r_log s) (ACall c))) ;;; ret (env (r_log s) (ACall c))) ;; f x) (add_log (ACall c, env (r_log s) (ACall c)) s)).
  set (r := env _ _).
  destruct (sigs_eq env false (a_async r) (add_log (ACall c, r) s) (quiet _ _)) as (m & Hm & Em). unfold bind. rewrite Em. unfold ret.
  destruct (H r (set_log (m ++ r_log (add_log (ACall c, r) s)) (add_log (ACall c, r) s)) A Q PC) as (n & d & c' & ps & E & F & D & R). rewrite E.
  exists (n ++ m ++ [(ACall c, r)]), d, c', ps. rewrite <- !app_assoc.
  split; [reflexivity|]. rewrite !asked_app, !datas_app, !responses_app, D, R, (noise_asked m Hm), (noise_datas m Hm), (noise_responses m Hm). cbn [asked app].
  split; [|split; [destruct d; reflexivity|reflexivity]].
  destruct (harmless c) eqn:Hc; [cbn [app]; eapply follows_log; eassumption|]. cbn [app]. apply follows_ask; assumption.
Qed.
Lemma res_ext q sc m m' : (forall s, active s -> m s = m' s) -> result q sc m' -> result q sc m.
Proof. intros E H s A Q PC. rewrite (E s A). apply H; assumption. Qed.
Lemma res_if q (b : bool) s1 s2 m1 m2 : result q s1 m1 -> result q s2 m2 -> result q (if b then s1 else s2) (if b then m1 else m2).
Proof. intros H1 H2. destruct b; assumption. Qed.
Lemma u16_mod x : u16 x = x mod 65536. Proof. reflexivity. Qed.

(** the object query as a continuation *)
Lemma res_select q (k : N * list N -> M unit) report refuse :
  (forall r, result q (report r) (k (a_code r, a_nums r))) -> (forall c, c <> R_OK -> result q (refuse c) (k (c, []))) ->
  result q (select formats (par q 0) (par q 1) (par q 2) report refuse) (x <- object_query env formats q ;; k x).
Proof.
  intros HR HF s A Q PC. unfold object_query, check. unfold bind at 1, bind at 1, bind at 1, get, ret at 1. rewrite PC. change (isok R_OK) with true. cbn [negb].
  assert (T : result q (Ask (SGetHandles (par q 0) (par q 1 mod 65536) (par q 2)) report) (fun s => (x <- (r <- call env (SGetHandles (par q 0) (u16 (par q 1)) (par q 2)) ;; ret (a_code r, a_nums r)) ;; k x) s)).
  { eapply res_ext; [|apply (res_ask q _ report (fun r => k (a_code r, a_nums r)) HR)]. intros; reflexivity. }
  assert (U : result q (if (par q 2 =? 0) || (par q 2 =? 0xFFFFFFFF) then Ask (SGetHandles (par q 0) (par q 1 mod 65536) (par q 2)) report
                        else Ask (SCheckHandle (par q 2)) (fun r => if ok (a_code r) then Ask (SGetHandles (par q 0) (par q 1 mod 65536) (par q 2)) report else refuse (a_code r)))
    (fun s => (x <- (c3 <- (if isok R_OK && negb (par q 2 =? 0) && negb (par q 2 =? ALL) then r <- call env (SCheckHandle (par q 2)) ;; ret (a_code r) else ret R_OK) ;;
      if negb (isok c3) then ret (c3, []) else r <- call env (SGetHandles (par q 0) (u16 (par q 1)) (par q 2)) ;; ret (a_code r, a_nums r)) ;; k x) s)).
  { change (isok R_OK) with true. unfold ALL. destruct (par q 2 =? 0); cbn [andb negb orb]; [exact T|]. destruct (par q 2 =? 0xFFFFFFFF); cbn [andb negb orb]; [exact T|].
    eapply res_ext; [|apply (res_ask q _ _ (fun r s => (x <- (if negb (isok (a_code r)) then ret (a_code r, []) else r <- call env (SGetHandles (par q 0) (u16 (par q 1)) (par q 2)) ;; ret (a_code r, a_nums r)) ;; k x) s))].
    - intros; reflexivity.
    - intros r. unfold ok, isok. destruct (a_code r =? R_OK) eqn:E; cbn [negb]; [exact T|]. apply (HF (a_code r)). apply N.eqb_neq. exact E. }
  assert (V : result q (if (par q 1 =? 0) || existsb (N.eqb (par q 1 mod 65536)) formats then
                 (if (par q 2 =? 0) || (par q 2 =? 0xFFFFFFFF) then Ask (SGetHandles (par q 0) (par q 1 mod 65536) (par q 2)) report
                        else Ask (SCheckHandle (par q 2)) (fun r => if ok (a_code r) then Ask (SGetHandles (par q 0) (par q 1 mod 65536) (par q 2)) report else refuse (a_code r)))
                 else refuse R_Invalid_ObjectProp_Format)
    (fun s => (x <- (c3 <- (if isok (if negb (par q 1 =? 0) && negb (existsb (N.eqb (u16 (par q 1))) formats) then R_Invalid_ObjectProp_Format else R_OK) && negb (par q 2 =? 0) && negb (par q 2 =? ALL) then r <- call env (SCheckHandle (par q 2)) ;; ret (a_code r)
        else ret (if negb (par q 1 =? 0) && negb (existsb (N.eqb (u16 (par q 1))) formats) then R_Invalid_ObjectProp_Format else R_OK)) ;;
      if negb (isok c3) then ret (c3, []) else r <- call env (SGetHandles (par q 0) (u16 (par q 1)) (par q 2)) ;; ret (a_code r, a_nums r)) ;; k x) s)).
  { rewrite u16_mod. destruct (par q 1 =? 0); cbn [andb negb orb]; [exact U|]. destruct (existsb (N.eqb (par q 1 mod 65536)) formats); cbn [andb negb orb]; [exact U|].
    apply (HF R_Invalid_ObjectProp_Format). discriminate. }
  unfold select. cbv zeta. fold ALL. destruct (par q 0 =? ALL).
  - exact (V s A Q PC).
  - apply (res_ask q _ _ (fun r s => (x <- (if negb (isok (a_code r)) then ret (a_code r, []) else
      c3 <- (if isok (if negb (par q 1 =? 0) && negb (existsb (N.eqb (u16 (par q 1))) formats) then R_Invalid_ObjectProp_Format else R_OK) && negb (par q 2 =? 0) && negb (par q 2 =? ALL) then r <- call env (SCheckHandle (par q 2)) ;; ret (a_code r)
        else ret (if negb (par q 1 =? 0) && negb (existsb (N.eqb (u16 (par q 1))) formats) then R_Invalid_ObjectProp_Format else R_OK)) ;;
      if negb (isok c3) then ret (c3, []) else r <- call env (SGetHandles (par q 0) (u16 (par q 1)) (par q 2)) ;; ret (a_code r, a_nums r)) ;; k x) s)); [|exact A|exact Q|exact PC].
    intros r. unfold ok. destruct (isok (a_code r)) eqn:E; unfold isok in E; rewrite E; cbn [negb]; [exact V|]. apply (HF (a_code r)). apply N.eqb_neq. exact E.
Qed.

Lemma res_check q sc (f : N -> M unit) : result q sc (f R_OK) -> result q sc (c <- check q ;; f c).
Proof. intros H s A Q PC. unfold check, bind, get, ret. rewrite PC. apply H; assumption. Qed.
Lemma res_assoc q sc {A B} (m : M A) (g : A -> M B) (f : B -> M unit) :
  result q sc (x <- m ;; (y <- g x ;; f y)) -> result q sc (y <- (x <- m ;; g x) ;; f y).
Proof. apply res_ext. intros s _. unfold bind. destruct (m s) as [[a s']| |]; reflexivity. Qed.
Lemma res_pure q sc {A} (a : A) (f : A -> M unit) : result q sc (f a) -> result q sc (x <- ret a ;; f x).
Proof. apply res_ext. reflexivity. Qed.
Lemma res_mc q (f : N -> M unit) sc stop : result q sc (f R_OK) -> (forall c, c <> R_OK -> result q (stop c) (f c)) ->
  result q (Ask (SCheckHandle (par q 0)) (fun r1 => if ok (a_code r1) then Ask (SCheckStorage (par q 1)) (fun r2 => if ok (a_code r2) then
      if par q 2 =? 0 then sc else Ask (SCheckHandle (par q 2)) (fun r => if ok (a_code r) then sc else stop R_InvalidParentObject)
    else stop (a_code r2)) else stop (a_code r1))) (c <- move_copy_checks env q ;; f c).
Proof.
  intros H HF. unfold move_copy_checks. apply res_assoc, res_check. change (isok R_OK) with true. cbn [negb].
  apply res_assoc, res_ask. intros r1. unfold ok, isok. destruct (a_code r1 =? R_OK) eqn:E1; cbn [negb]; [|apply res_pure, HF, N.eqb_neq, E1].
  apply res_assoc, res_ask. intros r2. destruct (a_code r2 =? R_OK) eqn:E2; cbn [negb]; [|apply res_pure, HF, N.eqb_neq, E2].
  destruct (par q 2 =? 0); [apply res_pure, H|].
  apply res_assoc, res_ask. intros r3. destruct (a_code r3 =? R_OK) eqn:E3; cbn [negb]; apply res_pure; [exact H|apply HF; discriminate].
Qed.
Lemma res_relay q r items : result q (relay r items) (if isok (a_code r) then data_then env q (PItems items) R_OK else send_response env (a_code r)).
Proof. unfold relay, ok, isok, good, fail. apply res_if; [apply res_data|apply res_ret]. Qed.
Lemma res_code q r s m : result q s m -> result q (if ok (a_code r) then s else fail (a_code r)) (if isok (a_code r) then m else send_response env (a_code r)).
Proof. intros H. apply res_if; [exact H|apply res_ret]. Qed.
Lemma res_code' q r s m : result q s m -> result q (if ok (a_code r) then s else fail (a_code r)) (if negb (isok (a_code r)) then send_response env (a_code r) else m).
Proof. intros H. unfold ok, isok. destruct (a_code r =? R_OK); [exact H|apply res_ret]. Qed.
Lemma active_not_cancel q sc c h : result q sc (send_response1 env c h) -> result q sc (st <- get r_st ;; if rst_eqb st TX_CANCEL then ret tt else send_response1 env c h).
Proof. apply res_ext. intros s A. unfold bind, get. destruct A as [->| ->]; reflexivity. Qed.

Lemma desc_ok cg p c d : prop_desc cg p = (c, d) -> c = R_OK -> exists x, d = Some x.
Proof. intros E ->. destruct tables as [T _]. specialize (T cg p). rewrite E in T. apply T. reflexivity. Qed.

Ltac chk := apply res_check; change (isok R_OK) with true; cbn [negb].
(** every operation of [protocol] follows its script *)
Lemma op_ok op q sc : protocol formats cat props_by_type prop_desc op (par q) = Some sc ->
  exists h, lookup_op op (op_table env formats cat props_by_type prop_desc) = Some h /\ result q sc (h q).
Proof.
  unfold protocol. intros H.
  repeat match type of H with (if op =? ?o then _ else _) = _ => destruct (op =? o) eqn:?E;
    [apply N.eqb_eq in E; subst op; apply (f_equal (fun x => match x with Some y => y | None => sc end)) in H; cbv beta iota in H; subst sc; eexists; split; [reflexivity|]|clear E] end; [..|discriminate H].
  - unfold h_getStorageIDs. chk. apply res_ask. intros r. apply res_relay.
  - unfold h_getStorageInfo. chk. apply res_ask. intros r1. apply res_code. apply res_ask. intros r2. apply res_code. apply res_ask. intros r3. apply res_code. apply res_data.
  - apply (res_select q (fun x => let '(c, l) := x in send_response1 env c (u32 (len l)))).
    + intros r. apply res_ret1.
    + intros c _. apply res_ret1.
  - apply (res_select q (fun x => let '(c, l) := x in if isok c then data_then env q (PItems [vec32 (isort l)]) R_OK else send_response env c)).
    + intros r. apply res_relay.
    + intros c N. unfold isok. replace (c =? R_OK) with false by lia. apply res_ret.
  - unfold h_getObjectInfo. chk. apply res_ask. intros r. apply res_relay.
  - unfold h_deleteObject. chk. apply res_ask. intros r. apply res_ret.
  - unfold h_getDevicePropDesc. chk. apply res_ask. intros r. destruct (a_dpd r); [apply res_relay|apply res_ret].
  - unfold h_getDevicePropValue. chk. apply res_ask. intros r. destruct (a_dpd r); [apply res_relay|apply res_ret].
  - unfold h_moveObject. apply (res_mc q (fun c => if isok c then r <- call_loop env (SMove (par q 0) (par q 2) (par q 1)) ;; send_response env (a_code r) else send_response env c)).
    + change (isok R_OK) with true. cbv iota. apply res_loop. intros r. apply res_ret.
    + intros c N. unfold isok. replace (c =? R_OK) with false by lia. apply res_ret.
  - unfold h_copyObject. cbv zeta.
    apply (res_mc q (fun c => x <- (if isok c then r <- call_loop env (SCopy (par q 0) (par q 2) (par q 1)) ;; ret (a_code r, a_num r 0) else ret (c, 0)) ;;
      (let (c2, h) := x in st <- get r_st ;; if rst_eqb st TX_CANCEL then ret tt else send_response1 env c2 h)) _ (fun c => Finish None c [0])).
    + change (isok R_OK) with true. cbv iota. apply res_assoc, res_loop. intros r. apply res_pure. apply active_not_cancel, res_ret1.
    + intros c N. unfold isok. replace (c =? R_OK) with false by lia. apply res_pure, active_not_cancel, res_ret1.
  - unfold h_getObjPropDesc. chk. rewrite u16_mod. rewrite u16_mod. cbv zeta. apply res_if; [apply res_ret|].
    destruct (prop_desc _ _) as [c d] eqn:E. unfold ok, isok. destruct (c =? R_OK) eqn:Ec.
    + apply N.eqb_eq in Ec. destruct (desc_ok _ _ _ _ E Ec) as [x ->]. apply res_pure, res_data.
    + destruct d; apply res_ret.
  - unfold h_getObjPropValue. chk. apply res_ask. intros r. unfold ok, isok. destruct (a_code r =? R_OK) eqn:E0; cbn [negb]; [|apply res_ret].
    rewrite u16_mod. destruct (prop_desc _ _) as [c d] eqn:E. destruct (c =? R_OK) eqn:Ec; cbn [negb]; [|destruct d; apply res_ret].
    apply N.eqb_eq in Ec. destruct (desc_ok _ _ _ _ E Ec) as [x ->]. apply res_pure, res_ask. intros r2. cbv zeta.
    destruct (a_code r2 =? R_ObjectProp_Not_Supported); [apply res_assoc, res_ask; intros r3|]; apply res_pure, res_relay.
  - unfold h_getObjPropsSupported. intros s A Q PC.
    assert (P1 : pre_check 1 (q_tid q) = R_OK).
    { revert PC. unfold pre_check. destruct (r_session s =? 0); [discriminate|]. change (1 =? 0) with false. exact (fun x => x). }
    rewrite P1. change (isok R_OK) with true. cbn [negb]. rewrite u16_mod. revert s A Q PC.
    destruct (props_by_type _) as [c l]. unfold ok, isok. destruct (c =? R_OK); [apply res_data|apply res_ret].
  - unfold h_getDeviceInfo. apply res_ask. intros r. apply res_data.
Qed.

Lemma request_ok op tid ps sc s : storage_is_ready env -> idle s -> command_ok op tid ps -> r_session s <> 0 -> tid <> 0 -> tid <> 0xFFFFFFFF ->
  protocol formats cat props_by_type prop_desc op (fun i => nth i (pars ps) 0) = Some sc ->
  exists s' l d c params, run [command op tid ps] s = Ret (tt, s') /\ r_log s' = l ++ r_log s /\ r_st s' = IDLE /\ r_session s' = r_session s /\
    follows sc (asked l) d c params /\
    datas l = match d with Some pl => [inl (mk_out TYPE_DATA op tid pl)] | None => [] end /\ responses l = [resp_out c tid params].
Proof.
  intros Hr Hi Hc Hs Ht1 Ht2 HP. rewrite run1.
  destruct (command_eq env formats cat props_by_type prop_desc s op tid ps Hi Hc (fun _ => Hr)) as (l & Hl & ->).
  set (q := mk_req op tid (pars ps)). destruct (op_ok op q sc HP) as (h & -> & R).
  set (s1 := set_log _ _).
  destruct (R s1) as (n & d & c & params & E & F & D & Re).
  - apply started_active.
  - reflexivity.
  - change (r_session s1) with (r_session s). change (q_tid q) with tid.
    unfold pre_check. replace (r_session s =? 0) with false by lia. replace (tid =? 0) with false by lia. replace (tid =? 0xFFFFFFFF) with false by lia. reflexivity.
  - rewrite E. exists (set_log (n ++ r_log s1) (after_response s1)), (n ++ l), d, c, params.
    split; [reflexivity|]. split; [cbn [r_log set_log s1]; unfold s1; cbn [r_log set_log]; apply app_assoc|]. split; [reflexivity|]. split; [reflexivity|].
    rewrite asked_app, datas_app, responses_app, (noise_asked l Hl), (noise_datas l Hl), (noise_responses l Hl), !app_nil_r. cbn [app].
    split; [exact F|]. split; assumption.
Qed.
End X.

(** ** The sorted handle list *)
Lemma insert_perm x l : Permutation (x :: l) (insert x l).
Proof.
  induction l as [|y l IH]; [reflexivity|]. cbn [insert]. destruct (x <=? y); [reflexivity|].
  transitivity (y :: x :: l); [constructor|constructor; exact IH].
Qed.
Lemma isort_perm l : Permutation l (isort l).
Proof. induction l as [|x l IH]; [constructor|]. cbn [isort]. rewrite <- insert_perm. constructor. exact IH. Qed.
Lemma insert_sorted x l : Sorted N.le l -> Sorted N.le (insert x l).
Proof.
  induction 1 as [|y l S IH H]; [repeat constructor|]. cbn [insert]. destruct (x <=? y) eqn:E; [repeat constructor; [assumption..|lia]|].
  constructor; [exact IH|]. destruct l as [|z l]; cbn [insert]; [constructor; lia|]. inversion H; subst. destruct (x <=? z); constructor; lia.
Qed.
Lemma isort_sorted l : Sorted N.le (isort l).
Proof. induction l; [constructor|]. apply insert_sorted. assumption. Qed.
