(** Receiving an object: SendObject after SendObjectInfo or SendObjectPropList (C31-C33). *)
From Verif Require Import Base Wire WireSpec Responder RSpec RLogic ROne2 RGate RExec RSession.

(** ** Vocabulary *)
(** calls that change something, oldest first *)
Definition changed (l : list (act * ans)) : list scall := rev (filter changes (calls l)).
(** object content cut into packets: the first carries the 12 byte header *)
Definition object_packets (hdr : bytes) (bodies : list bytes) : list bytes :=
  match bodies with [] => [] | b :: r => (hdr ++ b) :: r end.
(** one write per packet, in order, first and last marked *)
Fixpoint chunk_writes (h : N) (first : bool) (bodies : list bytes) : list scall :=
  match bodies with
  | [] => []
  | [b] => [SWrite h (Some b) first true]
  | b :: r => SWrite h (Some b) first false :: chunk_writes h false r
  end.
(** the object to receive: handle, announced size, bytes received so far; by
    SendObjectInfo or by SendObjectPropList *)
Inductive announced (s : rstate) (h size w : N) : Prop :=
| by_info i : r_pl s = None -> r_seq s = Some (mk_ss i h w) -> oi_size i = size -> size < 2^32 -> announced s h size w
| by_props p : r_seq s = None -> r_pl s = Some p -> pl_handle p = h -> pl_size p = size -> pl_cur p = w -> size < 2^64 -> announced s h size w.
(** what is written after the content: the announced properties other than the file name
    (only after SendObjectPropList), then the closing call *)
Definition but_the_name (prop_desc : N -> N -> N * option objpropdesc) (vals : list (objpropdesc * variant)) : Prop :=
  forall d x, In (d, x) vals -> exists category code, code <> PROP_File_Name /\ snd (prop_desc category code) = Some d.
Definition finishing (prop_desc : N -> N -> N * option objpropdesc) (s : rstate) (h : N) (cs : list scall) : Prop :=
  (r_pl s = None /\ cs = [SWrite h None false true]) \/
  (r_pl s <> None /\ exists vals, but_the_name prop_desc vals /\ cs = [SSetProps h vals true; SWrite h None false true]).

Lemma changed_app a b : changed (a ++ b) = changed b ++ changed a.
Proof. unfold changed. rewrite calls_app, filter_app, rev_app_distr. reflexivity. Qed.
Lemma noise_changed l : noise l -> changed l = [].
Proof.
  intros H. apply noise_nochange in H. unfold changed. induction (calls l) as [|c t IH]; [reflexivity|]. cbn in *.
  destruct (changes c); [discriminate|]. auto.
Qed.

Section Send.
Variable env : list (act * ans) -> act -> ans.
Variable formats : list N.
Variable cat : N -> N.
Variable props_by_type : N -> N * list N.
Variable prop_desc : N -> N -> N * option objpropdesc.
Hypothesis quiet : undisturbed env.
Notation step := (step env formats cat props_by_type prop_desc).
Notation run := (run env formats cat props_by_type prop_desc).

Definition receiving (q : req) (h size w : N) (s : rstate) : Prop :=
  r_st s = WAIT_DATA /\ r_req s = Some q /\ q_code q = OP_SendObject /\ r_resp s = R_OK /\ announced s h size w.
Definition is_packet (first : bool) (body data : bytes) : Prop :=
  if first then exists hdr, len hdr = 12 /\ data = hdr ++ body else data = body.
Definition code_of_write (h : N) (b : bytes) (c : N) : Prop :=
  forall hist f l, a_code (env hist (ACall (SWrite h (Some b) f l))) = c.

Lemma packet_body first body data : is_packet first body data ->
  (first && (len data <? 12) = false) /\ (if first then drop 12 data else data) = body.
Proof.
  destruct first; cbn; [intros (hdr & H1 & ->)|intros ->; auto].
  split; [change (true && (len (hdr ++ body) <? 12) = false); rewrite len_app; lia|].
  change (drop 12 (hdr ++ body) = body). rewrite <- H1. apply drop_app_exact.
Qed.
(** the part of a step up to the body of sendObject's data handler *)
Lemma step_recv q h size w s data first last : receiving q h size w s ->
  step (IRecv data first last) s = d_sendObject env cat prop_desc data first last (set_data None s).
Proof.
  intros (H1 & H2 & H3 & H4 & _). cbn [Responder.step]. unfold receive, bind at 1, get. rewrite H1. unfold bind at 1. rewrite H2.
  unfold data_handler. unfold bind at 1, get. rewrite H4. rewrite H3. change (pass_through OP_SendObject) with true. cbv iota.
  unfold bind at 1, upd. change (negb true && negb last) with false. cbv iota. unfold bind at 1. cbn [r_data set_data].
  unfold bind at 1, ret. change (isok R_OK) with true. cbn [negb].
  change (OP_SendObject =? OP_SendObjectInfo) with false. change (OP_SendObject =? OP_SendObject) with true. cbv iota. reflexivity.
Qed.
(** the write and the size check *)
Lemma send_write q h size w s data body first last : receiving q h size w s -> is_packet first body data ->
  exists r k, r = env (r_log s) (ACall (SWrite h (Some body) first last)) /\
  let s0 := set_data None s in
  let s1 := add_log (ACall (SWrite h (Some body) first last), r) s0 in
  step (IRecv data first last) s =
    (code <- (if isok (a_code r) then send_object_check env h (len body) last else ret (a_code r)) ;; k code) s1 /\
  k = (fun code => if code =? R_Undefined then ret tt else
  upd (set_seq None) ;;;
  pl <- get r_pl ;;
  match pl with
  | Some p => when (isok code)
      (vals <- apply_list env prop_desc h (cat (pl_format p)) (pl_elems p) ;; _ <- call env (SSetProps h vals true) ;; ret tt)
  | None => ret tt
  end ;;;
  (_ <- call env (SWrite h None false true) ;; send_response env code ;;; upd (set_pl None))).
Proof.
  intros HR HP. rewrite (step_recv _ _ _ _ _ _ _ _ HR). destruct HR as (H1 & H2 & H3 & H4 & HA).
  apply packet_body in HP as [HP1 HP2]. eexists _, _. split; [reflexivity|]. cbv zeta. split; [|reflexivity].
  unfold d_sendObject. unfold bind at 1, get. cbn [r_pl set_data]. unfold bind at 1. cbn [r_seq set_data]. rewrite HP1. cbv zeta. rewrite HP2.
  destruct HA as [i A1 A2 A3 A4|p A1 A2 A3 A4 A5 A6].
  - rewrite A1, A2. cbn [ss_handle]. unfold bind at 1, bind at 1, call at 1, ask at 1. reflexivity.
  - rewrite A1, A2. cbv iota. rewrite A3. unfold bind at 1, bind at 1, call at 1, ask at 1. reflexivity.
Qed.
Lemma send_more q h size w s data body first : receiving q h size w s -> is_packet first body data ->
  code_of_write h body R_OK -> w + len body < size ->
  exists s1 r, step (IRecv data first false) s = Ret (tt, s1) /\ receiving q h size (w + len body) s1 /\
    r_log s1 = (ACall (SWrite h (Some body) first false), r) :: r_log s /\
    (r_pl s1 = None <-> r_pl s = None) /\ r_session s1 = r_session s.
Proof.
  intros HR HP Hw Hlt. destruct (send_write q h size w s data body first false HR HP) as (r & k & Hr & He & Hk). cbv zeta in He.
  rewrite He. assert (Hc : a_code r = R_OK) by (rewrite Hr; apply Hw). rewrite Hc. change (isok R_OK) with true. cbv iota.
  destruct HR as (H1 & H2 & H3 & H4 & HA). unfold send_object_check. unfold bind at 1, bind at 1, get. cbn [r_pl add_log set_data].
  unfold bind at 1. cbn [r_seq add_log set_data].
  destruct HA as [i A1 A2 A3 A4|p A1 A2 A3 A4 A5 A6].
  - rewrite A1, A2. cbn [ss_written]. change (2^32) with 4294967296 in A4. unfold u32. rewrite N.mod_small by lia. cbv zeta.
    unfold bind at 1, upd. cbn [ss_info ss_handle]. rewrite A3. replace (w + len body <? size) with true by lia. cbn [ret].
    subst k. cbv beta. change (R_Undefined =? R_Undefined) with true. cbv iota.
    eexists _, r. split; [reflexivity|]. split; [|split; [reflexivity|split; [split; intros _; first [exact A1|reflexivity]|reflexivity]]].
    split; [exact H1|]. split; [exact H2|]. split; [exact H3|]. split; [exact H4|].
    eapply by_info; [exact A1|reflexivity|exact A3|exact A4].
  - rewrite A2. cbv zeta. rewrite A5, A4. change (2^64) with 18446744073709551616 in A6. unfold u64. rewrite N.mod_small by lia.
    unfold bind at 1, upd. replace (w + len body <? size) with true by lia. cbn [ret].
    subst k. cbv beta. change (R_Undefined =? R_Undefined) with true. cbv iota.
    eexists _, r. split; [reflexivity|]. split; [|split; [reflexivity|split; [split; intros K; discriminate K|reflexivity]]].
    split; [exact H1|]. split; [exact H2|]. split; [exact H3|]. split; [exact H4|].
    eapply by_props; [exact A1|reflexivity|exact A3|first [exact A4|reflexivity]|reflexivity|exact A6].
Qed.
(** the end of a reception: properties, closing call, response *)
Lemma apply_eq h category elems s : exists l v, changed l = [] /\ responses l = [] /\ datas l = [] /\ but_the_name prop_desc v /\
  apply_list env prop_desc h category elems s = Ret (v, set_log (l ++ r_log s) s).
Proof.
  revert s. induction elems as [|[[code ty] v] el IH]; intros s.
  - exists [], []. split; [reflexivity|]. split; [reflexivity|]. split; [reflexivity|]. split; [intros d x []|]. cbn. rewrite set_log_same. reflexivity.
  - cbn [apply_list].
    assert (ADD : forall skip x, (code = PROP_File_Name -> skip = true) -> but_the_name prop_desc x ->
       but_the_name prop_desc (let (c, d) := prop_desc category code in match d with Some d => if negb skip && isok c then (d, v) :: x else x | None => x end)).
    { intros skip x SK B. destruct (prop_desc category code) as [c [d|]] eqn:PD; [|exact B]. destruct (negb skip && isok c) eqn:AD; [|exact B].
      intros d0 x0 [E|I]; [|exact (B d0 x0 I)]. injection E as <- <-. exists category, code. rewrite PD. split; [|reflexivity]. intros X. rewrite (SK X) in AD. discriminate AD. }
    destruct (code =? PROP_File_Name) eqn:FN.
    { unfold bind at 1, ret. unfold bind at 1. destruct (IH s) as (l & x & I1 & I2 & I3 & I4 & ->). specialize (ADD true x (fun _ => eq_refl) I4).
      destruct (prop_desc category code) as [c d]. exists l. eexists. split; [exact I1|]. split; [exact I2|]. split; [exact I3|]. split; [|reflexivity]. exact ADD. }
    apply N.eqb_neq in FN.
    destruct (code =? PROP_Name).
    { unfold bind at 1, bind at 1, call, ask. set (r := env _ _). unfold ret. unfold bind at 1.
      destruct (IH (add_log (ACall (SGetInfo h), r) s)) as (l & x & I1 & I2 & I3 & I4 & ->). set (skip := isok (a_code r) && _). specialize (ADD skip x (fun X => match FN X with end) I4).
      destruct (prop_desc category code) as [c d]. exists (l ++ [(ACall (SGetInfo h), r)]). eexists.
      rewrite changed_app, responses_app, datas_app, I1, I2, I3. split; [reflexivity|]. split; [reflexivity|]. split; [reflexivity|]. split; [exact ADD|]. rewrite <- app_assoc. reflexivity. }
    unfold bind at 1, ret. unfold bind at 1. destruct (IH s) as (l & x & I1 & I2 & I3 & I4 & ->). specialize (ADD false x (fun X => match FN X with end) I4).
    destruct (prop_desc category code) as [c d]. exists l. eexists. split; [exact I1|]. split; [exact I2|]. split; [exact I3|]. split; [exact ADD|reflexivity].
Qed.
Definition ender (h code : N) : M unit :=
  upd (set_seq None) ;;;
  pl <- get r_pl ;;
  match pl with
  | Some p => when (isok code)
      (vals <- apply_list env prop_desc h (cat (pl_format p)) (pl_elems p) ;; _ <- call env (SSetProps h vals true) ;; ret tt)
  | None => ret tt
  end ;;;
  (_ <- call env (SWrite h None false true) ;; send_response env code ;;; upd (set_pl None)).
Lemma ender_eq q h code s : active s -> r_req s = Some q ->
  exists s1 l, ender h code s = Ret (tt, s1) /\ r_log s1 = l ++ r_log s /\ r_st s1 = IDLE /\ r_seq s1 = None /\ r_pl s1 = None /\
    r_session s1 = r_session s /\ responses l = [resp_out code (q_tid q) []] /\ datas l = [] /\
    (if isok code then finishing prop_desc s h (changed l) else changed l = [SWrite h None false true]).
Proof.
  intros Ha Hq. unfold ender. unfold bind at 1, upd. unfold bind at 1, get. cbn [r_pl set_seq].
  set (s0 := set_seq None s).
  assert (Htail : forall s2 l0, (exists l', s2 = set_log l' s0) -> r_log s2 = l0 ++ r_log s -> responses l0 = [] -> datas l0 = [] ->
     exists s1 l, (_ <- call env (SWrite h None false true) ;; send_response env code ;;; upd (set_pl None)) s2 = Ret (tt, s1) /\
       r_log s1 = l ++ r_log s /\ r_st s1 = IDLE /\ r_seq s1 = None /\ r_pl s1 = None /\
       r_session s1 = r_session s /\ responses l = [resp_out code (q_tid q) []] /\ datas l = [] /\ changed l = changed l0 ++ [SWrite h None false true]).
  { intros s2 l0 (l' & ->) Hlog Hr0 Hd0. cbn [r_log set_log] in Hlog. subst l'. unfold bind at 1, call, ask. set (r := env _ _).
    set (s3 := add_log _ _). assert (A3 : active s3) by exact Ha. assert (Q3 : r_req s3 = Some q) by exact Hq.
    destruct (response_eq env quiet code s3 q A3 Q3) as (l2 & r2 & Hl2 & He). unfold bind. rewrite He.
    eexists _, (l2 ++ (ASend (resp_out code (q_tid q) []) true, r2) :: (ACall (SWrite h None false true), r) :: l0).
    split; [reflexivity|]. split. { cbn. rewrite <- app_assoc. reflexivity. }
    repeat (split; [reflexivity|]).
    rewrite responses_app, datas_app, changed_app, (noise_responses l2), (noise_datas l2), (noise_changed l2) by exact Hl2.
    cbn [responses datas response_of data_of fst app o_type resp_out]. change (TYPE_RESPONSE =? TYPE_RESPONSE) with true. cbv iota.
    change (TYPE_RESPONSE =? TYPE_DATA) with false. cbv iota. rewrite Hr0, Hd0. split; [reflexivity|]. split; [reflexivity|].
    rewrite app_nil_r. unfold changed. cbn. reflexivity. }
  destruct (r_pl s) as [p|] eqn:Ep; cbn [when].
  - destruct (isok code) eqn:Ec; cbn [when].
    + unfold bind at 1. unfold bind at 1. destruct (apply_eq h (cat (pl_format p)) (pl_elems p) s0) as (l & v & C1 & C2 & C3 & C4 & ->).
      unfold bind at 1, call at 1, ask at 1. set (r := env _ _). cbn [ret].
      destruct (Htail (add_log (ACall (SSetProps h v true), r) (set_log (l ++ r_log s0) s0)) ((ACall (SSetProps h v true), r) :: l)) as (s1 & l1 & E1 & E2 & E3 & E4 & E5 & E6 & E7 & E8 & E9).
      { exists ((ACall (SSetProps h v true), r) :: l ++ r_log s0). reflexivity. } { reflexivity. } { exact C2. } { exact C3. }
      exists s1, l1. split; [exact E1|]. repeat (split; [assumption|]). right. rewrite Ep. split; [discriminate|].
      exists v. split; [exact C4|]. rewrite E9. unfold changed at 1. cbn. change (rev (filter changes (calls l))) with (changed l). rewrite C1. reflexivity.
    + unfold bind at 1, ret. destruct (Htail s0 []) as (s1 & l1 & E1 & E2 & E3 & E4 & E5 & E6 & E7 & E8 & E9); try reflexivity.
      { exists (r_log s0). symmetry. apply set_log_same. }
      exists s1, l1. split; [exact E1|]. repeat (split; [assumption|]). exact E9.
  - unfold bind at 1, ret. destruct (Htail s0 []) as (s1 & l1 & E1 & E2 & E3 & E4 & E5 & E6 & E7 & E8 & E9); try reflexivity.
    { exists (r_log s0). symmetry. apply set_log_same. }
    exists s1, l1. split; [exact E1|]. repeat (split; [assumption|]).
    destruct (isok code); [left; auto|exact E9].
Qed.

(** the last packet: the announced size is reached, or not *)
Lemma send_last q h size w s data body first : receiving q h size w s -> is_packet first body data ->
  code_of_write h body R_OK -> (w + len body < 2^32 \/ w + len body <= size) ->
  exists s1 l, step (IRecv data first true) s = Ret (tt, s1) /\ r_log s1 = l ++ r_log s /\ r_st s1 = IDLE /\
    r_seq s1 = None /\ r_pl s1 = None /\ r_session s1 = r_session s /\ datas l = [] /\
    if w + len body <? size
    then responses l = [resp_out R_IncompleteTransfer (q_tid q) []] /\
         changed l = [SWrite h (Some body) first true; STruncate h 0; SWrite h None false true]
    else responses l = [resp_out R_OK (q_tid q) []] /\
         exists cs, finishing prop_desc s h cs /\ changed l = SWrite h (Some body) first true :: cs.
Proof.
  intros HR HP Hw Hlt. destruct (send_write q h size w s data body first true HR HP) as (r & k & Hr & He & Hk). cbv zeta in He.
  rewrite He. assert (Hc : a_code r = R_OK) by (rewrite Hr; apply Hw). rewrite Hc. change (isok R_OK) with true. cbv iota. clear He.
  set (s0 := add_log _ _).
  assert (Hcheck : exists s2 l0, send_object_check env h (len body) true s0 = Ret (if w + len body <? size then R_IncompleteTransfer else R_OK, s2) /\
     r_log s2 = l0 ++ r_log s0 /\ responses l0 = [] /\ datas l0 = [] /\ changed l0 = (if w + len body <? size then [STruncate h 0] else []) /\
     active s2 /\ r_req s2 = Some q /\ r_session s2 = r_session s /\ (r_pl s2 = None <-> r_pl s = None)).
  { destruct HR as (H1 & H2 & H3 & H4 & HA). unfold send_object_check. unfold bind at 1, get. unfold bind at 1.
    change (r_pl s0) with (r_pl s). change (r_seq s0) with (r_seq s). change (2^32) with 4294967296 in *.
    destruct HA as [i A1 A2 A3 A4|p A1 A2 A3 A4 A5 A6].
    - rewrite A1, A2. cbn [ss_written]. unfold u32. rewrite N.mod_small by lia. cbv zeta.
      unfold bind at 1, upd. cbn [ss_info ss_handle]. rewrite A3. destruct (w + len body <? size).
      + unfold bind, call, ask, ret. eexists _, [_]. split; [reflexivity|]. split; [reflexivity|]. split; [reflexivity|]. split; [reflexivity|].
        split; [reflexivity|]. split; [right; exact H1|]. split; [exact H2|]. split; [reflexivity|]. split; intros _; first [exact A1|reflexivity].
      + unfold ret. eexists _, []. split; [reflexivity|]. split; [reflexivity|]. split; [reflexivity|]. split; [reflexivity|].
        split; [reflexivity|]. split; [right; exact H1|]. split; [exact H2|]. split; [reflexivity|]. split; intros _; first [exact A1|reflexivity].
    - rewrite A2. cbv zeta. rewrite A5, A4. unfold u64. rewrite N.mod_small by lia.
      unfold bind at 1, upd. destruct (w + len body <? size).
      + unfold bind, call, ask, ret. eexists _, [_]. split; [reflexivity|]. split; [reflexivity|]. split; [reflexivity|]. split; [reflexivity|].
        split; [reflexivity|]. split; [right; exact H1|]. split; [exact H2|]. split; [reflexivity|]. split; intros K; discriminate K.
      + unfold ret. eexists _, []. split; [reflexivity|]. split; [reflexivity|]. split; [reflexivity|]. split; [reflexivity|].
        split; [reflexivity|]. split; [right; exact H1|]. split; [exact H2|]. split; [reflexivity|]. split; intros K; discriminate K. }
  destruct Hcheck as (s2 & l0 & C1 & C2 & C3 & C4 & C5 & C6 & C7 & C8 & C9).
  unfold bind at 1. rewrite C1. subst k. cbv beta.
  set (code := if w + len body <? size then R_IncompleteTransfer else R_OK).
  replace (code =? R_Undefined) with false by (unfold code; destruct (_ <? _); reflexivity).
  destruct (ender_eq q h code s2 C6 C7) as (s3 & l & E1 & E2 & E3 & E4 & E5 & E6 & E7 & E8 & E9).
  exists s3, (l ++ l0 ++ [(ACall (SWrite h (Some body) first true), r)]).
  split; [exact E1|]. split. { rewrite E2, C2. unfold s0. cbn [r_log add_log set_data]. rewrite <- !app_assoc. reflexivity. }
  split; [exact E3|]. split; [exact E4|]. split; [exact E5|]. split; [congruence|].
  rewrite !datas_app, !responses_app, !changed_app, E8, C4, C3, C5, E7. split; [reflexivity|].
  unfold code in *. destruct (w + len body <? size).
  - change (isok R_IncompleteTransfer) with false in E9. cbv iota in E9. rewrite E9. split; reflexivity.
  - change (isok R_OK) with true in E9. cbv iota in E9. split; [reflexivity|]. exists (changed l). split.
    + destruct E9 as [[K1 K2]|[K1 K2]]; [left|right]; (split; [tauto|exact K2]).
    + reflexivity.
Qed.
(** a write that fails: answered at once with its error *)
Lemma send_fail q h size w s data body first last c : receiving q h size w s -> is_packet first body data ->
  code_of_write h body c -> c <> R_OK -> c <> R_Undefined ->
  exists s1 l, step (IRecv data first last) s = Ret (tt, s1) /\ r_log s1 = l ++ r_log s /\ r_st s1 = IDLE /\
    r_seq s1 = None /\ r_pl s1 = None /\ r_session s1 = r_session s /\ datas l = [] /\
    responses l = [resp_out c (q_tid q) []] /\ changed l = [SWrite h (Some body) first last; SWrite h None false true].
Proof.
  intros HR HP Hw H1 H2. destruct (send_write q h size w s data body first last HR HP) as (r & k & Hr & He & Hk). cbv zeta in He.
  rewrite He. assert (Hc : a_code r = c) by (rewrite Hr; apply Hw). rewrite Hc. unfold isok. replace (c =? R_OK) with false by lia. clear He.
  unfold bind at 1, ret. subst k. cbv beta. replace (c =? R_Undefined) with false by lia.
  set (s0 := add_log _ _).
  destruct HR as (K1 & K2 & K3 & K4 & HA).
  destruct (ender_eq q h c s0 (or_intror K1) K2) as (s3 & l & E1 & E2 & E3 & E4 & E5 & E6 & E7 & E8 & E9).
  exists s3, (l ++ [(ACall (SWrite h (Some body) first last), r)]).
  split; [exact E1|]. split. { rewrite E2. unfold s0. cbn [r_log add_log set_data]. rewrite <- app_assoc. reflexivity. }
  split; [exact E3|]. split; [exact E4|]. split; [exact E5|]. split; [exact E6|].
  rewrite datas_app, responses_app, changed_app, E8, E7. split; [reflexivity|]. split; [reflexivity|].
  unfold isok in E9. replace (c =? R_OK) with false in E9 by lia. rewrite E9. reflexivity.
Qed.

(** ** Whole data phases *)
Fixpoint total (bodies : list bytes) : N := match bodies with [] => 0 | b :: r => len b + total r end.
(** the packets after the first *)
Lemma more_ok q h size bodies : forall w s, receiving q h size w s -> bodies <> [] ->
  (forall b, In b bodies -> code_of_write h b R_OK) ->
  (forall pre b post, bodies = pre ++ b :: post -> post <> [] -> w + total (pre ++ [b]) < size) ->
  (w + total bodies < 2^32 \/ w + total bodies <= size) ->
  exists s1 l, run (more_packets bodies) s = Ret (tt, s1) /\ r_log s1 = l ++ r_log s /\ r_st s1 = IDLE /\
    r_seq s1 = None /\ r_pl s1 = None /\ r_session s1 = r_session s /\ datas l = [] /\
    if w + total bodies <? size
    then responses l = [resp_out R_IncompleteTransfer (q_tid q) []] /\
         changed l = chunk_writes h false bodies ++ [STruncate h 0; SWrite h None false true]
    else responses l = [resp_out R_OK (q_tid q) []] /\
         exists cs, finishing prop_desc s h cs /\ changed l = chunk_writes h false bodies ++ cs.
Proof.
  induction bodies as [|b bodies IH]; intros w s HR Hne Hw Hpre Hlt; [contradiction|].
  destruct bodies as [|b2 bodies].
  - cbn [more_packets Responder.run chunk_writes total] in *. rewrite N.add_0_r in *.
    destruct (send_last q h size w s b b false HR eq_refl (Hw b (or_introl eq_refl)) Hlt) as (s1 & l & E1 & E).
    exists s1, l. unfold bind. rewrite E1. split; [reflexivity|]. exact E.
  - change (more_packets (b :: b2 :: bodies)) with (IRecv b false false :: more_packets (b2 :: bodies)). cbn [Responder.run].
    assert (Hb : w + len b < size). { specialize (Hpre [] b (b2 :: bodies) eq_refl ltac:(discriminate)). cbn in Hpre. lia. }
    destruct (send_more q h size w s b b false HR eq_refl (Hw b (or_introl eq_refl)) Hb) as (s1 & r & E1 & HR1 & El & Epl & Es).
    unfold bind at 1. rewrite E1.
    destruct (IH (w + len b) s1 HR1 ltac:(discriminate) (fun x Hx => Hw x (or_intror Hx))) as (s2 & l & F1 & F2 & F3 & F4 & F5 & F6 & F7 & F8).
    { intros pre x post Hx Hp. specialize (Hpre (b :: pre) x post ltac:(cbn; rewrite Hx; reflexivity) Hp). cbn [total app] in Hpre. lia. }
    { cbn [total] in *. lia. }
    exists s2, (l ++ [(ACall (SWrite h (Some b) false false), r)]). split; [exact F1|]. split. { rewrite F2, El, <- app_assoc. reflexivity. }
    split; [exact F3|]. split; [exact F4|]. split; [exact F5|]. split; [congruence|].
    rewrite datas_app, responses_app, changed_app, F7. split; [reflexivity|].
    replace (w + total (b :: b2 :: bodies)) with (w + len b + total (b2 :: bodies)) by (cbn [total]; lia).
    destruct (_ <? size).
    + destruct F8 as [K1 K2]. rewrite K1, K2. split; reflexivity.
    + destruct F8 as [K1 (cs & K2 & K3)]. rewrite K1. split; [reflexivity|]. exists cs. split; [|rewrite K3; reflexivity].
      destruct K2 as [[X Y]|[X Y]]; [left|right]; (split; [tauto|exact Y]).
Qed.
Lemma phase_ok q h size hdr bodies s : receiving q h size 0 s -> bodies <> [] -> len hdr = 12 ->
  (forall b, In b bodies -> code_of_write h b R_OK) ->
  (forall pre b post, bodies = pre ++ b :: post -> post <> [] -> total (pre ++ [b]) < size) ->
  (total bodies < 2^32 \/ total bodies <= size) ->
  exists s1 l, run (data_phase (object_packets hdr bodies)) s = Ret (tt, s1) /\ r_log s1 = l ++ r_log s /\ r_st s1 = IDLE /\
    r_seq s1 = None /\ r_pl s1 = None /\ r_session s1 = r_session s /\ datas l = [] /\
    if total bodies <? size
    then responses l = [resp_out R_IncompleteTransfer (q_tid q) []] /\
         changed l = chunk_writes h true bodies ++ [STruncate h 0; SWrite h None false true]
    else responses l = [resp_out R_OK (q_tid q) []] /\
         exists cs, finishing prop_desc s h cs /\ changed l = chunk_writes h true bodies ++ cs.
Proof.
  intros HR Hne Hh Hw Hpre Hlt. destruct bodies as [|b bodies]; [contradiction|].
  assert (HP : is_packet true b (hdr ++ b)) by (exists hdr; auto).
  destruct bodies as [|b2 bodies].
  - cbn [object_packets data_phase Responder.run chunk_writes total] in *. rewrite N.add_0_r in *.
    destruct (send_last q h size 0 s (hdr ++ b) b true HR HP (Hw b (or_introl eq_refl))) as (s1 & l & E1 & E); [rewrite N.add_0_l; exact Hlt|].
    rewrite N.add_0_l in E. exists s1, l. unfold bind. rewrite E1. split; [reflexivity|]. exact E.
  - change (data_phase (object_packets hdr (b :: b2 :: bodies))) with (IRecv (hdr ++ b) true false :: more_packets (b2 :: bodies)). cbn [Responder.run].
    assert (Hb : 0 + len b < size). { specialize (Hpre [] b (b2 :: bodies) eq_refl ltac:(discriminate)). cbn in Hpre. lia. }
    destruct (send_more q h size 0 s (hdr ++ b) b true HR HP (Hw b (or_introl eq_refl)) Hb) as (s1 & r & E1 & HR1 & El & Epl & Es).
    unfold bind at 1. rewrite E1.
    destruct (more_ok q h size (b2 :: bodies) (0 + len b) s1 HR1 ltac:(discriminate) (fun x Hx => Hw x (or_intror Hx))) as (s2 & l & F1 & F2 & F3 & F4 & F5 & F6 & F7 & F8).
    { intros pre x post Hx Hp. specialize (Hpre (b :: pre) x post ltac:(cbn; rewrite Hx; reflexivity) Hp). cbn [total app] in Hpre. lia. }
    { cbn [total] in *. lia. }
    exists s2, (l ++ [(ACall (SWrite h (Some b) true false), r)]). split; [exact F1|]. split. { rewrite F2, El, <- app_assoc. reflexivity. }
    split; [exact F3|]. split; [exact F4|]. split; [exact F5|]. split; [congruence|].
    rewrite datas_app, responses_app, changed_app, F7. split; [reflexivity|].
    replace (total (b :: b2 :: bodies)) with (0 + len b + total (b2 :: bodies)) by (cbn [total]; lia).
    destruct (_ <? size).
    + destruct F8 as [K1 K2]. rewrite K1, K2. split; reflexivity.
    + destruct F8 as [K1 (cs & K2 & K3)]. rewrite K1. split; [reflexivity|]. exists cs. split; [|rewrite K3; reflexivity].
      destruct K2 as [[X Y]|[X Y]]; [left|right]; (split; [tauto|exact Y]).
Qed.
(** the command itself *)
Lemma command_send s tid ps h size : idle s -> command_ok OP_SendObject tid ps -> storage_is_ready env ->
  r_session s <> 0 -> tid <> 0 -> tid <> 0xFFFFFFFF -> announced s h size 0 ->
  exists s1 l, step (command OP_SendObject tid ps) s = Ret (tt, s1) /\ r_log s1 = l ++ r_log s /\ noise l /\
    receiving (mk_req OP_SendObject tid (pars ps)) h size 0 s1 /\ r_pl s1 = r_pl s /\ r_session s1 = r_session s.
Proof.
  intros Hi Hc Hr Hs Ht1 Ht2 HA.
  destruct (command_eq env formats cat props_by_type prop_desc s _ _ _ Hi Hc (fun _ => Hr)) as (l & Hl & ->).
  change (lookup_op OP_SendObject _) with (Some h_sendObject). cbv iota. unfold h_sendObject, check, bind, get, upd, ret.
  eexists _, l. split; [reflexivity|]. split; [reflexivity|]. split; [exact Hl|]. cbn [r_seq r_pl r_session set_log set_resp started set_st set_req].
  change (q_tid _) with tid.
  assert (Hp : pre_check (r_session s) tid = R_OK).
  { unfold pre_check. destruct (r_session s =? 0) eqn:E1; [lia|]. destruct (tid =? 0) eqn:E2; [lia|]. destruct (tid =? 0xFFFFFFFF) eqn:E3; [lia|]. reflexivity. }
  rewrite Hp. change (isok R_OK) with true. cbv iota.
  split; [|split; reflexivity]. split; [reflexivity|]. split; [reflexivity|]. split; [reflexivity|]. split.
  - cbn [r_resp set_resp]. destruct HA as [i A1 A2 A3 A4|p A1 A2 A3 A4 A5 A6]; rewrite A1, A2; reflexivity.
  - destruct HA as [i A1 A2 A3 A4|p A1 A2 A3 A4 A5 A6]; [eapply by_info; eassumption|eapply by_props; eassumption].
Qed.
Theorem send_object_ok s tid ps h size hdr bodies : idle s -> command_ok OP_SendObject tid ps -> storage_is_ready env ->
  r_session s <> 0 -> tid <> 0 -> tid <> 0xFFFFFFFF -> announced s h size 0 ->
  bodies <> [] -> len hdr = 12 -> (forall b, In b bodies -> code_of_write h b R_OK) ->
  (forall pre b post, bodies = pre ++ b :: post -> post <> [] -> total (pre ++ [b]) < size) ->
  (total bodies < 2^32 \/ total bodies <= size) ->
  exists s' l, run (command OP_SendObject tid ps :: data_phase (object_packets hdr bodies)) s = Ret (tt, s') /\
    r_log s' = l ++ r_log s /\ r_st s' = IDLE /\ r_seq s' = None /\ r_pl s' = None /\ r_session s' = r_session s /\ datas l = [] /\
    if total bodies <? size
    then responses l = [resp_out R_IncompleteTransfer tid []] /\
         changed l = chunk_writes h true bodies ++ [STruncate h 0; SWrite h None false true]
    else responses l = [resp_out R_OK tid []] /\
         exists cs, finishing prop_desc s h cs /\ changed l = chunk_writes h true bodies ++ cs.
Proof.
  intros Hi Hc Hr Hs Ht1 Ht2 HA Hne Hh Hw Hpre Hlt.
  destruct (command_send s tid ps h size Hi Hc Hr Hs Ht1 Ht2 HA) as (s1 & l1 & E1 & E2 & E3 & E4 & E5 & E6).
  cbn [Responder.run]. unfold bind at 1. rewrite E1.
  destruct (phase_ok _ h size hdr bodies s1 E4 Hne Hh Hw Hpre Hlt) as (s2 & l & F1 & F2 & F3 & F4 & F5 & F6 & F7 & F8).
  exists s2, (l ++ l1). split; [exact F1|]. split; [rewrite F2, E2, <- app_assoc; reflexivity|]. split; [exact F3|].
  split; [exact F4|]. split; [exact F5|]. split; [congruence|].
  rewrite datas_app, responses_app, changed_app, F7, (noise_datas l1), (noise_responses l1), (noise_changed l1) by exact E3.
  cbn [app]. rewrite app_nil_r. split; [reflexivity|]. destruct (_ <? _); [exact F8|]. destruct F8 as [K1 (cs & K2 & K3)]. split; [exact K1|]. exists cs. split; [|exact K3].
  unfold finishing in *. rewrite <- E5. exact K2.
Qed.
(** stray packets after the answer reset the transport *)
Lemma stray bodies s : r_st s = IDLE -> exists s1 l, run (more_packets bodies) s = Ret (tt, s1) /\ r_log s1 = l ++ r_log s /\
  responses l = [] /\ datas l = [] /\ changed l = [].
Proof.
  revert s. induction bodies as [|b bodies IH]; intros s Hs; [exists s, []; auto|].
  assert (Hst : forall last, exists s1 r, step (IRecv b false last) s = Ret (tt, s1) /\ r_log s1 = (AReset, r) :: r_log s /\ r_st s1 = IDLE).
  { intros last. cbn [Responder.step]. unfold receive, bind at 1, get. rewrite Hs. unfold bind, upd, reset_transport, ask, ret. cbn [andb].
    eexists _, _. split; [reflexivity|]. split; reflexivity. }
  destruct bodies as [|b2 bodies].
  - cbn [more_packets Responder.run]. destruct (Hst true) as (s1 & r & E1 & E2 & E3). unfold bind. rewrite E1.
    exists s1, [(AReset, r)]. rewrite E2. repeat split.
  - change (more_packets (b :: b2 :: bodies)) with (IRecv b false false :: more_packets (b2 :: bodies)). cbn [Responder.run].
    destruct (Hst false) as (s1 & r & E1 & E2 & E3). unfold bind at 1. rewrite E1.
    destruct (IH s1 E3) as (s2 & l & F1 & F2 & F3 & F4 & F5).
    exists s2, (l ++ [(AReset, r)]). split; [exact F1|]. split; [rewrite F2, E2, <- app_assoc; reflexivity|].
    rewrite responses_app, datas_app, changed_app, F3, F4, F5. repeat split.
Qed.
Fixpoint plain_writes (h : N) (first : bool) (bodies : list bytes) : list scall :=
  match bodies with [] => [] | b :: r => SWrite h (Some b) first false :: plain_writes h false r end.
Lemma more_fail q h size c bad post : forall pre w s, receiving q h size w s ->
  (forall b, In b pre -> code_of_write h b R_OK) -> code_of_write h bad c -> c <> R_OK -> c <> R_Undefined ->
  w + total pre < size ->
  exists s1 l, run (more_packets (pre ++ bad :: post)) s = Ret (tt, s1) /\ r_log s1 = l ++ r_log s /\ datas l = [] /\
    responses l = [resp_out c (q_tid q) []] /\
    changed l = plain_writes h false pre ++ [SWrite h (Some bad) false (match post with [] => true | _ => false end); SWrite h None false true].
Proof.
  induction pre as [|b pre IH]; intros w s HR Hw Hb H1 H2 Hlt.
  - cbn [app plain_writes]. set (last := match post with [] => true | _ => false end).
    destruct (send_fail q h size w s bad bad false last c HR eq_refl Hb H1 H2) as (s1 & l & E1 & E2 & E3 & E4 & E5 & E6 & E7 & E8 & E9).
    assert (Hrun : run (more_packets (bad :: post)) s = run (more_packets post) s1).
    { destruct post as [|x post]; [cbn [more_packets Responder.run]|change (more_packets (bad :: x :: post)) with (IRecv bad false false :: more_packets (x :: post)); cbn [Responder.run]];
      unfold bind; unfold last in E1; rewrite E1; reflexivity. }
    destruct (stray post s1 E3) as (s2 & l2 & F1 & F2 & F3 & F4 & F5).
    exists s2, (l2 ++ l). split; [rewrite Hrun; exact F1|].
    split; [rewrite F2, E2, <- app_assoc; reflexivity|]. rewrite datas_app, responses_app, changed_app, F3, F4, F5, E7, E8, E9. repeat split.
  - destruct (pre ++ bad :: post) as [|x t] eqn:Ex; [destruct pre; discriminate|].
    change ((b :: pre) ++ bad :: post) with (b :: pre ++ bad :: post). rewrite Ex.
    change (more_packets (b :: x :: t)) with (IRecv b false false :: more_packets (x :: t)). cbn [Responder.run total] in *.
    destruct (send_more q h size w s b b false HR eq_refl (Hw b (or_introl eq_refl)) ltac:(lia)) as (s1 & r & E1 & HR1 & El & _ & _).
    unfold bind at 1. rewrite E1. rewrite <- Ex.
    destruct (IH (w + len b) s1 HR1 (fun y Hy => Hw y (or_intror Hy)) Hb H1 H2 ltac:(lia)) as (s2 & l & F1 & F2 & F3 & F4 & F5).
    exists s2, (l ++ [(ACall (SWrite h (Some b) false false), r)]). rewrite Ex in *. split; [exact F1|]. split; [rewrite F2, El, <- app_assoc; reflexivity|].
    rewrite datas_app, responses_app, changed_app, F3, F4, F5. repeat split.
Qed.
End Send.
