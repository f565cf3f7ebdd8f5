(** Data phases that are collected before they are handled: however the data container
    is cut into packets, the handler sees the whole of it. *)
From Verif Require Import Base Wire WireSpec WireProofs WireProofs2 Responder RSpec RLogic ROne2 RGate RExec RSession RSend RSend2.

Section Coll.
Variable env : list (act * ans) -> act -> ans.
Variable formats : list N.
Variable cat : N -> N.
Variable props_by_type : N -> N * list N.
Variable prop_desc : N -> N -> N * option objpropdesc.
Notation step := (step env formats cat props_by_type prop_desc).
Notation run := (run env formats cat props_by_type prop_desc).

Definition handler (q : req) : M unit :=
  if q_code q =? OP_SendObjectInfo then d_sendObjectInfo env q
  else if q_code q =? OP_SetObjectPropList then d_setObjectPropList env cat prop_desc q
  else if q_code q =? OP_SendObjectPropList then d_sendObjectPropList env cat prop_desc q
  else if q_code q =? OP_SetDevicePropValue then d_setDevicePropValue env q
  else if q_code q =? OP_SetObjectPropValue then d_setObjPropValue env cat prop_desc q
  else if q_code q =? OP_SetObjectReferences then d_setObjReferences env q
  else (upd (set_resp R_OperationNotSupported) ;;; send_response env R_OperationNotSupported).
(** what happens when the data is complete and the command phase found code c *)
Definition conclude (c : N) (q : req) : M unit := if isok c then handler q else (upd (set_resp c) ;;; send_response env c).
(** a data container for q *)
Definition data_container (q : req) (body : bytes) : bytes := spec_header (12 + len body) 2 (q_code q) (q_tid q) ++ body.

Lemma recv_unfold q s data first last : waiting q s -> pass_through (q_code q) = false ->
  step (IRecv data first last) s = data_handler env cat prop_desc q data first last s.
Proof. intros [Hst Hrq] Hp. cbn [Responder.step]. unfold receive, bind at 1, get. rewrite Hst. unfold bind at 1. rewrite Hrq. reflexivity. Qed.

Lemma packet_more q s data (first : bool) r : waiting q s -> pass_through (q_code q) = false ->
  (if first then rx_new data else match r_data s with Some r0 => rx_append r0 data | None => UB end) = Ret r ->
  step (IRecv data first false) s = Ret (tt, set_data (Some r) s).
Proof.
  intros W Hp E. rewrite (recv_unfold q s data first false W Hp). unfold data_handler, bind at 1, get. rewrite Hp. cbn [negb andb]. unfold bind at 1.
  destruct first.
  - unfold bind at 1, lift. rewrite E. reflexivity.
  - unfold bind at 1. destruct (r_data s) as [r0|]; [|discriminate]. unfold bind at 1, lift. rewrite E. reflexivity.
Qed.
Lemma packet_last c q s data (first : bool) r : waiting q s -> pass_through (q_code q) = false -> r_resp s = c ->
  (if first then rx_new data else match r_data s with Some r0 => rx_append r0 data | None => UB end) = Ret r ->
  rx_tid r = Ret (q_tid q) -> rx_code r = Ret (q_code q) ->
  step (IRecv data first true) s = conclude c q (set_data (Some r) s).
Proof.
  intros W Hp Hr E T C. rewrite (recv_unfold q s data first true W Hp). unfold data_handler, bind at 1, get. rewrite Hp, Hr. cbn [negb andb]. unfold bind at 1.
  assert (H : (if first then r0 <- lift (rx_new data) ;; upd (set_data (Some r0)) else d <- get r_data ;; match d with Some r0 => r1 <- lift (rx_append r0 data) ;; upd (set_data (Some r1)) | None => ret tt end) s = Ret (tt, set_data (Some r) s)).
  { destruct first; [unfold bind, lift; rewrite E; reflexivity|]. unfold bind, get, lift. destruct (r_data s); [|discriminate]. rewrite E. reflexivity. }
  unfold get in H. rewrite H. unfold bind at 1. cbn [r_data set_data]. unfold bind at 1, conclude. destruct (isok c) eqn:OK.
  2:{ unfold ret at 1. rewrite OK. cbn [negb]. reflexivity. }
  cbv iota. unfold bind at 1, lift. rewrite T. unfold bind at 1. rewrite C. unfold ret at 1.
  rewrite !N.eqb_refl. cbn [negb]. change (isok R_OK) with true. cbn [negb]. unfold handler. unfold pass_through in Hp. apply orb_false_elim in Hp as [-> ->]. reflexivity.
Qed.
Lemma rx_new_exp p1 rest D n ty c t body : D = spec_header n ty c t ++ body -> p1 ++ rest = D -> n < w32 -> len D = n -> 4 <= len p1 ->
  rx_new p1 = Ret (mk_rxc p1 n 12).
Proof.
  intros HD HP Hn HL H4. unfold rx_new. destruct (len p1 <? 4) eqn:E; [lia|].
  assert (T : take 4 p1 = le_enc 4 n).
  { rewrite <- (spec_header_length n ty c t body Hn), <- HD, <- HP. symmetry. apply take_app_l. exact H4. }
  rewrite T, le_dec_enc. change (256 ^ N.of_nat 4) with w32. rewrite N.mod_small by exact Hn.
  assert (len p1 <= n) by (rewrite <- HL, <- HP, len_app; lia). destruct (n <? len p1) eqn:E2; [lia|]. reflexivity.
Qed.
Lemma rx_append_exp acc p n : len acc + len p <= n -> n < w32 -> rx_append (mk_rxc acc n 12) p = Ret (mk_rxc (acc ++ p) n 12).
Proof.
  intros H Hn. unfold rx_append. cbn [rx_buf rx_exp rx_off]. replace (u32 (len acc + len p)) with (len acc + len p) by (unfold u32, w32 in *; lia).
  destruct (_ <=? _) eqn:E; [|lia]. destruct (_ <? _) eqn:E2; [lia|]. reflexivity.
Qed.
Lemma container_fields q body : q_code q < 2^16 -> q_tid q < 2^32 -> 
  let r := mk_rxc (data_container q body) (12 + len body) 12 in rx_tid r = Ret (q_tid q) /\ rx_code r = Ret (q_code q).
Proof.
  intros H1 H2. cbv zeta. unfold rx_tid, rx_code, data_container, spec_header. split.
  - rewrite (rx_field_at (spec_int 4 (12 + len body) ++ spec_int 2 2 ++ spec_int 2 (q_code q)) (spec_int 4 (q_tid q)) body _ 8 4).
    + unfold spec_int. rewrite le_dec_enc. f_equal. apply N.mod_small. exact H2.
    + cbn [rx_buf]. rewrite <- !app_assoc. reflexivity.
    + rewrite !len_app. unfold spec_int, len. rewrite !le_enc_length. reflexivity.
    + unfold spec_int, len. rewrite !le_enc_length. reflexivity.
  - rewrite (rx_field_at (spec_int 4 (12 + len body) ++ spec_int 2 2) (spec_int 2 (q_code q)) (spec_int 4 (q_tid q) ++ body) _ 6 2).
    + unfold spec_int. rewrite le_dec_enc. f_equal. apply N.mod_small. exact H1.
    + cbn [rx_buf]. rewrite <- !app_assoc. reflexivity.
    + rewrite !len_app. unfold spec_int, len. rewrite !le_enc_length. reflexivity.
    + unfold spec_int, len. rewrite !le_enc_length. reflexivity.
Qed.
Lemma run1 i s : run [i] s = step i s.
Proof. cbn [Responder.run]. unfold bind. destruct (step i s) as [[[] s']| |]; reflexivity. Qed.
Lemma run_cons i l s : run (i :: l) s = match step i s with Ret (_, s1) => run l s1 | UB => UB | Abort => Abort end.
Proof. cbn [Responder.run]. unfold bind. destruct (step i s) as [[[] s']| |]; reflexivity. Qed.
Lemma set_data_twice a b s : set_data a (set_data b s) = set_data a s. Proof. reflexivity. Qed.
Lemma more_collect c q body : q_code q < 2^16 -> q_tid q < 2^32 -> 12 + len body < w32 -> pass_through (q_code q) = false ->
  forall rest acc s, rest <> [] -> waiting q s -> r_resp s = c -> r_data s = Some (mk_rxc acc (12 + len body) 12) ->
  acc ++ concat rest = data_container q body ->
  run (more_packets rest) s = conclude c q (set_data (Some (mk_rxc (data_container q body) (12 + len body) 12)) s).
Proof.
  intros H1 H2 H3 Hp. assert (L : len (data_container q body) = 12 + len body) by (unfold data_container; rewrite len_app, spec_header_len; reflexivity).
  induction rest as [|p rest IH]; intros acc s Hne W Hr Hd Hc; [contradiction|]. destruct rest as [|p2 rest].
  - cbn [more_packets]. rewrite run1. cbn [concat] in Hc. rewrite app_nil_r in Hc. rewrite <- Hc.
    destruct (container_fields q body H1 H2) as [F1 F2]. cbv zeta in F1, F2. rewrite <- Hc in F1, F2.
    apply packet_last; try assumption. rewrite Hd. apply rx_append_exp; [|exact H3]. rewrite <- len_app, Hc, L. lia.
  - change (more_packets (p :: p2 :: rest)) with (IRecv p false false :: more_packets (p2 :: rest)). rewrite run_cons.
    assert (A : len (acc ++ p) <= 12 + len body). { rewrite <- L, <- Hc. cbn [concat]. rewrite !len_app. lia. }
    rewrite (packet_more q s p false (mk_rxc (acc ++ p) (12 + len body) 12) W Hp).
    2:{ rewrite Hd. apply rx_append_exp; [|exact H3]. rewrite <- len_app. exact A. }
    rewrite (IH (acc ++ p) (set_data (Some (mk_rxc (acc ++ p) (12 + len body) 12)) s)); [reflexivity|discriminate|exact W|exact Hr|reflexivity|].
    rewrite <- app_assoc. exact Hc.
Qed.
Lemma collect_any c q s p1 rest body : waiting q s -> r_resp s = c -> pass_through (q_code q) = false ->
  q_code q < 2^16 -> q_tid q < 2^32 -> 12 + len body < w32 -> 4 <= len p1 -> p1 ++ concat rest = data_container q body ->
  run (data_phase (p1 :: rest)) s = conclude c q (set_data (Some (mk_rxc (data_container q body) (12 + len body) 12)) s).
Proof.
  intros W Hr Hp H1 H2 H3 H4 Hc. assert (L : len (data_container q body) = 12 + len body) by (unfold data_container; rewrite len_app, spec_header_len; reflexivity).
  pose proof (rx_new_exp p1 (concat rest) (data_container q body) (12 + len body) 2 (q_code q) (q_tid q) body eq_refl Hc H3 L H4) as N.
  destruct rest as [|p2 rest].
  - cbn [data_phase]. rewrite run1. cbn [concat] in Hc. rewrite app_nil_r in Hc.
    destruct (container_fields q body H1 H2) as [F1 F2]. cbv zeta in F1, F2. rewrite <- Hc in *. apply packet_last; assumption.
  - change (data_phase (p1 :: p2 :: rest)) with (IRecv p1 true false :: more_packets (p2 :: rest)). rewrite run_cons.
    rewrite (packet_more q s p1 true (mk_rxc p1 (12 + len body) 12) W Hp N).
    rewrite (more_collect c q body H1 H2 H3 Hp (p2 :: rest) p1); [reflexivity|discriminate|exact W|exact Hr|reflexivity|exact Hc].
Qed.
Lemma collect q s p1 rest body : waiting q s -> r_resp s = R_OK -> pass_through (q_code q) = false ->
  q_code q < 2^16 -> q_tid q < 2^32 -> 12 + len body < w32 -> 4 <= len p1 -> p1 ++ concat rest = data_container q body ->
  run (data_phase (p1 :: rest)) s = handler q (set_data (Some (mk_rxc (data_container q body) (12 + len body) 12)) s).
Proof. intros. rewrite (collect_any R_OK q s p1 rest body); try assumption. reflexivity. Qed.
Lemma container_at q body : 12 + len body < w32 -> rx_at (mk_rxc (data_container q body) (12 + len body) 12) (spec_header (12 + len body) 2 (q_code q) (q_tid q)) body.
Proof. intros H. unfold rx_at, data_container. cbn [rx_buf rx_off rx_exp]. rewrite len_app, spec_header_len. repeat split; lia. Qed.
(** reading from the collected data *)
Lemma rd_eq A (f : rxc -> outcome (A * rxc)) bs (a : A) B (k : A -> M B) s r pre post : reads f bs a -> r_data s = Some r -> rx_at r pre (bs ++ post) ->
  exists r1, rx_at r1 (pre ++ bs) post /\ (y <- rd f ;; k y) s = k a (set_data (Some r1) s).
Proof.
  intros R Hd At. destruct (R r pre post At) as (r1 & E & At1 & _). exists r1. split; [exact At1|].
  unfold rd, get_rx. unfold bind at 1, bind at 1, bind at 1, get. rewrite Hd. cbn [need]. unfold ret at 1. unfold bind at 1, lift. rewrite E. reflexivity.
Qed.
(** the commands whose handler only checks the session *)
Lemma check_only_eq s op tid ps : In op [OP_SetObjectPropList; OP_SetObjectReferences; OP_SendObjectInfo] -> idle s -> command_ok op tid ps -> storage_is_ready env ->
  r_session s <> 0 -> tid <> 0 -> tid <> 0xFFFFFFFF ->
  exists s1 l, step (command op tid ps) s = Ret (tt, s1) /\ noise l /\ r_log s1 = l ++ r_log s /\ waiting (mk_req op tid (pars ps)) s1 /\ r_resp s1 = R_OK /\ r_session s1 = r_session s.
Proof.
  intros Hop Hi Hc Hr Hs Ht1 Ht2. destruct (command_eq env formats cat props_by_type prop_desc s op tid ps Hi Hc (fun _ => Hr)) as (l & Hl & ->).
  assert (E : lookup_op op (op_table env formats cat props_by_type prop_desc) = Some h_check_only) by (destruct Hop as [<-|[<-|[<-|[]]]]; reflexivity).
  rewrite E. unfold h_check_only, check, bind, get, upd, ret. eexists _, l. split; [reflexivity|]. split; [exact Hl|]. split; [reflexivity|].
  split; [split; [|reflexivity]; cbn; unfold phase_state; destruct Hop as [<-|[<-|[<-|[]]]]; reflexivity|]. split; [|reflexivity].
  cbn [r_resp set_resp r_session set_log started set_st set_req q_tid]. unfold pre_check. change (r_session (set_log (l ++ r_log s) (set_resp R_OK (started op tid ps s)))) with (r_session s).
  destruct (r_session s =? 0) eqn:E1; [lia|]. destruct (tid =? 0) eqn:E2; [lia|]. destruct (tid =? 0xFFFFFFFF) eqn:E3; [lia|]. reflexivity.
Qed.
End Coll.
