(** Object reads: GetObject, GetPartialObject, GetPartialObject64 (C28, C29). *)
From Verif Require Import Base Wire WireSpec Responder RSpec RLogic ROne2 RGate RExec RSession.

(** ** Vocabulary *)
(** The data phase as the initiator sees it, oldest first: content and "last" flag *)
Definition packet_of (e : act * ans) : option ((outc + bytes) * bool) :=
  match fst e with
  | ASend o b | AResend o b => if o_type o =? TYPE_DATA then Some (inl o, b) else None
  | ASendRaw d b => Some (inr d, b)
  | _ => None
  end.
Fixpoint packets (log : list (act * ans)) : list ((outc + bytes) * bool) :=
  match log with
  | [] => []
  | e :: r => packets r ++ match packet_of e with Some p => [p] | None => [] end
  end.
(** The storage holds an object [h] of content [c]: it reports the size and
    answers every read inside the object with the bytes there. *)
Record serves (env : list (act * ans) -> act -> ans) (h : N) (c : bytes) : Prop := mk_serves {
  sv_info_ok : forall hist, a_code (env hist (ACall (SGetInfo h))) = R_OK;
  sv_file : forall hist, oi_format (a_info (env hist (ACall (SGetInfo h)))) <> FMT_Association;
  sv_size : forall hist, oi_size (a_info (env hist (ACall (SGetInfo h)))) = len c;
  sv_read_ok : forall hist n off, off + n <= len c -> a_code (env hist (ACall (SRead h n off))) = R_OK;
  sv_read : forall hist n off, off + n <= len c -> a_bytes (env hist (ACall (SRead h n off))) = take n (drop off c) }.
(** reads stay inside the object and storage is only asked *)
Definition inside (c : bytes) (x : scall) : bool :=
  match x with SRead _ n off => off + n <=? len c | _ => negb (changes x) end.
(** one data container [op tid] declaring the right length, then raw packets, all of
    bounded size, exactly the last flagged, contents adding up to [content] *)
Definition transfers (op tid : N) (content : bytes) (ps : list ((outc + bytes) * bool)) : Prop :=
  exists b0 rest flags,
    ps = combine (inl (data_out (mk_req op tid []) (PRaw b0 (if MAX_CONTENT <? len content then 0xFFFFFFFF else 12 + len content)))
                  :: map inr rest) (flags ++ [true]) /\
    length rest = length flags /\ forallb negb flags = true /\
    b0 ++ concat rest = content /\
    12 + len b0 <= 16384 /\ Forall (fun b => 0 < len b <= 16384) rest.

Lemma packets_app a b : packets (a ++ b) = packets b ++ packets a.
Proof. induction a as [|e a IH]; cbn; [now rewrite app_nil_r|]. rewrite IH, app_assoc. reflexivity. Qed.
Lemma noise_packets l : noise l -> packets l = [].
Proof.
  unfold noise. induction l as [|[a r] l IH]; [reflexivity|]. cbn. intros H. apply andb_prop in H as [H1 H2].
  rewrite IH by exact H2. destruct a; cbn in *; try discriminate; auto.
Qed.
Lemma noise_inside c l : noise l -> forallb (inside c) (calls l) = true.
Proof.
  intros H. apply noise_calls in H. induction (calls l) as [|x t IH]; [reflexivity|]. cbn in *.
  apply andb_prop in H as [H1 H2]. rewrite IH by exact H2. destruct x; cbn in *; try discriminate; reflexivity.
Qed.
Lemma fit_exact n b : len b = n -> fit n b = b.
Proof.
  intros H. unfold fit. rewrite take_app_l by lia. apply take_all. lia.
Qed.

Section Read.
Variable env : list (act * ans) -> act -> ans.
Hypothesis quiet : undisturbed env.
Hypothesis tw : transport_works env.
Variable h : N.
Variable c : bytes.
Hypothesis sv : serves env h c.

Lemma chunk_len n off : off + n <= len c -> len (take n (drop off c)) = n.
Proof. intros H. rewrite len_take, len_drop. lia. Qed.
Lemma seg_loop_ok : forall fuel off rem s, 0 < rem -> rem < 16384 * N.of_nat fuel -> off + rem <= len c ->
  exists l rest flags, seg_loop env fuel h off rem s = Ret ((R_OK, 0, true), set_log (l ++ r_log s) s) /\
    packets l = combine (map inr rest) (flags ++ [true]) /\ length rest = S (length flags) /\ forallb negb flags = true /\
    concat rest = take rem (drop off c) /\ Forall (fun b => 0 < len b <= 16384) rest /\
    forallb (inside c) (calls l) = true /\ responses l = [].
Proof.
  induction fuel as [|f IH]; intros off rem s H0 Hf Hb; [lia|].
  cbn [seg_loop]. change BUFFER_MAX with 16384.
  set (n := if rem <? 16384 then rem else 16384).
  assert (Hn : n = N.min rem 16384) by (unfold n; destruct (rem <? 16384) eqn:E; lia). clearbody n.
  unfold bind at 1, call, ask. set (r := env _ _).
  assert (Hr1 : a_code r = R_OK) by (apply (sv_read_ok _ _ _ sv); lia).
  assert (Hr2 : a_bytes r = take n (drop off c)) by (apply (sv_read _ _ _ sv); lia).
  unfold isok at 1. rewrite Hr1. change (R_OK =? R_OK) with true. cbn [negb].
  rewrite fit_exact by (rewrite Hr2; apply chunk_len; lia). rewrite Hr2.
  set (s1 := add_log _ s). clearbody r.
  destruct (raw_eq env quiet (take n (drop off c)) (n =? rem) s1) as (l1 & r2 & Hl1 & Hr & He).
  unfold bind at 1 in He. unfold ask at 1 in He. unfold bind at 1, ask.
  rewrite <- Hr in *. unfold bind at 1 in He. unfold bind at 1.
  destruct (run_sigs env true (a_async r2) _) as [[[] s2]| |]; try discriminate.
  apply Ret_inj in He. apply (f_equal snd) in He. cbn [snd] in He. subst s2.
  assert (Hb2 : a_bool r2 = true) by (rewrite Hr; apply tw). rewrite Hb2. cbn [negb].
  destruct (rem - n =? 0) eqn:E.
  - exists (l1 ++ [(ASendRaw (take n (drop off c)) (n =? rem), r2); (ACall (SRead h n off), r)]), [take n (drop off c)], [].
    assert (H : n = rem) by lia.
    split. { unfold ret. replace (rem - n) with 0 by lia. do 2 f_equal. unfold s1. destruct s; cbn. unfold set_log; cbn. rewrite <- app_assoc. reflexivity. }
    rewrite packets_app, calls_app, responses_app, forallb_app. cbn. rewrite noise_packets, noise_inside, noise_responses by exact Hl1.
    replace (n =? rem) with true by lia. rewrite H.
    split; [reflexivity|]. split; [reflexivity|]. split; [reflexivity|]. split; [apply app_nil_r|].
    split; [constructor; [|constructor]; rewrite chunk_len; lia|]. split; [|reflexivity].
    replace (off + rem <=? len c) with true by lia. reflexivity.
  - set (s2 := set_log _ s1).
    assert (G1 : 0 < rem - n) by lia. assert (G2 : rem - n < 16384 * N.of_nat f) by lia. assert (G3 : off + n + (rem - n) <= len c) by lia.
    destruct (IH (off + n) (rem - n) s2 G1 G2 G3) as (l & rest & flags & He2 & Hp & Hlen & Hfl & Hcat & Hsz & Hin & Hrs).
    rewrite He2. clear He2 G1 G2 G3.
    exists (l ++ l1 ++ [(ASendRaw (take n (drop off c)) (n =? rem), r2); (ACall (SRead h n off), r)]), (take n (drop off c) :: rest), (false :: flags).
    split. { do 2 f_equal. unfold s2, s1. destruct s; cbn. unfold set_log; cbn. rewrite <- !app_assoc. reflexivity. }
    rewrite !packets_app, !calls_app, !responses_app, !forallb_app. cbn. rewrite Hin, Hrs, (noise_packets l1), (noise_inside c l1), (noise_responses l1) by exact Hl1.
    replace (n =? rem) with false by lia. rewrite app_nil_r, Hp.
    split; [reflexivity|]. split; [lia|]. split; [exact Hfl|].
    split. { rewrite Hcat. rewrite <- drop_drop. replace rem with (n + (rem - n)) at 2 by lia. rewrite take_add. reflexivity. }
    split; [constructor; [rewrite chunk_len; lia|exact Hsz]|]. split; [|reflexivity].
    replace (off + n <=? len c) with true by lia. reflexivity.
Qed.

Definition read_response (op tid n : N) : outc :=
  resp_out R_OK tid (if op =? OP_GetPartialObject then [if MAX_CONTENT <? n then 0xFFFFFFFF else n] else []).
Definition read_done (op tid : N) (content : bytes) (l : list (act * ans)) : Prop :=
  transfers op tid content (packets l) /\ responses l = [read_response op tid (len content)] /\ forallb (inside c) (calls l) = true.
Lemma seg_respond_ok q n s : active s -> r_req s = Some q ->
  exists l r, noise l /\ seg_respond env (q_code q) R_OK n s =
    Ret (tt, set_log (l ++ (ASend (resp_out R_OK (q_tid q) (if q_code q =? OP_GetPartialObject then [if MAX_CONTENT <? n then 0xFFFFFFFF else u32 n] else [])) true, r) :: r_log s) (after_response s)).
Proof.
  intros Ha Hq. unfold seg_respond. destruct (q_code q =? OP_GetPartialObject).
  - destruct (response1_eq env quiet R_OK (if MAX_CONTENT <? n then 0xFFFFFFFF else u32 n) s q Ha Hq) as (l & r & Hl & He).
    exists l, r. split; [exact Hl|]. exact He.
  - destruct (response_eq env quiet R_OK s q Ha Hq) as (l & r & Hl & He). exists l, r. split; [exact Hl|]. exact He.
Qed.
Lemma u32_small n : (MAX_CONTENT <? n) = false -> u32 n = n /\ u32 (12 + n) = 12 + n.
Proof. unfold MAX_CONTENT, u32. intros H. split; apply N.mod_small; lia. Qed.
Lemma count_eq n : (if MAX_CONTENT <? n then 0xFFFFFFFF else u32 n) = (if MAX_CONTENT <? n then 0xFFFFFFFF else n).
Proof. destruct (MAX_CONTENT <? n) eqn:E; [reflexivity|]. apply u32_small; exact E. Qed.
Lemma segmented_ok q off tail s : active s -> r_req s = Some q -> off <= tail -> tail <= len c -> len c < 2^64 ->
  exists l, send_segmented env q h off tail s = Ret (tt, set_log (l ++ r_log s) (after_response s)) /\
    read_done (q_code q) (q_tid q) (take (tail - off) (drop off c)) l.
Proof.
  intros Ha Hq Hot Htl H64. unfold send_segmented.
  assert (Hs64 : sub64 tail off = tail - off).
  { unfold sub64. change (2^64) with 18446744073709551616 in *. rewrite (N.mod_small off) by lia.
    replace (tail + 18446744073709551616 - off) with ((tail - off) + 1 * 18446744073709551616) by lia.
    rewrite N.mod_add by lia. apply N.mod_small. lia. }
  rewrite Hs64. set (total := tail - off). change (BUFFER_MAX - 12) with 16372.
  set (n := if total <? 16372 then total else 16372).
  assert (Hn : n = N.min total 16372) by (unfold n; destruct (total <? 16372) eqn:E; lia). clearbody n. cbv zeta.
  set (decl := if MAX_CONTENT <? total then 0xFFFFFFFF else u32 (12 + total)).
  assert (Hd : decl = if MAX_CONTENT <? total then 0xFFFFFFFF else 12 + total).
  { unfold decl. destruct (MAX_CONTENT <? total) eqn:E; [reflexivity|]. apply u32_small; exact E. }
  clearbody decl. assert (Htot : off + total <= len c) by (unfold total; lia). clearbody total.
  unfold bind at 1, call, ask. set (r := env _ _).
  assert (Hr1 : a_code r = R_OK) by (apply (sv_read_ok _ _ _ sv); lia).
  assert (Hr2 : a_bytes r = take n (drop off c)) by (apply (sv_read _ _ _ sv); lia).
  unfold isok at 1. rewrite Hr1. change (R_OK =? R_OK) with true. cbn [negb].
  rewrite fit_exact by (rewrite Hr2; apply chunk_len; lia). rewrite Hr2. clearbody r.
  set (s1 := add_log _ s). set (o := data_out q _).
  destruct (send_data_eq env quiet o (n =? total) s1 Ha eq_refl) as (l1 & r2 & Hl1 & Hr & He).
  unfold bind at 1. rewrite He. clear He. cbn [negb].
  set (s2 := set_log _ s1). change (active s2) in Ha. change (r_req s2 = Some q) in Hq.
  assert (HT : len (take total (drop off c)) = total) by (apply chunk_len; lia).
  destruct (total - n =? 0) eqn:E.
  - assert (Hle : total <= 16372) by lia. assert (Hnt : n = total) by lia. clear Hn E. subst n.
    destruct (seg_respond_ok q total s2 Ha Hq) as (l2 & r3 & Hl2 & ->).
    exists (l2 ++ (ASend (resp_out R_OK (q_tid q) (if q_code q =? OP_GetPartialObject then [if MAX_CONTENT <? total then 0xFFFFFFFF else u32 total] else [])) true, r3)
       :: l1 ++ [(ASend o (total =? total), r2); (ACall (SRead h total off), r)]).
    split. { do 2 f_equal. unfold s2, s1. destruct s; unfold set_log, after_response; cbn. rewrite <- !app_assoc. cbn. rewrite <- app_assoc. reflexivity. }
    unfold read_done. rewrite packets_app, calls_app, responses_app, forallb_app. cbn [packets calls responses response_of packet_of fst app].
    change (o_type (resp_out _ _ _)) with TYPE_RESPONSE. change (TYPE_RESPONSE =? TYPE_DATA) with false. change (TYPE_RESPONSE =? TYPE_RESPONSE) with true. cbv iota.
    rewrite packets_app, calls_app, responses_app, forallb_app. cbn [packets calls responses response_of packet_of fst app].
    change (o_type o) with TYPE_DATA. change (TYPE_DATA =? TYPE_DATA) with true. change (TYPE_DATA =? TYPE_RESPONSE) with false. cbv iota.
    rewrite (noise_packets l1), (noise_packets l2), (noise_inside c l1), (noise_inside c l2), (noise_responses l1), (noise_responses l2) by assumption.
    cbn [app andb calls forallb]. rewrite !N.eqb_refl, ?app_nil_r. split; [|split].
    + exists (take total (drop off c)), [], []. rewrite HT. split; [unfold o, data_out; cbn; rewrite Hd; reflexivity|].
      split; [reflexivity|]. split; [reflexivity|]. split; [apply app_nil_r|]. split; [lia|constructor].
    + rewrite HT. unfold read_response. rewrite count_eq. reflexivity.
    + cbn. replace (off + total <=? len c) with true by lia. reflexivity.
  - set (rem := total - n).
    assert (Hfuel : rem < 16384 * N.of_nat (S (N.to_nat (rem / BUFFER_MAX)))).
    { change BUFFER_MAX with 16384. pose proof (N.div_mod rem 16384 ltac:(lia)). pose proof (N.mod_lt rem 16384 ltac:(lia)). lia. }
    assert (G1 : 0 < rem) by (unfold rem; lia). assert (G2 : off + n + rem <= len c) by (unfold rem; lia).
    destruct (seg_loop_ok (S (N.to_nat (rem / BUFFER_MAX))) (off + n) rem s2 G1 Hfuel G2)
      as (l3 & rest & flags & He & Hp & Hlen & Hfl & Hcat & Hsz & Hin & Hrs).
    unfold bind at 1. rewrite He. clear He. set (s3 := set_log _ s2). change (active s3) in Ha. change (r_req s3 = Some q) in Hq.
    destruct (seg_respond_ok q total s3 Ha Hq) as (l2 & r3 & Hl2 & ->).
    exists (l2 ++ (ASend (resp_out R_OK (q_tid q) (if q_code q =? OP_GetPartialObject then [if MAX_CONTENT <? total then 0xFFFFFFFF else u32 total] else [])) true, r3)
       :: l3 ++ l1 ++ [(ASend o (n =? total), r2); (ACall (SRead h n off), r)]).
    split. { do 2 f_equal. unfold s3, s2, s1. destruct s; unfold set_log, after_response; cbn. rewrite <- !app_assoc. cbn. rewrite <- !app_assoc. reflexivity. }
    unfold read_done. rewrite packets_app, calls_app, responses_app, forallb_app. cbn [packets calls responses response_of packet_of fst app].
    change (o_type (resp_out _ _ _)) with TYPE_RESPONSE. change (TYPE_RESPONSE =? TYPE_DATA) with false. change (TYPE_RESPONSE =? TYPE_RESPONSE) with true. cbv iota.
    rewrite !packets_app, !calls_app, !responses_app, !forallb_app. cbn [packets calls responses response_of packet_of fst app].
    change (o_type o) with TYPE_DATA. change (TYPE_DATA =? TYPE_DATA) with true. change (TYPE_DATA =? TYPE_RESPONSE) with false. cbv iota.
    rewrite Hp, Hrs, Hin, (noise_packets l1), (noise_packets l2), (noise_inside c l1), (noise_inside c l2), (noise_responses l1), (noise_responses l2) by assumption.
    cbn [app andb calls forallb]. replace (n =? total) with false by lia. rewrite ?app_nil_r. split; [|split].
    + exists (take n (drop off c)), rest, (false :: flags). rewrite HT. split; [unfold o, data_out; cbn; rewrite Hd; reflexivity|].
      split; [exact Hlen|]. split; [exact Hfl|].
      split. { rewrite Hcat. rewrite <- drop_drop. rewrite <- take_add. f_equal. unfold rem. lia. }
      split; [rewrite chunk_len; lia|exact Hsz].
    + rewrite HT. unfold read_response. rewrite count_eq. reflexivity.
    + cbn. replace (off + n <=? len c) with true by lia. reflexivity.
Qed.

(** ** The three commands *)
Variable formats : list N.
Variable cat : N -> N.
Variable props_by_type : N -> N * list N.
Variable prop_desc : N -> N -> N * option objpropdesc.
Notation step := (step env formats cat props_by_type prop_desc).
Hypothesis rdy : storage_is_ready env.

Lemma common_ok q off size s : active s -> r_req s = Some q -> pre_check (r_session s) (q_tid q) = R_OK ->
  len c < 2^63 -> off < 2^64 -> size < 2^32 ->
  exists l, get_object_common env q h off size s = Ret (tt, set_log (l ++ r_log s) (after_response s)) /\
    if len c <? off then responses l = [resp_out R_InvalidParameter (q_tid q) []] /\ packets l = [] /\ forallb (inside c) (calls l) = true
    else read_done (q_code q) (q_tid q) (take size (drop off c)) l.
Proof.
  intros Ha Hq Hp H63 Ho Hsz. unfold get_object_common, check. unfold bind at 1, bind at 1, get. unfold ret at 1. rewrite Hp.
  change (isok R_OK) with true. cbn [negb]. unfold bind at 1, call, ask. set (r := env _ _).
  rewrite (sv_info_ok _ _ _ sv (r_log s) : a_code r = R_OK). change (isok R_OK) with true. cbn [negb]. cbv zeta.
  pose proof (sv_file _ _ _ sv (r_log s) : oi_format (a_info r) <> FMT_Association) as Hf.
  destruct (oi_format (a_info r) =? FMT_Association) eqn:E; [lia|]. clear E Hf.
  rewrite (sv_size _ _ _ sv (r_log s) : oi_size (a_info r) = len c).
  set (s1 := add_log _ s). change (active s1) in Ha. change (r_req s1 = Some q) in Hq.
  destruct (len c <? off) eqn:E.
  - destruct (response_eq env quiet R_InvalidParameter s1 q Ha Hq) as (l & r1 & Hl & ->).
    exists (l ++ [(ASend (resp_out R_InvalidParameter (q_tid q) []) true, r1); (ACall (SGetInfo h), r)]).
    split. { do 2 f_equal. unfold s1. destruct s; unfold set_log, after_response; cbn. rewrite <- !app_assoc. reflexivity. }
    rewrite packets_app, calls_app, responses_app, forallb_app. cbn. rewrite noise_packets, noise_inside, noise_responses by exact Hl. auto.
  - unfold u64. rewrite N.mod_small by lia. destruct (off + size <? off) eqn:E2; [lia|].
    replace (N.min off (len c)) with off by lia.
    assert (G1 : off <= N.min (off + size) (len c)) by lia. assert (G2 : N.min (off + size) (len c) <= len c) by lia.
    assert (G3 : len c < 2^64) by lia.
    destruct (segmented_ok q off (N.min (off + size) (len c)) s1 Ha Hq G1 G2 G3) as (l & -> & Hd).
    exists (l ++ [(ACall (SGetInfo h), r)]).
    split. { do 2 f_equal. unfold s1. destruct s; unfold set_log, after_response; cbn. rewrite <- !app_assoc. reflexivity. }
    assert (Ht : take (N.min (off + size) (len c) - off) (drop off c) = take size (drop off c)).
    { destruct (N.le_gt_cases (off + size) (len c)); [f_equal; lia|].
      rewrite !take_all; [reflexivity|rewrite len_drop; lia..]. }
    rewrite Ht in Hd. destruct Hd as (D1 & D2 & D3). unfold read_done.
    rewrite packets_app, calls_app, responses_app, forallb_app, D2, D3. cbn. auto.
Qed.
Lemma read_command op tid ps s off size :
  idle s -> command_ok op tid ps -> r_session s <> 0 -> tid <> 0 -> tid <> 0xFFFFFFFF ->
  lookup_op op (op_table env formats cat props_by_type prop_desc) = Some (fun q => get_object_common env q (par q 0) (off q) (size q)) ->
  nth 0 (pars ps) 0 = h -> let q := mk_req op tid (pars ps) in
  len c < 2^63 -> off q < 2^64 -> size q < 2^32 ->
  exists s' l, step (command op tid ps) s = Ret (tt, s') /\ r_st s' = IDLE /\ r_log s' = l ++ r_log s /\
    if len c <? off q then responses l = [resp_out R_InvalidParameter tid []] /\ packets l = [] /\ forallb (inside c) (calls l) = true
    else read_done op tid (take (size q) (drop (off q) c)) l.
Proof.
  intros Hi Hc Hs Ht1 Ht2 Hl Hh q H63 Ho Hsz.
  destruct (command_eq env formats cat props_by_type prop_desc s op tid ps Hi Hc (fun _ => rdy)) as (l0 & Hl0 & ->).
  rewrite Hl. cbv iota beta. change (par (mk_req op tid (pars ps)) 0) with (nth 0 (pars ps) 0). rewrite Hh. fold q.
  set (s1 := set_log _ _).
  assert (Hp : pre_check (r_session s1) (q_tid q) = R_OK).
  { change (r_session s1) with (r_session s). change (q_tid q) with tid. unfold pre_check.
    destruct (r_session s =? 0) eqn:E1; [lia|]. destruct (tid =? 0) eqn:E2; [lia|]. destruct (tid =? 0xFFFFFFFF) eqn:E3; [lia|]. reflexivity. }
  destruct (common_ok q (off q) (size q) s1 (started_active op tid ps s (l0 ++ r_log s)) eq_refl Hp H63 Ho Hsz) as (l & -> & H).
  eexists _, (l ++ l0). split; [reflexivity|]. split; [reflexivity|]. split. { cbn. rewrite app_assoc. reflexivity. }
  unfold read_done in *. rewrite packets_app, calls_app, responses_app, forallb_app.
  rewrite (noise_packets l0), (noise_responses l0), (noise_inside c l0), !app_nil_r, andb_true_r by exact Hl0. exact H.
Qed.
End Read.
