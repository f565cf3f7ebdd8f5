(** Object reads from a storage whose reads may fail at any time (C95). *)
From Verif Require Import Base Wire WireSpec Responder RSpec RLogic ROne2 RGate RExec RSession RRead.

(** The storage knows the object [h] of content [c]; a read inside the object may fail,
    but if it succeeds it gives the bytes there. *)
Record tries (env : list (act * ans) -> act -> ans) (h : N) (c : bytes) : Prop := mk_tries {
  tr_info_ok : forall hist, a_code (env hist (ACall (SGetInfo h))) = R_OK;
  tr_file : forall hist, oi_format (a_info (env hist (ACall (SGetInfo h)))) <> FMT_Association;
  tr_size : forall hist, oi_size (a_info (env hist (ACall (SGetInfo h)))) = len c;
  tr_read : forall hist n off, off + n <= len c -> a_code (env hist (ACall (SRead h n off))) = R_OK ->
    a_bytes (env hist (ACall (SRead h n off))) = take n (drop off c) }.
(** a data phase that stops: a container declaring the length of all of [content], raw
    packets, together a proper beginning of [content], none flagged as the last *)
Definition stops (op tid : N) (content : bytes) (ps : list ((outc + bytes) * bool)) : Prop :=
  exists b0 rest k,
    ps = map (fun p => (p, false)) (inl (data_out (mk_req op tid []) (PRaw b0 (if MAX_CONTENT <? len content then 0xFFFFFFFF else 12 + len content)))
                  :: map inr rest) /\
    b0 ++ concat rest = take k content /\ k < len content.
(** some read failed with this code *)
Definition failed_read (code : N) (l : list (act * ans)) : Prop :=
  exists h n off r, In (ACall (SRead h n off), r) l /\ a_code r = code /\ code <> R_OK.
Lemma failed_app_l code a b : failed_read code a -> failed_read code (a ++ b).
Proof. intros (h & n & off & r & I & H). exists h, n, off, r. split; [apply in_or_app; auto|exact H]. Qed.
Lemma failed_app_r code a b : failed_read code b -> failed_read code (a ++ b).
Proof. intros (h & n & off & r & I & H). exists h, n, off, r. split; [apply in_or_app; auto|exact H]. Qed.

Section Read.
Variable env : list (act * ans) -> act -> ans.
Hypothesis quiet : undisturbed env.
Hypothesis tw : transport_works env.
Variable h : N.
Variable c : bytes.
Hypothesis sv : tries env h c.

Lemma seg_loop_any : forall fuel off rem s, 0 < rem -> rem < 16384 * N.of_nat fuel -> off + rem <= len c ->
  exists l, forallb (inside c) (calls l) = true /\ responses l = [] /\
   ((exists rest flags, seg_loop env fuel h off rem s = Ret ((R_OK, 0, true), set_log (l ++ r_log s) s) /\
    packets l = combine (map inr rest) (flags ++ [true]) /\ length rest = S (length flags) /\ forallb negb flags = true /\
    concat rest = take rem (drop off c) /\ Forall (fun b => 0 < len b <= 16384) rest) \/
    (exists rest code k j, seg_loop env fuel h off rem s = Ret ((code, j, false), set_log (l ++ r_log s) s) /\
     packets l = map (fun p => (p, false)) (map inr rest) /\ concat rest = take k (drop off c) /\ k < rem /\ failed_read code l)).
Proof.
  induction fuel as [|f IH]; intros off rem s H0 Hf Hb; [lia|].
  remember (seg_loop env (S f) h off rem s) as X eqn:HX. cbn [seg_loop] in HX. change BUFFER_MAX with 16384 in HX.
  set (n := if rem <? 16384 then rem else 16384) in HX.
  assert (Hn : n = N.min rem 16384) by (unfold n; destruct (rem <? 16384) eqn:E; lia). clearbody n.
  unfold bind at 1, call, ask in HX. set (r := env _ _) in HX.
  destruct (a_code r =? R_OK) eqn:HC.
  2:{ unfold isok at 1 in HX. rewrite HC in HX. cbn [negb] in HX. exists [(ACall (SRead h n off), r)].
      split. { cbn. replace (off + n <=? len c) with true by lia. reflexivity. } split; [reflexivity|].
      right. exists [], (a_code r), 0, rem. split; [rewrite HX; destruct s; reflexivity|]. split; [reflexivity|]. split; [reflexivity|]. split; [lia|].
      exists h, n, off, r. split; [left; reflexivity|]. split; [reflexivity|lia]. }
  assert (Hr1 : a_code r = R_OK) by lia. clear HC.
  assert (Hr2 : a_bytes r = take n (drop off c)) by (apply (tr_read _ _ _ sv); [lia|exact Hr1]).
  unfold isok at 1 in HX. rewrite Hr1 in HX. change (R_OK =? R_OK) with true in HX. cbn [negb] in HX.
  rewrite fit_exact in HX by (rewrite Hr2; apply chunk_len; lia). rewrite Hr2 in HX.
  set (s1 := add_log _ s) in HX. clearbody r.
  destruct (raw_eq env quiet (take n (drop off c)) (n =? rem) s1) as (l1 & r2 & Hl1 & Hr & He).
  unfold bind at 1 in He. unfold ask at 1 in He. unfold bind at 1, ask in HX.
  rewrite <- Hr in *. unfold bind at 1 in He. unfold bind at 1 in HX.
  destruct (run_sigs env true (a_async r2) _) as [[[] s2]| |]; try discriminate.
  apply Ret_inj in He. apply (f_equal snd) in He. cbn [snd] in He. subst s2.
  assert (Hb2 : a_bool r2 = true) by (rewrite Hr; apply tw). rewrite Hb2 in HX. cbn [negb] in HX.
  destruct (rem - n =? 0) eqn:E.
  - assert (H : n = rem) by lia. assert (H16 : rem <= 16384) by lia. clear Hn E. subst n.
    exists (l1 ++ [(ASendRaw (take rem (drop off c)) (rem =? rem), r2); (ACall (SRead h rem off), r)]).
    rewrite packets_app, calls_app, responses_app, forallb_app. cbn [packets calls responses response_of packet_of fst app forallb inside]. rewrite noise_packets, noise_inside, noise_responses by exact Hl1.
    replace (off + rem <=? len c) with true by lia.
    split; [reflexivity|]. split; [reflexivity|]. left. exists [take rem (drop off c)], [].
    split. { rewrite HX. unfold ret. replace (rem - rem) with 0 by lia. do 2 f_equal. unfold s1. destruct s; cbn. unfold set_log; cbn. rewrite <- app_assoc. reflexivity. }
    rewrite N.eqb_refl. split; [reflexivity|]. split; [reflexivity|]. split; [reflexivity|]. split; [apply app_nil_r|].
    constructor; [|constructor]; rewrite chunk_len; lia.
  - set (s2 := set_log _ s1) in HX.
    assert (G1 : 0 < rem - n) by lia. assert (G2 : rem - n < 16384 * N.of_nat f) by lia. assert (G3 : off + n + (rem - n) <= len c) by lia.
    destruct (IH (off + n) (rem - n) s2 G1 G2 G3) as (l & Hin & Hrs & Hcase). clear G1 G2 G3.
    exists (l ++ l1 ++ [(ASendRaw (take n (drop off c)) (n =? rem), r2); (ACall (SRead h n off), r)]).
    rewrite !packets_app, !calls_app, !responses_app, !forallb_app. cbn. rewrite Hin, Hrs, (noise_packets l1), (noise_inside c l1), (noise_responses l1) by exact Hl1.
    replace (n =? rem) with false by lia. rewrite app_nil_r. cbn [app].
    replace (off + n <=? len c) with true by lia. split; [reflexivity|]. split; [reflexivity|].
    assert (HL : set_log (l ++ r_log s2) s2 = set_log ((l ++ l1 ++ [(ASendRaw (take n (drop off c)) (n =? rem), r2); (ACall (SRead h n off), r)]) ++ r_log s) s).
    { unfold s2, s1. destruct s; cbn. unfold set_log; cbn. rewrite <- !app_assoc. reflexivity. }
    replace (n =? rem) with false in HL by lia. rewrite HL in Hcase. clear HL.
    destruct Hcase as [(rest & flags & He2 & Hp & Hlen & Hfl & Hcat & Hsz)|(rest & code & k & j & He2 & Hp & Hcat & Hk & HFr)].
    + left. exists (take n (drop off c) :: rest), (false :: flags). rewrite HX, He2, Hp. split; [reflexivity|].
      split; [reflexivity|]. split; [cbn [length]; lia|]. split; [exact Hfl|].
      split. { cbn [concat]. rewrite Hcat. rewrite <- drop_drop. replace rem with (n + (rem - n)) at 2 by lia. rewrite take_add. reflexivity. }
      constructor; [rewrite chunk_len; lia|exact Hsz].
    + right. exists (take n (drop off c) :: rest), code, (n + k), j. rewrite HX, He2, Hp. split; [reflexivity|]. split; [reflexivity|].
      split. { cbn [concat]. rewrite Hcat. rewrite <- drop_drop. rewrite take_add. reflexivity. }
      split; [lia|]. apply failed_app_l. exact HFr.
Qed.
Lemma seg_respond_any q code n s : active s -> r_req s = Some q ->
  exists l r, noise l /\ seg_respond env (q_code q) code n s =
    Ret (tt, set_log (l ++ (ASend (resp_out code (q_tid q) (if q_code q =? OP_GetPartialObject then [if MAX_CONTENT <? n then 0xFFFFFFFF else u32 n] else [])) true, r) :: r_log s) (after_response s)).
Proof.
  intros Ha Hq. unfold seg_respond. destruct (q_code q =? OP_GetPartialObject).
  - destruct (response1_eq env quiet code (if MAX_CONTENT <? n then 0xFFFFFFFF else u32 n) s q Ha Hq) as (l & r & Hl & He).
    exists l, r. split; [exact Hl|]. exact He.
  - destruct (response_eq env quiet code s q Ha Hq) as (l & r & Hl & He). exists l, r. split; [exact Hl|]. exact He.
Qed.
(** the three ways such a request can go *)
Definition outcome_of (st : rst) (op tid : N) (content : bytes) (s' : rstate) (l : list (act * ans)) : Prop :=
  forallb (inside c) (calls l) = true /\
  ((r_st s' = IDLE /\ transfers op tid content (packets l) /\ responses l = [read_response op tid (len content)]) \/
   (exists code, r_st s' = IDLE /\ failed_read code l /\ packets l = [] /\ responses l = [resp_out code tid (if op =? OP_GetPartialObject then [0] else [])]) \/
   (exists code, r_st s' = st /\ failed_read code l /\ stops op tid content (packets l) /\ responses l = [])).
Lemma segmented_any q off tail s : active s -> r_req s = Some q -> off <= tail -> tail <= len c -> len c < 2^64 ->
  exists s' l, send_segmented env q h off tail s = Ret (tt, s') /\ r_log s' = l ++ r_log s /\
    outcome_of (r_st s) (q_code q) (q_tid q) (take (tail - off) (drop off c)) s' l.
Proof.
  intros Ha Hq Hot Htl H64. unfold send_segmented.
  assert (Hs64 : sub64 tail off = tail - off).
  { unfold sub64. change (2^64) with 18446744073709551616 in *. rewrite (N.mod_small off) by lia.
    replace (tail + 18446744073709551616 - off) with ((tail - off) + 1 * 18446744073709551616) by lia.
    rewrite N.mod_add by lia. apply N.mod_small. lia. }
  rewrite Hs64. set (total := tail - off). change (BUFFER_MAX - 12) with 16372.
  set (n := if total <? 16372 then total else 16372).
  assert (Hn : n = N.min total 16372) by (unfold n; destruct (total <? 16372) eqn:E; lia). clearbody n. cbv zeta.
  set (decl := if MAX_CONTENT <? total then 0xFFFFFFFF else u32 (12 + total)).
  assert (Hd : decl = if MAX_CONTENT <? total then 0xFFFFFFFF else 12 + total).
  { unfold decl. destruct (MAX_CONTENT <? total) eqn:E; [reflexivity|]. apply u32_small; exact E. }
  clearbody decl. assert (Htot : off + total <= len c) by (unfold total; lia). clearbody total.
  assert (HT : len (take total (drop off c)) = total) by (apply chunk_len; lia).
  unfold bind at 1, call, ask. set (r := env _ _).
  destruct (a_code r =? R_OK) eqn:HC.
  2:{ unfold isok at 1. rewrite HC. cbn [negb]. clearbody r. set (s1 := add_log _ s).
      destruct (seg_respond_any q (a_code r) 0 s1 Ha Hq) as (l2 & r3 & Hl2 & ->).
      eexists _, (l2 ++ [(ASend (resp_out (a_code r) (q_tid q) (if q_code q =? OP_GetPartialObject then [if MAX_CONTENT <? 0 then 0xFFFFFFFF else u32 0] else [])) true, r3); (ACall (SRead h n off), r)]).
      split; [reflexivity|]. split; [cbn [r_log set_log]; unfold s1; rewrite <- app_assoc; reflexivity|]. unfold outcome_of.
      rewrite !packets_app, !calls_app, !responses_app, !forallb_app. cbn [packets calls responses response_of packet_of fst app].
      change (o_type (resp_out _ _ _)) with TYPE_RESPONSE. change (TYPE_RESPONSE =? TYPE_DATA) with false. change (TYPE_RESPONSE =? TYPE_RESPONSE) with true. cbv iota.
      rewrite (noise_packets l2), (noise_inside c l2), (noise_responses l2) by assumption.
      split. { cbn. replace (off + n <=? len c) with true by lia. reflexivity. }
      right; left. exists (a_code r). split; [reflexivity|]. split.
      { apply failed_app_r. exists h, n, off, r. split; [right; left; reflexivity|]. split; [reflexivity|lia]. }
      split; [reflexivity|]. cbn [app]. reflexivity. }
  assert (Hr1 : a_code r = R_OK) by lia. clear HC.
  assert (Hr2 : a_bytes r = take n (drop off c)) by (apply (tr_read _ _ _ sv); [lia|exact Hr1]).
  unfold isok at 1. rewrite Hr1. change (R_OK =? R_OK) with true. cbn [negb].
  rewrite fit_exact by (rewrite Hr2; apply chunk_len; lia). rewrite Hr2. clearbody r.
  set (s1 := add_log _ s). set (o := data_out q _).
  destruct (send_data_eq env quiet o (n =? total) s1 Ha eq_refl) as (l1 & r2 & Hl1 & Hr & He).
  unfold bind at 1. rewrite He. clear He. cbn [negb].
  set (s2 := set_log _ s1). change (active s2) in Ha. change (r_req s2 = Some q) in Hq.
  destruct (total - n =? 0) eqn:E.
  - assert (Hle : total <= 16372) by lia. assert (Hnt : n = total) by lia. clear Hn E. subst n.
    destruct (seg_respond_any q R_OK total s2 Ha Hq) as (l2 & r3 & Hl2 & ->).
    eexists _, (l2 ++ (ASend (resp_out R_OK (q_tid q) (if q_code q =? OP_GetPartialObject then [if MAX_CONTENT <? total then 0xFFFFFFFF else u32 total] else [])) true, r3)
       :: l1 ++ [(ASend o (total =? total), r2); (ACall (SRead h total off), r)]).
    split; [reflexivity|]. split. { cbn [r_log set_log]. unfold s2, s1. cbn [r_log set_log add_log]. rewrite <- !app_assoc. cbn [app]. rewrite <- app_assoc. reflexivity. }
    unfold outcome_of. rewrite packets_app, calls_app, responses_app, forallb_app. cbn [packets calls responses response_of packet_of fst app].
    change (o_type (resp_out _ _ _)) with TYPE_RESPONSE. change (TYPE_RESPONSE =? TYPE_DATA) with false. change (TYPE_RESPONSE =? TYPE_RESPONSE) with true. cbv iota.
    rewrite packets_app, calls_app, responses_app, forallb_app. cbn [packets calls responses response_of packet_of fst app].
    change (o_type o) with TYPE_DATA. change (TYPE_DATA =? TYPE_DATA) with true. change (TYPE_DATA =? TYPE_RESPONSE) with false. cbv iota.
    rewrite (noise_packets l1), (noise_packets l2), (noise_inside c l1), (noise_inside c l2), (noise_responses l1), (noise_responses l2) by assumption.
    cbn [app andb calls forallb]. rewrite !N.eqb_refl, ?app_nil_r.
    split. { cbn. replace (off + total <=? len c) with true by lia. reflexivity. }
    left. split; [reflexivity|]. split.
    + exists (take total (drop off c)), [], []. rewrite HT. split; [unfold o, data_out; cbn; rewrite Hd; reflexivity|].
      split; [reflexivity|]. split; [reflexivity|]. split; [apply app_nil_r|]. split; [lia|constructor].
    + rewrite HT. unfold read_response. rewrite count_eq. reflexivity.
  - set (rem := total - n).
    assert (Hfuel : rem < 16384 * N.of_nat (S (N.to_nat (rem / BUFFER_MAX)))).
    { change BUFFER_MAX with 16384. pose proof (N.div_mod rem 16384 ltac:(lia)). pose proof (N.mod_lt rem 16384 ltac:(lia)). lia. }
    assert (G1 : 0 < rem) by (unfold rem; lia). assert (G2 : off + n + rem <= len c) by (unfold rem; lia).
    destruct (seg_loop_any (S (N.to_nat (rem / BUFFER_MAX))) (off + n) rem s2 G1 Hfuel G2)
      as (l3 & Hin & Hrs & [(rest & flags & He & Hp & Hlen & Hfl & Hcat & Hsz)|(rest & code & k & j & He & Hp & Hcat & Hk & HFr)]).
    + unfold bind at 1. rewrite He. clear He. set (s3 := set_log _ s2). change (active s3) in Ha. change (r_req s3 = Some q) in Hq.
      destruct (seg_respond_any q R_OK total s3 Ha Hq) as (l2 & r3 & Hl2 & ->).
      eexists _, (l2 ++ (ASend (resp_out R_OK (q_tid q) (if q_code q =? OP_GetPartialObject then [if MAX_CONTENT <? total then 0xFFFFFFFF else u32 total] else [])) true, r3)
       :: l3 ++ l1 ++ [(ASend o (n =? total), r2); (ACall (SRead h n off), r)]).
      split; [reflexivity|]. split. { cbn [r_log set_log]. unfold s3, s2, s1. cbn [r_log set_log add_log]. rewrite <- !app_assoc. cbn [app]. rewrite <- !app_assoc. reflexivity. }
      unfold outcome_of. rewrite packets_app, calls_app, responses_app, forallb_app. cbn [packets calls responses response_of packet_of fst app].
      change (o_type (resp_out _ _ _)) with TYPE_RESPONSE. change (TYPE_RESPONSE =? TYPE_DATA) with false. change (TYPE_RESPONSE =? TYPE_RESPONSE) with true. cbv iota.
      rewrite !packets_app, !calls_app, !responses_app, !forallb_app. cbn [packets calls responses response_of packet_of fst app].
      change (o_type o) with TYPE_DATA. change (TYPE_DATA =? TYPE_DATA) with true. change (TYPE_DATA =? TYPE_RESPONSE) with false. cbv iota.
      rewrite Hp, Hrs, Hin, (noise_packets l1), (noise_packets l2), (noise_inside c l1), (noise_inside c l2), (noise_responses l1), (noise_responses l2) by assumption.
      cbn [app andb calls forallb]. replace (n =? total) with false by lia. rewrite ?app_nil_r.
      split. { cbn. replace (off + n <=? len c) with true by lia. reflexivity. }
      left. split; [reflexivity|]. split.
      * exists (take n (drop off c)), rest, (false :: flags). rewrite HT. split; [unfold o, data_out; cbn; rewrite Hd; reflexivity|].
        split; [exact Hlen|]. split; [exact Hfl|].
        split. { rewrite Hcat. rewrite <- drop_drop. rewrite <- take_add. f_equal. unfold rem. lia. }
        split; [rewrite chunk_len; lia|exact Hsz].
      * rewrite HT. unfold read_response. rewrite count_eq. reflexivity.
    + unfold bind at 1. rewrite He. clear He. cbv iota.
      eexists _, (l3 ++ l1 ++ [(ASend o (n =? total), r2); (ACall (SRead h n off), r)]).
      split; [reflexivity|]. split. { cbn [r_log set_log]. unfold s2, s1. cbn [r_log set_log add_log]. rewrite <- !app_assoc. reflexivity. }
      unfold outcome_of. rewrite !packets_app, !calls_app, !responses_app, !forallb_app. cbn [packets calls responses response_of packet_of fst app].
      change (o_type o) with TYPE_DATA. change (TYPE_DATA =? TYPE_DATA) with true. change (TYPE_DATA =? TYPE_RESPONSE) with false. cbv iota.
      rewrite Hp, Hrs, Hin, (noise_packets l1), (noise_inside c l1), (noise_responses l1) by assumption.
      cbn [app andb calls forallb]. replace (n =? total) with false by lia. rewrite ?app_nil_r.
      split. { cbn. replace (off + n <=? len c) with true by lia. reflexivity. }
      right; right. exists code. split; [reflexivity|]. split; [apply failed_app_l; exact HFr|]. split; [|reflexivity].
      exists (take n (drop off c)), rest, (n + k). rewrite HT. split; [unfold o, data_out; cbn; rewrite Hd; reflexivity|].
      split; [|unfold rem in Hk; lia]. rewrite Hcat, <- drop_drop, <- take_add. rewrite take_take. f_equal. unfold rem in Hk. lia.
Qed.

(** ** The three commands *)
Variable formats : list N.
Variable cat : N -> N.
Variable props_by_type : N -> N * list N.
Variable prop_desc : N -> N -> N * option objpropdesc.
Notation step := (step env formats cat props_by_type prop_desc).
Hypothesis rdy : storage_is_ready env.

Lemma common_any q off size s : active s -> r_req s = Some q -> pre_check (r_session s) (q_tid q) = R_OK ->
  len c < 2^63 -> off <= len c -> size < 2^32 ->
  exists s' l, get_object_common env q h off size s = Ret (tt, s') /\ r_log s' = l ++ r_log s /\
    outcome_of (r_st s) (q_code q) (q_tid q) (take size (drop off c)) s' l.
Proof.
  intros Ha Hq Hp H63 Ho Hsz. unfold get_object_common, check. unfold bind at 1, bind at 1, get. unfold ret at 1. rewrite Hp.
  change (isok R_OK) with true. cbn [negb]. unfold bind at 1, call, ask. set (r := env _ _).
  rewrite (tr_info_ok _ _ _ sv (r_log s) : a_code r = R_OK). change (isok R_OK) with true. cbn [negb]. cbv zeta.
  pose proof (tr_file _ _ _ sv (r_log s) : oi_format (a_info r) <> FMT_Association) as Hf.
  destruct (oi_format (a_info r) =? FMT_Association) eqn:E; [lia|]. clear E Hf.
  rewrite (tr_size _ _ _ sv (r_log s) : oi_size (a_info r) = len c).
  set (s1 := add_log _ s). change (active s1) in Ha. change (r_req s1 = Some q) in Hq.
  destruct (len c <? off) eqn:E; [lia|].
  unfold u64. rewrite N.mod_small by (change (2^64) with 18446744073709551616; change (2^63) with 9223372036854775808 in H63; change (2^32) with 4294967296 in Hsz; lia). destruct (off + size <? off) eqn:E2; [lia|].
  replace (N.min off (len c)) with off by lia.
  assert (G1 : off <= N.min (off + size) (len c)) by lia. assert (G2 : N.min (off + size) (len c) <= len c) by lia.
  assert (G3 : len c < 2^64) by lia.
  destruct (segmented_any q off (N.min (off + size) (len c)) s1 Ha Hq G1 G2 G3) as (s' & l & -> & HL & Hd).
  exists s', (l ++ [(ACall (SGetInfo h), r)]). split; [reflexivity|].
  split. { rewrite HL. unfold s1. cbn [r_log add_log]. rewrite <- app_assoc. reflexivity. }
  assert (Ht : take (N.min (off + size) (len c) - off) (drop off c) = take size (drop off c)).
  { destruct (N.le_gt_cases (off + size) (len c)); [f_equal; lia|].
    rewrite !take_all; [reflexivity|rewrite len_drop; lia..]. }
  rewrite Ht in Hd. destruct Hd as (D1 & D2). unfold outcome_of.
  rewrite packets_app, calls_app, responses_app, forallb_app, D1. cbn [packets calls responses response_of packet_of fst app forallb inside changes negb andb].
  rewrite !app_nil_r. split; [reflexivity|]. destruct D2 as [D|[(k & A & B & D)|(k & A & B & D)]]; [left; exact D|right; left; exists k|right; right; exists k].
  - split; [exact A|]. split; [apply failed_app_l; exact B|exact D].
  - split; [exact A|]. split; [apply failed_app_l; exact B|exact D].
Qed.
Lemma read_command_any op tid ps s off size :
  idle s -> command_ok op tid ps -> r_session s <> 0 -> tid <> 0 -> tid <> 0xFFFFFFFF ->
  lookup_op op (op_table env formats cat props_by_type prop_desc) = Some (fun q => get_object_common env q (par q 0) (off q) (size q)) ->
  nth 0 (pars ps) 0 = h -> let q := mk_req op tid (pars ps) in
  len c < 2^63 -> off q <= len c -> size q < 2^32 ->
  exists s' l, step (command op tid ps) s = Ret (tt, s') /\ r_log s' = l ++ r_log s /\
    outcome_of (phase_state op) op tid (take (size q) (drop (off q) c)) s' l.
Proof.
  intros Hi Hc Hs Ht1 Ht2 Hl Hh q H63 Ho Hsz.
  destruct (command_eq env formats cat props_by_type prop_desc s op tid ps Hi Hc (fun _ => rdy)) as (l0 & Hl0 & ->).
  rewrite Hl. cbv iota beta. change (par (mk_req op tid (pars ps)) 0) with (nth 0 (pars ps) 0). rewrite Hh. fold q.
  set (s1 := set_log _ _).
  assert (Hp : pre_check (r_session s1) (q_tid q) = R_OK).
  { change (r_session s1) with (r_session s). change (q_tid q) with tid. unfold pre_check.
    destruct (r_session s =? 0) eqn:E1; [lia|]. destruct (tid =? 0) eqn:E2; [lia|]. destruct (tid =? 0xFFFFFFFF) eqn:E3; [lia|]. reflexivity. }
  destruct (common_any q (off q) (size q) s1 (started_active op tid ps s (l0 ++ r_log s)) eq_refl Hp H63 Ho Hsz) as (s' & l & -> & HL & D1 & D2).
  exists s', (l ++ l0). split; [reflexivity|]. split. { rewrite HL. unfold s1. cbn [r_log set_log]. rewrite app_assoc. reflexivity. }
  unfold outcome_of. rewrite packets_app, calls_app, responses_app, forallb_app.
  rewrite (noise_packets l0), (noise_responses l0), (noise_inside c l0), !app_nil_r, andb_true_r by exact Hl0. split; [exact D1|].
  destruct D2 as [D|[(k & A & B & D)|(k & A & B & D)]]; [left; exact D|right; left; exists k|right; right; exists k].
  - split; [exact A|]. split; [apply failed_app_l; exact B|exact D].
  - split; [exact A|]. split; [apply failed_app_l; exact B|exact D].
Qed.
End Read.
(** While a response is due, whatever packet arrives is thrown away. *)
Lemma discarded env formats cat pt pd d f b s : r_st s = WAIT_RESP ->
  exists s' r, step env formats cat pt pd (IRecv d f b) s = Ret (tt, s') /\ r_log s' = (AReset, r) :: r_log s /\ r_st s' = IDLE.
Proof.
  intros E. unfold step, receive, bind, get. rewrite E. unfold upd, reset_transport, bind, ask, ret.
  eexists. eexists. split; [reflexivity|]. split; reflexivity.
Qed.
