(** C28-C30: reading objects, for every storage that holds the object, every
    object content, offset and length, and every way packets interleave with events. *)
From Verif Require Import Base Wire WireSpec Responder RSpec RLogic ROne2 RGate RExec RSession RRead RFail RDemo.

(** ** C28 *)
(** [serves env h c]: the storage holds object [h] with content [c].
    [transfers op tid bytes packets]: one data container and raw packets with
    contents adding up to the given bytes, the right declared length, exactly the
    last packet marked last.  [inside c]: no read outside the object, no change. *)
Theorem C28_partial_object : forall env formats cat props_by_type prop_desc s tid h off n c,
  undisturbed env -> transport_works env -> storage_is_ready env -> serves env h c -> len c < 2^63 ->
  idle s -> r_session s <> 0 -> tid <> 0 -> tid < 0xFFFFFFFF ->
  h < 2^32 -> off < 2^32 -> n < 2^32 ->
  exists s' l, step env formats cat props_by_type prop_desc (command OP_GetPartialObject tid [h; off; n]) s = Ret (tt, s') /\
    r_st s' = IDLE /\ r_log s' = l ++ r_log s /\ forallb (inside c) (calls l) = true /\
    if len c <? off
    then packets l = [] /\ responses l = [resp_out R_InvalidParameter tid []]
    else let count := N.min n (len c - off) in
         transfers OP_GetPartialObject tid (take n (drop off c)) (packets l) /\
         responses l = [resp_out R_OK tid [if 0xFFFFFFFF - 12 <? count then 0xFFFFFFFF else count]].
Proof.
  intros *. intros Hq Ht Hr Hsv H63 Hi Hs Ht1 Ht2 Hh Ho Hn.
  assert (Hc : command_ok OP_GetPartialObject tid [h; off; n]).
  { split; [reflexivity|]. split; [lia|]. split; [discriminate|]. repeat constructor; assumption. }
  destruct (read_command env Hq Ht h c Hsv formats cat props_by_type prop_desc Hr OP_GetPartialObject tid [h; off; n] s
    (fun q => par q 1) (fun q => par q 2) Hi Hc Hs Ht1 ltac:(lia) eq_refl eq_refl H63) as (s' & l & H1 & H2 & H3 & H4);
    [cbn; lia|cbn; lia|].
  exists s', l. change (par _ 1) with off in H4. change (par _ 2) with n in H4.
  split; [exact H1|]. split; [exact H2|]. split; [exact H3|].
  destruct (len c <? off) eqn:E; [destruct H4 as (K1 & K2 & K3); auto|]. destruct H4 as (K1 & K2 & K3). split; [exact K3|].
  cbv zeta. split; [exact K1|].
  rewrite K2. unfold read_response. change (OP_GetPartialObject =? OP_GetPartialObject) with true. cbv iota.
  rewrite len_take, len_drop. reflexivity.
Qed.
Theorem C28_partial_object64 : forall env formats cat props_by_type prop_desc s tid h lo hi n c,
  undisturbed env -> transport_works env -> storage_is_ready env -> serves env h c -> len c < 2^63 ->
  idle s -> r_session s <> 0 -> tid <> 0 -> tid < 0xFFFFFFFF ->
  h < 2^32 -> lo < 2^32 -> hi < 2^32 -> n < 2^32 ->
  let off := hi * 2^32 + lo in
  exists s' l, step env formats cat props_by_type prop_desc (command OP_GetPartialObject64 tid [h; lo; hi; n]) s = Ret (tt, s') /\
    r_st s' = IDLE /\ r_log s' = l ++ r_log s /\ forallb (inside c) (calls l) = true /\
    if len c <? off
    then packets l = [] /\ responses l = [resp_out R_InvalidParameter tid []]
    else transfers OP_GetPartialObject64 tid (take n (drop off c)) (packets l) /\ responses l = [resp_out R_OK tid []].
Proof.
  intros *. intros Hq Ht Hr Hsv H63 Hi Hs Ht1 Ht2 Hh Hlo Hhi Hn off.
  assert (Hc : command_ok OP_GetPartialObject64 tid [h; lo; hi; n]).
  { split; [reflexivity|]. split; [lia|]. split; [discriminate|]. repeat constructor; assumption. }
  assert (Ho : off64 lo hi = off). { unfold off64, u64, off. apply N.mod_small. change (2^32) with 4294967296 in *. nia. }
  destruct (read_command env Hq Ht h c Hsv formats cat props_by_type prop_desc Hr OP_GetPartialObject64 tid [h; lo; hi; n] s
    (fun q => off64 (par q 1) (par q 2)) (fun q => par q 3) Hi Hc Hs Ht1 ltac:(lia) eq_refl eq_refl H63) as (s' & l & H1 & H2 & H3 & H4).
  { change (off64 lo hi < 2^64). rewrite Ho. unfold off. change (2^32) with 4294967296 in *. change (2^64) with 18446744073709551616. nia. }
  { cbn; lia. }
  exists s', l. change (off64 (par _ 1) (par _ 2)) with (off64 lo hi) in H4. change (par _ 3) with n in H4. rewrite Ho in H4.
  split; [exact H1|]. split; [exact H2|]. split; [exact H3|].
  destruct (len c <? off) eqn:E; [destruct H4 as (K1 & K2 & K3); auto|]. destruct H4 as (K1 & K2 & K3). auto.
Qed.

(** ** C29 *)
Theorem C29_whole_object_partial : forall env formats cat props_by_type prop_desc s tid h c,
  undisturbed env -> transport_works env -> storage_is_ready env -> serves env h c ->
  len c <= 0xFFFFFFFF - 12 ->
  idle s -> r_session s <> 0 -> tid <> 0 -> tid < 0xFFFFFFFF -> h < 2^32 ->
  exists s' l, step env formats cat props_by_type prop_desc (command OP_GetObject tid [h]) s = Ret (tt, s') /\
    r_st s' = IDLE /\ r_log s' = l ++ r_log s /\ forallb (inside c) (calls l) = true /\
    transfers OP_GetObject tid c (packets l) /\ responses l = [resp_out R_OK tid []].
Proof.
  intros *. intros Hq Ht Hr Hsv Hlen Hi Hs Ht1 Ht2 Hh.
  assert (Hc : command_ok OP_GetObject tid [h]).
  { split; [reflexivity|]. split; [lia|]. split; [discriminate|]. repeat constructor; assumption. }
  destruct (read_command env Hq Ht h c Hsv formats cat props_by_type prop_desc Hr OP_GetObject tid [h] s
    (fun q => 0) (fun q => MAX_CONTENT) Hi Hc Hs Ht1 ltac:(lia) eq_refl eq_refl) as (s' & l & H1 & H2 & H3 & H4);
    [change (2^63) with 9223372036854775808; lia|reflexivity|reflexivity|].
  exists s', l. split; [exact H1|]. split; [exact H2|]. split; [exact H3|].
  destruct (len c <? 0) eqn:E; [lia|]. rewrite drop_0, take_all in H4 by (unfold MAX_CONTENT; lia).
  destruct H4 as (K1 & K2 & K3). auto.
Qed.
(** Larger objects are cut off after 4 GiB - 13 bytes and the transfer is still
    answered OK. *)
Theorem C29_large_object_refuted : forall env formats cat props_by_type prop_desc s tid h c,
  undisturbed env -> transport_works env -> storage_is_ready env -> serves env h c ->
  0xFFFFFFFF - 12 < len c -> len c < 2^63 ->
  idle s -> r_session s <> 0 -> tid <> 0 -> tid < 0xFFFFFFFF -> h < 2^32 ->
  exists s' l, step env formats cat props_by_type prop_desc (command OP_GetObject tid [h]) s = Ret (tt, s') /\
    r_log s' = l ++ r_log s /\ responses l = [resp_out R_OK tid []] /\
    transfers OP_GetObject tid (take (0xFFFFFFFF - 12) c) (packets l) /\ take (0xFFFFFFFF - 12) c <> c.
Proof.
  intros *. intros Hq Ht Hr Hsv Hlen H63 Hi Hs Ht1 Ht2 Hh.
  assert (Hc : command_ok OP_GetObject tid [h]).
  { split; [reflexivity|]. split; [lia|]. split; [discriminate|]. repeat constructor; assumption. }
  destruct (read_command env Hq Ht h c Hsv formats cat props_by_type prop_desc Hr OP_GetObject tid [h] s
    (fun q => 0) (fun q => MAX_CONTENT) Hi Hc Hs Ht1 ltac:(lia) eq_refl eq_refl) as (s' & l & H1 & H2 & H3 & H4);
    [exact H63|reflexivity|reflexivity|].
  exists s', l. split; [exact H1|]. split; [exact H3|].
  destruct (len c <? 0) eqn:E; [lia|]. rewrite drop_0 in H4. destruct H4 as (K1 & K2 & K3). split; [exact K2|]. split; [exact K1|].
  intros He. apply (f_equal len) in He. rewrite len_take in He. lia.
Qed.

(** a storage serving content [c] as object 7, used as a witness *)
Definition serving (c : bytes) : list (act * ans) -> act -> ans :=
  demo (fun a => match a with
    | ACall (SGetInfo _) => Some (mk_ans R_OK [] [] (blank_info 0x00010001 (len c) 0 0x3000 [97]) [] None [] true [])
    | ACall (SRead _ n off) => Some (mk_ans (if off + n <=? len c then R_OK else R_GeneralError) [] (take n (drop off c)) info0 [] None [] true [])
    | ASend _ _ => Some (with_async [SigEvent EV_ObjectAdded [3]])
    | _ => None end).
Example ex_serving : forall c, serves (serving c) 7 c /\ undisturbed (serving c) /\ transport_works (serving c) /\ storage_is_ready (serving c).
Proof.
  intros c. split; [split|split; [|split]].
  - reflexivity. - discriminate. - reflexivity.
  - intros hist n off H. cbn. replace (off + n <=? len c) with true by lia. reflexivity.
  - reflexivity.
  - intros h a. unfold serving, demo. destruct a as [[]| | | | |]; reflexivity.
  - intros h b l. reflexivity.
  - intros h. reflexivity.
Qed.
Definition payload_len (p : (outc + bytes) * bool) : N * bool :=
  (match fst p with inl o => match o_pay o with PRaw b _ => len b | _ => 0 end | inr b => len b end, snd p).
Example ex_C28 : exists s1, demo_step (serving (repeat 5 40000)) (command OP_GetPartialObject 9 [7; 1000; 50000]) in_session = Ret (tt, s1) /\
  map payload_len (packets (r_log s1)) = [(16372, false); (16384, false); (6244, true)] /\
  map o_pay (responses (r_log s1)) = [PItems [u32_item 39000]].
Proof. eexists. split; [vm_compute; reflexivity|]. split; vm_compute; reflexivity. Qed.

(** ** C30 *)
(** Whatever storage and transport answer and whenever cancel requests arrive: an OK
    response is sent only if every read succeeded, every content packet after the
    first was taken by the transport and no cancel request had arrived. *)
Theorem C30_honest_partial : forall env formats cat props_by_type prop_desc s op tid ps s',
  calm env -> storage_is_ready env -> idle s -> command_ok op tid ps -> reads_object op ->
  step env formats cat props_by_type prop_desc (command op tid ps) s = Ret (tt, s') ->
  exists l, r_log s' = l ++ r_log s /\
    forall newer a r older, l = newer ++ (a, r) :: older -> ok_response a = true -> forallb went_well older = true.
Proof.
  intros *. intros H1 H2 H3 H4 H5 H6.
  destruct (honest_reads env formats cat props_by_type prop_desc s op tid ps s' H1 H2 H3 H4 H5 H6) as (l & Hl & Hh).
  exists l. split; [exact Hl|]. clear - Hh. intros newer a r older ->. intros Ha.
  induction newer as [|[a1 r1] newer IH]; cbn in Hh; [apply Hh; exact Ha|]. apply IH. apply Hh.
Qed.
(** Failure of the transport on the first packet goes unnoticed. *)
Theorem C30_first_packet_refuted :
  let env := demo (fun a => match a with ASend o _ => if o_type o =? TYPE_DATA then Some (fail R_GeneralError) else None | _ => None end) in
  exists s1, demo_step env (command OP_GetObject 9 [7]) in_session = Ret (tt, s1) /\
    (exists o last r, In (ASend o last, r) (r_log s1) /\ o_type o = TYPE_DATA /\ a_bool r = false) /\
    map o_code (responses (r_log s1)) = [R_OK].
Proof.
  cbv zeta. eexists. split; [vm_compute; reflexivity|]. split; [|vm_compute; reflexivity].
  eexists. eexists. eexists. split; [cbn [In r_log]; right; right; right; left; reflexivity|]. split; reflexivity.
Qed.
Example ex_C30 :
  let env := demo (fun a => match a with ASendRaw _ _ => Some (with_async [SigCancel]) | _ => None end) in
  calm env /\ storage_is_ready env /\
  exists s1, demo_step env (command OP_GetObject 9 [7]) in_session = Ret (tt, s1) /\ responses (r_log s1) = [] /\ r_st s1 = TX_CANCEL.
Proof.
  cbv zeta. split; [|split].
  - intros h a. unfold demo. destruct a; reflexivity.
  - intros h. reflexivity.
  - eexists. split; [vm_compute; reflexivity|]. split; reflexivity.
Qed.
Print Assumptions C28_partial_object.
Print Assumptions C28_partial_object64.
Print Assumptions C29_whole_object_partial.
Print Assumptions C29_large_object_refuted.
Print Assumptions C30_honest_partial.
Print Assumptions C30_first_packet_refuted.
