(** SendObjectPropList: what is asked and what is announced (C91). *)
From Verif Require Import Base Wire WireSpec WireProofs WireProofs2 Responder RSpec RLogic ROne2 RGate RExec RSession RSend RSend2 RColl RPropList ROps REdit2.

(** ** Specification *)
Definition NAME : N := 0xDC07.
(** what a property list amounts to: an element that may not be there, at this place; no
    file name; or this file name, at this place *)
Inductive verdict := Bad (i : N) | Unnamed | Named (i : N) (n : list N).
(** [good e]: the element is about the new object (object 0) and its property is one that objects
    of the format have.  The first element that is not good decides; else the last file name *)
Inductive judged (good : element -> bool) : list element -> verdict -> Prop :=
| j_bad pre e post : Forall (fun x => good x = true) pre -> good e = false -> judged good (pre ++ e :: post) (Bad (len pre))
| j_unnamed els : Forall (fun x => good x = true) els -> Forall (fun x => el_prop x <> NAME) els -> judged good els Unnamed
| j_named pre e post n : Forall (fun x => good x = true) (pre ++ e :: post) -> el_prop e = NAME -> el_value e = VStr n -> Forall (fun x => el_prop x <> NAME) post ->
    judged good (pre ++ e :: post) (Named (len pre) n).
(** the description given to the storage *)
Definition new_object (st parent fmt size : N) (n : list N) : objinfo := mk_objinfo st fmt 0 size 0 0 0 0 0 0 0 parent 0 0 0 n [] [] [].
Definition refuse (i : N) : script := Finish None R_Invalid_Dataset [0; 0; 0; i].
(** the request: the storage unless none is named, the folder unless it is the top level, a size
    below 4 GiB, the list, the addition *)
Definition add_script (st parent fmt size : N) (v : verdict) : script :=
  match v with
  | Bad i => refuse i
  | Unnamed => Finish None R_Invalid_Dataset []
  | Named i [] => refuse i
  | Named i n => Ask (SAddItem st parent (new_object st parent fmt size n)) (fun r =>
      if ok (a_code r) then Finish None R_OK [a_num r 0; a_num r 1; a_num r 2] else Finish None (a_code r) [0; 0; 0; i])
  end.
Definition list_script (st parent fmt hi lo : N) (v : verdict) : script :=
  let sized := if hi =? 0 then add_script st parent fmt lo v else fail R_Object_Too_Large in
  let placed := if (parent =? 0) || (parent =? 0xFFFFFFFF) then sized else provided (SCheckHandle parent) sized in
  if st =? 0 then placed else provided (SCheckStorage st) placed.

(** ** Proofs *)
Section E.
Variable env : list (act * ans) -> act -> ans.
Variable formats : list N.
Variable cat : N -> N.
Variable props_by_type : N -> N * list N.
Variable prop_desc : N -> N -> N * option objpropdesc.
Hypothesis quiet : undisturbed env.
Notation step := (step env formats cat props_by_type prop_desc).
Notation run := (run env formats cat props_by_type prop_desc).
Definition fits (c : N) (e : element) : bool := (el_handle e =? 0) && (fst (prop_desc c (el_prop e)) =? R_OK).

(** the scan *)
Fixpoint scanned (c i : N) (acc : list (N * N * variant)) (f : option (N * list N)) (els : list element) : list (N * N * variant) * option N * option (N * list N) :=
  match els with
  | [] => (rev acc, None, f)
  | e :: r => if fits c e then scanned c (i + 1) ((el_prop e, el_type e, el_value e) :: acc) (if el_prop e =? NAME then Some (i, variant_str (el_value e)) else f) r else (rev acc, Some i, f)
  end.
Lemma scan_ok c els : forall i acc f s r pre post, Forall element_ok els -> r_data s = Some r -> rx_at r pre (concat (map element_bytes els) ++ post) ->
  exists d, scan_list prop_desc (List.length els) i c acc f s = Ret (scanned c i acc f els, set_data d s).
Proof.
  induction els as [|e els IH]; intros i acc f s r pre post F Hd At.
  - exists (r_data s). destruct s; reflexivity.
  - apply Forall_cons_iff in F as [(O1 & O2 & O3 & O4 & O5) F]. cbn [map concat] in At. unfold element_bytes in At at 1. rewrite <- !app_assoc in At.
    cbn [List.length scan_list scanned]. unfold fits.
    match goal with |- context [bind (rd (rx_int 4)) ?k s] => destruct (rd_eq N (rx_int 4) (spec_int 4 (el_handle e)) (el_handle e) _ k s r pre _ (reads_int 4 _ O1) Hd At) as (r1 & At1 & E1) end.
    rewrite E1. clear E1 At. set (s1 := set_data (Some r1) s). destruct (el_handle e =? 0); cbn [negb andb]; [|exists (Some r1); reflexivity].
    match goal with |- context [bind (rd (rx_int 2)) ?k s1] => destruct (rd_eq N (rx_int 2) (spec_int 2 (el_prop e)) (el_prop e) _ k s1 r1 _ _ (reads_int 2 _ O2) eq_refl At1) as (r2 & At2 & E2) end.
    rewrite E2. clear E2 At1. set (s2 := set_data (Some r2) s1). unfold isok. destruct (fst (prop_desc c (el_prop e)) =? R_OK); cbn [negb]; [|exists (Some r2); reflexivity].
    match goal with |- context [bind (rd (rx_int 2)) ?k s2] => destruct (rd_eq N (rx_int 2) (spec_int 2 (el_type e)) (el_type e) _ k s2 r2 _ _ (reads_int 2 _ O3) eq_refl At2) as (r3 & At3 & E3) end.
    rewrite E3. clear E3 At2. set (s3 := set_data (Some r3) s2).
    match goal with |- context [bind (rd (rx_variant (el_type e))) ?k s3] => destruct (rd_eq variant (rx_variant (el_type e)) (spec_value (el_type e) (el_value e)) (el_value e) _ k s3 r3 _ _ (reads_variant _ _ O4 O5) eq_refl At3) as (r4 & At4 & E4) end.
    rewrite E4. clear E4 At3. set (s4 := set_data (Some r4) s3).
    destruct (IH (i + 1) ((el_prop e, el_type e, el_value e) :: acc) (if el_prop e =? PROP_File_Name then Some (i, variant_str (el_value e)) else f) s4 r4 _ post F eq_refl At4) as (d & E). exists d. exact E.
Qed.
Definition found (f : option (N * list N)) : verdict := match f with Some (i, n) => Named i n | None => Unnamed end.
Definition as_verdict (x : list (N * N * variant) * option N * option (N * list N)) : verdict :=
  match x with (_, Some i, _) => Bad i | (_, None, f) => found f end.
Lemma scanned_judged c els : forall seen acc f, Forall (fun x => fits c x = true) seen -> (forall e, In e els -> el_prop e = NAME -> exists n, el_value e = VStr n) ->
  judged (fits c) seen (found f) -> judged (fits c) (seen ++ els) (as_verdict (scanned c (len seen) acc f els)).
Proof.
  induction els as [|e els IH]; intros seen acc f G S J; [rewrite app_nil_r; exact J|]. cbn [scanned]. destruct (fits c e) eqn:FE; [|cbn [as_verdict]; apply j_bad; assumption].
  replace (seen ++ e :: els) with ((seen ++ [e]) ++ els) by (rewrite <- app_assoc; reflexivity). replace (len seen + 1) with (len (seen ++ [e])) by (rewrite len_app; reflexivity).
  assert (G' : Forall (fun x => fits c x = true) (seen ++ [e])) by (apply Forall_app; split; [exact G|constructor; [exact FE|constructor]]).
  apply IH; [exact G'|intros x X; apply S; right; exact X|]. destruct (el_prop e =? NAME) eqn:EN.
  - apply N.eqb_eq in EN. destruct (S e (or_introl eq_refl) EN) as (n & En). rewrite En. cbn [found variant_str]. apply (j_named _ seen e [] n); try assumption; constructor.
  - apply N.eqb_neq in EN. assert (NE : Forall (fun x => el_prop x <> NAME) [e]) by (constructor; [exact EN|constructor]). destruct f as [[j n]|]; cbn [found] in *.
    + inversion J as [| |pre e0 post n0 A1 A2 A3 A4 A5 A6]; subst. rewrite <- app_assoc in *. cbn [app] in *. apply (j_named _ pre e0 (post ++ [e]) n); try assumption. apply Forall_app; auto.
    + inversion J; subst. apply j_unnamed; [exact G'|apply Forall_app; auto].
Qed.

(** the end of a request; the response's parameters count *)
Definition closes (s s' : rstate) (sc : script) (tid : N) (c : N) (ps : list N) : Prop :=
  exists l o, r_st s' = IDLE /\ r_session s' = r_session s /\ r_log s' = l ++ r_log s /\ follows sc (asked l) None c ps /\ datas l = [] /\ responses l = [o] /\
    o_type o = TYPE_RESPONSE /\ o_code o = c /\ o_pay o = PItems (map u32_item ps) /\ o_tid o mod 65536 = tid mod 65536.

Theorem prop_list_ok s tid st parent fmt hi lo els p1 rest : storage_is_ready env -> idle s -> command_ok OP_SendObjectPropList tid [st; parent; fmt; hi; lo] -> r_session s <> 0 -> tid <> 0 -> tid <> 0xFFFFFFFF ->
  Forall element_ok els -> (forall e, In e els -> el_prop e = NAME -> exists n, el_value e = VStr n) -> 12 + len (list_bytes els) < 2^32 -> 4 <= len p1 ->
  p1 ++ concat rest = spec_header (12 + len (list_bytes els)) 2 OP_SendObjectPropList tid ++ list_bytes els ->
  exists s' v c ps, run (command OP_SendObjectPropList tid [st; parent; fmt; hi; lo] :: data_phase (p1 :: rest)) s = Ret (tt, s') /\
    judged (fits (cat (fmt mod 65536))) els v /\ closes s s' (list_script st parent (fmt mod 65536) hi lo v) tid c ps /\
    r_seq s' = r_seq s /\ (hi <> 0 -> r_pl s' = r_pl s) /\
    (c = R_OK -> exists p, r_pl s' = Some p /\ pl_handle p = nth 2 ps 0 /\ pl_size p = lo /\ pl_cur p = 0).
Proof.
  intros Hr Hi Hc Hs T1 T2 HE HN HL H4 HP. rewrite run_cons. destruct (command_eq env formats cat props_by_type prop_desc s _ tid _ Hi Hc (fun _ => Hr)) as (l & Hl & ->).
  change (lookup_op OP_SendObjectPropList _) with (Some (h_sendObjectPropList env)). cbv iota. set (q := mk_req _ _ _). set (s1 := set_log _ _).
  unfold h_sendObjectPropList, check, bind at 1, bind at 1, get at 1, ret at 1. change (q_tid q) with tid. change (r_session s1) with (r_session s). rewrite (pre_ok cat props_by_type prop_desc s tid Hs T1 T2).
  change (isok R_OK) with true. unfold bind at 1, upd at 1. cbn [when]. change (par q 0) with st. change (par q 1) with parent. change (par q 2) with fmt. change (par q 3) with hi. change (par q 4) with lo. change (u16 fmt) with (fmt mod 65536).
  assert (W : waiting q s1) by (split; reflexivity). destruct Hc as (C1 & C2 & _ & HB).
  assert (Hw : 12 + len (list_bytes els) < w32) by exact HL.
  pose (x := scanned (cat (fmt mod 65536)) 0 [] None els). set (v := as_verdict x).
  assert (J : judged (fits (cat (fmt mod 65536))) els v). { apply (scanned_judged (cat (fmt mod 65536)) els [] [] None); [constructor|exact HN|apply j_unnamed; constructor]. }
  (* the data phase when the command was refused *)
  assert (REF : forall s2 l2 c, c <> R_OK -> waiting q s2 -> r_resp s2 = c -> r_session s2 = r_session s -> r_seq s2 = r_seq s -> r_pl s2 = r_pl s -> r_log s2 = l2 ++ l ++ r_log s -> datas l2 = [] -> responses l2 = [] -> follows (list_script st parent (fmt mod 65536) hi lo v) (asked l2) None c [] ->
     exists s' v c ps, run (data_phase (p1 :: rest)) s2 = Ret (tt, s') /\ judged (fits (cat (fmt mod 65536))) els v /\ closes s s' (list_script st parent (fmt mod 65536) hi lo v) tid c ps /\
       r_seq s' = r_seq s /\ (hi <> 0 -> r_pl s' = r_pl s) /\ (c = R_OK -> exists p, r_pl s' = Some p /\ pl_handle p = nth 2 ps 0 /\ pl_size p = lo /\ pl_cur p = 0)).
  { intros s2 l2 c NC W2 R2 S2 Q2 P2 L2 D2 RS2 F2. rewrite (collect_any env formats cat props_by_type prop_desc c q s2 p1 rest (list_bytes els) W2 R2 eq_refl C1 C2 Hw H4 HP).
    unfold conclude. replace (isok c) with false by (symmetry; apply N.eqb_neq; exact NC). unfold bind at 1, upd at 1. set (s3 := set_resp _ _).
    destruct (response_eq env quiet c s3 q (or_intror (proj1 W2)) (proj2 W2)) as (n & a & Nn & E). eexists. exists v, c, []. split; [exact E|]. split; [exact J|].
    split; [|split; [exact Q2|split; [intros _; exact P2|intros X; contradiction]]].
    exists (n ++ (ASend (resp_out c tid []) true, a) :: l2 ++ l). eexists. split; [reflexivity|]. split; [exact S2|]. split; [cbn [r_log set_log]; change (r_log s3) with (r_log s2); rewrite L2, <- !app_assoc; cbn [app]; rewrite <- ?app_assoc; reflexivity|].
    change ((ASend (resp_out c tid []) true, a) :: l2 ++ l) with ([(ASend (resp_out c tid []) true, a)] ++ l2 ++ l).
    rewrite !asked_app, !datas_app, !responses_app, (noise_asked l Hl), (noise_datas l Hl), (noise_responses l Hl), (noise_asked n Nn), (noise_datas n Nn), (noise_responses n Nn), D2, RS2. cbn [asked datas responses response_of data_of fst app]. rewrite ?app_nil_r.
    split; [exact F2|]. split; [reflexivity|]. split; [reflexivity|]. split; [reflexivity|]. split; [reflexivity|]. split; [reflexivity|]. cbn. unfold u16. lia. }
  (* the data phase when it was accepted *)
  assert (ACC : forall s2 l2, waiting q s2 -> r_resp s2 = R_OK -> r_session s2 = r_session s -> r_seq s2 = r_seq s -> r_pl s2 = Some (mk_pl st parent lo (fmt mod 65536) 0 0 []) -> r_log s2 = l2 ++ l ++ r_log s -> datas l2 = [] -> responses l2 = [] -> hi = 0 ->
     (forall conv d c ps, follows (add_script st parent (fmt mod 65536) lo v) conv d c ps -> follows (list_script st parent (fmt mod 65536) hi lo v) (asked l2 ++ conv) d c ps) ->
     exists s' v c ps, run (data_phase (p1 :: rest)) s2 = Ret (tt, s') /\ judged (fits (cat (fmt mod 65536))) els v /\ closes s s' (list_script st parent (fmt mod 65536) hi lo v) tid c ps /\
       r_seq s' = r_seq s /\ (hi <> 0 -> r_pl s' = r_pl s) /\ (c = R_OK -> exists p, r_pl s' = Some p /\ pl_handle p = nth 2 ps 0 /\ pl_size p = lo /\ pl_cur p = 0)).
  { intros s2 l2 W2 R2 S2 Q2 P2 L2 D2 RS2 H0 F2. rewrite (collect env formats cat props_by_type prop_desc q s2 p1 rest (list_bytes els) W2 R2 eq_refl C1 C2 Hw H4 HP).
    pose proof (container_at q (list_bytes els) Hw) as At. set (s3 := set_data _ s2). change (handler env cat prop_desc q s3) with (d_sendObjectPropList env cat prop_desc q s3). unfold d_sendObjectPropList.
    unfold bind at 1, get at 1. change (r_pl s3) with (r_pl s2). rewrite P2. cbn [pl_format pl_storage pl_parent pl_size pl_handle pl_cur].
    assert (Hn : len els < 2^32).
    { apply N.le_lt_trans with (len (list_bytes els)); [|lia]. unfold list_bytes. rewrite len_app. clear. assert (len els <= len (concat (map element_bytes els))); [|lia].
      induction els as [|e els IH]; [vm_compute; discriminate|]. cbn [map concat]. rewrite len_cons, len_app. unfold element_bytes at 1. rewrite !len_app. unfold spec_int at 1, len at 2. rewrite le_enc_length. lia. }
    unfold list_bytes in At.
    match goal with |- context [bind (rd (rx_int 4)) ?k s3] => destruct (rd_eq N (rx_int 4) (spec_int 4 (len els)) (len els) _ k s3 _ _ (concat (map element_bytes els)) (reads_int 4 _ Hn) eq_refl At) as (r2 & At2 & E2) end.
    rewrite E2. clear E2. replace (N.to_nat (len els)) with (List.length els) by (unfold len; rewrite Nnat.Nat2N.id; reflexivity).
    rewrite <- (app_nil_r (concat (map element_bytes els))) in At2. set (s4 := set_data (Some r2) s3).
    destruct (scan_ok (cat (fmt mod 65536)) els 0 [] None s4 r2 _ [] HE eq_refl At2) as (d & E3). unfold bind at 1. rewrite E3. fold x.
    destruct x as [[elems bad] fname] eqn:EX. cbn [as_verdict] in v. unfold bind at 1, upd at 1. set (s5 := set_pl _ _).
    (* any answer *)
    assert (END : forall s6 l6 c ps, waiting q s6 -> r_session s6 = r_session s -> r_seq s6 = r_seq s -> r_log s6 = l6 ++ l2 ++ l ++ r_log s -> datas l6 = [] -> responses l6 = [] ->
       follows (add_script st parent (fmt mod 65536) lo v) (asked l6) None c ps -> (c = R_OK -> exists p, r_pl s6 = Some p /\ pl_handle p = nth 2 ps 0 /\ pl_size p = lo /\ pl_cur p = 0) ->
       exists s' v c' ps', respond_with env q c ps s6 = Ret (tt, s') /\ judged (fits (cat (fmt mod 65536))) els v /\ closes s s' (list_script st parent (fmt mod 65536) hi lo v) tid c' ps' /\
         r_seq s' = r_seq s /\ (hi <> 0 -> r_pl s' = r_pl s) /\ (c' = R_OK -> exists p, r_pl s' = Some p /\ pl_handle p = nth 2 ps' 0 /\ pl_size p = lo /\ pl_cur p = 0)).
    { intros s6 l6 c ps W6 S6 Q6 L6 D6 RS6 F6 P6. destruct (respond_eq env quiet q c ps s6 (or_intror (proj1 W6))) as (n & a & Nn & E). eexists. exists v, c, ps. split; [exact E|]. split; [exact J|].
      split; [|split; [exact Q6|split; [congruence|exact P6]]].
      set (out := mk_out TYPE_RESPONSE c (q_tid q) (PItems (map u32_item ps))). exists (n ++ [(ASend out true, a)] ++ l6 ++ l2 ++ l). exists out. split; [reflexivity|]. split; [exact S6|]. split; [cbn [r_log set_log]; rewrite L6, <- !app_assoc; reflexivity|].
      rewrite !asked_app, !datas_app, !responses_app, (noise_asked l Hl), (noise_datas l Hl), (noise_responses l Hl), (noise_asked n Nn), (noise_datas n Nn), (noise_responses n Nn), D6, RS6, D2, RS2. cbn [asked datas responses response_of data_of fst app]. rewrite ?app_nil_r.
      split; [apply F2; exact F6|]. split; [reflexivity|]. split; [reflexivity|]. split; [reflexivity|]. split; [reflexivity|]. split; reflexivity. }
    assert (W5 : waiting q s5) by exact W2.
    destruct bad as [i|]; [|destruct fname as [[i n]|]].
    - apply (END s5 [] R_Invalid_Dataset [0; 0; 0; i]); try assumption; try reflexivity; try exact L2; [constructor|discriminate].
    - destruct n as [|u n].
      + apply (END s5 [] R_Invalid_Dataset [0; 0; 0; i]); try assumption; try reflexivity; try exact L2; [constructor|discriminate].
      + rewrite call_eq. change (blank_info st lo parent (fmt mod 65536) (u :: n)) with (new_object st parent (fmt mod 65536) lo (u :: n)). set (c6 := SAddItem _ _ _). set (a := env _ _). set (s6 := add_log _ s5).
        unfold bind at 1, upd at 1. set (s7 := set_pl _ s6).
        assert (L7 : r_log s7 = [(ACall c6, a)] ++ l2 ++ l ++ r_log s) by (change (r_log s7) with ((ACall c6, a) :: r_log s2); rewrite L2; reflexivity).
        unfold isok. destruct (a_code a =? R_OK) eqn:OK.
        * apply (END s7 [(ACall c6, a)] R_OK [a_num a 0; a_num a 1; a_num a 2]); try assumption; try reflexivity.
          { cbn [asked harmless app]. unfold v. cbn [found add_script]. constructor; [reflexivity|]. unfold ok. rewrite OK. constructor. }
          { intros _. eexists. split; [reflexivity|]. repeat split. }
        * apply (END s7 [(ACall c6, a)] (a_code a) [0; 0; 0; i]); try assumption; try reflexivity.
          { cbn [asked harmless app]. unfold v. cbn [found add_script]. constructor; [reflexivity|]. unfold ok. rewrite OK. constructor. }
          { intros X. apply N.eqb_neq in OK. contradiction. }
    - apply (END s5 [] R_Invalid_Dataset []); try assumption; try reflexivity; try exact L2; [constructor|discriminate]. }
  (* the command phase *)
  assert (SIZED : forall s2 l2, waiting q s2 -> r_session s2 = r_session s -> r_seq s2 = r_seq s -> r_pl s2 = r_pl s -> r_resp s2 = R_OK -> r_log s2 = l2 ++ l ++ r_log s -> datas l2 = [] -> responses l2 = [] ->
     (forall conv d c ps, follows (if hi =? 0 then add_script st parent (fmt mod 65536) lo v else fail R_Object_Too_Large) conv d c ps -> follows (list_script st parent (fmt mod 65536) hi lo v) (asked l2 ++ conv) d c ps) ->
     exists s' v c ps, match (if negb (hi =? 0) then upd (set_resp R_Object_Too_Large) else upd (set_pl (Some (mk_pl st parent lo (fmt mod 65536) 0 0 [])))) s2 with Ret (_, s2) => run (data_phase (p1 :: rest)) s2 | UB => UB | Abort => Abort end = Ret (tt, s') /\
       judged (fits (cat (fmt mod 65536))) els v /\ closes s s' (list_script st parent (fmt mod 65536) hi lo v) tid c ps /\
       r_seq s' = r_seq s /\ (hi <> 0 -> r_pl s' = r_pl s) /\ (c = R_OK -> exists p, r_pl s' = Some p /\ pl_handle p = nth 2 ps 0 /\ pl_size p = lo /\ pl_cur p = 0)).
  { intros s2 l2 W2 S2 Q2 P2 R2 L2 D2 RS2 F2. destruct (hi =? 0) eqn:EH; cbn [negb]; unfold upd.
    - apply N.eqb_eq in EH. apply (ACC (set_pl (Some (mk_pl st parent lo (fmt mod 65536) 0 0 [])) s2) l2); try assumption; reflexivity.
    - apply (REF (set_resp R_Object_Too_Large s2) l2 R_Object_Too_Large); try assumption; try reflexivity; [discriminate|]. rewrite <- (app_nil_r (asked l2)). apply F2. constructor. }
  assert (PLACED : forall s2 l2, waiting q s2 -> r_session s2 = r_session s -> r_seq s2 = r_seq s -> r_pl s2 = r_pl s -> r_log s2 = l2 ++ l ++ r_log s -> datas l2 = [] -> responses l2 = [] ->
     (forall conv d c ps, follows (let sized := if hi =? 0 then add_script st parent (fmt mod 65536) lo v else fail R_Object_Too_Large in if (parent =? 0) || (parent =? 0xFFFFFFFF) then sized else provided (SCheckHandle parent) sized) conv d c ps -> follows (list_script st parent (fmt mod 65536) hi lo v) (asked l2 ++ conv) d c ps) ->
     exists s' v c ps, match (c2 <- (if (parent =? 0) || (parent =? ALL) then ret R_OK else r <- call env (SCheckHandle parent) ;; ret (a_code r)) ;; upd (set_resp c2) ;;; when (isok c2) (if negb (hi =? 0) then upd (set_resp R_Object_Too_Large) else upd (set_pl (Some (mk_pl st parent lo (fmt mod 65536) 0 0 []))))) s2 with Ret (_, s2) => run (data_phase (p1 :: rest)) s2 | UB => UB | Abort => Abort end = Ret (tt, s') /\
       judged (fits (cat (fmt mod 65536))) els v /\ closes s s' (list_script st parent (fmt mod 65536) hi lo v) tid c ps /\
       r_seq s' = r_seq s /\ (hi <> 0 -> r_pl s' = r_pl s) /\ (c = R_OK -> exists p, r_pl s' = Some p /\ pl_handle p = nth 2 ps 0 /\ pl_size p = lo /\ pl_cur p = 0)).
  { intros s2 l2 W2 S2 Q2 P2 L2 D2 RS2 F2. cbv zeta in F2. change 0xFFFFFFFF with ALL in F2. destruct ((parent =? 0) || (parent =? ALL)).
    - unfold bind at 1, ret at 1. unfold bind at 1, upd at 1. change (isok R_OK) with true. cbn [when]. apply (SIZED (set_resp R_OK s2) l2); try assumption; reflexivity.
    - unfold bind at 1. unfold bind at 1, call at 1, ask at 1, ret at 1. set (a := env _ _). set (s3 := add_log _ s2). unfold bind at 1, upd at 1.
      assert (L3 : r_log s3 = [(ACall (SCheckHandle parent), a)] ++ l2 ++ l ++ r_log s) by (change (r_log s3) with ((ACall (SCheckHandle parent), a) :: r_log s2); rewrite L2; reflexivity). rewrite app_assoc in L3.
      unfold isok. destruct (a_code a =? R_OK) eqn:OK; cbn [when].
      + apply (SIZED (set_resp (a_code a) s3) ([(ACall (SCheckHandle parent), a)] ++ l2)); try assumption; [apply N.eqb_eq; exact OK|]. intros conv d c ps F. rewrite asked_app, <- app_assoc. apply F2. cbn [asked harmless app]. constructor; [reflexivity|]. unfold ok. rewrite OK. exact F.
      + unfold ret. apply (REF (set_resp (a_code a) s3) ([(ACall (SCheckHandle parent), a)] ++ l2) (a_code a)); try assumption; [apply N.eqb_neq; exact OK|reflexivity|]. rewrite asked_app. apply F2. cbn [asked harmless app]. constructor; [reflexivity|]. unfold ok. rewrite OK. constructor. }
  destruct (st =? 0) eqn:ES.
  - unfold bind at 1, ret at 1. unfold bind at 1, upd at 1. change (isok R_OK) with true. cbn [when]. apply (PLACED (set_resp R_OK (set_resp R_OK s1)) []); try assumption; try reflexivity. intros conv d c ps F. unfold list_script. rewrite ES. exact F.
  - unfold bind at 1. unfold bind at 1, call at 1, ask at 1, ret at 1. set (a := env _ _). set (s3 := add_log _ _). unfold bind at 1, upd at 1.
    assert (L3 : r_log s3 = [(ACall (SCheckStorage st), a)] ++ l ++ r_log s) by reflexivity.
    unfold isok. destruct (a_code a =? R_OK) eqn:OK; cbn [when].
    + apply (PLACED (set_resp (a_code a) s3) [(ACall (SCheckStorage st), a)]); try assumption; try reflexivity. intros conv d c ps F. unfold list_script. rewrite ES. cbn [asked harmless app]. constructor; [reflexivity|]. unfold ok. rewrite OK. exact F.
    + unfold ret. apply (REF (set_resp (a_code a) s3) [(ACall (SCheckStorage st), a)] (a_code a)); try assumption; try reflexivity; [apply N.eqb_neq; exact OK|]. unfold list_script. rewrite ES. cbn [asked harmless app]. constructor; [reflexivity|]. unfold ok. rewrite OK. constructor.
Qed.
End E.
