(** SetObjectPropValue: what is asked of the storage (C88). *)
From Verif Require Import Base Wire WireSpec WireProofs WireProofs2 Responder RSpec RLogic ROne2 RGate RExec RSession RSend RSend2 RColl RPropList ROps REdit2.

(** ** Specification *)
Section S.
Variable cat : N -> N.
Variable prop_desc : N -> N -> N * option objpropdesc.
(** the object must exist and have the property; [found] goes on with its description *)
Definition find_prop (h p : N) (found : objpropdesc -> script) : script :=
  Ask (SGetInfo h) (fun r => if ok (a_code r) then
    match prop_desc (cat (oi_format (a_info r))) (p mod 65536) with
    | (c, Some d) => if ok c then found d else fail c
    | (c, None) => fail c
    end else fail (a_code r)).
(** the property must be writable; then the storage gets the value *)
Definition set_script (h p : N) (v : variant) : script :=
  find_prop h p (fun d => if opd_getset d then find_prop h p (fun d => Ask (SSetProps h [(d, v)] false) (fun r => fail (a_code r))) else fail R_AccessDenied).
(** the body of the data phase is the value, if there is such a property that can be set *)
Definition value_body (p : N) (v : variant) (body : bytes) : Prop :=
  forall c d c' d', prop_desc c (p mod 65536) = (R_OK, Some d) -> opd_getset d = true -> prop_desc c' (p mod 65536) = (R_OK, Some d') ->
    has_type (opd_type d') v /\ rx_small (opd_type d') v /\ body = spec_value (opd_type d') v.
End S.

(** ** Proofs *)
Section E.
Variable env : list (act * ans) -> act -> ans.
Variable formats : list N.
Variable cat : N -> N.
Variable props_by_type : N -> N * list N.
Variable prop_desc : N -> N -> N * option objpropdesc.
Hypothesis quiet : undisturbed env.
Hypothesis tables : tables_ok props_by_type prop_desc.
Notation step := (step env formats cat props_by_type prop_desc).
Notation run := (run env formats cat props_by_type prop_desc).

Lemma desc_case c p : exists x, prop_desc c p = x /\ ((exists d, x = (R_OK, Some d)) \/ fst x <> R_OK).
Proof.
  eexists. split; [reflexivity|]. destruct (prop_desc c p) as [k o] eqn:E. destruct (N.eq_dec k R_OK) as [->|N]; [left|right; exact N].
  destruct (proj1 tables c p) as (d & D); [rewrite E; reflexivity|]. rewrite E in D. cbn in D. subst o. eauto.
Qed.
Definition sol (sc : script) : Prop := forall d c ps conv, follows sc conv d c ps -> d = None /\ ps = [].
Lemma isok_false c : c <> R_OK -> isok c = false. Proof. intros H. apply N.eqb_neq. exact H. Qed.

Theorem set_value_ok s tid h p v body p1 rest : storage_is_ready env -> idle s -> command_ok OP_SetObjectPropValue tid [h; p] -> r_session s <> 0 -> tid <> 0 -> tid <> 0xFFFFFFFF ->
  12 + len body < 2^32 -> 4 <= len p1 -> p1 ++ concat rest = spec_header (12 + len body) 2 OP_SetObjectPropValue tid ++ body -> value_body prop_desc p v body ->
  exists s', run (command OP_SetObjectPropValue tid [h; p] :: data_phase (p1 :: rest)) s = Ret (tt, s') /\ ends s s' (set_script cat prop_desc h p v) tid.
Proof.
  intros Hr Hi Hc Hs T1 T2 HL H4 HP HB. rewrite run_cons. destruct (command_eq env formats cat props_by_type prop_desc s _ tid _ Hi Hc (fun _ => Hr)) as (l & Hl & ->).
  change (lookup_op OP_SetObjectPropValue _) with (Some (h_setObjPropValue env cat prop_desc)). cbv iota. set (q := mk_req _ _ _). set (s1 := set_log _ _).
  unfold h_setObjPropValue, check, bind at 1, bind at 1, get at 1, ret at 1. change (q_tid q) with tid. change (r_session s1) with (r_session s). rewrite (pre_ok cat props_by_type prop_desc s tid Hs T1 T2).
  change (isok R_OK) with true. unfold bind at 1, upd at 1. cbn [when]. change (par q 0) with h. change (par q 1) with p.
  assert (W : waiting q s1) by (split; reflexivity). destruct Hc as (C1 & C2 & _).
  assert (Hw : 12 + len body < w32) by exact HL.
  (* the data phase when the command was refused *)
  assert (REF : forall s2 l2 c, c <> R_OK -> waiting q s2 -> r_resp s2 = c -> r_session s2 = r_session s -> r_log s2 = l2 ++ l ++ r_log s -> datas l2 = [] -> responses l2 = [] -> follows (set_script cat prop_desc h p v) (asked l2) None c [] ->
     exists s', run (data_phase (p1 :: rest)) s2 = Ret (tt, s') /\ ends s s' (set_script cat prop_desc h p v) tid).
  { intros s2 l2 c NC W2 R2 S2 L2 D2 P2 F2. rewrite (collect_any env formats cat props_by_type prop_desc c q s2 p1 rest body W2 R2 eq_refl C1 C2 Hw H4 HP).
    unfold conclude. rewrite (isok_false c NC). unfold bind at 1, upd at 1. set (s3 := set_resp _ _).
    destruct (finish_ok env quiet q s3 c (or_intror (proj1 W2)) (proj2 W2)) as (s' & n & E & L' & A1 & A2 & A3 & A4 & A5 & _). exists s'. split; [exact E|]. exists (n ++ l2 ++ l), c.
    split; [exact A4|]. split; [rewrite A5; exact S2|]. split; [rewrite L'; change (r_log s3) with (r_log s2); rewrite L2, !app_assoc; reflexivity|].
    rewrite !asked_app, !datas_app, !responses_app, (noise_asked l Hl), (noise_datas l Hl), (noise_responses l Hl), A1, A2, A3, D2, P2. rewrite ?app_nil_r. cbn [app]. auto. }
  unfold bind at 1, call at 1, ask at 1. set (r := env _ (ACall (SGetInfo h))). unfold bind at 1, upd at 1. set (s2 := set_resp (a_code r) _).
  destruct (isok (a_code r)) eqn:OK.
  2:{ cbn [when]. unfold ret. assert (NC : a_code r <> R_OK) by (intros X; rewrite X in OK; discriminate).
      apply (REF s2 [(ACall (SGetInfo h), r)] (a_code r) NC); try reflexivity; [exact W|]. unfold set_script, find_prop. cbn [asked harmless app]. constructor; [reflexivity|]. change (ok (a_code r)) with (isok (a_code r)). rewrite OK. constructor. }
  cbn [when]. destruct (desc_case (cat (oi_format (a_info r))) (u16 p)) as (x & EX & CASE). change (u16 p) with (p mod 65536) in *. rewrite EX.
  assert (F1 : forall conv d c ps, (follows (match x with (k, Some dd) => if ok k then (if opd_getset dd then find_prop cat prop_desc h p (fun d => Ask (SSetProps h [(d, v)] false) (fun r => fail (a_code r))) else fail R_AccessDenied) else fail k | (k, None) => fail k end) conv d c ps) ->
     follows (set_script cat prop_desc h p v) ((SGetInfo h, r) :: conv) d c ps).
  { intros conv d c ps F. unfold set_script, find_prop at 1. constructor; [reflexivity|]. change (ok (a_code r)) with (isok (a_code r)). rewrite OK, EX. exact F. }
  destruct x as [k od]. destruct CASE as [(d & [= -> ->])|NC].
  2:{ cbn [fst] in NC. unfold bind at 1, upd at 1. rewrite (isok_false k NC). cbn [when]. unfold ret.
      apply (REF (set_resp k s2) [(ACall (SGetInfo h), r)] k NC); try reflexivity; [exact W|]. cbn [asked harmless app]. apply F1. replace (ok k) with false by (symmetry; apply N.eqb_neq; exact NC). destruct od; constructor. }
  unfold bind at 1, upd at 1. change (isok R_OK) with true. cbn [when]. unfold bind at 1, need, ret at 1. destruct (opd_getset d) eqn:GS; cbn [negb when].
  2:{ unfold upd. apply (REF (set_resp R_AccessDenied (set_resp R_OK s2)) [(ACall (SGetInfo h), r)] R_AccessDenied); try reflexivity; [discriminate|exact W|]. cbn [asked harmless app]. apply F1. change (ok R_OK) with true. cbv iota. constructor. }
  unfold ret. set (s3 := set_resp R_OK s2). assert (W3 : waiting q s3) by exact W.
  rewrite (collect env formats cat props_by_type prop_desc q s3 p1 rest body W3 eq_refl eq_refl C1 C2 Hw H4 HP).
  pose proof (container_at q body Hw) as At. set (s4 := set_data _ s3). change (handler env cat prop_desc q s4) with (d_setObjPropValue env cat prop_desc q s4). unfold d_setObjPropValue. change (par q 0) with h. change (par q 1) with p.
  unfold bind at 1, call at 1, ask at 1. set (r2 := env _ (ACall (SGetInfo h))). set (s5 := add_log _ s4).
  assert (DONE : forall c s6 l2, waiting q s6 -> r_session s6 = r_session s -> r_log s6 = l2 ++ (ACall (SGetInfo h), r2) :: (ACall (SGetInfo h), r) :: l ++ r_log s -> datas l2 = [] -> responses l2 = [] ->
     follows (find_prop cat prop_desc h p (fun d => Ask (SSetProps h [(d, v)] false) (fun r => fail (a_code r)))) ((SGetInfo h, r2) :: asked l2) None c [] -> exists s', send_response env c s6 = Ret (tt, s') /\ ends s s' (set_script cat prop_desc h p v) tid).
  { intros c s6 l2 W6 S6 L6 D2 P2 F. destruct (finish_ok env quiet q s6 c (or_intror (proj1 W6)) (proj2 W6)) as (s' & n & E & L' & A1 & A2 & A3 & A4 & A5 & _). exists s'. split; [exact E|]. exists (n ++ l2 ++ [(ACall (SGetInfo h), r2); (ACall (SGetInfo h), r)] ++ l), c.
    split; [exact A4|]. split; [congruence|]. split; [rewrite L', L6, <- !app_assoc; reflexivity|].
    rewrite !asked_app, !datas_app, !responses_app, (noise_asked l Hl), (noise_datas l Hl), (noise_responses l Hl), A1, A2, A3, D2, P2. cbn [asked harmless datas responses app]. rewrite app_nil_r.
    split; [|auto]. apply F1. change (ok R_OK) with true. cbv iota. try rewrite GS. exact F. }
  destruct (isok (a_code r2)) eqn:OK2; cbn [negb].
  2:{ apply (DONE (a_code r2) s5 []); try reflexivity; [exact W|]. unfold find_prop. constructor; [reflexivity|]. change (ok (a_code r2)) with (isok (a_code r2)). rewrite OK2. constructor. }
  destruct (desc_case (cat (oi_format (a_info r2))) (u16 p)) as (x & EX2 & CASE). change (u16 p) with (p mod 65536) in *. rewrite EX2.
  assert (F2 : forall conv d c ps, (follows (match x with (k, Some dd) => if ok k then Ask (SSetProps h [(dd, v)] false) (fun r => fail (a_code r)) else fail k | (k, None) => fail k end) conv d c ps) ->
     follows (find_prop cat prop_desc h p (fun d => Ask (SSetProps h [(d, v)] false) (fun r => fail (a_code r)))) ((SGetInfo h, r2) :: conv) d c ps).
  { intros conv d0 c ps F. unfold find_prop at 1. constructor; [reflexivity|]. change (ok (a_code r2)) with (isok (a_code r2)). rewrite OK2, EX2. exact F. }
  destruct x as [k od]. destruct CASE as [(d2 & [= -> ->])|NC].
  2:{ cbn [fst] in NC. rewrite (isok_false k NC). cbn [negb]. apply (DONE k s5 []); try reflexivity; [exact W|]. cbn [asked]. apply F2. replace (ok k) with false by (symmetry; apply N.eqb_neq; exact NC). destruct od; constructor. }
  change (isok R_OK) with true. cbn [negb]. unfold bind at 1, need, ret at 1.
  destruct (HB _ _ _ _ EX GS EX2) as (B1 & B2 & B3).
  assert (At2 : rx_at (mk_rxc (data_container q body) (12 + len body) 12) (spec_header (12 + len body) 2 (q_code q) (q_tid q)) (spec_value (opd_type d2) v ++ [])) by (rewrite app_nil_r, <- B3; exact At).
  match goal with |- context [bind (rd (rx_variant (opd_type d2))) ?k s5] => destruct (rd_eq variant (rx_variant (opd_type d2)) (spec_value (opd_type d2) v) v _ k s5 _ _ [] (reads_variant _ _ B1 B2) eq_refl At2) as (r3 & At3 & E3) end.
  rewrite E3. clear E3. set (s6 := set_data (Some r3) s5). unfold bind at 1, call at 1, ask at 1. set (r4 := env _ (ACall (SSetProps h [(d2, v)] false))). set (s7 := add_log _ s6).
  assert (F4 : follows (find_prop cat prop_desc h p (fun d => Ask (SSetProps h [(d, v)] false) (fun r => fail (a_code r)))) ((SGetInfo h, r2) :: [(SSetProps h [(d2, v)] false, r4)]) None (a_code r4) []).
  { apply F2. change (ok R_OK) with true. cbv iota. constructor; [reflexivity|constructor]. }
  destruct (a_code r4 =? R_ObjectProp_Not_Supported).
  - unfold bind at 1. unfold bind at 1, call at 1, ask at 1, ret at 1. set (r5 := env _ (ACall (SGetPath h))). apply (DONE (a_code r4) _ [(ACall (SGetPath h), r5); (ACall (SSetProps h [(d2, v)] false), r4)]); try reflexivity; [exact W|]. exact F4.
  - unfold bind at 1, ret at 1. apply (DONE (a_code r4) _ [(ACall (SSetProps h [(d2, v)] false), r4)]); try reflexivity; [exact W|]. exact F4.
Qed.
End E.
