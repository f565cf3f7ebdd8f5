(** C39: SetObjectPropList, for every list of elements, every cut into packets and every
    behaviour of the storage. *)
From Verif Require Import Base Wire WireSpec WireProofs Responder RSpec RLogic ROne2 RGate RExec RSession RSend RSend2 RColl RPropList RDemo.

(** the storage is asked to set the element's value on the element's object *)
Definition sets (prop_desc : N -> N -> N * option objpropdesc) (e : element) (c : scall) : Prop :=
  exists category d, prop_desc category (el_prop e) = (R_OK, Some d) /\ opd_getset d = true /\ c = SSetProps (el_handle e) [(d, el_value e)] false.
(** and said yes *)
Definition accepted (l : list (act * ans)) (c : scall) : Prop := exists r, In (ACall c, r) l /\ a_code r = R_OK.

Lemma changed_rev l : changed (rev l) = filter changes (map (fun e => match fst e with ACall c => c | _ => SReady end) (filter (fun e => match fst e with ACall c => changes c | _ => false end) l)).
Proof.
  unfold changed. induction l as [|[a r] l IH]; [reflexivity|]. cbn [rev]. rewrite calls_app, filter_app, rev_app_distr, IH. cbn [filter fst]. destruct a as [c| | | | |]; cbn; try reflexivity.
  destruct (changes c) eqn:E; cbn; rewrite ?E; reflexivity.
Qed.
Lemma changed_rev_app a b : changed (rev (a ++ b)) = changed (rev a) ++ changed (rev b).
Proof. rewrite rev_app_distr, changed_app. reflexivity. Qed.
Lemma applied_changed cat pd e l : applied cat pd e l -> exists c, changed (rev l) = [c] /\ sets pd e c /\ accepted l c.
Proof. intros [r1 d r2 A B C D]. eexists. split; [reflexivity|]. split; [exists (cat (oi_format (a_info r1))), d; auto|]. exists r2. split; [right; left; reflexivity|exact D]. Qed.
Lemma failed_changed cat pd e c l : failed cat pd e c l -> changed (rev l) = [] \/ exists x r, changed (rev l) = [x] /\ sets pd e x /\ In (ACall x, r) l /\ a_code r = c.
Proof.
  intros [r1 A|r1 d A B|r1 d A B C D|r1 d r2 A B C D]; [left; reflexivity..|]. right. eexists _, r2. split; [reflexivity|]. split; [exists (cat (oi_format (a_info r1))), d; auto|]. split; [right; left; reflexivity|exact D].
Qed.
Definition outcome_ok (pd : N -> N -> N * option objpropdesc) (els : list element) (i : N) (l : list (act * ans)) (c : N) (ps : list N) : Prop :=
  (c = R_OK /\ ps = [] /\ Forall2 (sets pd) els (changed (rev l)) /\ Forall (accepted l) (changed (rev l))) \/
  (c <> R_OK /\ exists pre e post done tried, els = pre ++ e :: post /\ ps = [i + len pre] /\
     changed (rev l) = done ++ tried /\ Forall2 (sets pd) pre done /\ Forall (accepted l) done /\
     (tried = [] \/ exists x r, tried = [x] /\ sets pd e x /\ In (ACall x, r) l /\ a_code r = c)).
Lemma processed_outcome cat pd i els l c ps : processed cat pd i els l c ps -> outcome_ok pd els i l c ps.
Proof.
  intros H. induction H as [i|i e els l1 l2 c ps A P IH|i e els l c F N].
  - left. repeat split; constructor.
  - apply applied_changed in A as (x & A1 & A2 & A3). unfold outcome_ok. rewrite changed_rev_app, A1.
    assert (A3' : accepted (l1 ++ l2) x) by (destruct A3 as (r & B1 & B2); exists r; split; [apply in_or_app; left; exact B1|exact B2]).
    assert (MON : forall y, accepted l2 y -> accepted (l1 ++ l2) y) by (intros y (r & B1 & B2); exists r; split; [apply in_or_app; right; exact B1|exact B2]).
    destruct IH as [(-> & -> & B1 & B2)|(N & pre & e' & post & done & tried & -> & -> & B1 & B2 & B3 & B4)].
    + left. repeat split; [constructor; assumption|constructor; [exact A3'|revert B2; apply Forall_impl; exact MON]].
    + right. split; [exact N|]. exists (e :: pre), e', post, (x :: done), tried. split; [reflexivity|]. split; [rewrite len_cons; f_equal; lia|]. split; [rewrite B1; reflexivity|]. split; [constructor; assumption|].
      split; [constructor; [exact A3'|revert B3; apply Forall_impl; exact MON]|]. destruct B4 as [->|(y & r & -> & C1 & C2 & C3)]; [left; reflexivity|right; exists y, r; split; [reflexivity|]; split; [exact C1|]; split; [apply in_or_app; right; exact C2|exact C3]].
  - right. split; [exact N|]. apply failed_changed in F. destruct F as [F|(x & r & F1 & F2 & F3 & F4)].
    + exists [], e, els, [], []. rewrite F, (@len_nil element), N.add_0_r. split; [reflexivity|]. split; [reflexivity|]. split; [reflexivity|]. split; [constructor|]. split; [constructor|]. left. reflexivity.
    + exists [], e, els, [], [x]. rewrite F1, (@len_nil element), N.add_0_r. split; [reflexivity|]. split; [reflexivity|]. split; [reflexivity|]. split; [constructor|]. split; [constructor|]. right. exists x, r. auto.
Qed.
Lemma processed_quiet cat pd i els l c ps : processed cat pd i els l c ps -> responses l = [] /\ datas l = [] /\ responses (rev l) = [] /\ datas (rev l) = [].
Proof.
  intros H. assert (G : forall l, (forall e, In e l -> exists c, fst e = ACall c) -> responses l = [] /\ datas l = []).
  { clear. induction l as [|[a r] l IH]; intros H; [split; reflexivity|]. destruct (H (a, r) (or_introl eq_refl)) as [c E]. cbn [fst] in E. subst a. destruct IH as [I1 I2]; [intros e He; apply H; right; exact He|]. cbn [responses datas]. unfold response_of, data_of. cbn [fst]. auto. }
  assert (A : forall e, In e l -> exists c, fst e = ACall c).
  { induction H as [i|i e els l1 l2 c ps A P IH|i e els l c F N]; intros x Hx; [contradiction| |].
    - apply in_app_or in Hx as [Hx|Hx]; [|exact (IH x Hx)]. destruct A. destruct Hx as [<-|[<-|[]]]; cbn; eauto.
    - destruct F; cbn [In] in Hx; intuition (subst; cbn; eauto). }
  destruct (G l A). destruct (G (rev l)); [intros e He; apply A; apply in_rev; exact He|]. auto.
Qed.

(** C39: one response.  OK: every element was set, in order, each accepted by the storage.
    Otherwise: the response names the number of an element; exactly the elements before
    it were set, in order, each accepted; it failed with that code; nothing later was
    touched.  ([changed]: the storage-changing calls, oldest first; [log_of] the
    conversation with storage and transport.) *)
Theorem C39_in_order : forall env formats cat props_by_type prop_desc s tid ps els p1 rest,
  undisturbed env -> tables_ok props_by_type prop_desc -> storage_is_ready env -> idle s -> command_ok OP_SetObjectPropList tid ps ->
  r_session s <> 0 -> tid <> 0 -> tid <> 0xFFFFFFFF ->
  Forall element_ok els -> 12 + len (list_bytes els) < 2^32 -> 4 <= len p1 ->
  p1 ++ concat rest = spec_header (12 + len (list_bytes els)) 2 OP_SetObjectPropList tid ++ list_bytes els ->
  exists s' l c rps,
    run env formats cat props_by_type prop_desc (command OP_SetObjectPropList tid ps :: data_phase (p1 :: rest)) s = Ret (tt, s') /\
    r_log s' = l ++ r_log s /\ r_st s' = IDLE /\ datas l = [] /\ responses l = [resp_out c tid rps] /\
    ((c = R_OK /\ rps = [] /\ Forall2 (sets prop_desc) els (changed l) /\ Forall (accepted l) (changed l)) \/
     (c <> R_OK /\ exists pre e post done tried, els = pre ++ e :: post /\ rps = [len pre] /\
        changed l = done ++ tried /\ Forall2 (sets prop_desc) pre done /\ Forall (accepted l) done /\
        (tried = [] \/ exists x r, tried = [x] /\ sets prop_desc e x /\ In (ACall x, r) l /\ a_code r = c))).
Proof.
  intros env formats cat pbt pd s tid ps els p1 rest Q T Hr Hi Hc Hs Ht1 Ht2 HE HL H4 HP.
  destruct (set_prop_list_ok cat pd env formats pbt T Q s tid ps els p1 rest Hr Hi Hc Hs Ht1 Ht2 HE HL H4 HP) as (s' & n1 & n2 & r & l & c & rps & E1 & N1 & N2 & P & E2 & E3).
  exists s', (n2 ++ (ASend (resp_out c tid rps) true, r) :: rev l ++ n1), c, rps. split; [exact E1|].
  split; [rewrite E2; rewrite <- app_assoc; cbn [app]; rewrite <- app_assoc; reflexivity|]. split; [exact E3|].
  destruct (processed_quiet _ _ _ _ _ _ _ P) as (_ & _ & P1 & P2).
  destruct (one_response n2 (resp_out c tid rps) r (rev l ++ n1) N2 eq_refl) as [[A1 A2] A3].
  { rewrite responses_app, P1, (noise_responses n1 N1). reflexivity. }
  { rewrite datas_app, P2, (noise_datas n1 N1). reflexivity. }
  split; [exact A2|]. split; [exact A1|]. rewrite A3, changed_app, (noise_changed n1 N1). cbn [app].
  assert (MON : forall y, accepted l y -> accepted (n2 ++ (ASend (resp_out c tid rps) true, r) :: rev l ++ n1) y).
  { intros y (r0 & B1 & B2). exists r0. split; [|exact B2]. apply in_or_app. right. right. apply in_or_app. left. apply in_rev. rewrite rev_involutive. exact B1. }
  destruct (processed_outcome _ _ _ _ _ _ _ P) as [(-> & -> & B1 & B2)|(N & pre & e' & post & done & tried & -> & -> & B1 & B2 & B3 & B4)].
  - left. repeat split; [exact B1|revert B2; apply Forall_impl; exact MON].
  - right. split; [exact N|]. exists pre, e', post, done, tried. split; [reflexivity|]. split; [f_equal; lia|]. split; [exact B1|]. split; [exact B2|]. split; [revert B3; apply Forall_impl; exact MON|].
    destruct B4 as [->|(y & r0 & -> & C1 & C2 & C3)]; [left; reflexivity|right]. exists y, r0. split; [reflexivity|]. split; [exact C1|]. split; [|exact C3]. apply in_or_app. right. right. apply in_or_app. left. apply in_rev. rewrite rev_involutive. exact C2.
Qed.
(** What can fail, and with what code: the conversation about the elements. *)
Theorem C39_reasons : forall env formats cat props_by_type prop_desc s tid ps els p1 rest,
  undisturbed env -> tables_ok props_by_type prop_desc -> storage_is_ready env -> idle s -> command_ok OP_SetObjectPropList tid ps ->
  r_session s <> 0 -> tid <> 0 -> tid <> 0xFFFFFFFF ->
  Forall element_ok els -> 12 + len (list_bytes els) < 2^32 -> 4 <= len p1 ->
  p1 ++ concat rest = spec_header (12 + len (list_bytes els)) 2 OP_SetObjectPropList tid ++ list_bytes els ->
  exists s' before answer after talk c rps,
    run env formats cat props_by_type prop_desc (command OP_SetObjectPropList tid ps :: data_phase (p1 :: rest)) s = Ret (tt, s') /\
    noise before /\ noise after /\ processed cat prop_desc 0 els talk c rps /\
    r_log s' = after ++ (ASend (resp_out c tid rps) true, answer) :: rev talk ++ before ++ r_log s.
Proof.
  intros env formats cat pbt pd s tid ps els p1 rest Q T Hr Hi Hc Hs Ht1 Ht2 HE HL H4 HP.
  destruct (set_prop_list_ok cat pd env formats pbt T Q s tid ps els p1 rest Hr Hi Hc Hs Ht1 Ht2 HE HL H4 HP) as (s' & n1 & n2 & r & l & c & rps & E1 & N1 & N2 & P & E2 & E3).
  exists s', n1, r, n2, l, c, rps. auto 10.
Qed.
(** example: the second of three elements is refused by the storage; the data arrives in
    three packets *)
Definition el_a : element := mk_el 7 0xDC44 4 (VInt 9).
Definition el_b : element := mk_el 8 0xDC44 4 (VInt 10).
Definition el_c : element := mk_el 7 0xDC44 4 (VInt 11).
Definition refuse_b : act -> option ans := fun a => match a with ACall (SSetProps 8 _ _) => Some (fail R_AccessDenied) | _ => None end.
Definition list_data : bytes := spec_header (12 + len (list_bytes [el_a; el_b; el_c])) 2 OP_SetObjectPropList 5 ++ list_bytes [el_a; el_b; el_c].
Example ex_C39 :
  undisturbed (demo refuse_b) /\ storage_is_ready (demo refuse_b) /\ idle in_session /\ command_ok OP_SetObjectPropList 5 [] /\ Forall element_ok [el_a; el_b; el_c] /\
  exists s', demo_run (demo refuse_b) (command OP_SetObjectPropList 5 [] :: data_phase [take 10 list_data; take 9 (drop 10 list_data); drop 19 list_data]) in_session = Ret (tt, s') /\
    responses (r_log s') = [resp_out R_AccessDenied 5 [1]] /\
    changed (r_log s') = [SSetProps 7 [(opd0 0xDC44, VInt 9)] false; SSetProps 8 [(opd0 0xDC44, VInt 10)] false].
Proof.
  assert (U : forall a x, refuse_b a = Some x -> x = fail R_AccessDenied).
  { intros a x H. destruct a as [c| | | | |]; try discriminate. destruct c; try discriminate. cbn in H. repeat match type of H with match ?y with _ => _ end = _ => destruct y; try discriminate end. injection H as <-. reflexivity. }
  split; [intros h a; unfold demo; destruct (refuse_b a) as [x|] eqn:E; [rewrite (U a x E); reflexivity|reflexivity]|].
  split; [intros h; reflexivity|]. split; [left; reflexivity|]. split; [repeat split; try constructor; discriminate|]. split; [repeat constructor; vm_compute; reflexivity|].
  eexists. split; [vm_compute; reflexivity|]. split; reflexivity.
Qed.
Print Assumptions C39_in_order.
Print Assumptions C39_reasons.
