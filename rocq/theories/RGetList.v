(** GetObjectPropList (C40). *)
From Verif Require Import Base Wire WireSpec WireProofs WireProofs2 Responder RSpec RLogic ROne2 RGate RExec RSession RSend RSend2 RColl RPropList.

Section GL.
Variable cat : N -> N.
Variable props_by_type : N -> N * list N.
Variable prop_desc : N -> N -> N * option objpropdesc.

(** ** Vocabulary *)
(** the category an object's properties are looked up in: that of its format, or the
    common one *)
Definition category_for (o : objinfo) : N := if cat (oi_format o) =? CAT_UNSUPPORTED then CAT_COMMON else cat (oi_format o).
(** the descriptions of the properties asked for: the one, or (0xFFFF) all the category
    supports but the sample data *)
Definition asked (category prop : N) (ds : list objpropdesc) : Prop :=
  if prop =? 0xFFFF
  then exists l all, props_by_type category = (R_OK, l) /\ Forall2 (fun p d => prop_desc category p = (R_OK, Some d)) l all /\
         ds = filter (fun d => negb (opd_code d =? PROP_Rep_Sample_Data)) all
  else exists d, prop_desc category prop = (R_OK, Some d) /\ ds = [d].
(** the elements for the values the storage reported; a property without a value has none *)
Definition elements_of (h : N) (ds : list objpropdesc) (vals : list (N * variant)) : list element :=
  flat_map (fun cv => match snd cv, find (fun d => opd_code d =? fst cv) ds with
                      | VNull, _ | _, None => []
                      | v, Some d => [mk_el h (fst cv) (opd_type d) v]
                      end) vals.
(** the conversation with the storage about a list of objects, oldest entry first, and the
    elements for them *)
Inductive listed (prop : N) : list N -> list (act * ans) -> list element -> Prop :=
| listed_nil : listed prop [] [] []
| listed_cons h hs r1 ds r2 l els : a_code r1 = R_OK -> asked (category_for (a_info r1)) prop ds -> a_code r2 = R_OK ->
    listed prop hs l els ->
    listed prop (h :: hs) ((ACall (SGetInfo h), r1) :: (ACall (SGetProps h ds), r2) :: l) (elements_of h ds (a_vals r2) ++ els).
Definition query (e : act * ans) : Prop := match fst e with ACall (SGetInfo _) | ACall (SGetProps _ _) | ACall (SGetHandles _ _ _) => True | _ => False end.

(** ** Proofs *)
Definition el_items (e : element) : list item := [u32_item (el_handle e); IVal DT_UINT16 (VInt (el_prop e)); IVal DT_UINT16 (VInt (el_type e)); IVal (el_type e) (el_value e)].
Lemma prop_items_eq h ds vals : prop_items h ds vals = (flat_map el_items (elements_of h ds vals), len (elements_of h ds vals)).
Proof.
  induction vals as [|[code v] vals IH]; [reflexivity|]. cbn [prop_items]. rewrite IH. unfold elements_of. cbn [flat_map fst snd]. fold (elements_of h ds vals). unfold desc_of.
  destruct v; try reflexivity; (destruct (find (fun d => opd_code d =? code) ds) as [d|]; [|reflexivity]); cbn [app flat_map el_items el_handle el_prop el_type el_value]; rewrite len_cons; f_equal; lia.
Qed.
Lemma query_quiet l : Forall query l -> responses l = [] /\ datas l = [] /\ changed l = [] /\ existsb changes (calls l) = false.
Proof.
  induction 1 as [|[a r] l Q F IH]; [repeat split|]. destruct IH as (I1 & I2 & I3 & I4). destruct a as [c| | | | |]; try destruct Q.
  change ((ACall c, r) :: l) with ([(ACall c, r)] ++ l). rewrite responses_app, datas_app, changed_app, calls_app, existsb_app, I1, I2, I3, I4. destruct c; try destruct Q; repeat split.
Qed.
Section Env.
Variable env : list (act * ans) -> act -> ans.
Variable formats : list N.
Hypothesis tables : tables_ok props_by_type prop_desc.
Notation step := (step env formats cat props_by_type prop_desc).
Notation run := (run env formats cat props_by_type prop_desc).

Lemma all_descs_eq category l s : (forall p, In p l -> exists d, snd (prop_desc category p) = Some d) ->
  exists c ds, all_descs prop_desc category l s = Ret ((c, ds), s) /\
    (c = R_OK -> exists all, Forall2 (fun p d => prop_desc category p = (R_OK, Some d)) l all /\ ds = filter (fun d => negb (opd_code d =? PROP_Rep_Sample_Data)) all).
Proof.
  induction l as [|p l IH]; intros H; cbn [all_descs].
  - exists R_OK, []. split; [reflexivity|]. intros _. exists []. split; [constructor|reflexivity].
  - destruct (H p (or_introl eq_refl)) as (d & Ed). destruct (prop_desc category p) as [c od] eqn:PD. cbn [snd] in Ed. subst od. unfold bind at 1, need, ret at 1.
    destruct (isok c) eqn:OK; cbn [negb].
    2:{ exists c, []. split; [reflexivity|]. intros ->. discriminate. }
    apply N.eqb_eq in OK. subst c. destruct IH as (c2 & ds & E & P); [intros x Hx; apply H; right; exact Hx|]. unfold bind at 1. rewrite E. eexists c2, _. split; [reflexivity|].
    intros ->. destruct (P eq_refl) as (all & F & ->). exists (d :: all). split; [constructor; assumption|]. cbn [filter]. destruct (opd_code d =? PROP_Rep_Sample_Data); reflexivity.
Qed.
Lemma loop_eq prop hs : forall s, exists conv c items n,
  prop_list_loop env cat props_by_type prop_desc hs prop s = Ret ((c, (items, n)), set_log (rev conv ++ r_log s) s) /\ Forall query conv /\
  (c = R_OK -> exists els, listed prop hs conv els /\ items = flat_map el_items els /\ n = len els).
Proof.
  induction hs as [|h hs IH]; intros s.
  - exists [], R_OK, [], 0. split; [destruct s; reflexivity|]. split; [constructor|]. intros _. exists []. split; [constructor|]. split; reflexivity.
  - cbn [prop_list_loop]. rewrite call_eq. set (r1 := env _ _). set (s1 := add_log _ s). destruct (isok (a_code r1)) eqn:OK1; cbn [negb].
    2:{ exists [(ACall (SGetInfo h), r1)], (a_code r1), [], 0. split; [reflexivity|]. split; [repeat constructor|]. intros X. unfold isok in OK1. rewrite X in OK1. discriminate. }
    cbv zeta. fold (category_for (a_info r1)). set (k := category_for (a_info r1)).
    assert (D : exists c ds, (if prop =? 0xFFFF then let (c, l) := props_by_type k in if isok c then all_descs prop_desc k l else ret (c, [])
                 else let (c, d) := prop_desc k prop in ret (c, match d with Some d => [d] | None => [] end)) s1 = Ret ((c, ds), s1) /\ (c = R_OK -> asked k prop ds)).
    { unfold asked. destruct (prop =? 0xFFFF).
      - destruct (props_by_type k) as [c l] eqn:PT. destruct (isok c) eqn:OK; [|exists c, []; split; [reflexivity|intros ->; discriminate]]. apply N.eqb_eq in OK. subst c.
        destruct (all_descs_eq k l s1) as (c & ds & E & P); [intros p Hp; apply (proj2 tables); rewrite PT; [reflexivity|exact Hp]|]. exists c, ds. split; [exact E|]. intros X. destruct (P X) as (all & F & G). exists l, all. auto.
      - destruct (prop_desc k prop) as [c d] eqn:PD. eexists c, _. split; [reflexivity|]. intros ->. destruct (proj1 tables k prop) as (d0 & E0); [rewrite PD; reflexivity|]. rewrite PD in E0. cbn [snd] in E0. subst d. exists d0. split; reflexivity. }
    destruct D as (c & ds & E & P). unfold bind at 1. rewrite E. clear E. destruct (isok c) eqn:OK2; cbn [negb].
    2:{ exists [(ACall (SGetInfo h), r1)], c, [], 0. split; [reflexivity|]. split; [repeat constructor|]. intros ->. discriminate. }
    apply N.eqb_eq in OK2. subst c. specialize (P eq_refl). rewrite call_eq. set (r2 := env _ _). set (s2 := add_log _ s1). destruct (isok (a_code r2)) eqn:OK3; cbn [negb].
    2:{ exists [(ACall (SGetInfo h), r1); (ACall (SGetProps h ds), r2)], (a_code r2), [], 0. split; [reflexivity|]. split; [repeat constructor|]. intros X. unfold isok in OK3. rewrite X in OK3. discriminate. }
    rewrite prop_items_eq. destruct (IH s2) as (conv & c & items & n & E & Q & G). unfold bind at 1. rewrite E.
    exists ((ACall (SGetInfo h), r1) :: (ACall (SGetProps h ds), r2) :: conv), c, (flat_map el_items (elements_of h ds (a_vals r2)) ++ items), (len (elements_of h ds (a_vals r2)) + n).
    split; [cbn [rev]; rewrite <- !app_assoc; reflexivity|]. split; [constructor; [exact Logic.I|constructor; [exact Logic.I|exact Q]]|]. intros ->. destruct (G eq_refl) as (els & L & -> & ->).
    exists (elements_of h ds (a_vals r2) ++ els). split; [constructor; [apply N.eqb_eq; exact OK1|exact P|apply N.eqb_eq; exact OK3|exact L]|]. split; [rewrite flat_map_app; reflexivity|rewrite len_app; reflexivity].
Qed.
Lemma items_bytes els : concat (map spec_item (flat_map el_items els)) = concat (map element_bytes els).
Proof. induction els as [|e els IH]; [reflexivity|]. cbn [flat_map]. rewrite map_app, concat_app, IH. cbn [map concat]. f_equal. unfold el_items, element_bytes. cbn [map concat spec_item]. rewrite app_nil_r. reflexivity. Qed.
(** which objects *)
Definition selected (h fmt depth : N) (talk : list (act * ans)) (hs : list N) : Prop :=
  if depth =? 0 then hs = (if h =? 0 then [] else [h]) /\ talk = []
  else exists r, a_code r = R_OK /\ hs = a_nums r /\
    talk = [(ACall (SGetHandles 0xFFFFFFFF fmt (if h =? 0 then 0xFFFFFFFF else if h =? 0xFFFFFFFF then 0 else h)), r)].
Definition deep_ok (depth : N) : Prop := depth = 0 \/ depth = 1 \/ depth = 0xFFFFFFFF.

Hypothesis quiet : undisturbed env.
Definition idle_calls (n : list (act * ans)) : Prop := forall x, In x (calls n) -> harmless x = true.
Lemma noise_idle n : noise n -> idle_calls n.
Proof. intros H. apply noise_calls in H. rewrite forallb_forall in H. exact H. Qed.
Lemma data_then_eq q pl c s : active s -> r_req s = Some q ->
  exists n, data_then env q pl c s = Ret (tt, set_log (n ++ r_log s) (after_response s)) /\
    datas n = [inl (data_out q pl)] /\ responses n = [resp_out c (q_tid q) []] /\ changed n = [] /\ idle_calls n.
Proof.
  intros A Q. unfold data_then. destruct (send_data_eq env quiet (data_out q pl) true s A eq_refl) as (n1 & a1 & N1 & _ & E1). unfold bind at 1. rewrite E1. cbn [when]. set (s3 := set_log _ s).
  destruct (response_eq env quiet c s3 q A Q) as (n2 & a2 & N2 & E2). rewrite E2.
  exists (n2 ++ [(ASend (resp_out c (q_tid q) []) true, a2)] ++ n1 ++ [(ASend (data_out q pl) true, a1)]).
  split; [unfold s3; cbn [r_log set_log]; rewrite <- !app_assoc; reflexivity|].
  rewrite !datas_app, !responses_app, !changed_app, (noise_datas n1 N1), (noise_responses n1 N1), (noise_changed n1 N1), (noise_datas n2 N2), (noise_responses n2 N2), (noise_changed n2 N2).
  split; [reflexivity|]. split; [reflexivity|]. split; [reflexivity|]. intros x Hx. rewrite !calls_app in Hx. cbn [calls app] in Hx. apply in_app_or in Hx as [Hx|Hx]; [exact (noise_idle n2 N2 x Hx)|].
  apply in_app_or in Hx as [Hx|Hx]; [exact (noise_idle n1 N1 x Hx)|destruct Hx].
Qed.
Lemma just_respond_eq q c s : active s -> r_req s = Some q ->
  exists n, send_response env c s = Ret (tt, set_log (n ++ r_log s) (after_response s)) /\
    datas n = [] /\ responses n = [resp_out c (q_tid q) []] /\ changed n = [].
Proof.
  intros A Q. destruct (response_eq env quiet c s q A Q) as (n2 & a2 & N2 & E2). rewrite E2. exists (n2 ++ [(ASend (resp_out c (q_tid q) []) true, a2)]).
  split; [cbn [r_log set_log]; rewrite <- !app_assoc; reflexivity|]. rewrite !datas_app, !responses_app, !changed_app, (noise_datas n2 N2), (noise_responses n2 N2), (noise_changed n2 N2). repeat split.
Qed.
Theorem get_prop_list_ok s tid h fmt prop group depth : storage_is_ready env -> idle s -> command_ok OP_GetObjectPropList tid [h; fmt; prop; group; depth] ->
  r_session s <> 0 -> tid <> 0 -> tid <> 0xFFFFFFFF -> fmt < 2^16 -> prop < 2^16 ->
  exists s' l c, run [command OP_GetObjectPropList tid [h; fmt; prop; group; depth]] s = Ret (tt, s') /\ r_log s' = l ++ r_log s /\
    r_st s' = IDLE /\ changed l = [] /\ responses l = [resp_out c tid []] /\
    (c = R_OK -> exists before after talk conv hs els items,
        noise before /\ idle_calls after /\ l = after ++ rev (talk ++ conv) ++ before /\ selected h fmt depth talk hs /\ listed prop hs conv els /\
        datas l = [inl (mk_out TYPE_DATA OP_GetObjectPropList tid (PItems items))] /\
        (len els < 2^32 -> concat (map spec_item items) = list_bytes els)).
Proof.
  intros Hr Hi Hc Hs Ht1 Ht2 Hf Hp. rewrite run1.
  destruct (command_eq env formats cat props_by_type prop_desc s _ tid _ Hi Hc (fun _ => Hr)) as (l & Hl & ->).
  change (lookup_op OP_GetObjectPropList _) with (Some (h_getObjectPropList env cat props_by_type prop_desc)). cbv iota. unfold h_getObjectPropList.
  set (q := {| q_code := OP_GetObjectPropList; q_tid := tid; q_par := pars [h; fmt; prop; group; depth] |}). set (s1 := set_log _ _).
  change (par q 0) with h. change (par q 1) with fmt. change (par q 2) with prop. change (par q 4) with depth.
  replace (u16 fmt) with fmt by (unfold u16; symmetry; apply N.mod_small; exact Hf). replace (u16 prop) with prop by (unfold u16; symmetry; apply N.mod_small; exact Hp). cbv zeta.
  set (fx := fun c => if c =? R_InvalidObjectFormatCode then R_InvalidCodeFormat else c).
  unfold check. unfold bind at 1, bind at 1, get, ret at 1. change (r_session s1) with (r_session s). change (q_tid q) with tid.
  assert (PC : pre_check (r_session s) tid = R_OK) by (unfold pre_check; destruct (r_session s =? 0) eqn:E1; [lia|]; destruct (tid =? 0) eqn:E2; [lia|]; destruct (tid =? 0xFFFFFFFF) eqn:E3; [lia|]; reflexivity).
  rewrite PC. change (isok R_OK) with true. cbn [negb].
  assert (A1 : active s1) by apply started_active. assert (L1 : r_log s1 = l ++ r_log s) by reflexivity.
  pose proof (noise_datas l Hl) as D0. pose proof (noise_responses l Hl) as D1. pose proof (noise_changed l Hl) as D2.
  (* a response without data *)
  assert (RESP : forall c conv, c <> R_OK -> Forall query conv ->
    exists s' l0 c0, send_response env c (set_log (rev conv ++ r_log s1) s1) = Ret (tt, s') /\ r_log s' = l0 ++ r_log s /\ r_st s' = IDLE /\ changed l0 = [] /\ responses l0 = [resp_out c0 tid []] /\
      (c0 = R_OK -> exists before after talk conv hs els items, noise before /\ idle_calls after /\ l0 = after ++ rev (talk ++ conv) ++ before /\ selected h fmt depth talk hs /\ listed prop hs conv els /\
        datas l0 = [inl (mk_out TYPE_DATA OP_GetObjectPropList tid (PItems items))] /\ (len els < 2^32 -> concat (map spec_item items) = list_bytes els))).
  { intros c conv Hc0 Q. destruct (just_respond_eq q c (set_log (rev conv ++ r_log s1) s1) A1 eq_refl) as (n & E & B1 & B2 & B3). rewrite E.
    apply Forall_rev in Q. destruct (query_quiet _ Q) as (Q1 & Q2 & Q3 & _).
    eexists _, (n ++ rev conv ++ l), c. split; [reflexivity|]. split; [cbn [r_log set_log]; rewrite L1, <- !app_assoc; reflexivity|]. split; [reflexivity|].
    rewrite !changed_app, !responses_app, B2, B3, Q1, Q3, D1, D2. split; [reflexivity|]. split; [reflexivity|]. intros X. contradiction. }
  (* a response with data *)
  assert (DATA : forall c items conv, Forall query conv ->
    exists s' l0, data_then env q (PItems items) c (set_log (rev conv ++ r_log s1) s1) = Ret (tt, s') /\ r_log s' = l0 ++ r_log s /\ r_st s' = IDLE /\ changed l0 = [] /\ responses l0 = [resp_out c tid []] /\
      exists after, idle_calls after /\ l0 = after ++ rev conv ++ l /\ datas l0 = [inl (mk_out TYPE_DATA OP_GetObjectPropList tid (PItems items))]).
  { intros c items conv Q. destruct (data_then_eq q (PItems items) c (set_log (rev conv ++ r_log s1) s1) A1 eq_refl) as (n & E & B1 & B2 & B3 & B4). rewrite E.
    apply Forall_rev in Q. destruct (query_quiet _ Q) as (Q1 & Q2 & Q3 & _).
    eexists _, (n ++ rev conv ++ l). split; [reflexivity|]. split; [cbn [r_log set_log]; rewrite L1, <- !app_assoc; reflexivity|]. split; [reflexivity|].
    rewrite !changed_app, !responses_app, !datas_app, B1, B2, B3, Q1, Q2, Q3, D0, D1, D2. split; [reflexivity|]. split; [reflexivity|]. exists n. auto. }
  assert (SS : set_log (rev [] ++ r_log s1) s1 = s1) by (apply set_log_same).
  destruct ((h =? 0) && (depth =? 0)) eqn:Z.
  { destruct (DATA R_OK [u32_item 0] [] ltac:(constructor)) as (s' & l0 & E & E1 & E2 & E3 & E4 & after & E5 & E6 & E7). rewrite SS in E. rewrite E. apply andb_prop in Z as [Z1 Z2].
    exists s', l0, R_OK. split; [reflexivity|]. split; [exact E1|]. split; [exact E2|]. split; [exact E3|]. split; [exact E4|]. intros _. exists l, after, [], [], [], [], [u32_item 0].
    split; [exact Hl|]. split; [exact E5|]. split; [exact E6|]. split; [unfold selected; rewrite Z2, Z1; split; reflexivity|]. split; [constructor|]. split; [exact E7|]. reflexivity. }
  destruct ((1 <? depth) && (depth <? 0xFFFFFFFF)) eqn:Y; [pose proof (RESP R_By_Depth_Unsupported [] ltac:(discriminate) ltac:(constructor)) as RR; rewrite SS in RR; exact RR|].
  destruct (prop =? 0) eqn:X; [pose proof (RESP R_By_Group_Unsupported [] ltac:(discriminate) ltac:(constructor)) as RR; rewrite SS in RR; exact RR|].
  destruct (negb (fmt =? 0) && (cat fmt =? CAT_UNSUPPORTED)) eqn:V; [pose proof (RESP R_InvalidCodeFormat [] ltac:(discriminate) ltac:(constructor)) as RR; rewrite SS in RR; exact RR|].
  assert (FX : forall c, c <> R_OK -> fx c <> R_OK) by (intros c Hc0; unfold fx; destruct (c =? _); [discriminate|exact Hc0]).
  (* the objects *)
  assert (SEL : exists c1 hs talk, (if depth =? 0 then ret (R_OK, [h]) else (r <- call env (SGetHandles ALL fmt (if h =? 0 then ALL else if h =? ALL then 0 else h)) ;; ret (a_code r, a_nums r))) s1 =
            Ret ((c1, hs), set_log (rev talk ++ r_log s1) s1) /\ Forall query talk /\ (c1 = R_OK -> selected h fmt depth talk hs)).
  { unfold selected. destruct (depth =? 0) eqn:D.
    - exists R_OK, [h], []. split; [rewrite SS; reflexivity|]. split; [constructor|]. intros _. rewrite andb_true_r in Z. rewrite Z. split; reflexivity.
    - rewrite call_eq. set (r := env _ _). exists (a_code r), (a_nums r), [(ACall (SGetHandles ALL fmt (if h =? 0 then ALL else if h =? ALL then 0 else h)), r)].
      split; [reflexivity|]. split; [repeat constructor|]. intros E. exists r. auto. }
  destruct SEL as (c1 & hs & talk & E & Q & SEL). unfold bind at 1. rewrite E. clear E. destruct (isok c1) eqn:OK1; cbn [negb].
  2:{ destruct (DATA (fx c1) [u32_item 0] talk Q) as (s' & l0 & E & E1 & E2 & E3 & E4 & _). unfold fx in E at 1. cbv beta in E. rewrite E. exists s', l0, (fx c1). do 5 (split; [first [reflexivity|assumption]|]). intros W. exfalso. revert W. apply FX. intros ->. discriminate. }
  apply N.eqb_eq in OK1. subst c1. specialize (SEL eq_refl).
  destruct (loop_eq prop hs (set_log (rev talk ++ r_log s1) s1)) as (conv & c2 & items & n & E & Q2 & G). unfold bind at 1. rewrite E. clear E.
  change (set_log (rev conv ++ r_log (set_log (rev talk ++ r_log s1) s1)) (set_log (rev talk ++ r_log s1) s1)) with (set_log (rev conv ++ rev talk ++ r_log s1) s1).
  rewrite app_assoc, <- rev_app_distr. assert (QQ : Forall query (talk ++ conv)) by (apply Forall_app; split; assumption).
  destruct (isok c2) eqn:OK2.
  - apply N.eqb_eq in OK2. subst c2. destruct (G eq_refl) as (els & LS & -> & ->).
    destruct (DATA R_OK (u32_item (u32 (len els)) :: flat_map el_items els) (talk ++ conv) QQ) as (s' & l0 & E & E1 & E2 & E3 & E4 & after & E5 & E6 & E7). rewrite E.
    exists s', l0, R_OK. split; [reflexivity|]. split; [exact E1|]. split; [exact E2|]. split; [exact E3|]. split; [exact E4|]. intros _.
    exists l, after, talk, conv, hs, els, (u32_item (u32 (len els)) :: flat_map el_items els). split; [exact Hl|]. split; [exact E5|]. split; [exact E6|]. split; [exact SEL|]. split; [exact LS|]. split; [exact E7|].
    intros Hn. cbn [map concat]. rewrite items_bytes. unfold list_bytes. f_equal. replace (u32 (len els)) with (len els) by (unfold u32; symmetry; apply N.mod_small; exact Hn). reflexivity.
  - apply (RESP (fx c2) (talk ++ conv)); [apply FX; intros ->; discriminate|exact QQ].
Qed.
End Env.
End GL.
