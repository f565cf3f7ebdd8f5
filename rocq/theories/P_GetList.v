(** C40: GetObjectPropList. *)
From Verif Require Import Base Wire WireSpec WireProofs WireProofs2 Responder RSpec RLogic ROne2 RGate RExec RSession RSend RSend2 RColl RPropList RGetList RDemo.

(** ** Specification *)
(** The dataset is [list_bytes els] (RPropList): the number of elements, then for each the
    object, the property, its data type and the value.  [selected] and [listed] (RGetList)
    say which objects were taken and what was asked of the storage about each. *)
(** The storage gave a value for every property asked for (properties are asked for once). *)
Definition all_reported (ds : list objpropdesc) (r : ans) : Prop :=
  NoDup (map opd_code ds) /\ map fst (a_vals r) = map opd_code ds /\ Forall (fun cv => snd cv <> VNull) (a_vals r).
(** object, property and type of every property asked for, in the order asked *)
Definition all_asked (talk : list (act * ans)) : list (N * N * N) :=
  flat_map (fun e => match fst e with ACall (SGetProps h ds) => map (fun d => (h, opd_code d, opd_type d)) ds | _ => [] end) talk.
Definition objects_asked (talk : list (act * ans)) : list N :=
  flat_map (fun e => match fst e with ACall (SGetProps h ds) => [h] | _ => [] end) talk.
Definition subject (e : element) : N * N * N := (el_handle e, el_prop e, el_type e).

Lemma find_desc ds : NoDup (map opd_code ds) -> forall d, In d ds -> find (fun x => opd_code x =? opd_code d) ds = Some d.
Proof.
  induction ds as [|x ds IH]; intros Hn d Hd; [destruct Hd|]. cbn [map find] in *. inversion Hn as [|a b N1 N2]; subst. destruct Hd as [->|Hd]; [rewrite N.eqb_refl; reflexivity|].
  destruct (opd_code x =? opd_code d) eqn:E; [|apply IH; assumption]. apply N.eqb_eq in E. exfalso. apply N1. rewrite E. apply in_map. exact Hd.
Qed.
Lemma elements_all h ds r : all_reported ds r -> map subject (elements_of h ds (a_vals r)) = map (fun d => (h, opd_code d, opd_type d)) ds.
Proof.
  intros (Hn & Hm & Hv). unfold elements_of.
  assert (G : forall sub vals, (forall d, In d sub -> In d ds) -> map fst vals = map opd_code sub -> Forall (fun cv => snd cv <> VNull) vals ->
    map subject (flat_map (fun cv => match snd cv, find (fun d => opd_code d =? fst cv) ds with VNull, _ | _, None => [] | v, Some d => [mk_el h (fst cv) (opd_type d) v] end) vals) = map (fun d => (h, opd_code d, opd_type d)) sub).
  { induction sub as [|d sub IH]; intros vals Hs Hf Hq; destruct vals as [|[c v] vals]; try discriminate; [reflexivity|]. cbn [map fst] in Hf. injection Hf as Hc Hf. subst c.
    inversion Hq as [|a b Q1 Q2]; subst. cbn [flat_map fst snd] in *. rewrite (find_desc ds Hn d (Hs d (or_introl eq_refl))). destruct v; try (exfalso; apply Q1; reflexivity); cbn [app map]; (f_equal; apply IH; [intros x Hx; apply Hs; right; exact Hx|exact Hf|exact Q2]). }
  apply G; auto.
Qed.
Lemma listed_all cat pbt pd prop hs conv els : listed cat pbt pd prop hs conv els ->
  objects_asked conv = hs /\
  ((forall h ds r, In (ACall (SGetProps h ds), r) conv -> all_reported ds r) -> map subject els = all_asked conv).
Proof.
  induction 1 as [|h hs r1 ds r2 l els H1 H2 H3 H4 [IH1 IH2]]; [split; reflexivity|]. split; [unfold objects_asked in *; cbn [flat_map fst app]; rewrite IH1; reflexivity|].
  intros R. rewrite map_app. unfold all_asked. cbn [flat_map fst app]. rewrite (elements_all h ds r2) by (apply R with (h := h); right; left; reflexivity). f_equal. apply IH2. intros h' ds' r' Hin. apply (R h'). right. right. exact Hin.
Qed.
(** C40 *)
Theorem C40_listed_partial : forall env formats cat props_by_type prop_desc s tid h fmt prop group depth,
  (* missing: depth 0xFFFFFFFF, see C40_deep_refuted *)
  undisturbed env -> tables_ok props_by_type prop_desc -> storage_is_ready env -> idle s -> command_ok OP_GetObjectPropList tid [h; fmt; prop; group; depth] ->
  r_session s <> 0 -> tid <> 0 -> tid <> 0xFFFFFFFF -> fmt < 2^16 -> prop < 2^16 ->
  exists s' l c, run env formats cat props_by_type prop_desc [command OP_GetObjectPropList tid [h; fmt; prop; group; depth]] s = Ret (tt, s') /\
    r_log s' = l ++ r_log s /\ r_st s' = IDLE /\ changed l = [] /\ responses l = [resp_out c tid []] /\
    (c = R_OK -> exists before after talk conv hs els items,
        noise before /\ idle_calls after /\ l = after ++ rev (talk ++ conv) ++ before /\
        selected h fmt depth talk hs /\ listed cat props_by_type prop_desc prop hs conv els /\
        datas l = [inl (mk_out TYPE_DATA OP_GetObjectPropList tid (PItems items))] /\
        (len els < 2^32 -> concat (map spec_item items) = list_bytes els) /\
        objects_asked conv = hs /\
        ((forall x ds r, In (ACall (SGetProps x ds), r) l -> all_reported ds r) -> map subject els = all_asked conv)).
Proof.
  intros env formats cat pbt pd s tid h fmt prop group depth Q T Hr Hi Hc Hs Ht1 Ht2 Hf Hp.
  destruct (get_prop_list_ok cat pbt pd env formats T Q s tid h fmt prop group depth Hr Hi Hc Hs Ht1 Ht2 Hf Hp) as (s' & l & c & E1 & E2 & E3 & E4 & E5 & G).
  exists s', l, c. do 5 (split; [assumption|]). intros X. destruct (G X) as (before & after & talk & conv & hs & els & items & A1 & A2 & A3 & A4 & A5 & A6 & A7).
  exists before, after, talk, conv, hs, els, items. do 7 (split; [assumption|]). destruct (listed_all _ _ _ _ _ _ _ A5) as [B1 B2]. split; [exact B1|]. intros R. apply B2. intros x ds r Hin. apply (R x). rewrite A3. apply in_or_app. right. apply in_or_app. left. rewrite <- in_rev. apply in_or_app. right. exact Hin.
Qed.
(** Example: one object in folder 7, two properties. *)
Definition tree_ans (a : act) : option ans :=
  match a with
  | ACall (SGetHandles _ _ p) => Some (mk_ans R_OK (if p =? 7 then [8] else if p =? 8 then [9] else []) [] info0 [] None [] true [])
  | ACall (SGetProps h ds) => Some (mk_ans R_OK [] [] info0 (map (fun d => (opd_code d, VInt (h + 1))) ds) None [] true [])
  | _ => None
  end.
Definition tree_env := demo tree_ans.
Lemma tree_undisturbed : undisturbed tree_env.
Proof. intros h a. destruct a as [c| | | | |]; try reflexivity. destruct c; reflexivity. Qed.
Example ex_C40 :
  undisturbed tree_env /\ tables_ok props0 desc0 /\ storage_is_ready tree_env /\ idle in_session /\ command_ok OP_GetObjectPropList 5 [7; 0; 0xFFFF; 0; 1] /\
  exists s', demo_run tree_env [command OP_GetObjectPropList 5 [7; 0; 0xFFFF; 0; 1]] in_session = Ret (tt, s') /\
    responses (r_log s') = [resp_out R_OK 5 []] /\
    exists items, datas (r_log s') = [inl (mk_out TYPE_DATA OP_GetObjectPropList 5 (PItems items))] /\
      concat (map spec_item items) = list_bytes [mk_el 8 0xDC01 4 (VInt 9); mk_el 8 PROP_File_Name 4 (VInt 9)] /\
      len (list_bytes [mk_el 8 0xDC01 4 (VInt 9); mk_el 8 PROP_File_Name 4 (VInt 9)]) = 24 /\
      (forall x ds r, In (ACall (SGetProps x ds), r) (r_log s') -> all_reported ds r).
Proof.
  split; [exact tree_undisturbed|]. split; [exact tables_ok_demo|]. split; [intros h; reflexivity|]. split; [left; reflexivity|]. split; [repeat split; [discriminate|repeat constructor]|].
  eexists. split; [vm_compute; reflexivity|]. split; [reflexivity|]. eexists. split; [reflexivity|]. split; [reflexivity|]. split; [reflexivity|].
  intros x ds r H. cbn [r_log] in H. repeat (destruct H as [H|H]; [try discriminate; injection H as <- <- <-|]); try destruct H.
  split; [|split; [reflexivity|repeat constructor; discriminate]]. cbn. repeat constructor; cbn; intuition discriminate.
Qed.
(** Depth 0xFFFFFFFF (everything below the object) is served like depth 1: in a storage
    where 9 is in 8 and 8 is in 7, the list for 7 has nothing about 9. *)
Theorem C40_deep_refuted : exists env s', undisturbed env /\ storage_is_ready env /\
  (forall l f, a_nums (env l (ACall (SGetHandles 0xFFFFFFFF f 7))) = [8] /\ a_nums (env l (ACall (SGetHandles 0xFFFFFFFF f 8))) = [9]) /\
  demo_run env [command OP_GetObjectPropList 5 [7; 0; 0xDC01; 0; 0xFFFFFFFF]] in_session = Ret (tt, s') /\
  responses (r_log s') = [resp_out R_OK 5 []] /\
  exists items, datas (r_log s') = [inl (mk_out TYPE_DATA OP_GetObjectPropList 5 (PItems items))] /\
    concat (map spec_item items) = list_bytes [mk_el 8 0xDC01 4 (VInt 9)].
Proof.
  exists tree_env. eexists. split; [exact tree_undisturbed|]. split; [intros h; reflexivity|]. split; [intros l f; split; reflexivity|]. split; [vm_compute; reflexivity|]. split; [reflexivity|]. eexists. split; reflexivity.
Qed.
(** With depth 0 the format asked for is not looked at. *)
Theorem C40_format_refuted : exists env s', undisturbed env /\ storage_is_ready env /\
  (forall l h, oi_format (a_info (env l (ACall (SGetInfo h)))) = 0x3000) /\
  demo_run env [command OP_GetObjectPropList 5 [7; 0x3801; 0xDC01; 0; 0]] in_session = Ret (tt, s') /\
  responses (r_log s') = [resp_out R_OK 5 []] /\
  exists items, datas (r_log s') = [inl (mk_out TYPE_DATA OP_GetObjectPropList 5 (PItems items))] /\
    concat (map spec_item items) = list_bytes [mk_el 7 0xDC01 4 (VInt 8)].
Proof.
  exists tree_env. eexists. split; [exact tree_undisturbed|]. split; [intros h; reflexivity|]. split; [intros l h; reflexivity|]. split; [vm_compute; reflexivity|]. split; [reflexivity|]. eexists. split; reflexivity.
Qed.
Print Assumptions C40_listed_partial.
Print Assumptions C40_deep_refuted.
Print Assumptions C40_format_refuted.
