(** Enumeration of handles: getObjectHandles. *)
From Verif Require Import Base AList Wire FS FSPath FSTree FSLogic FSAdd FSAdd2 FSDel FSEv.

Definition fmt_is (fmt : N) (i : item) : bool := match i_info i with Some o => oi_format o =? fmt | None => false end.
Definition hd_of (H : heap) (p : ptr) : N := match H p with Some i => i_handle i | None => 0 end.
Definition sel (H : heap) (f : item -> bool) (p : ptr) : bool := match H p with Some i => f i | None => false end.

Lemma list_children_exec fmt : forall l o fuel s, seg (s_heap s) o l -> (length l <= fuel)%nat ->
  list_children fuel o fmt s = Ret (map (hd_of (s_heap s)) (filter (sel (s_heap s) (fun i => (fmt =? 0) || (negb (fmt =? FMT_Undefined) && fmt_is fmt i))) l), s).
Proof.
  induction l as [|x l IH]; intros o fuel s Hs L; cbn [seg] in Hs.
  - subst o. destruct fuel; reflexivity.
  - destruct Hs as [-> (i & Hi & Hs)]. destruct fuel as [|fuel]; [cbn in L; lia|]. cbn [list_children]. unfold bind at 1, deref. rewrite Hi. unfold bind at 1.
    rewrite (IH (i_next i) fuel s Hs ltac:(cbn in L; lia)). unfold ret. cbn [filter]. set (F := fun i : item => _).
    assert (E : sel (s_heap s) F x = F i) by (unfold sel; rewrite Hi; reflexivity). rewrite E. change ((fmt =? 0) || _) with (F i).
    assert (E2 : hd_of (s_heap s) x = i_handle i) by (unfold hd_of; rewrite Hi; reflexivity).
    destruct (F i); [cbn [map]; rewrite E2|]; reflexivity.
Qed.
Lemma list_all_exec fmt s : forall l, (forall h v, In (h, v) l -> exists p i, v = Some p /\ s_heap s p = Some i) ->
  list_all l fmt s = Ret (map fst (filter (fun e => negb (fst e =? 0) && ((fmt =? 0) || match snd e with Some p => sel (s_heap s) (fmt_is fmt) p | None => false end)) l), s).
Proof.
  induction l as [|[h v] l IH]; intros H; [reflexivity|]. cbn [list_all filter fst snd]. assert (IH' := IH (fun h v X => H h v (or_intror X))).
  destruct (h =? 0); [cbn [negb andb]; exact IH'|]. destruct (fmt =? 0) eqn:E; cbn [negb andb orb].
  - unfold bind. rewrite IH'. reflexivity.
  - destruct (H h v (or_introl eq_refl)) as (p & i & -> & Hp). unfold bind at 1, deref_opt, deref. rewrite Hp. unfold bind at 1. rewrite IH'. unfold ret.
    assert (E2 : sel (s_heap s) (fmt_is fmt) p = fmt_is fmt i) by (unfold sel; rewrite Hp; reflexivity). rewrite E2.
    change (match i_info i with Some o => oi_format o =? fmt | None => false end) with (fmt_is fmt i). destruct (fmt_is fmt i); reflexivity.
Qed.

Section List.
Variables (C : conf) (SO : supply_ok C) (r : ptr).

Lemma NoDup_handles s ch l : WF C s ch r None -> NoDup l -> (forall x, In x l -> exists i, s_heap s x = Some i) -> NoDup (map (hd_of (s_heap s)) l).
Proof.
  intros W. induction l as [|x l IH]; intros ND HL; [constructor|]. apply NoDup_cons_iff in ND as [N1 N2]. cbn [map]. constructor; [|apply IH; [exact N2|]; intros y Hy; apply HL; right; exact Hy].
  intros X. apply in_map_iff in X as (y & E & Hy). destruct (HL x (or_introl eq_refl)) as (i & Hi). destruct (HL y (or_intror Hy)) as (j & Hj). unfold hd_of in E. rewrite Hi, Hj in E.
  assert (y = x) by (eapply (wf_uniq _ _ _ _ _ W); [exact Hj|exact Hi|discriminate|discriminate|exact E]). congruence.
Qed.
Lemma children_short s ch p i : WF C s ch r None -> s_heap s p = Some i -> (length (ch p) <= N.to_nat (s_fresh s))%nat.
Proof.
  intros W Hp. apply short_list; [apply (T_nd _ _ _ (W_T _ _ _ _ _ W) p i Hp)|]. intros x Hx. destruct (wf_child _ _ _ _ _ W p i x Hp Hx) as (j & A & _). eapply (W_bd _ _ _ _ _ W); exact A.
Qed.
(** the children of a folder *)
Lemma list_folder s ch p i fmt : WF C s ch r None -> s_heap s p = Some i ->
  exists l, list_children (N.to_nat (s_fresh s)) (i_first i) fmt s = Ret (l, s) /\ NoDup l /\
   forall h, In h l <-> exists c j, s_heap s c = Some j /\ i_parent j = Some p /\ i_handle j = h /\ (fmt = 0 \/ (fmt <> FMT_Undefined /\ fmt_is fmt j = true)).
Proof.
  intros W Hp. eexists. split; [apply list_children_exec; [apply (T_seg _ _ _ (W_T _ _ _ _ _ W) p i Hp)|eapply children_short; eassumption]|].
  assert (L : forall x, In x (ch p) -> exists j, s_heap s x = Some j) by (intros x Hx; destruct (wf_child _ _ _ _ _ W p i x Hp Hx) as (j & A & _); eauto).
  split.
  - eapply NoDup_handles; [exact W|apply NoDup_filter, (T_nd _ _ _ (W_T _ _ _ _ _ W) p i Hp)|]. intros x Hx. apply filter_In in Hx as [Hx _]. auto.
  - intros h. rewrite in_map_iff. split.
    + intros (c & E & Hc). apply filter_In in Hc as [Hc F]. destruct (wf_child _ _ _ _ _ W p i c Hp Hc) as (j & A & B & _). exists c, j. split; [exact A|]. split; [exact B|]. unfold hd_of in E. rewrite A in E. split; [exact E|].
      unfold sel in F. rewrite A in F. apply orb_true_iff in F as [F|F]; [left; now apply N.eqb_eq|right]. apply andb_true_iff in F as [F1 F2]. split; [|exact F2]. intros ->. discriminate.
    + intros (c & j & A & B & E & F). exists c. split; [unfold hd_of; rewrite A; exact E|]. apply filter_In. split.
      * assert (c <> r). { intros ->. destruct (W_root _ _ _ _ _ W) as (ri & Q1 & Q2 & _). rewrite A in Q1. injection Q1 as <-. congruence. }
        destruct (wf_parent _ _ _ _ _ W c j A H) as (q & k & o & P1 & P2 & P3 & _). congruence.
      * unfold sel. rewrite A. destruct F as [->|[F1 F2]]; [reflexivity|]. rewrite F2. apply N.eqb_neq in F1. rewrite F1. apply orb_true_r.
Qed.
Theorem get_object_handles_ok fmt assoc s ch : WF C s ch r None -> s_root s = Some r ->
  exists code l, get_object_handles fmt assoc s = Ret ((code, l), s) /\ NoDup l /\
  if assoc =? 0 then code = R_OK /\ forall h, In h l <-> exists p i, s_heap s p = Some i /\ p <> r /\ i_handle i = h /\ (fmt = 0 \/ fmt_is fmt i = true)
  else if assoc =? ALL then code = R_OK /\ forall h, In h l <-> exists p i, s_heap s p = Some i /\ i_parent i = Some r /\ i_handle i = h /\ (fmt = 0 \/ (fmt <> FMT_Undefined /\ fmt_is fmt i = true))
  else match aget assoc (s_handles s) with
       | Some (Some q) => exists j, s_heap s q = Some j /\
           if is_assoc j then code = R_OK /\ forall h, In h l <-> exists p i, s_heap s p = Some i /\ i_parent i = Some q /\ i_handle i = h /\ (fmt = 0 \/ (fmt <> FMT_Undefined /\ fmt_is fmt i = true))
           else code = R_InvalidParentObject /\ l = []
       | _ => code = R_InvalidParentObject /\ l = []
       end.
Proof.
  intros W R. unfold get_object_handles, bind at 1, get at 1. destruct (assoc =? 0) eqn:E0; [|destruct (assoc =? ALL) eqn:E1].
  - unfold bind at 1, get at 1. unfold bind at 1. rewrite list_all_exec.
    2:{ intros h v Hv. apply In_aget in Hv; [|apply (W_nd _ _ _ _ _ W)]. destruct (wf_handle_ptr _ _ _ _ _ W h v Hv) as (p & i & A & B & _). eauto. }
    unfold ret. eexists _, _. split; [reflexivity|]. split; [|split; [reflexivity|]].
    + assert (ND := W_nd _ _ _ _ _ W). unfold akeys in ND. revert ND. generalize (s_handles s). induction l as [|e l IH]; intros ND; [constructor|]. cbn [map] in ND. apply NoDup_cons_iff in ND as [N1 N2].
      cbn [filter]. destruct (_ && _); [|apply IH; exact N2]. cbn [map]. constructor; [|apply IH; exact N2]. intros X. apply N1. apply in_map_iff in X as (y & A & B). apply filter_In in B as [B _]. rewrite <- A. apply in_map. exact B.
    + intros h. rewrite in_map_iff. split.
      * intros ([h' v] & E & F). apply filter_In in F as [F1 F2]. cbn [fst snd] in *. subst h'. apply In_aget in F1; [|apply (W_nd _ _ _ _ _ W)]. destruct (wf_handle_ptr _ _ _ _ _ W h v F1) as (p & i & -> & B & D). exists p, i.
        apply andb_true_iff in F2 as [F2 F3]. split; [exact B|]. split; [|split; [exact D|]].
        -- intros ->. destruct (W_root _ _ _ _ _ W) as (ri & Q1 & _ & _ & Q2). apply negb_true_iff, N.eqb_neq in F2. congruence.
        -- unfold sel in F3. rewrite B in F3. apply orb_true_iff in F3 as [F3|F3]; [left; now apply N.eqb_eq|right; exact F3].
      * intros (p & i & A & B & D & F). exists (h, Some p). split; [reflexivity|]. apply filter_In. split.
        -- apply aget_In. rewrite <- D. apply (W_live _ _ _ _ _ W p i A). discriminate.
        -- cbn [fst snd]. unfold sel. rewrite A. apply andb_true_iff. split.
           ++ apply negb_true_iff, N.eqb_neq. intros X. apply B. eapply (wf_zero _ SO _ _ _ _ W); [exact A|congruence].
           ++ destruct F as [->|F]; [reflexivity|]. rewrite F. apply orb_true_r.
  - unfold bind at 1, get at 1. rewrite R. destruct (W_root _ _ _ _ _ W) as (ri & Q1 & _). unfold bind at 1, deref. rewrite Q1. unfold bind at 1.
    destruct (list_folder s ch r ri fmt W Q1) as (l & A & B & D). rewrite A. unfold ret. eexists _, _. split; [reflexivity|]. split; [exact B|]. split; [reflexivity|exact D].
  - unfold bind at 1, has_handle, get at 1, ahas. destruct (aget assoc (s_handles s)) as [v|] eqn:E; cbn [negb].
    2:{ unfold ret. eexists _, _. split; [reflexivity|]. split; [constructor|]. auto. }
    destruct (wf_handle_ptr _ _ _ _ _ W assoc v E) as (q & j & -> & Hq & _). unfold bind at 1, handle_value, get at 1. rewrite E. unfold bind at 1, deref. rewrite Hq. destruct (is_assoc j) eqn:Ea; cbn [negb].
    + unfold bind at 1. destruct (list_folder s ch q j fmt W Hq) as (l & A & B & D). rewrite A. unfold ret. eexists _, _. split; [reflexivity|]. split; [exact B|]. exists j. split; [reflexivity|]. rewrite Ea. auto.
    + unfold ret. eexists _, _. split; [reflexivity|]. split; [constructor|]. exists j. split; [reflexivity|]. rewrite Ea. auto.
Qed.
End List.
