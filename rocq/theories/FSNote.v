(** Pairing of the file system's move notifications (C59). *)
From Verif Require Import Base AList Wire FS FSPath FSTree FSLogic FSAdd FSAdd2 FSDel FSEv FSData FSFrame FSSpec FSReach FSKeep.

(** ** Specification: what a sequence of operations and notifications must lead to *)
(** actions name the operations (by position) they stem from *)
Inductive action := DoMove (i j : nat) | DoDelete (i : nat) | DoCreate (i : nat) | DoModify (i : nat) | DoOther (i : nat).
Definition about (k : nat) (a : action) : bool :=
  match a with DoMove i j => Nat.eqb i k || Nat.eqb j k | DoDelete i | DoCreate i | DoModify i | DoOther i => Nat.eqb i k end.
(** a notification about a name, at position [k] *)
Definition note (ops : list op) (k : nat) : option (inote * N * N * path) :=
  match nth_error ops k with
  | Some (OEvent _ (Some e)) => match ev_name e with Some n => Some (ev_kind e, ev_wd e, ev_cookie e, n) | None => None end
  | _ => None
  end.
Definition the_op (ops : list op) (k : nat) : op := nth k ops (OEvent 0 None).
Definition op_fuel (o : op) : nat := match o with OEvent f _ => f | _ => O end.
(** [at j]: the event that triggers the action, whose fuel is used *)
Definition act (C : conf) (ops : list op) (fuel : nat) (a : action) : M unit :=
  match a with
  | DoMove i j => match note ops i, note ops j with Some (_, w1, _, n1), Some (_, w2, _, n2) => handle_fs_move C fuel w1 n1 w2 n2 | _, _ => crash end
  | DoDelete i => match note ops i with Some (_, w, _, n) => handle_fs_delete C fuel w n | None => crash end
  | DoCreate i => match note ops i with Some (_, w, _, n) => handle_fs_create C fuel w n | None => crash end
  | DoModify i => match note ops i with Some (_, w, _, n) => handle_fs_modify C w n | None => crash end
  | DoOther i => exec C (the_op ops i)
  end.
(** the actions are executed in this order, and nothing else happens to the storage,
    except that the pending notification is remembered or forgotten *)
Inductive performs (C : conf) (ops : list op) : list action -> fs -> fs -> Prop :=
| perf_nil s : performs C ops [] s s
| perf_cache c l s s' : performs C ops l (set_cache c s) s' -> performs C ops l s s'
| perf_act fuel a l s s1 s' : act C ops fuel a s = Ret (tt, s1) -> performs C ops l s1 s' -> performs C ops (a :: l) s s'.
Fixpoint exec_all (C : conf) (ops : list op) : M unit :=
  match ops with [] => ret tt | o :: l => exec C o ;;; exec_all C l end.
(** the kernel gives the two halves of a move a cookie, and no other notification *)
Definition cookies_ok (ops : list op) : Prop := forall k kd wd ck n, note ops k = Some (kd, wd, ck, n) ->
  (kd = NMovedFrom -> ck <> 0) /\ (kd <> NMovedFrom -> kd <> NMovedTo -> ck = 0).
(** the first notification about a name (or the flush) after position [i] *)
Definition flushes (ops : list op) (k : nat) : Prop := note ops k <> None \/ exists f, nth_error ops k = Some (OEvent f None).
Definition next_note (ops : list op) (i j : nat) : Prop := (i < j)%nat /\ flushes ops j /\ forall k, (i < k < j)%nat -> ~ flushes ops k.

(** ** Proof *)
Definition flushb (o : op) : bool := match o with OEvent _ (Some e) => match ev_name e with Some _ => true | None => false end | OEvent _ None => true | _ => false end.
Definition cookie_of (o : op) : N := match o with OEvent _ (Some e) => ev_cookie e | _ => 0 end.
(** the actions of operation [o] at position [k], with the pending notification of position [pend] *)
Definition plan1 (ck : nat -> N) (k : nat) (pend : option nat) (o : op) : list action * option nat :=
  match o with
  | OEvent _ None => (match pend with Some i => [DoDelete i] | None => [] end, None)
  | OEvent _ (Some e) =>
    match ev_name e with
    | None => ([], pend)
    | Some _ =>
      match ev_kind e with
      | NMovedTo => match pend with
                    | Some i => if ck i =? ev_cookie e then ([DoMove i k], None) else ([DoDelete i; DoCreate k], None)
                    | None => ([DoCreate k], None)
                    end
      | kd => (match pend with Some i => [DoDelete i] | None => [] end ++ match kd with NCreate => [DoCreate k] | NDelete => [DoDelete k] | NCloseWrite => [DoModify k] | _ => [] end,
               match kd with NMovedFrom => Some k | _ => None end)
      end
    end
  | _ => ([DoOther k], pend)
  end.
Fixpoint plan (ck : nat -> N) (k : nat) (pend : option nat) (l : list op) : list action * option nat :=
  match l with
  | [] => ([], pend)
  | o :: l' => let '(a, p1) := plan1 ck k pend o in let '(b, p2) := plan ck (S k) p1 l' in (a ++ b, p2)
  end.

Lemma cache_keeper C k : keeper C (fun s => s_cache s = k) (fun _ => True) (fun _ => True).
Proof. split; intros; cbn in *; auto; congruence. Qed.
Lemma cache_dkeeper k : dkeeper (fun s => s_cache s = k) (fun _ => True).
Proof. split; intros; cbn in *; auto. Qed.
Section Run.
Variables (C : conf) (ops : list op).
Definition is_event (o : op) : bool := match o with OEvent _ _ => true | _ => false end.
Lemma cache_kept o s s' : is_event o = false -> exec C o s = Ret (tt, s') -> s_cache s' = s_cache s.
Proof.
  intros HE E. pose proof (cache_keeper C (s_cache s)) as K. pose proof (cache_dkeeper (s_cache s)) as D. set (I := fun s0 : fs => s_cache s0 = s_cache s) in *.
  assert (ALL : forall A (m : M A), kp I m -> (m ;;; ret tt) s = Ret (tt, s') -> I s'). { intros A m Hm Em. unfold bind in Em. destruct (m s) as [[a s1]| |] eqn:E1; try discriminate. unfold ret in Em. assert (s1 = s') by congruence. subst. exact (proj1 (Hm _ _ _ eq_refl E1)). }
  change (I s'). destruct o; cbn [exec] in E; try discriminate HE.
  - refine (ALL _ _ _ E). apply (kp_add_item C _ _ _ K).
  - refine (ALL _ _ _ E). apply (kp_delete_item C _ _ _ K); auto.
  - refine (ALL _ _ _ E). apply (kp_delete_item C _ _ _ K); auto.
  - refine (ALL _ _ _ E). apply (kp_move C _ _ _ K); auto.
  - refine (ALL _ _ _ E). apply (kp_set_file_name C _ _ _ K); auto.
  - refine (ALL _ _ _ E). apply (kp_copy C _ _ _ K D).
  - refine (ALL _ _ _ E). apply (kp_read C _ _ _ K).
  - refine (ALL _ _ _ E). apply (kp_write_data C _ _ _ K D).
  - refine (ALL _ _ _ E). apply (kp_write_partial C _ _ _ K D).
  - refine (ALL _ _ _ E). apply (kp_truncate C _ _ _ K).
  - refine (ALL _ _ _ E). apply (kp_get_info C _ _ _ K).
  - refine (ALL _ _ _ E). apply (kp_get_handles C _ _ _ K).
  - unfold upd in E. apply Ret_inj, (f_equal snd) in E. cbn [snd] in E. subst s'. reflexivity.
Qed.
Definition ckof (i : nat) : N := match note ops i with Some (_, _, ck, _) => ck | None => 0 end.
Definition cache_at (pend : option nat) : option (N * N * path) := match pend with Some i => match note ops i with Some (_, wd, ck, n) => Some (wd, ck, n) | None => None end | None => None end.
Definition pend_ok (k : nat) (pend : option nat) : Prop := match pend with Some i => (i < k)%nat /\ exists wd ck n, note ops i = Some (NMovedFrom, wd, ck, n) | None => True end.
Hypothesis CO : cookies_ok ops.

Lemma note_at k f e n : nth_error ops k = Some (OEvent f (Some e)) -> ev_name e = Some n -> note ops k = Some (ev_kind e, ev_wd e, ev_cookie e, n).
Proof. intros E1 E2. unfold note. rewrite E1, E2. reflexivity. Qed.
Lemma the_op_at k o : nth_error ops k = Some o -> the_op ops k = o.
Proof. intros E. unfold the_op. apply nth_error_nth. exact E. Qed.
Lemma handler_cache A (m : M A) s a s' : (forall k, kp (fun s => s_cache s = k) m) -> m s = Ret (a, s') -> s_cache s' = s_cache s.
Proof. intros H E. exact (proj1 (H (s_cache s) s a s' eq_refl E)). Qed.
Lemma kc_delete fuel wd n k : kp (fun s => s_cache s = k) (handle_fs_delete C fuel wd n).
Proof. apply (kp_fs_delete C _ _ _ (cache_keeper C k)). Qed.
Lemma kc_create fuel wd n k : kp (fun s => s_cache s = k) (handle_fs_create C fuel wd n).
Proof. apply (kp_fs_create C _ _ _ (cache_keeper C k)). Qed.
Lemma kc_modify wd n k : kp (fun s => s_cache s = k) (handle_fs_modify C wd n).
Proof. apply (kp_fs_modify C _ _ _ (cache_keeper C k)). Qed.

Lemma step_plan k pend o s s' : nth_error ops k = Some o -> pend_ok k pend -> s_cache s = cache_at pend -> exec C o s = Ret (tt, s') ->
  (forall l t, performs C ops l s' t -> performs C ops (fst (plan1 ckof k pend o) ++ l) s t) /\ s_cache s' = cache_at (snd (plan1 ckof k pend o)) /\ pend_ok (S k) (snd (plan1 ckof k pend o)).
Proof.
  intros Ek PO Hc E.
  destruct (is_event o) eqn:HE.
  2:{ assert (P1 : plan1 ckof k pend o = ([DoOther k], pend)) by (destruct o; try reflexivity; discriminate HE). rewrite P1. cbn [fst snd]. split; [|split].
      - intros l t H. cbn [app]. eapply (perf_act _ _ 0%nat); [cbn [act]; rewrite (the_op_at k o Ek); exact E|exact H].
      - rewrite (cache_kept o s s' HE E). exact Hc.
      - destruct pend as [i|]; cbn in *; [|exact Logic.I]. destruct PO as [PO1 PO2]. split; [lia|exact PO2]. }
  destruct o as [| | | | | | | | | | | |fuel e|]; try discriminate HE. clear HE. cbn [exec] in E. unfold inotify_event, bind at 1, get in E. rewrite Hc in E.
  assert (DEL : forall i wd ck n u t1 t2, note ops i = Some (NMovedFrom, wd, ck, n) -> (handle_fs_delete C fuel wd n ;;; upd (set_cache None)) t1 = Ret (u, t2) ->
     (forall l t, performs C ops l t2 t -> performs C ops (DoDelete i :: l) t1 t) /\ s_cache t2 = None).
  { intros i wd ck n u t1 t2 Hn H. unfold bind in H. destruct (handle_fs_delete C fuel wd n t1) as [[[] t3]| |] eqn:E3; try discriminate. unfold upd in H. apply Ret_inj, (f_equal snd) in H. cbn [snd] in H. subst t2. split; [|reflexivity].
    intros l t Hl. eapply (perf_act _ _ fuel); [cbn [act]; rewrite Hn; exact E3|]. eapply perf_cache. exact Hl. }
  destruct e as [e|].
  2:{ cbn [plan1 fst snd]. destruct pend as [i|]; cbn [cache_at] in E.
      - destruct PO as (PO1 & wd & ck & n & PO2). rewrite PO2 in E. destruct (DEL i wd ck n tt s s' PO2 E) as [D1 D2]. split; [exact D1|]. split; [exact D2|exact Logic.I].
      - unfold ret in E. apply Ret_inj, (f_equal snd) in E. cbn [snd] in E. subst s'. split; [auto|]. split; [exact Hc|exact Logic.I]. }
  cbn [plan1]. destruct (ev_name e) as [name|] eqn:En.
  2:{ unfold ret in E. apply Ret_inj, (f_equal snd) in E. cbn [snd] in E. subst s'. cbn [fst snd app]. split; [auto|]. split; [exact Hc|]. destruct pend as [i|]; cbn in *; [|exact Logic.I]. destruct PO as [PO1 PO2]. split; [lia|exact PO2]. }
  pose proof (note_at k fuel e name Ek En) as Hk. destruct (CO k _ _ _ _ Hk) as [CO1 CO2].
  unfold bind at 1 in E. match type of E with match ?X with _ => _ end = _ => destruct X as [[[] s1]| |] eqn:E1; try discriminate end.
  (* a pending notification that does not belong here has been flushed *)
  assert (FL : (exists i wd n, pend = Some i /\ note ops i = Some (NMovedFrom, wd, ev_cookie e, n) /\ ev_cookie e <> 0 /\ s1 = s /\ s_cache s1 = Some (wd, ev_cookie e, n)) \/
     (s_cache s1 = None /\ (forall l t, performs C ops l s1 t -> performs C ops ((match pend with Some i => [DoDelete i] | None => [] end) ++ l) s t) /\
       forall i, pend = Some i -> (ckof i =? ev_cookie e) = false)).
  { destruct pend as [i|]; cbn [cache_at] in *.
    - destruct PO as (PO1 & wd & ck & n & PO2). rewrite PO2 in *. unfold when in E1. destruct (ck =? ev_cookie e) eqn:Ec; cbn [negb] in E1.
      + left. apply N.eqb_eq in Ec. subst ck. unfold ret in E1. apply Ret_inj, (f_equal snd) in E1. cbn [snd] in E1. subst s1. exists i, wd, n. split; [reflexivity|]. split; [exact PO2|]. split; [exact (proj1 (CO i _ _ _ _ PO2) eq_refl)|]. split; [reflexivity|exact Hc].
      + right. destruct (DEL i wd ck n tt s s1 PO2 E1) as [D1 D2]. split; [exact D2|]. split; [exact D1|]. intros i' [= <-]. unfold ckof. rewrite PO2. exact Ec.
    - right. unfold ret in E1. apply Ret_inj, (f_equal snd) in E1. cbn [snd] in E1. subst s1. split; [exact Hc|]. split; [auto|discriminate]. }
  destruct (ev_kind e) eqn:Ekd.
  - (* created *) destruct FL as [(i & wd & n & _ & _ & Z & _)|(F1 & F2 & _)]; [exfalso; apply Z, CO2; discriminate|]. cbn [fst snd]. split; [|split; [rewrite (handler_cache _ _ _ _ _ (kc_create fuel (ev_wd e) name) E); exact F1|exact Logic.I]].
    intros l t H. rewrite <- app_assoc. apply F2. cbn [app]. eapply (perf_act _ _ fuel); [cbn [act]; rewrite Hk; exact E|exact H].
  - destruct FL as [(i & wd & n & _ & _ & Z & _)|(F1 & F2 & _)]; [exfalso; apply Z, CO2; discriminate|]. cbn [fst snd]. split; [|split; [rewrite (handler_cache _ _ _ _ _ (kc_delete fuel (ev_wd e) name) E); exact F1|exact Logic.I]].
    intros l t H. rewrite <- app_assoc. apply F2. cbn [app]. eapply (perf_act _ _ fuel); [cbn [act]; rewrite Hk; exact E|exact H].
  - (* moved from *) assert (Zn : ev_cookie e <> 0) by (apply CO1; reflexivity). apply N.eqb_neq in Zn. rewrite Zn in E. cbn [fst snd]. unfold bind at 1, get in E.
    assert (PK : pend_ok (S k) (Some k)) by (cbn; split; [lia|]; exists (ev_wd e), (ev_cookie e), name; exact Hk).
    destruct FL as [(i & wd & n & -> & Hn & _ & -> & F4)|(F1 & F2 & _)].
    + rewrite F4 in E. unfold bind at 1 in E. match type of E with match ?X with _ => _ end = _ => destruct X as [[[] s2]| |] eqn:E2; try discriminate end. destruct (DEL i wd _ n tt s s2 Hn E2) as [D1 D2]. unfold upd in E. apply Ret_inj, (f_equal snd) in E. cbn [snd] in E. subst s'.
      split; [|split; [cbn [cache_at s_cache set_cache]; rewrite Hk; reflexivity|exact PK]]. intros l t H. cbn [app]. apply D1. eapply perf_cache. exact H.
    + rewrite F1 in E. unfold bind, ret, upd in E. apply Ret_inj, (f_equal snd) in E. cbn [snd] in E. subst s'. split; [|split; [cbn [cache_at s_cache set_cache]; rewrite Hk; reflexivity|exact PK]].
      intros l t H. rewrite app_nil_r. apply F2. eapply perf_cache. exact H.
  - (* moved to *) unfold bind at 1, get in E. destruct FL as [(i & wd & n & -> & Hn & _ & -> & F4)|(F1 & F2 & F3)].
    + rewrite F4, N.eqb_refl in E. unfold ckof. rewrite Hn, N.eqb_refl. cbn [fst snd]. unfold bind in E. destruct (handle_fs_move C fuel wd n (ev_wd e) name s) as [[[] s2]| |] eqn:E2; try discriminate. unfold upd in E. apply Ret_inj, (f_equal snd) in E. cbn [snd] in E. subst s'.
      split; [|split; [reflexivity|exact Logic.I]]. intros l t H. cbn [app]. eapply (perf_act _ _ fuel); [cbn [act]; rewrite Hn, Hk; exact E2|]. eapply perf_cache. exact H.
    + rewrite F1 in E. pose proof (handler_cache _ _ _ _ _ (kc_create fuel (ev_wd e) name) E) as HC. destruct pend as [i|]; [rewrite (F3 i eq_refl)|]; cbn [fst snd]; (split; [|split; [rewrite HC; exact F1|exact Logic.I]]);
      intros l t H; [change ([DoDelete i; DoCreate k] ++ l) with ([DoDelete i] ++ (DoCreate k :: l))|change ([DoCreate k] ++ l) with ([] ++ (DoCreate k :: l))]; apply F2; (eapply (perf_act _ _ fuel); [cbn [act]; rewrite Hk; exact E|exact H]).
  - destruct FL as [(i & wd & n & _ & _ & Z & _)|(F1 & F2 & _)]; [exfalso; apply Z, CO2; discriminate|]. cbn [fst snd]. split; [|split; [rewrite (handler_cache _ _ _ _ _ (kc_modify (ev_wd e) name) E); exact F1|exact Logic.I]].
    intros l t H. rewrite <- app_assoc. apply F2. cbn [app]. eapply (perf_act _ _ fuel); [cbn [act]; rewrite Hk; exact E|exact H].
Qed.
Lemma run_plan : forall l k pend s s', (forall m o, nth_error l m = Some o -> nth_error ops (k + m) = Some o) -> pend_ok k pend -> s_cache s = cache_at pend -> exec_all C l s = Ret (tt, s') ->
  performs C ops (fst (plan ckof k pend l)) s s' /\ s_cache s' = cache_at (snd (plan ckof k pend l)).
Proof.
  induction l as [|o l IH]; intros k pend s s' HL PO Hc E.
  - unfold exec_all, ret in E. apply Ret_inj, (f_equal snd) in E. cbn [snd] in E. subst s'. split; [apply perf_nil|exact Hc].
  - cbn [exec_all] in E. unfold bind in E. destruct (exec C o s) as [[[] s1]| |] eqn:E1; try discriminate. assert (Ho : nth_error ops k = Some o) by (specialize (HL 0%nat o eq_refl); rewrite Nat.add_0_r in HL; exact HL).
    destruct (step_plan k pend o s s1 Ho PO Hc E1) as (A1 & A2 & A3). cbn [plan]. destruct (plan1 ckof k pend o) as [a p1]. cbn [fst snd] in A1, A2, A3.
    destruct (IH (S k) p1 s1 s') as [B1 B2]; [intros m o' Hm; specialize (HL (S m) o' Hm); rewrite Nat.add_succ_r in HL; exact HL|exact A3|exact A2|exact E|]. destruct (plan ckof (S k) p1 l) as [b p2]. cbn [fst snd] in *. split; [apply A1; exact B1|exact B2].
Qed.
End Run.

(** *** The plan pairs as specified *)
Section Plan.
Variable ck : nat -> N.
Lemma plan_old : forall l k pend i, (i < k)%nat -> pend <> Some i -> filter (about i) (fst (plan ck k pend l)) = [] /\ snd (plan ck k pend l) <> Some i.
Proof.
  induction l as [|o l IH]; intros k pend i Hi Hp; [cbn; auto|]. cbn [plan]. destruct (plan1 ck k pend o) as [a p1] eqn:E1. destruct (plan ck (S k) p1 l) as [b p2] eqn:E2. cbn [fst snd].
  assert (N : Nat.eqb k i = false) by (apply Nat.eqb_neq; lia). assert (NP : forall j, pend = Some j -> Nat.eqb j i = false) by (intros j ->; apply Nat.eqb_neq; congruence).
  assert (A : filter (about i) a = [] /\ p1 <> Some i).
  { destruct o as [| | | | | | | | | | | |fuel [e|]|]; cbn [plan1] in E1; try (injection E1 as <- <-; cbn [filter about]; rewrite N; auto).
    - destruct (ev_name e); [|injection E1 as <- <-; auto]. destruct (ev_kind e), pend as [j|]; try destruct (ck j =? ev_cookie e); injection E1 as <- <-; cbn [filter about app]; rewrite ?N, ?(NP j eq_refl); cbn; split; try reflexivity; try discriminate; intros [= Z]; lia.
    - injection E1 as <- <-. destruct pend as [j|]; cbn [filter about]; rewrite ?(NP j eq_refl); split; auto; discriminate. }
  destruct A as [A1 A2]. specialize (IH (S k) p1 i ltac:(lia) A2). rewrite E2 in IH. cbn [fst snd] in IH. rewrite filter_app, A1. exact IH.
Qed.
(** the fate of the pending notification *)
Fixpoint fate (k i : nat) (l : list op) : list action * bool :=
  match l with
  | [] => ([], true)
  | o :: l' => if flushb o then
      (match o with OEvent _ (Some e) => if match ev_kind e with NMovedTo => ck i =? ev_cookie e | _ => false end then [DoMove i k] else [DoDelete i] | _ => [DoDelete i] end, false)
      else fate (S k) i l'
  end.
Lemma plan_fate : forall l k i, (i < k)%nat -> filter (about i) (fst (plan ck k (Some i) l)) = fst (fate k i l) /\ (snd (plan ck k (Some i) l) = Some i <-> snd (fate k i l) = true).
Proof.
  induction l as [|o l IH]; intros k i Hi; [cbn; intuition|]. cbn [plan fate]. destruct (plan1 ck k (Some i) o) as [a p1] eqn:E1. destruct (plan ck (S k) p1 l) as [b p2] eqn:E2. cbn [fst snd].
  assert (N : Nat.eqb k i = false) by (apply Nat.eqb_neq; lia). rewrite filter_app.
  assert (OLD : forall p, p <> Some i -> p1 = p -> filter (about i) b = [] /\ p2 <> Some i). { intros p Hp ->. pose proof (plan_old l (S k) p i ltac:(lia) Hp) as H. rewrite E2 in H. exact H. }
  assert (SAME : p1 = Some i -> filter (about i) b = fst (fate (S k) i l) /\ (p2 = Some i <-> snd (fate (S k) i l) = true)). { intros ->. pose proof (IH (S k) i ltac:(lia)) as H. rewrite E2 in H. exact H. }
  destruct (flushb o) eqn:Ef.
  - cbn [fst snd]. destruct o as [| | | | | | | | | | | |fuel [e|]|]; try discriminate Ef; cbn [plan1 flushb] in *.
    + destruct (ev_name e); [|discriminate]. destruct (ev_kind e); [| | |destruct (ck i =? ev_cookie e)|]; apply pair_equal_spec in E1 as [<- <-];
      (edestruct OLD as [O1 O2]; [|reflexivity|]; [first [discriminate|intros [= Z]; lia]|]; cbn [app filter about]; rewrite ?N, Nat.eqb_refl, O1; cbn; split; [reflexivity|split; [intros Z; contradiction|discriminate]]).
    + injection E1 as <- <-. destruct (OLD None ltac:(discriminate) eq_refl) as [O1 O2]. cbn [filter about]. rewrite Nat.eqb_refl, O1. cbn. split; [reflexivity|split; [intros Z; contradiction|discriminate]].
  - destruct o as [| | | | | | | | | | | |fuel [e|]|]; try discriminate Ef; cbn [plan1 flushb] in *; try (injection E1 as <- <-; cbn [filter about]; rewrite N; apply SAME; reflexivity).
    destruct (ev_name e); [discriminate|]. injection E1 as <- <-. apply SAME. reflexivity.
Qed.
(** skipping [m] operations *)
Lemma plan_skip : forall m l k pend i, (k + m <= i)%nat -> (m <= length l)%nat -> match pend with Some j => (j < k)%nat | None => True end -> exists pend', match pend' with Some j => (j < k + m)%nat | None => True end /\
  filter (about i) (fst (plan ck k pend l)) = filter (about i) (fst (plan ck (k + m) pend' (skipn m l))) /\ snd (plan ck k pend l) = snd (plan ck (k + m) pend' (skipn m l)).
Proof.
  induction m as [|m IH]; intros l k pend i Hi Hl Hp.
  - exists pend. rewrite Nat.add_0_r. auto.
  - destruct l as [|o l]; [cbn in Hl; lia|]. cbn [plan skipn]. destruct (plan1 ck k pend o) as [a p1] eqn:E1. 
    assert (A : filter (about i) a = [] /\ match p1 with Some j => (j < S k)%nat | None => True end).
    { assert (N : Nat.eqb k i = false) by (apply Nat.eqb_neq; lia). assert (NP : forall j, pend = Some j -> Nat.eqb j i = false) by (intros j ->; apply Nat.eqb_neq; lia).
      destruct o as [| | | | | | | | | | | |fuel [e|]|]; cbn [plan1] in E1; try (injection E1 as <- <-; cbn [filter about]; rewrite N; split; [reflexivity|destruct pend; [lia|exact I]]).
      - destruct (ev_name e); [|injection E1 as <- <-; split; [reflexivity|destruct pend; [lia|exact I]]]. destruct (ev_kind e), pend as [j|]; try destruct (ck j =? ev_cookie e); injection E1 as <- <-; cbn [filter about app]; rewrite ?N, ?(NP j eq_refl); cbn; auto.
      - injection E1 as <- <-. destruct pend as [j|]; cbn [filter about]; rewrite ?(NP j eq_refl); auto. }
    destruct A as [A1 A2]. destruct (IH l (S k) p1 i ltac:(lia) ltac:(cbn in Hl; lia) A2) as (p' & B1 & B2 & B3). exists p'. rewrite <- plus_n_Sm. cbn [plus] in *. split; [exact B1|]. destruct (plan ck (S k) p1 l) as [b p2]. cbn [fst snd] in *. rewrite filter_app, A1. auto.
Qed.
End Plan.
