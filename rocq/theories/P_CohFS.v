(** The file system storage says which properties it changes (C57). *)
From Verif Require Import Base AList Wire FS FSPath FSTree FSLogic FSSpec FSReach FSEv FSProps FSAnn FSDemo FSVals FSVals2 P_FS4 P_Ann.

(** The request asks for property [p] of object [h] to become [x]: the parent of the object
    moved, the name of the object renamed, the size of the object truncated; an edit
    (SendPartialObject64) changes the size of its object to whatever the file then has. *)
Definition asked (o : op) (h p : N) (x : variant) : Prop :=
  match o with
  | OMove _ h' q => h = h' /\ p = 0xDC0B /\ x = VInt q
  | ORename _ h' n => h = h' /\ p = 0xDC07 /\ x = VStr n
  | OTruncate h' n => h = h' /\ p = 0xDC04 /\ x = VInt n
  | OPartial h' _ _ _ _ => h = h' /\ p = 0xDC04
  | _ => False
  end.
(** the change of an object has been announced between the two states *)
Definition announced (s s' : fs) (h : N) : Prop := exists l, s_events s' = l ++ s_events s /\ In (EV_ObjectInfoChanged, [h]) l.

(** ** Proofs *)
Section K.
Variables (tgt : ptr) (keep : objinfo -> objinfo -> Prop).
Hypothesis keep_trans : forall a b c, keep a b -> keep b c -> keep a c.
Definition allow (p : ptr) (x y : option objinfo) : Prop := same p x y \/ p = tgt /\ exists a c, x = Some a /\ y = Some c /\ keep a c.
Lemma allow_refl p x : allow p x x. Proof. left. apply same_refl. Qed.
Lemma allow_none p y : allow p None y. Proof. left. apply same_none. Qed.
Lemma allow_trans p x y z : allow p x y -> allow p y z -> allow p x z.
Proof.
  intros [H|(-> & a & c & -> & -> & H)] [K|(E & a' & c' & E1 & E2 & K)].
  - left. eapply same_trans; eassumption.
  - subst. destruct H as [->|[= <-]]; [apply allow_none|]. right. split; [reflexivity|]. eauto 6.
  - destruct K as [K|K]; [discriminate|]. subst z. right. eauto 8.
  - injection E1 as <-. subst z. right. split; [reflexivity|]. exists a, c'. eauto.
Qed.
End K.
(** what the operation changes in the info of its object *)
Definition keeps (o : op) (a c : objinfo) : Prop :=
  c = a \/ match o with
  | OMove _ _ q => c = oi_set_parent q a
  | ORename _ _ n => c = oi_set_name n a
  | OTruncate _ n => c = oi_set_size n a
  | OPartial _ _ _ _ _ => exists n, c = oi_set_size n a
  | _ => False
  end.
Lemma keeps_trans o a b c : keeps o a b -> keeps o b c -> keeps o a c.
Proof.
  intros [->|H] [->|K]; unfold keeps; auto. right. destruct o; auto; try (subst; destruct a; reflexivity). destruct H as [n ->]. destruct K as [m ->]. exists m. destruct a; reflexivity.
Qed.
Definition target (o : op) : N := match o with OMove _ h _ | ORename _ h _ | OTruncate h _ | OPartial h _ _ _ _ => h | _ => 0 end.

Lemma exec_bind_inv {A} (m : M A) s u s' : bind m (fun _ => ret tt) s = Ret (u, s') -> exists a, m s = Ret (a, s').
Proof. intros E. inv E a s1 E1. injection E as _ <-. eauto. Qed.

Lemma op_values C r b t0 o s s' tgt : good C r s -> (forall p, aget (target o) (s_handles s) = Some (Some p) -> p = tgt) -> exec C o s = Ret (tt, s') ->
  (exists f e, o = OEvent f e) \/ R C b t0 (allow tgt (keeps o)) s s'.
Proof.
  intros G TG E. pose proof (allow_refl tgt (keeps o)) as AR. pose proof (allow_none tgt (keeps o)) as AN. pose proof (allow_trans tgt (keeps o) (keeps_trans o)) as AT.
  destruct o; cbn [exec target] in *; try (left; eauto; fail); right; try (apply exec_bind_inv in E as (a & E)).
  - exact (k_additem C b _ _ AR AT AN _ _ _ _ _ E).
  - exact (k_deleteitem C b _ _ AR AT AN _ _ _ _ _ _ _ E).
  - exact (k_deleteitem C b _ _ AR AT AN _ _ _ _ _ _ _ E).
  - eapply (k_move C b _ _ AR AT AN tgt); [|exact TG|exact E]. intros [x|]; [|apply AR]. right. split; [reflexivity|]. exists x. eexists. split; [reflexivity|]. split; [reflexivity|]. right. reflexivity.
  - eapply (k_setname C b _ _ AR AT AN tgt); [|exact TG|exact E]. intros x. right. split; [reflexivity|]. exists x. eexists. split; [reflexivity|]. split; [reflexivity|]. right. reflexivity.
  - exact (k_copy C b _ _ AR AT AN _ _ _ _ _ _ _ E).
  - exact (k_read C b _ _ AR AT AN _ _ _ _ _ _ E).
  - exact (k_write C b _ _ AR AT AN _ _ _ _ _ _ _ E).
  - eapply (k_partial C b _ _ AR AT AN tgt); [|exact TG|exact E]. intros n x. right. split; [reflexivity|]. exists x. eexists. split; [reflexivity|]. split; [reflexivity|]. right. exists n. reflexivity.
  - eapply (k_truncate C b _ _ AR AT AN tgt); [|exact TG|exact E]. intros x. right. split; [reflexivity|]. exists x. eexists. split; [reflexivity|]. split; [reflexivity|]. right. reflexivity.
  - exact (k_info C b _ _ AR AT AN _ _ _ _ E).
  - exact (k_handles C b _ _ AR AT _ _ _ _ _ E).
  - injection E as <-. intros NW. split; [exact NW|split; [|exists []; reflexivity]]. exact (since_refl b _ AR s).
Qed.
(** the object of a handle is the same object as long as the handle is known *)
Lemma same_object C r s s' h p i p' i' Ex : supply_ok C -> good C r s -> good C r s' -> aget h (s_handles s) = Some (Some p) -> s_heap s p = Some i -> i_handle i = h ->
  s_heap s' p' = Some i' -> i_handle i' = h -> newer C (s_fresh s) (s_tick s) s' -> since (s_fresh s) Ex s s' -> p' = p.
Proof.
  intros SO [[ch W] RT] [[ch' W'] RT'] Hh Hp Hi Hp' Hi' (N1 & N2 & N3) SI. destruct (N.lt_ge_cases p' (s_fresh s)) as [L|L].
  - specialize (SI p' L). destruct (s_heap s p') as [k|] eqn:Hk; [|congruence]. destruct SI as [Z|(j & J1 & J2 & _)]; [congruence|]. assert (j = i') by congruence. subst j. apply (wf_uniq C s ch r None W p' p k i Hk Hp); [discriminate|discriminate|congruence].
  - destruct (W_root _ _ _ _ _ W) as (ri & R1 & R2 & R3 & R4). destruct (W_root _ _ _ _ _ W') as (ri' & R1' & R2' & R3' & R4').
    destruct (N3 p' i' Hp' L) as [Z|(t & T1 & T2)].
    + assert (p' = r) as -> by (apply (wf_uniq C s' ch' r None W' p' r i' ri' Hp' R1'); [discriminate|discriminate|congruence]). pose proof (W_bd _ _ _ _ _ W r ri R1). lia.
    + destruct (N.eq_dec p r) as [->|Np]; [exfalso; apply (so_nz _ SO t); congruence|]. destruct (W_sup _ _ _ _ _ W p i Hp Np) as (t' & T3 & T4).
      assert (t = t') by (apply (so_inj _ SO); congruence). subst t'. lia.
Qed.
Lemma start_newer C r s : good C r s -> newer C (s_fresh s) (s_tick s) s.
Proof. intros [[ch W] _]. split; [lia|]. split; [lia|]. intros p i Hp L. pose proof (W_bd _ _ _ _ _ W p i Hp). lia. Qed.

(** *** One step, object by object *)
Definition values (C : conf) (b : N) (t0 : nat) (os : list op) (s s' : fs) : Prop := newer C b t0 s -> newer C b t0 s' /\ stays b s s' /\ exists l, s_events s' = l ++ s_events s /\
  forall q i, q < b -> s_heap s q = Some i -> s_heap s' q = None \/ exists j, s_heap s' q = Some j /\ i_handle j = i_handle i /\ i_puoid j = i_puoid i /\
    forall p x, property_of (view_of s i) p x -> exists x', property_of (view_of s' j) p x' /\ (x' = x \/ Exists (fun o => asked o (i_handle i) p x') os \/ In (EV_ObjectInfoChanged, [i_handle i]) l).
Lemma prop_any s s' i p x : property_of (view_of s i) p x -> property_of (view_of s' i) p x.
Proof. intros H. exact H. Qed.
Lemma prop_same s s' i j p x : i_puoid j = i_puoid i -> i_info j = i_info i -> property_of (view_of s i) p x -> property_of (view_of s' j) p x.
Proof. intros X1 X2 (a & Ha & Hx). exists a. cbn [v_info view_of v_puoid] in *. rewrite X1, X2. auto. Qed.
Lemma prop_some s s' i j p x oj : i_info j = Some oj -> property_of (view_of s i) p x -> exists x', property_of (view_of s' j) p x'.
Proof.
  intros Ho' (a & Ha & Hx). unfold property_of. cbn [v_info view_of v_puoid] in *. rewrite Ho'. clear - Hx. cbn [In] in Hx. repeat (destruct Hx as [Hx|Hx]; [injection Hx as <- _; eexists; exists oj; split; [reflexivity|]; cbn [In]; eauto 20|]). contradiction.
Qed.
Lemma good_info C r s q i : good C r s -> s_heap s q = Some i -> exists oi, i_info i = Some oi.
Proof. intros [[ch W] _] Hq. destruct (W_info _ _ _ _ _ W q i Hq) as (oi & Ho & _). eauto. Qed.
Lemma op_step C r b t0 o s s' : good C r s -> good C r s' -> exec C o s = Ret (tt, s') -> values C b t0 [o] s s'.
Proof.
  intros G G' E NW. pose proof G as [[ch W] RT].
  set (tgt := match aget (target o) (s_handles s) with Some (Some t) => t | _ => s_fresh s end).
  assert (TG : forall q0, aget (target o) (s_handles s) = Some (Some q0) -> q0 = tgt) by (intros q0 H0; unfold tgt; rewrite H0; reflexivity).
  destruct (op_values C r b t0 o s s' tgt G TG E) as [(f & e & ->)|HR].
  - cbn [exec] in E. destruct (event_told C r b t0 f e s tt s' G E NW) as (N1 & ST & l & EV & TO). split; [exact N1|]. split; [exact ST|]. exists l. split; [exact EV|]. intros q i L Hq.
    destruct (TO q i L Hq) as [Z|(j & J1 & J2 & J3 & J4)]; [left; exact Z|right]. exists j. split; [exact J1|]. split; [exact J2|]. split; [exact J3|]. intros p x P. destruct (good_info _ _ _ _ _ G Hq) as [oi Ho]. destruct (good_info _ _ _ _ _ G' J1) as [oj Hj].
    destruct J4 as [[Z|Z]|J4]; [congruence|exists x; split; [exact (prop_same s s' i j p x J3 Z P)|auto]|]. destruct (prop_some s s' i j p x oj Hj P) as [x' P']. exists x'. auto.
  - destruct (HR NW) as (N1 & SI & l & EV). split; [exact N1|]. split; [intros p L Hp; specialize (SI p L); rewrite Hp in SI; exact SI|]. exists l. split; [exact EV|]. intros q i L Hq.
    specialize (SI q L). rewrite Hq in SI. destruct SI as [Z|(j & J1 & J2 & J3 & J4)]; [left; exact Z|right]. exists j. split; [exact J1|]. split; [exact J2|]. split; [exact J3|]. intros p x P. destruct (good_info _ _ _ _ _ G Hq) as [oi Ho]. destruct (good_info _ _ _ _ _ G' J1) as [oj Hj].
    destruct J4 as [[Z|Z]|(J4 & a & c & A1 & A2 & A3)]; [congruence|exists x; split; [exact (prop_same s s' i j p x J3 Z P)|auto]|].
    destruct A3 as [->|A3]; [exists x; split; [apply (prop_same s s' i j p x J3); [congruence|exact P]|auto]|].
    assert (TQ : i_handle i = target o).
    { unfold tgt in J4. pose proof (W_bd _ _ _ _ _ W q i Hq) as LT. destruct (aget (target o) (s_handles s)) as [[t|]|] eqn:ET; [|lia|lia]. subst t. destruct (W_h _ _ _ _ _ W _ _ ET) as (p1 & i1 & B1 & B2 & B3 & _). injection B1 as <-. congruence. }
    destruct (prop_some s s' i j p x oj Hj P) as (x' & P'). exists x'. split; [exact P'|]. destruct P as (a0 & B1 & B2). destruct P' as (c0 & D1 & D2). cbn [v_info view_of v_puoid] in B1, B2, D1, D2. assert (a0 = a) by congruence. subst a0. assert (c0 = c) by congruence. subst c0.
    enough (x' = x \/ asked o (i_handle i) p x') as [K|K] by auto.
    rewrite J3 in D2. clear - A3 TQ B2 D2. destruct o; cbn [asked target] in *; try contradiction; try (match type of A3 with ex _ => destruct A3 as [n A3] end); subst c; destruct a; cbn in B2, D2;
    repeat (destruct B2 as [B2|B2]; [injection B2 as <- <-; repeat (destruct D2 as [D2|D2]; [first [discriminate D2|injection D2 as <-; auto]|]); contradiction|]); contradiction.
Qed.
Lemma values_trans C b t0 os1 os2 x y z : values C b t0 os1 x y -> values C b t0 os2 y z -> values C b t0 (os1 ++ os2) x z.
Proof.
  intros H1 H2 N0. destruct (H1 N0) as (N1 & X1 & l1 & E1 & S1). destruct (H2 N1) as (N2 & X2 & l2 & E2 & S2). split; [exact N2|]. split; [intros p L Hp; apply X2; auto|]. exists (l2 ++ l1). split; [rewrite E2, E1, app_assoc; reflexivity|].
  intros q i L Hq. destruct (S1 q i L Hq) as [Z|(j & J1 & J2 & J3 & J4)]; [left; exact (X2 q L Z)|]. destruct (S2 q j L J1) as [Z|(k & K1 & K2 & K3 & K4)]; [left; exact Z|]. right. exists k. split; [exact K1|]. split; [congruence|]. split; [congruence|].
  intros p v P. destruct (J4 p v P) as (v' & P' & V1). destruct (K4 p v' P') as (v'' & P'' & V2). exists v''. split; [exact P''|]. rewrite J2 in V2. destruct V2 as [->|[V2|V2]].
  - destruct V1 as [V1|[V1|V1]]; [left; exact V1|right; left; apply Exists_app; auto|right; right; apply in_or_app; auto].
  - right. left. apply Exists_app. auto.
  - right. right. apply in_or_app. auto.
Qed.

(** ** C57, the storage's side *)
(** a history of the storage: requests, notifications and other programs at work *)
Inductive history (C : conf) : fs -> list op -> fs -> Prop :=
| hi_none s : history C s [] s
| hi_more s os s1 o s' : history C s os s1 -> op_ok C o s1 -> exec C o s1 = Ret (tt, s') -> history C s (os ++ [o]) s'.
Lemma history_good C r s os s' : supply_ok C -> good C r s -> history C s os s' -> good C r s'.
Proof.
  intros SO G H. induction H; [exact G|]. pose proof (step_ok C SO r o s1 (IHhistory G) H0) as X. rewrite H1 in X. exact X.
Qed.
Lemma history_values C r b t0 s os s' : supply_ok C -> good C r s -> history C s os s' -> values C b t0 os s s'.
Proof.
  intros SO G H. induction H.
  - intros NW. split; [exact NW|]. split; [intros p _ Hp; exact Hp|]. exists []. split; [reflexivity|]. intros q i _ Hq. right. exists i. split; [exact Hq|]. split; [reflexivity|]. split; [reflexivity|]. intros p x P. exists x. auto.
  - pose proof (history_good C r s os s1 SO G H) as G1. pose proof (step_ok C SO r o s1 G1 H0) as X. rewrite H1 in X. eapply values_trans; [exact (IHhistory G)|exact (op_step C r b t0 o s1 s' G1 X H1)].
Qed.
(** Whatever happens to the storage, for as long as you like: a property of an object that is
    there before and after has the same value, or has the value a request asked for, or a
    change of the object has been announced. *)
Theorem C57_storage_tells : forall C s os s' h v v' p x, supply_ok C -> reachable C s -> history C s os s' ->
  look s h = Some v -> look s' h = Some v' -> property_of v p x ->
  exists x', property_of v' p x' /\ (x' = x \/ Exists (fun o => asked o h p x') os \/ announced s s' h).
Proof.
  intros C s os s' h v v' p x SO RE H L L' P. destruct (reachable_good C s SO RE) as (r & G). pose proof (history_good C r s os s' SO G H) as G'. pose proof G as [[ch W] RT]. pose proof G' as [[ch' W'] RT'].
  destruct (look_inv C s ch r W h v L) as (q & i & Hh & Hq & Hi & ->). destruct (look_inv C s' ch' r W' h v' L') as (q' & i' & Hh' & Hq' & Hi' & ->).
  pose proof (W_bd _ _ _ _ _ W q i Hq) as LT. destruct (history_values C r (s_fresh s) (s_tick s) s os s' SO G H (start_newer C r s G)) as (N1 & ST & l & EV & TO).
  assert (q' = q) as ->.
  { refine (same_object C r s s' h q i q' i' (fun _ _ _ => True) SO G G' Hh Hq Hi Hq' Hi' N1 _). intros p0 L0. destruct (s_heap s p0) as [k|] eqn:Hk; [|exact (ST p0 L0 Hk)]. destruct (TO p0 k L0 Hk) as [Z|(j & J1 & J2 & J3 & _)]; [left; exact Z|right; exists j; auto]. }
  destruct (TO q i LT Hq) as [Z|(j & J1 & J2 & J3 & J4)]; [congruence|]. assert (j = i') by congruence. subst j. destruct (J4 p x P) as (x' & P' & V). exists x'. split; [exact P'|]. rewrite Hi in V. destruct V as [V|[V|V]]; auto. right. right. exists l. auto.
Qed.
(** in particular: with no announcement outstanding and no request for it, the value read
    before is the value the storage would report now *)
Theorem C57_storage_quiet : forall C s os s' h v v' p x, supply_ok C -> reachable C s -> history C s os s' ->
  look s h = Some v -> look s' h = Some v' -> property_of v p x -> s_events s' = s_events s -> (forall o x', In o os -> ~ asked o h p x') -> property_of v' p x.
Proof.
  intros C s os s' h v v' p x SO RE H L L' P EV NA. destruct (C57_storage_tells C s os s' h v v' p x SO RE H L L' P) as (x' & P' & [->|[A|(l & E & IN)]]); [exact P'| |].
  - apply Exists_exists in A as (o & O1 & O2). exfalso. exact (NA o x' O1 O2).
  - exfalso. rewrite EV in E. destruct l as [|e l]; [contradiction|]. apply (f_equal (@length _)) in E. rewrite app_length in E. cbn [length] in E. lia.
Qed.

(** ** Cases that meet the hypotheses *)
Definition next (o : op) (s : fs) : fs := match exec quiet o s with Ret (_, x) => x | _ => s end.
Lemma next_ok o s : match exec quiet o s with Ret _ => true | _ => false end = true -> exec quiet o s = Ret (tt, next o s).
Proof. unfold next. destruct (exec quiet o s) as [[[] x]| |]; [reflexivity|discriminate|discriminate]. Qed.
Definition size_in (s : fs) (h : N) : option N := match look s h with Some v => match v_info v with Some o => Some (oi_size o) | None => None end | None => None end.
Definition name_in (s : fs) (h : N) : option path := match look s h with Some v => match v_info v with Some o => Some (oi_name o) | None => None end | None => None end.
Lemma size_is s h n : size_in s h = Some n -> exists v, look s h = Some v /\ property_of v 0xDC04 (VInt n).
Proof. unfold size_in. destruct (look s h) as [v|]; [|discriminate]. intros H. exists v. split; [reflexivity|]. unfold property_of. destruct (v_info v) as [o|]; [|discriminate]. injection H as <-. exists o. split; [reflexivity|]. cbn [In]. auto 20. Qed.
Lemma name_is s h n : name_in s h = Some n -> exists v, look s h = Some v /\ property_of v 0xDC07 (VStr n).
Proof. unfold name_in. destruct (look s h) as [v|]; [|discriminate]. intros H. exists v. split; [reflexivity|]. unfold property_of. destruct (v_info v) as [o|]; [|discriminate]. injection H as <-. exists o. split; [reflexivity|]. cbn [In]. auto 20. Qed.
(** a truncation and a rename: the size and the name asked for, no announcement *)
Example C57_storage_example : let s := demo_start quiet in let s' := next (ORename 9 21 [120]) (next (OTruncate 12 2) s) in
  reachable quiet s /\ history quiet s [OTruncate 12 2; ORename 9 21 [120]] s' /\ s_events s' = s_events s /\
  (exists v, look s 12 = Some v /\ property_of v 0xDC04 (VInt 5)) /\ (exists v, look s' 12 = Some v /\ property_of v 0xDC04 (VInt 2)) /\
  (exists v, look s 21 = Some v /\ property_of v 0xDC07 (VStr [99])) /\ (exists v, look s' 21 = Some v /\ property_of v 0xDC07 (VStr [120])) /\
  (exists v, look s 21 = Some v /\ property_of v 0xDC04 (VInt 2)) /\ (exists v, look s' 21 = Some v /\ property_of v 0xDC04 (VInt 2)).
Proof.
  cbv zeta. split; [apply demo_reachable|]. split.
  { apply (hi_more quiet _ [OTruncate 12 2] (next (OTruncate 12 2) (demo_start quiet))).
    - apply (hi_more quiet _ [] (demo_start quiet)); [apply hi_none|exact Logic.I|apply next_ok; vm_compute; reflexivity].
    - intros X. vm_compute in X. discriminate X.
    - apply next_ok. vm_compute. reflexivity. }
  split; [vm_compute; reflexivity|]. split; [apply size_is; vm_compute; reflexivity|]. split; [apply size_is; vm_compute; reflexivity|]. split; [apply name_is; vm_compute; reflexivity|]. split; [apply name_is; vm_compute; reflexivity|]. split; apply size_is; vm_compute; reflexivity.
Qed.
(** another program rewrites a file and the notification arrives: the new size is announced *)
Example C57_storage_event_example : let s := demo_start quiet in let s' := next cw_ev (set_nodes big_c s) in
  history quiet s [OWorld big_c; cw_ev] s' /\ (exists v, look s 21 = Some v /\ property_of v 0xDC04 (VInt 2)) /\ (exists v, look s' 21 = Some v /\ property_of v 0xDC04 (VInt 3)) /\ announced s s' 21.
Proof.
  cbv zeta. split.
  { apply (hi_more quiet _ [OWorld big_c] (set_nodes big_c (demo_start quiet))).
    - apply (hi_more quiet _ [] (demo_start quiet)); [apply hi_none|exact Logic.I|reflexivity].
    - destruct C81_rewritten_example as (w & v & _ & _ & X & _). exact X.
    - apply next_ok. vm_compute. reflexivity. }
  split; [apply size_is; vm_compute; reflexivity|]. split; [apply size_is; vm_compute; reflexivity|].
  exists [(EV_ObjectInfoChanged, [21])]. split; [vm_compute; reflexivity|left; reflexivity].
Qed.
Print Assumptions C57_storage_tells.
Print Assumptions C57_storage_quiet.
