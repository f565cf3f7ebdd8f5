(** Reasoning about the storage model: triples, the well-formedness invariant of a
    storage, and the effect of the small steps on it. *)
From Verif Require Import Base AList Wire FS FSPath FSTree.

(** [m] started in [P] does not run into undefined behaviour and establishes [Q];
    nothing is said if the model's recursion bound is exhausted. *)
Definition hoare {A} (P : fs -> Prop) (m : M A) (Q : A -> fs -> Prop) : Prop :=
  forall s, P s -> match m s with Ret (a, s') => Q a s' | UB => False | Abort => True end.
Lemma h_ret {A} (P : fs -> Prop) (a : A) (Q : A -> fs -> Prop) : (forall s, P s -> Q a s) -> hoare P (ret a) Q.
Proof. intros H s Hs. apply H. exact Hs. Qed.
Lemma h_bind {A B} (P : fs -> Prop) (m : M A) (f : A -> M B) R Q : hoare P m R -> (forall a, hoare (R a) (f a) Q) -> hoare P (bind m f) Q.
Proof. intros H1 H2 s Hs. specialize (H1 s Hs). unfold bind. destruct (m s) as [[a s1]| |]; auto. apply H2. exact H1. Qed.
Lemma h_conseq {A} (P P' : fs -> Prop) (m : M A) (Q Q' : A -> fs -> Prop) : hoare P m Q -> (forall s, P' s -> P s) -> (forall a s, Q a s -> Q' a s) -> hoare P' m Q'.
Proof. intros H HP HQ s Hs. specialize (H s (HP s Hs)). destruct (m s) as [[a s1]| |]; auto. Qed.
Lemma h_get {A} (P : fs -> Prop) (g : fs -> A) (Q : A -> fs -> Prop) : (forall s, P s -> Q (g s) s) -> hoare P (get g) Q.
Proof. intros H s Hs. apply H. exact Hs. Qed.
Lemma h_upd (P : fs -> Prop) f (Q : unit -> fs -> Prop) : (forall s, P s -> Q tt (f s)) -> hoare P (upd f) Q.
Proof. intros H s Hs. apply H. exact Hs. Qed.
Lemma h_giveup {A} (P : fs -> Prop) (Q : A -> fs -> Prop) : hoare P give_up Q.
Proof. intros s _. exact I. Qed.
Lemma h_deref (P : fs -> Prop) p (Q : item -> fs -> Prop) : (forall s, P s -> exists i, s_heap s p = Some i /\ Q i s) -> hoare P (deref p) Q.
Proof. intros H s Hs. destruct (H s Hs) as (i & E & HQ). unfold deref. rewrite E. exact HQ. Qed.
Lemma h_tick (P : fs -> Prop) (Q : nat -> fs -> Prop) : (forall s, P s -> Q (s_tick s) (set_tick (S (s_tick s)) s)) -> hoare P tick Q.
Proof. intros H s Hs. apply H. exact Hs. Qed.
(** the state is fixed to one satisfying P *)
Lemma h_fix {A} (P : fs -> Prop) (m : M A) (Q : A -> fs -> Prop) : (forall s0, P s0 -> hoare (eq s0) m Q) -> hoare P m Q.
Proof. intros H s Hs. apply (H s Hs s eq_refl). Qed.
(** run the first command of a sequence *)
Lemma h_run {A B} (m : M A) (f : A -> M B) s a s1 Q : m s = Ret (a, s1) -> hoare (eq s1) (f a) Q -> hoare (eq s) (bind m f) Q.
Proof. intros E H s' <-. unfold bind. rewrite E. apply H. reflexivity. Qed.
Lemma h_pt {A} (m : M A) s Q : match m s with Ret (a, s') => Q a s' | UB => False | Abort => True end -> hoare (eq s) m Q.
Proof. intros H s' <-. exact H. Qed.

(** ** Well-formedness *)
Definition has_entry (s : fs) (h : N) : Prop := exists n, s_wds s n = Some h.
(** [ch]: child lists; [r]: the root; [pend]: an item not yet in the tables *)
Record WF (C : conf) (s : fs) (ch : ptr -> list ptr) (r : ptr) (pend : option ptr) : Prop := {
  W_T : T (s_heap s) ch (eq r);
  W_bd : bounded (s_heap s) (s_fresh s);
  W_nd : NoDup (akeys (s_handles s));
  W_h : forall h v, aget h (s_handles s) = Some v -> exists p i, v = Some p /\ s_heap s p = Some i /\ i_handle i = h /\ pend <> Some p;
  W_live : forall p i, s_heap s p = Some i -> pend <> Some p ->
     aget (i_handle i) (s_handles s) = Some (Some p) /\ s_paths s (i_path i) = Some (i_handle i);
  W_path : forall x h, s_paths s x = Some h -> exists p i, s_heap s p = Some i /\ i_handle i = h /\ i_path i = x /\ pend <> Some p;
  W_info : forall p i, s_heap s p = Some i -> exists o, i_info i = Some o /\
     (forall q j, i_parent i = Some q -> s_heap s q = Some j -> plain (oi_name o) /\ i_path i = join (i_path j) (oi_name o) /\ oi_parent o = i_handle j);
  W_root : exists ri, s_heap s r = Some ri /\ i_parent ri = None /\ i_path ri = c_root C /\ i_handle ri = 0;
  W_sup : forall p i, s_heap s p = Some i -> p <> r -> exists t, (t < s_tick s)%nat /\ i_handle i = c_handle C t;
  W_wd : forall n h, s_wds s n = Some h -> exists p i, s_heap s p = Some i /\ i_handle i = h /\ i_wd i = Some n /\ is_assoc i = true;
  W_rt : s_root s = None \/ s_root s = Some r }.

(** the factory's handles are usable (C41): distinct, not 0, not 0xFFFFFFFF *)
Record supply_ok (C : conf) : Prop := {
  so_nz : forall t, c_handle C t <> 0;
  so_all : forall t, c_handle C t <> ALL;
  so_inj : forall t t', c_handle C t = c_handle C t' -> t = t' }.

Section WFfacts.
Variables (C : conf) (SO : supply_ok C) (s : fs) (ch : ptr -> list ptr) (r : ptr) (pend : option ptr) (W : WF C s ch r pend).

Lemma wf_uniq p q i j : s_heap s p = Some i -> s_heap s q = Some j -> pend <> Some p -> pend <> Some q -> i_handle i = i_handle j -> p = q.
Proof.
  intros Hp Hq Np Nq E. destruct (W_live _ _ _ _ _ W p i Hp Np) as [A _]. destruct (W_live _ _ _ _ _ W q j Hq Nq) as [B _]. congruence.
Qed.
Lemma wf_path_uniq p q i j : s_heap s p = Some i -> s_heap s q = Some j -> pend <> Some p -> pend <> Some q -> i_path i = i_path j -> p = q.
Proof.
  intros Hp Hq Np Nq E. destruct (W_live _ _ _ _ _ W p i Hp Np) as [_ A]. destruct (W_live _ _ _ _ _ W q j Hq Nq) as [_ B].
  eapply wf_uniq; eauto. congruence.
Qed.
Lemma wf_parent p i : s_heap s p = Some i -> p <> r -> exists q j o, i_parent i = Some q /\ s_heap s q = Some j /\ In p (ch q) /\
  i_info i = Some o /\ plain (oi_name o) /\ i_path i = join (i_path j) (oi_name o) /\ oi_parent o = i_handle j.
Proof.
  intros Hp Nr. destruct (T_par _ _ _ (W_T _ _ _ _ _ W) p i Hp ltac:(congruence)) as (q & j & A1 & A2 & A3).
  destruct (W_info _ _ _ _ _ W p i Hp) as (o & B1 & B2). destruct (B2 q j A1 A2) as (B3 & B4 & B5). exists q, j, o. tauto.
Qed.
Lemma wf_len p i q j : s_heap s p = Some i -> i_parent i = Some q -> s_heap s q = Some j -> len (i_path j) < len (i_path i).
Proof.
  intros Hp E Hq. destruct (W_info _ _ _ _ _ W p i Hp) as (o & B1 & B2). destruct (B2 q j E Hq) as (_ & B4 & _). rewrite B4, len_join. lia.
Qed.
Lemma wf_noself p i : s_heap s p = Some i -> i_parent i <> Some p.
Proof. intros Hp E. pose proof (wf_len p i p i Hp E Hp). lia. Qed.
Lemma wf_child q j c : s_heap s q = Some j -> In c (ch q) -> exists i, s_heap s c = Some i /\ i_parent i = Some q /\ c <> r.
Proof. intros Hq Hc. destruct (T_ch _ _ _ (W_T _ _ _ _ _ W) q j c Hq Hc) as (i & A & B & D). exists i. split; [exact A|]. split; [exact B|]. congruence. Qed.
Lemma wf_handle_ptr h v : aget h (s_handles s) = Some v -> exists p i, v = Some p /\ s_heap s p = Some i /\ i_handle i = h.
Proof. intros E. destruct (W_h _ _ _ _ _ W h v E) as (p & i & A & B & D & _). eauto. Qed.
Lemma wf_zero p i : s_heap s p = Some i -> i_handle i = 0 -> p = r.
Proof.
  intros Hp E. destruct (N.eq_dec p r) as [|N]; [assumption|]. destruct (W_sup _ _ _ _ _ W p i Hp N) as (t & _ & A). exfalso. apply (so_nz _ SO t). congruence.
Qed.
Lemma wf_notall p i : s_heap s p = Some i -> i_handle i <> ALL.
Proof.
  intros Hp. destruct (N.eq_dec p r) as [->|N].
  - destruct (W_root _ _ _ _ _ W) as (ri & A & _ & _ & B). rewrite Hp in A. injection A as <-. rewrite B. discriminate.
  - destruct (W_sup _ _ _ _ _ W p i Hp N) as (t & _ & A). rewrite A. apply so_all. exact SO.
Qed.
Lemma wf_under_root p i : s_heap s p = Some i -> under (c_root C) (i_path i) = true.
Proof.
  remember (len (i_path i)) as n eqn:En. revert p i En. induction n as [n IH] using (well_founded_induction N.lt_wf_0). intros p i En Hp.
  destruct (N.eq_dec p r) as [->|N].
  - destruct (W_root _ _ _ _ _ W) as (ri & A & _ & B & _). rewrite Hp in A. injection A as <-. rewrite B. apply under_refl.
  - destruct (wf_parent p i Hp N) as (q & j & o & A1 & A2 & A3 & A4 & A5 & A6 & A7). rewrite A6. apply under_join. eapply IH; [|reflexivity|exact A2].
    rewrite En. eapply wf_len; eassumption.
Qed.
End WFfacts.

(** changes outside the tables keep well-formedness *)
Lemma wf_same C s s' ch r pend : WF C s ch r pend ->
  s_heap s' = s_heap s -> s_fresh s' = s_fresh s -> s_root s' = s_root s -> s_handles s' = s_handles s -> s_paths s' = s_paths s -> s_wds s' = s_wds s ->
  (s_tick s <= s_tick s')%nat -> WF C s' ch r pend.
Proof.
  intros [] E1 E2 E3 E4 E5 E6 E7. constructor; rewrite ?E1, ?E2, ?E3, ?E4, ?E5, ?E6; auto.
  intros p i Hp Hr. destruct (W_sup0 p i Hp Hr) as (t & A & B). exists t. split; [lia|exact B].
Qed.
