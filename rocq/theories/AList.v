(** Finite maps with [N] keys as association lists (models of QHash / QMap /
    QSet; nothing below depends on the iteration order unless it says so). *)
From Verif Require Import Base.

Section AL.
Context {V : Type}.
Fixpoint aget (k : N) (l : list (N * V)) : option V :=
  match l with [] => None | (k', v) :: r => if k =? k' then Some v else aget k r end.
Fixpoint aset (k : N) (v : V) (l : list (N * V)) : list (N * V) :=
  match l with [] => [(k, v)] | (k', v') :: r => if k =? k' then (k, v) :: r else (k', v') :: aset k v r end.
Definition adel (k : N) (l : list (N * V)) : list (N * V) := filter (fun p => negb (k =? fst p)) l.
Definition akeys (l : list (N * V)) : list N := map fst l.
Definition ahas (k : N) (l : list (N * V)) : bool := match aget k l with Some _ => true | None => false end.

Lemma aget_aset_eq k v l : aget k (aset k v l) = Some v.
Proof.
  induction l as [|[k' v'] r IH]; cbn [aset aget]; [now rewrite N.eqb_refl|].
  destruct (k =? k') eqn:E; cbn [aget]; [now rewrite N.eqb_refl|now rewrite E].
Qed.
Lemma aget_aset_neq k k' v l : k <> k' -> aget k (aset k' v l) = aget k l.
Proof.
  intros H. induction l as [|[j w] r IH]; cbn [aset aget].
  - destruct (k =? k') eqn:E; [lia|reflexivity].
  - destruct (k' =? j) eqn:E; cbn [aget].
    + destruct (k =? k') eqn:E1; [lia|]. destruct (k =? j) eqn:E2; [lia|reflexivity].
    + destruct (k =? j); [reflexivity|exact IH].
Qed.
Lemma aget_aset k k' v l : aget k (aset k' v l) = if k =? k' then Some v else aget k l.
Proof. destruct (k =? k') eqn:E; [replace k with k' by lia; apply aget_aset_eq|apply aget_aset_neq; lia]. Qed.
Lemma aget_adel k k' l : aget k (adel k' l) = if k =? k' then None else aget k l.
Proof.
  unfold adel. induction l as [|[j w] r IH]; cbn [filter aget fst].
  - now destruct (k =? k').
  - destruct (k' =? j) eqn:E; cbn [negb aget]; rewrite IH.
    + destruct (k =? k') eqn:E1; [reflexivity|]. destruct (k =? j) eqn:E2; [lia|reflexivity].
    + destruct (k =? j) eqn:E2; [|reflexivity]. destruct (k =? k') eqn:E1; [lia|reflexivity].
Qed.
Lemma aget_adel_eq k l : aget k (adel k l) = None.
Proof. rewrite aget_adel. now rewrite N.eqb_refl. Qed.
Lemma aget_adel_neq k k' l : k <> k' -> aget k (adel k' l) = aget k l.
Proof. intros. rewrite aget_adel. destruct (k =? k') eqn:E; [lia|reflexivity]. Qed.
Lemma aget_In k v l : aget k l = Some v -> In (k, v) l.
Proof.
  induction l as [|[j w] r IH]; cbn [aget]; [discriminate|]. destruct (k =? j) eqn:E.
  - intros [= ->]. left. f_equal. lia.
  - intros H. right. auto.
Qed.
Lemma aget_key k v l : aget k l = Some v -> In k (akeys l).
Proof. intros H. apply aget_In in H. apply (in_map fst) in H. exact H. Qed.
Lemma aget_None k l : aget k l = None <-> ~ In k (akeys l).
Proof.
  induction l as [|[j w] r IH]; cbn [aget akeys map fst]; [tauto|]. destruct (k =? j) eqn:E.
  - split; [discriminate|]. intros H. exfalso. apply H. left. lia.
  - rewrite IH. unfold akeys. cbn [In]. split; [intros H [H1|H1]; [lia|contradiction]|tauto].
Qed.
Lemma In_aget k v l : NoDup (akeys l) -> In (k, v) l -> aget k l = Some v.
Proof.
  induction l as [|[j w] r IH]; cbn [aget akeys map fst]; intros ND HI; [contradiction|].
  apply NoDup_cons_iff in ND as [N1 N2]. destruct HI as [HI|HI].
  - injection HI as -> ->. now rewrite N.eqb_refl.
  - destruct (k =? j) eqn:E; [|now apply IH]. exfalso. apply N1. replace j with k by lia.
    apply (in_map fst) in HI. exact HI.
Qed.
Lemma akeys_aset k v l : akeys (aset k v l) = if ahas k l then akeys l else akeys l ++ [k].
Proof.
  unfold ahas. induction l as [|[j w] r IH]; cbn [aset aget]; [reflexivity|].
  destruct (k =? j) eqn:E; cbn [akeys map fst].
  - f_equal. lia.
  - unfold akeys in *. rewrite IH. destruct (aget k r); reflexivity.
Qed.
Lemma akeys_adel k l : akeys (adel k l) = filter (fun j => negb (k =? j)) (akeys l).
Proof.
  unfold akeys, adel. induction l as [|[j w] r IH]; cbn [filter map fst]; [reflexivity|].
  destruct (k =? j); cbn [negb map fst]; [exact IH|now rewrite IH].
Qed.
Lemma NoDup_aset k v l : NoDup (akeys l) -> NoDup (akeys (aset k v l)).
Proof.
  intros H. rewrite akeys_aset. unfold ahas. destruct (aget k l) eqn:E; [exact H|].
  apply aget_None in E. apply NoDup_rev in H. rewrite <- (rev_involutive (akeys l ++ [k])). apply NoDup_rev.
  rewrite rev_app_distr. cbn [rev app]. constructor; [|exact H]. now rewrite <- in_rev.
Qed.
Lemma NoDup_adel k l : NoDup (akeys l) -> NoDup (akeys (adel k l)).
Proof. intros H. rewrite akeys_adel. now apply NoDup_filter. Qed.
Lemma In_akeys_aset j k v l : In j (akeys (aset k v l)) <-> j = k \/ In j (akeys l).
Proof.
  rewrite akeys_aset. unfold ahas. destruct (aget k l) as [w|] eqn:E.
  - apply aget_key in E. split; [tauto|intros [-> |H]; assumption].
  - rewrite in_app_iff. cbn. split; [intros [H|[H|[]]]|intros [H|H]]; auto.
Qed.
Lemma In_akeys_adel j k l : In j (akeys (adel k l)) <-> j <> k /\ In j (akeys l).
Proof.
  rewrite akeys_adel, filter_In. split; intros [H1 H2]; (split; [|]); try tauto; try lia.
Qed.
End AL.
