(** Termination of deletion (C89). *)
From Verif Require Import Base AList Wire FS FSPath FSTree FSLogic FSAdd FSSub FSAdd2 FSDel FSTerm.

(** how many items there are, among the first [b] addresses *)
Definition live (H : heap) (x : nat) : bool := match H (N.of_nat x) with Some _ => true | None => false end.
Definition count (H : heap) (b : nat) : nat := length (filter (live H) (seq 0 b)).
Lemma filter_le {A} (f g : A -> bool) l : (forall x, g x = true -> f x = true) -> (length (filter g l) <= length (filter f l))%nat.
Proof.
  intros S. induction l as [|x l IH]; [apply le_n|]. cbn [filter]. destruct (g x) eqn:G; [rewrite (S x G); cbn; lia|]. destruct (f x); cbn; lia.
Qed.
Lemma filter_lt {A} (f g : A -> bool) l x : (forall x, g x = true -> f x = true) -> In x l -> f x = true -> g x = false -> (length (filter g l) < length (filter f l))%nat.
Proof.
  intros S. induction l as [|y l IH]; intros IN F G; [contradiction|]. destruct IN as [->|IN].
  - cbn [filter]. rewrite F, G. cbn. pose proof (filter_le f g l S). lia.
  - specialize (IH IN F G). cbn [filter]. destruct (g y) eqn:GY; [rewrite (S y GY); cbn; lia|]. destruct (f y); cbn; lia.
Qed.
Lemma count_le H H' b : (forall x, H' x <> None -> H x <> None) -> (count H' b <= count H b)%nat.
Proof. intros S. apply filter_le. intros x. unfold live. specialize (S (N.of_nat x)). destruct (H' (N.of_nat x)); [|discriminate]. intros _. destruct (H (N.of_nat x)); [reflexivity|exfalso; apply S; [discriminate|reflexivity]]. Qed.
Lemma count_lt H H' b x : (forall x, H' x <> None -> H x <> None) -> x < N.of_nat b -> H x <> None -> H' x = None -> (count H' b < count H b)%nat.
Proof.
  intros S L A B. apply filter_lt with (x := N.to_nat x).
  - intros y. unfold live. specialize (S (N.of_nat y)). destruct (H' (N.of_nat y)); [|discriminate]. intros _. destruct (H (N.of_nat y)); [reflexivity|exfalso; apply S; [discriminate|reflexivity]].
  - apply in_seq. lia.
  - unfold live. rewrite N2Nat.id. destruct (H x); [reflexivity|contradiction].
  - unfold live. rewrite N2Nat.id, B. reflexivity.
Qed.

Section D.
Variables (C : conf) (r : ptr) (b m : nat).
(** all items are among the first [b], all paths at most [m] long *)
Definition small (s : fs) : Prop := forall p i, s_heap s p = Some i -> p < N.of_nat b /\ (N.to_nat (len (i_path i)) <= m)%nat.
Lemma small_shr o s s' : shr o s s' -> small s -> small s'.
Proof. intros X S p i Hp. destruct (D_heap _ _ _ X p i Hp) as (j & A & B). apply lk_fields in B as (_ & B & _). rewrite B. exact (S p j A). Qed.
Lemma shr_sub o s s' : shr o s s' -> forall x, s_heap s' x <> None -> s_heap s x <> None.
Proof. intros X x N. destruct (s_heap s' x) as [i|] eqn:E; [|contradiction]. destruct (D_heap _ _ _ X x i E) as (j & -> & _). discriminate. Qed.

Lemma delete_term : forall fuel h phys send s ch p i, WF C s ch r None -> s_root s = Some r -> small s -> aget h (s_handles s) = Some (Some p) -> s_heap s p = Some i ->
  (m - N.to_nat (len (i_path i)) + count (s_heap s) b + 3 <= fuel)%nat \/ (i_first i = None /\ (1 <= fuel)%nat) -> term (delete_helper C fuel h phys send) s (fun _ _ => True).
Proof.
  induction fuel as [|fuel IH]; intros h phys send s ch p i W Hr SM Eh Hp LE; [destruct LE as [LE|[_ LE]]; lia|]. cbn [delete_helper].
  apply term_bind. unfold term at 1, has_handle, get, ahas. rewrite Eh. cbn [negb]. apply term_bind. unfold term at 1, handle_ref. rewrite Eh. apply term_bind. unfold term at 1, get. rewrite Hr. cbn [opt_eqb].
  destruct (p =? r) eqn:Epr; [exact I|]. assert (Nr : p <> r) by lia. apply term_bind, (term_deref p i s _ Hp). destruct (i_first i) as [c0|] eqn:Ef.
  2:{ apply term_bind. destruct (phys_ok C r s ch p i phys W Hp Nr) as (ok & s1 & E1 & N1 & _). unfold term at 1. rewrite E1. cbv iota beta. destruct ok; [|exact I]. cbn [negb]. apply term_bind.
      assert (W1 : WF C s1 ch r None) by (eapply nsame_wf; eassumption). destruct (nsame_fields _ _ N1) as (G1 & _). assert (Hp1 : s_heap s1 p = Some i) by (rewrite G1; exact Hp).
      destruct (W_h _ _ _ _ _ W h _ Eh) as (p' & i' & [= <-] & Hp' & Hih & _). rewrite Hp in Hp'. injection Hp' as <-.
      destruct (remove_ok C r s1 ch p i send W1 Hp1 Nr Ef) as (s2 & ch2 & E2 & _). unfold term. rewrite <- Hih, E2. exact I. }
  destruct LE as [LE|[LE _]]; [|discriminate].
  assert (HLIM : (N.to_nat (len (i_path i)) <= m)%nat) by (destruct (SM p i Hp); assumption).
  assert (LOOP : forall k s1 ch1, WF C s1 ch1 r None -> s_root s1 = Some r -> shr (i_path i) s s1 -> (exists i1, s_heap s1 p = Some i1) -> (count (s_heap s1) b <= k)%nat ->
     term ((fix loop (k : nat) : M bool :=
            i <- deref p ;;
            match i_first i with
            | None => ret false
            | Some c =>
              match k with
              | O => give_up
              | S k' =>
                ci <- deref c ;;
                r <- delete_helper C fuel (i_handle ci) phys send ;;
                if negb (isok r) then ret true else loop k'
              end
            end) k) s1 (fun z s2 => z = false -> exists ch2 i2, WF C s2 ch2 r None /\ s_root s2 = Some r /\ shr (i_path i) s s2 /\ s_heap s2 p = Some i2 /\ i_first i2 = None)).
  { induction k as [|k IHk]; intros s1 ch1 W1 R1 X1 (i1 & Hi1) LK; apply term_bind, (term_deref p i1 s1 _ Hi1).
    - exfalso. pose proof (count_lt (s_heap s1) (fun _ => None) b p ltac:(intros x X; contradiction) ltac:(destruct (SM p i Hp); assumption) ltac:(congruence) eq_refl). lia.
    - destruct (i_first i1) as [c|] eqn:Ef1; [|intros _; exists ch1, i1; auto].
      pose proof (T_seg _ _ _ (W_T _ _ _ _ _ W1) p i1 Hi1) as SG. rewrite Ef1 in SG. destruct (seg_some _ _ _ SG) as (rest & Ech).
      destruct (wf_child _ _ _ _ _ W1 p i1 c Hi1) as (ci & Hc & Hcp & Ncr); [rewrite Ech; left; reflexivity|].
      apply term_bind, (term_deref c ci s1 _ Hc). apply term_bind.
      destruct (W_live _ _ _ _ _ W1 c ci Hc ltac:(discriminate)) as [Hch _].
      pose proof (small_shr _ _ _ X1 SM) as SM1. pose proof (count_le _ _ b (shr_sub _ _ _ X1)) as CL.
      assert (Hpath1 : i_path i1 = i_path i). { destruct (D_heap _ _ _ X1 p i1 Hi1) as (i0 & A & B). rewrite Hp in A. injection A as <-. apply lk_fields in B as (_ & B & _). exact B. }
      pose proof (wf_len _ _ _ _ _ W1 c ci p i1 Hc Hcp Hi1) as LN. rewrite Hpath1 in LN. destruct (SM1 c ci Hc) as [CB CM].
      pose proof (IH (i_handle ci) phys send s1 ch1 c ci W1 R1 SM1 Hch Hc ltac:(left; lia)) as TM. unfold term in TM. unfold term at 1.
      pose proof (delete_helper_ok C r fuel (i_handle ci) phys send s1 ch1 W1 R1) as OK. rewrite Hch in OK. replace (c =? r) with false in OK by (symmetry; apply N.eqb_neq; exact Ncr).
      destruct (delete_helper C fuel (i_handle ci) phys send s1) as [[rc s2]| |]; [|exact I|exact TM]. destruct OK as (ch2 & W2 & ci' & Hc' & _ & DL). rewrite Hc in Hc'. injection Hc' as <-.
      destruct (isok rc) eqn:IO; cbn [negb]; [|discriminate]. assert (rc = R_OK) by (unfold isok in IO; lia). subst rc.
      destruct (W_info _ _ _ _ _ W1 c ci Hc) as (o & O1 & O2). destruct (O2 p i1 Hcp Hi1) as (O3 & O4 & O5).
      assert (Ucp : under (i_path i) (i_path ci) = true) by (rewrite O4, Hpath1; apply under_join, under_refl).
      assert (SUB : forall x, s_heap s2 x <> None -> s_heap s1 x <> None) by exact (shr_sub _ _ _ (L_shr _ _ _ _ _ _ DL)).
      apply (IHk s2 ch2 W2).
      + rewrite (D_root _ _ _ (L_shr _ _ _ _ _ _ DL)). exact R1.
      + eapply shr_trans; [exact X1|]. eapply shr_weaken; [exact Ucp|]. apply (L_shr _ _ _ _ _ _ DL).
      + destruct (s_heap s2 p) as [i2|] eqn:E; [eauto|]. pose proof (D_gone _ _ _ (L_shr _ _ _ _ _ _ DL) p i1 Hi1 E) as U. apply under_len in U. rewrite O4, len_join in U. lia.
      + destruct (i_first ci) as [g|] eqn:Fc.
        * pose proof (T_seg _ _ _ (W_T _ _ _ _ _ W1) c ci Hc) as SGc. rewrite Fc in SGc. destruct (seg_some _ _ _ SGc) as (restc & Echc).
          destruct (wf_child _ _ _ _ _ W1 c ci g Hc) as (gi & Hg & Hgp & _); [rewrite Echc; left; reflexivity|]. destruct (W_info _ _ _ _ _ W1 g gi Hg) as (og & _ & Q2). destruct (Q2 c ci Hgp Hc) as (_ & Q4 & _).
          assert (Ngc : g <> c) by (intros ->; rewrite Hc in Hg; injection Hg as <-; apply (wf_noself _ _ _ _ _ W1 c ci Hc Hgp)).
          pose proof (L_ok _ _ _ _ _ _ DL eq_refl g gi Hg ltac:(rewrite Q4; apply under_join, under_refl) Ngc) as GONE. destruct (SM1 g gi Hg) as [GB _].
          pose proof (count_lt _ _ b g SUB GB ltac:(congruence) GONE). lia.
        * pose proof (L_leaf _ _ _ _ _ _ DL eq_refl Fc) as GONE. pose proof (count_lt _ _ b c SUB CB ltac:(congruence) GONE). lia. }
  apply term_bind. eapply term_impl; [apply (LOOP fuel s ch W Hr (shr_refl _ _) ltac:(eauto)); lia|]. intros z s2 POST. cbv beta in POST. destruct z; [exact I|]. destruct (POST eq_refl) as (ch2 & i2 & W2 & R2 & X2 & Hi2 & F2).
  destruct (D_heap _ _ _ X2 p i2 Hi2) as (i0 & A & Llk). rewrite Hp in A. injection A as <-. apply lk_fields in Llk as (L1 & L2 & _).
  destruct (W_h _ _ _ _ _ W h _ Eh) as (p' & i' & [= <-] & Hp' & Hih & _). rewrite Hp in Hp'. injection Hp' as <-.
  destruct (W_live _ _ _ _ _ W2 p i2 Hi2 ltac:(discriminate)) as [Hh2 _]. rewrite L1, Hih in Hh2.
  apply term_bind. eapply term_impl; [apply (IH h true false s2 ch2 p i2 W2 R2 (small_shr _ _ _ X2 SM) Hh2 Hi2); right; split; [exact F2|lia]|]. intros; exact I.
Qed.
End D.
Theorem delete_terminates C s ch r : WF C s ch r None -> s_root s = Some r -> exists F, forall fuel h phys send, (F <= fuel)%nat -> delete_helper C fuel h phys send s <> Abort.
Proof.
  intros W R. destruct (heap_max (s_heap s) (fun i => N.to_nat (len (i_path i))) _ (W_bd _ _ _ _ _ W)) as (m & HM). set (b := N.to_nat (s_fresh s)).
  exists (m + count (s_heap s) b + 3)%nat. intros fuel h phys send LE.
  assert (G : term (delete_helper C fuel h phys send) s (fun _ _ => True)); [|unfold term in G; intros X; rewrite X in G; exact G].
  destruct (aget h (s_handles s)) as [v|] eqn:Eh.
  - destruct (W_h _ _ _ _ _ W h v Eh) as (p & i & -> & Hp & _ & _). apply (delete_term C r b m fuel h phys send s ch p i W R); [|exact Eh|exact Hp|left; lia].
    intros x k Hx. split; [unfold b; rewrite N2Nat.id; exact (W_bd _ _ _ _ _ W x k Hx)|exact (HM x k Hx)].
  - destruct fuel as [|fuel]; [lia|]. cbn [delete_helper]. unfold term, bind, has_handle, get, ahas. rewrite Eh. exact I.
Qed.
