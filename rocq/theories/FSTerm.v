(** Termination: with enough fuel no operation of the storage runs out of it (C89). The
    fuel stands for the depth of the recursion and the length of the loops of the code. *)
From Verif Require Import Base AList Wire FS FSPath FSTree FSLogic FSAdd FSSub FSMove FSMove2 FSList.

(** [m] does not run out of fuel *)
Definition term {A} (m : M A) (s : fs) (Q : A -> fs -> Prop) : Prop := match m s with Ret (a, s') => Q a s' | UB => True | Abort => False end.
Lemma term_bind {A B} (m : M A) (k : A -> M B) s Q : term m s (fun a s1 => term (k a) s1 Q) -> term (bind m k) s Q.
Proof. unfold term, bind. destruct (m s) as [[a s1]| |]; auto. Qed.
Lemma term_impl {A} (m : M A) s (P Q : A -> fs -> Prop) : term m s P -> (forall a s', P a s' -> Q a s') -> term m s Q.
Proof. unfold term. destruct (m s) as [[a s1]| |]; auto. Qed.
Lemma term_ret {A} (a : A) s (Q : A -> fs -> Prop) : Q a s -> term (ret a) s Q. Proof. exact (fun H => H). Qed.

Lemma term_deref p i s (Q : item -> fs -> Prop) : s_heap s p = Some i -> Q i s -> term (deref p) s Q.
Proof. intros H X. unfold term, deref. rewrite H. exact X. Qed.
Lemma term_modify p i f s (Q : unit -> fs -> Prop) : s_heap s p = Some i -> Q tt (set_heap (nupd (s_heap s) p (Some (f i))) s) -> term (modify p f) s Q.
Proof. intros H X. unfold term, modify. rewrite H. exact X. Qed.

(** the heap has the same children lists *)
Definition links (H H' : heap) : Prop := forall x, match H x, H' x with Some i, Some i' => i_first i' = i_first i /\ i_next i' = i_next i | None, None => True | _, _ => False end.
Lemma links_refl H : links H H. Proof. intros x. destruct (H x); auto. Qed.
Lemma links_trans A B D : links A B -> links B D -> links A D.
Proof. intros X Y x. specialize (X x). specialize (Y x). destruct (A x), (B x), (D x); try tauto. destruct X, Y. split; congruence. Qed.
Lemma links_eq (s s' : fs) : s_heap s' = s_heap s -> links (s_heap s) (s_heap s'). Proof. intros ->. apply links_refl. Qed.
Lemma links_fwd H H' x i : links H H' -> H x = Some i -> exists i', H' x = Some i' /\ i_first i' = i_first i /\ i_next i' = i_next i.
Proof. intros L Hx. specialize (L x). rewrite Hx in L. destruct (H' x) as [i'|]; [|contradiction]. exists i'. tauto. Qed.
Lemma links_seg H H' : links H H' -> forall l o, seg H o l -> seg H' o l.
Proof. intros L l o. apply seg_frame. intros q i _ Hq. destruct (links_fwd _ _ _ _ L Hq) as (i' & A & _ & B). eauto. Qed.
Lemma hwd_links H H' : hwd H H' -> links H H'.
Proof. intros X x. specialize (X x). destruct (H x), (H' x); try contradiction; auto. destruct X as [w ->]. split; reflexivity. Qed.
Lemma links_upd (H : heap) p i i' : H p = Some i -> i_first i' = i_first i -> i_next i' = i_next i -> links H (nupd H p (Some i')).
Proof. intros Hp A B x. unfold nupd. destruct (x =? p) eqn:E; [replace x with p by lia; rewrite Hp; auto|destruct (H x); auto]. Qed.

(** a tree at most [n] high and wide *)
Fixpoint tree (n : nat) (H : heap) (p : ptr) : Prop :=
  match n with O => False | S m => exists i l, H p = Some i /\ seg H (i_first i) l /\ (length l <= m)%nat /\ Forall (tree m H) l end.
Lemma tree_mono H : forall n m p, (n <= m)%nat -> tree n H p -> tree m H p.
Proof.
  induction n as [|n IH]; intros [|m] p L X; try contradiction; [lia|]. destruct X as (i & l & A & B & D & E). exists i, l. split; [exact A|]. split; [exact B|]. split; [lia|].
  eapply Forall_impl; [|exact E]. intros c. apply IH. lia.
Qed.
Lemma tree_links H H' : links H H' -> forall n p, tree n H p -> tree n H' p.
Proof.
  intros L. induction n as [|n IH]; intros p X; [exact X|]. destruct X as (i & l & A & B & D & E). destruct (links_fwd _ _ _ _ L A) as (i' & A' & F1 & F2). exists i', l. split; [exact A'|].
  split; [rewrite F1; exact (links_seg _ _ L _ _ B)|]. split; [exact D|]. eapply Forall_impl; [|exact E]. exact IH.
Qed.
(** outside the part that changed *)
Lemma tree_frame (P : ptr -> Prop) H H' : (forall x i l c, P x -> H x = Some i -> seg H (i_first i) l -> In c l -> P c) ->
  (forall x i, P x -> H x = Some i -> exists i', H' x = Some i' /\ i_first i' = i_first i /\ i_next i' = i_next i) ->
  forall n p i, H p = Some i -> (forall l c, seg H (i_first i) l -> In c l -> P c) -> (exists i', H' p = Some i' /\ i_first i' = i_first i) -> tree n H p -> tree n H' p.
Proof.
  intros CL KP. assert (IN : forall n p, P p -> tree n H p -> tree n H' p).
  { induction n as [|n IH]; intros p Pp X; [exact X|]. destruct X as (i & l & A & B & D & E). destruct (KP p i Pp A) as (i' & A' & F1 & F2). exists i', l. split; [exact A'|].
    assert (Q : forall c, In c l -> P c) by (intros c Hc; exact (CL p i l c Pp A B Hc)).
    split; [rewrite F1; eapply seg_frame; [|exact B]; intros q j Hq Hj; destruct (KP q j (Q q Hq) Hj) as (j' & J1 & _ & J2); eauto|]. split; [exact D|].
    rewrite Forall_forall in *. intros c Hc. apply IH; auto. }
  intros [|n] p i Hp PC (i' & Hp' & Fi) X; [exact X|]. destruct X as (i0 & l & A & B & D & E). rewrite Hp in A. injection A as <-. exists i', l. split; [exact Hp'|].
  split; [rewrite Fi; eapply seg_frame; [|exact B]; intros q j Hq Hj; destruct (KP q j (PC l q B Hq) Hj) as (j' & J1 & _ & J2); eauto|]. split; [exact D|].
  rewrite Forall_forall in *. intros c Hc. apply IN; eauto.
Qed.

(** ** Every item of a storage is the root of a finite tree *)
Lemma heap_max (H : heap) (f : item -> nat) b : bounded H b -> exists m, forall p i, H p = Some i -> (f i <= m)%nat.
Proof.
  intros B. assert (G : forall n, exists m, forall p i, p < N.of_nat n -> H p = Some i -> (f i <= m)%nat).
  { induction n as [|n (m & IH)]; [exists O; intros; lia|]. exists (m + match H (N.of_nat n) with Some i => f i | None => O end)%nat. intros p i L Hp.
    destruct (N.eq_dec p (N.of_nat n)) as [->|Ne]; [rewrite Hp; lia|]. specialize (IH p i ltac:(lia) Hp). lia. }
  destruct (G (N.to_nat b)) as (m & M). exists m. intros p i Hp. apply (M p i); [|exact Hp]. rewrite N2Nat.id. exact (B p i Hp).
Qed.
Theorem finite_tree C s ch r : WF C s ch r None -> exists F, forall p i, s_heap s p = Some i -> tree F (s_heap s) p.
Proof.
  intros W. destruct (heap_max (s_heap s) (fun i => N.to_nat (len (i_path i))) _ (W_bd _ _ _ _ _ W)) as (m & HM). set (K := N.to_nat (s_fresh s)).
  assert (G : forall d p i, s_heap s p = Some i -> (m - N.to_nat (len (i_path i)) <= d)%nat -> tree (S (d + K)) (s_heap s) p).
  { induction d as [|d IH]; intros p i Hp L.
    - exists i, (ch p). split; [exact Hp|]. split; [exact (T_seg _ _ _ (W_T _ _ _ _ _ W) p i Hp)|]. split; [exact (children_short C r s ch p i W Hp)|].
      apply Forall_forall. intros c Hc. destruct (wf_child _ _ _ _ _ W p i c Hp Hc) as (ci & Hci & Pc & _). pose proof (wf_len _ _ _ _ _ W c ci p i Hci Pc Hp). specialize (HM c ci Hci). lia.
    - exists i, (ch p). split; [exact Hp|]. split; [exact (T_seg _ _ _ (W_T _ _ _ _ _ W) p i Hp)|]. split; [pose proof (children_short C r s ch p i W Hp); unfold K; lia|].
      apply Forall_forall. intros c Hc. destruct (wf_child _ _ _ _ _ W p i c Hp Hc) as (ci & Hci & Pc & _). pose proof (wf_len _ _ _ _ _ W c ci p i Hci Pc Hp). change (S d + K)%nat with (S (d + K)). apply (IH c ci Hci). specialize (HM c ci Hci). lia. }
  exists (S (m + K)). intros p i Hp. apply (G m p i Hp). lia.
Qed.

(** ** The recursive functions *)
(** the loop over the siblings *)
Definition sib (g : ptr -> M unit) : nat -> option ptr -> M unit := fix loop (k : nat) (itr : option ptr) : M unit :=
  match itr with
  | None => ret tt
  | Some q => match k with O => give_up | S k' => g q ;;; qi <- deref q ;; loop k' (i_next qi) end
  end.
Lemma sib_S g k q : sib g (S k) (Some q) = (g q ;;; qi <- deref q ;; sib g k (i_next qi)). Proof. reflexivity. Qed.
Definition lt (m : M unit) (s : fs) : Prop := term m s (fun _ s' => links (s_heap s) (s_heap s')).
Lemma sib_term g n : (forall q s, tree n (s_heap s) q -> lt (g q) s) -> forall l k itr s, seg (s_heap s) itr l -> (length l <= k)%nat -> Forall (tree n (s_heap s)) l -> lt (sib g k itr) s.
Proof.
  intros G. induction l as [|q l IH]; intros k itr s SG LE F; cbn [seg] in SG.
  - rewrite SG. destruct k; exact (links_refl _).
  - destruct SG as [-> (j & Hj & SG)]. destruct k as [|k]; [cbn in LE; lia|]. rewrite sib_S. apply term_bind. inversion F as [|? ? F1 F2]; subst. eapply term_impl; [exact (G q s F1)|]. intros [] s1 L1.
    destruct (links_fwd _ _ _ _ L1 Hj) as (j' & Hj' & _ & Nj). apply term_bind. apply (term_deref q j' s1 _ Hj').
    eapply term_impl; [apply (IH k (i_next j') s1); [rewrite Nj; exact (links_seg _ _ L1 _ _ SG)|cbn in LE; lia|eapply Forall_impl; [|exact F2]; intros c; apply tree_links; exact L1]|].
    intros a s2 L2. eapply links_trans; eassumption.
Qed.
Lemma watch_term f : watchful f -> forall n p s, tree n (s_heap s) p -> lt (watch_rec n f p) s.
Proof.
  intros Hf. induction n as [|n IH]; intros p s X; [destruct X|]. destruct X as (i & l & A & B & D & E). cbn [watch_rec]. apply term_bind. apply (term_deref p i s _ A).
  destruct (is_assoc i); [|exact (links_refl _)]. apply term_bind. destruct (Hf p s i A) as (s1 & E1 & X1). apply hwd_links in X1. unfold term at 1. rewrite E1. cbv iota beta.
  destruct (links_fwd _ _ _ _ X1 A) as (i1 & A1 & F1 & _). apply term_bind. apply (term_deref p i1 s1 _ A1). rewrite F1.
  eapply term_impl; [exact (sib_term (watch_rec n f) n IH l n (i_first i) s1 (links_seg _ _ X1 _ _ B) D (Forall_impl _ (tree_links _ _ X1 n) E))|]. intros [] s2 L2. eapply links_trans; eassumption.
Qed.
Lemma adjust_children_sib n anc : forall k itr s, adjust_children n k anc itr s = sib (adjust_moved n anc) k itr s.
Proof. induction k as [|k IH]; intros [q|] s; try reflexivity. cbn [adjust_children]. rewrite sib_S. unfold bind. destruct (adjust_moved n anc q s) as [[u s1]| |]; try reflexivity. destruct (deref q s1) as [[i s2]| |]; try reflexivity. apply IH. Qed.
Lemma adjust_term : forall n anc p s, tree n (s_heap s) p -> lt (adjust_moved n anc p) s.
Proof.
  induction n as [|n IH]; intros anc p s X; [destruct X|]. destruct X as (i & l & A & B & D & E). cbn [adjust_moved]. apply term_bind. apply (term_deref p i s _ A).
  apply term_bind. unfold term at 1, upd. apply term_bind. unfold info_of. destruct (i_info i) as [o|]; [|exact I]. apply (term_ret o). apply term_bind. apply (term_modify p i); [exact A|].
  apply term_bind. unfold term at 1, upd. set (s1 := set_paths _ _). assert (L1 : links (s_heap s) (s_heap s1)) by (unfold s1; cbn [s_heap set_paths set_heap]; apply (links_upd _ p i); auto).
  eapply term_impl; [exact (sib_term (adjust_moved n (join anc (oi_name o))) n (IH _) l n (i_first i) s1 (links_seg _ _ L1 _ _ B) D (Forall_impl _ (tree_links _ _ L1 n) E))|]. intros [] s2 L2. eapply links_trans; eassumption.
Qed.
Lemma adjust_children_term n anc p i s : s_heap s p = Some i -> tree n (s_heap s) p -> lt (adjust_children n n anc (i_first i)) s.
Proof.
  intros Hp X. unfold lt, term. rewrite adjust_children_sib. destruct n as [|n]; [destruct X|]. destruct X as (i0 & l & A & B & D & E). rewrite Hp in A. injection A as <-.
  apply (sib_term (adjust_moved (S n) anc) (S n) (adjust_term (S n) anc) l (S n) (i_first i) s B); [lia|]. eapply Forall_impl; [|exact E]. intros c. apply tree_mono. lia.
Qed.

(** ** Renaming *)
Theorem rename_terminates C s ch r : WF C s ch r None -> exists F, forall fuel h n, (F <= fuel)%nat -> set_file_name C fuel h n s <> Abort.
Proof.
  intros W. destruct (finite_tree C s ch r W) as (F & TR). exists F. intros fuel h n LE. 
  assert (G : term (set_file_name C fuel h n) s (fun _ _ => True)); [|unfold term in G; intros X; rewrite X in G; exact G].
  unfold set_file_name. apply term_bind. unfold term at 1, handle_value, get. destruct (aget h (s_handles s)) as [[p|]|]; [|exact I|exact I]. apply term_bind. unfold term at 1, deref. destruct (s_heap s p) as [i|] eqn:Hp; [|exact I].
  pose proof (tree_mono _ _ fuel p LE (TR p i Hp)) as X. apply term_bind. assert (EV : term (file_name_valid n (i_parent i)) s (fun _ s1 => s1 = s)).
  { unfold file_name_valid. destruct (existsb illegal_char n || all_dots n); [reflexivity|]. unfold term, bind, deref_opt, deref, get, ret. destruct (i_parent i) as [q|]; [|exact I]. destruct (s_heap s q); reflexivity. }
  eapply term_impl; [exact EV|]. clear EV. intros b s1 E. cbv beta in E.
  subst s1. destruct b; [|exact I]. cbn [negb]. set (dst := rev _ ++ n). destruct (rename_cases C (i_path i) dst s) as (ok & s1 & EREN & CASES). apply term_bind. unfold term at 1. rewrite EREN. cbv iota beta.
  assert (H1 : s_heap s1 = s_heap s). { destruct CASES as [[_ ->]|(_ & _ & [[_ ->]|(_ & _ & _ & _ & _ & ->)])]; reflexivity. }
  apply term_bind. destruct ok; [|exact I]. cbn [when]. do 2 (apply term_bind; unfold term at 1, upd). apply term_bind. unfold info_of. destruct (i_info i) as [o|]; [|exact I]. apply term_ret.
  apply term_bind. unfold term at 1, modify. cbn [s_heap set_paths set_puoids]. rewrite H1, Hp. cbv iota beta. apply term_bind. unfold term at 1, modify. cbn [s_heap set_heap]. rewrite nupd_eq. cbv iota beta.
  do 2 (apply term_bind; unfold term at 1, upd). set (s2 := set_puoids _ _).
  assert (L2 : links (s_heap s) (s_heap s2)).
  { unfold s2. cbn [s_heap set_paths set_puoids set_heap]. rewrite ?H1. eapply links_trans; [apply (links_upd _ p i (it_path dst i) Hp); reflexivity|]. apply (links_upd _ p (it_path dst i)); [apply nupd_eq|reflexivity|reflexivity]. }
  apply term_bind. eapply term_impl; [apply (watch_term remove_watch watchful_remove fuel p s2 (tree_links _ _ L2 _ _ X))|]. intros [] s3 L3.
  assert (L23 : links (s_heap s) (s_heap s3)) by (eapply links_trans; eassumption). apply term_bind. eapply term_impl; [apply (watch_term (add_watch C) (watchful_add C) fuel p s3 (tree_links _ _ L23 _ _ X))|]. intros [] s4 L4.
  assert (L24 : links (s_heap s) (s_heap s4)) by (eapply links_trans; eassumption). destruct (links_fwd _ _ _ _ L24 Hp) as (i4 & Hp4 & F4 & _). rewrite <- F4.
  eapply term_impl; [apply (adjust_children_term fuel dst p i4 s4 Hp4 (tree_links _ _ L24 _ _ X))|]. intros; exact I.
Qed.

(** ** Moving *)
Theorem move_terminates_if C s ch r : WF C s ch r None -> exists F, forall fuel h q phys, (F <= fuel)%nat ->
  (phys = false -> forall p i q' j, aget h (s_handles s) = Some (Some p) -> s_heap s p = Some i -> aget q (s_handles s) = Some (Some q') -> s_heap s q' = Some j -> under (i_path i) (i_path j) = false) ->
  move_object C fuel h q phys s <> Abort.
Proof.
  intros W. destruct (finite_tree C s ch r W) as (F & TR). exists F. intros fuel h par phys LE PH.
  assert (G : term (move_object C fuel h par phys) s (fun _ _ => True)); [|unfold term in G; intros X; rewrite X in G; exact G].
  unfold move_object. apply term_bind. unfold term at 1, has_handle, get, ahas. destruct (aget h (s_handles s)) as [v|] eqn:Eh; [|exact I]. cbn [negb]. apply term_bind. unfold term at 1, get, ahas. destruct (aget par (s_handles s)) as [u|] eqn:Ep; [|exact I]. cbn [negb].
  apply term_bind. unfold term at 1, handle_ref. rewrite Eh. apply term_bind. unfold term at 1, handle_ref. rewrite Ep.
  destruct (W_h _ _ _ _ _ W h v Eh) as (p & i & -> & Hp & _ & _). destruct (W_h _ _ _ _ _ W par u Ep) as (q & j & -> & Hq & _ & _).
  apply term_bind, (term_deref q j s _ Hq), term_bind, (term_deref p i s _ Hp). destruct (W_info _ _ _ _ _ W p i Hp) as (o & Ho & _). apply term_bind. unfold info_of. rewrite Ho. apply (term_ret o).
  apply term_bind. unfold term at 1, get. set (dst := join (i_path j) (oi_name o)). match goal with |- context [if ?b then _ else _] => destruct b end; [exact I|].
  pose proof (tree_mono _ _ fuel p LE (TR p i Hp)) as X.
  pose proof (rewatch_ok C r s ch W fuel p i Hp) as RW. apply term_bind. pose proof (watch_term remove_watch watchful_remove fuel p s X) as WT. unfold lt, term in WT. unfold term at 1. destruct (watch_rec fuel remove_watch p s) as [[[] s1]| |]; [|exact I|destruct WT]. destruct RW as (L & _ & WS1 & EH1 & _). clear WT. destruct (wsame_fields _ _ WS1) as (FR1 & _).
  assert (STEP : exists ok s2, (if phys then sys_rename C (i_path i) dst else ret true) s1 = Ret (ok, s2) /\ s_heap s2 = s_heap s /\ s_fresh s2 = s_fresh s1 /\ (ok = true -> under (i_path i) (i_path j) = false)).
  { destruct phys; [|exists true, s1; split; [reflexivity|]; split; [exact EH1|]; split; [reflexivity|]; intros _; exact (PH eq_refl p i q j eq_refl Hp eq_refl Hq)].
    destruct (rename_cases C (i_path i) dst s1) as (ok & s2 & EREN & CASES). exists ok, s2. split; [exact EREN|].
    assert (H2 : s_heap s2 = s_heap s /\ s_fresh s2 = s_fresh s1). { destruct CASES as [[_ ->]|(_ & _ & [[_ ->]|(_ & _ & _ & _ & _ & ->)])]; cbn; auto. } split; [apply H2|]. split; [apply H2|]. intros ->.
    destruct CASES as [[Y _]|(_ & _ & CASES)]; [discriminate|]. destruct (under (i_path i) (i_path j)) eqn:U; [|reflexivity]. exfalso. destruct CASES as [[E _]|(_ & E & _)].
    - apply under_len in U. assert (len dst = len (i_path i)) by congruence. unfold dst in H. rewrite len_join in H. lia.
    - assert (V : under (i_path i) dst = true) by (apply under_join; exact U). congruence. }
  destruct STEP as (ok & s2 & EREN & H2 & F2 & NU). apply term_bind. unfold term at 1. rewrite EREN. cbv iota beta.
  destruct ok; cbn [negb].
  2:{ apply term_bind. eapply term_impl; [apply (watch_term (add_watch C) (watchful_add C) fuel p s2); rewrite H2; exact X|]. intros; exact I. }
  specialize (NU eq_refl). do 2 (apply term_bind; unfold term at 1, upd). set (s3 := set_paths _ _). assert (H3 : s_heap s3 = s_heap s) by exact H2.
  assert (Nr : p <> r).
  { intros ->. destruct (W_root _ _ _ _ _ W) as (ri & A1 & _ & A3 & _). rewrite Hp in A1. injection A1 as <-. rewrite A3, (wf_under_root _ _ _ _ _ W q j Hq) in NU. discriminate. }
  set (P := fun x => exists k, s_heap s x = Some k /\ under (i_path i) (i_path k) = true /\ x <> p).
  assert (CHP : forall x k l c, s_heap s x = Some k -> under (i_path i) (i_path k) = true -> seg (s_heap s) (i_first k) l -> In c l -> P c).
  { intros x k l c Hx U SG Hc. rewrite (seg_det _ _ _ _ SG (T_seg _ _ _ (W_T _ _ _ _ _ W) x k Hx)) in Hc. destruct (wf_child _ _ _ _ _ W x k c Hx Hc) as (ci & Hci & Pc & _).
    destruct (child_path C s ch r W x k c ci Hx Hc Hci) as (nm & _ & En). exists ci. split; [exact Hci|]. split; [rewrite En; apply under_join; exact U|]. intros ->. rewrite Hp in Hci. injection Hci as <-. apply under_len in U. rewrite En, len_join in U. lia. }
  destruct (unlink_exec ch (eq r) p s3 i) as (H4 & par' & l1 & l2 & EX4 & Epp & Ech & HL4 & Hp4 & FRM & T4).
  { rewrite H3. apply (W_T _ _ _ _ _ W). } { rewrite H3. change (s_fresh s3) with (s_fresh s2). rewrite F2, FR1. apply (W_bd _ _ _ _ _ W). } { rewrite H3. exact Hp. } { congruence. } { eapply wf_noself; eassumption. }
  apply term_bind. unfold term at 1. rewrite EX4. cbv iota beta. set (s4 := set_heap H4 s3).
  destruct (wf_parent _ _ _ _ _ W p i Hp Nr) as (pp & pj & o' & A1 & A2 & A3 & _). rewrite A1 in Epp. injection Epp as <-.
  assert (K4 : forall x k, P x -> s_heap s x = Some k -> H4 x = Some k).
  { intros x k (k' & Hx & U & Nx) Hk. rewrite Hk in Hx. injection Hx as <-. rewrite FRM; [rewrite H3; exact Hk| |].
    - intros ->. rewrite A2 in Hk. injection Hk as <-. pose proof (wf_len _ _ _ _ _ W p i pp pj Hp A1 A2). apply under_len in U. lia.
    - intros Hc. exact (sib_disjoint C s ch r W pp pj p x i k (i_path k) A2 A3 Hc Hp Hk (fun E => Nx (eq_sym E)) U (under_refl _)). }
  apply term_bind. apply (term_deref p (it_next None i) s4); [exact Hp4|]. cbn [i_first it_next].
  assert (X4 : tree fuel (s_heap s4) p).
  { apply (tree_frame P (s_heap s) H4) with (i := i); [| |exact Hp| | |exact X].
    - intros x k l c (k' & Hx & U & _) Hk SG Hc. rewrite Hk in Hx. injection Hx as <-. exact (CHP x k l c Hk U SG Hc).
    - intros x k Px Hk. exists k. split; [exact (K4 x k Px Hk)|auto].
    - intros l c SG Hc. exact (CHP p i l c Hp (under_refl _) SG Hc).
    - exists (it_next None i). split; [exact Hp4|reflexivity]. }
  apply term_bind. eapply term_impl; [apply (adjust_children_term fuel dst p (it_next None i) s4 Hp4 X4)|]. intros [] s5 L5.
  destruct (links_fwd _ _ _ _ L5 Hp4) as (i5 & Hp5 & Fi5 & _).
  assert (Npq : q <> p) by (intros ->; rewrite Hp in Hq; injection Hq as <-; rewrite under_refl in NU; discriminate).
  assert (Hq5 : exists j5, s_heap s5 q = Some j5).
  { destruct (s_heap s5 q) as [j5|] eqn:E; [eauto|]. exfalso. pose proof (L5 q) as Y. rewrite E in Y. change (s_heap s4) with H4 in Y. destruct (H4 q) eqn:E4; [exact Y|]. pose proof (HL4 q) as Z. rewrite H3, Hq, E4 in Z. exact Z. }
  destruct Hq5 as (j5 & Hq5).
  assert (FIN : forall s6, (forall x k, P x -> s_heap s5 x = Some k -> s_heap s6 x = Some k) -> (exists i6, s_heap s6 p = Some i6 /\ i_first i6 = i_first i) -> tree fuel (s_heap s6) p).
  { intros s6 K6 P6. apply (tree_frame P (s_heap s) (s_heap s6)) with (i := i); [| |exact Hp| |exact P6|exact X].
    - intros x k l c (k' & Hx & U & _) Hk SG Hc. rewrite Hk in Hx. injection Hx as <-. exact (CHP x k l c Hk U SG Hc).
    - intros x k Px Hk. destruct (links_fwd _ _ _ _ L5 (K4 x k Px Hk)) as (k5 & B1 & B2 & B3). exists k5. split; [exact (K6 x k5 Px B1)|auto].
    - intros l c SG Hc. exact (CHP p i l c Hp (under_refl _) SG Hc). }
  assert (NPq : ~ P q) by (intros (k & B1 & B2 & _); rewrite Hq in B1; injection B1 as <-; congruence). assert (NPp : ~ P p) by (intros (k & _ & _ & B); apply B; reflexivity).
  apply term_bind. unfold link_child. apply term_bind, (term_modify p i5); [exact Hp5|]. cbn [i_first it_next] in Fi5.
  apply term_bind, (term_deref q j5); [cbn [s_heap set_heap]; rewrite nupd_neq by exact Npq; exact Hq5|].
  assert (LAST : forall s6 i6, s_heap s6 p = Some i6 -> i_first i6 = i_first i -> (forall x k, P x -> s_heap s5 x = Some k -> s_heap s6 x = Some k) -> term (modify p (it_path dst);;; modify p (fun i0 : item => it_info match i_info i0 with | Some o0 => Some (oi_set_parent par o0) | None => None end i0);;; watch_rec fuel (add_watch C) p;;; ret R_OK) s6 (fun _ _ => True)).
  { intros s6 i6 Hp6 F6 K6. apply term_bind, (term_modify p i6); [exact Hp6|]. apply term_bind. eapply term_modify; [cbn [s_heap set_heap]; apply nupd_eq|]. apply term_bind. eapply term_impl; [apply (watch_term (add_watch C) (watchful_add C) fuel p)|intros; exact I].
    apply FIN; cbn [s_heap set_heap].
    - intros x k Px Hk. rewrite !nupd_neq by (intros ->; contradiction). exact (K6 x k Px Hk).
    - eexists. split; [apply nupd_eq|]. exact F6. }
  destruct (i_first j5) as [old|].
  - apply term_bind, (term_modify q j5); [cbn [s_heap set_heap]; rewrite nupd_neq by exact Npq; exact Hq5|]. eapply term_modify; [cbn [s_heap set_heap]; rewrite nupd_neq by congruence; apply nupd_eq|].
    eapply LAST; cbn [s_heap set_heap]; [apply nupd_eq|exact Fi5|]. intros x k Px Hk. rewrite !nupd_neq by (intros ->; contradiction). exact Hk.
  - apply (term_modify q j5); [cbn [s_heap set_heap]; rewrite nupd_neq by exact Npq; exact Hq5|].
    eapply LAST; cbn [s_heap set_heap]; [rewrite nupd_neq by congruence; apply nupd_eq|exact Fi5|]. intros x k Px Hk. rewrite !nupd_neq by (intros ->; contradiction). exact Hk.
Qed.

Theorem move_terminates C s ch r : WF C s ch r None -> exists F, forall fuel h q, (F <= fuel)%nat -> move_object C fuel h q true s <> Abort.
Proof. intros W. destruct (move_terminates_if C s ch r W) as (F & H). exists F. intros fuel h q LE. apply H; [exact LE|discriminate]. Qed.
