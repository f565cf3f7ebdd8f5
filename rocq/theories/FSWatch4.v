(** The operations and the watch descriptors: moving, and what other programs do. *)
From Verif Require Import Base AList Wire FS FSPath FSTree FSLogic FSAdd FSAdd2 FSDel FSSub FSMove FSMove2 FSEv FSWatch FSWatch2 FSFirm FSWatch3.

Section Watch4.
Variables (C : conf) (WT : forall t, c_wd C t <> None) (WI : forall t t' n, c_wd C t = Some n -> c_wd C t' = Some n -> t = t') (SO : supply_ok C) (r : ptr).
Notation asrt := (asrt C). Notation tr3 := (tr3 C). Notation nt := (nt C).
Implicit Types (D : ptr -> Prop) (K : ptr -> N -> option bool -> Prop).
Ltac nt1 := lazymatch goal with
  | |- nt (bind _ _) => apply nt_bind; [|intros ?]
  | |- nt (deref _) => apply nt_deref
  | |- nt (deref_opt _) => apply nt_deref_opt
  | |- nt (ret _) => apply nt_ret
  | |- nt crash => apply nt_crash
  | |- nt give_up => apply nt_giveup
  | |- nt (get _) => apply nt_get
  | |- nt tick => apply nt_tick
  | |- nt (free _) => apply nt_free
  | |- nt (emit _ _) => apply nt_emit
  | |- nt (info_of _) => apply nt_info
  | |- nt (handle_ref _) => apply nt_handle_ref
  | |- nt (handle_value _) => apply nt_handle_value
  | |- nt (has_handle _) => apply nt_has_handle
  | |- nt (when _ _) => apply nt_when
  | |- nt (upd _) => apply nt_upd; intros; cbn; auto 10
  | |- nt (modify _ _) => apply nt_modify; intros; auto
  | |- nt (match ?x with _ => _ end) => destruct x
  end.
Ltac ntx := repeat nt1.
Tactic Notation "ntl" tactic3(t) := repeat first [t | nt1].


(** a change outside of what lies below [p] does not matter to a walk from [p] *)
Lemma vis_kept s ch p i H' : WF C s ch r None -> s_heap s p = Some i ->
  (forall y k, s_heap s y = Some k -> under (i_path i) (i_path k) = true -> y <> p -> lview H' y = lview (s_heap s) y) ->
  (exists n', lview H' p = Some (i_first i, n', is_assoc i)) ->
  forall x, vis (lview (s_heap s)) p x -> vis (lview H') p x.
Proof.
  intros W Hp HB (n' & HP). set (Z := fun a => a = p \/ exists k, s_heap s a = Some k /\ under (i_path i) (i_path k) = true /\ a <> p).
  assert (LV : forall a f n b, Z a -> lview (s_heap s) a = Some (f, n, b) -> exists n1, lview H' a = Some (f, n1, b) /\ (a <> p -> n1 = n)).
  { intros a f n b [->|(k & Hk & U & N)] L; [rewrite (lview_some _ _ _ Hp) in L; injection L as <- <- <-; exists n'; auto; split; [exact HP|contradiction]|]. exists n. rewrite (HB a k Hk U N). auto. }
  assert (CH : forall a k c ck, Z a -> s_heap s a = Some k -> In c (ch a) -> s_heap s c = Some ck -> Z c /\ c <> p).
  { intros a k c ck Za Ha Hc Hck. destruct (child_path C s ch r W a k c ck Ha Hc Hck) as (n & _ & En). assert (Ua : under (i_path i) (i_path k) = true).
    { destruct Za as [->|(k0 & Hk0 & U & _)]; [rewrite Hp in Ha; injection Ha as <-; apply under_refl|]. rewrite Ha in Hk0. injection Hk0 as <-. exact U. }
    assert (N : c <> p). { intros ->. rewrite Hp in Hck. injection Hck as <-. apply under_len in Ua. rewrite En, len_join in Ua. lia. }
    split; [right; exists ck; split; [exact Hck|]; split; [rewrite En; apply under_join; exact Ua|exact N]|exact N]. }
  pose proof (T_seg _ _ _ (W_T _ _ _ _ _ W)) as SG.
  assert (B : (forall a x, vis (lview (s_heap s)) a x -> Z a -> vis (lview H') a x) /\
     (forall o x, visl (lview (s_heap s)) o x -> forall a k l1 l2, Z a -> s_heap s a = Some k -> ch a = l1 ++ l2 -> seg (s_heap s) o l2 -> visl (lview H') o x)).
  { apply (vis_both (lview (s_heap s)) (fun a x => Z a -> vis (lview H') a x) (fun o x => forall a k l1 l2, Z a -> s_heap s a = Some k -> ch a = l1 ++ l2 -> seg (s_heap s) o l2 -> visl (lview H') o x)).
    - intros a f n L Za. destruct (LV a f n true Za L) as (n1 & L1 & _). eapply vis_self. exact L1.
    - intros a f n x L _ IH Za. destruct (LV a f n true Za L) as (n1 & L1 & _). eapply vis_down; [exact L1|]. destruct (lview_inv _ _ _ L) as (k & Hk & Ek). injection Ek as -> -> _. eapply (IH a k [] (ch a)); [exact Za|exact Hk|reflexivity|exact (SG a k Hk)].
    - intros q x _ IH a k l1 l2 Za Ha Ech SQ. apply visl_here. apply IH. destruct l2 as [|q' l2]; [discriminate|]. destruct SQ as [[= <-] (qi & Hq & _)]. apply (CH a k q qi Za Ha); [rewrite Ech; apply in_or_app; right; left; reflexivity|exact Hq].
    - intros q f n b x L _ IH a k l1 l2 Za Ha Ech SQ. destruct l2 as [|q' l2]; [discriminate|]. destruct SQ as [[= <-] (qi & Hq & SQ)]. destruct (CH a k q qi Za Ha) as [Zq Nq]; [rewrite Ech; apply in_or_app; right; left; reflexivity|exact Hq|].
      destruct (LV q f n b Zq L) as (n1 & L1 & E1). rewrite (E1 Nq) in L1. eapply visl_next; [exact L1|]. rewrite (lview_some _ _ _ Hq) in L. injection L as <- <- <-. eapply (IH a k (l1 ++ [q]) l2); [exact Za|exact Ha|rewrite <- app_assoc; exact Ech|exact SQ]. }
  intros x V. apply (proj1 B); [exact V|left; reflexivity].
Qed.
(** [modify] that keeps the links *)
Lemma lsame_mod p f s a s' : (forall i, i_first (f i) = i_first i /\ i_next (f i) = i_next i /\ is_assoc (f i) = is_assoc i) -> modify p f s = Ret (a, s') -> lsame s s'.
Proof.
  intros Hf E. unfold modify in E. destruct (s_heap s p) as [i|] eqn:Hp; [|discriminate]. injection E as <- <-. intros x. unfold lview. cbn. unfold nupd. destruct (x =? p) eqn:Ex; [|reflexivity]. apply N.eqb_eq in Ex. subst x. rewrite Hp. destruct (Hf i) as (-> & -> & ->). reflexivity.
Qed.
Lemma lsame_adjust_moved : forall fuel anc p s a s', adjust_moved fuel anc p s = Ret (a, s') -> lsame s s'.
Proof.
  induction fuel as [|n IH]; intros anc p s a s' E; [discriminate|]. cbn [adjust_moved] in E. unfold bind at 1 in E. unfold deref at 1 in E. destruct (s_heap s p) as [i|] eqn:Hp; [|discriminate]. unfold bind at 1 in E. unfold upd at 1 in E. unfold bind at 1 in E. unfold info_of at 1 in E. destruct (i_info i) as [o|]; [|discriminate]. unfold ret at 1 in E. cbv zeta in E.
  unfold bind at 1 in E. match type of E with match modify p ?f ?st with _ => _ end = _ => destruct (modify p f st) as [[[] s1]| |] eqn:E1; try discriminate end. apply lsame_mod in E1; [|auto].
  unfold bind at 1 in E. unfold upd at 1 in E. eapply lsame_trans; [exact E1|].
  assert (LOOP : forall dst k o s a s', (fix loop (k : nat) (itr : option ptr) : M unit := match itr with None => ret tt | Some q => match k with O => give_up | S k' => adjust_moved n dst q ;;; qi <- deref q ;; loop k' (i_next qi) end end) k o s = Ret (a, s') -> lsame s s').
  { clear - IH. intros dst. induction k as [|k IHk]; intros [c|] s2 a s1 E1; try discriminate.
    - injection E1 as <- <-. apply lsame_refl.
    - unfold bind at 1 in E1. destruct (adjust_moved n dst c s2) as [[[] s3]| |] eqn:E3; try discriminate. unfold bind at 1 in E1. unfold deref at 1 in E1. destruct (s_heap s3 c); [|discriminate]. eapply lsame_trans; [eapply IH; exact E3|]. eapply IHk; exact E1.
    - injection E1 as <- <-. apply lsame_refl. }
  intros x. rewrite (LOOP _ _ _ _ _ _ E x). reflexivity.
Qed.
Lemma lsame_adjust fuel anc : forall k o s a s', adjust_children fuel k anc o s = Ret (a, s') -> lsame s s'.
Proof.
  induction k as [|k IHk]; intros [c|] s2 a s1 E1; cbn [adjust_children] in E1; try discriminate; try (injection E1 as <- <-; apply lsame_refl).
  unfold bind at 1 in E1. destruct (adjust_moved fuel anc c s2) as [[[] s3]| |] eqn:E3; try discriminate. unfold bind at 1 in E1. unfold deref at 1 in E1. destruct (s_heap s3 c); [|discriminate]. eapply lsame_trans; [eapply lsame_adjust_moved; exact E3|]. eapply IHk; exact E1.
Qed.
Lemma rename_heap a b s ok s' : sys_rename C a b s = Ret (ok, s') -> s_heap s' = s_heap s /\ s_fresh s' = s_fresh s /\ (ok = true -> a = b \/ under a b = false).
Proof.
  intros E. destruct (rename_cases C a b s) as (ok1 & s1 & E1 & X). rewrite E in E1. injection E1 as <- <-. destruct X as [[-> ->]|(-> & _ & [[B ->]|(B1 & B2 & _ & _ & _ & ->)])]; cbn; auto. repeat split; auto. discriminate.
Qed.
Lemma move_w fuel h par phys s ch D K code s' : WF C s ch r None -> (phys = false -> forall p q i j, aget h (s_handles s) = Some (Some p) -> aget par (s_handles s) = Some (Some q) -> s_heap s p = Some i -> s_heap s q = Some j -> under (i_path i) (i_path j) = false) ->
  asrt D K s -> move_object C fuel h par phys s = Ret (code, s') -> asrt (fun x => D x \/ missing s' x) K s'.
Proof.
  intros W PRE HA E. assert (OUT : forall s0, asrt D K s0 -> asrt (fun x => D x \/ missing s0 x) K s0) by (intros s0 H0; eapply asrt_weak; [exact H0|auto]). unfold move_object in E. unfold bind at 1 in E. unfold has_handle, get at 1 in E. unfold ahas at 1 in E.
  destruct (aget h (s_handles s)) as [v|] eqn:Eh; cbn [negb] in E; [|injection E as <- <-; apply OUT; exact HA].
  destruct (W_h _ _ _ _ _ W h v Eh) as (p & i & -> & Hp & Hih & _). unfold bind at 1 in E. unfold get at 1 in E. unfold ahas at 1 in E.
  destruct (aget par (s_handles s)) as [v|] eqn:Epar; cbn [negb] in E; [|injection E as <- <-; apply OUT; exact HA].
  destruct (W_h _ _ _ _ _ W par v Epar) as (q & j & -> & Hq & Hjh & _).
  unfold bind at 1 in E. unfold handle_ref at 1 in E. rewrite Eh in E. unfold bind at 1 in E. unfold handle_ref at 1 in E. rewrite Epar in E.
  unfold bind at 1 in E. unfold deref at 1 in E. rewrite Hq in E. unfold bind at 1 in E. unfold deref at 1 in E. rewrite Hp in E.
  destruct (W_info _ _ _ _ _ W p i Hp) as (o & O1 & _). unfold bind at 1 in E. unfold info_of at 1 in E. rewrite O1 in E. unfold ret at 1 in E. cbv zeta in E. set (dst := join (i_path j) (oi_name o)) in *.
  unfold bind at 1 in E. unfold get at 1 in E.
  match type of E with (if ?b then _ else _) _ = _ => destruct b end; [injection E as <- <-; apply OUT; exact HA|].
  unfold bind at 1 in E. pose proof (rewatch_ok C r s ch W fuel p i Hp) as X1. destruct (watch_rec fuel remove_watch p s) as [[[] s1]| |] eqn:E1; try discriminate.
  destruct X1 as (_ & _ & _ & EH1 & W1 & _). destruct (walk_remove C fuel p D K s tt s1 HA E1) as [_ HA1].
  unfold bind at 1 in E.
  destruct ((if phys then sys_rename C (i_path i) dst else ret true) s1) as [[ok s2]| |] eqn:E2; try discriminate.
  assert (R : s_heap s2 = s_heap s /\ s_fresh s2 = s_fresh s1 /\ (ok = true -> phys = true -> i_path i = dst \/ under (i_path i) dst = false)).
  { destruct phys; [apply rename_heap in E2 as (R1 & R2 & R3); rewrite R1; auto|]. injection E2 as <- <-. split; [exact EH1|]. split; [reflexivity|discriminate]. }
  destruct R as (EH2 & EF2 & R3). assert (HA2 : asrt (fun x => D x \/ vis (lview (s_heap s)) p x) K s2).
  { assert (N : nt (if phys then sys_rename C (i_path i) dst else ret true)) by (destruct phys; [apply nt_rename|apply nt_ret]). exact (N _ _ _ _ _ HA1 E2). }
  destruct ok; cbn [negb] in E.
  2:{ unfold bind at 1 in E. destruct (watch_rec fuel (add_watch C) p s2) as [[[] s3]| |] eqn:E3; try discriminate. injection E as <- <-. refine (walk_add_end C WT WI fuel p D K s2 tt s3 _ E3). rewrite EH2. exact HA2. }
  assert (NU : under (i_path i) (i_path j) = false).
  { destruct phys; [|eapply PRE; try reflexivity; eassumption]. destruct (under (i_path i) (i_path j)) eqn:U; [|reflexivity]. exfalso. destruct (R3 eq_refl eq_refl) as [Z|Z].
    - apply under_len in U. assert (len dst = len (i_path i)) by congruence. unfold dst in H. rewrite len_join in H. lia.
    - assert (V : under (i_path i) dst = true) by (apply under_join; exact U). congruence. }
  assert (Nr : p <> r).
  { intros ->. destruct (W_root _ _ _ _ _ W) as (ri & A1 & _ & A3 & _). rewrite Hp in A1. injection A1 as <-. rewrite A3 in NU. rewrite (wf_under_root _ _ _ _ _ W q j Hq) in NU. discriminate. }
  destruct (wf_parent _ _ _ _ _ W p i Hp Nr) as (pp & pj & o' & A1 & A2 & A3 & A4 & A5 & A6 & A7). rewrite O1 in A4. injection A4 as <-.
  unfold bind at 1 in E. unfold upd at 1 in E. unfold bind at 1 in E. unfold upd at 1 in E. cbn [s_paths set_paths] in E.
  match type of E with bind (unlink_child p) _ ?st = _ => set (s3 := st) in E end.
  assert (HA3 : asrt (fun x => D x \/ vis (lview (s_heap s)) p x) K s3) by (eapply asrt_same; [exact HA2|reflexivity..|cbn; lia]).
  assert (EH3 : s_heap s3 = s_heap s) by exact EH2.
  assert (EF3 : s_fresh s3 = s_fresh s1) by exact EF2.
  destruct (unlink_exec ch (eq r) p s3 i) as (H4 & par' & l1 & l2 & EX4 & Epp & Ech & HL4 & Hp4 & FRM & T4).
  { rewrite EH3. apply (W_T _ _ _ _ _ W). } { rewrite EH3, EF3, <- EH1. apply (W_bd _ _ _ _ _ W1). } { rewrite EH3. exact Hp. } { congruence. } { exact (wf_noself _ _ _ _ _ W p i Hp). }
  rewrite A1 in Epp. injection Epp as <-.
  unfold bind at 1 in E. rewrite EX4 in E. set (s4 := set_heap H4 s3) in *. assert (HA4 : asrt (fun x => D x \/ vis (lview (s_heap s)) p x) K s4) by exact (nt_unlink C p _ _ _ _ _ HA3 EX4).
  unfold bind at 1 in E. unfold deref at 1 in E. cbn [s4 s_heap set_heap] in E. rewrite Hp4 in E. cbn [i_first it_next] in E.
  assert (INT : forall y k, s_heap s y = Some k -> under (i_path i) (i_path k) = true -> y <> p -> H4 y = Some k).
  { intros y k Hy U Ny. rewrite FRM; [rewrite EH3; exact Hy| |].
    - intros ->. rewrite A2 in Hy. injection Hy as <-. apply under_len in U. rewrite A6, len_join in U. lia.
    - intros Hin. destruct (child_path C s ch r W pp pj y k A2 Hin Hy) as (n & Pn & En). rewrite En in U. apply under_join_inv in U as [U|U]; [|apply under_len in U; rewrite A6, len_join in U; lia|apply Pn].
      apply Ny. eapply (wf_path_uniq _ _ _ _ _ W); [exact Hy|exact Hp|discriminate|discriminate|congruence]. }
  unfold bind at 1 in E. fold s4 in E. destruct (adjust_children fuel fuel dst (i_first i) s4) as [[[] s5]| |] eqn:E5; try discriminate.
  pose proof (nt_adjust_children C fuel dst fuel (i_first i) _ _ _ _ _ HA4 E5) as HA5. apply lsame_adjust in E5.
  assert (Npq : p <> q) by (intros ->; rewrite Hp in Hq; injection Hq as <-; rewrite under_refl in NU; discriminate).
  assert (LP5 : lview (s_heap s5) p = Some (i_first i, None, is_assoc i)) by (rewrite (E5 p); unfold lview, s4; cbn [s_heap set_heap]; rewrite Hp4; reflexivity).
  destruct (lview_inv _ _ _ LP5) as (p5 & Hp5 & Ep5). injection Ep5 as P1 P2 P3.
  unfold bind at 1 in E. destruct (link_child (Some p) (Some q) s5) as [[[] s6]| |] eqn:E6; try discriminate. pose proof (nt_link C (Some p) (Some q) _ _ _ _ _ HA5 E6) as HA6.
  assert (Hq5 : exists q5, s_heap s5 q = Some q5).
  { destruct (s_heap s5 q) as [q5|] eqn:Z; [eauto|]. exfalso. unfold link_child, bind, modify, deref in E6. rewrite Hp5 in E6. cbn [s_heap set_heap] in E6. rewrite nupd_neq in E6 by congruence. rewrite Z in E6. discriminate. }
  destruct Hq5 as (q5 & Hq5). destruct (link_exec p q s5 p5 q5 Hp5 Hq5 Npq (eq_sym P2)) as (H6 & EX6 & E6'). rewrite E6 in EX6. injection EX6 as EX6.
  unfold bind at 1 in E. destruct (modify p (it_path dst) s6) as [[[] s7]| |] eqn:E7; try discriminate. assert (N7 : nt (modify p (it_path dst))) by nt1. pose proof (N7 _ _ _ _ _ HA6 E7) as HA7. apply lsame_mod in E7; [|auto].
  unfold bind at 1 in E. match type of E with match ?m s7 with _ => _ end = _ => destruct (m s7) as [[[] s8]| |] eqn:E8; try discriminate; assert (N8 : nt m) by (apply nt_modify; intros k; unfold kind; cbn; destruct (i_info k); auto) end.
  pose proof (N8 _ _ _ _ _ HA7 E8) as HA8. apply lsame_mod in E8; [|intros k; unfold is_assoc; cbn; destruct (i_info k); auto].
  unfold bind at 1 in E. destruct (watch_rec fuel (add_watch C) p s8) as [[[] s9]| |] eqn:E9; try discriminate. injection E as <- <-.
  refine (walk_add_end C WT WI fuel p D K s8 tt s9 _ E9). eapply asrt_weak; [exact HA8|]. intros x [Z|Z]; [auto|right].
  assert (LS : forall y, lview (s_heap s8) y = lview H6 y) by (intros y; rewrite (E8 y), (E7 y), EX6; reflexivity).
  eapply vis_ext; [exact LS|]. apply (vis_kept s ch p i H6 W Hp); [| |exact Z].
  - intros y k Hy U Ny. unfold lview at 1. rewrite E6'. unfold linked. rewrite !nupd_neq; [| |exact Ny]; [|intros ->; rewrite Hq in Hy; injection Hy as <-; congruence].
    change (match s_heap s5 y with Some i0 => Some (i_first i0, i_next i0, is_assoc i0) | None => None end) with (lview (s_heap s5) y). rewrite (E5 y). unfold lview, s4. cbn [s_heap set_heap]. rewrite (INT y k Hy U Ny), Hy. reflexivity.
  - unfold lview. rewrite E6'. unfold linked. rewrite nupd_eq. eexists. cbn. rewrite P1, P3. unfold is_assoc. reflexivity.
Qed.
End Watch4.
