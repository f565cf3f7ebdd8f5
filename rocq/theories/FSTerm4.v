(** Termination of every operation of the storage except copying (C89). *)
From Verif Require Import Base AList Wire FS FSPath FSTree FSLogic FSAdd FSAdd2 FSSub FSDel FSEv FSData FSData2 FSFrame FSSpec FSReach FSTerm FSTerm2 FSTerm3 FSFuel.

Definition mono {A} (m : nat -> M A) : Prop := forall f f', (f <= f')%nat -> mle (m f) (m f').
(** with a large enough bound, [m] ends *)
Definition halts {A} (m : nat -> M A) (s : fs) : Prop := exists F, m F s <> Abort.
Lemma halts_all {A} (m : nat -> M A) s : mono m -> halts m s -> exists F r, r <> Abort /\ forall f, (F <= f)%nat -> m f s = r.
Proof. intros X (F & H). exists F, (m F s). split; [exact H|]. intros f L. apply (X F f L s). exact H. Qed.
Lemma halts_of {A} (m : nat -> M A) s F : (forall f, (F <= f)%nat -> m f s <> Abort) -> halts m s.
Proof. intros H. exists F. apply H. lia. Qed.
Lemma halts_bind {A B} (m : nat -> M A) (k : nat -> A -> M B) s : mono m -> (forall a, mono (fun f => k f a)) -> halts m s ->
  (forall F a s1, m F s = Ret (a, s1) -> halts (fun f => k f a) s1) -> halts (fun f => bind (m f) (k f)) s.
Proof.
  intros MM MK (F & HF) K. destruct (m F s) as [[a s1]| |] eqn:E; [|exists F; unfold bind; rewrite E; discriminate|contradiction].
  destruct (K F a s1 E) as (F2 & H2). exists (max F F2). unfold bind. rewrite (MM F (max F F2) ltac:(lia) s) by (rewrite E; discriminate). rewrite E.
  rewrite (MK a F2 (max F F2) ltac:(lia) s1 H2). exact H2.
Qed.
Lemma halts_const {A} (m : M A) s : m s <> Abort -> halts (fun _ => m) s. Proof. intros H. exists O. exact H. Qed.
Lemma halts_nab {A} (m : M A) s : nab m -> halts (fun _ => m) s. Proof. intros H. apply halts_const, H. Qed.
Lemma mono_const {A} (m : M A) : mono (fun _ => m). Proof. intros f f' _. apply mle_refl. Qed.
Lemma halts_get {A B} (g : fs -> A) (k : nat -> A -> M B) s : halts (fun f => k f (g s)) s -> halts (fun f => bind (get g) (k f)) s.
Proof. intros (F & H). exists F. exact H. Qed.
Lemma halts_ign {A B} (m : nat -> M A) (b : B) s : halts m s -> halts (fun f => bind (m f) (fun _ => ret b)) s.
Proof. intros (F & H). exists F. unfold bind. destruct (m F s) as [[a s1]| |]; [discriminate|discriminate|contradiction]. Qed.

Section T.
Variables (C : conf) (SO : supply_ok C) (r : ptr).
Notation good := (good C r).

(** ** Adding *)
Lemma short_exists s : exists M, short M s.
Proof.
  exists (fold_right (fun x m => N.max (len (fst x)) m) 0 (s_nodes s)). intros y. induction (s_nodes s) as [|[k n] w IH]; cbn [node_at fold_right fst]; [intros H; contradiction|].
  destruct (peqb y k) eqn:E; [intros _; apply peqb_eq in E; subst; lia|]. intros H. specialize (IH H). lia.
Qed.
Lemma short_mono M M' s : M <= M' -> short M s -> short M' s. Proof. intros L H y Hy. specialize (H y Hy). lia. Qed.
Lemma add_halts p info send create h s : halts (fun f => add_to_storage C f p info send create h) s.
Proof.
  destruct (short_exists s) as (M & SM). set (M' := N.max M (len p)). exists (S (N.to_nat (M' - len p))). assert (S' : short M' s) by (eapply short_mono; [|exact SM]; unfold M'; lia). assert (L' : len p <= M') by (unfold M'; lia).
  pose proof (add_term C M' (S (N.to_nat (M' - len p))) p info send create h s S' L' ltac:(lia)) as T.
  intros X. unfold term in T. rewrite X in T. exact T.
Qed.
Lemma mono_add p info send create h : mono (fun f => add_to_storage C f p info send create h). Proof. intros f f' L. apply add_mle. exact L. Qed.
Lemma add_item_halts i s : halts (fun f => add_item C f i) s.
Proof.
  unfold add_item. cbv zeta. apply halts_get. destruct (negb _); [apply halts_nab, nab_ret|].
  apply (halts_bind (fun _ => _)); [apply mono_const|intros a f f' L; mlex; apply add_mle; exact L|apply halts_nab; nabx|]. intros _ q s1 _.
  apply (halts_bind (fun _ => _)); [apply mono_const|intros a f f' L; mlex; apply add_mle; exact L|apply halts_nab; nabx|]. intros _ qi s2 _.
  apply halts_bind; [apply mono_add|intros a; apply mono_const|apply add_halts|]. intros F a s3 _. apply halts_nab. nabx.
Qed.
Lemma enumerate_halts s : halts (enumerate C) s.
Proof. apply (halts_bind (fun f => add_to_storage C f (c_root C) None false false 0) (fun _ r => match snd r with Some p => upd (set_root (Some p)) | None => ret tt end)); [apply mono_add|intros a; apply mono_const|apply add_halts|]. intros F a s3 _. apply halts_nab. nabx. Qed.

(** ** Deleting *)
Lemma delete_halts h phys send s : good s -> halts (fun f => delete_helper C f h phys send) s.
Proof. intros [[ch W] R]. destruct (delete_terminates C s ch r W R) as (F & H). apply (halts_of _ _ F). intros f L. apply H. exact L. Qed.
Lemma mono_delete h phys send : mono (fun f => delete_helper C f h phys send). Proof. intros f f' L. apply delete_mle. exact L. Qed.
Definition del_loop (fmt : N) (copy : list (N * option ptr)) (fuel : nat) := fix loop (l : list N) (resp : N) (some failed : bool) : M N :=
       match l with
       | [] => ret (if some && failed then R_PartialDeletion else resp)
       | k :: l' =>
         resp <- (if negb (fmt =? 0) && negb (fmt =? FMT_Undefined) then
                    i <- deref_opt (match aget k copy with Some v => v | None => None end) ;;
                    if match i_info i with Some o => oi_format o =? fmt | None => false end then delete_helper C fuel k true false else ret resp
                  else delete_helper C fuel k true false) ;;
         loop l' resp (some || isok resp) (failed || (negb (isok resp) && negb (resp =? R_InvalidObjectHandle)))
       end.
Lemma delete_item_halts order h fmt s : good s -> halts (fun f => delete_item C f order h fmt) s.
Proof.
  intros G. unfold delete_item. destruct (h =? ALL); [|apply delete_halts; exact G]. apply halts_get. generalize (s_handles s) as copy. intros copy.
  change (halts (fun f => del_loop fmt copy f order R_GeneralError false false) s).
  cut (forall l r0 b1 b2 s, good s -> mono (fun f => del_loop fmt copy f l r0 b1 b2) /\ halts (fun f => del_loop fmt copy f l r0 b1 b2) s); [intros X; apply X; exact G|].
  clear G. unfold del_loop. induction l as [|k l IH]; intros r0 b1 b2 s1 G; [split; [apply mono_const|apply halts_nab, nab_ret]|].
  assert (MS : mono (fun f => if negb (fmt =? 0) && negb (fmt =? FMT_Undefined) then i <- deref_opt (match aget k copy with Some v => v | None => None end) ;;
                    if match i_info i with Some o => oi_format o =? fmt | None => false end then delete_helper C f k true false else ret r0
                  else delete_helper C f k true false)) by (intros f f' L; mlex; apply delete_mle; exact L).
  split.
  - intros f f' L. apply mle_bind; [apply (MS f f' L)|]. intros resp. apply (proj1 (IH resp _ _ s1 G) f f' L).
  - apply halts_bind; [exact MS|intros a; apply (proj1 (IH a _ _ s1 G))| |].
    + destruct (negb (fmt =? 0) && negb (fmt =? FMT_Undefined)); [|apply delete_halts; exact G].
      apply (halts_bind (fun _ => _)); [apply mono_const|intros a f f' L; mlex; apply delete_mle; exact L|apply halts_nab; nabx|]. intros _ i s2 E.
      assert (s2 = s1) as ->. { destruct (match aget k copy with Some v => v | None => None end) as [p|]; cbn [deref_opt] in E; [|discriminate]. unfold deref in E. destruct (s_heap s1 p); [|discriminate]. apply Ret_inj in E. congruence. }
      destruct (match i_info i with Some o => oi_format o =? fmt | None => false end); [apply delete_halts; exact G|apply halts_nab, nab_ret].
    + intros F a s2 E. apply IH. pose proof (good_delete C r F k true false s1 G) as GD. destruct (negb (fmt =? 0) && negb (fmt =? FMT_Undefined)); [|rewrite E in GD; exact GD].
      unfold bind in E. destruct (match aget k copy with Some v => v | None => None end) as [p|]; cbn [deref_opt] in E; [|discriminate]. unfold deref in E. destruct (s_heap s1 p) as [i|]; [|discriminate].
      destruct (match i_info i with Some o => oi_format o =? fmt | None => false end); [rewrite E in GD; exact GD|]. apply Ret_inj in E. injection E as _ <-. exact G.
Qed.

(** ** Notifications *)
Lemma fs_delete_halts wd n s : good s -> halts (fun f => handle_fs_delete C f wd n) s.
Proof.
  intros G. pose proof G as [[ch W] R]. unfold handle_fs_delete. apply halts_get. destruct (s_wds s wd) as [ph|] eqn:Ew; [|apply halts_nab, nab_ret].
  apply (halts_bind (fun _ => _)); [apply mono_const|intros a f f' L; mlex; apply delete_mle; exact L|apply halts_nab; nabx|]. intros _ v s1 E.
  destruct (watch_owner C r s ch wd ph W Ew) as (q0 & j0 & Hh & _). assert (s1 = s) as -> by (unfold handle_ref in E; rewrite Hh in E; apply Ret_inj in E; congruence).
  destruct v as [q|]; [|apply halts_nab, nab_ret].
  apply (halts_bind (fun _ => _)); [apply mono_const|intros a f f' L; mlex; apply delete_mle; exact L|apply halts_nab; nabx|]. intros _ qi s2 E2.
  assert (s2 = s) as -> by (unfold deref in E2; destruct (s_heap s q); [apply Ret_inj in E2; congruence|discriminate]).
  apply halts_get. cbv beta. destruct (s_paths s (join (i_path qi) n)); [|apply halts_nab, nab_ret]. apply halts_ign, delete_halts. exact G.
Qed.
Lemma fs_create_halts wd n s : halts (fun f => handle_fs_create C f wd n) s.
Proof.
  unfold handle_fs_create. apply halts_get.
  apply (halts_bind (fun _ => _)); [apply mono_const|intros a f f' L; mlex; apply add_mle; exact L|apply halts_nab; nabx|]. intros _ v s1 _. destruct v as [q|]; [|apply halts_nab, nab_ret].
  apply (halts_bind (fun _ => _)); [apply mono_const|intros a f f' L; mlex; apply add_mle; exact L|apply halts_nab; nabx|]. intros _ qi s2 _. destruct (negb _); [apply halts_nab, nab_ret|].
  apply halts_get. cbv beta. destruct (s_paths s2 (join (i_path qi) n)); [apply halts_nab, nab_ret|]. apply halts_ign, add_halts.
Qed.
Lemma fs_move_halts wd1 n1 wd2 n2 s : good s -> fs_move_pre wd1 n1 wd2 n2 s -> halts (fun f => handle_fs_move C f wd1 n1 wd2 n2) s.
Proof.
  intros G (_ & _ & PRE). pose proof G as [[ch W] R]. destruct (finite_tree C s ch r W) as (F1 & TR). destruct (delete_terminates C s ch r W R) as (F2 & DT). destruct (move_terminates_if C s ch r W) as (F3 & MT).
  set (F := max F1 (max F2 F3)). exists F. assert (L1 : (F1 <= F)%nat) by lia. assert (L2 : (F2 <= F)%nat) by lia. assert (L3 : (F3 <= F)%nat) by lia.
  assert (GG : term (handle_fs_move C F wd1 n1 wd2 n2) s (fun _ _ => True)); [|unfold term in GG; intros X; rewrite X in GG; exact GG].
  assert (NT : forall A (m : M A) s', nab m -> term m s' (fun _ _ => True)) by (intros A m s' H; eapply term_impl; [apply nab_term; exact H|intros; exact I]).
  unfold handle_fs_move. apply term_bind. unfold term at 1, get. apply term_bind. unfold term at 1, get.
  set (fh := match s_wds s wd1 with Some h => h | None => 0 end) in *. set (th := match s_wds s wd2 with Some h => h | None => 0 end) in *.
  destruct (owner_or_root C r s ch wd1 W) as (fq & fi & E1 & E2 & E3). fold fh in E1, E3. destruct (owner_or_root C r s ch wd2 W) as (tq & ti & T1 & T2 & T3). fold th in T1, T3.
  apply term_bind. unfold term at 1, handle_value, get. rewrite E1. apply term_bind. unfold term at 1, get. rewrite T1.
  destruct ((fh =? th) && peqb n1 n2); [exact I|]. apply term_bind, (term_deref fq fi s _ E2), term_bind, (term_deref tq ti s _ T2).
  destruct (negb (opt_eqb (i_wd fi) (Some wd1)) || negb (opt_eqb (i_wd ti) (Some wd2))); [exact I|].
  apply term_bind. unfold term at 1, get. destruct (s_paths s (join (i_path fi) n1)) as [mh|] eqn:Em; [|exact I]. destruct (mh =? 0) eqn:E0; [exact I|].
  destruct (W_path _ _ _ _ _ W _ _ Em) as (p & i & B1 & B2 & B3 & _). destruct (W_live _ _ _ _ _ W p i B1 ltac:(discriminate)) as [B4 _]. rewrite B2 in B4.
  apply term_bind. unfold term at 1, get. rewrite B4.
  destruct (PRE fq fi tq ti p i mh E1 E2 T1 T2 Em B4 B1) as (_ & Q2 & _). clear PRE.
  apply term_bind. unfold term at 1, get. destruct (s_paths s (join (i_path ti) n2)) as [x|].
  { apply term_bind. specialize (DT F mh false true L2). unfold term. destruct (delete_helper C F mh false true s) as [[c s1]| |]; [exact I|exact I|contradiction]. }
  apply term_bind. eapply term_impl; [|intros a s1 _; apply NT; nabx; try apply nab_populate; nabx].
  instantiate (1 := fun _ _ => True). cbv beta. destruct (fh =? th).
  - apply term_bind. unfold term at 1, upd. apply term_bind, (term_modify p i); [exact B1|]. apply term_bind. eapply term_deref; [cbn [s_heap set_heap]; apply nupd_eq|].
    destruct (W_info _ _ _ _ _ W p i B1) as (o & Ho & _). apply term_bind. unfold info_of. cbn [i_info it_path]. rewrite Ho. apply (term_ret o).
    apply term_bind. eapply term_modify; [cbn [s_heap set_heap]; apply nupd_eq|]. apply term_bind. unfold term at 1, upd. cbn [i_first it_path].
    match goal with |- context [set_paths ?a ?b] => set (s2 := set_paths a b) end.
    assert (LK : links (s_heap s) (s_heap s2)) by (unfold s2; cbn [s_heap set_heap set_paths]; intros y; unfold nupd; destruct (y =? p) eqn:Q; [replace y with p by lia; rewrite B1; split; reflexivity|destruct (s_heap s y); auto]).
    destruct (links_fwd _ _ _ _ LK B1) as (i2 & Hp2 & Fi2 & _). pose proof (tree_links _ _ LK _ _ (tree_mono _ _ F p L1 (TR p i B1))) as X2.
    apply term_bind. rewrite <- Fi2. eapply term_impl; [apply (adjust_children_term F _ p i2 s2 Hp2 X2)|]. intros [] s3 L23. pose proof (tree_links _ _ L23 _ _ X2) as X3.
    apply term_bind. eapply term_impl; [apply (watch_term remove_watch watchful_remove F p s3 X3)|]. intros [] s4 L34. eapply term_impl; [apply (watch_term (add_watch C) (watchful_add C) F p s4 (tree_links _ _ L34 _ _ X3))|]. intros; exact I.
  - apply term_bind. specialize (MT F mh th false L3). unfold term. destruct (move_object C F mh th false s) as [[c s1]| |]; [exact I|exact I|]. apply MT; [|reflexivity].
    intros _ p0 i0 q0 j0 A1 A2 A3 A4. rewrite B4 in A1. injection A1 as <-. rewrite B1 in A2. injection A2 as <-. rewrite T1 in A3. injection A3 as <-. rewrite T2 in A4. injection A4 as <-. exact Q2.
Qed.
Lemma mono_fs_delete wd n : mono (fun f => handle_fs_delete C f wd n). Proof. intros f f' L. apply fs_delete_mle. exact L. Qed.
Lemma nab_fs_modify wd n : nab (handle_fs_modify C wd n). Proof. unfold handle_fs_modify. nabx; try apply nab_populate; nabx. Qed.
Lemma event_halts e s : good s -> (forall f, event_pre C f e s) -> halts (fun f => inotify_event C f e) s.
Proof.
  intros G PRE. unfold inotify_event. apply halts_get. destruct e as [e|].
  2:{ destruct (s_cache s) as [[[wd ck] n]|]; [|apply halts_nab, nab_ret]. apply halts_bind; [apply mono_fs_delete|intros a; apply mono_const|apply fs_delete_halts; exact G|]. intros F a s1 _. apply halts_nab. nabx. }
  unfold event_pre in PRE. destruct (ev_name e) as [name|]; [|apply halts_nab, nab_ret].
  assert (MK : mono (fun f => match ev_kind e with
      | NCreate => handle_fs_create C f (ev_wd e) name
      | NDelete => handle_fs_delete C f (ev_wd e) name
      | NMovedTo => c <- get s_cache ;; match c with Some (wd, ck, n) => if ck =? ev_cookie e then handle_fs_move C f wd n (ev_wd e) name ;;; upd (set_cache None) else handle_fs_create C f (ev_wd e) name | None => handle_fs_create C f (ev_wd e) name end
      | NMovedFrom => c <- get s_cache ;; (match c with Some (wd, _, n) => handle_fs_delete C f wd n ;;; upd (set_cache None) | None => ret tt end) ;;; upd (set_cache (if ev_cookie e =? 0 then None else Some (ev_wd e, ev_cookie e, name)))
      | NCloseWrite => handle_fs_modify C (ev_wd e) name end)).
  { intros f f' L. mlex; first [apply fs_delete_mle | apply fs_create_mle | apply fs_move_mle]; exact L. }
  set (m := fun f => match s_cache s with Some (wd, ck, n) => when (negb (ck =? ev_cookie e)) (handle_fs_delete C f wd n ;;; upd (set_cache None)) | None => ret tt end).
  assert (MM : mono m). { intros f f' L. unfold m. mlex. apply fs_delete_mle; exact L. }
  assert (MG : forall f a s1, m f s = Ret (a, s1) -> good s1).
  { intros f a s1 E. unfold m in E. destruct (s_cache s) as [[[wd ck] n]|]; [|apply Ret_inj in E; injection E as _ <-; exact G]. destruct (negb (ck =? ev_cookie e)); cbn [when] in E; [|apply Ret_inj in E; injection E as _ <-; exact G].
    unfold bind in E. pose proof (handle_fs_delete_ok C r f wd n s G) as X. destruct (handle_fs_delete C f wd n s) as [[[] s2]| |]; try discriminate. unfold upd in E. apply Ret_inj in E. injection E as _ <-. apply good_cache. exact X. }
  apply (halts_bind m); [exact MM|intros []; exact MK| |].
  - unfold m. destruct (s_cache s) as [[[wd ck] n]|]; [|apply halts_nab, nab_ret]. destruct (negb (ck =? ev_cookie e)); cbn [when]; [|apply halts_nab, nab_ret].
    apply halts_bind; [apply mono_fs_delete|intros a; apply mono_const|apply fs_delete_halts; exact G|]. intros F a s1 _. apply halts_nab. nabx.
  - intros F [] s1 E. pose proof (MG F tt s1 E) as G1. destruct (PRE F) as [PN PK]. specialize (PK s1).
    assert (ED : drop_stale C F (ev_cookie e) s = Ret (tt, s1)) by exact E. specialize (PK ED).
    destruct (ev_kind e).
    + apply fs_create_halts.
    + apply fs_delete_halts. exact G1.
    + apply halts_get. cbv beta. apply (halts_bind (fun f => match s_cache s1 with Some (wd, _, n) => handle_fs_delete C f wd n ;;; upd (set_cache None) | None => ret tt end)).
      * intros f f' L. mlex. apply fs_delete_mle; exact L.
      * intros a. apply mono_const.
      * destruct (s_cache s1) as [[[wd ck] n]|]; [|apply halts_nab, nab_ret]. apply halts_bind; [apply mono_fs_delete|intros a; apply mono_const|apply fs_delete_halts; exact G1|]. intros F2 a s2 _. apply halts_nab. nabx.
      * intros F2 a s2 _. apply halts_nab. nabx.
    + apply halts_get. cbv beta. destruct (s_cache s1) as [[[wd ck] n]|] eqn:Ec; [|apply fs_create_halts]. destruct (ck =? ev_cookie e) eqn:Ek; [|apply fs_create_halts].
      apply halts_bind; [intros f f' L; apply fs_move_mle; exact L|intros a; apply mono_const|apply fs_move_halts; [exact G1|apply (PK wd ck n eq_refl); lia]|]. intros F2 a s2 _. apply halts_nab. nabx.
    + apply halts_nab, nab_fs_modify.
Qed.
End T.
