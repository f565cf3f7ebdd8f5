(** Termination of adding a path with everything below it (C89). *)
From Verif Require Import Base AList Wire FS FSPath FSTree FSLogic FSAdd FSAdd2 FSDel FSData FSFrame FSTerm.

(** what does not recurse never runs out of fuel *)
Definition nab {A} (m : M A) : Prop := forall s, m s <> Abort.
Lemma nab_bind {A B} (m : M A) (k : A -> M B) : nab m -> (forall a, nab (k a)) -> nab (bind m k).
Proof. intros H K s. unfold bind. specialize (H s). destruct (m s) as [[a s1]| |]; [apply K|discriminate|contradiction]. Qed.
Lemma nab_ret {A} (a : A) : nab (ret a). Proof. intros s. discriminate. Qed.
Lemma nab_get {A} (g : fs -> A) : nab (get g). Proof. intros s. discriminate. Qed.
Lemma nab_upd f : nab (upd f). Proof. intros s. discriminate. Qed.
Lemma nab_crash {A} : nab (@crash A). Proof. intros s. discriminate. Qed.
Lemma nab_tick : nab tick. Proof. intros s. discriminate. Qed.
Lemma nab_deref p : nab (deref p). Proof. intros s. unfold deref. destruct (s_heap s p); discriminate. Qed.
Lemma nab_modify p f : nab (modify p f). Proof. intros s. unfold modify. destruct (s_heap s p); discriminate. Qed.
Lemma nab_alloc i : nab (alloc i). Proof. intros s. discriminate. Qed.
Lemma nab_info i : nab (info_of i). Proof. unfold info_of. destruct (i_info i); [apply nab_ret|apply nab_crash]. Qed.
Lemma nab_when b m : nab m -> nab (when b m). Proof. destruct b; [auto|intros _; apply nab_ret]. Qed.
Lemma nab_handle_ref h : nab (handle_ref h). Proof. intros s. unfold handle_ref. destruct (aget h (s_handles s)); discriminate. Qed.
Lemma nab_deref_opt o : nab (deref_opt o). Proof. destruct o; [apply nab_deref|apply nab_crash]. Qed.
Ltac nab1 := lazymatch goal with
  | |- nab (bind _ _) => apply nab_bind; [|intros ?]
  | |- nab (ret _) => apply nab_ret
  | |- nab (get _) => apply nab_get
  | |- nab (has_handle _) => apply nab_get
  | |- nab (handle_value _) => apply nab_get
  | |- nab (handle_ref _) => apply nab_handle_ref
  | |- nab (upd _) => apply nab_upd
  | |- nab (emit _ _) => apply nab_upd
  | |- nab (free _) => apply nab_upd
  | |- nab crash => apply nab_crash
  | |- nab tick => apply nab_tick
  | |- nab (fails _) => unfold fails
  | |- nab (deref _) => apply nab_deref
  | |- nab (deref_opt _) => apply nab_deref_opt
  | |- nab (modify _ _) => apply nab_modify
  | |- nab (alloc _) => apply nab_alloc
  | |- nab (info_of _) => apply nab_info
  | |- nab (when _ _) => apply nab_when
  | |- nab (if ?b then _ else _) => destruct b
  | |- nab (match ?x with _ => _ end) => destruct x
  end.
Ltac nabx := repeat nab1.
Lemma nab_term {A} (m : M A) s : nab m -> term m s (fun a s' => m s = Ret (a, s')).
Proof. intros H. unfold term. specialize (H s). destruct (m s) as [[a s1]| |]; [reflexivity|exact I|contradiction]. Qed.

Lemma nab_link c p : nab (link_child c p). Proof. unfold link_child. nabx. Qed.
Lemma nab_find_by_path p : nab (find_by_path p). Proof. unfold find_by_path. nabx. Qed.
Lemma nab_populate C p : nab (populate_info C p). Proof. unfold populate_info. nabx. Qed.
Lemma nab_attach C p info h : nab (attach_new C p info h). Proof. unfold attach_new. nabx; try apply nab_find_by_path; try apply nab_link; try apply nab_populate; nabx. Qed.
Lemma nab_add_watch C p : nab (add_watch C p). Proof. unfold add_watch, sys_add_watch. nabx. Qed.
Lemma nab_remove_watch p : nab (remove_watch p). Proof. unfold remove_watch. nabx. Qed.
Lemma nab_add_to_maps C p : nab (add_to_maps C p). Proof. unfold add_to_maps. nabx. Qed.
Lemma nab_create_directory C p : nab (create_directory C p). Proof. unfold create_directory. nabx. Qed.
Lemma nab_create_file C p i : nab (create_file C p i). Proof. unfold create_file, sys_open_rw. nabx. Qed.

(** the new item is the first child of its folder, until something is created below it *)
Definition in_front (me : ptr) (s : fs) : Prop := forall mi par pi, s_heap s me = Some mi -> i_parent mi = Some par -> s_heap s par = Some pi -> i_first pi = Some me.
Lemma front_upd me s i j : in_front me s -> s_heap s me = Some i -> i_parent j = i_parent i -> i_first j = i_first i -> in_front me (set_heap (nupd (s_heap s) me (Some j)) s).
Proof.
  intros F Hm E1 E2 mi par pi. cbn [s_heap set_heap]. rewrite nupd_eq. intros [= <-] P. rewrite E1 in P. unfold nupd. destruct (par =? me) eqn:Q.
  - replace par with me in * by lia. intros [= <-]. rewrite E2. exact (F i me i Hm P Hm).
  - intros Hp. exact (F i par pi Hm P Hp).
Qed.
Lemma front_same me s s' : s_heap s' = s_heap s -> in_front me s -> in_front me s'. Proof. intros E. unfold in_front. rewrite E. exact (fun x => x). Qed.
Lemma front_modify me f s : in_front me s -> (forall i, i_parent (f i) = i_parent i /\ i_first (f i) = i_first i) -> term (modify me f) s (fun _ s' => in_front me s').
Proof. intros F G. unfold term, modify. destruct (s_heap s me) as [i|] eqn:E; [|exact I]. destruct (G i). eapply front_upd; eauto. Qed.
Lemma attach_front C p info h s : term (attach_new C p info h) s (fun me s' => in_front me s').
Proof.
  unfold attach_new. apply term_bind. unfold term at 1, alloc. set (me := s_fresh s). set (s1 := set_fresh _ _). apply term_bind. unfold find_by_path. 
  assert (K : forall o s2, s_heap s2 = s_heap s1 -> term (root <- get s_root ;; link_child (Some me) (match o with Some q => Some q | None => root end) ;;; match info with Some o => modify me (it_info (Some (oi_set_storage (c_sid C) o))) | None => populate_info C me end ;;;
    (if peqb p (c_root C) then modify me (it_handle 0) else if h =? 0 then t <- tick ;; modify me (it_handle (c_handle C t)) else modify me (it_handle h)) ;;; ret me) s2 (fun me s' => in_front me s')).
  2:{ eapply term_impl; [apply nab_term, nab_find_by_path|]. intros o s2 E. apply K. unfold find_by_path, bind, get, handle_value in E. destruct (s_paths s1 (parent_of p)); injection E as _ <-; reflexivity. }
  intros o s2 E2. apply term_bind. unfold term at 1, get. set (q := match o with Some q => Some q | None => s_root s2 end).
  apply term_bind. assert (LK : term (link_child (Some me) q) s2 (fun _ s3 => in_front me s3)).
  { unfold link_child. destruct q as [par|].
    2:{ intros mi par pi. rewrite E2. unfold s1. cbn [s_heap set_heap set_fresh]. fold me. rewrite nupd_eq. intros [= <-]. discriminate. }
    assert (Hm : s_heap s2 me = Some (new_item p)) by (rewrite E2; unfold s1; cbn [s_heap set_heap set_fresh]; apply nupd_eq).
    apply term_bind, (term_modify me (new_item p)); [exact Hm|]. set (s3 := set_heap _ s2). apply term_bind. unfold term at 1, deref. destruct (s_heap s3 par) as [pi|] eqn:Hp; [|exact I].
    assert (H3 : s_heap s3 me = Some (it_parent (Some par) (new_item p))) by (unfold s3; cbn [s_heap set_heap]; apply nupd_eq). clearbody s3.
    destruct (i_first pi) as [old|].
    - apply term_bind, (term_modify par pi); [exact Hp|]. unfold term, modify. cbn [s_heap set_heap]. destruct (nupd (s_heap s3) par (Some (it_first (Some me) pi)) me) as [k|] eqn:Hk; [|exact I].
      intros mi p0 pi0. cbn [s_heap set_heap]. rewrite nupd_eq. intros [= <-] P. cbn [i_parent it_next] in P.
      assert (p0 = par). { unfold nupd in Hk. destruct (me =? par) eqn:Q; [injection Hk as <-; cbn in P; assert (EE : me = par) by lia; rewrite EE in H3; rewrite H3 in Hp; injection Hp as <-; cbn in P; congruence|]. rewrite H3 in Hk. injection Hk as <-. cbn in P. congruence. }
      subst p0. unfold nupd at 1. destruct (par =? me) eqn:Q; [assert (EE : par = me) by lia; rewrite EE, nupd_eq in Hk; intros [= <-]; injection Hk as <-; reflexivity|]. rewrite nupd_eq. intros [= <-]. reflexivity.
    - apply (term_modify par pi); [exact Hp|]. intros mi p0 pi0. cbn [s_heap set_heap]. intros Hk P.
      assert (p0 = par). { unfold nupd in Hk. destruct (me =? par) eqn:Q; [injection Hk as <-; cbn in P; assert (EE : me = par) by lia; rewrite EE in H3; rewrite H3 in Hp; injection Hp as <-; cbn in P; congruence|]. rewrite H3 in Hk. injection Hk as <-. cbn in P. congruence. }
      subst p0. rewrite nupd_eq. intros [= <-]. reflexivity. }
  eapply term_impl; [exact LK|]. intros [] s3 F3. apply term_bind.
  assert (IN : term (match info with Some o => modify me (it_info (Some (oi_set_storage (c_sid C) o))) | None => populate_info C me end) s3 (fun _ s4 => in_front me s4)).
  { destruct info as [o1|]; [apply front_modify; [exact F3|intros i; split; reflexivity]|]. unfold populate_info. apply term_bind. unfold term at 1, deref. destruct (s_heap s3 me) as [i|] eqn:Hi; [|exact I]. destruct (i_info i); [exact F3|].
    apply term_bind. unfold term at 1, tick. apply term_bind. unfold term at 1, get. apply term_bind. set (s4 := set_tick _ _). assert (F4 : in_front me s4) by (eapply front_same; [|exact F3]; reflexivity).
    destruct (i_parent i) as [x|].
    - apply term_bind. unfold term at 1, deref. destruct (s_heap s4 x); [|exact I]. apply (term_ret _ s4). apply front_modify; [exact F4|intros; split; reflexivity].
    - apply (term_ret _ s4). apply front_modify; [exact F4|intros; split; reflexivity]. }
  eapply term_impl; [exact IN|]. intros [] s4 F4. apply term_bind.
  assert (HD : term (if peqb p (c_root C) then modify me (it_handle 0) else if h =? 0 then t <- tick ;; modify me (it_handle (c_handle C t)) else modify me (it_handle h)) s4 (fun _ s5 => in_front me s5)).
  { destruct (peqb p (c_root C)); [apply front_modify; [exact F4|intros; split; reflexivity]|]. destruct (h =? 0); [|apply front_modify; [exact F4|intros; split; reflexivity]]. apply term_bind. unfold term at 1, tick. apply front_modify; [eapply front_same; [|exact F4]; reflexivity|intros; split; reflexivity]. }
  eapply term_impl; [exact HD|]. intros [] s5 F5. exact F5.
Qed.
Lemma unlink_front me s : in_front me s -> unlink_child me s <> Abort.
Proof.
  intros F. unfold unlink_child, bind, deref. destruct (s_heap s me) as [mi|] eqn:Hm; [|discriminate]. destruct (i_parent mi) as [par|] eqn:P; [|discriminate]. destruct (s_heap s par) as [pi|] eqn:Hp; [|discriminate].
  rewrite (F mi par pi Hm P Hp). cbn [opt_eqb]. rewrite N.eqb_refl. unfold modify. rewrite Hp. cbn [s_heap set_heap]. destruct (nupd (s_heap s) par _ me); discriminate.
Qed.

Section A.
Variables (C : conf) (M : N).
(** no path on the disk is longer than [M] *)
Definition short (s : fs) : Prop := forall y, node_at y (s_nodes s) <> None -> len y <= M.
Lemma node_in w y : In y (map fst w) -> node_at y w <> None.
Proof. induction w as [|[k n] w IH]; cbn [map fst node_at]; intros H; [contradiction|]. destruct (peqb y k) eqn:E; [discriminate|]. destruct H as [->|H]; [rewrite peqb_refl in E; discriminate|auto]. Qed.
Lemma entry_short s p e : short s -> In e (entries_of p (s_nodes s)) -> len p < len e /\ len e <= M.
Proof.
  intros S H. pose proof (entries_spec _ _ _ H) as [_ E]. split; [rewrite E, len_join; lia|]. apply S. unfold entries_of in H. apply filter_In in H as [H _]. apply node_in. exact H.
Qed.
Lemma fr_short {A} p c (m : FS.M A) s a s' : fr (fun y => len y <= M) p c m -> len p <= M -> short s -> m s = Ret (a, s') -> short s'.
Proof.
  intros F L S E y Hy. pose proof (F s a s' E) as X. destruct (A_node _ _ _ _ _ X y) as [Q|(_ & [Q|(Q & _)])]; [apply S; rewrite <- Q; exact Hy|exact Q|]. apply under_len in Q. lia.
Qed.
Lemma keep_heap_directory p s : term (create_directory C p) s (fun _ s' => s_heap s' = s_heap s).
Proof. unfold create_directory, fails, term, bind, get, tick, ret. destruct (is_dir p (s_nodes s)); [reflexivity|]. cbn [s_nodes set_tick]. destruct (c_fail C (s_tick s)); [reflexivity|]. destruct (mkpath p (s_nodes s)); reflexivity. Qed.
Definition hk {A} (m : FS.M A) : Prop := forall s, term m s (fun _ s' => s_heap s' = s_heap s).
Lemma hk_bind {A B} (m : FS.M A) (k : A -> FS.M B) : hk m -> (forall a, hk (k a)) -> hk (bind m k).
Proof. intros H K s. apply term_bind. eapply term_impl; [apply H|]. cbv beta. intros a s1 E1. eapply term_impl; [apply K|]. cbv beta. congruence. Qed.
Lemma keep_heap_file p i : hk (create_file C p i).
Proof.
  assert (R : forall A (a : A), hk (ret a)) by (intros A a s; reflexivity). assert (G : forall A (g : fs -> A), hk (get g)) by (intros A g s; reflexivity). assert (U : forall w, hk (upd (set_nodes w))) by (intros w s; reflexivity).
  unfold create_file, sys_open_rw, fails, tick, when.
  repeat first [apply R | apply G | apply U | (apply hk_bind; [|intros ?]) | match goal with |- hk (fun s => Ret _) => intros ?; reflexivity | |- hk (if ?b then _ else _) => destruct b | |- hk (match ?x with _ => _ end) => destruct x end].
Qed.
Theorem add_term : forall fuel p info send create h s, short s -> len p <= M -> (N.to_nat (M - len p) < fuel)%nat -> term (add_to_storage C fuel p info send create h) s (fun _ s' => short s').
Proof.
  induction fuel as [|fuel IH]; intros p info send create h s S LP LF; [lia|]. cbn [add_to_storage].
  destruct (existsb (peqb p) (c_excl C)); [exact S|]. apply term_bind. unfold term at 1, tick. set (s0 := set_tick _ _). assert (S0 : short s0) by exact S. destruct (link_refused C p _); [exact S0|]. apply term_bind. unfold term at 1, get. destruct (s_paths s0 p) as [k|].
  { apply term_bind. eapply term_impl; [apply nab_term, nab_find_by_path|]. intros q s1 E. assert (s1 = s0) by (unfold find_by_path, bind, get, handle_value, ret in E; destruct (s_paths s0 p); apply Ret_inj in E; congruence). subst. exact S0. }
  apply term_bind. pose proof (attach_front C p info h s0) as AF. unfold term in AF. unfold term at 1. destruct (attach_new C p info h s0) as [[me s1]| |] eqn:EA; [|exact I|exact (False_ind _ AF)].
  assert (S1 : short s1) by (eapply (fr_short p create); [apply fr_attach; exact LP|exact LP|exact S0|exact EA]).
  apply term_bind. unfold term at 1, deref. destruct (s_heap s1 me) as [i|]; [|exact I]. apply term_bind. unfold info_of. destruct (i_info i) as [o|]; [|exact I]. apply (term_ret o).
  apply term_bind.
  match goal with |- term ?m s1 _ => assert (MID : term m s1 (fun rc s2 => short s2 /\ (isok rc = false -> in_front me s2))) end.
  { destruct (oi_format o =? FMT_Association).
    - apply term_bind. match goal with |- term ?m s1 _ => assert (CR : term m s1 (fun _ s2 => s_heap s2 = s_heap s1 /\ short s2)) end.
      { destruct create; [|exact (conj eq_refl S1)]. pose proof (keep_heap_directory p s1) as KH. unfold term in *. destruct (create_directory C p s1) as [[rc s2]| |] eqn:E; [|exact I|exact KH]. split; [exact KH|].
        eapply (fr_short p true); [apply fr_create_directory|exact LP|exact S1|exact E]; [exact LP|auto|reflexivity]. }
      eapply term_impl; [exact CR|]. intros rc s2 [H2 S2]. destruct (isok rc) eqn:IO; cbn [negb]; [|split; [exact S2|intros _; eapply front_same; [exact H2|exact AF]]].
      apply term_bind. eapply term_impl; [apply nab_term, nab_add_watch|]. intros [] s3 E3. assert (S3 : short s3) by (eapply (fr_short p create); [apply fr_add_watch|exact LP|exact S2|exact E3]).
      apply term_bind. eapply term_impl; [apply nab_term, nab_add_to_maps|]. intros [] s4 E4. assert (S4 : short s4) by (eapply (fr_short p create); [apply fr_add_to_maps|exact LP|exact S3|exact E4]).
      apply term_bind. unfold term at 1, get. apply term_bind.
      assert (EN : forall e, In e (entries_of p (s_nodes s4)) -> len p < len e /\ len e <= M) by (intros e He; exact (entry_short s4 p e S4 He)).
      revert EN. generalize (entries_of p (s_nodes s4)). intros l EN. clear E4. revert S4. generalize s4. clear - IH LF LP EN.
      induction l as [|e l IHl]; intros s4 S4; [split; [exact S4|discriminate]|]. apply term_bind. destruct (EN e (or_introl eq_refl)) as [L1 L2].
      eapply term_impl; [apply (IH e None send create 0 s4 S4 L2); lia|]. intros x s5 S5. apply IHl; [intros e' He'; apply EN; right; exact He'|exact S5].
    - apply term_bind. match goal with |- term ?m s1 _ => assert (CR : term m s1 (fun _ s2 => s_heap s2 = s_heap s1 /\ short s2)) end.
      { destruct create; [|exact (conj eq_refl S1)]. pose proof (keep_heap_file p info s1) as KH. unfold term in *. destruct (create_file C p info s1) as [[rc s2]| |] eqn:E; [|exact I|exact KH]. split; [exact KH|].
        eapply (fr_short p true); [apply fr_create_file|exact LP|exact S1|exact E]; [exact LP|reflexivity]. }
      eapply term_impl; [exact CR|]. intros rc s2 [H2 S2]. destruct (isok rc) eqn:IO; cbn [negb]; [|split; [exact S2|intros _; eapply front_same; [exact H2|exact AF]]].
      apply term_bind. eapply term_impl; [apply nab_term, nab_add_to_maps|]. intros [] s3 E3. assert (S3 : short s3) by (eapply (fr_short p create); [apply fr_add_to_maps|exact LP|exact S2|exact E3]).
      apply term_bind. unfold term at 1, deref. destruct (s_heap s3 me) as [i2|]; [|exact I]. split; [exact S3|discriminate]. }
  eapply term_impl; [exact MID|]. intros rc s2 [S2 FR]. destruct (isok rc); cbn [negb].
  - apply term_bind. unfold term at 1, deref. destruct (s_heap s2 me) as [i2|]; [|exact I]. apply term_bind. destruct send; exact S2.
  - apply term_bind. pose proof (unlink_front me s2 (FR eq_refl)) as UF. unfold term at 1. destruct (unlink_child me s2) as [[[] s3]| |] eqn:E3; [|exact I|contradiction].
    assert (S3 : short s3) by (eapply (fr_short p create); [apply fr_unlink|exact LP|exact S2|exact E3]). exact S3.
Qed.
End A.
