(** C47: copying a folder to where an object of its name is known. *)
From Verif Require Import Base AList Wire FS FSPath FSTree FSLogic FSSpec FSReach FSData FSList FSCopy FSCopy2 FSView FSDemo P_FS2 P_FS4.

Lemma any_path_hit p : forall l s, (forall h, In h l -> exists q i, aget h (s_handles s) = Some (Some q) /\ s_heap s q = Some i) ->
  (exists h q i, In h l /\ aget h (s_handles s) = Some (Some q) /\ s_heap s q = Some i /\ i_path i = p) -> any_path l p s = Ret (true, s).
Proof.
  induction l as [|h l IH]; intros s Hl (x & q & i & I & A & B & D); [contradiction|]. cbn [any_path]. unfold bind at 1, handle_value, get at 1. destruct (Hl h (or_introl eq_refl)) as (q' & i' & A' & B'). rewrite A'.
  unfold bind at 1, deref. rewrite B'. destruct (peqb (i_path i') p) eqn:E; [reflexivity|]. destruct I as [->|I].
  - rewrite A in A'. injection A' as <-. rewrite B in B'. injection B' as <-. rewrite D, peqb_refl in E. discriminate.
  - apply IH; [intros h' Hh'; apply Hl; right; exact Hh'|]. exists x, q, i. auto.
Qed.

(** A folder is not copied to where an object of its name is known: the request is refused and
    nothing changes. *)
Theorem C47_folder_name_taken : forall C s fuel h q code hc s' v w n x u, supply_ok C -> reachable C s -> h <> 0 -> copy_object C fuel h q true s = Ret ((code, hc), s') ->
  look s h = Some v -> v_folder v -> v_name v = Some n -> look s q = Some w -> (q = 0 \/ v_folder w) -> look s x = Some u -> v_path u = join (v_path w) n ->
  code <> R_OK /\ hc = 0 /\ (forall y, look s' y = look s y) /\ forall y, content s' y = content s y.
Proof.
  intros C s fuel h q code hc s' v w n x u SO R H0 E LH VF VN LQ QF LX PX. destruct (reachable_good C s SO R) as (r & [[ch W] HR]).
  destruct (look_inv C s ch r W h v LH) as (p & i & Hh & Hp & Eh & ->). destruct (look_inv C s ch r W q w LQ) as (pq & j & Hq & Hpq & Eq & ->). destruct (look_inv C s ch r W x u LX) as (px & xi & Hx & Hpx & Ex & ->).
  cbn [v_path view_of] in *. unfold v_name in VN. unfold v_folder, v_format in VF. cbn [v_info view_of] in VN, VF. destruct (i_info i) as [o|] eqn:Ho; [|discriminate VN]. injection VN as <-. injection VF as VF.
  assert (SAME : forall t, tsame s t -> (forall y, look t y = look s y) /\ forall y, content t y = content s y).
  { intros t T. split; [intros y; exact (tsame_look s t T y)|]. destruct T as (k & -> & _). reflexivity. }
  assert (FIN : forall c s2, tsame s s2 -> c <> R_OK -> Ret ((c, 0), s2) = Ret ((code, hc), s') -> code <> R_OK /\ hc = 0 /\ (forall y, look s' y = look s y) /\ forall y, content s' y = content s y).
  { intros c s2 T NC EE. injection EE as <- <- <-. split; [exact NC|]. split; [reflexivity|apply SAME; exact T]. }
  destruct fuel as [|fuel]; [discriminate E|]. cbn [copy_object] in E. unfold bind at 1 in E. unfold has_handle at 1, get at 1 in E. unfold ahas at 1 in E. rewrite Hh in E. cbn [negb] in E.
  unfold bind at 1 in E. unfold has_handle at 1, get at 1 in E. unfold ahas at 1 in E. rewrite Hq in E. cbn [negb] in E. unfold bind at 1, handle_ref in E. rewrite Hh in E. unfold bind at 1 in E. unfold deref at 1 in E. rewrite Hp, Ho in E.
  unfold bind at 1, tick at 1 in E. set (s1 := set_tick _ s) in E. assert (T1 : tsame s s1) by apply tsame_tick. pose proof (fsame_wf _ _ _ _ _ _ W (tsame_fsame _ _ T1)) as W1.
  destruct (c_free C (s_tick s)) as [free|]; [|refine (FIN _ _ T1 _ E); discriminate]. destruct (free <? oi_size o); [refine (FIN _ _ T1 _ E); discriminate|].
  unfold bind at 1, handle_value, get at 1 in E. change (s_handles s1) with (s_handles s) in E. rewrite Hq in E. unfold bind at 1 in E. unfold deref at 1 in E. change (s_heap s1) with (s_heap s) in E. rewrite Hpq in E. cbv zeta in E.
  rewrite VF in E. change (FMT_Association =? FMT_Association) with true in E. cbn [andb] in E.
  assert (CL : (r <- get_object_handles 0 q ;; if isok (fst r) then any_path (snd r) (join (i_path j) (oi_name o)) else ret false) s1 = Ret (true, s1)).
  { destruct (get_object_handles_ok C SO r 0 q s1 ch W1 HR) as (c & l & E1 & _ & H). unfold bind. rewrite E1. cbn [fst snd].
    (* the object at the destination is in the target folder *)
    assert (Npr : p <> r). { intros ->. destruct (W_root _ _ _ _ _ W) as (ri & RA & _ & _ & RB). congruence. }
    destruct (wf_parent _ _ _ _ _ W p i Hp Npr) as (pp & pj & o' & P1 & P2 & P3 & P4 & P5 & _). rewrite Ho in P4. injection P4 as <-.
    assert (Nxr : px <> r).
    { intros ->. destruct (W_root _ _ _ _ _ W) as (ri & RA & _ & RP & _). rewrite Hpx in RA. injection RA as <-. pose proof (wf_under_root _ _ _ _ _ W pq j Hpq) as U. apply under_len in U. rewrite <- RP, PX, len_join in U. lia. }
    destruct (wf_parent _ _ _ _ _ W px xi Hpx Nxr) as (pz & zj & xo & X1 & X2 & X3 & X4 & X5 & X6 & _).
    assert (PZ : pz = pq). { rewrite PX in X6. apply join_inj in X6 as [X6 _]; [|apply P5|apply X5]. eapply (wf_path_uniq _ _ _ _ _ W); [exact X2|exact Hpq|discriminate|discriminate|congruence]. }
    subst pz. assert (NQ : q <> ALL) by (rewrite <- Eq; apply (wf_notall _ SO _ _ _ _ W pq j Hpq)).
    assert (LIST : c = R_OK /\ In (i_handle xi) l /\ forall y, In y l -> exists z k, s_heap s z = Some k /\ i_handle k = y).
    { destruct (q =? 0) eqn:Q0.
      - destruct H as [H1 H2]. split; [exact H1|]. split; [apply H2; exists px, xi; auto|]. intros y Hy. apply H2 in Hy as (z & k & Y1 & _ & Y2 & _). eauto.
      - rewrite (proj2 (N.eqb_neq _ _) NQ) in H. change (s_handles s1) with (s_handles s) in H. rewrite Hq in H. destruct H as (j' & J1 & H). change (s_heap s1) with (s_heap s) in J1. rewrite Hpq in J1. injection J1 as <-.
        assert (AS : is_assoc j = true). { destruct QF as [Z|QF]; [apply N.eqb_neq in Q0; contradiction|]. unfold v_folder, v_format in QF. cbn [v_info view_of] in QF. unfold is_assoc. destruct (i_info j) as [jo|]; [|discriminate]. injection QF as ->. reflexivity. }
        rewrite AS in H. destruct H as [H1 H2]. split; [exact H1|]. split; [apply H2; exists px, xi; auto|]. intros y Hy. apply H2 in Hy as (z & k & Y1 & _ & Y2 & _). eauto. }
    destruct LIST as (-> & IN & KN). change (isok R_OK) with true. cbv iota. apply any_path_hit.
    - intros y Hy. destruct (KN y Hy) as (z & k & Z1 & <-). destruct (W_live _ _ _ _ _ W z k Z1 ltac:(discriminate)) as [B _]. eauto.
    - exists (i_handle xi), px, xi. split; [exact IN|]. split; [rewrite Ex; exact Hx|]. split; [exact Hpx|exact PX]. }
  unfold bind at 1 in E. rewrite CL in E. cbv iota in E. refine (FIN _ _ T1 _ E); discriminate.
Qed.

(** ** Only the check for free space answers StoreFull *)
Definition gives {A} (P : A -> Prop) (m : M A) : Prop := forall s a s', m s = Ret (a, s') -> P a.
Lemma gives_ret {A} (P : A -> Prop) a : P a -> gives P (ret a).
Proof. intros H s b s' E. injection E as <- _. exact H. Qed.
Lemma gives_bind {A B} (Q : A -> Prop) (P : B -> Prop) m (f : A -> M B) : gives Q m -> (forall a, Q a -> gives P (f a)) -> gives P (bind m f).
Proof. intros H1 H2 s b s' E. unfold bind in E. destruct (m s) as [[a s1]| |] eqn:E1; try discriminate. exact (H2 a (H1 _ _ _ E1) s1 b s' E). Qed.
Lemma gives_any {A} (m : M A) : gives (fun _ => True) m.
Proof. intros s a s' _. exact Logic.I. Qed.
Lemma gives_up {A} (P : A -> Prop) : gives P (give_up : M A).
Proof. intros s a s' E. discriminate E. Qed.
Lemma gives_crash {A} (P : A -> Prop) : gives P (crash : M A).
Proof. intros s a s' E. discriminate E. Qed.
Notation room := (fun c => c <> R_StoreFull).
Notation room1 := (fun r => fst r <> R_StoreFull).
Ltac gv1 :=
  match goal with
  | |- gives _ (ret _) => apply gives_ret; cbn [fst]; try discriminate; try assumption
  | |- gives _ give_up => apply gives_up
  | |- gives _ crash => apply gives_crash
  | |- gives _ (bind _ _) => eapply gives_bind; [apply gives_any|intros ? _]
  | |- gives _ (match ?x with _ => _ end) => destruct x
  | |- gives _ (if ?x then _ else _) => destruct x
  end.
Ltac gv := repeat gv1.
Section Room.
Variable C : conf.
Lemma gives_read_loop : forall fuel d pos n acc, gives room1 (read_loop C fuel d pos n acc).
Proof. induction fuel as [|f IH]; intros d pos n acc; cbn [read_loop]; gv; try apply IH. Qed.
Lemma gives_read h n off : gives room1 (read_data C h n off).
Proof. unfold read_data. gv. apply gives_read_loop. Qed.
Lemma gives_write_loop : forall fuel bs, gives room (write_loop C fuel bs).
Proof. induction fuel as [|f IH]; intros [|b bs]; cbn [write_loop]; gv; try apply IH. Qed.
Lemma gives_write h d f l : gives room (write_data C h d f l).
Proof. unfold write_data. gv; try apply gives_write_loop; destruct (_ : option _); discriminate. Qed.
Lemma gives_info h : gives room1 (get_object_info C h).
Proof. unfold get_object_info. gv. Qed.
Lemma gives_copy_loop dfuel src dst : forall fuel off rem c, c <> R_StoreFull -> gives room (copy_loop C fuel dfuel src dst off rem c).
Proof.
  induction fuel as [|f IH]; intros off rem c Hc; cbn [copy_loop]; cbv zeta; (match goal with |- gives _ (if ?x then _ else _) => destruct x end); [gv|apply gives_up|gv|].
  eapply gives_bind; [apply gives_read|intros r Hr]. eapply gives_bind; [apply gives_any|intros t _]. destruct (c_cancel C t); [gv|]. destruct (negb (isok (fst r))); [apply IH; exact Hr|].
  eapply gives_bind; [apply gives_write|intros r1 H1]. eapply (gives_bind room); [|intros r2 H2; apply IH; exact H2]. destruct (_ =? 0); [apply gives_write|apply gives_ret; exact H1].
Qed.
Lemma gives_copy_data fuel src dst : gives room (copy_data C fuel src dst).
Proof.
  unfold copy_data. eapply gives_bind; [apply gives_any|intros b1 _]. eapply gives_bind; [apply gives_any|intros b2 _]. destruct (_ || _); [gv|].
  eapply gives_bind; [apply gives_info|intros r Hr]. destruct (negb _); [gv|]. destruct (snd r); [|gv]. apply gives_copy_loop. discriminate.
Qed.
Lemma gives_create_file p i : gives room (create_file C p i).
Proof. unfold create_file. gv. Qed.
Lemma gives_create_dir p : gives room (create_directory C p).
Proof. unfold create_directory. gv. Qed.
Lemma gives_add : forall fuel p i send create h, gives room1 (add_to_storage C fuel p i send create h).
Proof.
  intros [|f] p i send create h; cbn [add_to_storage]; [apply gives_up|]. destruct (existsb _ _); [gv|]. eapply gives_bind; [apply gives_any|intros t _]. destruct (link_refused _ _); [gv|]. eapply gives_bind; [apply gives_any|intros known _].
  destruct known; [gv|]. do 3 (eapply gives_bind; [apply gives_any|intros ? _]). eapply (gives_bind room).
  - match goal with |- gives _ (if ?x then _ else _) => destruct x end.
    + eapply (gives_bind room); [destruct create; [apply gives_create_dir|gv]|]. intros r Hr. destruct (negb _); [gv|]. gv.
    + eapply (gives_bind room); [destruct create; [apply gives_create_file|gv]|]. intros r Hr. destruct (negb _); [gv|]. gv.
  - intros r Hr. destruct (negb _); gv.
Qed.
Lemma gives_add_item fuel i : gives room1 (add_item C fuel i).
Proof.
  unfold add_item. cbv zeta. eapply gives_bind; [apply gives_any|intros b _]. destruct (negb b); [gv|]. do 2 (eapply gives_bind; [apply gives_any|intros ? _]). eapply gives_bind; [apply gives_add|intros r Hr]. destruct (snd r); gv.
Qed.
End Room.

(** a file is not copied at all when there is no space *)
Lemma file_full C s fuel h q hc s' p i o : aget h (s_handles s) = Some (Some p) -> s_heap s p = Some i -> i_info i = Some o -> oi_format o <> FMT_Association ->
  copy_object C fuel h q true s = Ret ((R_StoreFull, hc), s') -> tsame s s' /\ hc = 0.
Proof.
  intros Hh Hp Ho NF E. destruct fuel as [|fuel]; [discriminate E|]. cbn [copy_object] in E. unfold bind at 1 in E. unfold has_handle at 1, get at 1 in E. unfold ahas at 1 in E. rewrite Hh in E. cbn [negb] in E.
  unfold bind at 1 in E. unfold has_handle at 1, get at 1 in E. destruct (ahas q (s_handles s)); cbn [negb] in E; [|discriminate E].
  unfold bind at 1, handle_ref in E. rewrite Hh in E. unfold bind at 1 in E. unfold deref at 1 in E. rewrite Hp, Ho in E.
  unfold bind at 1, tick at 1 in E. set (s1 := set_tick _ s) in E. assert (T1 : tsame s s1) by apply tsame_tick.
  destruct (c_free C (s_tick s)) as [free|]; [|discriminate E]. destruct (free <? oi_size o).
  { unfold ret in E. injection E as <- <-. auto. }
  exfalso. revert E. rewrite (proj2 (N.eqb_neq _ _) NF). cbn [andb]. match goal with |- ?m s1 = _ -> _ => assert (G : gives room1 m) end.
  { eapply gives_bind; [apply gives_any|intros v _]. destruct v as [pq|]; [|gv]. eapply gives_bind; [apply gives_any|intros qi _]. cbv zeta. eapply gives_bind; [apply gives_any|intros clash _]. destruct clash; [gv|].
    eapply gives_bind; [apply gives_any|intros _ _]. eapply gives_bind; [apply gives_add_item|intros r Hr]. destruct (negb _); [gv|]. eapply gives_bind; [apply gives_copy_data|intros c Hc]. destruct (negb _); gv. }
  intros E. apply (G _ _ _ E). reflexivity.
Qed.

(** When the space runs out, everything that was known is still known, with its files; and the
    incomplete copy, if there is one, is not at a place where anything was known. *)
Theorem C47_no_space : forall C s fuel h q hc s' v f, supply_ok C -> reachable C s -> h <> 0 -> copy_object C fuel h q true s = Ret ((R_StoreFull, hc), s') ->
  look s h = Some v -> look s q = Some f -> q = 0 \/ v_folder f \/ ~ v_folder v ->
  (forall x u, look s x = Some u -> look s' x = Some u) /\
  (forall x u d, look s x = Some u -> content s (v_path u) = Some (File d) -> content s' (v_path u) = Some (File d)) /\
  (hc = 0 \/ forall n, v_name v = Some n -> forall x u, look s x = Some u -> ~ at_or_below (join (v_path f) n) (v_path u)).
Proof.
  intros C s fuel h q hc s' v f SO R H0 E LH LQ QF. destruct (reachable_good C s SO R) as (r & [[ch W] HR]).
  assert (SAME : (forall y, look s' y = look s y) /\ (forall y, content s' y = content s y) /\ hc = 0 -> (forall x u, look s x = Some u -> look s' x = Some u) /\
    (forall x u d, look s x = Some u -> content s (v_path u) = Some (File d) -> content s' (v_path u) = Some (File d)) /\
    (hc = 0 \/ forall n, v_name v = Some n -> forall x u, look s x = Some u -> ~ at_or_below (join (v_path f) n) (v_path u))).
  { intros (A & B & D). split; [intros x u L; rewrite A; exact L|]. split; [intros x u d _ Z; rewrite B; exact Z|auto]. }
  destruct (look_inv C s ch r W h v LH) as (p & i & Hh & Hp & Eh & EV).
  assert (Npr : p <> r). { intros ->. destruct (W_root _ _ _ _ _ W) as (ri & RA & _ & _ & RB). congruence. }
  destruct (wf_parent _ _ _ _ _ W p i Hp Npr) as (pp & pj & o & P1 & P2 & P3 & P4 & P5 & _).
  destruct (N.eq_dec (oi_format o) FMT_Association) as [FA|FA].
  2:{ apply SAME. destruct (file_full C s fuel h q hc s' p i o Hh Hp P4 FA E) as [T Z]. split; [intros y; exact (tsame_look s s' T y)|]. split; [destruct T as (t & -> & _); reflexivity|exact Z]. }
  assert (VF : v_folder v) by (subst v; unfold v_folder, v_format; cbn; rewrite P4; congruence). assert (VN : v_name v = Some (oi_name o)) by (subst v; unfold v_name; cbn; rewrite P4; reflexivity).
  assert (QF' : q = 0 \/ v_folder f) by tauto. destruct (look_inv C s ch r W q f LQ) as (pq & j & Hq & Hpq & Eq & EF).
  set (new := join (v_path f) (oi_name o)).
  assert (TAKEN : forall x u, look s x = Some u -> at_or_below new (v_path u) -> (forall y, look s' y = look s y) /\ (forall y, content s' y = content s y) /\ hc = 0).
  { intros x u LX AB. destruct (look_inv C s ch r W x u LX) as (px & xi & Hx & Hpx & Ex & ->). apply at_or_below_under in AB. unfold new in AB. rewrite EF in AB. cbn [v_path view_of] in AB.
    destruct (tracked_anc C r s ch pq j (oi_name o) W Hpq P5 px xi Hpx AB) as (c & ci & C1 & C2). pose proof (look_of C s ch r W c ci C1) as LC.
    destruct (C47_folder_name_taken C s fuel h q R_StoreFull hc s' v f (oi_name o) (i_handle ci) (view_of s ci) SO R H0 E LH VF VN LQ QF' LC) as (_ & Z & A & B); [rewrite EF; exact C2|]. auto. }
  destruct (C47_outside C s fuel h q R_StoreFull hc s' SO R H0 E) as [_ OUT]. destruct (OUT v f (oi_name o) LH LQ VN) as [O1 O2]. fold new in O1, O2.
  assert (DEC : forall y, at_or_below new y \/ ~ at_or_below new y). { intros y. destruct (under new y) eqn:U; [left; apply at_or_below_under; exact U|right; intros Z; apply at_or_below_under in Z; congruence]. }
  split; [|split].
  - intros x u LX. destruct (DEC (v_path u)) as [D|D]; [destruct (TAKEN x u LX D) as (A & _); rewrite A; exact LX|exact (O1 x u LX D)].
  - intros x u d LX CX. destruct (DEC (v_path u)) as [D|D]; [destruct (TAKEN x u LX D) as (_ & A & _); rewrite A; exact CX|]. destruct (O2 _ D) as [Z|(Z & _)]; congruence.
  - destruct (N.eq_dec hc 0) as [Z|NZ]; [left; exact Z|right]. intros n VN' x u LX AB. rewrite VN in VN'. injection VN' as <-. destruct (TAKEN x u LX AB) as (_ & _ & Z). contradiction.
Qed.

(** ** Examples *)
Example C47_folder_name_taken_example : exists v w n u, look (demo_start quiet) 7 = Some v /\ v_folder v /\ v_name v = Some n /\ look (demo_start quiet) 0 = Some w /\ look (demo_start quiet) 7 = Some u /\ v_path u = join (v_path w) n /\
  match copy_object quiet 10 7 0 true (demo_start quiet) with Ret (r, _) => r = (R_InvalidParentObject, 0) | _ => False end.
Proof. eexists. eexists. eexists. eexists. split; [vm_compute; reflexivity|]. split; [vm_compute; reflexivity|]. split; [vm_compute; reflexivity|]. split; [vm_compute; reflexivity|]. split; [vm_compute; reflexivity|]. split; vm_compute; reflexivity. Qed.
(** 3 bytes are free *)
Definition small : conf := mk_conf pS [] 65537 AllowWithinStorage (fun _ => FMT_Undefined) (fun _ => false) (fun t => Some (N.of_nat t)) demo_handle
    (fun t => N.of_nat t + 1000) (fun _ _ => None) (fun _ _ => FSDemo.no_info) (fun _ => Some 3) (fun _ => Some 2) (fun _ => false).
Definition pE : path := [47;115;47;101].
Definition small_disk : nodes := [(pS, Dir); (pA, Dir); (pB, File [1;2;3;4;5]); (pE, Dir)].
Definition small_start : fs := run_or (enumerate small 10 (fs_init (fun _ => None) small_disk)).
Lemma small_reachable : reachable small small_start.
Proof. apply reach_start with (fuel := 10%nat) (puoids := fun _ => None) (w := small_disk); [vm_compute; reflexivity|vm_compute; discriminate]. Qed.
(** copying the folder /s/a with its file of 5 bytes into /s/e *)
Example C47_no_space_example : match copy_object small 10 7 16 true small_start with
  | Ret ((c, hc), s') => c = R_StoreFull /\ hc = 21 /\ akeys (s_handles s') = [0; 7; 12; 16; 21] /\ content s' pB = Some (File [1;2;3;4;5])
  | _ => False end /\ match copy_object small 10 12 16 true small_start with Ret (r, _) => r = (R_StoreFull, 0) | _ => False end.
Proof. split; vm_compute; repeat split; reflexivity. Qed.
Print Assumptions C47_folder_name_taken.
Print Assumptions C47_no_space.
