(** The operations and the watch descriptors: everything but moving folders. *)
From Verif Require Import Base AList Wire FS FSPath FSTree FSLogic FSAdd2 FSWatch.

(** what the walks over a subtree look at *)
Definition lview (H : heap) (x : ptr) : option (option ptr * option ptr * bool) := match H x with Some i => Some (i_first i, i_next i, is_assoc i) | None => None end.
Definition lsame (s s' : fs) : Prop := forall x, lview (s_heap s') x = lview (s_heap s) x.
(** [x] is visited by a walk from [p] *)
Inductive vis (L : ptr -> option (option ptr * option ptr * bool)) : ptr -> ptr -> Prop :=
| vis_self p f n : L p = Some (f, n, true) -> vis L p p
| vis_down p f n x : L p = Some (f, n, true) -> visl L f x -> vis L p x
with visl (L : ptr -> option (option ptr * option ptr * bool)) : option ptr -> ptr -> Prop :=
| visl_here q x : vis L q x -> visl L (Some q) x
| visl_next q f n b x : L q = Some (f, n, b) -> visl L n x -> visl L (Some q) x.
Scheme vis_ind2 := Minimality for vis Sort Prop with visl_ind2 := Minimality for visl Sort Prop.
Combined Scheme vis_both from vis_ind2, visl_ind2.
Lemma vis_ext L L' : (forall x, L' x = L x) -> (forall p x, vis L p x -> vis L' p x) /\ (forall o x, visl L o x -> visl L' o x).
Proof.
  intros E. apply (vis_both L (fun p x => vis L' p x) (fun o x => visl L' o x)).
  - intros p f n H. eapply vis_self. rewrite E. exact H.
  - intros p f n x H _ IH. eapply vis_down; [rewrite E; exact H|exact IH].
  - intros q x _ IH. apply visl_here. exact IH.
  - intros q f n b x H _ IH. eapply visl_next; [rewrite E; exact H|exact IH].
Qed.
Lemma lsame_refl s : lsame s s. Proof. intros x. reflexivity. Qed.
Lemma lsame_trans a b c : lsame a b -> lsame b c -> lsame a c.
Proof. intros H1 H2 x. rewrite (H2 x). apply H1. Qed.

Section Watch2.
Variables (C : conf) (WT : forall t, c_wd C t <> None) (WI : forall t t' n, c_wd C t = Some n -> c_wd C t' = Some n -> t = t').
Notation asrt := (asrt C). Notation tr3 := (tr3 C). Notation nt := (nt C).
Implicit Types (D : ptr -> Prop) (K : ptr -> N -> option bool -> Prop).

Lemma tr_bind {A B} D K (m : M A) (f : A -> M B) (D1 : A -> ptr -> Prop) (D2 : B -> ptr -> Prop) : tr3 D K m D1 -> (forall a, tr3 (D1 a) K (f a) D2) -> tr3 D K (bind m f) D2.
Proof. intros H1 H2 s b s' H E. unfold bind in E. destruct (m s) as [[a s1]| |] eqn:E1; try discriminate. eapply H2; [|exact E]. eapply H1; eassumption. Qed.
Lemma tr_nt {A B} D K (m : M A) (f : A -> M B) (D2 : B -> ptr -> Prop) : nt m -> (forall a, tr3 D K (f a) D2) -> tr3 D K (bind m f) D2.
Proof. intros H1 H2. eapply tr_bind; [apply H1|exact H2]. Qed.
Lemma asrt_know D K s p i : asrt D K s -> s_heap s p = Some i -> kind i <> None -> asrt D (fun x h k => K x h k /\ (x = p -> k <> None)) s.
Proof.
  intros [I A1 A2 A3 A4] Hp Hk. constructor; auto.
  - intros x Hx h k. split; [auto|]. intros ->. pose proof (V_bd C s I p i Hp). lia.
  - intros x h k [Z1 Z2]. split; [apply A2; exact Z1|]. intros ->. exfalso. apply Z2; reflexivity.
  - intros x j Hj. split; [auto|]. intros ->. rewrite Hp in Hj. injection Hj as <-. exact Hk.
Qed.
Lemma asrt_forget D K (P : ptr -> N -> option bool -> Prop) s : (forall x h k, K x h None -> K x h k) -> asrt D (fun x h k => K x h k /\ P x h k) s -> asrt D K s.
Proof.
  intros U [I A1 A2 A3 A4]. constructor; auto.
  - intros x Hx h k. apply (A1 x Hx h k).
  - intros x j Hj. exact (proj1 (A3 x j Hj)).
Qed.
Lemma add_watch_clear D K s p i a s' : asrt (fun x => D x \/ x = p) K s -> s_heap s p = Some i -> kind i <> None -> add_watch C p s = Ret (a, s') -> asrt (fun x => D x \/ (x = p /\ missing s p)) K s'.
Proof.
  intros HA Hp Hk E. pose proof (asrt_know _ _ _ _ _ HA Hp Hk) as X.
  apply (add_watch_tr C WT WI D (fun x h k => K x h k /\ (x = p -> k <> None)) p) in E; [| |exact X].
  - eapply asrt_forget; [apply (A_up _ _ _ _ HA)|exact E].
  - intros h [_ Z]. apply Z; reflexivity.
Qed.
Lemma add_watch_there D K s p i a s' : asrt (fun x => D x \/ x = p) K s -> s_heap s p = Some i -> kind i <> None -> exists_at (i_path i) (s_nodes s) = true -> add_watch C p s = Ret (a, s') -> asrt D K s'.
Proof.
  intros HA Hp Hk HX E. eapply asrt_weak; [exact (add_watch_clear _ _ _ _ _ _ _ HA Hp Hk E)|]. intros x [Z|[_ (j & Z1 & Z2)]]; [exact Z|]. rewrite Hp in Z1. injection Z1 as <-. congruence.
Qed.

Ltac nt1 := lazymatch goal with
  | |- nt (bind _ _) => apply nt_bind; [|intros ?]
  | |- nt (deref _) => apply nt_deref
  | |- nt (deref_opt _) => apply nt_deref_opt
  | |- nt (ret _) => apply nt_ret
  | |- nt crash => apply nt_crash
  | |- nt give_up => apply nt_giveup
  | |- nt (get _) => apply nt_get
  | |- nt tick => apply nt_tick
  | |- nt (free _) => apply nt_free
  | |- nt (emit _ _) => apply nt_emit
  | |- nt (info_of _) => apply nt_info
  | |- nt (handle_ref _) => apply nt_handle_ref
  | |- nt (handle_value _) => apply nt_handle_value
  | |- nt (has_handle _) => apply nt_has_handle
  | |- nt (when _ _) => apply nt_when
  | |- nt (upd _) => apply nt_upd; intros; cbn; auto 10
  | |- nt (modify _ _) => apply nt_modify; intros; auto
  | |- nt (match ?x with _ => _ end) => destruct x
  end.
Ltac ntx := repeat nt1.
Tactic Notation "ntl" tactic3(t) := repeat first [t | nt1].

Lemma nt_fails : nt (fails C). Proof. unfold fails. ntx. Qed.
Lemma nt_rename a b : nt (sys_rename C a b). Proof. unfold sys_rename. ntl (apply nt_fails). Qed.
Lemma nt_rmdir a : nt (sys_rmdir C a). Proof. unfold sys_rmdir. ntl (apply nt_fails). Qed.
Lemma nt_remove a : nt (sys_remove C a). Proof. unfold sys_remove. ntl (apply nt_fails). Qed.
Lemma nt_open a : nt (sys_open_rw C a). Proof. unfold sys_open_rw. ntl (apply nt_fails). Qed.
Lemma nt_create_file a i : nt (create_file C a i). Proof. unfold create_file. ntl (first [apply nt_fails|apply nt_open]). Qed.
Lemma nt_create_directory a : nt (create_directory C a). Proof. unfold create_directory. ntl (apply nt_fails). Qed.
Lemma nt_link a b : nt (link_child a b). Proof. unfold link_child. ntx. Qed.
Lemma nt_find_pred x : forall fuel o, nt (find_pred fuel o x).
Proof. induction fuel as [|f IH]; intros [p|]; cbn [find_pred]; ntx. apply IH. Qed.
Lemma nt_unlink x : nt (unlink_child x). Proof. unfold unlink_child. ntx. apply nt_find_pred. Qed.
Lemma nt_find_by_path p : nt (find_by_path p). Proof. unfold find_by_path. ntx. Qed.
Lemma nt_add_to_maps p : nt (add_to_maps C p). Proof. unfold add_to_maps. ntx. Qed.
Lemma nt_populate p : nt (populate_info C p).
Proof.
  intros D K s a s' HA E. unfold populate_info in E. unfold bind at 1 in E. unfold deref at 1 in E. destruct (s_heap s p) as [i|] eqn:Hp; [|discriminate].
  destruct (i_info i) as [o|] eqn:Ei; [injection E as <- <-; exact HA|].
  assert (X : forall f, (forall j, i_wd (f j) = i_wd j /\ i_handle (f j) = i_handle j) -> forall s0 a0 s1, asrt D (fun x h k => K x h k /\ (x = p -> K p h None)) s0 -> (forall j, s_heap s0 p = Some j -> kind j = None) -> modify p f s0 = Ret (a0, s1) -> asrt D K s1).
  { intros f Hf s0 a0 s1 H0 HN E0. unfold modify in E0. destruct (s_heap s0 p) as [j|] eqn:Hj; [|discriminate]. injection E0 as <- <-. destruct (Hf j) as [F1 F2]. pose proof (HN j eq_refl) as HN'.
    assert (H0' : asrt D K s0) by (eapply asrt_forget; [apply (A_up _ _ _ _ HA)|exact H0]).
    eapply asrt_item; [exact H0'|exact Hj|exact F1| |auto|].
    - rewrite F2. apply (A_up _ _ _ _ HA). apply (A_k _ _ _ _ H0 p j Hj). reflexivity.
    - intros _ Hh. apply (A_d _ _ _ _ H0). exists j. split; [exact Hj|]. split; [congruence|]. intros (n & N1 & N2). apply Hh. exists n. rewrite F1, F2. auto. }
  assert (HA0 : asrt D (fun x h k => K x h k /\ (x = p -> K p h None)) s).
  { destruct HA as [I A1 A2 A3 A4]. constructor; auto.
    - intros x Hx h k. split; [auto|]. intros ->. apply A1. exact Hx.
    - intros x h k [Z1 Z2]. split; [auto|exact Z2].
    - intros x j Hj. split; [auto|]. intros ->. rewrite Hp in Hj. injection Hj as <-. pose proof (A3 p i Hp) as Z. unfold kind in Z. rewrite Ei in Z. exact Z. }
  unfold bind at 1 in E. unfold tick at 1 in E. unfold bind at 1 in E. unfold get at 1 in E. unfold bind at 1 in E.
  assert (HA1 : asrt D (fun x h k => K x h k /\ (x = p -> K p h None)) (set_tick (S (s_tick s)) s)) by (eapply asrt_same; [exact HA0|reflexivity..|cbn; lia]).
  assert (HN : forall j, s_heap (set_tick (S (s_tick s)) s) p = Some j -> kind j = None) by (cbn; intros j Hj; rewrite Hp in Hj; injection Hj as <-; unfold kind; rewrite Ei; reflexivity).
  destruct (i_parent i) as [q|].
  - unfold bind at 1 in E. unfold deref at 1 in E. cbn [s_heap set_tick] in E. destruct (s_heap s q) as [qi|]; [|discriminate]. unfold ret at 1 in E. eapply X; [|exact HA1|exact HN|exact E]. auto.
  - unfold ret at 1 in E. eapply X; [|exact HA1|exact HN|exact E]. auto.
Qed.
Lemma attach_w D K p info h s me s' : asrt D K s -> attach_new C p info h s = Ret (me, s') -> asrt (fun x => D x \/ x = me) K s' /\ (forall h k, K me h k).
Proof.
  intros HA E. unfold attach_new in E. unfold bind at 1 in E. destruct (alloc (new_item p) s) as [[m s1]| |] eqn:E1; try discriminate. destruct (alloc_new C D K p s m s1 HA E1) as (HA1 & KM & _).
  match type of E with ?prog s1 = _ => assert (Y : prog s1 = Ret (me, s') -> asrt (fun x => D x \/ x = m) K s' /\ m = me) end; [|destruct (Y E) as [Y1 Y2]; subst m; auto].
  assert (Z : forall (mm : M unit), tr3 (fun x => D x \/ x = m) K mm (fun _ x => D x \/ x = m) -> forall s0, asrt (fun x => D x \/ x = m) K s0 -> bind mm (fun _ => ret m) s0 = Ret (me, s') -> asrt (fun x => D x \/ x = m) K s' /\ m = me).
  { intros mm Hm s0 H0 E0. unfold bind in E0. destruct (mm s0) as [[[] s2]| |] eqn:E2; try discriminate. apply Ret_inj in E0. assert (m = me /\ s2 = s') as [A1 A2] by (split; congruence). subst. split; [eapply Hm; eassumption|reflexivity]. }
  intros E0. assert (MF : forall f, (forall i, i_wd (f i) = i_wd i) -> tr3 (fun x => D x \/ x = m) K (modify m f) (fun _ x => D x \/ x = m)) by (intros f Hf; apply mod_free; auto).
  clear E HA E1. revert s1 HA1 E0.
  assert (B : forall A (mm : M A) (f : A -> M ptr), tr3 (fun x => D x \/ x = m) K mm (fun _ x => D x \/ x = m) -> (forall a s1, asrt (fun x => D x \/ x = m) K s1 -> f a s1 = Ret (me, s') -> asrt (fun x => D x \/ x = m) K s' /\ m = me) ->
     forall s1, asrt (fun x => D x \/ x = m) K s1 -> bind mm f s1 = Ret (me, s') -> asrt (fun x => D x \/ x = m) K s' /\ m = me).
  { intros A mm f Hm Hf s1 H1 E1. unfold bind in E1. destruct (mm s1) as [[b s2]| |] eqn:E2; try discriminate. eapply Hf; [|exact E1]. eapply Hm; eassumption. }
  apply B; [apply nt_find_by_path|intros par]. apply B; [apply nt_get|intros root]. apply B; [apply nt_link|intros _]. apply B; [destruct info; [apply MF; reflexivity|apply nt_populate]|intros _].
  apply Z. destruct (peqb p (c_root C)); [apply MF; reflexivity|]. destruct (h =? 0); [|apply MF; reflexivity]. apply tr_nt; [apply nt_tick|intros t]. apply MF. reflexivity.
Qed.
Lemma kind_of_info i o : i_info i = Some o -> kind i = Some (oi_format o =? FMT_Association).
Proof. unfold kind. intros ->. reflexivity. Qed.
(** where the new item is, and what there is *)
Definition there (me : ptr) (p : path) (b : bool) (w : nodes) (s : fs) : Prop := s_nodes s = w /\ exists i, s_heap s me = Some i /\ i_path i = p /\ (b = true -> is_assoc i = true -> is_dir p w = true).
Lemma th_bind {A B} me p b w (m : M A) (f : A -> M B) : (forall s a s', there me p b w s -> m s = Ret (a, s') -> there me p b w s') -> (forall a s r s', there me p b w s -> f a s = Ret (r, s') -> there me p b w s') ->
  forall s r s', there me p b w s -> bind m f s = Ret (r, s') -> there me p b w s'.
Proof. intros H1 H2 s r s' HT E. unfold bind in E. destruct (m s) as [[a s1]| |] eqn:E1; try discriminate. eapply H2; [|exact E]. eapply H1; eassumption. Qed.
Lemma th_modify me p b w q f : (forall i, i_path (f i) = i_path i /\ i_info (f i) = i_info i) -> forall s a s', there me p b w s -> modify q f s = Ret (a, s') -> there me p b w s'.
Proof.
  intros Hf s a s' [H1 (i & H2 & H3 & H4)] E. unfold modify in E. destruct (s_heap s q) as [j|] eqn:Hq; [|discriminate]. injection E as <- <-. split; [exact H1|]. cbn [s_heap set_heap]. destruct (N.eq_dec me q) as [<-|N].
  - rewrite nupd_eq. rewrite H2 in Hq. injection Hq as <-. exists (f i). destruct (Hf i) as [F1 F2]. split; [reflexivity|]. split; [congruence|]. unfold is_assoc in *. rewrite F2. exact H4.
  - rewrite nupd_neq by exact N. exists i. auto.
Qed.
Lemma th_same {A} me p b w (m : M A) : (forall s a s', m s = Ret (a, s') -> s_nodes s' = s_nodes s /\ s_heap s' = s_heap s) -> forall s a s', there me p b w s -> m s = Ret (a, s') -> there me p b w s'.
Proof. intros Hm s a s' [H1 H2] E. destruct (Hm s a s' E) as [E1 E2]. split; [congruence|]. rewrite E2. exact H2. Qed.
Lemma attach_there p info h s me s' : (forall q, c_ext C q <> FMT_Association) -> attach_new C p info h s = Ret (me, s') -> there me p (match info with None => true | Some _ => false end) (s_nodes s) s'.
Proof.
  intros NF E. unfold attach_new in E. unfold bind at 1 in E. destruct (alloc (new_item p) s) as [[m s1]| |] eqn:E1; try discriminate.
  assert (H1 : there m p (match info with None => true | Some _ => false end) (s_nodes s) s1).
  { unfold alloc in E1. injection E1 as <- <-. split; [reflexivity|]. exists (new_item p). cbn [s_heap set_heap set_fresh]. rewrite nupd_eq. split; [reflexivity|]. split; [reflexivity|]. discriminate. }
  clear E1. set (w := s_nodes s) in *. clearbody w. set (b := match info with None => true | Some _ => false end) in *.
  match type of E with ?prog s1 = _ => assert (Y : forall s1 r s', there m p b w s1 -> prog s1 = Ret (r, s') -> there m p b w s' /\ r = m) end; [|destruct (Y s1 me s' H1 E) as [Y1 Y2]; subst m; exact Y1].
  clear s1 H1 E s'.
  assert (R : forall (m0 : M unit) s1 r s', (forall s a s', there m p b w s -> m0 s = Ret (a, s') -> there m p b w s') -> there m p b w s1 -> bind m0 (fun _ => ret m) s1 = Ret (r, s') -> there m p b w s' /\ r = m).
  { intros m0 s1 r s' Hm HT E. unfold bind in E. destruct (m0 s1) as [[a s2]| |] eqn:E2; try discriminate. apply Ret_inj in E. assert (s2 = s' /\ m = r) as [-> ->] by (split; congruence). split; [eapply Hm; eassumption|reflexivity]. }
  assert (B : forall A (mm : M A) (f : A -> M ptr), (forall s a s', there m p b w s -> mm s = Ret (a, s') -> there m p b w s') -> (forall a s1 r s', there m p b w s1 -> f a s1 = Ret (r, s') -> there m p b w s' /\ r = m) ->
     forall s1 r s', there m p b w s1 -> bind mm f s1 = Ret (r, s') -> there m p b w s' /\ r = m).
  { intros A mm f Hm Hf s1 r s' H1 E1. unfold bind in E1. destruct (mm s1) as [[c s2]| |] eqn:E2; try discriminate. eapply Hf; [|exact E1]. eapply Hm; eassumption. }
  apply B.
  { apply th_same. intros s1 a s2 E. unfold find_by_path, bind, get in E. destruct (s_paths s1 (parent_of p)); [|injection E as <- <-; auto]. unfold handle_value, get in E. injection E as <- <-. auto. }
  intros par. apply B; [apply th_same; intros s1 a s2 E; injection E as <- <-; auto|intros root]. apply B.
  { unfold link_child. destruct (match par with Some q => Some q | None => root end) as [q|]; [|apply th_same; intros s1 a s2 E; injection E as <- <-; auto].
    apply th_bind; [apply th_modify; auto|intros []]. intros s1 a s2. apply th_bind; [apply th_same; intros s3 c s4 E; unfold deref in E; destruct (s_heap s3 q); [|discriminate]; injection E as <- <-; auto|].
    intros c s3 e s4. destruct (i_first c); [|apply th_modify; auto]. apply th_bind; [apply th_modify; auto|intros []; apply th_modify; auto]. }
  intros []. apply B.
  { subst b. destruct info as [o|].
    - intros s1 a s2 [H1 (i & H2 & H3 & _)] E. unfold modify in E. rewrite H2 in E. injection E as <- <-. split; [exact H1|]. cbn [s_heap set_heap]. rewrite nupd_eq. eexists. split; [reflexivity|]. split; [exact H3|discriminate].
    - intros s1 a s2 HT E. unfold populate_info in E. unfold bind at 1 in E. unfold deref at 1 in E. pose proof HT as [H1 (i & H2 & H3 & H4)]. rewrite H2 in E. destruct (i_info i) as [o|] eqn:Ei; [injection E as <- <-; exact HT|].
      unfold bind at 1 in E. unfold tick at 1 in E. unfold bind at 1 in E. unfold get at 1 in E. unfold bind at 1 in E.
      assert (X : forall ph, modify m (it_info (Some (oi_with (c_extra C (s_tick s1) (i_path i)) (c_sid C) (format_of C (i_path i) (s_nodes s1)) (size_of (i_path i) (s_nodes s1)) ph (base_of (i_path i))))) (set_tick (S (s_tick s1)) s1) = Ret (a, s2) -> there m p true w s2).
      { intros ph E0. unfold modify in E0. cbn [s_heap set_tick] in E0. rewrite H2 in E0. injection E0 as <- <-. split; [exact H1|]. cbn [s_heap set_heap]. rewrite nupd_eq. eexists. split; [reflexivity|]. split; [exact H3|].
        intros _. unfold is_assoc. cbn. unfold format_of. rewrite H1, H3. destruct (is_dir p w); [auto|]. destruct (c_ext C p =? FMT_Association) eqn:Z; [|discriminate]. apply N.eqb_eq in Z. exfalso. exact (NF p Z). }
      destruct (i_parent i) as [q|]; [|unfold ret at 1 in E; eapply X; exact E]. unfold bind at 1 in E. unfold deref at 1 in E. cbn [s_heap set_tick] in E. destruct (s_heap s1 q); [|discriminate]. unfold ret at 1 in E. eapply X. exact E. }
  intros u. intros s1 r s'. apply R. destruct (peqb p (c_root C)); [apply th_modify; auto|]. destruct (h =? 0); [|apply th_modify; auto]. apply th_bind; [apply th_same; intros s3 c s4 E; injection E as <- <-; auto|intros t; apply th_modify; auto].
Qed.
Lemma create_dir_there p s rc s' : create_directory C p s = Ret (rc, s') -> s_heap s' = s_heap s /\ (isok rc = true -> node_at p (s_nodes s') = Some Dir).
Proof.
  intros E. split.
  - unfold create_directory, fails, bind, get, tick, ret, upd in E. destruct (is_dir p (s_nodes s)); [injection E as <- <-; reflexivity|]. destruct (c_fail C (s_tick s)); [injection E as <- <-; reflexivity|].
    destruct (mkpath p _); injection E as <- <-; reflexivity.
  - intros HO. eapply FSAdd2.create_directory_ok; [exact E|]. apply N.eqb_eq in HO. exact HO.
Qed.
Lemma nt_add : (forall q, c_ext C q <> FMT_Association) -> forall fuel p info send create h, (info = None \/ create = true) -> nt (add_to_storage C fuel p info send create h).
Proof.
  intros NF. induction fuel as [|fuel IH]; intros p info send create h IC; cbn [add_to_storage]; [ntx|].
  destruct (existsb (peqb p) (c_excl C)); [ntx|]. nt1; [nt1|]. destruct (link_refused C p (c_link C a p)); [ntx|]. nt1; [nt1|]. destruct a0 as [k|]; [ntx; apply nt_find_by_path|]. clear a.
  intros D K s res s' HA E. unfold bind at 1 in E. destruct (attach_new C p info h s) as [[me s1]| |] eqn:E1; try discriminate. destruct (attach_w _ _ _ _ _ _ _ _ HA E1) as [HA1 KM]. pose proof (attach_there _ _ _ _ _ _ NF E1) as [TH1 (i1 & TH2 & TH3 & TH4)].
  unfold bind at 1 in E. unfold deref at 1 in E. rewrite TH2 in E. rename i1 into i, TH2 into Hi. unfold bind at 1 in E. unfold info_of at 1 in E. destruct (i_info i) as [o|] eqn:Ei; [|discriminate]. unfold ret at 1 in E.
  match type of E with bind ?inner ?rest s1 = _ => set (inn := inner) in E; set (rst := rest) in E end.
  assert (IN : forall r s2, inn s1 = Ret (r, s2) -> asrt (fun x => D x \/ (x = me /\ isok r = false)) K s2).
  { intros r s2 E2. destruct (oi_format o =? FMT_Association) eqn:Ef.
    - pose proof (asrt_know _ _ _ _ _ HA1 Hi ltac:(rewrite (kind_of_info _ _ Ei); discriminate)) as HK. set (K2 := fun x h k => K x h k /\ (x = me -> k <> None)) in HK.
      eapply asrt_forget; [apply (A_up _ _ _ _ HA)|]. fold K2.
      unfold inn in E2. unfold bind at 1 in E2. destruct ((if create then create_directory C p else ret R_OK) s1) as [[rc s3]| |] eqn:E3; try discriminate.
      assert (HK3 : asrt (fun x => D x \/ x = me) K2 s3) by (assert (N : nt (if create then create_directory C p else ret R_OK)) by (destruct create; [apply nt_create_directory|ntx]); exact (N _ _ _ _ _ HK E3)).
      destruct (isok rc) eqn:Er; cbn [negb] in E2; [|injection E2 as <- <-; rewrite Er; eapply asrt_weak; [exact HK3|]; intros x [Z|Z]; auto].
      assert (HX : s_heap s3 me = Some i /\ exists_at p (s_nodes s3) = true).
      { destruct create; [apply create_dir_there in E3 as [X1 X2]; rewrite X1; split; [exact Hi|]; unfold exists_at; rewrite (X2 Er); reflexivity|]. destruct IC as [->|IC]; [|discriminate]. injection E3 as <- <-. split; [exact Hi|].
        rewrite TH1. specialize (TH4 eq_refl). unfold is_assoc in TH4. rewrite Ei in TH4. specialize (TH4 Ef). unfold is_dir in TH4. unfold exists_at. destruct (node_at p (s_nodes s)); [reflexivity|discriminate]. }
      destruct HX as [X1 X2]. unfold bind at 1 in E2. destruct (add_watch C me s3) as [[[] s4]| |] eqn:E4; try discriminate.
      assert (H4 : asrt D K2 s4) by (eapply add_watch_there; [exact HK3|exact X1|rewrite (kind_of_info _ _ Ei); discriminate|rewrite TH3; exact X2|exact E4]).
      assert (N : nt (add_to_maps C me;;; w <- get s_nodes;; (fix loop (l : list path) : M unit := match l with [] => ret tt | e :: l' => _ <- add_to_storage C fuel e None send create 0;; loop l' end) (entries_of p w);;; ret R_OK)).
      { nt1; [apply nt_add_to_maps|]. nt1; [nt1|]. nt1; [|nt1]. induction (entries_of p a0) as [|e l IHl]; [nt1|]. nt1; [apply IH; auto|exact IHl]. }
      eapply asrt_weak; [exact (N _ _ _ _ _ H4 E2)|auto].
    - assert (HA2 : asrt D K s1).
      { destruct HA1 as [I A1 A2 A3 A4]. constructor; auto. intros x Hx. destruct (A4 x Hx) as [Z|Z]; [exact Z|]. subst x. exfalso. destruct Hx as (j & H1 & H2 & _). rewrite Hi in H1. injection H1 as <-. apply H2. rewrite (kind_of_info _ _ Ei), Ef. reflexivity. }
      assert (N : nt inn).
      { unfold inn. nt1; [destruct create; [apply nt_create_file|ntx]|]. nt1; [nt1|]. nt1; [apply nt_add_to_maps|]. ntx. }
      eapply asrt_weak; [exact (N _ _ _ _ _ HA2 E2)|auto]. }
  unfold bind at 1 in E. destruct (inn s1) as [[r s2]| |] eqn:E2; try discriminate. pose proof (IN r s2 eq_refl) as HA2. unfold rst in E. destruct (isok r) eqn:Er; cbn [negb] in E.
  - assert (HA3 : asrt D K s2) by (eapply asrt_weak; [exact HA2|intros x [Z|[_ Z]]; [exact Z|discriminate]]).
    match type of E with ?prog s2 = _ => assert (N : nt prog) by ntx end. exact (N _ _ _ _ _ HA3 E).
  - assert (HA3 : asrt (fun x => D x \/ x = me) K s2) by (eapply asrt_weak; [exact HA2|intros x [Z|[Z _]]; auto]).
    match type of E with ?prog s2 = _ => assert (N : tr3 (fun x => D x \/ x = me) K prog (fun _ => D)) end; [|exact (N _ _ _ HA3 E)].
    apply tr_nt; [apply nt_unlink|intros _]. eapply tr_bind; [apply free_p|intros ?; apply nt_ret].
Qed.
Lemma nt_add_item (NF : forall q, c_ext C q <> FMT_Association) fuel info : nt (add_item C fuel info).
Proof. unfold add_item. ntl (apply (nt_add NF); auto). Qed.
Lemma nt_remove_from h send : nt (remove_from_storage h send).
Proof.
  unfold remove_from_storage. nt1; [nt1|]. nt1; [|ntx]. destruct a; [|ntx]. nt1; [nt1|]. destruct a as [p|]; [|ntx]. intros D K. eapply tr_nt; [apply nt_deref|intros i].
  eapply tr_bind with (D1 := fun _ x => D x \/ x = p).
  - destruct (i_wd i); [apply remove_watch_tr|]. intros s a s' HA E. injection E as <- <-. eapply asrt_weak; [exact HA|auto].
  - intros ?. cbn beta. apply tr_nt; [nt1|intros _]. apply tr_nt; [nt1|intros _]. apply tr_nt; [apply nt_unlink|intros _]. apply free_p.
Qed.
Lemma nt_delete : forall fuel h phys send, nt (delete_helper C fuel h phys send).
Proof.
  induction fuel as [|f IH]; intros h phys send; cbn [delete_helper]; [ntx|]. nt1; [nt1|]. destruct (negb a); [nt1|]. nt1; [nt1|]. destruct a0 as [p|]; [|nt1]. nt1; [nt1|]. destruct (opt_eqb (Some p) a0); [nt1|].
  nt1; [nt1|]. destruct (i_first a1).
  - nt1; [|destruct a2; [nt1|]; nt1; [apply IH|nt1]].
    assert (L : forall k, nt ((fix loop (k : nat) : M bool := i <- deref p ;; match i_first i with None => ret false | Some c => match k with O => give_up | S k' => ci <- deref c ;; r <- delete_helper C f (i_handle ci) phys send ;; if negb (isok r) then ret true else loop k' end end) k)); [|apply L].
    induction k as [|k IHk]; ntx; [apply IH|apply IHk].
  - nt1; [destruct phys; [|nt1]; nt1; [nt1|]; destruct ((oi_format a2 =? FMT_Association) && negb (i_handle a1 =? 0)); [nt1; [nt1|apply nt_rmdir]|apply nt_remove]|]. destruct (negb a2); [nt1|]. nt1; [apply nt_remove_from|nt1].
Qed.
Lemma nt_delete_item fuel order h fmt : nt (delete_item C fuel order h fmt).
Proof.
  unfold delete_item. destruct (h =? ALL); [|apply nt_delete]. nt1; [nt1|].
  match goal with |- nt (?F order R_GeneralError false false) => assert (L : forall l r x y, nt (F l r x y)); [|apply L] end.
  induction l as [|k l IHl]; intros r x y; cbn beta iota; [ntx|]. nt1; [|apply IHl]. destruct (negb (fmt =? 0) && negb (fmt =? FMT_Undefined)); [|apply nt_delete]. nt1; [nt1|]. destruct (match i_info a0 with Some o => oi_format o =? fmt | None => false end); [apply nt_delete|nt1].
Qed.
Lemma nt_list_children fmt : forall fuel o, nt (list_children fuel o fmt).
Proof. induction fuel as [|f IH]; intros [p|]; cbn [list_children]; ntx. apply IH. Qed.
Lemma nt_list_all fmt : forall l, nt (list_all l fmt).
Proof. induction l as [|[h v] l IH]; cbn [list_all]; ntx; apply IH. Qed.
Lemma nt_get_handles fmt a : nt (get_object_handles fmt a).
Proof. unfold get_object_handles. ntx; first [apply nt_list_all|apply nt_list_children]. Qed.
Lemma nt_adjust_moved : forall fuel anc p, nt (adjust_moved fuel anc p).
Proof.
  induction fuel as [|f IH]; intros anc p; cbn [adjust_moved]; [ntx|]. nt1; [nt1|]. nt1; [ntx|]. nt1; [nt1|]. nt1; [nt1|]. nt1; [ntx|].
  match goal with |- nt (?F f (i_first a)) => assert (L : forall k o, nt (F k o)); [|apply L] end.
  induction k as [|k IHk]; intros [q|]; ntx; [apply IH|apply IHk].
Qed.
Lemma nt_adjust_children fuel anc : forall k o, nt (adjust_children fuel k anc o).
Proof. induction k as [|k IHk]; intros [q|]; cbn [adjust_children]; ntx; [apply nt_adjust_moved|apply IHk]. Qed.
Lemma nt_name_valid n o : nt (file_name_valid n o).
Proof. unfold file_name_valid. ntx. Qed.

(** *** Reading and writing *)
Lemma nt_read_loop d : forall fuel pos n acc, nt (read_loop C fuel d pos n acc).
Proof. induction fuel as [|f IH]; intros pos n acc; cbn [read_loop]; destruct (n =? 0); ntx. apply IH. Qed.
Lemma nt_read h n off : nt (read_data C h n off).
Proof. unfold read_data. ntl (first [apply nt_fails | apply nt_read_loop]). Qed.
(** [it_info (Some o')] where [o'] has the format of the present info *)
Lemma mod_info D K p s a s' o : asrt D K s -> (forall i, s_heap s p = Some i -> exists x, i_info i = Some x /\ oi_format o = oi_format x) -> modify p (it_info (Some o)) s = Ret (a, s') -> asrt D K s'.
Proof.
  intros HA HF E. unfold modify in E. destruct (s_heap s p) as [i|] eqn:Hp; [|discriminate]. injection E as <- <-. destruct (HF i eq_refl) as (x & X1 & X2).
  assert (Ek : kind (it_info (Some o) i) = kind i) by (unfold kind; cbn; rewrite X1, X2; reflexivity).
  eapply asrt_item; [exact HA|exact Hp|reflexivity| |auto|].
  - rewrite Ek. apply (A_k _ _ _ _ HA p i Hp).
  - rewrite Ek. intros H1 H2. apply (A_d _ _ _ _ HA). exists i. split; [exact Hp|]. split; [exact H1|]. exact H2.
Qed.
End Watch2.
