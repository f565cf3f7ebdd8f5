(** Folders on the disk: what copying does to them. *)
From Verif Require Import Base AList Wire FS FSPath FSTree FSLogic FSAdd2 FSSpec FSAnn FSWatch FSWatch2.

Definition monot (w w' : nodes) : Prop := forall p, exists_at p w = true -> exists_at p w' = true.
(** nothing disappears from the disk, and no folder item (but those in [E]) is or becomes
    one for which there is nothing *)
Definition firm (E : ptr -> Prop) (s s' : fs) : Prop := monot (s_nodes s) (s_nodes s') /\
  forall x i', ~ E x -> s_heap s' x = Some i' -> is_assoc i' = true -> (exists i, s_heap s x = Some i /\ is_assoc i = true /\ i_path i = i_path i') \/ exists_at (i_path i') (s_nodes s') = true.
Definition solid (s : fs) : Prop := forall x i, s_heap s x = Some i -> is_assoc i = true -> exists_at (i_path i) (s_nodes s) = true.
Definition none (x : ptr) : Prop := False.
Lemma firm_refl E s : firm E s s.
Proof. split; [intros p H; exact H|]. intros x i _ H A. left. eauto. Qed.
Lemma firm_trans E a b c : firm E a b -> firm E b c -> firm E a c.
Proof.
  intros [A1 A2] [B1 B2]. split; [intros p H; auto|]. intros x i NE H A. destruct (B2 x i NE H A) as [(j & J1 & J2 & J3)|Z]; [|auto]. destruct (A2 x j NE J1 J2) as [(k & K1 & K2 & K3)|Z]; [left; exists k; split; [exact K1|]; split; [exact K2|congruence]|right]. rewrite <- J3. auto.
Qed.
Lemma firm_solid s s' : firm none s s' -> solid s -> solid s'.
Proof. intros [A1 A2] S x i H A. destruct (A2 x i ltac:(intros []) H A) as [(j & J1 & J2 & J3)|Z]; [|exact Z]. rewrite <- J3. apply A1. eapply S; eassumption. Qed.
Lemma firm_weak (E E' : ptr -> Prop) s s' : firm E s s' -> (forall x, E x -> E' x) -> firm E' s s'.
Proof. intros [A1 A2] H. split; [exact A1|]. intros x i NE. apply A2. auto. Qed.
Lemma firm_done me s s' : firm (fun x => x = me) s s' -> (forall i, s_heap s' me = Some i -> is_assoc i = true -> exists_at (i_path i) (s_nodes s') = true) -> firm none s s'.
Proof. intros [A1 A2] H. split; [exact A1|]. intros x i _ Hx A. destruct (N.eq_dec x me) as [->|N]; [right; auto|auto]. Qed.

Section Firm.
Variables (C : conf) (NF : forall q, c_ext C q <> FMT_Association).
Definition fm (E : ptr -> Prop) {A} (m : M A) : Prop := tr (firm E) m.
Lemma fm_weak E {A} (m : M A) : fm none m -> fm E m.
Proof. intros H s a s' E0. eapply firm_weak; [exact (H s a s' E0)|intros x []]. Qed.
Lemma fm_bind E {A B} (m : M A) (f : A -> M B) : fm E m -> (forall a, fm E (f a)) -> fm E (bind m f).
Proof. apply FSAnn.tr_bind. apply firm_trans. Qed.
Lemma fm_upd E f : (forall s, s_heap (f s) = s_heap s /\ s_nodes (f s) = s_nodes s) -> fm E (upd f).
Proof. intros H s a s' E0. injection E0 as <- <-. destruct (H s) as [A B]. split; [rewrite B; intros p Z; exact Z|]. rewrite A. intros x i _ Hx Ai. left. eauto. Qed.
Lemma fm_modify E p f : (forall i, is_assoc (f i) = is_assoc i /\ i_path (f i) = i_path i) -> fm E (modify p f).
Proof.
  intros H s a s' E0. unfold modify in E0. destruct (s_heap s p) as [j|] eqn:Hp; [|discriminate]. injection E0 as <- <-. split; [intros q Z; exact Z|]. cbn [s_heap set_heap s_nodes]. intros x i _ Hx Ai. unfold nupd in Hx. destruct (x =? p) eqn:Z; [|left; eauto].
  apply N.eqb_eq in Z. subst x. injection Hx as <-. destruct (H j) as [H1 H2]. left. exists j. split; [exact Hp|]. split; [congruence|auto].
Qed.
Lemma fm_modify_in (E : ptr -> Prop) p f : E p -> fm E (modify p f).
Proof.
  intros H s a s' E0. unfold modify in E0. destruct (s_heap s p) as [j|] eqn:Hp; [|discriminate]. injection E0 as <- <-. split; [intros q Z; exact Z|]. cbn [s_heap set_heap s_nodes]. intros x i NE Hx Ai. unfold nupd in Hx. destruct (x =? p) eqn:Z; [|left; eauto].
  apply N.eqb_eq in Z. subst x. contradiction.
Qed.
Lemma firm_same E s s' : s_heap s' = s_heap s -> s_nodes s' = s_nodes s -> firm E s s'.
Proof. intros A B. split; [rewrite B; intros p Z; exact Z|]. rewrite A. intros x i _ Hx Ai. left. eauto. Qed.
Lemma fm_tick E : fm E tick. Proof. intros s a s' E0. injection E0 as <- <-. apply firm_same; reflexivity. Qed.
Lemma fm_handle_ref E h : fm E (handle_ref h).
Proof. intros s a s' E0. unfold handle_ref in E0. destruct (aget h (s_handles s)); injection E0 as <- <-; apply firm_same; reflexivity. Qed.
Definition fm_ret E {A} := @FSAnn.tr_ret (firm E) (firm_refl E) A.
Definition fm_get E {A} := @FSAnn.tr_get (firm E) (firm_refl E) A.
Definition fm_deref E := @FSAnn.tr_deref (firm E) (firm_refl E).
Definition fm_deref_opt E := @FSAnn.tr_deref_opt (firm E) (firm_refl E).
Definition fm_info E := @FSAnn.tr_info (firm E) (firm_refl E).
Definition fm_when E := @FSAnn.tr_when (firm E) (firm_refl E).
Definition fm_crash E {A} := @FSAnn.tr_crash (firm E) A.
Definition fm_giveup E {A} := @FSAnn.tr_giveup (firm E) A.
Ltac f1 := unfold fm; lazymatch goal with
  | |- tr (firm ?E) (bind _ _) => apply (fm_bind E); [|intros ?]
  | |- tr (firm ?E) (ret _) => apply (fm_ret E)
  | |- tr (firm ?E) (get _) => apply (fm_get E)
  | |- tr (firm ?E) (has_handle _) => apply (fm_get E)
  | |- tr (firm ?E) (handle_value _) => apply (fm_get E)
  | |- tr (firm ?E) (handle_ref _) => apply (fm_handle_ref E)
  | |- tr (firm ?E) (deref _) => apply (fm_deref E)
  | |- tr (firm ?E) (deref_opt _) => apply (fm_deref_opt E)
  | |- tr (firm ?E) (info_of _) => apply (fm_info E)
  | |- tr (firm ?E) crash => apply (fm_crash E)
  | |- tr (firm ?E) give_up => apply (fm_giveup E)
  | |- tr (firm ?E) tick => apply (fm_tick E)
  | |- tr (firm ?E) (emit _ _) => apply (fm_upd E); intros; cbn; auto
  | |- tr (firm ?E) (when _ _) => apply (fm_when E)
  | |- tr (firm ?E) (upd _) => apply (fm_upd E); intros; cbn; auto
  | |- tr (firm ?E) (modify _ _) => apply (fm_modify E); intros; auto
  | |- tr (firm ?E) (match ?x with _ => _ end) => destruct x
  end.
Ltac fx := repeat f1.
Tactic Notation "fl" tactic3(t) := repeat first [t | f1].
(** steps that know the files as they are *)
Definition fmn (E : ptr -> Prop) (w : nodes) {A} (m : M A) : Prop := forall s a s', s_nodes s = w -> m s = Ret (a, s') -> firm E s s'.
Lemma fm_nodes E {A} (f : nodes -> M A) : (forall w, fmn E w (f w)) -> fm E (bind (get s_nodes) f).
Proof. intros H s a s' E0. exact (H (s_nodes s) s a s' eq_refl E0). Qed.
Lemma fmn_fm E {A} w (m : M A) : fm E m -> fmn E w m.
Proof. intros H s a s' _ E0. exact (H s a s' E0). Qed.
Lemma fmn_bind E {A B} w (m : M A) (f : A -> M B) : fmn E w m -> (forall a, fm E (f a)) -> fmn E w (bind m f).
Proof. intros H1 H2 s a s' Ew E0. unfold bind in E0. destruct (m s) as [[x s1]| |] eqn:E1; try discriminate. eapply firm_trans; [exact (H1 s x s1 Ew E1)|exact (H2 x s1 a s' E0)]. Qed.
Lemma fmn_fails E {A} w (f : bool -> M A) : (forall b, fmn E w (f b)) -> fmn E w (bind (fails C) f).
Proof. intros H s a s' Ew E0. unfold fails, bind, tick, ret in E0. exact (H _ (set_tick (S (s_tick s)) s) _ _ Ew E0). Qed.
Lemma fmn_to E w w' : monot w w' -> fmn E w (upd (set_nodes w')).
Proof. intros H s a s' Ew E0. injection E0 as <- <-. split; [cbn; rewrite Ew; exact H|]. cbn. intros x i _ Hx A. left. eauto. Qed.
Lemma mono_set p n w : monot w (set_node p n w).
Proof. intros q H. unfold exists_at in *. rewrite node_at_set. destruct (peqb q p); auto. Qed.
Lemma mono_mkpath p w w' : mkpath p w = Some w' -> monot w w'.
Proof.
  unfold mkpath. generalize (ancestors p ++ [p]). intros l. revert w. induction l as [|q l IH]; intros w E; cbn [fold_left] in E; [injection E as <-; intros x H; exact H|]. destruct (node_at q w) as [[d|]|] eqn:Eq.
  - exfalso. clear - E. induction l; cbn [fold_left] in E; [discriminate|auto].
  - apply IH. exact E.
  - intros x H. apply (IH _ E). apply mono_set. exact H.
Qed.
Lemma fmn_ret E {A} w (a : A) : fmn E w (ret a). Proof. apply fmn_fm. fx. Qed.
Lemma fm_fails E : fm E (fails C). Proof. unfold fails. fx. Qed.
Lemma fm_open E p : fm E (sys_open_rw C p).
Proof. unfold sys_open_rw. f1; [apply fm_fails|]. apply fm_nodes. intros w. destruct a; [apply fmn_ret|]. destruct (node_at p w) as [[]|]; [apply fmn_ret..|]. destruct (_ && _); [|apply fmn_ret]. apply fmn_bind; [apply fmn_to, mono_set|intros _; fx]. Qed.
Lemma fm_create_file E p i : fm E (create_file C p i).
Proof.
  unfold create_file. f1; [apply fm_open|]. f1; [f1|]. f1; [apply fm_fails|]. apply fm_nodes. intros w. destruct (node_at p w) as [[d|]|]; [|apply fmn_ret..]. apply fmn_bind; [|intros _; fx]. unfold when. destruct (negb _); [apply fmn_to, mono_set|apply fmn_ret].
Qed.
Lemma fm_create_directory E p : fm E (create_directory C p).
Proof.
  unfold create_directory. apply fm_nodes. intros w. destruct (is_dir p w); [apply fmn_ret|]. apply fmn_fails. intros b. destruct b; [apply fmn_ret|]. destruct (mkpath p w) eqn:Em; [|apply fmn_ret]. apply fmn_bind; [apply fmn_to; eapply mono_mkpath; exact Em|intros _; fx].
Qed.
Lemma fm_write_loop E : forall fuel bs, fm E (write_loop C fuel bs).
Proof.
  induction fuel as [|f IH]; intros [|b bs]; cbn [write_loop]; try (fx; fail). f1; [f1|]. f1; [|f1]. f1. f1; [f1|]. f1; [|f1]. apply fm_nodes. intros w. cbv zeta. apply fmn_bind; [|intros _; f1; [f1|apply IH]]. destruct (node_at p w) as [[d|]|]; [apply fmn_to, mono_set|apply fmn_ret..].
Qed.
Lemma fm_write_data E h data first last : fm E (write_data C h data first last).
Proof.
  unfold write_data. f1; [f1|]. f1; [f1|]. f1; [f1|]. f1; [|f1]. f1.
  - f1; [f1|]. f1; [fl (apply fm_open)|]. f1; [f1|]. f1; [fx|]. apply fm_write_loop.
  - f1; [|f1]. f1; [f1|]. f1; [f1|]. f1; [|f1]. f1. apply fm_nodes. intros w. apply fmn_fails. intros b. apply fmn_bind; [|intros _; fx]. destruct (node_at p0 w) as [[d|]|]; [|apply fmn_ret..]. unfold when. destruct (negb b); [apply fmn_to, mono_set|apply fmn_ret].
Qed.
Lemma fm_read_loop E d : forall fuel pos n acc, fm E (read_loop C fuel d pos n acc).
Proof. induction fuel as [|f IH]; intros pos n acc; cbn [read_loop]; destruct (n =? 0); fl (apply IH). Qed.
Lemma fm_read E h n off : fm E (read_data C h n off).
Proof. unfold read_data. fl (first [apply fm_fails|apply fm_read_loop]). Qed.
Lemma fm_link E a b : fm E (link_child a b). Proof. unfold link_child. fx. Qed.
Lemma fm_find E p : fm E (find_by_path p). Proof. unfold find_by_path. fx. Qed.
Lemma fm_find_pred E x : forall fuel o, fm E (find_pred fuel o x).
Proof. induction fuel as [|f IH]; intros [p|]; cbn [find_pred]; fl (apply IH). Qed.
Lemma fm_unlink E x : fm E (unlink_child x). Proof. unfold unlink_child. fl (apply fm_find_pred). Qed.
Lemma fm_maps E p : fm E (add_to_maps C p). Proof. unfold add_to_maps. fx. Qed.
Lemma fm_watch E p : fm E (add_watch C p). Proof. unfold add_watch, sys_add_watch. fx. Qed.
Lemma fm_unwatch E p : fm E (remove_watch p). Proof. unfold remove_watch. fx. Qed.
Lemma fm_populate E p : fm E (populate_info C p).
Proof.
  intros s a s' H. unfold populate_info in H. inv H i s1 E1. apply deref_inv in E1 as [-> Hp]. destruct (i_info i) as [o|] eqn:Ei; [injection H as <- <-; apply firm_refl|]. inv H t s1 E1. injection E1 as <- <-. inv H w s1 E1. injection E1 as <- <-.
  inv H ph s1 E1. assert (s1 = set_tick (S (s_tick s)) s) as ->.
  { destruct (i_parent i) as [q|]; [|injection E1 as <- <-; reflexivity]. inv E1 qi s2 E2. apply deref_inv in E2 as [-> _]. injection E1 as <- <-. reflexivity. }
  unfold modify in H. cbn [s_heap set_tick] in H. rewrite Hp in H. injection H as <- <-. split; [intros q Z; exact Z|]. cbn [s_heap set_heap s_nodes set_tick]. intros x j _ Hx A. unfold nupd in Hx. destruct (x =? p) eqn:Z; [|left; eauto]. injection Hx as <-. right.
  unfold is_assoc in A. cbn in A. unfold format_of in A. cbn [i_path it_info s_nodes set_tick] in *. destruct (is_dir (i_path i) (s_nodes s)) eqn:Ed; [|apply N.eqb_eq in A; exfalso; exact (NF _ A)]. unfold is_dir in Ed. unfold exists_at. destruct (node_at (i_path i) (s_nodes s)); [reflexivity|discriminate].
Qed.
Lemma fm_get_info E h : fm E (get_object_info C h).
Proof. unfold get_object_info. fl (apply fm_populate). Qed.
Lemma attach_firm p info h s me s' : attach_new C p info h s = Ret (me, s') -> firm (fun x => x = me) s s'.
Proof.
  intros E. unfold attach_new in E. inv E m s1 E1.
  assert (F1 : firm (fun x => x = m) s s1).
  { unfold alloc in E1. injection E1 as <- <-. split; [intros q Z; exact Z|]. cbn [s_heap set_heap set_fresh]. intros x i N Hx A. rewrite nupd_neq in Hx by exact N. left. eauto. }
  match type of E with ?prog s1 = _ => assert (FM : fm (fun x => x = m) prog) end.
  { f1; [apply fm_find|]. f1; [f1|]. f1; [apply fm_link|]. f1; [destruct info; [apply fm_modify_in; reflexivity|apply fm_populate]|]. f1; [|f1]. f1; [apply fm_modify_in; reflexivity|]. f1; [|apply fm_modify_in; reflexivity]. f1; [f1|apply fm_modify_in; reflexivity]. }
  pose proof (FM _ _ _ E) as F2. assert (m = me).
  { inv E x1 s2 E2. inv E x2 s3 E3. inv E x3 s4 E4. inv E x4 s5 E5. inv E x5 s6 E6. injection E as <- _. reflexivity. }
  subst m. eapply firm_trans; eassumption.
Qed.
Lemma fm_add : forall fuel p info send create h, info = None \/ create = true -> fm none (add_to_storage C fuel p info send create h).
Proof.
  induction fuel as [|fuel IH]; intros p info send create h IC; cbn [add_to_storage]; [fx|]. destruct (existsb (peqb p) (c_excl C)); [fx|]. f1; [f1|]. destruct (link_refused C p (c_link C a p)); [fx|]. f1; [f1|]. destruct a0 as [k|]; [fl (apply fm_find)|]. clear a.
  intros s res s' E. inv E me s1 E1. pose proof (attach_firm _ _ _ _ _ _ E1) as F1. pose proof (attach_there C _ _ _ _ _ _ NF E1) as [TH1 (i & Hi & TH3 & TH4)]. clear E1.
  inv E i0 s2 E2. apply deref_inv in E2 as [-> Hi']. rewrite Hi in Hi'. injection Hi' as <-. inv E o s2 E2. apply info_inv in E2 as [-> Ei].
  inv E r s2 E2.
  assert (X : if isok r then firm none s s2 else firm (fun x => x = me) s s2).
  { destruct (oi_format o =? FMT_Association) eqn:Ef.
    - inv E2 rc s3 E3. assert (F3 : firm none s1 s3) by (destruct create; [eapply fm_create_directory; exact E3|injection E3 as _ <-; apply firm_refl]).
      destruct (isok rc) eqn:Er; cbn [negb] in E2; [|injection E2 as <- <-; rewrite Er; eapply firm_trans; [exact F1|eapply firm_weak; [exact F3|intros x []]]].
      assert (X2 : s_heap s3 me = Some i /\ exists_at p (s_nodes s3) = true).
      { destruct create; [apply create_dir_there in E3 as [X1 X2]; rewrite X1; split; [exact Hi|]; unfold exists_at; rewrite (X2 Er); reflexivity|]. destruct IC as [->|IC]; [|discriminate]. injection E3 as <- <-. split; [exact Hi|].
        rewrite TH1. specialize (TH4 eq_refl). unfold is_assoc in TH4. rewrite Ei in TH4. specialize (TH4 Ef). unfold is_dir in TH4. unfold exists_at. destruct (node_at p (s_nodes s)); [reflexivity|discriminate]. }
      assert (F4 : firm none s s3).
      { eapply firm_done; [eapply firm_trans; [exact F1|eapply firm_weak; [exact F3|intros x []]]|]. intros j Hj _. destruct X2 as [X2 X3]. rewrite X2 in Hj. injection Hj as <-. rewrite TH3. exact X3. }
      match type of E2 with ?prog s3 = _ => assert (FM : fm none prog) end.
      { f1; [apply fm_watch|]. f1; [apply fm_maps|]. f1; [f1|]. f1; [|f1]. induction (entries_of p a1) as [|e l IHl]; [f1|]. f1; [apply IH; auto|exact IHl]. }
      pose proof (FM _ _ _ E2) as F5. assert (F6 : firm none s s2) by (eapply firm_trans; eassumption). destruct (isok r); [exact F6|eapply firm_weak; [exact F6|intros x []]].
    - assert (F2 : firm none s s1). { eapply firm_done; [exact F1|]. intros j Hj A. rewrite Hi in Hj. injection Hj as <-. unfold is_assoc in A. rewrite Ei in A. congruence. }
      match type of E2 with ?prog s1 = _ => assert (FM : fm none prog) end.
      { f1; [destruct create; [apply fm_create_file|fx]|]. fl (apply fm_maps). }
      pose proof (FM _ _ _ E2) as F5. assert (F6 : firm none s s2) by (eapply firm_trans; eassumption). destruct (isok r); [exact F6|eapply firm_weak; [exact F6|intros x []]]. }
  destruct (isok r); cbn [negb] in E.
  - match type of E with ?prog s2 = _ => assert (FM : fm none prog) by fx end. eapply firm_trans; [exact X|exact (FM _ _ _ E)].
  - inv E u s3 E3. pose proof (fm_unlink none me _ _ _ E3) as F3. inv E u2 s4 E4. injection E as <- <-. unfold free, upd in E4. injection E4 as <- <-. assert (F3' : firm (fun x => x = me) s2 s3) by (eapply firm_weak; [exact F3|intros x []]). pose proof (firm_trans _ _ _ _ X F3') as X'. clear X. rename X' into X.
    destruct X as [X1 X2]. split; [exact X1|]. cbn [s_heap set_heap s_nodes]. intros x j _ Hx A. unfold nupd in Hx. destruct (x =? me) eqn:Z; [discriminate|]. apply N.eqb_neq in Z. exact (X2 x j Z Hx A).
Qed.
Lemma fm_add_item fuel info : fm none (add_item C fuel info).
Proof. unfold add_item. fl (apply fm_add; auto). Qed.
Lemma fm_list_children fmt : forall fuel o, fm none (list_children fuel o fmt).
Proof. induction fuel as [|f IH]; intros [p|]; cbn [list_children]; fl (apply IH). Qed.
Lemma fm_list_all fmt : forall l, fm none (list_all l fmt).
Proof. induction l as [|[h v] l IH]; cbn [list_all]; fl (apply IH). Qed.
Lemma fm_get_handles fmt a : fm none (get_object_handles fmt a).
Proof. unfold get_object_handles. fl (first [apply fm_list_all|apply fm_list_children]). Qed.
Lemma fm_any_path p : forall l, fm none (any_path l p).
Proof. induction l as [|h l IH]; cbn [any_path]; fl (apply IH). Qed.
(** a copy of data that is made completely deletes nothing *)
Lemma copy_loop_firm dfuel src dst : forall fuel off rem result s c s', copy_loop C fuel dfuel src dst off rem result s = Ret (c, s') -> isok c = true -> firm none s s'.
Proof.
  induction fuel as [|f IH]; intros off rem result s c s' E OK; cbn [copy_loop] in E; (destruct (_ || _); [injection E as <- <-; apply firm_refl|]); [discriminate|]. cbv zeta in E.
  inv E r1 s1 E1. apply fm_read with (E := none) in E1. eapply firm_trans; [exact E1|]. clear E1. inv E t s2 E2. apply fm_tick with (E := none) in E2. eapply firm_trans; [exact E2|]. clear E2.
  destruct (c_cancel C t); [inv E x s3 E3; injection E as <- _; discriminate|]. destruct (negb _); [eapply IH; eassumption|].
  inv E w1 s3 E3. apply fm_write_data with (E := none) in E3. eapply firm_trans; [exact E3|]. clear E3. inv E w2 s4 E4. assert (F : fm none (if rem - N.min rem MAX_READ_LEN =? 0 then write_data C dst None false true else ret w1)) by (destruct (_ =? 0); [apply fm_write_data|fx]).
  eapply firm_trans; [exact (F _ _ _ E4)|]. eapply IH; eassumption.
Qed.
Lemma copy_data_firm fuel src dst s c s' : copy_data C fuel src dst s = Ret (c, s') -> isok c = true -> firm none s s'.
Proof.
  intros E OK. unfold copy_data in E. inv E b1 s1 E1. injection E1 as <- <-. inv E b2 s1 E1. injection E1 as <- <-. destruct (_ || _); [injection E as <- <-; apply firm_refl|]. inv E r s1 E1. apply fm_get_info with (E := none) in E1. eapply firm_trans; [exact E1|].
  destruct (negb _); [injection E as <- <-; apply firm_refl|]. destruct (snd r) as [o|]; [|discriminate]. cbv zeta in E. eapply copy_loop_firm; eassumption.
Qed.
End Firm.
