(** Proofs about Refs.v *)
From Verif Require Import Base AList FS Persist PersistProofs Refs.

(** ** Histories *)
(** [seen]: every handle that was ever given to an object *)
Definition refs_ok (seen : list N) (s : refstate) : Prop :=
  (forall h, alive s h = true -> In h seen) /\
  (forall h l, aget h (rs_refs s) = Some l -> In h seen /\ forall x, In x l -> In x seen).
Definition seen_of (o : refop) (seen : list N) : list N := match o with Appear h _ => h :: seen | _ => seen end.
Lemma aget_map_filter h (f : N -> bool) m : aget h (map (fun e => (fst e, filter f (snd e))) m) = match aget h m with Some l => Some (filter f l) | None => None end.
Proof. induction m as [|[k l] m IH]; [reflexivity|]. cbn [map aget fst snd]. destruct (h =? k); [reflexivity|exact IH]. Qed.
Lemma alive_appear h o s x : alive (ref_step (Appear h o) s) x = (x =? h) || alive s x.
Proof. unfold alive, ahas. cbn [ref_step rs_live]. rewrite aget_aset. destruct (x =? h); reflexivity. Qed.
Lemma alive_vanish h s x : alive (ref_step (Vanish h) s) x = negb (x =? h) && alive s x.
Proof. unfold alive, ahas. cbn [ref_step rs_live]. rewrite aget_adel. destruct (x =? h); reflexivity. Qed.
Lemma set_live h l s : rs_live (snd (set_refs h l s)) = rs_live s.
Proof. unfold set_refs. destruct (alive s h); [|reflexivity]. cbn [negb]. destruct (forallb (alive s) l); reflexivity. Qed.
Lemma get_live h s : rs_live (snd (get_refs h s)) = rs_live s.
Proof. unfold get_refs. destruct (alive s h); [|reflexivity]. cbn [negb]. destruct (aget h (rs_refs s)); reflexivity. Qed.
Lemma filter_twice {A} (f : A -> bool) l : filter f (filter f l) = filter f l.
Proof. induction l as [|x l IH]; [reflexivity|]. cbn [filter]. destruct (f x) eqn:E; [cbn [filter]; rewrite E, IH; reflexivity|exact IH]. Qed.
Lemma filter_sub {A} (f g : A -> bool) l : (forall x, In x l -> f x = true -> g x = true) -> filter f (filter g l) = filter f l.
Proof.
  induction l as [|x l IH]; intros H; [reflexivity|]. cbn [filter]. destruct (g x) eqn:E; cbn [filter].
  - rewrite IH by (intros y Hy; apply H; right; exact Hy). reflexivity.
  - rewrite IH by (intros y Hy; apply H; right; exact Hy). destruct (f x) eqn:F; [|reflexivity]. rewrite (H x (or_introl eq_refl) F) in E. discriminate.
Qed.
Lemma filter_same {A} (f g : A -> bool) l : (forall x, In x l -> f x = g x) -> filter f l = filter g l.
Proof. induction l as [|x l IH]; intros H; [reflexivity|]. cbn [filter]. rewrite (H x (or_introl eq_refl)), IH by (intros y Hy; apply H; right; exact Hy). reflexivity. Qed.

Definition refs_at (h : N) (s : refstate) : list N := match aget h (rs_refs s) with Some l => l | None => [] end.
(** the list last set (successfully) for each object *)
Definition want_step (o : refop) (s : refstate) (w : N -> list N) : N -> list N :=
  match o with
  | SetR h l => if alive s h && forallb (alive s) l then fun x => if x =? h then l else w x else w
  | _ => w
  end.
Definition agree (s : refstate) (w : N -> list N) : Prop := forall h, alive s h = true -> filter (alive s) (refs_at h s) = filter (alive s) (w h).
Definition want_ok (seen : list N) (w : N -> list N) : Prop := forall h x, In x (w h) -> In h seen /\ In x seen.

Lemma step_refs_ok o s seen : (forall h x, o = Appear h x -> ~ In h seen) -> refs_ok seen s -> refs_ok (seen_of o seen) (ref_step o s).
Proof.
  intros Hf [A B]. destruct o as [h x|h|h l|h]; cbn [seen_of].
  - split; [intros k Hk; rewrite alive_appear in Hk; destruct (k =? h) eqn:E; [apply N.eqb_eq in E; left; congruence|right; apply A; exact Hk]|].
    intros k l Hk. cbn [ref_step rs_refs] in Hk. destruct (B k l Hk) as [B1 B2]. split; [right; exact B1|intros y Hy; right; auto].
  - split; [intros k Hk; rewrite alive_vanish in Hk; apply andb_prop in Hk as [_ Hk]; auto|exact B].
  - split; [intros k Hk; unfold alive in Hk; cbn [ref_step] in Hk; rewrite set_live in Hk; apply A; exact Hk|].
    intros k m Hk. cbn [ref_step] in Hk. unfold set_refs in Hk. destruct (alive s h) eqn:Eh; [|exact (B k m Hk)]. cbn [negb] in Hk. destruct (forallb (alive s) l) eqn:El; [|exact (B k m Hk)]. cbn [negb snd rs_refs] in Hk.
    rewrite aget_aset in Hk. destruct (k =? h) eqn:E; [|exact (B k m Hk)]. apply N.eqb_eq in E. injection Hk as <-. subst k. split; [auto|]. intros x Hx. rewrite forallb_forall in El. auto.
  - split; [intros k Hk; unfold alive in Hk; cbn [ref_step] in Hk; rewrite get_live in Hk; apply A; exact Hk|].
    intros k m Hk. cbn [ref_step] in Hk. unfold get_refs in Hk. destruct (alive s h) eqn:Eh; cbn [negb] in Hk.
    + destruct (aget h (rs_refs s)) as [l|] eqn:El; [|exact (B k m Hk)]. cbv zeta in Hk. cbn [snd rs_refs] in Hk. rewrite aget_aset in Hk. destruct (k =? h) eqn:E; [|exact (B k m Hk)]. apply N.eqb_eq in E. injection Hk as <-. subst k. destruct (B h l El) as [B1 B2]. split; [exact B1|]. intros x Hx. apply filter_In in Hx as [Hx _]. auto.
    + cbn [snd rs_refs] in Hk. unfold remove_invalid in Hk. rewrite aget_adel in Hk. destruct (k =? h); [discriminate|]. rewrite aget_map_filter in Hk. destruct (aget k (rs_refs s)) as [l|] eqn:El; [|discriminate]. injection Hk as <-. destruct (B k l El) as [B1 B2]. split; [exact B1|]. intros x Hx. apply filter_In in Hx as [Hx _]. auto.
Qed.
Lemma step_want_ok o s seen w : refs_ok seen s -> want_ok seen w -> want_ok (seen_of o seen) (want_step o s w).
Proof.
  intros [A B] W. destruct o as [h x|h|h l|h]; cbn [seen_of want_step]; try exact W.
  - intros k y Hy. destruct (W k y Hy). split; right; assumption.
  - destruct (alive s h && forallb (alive s) l) eqn:E; [|exact W]. apply andb_prop in E as [E1 E2]. intros k y Hy. cbv beta in Hy. destruct (k =? h) eqn:Ek; [|exact (W k y Hy)]. apply N.eqb_eq in Ek. subst k. rewrite forallb_forall in E2. split; auto.
Qed.
Lemma step_agree o s seen w : (forall h x, o = Appear h x -> ~ In h seen) -> refs_ok seen s -> want_ok seen w -> agree s w -> agree (ref_step o s) (want_step o s w).
Proof.
  intros Hf [A B] W G. destruct o as [h x|h|h l|h]; cbn [want_step].
  - specialize (Hf h x eq_refl). intros k Hk. change (refs_at k (ref_step (Appear h x) s)) with (refs_at k s). rewrite alive_appear in Hk.
    assert (N1 : forall y, In y (refs_at k s) -> y <> h).
    { intros y Hy ->. unfold refs_at in Hy. destruct (aget k (rs_refs s)) as [m|] eqn:Em; [|destruct Hy]. destruct (B k m Em) as [_ B2]. exact (Hf (B2 _ Hy)). }
    assert (N2 : forall y, In y (w k) -> y <> h) by (intros y Hy ->; destruct (W k h Hy); contradiction).
    assert (S1 : forall m, (forall y, In y m -> y <> h) -> filter (alive (ref_step (Appear h x) s)) m = filter (alive s) m).
    { intros m Hm. apply filter_same. intros y Hy. rewrite alive_appear. destruct (y =? h) eqn:E; [apply N.eqb_eq in E; destruct (Hm y Hy E)|reflexivity]. }
    rewrite (S1 _ N1), (S1 _ N2). destruct (k =? h) eqn:E; [|apply G; exact Hk]. apply N.eqb_eq in E. subst k.
    assert (E1 : refs_at h s = []) by (unfold refs_at; destruct (aget h (rs_refs s)) as [m|] eqn:Em; [destruct (B h m Em); contradiction|reflexivity]).
    assert (E2 : w h = []) by (destruct (w h) as [|y m] eqn:Ew; [reflexivity|]; destruct (W h y) as [X _]; [rewrite Ew; left; reflexivity|contradiction]). rewrite E1, E2. reflexivity.
  - intros k Hk. rewrite alive_vanish in Hk. apply andb_prop in Hk as [_ Hk]. change (refs_at k (ref_step (Vanish h) s)) with (refs_at k s).
    assert (S1 : forall m, filter (alive (ref_step (Vanish h) s)) m = filter (alive (ref_step (Vanish h) s)) (filter (alive s) m)).
    { intros m. symmetry. apply filter_sub. intros y _ Hy. rewrite alive_vanish in Hy. apply andb_prop in Hy. tauto. }
    rewrite (S1 (refs_at k s)), (S1 (w k)), (G k Hk). reflexivity.
  - cbn [ref_step]. unfold set_refs. destruct (alive s h) eqn:Eh; [|exact G]. cbn [negb andb]. destruct (forallb (alive s) l) eqn:El; [|exact G]. cbn [negb snd]. intros k Hk. change (alive {| rs_live := rs_live s; rs_refs := aset h l (rs_refs s) |}) with (alive s) in *.
    unfold refs_at. cbn [rs_refs]. rewrite aget_aset. destruct (k =? h); [reflexivity|]. apply (G k Hk).
  - cbn [ref_step]. unfold get_refs. destruct (alive s h) eqn:Eh; cbn [negb].
    + destruct (aget h (rs_refs s)) as [m|] eqn:Em; [|exact G]. cbv zeta. cbn [snd]. intros k Hk. change (alive {| rs_live := rs_live s; rs_refs := aset h (filter (alive s) m) (rs_refs s) |}) with (alive s) in *.
      unfold refs_at. cbn [rs_refs]. rewrite aget_aset. destruct (k =? h) eqn:E; [|apply (G k Hk)]. apply N.eqb_eq in E. subst k. rewrite filter_twice. rewrite <- (G h Hk). unfold refs_at. rewrite Em. reflexivity.
    + cbn [snd]. intros k Hk. change (alive {| rs_live := rs_live s; rs_refs := remove_invalid h (rs_refs s) |}) with (alive s) in *.
      rewrite <- (G k Hk). unfold refs_at. cbn [rs_refs]. unfold remove_invalid. rewrite aget_adel. destruct (k =? h) eqn:E; [apply N.eqb_eq in E; congruence|]. rewrite aget_map_filter. destruct (aget k (rs_refs s)) as [m|]; [|reflexivity].
      apply filter_sub. intros y _ Hy. destruct (h =? y) eqn:Ey; [apply N.eqb_eq in Ey; congruence|reflexivity].
Qed.
Lemma get_agree s w h : agree s w -> alive s h = true -> fst (get_refs h s) = (R_OK, filter (alive s) (w h)).
Proof.
  intros G Hh. unfold get_refs. rewrite Hh. cbn [negb]. rewrite <- (G h Hh). unfold refs_at. destruct (aget h (rs_refs s)); reflexivity.
Qed.

(** ** Storing and loading *)
Lemma fwrite_end b c : fwrite b (c, len c) = (c ++ b, len (c ++ b)).
Proof. unfold fwrite. cbn [fst snd]. rewrite take_all by lia. rewrite drop_all by lia. rewrite app_nil_r, len_app. reflexivity. Qed.
Lemma fwrite_patch a x y b : len x = len y -> fwrite y (a ++ x ++ b, len a) = (a ++ y ++ b, len (a ++ y)).
Proof. intros H. unfold fwrite. cbn [fst snd]. rewrite take_app_exact. replace (len a + len y) with (len (a ++ x)) by (rewrite len_app; lia). rewrite (app_assoc a x b), drop_app_exact. f_equal. rewrite !len_app. lia. Qed.
Lemma len_le n x : len (le_enc n x) = N.of_nat n. Proof. unfold len. rewrite le_enc_length. reflexivity. Qed.

Section File.
Variable live : list (N * obj).
Definition kept (l : list N) : list N := filter (fun x => ahas x live) l.
Definition id_of (h : N) : N := match aget h live with Some o => ob_puoid o | None => 0 end.
Definition ids (l : list N) : list N := map id_of (kept l).
Definition written (h : N) : bool := match aget h live with Some o => negb (ob_format o =? FMT_Playlist) | None => false end.
Definition list_file (l : list N) : bytes := concat (map (le_enc 16) (ids l)).
Definition entry_file (e : N * list N) : bytes := le_enc 16 (id_of (fst e)) ++ le_enc 4 (len (kept (snd e))) ++ list_file (snd e).
Lemma kept_le l : len (kept l) <= len l. Proof. unfold kept, len. pose proof (filter_length_le (fun x => ahas x live) l). lia. Qed.
Lemma sub1 n : 0 < n < w32 -> sub32 n 1 = n - 1.
Proof. intros H. unfold sub32, w32 in *. change (1 mod 4294967296) with 1. replace (n + 4294967296 - 1) with (n - 1 + 1 * 4294967296) by lia. rewrite N.mod_add by lia. apply N.mod_small. lia. Qed.
Lemma store_list_eq l : forall n c, len l <= n < w32 -> store_list live l n (c, len c) = (n - (len l - len (kept l)), (c ++ list_file l, len (c ++ list_file l))).
Proof.
  induction l as [|x l IH]; intros n c H.
  - cbn [store_list]. unfold list_file, ids. cbn. rewrite app_nil_r. f_equal. unfold len. cbn. lia.
  - rewrite len_cons in H. cbn [store_list]. unfold list_file, ids, kept, ahas, id_of. cbn [filter]. destruct (aget x live) as [o|] eqn:E.
    + rewrite fwrite_end, IH by lia. cbn [map concat]. rewrite E. unfold list_file, ids, kept, ahas, id_of. rewrite <- !app_assoc. rewrite !len_cons. f_equal. lia.
    + rewrite sub1 by lia. rewrite IH by lia. unfold list_file, ids, kept, ahas, id_of. rewrite len_cons. f_equal. pose proof (kept_le l) as K. unfold kept, ahas in K. lia.
Qed.
Definition put_out (m : list (N * list N)) : list (N * list N) := filter (fun e => written (fst e)) m.
Lemma put_out_le m : len (put_out m) <= len m. Proof. unfold put_out, len. pose proof (filter_length_le (fun e : N * list N => written (fst e)) m). lia. Qed.
Lemma store_entries_eq m : Forall (fun e => len (snd e) < w32) m -> forall n c, len m <= n < w32 ->
  store_entries live m n (c, len c) = (n - (len m - len (put_out m)), (c ++ concat (map entry_file (put_out m)), len (c ++ concat (map entry_file (put_out m))))).
Proof.
  induction 1 as [|[h l] m Hl Hm IH]; intros n c H.
  - cbn [store_entries]. unfold put_out. cbn. rewrite app_nil_r. f_equal. unfold len. cbn. lia.
  - rewrite len_cons in H. cbn [fst snd] in *. cbn [store_entries]. unfold put_out. cbn [filter fst]. unfold written. destruct (aget h live) as [o|] eqn:E; [destruct (ob_format o =? FMT_Playlist) eqn:F|]; cbn [negb].
    + rewrite sub1 by lia. rewrite IH by lia. unfold put_out, written. rewrite len_cons. pose proof (put_out_le m) as K. unfold put_out, written in K. f_equal. lia.
    + cbv zeta. rewrite fwrite_end. cbn [snd]. rewrite fwrite_end. assert (UL : u32 (len l) = len l) by (unfold u32; apply N.mod_small; exact Hl). rewrite UL. rewrite store_list_eq by lia.
      cbn [snd]. unfold seek at 2. cbn [fst].
      rewrite <- !app_assoc. rewrite (app_assoc c). rewrite fwrite_patch by (rewrite !len_le; reflexivity). unfold seek. cbn [fst].
      assert (K : len l - (len l - len (kept l)) = len (kept l)) by (pose proof (kept_le l); lia). rewrite K.
      assert (EE : le_enc 16 (ob_puoid o) ++ le_enc 4 (len (kept l)) ++ list_file l = entry_file (h, l)) by (unfold entry_file, id_of; cbn [fst snd]; rewrite E; reflexivity).
      rewrite <- app_assoc, EE.
      replace (len ((c ++ le_enc 16 (ob_puoid o)) ++ le_enc 4 (len l) ++ list_file l)) with (len (c ++ entry_file (h, l))) by (rewrite <- EE, !len_app, !len_le; lia).
      rewrite IH by lia. cbn [map concat]. rewrite <- app_assoc. rewrite !len_cons. unfold put_out, written. f_equal. lia.
    + rewrite sub1 by lia. rewrite IH by lia. unfold put_out, written. rewrite len_cons. pose proof (put_out_le m) as K. unfold put_out, written in K. f_equal. lia.
Qed.
Lemma store_refs_eq m : Forall (fun e => len (snd e) < w32) m -> len m < w32 ->
  store_refs (mk_rs live m) = le_enc 4 (len (put_out m)) ++ concat (map entry_file (put_out m)).
Proof.
  intros Hm Hl. unfold store_refs. cbn [rs_live rs_refs]. cbv zeta. assert (UL : u32 (len m) = len m) by (unfold u32; apply N.mod_small; exact Hl). rewrite UL.
  change (([] : bytes), 0) with (([] : bytes), len ([] : bytes)). rewrite fwrite_end. cbn [app]. rewrite store_entries_eq by (try assumption; lia). unfold seek. cbn [fst].
  pose proof (fwrite_patch [] (le_enc 4 (len m)) (le_enc 4 (len m - (len m - len (put_out m)))) (concat (map entry_file (put_out m))) ltac:(rewrite !len_le; reflexivity)) as P.
  etransitivity; [exact (f_equal fst P)|]. cbn [fst]. pose proof (put_out_le m). replace (len m - (len m - len (put_out m))) with (len (put_out m)) by lia. reflexivity.
Qed.
Section Load.
Variable byid : N -> option N.
(** handles of the ids known after the restart, in order *)
Definition found (us : list N) : list N := flat_map (fun u => match byid u with Some h => [h] | None => [] end) us.
Hypothesis small : forall h o, aget h live = Some o -> ob_puoid o < 2^128.
Lemma id_small h : id_of h < 2^128. Proof. unfold id_of. destruct (aget h live) eqn:E; [eapply small; exact E|reflexivity]. Qed.
Lemma mod16 h : id_of h mod 256 ^ N.of_nat 16 = id_of h. Proof. change (256 ^ N.of_nat 16) with (2 ^ 128). apply N.mod_small, id_small. Qed.
Lemma load_list_eq us rest : Forall (fun u => u < 2^128) us -> forall u acc, exists u', load_list byid (length us) u (concat (map (le_enc 16) us) ++ rest) acc = Some (acc ++ found us, u', rest).
Proof.
  induction 1 as [|x us Hx H IH]; intros u acc; [exists u; cbn; rewrite app_nil_r; reflexivity|]. cbn [length load_list map concat]. rewrite <- app_assoc, fread_enc. change (N.of_nat 16 =? 0) with false. cbv iota.
  replace (x mod 256 ^ N.of_nat 16) with x by (change (256 ^ N.of_nat 16) with (2 ^ 128); symmetry; apply N.mod_small; exact Hx).
  destruct (IH x (match byid x with Some h => acc ++ [h] | None => acc end)) as (u' & E). exists u'. rewrite E. cbn [found flat_map]. fold (found us). destruct (byid x); [rewrite <- app_assoc|]; reflexivity.
Qed.
Definition set_one (m : list (N * list N)) (e : N * list N) : list (N * list N) :=
  match byid (id_of (fst e)) with Some h => aset h (found (ids (snd e))) m | None => m end.
Lemma ids_length l : length (ids l) = length (kept l). Proof. unfold ids. apply map_length. Qed.
Lemma load_objs_eq es rest : Forall (fun e => len (snd e) < w32) es -> forall o c u m,
  load_objs byid (length es) o c u (concat (map entry_file es) ++ rest) m = fold_left set_one es m.
Proof.
  induction 1 as [|[h l] es Hl H IH]; intros o c u m; [reflexivity|]. cbn [fst snd] in *. cbn [length load_objs map concat fold_left]. unfold entry_file at 1. cbn [fst snd]. rewrite <- !app_assoc. rewrite fread_enc. change (N.of_nat 16 =? 0) with false. cbv iota. rewrite mod16.
  rewrite fread_enc. change (N.of_nat 4 =? 0) with false. cbv iota.
  replace (len (kept l) mod 256 ^ N.of_nat 4) with (len (kept l)) by (symmetry; apply N.mod_small; pose proof (kept_le l); change (256 ^ N.of_nat 4) with w32; lia).
  unfold list_file. replace (N.to_nat (len (kept l))) with (length (ids l)) by (rewrite ids_length; unfold len; lia).
  destruct (load_list_eq (ids l) (concat (map entry_file es) ++ rest)) with (u := u) (acc := @nil N) as (u' & E); [apply Forall_forall; intros x Hx; unfold ids in Hx; apply in_map_iff in Hx as (y & <- & _); apply id_small|].
  rewrite E. cbn [app]. rewrite IH. reflexivity.
Qed.
Lemma load_store m : Forall (fun e => len (snd e) < w32) m -> len m < w32 -> load_refs byid (store_refs (mk_rs live m)) = fold_left set_one (put_out m) [].
Proof.
  intros Hm Hl. rewrite store_refs_eq by assumption. unfold load_refs. rewrite fread_enc. change (N.of_nat 4 =? 0) with false. cbv iota.
  replace (len (put_out m) mod 256 ^ N.of_nat 4) with (len (put_out m)) by (symmetry; apply N.mod_small; pose proof (put_out_le m); change (256 ^ N.of_nat 4) with w32; lia).
  unfold len at 1. rewrite Nnat.Nat2N.id. rewrite <- (app_nil_r (concat _)). apply load_objs_eq. apply Forall_forall. intros e He. unfold put_out in He. apply filter_In in He as [He _]. rewrite Forall_forall in Hm. auto.
Qed.
(** distinct persistent ids: each object gets its own list back *)
Lemma set_all_other es : forall m h', (forall e, In e es -> byid (id_of (fst e)) <> Some h') -> aget h' (fold_left set_one es m) = aget h' m.
Proof.
  induction es as [|e es IH]; intros m h' H; [reflexivity|]. cbn [fold_left]. rewrite IH by (intros x Hx; apply H; right; exact Hx). unfold set_one. pose proof (H e (or_introl eq_refl)) as N1. destruct (byid (id_of (fst e))) as [k|]; [|reflexivity].
  apply aget_aset_neq. congruence.
Qed.
Lemma set_all es h l h' : NoDup (map fst es) -> In (h, l) es -> byid (id_of h) = Some h' ->
  (forall k, In k (map fst es) -> byid (id_of k) = Some h' -> k = h) ->
  forall m, aget h' (fold_left set_one es m) = Some (found (ids l)).
Proof.
  intros Hn Hin Hb Hi. induction es as [|e es IH]; intros m; [destruct Hin|]. cbn [map fold_left] in *. inversion Hn as [|x y A B]; subst. destruct Hin as [->|Hin].
  - rewrite set_all_other.
    + unfold set_one. cbn [fst snd] in *. rewrite Hb. apply aget_aset_eq.
    + intros e He X. apply A. cbn [fst]. rewrite <- (Hi (fst e)); [apply in_map; exact He|right; apply in_map; exact He|exact X].
  - apply IH; [exact B|exact Hin|]. intros k Hk. apply Hi. right. exact Hk.
Qed.
End Load.
End File.
