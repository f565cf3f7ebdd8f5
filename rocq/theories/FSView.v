(** From the internal frame conditions to what is visible. *)
From Coq Require Import Permutation.
From Verif Require Import Base AList Wire FS FSPath FSTree FSLogic FSAdd FSAdd2 FSDel FSSub FSMove FSMove2 FSMove3 FSEv FSData FSData2 FSList FSFrame FSCopy FSCopy2 FSSpec FSReach.

Section View.
Variables (C : conf) (SO : supply_ok C) (r : ptr).

(** an item that keeps its fields, in a storage where its folder keeps its handle, looks the same *)
Lemma look_keep s ch s' ch' x i i' : WF C s ch r None -> WF C s' ch' r None -> s_heap s x = Some i -> s_heap s' x = Some i' -> kept i i' ->
  (forall q j, i_parent i = Some q -> s_heap s q = Some j -> exists j', s_heap s' q = Some j' /\ i_handle j' = i_handle j) -> look s' (i_handle i) = look s (i_handle i).
Proof.
  intros W W' Hx Hx' (K1 & K2 & K3 & K4 & K5) HP. rewrite (look_of C s ch r W x i Hx). rewrite <- K1. rewrite (look_of C s' ch' r W' x i' Hx'). f_equal. unfold view_of, parent_handle. rewrite K2, K3, K4, K5. f_equal.
  destruct (i_parent i) as [q|] eqn:Eq; [|reflexivity]. destruct (N.eq_dec x r) as [->|Nr].
  { destruct (W_root _ _ _ _ _ W) as (ri & A & B & _). congruence. }
  destruct (wf_parent _ _ _ _ _ W x i Hx Nr) as (q' & j & o & Q1 & Q2 & _). rewrite Eq in Q1. injection Q1 as <-. destruct (HP q j eq_refl Q2) as (j' & J1 & J2). rewrite Q2, J1, J2. reflexivity.
Qed.
Lemma lk_kept i i' : lk i i' -> kept i i'.
Proof. intros L. apply lk_fields in L as (A1 & A2 & _ & A4 & A5 & A6 & _). repeat split; assumption. Qed.
(** all items keep their fields *)
Lemma look_all s ch s' ch' : WF C s ch r None -> WF C s' ch' r None -> (forall x i, s_heap s x = Some i -> exists i', s_heap s' x = Some i' /\ kept i i') ->
  forall h v, look s h = Some v -> look s' h = Some v.
Proof.
  intros W W' HK h v E. destruct (look_inv C s ch r W h v E) as (x & i & A & B & <- & ->). rewrite <- E. destruct (HK x i B) as (i' & B' & K). eapply look_keep; try eassumption.
  intros q j _ Hq. destruct (HK q j Hq) as (j' & J1 & (J2 & _)). eauto.
Qed.
Lemma wsame_look s ch s' ch' : WF C s ch r None -> WF C s' ch' r None -> wsame s s' -> forall h, look s' h = look s h.
Proof.
  intros W W' X h. assert (F : forall v, look s h = Some v -> look s' h = Some v) by (intros v; apply (look_all s ch s' ch' W W'); intros x i Hx; destruct (wsame_fwd _ _ x i X Hx) as (w & B); eauto using wd_kept).
  destruct (look s h) as [v|] eqn:E; [apply F; reflexivity|]. apply (look_none C s ch r W) in E. apply (look_none C s' ch' r W'). destruct (wsame_fields _ _ X) as (_ & _ & HH & _). rewrite HH. exact E.
Qed.
Lemma tsame_look s s' : tsame s s' -> forall h, look s' h = look s h.
Proof. intros (t & -> & _) h. reflexivity. Qed.
Lemma fsame_look s s' : fsame s s' -> forall h, look s' h = look s h.
Proof. intros (w & t & f & wr & -> & _) h. reflexivity. Qed.

(** deletion *)
Lemma shr_look s ch s' ch' P : WF C s ch r None -> WF C s' ch' r None -> shr P s s' -> forall h v, look s' h = Some v -> look s h = Some v.
Proof.
  intros W W' D h v E. destruct (look_inv C s' ch' r W' h v E) as (x & i' & A & B & <- & ->). destruct (D_heap _ _ _ D x i' B) as (i & Hx & L). apply lk_kept in L. pose proof L as (L1 & _). rewrite L1, <- E, L1.
  symmetry. eapply look_keep; try eassumption. intros q j Eq Hq. destruct L as (_ & _ & L3 & _).
  destruct (N.eq_dec x r) as [->|Nr]; [destruct (W_root _ _ _ _ _ W) as (ri & R1 & R2 & _); congruence|].
  destruct (wf_parent _ _ _ _ _ W' x i' B Nr) as (q' & j' & o & Q1 & Q2 & _). assert (q' = q) as -> by congruence. destruct (D_heap _ _ _ D q j' Q2) as (j2 & J1 & J2). rewrite Hq in J1. injection J1 as <-. apply lk_fields in J2 as (J2 & _). eauto.
Qed.
(** [y] is not below [P] *)
Lemma not_inside s ch h p i x xi : WF C s ch r None -> s_heap s p = Some i -> i_handle i = h -> s_heap s x = Some xi -> (inside s h (i_handle xi) <-> under (i_path i) (i_path xi) = true).
Proof.
  intros W Hp <- Hx. split.
  - intros I. destruct (inside_under C s ch r W _ _ I) as (a & ai & b & bi & A1 & A2 & B1 & B2 & U). assert (a = p) as -> by (eapply (wf_uniq _ _ _ _ _ W); eauto; discriminate). assert (b = x) as -> by (eapply (wf_uniq _ _ _ _ _ W); eauto; discriminate). congruence.
  - intros U. eapply (under_inside C s ch r W); eassumption.
Qed.
End View.

Lemma at_or_below_under o x : at_or_below o x <-> under o x = true.
Proof. symmetry. apply under_spec. Qed.
Lemma relocated_spec old new x y : relocated old new x y <-> under old x = true /\ y = repath old new x.
Proof.
  rewrite under_spec. split.
  - intros (rr & [->|[r' ->]] & -> & ->); [rewrite !app_nil_r; split; [auto|now rewrite repath_self]|]. split; [eauto|]. now rewrite repath_app.
  - intros [[->|[r ->]] ->]; [exists []; rewrite !app_nil_r, repath_self; auto|]. exists (slash :: r). rewrite repath_app. split; eauto.
Qed.
(** a rename on disk *)
Lemma rename_at a b w : (forall y, under b y = true -> node_at y w = None) -> forall y,
  node_at y (rename_nodes a b w) = if under b y then node_at (repath b a y) w else if under a y then None else node_at y w.
Proof.
  intros HB y. induction w as [|[k n] w IH]; [cbn; destruct (under b y), (under a y); reflexivity|].
  assert (HB' : forall z, under b z = true -> peqb z k = false /\ node_at z w = None). { intros z Uz. specialize (HB z Uz). cbn in HB. destruct (peqb z k); [discriminate|auto]. }
  specialize (IH (fun z Uz => proj2 (HB' z Uz))). cbn [rename_nodes map fst snd node_at]. fold (rename_nodes a b w). rewrite IH. clear IH.
  destruct (under a k) eqn:Uk.
  - rewrite (moved_key_under a b k Uk). destruct (peqb y (repath a b k)) eqn:Py.
    + apply peqb_eq in Py as ->. rewrite (repath_under a b k Uk), (repath_back a b k Uk). rewrite peqb_refl. reflexivity.
    + destruct (under b y) eqn:Uy.
      * destruct (peqb (repath b a y) k) eqn:Pk; [|reflexivity]. apply peqb_eq in Pk as <-. rewrite (repath_back b a y Uy), peqb_refl in Py. discriminate.
      * destruct (under a y) eqn:Ua; [reflexivity|]. destruct (peqb y k) eqn:Pk; [apply peqb_eq in Pk as ->; congruence|reflexivity].
  - rewrite (moved_key_not a b k Uk). destruct (peqb y k) eqn:Py.
    + apply peqb_eq in Py as ->. destruct (under b k) eqn:Ub; [destruct (HB' k Ub) as [X _]; rewrite peqb_refl in X; discriminate|]. rewrite Uk. reflexivity.
    + destruct (under b y) eqn:Uy; [|reflexivity]. destruct (peqb (repath b a y) k) eqn:Pk; [|reflexivity]. apply peqb_eq in Pk as <-. rewrite (repath_under b a y Uy) in Uk. discriminate.
Qed.

(** writing *)
Lemma nth_take (d : bytes) n k : k < n -> byte (take n d) k = byte d k.
Proof.
  unfold byte, take. intros H. assert (N.to_nat k < N.to_nat n)%nat by lia. clear H. revert d H0. generalize (N.to_nat k) as j, (N.to_nat n) as m. induction j; intros [|m] d H; try lia; destruct d; cbn; auto. apply IHj. lia.
Qed.
Lemma nth_drop (d : bytes) n k : byte (drop n d) k = byte d (n + k).
Proof.
  unfold byte, drop. rewrite N2Nat.inj_add. generalize (N.to_nat k) as j, (N.to_nat n) as m. intros j m. revert d. induction m; intros d; [reflexivity|]. destruct d; cbn; [destruct j; reflexivity|apply IHm].
Qed.
Lemma nth_app (a b : bytes) k : byte (a ++ b) k = if k <? len a then byte a k else byte b (k - len a).
Proof.
  unfold byte. destruct (N.ltb_spec k (len a)) as [H|H].
  - apply nth_error_app1. unfold len in *. lia.
  - rewrite nth_error_app2 by (unfold len in *; lia). f_equal. unfold len. lia.
Qed.
Lemma nth_repeat n k : k < n -> byte (repeat 0 (N.to_nat n)) k = Some 0.
Proof. unfold byte. intros H. rewrite nth_error_repeat by lia. reflexivity. Qed.
Lemma len_repeat (x : N) n : len (repeat x n) = N.of_nat n.
Proof. unfold len. now rewrite repeat_length. Qed.
Lemma wrote_patched d off bs : patched d off bs (wrote d off bs).
Proof.
  unfold patched, wrote. destruct bs as [|b bs0].
  - change (len (@nil N)) with 0. change (0 =? 0) with true. cbv iota. split; [reflexivity|]. intros k Hk. replace (off + 0) with off by lia.
    destruct (N.leb_spec off k), (N.ltb_spec k off); cbn [andb]; try lia; destruct (N.ltb_spec k (len d)); try lia; reflexivity.
  - set (bs := b :: bs0). assert (Lp : len bs =? 0 = false) by (unfold bs; rewrite len_cons; apply N.eqb_neq; lia). rewrite Lp. unfold put_at.
    assert (LL : len (take off d ++ repeat 0 (N.to_nat (off - len d)) ++ bs ++ drop (off + len bs) d) = N.max (len d) (off + len bs)).
    { rewrite !len_app, len_take, len_drop, len_repeat. lia. }
    split; [exact LL|]. intros k Hk. rewrite LL in Hk. rewrite !nth_app. rewrite len_take, len_repeat, N2Nat.id.
    destruct (N.ltb_spec k (N.min off (len d))) as [H1|H1].
    + rewrite nth_take by lia. destruct (N.leb_spec off k); [lia|]. cbn [andb]. destruct (N.ltb_spec k (len d)); [reflexivity|lia].
    + destruct (N.ltb_spec (k - N.min off (len d)) (off - len d)) as [H2|H2].
      * rewrite nth_repeat by exact H2. destruct (N.leb_spec off k); [lia|]. cbn [andb]. destruct (N.ltb_spec k (len d)); [lia|reflexivity].
      * replace (k - N.min off (len d) - (off - len d)) with (k - off) by lia. destruct (N.ltb_spec (k - off) (len bs)) as [H3|H3].
        -- destruct (N.leb_spec off k); [|lia]. destruct (N.ltb_spec k (off + len bs)); [reflexivity|lia].
        -- rewrite nth_drop. replace (off + len bs + (k - off - len bs)) with k by lia. destruct (N.leb_spec off k); [|lia]. destruct (N.ltb_spec k (off + len bs)); [lia|]. cbn [andb]. destruct (N.ltb_spec k (len d)); [reflexivity|lia].
Qed.
(** truncation keeps the start and fills with zeros *)
Lemma resize_spec d n : len (resize d n) = n /\ forall k, k < n -> byte (resize d n) k = if k <? len d then byte d k else Some 0.
Proof.
  unfold resize. split; [rewrite len_app, len_take, len_repeat; lia|]. intros k Hk. rewrite nth_app, len_take. destruct (N.ltb_spec k (N.min n (len d))) as [H|H].
  - rewrite nth_take by lia. destruct (N.ltb_spec k (len d)); [reflexivity|lia].
  - rewrite nth_repeat by lia. destruct (N.ltb_spec k (len d)); [lia|reflexivity].
Qed.
