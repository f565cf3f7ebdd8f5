(** Facts about path names. *)
From Verif Require Import Base AList Wire FS.

(** a name that denotes an entry of a folder *)
Definition plain (n : path) : Prop := dot_name n = false /\ ~ In slash n.

Lemma peqb_eq a b : peqb a b = true <-> a = b.
Proof.
  revert b. induction a as [|x a IH]; intros [|y b]; cbn [peqb]; split; try discriminate; try reflexivity.
  - intros H. apply andb_prop in H as [H1 H2]. apply IH in H2. f_equal; [lia|exact H2].
  - intros [= -> ->]. rewrite N.eqb_refl. apply IH. reflexivity.
Qed.
Lemma peqb_refl a : peqb a a = true. Proof. apply peqb_eq. reflexivity. Qed.
Lemma peqb_neq a b : peqb a b = false <-> a <> b.
Proof.
  split.
  - intros H E. subst. rewrite peqb_refl in H. discriminate.
  - intros H. destruct (peqb a b) eqn:E; [|reflexivity]. apply peqb_eq in E. contradiction.
Qed.
Lemma peqb_sym a b : peqb a b = peqb b a.
Proof. destruct (peqb a b) eqn:E; symmetry; [apply peqb_eq in E; subst; apply peqb_refl|apply peqb_neq; apply peqb_neq in E; congruence]. Qed.
Lemma path_dec (a b : path) : {a = b} + {a <> b}.
Proof. destruct (peqb a b) eqn:E; [left; apply peqb_eq, E|right; apply peqb_neq, E]. Qed.
Lemma pupd_eq A (f : path -> A) k v : pupd f k v k = v. Proof. unfold pupd. now rewrite peqb_refl. Qed.
Lemma pupd_neq A (f : path -> A) k v x : x <> k -> pupd f k v x = f x.
Proof. intros H. unfold pupd. apply peqb_neq in H. now rewrite H. Qed.
Lemma nupd_eq A (f : N -> A) k v : nupd f k v k = v. Proof. unfold nupd. now rewrite N.eqb_refl. Qed.
Lemma nupd_neq A (f : N -> A) k v x : x <> k -> nupd f k v x = f x.
Proof. intros H. unfold nupd. destruct (x =? k) eqn:E; [lia|reflexivity]. Qed.

Lemma before_slash_app r d : ~ In slash r -> before_slash (r ++ slash :: d) = Some d.
Proof.
  induction r as [|c r IH]; intros H; cbn [app before_slash].
  - now rewrite N.eqb_refl.
  - destruct (c =? slash) eqn:E; [exfalso; apply H; left; lia|apply IH; intros X; apply H; right; exact X].
Qed.
Lemma until_slash_app r d : ~ In slash r -> until_slash (r ++ slash :: d) = r.
Proof.
  induction r as [|c r IH]; intros H; cbn [app until_slash].
  - now rewrite N.eqb_refl.
  - destruct (c =? slash) eqn:E; [exfalso; apply H; left; lia|]. rewrite IH; [reflexivity|intros X; apply H; right; exact X].
Qed.
Lemma rev_join d n : rev (join d n) = rev n ++ slash :: rev d.
Proof. unfold join. rewrite rev_app_distr. cbn [rev]. rewrite <- app_assoc. reflexivity. Qed.
Lemma parent_join d n : ~ In slash n -> parent_of (join d n) = d.
Proof. intros H. unfold parent_of. rewrite rev_join, before_slash_app by (rewrite <- in_rev; exact H). apply rev_involutive. Qed.
Lemma base_join d n : ~ In slash n -> base_of (join d n) = n.
Proof. intros H. unfold base_of. rewrite rev_join, until_slash_app by (rewrite <- in_rev; exact H). apply rev_involutive. Qed.
Lemma before_slash_split r d : before_slash r = Some d -> r = until_slash r ++ slash :: d /\ ~ In slash (until_slash r).
Proof.
  induction r as [|c r IH]; cbn [before_slash until_slash]; [discriminate|].
  destruct (c =? slash) eqn:E.
  - intros [= ->]. replace c with slash by lia. split; [reflexivity|intros []].
  - intros H. destruct (IH H) as [I1 I2]. split; [cbn [app]; now rewrite <- I1|intros [X|X]; [lia|contradiction]].
Qed.
Lemma has_slash_spec p : has_slash p = true <-> In slash p.
Proof.
  unfold has_slash. rewrite existsb_exists. split.
  - intros (x & H & E). apply N.eqb_eq in E. now subst x.
  - intros H. exists slash. split; [exact H|apply N.eqb_refl].
Qed.
Lemma before_slash_some r : In slash r -> exists d, before_slash r = Some d.
Proof.
  induction r as [|c r IH]; intros H; [contradiction|]. cbn [before_slash]. destruct (c =? slash) eqn:E; [eauto|].
  destruct H as [H|H]; [lia|auto].
Qed.
Lemma until_slash_plain r : ~ In slash (until_slash r).
Proof.
  induction r as [|c r IH]; cbn [until_slash]; [intros []|]. destruct (c =? slash) eqn:E; [intros []|]. intros [H|H]; [lia|contradiction].
Qed.
(** any path with a '/' is the join of its parent and its last component *)
Lemma join_parent p : In slash p -> p = join (parent_of p) (base_of p).
Proof.
  intros H. destruct (before_slash_some (rev p)) as [d E]; [now apply in_rev in H|].
  unfold parent_of, base_of. rewrite E. apply before_slash_split in E as [E _].
  rewrite <- (rev_involutive p) at 1. set (u := until_slash (rev p)) in *. clearbody u. rewrite E. rewrite rev_app_distr. cbn [rev]. rewrite <- app_assoc. reflexivity.
Qed.
Lemma base_plain p : dot_name (base_of p) = false -> plain (base_of p).
Proof. intros H. split; [exact H|]. unfold base_of. rewrite <- in_rev. apply until_slash_plain. Qed.
Lemma join_inj d d' n n' : ~ In slash n -> ~ In slash n' -> join d n = join d' n' -> d = d' /\ n = n'.
Proof.
  intros H H' E. split.
  - rewrite <- (parent_join d n H), <- (parent_join d' n' H'). now rewrite E.
  - rewrite <- (base_join d n H), <- (base_join d' n' H'). now rewrite E.
Qed.
Lemma len_join d n : len (join d n) = len d + 1 + len n.
Proof. unfold join. rewrite len_app, len_cons. lia. Qed.

(** [under o x]: x is o or below o *)
Definition under (o x : path) : bool := peqb x o || is_prefix (o ++ [slash]) x.
Lemma is_prefix_spec a b : is_prefix a b = true <-> exists r, b = a ++ r.
Proof.
  revert b. induction a as [|x a IH]; intros b; cbn [is_prefix].
  - split; [intros _; exists b; reflexivity|reflexivity].
  - destruct b as [|y b]; [split; [discriminate|intros [r E]; discriminate]|]. rewrite andb_true_iff, IH. split.
    + intros [E [r ->]]. exists r. cbn [app]. f_equal. lia.
    + intros [r E]. cbn [app] in E. injection E as -> ->. split; [apply N.eqb_refl|eauto].
Qed.
Lemma under_spec o x : under o x = true <-> x = o \/ exists r, x = o ++ slash :: r.
Proof.
  unfold under. rewrite orb_true_iff, peqb_eq, is_prefix_spec. split; (intros [H|[r H]]; [left; exact H|right; exists r]).
  - rewrite <- app_assoc in H. exact H.
  - rewrite <- app_assoc. exact H.
Qed.
Lemma under_refl o : under o o = true. Proof. apply under_spec. now left. Qed.
Lemma under_trans a b c : under a b = true -> under b c = true -> under a c = true.
Proof.
  rewrite !under_spec. intros [->|[r ->]] [->|[r' ->]]; auto.
  - right. eauto.
  - right. eauto.
  - right. exists (r ++ slash :: r'). now rewrite <- app_assoc.
Qed.
Lemma under_join a d n : under a d = true -> under a (join d n) = true.
Proof. intros H. eapply under_trans; [exact H|]. apply under_spec. right. exists n. reflexivity. Qed.
(** being under an extended path means the path itself or under its parent *)
Lemma under_join_inv a d n : ~ In slash n -> under a (join d n) = true -> a = join d n \/ under a d = true.
Proof.
  intros Hn H. apply under_spec in H as [H|[r H]]; [now left|]. right.
  destruct (in_dec N.eq_dec slash r) as [Hr|Hr].
  - pose proof (join_parent r Hr) as E. rewrite E in H. unfold join in H at 2.
    assert (E2 : join d n = join (a ++ slash :: parent_of r) (base_of r)).
    { rewrite H. unfold join. now rewrite <- app_assoc. }
    apply join_inj in E2 as [E2 _]; [|exact Hn|unfold base_of; rewrite <- in_rev; apply until_slash_plain].
    rewrite E2. apply under_spec. right. eauto.
  - change (a ++ slash :: r) with (join a r) in H. apply join_inj in H as [-> _]; auto. apply under_refl.
Qed.
Lemma under_len o x : under o x = true -> len o <= len x.
Proof. rewrite under_spec. intros [->|[r ->]]; [lia|]. rewrite len_app. lia. Qed.
Lemma under_len_eq o x : under o x = true -> len x <= len o -> x = o.
Proof. rewrite under_spec. intros [->|[r ->]]; [auto|]. rewrite len_app, len_cons. lia. Qed.
Lemma prefix_cases (a b c d : path) : a ++ b = c ++ d -> (exists r, a = c ++ r /\ d = r ++ b) \/ (exists r, c = a ++ r /\ b = r ++ d).
Proof.
  revert c. induction a as [|x a IH]; intros c H.
  - right. exists c. split; [reflexivity|exact H].
  - destruct c as [|y c]; cbn [app] in H.
    + left. exists (x :: a). split; [reflexivity|]. cbn [app]. now symmetry.
    + injection H as -> H. destruct (IH c H) as [(r & -> & ->)|(r & -> & ->)]; [left|right]; exists r; split; reflexivity.
Qed.
(** two paths above the same one are comparable *)
Lemma under_comparable a b x : under a x = true -> under b x = true -> under a b = true \/ under b a = true.
Proof.
  rewrite !under_spec. intros [->|[r ->]] [E|[r' E]].
  - left. left. now symmetry.
  - right. right. eauto.
  - left. right. exists r. now symmetry.
  - apply prefix_cases in E as [(t & -> & E)|(t & -> & E)].
    + destruct t as [|c t]; [left; left; now rewrite app_nil_r|]. injection E as <- _. right. right. eauto.
    + destruct t as [|c t]; [left; left; now rewrite app_nil_r|]. injection E as <- _. left. right. eauto.
Qed.

Lemma drop_app_len {A} (a b : list A) : drop (len a) (a ++ b) = b.
Proof. unfold drop, len. rewrite Nat2N.id. rewrite skipn_app, skipn_all, Nat.sub_diag. reflexivity. Qed.
Lemma drop_len_self {A} (a : list A) : drop (len a) a = [].
Proof. rewrite <- (app_nil_r a) at 2. apply drop_app_len. Qed.
(** [repath o d x]: x moved from o to d *)
Definition repath (o d x : path) : path := d ++ drop (len o) x.
Lemma repath_self o d : repath o d o = d.
Proof. unfold repath. rewrite drop_len_self. apply app_nil_r. Qed.
Lemma repath_app o d r : repath o d (o ++ r) = d ++ r.
Proof. unfold repath. now rewrite drop_app_len. Qed.
Lemma repath_under o d x : under o x = true -> under d (repath o d x) = true.
Proof. rewrite under_spec. intros [->|[r ->]]; [rewrite repath_self; apply under_refl|]. rewrite repath_app. apply under_spec. right. eauto. Qed.
Lemma repath_join o d x n : under o x = true -> repath o d (join x n) = join (repath o d x) n.
Proof.
  rewrite under_spec. intros [->|[r ->]].
  - unfold join at 1. rewrite repath_app, repath_self. reflexivity.
  - unfold join at 1. rewrite <- app_assoc. rewrite !repath_app. unfold join. now rewrite <- !app_assoc.
Qed.
Lemma repath_inj o d x y : under o x = true -> under o y = true -> repath o d x = repath o d y -> x = y.
Proof.
  rewrite !under_spec. intros [->|[r ->]] [->|[r' ->]]; rewrite ?repath_self, ?repath_app; intros E; auto.
  - rewrite <- (app_nil_r d) in E at 1. apply app_inv_head in E. discriminate.
  - rewrite <- (app_nil_r d) in E at 2. apply app_inv_head in E. discriminate.
  - apply app_inv_head in E. now rewrite E.
Qed.
Lemma repath_back o d x : under o x = true -> repath d o (repath o d x) = x.
Proof. rewrite under_spec. intros [->|[r ->]]; rewrite ?repath_self, ?repath_app; reflexivity. Qed.
Lemma moved_key_under o d x : under o x = true -> moved_key o d x = repath o d x.
Proof.
  unfold under, moved_key. destruct (peqb x o) eqn:E; cbn [orb].
  - intros _. apply peqb_eq in E. subst. now rewrite repath_self.
  - intros ->. reflexivity.
Qed.
Lemma moved_key_not o d x : under o x = false -> moved_key o d x = x.
Proof. unfold under, moved_key. intros H. apply orb_false_iff in H as [-> ->]. reflexivity. Qed.
