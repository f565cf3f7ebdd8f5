(** C62, C68: exported storages. *)
From Coq Require Import NArith List Bool Lia.
Import ListNotations.
From Verif Require Import Base Labels.
Open Scope N_scope.

(** ** Specification *)
(** the folders a configuration file asks to export *)
Definition offers (s : source) (p : str) : Prop :=
  match s with
  | SBroken => False
  | SPath _ l => In (p, true) l
  | SBlock _ b l => exists rest, In (p, b ++ rest) l
  end.

(** ** Proofs *)
Lemma str_eqb_eq a : forall b, str_eqb a b = true <-> a = b.
Proof.
  induction a as [|x a IH]; intros [|y b]; cbn [str_eqb]; try (split; [discriminate|discriminate]); [split; reflexivity|].
  rewrite andb_true_iff, N.eqb_eq, IH. split; [intros [-> ->]; reflexivity|intros [= -> ->]; auto].
Qed.
Lemma mem_In x l : mem x l = true <-> In x l.
Proof. unfold mem. rewrite existsb_exists. split; [intros (y & H1 & H2); apply str_eqb_eq in H2; subst; exact H1|intros H; exists x; split; [exact H|apply str_eqb_eq; reflexivity]]. Qed.
Lemma mem_false x l : mem x l = false <-> ~ In x l.
Proof. rewrite <- mem_In. apply iff_sym. apply not_true_iff_false. Qed.
Lemma sset_in k v m e : In e (sset k v m) -> e = (k, v) \/ In e m.
Proof.
  induction m as [|[k' v'] r IH]; cbn [sset]; [intros [H|[]]; auto|]. destruct (str_eqb k k') eqn:E.
  - apply str_eqb_eq in E. subst k'. intros [H|H]; [auto|right; right; exact H].
  - destruct (str_ltb k k'); [intros [H|H]; [auto|right; exact H]|]. intros [H|H]; [right; left; exact H|]. destruct (IH H); [auto|right; right; assumption].
Qed.
Lemma sset_new k v m : In (k, v) (sset k v m).
Proof. induction m as [|[k' v'] r IH]; cbn [sset]; [left; reflexivity|]. destruct (str_eqb k k'); [left; reflexivity|]. destruct (str_ltb k k'); [left; reflexivity|right; exact IH]. Qed.
Lemma sset_old k v m e : fst e <> k -> In e m -> In e (sset k v m).
Proof.
  intros N. induction m as [|[k' v'] r IH]; cbn [sset]; [intros []|]. destruct (str_eqb k k') eqn:E.
  - apply str_eqb_eq in E. subst k'. intros [<-|H]; [exfalso; apply N; reflexivity|right; exact H].
  - destruct (str_ltb k k'); [intros H; right; exact H|]. intros [H|H]; [left; exact H|right; exact (IH H)].
Qed.
Lemma sset_keys k v m : ~ In k (skeys m) -> NoDup (skeys m) -> NoDup (skeys (sset k v m)).
Proof.
  induction m as [|[k' v'] r IH]; cbn [sset skeys map fst]; intros N D; [constructor; [intros []|constructor]|]. destruct (str_eqb k k') eqn:E.
  - apply str_eqb_eq in E. subst. exfalso. apply N. left. reflexivity.
  - destruct (str_ltb k k'); cbn [skeys map fst]; [constructor; assumption|]. apply NoDup_cons_iff in D as [D1 D2]. constructor.
    + intros H. apply in_map_iff in H as ([a b] & <- & H). apply sset_in in H as [H|H]; [injection H as <- <-; apply N; left; reflexivity|]. apply D1. apply (in_map fst) in H. exact H.
    + apply IH; [intros H; apply N; right; exact H|exact D2].
Qed.
Lemma renumber_keys it counts : forall m index, skeys (renumber it counts index m) = skeys m.
Proof. induction m as [|[p l] r IH]; intros index; cbn [renumber]; [reflexivity|]. destruct (counts l <? 2); cbn [skeys map fst]; f_equal; apply IH. Qed.
Lemma unique_keys reserved : forall rounds it m, skeys (unique_loop rounds it reserved m) = skeys m.
Proof. induction rounds as [|k IH]; intros it m; cbn [unique_loop]; [reflexivity|]. destruct (max_count reserved m <? 2); [reflexivity|]. rewrite IH. apply renumber_keys. Qed.

Definition distinct (l : storages) : Prop := NoDup (map fst l) /\ NoDup (map snd l).
Lemma NoDup_snoc (A : Type) (l : list A) x : NoDup l -> ~ In x l -> NoDup (l ++ [x]).
Proof. intros D N. apply NoDup_rev in D. rewrite <- (rev_involutive (l ++ [x])). apply NoDup_rev. rewrite rev_app_distr. constructor; [rewrite <- in_rev; exact N|exact D]. Qed.
Lemma export_distinct : forall m done, distinct done -> distinct (export m done).
Proof.
  induction m as [|[p l] r IH]; intros done D; cbn [export]; [exact D|]. destruct (mem p (map fst done) || mem l (map snd done)) eqn:E; [apply IH; exact D|]. apply IH. apply orb_false_iff in E as [E1 E2]. apply mem_false in E1, E2.
  destruct D as [D1 D2]. split; rewrite map_app; apply NoDup_snoc; assumption.
Qed.
Lemma create_snoc dl fs s : create dl (fs ++ [s]) = configure dl s (create dl fs).
Proof. unfold create. rewrite fold_left_app. reflexivity. Qed.
Lemma create_distinct dl fs : distinct (create dl fs).
Proof. induction fs as [|s fs IH] using rev_ind; [split; constructor|]. rewrite create_snoc. apply export_distinct. exact IH. Qed.

(** C62: no path and no label is exported twice *)
Theorem C62_distinct_paths_partial : forall device_labels files, NoDup (map fst (create device_labels files)).
Proof. intros. apply create_distinct. Qed.
Theorem C62_distinct_labels : forall device_labels files, NoDup (map snd (create device_labels files)).
Proof. intros. apply create_distinct. Qed.
(** the folder a path names is found when the storage is made (FSStoragePlugin uses
    QDir(path).canonicalPath(), fsstorageplugin.cpp:389): distinct folders if distinct
    offered paths name distinct folders *)
Theorem C62_distinct_folders_partial : forall (canonical : str -> str) device_labels files,
  (forall p q, In p (map fst (create device_labels files)) -> In q (map fst (create device_labels files)) -> canonical p = canonical q -> p = q) ->
  NoDup (map canonical (map fst (create device_labels files))).
Proof.
  intros canonical dl fs Inj. pose proof (C62_distinct_paths_partial dl fs) as D. revert D Inj. generalize (map fst (create dl fs)) as l. induction l as [|x l IH]; intros D Inj; [constructor|]. apply NoDup_cons_iff in D as [D1 D2]. cbn [map]. constructor.
  - intros H. apply in_map_iff in H as (y & E & Hy). apply D1. rewrite <- (Inj y x); [exact Hy|right; exact Hy|left; reflexivity|exact E].
  - apply IH; [exact D2|]. intros p q Hp Hq. apply Inj; right; assumption.
Qed.
(** but a folder configured as /h in one file and as /h/ in another is exported twice *)
Definition path_h : str := [47; 104].
Definition path_hs : str := [47; 104; 47].
Theorem C62_trailing_slash_refuted : exists files,
  files = [SPath [65] [(path_h, true)]; SPath [66] [(path_hs, true)]] /\ create [] files = [(path_h, [65]); (path_hs, [66])] /\
  forall canonical : str -> str, canonical path_h = path_h -> canonical path_hs = path_h -> ~ NoDup (map canonical (map fst (create [] files))).
Proof.
  eexists. split; [reflexivity|]. split; [vm_compute; reflexivity|]. intros c H1 H2. replace (map fst (create [] _)) with [path_h; path_hs] by (vm_compute; reflexivity). cbn [map]. rewrite H1, H2. intros D. apply NoDup_cons_iff in D as [D _]. apply D. left. reflexivity.
Qed.

(** ** What is exported *)
Lemma match_paths_in dl ex : forall l d m p v, In (p, v) (match_paths dl ex d l m) -> In (p, v) m \/ In (p, true) l.
Proof.
  induction l as [|[q b] l IH]; intros d m p v H; cbn [match_paths] in H; [auto|]. destruct (negb b || mem q (skeys m) || mem q ex) eqn:E.
  - apply IH in H as [H|H]; [auto|right; right; exact H].
  - apply IH in H as [H|H]; [|right; right; exact H]. apply sset_in in H as [H|H]; [|auto]. injection H as -> _. right. left. f_equal. destruct b; [reflexivity|discriminate].
Qed.
Lemma starts_with_app pre : forall s r, starts_with pre s = Some r <-> s = pre ++ r.
Proof.
  induction pre as [|x pre IH]; intros s r; cbn [starts_with app]; [split; [intros [= ->]; reflexivity|intros ->; reflexivity]|]. destruct s as [|y s]; [split; discriminate|]. destruct (N.eqb_spec x y) as [->|N].
  - rewrite IH. split; [intros ->; reflexivity|intros [= ->]; reflexivity].
  - split; [discriminate|]. intros [= E _]. congruence.
Qed.
Lemma match_mounts_in ex d b : forall l m p v, In (p, v) (match_mounts ex d b l m) -> In (p, v) m \/ exists rest, In (p, b ++ rest) l.
Proof.
  induction l as [|[q dev] l IH]; intros m p v H; cbn [match_mounts] in H; [auto|].
  assert (T : In (p, v) m \/ (exists rest, In (p, b ++ rest) l) -> In (p, v) m \/ (exists rest, In (p, b ++ rest) ((q, dev) :: l))) by (intros [T|(rest & T)]; [auto|right; exists rest; right; exact T]).
  destruct (mem q (skeys m) || mem q ex); [apply T, IH; exact H|]. destruct (starts_with b dev) as [rest|] eqn:E; [|apply T, IH; exact H].
  apply IH in H as [H|(r & H)]; [|right; exists r; right; exact H]. apply sset_in in H as [H|H]; [|auto]. injection H as -> _. right. exists rest. left. f_equal. apply starts_with_app. exact E.
Qed.
Lemma sset_has k v m x : x = k \/ In x (skeys m) -> In x (skeys (sset k v m)).
Proof.
  intros H. destruct (str_eqb x k) eqn:E.
  - apply str_eqb_eq in E. subst x. apply (in_map fst _ _ (sset_new k v m)).
  - assert (N : x <> k) by (intros ->; rewrite (proj2 (str_eqb_eq k k) eq_refl) in E; discriminate). destruct H as [H|H]; [contradiction|]. apply in_map_iff in H as ([a w] & <- & H). cbn [fst] in *. apply (in_map fst _ (a, w)). apply sset_old; assumption.
Qed.
Lemma match_paths_has dl ex : forall l d m p, In p (skeys m) \/ (In (p, true) l /\ ~ In p ex) -> In p (skeys (match_paths dl ex d l m)).
Proof.
  induction l as [|[q b] l IH]; intros d m p H; cbn [match_paths]; [destruct H as [H|[[] _]]; exact H|]. destruct (negb b || mem q (skeys m) || mem q ex) eqn:E.
  - apply IH. destruct H as [H|[[H|H] N]]; [auto| |auto]. injection H as -> ->. cbn [negb orb] in E. apply orb_true_iff in E as [E|E]; apply mem_In in E; [auto|contradiction].
  - apply IH. destruct H as [H|[[H|H] N]]; [left; apply sset_has; auto| |auto]. injection H as -> ->. left. apply sset_has. auto.
Qed.
Lemma match_mounts_has ex d b : forall l m p, In p (skeys m) \/ ((exists rest, In (p, b ++ rest) l) /\ ~ In p ex) -> In p (skeys (match_mounts ex d b l m)).
Proof.
  induction l as [|[q dev] l IH]; intros m p H; cbn [match_mounts]; [destruct H as [H|[(r & []) _]]; exact H|]. destruct (mem q (skeys m) || mem q ex) eqn:E.
  - apply IH. destruct H as [H|[(r & [H|H]) N]]; [auto| |eauto]. injection H as -> ->. apply orb_true_iff in E as [E|E]; apply mem_In in E; [auto|contradiction].
  - destruct (starts_with b dev) as [rest|] eqn:S.
    + apply IH. destruct H as [H|[(r & [H|H]) N]]; [left; apply sset_has; auto| |eauto]. injection H as -> ->. left. apply sset_has. auto.
    + apply IH. destruct H as [H|[(r & [H|H]) N]]; [auto| |eauto]. injection H as -> ->. rewrite (proj2 (starts_with_app b _ r) eq_refl) in S. discriminate.
Qed.
Lemma candidates_offered dl ex s p : In p (skeys (candidates dl ex s)) -> offers s p.
Proof.
  intros H. apply in_map_iff in H as ([q v] & <- & H). cbn [fst]. destruct s as [|d l|d b l]; cbn [candidates offers] in *; [exact H| |].
  - apply match_paths_in in H as [[]|H]. exact H.
  - apply match_mounts_in in H as [[]|H]. exact H.
Qed.
Lemma offered_candidates dl ex s p : offers s p -> ~ In p ex -> In p (skeys (candidates dl ex s)).
Proof.
  intros H N. destruct s as [|d l|d b l]; cbn [candidates offers] in *; [contradiction| |].
  - apply match_paths_has. auto.
  - apply match_mounts_has. auto.
Qed.
Lemma export_from : forall m done e, In e (export m done) -> In e done \/ In e m.
Proof.
  induction m as [|[p l] r IH]; intros done e H; cbn [export] in H; [auto|]. destruct (mem p (map fst done) || mem l (map snd done)).
  - apply IH in H as [H|H]; [auto|right; right; exact H].
  - apply IH in H as [H|H]; [|right; right; exact H]. apply in_app_or in H as [H|[H|[]]]; [auto|right; left; exact H].
Qed.
Lemma export_keeps : forall m done e, In e done -> In e (export m done).
Proof.
  induction m as [|[p l] r IH]; intros done e H; cbn [export]; [exact H|]. destruct (mem p (map fst done) || mem l (map snd done)); apply IH; [exact H|]. apply in_or_app. left. exact H.
Qed.
Lemma export_all : forall m done e, In e m -> In (fst e) (map fst (export m done)) \/ In (snd e) (map snd (export m done)).
Proof.
  induction m as [|[p l] r IH]; intros done e H; [contradiction|]. destruct H as [<-|H]; cbn [export].
  - destruct (mem p (map fst done) || mem l (map snd done)) eqn:E.
    + apply orb_true_iff in E as [E|E]; apply mem_In in E; apply in_map_iff in E as (x & EX & E); cbn [fst snd]; rewrite <- EX; [left|right]; apply in_map; apply export_keeps; exact E.
    + left. change p with (fst (p, l)). apply in_map. apply export_keeps. apply in_or_app. right. left. reflexivity.
  - destruct (mem p (map fst done) || mem l (map snd done)); apply IH; exact H.
Qed.

(** C68: only folders some configuration file asks for are exported, *)
Theorem C68_only_offered : forall device_labels files p l, In (p, l) (create device_labels files) -> exists s, In s files /\ offers s p.
Proof.
  intros dl fs. induction fs as [|s fs IH] using rev_ind; intros p l H; [contradiction|]. rewrite create_snoc in H. unfold configure in H. apply export_from in H as [H|H].
  - destruct (IH p l H) as (s' & H1 & H2). exists s'. split; [apply in_or_app; left; exact H1|exact H2].
  - exists s. split; [apply in_or_app; right; left; reflexivity|]. apply (in_map fst) in H. unfold make_labels_unique in H. change (In p (skeys (unique_loop 5 0 (map snd (create dl fs)) (candidates dl (map fst (create dl fs)) s)))) in H. rewrite unique_keys in H. apply candidates_offered in H. exact H.
Qed.
(** later files do not change what earlier ones export, *)
Theorem C68_earlier_kept : forall device_labels files more e, In e (create device_labels files) -> In e (create device_labels (files ++ more)).
Proof. intros dl fs more e H. induction more as [|s more IH] using rev_ind; [rewrite app_nil_r; exact H|]. rewrite app_assoc, create_snoc. apply export_keeps. exact IH. Qed.
(** and every folder asked for is exported, except that of two of the same label only one
    may be; [label_of] is the label the folder would have had *)
Theorem C68_offered : forall device_labels files s p, offers s p ->
  let before := create device_labels files in let after := create device_labels (files ++ [s]) in
  In p (map fst after) \/
  exists l, In (p, l) (make_labels_unique (candidates device_labels (map fst before) s) (map snd before)) /\ In l (map snd after).
Proof.
  intros dl fs s p O. cbv zeta. rewrite create_snoc. set (done := create dl fs). destruct (in_dec (list_eq_dec N.eq_dec) p (map fst done)) as [I|I].
  - left. apply in_map_iff in I as (x & <- & I). apply in_map. apply export_keeps. exact I.
  - pose proof (offered_candidates dl (map fst done) s p O I) as K. rewrite <- (unique_keys (map snd done) 5 0) in K. fold (make_labels_unique (candidates dl (map fst done) s) (map snd done)) in K. apply in_map_iff in K as ([q l] & E & K). cbn [fst] in E. subst q.
    destruct (export_all _ done _ K) as [H|H]; [left; exact H|]. right. exists l. split; [exact K|exact H].
Qed.
(** labels that do not clash are used as they are, and then everything is exported *)
Lemma count_one l ls : NoDup ls -> In l ls -> count l ls = 1.
Proof.
  unfold count. induction ls as [|x ls IH]; intros D H; [contradiction|]. apply NoDup_cons_iff in D as [D1 D2]. cbn [filter]. destruct (str_eqb l x) eqn:E.
  - apply str_eqb_eq in E. subst x. replace (filter (str_eqb l) ls) with (@nil str); [reflexivity|]. clear IH H D2. symmetry. induction ls as [|y ls IH]; [reflexivity|]. cbn [filter]. destruct (str_eqb l y) eqn:E; [apply str_eqb_eq in E; subst; exfalso; apply D1; left; reflexivity|]. apply IH. intros H. apply D1. right. exact H.
  - destruct H as [->|H]; [rewrite (proj2 (str_eqb_eq l l) eq_refl) in E; discriminate|]. apply IH; assumption.
Qed.
Lemma count_none l ls : ~ In l ls -> count l ls = 0.
Proof.
  unfold count. induction ls as [|x ls IH]; intros N; [reflexivity|]. cbn [filter]. destruct (str_eqb l x) eqn:E; [apply str_eqb_eq in E; subst; exfalso; apply N; left; reflexivity|]. apply IH. intros H. apply N. right. exact H.
Qed.
Lemma max_small (f : str -> N) ls : (forall l, In l ls -> f l = 1) -> fold_right N.max 0 (map f ls) < 2.
Proof. induction ls as [|x ls IH]; intros H; cbn [map fold_right]; [lia|]. rewrite (H x) by (left; reflexivity). specialize (IH ltac:(intros; apply H; right; assumption)). lia. Qed.
Lemma export_fresh : forall m done, (forall p, In p (map fst m) -> ~ In p (map fst done)) -> (forall l, In l (map snd m) -> ~ In l (map snd done)) -> NoDup (map fst m) -> NoDup (map snd m) -> export m done = done ++ m.
Proof.
  induction m as [|[p l] r IH]; intros done F1 F2 D1 D2; cbn [export]; [rewrite app_nil_r; reflexivity|]. cbn [map fst snd] in *. apply NoDup_cons_iff in D1 as [D1 D1']. apply NoDup_cons_iff in D2 as [D2 D2'].
  rewrite (proj2 (mem_false p _)) by (apply F1; left; reflexivity). rewrite (proj2 (mem_false l _)) by (apply F2; left; reflexivity). cbn [orb]. rewrite IH; [rewrite <- app_assoc; reflexivity| | |exact D1'|exact D2'].
  - intros q H. rewrite map_app. intros K. apply in_app_or in K as [K|[K|[]]]; [apply (F1 q); [right; exact H|exact K]|]. cbn [fst] in K. subst. contradiction.
  - intros q H. rewrite map_app. intros K. apply in_app_or in K as [K|[K|[]]]; [apply (F2 q); [right; exact H|exact K]|]. cbn [snd] in K. subst. contradiction.
Qed.
Lemma match_paths_keys dl ex : forall l d m, NoDup (skeys m) -> (forall p, In p (skeys m) -> ~ In p ex) -> NoDup (skeys (match_paths dl ex d l m)) /\ (forall p, In p (skeys (match_paths dl ex d l m)) -> ~ In p ex).
Proof.
  induction l as [|[q b] l IH]; intros d m D F; cbn [match_paths]; [auto|]. destruct (negb b || mem q (skeys m) || mem q ex) eqn:E; [apply IH; assumption|].
  apply orb_false_iff in E as [E E3]. apply orb_false_iff in E as [_ E2]. apply mem_false in E2, E3. apply IH; [apply sset_keys; assumption|]. intros p H. apply in_map_iff in H as ([a w] & <- & H). apply sset_in in H as [H|H]; [injection H as -> _; exact E3|]. apply F. apply (in_map fst) in H. exact H.
Qed.
Lemma match_mounts_keys ex d b : forall l m, NoDup (skeys m) -> (forall p, In p (skeys m) -> ~ In p ex) -> NoDup (skeys (match_mounts ex d b l m)) /\ (forall p, In p (skeys (match_mounts ex d b l m)) -> ~ In p ex).
Proof.
  induction l as [|[q dev] l IH]; intros m D F; cbn [match_mounts]; [auto|]. destruct (mem q (skeys m) || mem q ex) eqn:E; [apply IH; assumption|]. apply orb_false_iff in E as [E2 E3]. apply mem_false in E2, E3.
  destruct (starts_with b dev); [|apply IH; assumption]. apply IH; [apply sset_keys; assumption|]. intros p H. apply in_map_iff in H as ([a w] & <- & H). apply sset_in in H as [H|H]; [injection H as -> _; exact E3|]. apply F. apply (in_map fst) in H. exact H.
Qed.
Lemma candidates_keys dl ex s : NoDup (skeys (candidates dl ex s)) /\ (forall p, In p (skeys (candidates dl ex s)) -> ~ In p ex).
Proof. destruct s as [|d l|d b l]; cbn [candidates]; [split; [constructor|intros p []]| |]; [apply match_paths_keys|apply match_mounts_keys]; try constructor; intros p []. Qed.
Theorem C68_no_clash : forall device_labels files s, let before := create device_labels files in
  let wanted := candidates device_labels (map fst before) s in
  NoDup (map snd wanted) -> (forall l, In l (map snd wanted) -> ~ In l (map snd before)) ->
  create device_labels (files ++ [s]) = before ++ wanted /\ (forall p, offers s p -> ~ In p (map fst before) -> In p (map fst wanted)).
Proof.
  intros dl fs s. cbv zeta. intros D F. rewrite create_snoc. unfold configure, make_labels_unique. set (done := create dl fs) in *. set (m := candidates dl (map fst done) s) in *. split; [|intros p; apply offered_candidates].
  cbn [unique_loop]. assert (M : max_count (map snd done) m < 2). { unfold max_count. apply max_small. intros l H. unfold label_count. rewrite count_none by (apply F; exact H). rewrite count_one by assumption. reflexivity. }
  destruct (N.ltb_spec (max_count (map snd done) m) 2); [|lia]. apply export_fresh; [|exact F| |exact D]; apply candidates_keys.
Qed.
(** non-trivial cases: two cards without a name and one whose label is that of the phone *)
Definition s_card : str := [67; 97; 114; 100].
Definition s_phone : str := [80].
Example C62_example : create [([47; 99], s_phone)]
    [SPath s_phone [([47; 112], true)]; SBroken; SPath [] [([47; 97], true); ([47; 98], true); ([47; 99], true); ([47; 100], false)]; SBlock [68] [115] [([47; 112], [115]); ([47; 115], [115; 112; 50])]]
  = [([47; 112], s_phone); ([47; 97], s_card ++ [32; 49]); ([47; 98], s_card ++ [32; 50]); ([47; 99], s_phone ++ [32; 49]); ([47; 115], [68; 32; 112; 50])].
Proof. vm_compute. reflexivity. Qed.
(** five rounds can be too few: then a folder is not exported *)
Example C68_example_lost : exists files,
  files = [SPath s_card [([47; 49], true)]; SPath (s_card ++ [32; 49]) [([47; 50], true)]; SPath (s_card ++ [32; 49; 46; 49]) [([47; 51], true)]; SPath (s_card ++ [32; 49; 46; 49; 46; 49]) [([47; 52], true)];
           SPath (s_card ++ [32; 49; 46; 49; 46; 49; 46; 49]) [([47; 53], true)]; SPath (s_card ++ [32; 49; 46; 49; 46; 49; 46; 49; 46; 49]) [([47; 54], true)]; SPath [] [([47; 97], true)]] /\ ~ In [47; 97] (map fst (create [] files)).
Proof. eexists. split; [reflexivity|]. vm_compute. intros H. repeat (destruct H as [H|H]; [discriminate|]). exact H. Qed.

Print Assumptions C62_distinct_paths_partial.
Print Assumptions C62_distinct_labels.
Print Assumptions C62_distinct_folders_partial.
Print Assumptions C62_trailing_slash_refuted.
Print Assumptions C68_only_offered.
Print Assumptions C68_earlier_kept.
Print Assumptions C68_offered.
Print Assumptions C68_no_clash.
