(** C64, C69: thumbnail requests. *)
From Coq Require Import NArith List Bool Lia.
Import ListNotations.
From Verif Require Import Base Labels Thumbs P_Labels.
Open Scope N_scope.

(** ** Specification: what is seen from outside during a history *)
Definition outs (l : list tin) : list tout := snd (t_run t_init l).
Definition fetches (o : list tout) : list (list str) := flat_map (fun x => match x with OFetch u => [u] | _ => [] end) o.
Definition announced (o : list tout) : list str := flat_map (fun x => match x with OReady p => [p] | _ => [] end) o.
Definition asked (l : list tin) : list str := flat_map (fun x => match x with TRequest p => [p] | _ => [] end) l.
Definition uri_of (p : str) : str := iri_prefix ++ p.
Definition occurrences (u : str) (l : list str) : nat := List.length (filter (str_eqb u) l).
(** the file name contains nothing that is special in a URI *)
Definition plain (p : str) : Prop := forall c, In c p -> c <> 37 /\ c <> 63 /\ c <> 35.

(** ** Proofs *)
Lemma url_decode_plain p : plain p -> url_decode p = p.
Proof.
  induction p as [|c r IH]; intros H; [reflexivity|]. destruct (H c (or_introl eq_refl)) as (A & B & C). assert (R : url_decode r = r) by (apply IH; intros x X; apply H; right; exact X). cbn [url_decode].
  destruct (N.eqb_spec c 63); [contradiction|]. destruct (N.eqb_spec c 35); [contradiction|]. destruct (N.eqb_spec c 37); [contradiction|]. cbn [orb]. rewrite R. reflexivity.
Qed.
Lemma url_path_uri p : plain p -> url_path (uri_of p) = p.
Proof. intros H. unfold url_path, uri_of, iri_prefix. cbn [skipn app]. apply url_decode_plain. exact H. Qed.
Lemma uri_inj p q : uri_of p = uri_of q -> p = q.
Proof. unfold uri_of. apply app_inv_head. Qed.
Lemma t_run_app s a b : t_run s (a ++ b) = (let '(s1, o1) := t_run s a in let '(s2, o2) := t_run s1 b in (s2, o1 ++ o2)).
Proof.
  revert s. induction a as [|i a IH]; intros s; cbn [app t_run]; [destruct (t_run s b); reflexivity|]. destruct (t_step s i) as [s1 o1]. rewrite IH. destruct (t_run s1 a) as [s2 o2]. destruct (t_run s2 b) as [s3 o3]. rewrite app_assoc. reflexivity.
Qed.
Lemma occ_app u a b : occurrences u (a ++ b) = (occurrences u a + occurrences u b)%nat.
Proof. unfold occurrences. rewrite filter_app, app_length. reflexivity. Qed.
Lemma occ_in u l : ~ In u l -> occurrences u l = 0%nat.
Proof. unfold occurrences. induction l as [|x l IH]; intros H; [reflexivity|]. cbn [filter]. destruct (str_eqb u x) eqn:E; [apply str_eqb_eq in E; subst; exfalso; apply H; left; reflexivity|]. apply IH. intros K. apply H. right. exact K. Qed.
Lemma occ_in_iff u l : In u l <-> (0 < occurrences u l)%nat.
Proof.
  split; [|intros H; destruct (in_dec (list_eq_dec N.eq_dec) u l) as [I|I]; [exact I|rewrite (occ_in u l I) in H; lia]].
  unfold occurrences. induction l as [|x l IH]; [intros []|]. intros [->|H]; cbn [filter]; [rewrite (proj2 (str_eqb_eq u u) eq_refl); cbn; lia|]. destruct (str_eqb u x); cbn [length]; [lia|exact (IH H)].
Qed.
Lemma lookup_in p l v : lookup p l = Some v -> In p (map fst l).
Proof. induction l as [|[q w] r IH]; cbn [lookup]; [discriminate|]. destruct (str_eqb p q) eqn:E; [intros _; left; apply str_eqb_eq in E; cbn; congruence|intros H; right; exact (IH H)]. Qed.
Lemma lookup_none p l : lookup p l = None -> ~ In p (map fst l).
Proof. induction l as [|[q w] r IH]; cbn [lookup]; [intros _ []|]. destruct (str_eqb p q) eqn:E; [discriminate|]. intros H [K|K]; [cbn in K; subst; rewrite (proj2 (str_eqb_eq p p) eq_refl) in E; discriminate|exact (IH H K)]. Qed.
Lemma in_remove u x l : In x (remove_uri u l) <-> In x l /\ x <> u.
Proof.
  unfold remove_uri. rewrite filter_In. split; intros [A B]; split; auto.
  - intros ->. rewrite (proj2 (str_eqb_eq u u) eq_refl) in B. discriminate.
  - destruct (str_eqb u x) eqn:E; [apply str_eqb_eq in E; congruence|reflexivity].
Qed.
Lemma fetches_app a b : fetches (a ++ b) = fetches a ++ fetches b.
Proof. apply flat_map_app. Qed.
Lemma announced_app a b : announced (a ++ b) = announced a ++ announced b.
Proof. apply flat_map_app. Qed.

(** slot_ready: no fetches, queue and switches unchanged *)
Lemma ready_keeps : forall l s, let r := slot_ready l s in t_queue (fst r) = t_queue s /\ t_timer (fst r) = t_timer s /\ t_enabled (fst r) = t_enabled s /\ t_suspended (fst r) = t_suspended s /\ fetches (snd r) = [].
Proof.
  induction l as [|[u v] l IH]; intros s; cbv zeta; cbn [slot_ready]; [repeat split|]. destruct (negb (mem u (t_requested s))); [apply IH|].
  match goal with |- context [slot_ready l ?s1] => specialize (IH s1); destruct (slot_ready l s1) as [s2 o] end. cbn [fst snd t_queue t_timer t_enabled t_suspended] in *. destruct IH as (A & B & C & D & E). repeat split; assumption.
Qed.
Lemma ready_paths : forall l s p, In p (map fst (t_paths s)) -> In p (map fst (t_paths (fst (slot_ready l s)))).
Proof.
  induction l as [|[u v] l IH]; intros s p H; cbn [slot_ready]; [exact H|]. destruct (negb (mem u (t_requested s))); [apply IH; exact H|].
  match goal with |- context [slot_ready l ?s1] => specialize (IH s1 p); destruct (slot_ready l s1) as [s2 o] end. apply IH. right. exact H.
Qed.
Lemma ready_requested : forall l s u, In u (t_requested s) -> In u (t_requested (fst (slot_ready l s))) \/ In (url_path u) (map fst (t_paths (fst (slot_ready l s)))).
Proof.
  induction l as [|[x v] l IH]; intros s u H; cbn [slot_ready]; [auto|]. destruct (negb (mem x (t_requested s))); [apply IH; exact H|].
  match goal with |- context [slot_ready l ?s1] => pose proof (IH s1 u) as I1; pose proof (ready_paths l s1 (url_path u)) as I2; destruct (slot_ready l s1) as [s2 o] end. cbn [fst t_requested t_paths map] in *.
  destruct (list_eq_dec N.eq_dec u x) as [->|N]; [right; apply I2; left; reflexivity|]. apply I1. apply in_remove. auto.
Qed.
Lemma ready_only : forall l s u, In u (t_requested (fst (slot_ready l s))) -> In u (t_requested s).
Proof.
  induction l as [|[x v] l IH]; intros s u H; cbn [slot_ready] in H; [exact H|]. destruct (negb (mem x (t_requested s))); [apply IH; exact H|].
  match type of H with context [slot_ready l ?s1] => specialize (IH s1 u); destruct (slot_ready l s1) as [s2 o] end. apply IH in H. cbn [t_requested] in H. apply in_remove in H. apply H.
Qed.
Lemma ready_announced : forall l s p, In p (announced (snd (slot_ready l s))) -> exists u, In u (t_requested s) /\ url_path u = p /\ In u (map fst l).
Proof.
  induction l as [|[x v] l IH]; intros s p H; cbn [slot_ready] in H; [contradiction|]. destruct (mem x (t_requested s)) eqn:M; cbn [negb] in H.
  - match type of H with context [slot_ready l ?s1] => specialize (IH s1 p); destruct (slot_ready l s1) as [s2 o] end. cbn [snd announced flat_map app In] in H. destruct H as [H|H].
    + exists x. split; [apply mem_In; exact M|]. split; [exact H|left; reflexivity].
    + destruct (IH H) as (u & A & B & C). cbn [t_requested] in A. apply in_remove in A as [A _]. exists u. split; [exact A|]. split; [exact B|right; exact C].
  - destruct (IH s p H) as (u & A & B & C). exists u. split; [exact A|]. split; [exact B|right; exact C].
Qed.

(** the invariant behind "at most once" *)
Record once (s : thumbs) (sent : list str) (req : list str) : Prop := {
  on_count : forall p, plain p -> (occurrences (uri_of p) (sent ++ t_queue s) <= 1)%nat;
  on_known : forall p, plain p -> In (uri_of p) (sent ++ t_queue s) -> In (uri_of p) (t_requested s) \/ In p (map fst (t_paths s));
  on_asked : forall u, In u (t_requested s) \/ In u (sent ++ t_queue s) -> exists p, In p req /\ u = uri_of p }.
Lemma once_schedule s sent req : once s sent req -> once (schedule s) sent req.
Proof. intros [A B C]. split; [exact A|exact B|exact C]. Qed.
Lemma once_ext s s' sent req : once s sent req -> t_requested s' = t_requested s -> t_queue s' = t_queue s -> t_paths s' = t_paths s -> once s' sent req.
Proof. intros [A B C] E1 E2 E3. split; rewrite ?E1, ?E2, ?E3; assumption. Qed.
Lemma once_more s sent req p : once s sent req -> once s sent (req ++ [p]).
Proof. intros [A B C]. split; [exact A|exact B|]. intros u H. destruct (C u H) as (q & K & E). exists q. split; [apply in_or_app; left; exact K|exact E]. Qed.
Lemma once_step s sent req i : once s sent req -> let '(s', o) := t_step s i in once s' (sent ++ concat (fetches o)) (req ++ asked [i]).
Proof.
  intros O. destruct i as [p| |l|l| |e| | |]; cbn [t_step asked flat_map app]; rewrite ?app_nil_r.
  - destruct (lookup p (t_paths s)) as [v|] eqn:L; [cbn [fetches flat_map concat app]; rewrite app_nil_r; apply once_more; exact O|]. destruct (mem (iri_prefix ++ p) (t_requested s)) eqn:M; [cbn [fetches flat_map concat app]; rewrite app_nil_r; apply once_more; exact O|].
    cbn [fetches flat_map concat app]. rewrite app_nil_r. apply once_schedule. apply lookup_none in L. apply mem_false in M. destruct O as [A B C]. fold (uri_of p) in *. split; cbn [t_queue t_requested t_paths].
    + fold (uri_of p). intros q Q. rewrite app_assoc, occ_app. destruct (list_eq_dec N.eq_dec (uri_of q) (uri_of p)) as [E|E].
      * rewrite E. apply uri_inj in E. subst q. assert (Z : occurrences (uri_of p) (sent ++ t_queue s) = 0%nat). { apply occ_in. intros H. destruct (B p Q H); contradiction. } rewrite Z. unfold occurrences. cbn [filter]. rewrite (proj2 (str_eqb_eq (uri_of p) (uri_of p)) eq_refl). cbn [length plus]. lia.
      * rewrite (occ_in (uri_of q) (@cons (list N) (uri_of p) (@nil (list N)))) by (intros [H|[]]; congruence). specialize (A q Q). lia.
    + fold (uri_of p). intros q Q. rewrite app_assoc. intros H. apply in_app_or in H as [H|[H|[]]]; [|left; left; exact H]. destruct (B q Q H); [left; right; assumption|right; assumption].
    + intros u [[H|H]|H]; [exists p; split; [apply in_or_app; right; left; reflexivity|symmetry; exact H]| |].
      * destruct (C u (or_introl H)) as (q & K & E). exists q. split; [apply in_or_app; left; exact K|exact E].
      * rewrite app_assoc in H. apply in_app_or in H as [H|[H|[]]]; [|exists p; split; [apply in_or_app; right; left; reflexivity|symmetry; exact H]]. destruct (C u (or_intror H)) as (q & K & E). exists q. split; [apply in_or_app; left; exact K|exact E].
  - destruct (negb (t_timer s)); [cbn [fetches flat_map concat]; rewrite app_nil_r; exact O|]. destruct (t_queue s) as [|x q] eqn:E; [cbn [fetches flat_map concat]; rewrite app_nil_r; apply (once_ext s); auto|].
    cbn [fetches flat_map concat app]. rewrite app_nil_r. assert (Q : (sent ++ firstn 128 (x :: q)) ++ skipn 128 (x :: q) = sent ++ t_queue s) by (rewrite E, <- app_assoc, firstn_skipn; reflexivity). destruct O as [A B C]. split; cbn [t_queue t_requested t_paths]; rewrite Q; assumption.
  - pose proof (ready_keeps l s) as K. cbv zeta in K. pose proof (ready_requested l s) as R. pose proof (ready_paths l s) as P. pose proof (ready_only l s) as N. destruct (slot_ready l s) as [s' o]. cbn [fst snd] in *. destruct K as (K1 & _ & _ & _ & K5). rewrite K5. cbn [concat]. rewrite app_nil_r. destruct O as [A B C]. split; rewrite ?K1.
    + exact A.
    + intros p Hp H. destruct (B p Hp H) as [H1|H1]; [|right; apply P; exact H1]. destruct (R _ H1) as [H2|H2]; [left; exact H2|right]. rewrite (url_path_uri p Hp) in H2. exact H2.
    + intros u [H|H]; [apply C; left; apply N; exact H|apply C; right; exact H].
  - exact O.
  - exact O.
  - exact O.
  - destruct (t_enabled s); cbn [fetches flat_map concat]; rewrite app_nil_r; [exact O|]. apply once_schedule. apply (once_ext s); auto.
  - destruct (t_suspended s); cbn [fetches flat_map concat]; rewrite app_nil_r; [exact O|]. apply once_schedule. apply (once_ext s); auto.
  - destruct (t_suspended s); cbn [fetches flat_map concat]; rewrite app_nil_r; [|exact O]. apply once_schedule. apply (once_ext s); auto.
Qed.
Lemma asked_app a b : asked (a ++ b) = asked a ++ asked b.
Proof. apply flat_map_app. Qed.
Lemma outs_snoc l i : t_run t_init (l ++ [i]) = (let '(s, o) := t_run t_init l in let '(s', o') := t_step s i in (s', o ++ o')).
Proof. rewrite t_run_app. destruct (t_run t_init l) as [s o]. cbn [t_run]. destruct (t_step s i) as [s' o']. rewrite app_nil_r. reflexivity. Qed.
Lemma once_run l : once (fst (t_run t_init l)) (concat (fetches (outs l))) (asked l).
Proof.
  unfold outs. induction l as [|i l IH] using rev_ind.
  - cbn [t_run fst snd fetches flat_map concat asked t_init]. split; cbn [t_queue t_requested t_paths t_init app]; [intros; cbn; lia|intros ? ? []|intros u [[]|[]]].
  - rewrite outs_snoc. destruct (t_run t_init l) as [s o]. cbn [fst snd] in IH. pose proof (once_step s _ _ i IH) as S. destruct (t_step s i) as [s' o']. cbn [fst snd]. rewrite fetches_app, concat_app, asked_app. exact S.
Qed.

(** C64: in every history a picture with a plain name is asked for at most once, *)
Theorem C64_once_partial : forall history p, plain p -> (occurrences (uri_of p) (concat (fetches (outs history))) <= 1)%nat.
Proof. intros l p H. pose proof (on_count _ _ _ (once_run l) p H) as A. rewrite occ_app in A. lia. Qed.
Lemma batch_len (x : str) q : (1 <= List.length (firstn 128 (x :: q)) <= 128)%nat.
Proof. split; [|apply firstn_le_length]. rewrite firstn_length. cbn [length]. apply Nat.min_glb; lia. Qed.
Lemma batch_in b l : In b (fetches [OFetch l]) -> b = l.
Proof. intros [H|[]]. symmetry. exact H. Qed.
(** no call asks for more than 128 pictures, and none for nothing, *)
Theorem C64_batch : forall history batch, In batch (fetches (outs history)) -> (1 <= List.length batch <= 128)%nat.
Proof.
  intros l batch. unfold outs. induction l as [|i l IH] using rev_ind; [intros []|]. rewrite outs_snoc. destruct (t_run t_init l) as [s o]. cbn [snd] in IH. destruct (t_step s i) as [s' o'] eqn:E. cbn [snd]. rewrite fetches_app. intros H. apply in_app_or in H as [H|H]; [exact (IH H)|]. clear IH.
  destruct i as [p| |r|r| |e| | |]; cbn [t_step] in E.
  - destruct (lookup p (t_paths s)); [injection E as <- <-; contradiction|]. destruct (mem (iri_prefix ++ p) (t_requested s)); injection E as <- <-; contradiction.
  - destruct (negb (t_timer s)); [injection E as <- <-; contradiction|]. destruct (t_queue s) as [|x q]; apply (f_equal snd) in E; cbn [snd] in E; subst o'; [contradiction|]. apply batch_in in H. subst batch. apply batch_len.
  - pose proof (ready_keeps r s) as K. cbv zeta in K. rewrite E in K. cbn [snd] in K. destruct K as (_ & _ & _ & _ & K). rewrite K in H. contradiction.
  - injection E as <- <-. contradiction.
  - injection E as <- <-. contradiction.
  - injection E as <- <-. contradiction.
  - destruct (t_enabled s); injection E as <- <-; contradiction.
  - destruct (t_suspended s); injection E as <- <-; contradiction.
  - destruct (t_suspended s); injection E as <- <-; contradiction.
Qed.
(** what is asked for was requested before by the storage, *)
Theorem C64_only_requested : forall history u, In u (concat (fetches (outs history))) -> exists p, In p (asked history) /\ u = uri_of p.
Proof. intros l u H. apply (on_asked _ _ _ (once_run l)). right. apply in_or_app. left. exact H. Qed.
(** and a ready notification is passed on only for requested pictures the thumbnailer
    reported *)
Definition reported (l : list tin) : list str := flat_map (fun x => match x with TReady r => map fst r | _ => [] end) l.
Theorem C64_ready : forall history q, In q (announced (outs history)) -> exists p, In p (asked history) /\ In (uri_of p) (reported history) /\ q = url_path (uri_of p).
Proof.
  intros l q. unfold outs. induction l as [|i l IH] using rev_ind; [intros []|]. rewrite outs_snoc. pose proof (once_run l) as O. unfold outs in O. destruct (t_run t_init l) as [s o]. cbn [fst snd] in IH, O. destruct (t_step s i) as [s' o'] eqn:E. cbn [snd]. rewrite announced_app. intros H. apply in_app_or in H as [H|H].
  - destruct (IH H) as (p & A & B & C). exists p. split; [rewrite asked_app; apply in_or_app; left; exact A|]. split; [unfold reported; rewrite flat_map_app; apply in_or_app; left; exact B|exact C].
  - clear IH. assert (R : forall r, i = TReady r -> exists p, In p (asked (l ++ [i])) /\ In (uri_of p) (reported (l ++ [i])) /\ q = url_path (uri_of p)).
    { intros r ->. cbn [t_step] in E. pose proof (ready_announced r s q) as R. rewrite E in R. cbn [snd] in R. destruct (R H) as (u & A & B & C). destruct (on_asked _ _ _ O u (or_introl A)) as (p & P1 & ->). exists p. split; [rewrite asked_app; apply in_or_app; left; exact P1|]. split; [unfold reported; rewrite flat_map_app; apply in_or_app; right; cbn [flat_map]; rewrite app_nil_r; exact C|symmetry; exact B]. }
    destruct i as [p| |r|r| |e| | |]; cbn [t_step] in E.
    + destruct (lookup p (t_paths s)); [injection E as <- <-; contradiction|]. destruct (mem (iri_prefix ++ p) (t_requested s)); injection E as <- <-; contradiction.
    + destruct (negb (t_timer s)); [injection E as <- <-; contradiction|]. destruct (t_queue s) as [|x z]; injection E as <- <-; contradiction.
    + exact (R r eq_refl).
    + injection E as <- <-. contradiction.
    + injection E as <- <-. contradiction.
    + injection E as <- <-. contradiction.
    + destruct (t_enabled s); injection E as <- <-; contradiction.
    + destruct (t_suspended s); injection E as <- <-; contradiction.
    + destruct (t_suspended s); injection E as <- <-; contradiction.
Qed.
(** the full property fails: the picture /%41 is asked for again and again *)
Definition percent : str := [47; 37; 52; 49].
Theorem C64_percent_refuted : exists history, occurrences (uri_of percent) (concat (fetches (outs history))) = 2%nat /\ announced (outs history) = [[47; 65]].
Proof. exists [TEnable; TRequest percent; TTimeout; TReady [(uri_of percent, [84])]; TRequest percent; TTimeout]. split; vm_compute; reflexivity. Qed.

(** ** C69: requested thumbnails are eventually asked for *)
Record timed (s : thumbs) : Prop := {
  ti_on : t_enabled s = true -> t_suspended s = false -> t_queue s <> [] -> t_timer s = true;
  ti_off : t_timer s = true -> t_enabled s = true /\ t_suspended s = false }.
Lemma timed_schedule s : timed (schedule s).
Proof.
  unfold schedule. split; cbn [t_enabled t_suspended t_queue t_timer set_timer].
  - intros -> -> H. destruct (t_queue s); [contradiction|reflexivity].
  - intros H. apply andb_true_iff in H as [H _]. apply andb_true_iff in H as [-> H]. split; [reflexivity|]. destruct (t_suspended s); [discriminate|reflexivity].
Qed.
Lemma timed_step s i : timed s -> timed (fst (t_step s i)).
Proof.
  intros T. destruct i as [p| |r|r| |e| | |]; cbn [t_step].
  - destruct (lookup p (t_paths s)); [exact T|]. destruct (mem (iri_prefix ++ p) (t_requested s)); [exact T|]. apply timed_schedule.
  - destruct (negb (t_timer s)) eqn:N; [exact T|]. apply negb_false_iff in N. destruct (t_queue s) eqn:Q; cbn [fst].
    + destruct T as [A B]. split; cbn [t_enabled t_suspended t_queue t_timer set_timer]; [intros _ _ H; rewrite Q in H; contradiction|discriminate].
    + destruct T as [A B]. split; cbn [t_enabled t_suspended t_queue t_timer]; [intros; exact N|exact B].
  - pose proof (ready_keeps r s) as K. cbv zeta in K. destruct K as (K1 & K2 & K3 & K4 & _). destruct T as [A B]. split; rewrite ?K1, ?K2, ?K3, ?K4; assumption.
  - exact T.
  - exact T.
  - exact T.
  - destruct (t_enabled s); [exact T|apply timed_schedule].
  - destruct (t_suspended s); [exact T|apply timed_schedule].
  - destruct (t_suspended s); [apply timed_schedule|exact T].
Qed.
Lemma timed_run l : timed (fst (t_run t_init l)).
Proof.
  induction l as [|i l IH] using rev_ind; [split; cbn; discriminate|]. rewrite outs_snoc. destruct (t_run t_init l) as [s o]. cbn [fst] in IH. pose proof (timed_step s i IH) as S. destruct (t_step s i). exact S.
Qed.
Lemma drained : forall n s, timed s -> t_enabled s = true -> t_suspended s = false -> (List.length (t_queue s) <= 128 * n)%nat -> concat (fetches (snd (t_run s (repeat TTimeout n)))) = t_queue s /\ t_queue (fst (t_run s (repeat TTimeout n))) = [].
Proof.
  induction n as [|n IH]; intros s T E S L; cbn [repeat t_run].
  - destruct (t_queue s) eqn:Q; [split; [reflexivity|exact Q]|]. cbn [length] in L. lia.
  - cbn [t_step]. destruct (t_queue s) as [|x q] eqn:Q.
    + pose proof (timed_step s TTimeout T) as T1. cbn [t_step] in T1. rewrite Q in T1. destruct (negb (t_timer s)); cbn [fst] in T1.
      * specialize (IH s T1 E S ltac:(rewrite Q; cbn; lia)). destruct (t_run s (repeat TTimeout n)) as [s2 o2]. cbn [fst snd app] in *. rewrite Q in IH. exact IH.
      * specialize (IH (set_timer false s) T1 E S ltac:(cbn [t_queue set_timer]; rewrite Q; cbn; lia)). destruct (t_run (set_timer false s) (repeat TTimeout n)) as [s2 o2]. cbn [fst snd app] in *. cbn [t_queue set_timer] in IH. rewrite Q in IH. exact IH.
    + pose proof (timed_step s TTimeout T) as T1. cbn [t_step] in T1. rewrite Q in T1. rewrite (ti_on s T E S ltac:(rewrite Q; discriminate)) in T1 |- *. cbn [negb] in T1 |- *. cbn [fst] in T1.
      match type of T1 with timed ?s1 => specialize (IH s1 T1 E S); destruct (t_run s1 (repeat TTimeout n)) as [s2 o2] end. cbn [fst snd t_queue] in IH |- *. rewrite skipn_length in IH. destruct (IH ltac:(cbn [length] in *; lia)) as [I1 I2]. split; [|exact I2].
      rewrite fetches_app, concat_app, I1. change (concat (fetches [OFetch (firstn 128 (x :: q))])) with (firstn 128 (x :: q) ++ []). rewrite app_nil_r. apply firstn_skipn.
Qed.
(** every request is queued or sent unless its thumbnail is known *)
Record kept (s : thumbs) (sent req : list str) : Prop := {
  ke_all : forall p, In p req -> In (uri_of p) (sent ++ t_queue s) \/ In p (map fst (t_paths s));
  ke_req : forall u, In u (t_requested s) -> In u (sent ++ t_queue s) }.
Lemma kept_ext s s' sent req : kept s sent req -> t_requested s' = t_requested s -> t_queue s' = t_queue s -> t_paths s' = t_paths s -> kept s' sent req.
Proof. intros [A B] E1 E2 E3. split; rewrite ?E1, ?E2, ?E3; assumption. Qed.
Lemma kept_step s sent req i : kept s sent req -> let '(s', o) := t_step s i in kept s' (sent ++ concat (fetches o)) (req ++ asked [i]).
Proof.
  intros O. destruct i as [p| |l|l| |e| | |]; cbn [t_step asked flat_map app]; rewrite ?app_nil_r.
  - destruct O as [A B]. destruct (lookup p (t_paths s)) as [v|] eqn:L.
    + cbn [fetches flat_map concat app]. rewrite app_nil_r. split; [|exact B]. intros q H. apply in_app_or in H as [H|[<-|[]]]; [exact (A q H)|right; apply lookup_in in L; exact L].
    + destruct (mem (iri_prefix ++ p) (t_requested s)) eqn:M.
      * cbn [fetches flat_map concat app]. rewrite app_nil_r. split; [|exact B]. intros q H. apply in_app_or in H as [H|[<-|[]]]; [exact (A q H)|left]. apply B. apply mem_In. exact M.
      * cbn [fetches flat_map concat app]. rewrite app_nil_r. apply (kept_ext (mk_thumbs (t_enabled s) (t_suspended s) (t_timer s) (t_paths s) ((iri_prefix ++ p) :: t_requested s) (t_queue s ++ [iri_prefix ++ p]))); [|reflexivity|reflexivity|reflexivity]. split; cbn [t_queue t_requested t_paths]; rewrite app_assoc.
        -- intros q H. apply in_app_or in H as [H|[<-|[]]]; [|left; apply in_or_app; right; left; reflexivity]. destruct (A q H); [left; apply in_or_app; left; assumption|right; assumption].
        -- intros u [H|H]; [apply in_or_app; right; left; exact H|apply in_or_app; left; exact (B u H)].
  - destruct (negb (t_timer s)); [cbn [fetches flat_map concat]; rewrite app_nil_r; exact O|]. destruct (t_queue s) as [|x q] eqn:E; [cbn [fetches flat_map concat]; rewrite app_nil_r; apply (kept_ext s); auto|].
    cbn [fetches flat_map concat app]. rewrite app_nil_r. assert (Q : (sent ++ firstn 128 (x :: q)) ++ skipn 128 (x :: q) = sent ++ t_queue s) by (rewrite E, <- app_assoc, firstn_skipn; reflexivity). destruct O as [A B]. split; cbn [t_queue t_requested t_paths]; rewrite Q; assumption.
  - pose proof (ready_keeps l s) as K. cbv zeta in K. pose proof (ready_paths l s) as P. pose proof (ready_only l s) as N. destruct (slot_ready l s) as [s' o]. cbn [fst snd] in *. destruct K as (K1 & _ & _ & _ & K5). rewrite K5. cbn [concat]. rewrite app_nil_r. destruct O as [A B]. split; rewrite ?K1.
    + intros p H. destruct (A p H); [left; assumption|right; apply P; assumption].
    + intros u H. apply B, N. exact H.
  - exact O.
  - exact O.
  - exact O.
  - destruct (t_enabled s); cbn [fetches flat_map concat]; rewrite app_nil_r; [exact O|]. apply (kept_ext s); auto.
  - destruct (t_suspended s); cbn [fetches flat_map concat]; rewrite app_nil_r; [exact O|]. apply (kept_ext s); auto.
  - destruct (t_suspended s); cbn [fetches flat_map concat]; rewrite app_nil_r; [|exact O]. apply (kept_ext s); auto.
Qed.
Lemma kept_run l : kept (fst (t_run t_init l)) (concat (fetches (outs l))) (asked l).
Proof.
  unfold outs. induction l as [|i l IH] using rev_ind.
  - split; [intros p []|intros u []].
  - rewrite outs_snoc. destruct (t_run t_init l) as [s o]. cbn [fst snd] in IH. pose proof (kept_step s _ _ i IH) as S. destruct (t_step s i) as [s' o']. cbn [fst snd]. rewrite fetches_app, concat_app, asked_app. exact S.
Qed.
(** the switches, as set by the history *)
Fixpoint enabled_by (l : list tin) : bool := match l with [] => false | TEnable :: _ => true | _ :: r => enabled_by r end.
Definition suspended_after (l : list tin) : bool := fold_left (fun b i => match i with TSuspend => true | TResume => false | _ => b end) l false.
Lemma switches l : t_enabled (fst (t_run t_init l)) = enabled_by l /\ t_suspended (fst (t_run t_init l)) = suspended_after l.
Proof.
  assert (SN : forall a i, suspended_after (a ++ [i]) = match i with TSuspend => true | TResume => false | _ => suspended_after a end) by (intros a i; unfold suspended_after; rewrite fold_left_app; destruct i; reflexivity).
  assert (EN : forall a i, enabled_by (a ++ [i]) = match i with TEnable => true | _ => enabled_by a end).
  { intros a i. induction a as [|x a IH]; [destruct i; reflexivity|]. cbn [app enabled_by]. destruct x; try exact IH. destruct i; reflexivity. }
  induction l as [|i l IH] using rev_ind; [split; reflexivity|]. rewrite outs_snoc, SN, EN. destruct (t_run t_init l) as [s o]. cbn [fst] in IH. destruct IH as [IH1 IH2]. destruct i as [p| |r|r| |e| | |]; cbn [t_step].
  - destruct (lookup p (t_paths s)); [split; assumption|]. destruct (mem (iri_prefix ++ p) (t_requested s)); split; assumption.
  - destruct (negb (t_timer s)); [split; assumption|]. destruct (t_queue s); split; assumption.
  - pose proof (ready_keeps r s) as K. cbv zeta in K. destruct K as (_ & _ & K3 & K4 & _). destruct (slot_ready r s). cbn [fst] in *. rewrite K3, K4. split; assumption.
  - split; assumption.
  - split; assumption.
  - split; assumption.
  - destruct (t_enabled s) eqn:E; split; try assumption; reflexivity.
  - destruct (t_suspended s) eqn:E; split; try assumption; reflexivity.
  - destruct (t_suspended s) eqn:E; split; try assumption; reflexivity.
Qed.
(** once thumbnailing is enabled and no command is being processed, enough timer ticks ask
    the thumbnailer for every picture the storage requested and was not given yet *)
Theorem C69_eventually : forall history p, In p (asked history) -> enabled_by history = true -> suspended_after history = false ->
  ~ In p (announced (outs history)) ->
  exists n, In (uri_of p) (concat (fetches (outs (history ++ repeat TTimeout n)))).
Proof.
  intros l p A E S F. destruct (switches l) as [SW1 SW2]. rewrite E in SW1. rewrite S in SW2. exists (List.length (t_queue (fst (t_run t_init l)))). unfold outs. rewrite t_run_app.
  assert (K : In (uri_of p) (concat (fetches (outs l)) ++ t_queue (fst (t_run t_init l))) \/ In p (map fst (t_paths (fst (t_run t_init l))))) by (apply (ke_all _ _ _ (kept_run l)); exact A).
  assert (N : In p (map fst (t_paths (fst (t_run t_init l)))) -> In (OReady p) (outs l)).
  { clear - l. unfold outs. induction l as [|i l IH] using rev_ind; [intros []|]. rewrite outs_snoc. destruct (t_run t_init l) as [s o]. cbn [fst snd] in IH. intros H. destruct (t_step s i) as [s' o'] eqn:T. cbn [fst snd] in *. apply in_or_app.
    assert (G : t_paths s' = t_paths s \/ exists r, i = TReady r).
    { destruct i as [q| |r|r| |e| | |]; cbn [t_step] in T; try (injection T as <- <-; auto; fail); [| |right; eauto| | |].
      - destruct (lookup q (t_paths s)); [injection T as <- <-; auto|]. destruct (mem (iri_prefix ++ q) (t_requested s)); injection T as <- <-; auto.
      - destruct (negb (t_timer s)); [injection T as <- <-; auto|]. destruct (t_queue s); injection T as <- <-; auto.
      - destruct (t_enabled s); injection T as <- <-; auto.
      - destruct (t_suspended s); injection T as <- <-; auto.
      - destruct (t_suspended s); injection T as <- <-; auto. }
    destruct G as [G|(r & ->)]; [rewrite G in H; left; exact (IH H)|]. cbn [t_step] in T.
    assert (R : forall r s s' o', slot_ready r s = (s', o') -> In p (map fst (t_paths s')) -> In p (map fst (t_paths s)) \/ In (OReady p) o').
    { clear. induction r as [|[u v] r IH]; intros s s' o' T H; cbn [slot_ready] in T; [injection T as <- <-; auto|]. destruct (negb (mem u (t_requested s))); [exact (IH _ _ _ T H)|].
      match type of T with context [slot_ready r ?s1] => destruct (slot_ready r s1) as [s2 o2] eqn:T2 end. injection T as <- <-. destruct (IH _ _ _ T2 H) as [[K|K]|K]; [right; left; f_equal; exact K|left; exact K|right; right; exact K]. }
    destruct (R _ _ _ _ T H) as [K|K]; [left; exact (IH K)|right; exact K]. }
  pose proof (timed_run l) as T. unfold outs in K, N, F. destruct (t_run t_init l) as [s o] eqn:EQ. cbn [fst snd] in *. destruct K as [K|K].
  - destruct (drained (List.length (t_queue s)) s T SW1 SW2 ltac:(lia)) as [D _]. destruct (t_run s (repeat TTimeout (List.length (t_queue s)))) as [s2 o2]. cbn [snd] in *. rewrite fetches_app, concat_app, D. exact K.
  - exfalso. apply F. apply in_flat_map. exists (OReady p). split; [exact (N K)|left; reflexivity].
Qed.
(** nothing is asked for before thumbnailing is enabled or while a command is processed *)
Theorem C69_quiet : forall history i, enabled_by history = false \/ suspended_after history = true -> fetches (snd (t_step (fst (t_run t_init history)) i)) = [].
Proof.
  intros l i H. pose proof (timed_run l) as T. destruct (switches l) as [SW1 SW2]. destruct (t_run t_init l) as [s o]. cbn [fst] in *. destruct i as [p| |r|r| |e| | |]; cbn [t_step]; try reflexivity.
  - destruct (lookup p (t_paths s)); [reflexivity|]. destruct (mem (iri_prefix ++ p) (t_requested s)); reflexivity.
  - destruct (t_timer s) eqn:E; [|reflexivity]. destruct (ti_off s T E). destruct H; congruence.
  - pose proof (ready_keeps r s) as K. cbv zeta in K. apply K.
  - destruct (t_enabled s); reflexivity.
  - destruct (t_suspended s); reflexivity.
  - destruct (t_suspended s); reflexivity.
Qed.
(** examples *)
Definition pic : str := [47; 112].
Example C64_example : plain pic /\ outs [TRequest pic; TEnable; TRequest pic; TSuspend; TTimeout; TResume; TTimeout; TReady [(uri_of pic, [84]); (uri_of [47; 113], [85])]; TRequest pic; TTimeout]
  = [OAnswer []; OAnswer []; OFetch [uri_of pic]; OReady pic; OAnswer [84]].
Proof. split; [intros c [<-|[<-|[]]]; repeat split; discriminate|]. vm_compute. reflexivity. Qed.
Example C69_example : enabled_by [TEnable; TSuspend; TRequest pic; TResume] = true /\ suspended_after [TEnable; TSuspend; TRequest pic; TResume] = false /\ announced (outs [TEnable; TSuspend; TRequest pic; TResume]) = [].
Proof. repeat split. Qed.

Print Assumptions C64_once_partial.
Print Assumptions C64_batch.
Print Assumptions C64_only_requested.
Print Assumptions C64_ready.
Print Assumptions C64_percent_refuted.
Print Assumptions C69_eventually.
Print Assumptions C69_quiet.
