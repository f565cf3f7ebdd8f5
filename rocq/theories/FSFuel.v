(** The recursion bounds of the storage model do not influence results: an operation that
    ends with some bound ends in the same way with every larger one (C89). *)
From Verif Require Import Base AList Wire FS FSSpec FSTerm.

(** [m'] ends as [m] does, where [m] ends *)
Definition mle {A} (m m' : M A) : Prop := forall s, m s <> Abort -> m' s = m s.
Lemma mle_refl {A} (m : M A) : mle m m. Proof. intros s _. reflexivity. Qed.
Lemma mle_give_up {A} (m : M A) : mle give_up m. Proof. intros s H. contradiction. Qed.
Lemma mle_bind {A B} (m m' : M A) (k k' : A -> M B) : mle m m' -> (forall a, mle (k a) (k' a)) -> mle (bind m k) (bind m' k').
Proof. intros H K s N. unfold bind in *. rewrite (H s) by (intros E; rewrite E in N; contradiction). destruct (m s) as [[a s1]| |]; [apply K; exact N|reflexivity|contradiction]. Qed.
Lemma mle_trans {A} (a b c : M A) : mle a b -> mle b c -> mle a c.
Proof. intros H K s N. rewrite K; [apply H; exact N|]. rewrite (H s N). exact N. Qed.
Lemma mle_when b m m' : mle m m' -> mle (when b m) (when b m').
Proof. intros H. destruct b; [exact H|apply mle_refl]. Qed.
Ltac mle1 := lazymatch goal with
  | |- mle ?a ?a => apply mle_refl
  | |- mle give_up _ => apply mle_give_up
  | |- mle (bind _ _) (bind _ _) => apply mle_bind; [|intros ?]
  | |- mle (when _ _) (when _ _) => apply mle_when
  | |- mle (if ?b then _ else _) (if ?b then _ else _) => destruct b
  | |- mle (match ?x with _ => _ end) (match ?x with _ => _ end) => destruct x
  end.
Ltac mlex := repeat mle1.


Lemma sib_mle (g g' : ptr -> M unit) : (forall q, mle (g q) (g' q)) -> forall k k' itr, (k <= k')%nat -> mle (sib g k itr) (sib g' k' itr).
Proof.
  intros H. induction k as [|k IH]; intros k' [q|] L; try (destruct k'; apply mle_refl); [apply mle_give_up|]. destruct k' as [|k']; [lia|]. cbn [sib].
  apply mle_bind; [apply H|]. intros _. apply mle_bind; [apply mle_refl|]. intros qi. apply IH. lia.
Qed.
Lemma watch_mle g : forall f f' p, (f <= f')%nat -> mle (watch_rec f g p) (watch_rec f' g p).
Proof.
  induction f as [|f IH]; intros f' p L; [apply mle_give_up|]. destruct f' as [|f']; [lia|]. cbn [watch_rec]. mlex. apply (sib_mle (watch_rec f g) (watch_rec f' g)); [intros q; apply IH; lia|lia].
Qed.
Lemma adjust_mle : forall f f' anc p, (f <= f')%nat -> mle (adjust_moved f anc p) (adjust_moved f' anc p).
Proof.
  induction f as [|f IH]; intros f' anc p L; [apply mle_give_up|]. destruct f' as [|f']; [lia|]. cbn [adjust_moved]. mlex. apply (sib_mle (adjust_moved f _) (adjust_moved f' _)); [intros q; apply IH; lia|lia].
Qed.
Lemma adjusts_mle : forall k k' f f' anc itr, (f <= f')%nat -> (k <= k')%nat -> mle (adjust_children f k anc itr) (adjust_children f' k' anc itr).
Proof.
  induction k as [|k IH]; intros k' f f' anc [q|] L L'; try (destruct k'; apply mle_refl); [apply mle_give_up|]. destruct k' as [|k']; [lia|]. cbn [adjust_children].
  apply mle_bind; [apply adjust_mle; exact L|]. intros _. apply mle_bind; [apply mle_refl|]. intros qi. apply IH; lia.
Qed.
Section F.
Variables (C : conf) (f f' : nat) (L : (f <= f')%nat).
Lemma move_mle h q phys : mle (move_object C f h q phys) (move_object C f' h q phys).
Proof. unfold move_object. mlex; solve [apply watch_mle; exact L | apply adjusts_mle; exact L]. Qed.
Lemma rename_mle h n : mle (set_file_name C f h n) (set_file_name C f' h n).
Proof. unfold set_file_name. mlex; solve [apply watch_mle; exact L | apply adjusts_mle; exact L]. Qed.
End F.
Lemma add_mle C : forall f f' p info send create h, (f <= f')%nat -> mle (add_to_storage C f p info send create h) (add_to_storage C f' p info send create h).
Proof.
  induction f as [|f IH]; intros f' p info send create h L; [apply mle_give_up|]. destruct f' as [|f']; [lia|]. cbn [add_to_storage]. mlex.
  all: lazymatch goal with |- mle (_ (entries_of ?p ?w)) _ => generalize (entries_of p w) | _ => idtac end.
  all: intros l; induction l as [|e l IHl]; [apply mle_refl|]; apply mle_bind; [apply IH; lia|intros _; exact IHl].
Qed.
Lemma delete_mle C : forall f f' h phys send, (f <= f')%nat -> mle (delete_helper C f h phys send) (delete_helper C f' h phys send).
Proof.
  induction f as [|f IH]; intros f' h phys send L; [apply mle_give_up|]. destruct f' as [|f']; [lia|]. cbn [delete_helper]. mlex.
  - assert (L' : (f <= f')%nat) by lia. 
    assert (G : forall k k', (k <= k')%nat -> mle
       ((fix loop (k : nat) : M bool := i <- deref p ;; match i_first i with None => ret false | Some c => match k with O => give_up | S k' => ci <- deref c ;; r <- delete_helper C f (i_handle ci) phys send ;; if negb (isok r) then ret true else loop k' end end) k)
       ((fix loop (k : nat) : M bool := i <- deref p ;; match i_first i with None => ret false | Some c => match k with O => give_up | S k' => ci <- deref c ;; r <- delete_helper C f' (i_handle ci) phys send ;; if negb (isok r) then ret true else loop k' end end) k')); [|apply G; lia].
    induction k as [|k IHk]; intros k' K.
    + destruct k'; mlex.
    + destruct k' as [|k']; [lia|]. mlex; [apply IH; lia|]. apply IHk. lia.
  - apply IH. lia.
Qed.
Lemma delete_item_mle C f f' order h fmt : (f <= f')%nat -> mle (delete_item C f order h fmt) (delete_item C f' order h fmt).
Proof.
  intros L. unfold delete_item. destruct (h =? ALL); [|apply delete_mle; exact L]. apply mle_bind; [apply mle_refl|]. intros copy.
  match goal with |- mle (?F order ?a ?b ?c) (?G order ?a ?b ?c) => cut (forall r b1 b2, mle (F order r b1 b2) (G order r b1 b2)); [intros X; apply X|] end.
  induction order as [|k l IHl]; intros r b1 b2; [apply mle_refl|]. apply mle_bind; [|intros resp; apply IHl]. mlex; apply delete_mle; exact L.
Qed.
Lemma add_item_mle C f f' i : (f <= f')%nat -> mle (add_item C f i) (add_item C f' i).
Proof. intros L. unfold add_item. mlex. apply add_mle. exact L. Qed.
Lemma enumerate_mle C f f' : (f <= f')%nat -> mle (enumerate C f) (enumerate C f').
Proof. intros L. unfold enumerate. mlex. apply add_mle. exact L. Qed.
Lemma copy_loop_mle C d d' src dst : (d <= d')%nat -> forall k off rem res, mle (copy_loop C k d src dst off rem res) (copy_loop C k d' src dst off rem res).
Proof. intros L. induction k as [|k IH]; intros off rem res; [apply mle_refl|]. cbn [copy_loop]. mlex; solve [apply delete_item_mle; exact L | apply IH]. Qed.
Lemma copy_mle C : forall f f' h q top, (f <= f')%nat -> mle (copy_object C f h q top) (copy_object C f' h q top).
Proof.
  induction f as [|f IH]; intros f' h q top L; [apply mle_give_up|]. destruct f' as [|f']; [lia|]. cbn [copy_object]. mlex.
  all: try (apply add_item_mle; lia).
  all: try (unfold copy_data; mlex; apply copy_loop_mle; lia).
  match goal with |- context [i_first ?a] => generalize (i_first a) end. assert (L' : (f <= f')%nat) by lia. clear L.
  assert (G : forall k k' itr copy, (k <= k')%nat -> mle
    ((fix loop (k : nat) (itr : option ptr) : M N := match itr with None => ret R_OK | Some c => match k with O => give_up | S k' => ci <- deref c ;; r <- copy_object C f (i_handle ci) copy false ;; if negb (isok (fst r)) then ret (fst r) else ci <- deref c ;; loop k' (i_next ci) end end) k itr)
    ((fix loop (k : nat) (itr : option ptr) : M N := match itr with None => ret R_OK | Some c => match k with O => give_up | S k' => ci <- deref c ;; r <- copy_object C f' (i_handle ci) copy false ;; if negb (isok (fst r)) then ret (fst r) else ci <- deref c ;; loop k' (i_next ci) end end) k' itr)); [|intros itr; apply G; exact L'].
  induction k as [|k IHk]; intros k' [c|] copy K; try (destruct k'; apply mle_refl); [apply mle_give_up|]. destruct k' as [|k']; [lia|]. mlex; [apply IH; exact L'|]. apply IHk. lia.
Qed.
Section E.
Variables (C : conf) (f f' : nat) (L : (f <= f')%nat).
Lemma fs_delete_mle wd n : mle (handle_fs_delete C f wd n) (handle_fs_delete C f' wd n).
Proof. unfold handle_fs_delete. mlex. apply delete_mle. exact L. Qed.
Lemma fs_create_mle wd n : mle (handle_fs_create C f wd n) (handle_fs_create C f' wd n).
Proof. unfold handle_fs_create. mlex. apply add_mle. exact L. Qed.
Lemma fs_move_mle wd n wd2 n2 : mle (handle_fs_move C f wd n wd2 n2) (handle_fs_move C f' wd n wd2 n2).
Proof. unfold handle_fs_move. mlex; solve [apply delete_mle; exact L | apply adjusts_mle; exact L | apply watch_mle; exact L | apply move_mle; exact L]. Qed.
Lemma event_mle e : mle (inotify_event C f e) (inotify_event C f' e).
Proof. unfold inotify_event. mlex; solve [apply fs_delete_mle | apply fs_create_mle | apply fs_move_mle]. Qed.
End E.
(** an operation with the bound [f] *)
Definition bounded (f : nat) (o : op) : op :=
  match o with
  | OAdd _ i => OAdd f i | ODelete _ h => ODelete f h | ODeleteAll _ l m => ODeleteAll f l m | OMove _ h q => OMove f h q
  | ORename _ h n => ORename f h n | OCopy _ h q => OCopy f h q | OEvent _ e => OEvent f e | o => o
  end.
Theorem exec_mle C f f' o : (f <= f')%nat -> mle (exec C (bounded f o)) (exec C (bounded f' o)).
Proof.
  intros L. destruct o; cbn [bounded exec]; mlex; first [apply add_item_mle | apply delete_item_mle | apply move_mle | apply rename_mle | apply copy_mle | apply event_mle]; exact L.
Qed.
