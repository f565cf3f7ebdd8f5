(** Words, bytes and outcomes shared by the whole model. *)
From Coq Require Export List NArith ZArith Bool Lia.
From Coq Require Export ZifyBool ZifyNat ZifyN.
Export ListNotations.
Open Scope N_scope.

Ltac Zify.zify_post_hook ::= Z.div_mod_to_equations.

Arguments N.add : simpl never.
Arguments N.sub : simpl never.
Arguments N.mul : simpl never.
Arguments N.modulo : simpl never.
Arguments N.div : simpl never.
Arguments N.pow : simpl never.
Arguments N.eqb : simpl never.
Arguments N.ltb : simpl never.
Arguments N.leb : simpl never.

(** Fixed width unsigned arithmetic (quint8 .. quint64): values are [N],
    wrap-around is explicit. *)
Definition w8  : N := 256.
Definition w16 : N := 65536.
Definition w32 : N := 4294967296.
Definition w64 : N := 18446744073709551616.
Definition u8 (x : N) : N := x mod 256.
Definition u16 (x : N) : N := x mod 65536.
Definition u32 (x : N) : N := x mod 4294967296.
Definition u64 (x : N) : N := x mod 18446744073709551616.
(** Unsigned subtraction with wrap-around ([a - b] in a w-sized word). *)
Definition sub32 (a b : N) : N := (a + 4294967296 - b mod 4294967296) mod 4294967296.
Definition sub64 (a b : N) : N :=
  (a + 18446744073709551616 - b mod 18446744073709551616) mod 18446744073709551616.

Definition bytes := list N.
Definition byte_ok (b : N) : Prop := b < 256.
Definition bytes_ok (l : bytes) : Prop := Forall byte_ok l.
Definition len {A} (l : list A) : N := N.of_nat (length l).

(** Result of running a piece of C++ code: a value, or undefined behaviour
    ([UB]: out of bounds access, use of uninitialised memory ...), or a
    controlled abnormal termination ([Abort]: std::bad_alloc, qFatal). *)
Inductive outcome (A : Type) : Type :=
| Ret : A -> outcome A
| UB : outcome A
| Abort : outcome A.
Arguments Ret {A} _.
Arguments UB {A}.
Arguments Abort {A}.

Lemma Ret_inj {A} (a b : A) : Ret a = Ret b -> a = b.
Proof. congruence. Qed.

Definition obind {A B} (m : outcome A) (f : A -> outcome B) : outcome B :=
  match m with Ret a => f a | UB => UB | Abort => Abort end.
Notation "'do' x <- m ; k" := (obind m (fun x => k))
  (at level 200, x pattern, m at level 100, k at level 200, right associativity).

(** Little endian encoding of [x] in [n] bytes, and its inverse. *)
Fixpoint le_enc (n : nat) (x : N) : bytes :=
  match n with
  | O => []
  | S m => (x mod 256) :: le_enc m (x / 256)
  end.
Fixpoint le_dec (l : bytes) : N :=
  match l with
  | [] => 0
  | b :: r => b + 256 * le_dec r
  end.

(** [take]/[drop] with an [N] count. *)
Definition take {A} (n : N) (l : list A) : list A := firstn (N.to_nat n) l.
Definition drop {A} (n : N) (l : list A) : list A := skipn (N.to_nat n) l.

Lemma len_nil {A} : len (@nil A) = 0. Proof. reflexivity. Qed.
Lemma len_cons {A} (a : A) l : len (a :: l) = 1 + len l.
Proof. unfold len; cbn [length]; lia. Qed.
Lemma len_app {A} (l1 l2 : list A) : len (l1 ++ l2) = len l1 + len l2.
Proof. unfold len; rewrite app_length; lia. Qed.
Lemma len_take {A} n (l : list A) : len (take n l) = N.min n (len l).
Proof. unfold len, take; rewrite firstn_length; lia. Qed.
Lemma len_drop {A} n (l : list A) : len (drop n l) = len l - n.
Proof. unfold len, drop; rewrite skipn_length; lia. Qed.
Lemma take_drop {A} n (l : list A) : take n l ++ drop n l = l.
Proof. apply firstn_skipn. Qed.
Lemma take_app_exact {A} (l1 l2 : list A) : take (len l1) (l1 ++ l2) = l1.
Proof.
  unfold take, len. rewrite Nnat.Nat2N.id, firstn_app, Nat.sub_diag, firstn_all.
  cbn. now rewrite app_nil_r.
Qed.
Lemma drop_app_exact {A} (l1 l2 : list A) : drop (len l1) (l1 ++ l2) = l2.
Proof.
  unfold drop, len. rewrite Nnat.Nat2N.id, skipn_app, Nat.sub_diag, skipn_all.
  reflexivity.
Qed.
Lemma take_all {A} n (l : list A) : len l <= n -> take n l = l.
Proof. unfold take, len; intros; apply firstn_all2; lia. Qed.
Lemma drop_all {A} n (l : list A) : len l <= n -> drop n l = [].
Proof. unfold drop, len; intros; apply skipn_all2; lia. Qed.
Lemma take_0 {A} (l : list A) : take 0 l = [].
Proof. reflexivity. Qed.
Lemma drop_0 {A} (l : list A) : drop 0 l = l.
Proof. reflexivity. Qed.
Lemma drop_drop {A} a b (l : list A) : drop a (drop b l) = drop (b + a) l.
Proof.
  unfold drop. replace (N.to_nat (b + a)) with (N.to_nat b + N.to_nat a)%nat by lia.
  generalize (N.to_nat b) as k, (N.to_nat a) as m. intros k m. revert l.
  induction k as [|k IH]; intros l; [reflexivity|].
  destruct l as [|x l]; cbn [skipn Nat.add]; [now rewrite skipn_nil|apply IH].
Qed.
Lemma drop_app_l {A} n (l1 l2 : list A) : n <= len l1 -> drop n (l1 ++ l2) = drop n l1 ++ l2.
Proof.
  unfold drop, len; intros H. rewrite skipn_app.
  replace (N.to_nat n - length l1)%nat with 0%nat by lia. reflexivity.
Qed.
Lemma take_app_l {A} n (l1 l2 : list A) : n <= len l1 -> take n (l1 ++ l2) = take n l1.
Proof.
  unfold take, len; intros H. rewrite firstn_app.
  replace (N.to_nat n - length l1)%nat with 0%nat by lia. cbn. now rewrite app_nil_r.
Qed.
Lemma take_add {A} a b (l : list A) : take (a + b) l = take a l ++ take b (drop a l).
Proof.
  unfold take, drop. replace (N.to_nat (a + b)) with (N.to_nat a + N.to_nat b)%nat by lia.
  generalize (N.to_nat a) as k, (N.to_nat b) as m. intros k m. revert l.
  induction k as [|k IH]; intros l; [reflexivity|].
  destruct l as [|x l]; cbn [firstn skipn Nat.add app]; [now rewrite firstn_nil|].
  now rewrite IH.
Qed.
Lemma take_take {A} a b (l : list A) : take a (take b l) = take (N.min a b) l.
Proof. unfold take. rewrite firstn_firstn. f_equal. lia. Qed.

Lemma le_enc_length n x : length (le_enc n x) = n.
Proof. revert x; induction n as [|n IH]; intros x; cbn; [|rewrite IH]; reflexivity. Qed.
Lemma le_enc_ok n x : bytes_ok (le_enc n x).
Proof.
  revert x; induction n as [|n IH]; intros x; constructor; [unfold byte_ok; lia|apply IH].
Qed.
Lemma le_dec_enc n x : le_dec (le_enc n x) = x mod 256 ^ N.of_nat n.
Proof.
  revert x; induction n as [|n IH]; intros x.
  - cbn. now rewrite N.mod_1_r.
  - cbn [le_enc le_dec]. rewrite IH.
    replace (N.of_nat (S n)) with (1 + N.of_nat n) by lia.
    rewrite N.pow_add_r, N.pow_1_r.
    rewrite (N.mod_mul_r x 256 (256 ^ N.of_nat n)); [reflexivity|lia|].
    apply N.pow_nonzero; lia.
Qed.
Lemma le_enc_dec l : bytes_ok l -> le_enc (length l) (le_dec l) = l.
Proof.
  intros H; induction H as [|b r Hb Hr IH]; [reflexivity|].
  unfold byte_ok in Hb. cbn [length le_enc le_dec].
  replace ((b + 256 * le_dec r) mod 256) with b by lia.
  replace ((b + 256 * le_dec r) / 256) with (le_dec r) by lia.
  now rewrite IH.
Qed.
Lemma le_dec_bound l : bytes_ok l -> le_dec l < 256 ^ len l.
Proof.
  intros H; induction H as [|b r Hb Hr IH]; [cbn; lia|].
  unfold byte_ok in Hb. rewrite len_cons, N.pow_add_r, N.pow_1_r. cbn [le_dec]. lia.
Qed.
