(** Reading an object through the whole device. *)
From Verif Require Import Base AList Wire FS FSPath FSTree FSLogic FSSpec FSReach FSData FSView FSProps P_FS P_FS3 P_FSProps Device DeviceProofs.
From Verif Require Responder RSpec RExt RRead RSend P_Read.
Import Responder(act, ans, scall, ACall, mk_ans, a_async).

Definition asks_since (n : nat) (l : list (act * ans)) : bool := asks_only (firstn (length l - n) l).
Lemma calls_app a b : RSpec.calls (a ++ b) = RSpec.calls a ++ RSpec.calls b.
Proof. induction a as [|[[]] a IH]; cbn [app RSpec.calls]; rewrite ?IH; reflexivity. Qed.
Lemma asks_app a b : asks_only (a ++ b) = asks_only a && asks_only b.
Proof. unfold asks_only. rewrite calls_app, forallb_app. reflexivity. Qed.
Lemma asks_since_app d base : asks_since (length base) (d ++ base) = asks_only d.
Proof. unfold asks_since. rewrite app_length. replace (length d + length base - length base)%nat with (length d + 0)%nat by lia. rewrite firstn_app_2. cbn [firstn]. rewrite app_nil_r. reflexivity. Qed.
Lemma since_after C fuel n w l : supply_ok C -> reachable C w -> asks_since n l = true -> exists w1, state_after C fuel n w l = Ret w1 /\ unchanged C w w1.
Proof.
  intros SO R A. destruct (length l <=? n)%nat eqn:E.
  - exists w. split; [destruct l; cbn [state_after]; rewrite E; reflexivity|apply unchanged_refl; exact R].
  - apply Nat.leb_gt in E. unfold asks_since in A. rewrite <- (firstn_skipn (length l - n) l). apply (asks_after C fuel SO); [exact R|rewrite skipn_length; lia|exact A].
Qed.
(** [E] answers as the device as long as the storage is only asked, afterwards as [F] *)
Definition guarded (D F : list (act * ans) -> act -> ans) (n : nat) (l : list (act * ans)) (a : act) : ans := if asks_since n l then D l a else F l a.
Lemma guarded_run D F n formats cat pt pd i s s' l : n = length (Responder.r_log s) -> Responder.run (guarded D F n) formats cat pt pd i s = Ret (tt, s') ->
  Responder.r_log s' = l ++ Responder.r_log s -> asks_only l = true -> Responder.run D formats cat pt pd i s = Ret (tt, s').
Proof.
  intros N E L A. apply (RExt.run_same _ D _ _ _ _ _ _ _ E). intros pre a x l1 EQ LE X. unfold guarded in X.
  replace (asks_since n l1) with true in X; [symmetry; exact X|]. symmetry.
  destruct (RExt.run_recorded _ _ _ _ _ _ _ _ E) as (d & L2 & _). rewrite L in L2. apply app_inv_tail in L2. subst d.
  assert (exists d2 d1, l1 = d2 ++ Responder.r_log s /\ l = d1 ++ (a, x) :: d2) as (d2 & d1 & -> & ->).
  { rewrite L in EQ. clear -EQ LE. revert pre EQ. induction l as [|e l IH]; intros pre EQ.
    - cbn [app] in EQ. rewrite EQ in LE. rewrite app_length in LE. cbn [length] in LE. lia.
    - destruct pre as [|e1 pre]; cbn [app] in EQ.
      + injection EQ as -> <-. exists l, []. auto.
      + injection EQ as <- EQ. destruct (IH pre EQ) as (d2 & d1 & A & B). exists d2, (e :: d1). split; [exact A|]. cbn [app]. congruence. }
  rewrite N, asks_since_app. rewrite asks_app in A. apply andb_prop in A as [_ A]. unfold asks_only in *. destruct a; cbn [RSpec.calls forallb] in A; try exact A. apply andb_prop in A as [_ A]. exact A.
Qed.
Lemma step_run env formats cat pt pd i s s' : Responder.step env formats cat pt pd i s = Ret (tt, s') <-> Responder.run env formats cat pt pd [i] s = Ret (tt, s').
Proof.
  cbn [Responder.run]. unfold Responder.bind, Responder.ret. destruct (Responder.step env formats cat pt pd i s) as [[[] s1]| |]; split; intros E; try discriminate; exact E.
Qed.

(** the answers of a storage serving one object *)
Definition stub (o : objinfo) (c : bytes) (l : list (act * ans)) (a : act) : ans :=
  match a with
  | ACall (Responder.SRead _ k off) => mk_ans R_OK [] (take k (drop off c)) o [] None [] true []
  | _ => mk_ans R_OK [] [] o [] None [] true []
  end.
(** the storage holds the object [h] as a file with content [c], and the listed size is the file's *)
Definition holds_file (w : fs) (h : N) (c : bytes) : Prop := exists v o, look w h = Some v /\ content w (v_path v) = Some (File c) /\ v_info v = Some o /\ oi_size o = len c /\ oi_format o <> FMT_Association.

Section R.
Variables (C : conf) (fuel : nat) (rest : list (act * ans) -> act -> ans) (SO : supply_ok C) (WK : works C).
Variables (n : nat) (w : fs) (h : N) (c : bytes) (R : reachable C w) (L63 : len c < 2^63).
Variables (v : view) (o : objinfo) (HL : look w h = Some v) (HC : content w (v_path v) = Some (File c)) (HI : v_info v = Some o) (HS : oi_size o = len c) (HF : oi_format o <> FMT_Association).
Notation E := (guarded (device C fuel rest n w) (stub o c) n).
Lemma E_info l : exists y, E l (ACall (Responder.SGetInfo h)) = mk_ans R_OK [] [] o [] None [] true y.
Proof.
  unfold guarded. destruct (asks_since n l) eqn:A; [|exists []; reflexivity].
  destruct (since_after C fuel n w l SO R A) as (w1 & S & U). destruct U as (R1 & L1 & C1 & _).
  destruct (info_unchanged C SO w1 h v R1 ltac:(rewrite L1; exact HL)) as (o' & w2 & G & I & _). assert (o' = o) by congruence. subst o'.
  eexists. erewrite (device_call C fuel rest n w l (Responder.SGetInfo h) _ w1 _ w2 eq_refl S).
  2:{ unfold owned. replace (ahas h (s_handles w1)) with true by (symmetry; apply (known_look C SO w1 h R1); rewrite L1, HL; discriminate). unfold tell. rewrite G. reflexivity. }
  reflexivity.
Qed.
Lemma E_read l k off : off + k <= len c -> exists i y, E l (ACall (Responder.SRead h k off)) = mk_ans R_OK [] (take k (drop off c)) i [] None [] true y.
Proof.
  intros B. unfold guarded. destruct (asks_since n l) eqn:A; [|exists o, []; reflexivity].
  destruct (since_after C fuel n w l SO R A) as (w1 & S & U). destruct U as (R1 & L1 & C1 & _).
  destruct (read_unchanged C SO w1 h k off R1) as (c0 & bs & w2 & G & _).
  assert (c0 = R_OK). { destruct (C52_reads_exact C w1 h k off c0 bs w2 G) as (_ & _ & _ & K). apply (K WK v c); [rewrite L1; exact HL|rewrite C1; exact HC| | |exact B]; change (2^63) with 9223372036854775808 in L63; lia. }
  subst c0. assert (bs = take k (drop off c)).
  { destruct (reachable_good C w1 SO R1) as (r & [[ch W] _]). destruct (read_data_ok C h k off w1 ch r W) as (c1 & b1 & w3 & G1 & _ & K & _). rewrite G in G1. apply Ret_inj in G1. injection G1 as <- <- <-.
    destruct (K eq_refl) as (p & i & d & P1 & P2 & P3 & P4 & _). rewrite <- L1 in HL. unfold look in HL. rewrite P1, P2 in HL. injection HL as <-. unfold content in C1, HC. rewrite <- C1 in HC. cbn [v_path view_of] in HC. congruence. }
  subst bs. eexists. eexists. erewrite (device_call C fuel rest n w l (Responder.SRead h k off) _ w1 _ w2 eq_refl S).
  2:{ unfold owned. replace (ahas h (s_handles w1)) with true by (symmetry; apply (known_look C SO w1 h R1); rewrite L1, HL; discriminate). unfold tell. rewrite G. reflexivity. }
  reflexivity.
Qed.
Lemma E_serves : RRead.serves E h c.
Proof.
  split.
  - intros l. destruct (E_info l) as (y & ->). reflexivity.
  - intros l. destruct (E_info l) as (y & ->). exact HF.
  - intros l. destruct (E_info l) as (y & ->). exact HS.
  - intros l k off B. destruct (E_read l k off B) as (i & y & ->). reflexivity.
  - intros l k off B. destruct (E_read l k off B) as (i & y & ->). reflexivity.
Qed.
Lemma E_undisturbed : RSpec.undisturbed rest -> RSpec.undisturbed E.
Proof. intros H l a. unfold guarded. destruct (asks_since n l); [apply device_undisturbed; exact H|]. unfold stub. destruct a as [[]| | | | |]; reflexivity. Qed.
Lemma E_transport : RSpec.transport_works rest -> RSpec.transport_works E.
Proof. intros H l a b. unfold guarded. destruct (asks_since n l); [apply device_transport; exact H|reflexivity]. Qed.
Lemma E_ready : RSpec.storage_is_ready rest -> RSpec.storage_is_ready E.
Proof. intros H l. unfold guarded. destruct (asks_since n l); [apply device_ready; exact H|reflexivity]. Qed.
End R.
Lemma inside_asks c l : forallb (RRead.inside c) (RSpec.calls l) = true -> asks_only l = true.
Proof.
  unfold asks_only. induction (RSpec.calls l) as [|x t IH]; intros H; [reflexivity|]. cbn [forallb] in *. apply andb_prop in H as [A B]. rewrite (IH B), andb_true_r. destruct x; try exact A; reflexivity.
Qed.
