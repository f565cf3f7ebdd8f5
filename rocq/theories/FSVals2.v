(** What notifications do to the object info of the objects that exist: a change is announced. *)
From Verif Require Import Base AList Wire FS FSPath FSTree FSLogic FSSpec FSReach FSEv FSAnn FSVals.

Definition same (p : ptr) (x y : option objinfo) : Prop := x = None \/ y = x.
Definition loose (tgt : ptr) (p : ptr) (x y : option objinfo) : Prop := p = tgt \/ same p x y.
Lemma same_refl p x : same p x x. Proof. right. reflexivity. Qed.
Lemma same_trans p x y z : same p x y -> same p y z -> same p x z.
Proof. intros [->| ->] H; [left; reflexivity|exact H]. Qed.
Lemma same_none p y : same p None y. Proof. left. reflexivity. Qed.
Lemma loose_refl t p x : loose t p x x. Proof. right. apply same_refl. Qed.
Lemma loose_trans t p x y z : loose t p x y -> loose t p y z -> loose t p x z.
Proof. intros [->|H] [K|K]; [left; reflexivity..|left; exact K|right; eapply same_trans; eassumption]. Qed.
Lemma loose_none t p y : loose t p None y. Proof. right. apply same_none. Qed.
#[export] Hint Resolve same_refl same_none loose_refl loose_none : core.

Section V.
Variables (C : conf) (SO : supply_ok C) (r : ptr) (b : N) (t0 : nat).
Notation good := (good C r).
Notation Rs := (R C b t0 same).
Notation Rl t := (R C b t0 (loose t)).
Notation newer := (newer C b t0).
(** as [since]; a changed info has been announced *)
Definition told (l : list (N * list N)) (s s' : fs) : Prop := forall p i, p < b -> s_heap s p = Some i -> s_heap s' p = None \/ exists j, s_heap s' p = Some j /\ i_handle j = i_handle i /\ i_puoid j = i_puoid i /\
  (same p (i_info i) (i_info j) \/ In (EV_ObjectInfoChanged, [i_handle i]) l).
Definition stays (s s' : fs) : Prop := forall p, p < b -> s_heap s p = None -> s_heap s' p = None.
Definition Rn (s s' : fs) : Prop := newer s -> newer s' /\ stays s s' /\ exists l, s_events s' = l ++ s_events s /\ told l s s'.
Lemma Rn_of s s' : Rs s s' -> Rn s s'.
Proof.
  intros H NW. destruct (H NW) as (A & B & l & E). split; [exact A|]. split; [intros p L Hp; specialize (B p L); rewrite Hp in B; exact B|]. exists l. split; [exact E|]. intros p i L Hp. specialize (B p L). rewrite Hp in B. destruct B as [B|(j & B1 & B2 & B3 & B4)]; [left; exact B|right]. exists j. auto.
Qed.
Lemma Rn_refl s : Rn s s.
Proof. apply Rn_of, R_refl. apply same_refl. Qed.
Lemma Rn_trans x y z : Rn x y -> Rn y z -> Rn x z.
Proof.
  intros H1 H2 N0. destruct (H1 N0) as (N1 & X1 & l1 & E1 & S1). destruct (H2 N1) as (N2 & X2 & l2 & E2 & S2). split; [exact N2|]. split; [intros p L Hp; auto|]. exists (l2 ++ l1). split; [rewrite E2, E1, app_assoc; reflexivity|].
  intros p i L Hp. destruct (S1 p i L Hp) as [Z|(j & J1 & J2 & J3 & J4)]; [left; auto|]. destruct (S2 p j L J1) as [Z|(k & K1 & K2 & K3 & K4)]; [left; exact Z|]. right. exists k. split; [exact K1|]. split; [congruence|]. split; [congruence|].
  destruct J4 as [J4|J4]; [|right; apply in_or_app; right; exact J4]. destruct K4 as [K4|K4]; [left; eapply same_trans; eassumption|right; apply in_or_app; left; congruence].
Qed.
(** a loose object whose change is announced by the last event *)
Lemma Rn_loose t s s' h : (forall i, s_heap s t = Some i -> i_handle i = h) -> Rl t s s' -> Rn s (set_events ((EV_ObjectInfoChanged, [h]) :: s_events s') s').
Proof.
  intros HH H NW. destruct (H NW) as (A & B & l & E). split; [exact A|]. split; [intros p L Hp; specialize (B p L); rewrite Hp in B; exact B|]. exists ((EV_ObjectInfoChanged, [h]) :: l). split; [cbn; rewrite E; reflexivity|].
  intros p i L Hp. specialize (B p L). rewrite Hp in B. destruct B as [B|(j & B1 & B2 & B3 & B4)]; [left; exact B|right]. exists j. split; [exact B1|]. split; [exact B2|]. split; [exact B3|]. destruct B4 as [->|B4]; [right; left; rewrite (HH i Hp); reflexivity|left; exact B4].
Qed.
Lemma cache_Rn c s s' : Rn s s' -> Rn s (set_cache c s'). Proof. intros H. exact H. Qed.

Lemma move_told f wd1 n1 wd2 n2 s u s' : good s -> handle_fs_move C f wd1 n1 wd2 n2 s = Ret (u, s') -> Rn s s'.
Proof.
  intros [[ch W] RT] E. unfold handle_fs_move in E. inv E fh s1 E1. injection E1 as <- <-. inv E th s1 E1. injection E1 as <- <-. inv E v1 s1 E1. injection E1 as <- <-. inv E v2 s1 E1. injection E1 as <- <-.
  destruct (_ && _); [injection E as <- <-; apply Rn_refl|].
  destruct (match aget (match s_wds s wd1 with Some h => h | None => 0 end) (s_handles s) with Some v => v | None => None end) as [fq|]; [|injection E as <- <-; apply Rn_refl].
  destruct (match aget (match s_wds s wd2 with Some h => h | None => 0 end) (s_handles s) with Some v => v | None => None end) as [tq|]; [|injection E as <- <-; apply Rn_refl].
  inv E fi s1 E1. apply deref_inv in E1 as [-> _]. inv E ti s1 E1. apply deref_inv in E1 as [-> _]. destruct (_ || _); [injection E as <- <-; apply Rn_refl|].
  inv E mh s1 E1. injection E1 as <- <-. set (mh := match s_paths s _ with Some h => h | None => 0 end) in *. destruct (mh =? 0); [injection E as <- <-; apply Rn_refl|].
  inv E mv s1 E1. injection E1 as <- <-. destruct (aget mh (s_handles s)) as [[p|]|] eqn:Hm; [|injection E as <- <-; apply Rn_refl..].
  inv E k s1 E1. injection E1 as <- <-. destruct (s_paths s (join (i_path ti) n2)) as [x|].
  - inv E c s1 E1. injection E as <- <-. apply Rn_of. refine (k_delete C b t0 same same_refl same_trans same_none _ _ _ _ _ _ _ E1).
  - inv E u1 s1 E1.
    assert (HH : forall i, s_heap s p = Some i -> i_handle i = mh) by (intros i Hi; destruct (W_h _ _ _ _ _ W mh _ Hm) as (p' & i' & A1 & A2 & A3 & _); injection A1 as <-; congruence).
    assert (S1 : Rl p s s1).
    { destruct (_ =? _) in E1.
      - refine (k_inplace C b t0 (loose p) (loose_refl p) (loose_trans p) (loose_none p) p f _ _ _ _ _ _ _ _ E1). intros; left; reflexivity.
      - inv E1 c s2 E2. injection E1 as <- <-. eapply (k_move C b t0 (loose p) (loose_refl p) (loose_trans p) (loose_none p) p); [intros; left; reflexivity| |exact E2]. intros q Hq. congruence. }
    inv E u2 s2 E2. apply (k_forget C b t0 (loose p) (loose_refl p) (loose_trans p) (loose_none p)) in E2; [|intros; left; reflexivity].
    inv E u3 s3 E3. apply (k_populate C b t0 (loose p) (loose_refl p) (loose_trans p) (loose_none p)) in E3. inv E fi2 s4 E4. apply deref_inv in E4 as [-> _]. inv E u4 s4 E4.
    assert (S4 : Rl p s3 s4). { destruct (i_events fi2); [|injection E4 as _ <-; apply R_refl, loose_refl]. apply (k_noticed C b t0 (loose p) (loose_refl p) (loose_trans p) (loose_none p)) in E4. exact E4. }
    injection E as _ <-. apply (Rn_loose p s s4 mh HH). eapply R_trans; [apply loose_trans|exact S1|]. eapply R_trans; [apply loose_trans|exact E2|]. eapply R_trans; [apply loose_trans|exact E3|exact S4].
Qed.
Lemma modify_told wd n s u s' : good s -> handle_fs_modify C wd n s = Ret (u, s') -> Rn s s'.
Proof.
  intros [[ch W] RT] E. unfold handle_fs_modify in E. inv E ph s1 E1. injection E1 as <- <-. inv E v s1 E1. injection E1 as <- <-. destruct (match aget _ (s_handles s) with Some v => v | None => None end) as [q|]; [|injection E as <- <-; apply Rn_refl].
  inv E qi s1 E1. apply deref_inv in E1 as [-> Hq]. destruct (negb _); [injection E as <- <-; apply Rn_refl|]. inv E h s1 E1. injection E1 as <- <-. set (h := match s_paths s _ with Some h => h | None => 0 end) in *.
  inv E wh s1 E1. injection E1 as <- <-. destruct (_ || _); [injection E as <- <-; apply Rn_refl|]. inv E v s1 E1. injection E1 as <- <-. destruct (aget h (s_handles s)) as [[p|]|] eqn:Hh; [|discriminate..].
  assert (HH : forall i, s_heap s p = Some i -> i_handle i = h) by (intros i Hi; destruct (W_h _ _ _ _ _ W h _ Hh) as (p' & i' & A1 & A2 & A3 & _); injection A1 as <-; congruence).
  inv E i s1 E1. apply deref_inv in E1 as [-> Hi]. inv E u1 s1 E1. apply (k_forget C b t0 (loose p) (loose_refl p) (loose_trans p) (loose_none p)) in E1; [|intros; left; reflexivity].
  inv E u2 s2 E2. apply (k_populate C b t0 (loose p) (loose_refl p) (loose_trans p) (loose_none p)) in E2. pose proof (R_trans C b t0 (loose p) (loose_trans p) _ _ _ E1 E2) as S2. clear E1 E2.
  inv E j s3 E3. apply deref_inv in E3 as [-> Hj]. inv E o s3 E3. apply info_inv in E3 as [-> Ho].
  destruct (i_info i) as [x|] eqn:Ei; [destruct (info_differs x o) eqn:D|]; cbn [when] in E; injection E as _ <-; [apply (Rn_loose p s s2 h HH S2)| |apply (Rn_loose p s s2 h HH S2)].
  apply info_differs_same in D. subst x. apply Rn_of. intros NW. destruct (S2 NW) as (A & B & EV). split; [exact A|]. split; [|exact EV]. intros q0 L. specialize (B q0 L). destruct (s_heap s q0) as [k|] eqn:Hk; [|exact B].
  destruct B as [B|(j' & B1 & B2 & B3 & B4)]; [left; exact B|right]. exists j'. split; [exact B1|]. split; [exact B2|]. split; [exact B3|]. destruct B4 as [->|B4]; [|exact B4]. right. congruence.
Qed.
Lemma drop_told f wd n s u s' : handle_fs_delete C f wd n s = Ret (u, s') -> Rn s s'.
Proof. intros E. apply Rn_of. exact (k_fs_delete C b t0 same same_refl same_trans same_none _ _ _ _ _ _ E). Qed.
Lemma new_told f wd n s u s' : handle_fs_create C f wd n s = Ret (u, s') -> Rn s s'.
Proof. intros E. apply Rn_of. exact (k_fs_create C b t0 same same_refl same_trans same_none _ _ _ _ _ _ E). Qed.
Theorem event_told f e s u s' : good s -> inotify_event C f e s = Ret (u, s') -> Rn s s'.
Proof.
  intros G E. unfold inotify_event in E. inv E c s1 E1. injection E1 as <- <-. destruct e as [e|].
  2:{ destruct (s_cache s) as [[[wd ck] n]|]; [|injection E as _ <-; apply Rn_refl]. inv E u1 s1 E1. injection E as _ <-. apply cache_Rn. exact (drop_told _ _ _ _ _ _ E1). }
  destruct (ev_name e) as [name|]; [|injection E as _ <-; apply Rn_refl]. inv E u1 s1 E1.
  assert (X : Rn s s1 /\ good s1).
  { destruct (s_cache s) as [[[wd ck] n]|]; [|injection E1 as _ <-; split; [apply Rn_refl|exact G]]. destruct (negb _); cbn [when] in E1; [|injection E1 as _ <-; split; [apply Rn_refl|exact G]].
    inv E1 u2 s2 E2. injection E1 as _ <-. split; [apply cache_Rn; exact (drop_told _ _ _ _ _ _ E2)|]. pose proof (handle_fs_delete_ok C r f wd n s G) as X. rewrite E2 in X. apply good_cache. exact X. }
  destruct X as [X G1]. apply (Rn_trans _ _ _ X). clear E1 X G. destruct (ev_kind e).
  - exact (new_told _ _ _ _ _ _ E).
  - exact (drop_told _ _ _ _ _ _ E).
  - inv E c s2 E2. injection E2 as <- <-. inv E u2 s2 E2. injection E as _ <-. apply cache_Rn. destruct (s_cache s1) as [[[wd ck] n]|]; [|injection E2 as _ <-; apply Rn_refl]. inv E2 u3 s3 E3. injection E2 as _ <-. apply cache_Rn. exact (drop_told _ _ _ _ _ _ E3).
  - inv E c s2 E2. injection E2 as <- <-. destruct (s_cache s1) as [[[wd ck] n]|]; [|exact (new_told _ _ _ _ _ _ E)]. destruct (ck =? ev_cookie e); [|exact (new_told _ _ _ _ _ _ E)].
    inv E u3 s3 E3. injection E as _ <-. apply cache_Rn. exact (move_told _ _ _ _ _ _ _ _ G1 E3).
  - exact (modify_told _ _ _ _ _ G1 E).
Qed.
End V.
