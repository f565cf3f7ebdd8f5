(** What a file system notification announces (C81). *)
From Verif Require Import Base AList Wire FS FSPath FSTree FSLogic FSAdd2 FSDel FSSpec FSReach FSEv FSAnn.

Section Note.
Variables (C : conf) (SO : supply_ok C) (r : ptr).
Notation good := (good C r).
Definition ann_info (h : N) : N * list N := (EV_ObjectInfoChanged, [h]).
(** one object announced as changed, the same objects *)
Definition touched (s s' : fs) : Prop := exists h, has s h /\ s_events s' = ann_info h :: s_events s /\ (forall k, has s' k <-> has s k) /\ (s_tick s <= s_tick s')%nat.
Lemma still_shrank s s' : still s s' -> (forall h, filled s' h -> filled s h) -> (forall h p, aget h (s_handles s') = Some (Some p) -> aget h (s_handles s) = Some (Some p)) -> shrank s s'.
Proof.
  intros [] F P. constructor; [|exact P|exact F|exact st_tick]. exists []. split; [exact st_ev|]. split; [constructor|]. split; [intros h []|]. intros h A B. rewrite st_has in B. contradiction.
Qed.
Lemma delete_note f wd n s u s' : good s -> handle_fs_delete C f wd n s = Ret (u, s') -> shrank s s'.
Proof.
  intros [[ch W] R] E. unfold handle_fs_delete in E. inv E ph s1 E1. injection E1 as <- <-. destruct (s_wds s wd) as [h|] eqn:Eh; [|injection E as <- <-; apply shrank_refl].
  destruct (watch_owner C r s ch wd h W Eh) as (q & j & A1 & A2 & A3). inv E v s1 E1. unfold handle_ref in E1. rewrite A1 in E1. injection E1 as <- <-.
  inv E qi s1 E1. apply deref_inv in E1 as [-> _]. inv E k s1 E1. injection E1 as <- <-. destruct (s_paths s _) as [x|]; [|injection E as <- <-; apply shrank_refl].
  inv E c s1 E1. injection E as <- <-. exact (delete_ann C _ _ _ _ _ _ E1).
Qed.
Lemma create_note f wd n s u s' : good s -> handle_fs_create C f wd n s = Ret (u, s') -> grew C s s'.
Proof.
  intros [[ch W] R] E. unfold handle_fs_create in E. inv E ph s1 E1. injection E1 as <- <-.
  destruct (owner_or_root C r s ch wd W) as (q & j & A1 & A2 & A3). inv E v s1 E1. unfold handle_ref in E1. rewrite A1 in E1. injection E1 as <- <-.
  inv E qi s1 E1. apply deref_inv in E1 as [-> Hq]. assert (qi = j) by congruence. subst qi. destruct (negb _); [injection E as <- <-; apply grew_refl|].
  inv E k s1 E1. injection E1 as <- <-. destruct (s_paths s _) as [x|]; [injection E as <- <-; apply grew_refl|]. inv E c s1 E1. injection E as <- <-.
  eapply (add_ann C SO); [|exact E1]. pose proof (wf_under_root _ _ _ _ _ W q j A2) as U. apply under_len in U. rewrite len_join. lia.
Qed.
Lemma modify_note wd n s u s' : handle_fs_modify C wd n s = Ret (u, s') -> still s s' \/ touched s s'.
Proof.
  intros E. unfold handle_fs_modify in E. inv E ph s1 E1. injection E1 as <- <-. inv E v s1 E1. injection E1 as <- <-. destruct (match aget _ (s_handles s) with Some v => v | None => None end) as [q|]; [|injection E as <- <-; left; apply still_refl].
  inv E qi s1 E1. apply deref_inv in E1 as [-> Hq]. destruct (negb _); [injection E as <- <-; left; apply still_refl|]. inv E h s1 E1. injection E1 as <- <-. set (h := match s_paths s _ with Some h => h | None => 0 end) in *.
  inv E wh s1 E1. injection E1 as <- <-. destruct (_ || _); [injection E as <- <-; left; apply still_refl|]. inv E v s1 E1. injection E1 as <- <-. destruct (aget h (s_handles s)) as [[p|]|] eqn:Hh; [|discriminate..].
  inv E i s1 E1. apply deref_inv in E1 as [-> Hi]. inv E u1 s1 E1. assert (S1 : still s s1) by (revert E1; apply q_modify; reflexivity). inv E u2 s2 E2. apply q_populate in E2. pose proof (still_trans _ _ _ S1 E2) as S2.
  inv E j s3 E3. apply deref_inv in E3 as [-> _]. inv E o s3 E3. apply info_inv in E3 as [-> _].
  destruct (match i_info i with Some x => info_differs x o | None => true end); cbn [when] in E; [|injection E as <- <-; left; exact S2]. injection E as <- <-. right. exists h. split; [exists p; exact Hh|]. cbn. destruct S2. rewrite st_ev. split; [reflexivity|]. split; [exact st_has|exact st_tick].
Qed.
Lemma move_note f wd1 n1 wd2 n2 s u s' : handle_fs_move C f wd1 n1 wd2 n2 s = Ret (u, s') -> still s s' \/ touched s s' \/ shrank s s'.
Proof.
  intros E. unfold handle_fs_move in E. inv E fh s1 E1. injection E1 as <- <-. inv E th s1 E1. injection E1 as <- <-. inv E v1 s1 E1. injection E1 as <- <-. inv E v2 s1 E1. injection E1 as <- <-.
  destruct (_ && _); [injection E as <- <-; left; apply still_refl|].
  destruct (match aget (match s_wds s wd1 with Some h => h | None => 0 end) (s_handles s) with Some v => v | None => None end) as [fq|]; [|injection E as <- <-; left; apply still_refl].
  destruct (match aget (match s_wds s wd2 with Some h => h | None => 0 end) (s_handles s) with Some v => v | None => None end) as [tq|]; [|injection E as <- <-; left; apply still_refl].
  inv E fi s1 E1. apply deref_inv in E1 as [-> _]. inv E ti s1 E1. apply deref_inv in E1 as [-> _]. destruct (_ || _); [injection E as <- <-; left; apply still_refl|].
  inv E mh s1 E1. injection E1 as <- <-. set (mh := match s_paths s _ with Some h => h | None => 0 end) in *. destruct (mh =? 0); [injection E as <- <-; left; apply still_refl|].
  inv E mv s1 E1. injection E1 as <- <-. destruct (aget mh (s_handles s)) as [[p|]|] eqn:Hm; [|injection E as <- <-; left; apply still_refl..].
  inv E k s1 E1. injection E1 as <- <-. destruct (s_paths s (join (i_path ti) n2)) as [x|].
  - inv E c s1 E1. injection E as <- <-. right. right. exact (delete_ann C _ _ _ _ _ _ E1).
  - right. left. inv E u1 s1 E1.
    assert (S1 : still s s1).
    { refine ((_ : tr still _) _ _ _ E1). destruct (_ =? _); [|ql (apply q_move)]. ql (first [apply q_children|apply q_watch_rec; intros; first [apply q_watch|apply q_unwatch]]). }
    inv E u2 s2 E2. apply q_modify in E2; [|reflexivity]. inv E u3 s3 E3. apply q_populate in E3. inv E fi2 s4 E4. apply deref_inv in E4 as [-> _]. inv E u4 s4 E4.
    assert (S4 : still s3 s4) by (revert E4; destruct (i_events fi2); [apply q_modify; reflexivity|apply q_ret]). pose proof (still_trans _ _ _ S1 (still_trans _ _ _ E2 (still_trans _ _ _ E3 S4))) as S.
    injection E as <- <-. exists mh. split; [exists p; exact Hm|]. cbn. destruct S. rewrite st_ev. split; [reflexivity|]. split; [exact st_has|exact st_tick].
Qed.
(** the pending half of a rename given up *)
Definition change (s s' : fs) : Prop := still s s' \/ touched s s' \/ shrank s s' \/ grew C s s'.
Lemma cache_still c s s' : still s s' -> still s (set_cache c s'). Proof. intros []. constructor; assumption. Qed.
Lemma cache_change c s s' : change s s' -> change s (set_cache c s').
Proof.
  intros [H|[(h & A1 & A2 & A3 & A4)|[H|H]]].
  - left. apply cache_still. exact H.
  - right. left. exists h. auto.
  - right. right. left. destruct H. constructor; assumption.
  - right. right. right. destruct H. constructor; assumption.
Qed.
Lemma event_note f e s s' : good s -> op_ok C (OEvent f e) s -> inotify_event C f e s = Ret (tt, s') -> exists s1, shrank s s1 /\ change s1 s'.
Proof.
  intros G OK E. unfold inotify_event in E. inv E c s1 E1. injection E1 as <- <-. destruct e as [e|].
  2:{ destruct (s_cache s) as [[[wd ck] n]|]; [|injection E as <-; exists s; split; [apply shrank_refl|left; apply still_refl]].
      inv E u s1 E1. injection E as <-. apply (delete_note _ _ _ _ _ _ G) in E1. exists s1. split; [exact E1|]. apply cache_change. left. apply still_refl. }
  destruct (ev_name e) as [name|] eqn:En; [|injection E as <-; exists s; split; [apply shrank_refl|left; apply still_refl]].
  inv E u s1 E1.
  assert (X : shrank s s1 /\ good s1).
  { destruct (s_cache s) as [[[wd ck] n]|]; [|injection E1 as <- <-; split; [apply shrank_refl|exact G]]. destruct (negb (ck =? ev_cookie e)); cbn [when] in E1; [|injection E1 as <- <-; split; [apply shrank_refl|exact G]].
    inv E1 u1 s2 E2. injection E1 as <- <-. pose proof (handle_fs_delete_ok C r f wd n s G) as X. rewrite E2 in X. apply (delete_note _ _ _ _ _ _ G) in E2.
    split; [destruct E2; constructor; assumption|apply good_cache; exact X]. }
  destruct X as [SH G1]. exists s1.
  destruct (ev_kind e).
  - split; [exact SH|]. right. right. right. exact (create_note _ _ _ _ _ _ G1 E).
  - split; [exact SH|]. right. right. left. exact (delete_note _ _ _ _ _ _ G1 E).
  - inv E c s2 E2. injection E2 as <- <-. inv E u2 s2 E2. split; [exact SH|]. injection E as <-. apply cache_change. destruct (s_cache s1) as [[[wd ck] n]|]; [|injection E2 as <- <-; left; apply still_refl].
    inv E2 u3 s3 E3. injection E2 as <- <-. apply cache_change. right. right. left. exact (delete_note _ _ _ _ _ _ G1 E3).
  - split; [exact SH|]. inv E c s2 E2. injection E2 as <- <-. destruct (s_cache s1) as [[[wd ck] n]|]; [|right; right; right; exact (create_note _ _ _ _ _ _ G1 E)].
    destruct (ck =? ev_cookie e); [|right; right; right; exact (create_note _ _ _ _ _ _ G1 E)].
    inv E u2 s2 E2. injection E as <-. apply cache_change. apply move_note in E2. destruct E2 as [E2|[E2|E2]]; unfold change; auto.
  - split; [exact SH|]. apply modify_note in E. destruct E as [E|E]; unfold change; auto.
Qed.
End Note.
