(** C54: persistent object ids. *)
From Verif Require Import Base Wire FS FSPath Persist PersistProofs AList FSLogic FSSpec FSReach FSEv FSDemo FSIds P_FS.

(** Storing and loading: for every table (whatever the order of iteration) whose path names
    are ASCII, absolute and distinct, the very same table and last used id come back. *)
Theorem C54_reload_partial : forall largest t,
  (forall p u, In (p, u) t -> absolute p /\ Forall (fun c => 0 < c < 128) p /\ u < 2^128) -> NoDup (map fst t) -> largest < 2^128 -> len t < 2^32 ->
  load (store_bytes largest t) = Ret (largest, t).
Proof.
  intros largest t H Hn Hl Ht. apply reload; try assumption; apply Forall_forall; intros [p u] He; destruct (H p u He) as (A & B & C); [split; assumption|exact B].
Qed.
(** In the life of a device, over an orderly restart, the object at a path gets the id it
    had: first the table at shutdown, then the id addItemToMaps gives. *)
Theorem C54_kept_partial : forall d fates keys d' i s j p u, life false d -> nth_error (d_stors d) i = Some s ->
  (forall q v, In (q, v) (st_table s) -> Forall (fun c => 0 < c < 128) q) -> fates (st_file s) = Written ->
  NoDup keys -> dev_step false (Restart fates keys) d = Ret (Some d') -> nth_error keys j = Some (st_file s) ->
  pget p (st_table s) = Some u -> exists d'', add_path j p d' = Some (u, d'').
Proof.
  intros d fates keys d' i s j p u L Es Ha Hf Hk E Ej Hp. pose proof (life_ok d L) as (C & S & F). pose proof (life_files false d L) as Hn.
  assert (Is : In s (d_stors d)) by (eapply nth_error_In; exact Es).
  cbn [dev_step] in E. unfold start in E. destruct (load_all (store_all fates (d_stors d) (d_files d)) keys) as [ss| |] eqn:El; try discriminate. cbn [obind] in E. apply Ret_inj in E. injection E as <-.
  destruct (load_all_nth _ _ _ _ _ El Ej) as (lt & E1 & E2). rewrite (store_all_own fates (d_stors d) (d_files d) s Hn Is), Hf in E1. cbn [store] in E1.
  rewrite Forall_forall in S. destruct (S s Is) as ((O1 & O2 & O3 & O4 & O5) & _).
  rewrite reload in E1; [|apply Forall_forall; intros e He; rewrite Forall_forall in O3; destruct (O3 e He) as [X Y]; split; [exact X|lia]|apply Forall_forall; intros [q v] He; apply (Ha q v He)|exact O5|exact O1|lia].
  apply Ret_inj in E1. subst lt. cbn [fst snd] in E2. unfold add_path. cbn [d_stors]. rewrite E2. cbn [st_table]. rewrite Hp. eexists. reflexivity.
Qed.
(** A new id differs from every id in the tables of the running storages and from every id
    an object has carried in this run; no start of the service fails. *)
Theorem C54_fresh_partial : forall d i p u d' s, life false d -> devop_ok (Add i p) d -> nth_error (d_stors d) i = Some s -> pget p (st_table s) = None ->
  add_path i p d = Some (u, d') ->
  forall s', In s' (d_stors d) -> ~ In u (map snd (st_table s')) /\ ~ In u (st_given s').
Proof.
  intros d i p u d' s L (_ & Hc & _) Es Hp E s' Hs. pose proof (life_ok d L) as (C & S & F). unfold add_path in E. rewrite Es, Hp in E. cbv zeta in E. rewrite (incr_eq _ Hc) in E.
  assert (u = d_counter d + 1) by congruence. subst u. clear E. rewrite Forall_forall in S. destruct (S s' Hs) as ((O1 & O2 & O3 & O4 & O5) & O6). split; intros X.
  - apply in_map_iff in X as (e & E1 & E2). rewrite Forall_forall in O3. destruct (O3 e E2). lia.
  - rewrite Forall_forall in O4. apply O4 in X. lia.
Qed.
Theorem C54_starts : forall d o, life false d -> devop_ok o d -> exists r, dev_step false o d = Ret r.
Proof.
  intros d o L O. destruct (life_ok d L) as (C & S & F). destruct o as [i p|i p q u|i used|fates keys|keys]; cbn [dev_step]; try (eexists; reflexivity).
  - destruct (start_ok (store_all fates (d_stors d) (d_files d)) keys) as (d1 & E1 & _); [apply store_all_ok; [|exact F]; eapply Forall_impl; [|exact S]; intros x [A _]; exact A|]. rewrite E1. eexists. reflexivity.
  - destruct (start_ok (d_files d) keys F) as (d1 & E1 & _). rewrite E1. eexists. reflexivity.
Qed.

(** Enumeration gives every object the id loaded for its path, and (if the loaded ids and
    those handed out are distinct) no two objects the same id. *)
Theorem C54_enumerated : forall C fuel loaded w s, supply_ok C -> enumerate C fuel (fs_init loaded w) = Ret (tt, s) -> s_root s <> None ->
  (forall h v u, look s h = Some v -> loaded (v_path v) = Some u -> v_puoid v = u) /\
  ((forall t x, loaded x <> Some (c_puoid C t)) -> (forall t t', c_puoid C t = c_puoid C t' -> t = t') ->
   (forall x y u, loaded x = Some u -> loaded y = Some u -> x = y) ->
   forall h h' v v', look s h = Some v -> look s h' = Some v' -> v_puoid v = v_puoid v' -> h = h').
Proof.
  intros C fuel loaded w s SO E NR. pose proof (J_enumerated C loaded fuel w s E) as (A & B & Bi & D & G & F).
  assert (CO : consistent C s) by (apply C42_tables_agree_partial; [exact SO|exact (reach_start C fuel loaded w s E NR)]).
  assert (P : forall h v, look s h = Some v -> s_puoids s (v_path v) = Some (v_puoid v)).
  { intros h v. unfold look. destruct (aget h (s_handles s)) as [[p|]|] eqn:Eh; try discriminate. destruct (s_heap s p) as [i|] eqn:Ep; [|discriminate]. intros X. injection X as <-. exact (G h p i Eh Ep). }
  split.
  - intros h v u Hv Hl. apply P in Hv. apply A in Hl. congruence.
  - intros N1 N2 O h h' v v' Hv Hv' Heq. pose proof (P h v Hv) as P1. pose proof (P h' v' Hv') as P2. rewrite <- Heq in P2. pose proof (Bi (conj N1 N2) O _ _ _ P1 P2) as X.
    pose proof (co_path C s CO h v Hv) as Q1. pose proof (co_path C s CO h' v' Hv') as Q2. rewrite X in Q1. congruence.
Qed.
Example ex_C54_enumerated : exists s v, enumerate quiet 10 (fs_init (fun p => if peqb p pC then Some 77 else None) demo_disk) = Ret (tt, s) /\ s_root s <> None /\ look s 21 = Some v /\ v_path v = pC /\ v_puoid v = 77.
Proof. eexists. eexists. split; [vm_compute; reflexivity|]. split; [discriminate|]. split; [vm_compute; reflexivity|]. split; reflexivity. Qed.

(** ** What is false *)
Definition a1 : path := [47; 97].            (* /a *)
Definition b1 : path := [47; 98].            (* /b *)
Definition c1 : path := [47; 99].            (* /c *)
Definition e1 : path := [47; 233].           (* /é *)
Definition e2 : path := [47; 233; 97].       (* /éa *)
(** the length written counts UTF-16 units, the bytes are UTF-8: the id is lost *)
Theorem C54_nonascii_refuted : exists t l, load (store_bytes 5 [(e1, 5)]) = Ret (l, t) /\ pget e1 t = None.
Proof. eexists. eexists. split; [vm_compute; reflexivity|reflexivity]. Qed.
(** or another object gets it *)
Theorem C54_wrong_id_refuted : exists t l, load (store_bytes 6 [(e1, 5); (e2, 6)]) = Ret (l, t) /\ pget e1 t = Some 6.
Proof. eexists. eexists. split; [vm_compute; reflexivity|reflexivity]. Qed.
(** where plain char is signed, a last used id of 128 counts as negative *)
Theorem C54_signed_char_refuted : exists d d', start true (fun _ => store_bytes 128 [(a1, 1); (c1, 128)]) [7] = Ret d /\
  add_path 0 b1 d = Some (1, d') /\ exists s, nth_error (d_stors d) 0 = Some s /\ pget a1 (st_table s) = Some 1.
Proof. eexists. eexists. split; [vm_compute; reflexivity|]. split; [vm_compute; reflexivity|]. eexists. split; reflexivity. Qed.
(** a store cut short (the process dies or the disk fills while the file is written): an
    object gets the id of another one *)
Theorem C54_cut_short_refuted : let t := [(c1, 0x101); (a1, 0x103); (b1, 0x301)] in exists n t' l,
  load (take n (store_bytes 0x301 t)) = Ret (l, t') /\ pget b1 t' = Some 0x101 /\ pget c1 t' = Some 0x101.
Proof. exists 71. eexists. eexists. split; [vm_compute; reflexivity|]. split; reflexivity. Qed.
(** an id in the table of a storage that was not mounted is handed out again *)
Definition all_written (_ : N) : fate := Written.
Definition step_or (o : devop) (d : device) : device := match dev_step false o d with Ret (Some d') => d' | _ => d end.
Definition empty_files (_ : N) : bytes := [].
Definition with_card : device := match start false empty_files [1; 2] with Ret d => d | _ => mk_dev [] 0 empty_files end.
Definition used : device := step_or (Add 1 c1) (step_or (Add 0 a1) with_card).
Definition without_card : device := step_or (Add 0 b1) (step_or (Restart all_written [1]) used).
Definition card_back : device := step_or (Restart all_written [1; 2]) without_card.
Lemma two_keys : NoDup [1; 2]. Proof. constructor; [intros [X|[]]; discriminate|]. constructor; [intros []|constructor]. Qed.
Lemma life_used : life false used.
Proof.
  unfold used. apply (life_step false (step_or (Add 0 a1) with_card) (Add 1 c1)); [|split; [split; [reflexivity|eexists; reflexivity]|split; [reflexivity|intros s Hs; vm_compute in Hs; injection Hs as <-; reflexivity]]|vm_compute; reflexivity].
  apply (life_step false with_card (Add 0 a1)); [|split; [split; [reflexivity|eexists; reflexivity]|split; [reflexivity|intros s Hs; vm_compute in Hs; injection Hs as <-; reflexivity]]|vm_compute; reflexivity].
  apply (life_new false [1; 2]); [exact two_keys|vm_compute; reflexivity].
Qed.
Lemma life_card_back : life false card_back.
Proof.
  unfold card_back. apply (life_step false without_card (Restart all_written [1; 2])); [|exact two_keys|vm_compute; reflexivity].
  unfold without_card. apply (life_step false (step_or (Restart all_written [1]) used) (Add 0 b1)); [|split; [split; [reflexivity|eexists; reflexivity]|split; [reflexivity|intros s Hs; vm_compute in Hs; injection Hs as <-; reflexivity]]|vm_compute; reflexivity].
  apply (life_step false used (Restart all_written [1])); [exact life_used|constructor; [intros []|constructor]|vm_compute; reflexivity].
Qed.
Theorem C54_absent_storage_refuted : exists d s s' p q u, life false d /\ nth_error (d_stors d) 0 = Some s /\ nth_error (d_stors d) 1 = Some s' /\
  pget p (st_table s) = Some u /\ pget q (st_table s') = Some u.
Proof. exists card_back. eexists. eexists. exists b1, c1, 2. split; [exact life_card_back|]. split; [vm_compute; reflexivity|]. split; [vm_compute; reflexivity|]. split; vm_compute; reflexivity. Qed.

(** Examples: the premises are met *)
Example ex_C54_fresh : life false used /\ devop_ok (Add 1 b1) used /\ exists u d', add_path 1 b1 used = Some (u, d') /\ u = 3.
Proof.
  split; [exact life_used|]. split; [split; [split; [reflexivity|eexists; reflexivity]|split; [reflexivity|intros s Hs; vm_compute in Hs; injection Hs as <-; reflexivity]]|].
  eexists. eexists. split; [vm_compute; reflexivity|reflexivity].
Qed.
Example ex_C54_kept : exists s d', nth_error (d_stors used) 1 = Some s /\ dev_step false (Restart all_written [2; 1]) used = Ret (Some d') /\ nth_error [2; 1] 0 = Some (st_file s) /\ pget c1 (st_table s) = Some 2.
Proof. eexists. eexists. split; [vm_compute; reflexivity|]. split; [vm_compute; reflexivity|]. split; reflexivity. Qed.
Print Assumptions C54_reload_partial.
Print Assumptions C54_kept_partial.
Print Assumptions C54_fresh_partial.
Print Assumptions C54_starts.
Print Assumptions C54_enumerated.
Print Assumptions C54_nonascii_refuted.
Print Assumptions C54_wrong_id_refuted.
Print Assumptions C54_signed_char_refuted.
Print Assumptions C54_cut_short_refuted.
Print Assumptions C54_absent_storage_refuted.
