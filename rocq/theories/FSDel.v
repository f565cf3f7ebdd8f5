(** Deletion: deleteItemHelper / removeFromStorage. *)
From Verif Require Import Base AList Wire FS FSPath FSTree FSLogic FSAdd FSAdd2.

Lemma node_at_del p q w : node_at p (del_node q w) = if peqb p q then None else node_at p w.
Proof.
  unfold del_node. induction w as [|[k n] w IH]; cbn [filter node_at fst]; [destruct (peqb p q); reflexivity|].
  destruct (peqb q k) eqn:E; cbn [negb].
  - apply peqb_eq in E as <-. rewrite IH. destruct (peqb p q) eqn:E2; reflexivity.
  - cbn [node_at]. rewrite IH. destruct (peqb p k) eqn:E2; [|reflexivity]. apply peqb_eq in E2 as ->. destruct (peqb k q) eqn:E3; [|reflexivity].
    apply peqb_eq in E3 as ->. rewrite peqb_refl in E. discriminate.
Qed.

(** what a deletion below the path [P] may do *)
Record shr (P : path) (s s' : fs) : Prop := {
  D_heap : forall x i', s_heap s' x = Some i' -> exists i, s_heap s x = Some i /\ lk i i';
  D_gone : forall x i, s_heap s x = Some i -> s_heap s' x = None -> under P (i_path i) = true;
  D_fresh : s_fresh s' = s_fresh s;
  D_root : s_root s' = s_root s;
  D_wd : forall n h, s_wds s' n = Some h -> s_wds s n = Some h;
  D_disk : forall x, node_at x (s_nodes s') = node_at x (s_nodes s) \/ (under P x = true /\ node_at x (s_nodes s') = None);
  D_puoids : s_puoids s' = s_puoids s;
  D_tick : (s_tick s <= s_tick s')%nat }.
Lemma shr_refl P s : shr P s s.
Proof. constructor; auto. - intros x i Hx. exists i. auto using lk_refl. - intros; congruence. Qed.
Lemma shr_trans P a b c : shr P a b -> shr P b c -> shr P a c.
Proof.
  intros X Y. constructor.
  - intros x i' Hx. destruct (D_heap _ _ _ Y x i' Hx) as (i1 & A & B). destruct (D_heap _ _ _ X x i1 A) as (i & D & E). exists i. split; [exact D|]. eapply lk_trans; eassumption.
  - intros x i Hx Hn. destruct (s_heap b x) as [j|] eqn:E; [|eapply (D_gone _ _ _ X); eassumption].
    pose proof (D_gone _ _ _ Y x j E Hn) as U. destruct (D_heap _ _ _ X x j E) as (i0 & A & B). rewrite Hx in A. injection A as <-. apply lk_fields in B as (_ & B & _). congruence.
  - rewrite (D_fresh _ _ _ Y). apply (D_fresh _ _ _ X).
  - rewrite (D_root _ _ _ Y). apply (D_root _ _ _ X).
  - intros n h Hn. apply (D_wd _ _ _ X). apply (D_wd _ _ _ Y). exact Hn.
  - intros x. destruct (D_disk _ _ _ Y x) as [A|A]; [|auto]. destruct (D_disk _ _ _ X x) as [B|[B1 B2]]; [left; congruence|right; split; [exact B1|congruence]].
  - rewrite (D_puoids _ _ _ Y). apply (D_puoids _ _ _ X).
  - pose proof (D_tick _ _ _ X). pose proof (D_tick _ _ _ Y). lia.
Qed.
Lemma shr_weaken P Q s s' : under P Q = true -> shr Q s s' -> shr P s s'.
Proof.
  intros U X. destruct X. constructor; auto.
  - intros x i Hx Hn. eapply under_trans; [exact U|]. eapply D_gone0; eassumption.
  - intros x. destruct (D_disk0 x) as [A|[A B]]; [auto|]. right. split; [|exact B]. eapply under_trans; eassumption.
Qed.

Section Del.
Variables (C : conf) (SO : supply_ok C) (r : ptr).

(** something below a live folder: then the folder has a child *)
Lemma child_below s ch p i : WF C s ch r None -> s_heap s p = Some i -> forall x j, s_heap s x = Some j -> under (i_path i) (i_path j) = true -> x <> p ->
  ch p <> [].
Proof.
  intros W Hp x j. remember (len (i_path j)) as n eqn:En. revert x j En. induction n as [n IH] using (well_founded_induction N.lt_wf_0).
  intros x j En Hx U Nx.
  assert (Nr : x <> r).
  { intros ->. destruct (W_root _ _ _ _ _ W) as (ri & A & _ & B & _). rewrite Hx in A. injection A as <-.
    pose proof (wf_under_root _ _ _ _ _ W p i Hp) as V. apply Nx. eapply (wf_path_uniq _ _ _ _ _ W); [exact Hx|exact Hp|discriminate|discriminate|].
    apply under_len_eq; [exact U|]. rewrite B. apply under_len. exact V. }
  destruct (wf_parent _ _ _ _ _ W x j Hx Nr) as (y & k & o & A1 & A2 & A3 & A4 & A5 & A6 & A7).
  rewrite A6 in U. apply under_join_inv in U as [U|U]; [|destruct (N.eq_dec y p) as [->|Ny]|apply A5].
  - exfalso. apply Nx. eapply (wf_path_uniq _ _ _ _ _ W); [exact Hx|exact Hp|discriminate|discriminate|congruence].
  - intros E. rewrite E in A3. contradiction.
  - eapply (IH (len (i_path k))); [|reflexivity|exact A2|exact U|exact Ny]. rewrite En. eapply wf_len; eassumption.
Qed.
Lemma first_none s ch p i pend : WF C s ch r pend -> s_heap s p = Some i -> (i_first i = None <-> ch p = []).
Proof.
  intros W Hp. pose proof (T_seg _ _ _ (W_T _ _ _ _ _ W) p i Hp) as S. split; intros E.
  - rewrite E in S. apply seg_nil in S. exact S.
  - rewrite E in S. exact S.
Qed.

(** taking an item out of the tables *)
Lemma unmap_ok s ch p i : WF C s ch r None -> s_heap s p = Some i -> p <> r ->
  WF C (set_paths (pupd (s_paths s) (i_path i) None) (set_handles (adel (i_handle i) (s_handles s)) s)) ch r (Some p).
Proof.
  intros W Hp Nr. constructor; cbn [s_heap set_paths set_handles s_fresh s_handles s_paths s_wds s_root s_tick].
  - apply (W_T _ _ _ _ _ W).
  - apply (W_bd _ _ _ _ _ W).
  - apply NoDup_adel. apply (W_nd _ _ _ _ _ W).
  - intros h v. rewrite aget_adel by apply (W_nd _ _ _ _ _ W). destruct (h =? i_handle i) eqn:E; [discriminate|]. intros Hv.
    destruct (W_h _ _ _ _ _ W h v Hv) as (x & j & A1 & A2 & A3 & _). exists x, j. split; [exact A1|]. split; [exact A2|]. split; [exact A3|]. intros [= ->]. rewrite Hp in A2. injection A2 as <-. lia.
  - intros x j Hx Nx. assert (Nxp : x <> p) by congruence. destruct (W_live _ _ _ _ _ W x j Hx ltac:(discriminate)) as [A B]. split.
    + rewrite aget_adel by apply (W_nd _ _ _ _ _ W). destruct (i_handle j =? i_handle i) eqn:E; [|exact A]. exfalso. apply Nxp. eapply (wf_uniq _ _ _ _ _ W); [exact Hx|exact Hp|discriminate|discriminate|lia].
    + rewrite pupd_neq; [exact B|]. intros E. apply Nxp. eapply (wf_path_uniq _ _ _ _ _ W); [exact Hx|exact Hp|discriminate|discriminate|exact E].
  - intros x h. unfold pupd. destruct (peqb x (i_path i)) eqn:E; [discriminate|]. intros Hx. destruct (W_path _ _ _ _ _ W x h Hx) as (y & j & A1 & A2 & A3 & _).
    exists y, j. split; [exact A1|]. split; [exact A2|]. split; [exact A3|]. intros [= ->]. rewrite Hp in A1. injection A1 as <-. rewrite A3, peqb_refl in E. discriminate.
  - apply (W_info _ _ _ _ _ W).
  - apply (W_root _ _ _ _ _ W).
  - apply (W_sup _ _ _ _ _ W).
  - apply (W_wd _ _ _ _ _ W).
  - apply (W_rt _ _ _ _ _ W).
Qed.
Lemma remove_ok s ch p i send : WF C s ch r None -> s_heap s p = Some i -> p <> r -> i_first i = None ->
  exists s' ch', remove_from_storage (i_handle i) send s = Ret (tt, s') /\ WF C s' ch' r None /\ shr (i_path i) s s' /\ s_heap s' p = None /\
    s_nodes s' = s_nodes s /\ s_events s' = (if send then (EV_ObjectRemoved, [i_handle i]) :: s_events s else s_events s) /\
    (forall x j, s_heap s x = Some j -> x <> p -> exists j', s_heap s' x = Some j' /\ lk j j').
Proof.
  intros W Hp Nr Hf. destruct (W_live _ _ _ _ _ W p i Hp ltac:(discriminate)) as [Hh Hpt].
  assert (SOLE : sole s p i) by (eapply sole_live; [exact W|reflexivity|exact Hp]).
  (* the watch *)
  assert (EW : exists s1, (match i_wd i with Some _ => remove_watch p | None => ret tt end) s = Ret (tt, s1) /\ WF C s1 ch r None /\ wsame s s1 /\ s_heap s1 = s_heap s /\
      (forall n h, s_wds s1 n = Some h -> s_wds s n = Some h) /\ ~ has_entry s1 (i_handle i)).
  { destruct (i_wd i) as [w|] eqn:Ew.
    - destruct (remove_watch_ok C s ch r None p i W Hp) as (s1 & A1 & A2 & A3 & A4 & A5 & A6). exists s1. auto 10.
    - exists s. split; [reflexivity|]. split; [exact W|]. split; [apply wsame_refl|]. split; [reflexivity|]. split; [auto|].
      intros (n & Hn). destruct (W_wd _ _ _ _ _ W n _ Hn) as (x & j & B1 & B2 & B3 & B4). assert (x = p) by (eapply SOLE; eassumption). subst x.
      rewrite Hp in B1. injection B1 as <-. congruence. }
  destruct EW as (s1 & EW & W1 & WS & EH1 & Hwd1 & NE).
  destruct (wsame_fields _ _ WS) as (K1 & K2 & K3 & K4 & K5 & K6 & K7 & K8 & K9 & K10 & K11 & K12).
  set (s2 := set_paths (pupd (s_paths s1) (i_path i) None) (set_handles (adel (i_handle i) (s_handles s1)) s1)).
  assert (Hp1 : s_heap s1 p = Some i) by (rewrite EH1; exact Hp).
  pose proof (unmap_ok s1 ch p i W1 Hp1 Nr) as W2. fold s2 in W2.
  assert (Hch : ch p = []) by (apply (first_none s ch p i None W Hp); exact Hf).
  destruct (detach_ok C s2 ch r p i W2 Hp1 Nr Hch) as (s3 & ch3 & EX3 & W3 & Hm3 & (H3 & E3 & L3)).
  { intros m Hm. apply NE. exists m. exact Hm. }
  assert (EX : exists s', remove_from_storage (i_handle i) send s = Ret (tt, s') /\ s' = set_events (if send then (EV_ObjectRemoved, [i_handle i]) :: s_events s else s_events s) s3).
  { eexists. split; [|reflexivity]. unfold remove_from_storage. unfold bind at 1. unfold has_handle, get at 1. unfold ahas. rewrite Hh.
    unfold bind at 1. unfold bind at 1. unfold handle_value, get at 1. rewrite Hh. unfold bind at 1. unfold deref at 1. rewrite Hp.
    unfold bind at 1. rewrite EW. unfold bind at 1. unfold upd at 1. unfold bind at 1. unfold upd at 1.
    change (set_paths (pupd (s_paths (set_handles (adel (i_handle i) (s_handles s1)) s1)) (i_path i) None) (set_handles (adel (i_handle i) (s_handles s1)) s1)) with s2.
    unfold bind in EX3 |- *. rewrite EX3.
    assert (Eev : s_events s3 = s_events s) by (rewrite E3; exact K8). rewrite <- Eev.
    destruct send; unfold when, emit, upd, ret; [reflexivity|]. destruct s3; reflexivity. }
  destruct EX as (s' & EX & Es'). exists s', ch3. split; [exact EX|].
  assert (EHs : s_heap s' = H3) by (rewrite Es', E3; reflexivity).
  assert (Lx : forall x, x <> p -> match s_heap s x, H3 x with Some i, Some i' => lk i i' | None, None => True | _, _ => False end).
  { intros x Nx. specialize (L3 x Nx). cbn [s2 s_heap set_paths set_handles] in L3. rewrite EH1 in L3. exact L3. }
  assert (Hp3 : H3 p = None) by (rewrite <- EHs, Es'; cbn; exact Hm3).
  split; [rewrite Es'; eapply wf_same; [exact W3|..]; reflexivity|]. split; [|split; [rewrite EHs; exact Hp3|split; [rewrite Es', E3; exact K5|split; [rewrite Es'; reflexivity|]]]].
  - constructor.
    + intros x i' Hx. rewrite EHs in Hx. assert (Nx : x <> p) by congruence. specialize (Lx x Nx). rewrite Hx in Lx. destruct (s_heap s x); [eauto|contradiction].
    + intros x j Hx Hn. rewrite EHs in Hn. destruct (N.eq_dec x p) as [->|Nx]; [rewrite Hp in Hx; injection Hx as <-; apply under_refl|].
      specialize (Lx x Nx). rewrite Hx, Hn in Lx. contradiction.
    + rewrite Es', E3. exact K1.
    + rewrite Es', E3. exact K2.
    + intros n h. rewrite Es', E3. exact (Hwd1 n h).
    + intros x. left. rewrite Es', E3. cbn. rewrite K5. reflexivity.
    + rewrite Es', E3. exact K6.
    + rewrite Es', E3. exact K12.
  - intros x j Hx Nx. rewrite EHs. specialize (Lx x Nx). rewrite Hx in Lx. destruct (H3 x); [eauto|contradiction].
Qed.
(** deleting the files behind an object *)
Lemma phys_ok s ch p i phys : WF C s ch r None -> s_heap s p = Some i -> p <> r ->
  exists ok s1, (if phys : bool then o <- info_of i ;;
                  if (oi_format o =? FMT_Association) && negb (i_handle i =? 0) then _ <- deref_opt (i_parent i) ;; sys_rmdir C (i_path i) else sys_remove C (i_path i)
                else ret true) s = Ret (ok, s1) /\ nsame s s1 /\
    (forall x, node_at x (s_nodes s1) = node_at x (s_nodes s) \/ (x = i_path i /\ node_at x (s_nodes s1) = None)) /\
    (ok = true -> phys = true -> node_at (i_path i) (s_nodes s1) = None) /\ (ok = false -> s_nodes s1 = s_nodes s) /\ (phys = false -> ok = true /\ s_nodes s1 = s_nodes s).
Proof.
  intros W Hp Nr. destruct phys; [|exists true, s; split; [reflexivity|]; split; [apply nsame_refl|]; repeat split; auto; discriminate].
  destruct (W_info _ _ _ _ _ W p i Hp) as (o & O1 & _). destruct (wf_parent _ _ _ _ _ W p i Hp Nr) as (q & j & o' & A1 & A2 & _).
  unfold bind at 1. unfold info_of. rewrite O1. unfold ret at 1. rewrite A1. unfold deref_opt, deref.
  assert (DN : forall x, node_at x (del_node (i_path i) (s_nodes s)) = node_at x (s_nodes s) \/ (x = i_path i /\ node_at x (del_node (i_path i) (s_nodes s)) = None)).
  { intros x. rewrite node_at_del. destruct (peqb x (i_path i)) eqn:E; [right; split; [apply peqb_eq; exact E|reflexivity]|left; reflexivity]. }
  assert (DS : node_at (i_path i) (del_node (i_path i) (s_nodes s)) = None) by (rewrite node_at_del, peqb_refl; reflexivity).
  assert (NT : forall w, nsame s (set_nodes w (set_tick (S (s_tick s)) s))) by (intros w; eapply nsame_trans; [apply nsame_tick|apply nsame_set]).
  destruct ((oi_format o =? FMT_Association) && negb (i_handle i =? 0)).
  - unfold bind at 1. rewrite A2. unfold sys_rmdir. unfold bind at 1. unfold fails, bind at 1, tick at 1. unfold ret at 1. unfold bind at 1. unfold get at 1. cbn [s_nodes set_tick].
    destruct (c_fail C (s_tick s) || negb (is_dir (i_path i) (s_nodes s)) || negb match entries_of (i_path i) (s_nodes s) with [] => true | _ :: _ => false end).
    + exists false. eexists. split; [reflexivity|]. split; [apply nsame_tick|]. cbn. repeat split; auto; discriminate.
    + exists true. eexists. split; [reflexivity|]. split; [apply NT|]. cbn. repeat split; auto; discriminate.
  - unfold sys_remove. unfold bind at 1. unfold fails, bind at 1, tick at 1. unfold ret at 1. unfold bind at 1. unfold get at 1. cbn [s_nodes set_tick].
    destruct (node_at (i_path i) (s_nodes s)) as [[d|]|]; [destruct (c_fail C (s_tick s))| |].
    1,3,4: exists false; eexists; (split; [reflexivity|]); (split; [apply nsame_tick|]); cbn; repeat split; auto; discriminate.
    exists true. eexists. split; [reflexivity|]. split; [apply NT|]. cbn. repeat split; auto; discriminate.
Qed.

(** what deleteItemHelper(h) establishes, for an object p with handle h that is not the root *)
Record deleted (s : fs) (p : ptr) (i : item) (phys : bool) (code : N) (s' : fs) : Prop := {
  L_shr : shr (i_path i) s s';
  L_gone : s_heap s' p = None -> code = R_OK /\ forall x j, s_heap s x = Some j -> under (i_path i) (i_path j) = true -> s_heap s' x = None;
  L_ok : code = R_OK -> forall x j, s_heap s x = Some j -> under (i_path i) (i_path j) = true -> x <> p -> s_heap s' x = None;
  L_leaf : code = R_OK -> i_first i = None -> s_heap s' p = None;
  L_disk : phys = true -> forall x j, s_heap s x = Some j -> s_heap s' x = None -> node_at (i_path j) (s_nodes s') = None }.

Theorem delete_helper_ok : forall fuel h phys send s ch, WF C s ch r None -> s_root s = Some r ->
  match delete_helper C fuel h phys send s with
  | Ret (code, s') => exists ch', WF C s' ch' r None /\
      match aget h (s_handles s) with
      | Some (Some p) => if p =? r then s' = s /\ code = R_ObjectWriteProtected else exists i, s_heap s p = Some i /\ i_handle i = h /\ deleted s p i phys code s'
      | _ => s' = s /\ code = R_InvalidObjectHandle
      end
  | UB => False | Abort => True end.
Proof.
  induction fuel as [|fuel IH]; intros h phys send s ch W Hr; [exact I|]. cbn [delete_helper].
  unfold bind at 1. unfold has_handle, get at 1. unfold ahas. destruct (aget h (s_handles s)) as [v|] eqn:Eh; cbn [negb].
  2:{ exists ch. split; [exact W|]. auto. }
  destruct (W_h _ _ _ _ _ W h v Eh) as (p & i & -> & Hp & Hih & _).
  unfold bind at 1. unfold handle_ref. rewrite Eh. unfold bind at 1. unfold get at 1. rewrite Hr. cbn [opt_eqb].
  destruct (p =? r) eqn:Epr; [exists ch; split; [exact W|]; auto|]. assert (Nr : p <> r) by lia.
  unfold bind at 1. unfold deref at 1. rewrite Hp.
  destruct (i_first i) as [c0|] eqn:Ef.
  - (* children first *)
    unfold bind at 1.
    assert (LOOP : forall k s1 ch1, WF C s1 ch1 r None -> s_root s1 = Some r -> shr (i_path i) s s1 -> (exists i1, s_heap s1 p = Some i1) ->
       (phys = true -> forall x j, s_heap s x = Some j -> s_heap s1 x = None -> node_at (i_path j) (s_nodes s1) = None) ->
       match (fix loop (k : nat) : M bool :=
            i <- deref p ;;
            match i_first i with
            | None => ret false
            | Some c =>
              match k with
              | O => give_up
              | S k' =>
                ci <- deref c ;;
                r <- delete_helper C fuel (i_handle ci) phys send ;;
                if negb (isok r) then ret true else loop k'
              end
            end) k s1 with
       | Ret (b, s2) => exists ch2, WF C s2 ch2 r None /\ s_root s2 = Some r /\ shr (i_path i) s s2 /\ (exists i2, s_heap s2 p = Some i2 /\ (b = false -> i_first i2 = None)) /\
           (phys = true -> forall x j, s_heap s x = Some j -> s_heap s2 x = None -> node_at (i_path j) (s_nodes s2) = None)
       | UB => False | Abort => True end).
    { induction k as [|k IHk]; intros s1 ch1 W1 R1 X1 (i1 & Hi1) Hdk; unfold bind at 1; unfold deref at 1; rewrite Hi1.
      - destruct (i_first i1) eqn:Ef1; [exact I|]. exists ch1. split; [exact W1|]. split; [exact R1|]. split; [exact X1|]. split; [exists i1; auto|exact Hdk].
      - destruct (i_first i1) as [c|] eqn:Ef1; [|exists ch1; split; [exact W1|]; split; [exact R1|]; split; [exact X1|]; split; [exists i1; auto|exact Hdk]].
        pose proof (T_seg _ _ _ (W_T _ _ _ _ _ W1) p i1 Hi1) as SG. rewrite Ef1 in SG. destruct (seg_some _ _ _ SG) as (rest & Ech).
        destruct (wf_child _ _ _ _ _ W1 p i1 c Hi1) as (ci & Hc & Hcp & Ncr); [rewrite Ech; left; reflexivity|].
        unfold bind at 1. unfold deref at 1. rewrite Hc. unfold bind at 1.
        specialize (IH (i_handle ci) phys send s1 ch1 W1 R1).
        destruct (delete_helper C fuel (i_handle ci) phys send s1) as [[rc s2]| |]; try exact IH.
        destruct IH as (ch2 & W2 & IH). destruct (W_live _ _ _ _ _ W1 c ci Hc ltac:(discriminate)) as [Hch _]. rewrite Hch in IH.
        replace (c =? r) with false in IH by (symmetry; apply N.eqb_neq; exact Ncr). destruct IH as (ci' & Hc' & _ & DL). rewrite Hc in Hc'. injection Hc' as <-.
        assert (Hpath1 : i_path i1 = i_path i).
        { destruct (D_heap _ _ _ X1 p i1 Hi1) as (i0 & A & B). rewrite Hp in A. injection A as <-. apply lk_fields in B as (_ & B & _). exact B. }
        destruct (W_info _ _ _ _ _ W1 c ci Hc) as (o & O1 & O2). destruct (O2 p i1 Hcp Hi1) as (O3 & O4 & O5).
        assert (Ucp : under (i_path i) (i_path ci) = true) by (rewrite O4, Hpath1; apply under_join, under_refl).
        assert (X2 : shr (i_path i) s s2) by (eapply shr_trans; [exact X1|]; eapply shr_weaken; [exact Ucp|]; apply (L_shr _ _ _ _ _ _ DL)).
        assert (Hi2 : exists i2, s_heap s2 p = Some i2).
        { destruct (s_heap s2 p) as [i2|] eqn:E; [eauto|]. pose proof (D_gone _ _ _ (L_shr _ _ _ _ _ _ DL) p i1 Hi1 E) as U. apply under_len in U. rewrite O4, len_join in U. lia. }
        assert (R2 : s_root s2 = Some r) by (rewrite (D_root _ _ _ (L_shr _ _ _ _ _ _ DL)); exact R1).
        assert (Hdk2 : phys = true -> forall x j, s_heap s x = Some j -> s_heap s2 x = None -> node_at (i_path j) (s_nodes s2) = None).
        { intros Eph x j Hx Hn. destruct (s_heap s1 x) as [j1|] eqn:E.
          - destruct (D_heap _ _ _ X1 x j1 E) as (j0 & A & B). rewrite Hx in A. injection A as <-. apply lk_fields in B as (_ & B & _). rewrite <- B. eapply (L_disk _ _ _ _ _ _ DL); eassumption.
          - pose proof (Hdk Eph x j Hx E) as Z. destruct (D_disk _ _ _ (L_shr _ _ _ _ _ _ DL) (i_path j)) as [A|[_ A]]; congruence. }
        destruct (isok rc); cbn [negb]; [apply (IHk s2 ch2 W2 R2 X2 Hi2 Hdk2)|].
        destruct Hi2 as (i2 & Hi2). exists ch2. split; [exact W2|]. split; [exact R2|]. split; [exact X2|]. split; [exists i2; split; [exact Hi2|discriminate]|exact Hdk2]. }
    specialize (LOOP fuel s ch W Hr (shr_refl _ _) ltac:(eauto) ltac:(intros; congruence)).
    match goal with |- match match ?X with _ => _ end with _ => _ end => destruct X as [[b s2]| |] end; try exact LOOP.
    destruct LOOP as (ch2 & W2 & R2 & X2 & (i2 & Hi2 & Hb) & Hdk).
    destruct (D_heap _ _ _ X2 p i2 Hi2) as (i0 & A & Llk). rewrite Hp in A. injection A as <-. apply lk_fields in Llk as (L1 & L2 & _).
    destruct b.
    + exists ch2. split; [exact W2|]. exists i. split; [first [exact Hp|reflexivity]|]. split; [exact Hih|]. constructor.
      * exact X2.
      * congruence.
      * discriminate.
      * discriminate.
      * exact Hdk.
    + specialize (Hb eq_refl). unfold bind at 1. specialize (IH h true false s2 ch2 W2 R2).
      destruct (delete_helper C fuel h true false s2) as [[rc s3]| |]; try exact IH. destruct IH as (ch3 & W3 & IH).
      destruct (W_live _ _ _ _ _ W2 p i2 Hi2 ltac:(discriminate)) as [Hh2 _]. rewrite L1, Hih in Hh2. rewrite Hh2, Epr in IH.
      destruct IH as (i2' & Hi2' & _ & DL). rewrite Hi2 in Hi2'. injection Hi2' as <-.
      exists ch3. split; [exact W3|]. exists i. split; [first [exact Hp|reflexivity]|]. split; [exact Hih|].
      assert (ALLGONE : forall x j, s_heap s x = Some j -> under (i_path i) (i_path j) = true -> x <> p -> s_heap s3 x = None).
      { intros x j Hx U Nx. destruct (s_heap s3 x) as [j3|] eqn:E; [|reflexivity]. exfalso.
        destruct (D_heap _ _ _ (L_shr _ _ _ _ _ _ DL) x j3 E) as (j2 & B1 & _). destruct (D_heap _ _ _ X2 x j2 B1) as (j1 & B2 & B3). rewrite Hx in B2. injection B2 as <-.
        apply lk_fields in B3 as (_ & B3 & _). apply (child_below s2 ch2 p i2 W2 Hi2 x j2 B1); [rewrite L2, B3; exact U|exact Nx|].
        apply (first_none s2 ch2 p i2 None W2 Hi2). exact Hb. }
      constructor.
      * eapply shr_trans; [exact X2|]. rewrite <- L2. apply (L_shr _ _ _ _ _ _ DL).
      * intros E. split; [reflexivity|]. intros x j Hx U. destruct (N.eq_dec x p) as [->|Nx]; [exact E|eapply ALLGONE; eassumption].
      * intros _. exact ALLGONE.
      * congruence.
      * intros Eph x j Hx Hn. destruct (s_heap s2 x) as [j2|] eqn:E.
        -- destruct (D_heap _ _ _ X2 x j2 E) as (j0 & A & B). rewrite Hx in A. injection A as <-. apply lk_fields in B as (_ & B & _). rewrite <- B. eapply (L_disk _ _ _ _ _ _ DL); [reflexivity|exact E|exact Hn].
        -- pose proof (Hdk Eph x j Hx E) as Z. destruct (D_disk _ _ _ (L_shr _ _ _ _ _ _ DL) (i_path j)) as [A|[_ A]]; congruence.
  - (* a leaf *)
    destruct (phys_ok s ch p i phys W Hp Nr) as (ok & s1 & EP & NS & DN & DOK & DNO & DNP). unfold bind at 1. rewrite EP.
    destruct (nsame_fields _ _ NS) as (G1 & G2 & G3 & G4 & G5 & G6 & G8 & _ & _ & _ & _ & _ & G7).
    assert (X1 : shr (i_path i) s s1).
    { constructor; rewrite ?G1, ?G2, ?G3, ?G6, ?G8; auto.
      - intros x j Hx. exists j. auto using lk_refl.
      - intros; congruence.
      - intros x. destruct (DN x) as [A|[-> A]]; [auto|]. right. split; [apply under_refl|exact A]. }
    destruct ok; cbn [negb].
    + assert (W1 : WF C s1 ch r None) by (eapply nsame_wf; eassumption). assert (Hp1 : s_heap s1 p = Some i) by (rewrite G1; exact Hp).
      destruct (remove_ok s1 ch p i send W1 Hp1 Nr Ef) as (s2 & ch2 & E2 & W2 & X2 & Hn2 & N2 & _ & Oth). unfold bind at 1. rewrite <- Hih. rewrite E2. unfold ret.
      exists ch2. split; [exact W2|]. exists i. split; [first [exact Hp|reflexivity]|]. split; [reflexivity|].
      assert (ONLY : forall x j, s_heap s x = Some j -> under (i_path i) (i_path j) = true -> x = p).
      { intros x j Hx U. destruct (N.eq_dec x p) as [|Nx]; [assumption|]. exfalso. apply (child_below s ch p i W Hp x j Hx U Nx). apply (first_none s ch p i None W Hp). exact Ef. }
      constructor.
      * eapply shr_trans; eassumption.
      * intros _. split; [reflexivity|]. intros x j Hx U. rewrite (ONLY x j Hx U). exact Hn2.
      * intros _ x j Hx U Nx. exfalso. apply Nx. eapply ONLY; eassumption.
      * intros _ _. exact Hn2.
      * intros Eph x j Hx Hn. destruct (N.eq_dec x p) as [->|Nx].
        -- rewrite Hp in Hx. injection Hx as <-. rewrite N2. apply DOK; [reflexivity|exact Eph].
        -- rewrite <- G1 in Hx. destruct (Oth x j Hx Nx) as (j' & A & _). congruence.
    + exists ch. split; [eapply nsame_wf; eassumption|]. exists i. split; [first [exact Hp|reflexivity]|]. split; [exact Hih|]. constructor; try discriminate.
      * exact X1.
      * rewrite G1. congruence.
      * intros _ x j Hx. rewrite G1. congruence.
Qed.
End Del.
