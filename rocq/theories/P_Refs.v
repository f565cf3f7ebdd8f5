(** C55: object references. *)
From Verif Require Import Base AList Wire WireSpec WireProofs WireProofs2 FS FSSpec FSDemo Persist PersistProofs Refs RefsProofs.

(** ** Specification *)
(** What an initiator knows of a storage: which objects there are, and the list it last
    set for each.  A list is accepted if the object and all objects listed are there. *)
Record known_refs := mk_known { kn_there : N -> bool; kn_list : N -> list N }.
Definition nothing : known_refs := mk_known (fun _ => false) (fun _ => []).
Definition acceptable (k : known_refs) (h : N) (l : list N) : bool := kn_there k h && forallb (kn_there k) l.
Definition know_step (o : refop) (k : known_refs) : known_refs :=
  match o with
  | Appear h _ => mk_known (fun x => (x =? h) || kn_there k x) (kn_list k)
  | Vanish h => mk_known (fun x => negb (x =? h) && kn_there k x) (kn_list k)
  | SetR h l => if acceptable k h l then mk_known (kn_there k) (fun x => if x =? h then l else kn_list k x) else k
  | GetR _ => k
  end.
Definition know (ops : list refop) : known_refs := fold_left (fun k o => know_step o k) ops nothing.
Definition state_after (ops : list refop) : refstate := fold_left (fun s o => ref_step o s) ops (mk_rs [] []).
(** No handle is given to two objects (C42: within one run of the device). *)
Definition given (ops : list refop) : list N := flat_map (fun o => match o with Appear h _ => [h] | _ => [] end) ops.
Definition handles_fresh (ops : list refop) : Prop := NoDup (given ops).

(** ** History *)
Lemma fold_snoc {A B} (f : B -> A -> A) l x a : fold_left (fun k o => f o k) (l ++ [x]) a = f x (fold_left (fun k o => f o k) l a).
Proof. rewrite fold_left_app. reflexivity. Qed.
Lemma given_snoc ops o : given (ops ++ [o]) = given ops ++ (match o with Appear h _ => [h] | _ => [] end).
Proof. unfold given. rewrite flat_map_app. cbn. rewrite app_nil_r. reflexivity. Qed.
Lemma history ops : handles_fresh ops ->
  (forall h, kn_there (know ops) h = alive (state_after ops) h) /\
  refs_ok (given ops) (state_after ops) /\ want_ok (given ops) (kn_list (know ops)) /\ agree (state_after ops) (kn_list (know ops)).
Proof.
  induction ops as [|o ops IH] using rev_ind; intros F.
  - split; [reflexivity|]. split; [split; [intros h H; discriminate|intros h l H; discriminate]|]. split; [intros h x []|]. intros h H. discriminate.
  - unfold handles_fresh in F. rewrite given_snoc in F.
    assert (F0 : handles_fresh ops) by (unfold handles_fresh; destruct o; cbn [app] in F; try (rewrite app_nil_r in F; exact F); apply NoDup_remove_1 in F; rewrite app_nil_r in F; exact F).
    destruct (IH F0) as (A & B & W & G). unfold know, state_after. rewrite !(fold_snoc know_step), !(fold_snoc ref_step). fold (know ops) (state_after ops).
    assert (Hf : forall h x, o = Appear h x -> ~ In h (given ops)).
    { intros h x -> Hin. apply (NoDup_remove_2 (given ops) [] h F). rewrite app_nil_r. exact Hin. }
    assert (K : kn_list (know_step o (know ops)) = want_step o (state_after ops) (kn_list (know ops))).
    { destruct o as [h x|h|h l|h]; cbn [know_step want_step]; try reflexivity. unfold acceptable. rewrite A.
      replace (forallb (kn_there (know ops)) l) with (forallb (alive (state_after ops)) l) by (clear -A; induction l as [|x l IHl]; [reflexivity|]; cbn [forallb]; rewrite A, IHl; reflexivity).
      destruct (_ && _); reflexivity. }
    assert (GI : forall h, In h (seen_of o (given ops)) -> In h (given (ops ++ [o]))).
    { intros h Hh. rewrite given_snoc. apply in_or_app. destruct o; cbn [seen_of] in Hh; [destruct Hh as [->|Hh]; [right; left; reflexivity|left; exact Hh]| | |]; left; exact Hh. }
    split.
    { intros h. destruct o as [k x|k|k l|k]; cbn [know_step kn_there].
      - rewrite alive_appear, A. reflexivity.
      - rewrite alive_vanish, A. reflexivity.
      - unfold alive. cbn [ref_step]. rewrite set_live. fold (alive (state_after ops) h). destruct (acceptable _ k l); apply A.
      - unfold alive. cbn [ref_step]. rewrite get_live. fold (alive (state_after ops) h). apply A. }
    rewrite K. destruct (step_refs_ok o _ _ Hf B) as [B1 B2]. pose proof (step_want_ok o _ _ _ B W) as W1.
    split; [split; [intros h H; apply GI, B1; exact H|intros h l H; destruct (B2 h l H) as [X Y]; split; [apply GI; exact X|intros y Hy; apply GI; auto]]|].
    split; [intros h y Hy; destruct (W1 h y Hy); split; apply GI; assumption|]. apply (step_agree o _ (given ops)); assumption.
Qed.
(** For every history: the references returned for an object are the objects of the list
    last accepted for it that are still there, in the order set.  An object that is not
    there has none. *)
Theorem C55_history : forall ops h, handles_fresh ops ->
  fst (get_refs h (state_after ops)) =
    if kn_there (know ops) h then (R_OK, filter (kn_there (know ops)) (kn_list (know ops) h)) else (R_InvalidObjectHandle, []).
Proof.
  intros ops h F. destruct (history ops F) as (A & B & W & G). rewrite A. destruct (alive (state_after ops) h) eqn:E.
  - rewrite (get_agree _ _ h G E). rewrite (filter_same (kn_there (know ops)) (alive (state_after ops))) by (intros x _; apply A). reflexivity.
  - unfold get_refs. rewrite E. reflexivity.
Qed.
(** All or none. *)
Theorem C55_all_or_none : forall ops h l, handles_fresh ops ->
  let s := state_after ops in let k := know ops in
  fst (set_refs h l s) = (if kn_there k h then if forallb (kn_there k) l then R_OK else R_Invalid_ObjectReference else R_InvalidObjectHandle) /\
  (fst (set_refs h l s) <> R_OK -> snd (set_refs h l s) = s) /\
  (fst (set_refs h l s) = R_OK -> fst (get_refs h (snd (set_refs h l s))) = (R_OK, l) /\
    forall h', h' <> h -> fst (get_refs h' (snd (set_refs h l s))) = fst (get_refs h' s)).
Proof.
  intros ops h l F s k. destruct (history ops F) as (A & _ & _ & _). fold s k in A.
  assert (FL : forallb (kn_there k) l = forallb (alive s) l) by (induction l as [|x l IHl]; [reflexivity|]; cbn [forallb]; rewrite A, IHl; reflexivity).
  unfold set_refs. rewrite A, FL. destruct (alive s h) eqn:Eh; cbn [negb]; [|split; [reflexivity|]; split; [reflexivity|]; discriminate].
  destruct (forallb (alive s) l) eqn:El; cbn [negb]; [|split; [reflexivity|]; split; [reflexivity|]; discriminate].
  split; [reflexivity|]. split; [intros X; destruct X; reflexivity|]. intros _. cbn [snd fst]. unfold get_refs. set (s1 := mk_rs _ _). change (alive s1) with (alive s). rewrite Eh. cbn [negb]. split.
  - unfold s1. cbn [rs_refs]. rewrite aget_aset, N.eqb_refl. cbn [fst]. f_equal. clear -El. induction l as [|x l IH]; [reflexivity|]. cbn [forallb filter] in *. apply andb_prop in El as [E1 E2]. rewrite E1, IH by exact E2. reflexivity.
  - intros h' N1. unfold s1. cbn [rs_refs]. rewrite aget_aset. destruct (h' =? h) eqn:E; [apply N.eqb_eq in E; contradiction|]. destruct (alive s h'); [|reflexivity]. cbn [negb]. destruct (aget h' (rs_refs s)); reflexivity.
Qed.

(** ** Restart *)
(** Objects of the next run, by persistent id ([byid] is what enumeration fills in); ids
    are as wide as the file has room for. *)
Definition ids_fit (s : refstate) : Prop := forall h o, aget h (rs_live s) = Some o -> ob_puoid o < 2^128.
Definition ids_distinct (s : refstate) : Prop :=
  forall h h' o o', aget h (rs_live s) = Some o -> aget h' (rs_live s) = Some o' -> ob_puoid o = ob_puoid o' -> h = h'.
Definition tables_small (s : refstate) : Prop := len (rs_refs s) < 2^32 /\ Forall (fun e => len (snd e) < 2^32) (rs_refs s).
(** the persistent ids of the objects in a list that are there *)
Definition ids_in (s : refstate) (l : list N) : list N :=
  flat_map (fun h => match aget h (rs_live s) with Some o => [ob_puoid o] | None => [] end) l.
Definition objects_of (byid : N -> option N) (ids : list N) : list N :=
  flat_map (fun u => match byid u with Some h => [h] | None => [] end) ids.
Lemma ids_in_eq s l : ids_in s l = ids (rs_live s) l.
Proof.
  unfold ids_in, ids, kept. induction l as [|h l IH]; [reflexivity|]. cbn [flat_map filter]. unfold ahas, id_of in *. destruct (aget h (rs_live s)) eqn:E; [cbn [map]; rewrite E, IH; reflexivity|exact IH].
Qed.
(** keys of the table are distinct in every history *)
Lemma keys_nodup ops : NoDup (akeys (rs_refs (state_after ops))).
Proof.
  unfold state_after. induction ops as [|o ops IH] using rev_ind; [constructor|]. rewrite (fold_snoc ref_step). destruct o as [h x|h|h l|h]; cbn [ref_step rs_refs]; try exact IH.
  - unfold set_refs. destruct (alive _ h); cbn [negb snd]; [|exact IH]. destruct (forallb _ l); cbn [negb snd rs_refs]; [|exact IH]. apply NoDup_aset. exact IH.
  - unfold get_refs. destruct (alive _ h); cbn [negb snd].
    + destruct (aget h _); cbn [snd rs_refs]; [apply NoDup_aset|]; exact IH.
    + cbn [rs_refs]. unfold remove_invalid. apply NoDup_adel. unfold akeys in *. rewrite map_map. cbn [fst]. exact IH.
Qed.
(** For every history ending in a proper shutdown: an object that is not a playlist, and
    that the next run finds under its persistent id, then has the references it had:
    those that the next run finds under their persistent ids, in the same order. *)
Theorem C55_restart_partial : forall ops byid h o h',
  handles_fresh ops -> let s := state_after ops in
  ids_fit s -> ids_distinct s -> tables_small s ->
  aget h (rs_live s) = Some o -> ob_format o <> FMT_Playlist -> byid (ob_puoid o) = Some h' ->
  (forall u, byid u = Some h' -> u = ob_puoid o) ->
  let m := load_refs byid (store_refs s) in
  (match aget h' m with Some l => l | None => [] end) = objects_of byid (ids_in s (filter (kn_there (know ops)) (kn_list (know ops) h))).
Proof.
  intros ops byid h o h' F s Fit Dist [T1 T2] Hh Ho Hb Hu m. destruct (history ops F) as (A & B & W & G). fold s in A, B, G.
  assert (Eh : alive s h = true) by (unfold alive, ahas; rewrite Hh; reflexivity).
  assert (I1 : forall l, ids_in s (filter (alive s) l) = ids_in s l).
  { induction l as [|x l IH]; [reflexivity|]. cbn [filter]. unfold alive at 1, ahas. destruct (aget x (rs_live s)) eqn:E; unfold ids_in; cbn [flat_map]; rewrite E; [f_equal; exact IH|exact IH]. }
  rewrite (filter_same (kn_there (know ops)) (alive s)) by (intros x _; apply A). rewrite <- (G h Eh), I1. unfold m.
  replace s with (mk_rs (rs_live s) (rs_refs s)) at 1 by (destruct s; reflexivity).
  rewrite (load_store (rs_live s) byid) by (assumption || exact Fit).
  assert (W1 : written (rs_live s) h = true) by (unfold written; rewrite Hh; apply negb_true_iff, N.eqb_neq; exact Ho).
  assert (I2 : id_of (rs_live s) h = ob_puoid o) by (unfold id_of; rewrite Hh; reflexivity).
  assert (SAME : forall k, written (rs_live s) k = true -> byid (id_of (rs_live s) k) = Some h' -> k = h).
  { intros k Hk Hk2. unfold written, id_of in *. destruct (aget k (rs_live s)) as [ok|] eqn:Ek; [|discriminate]. apply (Dist k h ok o Ek Hh). apply Hu. exact Hk2. }
  unfold refs_at. destruct (aget h (rs_refs s)) as [l|] eqn:El.
  - rewrite (set_all (rs_live s) byid (put_out (rs_live s) (rs_refs s)) h l h').
    + rewrite ids_in_eq. reflexivity.
    + unfold put_out. clear -ops. pose proof (keys_nodup ops) as K. fold s in K. unfold akeys in K. induction (rs_refs s) as [|e r IH]; [constructor|]. cbn [map filter] in *. inversion K as [|x y K1 K2]; subst. destruct (written _ (fst e)); [|apply IH; exact K2].
      cbn [map]. constructor; [|apply IH; exact K2]. intros X. apply K1. apply in_map_iff in X as (z & Z1 & Z2). apply filter_In in Z2 as [Z2 _]. apply in_map_iff. exists z. auto.
    + unfold put_out. apply filter_In. split; [apply aget_In; exact El|exact W1].
    + rewrite I2. exact Hb.
    + intros k Hk. apply SAME. apply in_map_iff in Hk as (e & <- & He). unfold put_out in He. apply filter_In in He. apply He.
  - rewrite set_all_other; [reflexivity|]. intros e He X. unfold put_out in He. apply filter_In in He as [He1 He2]. apply SAME in X; [|exact He2]. subst h.
    apply aget_None in El. apply El. unfold akeys. apply in_map. exact He1.
Qed.
Example ex_C55 :
  let ops := [Appear 1 (mk_obj 0x3000 101); Appear 2 (mk_obj 0x3000 102); Appear 3 (mk_obj 0x3000 103); SetR 1 [3; 2; 3]; SetR 2 [9]; Vanish 2; GetR 2; SetR 3 [1]] in
  handles_fresh ops /\ ids_fit (state_after ops) /\ ids_distinct (state_after ops) /\ tables_small (state_after ops) /\
  fst (get_refs 1 (state_after ops)) = (R_OK, [3; 3]) /\
  load_refs (fun u => if u =? 101 then Some 11 else if u =? 103 then Some 13 else None) (store_refs (state_after ops)) = [(11, [13; 13]); (13, [11])].
Proof.
  cbv zeta. split; [vm_compute; repeat constructor; cbn; intuition discriminate|].
  split; [intros h o H; apply aget_In in H; vm_compute in H; destruct H as [H|[H|[]]]; injection H as <- <-; reflexivity|].
  split; [intros h h' o o' H H'; apply aget_In in H, H'; vm_compute in H, H'; destruct H as [H|[H|[]]]; injection H as <- <-; destruct H' as [H'|[H'|[]]]; injection H' as <- <-; intros X; try discriminate; reflexivity|].
  split; [split; [reflexivity|repeat constructor]|]. split; vm_compute; reflexivity.
Qed.
(** ** What does not hold *)
(** References of playlists are not written (2496-2502). *)
Theorem C55_playlist_refuted : exists ops byid, handles_fresh ops /\ byid 101 = Some 11 /\ byid 102 = Some 12 /\
  fst (get_refs 1 (state_after ops)) = (R_OK, [2]) /\ load_refs byid (store_refs (state_after ops)) = [].
Proof.
  exists [Appear 1 (mk_obj FMT_Playlist 101); Appear 2 (mk_obj 0x3000 102); SetR 1 [2]], (fun u => if u =? 101 then Some 11 else if u =? 102 then Some 12 else None).
  split; [vm_compute; repeat constructor; cbn; intuition discriminate|]. repeat split.
Qed.
(** Folders are not found by persistent id after enumeration: only files are entered in the
    map (addToStorage 1070).  So references of and to folders do not survive a restart. *)
Theorem C55_folder_refuted :
  let s := demo_start quiet in let byid := s_byid s in
  (exists vw, look s 7 = Some vw /\ v_folder vw /\ byid (v_puoid vw) = None) /\
  (exists vw, look s 12 = Some vw /\ ~ v_folder vw /\ byid (v_puoid vw) = Some 12) /\
  forall live h o rest, aget h live = Some o -> byid (ob_puoid o) = None ->
    objects_of byid (ids_in (mk_rs live rest) [h]) = [].
Proof.
  cbv zeta. split; [eexists; split; [vm_compute; reflexivity|split; vm_compute; reflexivity]|].
  split; [eexists; split; [vm_compute; reflexivity|split; [vm_compute; discriminate|vm_compute; reflexivity]]|].
  intros live h o rest Hh Hb. unfold ids_in, objects_of. cbn [rs_live flat_map app]. rewrite Hh. cbn [flat_map app]. rewrite Hb. reflexivity.
Qed.
(** All storages write the same file (constructor, 416-427: the name does not depend on the
    storage): the references of the storage that is shut down first are lost. *)
Definition one_file (first second : refstate) : bytes := let f := store_refs first in let f' := store_refs second in f'.
Theorem C55_two_storages_refuted : exists ops1 ops2 byid, handles_fresh ops1 /\ handles_fresh ops2 /\
  fst (get_refs 1 (state_after ops1)) = (R_OK, [2]) /\ byid 101 = Some 11 /\ byid 102 = Some 12 /\
  aget 11 (load_refs byid (one_file (state_after ops1) (state_after ops2))) = None /\
  aget 11 (load_refs byid (store_refs (state_after ops1))) = Some [12].
Proof.
  exists [Appear 1 (mk_obj 0x3000 101); Appear 2 (mk_obj 0x3000 102); SetR 1 [2]], [Appear 5 (mk_obj 0x3000 105)], (fun u => if u =? 101 then Some 11 else if u =? 102 then Some 12 else None).
  split; [vm_compute; repeat constructor; cbn; intuition discriminate|]. split; [vm_compute; repeat constructor; cbn; intuition discriminate|]. repeat split.
Qed.

Print Assumptions C55_history.
Print Assumptions C55_all_or_none.
Print Assumptions C55_restart_partial.
Print Assumptions C55_playlist_refuted.
Print Assumptions C55_folder_refuted.
Print Assumptions C55_two_storages_refuted.
