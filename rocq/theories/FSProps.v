(** Object properties of the file system storage (fsstorageplugin.cpp:2605-2860), and the
    storage as a plugin of the factory. *)
From Verif Require Import Base AList Wire FS FSPath FSTree FSLogic FSData FSData2 FSCopy FSSpec FSReach FSView FSList FSDel FSEv.

Definition R_Not_Supported := 0xA80A.
Section FP.
Variable C : conf.
(** the thumbnail data the thumbnailer has for a path at a time; empty: none (2709-2755) *)
Variable thumb : nat -> path -> bytes.

(** 2614-2759, the switch: what a property is, from the object info [o] and the item's
    persistent id; None: MTP_RESP_ObjectProp_Not_Supported *)
Definition prop_case (p : N) (o : objinfo) (puoid : N) (data : bytes) : option variant :=
  if p =? 0xDC06 then Some (VInt 0)
  else if p =? 0xDC05 then Some (VInt (oi_assoc_type o))
  else if p =? 0xDC0B then Some (VInt (oi_parent o))
  else if p =? 0xDC04 then Some (VInt (oi_size o))
  else if p =? 0xDC01 then Some (VInt (oi_storage o))
  else if p =? 0xDC02 then Some (VInt (oi_format o))
  else if p =? 0xDC03 then Some (VInt (oi_protection o))
  else if p =? 0xDC0C then Some (VVec DT_AINT16 [])
  else if p =? 0xDC09 then Some (VStr (oi_modified o))
  else if p =? 0xDC08 then Some (VStr (oi_capture o))
  else if p =? 0xDC4E then Some (VStr (oi_capture o))
  else if p =? 0xDC07 then Some (VStr (oi_name o))
  else if p =? 0xDC81 then Some (VInt 0x3808)
  else if p =? 0xDC82 then Some (VInt 49152)
  else if p =? 0xDC83 then Some (VInt 100)
  else if p =? 0xDC84 then Some (VInt 100)
  else if p =? 0xDE9B then Some (VInt 0x574D5633)
  else if (p =? 0xDC50) || (p =? 0xDC0D) then Some (VInt 0)
  else if p =? 0xDC41 then Some (VInt128 puoid)
  else if p =? 0xDC4F then Some (VInt 0)
  else if p =? 0xDC86 then Some (VVec DT_AUINT8 data)
  else None.
(** 2605-2766 *)
Definition prop_from_storage (h p : N) : M (N * variant) :=
  r <- get_object_info C h ;;
  if negb (isok (fst r)) then ret (fst r, VNull) else
  match snd r with
  | None => crash
  | Some o =>
    v <- handle_value h ;;
    i <- deref_opt v ;;
    t <- (if p =? 0xDC86 then tick else ret O) ;;
    match prop_case p o (i_puoid i) (thumb t (i_path i)) with
    | Some x => ret (R_OK, x)
    | None => ret (R_Not_Supported, VNull)
    end
  end.
(** 2768-2788 *)
Fixpoint props_loop (h : N) (ps : list N) : M (N * list variant) :=
  match ps with
  | [] => ret (R_OK, [])
  | p :: r =>
    x <- prop_from_storage h p ;;
    if negb (isok (fst x)) && negb (fst x =? R_Not_Supported) then ret (fst x, []) else
    y <- props_loop h r ;;
    ret (fst y, snd x :: snd y)
  end.
Definition get_props (h : N) (ps : list N) : M (N * list variant) :=
  v <- handle_value h ;;
  match v with
  | None => ret (R_GeneralError, [])
  | Some q => i <- deref q ;; if peqb (i_path i) [] then ret (R_GeneralError, []) else props_loop h ps
  end.
(** 2790-2812 *)
Fixpoint values_loop (h : N) (ps : list N) : M (list variant) :=
  match ps with
  | [] => ret []
  | p :: r => x <- prop_from_storage h p ;; y <- values_loop h r ;; ret (snd x :: y)
  end.
Fixpoint children_loop (fuel : nat) (itr : option ptr) (ps : list N) : M (list (N * list variant)) :=
  match itr with
  | None => ret []
  | Some c =>
    match fuel with
    | O => give_up
    | S f =>
      i <- deref c ;;
      vs <- values_loop (i_handle i) ps ;;
      i' <- deref c ;;
      r <- children_loop f (i_next i') ps ;;
      ret ((i_handle i, vs) :: r)
    end
  end.
Definition get_child_props (h : N) (ps : list N) : M (N * list (N * list variant)) :=
  b <- has_handle h ;;
  if negb b then ret (R_InvalidObjectHandle, []) else
  v <- handle_ref h ;;
  i <- deref_opt v ;;
  o <- info_of i ;;
  if negb (oi_format o =? FMT_Association) then ret (R_InvalidObjectHandle, []) else
  n <- get s_fresh ;;
  r <- children_loop (N.to_nat n) (i_first i) ps ;;
  ret (R_OK, r).
(** 2814-2860: only the file name is acted upon *)
Fixpoint set_loop (fuel : nat) (h : N) (l : list (N * variant)) : M N :=
  match l with
  | [] => ret R_OK
  | (p, v) :: r =>
    if p =? 0xDC07 then
      c <- set_file_name C fuel h (variant_str v) ;;
      if negb (isok c) then ret c else set_loop fuel h r
    else set_loop fuel h r
  end.
Definition set_props (fuel : nat) (h : N) (l : list (N * variant)) : M N :=
  v <- handle_value h ;;
  match v with None => ret R_GeneralError | Some _ => set_loop fuel h l end.
End FP.

(** ** What a property of an object is *)
(** the properties that are also in the object info or in the persistent id *)
Definition property_of (v : view) (p : N) (x : variant) : Prop :=
  exists o, v_info v = Some o /\
  In (p, x) [(0xDC01, VInt (oi_storage o)); (0xDC02, VInt (oi_format o)); (0xDC03, VInt (oi_protection o)); (0xDC04, VInt (oi_size o));
             (0xDC05, VInt (oi_assoc_type o)); (0xDC07, VStr (oi_name o)); (0xDC08, VStr (oi_capture o)); (0xDC09, VStr (oi_modified o));
             (0xDC0B, VInt (oi_parent o)); (0xDC4E, VStr (oi_capture o)); (0xDC41, VInt128 (v_puoid v))].
Definition plain_prop (p : N) : bool := existsb (N.eqb p) [0xDC01; 0xDC02; 0xDC03; 0xDC04; 0xDC05; 0xDC07; 0xDC08; 0xDC09; 0xDC0B; 0xDC4E; 0xDC41].
(** the objects, the file system and what is going on are as before *)
Definition untouched (s s' : fs) : Prop := (forall h, look s' h = look s h) /\ (forall x, content s' x = content s x) /\ s_handles s' = s_handles s /\ s_events s' = s_events s /\ s_file s' = s_file s.

(** ** Reading properties changes nothing visible *)
Record flagged (s s' : fs) : Prop := {
  fl_heap : forall x, match s_heap s x, s_heap s' x with Some i, Some j => exists b, j = it_events b i | None, None => True | _, _ => False end;
  fl_fresh : s_fresh s' = s_fresh s; fl_root : s_root s' = s_root s; fl_handles : s_handles s' = s_handles s; fl_paths : s_paths s' = s_paths s;
  fl_puoids : s_puoids s' = s_puoids s; fl_byid : s_byid s' = s_byid s; fl_wds : s_wds s' = s_wds s; fl_write : s_write s' = s_write s; fl_file : s_file s' = s_file s;
  fl_cache : s_cache s' = s_cache s; fl_events : s_events s' = s_events s; fl_nodes : s_nodes s' = s_nodes s; fl_tick : (s_tick s <= s_tick s')%nat }.
Lemma it_events_self i : it_events (i_events i) i = i.
Proof. destruct i; reflexivity. Qed.
Lemma flagged_refl s : flagged s s.
Proof. constructor; auto. intros x. destruct (s_heap s x) as [i|]; [|exact Logic.I]. exists (i_events i). symmetry. apply it_events_self. Qed.
Lemma flagged_trans a b c : flagged a b -> flagged b c -> flagged a c.
Proof.
  intros X Y. constructor; try (etransitivity; [apply Y|apply X]).
  - intros x. pose proof (fl_heap _ _ X x) as A. pose proof (fl_heap _ _ Y x) as B. destruct (s_heap a x), (s_heap b x), (s_heap c x); try contradiction; auto. destruct A as [p ->]. destruct B as [q ->]. exists q. reflexivity.
  - pose proof (fl_tick _ _ X). pose proof (fl_tick _ _ Y). lia.
Qed.
Lemma flagged_some s s' p i : flagged s s' -> s_heap s p = Some i -> exists b, s_heap s' p = Some (it_events b i).
Proof. intros F H. pose proof (fl_heap _ _ F p) as A. rewrite H in A. destruct (s_heap s' p); [|contradiction]. destruct A as [b ->]. eauto. Qed.
Lemma flagged_tick s n : (s_tick s <= n)%nat -> flagged s (set_tick n s).
Proof. intros H. constructor; cbn; auto. intros x. destruct (s_heap s x) as [i|]; [|exact Logic.I]. exists (i_events i). symmetry. apply it_events_self. Qed.
Lemma flagged_put s p i b : s_heap s p = Some i -> flagged s (set_heap (nupd (s_heap s) p (Some (it_events b i))) s).
Proof.
  intros H. constructor; cbn; auto. intros x. unfold nupd. destruct (x =? p) eqn:E; [apply N.eqb_eq in E; subst x; rewrite H; exists b; reflexivity|]. destruct (s_heap s x) as [k|]; [|exact Logic.I]. exists (i_events k). symmetry. apply it_events_self.
Qed.
Lemma flagged_parent s s' i b : flagged s s' -> parent_handle s' (it_events b i) = parent_handle s i.
Proof. intros F. unfold parent_handle. cbn. destruct (i_parent i) as [q|]; [|reflexivity]. pose proof (fl_heap _ _ F q) as A. destruct (s_heap s q), (s_heap s' q); try contradiction; [|reflexivity]. destruct A as [c ->]. reflexivity. Qed.
Lemma flagged_look s s' h : flagged s s' -> look s' h = look s h.
Proof.
  intros F. unfold look. rewrite (fl_handles _ _ F). destruct (aget h (s_handles s)) as [[p|]|]; try reflexivity. pose proof (fl_heap _ _ F p) as A. destruct (s_heap s p), (s_heap s' p); try contradiction; [|reflexivity]. destruct A as [b ->]. unfold view_of. rewrite (flagged_parent _ _ _ _ F). reflexivity.
Qed.
Lemma flagged_hsame s s' : flagged s s' -> hsame s s'.
Proof.
  intros F. constructor; try apply F.
  - intros x a H. destruct (flagged_some _ _ _ _ F H) as [b E]. eexists. split; [exact E|apply isame_events].
  - intros x b H. pose proof (fl_heap _ _ F x) as A. rewrite H in A. destruct (s_heap s x) as [a|]; [|contradiction]. exists a. split; [reflexivity|]. destruct A as [c ->]. apply isame_events.
Qed.
Lemma flagged_untouched s s' : flagged s s' -> untouched s s'.
Proof. intros F. split; [intros h; apply flagged_look; exact F|]. split; [intros x; unfold content; rewrite (fl_nodes _ _ F); reflexivity|]. repeat split; apply F. Qed.
Lemma flagged_seg s s' : flagged s s' -> forall l o, seg (s_heap s) o l -> seg (s_heap s') o l.
Proof. intros F. induction l as [|x l IH]; intros o H; cbn [seg] in *; [exact H|]. destruct H as [-> (i & Hi & Hs)]. split; [reflexivity|]. destruct (flagged_some _ _ _ _ F Hi) as [b E]. eexists. split; [exact E|]. cbn. apply IH. exact Hs. Qed.

Section Run.
Variables (C : conf) (thumb : nat -> path -> bytes) (r : ptr).
(** the answer to one property of an existing object *)
Definition answer (t : nat) (v : view) (o : objinfo) (p : N) : N * variant :=
  match prop_case p o (v_puoid v) (thumb t (v_path v)) with Some x => (R_OK, x) | None => (R_Not_Supported, VNull) end.
Lemma prop_eq s ch h v p : WF C s ch r None -> look s h = Some v -> exists o t s', v_info v = Some o /\ prop_from_storage C thumb h p s = Ret (answer t v o p, s') /\ flagged s s'.
Proof.
  intros W L. destruct (look_inv C s ch r W h v L) as (q & i & Hh & Hq & Ei & ->). destruct (W_info _ _ _ _ _ W q i Hq) as (o & Ho & _). exists o.
  unfold prop_from_storage, bind at 1. rewrite (get_info_eq C h s q i o Hh Hq Ho). cbn [fst snd isok negb]. change (isok R_OK) with true. cbn [negb].
  pose proof (flagged_put s q i true Hq) as F1. set (s1 := set_heap _ s) in *. assert (Hh1 : aget h (s_handles s1) = Some (Some q)) by exact Hh. assert (Hq1 : s_heap s1 q = Some (it_events true i)) by (subst s1; cbn; apply nupd_eq).
  unfold bind at 1, handle_value, get at 1. rewrite Hh1. unfold bind at 1, deref_opt, deref at 1. rewrite Hq1. cbn [i_puoid i_path it_events].
  unfold answer. cbn [v_puoid v_path v_info view_of]. destruct (p =? 0xDC86).
  - unfold bind, tick at 1. exists (s_tick s1), (set_tick (S (s_tick s1)) s1). split; [exact Ho|]. split; [destruct (prop_case _ _ _ _); reflexivity|]. eapply flagged_trans; [exact F1|apply flagged_tick; lia].
  - unfold bind, ret at 1. exists O, s1. split; [exact Ho|]. split; [destruct (prop_case _ _ _ _); reflexivity|exact F1].
Qed.
Lemma answer_ok t v o p : isok (fst (answer t v o p)) || (fst (answer t v o p) =? R_Not_Supported) = true.
Proof. unfold answer. destruct (prop_case _ _ _ _); reflexivity. Qed.
(** a list of answers is right if each of them is *)
Definition right (v : view) (p : N) (x : variant) : Prop := exists o t, v_info v = Some o /\ x = snd (answer t v o p).
Lemma props_eq ch h v : forall ps s, WF C s ch r None -> look s h = Some v -> exists l s', props_loop C thumb h ps s = Ret ((R_OK, l), s') /\ flagged s s' /\ Forall2 (right v) ps l.
Proof.
  induction ps as [|p ps IH]; intros s W L; cbn [props_loop]; [exists [], s; split; [reflexivity|split; [apply flagged_refl|constructor]]|].
  destruct (prop_eq s ch h v p W L) as (o & t & s1 & Ho & E & F). unfold bind at 1. rewrite E. pose proof (answer_ok t v o p) as A. apply orb_true_iff in A.
  replace (negb (isok (fst (answer t v o p))) && negb (fst (answer t v o p) =? R_Not_Supported)) with false by (destruct A as [A|A]; rewrite A; cbn [negb andb]; rewrite ?andb_false_r; reflexivity).
  destruct (IH s1) as (l & s2 & E2 & F2 & R); [eapply wf_hsame; [exact W|apply flagged_hsame; exact F]|rewrite (flagged_look _ _ _ F); exact L|]. unfold bind at 1. rewrite E2. cbn [fst snd]. unfold ret.
  eexists _, s2. split; [reflexivity|]. split; [eapply flagged_trans; eassumption|]. constructor; [exists o, t; auto|exact R].
Qed.
Lemma values_eq ch h v : forall ps s, WF C s ch r None -> look s h = Some v -> exists l s', values_loop C thumb h ps s = Ret (l, s') /\ flagged s s' /\ Forall2 (right v) ps l.
Proof.
  induction ps as [|p ps IH]; intros s W L; cbn [values_loop]; [exists [], s; split; [reflexivity|split; [apply flagged_refl|constructor]]|].
  destruct (prop_eq s ch h v p W L) as (o & t & s1 & Ho & E & F). unfold bind at 1. rewrite E.
  destruct (IH s1) as (l & s2 & E2 & F2 & R); [eapply wf_hsame; [exact W|apply flagged_hsame; exact F]|rewrite (flagged_look _ _ _ F); exact L|]. unfold bind at 1. rewrite E2. unfold ret.
  eexists _, s2. split; [reflexivity|]. split; [eapply flagged_trans; eassumption|]. constructor; [exists o, t; auto|exact R].
Qed.
Lemma get_props_eq s ch h v ps : WF C s ch r None -> c_root C <> [] -> look s h = Some v -> exists l s', get_props C thumb h ps s = Ret ((R_OK, l), s') /\ flagged s s' /\ Forall2 (right v) ps l.
Proof.
  intros W CR L. destruct (look_inv C s ch r W h v L) as (q & i & Hh & Hq & Ei & EV). unfold get_props, bind at 1, handle_value, get at 1. rewrite Hh. unfold bind at 1, deref. rewrite Hq.
  destruct (peqb (i_path i) []) eqn:E; [exfalso|eapply props_eq; eassumption]. apply peqb_eq in E. destruct (N.eq_dec q r) as [->|Nr].
  - destruct (root_look C s ch r W) as (ri & R1 & _ & _ & _ & R2). congruence.
  - destruct (wf_parent _ _ _ _ _ W q i Hq Nr) as (x & k & o & _ & _ & _ & _ & _ & P5 & _). unfold join in P5. rewrite E in P5. destruct (i_path k); discriminate.
Qed.
Lemma children_eq ch ps : forall l fuel o s, WF C s ch r None -> seg (s_heap s) o l -> (length l <= fuel)%nat ->
  exists rs s', children_loop C thumb fuel o ps s = Ret (rs, s') /\ flagged s s' /\ map fst rs = map (hd_of (s_heap s)) l /\ (forall h xs, In (h, xs) rs -> exists v, look s h = Some v /\ Forall2 (right v) ps xs).
Proof.
  induction l as [|x l IH]; intros fuel o s W Sg LE; cbn [seg] in Sg.
  - subst o. exists [], s. destruct fuel; (split; [reflexivity|split; [apply flagged_refl|split; [reflexivity|intros h xs []]]]).
  - destruct Sg as [-> (i & Hi & Hs)]. destruct fuel as [|fuel]; [cbn in LE; lia|]. cbn [children_loop]. unfold bind at 1, deref at 1. rewrite Hi. pose proof (look_of C s ch r W x i Hi) as L.
    destruct (values_eq ch (i_handle i) (view_of s i) ps s W L) as (vs & s1 & E1 & F1 & R1). unfold bind at 1. rewrite E1. destruct (flagged_some _ _ _ _ F1 Hi) as [b Hi1]. unfold bind at 1, deref. rewrite Hi1. cbn [i_next it_events].
    destruct (IH fuel (i_next i) s1) as (rs & s2 & E2 & F2 & M2 & R2); [eapply wf_hsame; [exact W|apply flagged_hsame; exact F1]|apply (flagged_seg _ _ F1); exact Hs|cbn in LE; lia|].
    unfold bind. rewrite E2. unfold ret. eexists _, s2. split; [reflexivity|]. split; [eapply flagged_trans; eassumption|]. split.
    + cbn [map fst]. unfold hd_of at 1. rewrite Hi. f_equal. rewrite M2. apply map_ext. intros y. unfold hd_of. pose proof (fl_heap _ _ F1 y) as A. destruct (s_heap s y), (s_heap s1 y); try contradiction; [destruct A as [c ->]|]; reflexivity.
    + intros h xs [H|H]; [injection H as <- <-; exists (view_of s i); auto|]. destruct (R2 h xs H) as (v & V1 & V2). exists v. split; [rewrite <- V1; symmetry; apply flagged_look; exact F1|exact V2].
Qed.
End Run.
