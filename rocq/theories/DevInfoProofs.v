(** What a configuration file lists, and what becomes of it. *)
From Verif Require Import Base DevInfo ExtFormat.

(** ** Specification: the codes a file lists under an element *)
Section Spec.
Variable hex : text -> option N.
(** [now]: the element opened last; a text belongs to it *)
Fixpoint codes_under (same : el -> bool) (now : el) (l : list tok) : list N :=
  match l with
  | [] => []
  | TStart e' _ :: l' => codes_under same e' l'
  | TEnd :: l' => codes_under same now l'
  | TChars t :: l' =>
    if blank t then codes_under same now l'
    else if same now then num (hex t) :: codes_under same now l'
    else codes_under same now l'
  end.
End Spec.
Definition is_op e := match e with EOpCode => true | _ => false end.
Definition is_ev e := match e with EEvCode => true | _ => false end.
Definition is_common e := match e with ECommon => true | _ => false end.
Definition is_image e := match e with EImage => true | _ => false end.
Definition is_audio e := match e with EAudio => true | _ => false end.
Definition is_video e := match e with EVideo => true | _ => false end.

(** ** The names: where they are set in a file, and by what *)
Section Names.
Variable hex16 : text -> option N.
Variable code : N.
(** no text of a DevPropValue under the code from here on; [c]: the property in force *)
Fixpoint silent (now : el) (c : N) (l : list tok) : Prop :=
  match l with
  | [] => True
  | TStart e _ :: l' => silent e c l'
  | TEnd :: l' => silent now c l'
  | TChars t :: l' =>
    if blank t then silent now c l'
    else match now with
         | EPropCode => silent now (num (hex16 t)) l'
         | EPropValue => c <> code /\ silent now c l'
         | _ => silent now c l'
         end
  end.
(** the first DevPropValue with this id is one for the code, and nothing after it overrides it *)
Fixpoint placed (id : text) (now : el) (c : N) (l : list tok) : Prop :=
  match l with
  | [] => False
  | TStart EPropValue id' :: l' =>
    if text_eqb id id' then
      c = code /\ match l' with TChars _ :: r => silent EPropValue c r | _ => silent EPropValue c l' end
    else placed id EPropValue c l'
  | TStart e _ :: l' => placed id e c l'
  | TEnd :: l' => placed id now c l'
  | TChars t :: l' =>
    if blank t then placed id now c l'
    else match now with
         | EPropCode => placed id now (num (hex16 t)) l'
         | _ => placed id now c l'
         end
  end.
End Names.

Lemma text_eqb_refl : forall a, text_eqb a a = true.
Proof. induction a as [|x a IH]; [reflexivity|]. cbn. rewrite N.eqb_refl. exact IH. Qed.
Lemma text_eqb_eq : forall a b, text_eqb a b = true -> a = b.
Proof.
  induction a as [|x a IH]; destruct b as [|y b]; cbn; try discriminate; [reflexivity|].
  intros H. apply andb_true_iff in H. destruct H as [H1 H2]. apply N.eqb_eq in H1. subst. f_equal. auto.
Qed.
Lemma text_eqb_neq : forall a b, a <> b -> text_eqb a b = false.
Proof. intros a b H. destruct (text_eqb a b) eqn:E; [|reflexivity]. apply text_eqb_eq in E. contradiction. Qed.

(** ** augmenting *)
Lemma existsb_in : forall x l, existsb (N.eqb x) l = true <-> In x l.
Proof.
  intros x l. rewrite existsb_exists. split.
  - intros [y [Hy Hb]]. apply N.eqb_eq in Hb. subst. exact Hy.
  - intros H. exists x. split; [exact H | apply N.eqb_refl].
Qed.
Lemma augment_in : forall more base x, In x (augment base more) <-> In x base \/ In x more.
Proof.
  induction more as [|y more IH]; intros base x; cbn.
  - tauto.
  - fold (augment (if existsb (N.eqb y) base then base else base ++ [y]) more). rewrite IH.
    destruct (existsb (N.eqb y) base) eqn:E.
    + apply existsb_in in E. split; [intros [H|H]; auto|]. intros [H|[H|H]]; subst; auto.
    + rewrite in_app_iff. cbn. tauto.
Qed.
Lemma augment_nodup : forall more base, NoDup base -> NoDup (augment base more).
Proof.
  induction more as [|y more IH]; intros base H; cbn; [exact H|].
  apply IH. destruct (existsb (N.eqb y) base) eqn:E; [exact H|].
  assert (Hn : ~ In y base) by (rewrite <- existsb_in, E; discriminate).
  clear - H Hn. induction base as [|z base IH]; cbn.
  - constructor; [intros []|constructor].
  - inversion H; subst. constructor.
    + rewrite in_app_iff. cbn. intros [K|[K|[]]]; [contradiction|]. subst. apply Hn. left. reflexivity.
    + apply IH; [assumption|]. intros K. apply Hn. right. exact K.
Qed.
(** the file's own come first, in its order *)
Lemma augment_prefix : forall more base, exists r, augment base more = base ++ r /\ incl r more.
Proof.
  induction more as [|y more IH]; intros base; cbn.
  - exists []. rewrite app_nil_r. split; [reflexivity | intros ? []].
  - destruct (existsb (N.eqb y) base).
    + destruct (IH base) as [r [E I]]. exists r. split; [exact E|]. intros z Hz. right. auto.
    + destruct (IH (base ++ [y])) as [r [E I]]. exists (y :: r). rewrite <- app_assoc in E. split; [exact E|].
      intros z [Hz|Hz]; [left; exact Hz | right; auto].
Qed.

Section Parse.
Variable hex16 hex32 : text -> option N.
Variable number : text -> bool.
Notation parse := (parse hex16 hex32 number).
Notation characters := (characters hex16 hex32 number).
Notation startup := (startup hex16 hex32 number).

Definition prefix {A} (a b : list A) := exists r, b = a ++ r.
Lemma prefix_refl A (a : list A) : prefix a a.
Proof. exists []. rewrite app_nil_r. reflexivity. Qed.
Lemma prefix_more A (a b c : list A) : prefix a b -> prefix a (b ++ c).
Proof. intros [r E]. exists (r ++ c). rewrite E, app_assoc. reflexivity. Qed.

Section OneList.
Variable get : info -> list N.
Variable same : el -> bool.
(** a text of the elements meant appends its number, any other leaves the list alone *)
Hypothesis get_chars : forall t h,
  get (h_info (fst (characters t h))) =
  (if blank t then get (h_info h) else if same (h_el h) then get (h_info h) ++ [num (hex16 t)] else get (h_info h)).

Lemma list_of_parse : forall l h,
  prefix (get (h_info (fst (parse l h)))) (get (h_info h) ++ codes_under hex16 same (h_el h) l) /\
  (snd (parse l h) = true -> get (h_info (fst (parse l h))) = get (h_info h) ++ codes_under hex16 same (h_el h) l).
Proof.
  induction l as [|k l IH]; intros h; cbn [DevInfo.parse codes_under].
  - rewrite app_nil_r. split; [apply prefix_refl | reflexivity].
  - destruct k as [e id|t|]; cbn [callback].
    + exact (IH (mk_hst e (h_code h) (h_info h))).
    + assert (G := get_chars t h).
      assert (Ek : h_el (fst (characters t h)) = h_el h)
        by (clear; destruct h as [e c i]; unfold DevInfo.characters; destruct (blank t); [reflexivity | destruct e; reflexivity]).
      destruct (characters t h) as [h' ok]; cbn [fst snd] in *.
      assert (E : get (h_info h) ++
        (if blank t then codes_under hex16 same (h_el h) l
         else if same (h_el h) then num (hex16 t) :: codes_under hex16 same (h_el h) l
              else codes_under hex16 same (h_el h) l) =
        get (h_info h') ++ codes_under hex16 same (h_el h') l).
      { rewrite G, Ek. destruct (blank t); [reflexivity|]. destruct (same (h_el h)); [|reflexivity].
        rewrite <- app_assoc. reflexivity. }
      rewrite E. destruct ok; cbn [fst snd].
      * exact (IH h').
      * split; [apply prefix_more, prefix_refl | discriminate].
    + destruct (h_el h) eqn:K; cbn [fst snd]; try (rewrite <- K; exact (IH h)).
      split; [apply prefix_more, prefix_refl | discriminate].
Qed.
End OneList.

Ltac chars_tac :=
  intros t h; unfold DevInfo.characters; destruct (blank t); [reflexivity|];
  destruct (h_el h); cbn; try reflexivity;
  unfold prop_value; repeat (match goal with |- context [if ?c then _ else _] => destruct c end); reflexivity.
Definition start0 := mk_hst EOther 0 info0.
Lemma ops_chars : forall t h, n_ops (h_info (fst (characters t h))) =
  (if blank t then n_ops (h_info h) else if is_op (h_el h) then n_ops (h_info h) ++ [num (hex16 t)] else n_ops (h_info h)).
Proof. chars_tac. Qed.
Lemma evs_chars : forall t h, n_evs (h_info (fst (characters t h))) =
  (if blank t then n_evs (h_info h) else if is_ev (h_el h) then n_evs (h_info h) ++ [num (hex16 t)] else n_evs (h_info h)).
Proof. chars_tac. Qed.
Lemma common_chars : forall t h, n_common (h_info (fst (characters t h))) =
  (if blank t then n_common (h_info h) else if is_common (h_el h) then n_common (h_info h) ++ [num (hex16 t)] else n_common (h_info h)).
Proof. chars_tac. Qed.
Lemma image_chars : forall t h, n_image (h_info (fst (characters t h))) =
  (if blank t then n_image (h_info h) else if is_image (h_el h) then n_image (h_info h) ++ [num (hex16 t)] else n_image (h_info h)).
Proof. chars_tac. Qed.
Lemma audio_chars : forall t h, n_audio (h_info (fst (characters t h))) =
  (if blank t then n_audio (h_info h) else if is_audio (h_el h) then n_audio (h_info h) ++ [num (hex16 t)] else n_audio (h_info h)).
Proof. chars_tac. Qed.
Lemma video_chars : forall t h, n_video (h_info (fst (characters t h))) =
  (if blank t then n_video (h_info h) else if is_video (h_el h) then n_video (h_info h) ++ [num (hex16 t)] else n_video (h_info h)).
Proof. chars_tac. Qed.

(** ** The names *)
Section OneName.
Variable code : N.
Variable put : info -> text -> info.
Hypothesis put_put : forall i v w, put (put i v) w = put i w.
(** only a text of a DevPropValue under the code touches the name *)
Hypothesis put_chars : forall t e c i v, e <> EPropValue \/ c <> code ->
  characters t (mk_hst e c (put i v)) =
  (mk_hst (h_el (fst (characters t (mk_hst e c i)))) (h_code (fst (characters t (mk_hst e c i))))
     (put (h_info (fst (characters t (mk_hst e c i)))) v), snd (characters t (mk_hst e c i))).
Hypothesis put_value : forall t i, prop_value hex32 code t i = put i t.

Definition with_name (v : text) (r : hst * bool) : hst * bool :=
  (mk_hst (h_el (fst r)) (h_code (fst r)) (put (h_info (fst r)) v), snd r).

Lemma characters_shape : forall t e c i,
  h_el (fst (characters t (mk_hst e c i))) = e /\
  h_code (fst (characters t (mk_hst e c i))) = (if blank t then c else match e with EPropCode => num (hex16 t) | _ => c end).
Proof. intros. unfold DevInfo.characters. destruct (blank t); [auto|]. destruct e; auto. Qed.

Lemma chars_put : forall t e c i v, blank t = true \/ e <> EPropValue \/ c <> code ->
  characters t (mk_hst e c (put i v)) = with_name v (characters t (mk_hst e c i)).
Proof.
  intros t e c i v [Hb|H].
  - unfold DevInfo.characters. rewrite Hb. reflexivity.
  - apply put_chars. exact H.
Qed.

Lemma silent_parse : forall v l e c i, silent hex16 code e c l ->
  parse l (mk_hst e c (put i v)) = with_name v (parse l (mk_hst e c i)).
Proof.
  induction l as [|k l IH]; intros e c i H; [reflexivity|].
  destruct k as [e' id|t|]; cbn [silent] in H; cbn [DevInfo.parse callback h_code h_info h_el].
  - apply IH. exact H.
  - assert (Hc : blank t = true \/ e <> EPropValue \/ c <> code).
    { destruct (blank t); [left; reflexivity|]. right. destruct e; try (left; discriminate). right. apply H. }
    rewrite (chars_put t e c i v Hc).
    destruct (characters_shape t e c i) as [Se Sc].
    destruct (characters t (mk_hst e c i)) as [[e' c' i'] ok]; unfold with_name; cbn [fst snd h_el h_code h_info] in *. subst e'.
    destruct ok; [|reflexivity].
    rewrite (IH e c' i'); [reflexivity|]. subst c'.
    destruct (blank t); [exact H|]. destruct e; try exact H. apply H.
  - destruct e; try (apply IH; exact H); reflexivity.
Qed.

Lemma value_chars : forall v e c i, blank v = false -> e = EPropValue -> c = code ->
  characters v (mk_hst e c i) = (mk_hst e c (put i v), true).
Proof. intros v e c i Hb -> ->. unfold DevInfo.characters. rewrite Hb. cbn. rewrite put_value. reflexivity. Qed.

Lemma put_first : forall v r i, blank v = false -> silent hex16 code EPropValue code r ->
  parse (TChars v :: r) (mk_hst EPropValue code i) = with_name v (parse r (mk_hst EPropValue code i)).
Proof.
  intros v r i Hb Hs. cbn [DevInfo.parse callback]. rewrite value_chars by (assumption || reflexivity).
  apply silent_parse. exact Hs.
Qed.
Lemma with_with : forall v w r, with_name v (with_name w r) = with_name v r.
Proof. intros v w [[e c i] ok]. unfold with_name. cbn. rewrite put_put. reflexivity. Qed.

Lemma chars_nonblank : forall v, blank v = false -> chars v = [TChars v].
Proof. intros [|x v]; [discriminate|reflexivity]. Qed.

Lemma placed_parse : forall id v l e c i, blank v = false -> placed hex16 code id e c l ->
  snd (parse l (mk_hst e c i)) = true ->
  parse (set_value id v l) (mk_hst e c i) = with_name v (parse l (mk_hst e c i)).
Proof.
  intros id v l. induction l as [|k l IH]; intros e c i Hv H Hok; [destruct H|].
  destruct k as [e' id'|t|]; cbn [DevInfo.parse callback h_code h_info h_el] in Hok.
  - destruct e'; cbn [placed] in H; cbn [set_value];
      try (cbn [DevInfo.parse callback h_code h_info h_el]; apply IH; assumption).
    destruct (text_eqb id id'); cbn [DevInfo.parse callback h_code h_info h_el]; [|apply IH; assumption].
    destruct H as [Hc H]. subst c. rewrite (chars_nonblank v Hv).
    destruct l as [|k l].
    + apply put_first; [exact Hv | exact H].
    + destruct k as [e' id''|t|].
      * apply put_first; [exact Hv | exact H].
      * cbn [app]. rewrite (put_first v l i Hv H).
        destruct (blank t) eqn:Eb.
        -- cbn [DevInfo.parse callback]. unfold DevInfo.characters at 1. rewrite Eb. reflexivity.
        -- rewrite (put_first t l i Eb H). rewrite with_with. reflexivity.
      * apply put_first; [exact Hv | exact H].
  - cbn [set_value DevInfo.parse callback]. cbn [placed] in H.
    destruct (characters_shape t e c i) as [Se Sc].
    destruct (characters t (mk_hst e c i)) as [[e' c' i'] ok]; cbn [fst snd h_el h_code h_info] in *. subst e'.
    destruct ok; [|discriminate].
    apply IH; [exact Hv | | exact Hok]. subst c'. destruct (blank t); [exact H|]. destruct e; exact H.
  - cbn [set_value DevInfo.parse callback h_el]. cbn [placed] in H.
    destruct e; try (apply IH; assumption). discriminate.
Qed.

Lemma silent_set : forall code' id v l e c, blank v = false -> code <> code' -> silent hex16 code' e c l ->
  placed hex16 code id e c l -> silent hex16 code' e c (set_value id v l).
Proof.
  intros code' id v l. induction l as [|k l IH]; intros e c Hv Hn Hs H; [destruct H|].
  destruct k as [e' id'|t|].
  - destruct e'; cbn [placed silent] in H, Hs; cbn [set_value]; try (apply IH; assumption).
    destruct (text_eqb id id'); [|apply IH; assumption].
    destruct H as [Hc H]. subst c. rewrite (chars_nonblank v Hv). cbn [app silent]. rewrite Hv. split; [exact Hn|].
    destruct l as [|k l]; [exact Logic.I|]. destruct k as [e' id''|t|]; try exact Hs.
    cbn [silent] in Hs. destruct (blank t); [exact Hs|]. apply Hs.
  - cbn [placed silent set_value] in *. destruct (blank t); [apply IH; assumption|].
    destruct e; try (apply IH; assumption). destruct Hs as [H1 Hs]. split; [exact H1|]. apply IH; assumption.
  - cbn [placed silent set_value] in *. apply IH; assumption.
Qed.
Lemma placed_same : forall id v l e c, blank v = false -> placed hex16 code id e c l ->
  placed hex16 code id e c (set_value id v l).
Proof.
  intros id v l. induction l as [|k l IH]; intros e c Hv H; [destruct H|].
  destruct k as [e' id'|t|].
  - destruct e'; cbn [placed] in H; cbn [set_value]; try (cbn [placed]; apply IH; assumption).
    destruct (text_eqb id id') eqn:E; cbn [placed]; rewrite E; [|apply IH; assumption].
    destruct H as [Hc H]. split; [exact Hc|]. rewrite (chars_nonblank v Hv). cbn [app].
    destruct l as [|k l]; [exact H|]. destruct k; exact H.
  - cbn [placed set_value] in *. destruct (blank t); [apply IH; assumption|]. destruct e; apply IH; assumption.
  - cbn [placed set_value] in *. apply IH; assumption.
Qed.
Lemma placed_other : forall code' id id' v l e c, blank v = false -> code <> code' -> id <> id' ->
  placed hex16 code id e c l -> placed hex16 code' id' e c l ->
  placed hex16 code' id' e c (set_value id v l).
Proof.
  intros code' id id' v l. induction l as [|k l IH]; intros e c Hv Hn Hi H H'; [destruct H|].
  destruct k as [e' id''|t|].
  - destruct e'; cbn [placed] in H, H'; cbn [set_value]; try (cbn [placed]; apply IH; assumption).
    destruct (text_eqb id id'') eqn:E.
    + destruct H as [Hc H]. subst c. apply text_eqb_eq in E. subst id''. cbn [placed].
      rewrite (text_eqb_neq id' id) in * by congruence.
      rewrite (chars_nonblank v Hv). cbn [app placed]. rewrite Hv.
      destruct l as [|k l]; [exact H'|]. destruct k; try exact H'.
      cbn [placed] in H'. destruct (blank t); exact H'.
    + cbn [placed]. destruct (text_eqb id' id'') eqn:E'; [|apply IH; assumption].
      destruct H' as [Hc H']. split; [exact Hc|].
      destruct l as [|k l]; [destruct H|]. destruct k as [e' i''|t|].
      * destruct e'; try (cbn [set_value placed] in *; apply silent_set; assumption).
        assert (K := silent_set code' id v (TStart EPropValue i'' :: l) EPropValue c Hv Hn H' H).
        cbn [set_value] in *. destruct (text_eqb id i''); exact K.
      * cbn [set_value]. cbn [placed] in H. apply silent_set; try assumption. destruct (blank t); exact H.
      * cbn [set_value placed] in *. apply silent_set; assumption.
  - cbn [placed set_value] in *. destruct (blank t); [apply IH; assumption|]. destruct e; apply IH; assumption.
  - cbn [placed set_value] in *. apply IH; assumption.
Qed.
End OneName.

Ltac put_tac :=
  intros t e c i v H; unfold DevInfo.characters; destruct (blank t); [reflexivity|];
  destruct e; cbn [h_el h_code h_info fst snd]; try reflexivity;
  destruct H as [H|H]; [contradiction|];
  unfold prop_value;
  repeat match goal with |- context [c =? ?k] =>
    let E := fresh in destruct (c =? k) eqn:E; [try reflexivity; apply N.eqb_eq in E; contradiction|] end;
  reflexivity.
Lemma friendly_chars : forall t e c i v, e <> EPropValue \/ c <> 0xD402 ->
  characters t (mk_hst e c (set_friendly i v)) =
  (mk_hst (h_el (fst (characters t (mk_hst e c i)))) (h_code (fst (characters t (mk_hst e c i))))
     (set_friendly (h_info (fst (characters t (mk_hst e c i)))) v), snd (characters t (mk_hst e c i))).
Proof. put_tac. Qed.
Lemma partner_chars : forall t e c i v, e <> EPropValue \/ c <> 0xD401 ->
  characters t (mk_hst e c (set_partner i v)) =
  (mk_hst (h_el (fst (characters t (mk_hst e c i)))) (h_code (fst (characters t (mk_hst e c i))))
     (set_partner (h_info (fst (characters t (mk_hst e c i)))) v), snd (characters t (mk_hst e c i))).
Proof. put_tac. Qed.
Lemma friendly_value : forall t i, prop_value hex32 0xD402 t i = set_friendly i t.
Proof. reflexivity. Qed.
Lemma partner_value : forall t i, prop_value hex32 0xD401 t i = set_partner i t.
Proof. reflexivity. Qed.

(** a file the names can be kept in *)
Record proper (f : file) : Prop := mk_proper {
  pr_wf : f_wf f = true;
  pr_ok : snd (parse (f_toks f) start0) = true;
  pr_friendly : placed hex16 0xD402 ID_friendly EOther 0 (f_toks f);
  pr_partner : placed hex16 0xD401 ID_partner EOther 0 (f_toks f)
}.
Lemma startup_proper : forall f, proper f -> startup f = finish true (h_info (fst (parse (f_toks f) start0))).
Proof.
  intros f [W O _ _]. unfold DevInfo.startup. fold start0. destruct (parse (f_toks f) start0) as [h ok].
  cbn [fst snd] in *. rewrite O, W. reflexivity.
Qed.
Lemma finish_friendly : forall r v,
  finish true (h_info (fst (with_name set_friendly v r))) = set_friendly (finish true (h_info (fst r))) v.
Proof. intros [[e c i] ok] v. unfold with_name. cbn [fst h_info]. unfold finish, set_friendly, set_partner, set_texts.
  cbn [n_ops n_evs n_props n_codecs n_vch n_ach n_common n_image n_audio n_video n_friendly n_partner n_copy n_type n_manu n_model n_version n_serial].
  reflexivity. Qed.
Lemma finish_partner : forall r v,
  finish true (h_info (fst (with_name set_partner v r))) = set_partner (finish true (h_info (fst r))) v.
Proof. intros [[e c i] ok] v. unfold with_name. cbn [fst h_info]. unfold finish, set_friendly, set_partner, set_texts.
  cbn [n_ops n_evs n_props n_codecs n_vch n_ach n_common n_image n_audio n_video n_friendly n_partner n_copy n_type n_manu n_model n_version n_serial].
  reflexivity. Qed.
Lemma rewrite_friendly : forall f v, blank v = false -> proper f ->
  proper (rewrite_file ID_friendly v f) /\ startup (rewrite_file ID_friendly v f) = set_friendly (startup f) v.
Proof.
  intros f v Hv P. assert (P' := P). destruct P as [W O F A]. unfold rewrite_file. rewrite W.
  assert (E := placed_parse 0xD402 set_friendly (fun _ _ _ => eq_refl) friendly_chars friendly_value
                 ID_friendly v (f_toks f) EOther 0 info0 Hv F O).
  fold start0 in E.
  assert (P2 : proper (mk_file (set_value ID_friendly v (f_toks f)) true)).
  { constructor; cbn [f_wf f_toks].
    - reflexivity.
    - rewrite E. exact O.
    - apply placed_same; assumption.
    - apply (placed_other 0xD402); try assumption; discriminate. }
  split; [exact P2|]. rewrite (startup_proper _ P2), (startup_proper _ P'). cbn [f_toks]. rewrite E.
  apply finish_friendly.
Qed.
Lemma rewrite_partner : forall f v, blank v = false -> proper f ->
  proper (rewrite_file ID_partner v f) /\ startup (rewrite_file ID_partner v f) = set_partner (startup f) v.
Proof.
  intros f v Hv P. assert (P' := P). destruct P as [W O F A]. unfold rewrite_file. rewrite W.
  assert (E := placed_parse 0xD401 set_partner (fun _ _ _ => eq_refl) partner_chars partner_value
                 ID_partner v (f_toks f) EOther 0 info0 Hv A O).
  fold start0 in E.
  assert (P2 : proper (mk_file (set_value ID_partner v (f_toks f)) true)).
  { constructor; cbn [f_wf f_toks].
    - reflexivity.
    - rewrite E. exact O.
    - apply (placed_other 0xD401); try assumption; discriminate.
    - apply placed_same; assumption. }
  split; [exact P2|]. rewrite (startup_proper _ P2), (startup_proper _ P'). cbn [f_toks]. rewrite E.
  apply finish_partner.
Qed.
End Parse.
