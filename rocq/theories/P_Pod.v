(** C63: property descriptions. *)
From Coq Require Import NArith List Bool Lia.
Import ListNotations.
From Verif Require Import Base AList Wire WireSpec Responder RSpec Pod.
Open Scope N_scope.

(** ** Specification *)
(** the provider's numbers fit their C++ types (quint32, quint16, quint8) and its
    strings can be sent *)
Definition range_ok (r : N * N) : Prop := fst r < 2^32 /\ snd r < 2^32.
Record provider_ok (pv : provider) : Prop := {
  po_ac : Forall (fun x => x < 2^16) (pv_audio_channels pv);
  po_vc : Forall (fun x => x < 2^16) (pv_video_channels pv);
  po_codecs : Forall (fun x => x < 2^32) (pv_codecs pv);
  po_abr : range_ok (pv_audio_bitrate pv); po_vbr : range_ok (pv_video_bitrate pv); po_fps : range_ok (pv_fps pv);
  po_iw : range_ok (pv_image_w pv); po_ih : range_ok (pv_image_h pv);
  po_vw : range_ok (pv_video_w pv); po_vh : range_ok (pv_video_h pv);
  po_battery : pv_battery pv < 2^8; po_partner : str_ok (pv_partner pv); po_friendly : str_ok (pv_friendly pv);
  po_icon : Forall (fun x => x < 2^8) (pv_icon pv); po_type : pv_device_type pv < 2^32 }.

(** ** Proofs *)
Lemma qinsert_get V k (v : V) l j : aget j (qinsert k v l) = if j =? k then Some v else aget j l.
Proof.
  induction l as [|[k' v'] r IH]; cbn [qinsert aget]; [reflexivity|]. destruct (k =? k') eqn:E.
  - apply N.eqb_eq in E. subst k'. cbn [aget]. destruct (j =? k); reflexivity.
  - destruct (k <? k'); cbn [aget]; [reflexivity|]. rewrite IH. destruct (j =? k') eqn:E1; [|reflexivity]. apply N.eqb_eq in E1. subst. destruct (k' =? k) eqn:E2; [apply N.eqb_eq in E2; apply N.eqb_neq in E; congruence|reflexivity].
Qed.
Lemma qmap_from V (f : raw -> V) t : forall m k v, aget k (fold_left (fun m w => qinsert (w_code w) (f w) m) t m) = Some v ->
  (exists w, In w t /\ w_code w = k /\ v = f w) \/ aget k m = Some v.
Proof.
  induction t as [|w t IH]; intros m k v H; cbn [fold_left] in H; [auto|]. destruct (IH _ _ _ H) as [(x & A & B & C)|A]; [left; exists x; split; [right; exact A|auto]|].
  rewrite qinsert_get in A. destruct (k =? w_code w) eqn:E; [|auto]. apply N.eqb_eq in E. injection A as <-. left. exists w. split; [left; reflexivity|auto].
Qed.
Lemma qmap_has V (f : raw -> V) t : forall m k, (exists w, In w t /\ w_code w = k) \/ aget k m <> None -> aget k (fold_left (fun m w => qinsert (w_code w) (f w) m) t m) <> None.
Proof.
  induction t as [|w t IH]; intros m k H; cbn [fold_left]; [destruct H as [(w & [] & _)|H]; exact H|]. apply IH. rewrite qinsert_get. destruct (k =? w_code w) eqn:E; [right; discriminate|].
  apply N.eqb_neq in E. destruct H as [(x & [<-|A] & B)|H]; [congruence|left; eauto|right; exact H].
Qed.
Lemma qmap_get V (f : raw -> V) t k v : aget k (qmap f t) = Some v -> exists w, In w t /\ w_code w = k /\ v = f w.
Proof. intros H. destruct (qmap_from V f t [] k v H) as [A|A]; [exact A|discriminate]. Qed.
Lemma key_get V k (m : list (N * V)) : In k (akeys m) -> exists v, aget k m = Some v.
Proof. intros H. destruct (aget k m) as [v|] eqn:E; [eauto|]. apply aget_None in E. contradiction. Qed.
Lemma map_code ec tc t pv p d : aget p (qmap (describe pv ec tc) t) = Some d -> opd_code d = p.
Proof. intros H. apply qmap_get in H as (w & _ & A & ->). exact A. Qed.

Ltac cats c := unfold pod_props, pod_desc;
  destruct (c =? CAT_COMMON) eqn:?E5, (c =? CAT_UNSUPPORTED) eqn:?E1, (c =? CAT_IMAGE) eqn:?E4, (c =? CAT_AUDIO) eqn:?E2, (c =? CAT_VIDEO) eqn:?E3;
  rewrite ?N.eqb_eq in *; subst; try discriminate; cbn [orb fst snd].

(** Every property listed for a category has a description with that code, *)
Theorem C63_listed_described : forall pv c p, fst (pod_props pv c) = R_OK -> In p (snd (pod_props pv c)) ->
  exists d, pod_desc pv c p = (R_OK, Some d) /\ opd_code d = p.
Proof.
  intros pv c p. assert (G : forall own, (forall d, aget p own = Some d -> opd_code d = p) -> In p (akeys (common_map pv) ++ akeys own) ->
    exists d, match aget p (common_map pv) with Some d => (0x2001, Some d) | None => (match aget p own with Some _ => 0x2001 | None => 0xA801 end, aget p own) end = (R_OK, Some d) /\ opd_code d = p).
  { intros own C I. destruct (aget p (common_map pv)) as [d|] eqn:E; [exists d; split; [reflexivity|exact (map_code _ _ _ _ _ _ E)]|]. apply aget_None in E. apply in_app_or in I as [I|I]; [contradiction|].
    apply key_get in I as [d I]. rewrite I. exists d. auto. }
  pose proof (G [] ltac:(discriminate)) as G0. pose proof (G (image_map pv) ltac:(intros; eapply map_code; eassumption)) as G1.
  pose proof (G (audio_map pv) ltac:(intros; eapply map_code; eassumption)) as G2. pose proof (G (video_map pv) ltac:(intros; eapply map_code; eassumption)) as G3.
  clear G. cbn [akeys map] in G0. rewrite app_nil_r in G0. cats c; intros H I; try discriminate; auto.
Qed.
(** every described property is listed (for the categories that exist), *)
Theorem C63_described_listed : forall pv c p d, fst (pod_props pv c) = R_OK -> pod_desc pv c p = (R_OK, Some d) ->
  In p (snd (pod_props pv c)).
Proof.
  intros pv c p d. assert (G : forall own, match aget p (common_map pv) with Some d => (0x2001, Some d) | None => (match aget p own with Some _ => 0x2001 | None => 0xA801 end, aget p own) end = (R_OK, Some d) -> In p (akeys (common_map pv) ++ akeys own)).
  { intros own H. apply in_or_app. destruct (aget p (common_map pv)) eqn:E; [left; exact (aget_key _ _ _ E)|right]. destruct (aget p own) eqn:E1; [exact (aget_key _ _ _ E1)|discriminate]. }
  pose proof (G []) as G0. cbn [akeys map] in G0. rewrite app_nil_r in G0. cats c; intros F H; try discriminate; auto.
Qed.
(** nothing is listed twice, *)
Theorem C63_listed_once : forall pv c, NoDup (snd (pod_props pv c)).
Proof.
  intros pv c. assert (G : forall l, (fix nd (l : list N) := match l with [] => true | x :: r => negb (existsb (N.eqb x) r) && nd r end) l = true -> NoDup l).
  { induction l as [|x l IH]; intros H; [constructor|]. apply andb_true_iff in H as [A B]. constructor; [|exact (IH B)]. intros I. apply negb_true_iff in A. apply (Bool.eq_true_false_abs _ (proj2 (existsb_exists _ _) (ex_intro _ x (conj I (N.eqb_refl x)))) A). }
  cats c; apply G; vm_compute; reflexivity.
Qed.
(** and every description can be sent: its default and its allowed values have the
    property's data type. *)
Lemma ht_small ty x : In ty [1;2;3;4;5;6;7;8] -> x < 256 -> has_type ty (VInt x).
Proof. intros I H. apply ht_int; [exact I|]. apply N.lt_le_trans with 256; [exact H|]. cbn [In] in I. intuition (subst; vm_compute; discriminate). Qed.
Lemma ht32 x : x < 2^32 -> has_type T_U32 (VInt x).
Proof. intros. apply ht_int; [cbn; tauto|exact H]. Qed.
Lemma ht16 x : x < 2^16 -> has_type T_U16 (VInt x).
Proof. intros. apply ht_int; [cbn; tauto|exact H]. Qed.
Lemma typed_ok w : In w (common_table ++ image_table ++ audio_table ++ video_table) -> has_type (w_type w) (typed (w_type w) (w_default w)).
Proof.
  assert (Z : forall ty, In ty [1;2;3;4;5;6;7;8] -> has_type ty (VInt 0)) by (intros; apply ht_small; [assumption|lia]).
  assert (A : has_type T_AU8 (VVec T_AU8 [])) by (apply ht_vec; [cbn; tauto|constructor]).
  assert (B : has_type T_U128 (VInt128 0)) by (apply ht_int128; [cbn; tauto|lia]).
  assert (S0 : has_type T_STR (VStr [])) by (apply ht_str; [constructor|rewrite (@len_nil N); lia|intros; discriminate]).
  assert (S1 : has_type T_STR (VStr [48])) by (apply ht_str; [constructor; [lia|constructor]|vm_compute; discriminate|intros c r H; injection H as <- <-; split; discriminate]).
  revert w. apply Forall_forall. repeat (apply Forall_cons; [first [exact A|exact B|exact S0|exact S1|apply Z; cbn; tauto]|]). constructor.
Qed.
Lemma enum_ok pv ec w : provider_ok pv -> In w (common_table ++ image_table ++ audio_table ++ video_table) -> w_flag w = ENUM ->
  Forall (has_type (w_type w)) (map VInt (enum_values pv ec (w_code w))).
Proof.
  intros O. assert (L16 : forall l, Forall (fun x => x < 2^16) l -> Forall (has_type T_U16) (map VInt l)) by (intros l H; apply Forall_map; revert H; apply Forall_impl; exact ht16).
  assert (L32 : forall l, Forall (fun x => x < 2^32) l -> Forall (has_type T_U32) (map VInt l)) by (intros l H; apply Forall_map; revert H; apply Forall_impl; exact ht32).
  assert (C : Forall (has_type T_U16) (map VInt (enum_values pv ec 0xDE94))).
  { apply L16. unfold enum_values. cbn [N.eqb Pos.eqb]. change (0xDE94 =? 0xDC9D) with false. destruct (ec =? CAT_AUDIO); [apply O|]. destruct (ec =? CAT_VIDEO); [apply O|constructor]. }
  assert (K : Forall (has_type T_U32) (map VInt (enum_values pv ec 0xDE99))) by (apply L32; apply O).
  revert w. match goal with |- forall w, _ -> @?P w => enough (Forall P (common_table ++ image_table ++ audio_table ++ video_table)) as F by (intros w; exact (proj1 (Forall_forall P _) F w)) end.
  repeat (apply Forall_cons; [intros FL; first [discriminate|exact C|exact K|apply L16; repeat (constructor; [vm_compute; reflexivity|]); constructor|apply L32; repeat (constructor; [vm_compute; reflexivity|]); constructor|repeat (constructor; [apply ht_small; [cbn; tauto|vm_compute; reflexivity]|]); constructor]|]). constructor.
Qed.
Lemma range_form pv tc w : provider_ok pv -> In w (common_table ++ image_table ++ audio_table ++ video_table) -> w_flag w = RANGE ->
  w_type w = T_U32 /\ exists a b, tech_range pv tc (w_code w) = Some (a, b) /\ a < 2^32 /\ b < 2^32.
Proof.
  intros O. assert (R : forall p, range_ok p -> exists a b, Some p = Some (a, b) /\ a < 2^32 /\ b < 2^32) by (intros [a b] H; exists a, b; auto).
  revert w. match goal with |- forall w, _ -> @?P w => enough (Forall P (common_table ++ image_table ++ audio_table ++ video_table)) as F by (intros w; exact (proj1 (Forall_forall P _) F w)) end.
  repeat (apply Forall_cons; [intros FL; first [discriminate|split; [reflexivity|]; apply R; first [apply O|destruct (tc =? CAT_IMAGE); apply O]]|]). constructor.
Qed.
Lemma describe_ok pv ec tc w : provider_ok pv -> In w (common_table ++ image_table ++ audio_table ++ video_table) -> item_ok (IOpd (describe pv ec tc w)).
Proof.
  intros O I. cbn [item_ok describe opd_type opd_default opd_form]. split; [apply typed_ok; exact I|]. unfold form_of. destruct (w_flag w) eqn:F; cbn [form_ok]; try exact Logic.I.
  - destruct (range_form pv tc w O I F) as (T & a & b & -> & A & B). cbn [form_ok]. rewrite T. split; [apply ht32; exact A|]. split; [apply ht32; exact B|apply ht32; reflexivity].
  - split; [unfold len; rewrite map_length; reflexivity|]. apply enum_ok; assumption.
  - reflexivity.
Qed.
Theorem C63_sendable : forall pv c p d, provider_ok pv -> pod_desc pv c p = (R_OK, Some d) -> item_ok (IOpd d).
Proof.
  intros pv c p d O H. unfold pod_desc in H.
  assert (G : forall ec tc t, incl t (common_table ++ image_table ++ audio_table ++ video_table) -> forall d, aget p (qmap (describe pv ec tc) t) = Some d -> item_ok (IOpd d)).
  { intros ec tc t S e E. apply qmap_get in E as (w & A & _ & ->). apply describe_ok; [exact O|]. apply S. exact A. }
  assert (I1 : incl common_table (common_table ++ image_table ++ audio_table ++ video_table)) by (apply incl_appl, incl_refl).
  assert (I2 : incl image_table (common_table ++ image_table ++ audio_table ++ video_table)) by (apply incl_appr, incl_appl, incl_refl).
  assert (I3 : incl audio_table (common_table ++ image_table ++ audio_table ++ video_table)) by (apply incl_appr, incl_appr, incl_appl, incl_refl).
  assert (I4 : incl video_table (common_table ++ image_table ++ audio_table ++ video_table)) by (apply incl_appr, incl_appr, incl_appr, incl_refl).
  destruct (aget p (common_map pv)) eqn:E; [apply (f_equal snd) in H; injection H as <-; exact (G _ _ _ I1 _ E)|].
  apply (f_equal snd) in H. cbn [snd] in H. destruct (c =? CAT_IMAGE); [exact (G _ _ _ I2 _ H)|]. destruct (c =? CAT_AUDIO); [exact (G _ _ _ I3 _ H)|]. destruct (c =? CAT_VIDEO); [exact (G _ _ _ I4 _ H)|discriminate].
Qed.
(** These tables meet what the responder's theorems ask of them (RSpec.tables_ok). *)
Theorem C63_responder_tables : forall pv, tables_ok (pod_props pv) (pod_desc pv).
Proof.
  intros pv. split.
  - intros c p H. unfold pod_desc in *. destruct (aget p (common_map pv)) as [d|]; [exists d; reflexivity|]. cbn [fst snd] in *. destruct (if c =? CAT_IMAGE then _ else _) as [d|]; [exists d; reflexivity|discriminate].
  - intros c p H I. destruct (C63_listed_described pv c p H I) as (d & E & _). exists d. rewrite E. reflexivity.
Qed.
(** Device properties: the five built-in ones are described with their code and their
    description can be sent; no other is (without extensions). *)
Theorem C63_device_described : forall pv now code, provider_ok pv -> provider_ok now ->
  (In code [0x5001; 0xD401; 0xD402; 0xD405; 0xD407] /\ exists d, dev_desc pv now code = (R_OK, Some d) /\ dpd_code d = code /\ item_ok (IDpd d)) \/
  (~ In code [0x5001; 0xD401; 0xD402; 0xD405; 0xD407] /\ dev_desc pv now code = (R_DevicePropNotSupported, None)).
Proof.
  intros pv now code O P. unfold dev_desc.
  destruct (code =? 0x5001) eqn:E1; [left; apply N.eqb_eq in E1; subst; split; [cbn; tauto|]; eexists; split; [reflexivity|]; split; [reflexivity|]; cbn [item_ok dpd_type dpd_default dpd_current dpd_form form_ok]; (split; [apply ht_small; [cbn; tauto|lia]|split; [apply ht_small; [cbn; tauto|apply P]|repeat split; apply ht_small; first [cbn; tauto|lia]]])|].
  destruct (code =? 0xD401) eqn:E2; [left; apply N.eqb_eq in E2; subst; split; [cbn; tauto|]; eexists; split; [reflexivity|]; split; [reflexivity|]; split; [apply O|split; [apply P|exact Logic.I]]|].
  destruct (code =? 0xD402) eqn:E3; [left; apply N.eqb_eq in E3; subst; split; [cbn; tauto|]; eexists; split; [reflexivity|]; split; [reflexivity|]; split; [apply O|split; [apply P|exact Logic.I]]|].
  destruct (code =? 0xD405) eqn:E4; [left; apply N.eqb_eq in E4; subst; split; [cbn; tauto|]; eexists; split; [reflexivity|]; split; [reflexivity|]; split; [apply ht_vec; [cbn; tauto|constructor]|split; [apply ht_vec; [cbn; tauto|apply P]|exact Logic.I]]|].
  destruct (code =? 0xD407) eqn:E5; [left; apply N.eqb_eq in E5; subst; split; [cbn; tauto|]; eexists; split; [reflexivity|]; split; [reflexivity|]; split; [apply ht32; apply O|split; [apply ht32; apply P|exact Logic.I]]|].
  right. split; [|reflexivity]. apply N.eqb_neq in E1, E2, E3, E4, E5. cbn [In]. intuition congruence.
Qed.
(** The shipped configuration advertises the copyright property, which has no description. *)
Theorem C63_copyright_refuted : In 0x501F shipped_dev_props /\ forall pv now, dev_desc pv now 0x501F = (R_DevicePropNotSupported, None).
Proof. split; [cbn; tauto|reflexivity]. Qed.
Theorem C63_shipped_partial : forall pv now code, In code shipped_dev_props -> code <> 0x501F -> exists d, dev_desc pv now code = (R_OK, Some d) /\ dpd_code d = code.
Proof. intros pv now code I N. cbn [shipped_dev_props In] in I. repeat (destruct I as [<-|I]; [first [contradiction|eexists; split; reflexivity]|]). contradiction. Qed.
(** Every format, listed or not, has a category whose properties are listed. *)
Theorem C63_formats : forall pv common audio video image f,
  fst (pod_props pv (format_category common audio video image f)) = R_OK.
Proof. intros. unfold format_category. repeat match goal with |- context [if ?b then _ else _] => destruct b; try reflexivity end. Qed.
(** The limits of a property are the provider's: e.g. picture and video widths. *)
Theorem C63_widths : forall pv, exists di dv,
  pod_desc pv CAT_IMAGE 0xDC87 = (R_OK, Some di) /\ opd_form di = FRange (VInt (fst (pv_image_w pv))) (VInt (snd (pv_image_w pv))) (VInt 1) /\
  pod_desc pv CAT_VIDEO 0xDC87 = (R_OK, Some dv) /\ opd_form dv = FRange (VInt (fst (pv_video_w pv))) (VInt (snd (pv_video_w pv))) (VInt 1).
Proof.
  intros [a b c d e f [x y] h [z w] j k l m n o]. do 2 eexists. repeat split; vm_compute; reflexivity.
Qed.
(** The data types are those of the MTP specification (appendix B), written down here on their own. *)
Definition mtp_u8 := [0xDC4F].
Definition mtp_u16 := [0xDC02; 0xDC03; 0xDC81; 0xDC8B; 0xDC9D; 0xDE92; 0xDE94].
Definition mtp_u32 := [0xDC01; 0xDC0B; 0xDC83; 0xDC84; 0xDC87; 0xDC88; 0xDC89; 0xDC91; 0xDE93; 0xDE99; 0xDE9A; 0xDE9B; 0xDE9C; 0xDE9D].
Definition mtp_str := [0xDC07; 0xDC08; 0xDC09; 0xDC44; 0xDC46; 0xDC8C; 0xDC9A].
Definition mtp_type (p : N) : N :=
  if existsb (N.eqb p) mtp_u8 then 2 else if existsb (N.eqb p) mtp_u16 then 4 else if existsb (N.eqb p) mtp_u32 then 6 else
  if p =? 0xDC04 then 8 else if p =? 0xDC41 then 10 else if p =? 0xDC86 then 0x4002 else if existsb (N.eqb p) mtp_str then 0xFFFF else 0.
Theorem C63_types : forall pv c p d, pod_desc pv c p = (R_OK, Some d) -> opd_type d = mtp_type p /\ mtp_type p <> 0.
Proof.
  intros pv c p d E.
  assert (G : forall e t k, (forall w, In w k -> w_type w = mtp_type (w_code w) /\ mtp_type (w_code w) <> 0) -> forall m, (forall x y, aget x m = Some y -> opd_type y = mtp_type x /\ mtp_type x <> 0) ->
     forall x y, aget x (fold_left (fun m w => qinsert (w_code w) (describe pv e t w) m) k m) = Some y -> opd_type y = mtp_type x /\ mtp_type x <> 0).
  { intros e t. induction k as [|w k IH]; intros HK m HM; [exact HM|]. cbn [fold_left]. apply IH; [intros w' I; apply HK; right; exact I|]. intros x y.
    assert (Q : forall (v : objpropdesc) l, aget x (qinsert (w_code w) v l) = if x =? w_code w then Some v else aget x l).
    { clear. intros v. induction l as [|[k' v'] l IH]; cbn [qinsert].
      - cbn [aget]. destruct (x =? w_code w) eqn:E; rewrite ?(N.eqb_sym (w_code w) x), ?E; reflexivity.
      - destruct (w_code w =? k') eqn:E1; [|destruct (w_code w <? k') eqn:E2].
        + apply N.eqb_eq in E1. subst k'. cbn [aget]. rewrite ?(N.eqb_sym (w_code w) x). destruct (x =? w_code w); reflexivity.
        + cbn [aget]. rewrite ?(N.eqb_sym (w_code w) x). destruct (x =? w_code w) eqn:E; reflexivity.
        + cbn [aget]. rewrite IH. rewrite ?(N.eqb_sym k' x). destruct (x =? w_code w) eqn:E; [|reflexivity]. apply N.eqb_eq in E. subst x. rewrite E1. reflexivity. }
    rewrite Q. destruct (x =? w_code w) eqn:EX; [|apply HM]. apply N.eqb_eq in EX. subst x. intros Y. injection Y as <-. apply HK. left. reflexivity. }
  assert (N0 : forall x (y : objpropdesc), aget x [] = Some y -> opd_type y = mtp_type x /\ mtp_type x <> 0) by discriminate.
  assert (TB : forall k, forallb (fun w => (w_type w =? mtp_type (w_code w)) && negb (mtp_type (w_code w) =? 0)) k = true -> forall w, In w k -> w_type w = mtp_type (w_code w) /\ mtp_type (w_code w) <> 0).
  { intros k H w I. pose proof (proj1 (forallb_forall _ _) H w I) as X. apply andb_true_iff in X as [X1 X2]. apply N.eqb_eq in X1. apply negb_true_iff, N.eqb_neq in X2. auto. }
  unfold pod_desc, common_map, image_map, audio_map, video_map, qmap in E.
  pose proof (G CAT_COMMON 0 common_table (TB common_table eq_refl) [] N0 p) as G1. pose proof (G CAT_IMAGE CAT_IMAGE image_table (TB image_table eq_refl) [] N0 p) as G2.
  pose proof (G CAT_AUDIO CAT_AUDIO audio_table (TB audio_table eq_refl) [] N0 p) as G3. pose proof (G CAT_VIDEO CAT_AUDIO video_table (TB video_table eq_refl) [] N0 p) as G4.
  destruct (aget p _) as [y|]; [injection E as <-; apply G1; reflexivity|].
  destruct (c =? CAT_IMAGE); [|destruct (c =? CAT_AUDIO); [|destruct (c =? CAT_VIDEO); [|discriminate E]]].
  - destruct (aget p _) as [y|]; [injection E as <-; apply G2; reflexivity|discriminate E].
  - destruct (aget p _) as [y|]; [injection E as <-; apply G3; reflexivity|discriminate E].
  - destruct (aget p _) as [y|]; [injection E as <-; apply G4; reflexivity|discriminate E].
Qed.
(** Every object has the properties MTP requires; pictures and videos have a width and height,
    pictures a thumbnail, sound and video the usual descriptions *)
Definition required (c : N) : list N :=
  [0xDC01; 0xDC02; 0xDC03; 0xDC04; 0xDC07; 0xDC08; 0xDC09; 0xDC0B; 0xDC41; 0xDC44] ++
  (if c =? CAT_IMAGE then [0xDC87; 0xDC88; 0xDC81; 0xDC83; 0xDC84; 0xDC86] else
   if c =? CAT_AUDIO then [0xDC46; 0xDC9A; 0xDC8B; 0xDC8C; 0xDC89; 0xDE93; 0xDE94; 0xDE99; 0xDE9A] else
   if c =? CAT_VIDEO then [0xDC87; 0xDC88; 0xDC46; 0xDC9A; 0xDC8C; 0xDC89; 0xDE93; 0xDE94; 0xDE99; 0xDE9A; 0xDE9B; 0xDE9C; 0xDE9D] else []).
Theorem C63_required : forall pv c p, fst (pod_props pv c) = R_OK -> In p (required c) -> exists d, pod_desc pv c p = (R_OK, Some d).
Proof.
  intros pv c p H I. unfold required in I. apply in_app_or in I as [I|I].
  - cbn [In] in I. repeat (destruct I as [<-|I]; [eexists; unfold pod_desc; reflexivity|]). contradiction.
  - destruct (c =? CAT_IMAGE) eqn:E1; [apply N.eqb_eq in E1; subst c|destruct (c =? CAT_AUDIO) eqn:E2; [apply N.eqb_eq in E2; subst c|destruct (c =? CAT_VIDEO) eqn:E3; [apply N.eqb_eq in E3; subst c|contradiction]]];
      cbn [In] in I; repeat (destruct I as [<-|I]; [eexists; unfold pod_desc; reflexivity|]); contradiction.
Qed.
(** The limits are the device's own, each its own. *)
Definition limits (pv : provider) (c p : N) (r : N * N) : Prop := exists d, pod_desc pv c p = (R_OK, Some d) /\ opd_form d = FRange (VInt (fst r)) (VInt (snd r)) (VInt 1).
Definition choices (pv : provider) (c p : N) (l : list N) : Prop := exists d, pod_desc pv c p = (R_OK, Some d) /\ opd_form d = FEnum (len l) (map VInt l).
Theorem C63_limits : forall pv,
  limits pv CAT_IMAGE 0xDC87 (pv_image_w pv) /\ limits pv CAT_IMAGE 0xDC88 (pv_image_h pv) /\
  limits pv CAT_IMAGE 0xDC84 (pv_image_w pv) /\ limits pv CAT_IMAGE 0xDC83 (pv_image_h pv) /\
  limits pv CAT_VIDEO 0xDC87 (pv_video_w pv) /\ limits pv CAT_VIDEO 0xDC88 (pv_video_h pv) /\
  limits pv CAT_AUDIO 0xDE9A (pv_audio_bitrate pv) /\ limits pv CAT_VIDEO 0xDE9A (pv_audio_bitrate pv) /\
  limits pv CAT_VIDEO 0xDE9C (pv_video_bitrate pv) /\ limits pv CAT_VIDEO 0xDE9D (pv_fps pv) /\
  choices pv CAT_AUDIO 0xDE94 (pv_audio_channels pv) /\ choices pv CAT_VIDEO 0xDE94 (pv_video_channels pv) /\
  choices pv CAT_AUDIO 0xDE99 (pv_codecs pv) /\ choices pv CAT_VIDEO 0xDE99 (pv_codecs pv).
Proof.
  intros [a b c [d1 d2] [e1 e2] [f1 f2] [x y] [h1 h2] [z w] [j1 j2] k l m n o].
  repeat split; eexists; split; reflexivity.
Qed.
(** example: the shipped limits *)
Definition shipped_provider : provider :=
  mk_provider [1; 2] [1; 2] [0; 1; 6; 7; 0x55; 0x160; 0x161; 0x162; 0x4201; 0xA106; 0x22] (0, 0xFFFFFFFF) (0, 0xFFFFFFFF) (0, 100000)
    (0, 5000) (0, 5000) (0, 1920) (0, 1080) 100 [70] [70] [] 3.
Example C63_example : provider_ok shipped_provider /\ List.length (snd (pod_props shipped_provider CAT_VIDEO)) = 27%nat /\
  pod_desc shipped_provider CAT_AUDIO 0xDC8C = (R_OK, Some (mk_opd 0xDC8C 0xFFFF true (VStr [48]) 0 FNone)).
Proof.
  split; [|split; vm_compute; reflexivity].
  assert (S : str_ok [70]) by (apply ht_str; [constructor; [lia|constructor]|vm_compute; discriminate|intros c r H; injection H as <- <-; split; discriminate]).
  assert (F : forall b l, forallb (fun x => x <? b) l = true -> Forall (fun x => x < b) l).
  { intros b l H. apply Forall_forall. intros x I. apply N.ltb_lt. exact (proj1 (forallb_forall _ _) H x I). }
  split; first [exact S|apply F; vm_compute; reflexivity|split; vm_compute; reflexivity|vm_compute; reflexivity].
Qed.
Print Assumptions C63_listed_described.
Print Assumptions C63_described_listed.
Print Assumptions C63_listed_once.
Print Assumptions C63_sendable.
Print Assumptions C63_responder_tables.
Print Assumptions C63_device_described.
Print Assumptions C63_copyright_refuted.
Print Assumptions C63_shipped_partial.
Print Assumptions C63_formats.
Print Assumptions C63_widths.
Print Assumptions C63_types.
Print Assumptions C63_required.
Print Assumptions C63_limits.
