(** C99: the values a property description itself carries against the restriction (form)
    it carries. *)
From Coq Require Import NArith List Bool Lia.
Import ListNotations.
From Verif Require Import Base AList Wire WireSpec Responder RSpec Pod P_Pod.
Open Scope N_scope.

(** ** Specification *)
(** What MTP says a form permits: a range permits the numbers from its minimum to its maximum
    in its steps, an enumeration the values listed. *)
Definition permitted (f : form) (v : variant) : Prop :=
  match f with
  | FRange (VInt a) (VInt b) (VInt s) => exists x k, v = VInt x /\ x = a + k * s /\ x <= b
  | FRange _ _ _ => False
  | FEnum _ l => In v l
  | _ => True
  end.
(** The properties whose permitted values never include zero: the representative sample's
    format, the sample rate and the video codec *)
Definition never_zero (p : N) : Prop := p = 0xDC81 \/ p = 0xDE93 \/ p = 0xDE9B.
(** the device's own restriction of a property admits zero *)
Definition device_admits (pv : provider) (c p : N) : Prop :=
  (p = 0xDE94 -> In 0 (if c =? CAT_AUDIO then pv_audio_channels pv else pv_video_channels pv)) /\
  (p = 0xDE99 -> In 0 (pv_codecs pv)) /\
  (p = 0xDE9A -> fst (pv_audio_bitrate pv) = 0) /\
  (p = 0xDE9C -> fst (pv_video_bitrate pv) = 0) /\
  (p = 0xDE9D -> fst (pv_fps pv) = 0) /\
  (p = 0xDC87 \/ p = 0xDC84 -> fst (if c =? CAT_IMAGE then pv_image_w pv else pv_video_w pv) = 0) /\
  (p = 0xDC88 \/ p = 0xDC83 -> fst (if c =? CAT_IMAGE then pv_image_h pv else pv_video_h pv) = 0).

(** ** Proofs *)
Lemma in_zero l : In (VInt 0) (map VInt l) <-> In 0 l.
Proof.
  split; intros H; [|change (VInt 0) with (VInt 0); apply in_map; exact H].
  apply in_map_iff in H as (x & E & I). congruence.
Qed.
Lemma range_zero a b : permitted (FRange (VInt a) (VInt b) (VInt 1)) (VInt 0) <-> a = 0.
Proof.
  cbn [permitted]. split.
  - intros (x & k & E & A & _). assert (x = 0) by congruence. nia.
  - intros ->. exists 0, 0. split; [reflexivity|]. split; [reflexivity|]. apply N.le_0_l.
Qed.
Lemma desc_raw pv c p d : pod_desc pv c p = (R_OK, Some d) ->
  (exists w, In w common_table /\ w_code w = p /\ d = describe pv CAT_COMMON 0 w) \/
  (c = CAT_IMAGE /\ exists w, In w image_table /\ w_code w = p /\ d = describe pv CAT_IMAGE CAT_IMAGE w) \/
  (c = CAT_AUDIO /\ exists w, In w audio_table /\ w_code w = p /\ d = describe pv CAT_AUDIO CAT_AUDIO w) \/
  (c = CAT_VIDEO /\ exists w, In w video_table /\ w_code w = p /\ d = describe pv CAT_VIDEO CAT_AUDIO w).
Proof.
  unfold pod_desc. destruct (aget p (common_map pv)) as [x|] eqn:E.
  - intros H. injection H as <-. left. apply qmap_get in E. exact E.
  - destruct (c =? CAT_IMAGE) eqn:E1; [|destruct (c =? CAT_AUDIO) eqn:E2; [|destruct (c =? CAT_VIDEO) eqn:E3; [|discriminate]]].
    + destruct (aget p (image_map pv)) as [x|] eqn:G; [|discriminate]. intros H. injection H as <-. apply N.eqb_eq in E1. right; left. split; [exact E1|]. apply qmap_get in G. exact G.
    + destruct (aget p (audio_map pv)) as [x|] eqn:G; [|discriminate]. intros H. injection H as <-. apply N.eqb_eq in E2. right; right; left. split; [exact E2|]. apply qmap_get in G. exact G.
    + destruct (aget p (video_map pv)) as [x|] eqn:G; [|discriminate]. intros H. injection H as <-. apply N.eqb_eq in E3. right; right; right. split; [exact E3|]. apply qmap_get in G. exact G.
Qed.

(** The default a description carries is permitted by the form it carries exactly if the
    property is not one of the three and the device's own restriction admits zero. *)
Theorem C99_default : forall pv c p d, pod_desc pv c p = (R_OK, Some d) ->
  (permitted (opd_form d) (opd_default d) <-> ~ never_zero p /\ device_admits pv c p).
Proof.
  intros pv c p d E. apply desc_raw in E.
  unfold never_zero, device_admits.
  destruct E as [(w & I & <- & ->)|[(-> & w & I & <- & ->)|[(-> & w & I & <- & ->)|(-> & w & I & <- & ->)]]]; cbn [In common_table image_table audio_table video_table] in I;
    repeat (destruct I as [<-|I]; [cbn [w_code w_type w_default w_flag describe opd_form opd_default]|]); try contradiction;
    cbv [describe form_of enum_values tech_range w_code w_flag w_type w_default opd_form opd_default typed zero empty T_STR T_U8 T_U16 T_U32 T_U64 T_U128 T_AU8 N.eqb Pos.eqb orb CAT_IMAGE CAT_AUDIO CAT_VIDEO CAT_COMMON];
    try (destruct (pv_audio_bitrate pv) as [? ?] eqn:?Q1); try (destruct (pv_video_bitrate pv) as [? ?] eqn:?Q2); try (destruct (pv_fps pv) as [? ?] eqn:?Q3).
  all: try (destruct (pv_image_w pv) as [? ?] eqn:?Q4); try (destruct (pv_image_h pv) as [? ?] eqn:?Q5); try (destruct (pv_video_w pv) as [? ?] eqn:?Q6); try (destruct (pv_video_h pv) as [? ?] eqn:?Q7).
  all: rewrite ?range_zero; cbn [permitted fst]; rewrite ?in_zero.
  all: split; [intros H|intros [NZ (A1 & A2 & A3 & A4 & A5 & A6 & A7)]].
  all: try (exfalso; apply NZ; auto; fail).
  all: try exact I.
  all: try (cbn [In map]; auto 10; fail).
  all: try (split; [intros [X|[X|X]]; (discriminate X || (cbn [In map] in H; repeat (destruct H as [H|H]; [discriminate H|]); contradiction))|
     repeat match goal with |- _ /\ _ => split end; intros X; try discriminate X; try (destruct X as [X|X]; discriminate X); try assumption; try congruence]).
Qed.

(** Not so for the three, whatever the device: sample rate of sound and video, the thumbnail
    format of pictures, the codec of videos. *)
Theorem C99_default_refuted : forall pv,
  (exists d, pod_desc pv CAT_AUDIO 0xDE93 = (R_OK, Some d) /\ ~ permitted (opd_form d) (opd_default d)) /\
  (exists d, pod_desc pv CAT_VIDEO 0xDE93 = (R_OK, Some d) /\ ~ permitted (opd_form d) (opd_default d)) /\
  (exists d, pod_desc pv CAT_VIDEO 0xDE9B = (R_OK, Some d) /\ ~ permitted (opd_form d) (opd_default d)) /\
  (exists d, pod_desc pv CAT_IMAGE 0xDC81 = (R_OK, Some d) /\ ~ permitted (opd_form d) (opd_default d)).
Proof.
  intros pv.
  assert (K : forall c p, (exists d, pod_desc pv c p = (R_OK, Some d)) -> never_zero p -> exists d, pod_desc pv c p = (R_OK, Some d) /\ ~ permitted (opd_form d) (opd_default d)).
  { intros c p (d & E) NZ. exists d. split; [exact E|]. intros P. apply (proj1 (C99_default pv c p d E)) in P as [P _]. exact (P NZ). }
  split; [|split; [|split]]; (apply K; [eexists; unfold pod_desc; reflexivity|unfold never_zero; auto]).
Qed.

(** The default of every other property of the shipped configuration is permitted, but for the
    number of channels. *)
Theorem C99_shipped : forall c p d, pod_desc shipped_provider c p = (R_OK, Some d) ->
  (permitted (opd_form d) (opd_default d) <-> ~ never_zero p /\ p <> 0xDE94).
Proof.
  intros c p d E. rewrite (C99_default _ _ _ _ E). split.
  - intros [A (B & _)]. split; [exact A|]. intros X. specialize (B X). destruct (c =? CAT_AUDIO); cbn in B; intuition discriminate.
  - intros [A B]. split; [exact A|]. unfold device_admits. repeat match goal with |- _ /\ _ => split end; intros X; try contradiction; try reflexivity; try (destruct (c =? CAT_IMAGE); reflexivity).
    left; reflexivity.
Qed.

(** A device property's default is permitted; its current value too, except the battery level
    between the steps of ten the description announces. *)
Theorem C99_device : forall pv now code d, dev_desc pv now code = (R_OK, Some d) ->
  permitted (dpd_form d) (dpd_default d) /\
  (permitted (dpd_form d) (dpd_current d) <-> (code = 0x5001 -> pv_battery now <= 100 /\ pv_battery now mod 10 = 0)).
Proof.
  intros pv now code d E. unfold dev_desc in E.
  destruct (code =? 0x5001) eqn:E1.
  - injection E as <-. apply N.eqb_eq in E1. subst code. cbn [dpd_form dpd_default dpd_current]. split.
    + exists 0, 0. split; [reflexivity|]. split; [reflexivity|lia].
    + cbn [permitted]. split.
      * intros (x & k & X & Y & Z) _. assert (QX : pv_battery now = x) by congruence. rewrite QX. split; [lia|]. rewrite Y, N.add_0_l. apply N.mod_mul. discriminate.
      * intros H. destruct (H eq_refl) as [H1 H2]. exists (pv_battery now), (pv_battery now / 10). split; [reflexivity|]. split; [|exact H1].
        pose proof (N.div_mod (pv_battery now) 10 ltac:(discriminate)) as Q. lia.
  - assert (NB : code <> 0x5001) by (apply N.eqb_neq; exact E1).
    destruct (code =? 0xD401); [|destruct (code =? 0xD402); [|destruct (code =? 0xD405); [|destruct (code =? 0xD407); [|discriminate]]]];
      injection E as <-; cbn [dpd_form dpd_default dpd_current permitted]; (split; [exact I|]; split; [intros _ X; contradiction|intros _; exact I]).
Qed.
Theorem C99_battery_refuted : exists now d, provider_ok now /\ dev_desc now now 0x5001 = (R_OK, Some d) /\ dpd_current d = VInt 57 /\ ~ permitted (dpd_form d) (dpd_current d).
Proof.
  set (now := mk_provider [1; 2] [1; 2] [0] (0, 1) (0, 1) (0, 1) (0, 1) (0, 1) (0, 1) (0, 1) 57 [70] [70] [] 3).
  exists now. eexists. split.
  - pose proof (proj1 C63_example) as P. destruct P as [a1 a2 a3 a4 a5 a6 a7 a8 a9 a10 a11 a12 a13 a14 a15].
    split; first [exact a12|exact a13|repeat constructor|split; vm_compute; reflexivity|vm_compute; reflexivity].
  - split; [reflexivity|]. split; [reflexivity|]. cbn [dpd_form dpd_current permitted now pv_battery]. intros (x & k & X & Y & _). assert (x = 57) by congruence. lia.
Qed.
(** What may be changed: of every object its file name and its name, of sound and video also
    everything that describes the recording; never what says where an object is, how big it
    is or what it is, nor anything about pictures. *)
Definition identity : list N := [0xDC01; 0xDC02; 0xDC03; 0xDC04; 0xDC08; 0xDC09; 0xDC0B; 0xDC41; 0xDC4F].
Theorem C63_settable : forall pv c p d, pod_desc pv c p = (R_OK, Some d) ->
  (opd_getset d = true <-> p = 0xDC07 \/ p = 0xDC44 \/ (~ In p identity /\ (c = CAT_AUDIO \/ c = CAT_VIDEO))).
Proof.
  intros pv c p d E. apply desc_raw in E.
  destruct E as [(w & I & <- & ->)|[(-> & w & I & <- & ->)|[(-> & w & I & <- & ->)|(-> & w & I & <- & ->)]]]; cbn [In common_table image_table audio_table video_table] in I;
    repeat (destruct I as [<-|I]; [cbn [describe opd_getset w_set w_code]|]); try contradiction.
  all: split; [intros H; try discriminate H|intros [H|[H|[H1 H2]]]; try reflexivity; try discriminate H].
  all: try (left; reflexivity); try (right; left; reflexivity).
  all: try (exfalso; apply H1; cbn [In identity]; auto 15; fail).
  all: try (destruct H2 as [H2|H2]; discriminate H2).
  all: right; right; split; [cbn [In identity]; intros X; repeat (destruct X as [X|X]; [discriminate X|]); exact X|auto].
Qed.
Theorem C63_device_settable : forall pv now code d, dev_desc pv now code = (R_OK, Some d) ->
  (dpd_getset d = true <-> code = 0xD401 \/ code = 0xD402).
Proof.
  intros pv now code d E. unfold dev_desc in E.
  repeat match type of E with (if ?a =? ?b then _ else _) = _ => destruct (a =? b) eqn:?Q end; try discriminate E; injection E as <-; rewrite N.eqb_eq in *; cbn [dpd_getset];
    split; intros H; try discriminate H; auto; destruct H as [H|H]; subst; discriminate.
Qed.
(** the statements are about descriptions that exist and whose forms restrict something *)
Example C99_example : exists d, pod_desc shipped_provider CAT_VIDEO 0xDC87 = (R_OK, Some d) /\ opd_form d = FRange (VInt 0) (VInt 1920) (VInt 1) /\ permitted (opd_form d) (opd_default d) /\
  ~ permitted (opd_form d) (VInt 1921).
Proof.
  eexists. split; [unfold pod_desc; reflexivity|]. split; [reflexivity|]. split.
  - exists 0, 0. split; [reflexivity|]. split; [reflexivity|lia].
  - intros (x & k & X & Y & Z). assert (x = 1921) by congruence. cbn in Z. lia.
Qed.
Print Assumptions C99_default.
Print Assumptions C99_default_refuted.
Print Assumptions C99_shipped.
Print Assumptions C99_device.
Print Assumptions C99_battery_refuted.
Print Assumptions C63_settable.
Print Assumptions C63_device_settable.
