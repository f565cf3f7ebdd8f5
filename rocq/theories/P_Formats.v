(** C79 and C63, continued: which format a name gives, and what is described for a format. *)
From Coq Require Import String Ascii.
From Verif Require Import Base DevInfo ExtFormat DevInfoDemo DevInfoProofs Responder RAdv P_DevInfo.
From Verif Require P_FS4 Wire Pod FS FSLogic FSSpec FSReach FSNamed FSDemo P_Watch.
Import Verif.DevInfo.
Open Scope string_scope.
Open Scope list_scope.
Open Scope N_scope.

(** ** C79 the formats of the usual extensions *)
(** Specification: the formats and extensions of MTP, from the comments of mts/common/mtptypes.h:314-403
    (not from the table the program uses); formats that share an extension are left out, and ASF for
    wmv, which has a format of its own. *)
Definition documented : list (N * list string) :=
  [(0x3004, ["txt"]); (0x3005, ["html"; "htm"]); (0x3006, ["mrk"]); (0x3007, ["aiff"; "aif"]); (0x3008, ["wav"]); (0x3009, ["mp3"]);
   (0x300A, ["avi"]); (0x300B, ["mpeg"; "mpg"]); (0x3801, ["jpeg"; "jpg"]); (0x3803, ["fpx"]); (0x3804, ["bmp"; "dib"]); (0x3805, ["crw"]);
   (0x3807, ["gif"]); (0x3808, ["jfif"; "jfi"]); (0x3809, ["pcd"]); (0x380A, ["pict"; "pct"; "pic"]); (0x380B, ["png"]); (0x380D, ["tiff"; "tif"]);
   (0x380F, ["jp2"]); (0x3810, ["jpx"]); (0xB803, ["wbmp"]); (0xB804, ["jxr"; "hdp"; "wdp"]); (0xB901, ["wma"]); (0xB902, ["ogg"]); (0xB903, ["aac"]);
   (0xB904, ["aa"; "aax"]); (0xB906, ["flac"]); (0xB907, ["qcp"]); (0xB908, ["amr"]); (0xB981, ["wmv"]); (0xB982, ["mp4"]); (0xB983, ["mp2"]); (0xB984, ["3gp"]);
   (0xB985, ["3g2"]); (0xB986, ["mts"; "m2ts"]); (0xB988, ["ts"]); (0xBA10, ["wpl"]); (0xBA11, ["m3u"; "m3u8"]); (0xBA12, ["mpl"; "mpls"]);
   (0xBA13, ["asx"]); (0xBA14, ["pls"]); (0xBA82, ["xml"]); (0xBA84, ["mht"; "mhtml"])].
(** the characters of an extension, and the same in any mixture of letter cases *)
Definition letters (s : string) : text := map N_of_ascii (list_ascii_of_string s).
Definition spelled (s : string) (t : text) : Prop := Forall2 same_letter t (letters s).

Lemma spelled_lower lower s t : ascii_lower lower -> Forall (fun c => c < 128 /\ ~ (65 <= c <= 90)) (letters s) -> spelled s t -> map lower t = letters s.
Proof.
  intros [L1 L2] LO F. unfold spelled in F. revert LO. induction F as [|a b l l' H F IH]; intros LO; [reflexivity|]. apply Forall_cons_iff in LO as [[A B] LO].
  cbn [map]. rewrite (IH LO). f_equal. destruct H as [->|[R ->]]; [apply L2; assumption|apply L1; exact R].
Qed.
Lemma spelled_dot s t : ~ In 46 (letters s) -> spelled s t -> ~ In 46 t.
Proof.
  unfold spelled. intros N F I. induction F as [|a b l l' H F IH]; [exact I|]. destruct I as [->|I].
  - destruct H as [H|[R H]]; [|lia]. apply N. left. congruence.
  - apply IH; [|exact I]. intros J. apply N. right. exact J.
Qed.
(** A file whose name ends in a dot and a documented extension, in any letter case, has the
    documented format. *)
Theorem C79_documented : forall lower stem fmt exts ext t, ascii_lower lower -> In (fmt, exts) documented -> In ext exts -> spelled ext t ->
  format_by_extension lower false (stem ++ 46 :: t) = fmt.
Proof.
  intros lower stem fmt exts ext t LO I J SP.
  assert (A : forallb (fun e => forallb (fun x => existsb (fun p => text_eqb (fst p) (letters x) && (snd p =? fst e)) ext_table && forallb (fun c => (c <? 128) && negb ((65 <=? c) && (c <=? 90)) && negb (c =? 46)) (letters x)) (snd e)) documented = true) by reflexivity.
  rewrite forallb_forall in A. specialize (A _ I). cbn [fst snd] in A. rewrite forallb_forall in A. specialize (A _ J).
  apply andb_prop in A as [A B]. rewrite forallb_forall in B.
  apply existsb_exists in A as ([e f] & IN & EQ). cbn [fst snd] in EQ. apply andb_prop in EQ as [E1 E2]. apply text_eqb_eq in E1. apply N.eqb_eq in E2. subst e f.
  assert (LS : Forall (fun c => c < 128 /\ ~ (65 <= c <= 90)) (letters ext)) by (rewrite Forall_forall; intros c Hc; specialize (B c Hc); lia).
  assert (ND : ~ In 46 (letters ext)) by (intros K; specialize (B 46 K); lia).
  destruct (C79_by_extension lower stem t LO (spelled_dot _ _ ND SP)) as [K _]. exact (K _ _ IN (spelled_lower _ _ _ LO LS SP)).
Qed.
(** Folders, and only folders, are associations - whatever they are called; a file whose name has no dot
    is judged by the name itself (a file called MP3 is sound). *)
Theorem C79_folders : forall lower is_dir path, format_by_extension lower is_dir path = 0x3001 <-> is_dir = true.
Proof.
  intros lower is_dir path. unfold format_by_extension. destruct is_dir; [split; reflexivity|]. split; [|discriminate].
  destruct (lookup (map lower (section_dot path)) ext_table) as [x|] eqn:E; [|discriminate]. apply lookup_in in E. intros ->.
  assert (A : forallb (fun p => negb (snd p =? 0x3001)) ext_table = true) by reflexivity. rewrite forallb_forall in A. specialize (A _ E). discriminate A.
Qed.
Theorem C79_no_dot : forall lower stem path, ~ In 46 path -> format_by_extension lower false path = format_by_extension lower false (stem ++ 46 :: path).
Proof.
  intros lower stem path ND. unfold format_by_extension, section_dot. rewrite last_part_app, !last_part_none by exact ND. reflexivity.
Qed.
(** The storage of the device: files get their format from their name, folders Association, and what
    C97 and the theorems about notifications suppose of the formats holds. *)
Definition by_name (lower : N -> N) (C : FS.conf) : Prop := forall p, FS.c_ext C p = format_by_extension lower false p.
Theorem C79_storage : forall lower C, by_name lower C ->
  P_Watch.files_are_files C /\ forall p w, FS.format_of C p w = format_by_extension lower (FS.is_dir p w) p.
Proof.
  intros lower C H. split.
  - intros p E. rewrite H in E. apply C79_folders in E. discriminate.
  - intros p w. unfold FS.format_of. destruct (FS.is_dir p w); [reflexivity|apply H].
Qed.
(** What the first scan of the folder finds is reported as it is on the disk: every object's format
    follows from its name and kind, every file's size is its length. *)
Theorem C79_scanned : forall lower C fuel puoids w s h v o, by_name lower C -> FS.enumerate C fuel (FS.fs_init puoids w) = Ret (tt, s) ->
  FSSpec.look s h = Some v -> FSSpec.v_info v = Some o ->
  Wire.oi_format o = format_by_extension lower (FS.is_dir (FSSpec.v_path v) w) (FSSpec.v_path v) /\ Wire.oi_storage o = FS.c_sid C /\
  (forall d, FSSpec.content s (FSSpec.v_path v) = Some (FS.File d) -> Wire.oi_size o = len d).
Proof.
  intros lower C fuel pu w s h v o BN E LK VI. destruct (FSNamed.enumerate_named C fuel pu w s E) as [G EN].
  unfold FSSpec.look in LK. destruct (AList.aget h (FS.s_handles s)) as [[p|]|]; try discriminate. destruct (FS.s_heap s p) as [i|] eqn:Hp; [|discriminate]. injection LK as <-. cbn [FSSpec.view_of FSSpec.v_info FSSpec.v_path] in *.
  destruct (G p i o Hp VI) as (A & B & _ & D). rewrite EN in A, B. split; [rewrite A; apply (proj2 (C79_storage lower C BN))|]. split; [exact D|].
  intros d H. unfold FSSpec.content in H. rewrite EN in H. rewrite B. unfold FS.size_of. rewrite H. reflexivity.
Qed.
(** And so is what another program puts into the folder: when the storage hears of it, every object
    that was not there before - what has appeared and, if it is a folder, all below it - is reported
    with the format of its name and kind and the size it has on the disk then. *)
Theorem C79_noticed : forall lower C s f k wd ck n s' h v o, by_name lower C -> FSLogic.supply_ok C -> FSSpec.reachable C s -> FS.s_cache s = None ->
  k = FS.NCreate \/ k = FS.NMovedTo -> FSSpec.exec C (FSSpec.OEvent f (Some (FS.mk_ev k wd ck (Some n)))) s = Ret (tt, s') ->
  FSSpec.look s' h = Some v -> FSSpec.v_info v = Some o -> (forall x u, FSSpec.look s x = Some u -> FSSpec.v_path u <> FSSpec.v_path v) ->
  Wire.oi_format o = format_by_extension lower (FS.is_dir (FSSpec.v_path v) (FS.s_nodes s)) (FSSpec.v_path v) /\ Wire.oi_storage o = FS.c_sid C /\
  (forall d, FSSpec.content s (FSSpec.v_path v) = Some (FS.File d) -> Wire.oi_size o = len d) /\ FS.s_nodes s' = FS.s_nodes s.
Proof.
  intros lower C s f k wd ck n s' h v o BN SO R SC K E LK VI NEW. cbn [FSSpec.exec] in E. destruct (FSNamed.nm_note C _ _ _ _ _ _ _ K SC E) as [EN G].
  unfold FSSpec.look in LK. destruct (AList.aget h (FS.s_handles s')) as [[p|]|]; try discriminate. destruct (FS.s_heap s' p) as [i|] eqn:Hp; [|discriminate]. injection LK as <-. cbn [FSSpec.view_of FSSpec.v_info FSSpec.v_path] in *.
  destruct (G p i o Hp VI) as [(j & J1 & J2 & J3)|(A & B & _ & D)].
  - exfalso. destruct (FSReach.reachable_good C s SO R) as (r & [[ch W] _]). destruct (FSLogic.W_live _ _ _ _ _ W p j J1 ltac:(discriminate)) as [Y _].
    apply (NEW (FS.i_handle j) (FSSpec.view_of s j)); [unfold FSSpec.look; rewrite Y, J1; reflexivity|exact J3].
  - split; [rewrite A; apply (proj2 (C79_storage lower C BN))|]. split; [exact D|]. split; [|exact EN].
    intros d H. rewrite B. unfold FSSpec.content in H. unfold FS.size_of. rewrite H. reflexivity.
Qed.
(** a folder with the file x.Mp3 of three bytes, and the folder y.mp3 *)
Definition named_conf : FS.conf :=
  FS.mk_conf (letters "/s") [] 65537 FS.AllowWithinStorage (format_by_extension (fun c => if (65 <=? c) && (c <=? 90) then c + 32 else c) false) (fun _ => false) (fun t => Some (N.of_nat t)) FSDemo.demo_handle
    (fun t => N.of_nat t + 1000) (fun _ _ => None) (fun _ _ => FSDemo.no_info) (fun _ => Some 1000000) (fun _ => Some 2) (fun _ => false).
Definition named_disk : FS.nodes := [(letters "/s", FS.Dir); (letters "/s/x.Mp3", FS.File [1; 2; 3]); (letters "/s/y.mp3", FS.Dir)].
Example C79_scanned_example : by_name (fun c => if (65 <=? c) && (c <=? 90) then c + 32 else c) named_conf /\
  match FS.enumerate named_conf 5 (FS.fs_init (fun _ => None) named_disk) with
  | Ret (_, s) => map (fun e => match FSSpec.look s (fst e) with Some v => option_map (fun o => (FSSpec.v_path v, Wire.oi_format o, Wire.oi_size o)) (FSSpec.v_info v) | None => None end) (FS.s_handles s)
  | _ => [] end =
  [Some (letters "/s", 0x3001, 0); Some (letters "/s/x.Mp3", 0x3009, 3); Some (letters "/s/y.mp3", 0x3001, 0)].
Proof. split; [intros p; reflexivity|]. vm_compute. reflexivity. Qed.
(** x.mp3, X.MP3 and a folder of that name *)
Definition to_lower (c : N) : N := if (65 <=? c) && (c <=? 90) then c + 32 else c.
Example C79_example2 : ascii_lower to_lower /\ spelled "mp3" [77; 112; 51] /\ format_by_extension to_lower false (letters "a.b/x.Mp3") = 0x3009 /\ format_by_extension to_lower true (letters "x.mp3") = 0x3001 /\
  format_by_extension to_lower false (letters "MP3") = 0x3009.
Proof.
  split; [|split; [|repeat split; reflexivity]].
  - split; intros c H; unfold to_lower; destruct ((65 <=? c) && (c <=? 90)) eqn:E; lia.
  - repeat apply Forall2_cons; try apply Forall2_nil; first [left; reflexivity|right; split; [split; discriminate|reflexivity]].
Qed.

(** another program puts the folder z with a sound file into the folder; the storage hears of z *)
Definition now_disk : FS.nodes := named_disk ++ [(letters "/s/z", FS.Dir); (letters "/s/z/n.ogg", FS.File [1; 2; 3; 4])].
Definition before : FS.fs := FS.set_nodes now_disk (FSDemo.run_or (FS.enumerate named_conf 5 (FS.fs_init (fun _ => None) named_disk))).
Definition heard : FSSpec.op := FSSpec.OEvent 5 (Some (FS.mk_ev FS.NCreate (P_FS4.wd_of before 0) 0 (Some (letters "z")))).
Example C79_noticed_example : FSLogic.supply_ok named_conf /\ FSSpec.reachable named_conf before /\ FS.s_cache before = None /\
  match FSSpec.exec named_conf heard before with
  | Ret (_, s) => map (fun e => match FSSpec.look s (fst e) with Some v => option_map (fun o => (FSSpec.v_path v, Wire.oi_format o, Wire.oi_size o)) (FSSpec.v_info v) | None => None end) (FS.s_handles s)
  | _ => [] end =
  [Some (letters "/s", 0x3001, 0); Some (letters "/s/x.Mp3", 0x3009, 3); Some (letters "/s/y.mp3", 0x3001, 0); Some (letters "/s/z", 0x3001, 0); Some (letters "/s/z/n.ogg", 0xB902, 4)].
Proof.
  split; [|split; [|split; [reflexivity|vm_compute; reflexivity]]].
  - pose proof (FSDemo.demo_supply [] (fun _ => false) (fun _ => Some 2)) as [A B D]. constructor; cbn in *; assumption.
  - unfold before. eapply (FSSpec.reach_step _ _ (FSSpec.OWorld now_disk)); [|exact Logic.I|reflexivity].
    destruct (FS.enumerate named_conf 5 (FS.fs_init (fun _ => None) named_disk)) as [[[] s]| |] eqn:E; [|vm_compute in E; discriminate E..]. cbn [FSDemo.run_or].
    eapply FSSpec.reach_start; [exact E|]. intros Z. assert (Y : match FS.enumerate named_conf 5 (FS.fs_init (fun _ => None) named_disk) with Ret (_, s) => match FS.s_root s with Some _ => true | None => false end | _ => false end = true) by (vm_compute; reflexivity).
    rewrite E, Z in Y. discriminate Y.
Qed.

(** A file renamed by the host keeps the format of its old name - until the folder is scanned again: the
    same disk is then reported with another format.  Refutes: the format follows from the name. *)
Definition scanned (w : FS.nodes) : FS.fs := FSDemo.run_or (FS.enumerate named_conf 5 (FS.fs_init (fun _ => None) w)).
Definition handle_at (s : FS.fs) (p : text) : N := match FS.s_paths s p with Some h => h | None => 0 end.
Theorem C79_renamed_refuted : exists C s h s', by_name to_lower C /\ FSLogic.supply_ok C /\ FSSpec.reachable C s /\
  FSSpec.op_ok C (FSSpec.ORename 5 h (letters "x.txt")) s /\ FSSpec.exec C (FSSpec.ORename 5 h (letters "x.txt")) s = Ret (tt, s') /\
  (exists v o, FSSpec.look s' h = Some v /\ FSSpec.v_path v = letters "/s/x.txt" /\ FSSpec.content s' (FSSpec.v_path v) = Some (FS.File [1; 2; 3]) /\ FSSpec.v_info v = Some o /\ Wire.oi_format o = 0x3009) /\
  (* the disk as it is now, scanned *)
  (exists z h2 v2 o2, FS.enumerate C 5 (FS.fs_init (fun _ => None) (FS.s_nodes s')) = Ret (tt, z) /\ FSSpec.look z h2 = Some v2 /\ FSSpec.v_path v2 = letters "/s/x.txt" /\ FSSpec.v_info v2 = Some o2 /\ Wire.oi_format o2 = 0x3004).
Proof.
  exists named_conf, (scanned named_disk), (handle_at (scanned named_disk) (letters "/s/x.Mp3")).
  eexists. split; [intros p; reflexivity|]. split; [apply C79_noticed_example|]. split.
  { unfold scanned. destruct (FS.enumerate named_conf 5 (FS.fs_init (fun _ => None) named_disk)) as [[[] s]| |] eqn:E; [|vm_compute in E; discriminate E..]. cbn [FSDemo.run_or].
    eapply FSSpec.reach_start; [exact E|]. intros Z. assert (Y : match FS.enumerate named_conf 5 (FS.fs_init (fun _ => None) named_disk) with Ret (_, s) => match FS.s_root s with Some _ => true | None => false end | _ => false end = true) by (vm_compute; reflexivity).
    rewrite E, Z in Y. discriminate Y. }
  split; [vm_compute; repeat split; try discriminate; auto|]. split; [vm_compute; reflexivity|]. split.
  - do 2 eexists. repeat split; vm_compute; reflexivity.
  - match goal with |- context [FS.enumerate _ _ (FS.fs_init _ ?n)] => exists (scanned n); exists (handle_at (scanned n) (letters "/s/x.txt")) end.
    do 2 eexists. split; [vm_compute; reflexivity|]. split; [vm_compute; reflexivity|]. repeat split; vm_compute; reflexivity.
Qed.

(** ** C63 which properties a format has *)
(** Specification: the formats the comments of mtptypes.h call Audio, Image and Video and that the
    device can store; for sound there is the artist and the duration, for pictures width and height,
    for films all of them. *)
Definition sound : list N := [0x3007; 0x3008; 0x3009; 0xB901; 0xB903; 0xB904; 0xB906; 0xB907; 0xB908].
Definition pictures : list N := [0x3800; 0x3801; 0x3802; 0x3803; 0x3804; 0x3805; 0x3807; 0x3808; 0x3809; 0x380A; 0x380B; 0x380D; 0x380E; 0x380F; 0x3810; 0xB803; 0xB804].
Definition films : list N := [0x300A; 0x300B; 0x300C; 0xB981; 0xB986; 0xB987; 0xB988].
Definition ARTIST : N := 0xDC46. Definition DURATION : N := 0xDC89. Definition WIDTH : N := 0xDC87. Definition HEIGHT : N := 0xDC88.
(** the answer to GetObjectPropsSupported for a format on a device that has read the file [f] *)
Definition properties_of (pv : Pod.provider) (i : info) (fmt : N) : N * list N :=
  Pod.pod_props pv (Pod.format_category (n_common i) (n_audio i) (n_video i) (n_image i) fmt).
Lemma image_props pv : let r := Pod.pod_props pv CAT_IMAGE in fst r = R_OK /\ In WIDTH (snd r) /\ In HEIGHT (snd r) /\ ~ In ARTIST (snd r) /\ ~ In DURATION (snd r).
Proof. vm_compute. split; [reflexivity|]. repeat split; intuition discriminate. Qed.
Lemma audio_props pv : let r := Pod.pod_props pv Pod.CAT_AUDIO in fst r = R_OK /\ In ARTIST (snd r) /\ In DURATION (snd r) /\ ~ In WIDTH (snd r) /\ ~ In HEIGHT (snd r).
Proof. vm_compute. split; [reflexivity|]. repeat split; intuition discriminate. Qed.
Lemma video_props pv : let r := Pod.pod_props pv Pod.CAT_VIDEO in fst r = R_OK /\ In ARTIST (snd r) /\ In DURATION (snd r) /\ In WIDTH (snd r) /\ In HEIGHT (snd r).
Proof. vm_compute. split; [reflexivity|]. repeat split; intuition discriminate. Qed.
Lemma has_in f l : existsb (N.eqb f) l = true <-> In f l.
Proof.
  split; [intros H; apply existsb_exists in H as (x & I & E); apply N.eqb_eq in E; congruence|intros I; apply existsb_exists; exists f; split; [exact I|apply N.eqb_refl]].
Qed.
Definition audible (r : N * list N) : Prop := fst r = R_OK /\ In ARTIST (snd r) /\ In DURATION (snd r).
Definition visible (r : N * list N) : Prop := fst r = R_OK /\ In WIDTH (snd r) /\ In HEIGHT (snd r).
(** With the shipped configuration: sound - but AMR - has artist and duration, pictures width and
    height, films both. *)
Theorem C63_media_partial : forall pv fmt, let r := properties_of pv (startup h16 h32 any_number shipped) fmt in
  (In fmt sound -> fmt <> 0xB908 -> audible r) /\ (In fmt pictures -> visible r) /\ (In fmt films -> audible r /\ visible r).
Proof.
  intros pv fmt. cbv zeta. unfold properties_of, audible, visible.
  assert (S : forallb (fun f => (f =? 0xB908) || (Pod.format_category (n_common (startup h16 h32 any_number shipped)) (n_audio (startup h16 h32 any_number shipped)) (n_video (startup h16 h32 any_number shipped)) (n_image (startup h16 h32 any_number shipped)) f =? Pod.CAT_AUDIO)) sound = true) by (vm_compute; reflexivity).
  assert (P : forallb (fun f => Pod.format_category (n_common (startup h16 h32 any_number shipped)) (n_audio (startup h16 h32 any_number shipped)) (n_video (startup h16 h32 any_number shipped)) (n_image (startup h16 h32 any_number shipped)) f =? CAT_IMAGE) pictures = true) by (vm_compute; reflexivity).
  assert (F : forallb (fun f => Pod.format_category (n_common (startup h16 h32 any_number shipped)) (n_audio (startup h16 h32 any_number shipped)) (n_video (startup h16 h32 any_number shipped)) (n_image (startup h16 h32 any_number shipped)) f =? Pod.CAT_VIDEO) films = true) by (vm_compute; reflexivity).
  rewrite forallb_forall in S, P, F. split; [|split].
  - intros I N. specialize (S _ I). apply orb_prop in S as [S|S]; apply N.eqb_eq in S; [contradiction|]. rewrite S. destruct (audio_props pv) as (A & B & C & _). auto.
  - intros I. specialize (P _ I). apply N.eqb_eq in P. rewrite P. destruct (image_props pv) as (A & B & C & _). auto.
  - intros I. specialize (F _ I). apply N.eqb_eq in F. rewrite F. destruct (video_props pv) as (A & B & C & D & E). auto.
Qed.
(** AMR sound is among the picture formats: the device offers width and height for it, neither
    artist nor duration.  Refutes: sound files have the properties of sound. *)
Theorem C63_media_refuted : In 0xB908 sound /\ (forall lower stem, ascii_lower lower -> format_by_extension lower false (stem ++ 46 :: letters "amr") = 0xB908) /\
  forall pv, let r := properties_of pv (startup h16 h32 any_number shipped) 0xB908 in visible r /\ ~ In ARTIST (snd r) /\ ~ In DURATION (snd r).
Proof.
  split; [cbn; tauto|]. split.
  - intros lower stem LO. apply (C79_documented lower stem 0xB908 ["amr"] "amr"); [exact LO|cbn; tauto|left; reflexivity|]. unfold spelled. repeat apply Forall2_cons; try apply Forall2_nil; left; reflexivity.
  - intros pv. cbv zeta. unfold properties_of, visible.
    assert (P : Pod.format_category (n_common (startup h16 h32 any_number shipped)) (n_audio (startup h16 h32 any_number shipped)) (n_video (startup h16 h32 any_number shipped)) (n_image (startup h16 h32 any_number shipped)) 0xB908 = CAT_IMAGE) by (vm_compute; reflexivity).
    rewrite P. destruct (image_props pv) as (A & B & C & D & E). auto.
Qed.
(** Whatever the configuration: a format listed under sound has the properties of sound unless it is
    also listed among the common ones, and so on in the order common, audio, video, image; a format
    listed nowhere has the common properties. *)
Theorem C63_media_any : forall pv i fmt, let r := properties_of pv i fmt in
  (In fmt (n_common i) \/ ~ In fmt (n_common i) /\ ~ In fmt (n_audio i) /\ ~ In fmt (n_video i) /\ ~ In fmt (n_image i) -> r = Pod.pod_props pv CAT_COMMON) /\
  (~ In fmt (n_common i) ->
    (In fmt (n_audio i) -> audible r) /\
    (~ In fmt (n_audio i) -> (In fmt (n_video i) -> audible r /\ visible r) /\ (~ In fmt (n_video i) -> In fmt (n_image i) -> visible r))).
Proof.
  intros pv i fmt. cbv zeta. unfold properties_of, Pod.format_category. cbv zeta. rewrite <- !has_in.
  destruct (existsb (N.eqb fmt) (n_common i)); [split; [intros _; reflexivity|intros X; elim X; reflexivity]|].
  destruct (audio_props pv) as (A1 & A2 & A3 & _), (video_props pv) as (V1 & V2 & V3 & V4 & V5), (image_props pv) as (I1 & I2 & I3 & _). unfold audible, visible.
  destruct (existsb (N.eqb fmt) (n_audio i)); [split; [intros [X|(_ & X & _)]; [discriminate|elim X; reflexivity]|]; intros _; split; [auto|intros X; elim X; reflexivity]|].
  destruct (existsb (N.eqb fmt) (n_video i)); [split; [intros [X|(_ & _ & X & _)]; [discriminate|elim X; reflexivity]|]; intros _; split; [discriminate|intros _; split; [auto|intros X; elim X; reflexivity]]|].
  destruct (existsb (N.eqb fmt) (n_image i)); [split; [intros [X|(_ & _ & _ & X)]; [discriminate|elim X; reflexivity]|]; intros _; split; [discriminate|intros _; split; [discriminate|auto]]|].
  split; [reflexivity|]. intros _. split; [discriminate|intros _; split; discriminate].
Qed.
Print Assumptions C79_documented.
Print Assumptions C79_folders.
Print Assumptions C79_no_dot.
Print Assumptions C79_storage.
Print Assumptions C79_scanned.
Print Assumptions C79_noticed.
Print Assumptions C79_renamed_refuted.
Print Assumptions C63_media_partial.
Print Assumptions C63_media_refuted.
Print Assumptions C63_media_any.
