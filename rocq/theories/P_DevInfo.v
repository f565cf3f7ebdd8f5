(** C75 - C77, C79: what the device says about itself. *)
From Verif Require Import Base DevInfo ExtFormat DevInfoDemo DevInfoProofs Responder RAdv.
Import Verif.DevInfo.

(** ** C75 what is advertised, for every configuration file *)

(** the formats the program can always handle, by what they are *)
Definition builtin_formats : list N :=
  [0x3000; 0x3001; 0x3002; 0x3003; 0x3004; 0x3005; 0x3006; 0x3007; 0x3008; 0x3009; 0x300A; 0x300B; 0x300C] ++      (* PTP ancillary *)
  [0x3800; 0x3801; 0x3802; 0x3803; 0x3804; 0x3805; 0x3807; 0x3808; 0x3809; 0x380A; 0x380B; 0x380D; 0x380E; 0x380F; 0x3810] ++ (* PTP images *)
  [0xB215; 0xB802; 0xB803; 0xB804; 0xB881] ++
  [0xB900; 0xB901; 0xB903; 0xB904; 0xB906; 0xB907; 0xB908] ++                                                      (* MTP audio *)
  [0xB980; 0xB981; 0xB982; 0xB983; 0xB984; 0xB985; 0xB986; 0xB987; 0xB988] ++                                      (* MTP video *)
  [0xBA00; 0xBA01; 0xBA02; 0xBA03; 0xBA04; 0xBA05; 0xBA06; 0xBA07; 0xBA08; 0xBA09; 0xBA0A; 0xBA0B] ++
  [0xBA10; 0xBA11; 0xBA12; 0xBA13; 0xBA14; 0xBA80; 0xBA81; 0xBA82; 0xBA83; 0xBA84; 0xBA85; 0xBA86] ++
  [0xBB00; 0xBB01; 0xBB10; 0xBB11; 0xBB20; 0xBB21; 0xBB22; 0xBB40; 0xBB41; 0xBB42; 0xBB60; 0xBB61; 0xBB80; 0xBB81; 0xBB82; 0xBB83] ++
  [0xBE00; 0xBE01; 0xBE02; 0xBE03; 0xBE80].

(** every built-in operation and format is advertised, whatever the configuration file says,
    broken or not *)
Theorem C75_builtin_advertised : forall hex16 hex32 number f,
  (forall op, In op builtin_ops -> In op (n_ops (startup hex16 hex32 number f))) /\
  (forall x, In x builtin_formats -> In x (formats_of (startup hex16 hex32 number f))).
Proof.
  intros hex16 hex32 number f. unfold startup.
  destruct (parse hex16 hex32 number (f_toks f) (mk_hst EOther 0 info0)) as [h ok].
  split.
  - intros op Hop. cbn [finish n_ops]. apply augment_in. right.
    assert (A : forallb (fun o => existsb (N.eqb o) ops_table) builtin_ops = true) by reflexivity.
    rewrite forallb_forall in A. apply existsb_in. apply A. exact Hop.
  - intros x Hx. unfold formats_of. cbn [finish n_image n_audio n_video n_common]. rewrite !in_app_iff, !augment_in.
    assert (A : forallb (fun o => existsb (N.eqb o) (image_formats ++ audio_formats ++ video_formats ++ common_formats)) builtin_formats = true)
      by reflexivity.
    rewrite forallb_forall in A. specialize (A x Hx). apply existsb_in in A. rewrite !in_app_iff in A. tauto.
Qed.

Section Files.
Variable hex16 hex32 : text -> option N.
Variable number : text -> bool.
Notation startup := (startup hex16 hex32 number).
(** what the file lists *)
Definition listed (same : el -> bool) (f : file) : list N := codes_under hex16 same EOther (f_toks f).
(** the program takes the whole file *)
Definition accepted (f : file) : Prop := f_wf f = true /\ snd (parse hex16 hex32 number (f_toks f) (mk_hst EOther 0 info0)) = true.

Lemma get_listed : forall (get : info -> list N) (same : el -> bool),
  (forall t h, get (h_info (fst (characters hex16 hex32 number t h))) =
     (if blank t then get (h_info h) else if same (h_el h) then get (h_info h) ++ [num (hex16 t)] else get (h_info h))) ->
  get info0 = [] -> forall f,
  (exists r, listed same f = get (h_info (fst (parse hex16 hex32 number (f_toks f) (mk_hst EOther 0 info0)))) ++ r) /\
  (accepted f -> get (h_info (fst (parse hex16 hex32 number (f_toks f) (mk_hst EOther 0 info0)))) = listed same f).
Proof.
  intros get same H0 E0 f.
  destruct (list_of_parse hex16 hex32 number get same H0 (f_toks f) (mk_hst EOther 0 info0)) as [P Q].
  cbn [h_el h_info] in *. rewrite E0 in *. cbn [app] in *. split; [exact P|]. intros [_ Hs]. apply Q. exact Hs.
Qed.
End Files.

(** a file taken as a whole: exactly what it lists comes first, in its order, then what is
    built in and was missing *)
Theorem C75_configured_advertised : forall hex16 hex32 number f, accepted hex16 hex32 number f ->
  let i := startup hex16 hex32 number f in
  (exists r, n_ops i = listed hex16 is_op f ++ r /\ incl r builtin_ops) /\
  n_evs i = listed hex16 is_ev f /\
  (forall e, In e [is_image; is_audio; is_video; is_common] -> forall x, In x (listed hex16 e f) -> In x (formats_of i)) /\
  (forall x, In x (formats_of i) -> In x builtin_formats \/ exists e, In e [is_image; is_audio; is_video; is_common] /\ In x (listed hex16 e f)).
Proof.
  intros hex16 hex32 number f A i.
  assert (Ei : i = finish true (h_info (fst (parse hex16 hex32 number (f_toks f) (mk_hst EOther 0 info0))))).
  { unfold i, startup. destruct A as [A1 A2]. destruct (parse _ _ _ _ _) as [h ok]. cbn [fst snd] in *. rewrite A1, A2. reflexivity. }
  destruct (get_listed hex16 hex32 number n_ops is_op (ops_chars _ _ _) eq_refl f) as [_ O].
  destruct (get_listed hex16 hex32 number n_evs is_ev (evs_chars _ _ _) eq_refl f) as [_ V].
  destruct (get_listed hex16 hex32 number n_image is_image (image_chars _ _ _) eq_refl f) as [_ I1].
  destruct (get_listed hex16 hex32 number n_audio is_audio (audio_chars _ _ _) eq_refl f) as [_ I2].
  destruct (get_listed hex16 hex32 number n_video is_video (video_chars _ _ _) eq_refl f) as [_ I3].
  destruct (get_listed hex16 hex32 number n_common is_common (common_chars _ _ _) eq_refl f) as [_ I4].
  specialize (O A). specialize (V A). specialize (I1 A). specialize (I2 A). specialize (I3 A). specialize (I4 A).
  rewrite Ei. clear i Ei. unfold formats_of. cbn [finish n_ops n_evs n_image n_audio n_video n_common].
  rewrite O, V, I1, I2, I3, I4. repeat apply conj.
  - destruct (augment_prefix ops_table (listed hex16 is_op f)) as [r [E R]]. exists r. split; [exact E|].
    intros x Hx. specialize (R x Hx).
    assert (B : forallb (fun o => existsb (N.eqb o) builtin_ops) ops_table = true) by reflexivity.
    rewrite forallb_forall in B. apply existsb_in. apply B. exact R.
  - reflexivity.
  - intros e He x Hx. rewrite !in_app_iff, !augment_in. destruct He as [<-|[<-|[<-|[<-|[]]]]]; tauto.
  - intros x Hx. rewrite !in_app_iff, !augment_in in Hx.
    assert (B : forallb (fun o => existsb (N.eqb o) builtin_formats) (image_formats ++ audio_formats ++ video_formats ++ common_formats) = true)
      by reflexivity.
    rewrite forallb_forall in B.
    assert (B' : In x image_formats \/ In x audio_formats \/ In x video_formats \/ In x common_formats -> In x builtin_formats).
    { intros K. apply existsb_in. apply B. rewrite !in_app_iff. exact K. }
    destruct Hx as [[Hx|Hx]|[[Hx|Hx]|[[Hx|Hx]|[Hx|Hx]]]]; try (left; apply B'; tauto).
    + right. exists is_image. split; [left; reflexivity | exact Hx].
    + right. exists is_audio. split; [right; left; reflexivity | exact Hx].
    + right. exists is_video. split; [right; right; left; reflexivity | exact Hx].
    + right. exists is_common. split; [right; right; right; left; reflexivity | exact Hx].
Qed.

(** the events the device sends: ObjectAdded, ObjectRemoved, StoreAdded, StoreRemoved, DevicePropChanged,
    ObjectInfoChanged, DeviceInfoChanged, RequestObjectTransfer, StoreFull, StorageInfoChanged and
    ObjectPropChanged *)
Definition builtin_events : list N := [0x4002; 0x4003; 0x4004; 0x4005; 0x4006; 0x4007; 0x4008; 0x4009; 0x400A; 0x400C; 0xC801].
(** a file that breaks off, or none at all: these events are advertised, besides them nothing but what the file lists *)
Theorem C75_events_unconfigured : forall hex16 hex32 number f, ~ accepted hex16 hex32 number f ->
  let i := startup hex16 hex32 number f in
  (forall x, In x builtin_events -> In x (n_evs i)) /\
  (forall x, In x (n_evs i) -> In x builtin_events \/ In x (listed hex16 is_ev f)) /\
  (forall x, In x [0xD401; 0xD402] -> In x (n_props i)).
Proof.
  intros hex16 hex32 number f NA i.
  assert (Ei : i = finish false (h_info (fst (parse hex16 hex32 number (f_toks f) (mk_hst EOther 0 info0))))).
  { unfold i, startup. unfold accepted in NA. destruct (parse _ _ _ _ _) as [h ok]. cbn [fst snd] in *. destruct (f_wf f); destruct ok; try reflexivity. exfalso. apply NA. auto. }
  destruct (get_listed hex16 hex32 number n_evs is_ev (evs_chars _ _ _) eq_refl f) as [[r V] _].
  rewrite Ei. clear i Ei. cbn [finish n_evs n_props]. split; [|split].
  - intros x Hx. apply in_or_app. right.
    assert (A : forallb (fun o => existsb (N.eqb o) events_table) builtin_events = true) by reflexivity.
    rewrite forallb_forall in A. apply existsb_in. apply A. exact Hx.
  - intros x Hx. apply in_app_or in Hx as [Hx|Hx]; [right; rewrite V; apply in_or_app; left; exact Hx|left].
    assert (A : forallb (fun o => existsb (N.eqb o) builtin_events) events_table = true) by reflexivity.
    rewrite forallb_forall in A. apply existsb_in. apply A. exact Hx.
  - intros x Hx. apply in_or_app. right. exact Hx.
Qed.
Example C75_unconfigured_example : ~ accepted h16 h32 any_number (mk_file [] false) /\
  n_evs (startup h16 h32 any_number (mk_file [] false)) = events_table.
Proof. split; [intros [X _]; discriminate X|reflexivity]. Qed.

(** no operation is advertised twice unless the file lists it twice *)
Theorem C75_operations_once : forall hex16 hex32 number f, NoDup (listed hex16 is_op f) ->
  NoDup (n_ops (startup hex16 hex32 number f)).
Proof.
  intros hex16 hex32 number f H.
  destruct (get_listed hex16 hex32 number n_ops is_op (ops_chars _ _ _) eq_refl f) as [[r O] _].
  unfold startup. destruct (parse hex16 hex32 number (f_toks f) (mk_hst EOther 0 info0)) as [h ok]. cbn [fst] in *.
  cbn [finish n_ops]. apply augment_nodup. rewrite O in H. clear O. revert H.
  induction (n_ops (h_info h)) as [|y l IH]; intros H; [constructor|].
  inversion H; subst. constructor; [|auto]. intros K. apply H2. apply in_or_app. left. exact K.
Qed.

(** but an event listed once is advertised twice after a file that breaks off, and a format
    listed once under another heading than the built-in one is advertised twice *)
Theorem C75_refuted :
  (exists f, NoDup (listed h16 is_ev f) /\ ~ NoDup (n_evs (startup h16 h32 any_number f))) /\
  (exists f, accepted h16 h32 any_number f /\
     NoDup (listed h16 is_image f ++ listed h16 is_audio f ++ listed h16 is_video f ++ listed h16 is_common f) /\
     ~ NoDup (formats_of (startup h16 h32 any_number f))).
Proof.
  split.
  - exists (mk_file [TStart EEvCode []; TChars [48; 120; 52; 48; 48; 50]; TEnd] false). split.
    + assert (E : listed h16 is_ev (mk_file [TStart EEvCode []; TChars [48; 120; 52; 48; 48; 50]; TEnd] false) = [0x4002]) by reflexivity.
      rewrite E. constructor; [intros []|constructor].
    + assert (E : n_evs (startup h16 h32 any_number (mk_file [TStart EEvCode []; TChars [48; 120; 52; 48; 48; 50]; TEnd] false))
                  = 0x4002 :: events_table) by reflexivity.
      rewrite E. intros H. inversion H as [|? ? H1 _]. apply H1. right. right. left. reflexivity.
  - exists (mk_file [TStart EAudio []; TChars [48; 120; 66; 57; 48; 56]; TEnd] true). repeat apply conj.
    + reflexivity.
    + reflexivity.
    + match goal with |- NoDup ?l => assert (E : l = [0xB908]) by reflexivity; rewrite E end.
      constructor; [intros []|constructor].
    + match goal with |- ~ NoDup ?l => assert (E : exists a b c, l = a ++ 0xB908 :: b ++ 0xB908 :: c) end.
      { exists [0x3800; 0x3801; 0x3807; 0x380B; 0x380D; 0x3804],
          [0x3805; 0x3803; 0x3808; 0x380F; 0xB804; 0x3810; 0x3809; 0x380A; 0x3802; 0x380E; 0xB803; 0xB881].
        eexists. vm_compute. reflexivity. }
      destruct E as [a [b [c E]]]. rewrite E. intros H. apply NoDup_remove_2 in H. apply H.
      rewrite !in_app_iff. right. right. left. reflexivity.
Qed.

(** the installed file is accepted, lists nothing twice, and neither is anything advertised twice *)
Example C75_installed :
  accepted h16 h32 any_number shipped /\ len (listed h16 is_op shipped) = 33 /\ len (listed h16 is_image shipped) = 6 /\
  len (n_ops (startup h16 h32 any_number shipped)) = 33 /\
  len (formats_of (startup h16 h32 any_number shipped)) = len (nodup N.eq_dec (formats_of (startup h16 h32 any_number shipped))).
Proof. repeat apply conj; vm_compute; reflexivity. Qed.

(** ** C76 the names the host gives the device survive a restart *)
Definition run_names hex16 hex32 number (f : file) (l : list dact) : dst :=
  fold_left (dstep hex16 hex32 number) l (mk_dst (startup hex16 hex32 number f) f).
(** what was given last *)
Fixpoint last_friendly (cur : text) (l : list dact) : text :=
  match l with [] => cur | DFriendly v :: l' => last_friendly v l' | _ :: l' => last_friendly cur l' end.
Fixpoint last_partner (cur : text) (l : list dact) : text :=
  match l with [] => cur | DPartner v :: l' => last_partner v l' | _ :: l' => last_partner cur l' end.
Definition says_something (a : dact) : Prop :=
  match a with DFriendly v | DPartner v => blank v = false | DRestart => True end.

(** any history of renamings (with names that are not blank) and restarts: the device goes by
    the names given last, and says the same as ever otherwise.  [proper]: the file is accepted
    and has one DevPropValue for each name, marked with its id *)
Theorem C76_names_survive_partial : forall hex16 hex32 number f l,
  proper hex16 hex32 number f -> Forall says_something l ->
  d_info (run_names hex16 hex32 number f l) =
  set_partner (set_friendly (startup hex16 hex32 number f) (last_friendly (n_friendly (startup hex16 hex32 number f)) l))
    (last_partner (n_partner (startup hex16 hex32 number f)) l).
Proof.
  intros hex16 hex32 number f l P H.
  assert (G : forall l s, proper hex16 hex32 number (d_file s) -> d_info s = startup hex16 hex32 number (d_file s) ->
    Forall says_something l ->
    d_info (fold_left (dstep hex16 hex32 number) l s) =
    set_partner (set_friendly (d_info s) (last_friendly (n_friendly (d_info s)) l)) (last_partner (n_partner (d_info s)) l)).
  { clear. induction l as [|a l IH]; intros [i f] P E F; cbn [d_info d_file] in *.
    - cbn. destruct i. reflexivity.
    - inversion F as [|? ? Ha Fl]; subst. cbn [fold_left].
      destruct a as [v|v|]; cbn [dstep says_something d_info d_file] in *.
      + destruct (rewrite_friendly hex16 hex32 number f v Ha P) as [P' E'].
        rewrite IH; [|exact P' | cbn [d_info d_file]; rewrite E'; reflexivity | exact Fl].
        cbn [d_info last_friendly last_partner]. generalize (startup hex16 hex32 number f). intros []. reflexivity.
      + destruct (rewrite_partner hex16 hex32 number f v Ha P) as [P' E'].
        rewrite IH; [|exact P' | cbn [d_info d_file]; rewrite E'; reflexivity | exact Fl].
        cbn [d_info last_friendly last_partner]. generalize (startup hex16 hex32 number f). intros []. reflexivity.
      + rewrite IH; [reflexivity | exact P | reflexivity | exact Fl]. }
  unfold run_names. rewrite (G l (mk_dst (startup hex16 hex32 number f) f)); [reflexivity | exact P | reflexivity | exact H].
Qed.

(** the installed file is such a file *)
Example C76_installed : proper h16 h32 any_number shipped.
Proof.
  constructor; [reflexivity | reflexivity | |].
  - cbv. repeat apply conj; try reflexivity; try discriminate; exact Logic.I.
  - cbv. repeat apply conj; try reflexivity; try discriminate; exact Logic.I.
Qed.
Example C76_example : forall v w, blank v = false -> blank w = false ->
  let i := d_info (run_names h16 h32 any_number shipped [DFriendly v; DPartner w; DRestart; DRestart]) in
  n_friendly i = v /\ n_partner i = w.
Proof.
  intros v w Hv Hw i. unfold i. rewrite C76_names_survive_partial.
  - split; reflexivity.
  - exact C76_installed.
  - repeat constructor; assumption.
Qed.

(** a blank name is what the device goes by until it is restarted, then the built-in one is back *)
Theorem C76_refuted : exists v,
  n_friendly (d_info (run_names h16 h32 any_number shipped [DFriendly v])) = v /\
  n_friendly (d_info (run_names h16 h32 any_number shipped [DFriendly v; DRestart])) <> v.
Proof. exists []. split; [vm_compute; reflexivity | vm_compute; discriminate]. Qed.

(** ** C77 the battery level *)
Definition readings (l : list Z) : bst := fold_left battery l battery0.
(** the last reading that is a level *)
Definition level_now (l : list Z) : N :=
  match filter (fun z => (0 <=? z)%Z) (rev l) with [] => 0 | z :: _ => Z.to_N (Z.min z 255) end.

(** what the host reads is the last level reported (255 at most), and what it was told last
    (the level it had read at the start, if nothing was) is the same; it is told only of changes *)
Fixpoint changes_from (l0 : N) (said : list N) : Prop :=
  match said with [] => True | x :: r => x <> l0 /\ changes_from x r end.
Lemma last_any : forall (q : list N) y a b, last (y :: q) a = last (y :: q) b.
Proof. induction q as [|x q IH]; intros y a b; [reflexivity|]. exact (IH x a b). Qed.
Theorem C77_level_and_announcements : forall l,
  b_level (readings l) = level_now l /\
  hd 0 (b_said (readings l)) = level_now l /\
  changes_from 0 (rev (b_said (readings l))).
Proof.
  intros l. induction l as [|z l IH] using rev_ind; [cbn; auto|].
  unfold readings in *. rewrite fold_left_app. cbn [fold_left].
  set (s := fold_left battery l battery0) in *. destruct IH as [I1 [I2 I3]].
  unfold level_now in *. rewrite rev_app_distr. cbn [rev app filter].
  unfold battery. destruct (Z.ltb_spec z 0) as [Hz|Hz].
  - replace (0 <=? z)%Z with false by (symmetry; apply Z.leb_gt; exact Hz). auto.
  - replace (0 <=? z)%Z with true by (symmetry; apply Z.leb_le; exact Hz).
    destruct (b_level s =? Z.to_N (Z.min z 255)) eqn:E.
    + apply N.eqb_eq in E. rewrite <- E. repeat apply conj; [reflexivity | congruence | exact I3].
    + apply N.eqb_neq in E. cbn [b_level b_said hd rev]. repeat apply conj; [reflexivity | reflexivity |].
      rewrite I1, <- I2 in E. clear - E I3.
      assert (G : forall r l0, changes_from l0 r -> Z.to_N (Z.min z 255) <> last r l0 -> changes_from l0 (r ++ [Z.to_N (Z.min z 255)])).
      { induction r as [|x r IH]; intros l0 H K; cbn in *; [auto|]. destruct H as [H1 H2]. split; [exact H1|].
        apply IH; [exact H2|]. intros C. apply K. rewrite C.
        destruct r as [|y q]; [reflexivity|]. apply last_any. }
      apply G; [exact I3|].
      intros C. apply E. rewrite C. destruct (b_said s) as [|y q]; [reflexivity|]. cbn [rev hd].
      symmetry. apply last_last.
Qed.
Example C77_example : readings [50; -1; 50; 51; 300]%Z = mk_bst 255 [255; 51; 50].
Proof. reflexivity. Qed.

(** the property's description allows 0, 10, ..., 100 only (mtpdeviceinfo.cpp:600-603) *)
Definition permitted (low high stp x : N) : Prop := low <= x <= high /\ exists k, x = low + k * stp.
Theorem C77_range_refuted : exists l, Forall (fun z => (0 <= z <= 100)%Z) l /\ ~ permitted 0 100 10 (b_level (readings l)).
Proof.
  exists [57%Z]. split.
  - constructor; [split; discriminate | constructor].
  - intros [_ [k E]]. cbv in E. destruct k as [|p]; [discriminate|].
    assert (E' : 57 = N.pos p * 10) by exact E. lia.
Qed.

(** ** C79 the format a file is given *)
Definition ascii_lower (lower : N -> N) : Prop :=
  (forall c, 65 <= c <= 90 -> lower c = c + 32) /\ (forall c, c < 128 -> ~ (65 <= c <= 90) -> lower c = c).

(** the same character, or the same ASCII letter in lower case *)
Definition same_letter (a b : N) : Prop := a = b \/ (65 <= a <= 90 /\ b = a + 32).

Lemma last_part_app : forall a b acc, last_part acc (a ++ 46 :: b) = last_part b b.
Proof.
  induction a as [|x a IH]; intros b acc; cbn [app last_part].
  - reflexivity.
  - destruct (x =? 46); apply IH.
Qed.
Lemma last_part_none : forall b acc, ~ In 46 b -> last_part acc b = acc.
Proof.
  induction b as [|x b IH]; intros acc H; [reflexivity|]. cbn. destruct (x =? 46) eqn:E.
  - apply N.eqb_eq in E. subst. exfalso. apply H. left. reflexivity.
  - apply IH. intros K. apply H. right. exact K.
Qed.
Lemma lookup_in : forall k v l, lookup k l = Some v -> In (k, v) l.
Proof.
  induction l as [|[k' v'] l IH]; [discriminate|]. cbn. destruct (text_eqb k k') eqn:E.
  - intros K. apply text_eqb_eq in E. inversion K. subst. left. reflexivity.
  - intros K. right. apply IH. exact K.
Qed.

(** only what follows the last dot counts, in either letter case, and the table says what it
    means; anything else is Undefined *)
Theorem C79_by_extension : forall lower stem ext, ascii_lower lower -> ~ In 46 ext ->
  (forall e f, In (e, f) ext_table -> map lower ext = e -> format_by_extension lower false (stem ++ 46 :: ext) = f) /\
  ((forall e f, In (e, f) ext_table -> map lower ext <> e) -> format_by_extension lower false (stem ++ 46 :: ext) = 0x3000) /\
  (forall ext', Forall2 same_letter ext ext' ->
     format_by_extension lower false (stem ++ 46 :: ext') = format_by_extension lower false (stem ++ 46 :: ext)).
Proof.
  intros lower stem ext [L1 L2] Hd.
  assert (S : section_dot (stem ++ 46 :: ext) = ext).
  { unfold section_dot. rewrite last_part_app, last_part_none by assumption. reflexivity. }
  repeat apply conj.
  - intros e f Hin Hm. unfold format_by_extension. rewrite S, Hm. clear - Hin.
    assert (A : forallb (fun p => match lookup (fst p) ext_table with Some x => x =? snd p | None => false end) ext_table = true) by reflexivity.
    rewrite forallb_forall in A. specialize (A (e, f) Hin). cbn [fst snd] in A.
    destruct (lookup e ext_table); [|discriminate]. apply N.eqb_eq. exact A.
  - intros Hno. unfold format_by_extension. rewrite S. destruct (lookup (map lower ext) ext_table) as [f|] eqn:E; [|reflexivity].
    exfalso. apply (Hno (map lower ext) f); [|reflexivity]. apply lookup_in. exact E.
  - intros ext' F.
    assert (Hd' : ~ In 46 ext').
    { clear - F Hd. induction F as [|a b l l' Hab F IH]; [intros []|]. intros [K|K].
      - destruct Hab as [Hab|[Hr Hab]]; [|lia]. apply Hd. left. congruence.
      - apply IH; [|exact K]. intros J. apply Hd. right. exact J. }
    assert (S' : section_dot (stem ++ 46 :: ext') = ext').
    { unfold section_dot. rewrite last_part_app, last_part_none by assumption. reflexivity. }
    unfold format_by_extension. rewrite S, S'.
    assert (M : map lower ext' = map lower ext); [|rewrite M; reflexivity].
    clear - F L1 L2. induction F as [|a b l l' Hab F IH]; [reflexivity|]. cbn. f_equal; [|exact IH].
    destruct Hab as [->|[Hr ->]]; [reflexivity|]. rewrite (L1 a Hr). apply L2; lia.
Qed.

(** every format a file can be given, but Ogg, is advertised whatever the configuration file;
    Ogg is with the installed file *)
Theorem C79_advertised_partial : forall lower is_dir path hex16 hex32 number f,
  format_by_extension lower is_dir path <> 0xB902 ->
  In (format_by_extension lower is_dir path) (formats_of (startup hex16 hex32 number f)).
Proof.
  intros lower is_dir path hex16 hex32 number f H.
  apply C75_builtin_advertised. unfold format_by_extension in *. destruct is_dir; [vm_compute; tauto|].
  destruct (lookup (map lower (section_dot path)) ext_table) as [x|] eqn:E; [|vm_compute; tauto].
  apply lookup_in in E.
  assert (A : forallb (fun p => (snd p =? 0xB902) || existsb (N.eqb (snd p)) builtin_formats) ext_table = true) by reflexivity.
  rewrite forallb_forall in A. specialize (A _ E). cbn [snd] in A. apply orb_prop in A as [A|A].
  - apply N.eqb_eq in A. contradiction.
  - apply existsb_in. exact A.
Qed.
Theorem C79_installed : forall lower is_dir path,
  In (format_by_extension lower is_dir path) (formats_of (startup h16 h32 any_number shipped)).
Proof.
  intros lower is_dir path. destruct (N.eq_dec (format_by_extension lower is_dir path) 0xB902) as [E|E].
  - rewrite E. apply (proj1 (existsb_in 0xB902 (formats_of (startup h16 h32 any_number shipped)))). vm_compute. reflexivity.
  - apply C79_advertised_partial. exact E.
Qed.
(** with a file that cannot be read at all, an .ogg file has a format the device never announced *)
Theorem C79_refuted : exists f path, 
  ~ In (format_by_extension (fun c => c) false path) (formats_of (startup h16 h32 any_number f)).
Proof.
  exists (mk_file [] false), [97; 46; 111; 103; 103]. intros H. apply existsb_in in H. revert H. vm_compute. discriminate.
Qed.

Print Assumptions C75_builtin_advertised.
Print Assumptions C75_configured_advertised.
Print Assumptions C75_events_unconfigured.
Print Assumptions C75_operations_once.
Print Assumptions C75_refuted.
Print Assumptions C76_names_survive_partial.
Print Assumptions C76_refuted.
Print Assumptions C77_level_and_announcements.
Print Assumptions C77_range_refuted.
Print Assumptions C79_by_extension.
Print Assumptions C79_advertised_partial.
Print Assumptions C79_installed.
Print Assumptions C79_refuted.
