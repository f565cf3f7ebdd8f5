(** C78: no file system notification is lost, repeated, reordered or misread. *)
From Verif Require Import Base Inotify.

(** ** Specification *)
Definition seen (e : event) : note := mk_note (e_wd e) (e_mask e) (e_cookie e) (e_name e).
(** an event the kernel can produce: 32-bit fields, a name of at most 255 bytes without NUL,
    padded to at most 256 *)
Definition possible (e : event) : Prop :=
  e_wd e < 2 ^ 32 /\ e_mask e < 2 ^ 32 /\ e_cookie e < 2 ^ 32 /\
  match e_name e with
  | Some s => ~ In 0 s /\ (forall c, In c s -> c < 256) /\ len s + N.of_nat (S (e_pad e)) <= 256
  | None => True
  end.

Lemma cstr_app : forall s r, ~ In 0 s -> cstr (s ++ 0 :: r) = Some s.
Proof.
  induction s as [|c s IH]; intros r H; cbn; [reflexivity|].
  destruct (c =? 0) eqn:E.
  - apply N.eqb_eq in E. subst. exfalso. apply H. left. reflexivity.
  - rewrite IH; [reflexivity|]. intros K. apply H. right. exact K.
Qed.
Lemma record_len : forall e, len (record_bytes e) = 16 + len (name_bytes e).
Proof. intros e. unfold record_bytes. rewrite !len_app. unfold len at 1 2 3 4. rewrite !le_enc_length. lia. Qed.

Lemma field_at : forall a v b x, v < 2 ^ 32 -> len a + 4 <= BUF -> x = len a ->
  field (a ++ le_enc 4 v ++ b) x = Some v.
Proof.
  intros a v b x Hv Hl ->. unfold field. replace (len a + 4 <=? BUF) with true by (symmetry; apply N.leb_le; exact Hl).
  rewrite drop_app_exact.
  replace 4 with (len (le_enc 4 v)) at 1 by (unfold len; rewrite le_enc_length; reflexivity).
  rewrite take_app_exact, le_dec_enc, N.mod_small; [reflexivity|]. exact Hv.
Qed.

Lemma name_len : forall e, possible e -> len (name_bytes e) <= 256.
Proof.
  intros e [_ [_ [_ H]]]. unfold name_bytes. destruct (e_name e) as [s|]; [|cbn; lia].
  rewrite len_app. unfold len at 2. rewrite repeat_length. destruct H as [_ [_ H]]. exact H.
Qed.

Lemma slot_records : forall l fuel a b nread,
  Forall possible l -> (length l <= fuel)%nat -> nread = len a + len (concat (map record_bytes l)) -> nread <= BUF ->
  slot fuel (a ++ concat (map record_bytes l) ++ b) nread (len a) = Some (map seen l).
Proof.
  induction l as [|e l IH]; intros fuel a b nread P Hf -> Hn.
  - cbn [map concat app] in *. change (len (@nil N)) with 0. rewrite N.add_0_r.
    destruct fuel; cbn [slot]; rewrite N.ltb_irrefl; reflexivity.
  - inversion P as [|? ? Pe Pl]; subst. destruct fuel as [|fuel]; [cbn in Hf; lia|].
    cbn [map concat] in *. rewrite len_app in *. rewrite (record_len e) in *.
    assert (Hnl := name_len e Pe). destruct Pe as [P1 [P2 [P3 P4]]].
    set (rest := concat (map record_bytes l)) in *.
    cbn [slot].
    replace (len a <? len a + (16 + len (name_bytes e) + len rest)) with true by (symmetry; apply N.ltb_lt; lia).
    assert (E : a ++ (record_bytes e ++ rest) ++ b =
      a ++ le_enc 4 (e_wd e) ++ le_enc 4 (e_mask e) ++ le_enc 4 (e_cookie e) ++ le_enc 4 (len (name_bytes e)) ++ name_bytes e ++ rest ++ b).
    { unfold record_bytes. rewrite <- !app_assoc. reflexivity. }
    rewrite E.
    assert (L4 : forall v, len (le_enc 4 v) = 4) by (intros v; unfold len; rewrite le_enc_length; reflexivity).
    assert (F1 : field (a ++ le_enc 4 (e_wd e) ++ le_enc 4 (e_mask e) ++ le_enc 4 (e_cookie e) ++ le_enc 4 (len (name_bytes e)) ++ name_bytes e ++ rest ++ b) (len a) = Some (e_wd e))
      by (apply field_at; [exact P1 | lia | reflexivity]).
    assert (F2 : field (a ++ le_enc 4 (e_wd e) ++ le_enc 4 (e_mask e) ++ le_enc 4 (e_cookie e) ++ le_enc 4 (len (name_bytes e)) ++ name_bytes e ++ rest ++ b) (len a + 4) = Some (e_mask e)).
    { rewrite (app_assoc a). apply field_at; [exact P2 | rewrite len_app, L4; lia | rewrite len_app, L4; reflexivity]. }
    assert (F3 : field (a ++ le_enc 4 (e_wd e) ++ le_enc 4 (e_mask e) ++ le_enc 4 (e_cookie e) ++ le_enc 4 (len (name_bytes e)) ++ name_bytes e ++ rest ++ b) (len a + 8) = Some (e_cookie e)).
    { rewrite (app_assoc a), (app_assoc (a ++ _)). apply field_at; [exact P3 | rewrite !len_app, !L4; lia | rewrite !len_app, !L4; lia]. }
    assert (F4 : field (a ++ le_enc 4 (e_wd e) ++ le_enc 4 (e_mask e) ++ le_enc 4 (e_cookie e) ++ le_enc 4 (len (name_bytes e)) ++ name_bytes e ++ rest ++ b) (len a + 12) = Some (len (name_bytes e))).
    { rewrite (app_assoc a), (app_assoc (a ++ _)), (app_assoc ((a ++ _) ++ _)).
      apply field_at; [lia | rewrite !len_app, !L4; lia | rewrite !len_app, !L4; lia]. }
    rewrite F1, F2, F3, F4. clear F1 F2 F3 F4.
    assert (N0 : (if len (name_bytes e) =? 0 then Some None
      else match cstr (drop (len a + 16) (a ++ le_enc 4 (e_wd e) ++ le_enc 4 (e_mask e) ++ le_enc 4 (e_cookie e) ++ le_enc 4 (len (name_bytes e)) ++ name_bytes e ++ rest ++ b)) with Some s => Some (Some s) | None => None end)
      = Some (e_name e)).
    { unfold name_bytes in *. destruct (e_name e) as [s|]; [|reflexivity].
      replace (len (s ++ repeat 0 (S (e_pad e))) =? 0) with false
        by (symmetry; apply N.eqb_neq; rewrite len_app; unfold len at 2; rewrite repeat_length; lia).
      set (n := len (s ++ repeat 0 (S (e_pad e)))).
      rewrite (app_assoc a), (app_assoc (a ++ _)), (app_assoc ((a ++ _) ++ _)), (app_assoc (((a ++ _) ++ _) ++ _)).
      match goal with |- context [drop (len a + 16) (?u ++ _)] =>
        replace (len a + 16) with (len u) by (rewrite !len_app, !L4; lia) end.
      rewrite drop_app_exact.
      rewrite <- app_assoc. cbn [repeat app]. rewrite cstr_app by apply P4. reflexivity. }
    rewrite N0, <- E. clear N0 E.
    specialize (IH fuel (a ++ record_bytes e) b (len a + (16 + len (name_bytes e) + len rest)) Pl).
    rewrite len_app, (record_len e) in IH.
    replace (a ++ (record_bytes e ++ rest) ++ b) with ((a ++ record_bytes e) ++ rest ++ b) by (rewrite <- !app_assoc; reflexivity).
    replace (len a + 16 + len (name_bytes e)) with (len a + (16 + len (name_bytes e))) by lia.
    rewrite IH; [reflexivity | cbn in Hf; lia | lia | exact Hn].
Qed.

Lemma fitting_prefix : forall q room, q = fitting room q ++ drop (len (fitting room q)) q.
Proof.
  induction q as [|e q IH]; intros room; cbn [fitting]; [reflexivity|].
  destruct (len (record_bytes e) <=? room); [|rewrite drop_0; reflexivity].
  cbn [app]. rewrite len_cons.
  f_equal. etransitivity; [apply (IH (room - len (record_bytes e)))|]. f_equal.
  rewrite <- drop_drop. reflexivity.
Qed.
Lemma fitting_room : forall q room, len (concat (map record_bytes (fitting room q))) <= room /\
  16 * len (fitting room q) <= room.
Proof.
  induction q as [|e q IH]; intros room; cbn [fitting map concat]; [split; cbn; lia|].
  destruct (len (record_bytes e) <=? room) eqn:E; [|split; cbn; lia].
  apply N.leb_le in E. cbn [map concat]. rewrite len_app, len_cons.
  destruct (IH (room - len (record_bytes e))) as [I1 I2]. assert (R := record_len e). split; lia.
Qed.
Lemma fitting_some : forall e q, possible e -> exists r, fitting BUF (e :: q) = e :: r.
Proof.
  intros e q H. cbn [fitting]. assert (L := name_len e H). assert (R := record_len e).
  replace (len (record_bytes e) <=? BUF) with true by (symmetry; apply N.leb_le; unfold BUF; lia). eauto.
Qed.
Lemma fitting_possible : forall q room, Forall possible q -> Forall possible (fitting room q).
Proof.
  induction q as [|e q IH]; intros room H; [constructor|]. inversion H; subst. cbn [fitting].
  destruct (_ <=? _); constructor; auto.
Qed.

(** one activation: some prefix of what waits is passed on, exactly as it is, the rest still
    waits, and the buffer is not overrun whatever was in it *)
Theorem C78_one_activation : forall junk q, Forall possible q -> len junk = 512 ->
  exists now later, q = now ++ later /\ activate junk q = (Some (map seen now), later) /\ (q <> [] -> now <> []).
Proof.
  intros junk q P J. exists (fitting BUF q), (drop (len (fitting BUF q)) q).
  split; [apply fitting_prefix|]. split.
  - unfold activate, sent. f_equal.
    destruct (fitting_room q BUF) as [R1 R2].
    apply (slot_records (fitting BUF q) 32 [] _ _ (fitting_possible q BUF P)); [|reflexivity|exact R1].
    unfold BUF at 2 in R2. unfold len in R2. lia.
  - destruct q as [|e q]; [congruence|]. intros _. inversion P; subst.
    destruct (fitting_some e q H1) as [r ->]. discriminate.
Qed.

(** draining: however many events wait and whatever the buffer holds each time, all of them
    come out once and in order *)
Fixpoint drain (junks : list (list N)) (q : list event) : list (option (list note)) * list event :=
  match junks with
  | [] => ([], q)
  | j :: js => let (o, q') := activate j q in let (os, q'') := drain js q' in (o :: os, q'')
  end.
Theorem C78_all_in_order : forall junks q, Forall possible q -> Forall (fun j => len j = 512) junks ->
  exists outs later, drain junks q = (map Some outs, later) /\ map seen q = concat outs ++ map seen later /\
  (len q <= len junks -> later = []).
Proof.
  induction junks as [|j js IH]; intros q P J.
  - exists [], q. split; [reflexivity|]. split; [reflexivity|]. intros H. destruct q; [reflexivity|]. rewrite len_cons in H. cbn in H. lia.
  - inversion J; subst. destruct (C78_one_activation j q P H1) as [now [later [E [A N0]]]].
    assert (P' : Forall possible later) by (rewrite E in P; apply Forall_app in P; apply P).
    destruct (IH later P' H2) as [outs [l2 [D [M Z]]]].
    exists (map seen now :: outs), l2. split; [|split].
    + cbn [drain]. rewrite A, D. reflexivity.
    + rewrite E, map_app, M. cbn [concat]. rewrite app_assoc. reflexivity.
    + intros H. apply Z. rewrite len_cons in H. destruct q as [|e q]; [destruct now, later; try discriminate; cbn; lia|].
      destruct now as [|n now]; [exfalso; apply N0; [discriminate|reflexivity]|].
      rewrite E, len_app, len_cons in H. lia.
Qed.

(** three events of which two fit the buffer *)
Example C78_example :
  let long := repeat 97 240 in
  let q := [mk_event 1 0x100 0 (Some long) 15; mk_event 1 8 0 None 0; mk_event 2 0x40 77 (Some long) 15] in
  Forall possible q /\ map len (map (fun o => match o with Some l => l | None => [] end) (fst (drain [repeat 255 512; repeat 255 512] q))) = [2; 1].
Proof.
  split.
  - assert (G : forall w m c, w < 2 ^ 32 -> m < 2 ^ 32 -> c < 2 ^ 32 -> possible (mk_event w m c (Some (repeat 97 240)) 15)).
    { intros w m c H1 H2 H3. unfold possible. cbn [e_wd e_mask e_cookie e_name e_pad]. repeat apply conj; try assumption.
      - intros K. apply repeat_spec in K. discriminate.
      - intros x K. apply repeat_spec in K. subst x. reflexivity.
      - vm_compute. discriminate. }
    constructor; [apply G; reflexivity|]. constructor; [repeat apply conj; reflexivity || exact Logic.I|].
    constructor; [apply G; reflexivity | constructor].
  - vm_compute. reflexivity.
Qed.

Print Assumptions C78_one_activation.
Print Assumptions C78_all_in_order.
