(** Storage: contents (C50-C53). *)
From Coq Require Import Permutation.
From Verif Require Import Base AList Wire FS FSPath FSTree FSLogic FSAdd FSAdd2 FSDel FSSub FSMove FSMove2 FSMove3 FSEv FSData FSData2 FSList FSFrame FSCopy FSCopy2 FSSpec FSReach FSView FSDemo.

(** ** C50: SendObject.  [send_segments]: the calls SendObject makes for the segments [b], [l]:
    the first one opens the file, the null buffer at the end closes it *)
Definition send_segments (C : conf) (h : N) (b : bytes) (l : list bytes) : M N :=
  r <- write_data C h (Some b) true false ;;
  if negb (isok r) then ret r else
  (fix rest (l : list bytes) : M N :=
     match l with
     | [] => write_data C h None false true
     | b :: l' => r <- write_data C h (Some b) false false ;; if negb (isok r) then ret r else rest l'
     end) l.
Lemma send_segments_eq C h b l s : send_segments C h b l s = write_object C h b l s.
Proof.
  unfold send_segments, write_object, bind. destruct (write_data C h (Some b) true false s) as [[c s1]| |]; try reflexivity. destruct (isok c); cbn [negb]; [|reflexivity]. revert s1. induction l as [|x l IH]; intros s1; [reflexivity|]. cbn [write_rest]. unfold bind.
  destruct (write_data C h (Some x) false false s1) as [[c2 s2]| |]; try reflexivity. destruct (isok c2); cbn [negb]; [apply IH|reflexivity].
Qed.
Theorem C50_written_data_partial : forall C s h v b l code s', supply_ok C -> reachable C s -> look s h = Some v -> send_segments C h b l s = Ret (code, s') ->
  (forall x, look s' x = look s x) /\ (forall y, y <> v_path v -> content s' y = content s y) /\
  (* the file starts with the data; what an old, longer file had behind it is gone unless ftruncate failed *)
  (code = R_OK -> exists junk, content s' (v_path v) = Some (File (b ++ concat l ++ junk)) /\ ((forall t, c_fail C t = false) -> junk = [])).
Proof.
  intros C s h v b l code s' SO R Lv E. rewrite send_segments_eq in E. destruct (reachable_good C s SO R) as (r & [[ch W] HR]). destruct (look_inv C s ch r W h v Lv) as (p & i & A1 & A2 & A3 & ->).
  destruct (write_object_ok C r h b l s ch p i W A1 A2) as (code' & s2 & cut & E2 & F & O & K & CUT). rewrite E in E2. apply Ret_inj in E2. injection E2 as <- <-. split; [apply fsame_look; exact F|]. split; [exact O|]. intros EC. destruct (K EC) as (_ & d & _ & D).
  eexists. split; [exact D|]. intros NF. rewrite (CUT NF). reflexivity.
Qed.
Example C50_example : exists s', send_segments quiet 12 [9] [[8;7]; []; [6]] (demo_start quiet) = Ret (R_OK, s') /\ content s' pB = Some (File [9;8;7;6]).
Proof. eexists. split; vm_compute; reflexivity. Qed.

(** ** C51: SendPartialObject64 *)
Theorem C51_partial_write : forall C s h v off bs first last s', supply_ok C -> reachable C s -> look s h = Some v ->
  op_ok C (OPartial h off bs first last) s -> first = true \/ s_file s <> None -> write_partial C h off bs first last s = Ret (R_OK, s') ->
  exists d d', (content s (v_path v) = Some (File d) \/ content s (v_path v) = None /\ d = []) /\ content s' (v_path v) = Some (File d') /\ patched d off bs d' /\
    (forall y, y <> v_path v -> content s' y = content s y) /\
    (forall x u, x <> h -> look s x = Some u -> look s' x = Some u) /\
    (* the closing call: the reported size is the size of the file *)
    (last = true -> exists u o, look s' h = Some u /\ v_info u = Some o /\ oi_size o = len d') /\
    (last = false -> op_ok C (OPartial h off bs false true) s' /\ s_file s' <> None).
Proof.
  intros C s h v off bs first last s' SO R Lv (v0 & Lv0 & PRE) HF E. rewrite Lv in Lv0. injection Lv0 as <-. destruct (reachable_good C s SO R) as (r & [[ch W] HR]). destruct (look_inv C s ch r W h v Lv) as (p & i & A1 & A2 & A3 & ->).
  destruct (write_partial_ok C r h off bs first last s ch p i W A1 A2 PRE) as (code & s2 & E2 & H & O & OH & K & _). rewrite E in E2. apply Ret_inj in E2. injection E2 as <- <-. destruct (K eq_refl HF) as (d & D1 & D2 & D3 & D4).
  assert (W' : WF C s' ch r None) by (eapply wf_hsame; eassumption). destruct (H_fw _ _ H p i A2) as (i' & I1 & I2).
  assert (Lh : look s' h = Some (view_of s' i')) by (rewrite <- A3, <- (IS_h _ _ I2); exact (look_of C s' ch r W' p i' I1)).
  exists d, (wrote d off bs). split; [destruct D1 as [D1|(_ & D1 & D1')]; auto|]. split; [exact D2|]. split; [apply wrote_patched|]. split; [exact O|]. split; [|split].
  - intros x u Nx Lx. destruct (look_inv C s ch r W x u Lx) as (y & yi & B1 & B2 & <- & ->). rewrite <- Lx. eapply (look_keep C r s ch s' ch y yi yi); try eassumption.
    + rewrite OH; [exact B2|]. intros ->. congruence.
    + repeat split.
    + intros q j _ Hq. destruct (H_fw _ _ H q j Hq) as (j' & J1 & J2). exists j'. split; [exact J1|apply J2].
  - intros EL. destruct (D4 EL) as (_ & o & O1 & O2). rewrite I1 in O2. injection O2 as ->. eexists. eexists. split; [exact Lh|]. split; reflexivity.
  - intros EL. destruct (D3 EL) as (F1 & _). split; [|congruence]. exists (view_of s' i'). split; [exact Lh|]. intros _. right. exists (off + len bs), (wrote d off bs). cbn. rewrite (IS_path _ _ I2). split; [exact F1|exact D2].
Qed.
Example C51_example : exists s', write_partial quiet 12 7 [1;1] true true (demo_start quiet) = Ret (R_OK, s') /\ content s' pB = Some (File [1;2;3;4;5;0;0;1;1]) /\ op_ok quiet (OPartial 12 7 [1;1] true true) (demo_start quiet).
Proof.
  eexists. split; [vm_compute; reflexivity|]. split; [vm_compute; reflexivity|]. eexists. split; [vm_compute; reflexivity|]. discriminate.
Qed.
(** TruncateObject64 *)
Theorem C51_truncate : forall C s h size code s', supply_ok C -> reachable C s -> truncate_item C h size s = Ret (code, s') ->
  (code = R_OK -> exists v d d', look s h = Some v /\ ~ v_folder v /\ content s (v_path v) = Some (File d) /\ content s' (v_path v) = Some (File d') /\
     len d' = size /\ (forall k, k < size -> byte d' k = if k <? len d then byte d k else Some 0) /\ (forall y, y <> v_path v -> content s' y = content s y) /\
     exists u o, look s' h = Some u /\ v_info u = Some o /\ oi_size o = size) /\
  (code <> R_OK -> (forall x, look s' x = look s x) /\ forall y, content s' y = content s y).
Proof.
  intros C s h size code s' SO R E. destruct (reachable_good C s SO R) as (r & [[ch W] HR]). destruct (truncate_item_ok C r h size s ch W) as (c2 & s2 & E2 & H & K & N). rewrite E in E2. apply Ret_inj in E2. injection E2 as <- <-. split.
  - intros EC. destruct (K EC) as (p & i & o & d & A1 & A2 & A3 & A4 & A5 & A6 & A7). destruct (W_h _ _ _ _ _ W h _ A1) as (p' & i' & B1 & B2 & B3 & _). injection B1 as <-. rewrite A2 in B2. injection B2 as <-.
    exists (view_of s i), d, (resize d size). split; [rewrite <- B3; exact (look_of C s ch r W p i A2)|]. split; [unfold v_folder, v_format; cbn; rewrite A3; congruence|]. split; [exact A5|]. split; [unfold content; rewrite A6; cbn; rewrite peqb_refl; reflexivity|].
    split; [apply resize_spec|]. split; [apply resize_spec|]. split; [intros y Ny; unfold content; rewrite A6; destruct (peqb y (i_path i)) eqn:P; [apply peqb_eq in P; contradiction|reflexivity]|].
    assert (W' : WF C s' ch r None) by (eapply wf_hsame; eassumption). pose proof (look_of C s' ch r W' p _ A7) as L. cbn [it_info i_handle] in L. rewrite B3 in L. eexists. eexists. split; [exact L|]. split; reflexivity.
  - intros EC. destruct (N EC) as (t & -> & _). auto.
Qed.

(** ** C52: GetObject, GetPartialObject *)
(** in every state, also after histories C42 excludes *)
Theorem C52_reads_exact : forall C s h n off code bs s', read_data C h n off s = Ret ((code, bs), s') ->
  (code = R_OK -> exists v d, look s h = Some v /\ content s (v_path v) = Some (File d) /\ len bs = n /\ forall k, k < n -> byte bs k = byte d (off + k) /\ off + k < len d) /\
  (forall x, look s' x = look s x) /\ (forall y, content s' y = content s y) /\
  (* and it does return the data if nothing fails *)
  (works C -> forall v d, look s h = Some v -> content s (v_path v) = Some (File d) -> off < 9223372036854775808 -> n < 9223372036854775808 -> off + n <= len d -> code = R_OK).
Proof.
  intros C s h n off code bs s' E.
  assert (HV : (forall v, aget h (s_handles s) = Some v -> exists p i, v = Some p /\ s_heap s p = Some i) \/ aget h (s_handles s) = Some None).
  { destruct (aget h (s_handles s)) as [[p|]|] eqn:Ea; [left|right; reflexivity|left; discriminate]. intros v [= <-]. unfold read_data, bind at 1, handle_value, get in E. rewrite Ea in E. unfold bind at 1, deref in E. destruct (s_heap s p) as [i|] eqn:Ep; [eauto|discriminate]. }
  destruct HV as [W|Ea].
  2:{ unfold read_data, bind at 1, handle_value, get in E. rewrite Ea in E. unfold ret in E. apply Ret_inj in E. injection E as <- <- <-. split; [discriminate|]. split; [reflexivity|]. split; [reflexivity|]. intros _ v d L. unfold look in L. rewrite Ea in L. discriminate. }
  destruct (read_data_any C h n off s W) as (c2 & b2 & s2 & E2 & T1 & K & _ & L). rewrite E in E2. apply Ret_inj in E2. injection E2 as <- <- <-.
  split; [|split; [apply tsame_look; exact T1|split; [destruct T1 as (t & -> & _); reflexivity|]]].
  - intros EC. destruct (K EC) as (p & i & d & A1 & A2 & A3 & A4 & A5). exists (view_of s i), d. split; [unfold look; rewrite A1, A2; reflexivity|]. split; [exact A3|]. split; [exact A5|]. intros k Hk.
    assert (LL : len (take n (drop off d)) = n) by congruence. rewrite len_take, len_drop in LL. rewrite A4, nth_take by exact Hk. rewrite nth_drop. split; [reflexivity|lia].
  - intros NF v d Lv Hd H1 H2 H3. unfold look in Lv. destruct (aget h (s_handles s)) as [[p|]|] eqn:A1; try discriminate. destruct (s_heap s p) as [i|] eqn:A2; [|discriminate]. injection Lv as <-. eapply L; eauto.
Qed.
Example C52_example : exists s', read_data quiet 12 3 1 (demo_start quiet) = Ret ((R_OK, [2;3;4]), s').
Proof. eexists. vm_compute. reflexivity. Qed.

(** ** C53: CopyObject of a file *)
Theorem C53_copied_bytes_partial : forall C s fuel src dst code s' v w o d d0, supply_ok C -> reachable C s -> look s src = Some v -> look s dst = Some w -> src <> dst -> v_info v = Some o ->
  content s (v_path v) = Some (File d) -> content s (v_path w) = Some (File d0) -> oi_size o = len d -> 0 < len d < 4294967296 ->
  copy_data C fuel src dst s = Ret (code, s') -> code = R_OK ->
  content s' (v_path v) = Some (File d) /\ (forall y, y <> v_path w -> content s' y = content s y) /\
  (* nothing failed: the same bytes; otherwise at most the last 64 KiB are missing although OK was answered *)
  (exists k junk, len d - 65536 <= k <= len d /\ content s' (v_path w) = Some (File (take k d ++ junk)) /\ (works C -> content s' (v_path w) = Some (File d))).
Proof.
  intros C s fuel src dst code s' v w o d d0 SO R Lv Lw Ne Ho Hd Hd0 Es Hl E EC. destruct (reachable_good C s SO R) as (r & [[ch W] HR]).
  destruct (look_inv C s ch r W src v Lv) as (p & i & A1 & A2 & A3 & ->). destruct (look_inv C s ch r W dst w Lw) as (q & j & B1 & B2 & B3 & ->). cbn [v_path v_info view_of] in *.
  pose proof (copy_data_ok C SO r fuel src dst s ch p i q j o W HR A1 A2 Ho B1 B2) as H. rewrite E in H. destruct H as (_ & _ & H). destruct (H EC) as (O & _ & _ & K).
  assert (Eu : u32 (oi_size o) = len d) by (rewrite Es; unfold u32; apply N.mod_small; lia). assert (NP : i_path i <> i_path j).
  { intros Q. apply Ne. assert (p = q) by (eapply (wf_path_uniq _ _ _ _ _ W); eauto; discriminate). subst q. congruence. }
  destruct (K ltac:(lia) NP d d0 Hd Hd0) as (_ & k & cut & K1 & K2 & K3 & K4). split; [unfold content; rewrite O by exact NP; exact Hd|]. split; [exact O|]. rewrite Eu in *. change MAX_READ_LEN with 65536 in K2.
  exists k. eexists. split; [lia|]. split; [exact K3|]. intros NF. destruct (K4 NF) as (-> & ->). unfold content. rewrite K3, app_nil_r, take_all by lia. reflexivity.
Qed.
Print Assumptions C50_written_data_partial.
Print Assumptions C51_partial_write.
Print Assumptions C51_truncate.
Print Assumptions C52_reads_exact.
Print Assumptions C53_copied_bytes_partial.
