(** Every command gets one response (C21, C22). *)
From Verif Require Import Base Wire WireSpec Responder RSpec RLogic.

Section One.
Variable env : list (act * ans) -> act -> ans.
Variable formats : list N.
Variable cat : N -> N.
Variable props_by_type : N -> N * list N.
Variable prop_desc : N -> N -> N * option objpropdesc.
Hypothesis quiet : undisturbed env.
Variable bad : Prop.
Variable w : rst.
Hypothesis Hw : w = WAIT_RESP \/ w = WAIT_DATA.

Definition good (q : req) (o : outc) : Prop :=
  o_type o = TYPE_RESPONSE /\ (o_tid o = u16 (q_tid q) \/ o_tid o = q_tid q).
Definition Act (q : req) (R : list outc) (s : rstate) : Prop :=
  responses (r_log s) = R /\ r_st s = w /\ r_req s = Some q.
Definition Done (q : req) (R : list outc) (s : rstate) : Prop :=
  (exists o, responses (r_log s) = o :: R /\ good q o) /\ r_st s = IDLE /\ r_req s = None.

Lemma Act_quiet q R : quiet_closed (Act q R).
Proof.
  intros s [a r] Ha (H1 & H2 & H3). unfold Act. cbn. repeat split; auto.
  destruct a; cbn in *; try discriminate; auto.
Qed.
Lemma hcall q R c : hoare bad (Act q R) (call env c) (fun _ => Act q R).
Proof. apply h_ask. intros s (H1 & H2 & H3). unfold Act; cbn. auto. Qed.
Lemma hcall_loop q R c : hoare bad (Act q R) (call_loop env c) (fun _ => Act q R).
Proof.
  unfold call_loop, call. intros s Hs.
  unfold bind at 1, ask. set (r := env _ _). assert (Hr : forallb is_event (a_async r) = true) by apply quiet.
  assert (Hs1 : Act q R (add_log (ACall c, r) s)). { destruct Hs as (H1 & H2 & H3). repeat split; auto. }
  pose proof (events_quiet bad env _ false _ (Act_quiet q R) Hr _ Hs1) as H. unfold bind.
  destruct (run_sigs _ _ _ _) as [[a s1]| |]; auto.
Qed.
Lemma hsend_data q R o last : o_type o = TYPE_DATA ->
  hoare bad (Act q R) (send_container env o last) (fun b s => Act q R s /\ b = true).
Proof.
  intros Ho s Hs. pose proof Hs as (H1 & H2 & H3). unfold send_container.
  unfold bind at 1, get. cbn.
  replace (rst_eqb (r_st s) TX_CANCEL) with false by (rewrite H2; destruct Hw as [-> | ->]; reflexivity).
  replace (rst_eqb (r_st s) SUSPEND) with false by (rewrite H2; destruct Hw as [-> | ->]; reflexivity).
  rewrite Ho. change (TYPE_DATA =? TYPE_RESPONSE) with false. cbn [when].
  unfold bind at 1, ret. unfold bind at 1, ask. set (r := env _ _).
  assert (Hr : forallb is_event (a_async r) = true) by apply quiet.
  assert (Hs1 : Act q R (add_log (ASend o last, r) s)).
  { repeat split; auto. cbn. unfold response_of. cbn. rewrite Ho. exact H1. }
  pose proof (events_quiet bad env _ true _ (Act_quiet q R) Hr _ Hs1) as H. unfold bind.
  destruct (run_sigs _ _ _ _) as [[a s1]| |]; auto.
Qed.
Lemma hraw q R b last : hoare bad (Act q R) (r <- ask env (ASendRaw b last) ;; run_sigs env true (a_async r) ;;; ret r)
   (fun r s => Act q R s /\ exists h, r = env h (ASendRaw b last)).
Proof.
  intros s Hs. unfold bind at 1, ask. set (r := env _ _).
  assert (Hr : forallb is_event (a_async r) = true) by apply quiet.
  assert (Hs1 : Act q R (add_log (ASendRaw b last, r) s)).
  { destruct Hs as (H1 & H2 & H3). repeat split; auto. }
  pose proof (events_quiet bad env _ true _ (Act_quiet q R) Hr _ Hs1) as H. unfold bind.
  destruct (run_sigs _ _ _ _) as [[a s1]| |]; auto. cbn. split; [exact H|]. exists (r_log s). reflexivity.
Qed.

Definition PreDone (o : outc) (R : list outc) (s : rstate) : Prop :=
  responses (r_log s) = o :: R /\ r_st s = IDLE.
Lemma PreDone_quiet o R : quiet_closed (PreDone o R).
Proof.
  intros s [a r] Ha (H1 & H2). unfold PreDone. cbn. split; auto.
  destruct a; cbn in *; try discriminate; auto.
Qed.
Lemma hsend_resp q R o : good q o ->
  hoare bad (Act q R) (send_container env o true) (fun _ => Done q R).
Proof.
  intros Hg s Hs. pose proof Hs as (H1 & H2 & H3). pose proof Hg as [Ho Ht]. unfold send_container.
  unfold bind at 1, get. cbn.
  replace (rst_eqb (r_st s) TX_CANCEL) with false by (rewrite H2; destruct Hw as [-> | ->]; reflexivity).
  replace (rst_eqb (r_st s) SUSPEND) with false by (rewrite H2; destruct Hw as [-> | ->]; reflexivity).
  rewrite Ho. change (TYPE_RESPONSE =? TYPE_RESPONSE) with true. cbn [when].
  unfold bind at 1, upd. unfold bind at 1, ask. set (r := env _ _).
  assert (Hr : forallb is_event (a_async r) = true) by apply quiet.
  set (s0 := add_log _ _).
  assert (Hs1 : PreDone o R s0).
  { split; auto. cbn. unfold response_of. cbn. rewrite Ho. change (TYPE_RESPONSE =? TYPE_RESPONSE) with true. cbn iota. now rewrite H1. }
  pose proof (events_quiet bad env _ true _ (PreDone_quiet o R) Hr _ Hs1) as H. unfold bind.
  destruct (run_sigs _ _ _ _) as [[a s1]| |]; auto. destruct H as [H4 H5].
  cbn. repeat split; auto. exists o; auto.
Qed.
Lemma hresp q R c : hoare bad (Act q R) (send_response env c) (fun _ => Done q R).
Proof.
  intros s Hs. unfold send_response, bind at 1, get. rewrite (proj2 (proj2 Hs)).
  refine (h_bind bad _ _ _ _ _ _ (fun _ => Done q R) (hsend_resp q R _ _) _ s Hs).
  - split; cbn; auto.
  - intros ?; apply h_ret; auto.
Qed.
Lemma hresp1 q R c p : hoare bad (Act q R) (send_response1 env c p) (fun _ => Done q R).
Proof.
  intros s Hs. unfold send_response1, bind at 1, get. rewrite (proj2 (proj2 Hs)).
  refine (h_bind bad _ _ _ _ _ _ (fun _ => Done q R) (hsend_resp q R _ _) _ s Hs).
  - split; cbn; auto.
  - intros ?; apply h_ret; auto.
Qed.
Lemma hrespw q R c ps : hoare bad (Act q R) (respond_with env q c ps) (fun _ => Done q R).
Proof.
  refine (h_bind bad _ _ _ _ _ _ (fun _ => Done q R) (hsend_resp q R _ _) _).
  - split; cbn; auto.
  - intros ?; apply h_ret; auto.
Qed.
Lemma hdata_then q R p c : hoare bad (Act q R) (data_then env q p c) (fun _ => Done q R).
Proof.
  unfold data_then. eapply h_bind; [apply hsend_data; reflexivity|].
  intros b. apply h_pure. intros ->. apply hresp.
Qed.
Lemma hget q R A B (g : rstate -> A) (f : A -> M B) Q :
  (forall x, hoare bad (Act q R) (f x) Q) -> hoare bad (Act q R) (bind (get g) f) Q.
Proof. intros H. apply h_get. intros x. eapply h_pre; [apply H|]. tauto. Qed.
Lemma hcheck q R q' B (f : N -> M B) Q : (forall x, hoare bad (Act q R) (f x) Q) -> hoare bad (Act q R) (bind (check q') f) Q.
Proof. intros H. unfold check. apply h_assoc. apply hget. intros x. apply h_retb. apply H. Qed.

(** one step of symbolic execution *)
Ltac pres := let H1 := fresh in let H2 := fresh in let H3 := fresh in
  let s := fresh in intros s (H1 & H2 & H3); repeat split; cbn; auto.
Ltac hstep :=
  lazymatch goal with
  | |- hoare _ (Act ?q ?R) (bind (bind _ _) _) _ => apply h_assoc
  | |- hoare _ _ (bind (ret _) _) _ => apply h_retb
  | |- hoare _ (Act ?q ?R) (bind (check _) _) _ => apply hcheck; intro
  | |- hoare _ (Act ?q ?R) (bind (get _) _) _ => apply hget; intro
  | |- hoare _ (Act ?q ?R) (bind (call _ _) _) _ => apply h_inv; [apply hcall|intro]
  | |- hoare _ (Act ?q ?R) (bind (call_loop _ _) _) _ => apply h_inv; [apply hcall_loop|intro]
  | |- hoare _ (Act ?q ?R) (bind (upd _) _) _ => apply h_updb with (R := Act q R); [solve [pres]|]
  | |- hoare _ (Act ?q ?R) (bind (when ?b _) _) _ => destruct b; cbn [when]
  | |- hoare _ (Act ?q ?R) (when ?b _) _ => destruct b eqn:?; cbn [when]
  | |- hoare _ (Act ?q ?R) (bind (if ?b then _ else _) _) _ => destruct b eqn:?
  | |- hoare _ (Act ?q ?R) (bind (let (_, _) := ?b in _) _) _ => destruct b eqn:?
  | |- hoare _ (Act ?q ?R) (bind (match ?b with _ => _ end) _) _ => destruct b eqn:?
  | |- hoare _ (Act ?q ?R) (if ?b then _ else _) _ => destruct b eqn:?
  | |- hoare _ (Act ?q ?R) (let (_, _) := ?b in _) _ => destruct b eqn:?
  | |- hoare _ (Act ?q ?R) (match ?b with _ => _ end) _ => destruct b eqn:?
  | |- hoare _ (Act ?q ?R) (send_response _ _) _ => apply hresp
  | |- hoare _ (Act ?q ?R) (send_response1 _ _ _) _ => apply hresp1
  | |- hoare _ (Act ?q ?R) (respond_with _ _ _ _) _ => apply hrespw
  | |- hoare _ (Act ?q ?R) (data_then _ _ _ _) _ => apply hdata_then
  | |- hoare _ (Act ?q ?R) (bind (send_response _ _) _) _ => eapply h_bind; [apply hresp|intro; cbv beta]
  | |- hoare _ (Act ?q ?R) (upd _) _ => apply h_upd; solve [pres]
  | |- hoare _ (Act ?q ?R) (ret _) (fun _ => Act ?q ?R) => apply h_ret; solve [auto]
  end.
Ltac hs := intros; repeat hstep.
Notation one h := (forall q R, hoare bad (Act q R) (h q) (fun _ => Done q R)).
Notation stays h := (forall q R, hoare bad (Act q R) (h q) (fun _ => Act q R)).

Lemma one_getDeviceInfo : one (h_getDeviceInfo env). Proof. intros; unfold h_getDeviceInfo; hs. Qed.
Lemma one_openSession : one (h_openSession env).
Proof.
  intros; unfold h_openSession; hs. apply h_bind with (R := fun _ => Done q R); [|intros ?; apply h_ret; auto].
  apply h_ask. intros s ((o & H1 & H2) & H3 & H4). split; [|split]; auto. exists o; auto.
Qed.
Lemma one_closeSession : one (h_closeSession env). Proof. intros; unfold h_closeSession; hs. Qed.
Lemma one_getStorageIDs : one (h_getStorageIDs env). Proof. intros; unfold h_getStorageIDs; hs. Qed.
Lemma one_getStorageInfo : one (h_getStorageInfo env). Proof. intros; unfold h_getStorageInfo; hs. Qed.
Lemma stays_object_query : forall q R, hoare bad (Act q R) (object_query env formats q) (fun _ => Act q R).
Proof. intros; unfold object_query; hs. Qed.
Lemma one_getNumObjects : one (h_getNumObjects env formats).
Proof. intros; unfold h_getNumObjects. apply h_inv; [apply stays_object_query|intro]. hs. Qed.
Lemma one_getObjectHandles : one (h_getObjectHandles env formats).
Proof. intros; unfold h_getObjectHandles. apply h_inv; [apply stays_object_query|intro]. hs. Qed.
Lemma one_getObjectInfo : one (h_getObjectInfo env). Proof. intros; unfold h_getObjectInfo; hs. Qed.
Lemma one_deleteObject : one (h_deleteObject env). Proof. intros; unfold h_deleteObject; hs. Qed.
Lemma one_unsupported : one (h_unsupported env). Proof. intros; unfold h_unsupported; hs. Qed.
Lemma one_getDevicePropDesc : one (h_getDevicePropDesc env). Proof. intros; unfold h_getDevicePropDesc; hs. Qed.
Lemma one_getDevicePropValue : one (h_getDevicePropValue env). Proof. intros; unfold h_getDevicePropValue; hs. Qed.
Lemma stays_move_copy : forall q R, hoare bad (Act q R) (move_copy_checks env q) (fun _ => Act q R).
Proof. intros; unfold move_copy_checks; hs. Qed.
Lemma one_moveObject : one (h_moveObject env).
Proof. intros; unfold h_moveObject. apply h_inv; [apply stays_move_copy|intro]. hs. Qed.
Lemma one_copyObject : one (h_copyObject env).
Proof.
  intros; unfold h_copyObject. apply h_inv; [apply stays_move_copy|intro].
  apply h_inv; [hs|intros [c2 h]]. apply h_get. intros st.
  destruct (rst_eqb st TX_CANCEL) eqn:E.
  - intros s [(_ & H & _) H2]; rewrite <- H2, H in E; destruct Hw as [-> | ->]; discriminate.
  - eapply h_pre; [apply hresp1|]. tauto.
Qed.
Lemma one_truncate : one (h_truncateObject64 env).
Proof. intros; unfold h_truncateObject64, edit_check; hs. Qed.
Lemma one_beginEdit : one (h_beginEdit env). Proof. intros; unfold h_beginEdit; hs. Qed.
Lemma one_endEdit : one (h_endEdit env).
Proof. intros; unfold h_endEdit, edit_check; hs. Qed.
Lemma one_getObjPropsSupported : one (h_getObjPropsSupported env cat props_by_type).
Proof. intros; unfold h_getObjPropsSupported; hs. Qed.
Lemma one_getObjReferences : one (h_getObjReferences env). Proof. intros; unfold h_getObjReferences; hs. Qed.
Lemma one_skip : one (h_skip env). Proof. intros; unfold h_skip; hs. Qed.

Lemma stays_check_only : stays h_check_only. Proof. intros; unfold h_check_only; hs. Qed.
Lemma stays_sendObject : stays h_sendObject. Proof. intros; unfold h_sendObject; hs. Qed.
Lemma stays_setDevicePropValue : stays (h_setDevicePropValue env). Proof. intros; unfold h_setDevicePropValue; hs. Qed.
Lemma stays_sendPartial : stays h_sendPartialObject64.
Proof. intros; unfold h_sendPartialObject64, edit_check; hs. Qed.
Lemma stays_sendObjectPropList : stays (h_sendObjectPropList env).
Proof. intros; unfold h_sendObjectPropList; hs. Qed.

(** with the property tables *)
Hypothesis tables : bad \/ tables_ok props_by_type prop_desc.
Lemma desc_need q R c p B (f : objpropdesc -> M B) Q : fst (prop_desc c p) = R_OK ->
  (forall d, hoare bad (Act q R) (f d) Q) -> hoare bad (Act q R) (bind (need (snd (prop_desc c p))) f) Q.
Proof.
  intros H1 H2. destruct tables as [Hb | [T _]].
  - destruct (snd (prop_desc c p)); cbn [need]; [apply h_retb; apply H2|]. intros s Hs; exact Hb.
  - destruct (T c p H1) as (d & ->). cbn [need]. apply h_retb, H2.
Qed.
Lemma isok_eq c : isok c = true -> c = R_OK. Proof. unfold isok. lia. Qed.
Lemma nisok_eq c : negb (isok c) = false -> c = R_OK. Proof. unfold isok. lia. Qed.
Ltac usedesc := match goal with
  | H : prop_desc ?c ?p = (?x, ?o), H2 : isok ?x = true |- hoare _ _ (bind (need ?o) _) _ =>
      replace o with (snd (prop_desc c p)) by (rewrite H; reflexivity); apply desc_need;
      [rewrite H; exact (isok_eq _ H2)|intro]
  | H : prop_desc ?c ?p = (?x, ?o), H2 : negb (isok ?x) = false |- hoare _ _ (bind (need ?o) _) _ =>
      replace o with (snd (prop_desc c p)) by (rewrite H; reflexivity); apply desc_need;
      [rewrite H; exact (nisok_eq _ H2)|intro]
  end.
Lemma one_getObjPropDesc : one (h_getObjPropDesc env cat prop_desc).
Proof. intros; unfold h_getObjPropDesc; cbv zeta; hs. usedesc. hs. Qed.
Lemma one_getObjPropValue : one (h_getObjPropValue env cat prop_desc).
Proof. intros; unfold h_getObjPropValue; cbv zeta; hs; usedesc; hs. Qed.
Lemma stays_setObjPropValue : stays (h_setObjPropValue env cat prop_desc).
Proof. intros; unfold h_setObjPropValue; cbv zeta; hs; usedesc; hs. Qed.

Lemma stays_all_descs q R c l : (bad \/ forall p, In p l -> exists d, snd (prop_desc c p) = Some d) ->
  hoare bad (Act q R) (all_descs prop_desc c l) (fun _ => Act q R).
Proof.
  induction l as [|p l IH]; intros H; cbn [all_descs]; [hs|].
  destruct (prop_desc c p) as [cd od] eqn:E.
  assert (IH' : hoare bad (Act q R) (all_descs prop_desc c l) (fun _ => Act q R)).
  { apply IH. destruct H as [H|H]; [left; exact H|right]. intros p0 Hp0; apply H; right; exact Hp0. }
  destruct od as [d|]; cbn [need].
  - hs. apply h_inv; [exact IH'|intros [? ?]]. hs.
  - destruct H as [Hb|H]; [intros s Hs; exact Hb|].
    destruct (H p (or_introl eq_refl)) as (d & Hd). rewrite E in Hd. discriminate.
Qed.
Lemma stays_prop_list q R prop hs0 : hoare bad (Act q R) (prop_list_loop env cat props_by_type prop_desc hs0 prop) (fun _ => Act q R).
Proof.
  induction hs0 as [|h l IH]; cbn [prop_list_loop]; [hs|]. cbv zeta.
  apply h_inv; [apply hcall|intros r]. destruct (negb (isok (a_code r))); [hs|].
  set (category := if cat _ =? CAT_UNSUPPORTED then CAT_COMMON else _).
  apply h_inv.
  - destruct (prop =? 65535); [|hs].
    destruct (props_by_type category) as [c l0] eqn:E. destruct (isok c) eqn:Ec; [|hs].
    apply stays_all_descs. destruct tables as [Hb|[_ T]]; [left; exact Hb|right].
    intros p Hp. apply T. + rewrite E; apply isok_eq; exact Ec. + rewrite E; exact Hp.
  - intros [c ds]. hs. apply h_inv; [exact IH|intros [? [? ?]]]. hs.
Qed.
Lemma one_getObjectPropList : one (h_getObjectPropList env cat props_by_type prop_desc).
Proof.
  intros; unfold h_getObjectPropList; cbv zeta. hs;
  (apply h_inv; [apply stays_prop_list|intros [c2 [items n]]]; hs).
Qed.

(** object reads *)
Definition reads_work : Prop := forall h o n off, a_code (env h (ACall (SRead o n off))) = R_OK.
Hypothesis tw : transport_works env.
Hypothesis rw : reads_work.
Lemma h_seg_respond q R op c n : hoare bad (Act q R) (seg_respond env op c n) (fun _ => Done q R).
Proof. unfold seg_respond. hs. Qed.
Lemma stays_seg q R h fuel : forall off rem, rem <= N.of_nat fuel * BUFFER_MAX -> 0 < rem ->
  hoare bad (Act q R) (seg_loop env fuel h off rem) (fun r s => Act q R s /\ snd r = true).
Proof.
  induction fuel as [|f IH]; intros off rem Hf Hr; [lia|].
  cbn [seg_loop]. set (n := if rem <? BUFFER_MAX then rem else BUFFER_MAX).
  assert (Hn : n <= BUFFER_MAX /\ n <= rem /\ 0 < n /\ (rem - n = 0 \/ n = BUFFER_MAX)).
  { unfold n, BUFFER_MAX in *. destruct (rem <? 16384) eqn:E; lia. }
  unfold call. intros s Hs. unfold bind at 1, ask. set (r := env _ _).
  assert (Ec : a_code r = R_OK) by apply rw. rewrite Ec. change (negb (isok R_OK)) with false. cbn iota.
  assert (Hs1 : Act q R (add_log (ACall (SRead h n off), r) s)) by (destruct Hs as (? & ? & ?); repeat split; auto).
  pose proof (hraw q R (fit n (a_bytes r)) (n =? rem) _ Hs1) as H.
  revert H. unfold bind, ask. set (r2 := env (r_log (add_log _ s)) _).
  destruct (run_sigs env true (a_async r2) _) as [[u s2]| |]; auto.
  intros [H2 (hh & Hh)]. cbn in H2.
  assert (Eb : a_bool r2 = true) by (rewrite Hh; apply tw). rewrite Eb. cbn [negb]. cbv zeta.
  destruct (rem - n =? 0) eqn:E0; [split; auto|].
  apply (IH (off + n) (rem - n)); [|lia|exact H2]. unfold BUFFER_MAX in *. lia.
Qed.
Lemma one_segmented q R h off tail : hoare bad (Act q R) (send_segmented env q h off tail) (fun _ => Done q R).
Proof.
  unfold send_segmented. cbv zeta. apply h_inv; [apply hcall|intros r].
  destruct (negb (isok (a_code r))); [apply h_seg_respond|].
  eapply h_bind; [apply hsend_data; reflexivity|]. intros b. apply h_pure. intros ->. cbn [negb].
  set (n := if _ <? _ then _ else _). set (rem := sub64 tail off - n).
  destruct (rem =? 0) eqn:E; [apply h_seg_respond|].
  eapply h_bind; [apply stays_seg|]. 3:{ intros [[? ?] d]. apply h_pure. cbn. intros ->. apply h_seg_respond. }
  - unfold BUFFER_MAX. pose proof (N.mul_succ_div_gt rem 16384). lia.
  - lia.
Qed.
Lemma one_get_object q R h off size : hoare bad (Act q R) (get_object_common env q h off size) (fun _ => Done q R).
Proof. unfold get_object_common. cbv zeta. hs; try (apply one_segmented). Qed.
Lemma one_getObject : one (h_getObject env). Proof. intros; apply one_get_object. Qed.
Lemma one_getPartial : one (h_getPartialObject env). Proof. intros; apply one_get_object. Qed.
Lemma one_getPartial64 : one (h_getPartialObject64 env). Proof. intros; apply one_get_object. Qed.

(** ** Data phases.  Malformed data is undefined behaviour (C08): partial correctness. *)
Hypothesis badT : bad.
Lemma h_need q R A (o : option A) : hoare bad (Act q R) (need o) (fun _ => Act q R).
Proof. destruct o; [apply h_ret; auto|]. intros s Hs; exact badT. Qed.
Lemma h_liftA q R A (o : outcome A) : hoare bad (Act q R) (lift o) (fun _ => Act q R).
Proof. apply h_lift; auto. Qed.
Lemma h_rd q R A (f : rxc -> outcome (A * rxc)) : hoare bad (Act q R) (rd f) (fun _ => Act q R).
Proof.
  unfold rd, get_rx. hs. apply h_inv; [apply h_need|intro]. apply h_inv; [apply h_liftA|intros [? ?]]. hs.
Qed.
Ltac hstep2 :=
  lazymatch goal with
  | |- hoare _ (Act ?q ?R) (bind (rd _) _) _ => apply h_inv; [apply h_rd|intro]
  | |- hoare _ (Act ?q ?R) (bind (need _) _) _ => apply h_inv; [apply h_need|intro]
  | |- hoare _ (Act ?q ?R) (bind (lift _) _) _ => apply h_inv; [apply h_liftA|intro]
  | |- hoare _ _ crash _ => apply h_crash_if; exact badT
  | |- hoare _ _ (bind crash _) _ => apply h_bind with (R := fun _ _ => False); [apply h_crash_if; exact badT|intros ? ? []]
  | _ => hstep
  end.
Ltac hs2 := intros; repeat hstep2.
Lemma done_sendObjectInfo q R : hoare bad (Act q R) (d_sendObjectInfo env q) (fun _ => Done q R).
Proof. unfold d_sendObjectInfo. cbv zeta. hs2. Qed.
Lemma stays_check q R h n last : hoare bad (Act q R) (send_object_check env h n last)
  (fun c s => Act q R s /\ (last = true -> c <> R_Undefined)).
Proof.
  unfold send_object_check. cbv zeta. apply hget; intros pl. apply hget; intros sq.
  destruct pl as [p|]; [|destruct sq as [x|]].
  - apply h_updb with (R := Act q R); [solve [pres]|].
    destruct (_ <? _); [destruct last|]; [|apply h_ret; intros s Hs; split; [exact Hs|discriminate]..].
    apply h_inv; [apply hcall|intro]. apply h_ret; intros s Hs; split; [exact Hs|discriminate].
  - apply h_updb with (R := Act q R); [solve [pres]|].
    destruct (_ <? _); [destruct last|]; [|apply h_ret; intros s Hs; split; [exact Hs|discriminate]..].
    apply h_inv; [apply hcall|intro]. apply h_ret; intros s Hs; split; [exact Hs|discriminate].
  - apply h_ret; intros s Hs; split; [exact Hs|discriminate].
Qed.
Lemma stays_apply q R h c l : hoare bad (Act q R) (apply_list env prop_desc h c l) (fun _ => Act q R).
Proof.
  induction l as [|[[code ty] v] l IH]; cbn [apply_list]; [hs|].
  apply h_inv; [hs|intro]. apply h_inv; [exact IH|intro]. hs.
Qed.
Hypothesis noUndef : forall h o d f l, a_code (env h (ACall (SWrite o d f l))) <> R_Undefined.
Lemma done_sendObject q R data first last :
  hoare bad (Act q R) (d_sendObject env cat prop_desc data first last)
    (fun _ s => Done q R s \/ (last = false /\ Act q R s)).
Proof.
  unfold d_sendObject. apply hget; intros pl0. apply hget; intros sq0. cbv zeta.
  set (h := match sq0 with Some _ => _ | None => _ end).
  apply h_bind with (R := fun c s => Act q R s /\ (last = true -> c <> R_Undefined)).
  - set (K := if first && (len data <? 12) then _ else _).
    assert (HK : hoare bad (Act q R) K (fun c s => Act q R s /\ (last = true -> c <> R_Undefined))).
    { unfold K. destruct (_ && _); [hs2|].
      eapply h_bind with (R := fun r s => Act q R s /\ a_code r <> R_Undefined).
      { apply h_ask. intros s (H1 & H2 & H3). split; [repeat split; auto|]. apply noUndef. }
      intros r. apply h_pure. intros Hr. destruct (isok (a_code r)); [apply stays_check|].
      apply h_ret. intros s Hs; split; auto. }
    destruct pl0; [exact HK|]. destruct sq0; [exact HK|].
    apply h_ret. intros s Hs; split; [exact Hs|discriminate].
  - intros code. apply h_pure. intros Hc. destruct (code =? R_Undefined) eqn:E.
    + apply h_ret. intros s Hs. right. split; [|exact Hs]. destruct last; [|reflexivity].
      exfalso; apply Hc; [reflexivity|lia].
    + eapply h_post with (Q := fun _ => Done q R); [|intros ? s Hs; left; exact Hs].
      apply h_updb with (R := Act q R); [solve [pres]|]. apply hget; intros pl.
      apply h_inv.
      { destruct pl; [|hs]. destruct (isok code); cbn [when]; [|hs].
        apply h_inv; [apply stays_apply|intro]. hs. }
      intros _. apply h_inv; [apply hcall|intro].
      eapply h_bind; [apply hresp|]. intro. cbv beta. apply h_upd. intros s ((o & H1 & H2) & H3 & H4).
      split; [exists o; auto|split; auto].
Qed.
Lemma stays_sendPartialD q R data first last : hoare bad (Act q R) (d_sendPartial env data first last) (fun _ => Act q R).
Proof. unfold d_sendPartial. cbv zeta. hs2. Qed.
Lemma stays_set_list q R n : forall i, hoare bad (Act q R) (set_list_loop env cat prop_desc n i) (fun _ => Act q R).
Proof.
  induction n as [|n IH]; intros i; cbn [set_list_loop]; [hs|].
  apply h_inv; [apply h_rd|intro]. apply h_inv; [apply hcall|intro]. apply h_inv; [hs2|intro].
  destruct (isok _); [apply IH|hs].
Qed.
Lemma done_setObjectPropList q R : hoare bad (Act q R) (d_setObjectPropList env cat prop_desc q) (fun _ => Done q R).
Proof.
  unfold d_setObjectPropList. apply h_inv; [apply h_rd|intro]. apply h_inv; [apply stays_set_list|intros [? ?]]. hs.
Qed.
Lemma stays_scan q R c n : forall i acc fn, hoare bad (Act q R) (scan_list prop_desc n i c acc fn) (fun _ => Act q R).
Proof.
  induction n as [|n IH]; intros i acc fn; cbn [scan_list]; [hs|]. hs2. apply IH.
Qed.
Lemma done_sendObjectPropList q R : hoare bad (Act q R) (d_sendObjectPropList env cat prop_desc q) (fun _ => Done q R).
Proof.
  unfold d_sendObjectPropList. apply hget; intros [p|]; [|hs].
  apply h_inv; [apply h_rd|intro]. apply h_inv; [apply stays_scan|intros [[? ?] ?]]. cbv zeta. hs2.
Qed.
Lemma done_setDevicePropValue q R : hoare bad (Act q R) (d_setDevicePropValue env q) (fun _ => Done q R).
Proof. unfold d_setDevicePropValue. cbv zeta. hs2. Qed.
Lemma done_setObjPropValue q R : hoare bad (Act q R) (d_setObjPropValue env cat prop_desc q) (fun _ => Done q R).
Proof. unfold d_setObjPropValue. cbv zeta. hs2. Qed.
Lemma done_setObjReferences q R : hoare bad (Act q R) (d_setObjReferences env q) (fun _ => Done q R).
Proof. unfold d_setObjReferences. hs2. Qed.

Lemma done_finish q R c (last : bool) : hoare bad (Act q R) (upd (set_resp c) ;;; when last (send_response env c))
    (fun _ s => Done q R s \/ (last = false /\ Act q R s)).
Proof.
  apply h_updb with (R := Act q R); [solve [pres]|]. destruct last; cbn [when].
  - eapply h_post; [apply hresp|]. intros ? s Hs; left; exact Hs.
  - apply h_ret. auto.
Qed.
Lemma done_left A q R (m : M A) last : hoare bad (Act q R) m (fun _ => Done q R) ->
  hoare bad (Act q R) m (fun _ s => Done q R s \/ (last = false /\ Act q R s)).
Proof. intros H. eapply h_post; [exact H|]. intros ? s Hs; left; exact Hs. Qed.
Lemma done_data q R data first last :
  hoare bad (Act q R) (data_handler env cat prop_desc q data first last)
    (fun _ s => Done q R s \/ (last = false /\ Act q R s)).
Proof.
  unfold data_handler. apply hget; intros resp0.
  apply h_inv; [hs2|intros _].
  destruct (negb (pass_through (q_code q)) && negb last) eqn:El.
  { apply h_ret. intros s Hs; right; split; [|exact Hs]. destruct last; [|reflexivity].
    rewrite andb_false_r in El; discriminate. }
  apply hget; intros d. apply h_inv; [hs2|intros resp1]. cbv zeta.
  destruct (negb (isok resp1)); [apply done_finish|].
  destruct (_ =? _); [apply done_left, done_sendObjectInfo|].
  destruct (_ =? _); [apply done_sendObject|].
  destruct (_ =? _); [apply h_inv; [apply stays_sendPartialD|intro; apply done_finish]|].
  destruct (_ =? _); [apply done_left, done_setObjectPropList|].
  destruct (_ =? _); [apply done_left, done_sendObjectPropList|].
  destruct (_ =? _); [apply done_left, done_setDevicePropValue|].
  destruct (_ =? _); [apply done_left, done_setObjPropValue|].
  destruct (_ =? _); [apply done_left, done_setObjReferences|].
  apply done_finish.
Qed.
End One.
