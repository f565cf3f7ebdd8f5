From Verif Require Import Base Control.

(** ** Reading the history *)
Definition signals (l : list cev) : list sig :=
  flat_map (fun v => match v with VSig g => [g] | _ => [] end) (rev l).
Definition reads (l : list cev) : list kev :=
  flat_map (fun v => match v with VRead e => [e] | _ => [] end) (rev l).
Definition conclusion (v : cev) : bool := match v with VData _ | VStall | VAck _ _ => true | _ => false end.

(** ** Specification: what a kernel event means to the rest of the program, and how the
    host's request has to end (USB still image class, section 5) *)
Definition meaning (e : kev) : list sig :=
  match e with
  | KBind => [SBind] | KUnbind => [SUnbind]
  | KEnable | KResume => [SStart]
  | KDisable | KSuspend => [SStop]
  | KSetup su => if s_req su =? 0x64 then [SCancel] else if s_req su =? 0x66 then [SReset] else []
  end.

Lemma rec_len e : len (rec_bytes e) = 12.
Proof. destruct e as [| | | |[]| |]; reflexivity. Qed.

Lemma chop_concat es r :
  chop (length es) (concat (map rec_bytes es) ++ r) = map rec_bytes es.
Proof.
  induction es as [|e es IH]; [reflexivity|].
  cbn [length chop map concat]. rewrite <- app_assoc.
  replace (take REC (rec_bytes e ++ concat (map rec_bytes es) ++ r)) with (rec_bytes e).
  2:{ rewrite take_app_l by (rewrite rec_len; reflexivity). symmetry; apply take_all. rewrite rec_len; reflexivity. }
  replace (drop REC (rec_bytes e ++ concat (map rec_bytes es) ++ r)) with (concat (map rec_bytes es) ++ r).
  2:{ change REC with (12). rewrite <- (rec_len e). symmetry. apply drop_app_exact. }
  f_equal. exact IH.
Qed.
Lemma concat_len es : len (concat (map rec_bytes es)) = 12 * len es.
Proof.
  induction es as [|e es IH]; [reflexivity|].
  cbn [map concat]. rewrite len_app, rec_len, len_cons, IH. lia.
Qed.
Lemma records_events es : records (concat (map rec_bytes es)) = map rec_bytes es.
Proof.
  unfold records. rewrite concat_len. unfold REC. rewrite (N.mul_comm 12), N.div_mul by discriminate.
  unfold len. rewrite Nat2N.id. rewrite <- (app_nil_r (concat _)). apply chop_concat.
Qed.
Lemma records_short l : len l < 12 -> records l = [].
Proof.
  intros H. unfold records, REC. rewrite N.div_small by exact H. reflexivity.
Qed.

Lemma signals_cons v l : signals (v :: l) = signals l ++ match v with VSig g => [g] | _ => [] end.
Proof. unfold signals. cbn [rev]. rewrite flat_map_app. cbn. now rewrite app_nil_r. Qed.
Lemma reads_cons v l : reads (v :: l) = reads l ++ match v with VRead e => [e] | _ => [] end.
Proof. unfold reads. cbn [rev]. rewrite flat_map_app. cbn. now rewrite app_nil_r. Qed.
Lemma signals_reads es l : signals (rev (map VRead es) ++ l) = signals l.
Proof.
  unfold signals. rewrite rev_app_distr, rev_involutive, flat_map_app.
  replace (flat_map _ (map VRead es)) with (@nil sig); [apply app_nil_r|].
  induction es; [reflexivity|assumption].
Qed.
Lemma reads_reads es l : reads (rev (map VRead es) ++ l) = reads l ++ es.
Proof.
  unfold reads. rewrite rev_app_distr, rev_involutive, flat_map_app. f_equal.
  induction es; [reflexivity|]. cbn. now f_equal.
Qed.

(** ** The signals are those of the events read *)
Definition short (a : cact) : Prop := match a with CRead d => len d < 12 | _ => True end.

Definition tinv (s : cst) : Prop :=
  exists todo, c_todo s = map rec_bytes todo /\
    signals (c_log s) ++ flat_map meaning todo = flat_map meaning (reads (c_log s)).

Lemma tinv_same s s' : c_todo s' = c_todo s -> signals (c_log s') = signals (c_log s) ->
  reads (c_log s') = reads (c_log s) -> tinv s -> tinv s'.
Proof. intros A B C [todo [D E]]. exists todo. rewrite A, B, C. auto. Qed.

Lemma write_frame b s : c_todo (ep0_write b s) = c_todo s /\ signals (c_log (ep0_write b s)) = signals (c_log s)
  /\ reads (c_log (ep0_write b s)) = reads (c_log s) /\ c_status (ep0_write b s) = c_status s /\ c_q (ep0_write b s) = c_q s.
Proof.
  unfold ep0_write. destruct (c_ep0 s); cbn [set_ep0 c_todo c_log c_status c_q]; auto.
  destruct (dir_in _); cbn [set_ep0 note c_todo c_log c_status c_q];
    rewrite ?signals_cons, ?reads_cons, ?app_nil_r; auto.
Qed.
Lemma read0_frame s : c_todo (ep0_read0 s) = c_todo s /\ signals (c_log (ep0_read0 s)) = signals (c_log s)
  /\ reads (c_log (ep0_read0 s)) = reads (c_log s) /\ c_status (ep0_read0 s) = c_status s /\ c_q (ep0_read0 s) = c_q s.
Proof.
  unfold ep0_read0. destruct (c_ep0 s); cbn [set_ep0 c_todo c_log c_status c_q]; auto.
  destruct (dir_in _); cbn [set_ep0 note c_todo c_log c_status c_q];
    rewrite ?signals_cons, ?reads_cons, ?app_nil_r; auto.
Qed.
Lemma stall_frame d s : c_todo (stall d s) = c_todo s /\ signals (c_log (stall d s)) = signals (c_log s)
  /\ reads (c_log (stall d s)) = reads (c_log s) /\ c_status (stall d s) = c_status s /\ c_q (stall d s) = c_q s.
Proof. destruct d; [apply read0_frame|apply write_frame]. Qed.

Lemma handle_event_ok e s s' :
  handle_event (rec_bytes e) s = Ret s' ->
  c_todo s' = c_todo s /\ signals (c_log s') = signals (c_log s) ++ meaning e /\ reads (c_log s') = reads (c_log s).
Proof.
  destruct e as [| | | |[ty rq v i l]| |]; cbn [rec_bytes kev_type repeat app]; unfold handle_event; cbn [nth].
  1-4,6-7: intros H; apply Ret_inj in H; subst s'; cbn [note c_todo c_log]; rewrite signals_cons, reads_cons, app_nil_r; auto.
  cbn [nth app le_enc s_type s_req s_val s_idx s_len]. unfold setup_request. cbn [nth meaning s_req].
  destruct (rq =? 0x67) eqn:E1.
  - apply N.eqb_eq in E1. subst rq. change (0x67 =? 0x64) with false. change (0x67 =? 0x66) with false. cbv iota.
    rewrite app_nil_r.
    destruct (ty =? 0xa1).
    + unfold send_status. destruct (c_status s) as [st|]; [|discriminate]. intros [= <-].
      destruct (write_frame (status_data st) s) as (A & B & C & _). auto.
    + intros [= <-]. destruct (stall_frame (dir_in ty) s) as (A & B & C & _). auto.
  - destruct (rq =? 0x64).
    { intros [= <-]. cbn [note c_todo c_log]; rewrite signals_cons, reads_cons, app_nil_r; auto. }
    destruct (rq =? 0x66).
    { intros [= <-]. cbn [note c_todo c_log]; rewrite signals_cons, reads_cons, app_nil_r; auto. }
    intros [= <-]. destruct (stall_frame (dir_in ty) s) as (A & B & C & _). rewrite app_nil_r. auto.
Qed.

Lemma cstep_tinv a s s' : short a -> cstep a s = Ret s' -> tinv s -> tinv s'.
Proof.
  intros SH H I. destruct a as [q|st|d| |]; cbn [cstep] in H.
  - destruct (_ <=? 1); injection H as <-; [|exact I].
    now apply (tinv_same s).
  - injection H as <-. now apply (tinv_same s).
  - cbn [short] in SH.
    destruct (c_todo s) eqn:T; [|injection H as <-; exact I].
    destruct (c_ep0 s) as [|su|].
    + apply Ret_inj in H. subst s'. destruct I as [todo [D E]].
      rewrite T in D. destruct todo; [|discriminate]. cbn in E. rewrite app_nil_r in E.
      eexists (take (MAX_CONTROL / REC) (c_q s)). cbn [c_todo c_log]. split; [apply records_events|].
      rewrite signals_reads, reads_reads, E, flat_map_app. reflexivity.
    + destruct (dir_in _).
      * apply Ret_inj in H. subst s'. apply (tinv_same s); cbn [set_ep0 note c_todo c_log]; auto.
        all: rewrite ?signals_cons, ?reads_cons, ?app_nil_r; auto.
      * apply Ret_inj in H. subst s'. apply (tinv_same s); cbn [c_todo c_log]; auto.
        { rewrite T. apply records_short. rewrite len_take. lia. }
        all: rewrite ?signals_cons, ?reads_cons, ?app_nil_r; auto.
    + apply Ret_inj in H. subst s'. now apply (tinv_same s).
  - injection H as <-. exact I.
  - destruct (c_todo s) as [|r rest] eqn:T; [injection H as <-; exact I|].
    destruct I as [todo [D E]]. rewrite T in D. destruct todo as [|e todo]; [discriminate|].
    cbn [map] in D. injection D as -> ->.
    apply handle_event_ok in H. cbn [c_todo c_log] in H. destruct H as (A & B & C).
    exists todo. split; [exact A|]. rewrite B, C, <- E. cbn [flat_map]. now rewrite <- app_assoc.
Qed.

Lemma crun_tinv l : forall s s', Forall short l -> crun l s = Ret s' -> tinv s -> tinv s'.
Proof.
  induction l as [|a l IH]; intros s s' F H I; cbn [crun] in H; [injection H as <-; exact I|].
  inversion F; subst. destruct (cstep a s) as [s1| |] eqn:E; try discriminate.
  eapply IH; eauto. eapply cstep_tinv; eauto.
Qed.

Lemma signals_are_meanings l s : Forall short l -> crun l ctl_init = Ret s -> c_todo s = [] ->
  signals (c_log s) = flat_map meaning (reads (c_log s)).
Proof.
  intros F H T. destruct (crun_tinv l _ _ F H) as [todo [D E]].
  { exists []. split; reflexivity. }
  rewrite T in D. destruct todo; [|discriminate]. now rewrite app_nil_r in E.
Qed.

(** ** No record of the kernel makes the thread misbehave once a status was set *)
Lemma handle_event_ret e s st : c_status s = Some st -> exists s', handle_event (rec_bytes e) s = Ret s' /\ c_status s' = Some st.
Proof.
  intros H. destruct e as [| | | |[ty rq v i l]| |]; cbn [rec_bytes kev_type repeat app]; unfold handle_event; cbn [nth].
  1-4,6-7: eexists; split; [reflexivity|exact H].
  cbn [nth app le_enc s_type s_req s_val s_idx s_len]. unfold setup_request. cbn [nth].
  destruct (rq =? 0x67); [destruct (ty =? 0xa1)|destruct (rq =? 0x64); [|destruct (rq =? 0x66)]].
  - unfold send_status. rewrite H. eexists; split; [reflexivity|]. rewrite <- H. apply write_frame.
  - eexists; split; [reflexivity|]. rewrite <- H. apply stall_frame.
  - eexists; split; [reflexivity|exact H].
  - eexists; split; [reflexivity|exact H].
  - eexists; split; [reflexivity|]. rewrite <- H. apply stall_frame.
Qed.

Lemma cstep_ret a s st : short a -> tinv s -> c_status s = Some st ->
  exists s' st', cstep a s = Ret s' /\ c_status s' = Some st'.
Proof.
  intros SH [todo [D E]] H.
  assert (G : forall s', c_status s' = Some st -> exists s1 st', Ret s' = Ret s1 /\ c_status s1 = Some st') by eauto.
  destruct a as [q|x|d| |]; cbn [cstep].
  - destruct (_ <=? 1); now apply G.
  - do 2 eexists. split; reflexivity.
  - destruct (c_todo s); [|now apply G]. destruct (c_ep0 s); [now apply G| |now apply G].
    destruct (dir_in _); now apply G.
  - now apply G.
  - destruct (c_todo s) as [|r rest] eqn:T; [now apply G|].
    destruct todo as [|e todo]; [discriminate|]. cbn [map] in D. injection D as -> ->.
    destruct (handle_event_ret e (mk_cst (c_q s) (c_ep0 s) (map rec_bytes todo) (c_status s) (c_log s)) st H) as [s' [A B]]; eauto.
Qed.
Lemma crun_ret l : forall s st, Forall short l -> tinv s -> c_status s = Some st -> exists s', crun l s = Ret s'.
Proof.
  induction l as [|a l IH]; intros s st F I H; cbn [crun]; [eauto|].
  inversion F; subst. destruct (cstep_ret a s st H2 I H) as (s1 & st1 & A & B).
  rewrite A. cbn [obind]. eapply IH; eauto. eapply cstep_tinv; eauto.
Qed.

(** ** No request is concluded twice *)
Definition busy (e : ep0) : N := match e with NoSetup => 0 | _ => 1 end.
Definition cinv (s : cst) : Prop :=
  len (filter conclusion (c_log s)) + busy (c_ep0 s) <= len (filter is_setup (reads (c_log s))) /\
  (len (filter is_setup (c_q s)) <= 1).

Lemma filter_len_take {A} (p : A -> bool) n (l : list A) : len (filter p (take n l)) + len (filter p (drop n l)) = len (filter p l).
Proof. rewrite <- len_app, <- filter_app, take_drop. reflexivity. Qed.
Lemma last_setup_some l su : last_setup l = Some su -> 1 <= len (filter is_setup l).
Proof.
  revert su. induction l as [|e l IH]; [discriminate|]. intros su H.
  destruct e; cbn [last_setup filter is_setup] in *; rewrite ?len_cons; try lia; eauto.
Qed.
Lemma concl_reads es l : len (filter conclusion (rev (map VRead es) ++ l)) = len (filter conclusion l).
Proof.
  rewrite filter_app, len_app. replace (filter conclusion (rev (map VRead es))) with (@nil cev); [reflexivity|].
  symmetry. induction es; [reflexivity|]. cbn [map rev]. rewrite filter_app, IHes. reflexivity.
Qed.

Lemma write_concl b s : len (filter conclusion (c_log (ep0_write b s))) + busy (c_ep0 (ep0_write b s))
  <= len (filter conclusion (c_log s)) + busy (c_ep0 s).
Proof.
  unfold ep0_write. destruct (c_ep0 s) eqn:E; cbn [set_ep0 c_log c_ep0 busy]; [rewrite E; cbn; lia| |lia].
  destruct (dir_in _); cbn [set_ep0 note c_log c_ep0 busy filter conclusion]; rewrite len_cons; lia.
Qed.
Lemma read0_concl s : len (filter conclusion (c_log (ep0_read0 s))) + busy (c_ep0 (ep0_read0 s))
  <= len (filter conclusion (c_log s)) + busy (c_ep0 s).
Proof.
  unfold ep0_read0. destruct (c_ep0 s) eqn:E; cbn [set_ep0 c_log c_ep0 busy]; [rewrite E; cbn; lia| |lia].
  destruct (dir_in _); cbn [set_ep0 note c_log c_ep0 busy filter conclusion]; rewrite len_cons; lia.
Qed.
Lemma stall_concl d s : len (filter conclusion (c_log (stall d s))) + busy (c_ep0 (stall d s))
  <= len (filter conclusion (c_log s)) + busy (c_ep0 s).
Proof. destruct d; [apply read0_concl|apply write_concl]. Qed.
Lemma note_cinv g s : cinv s -> cinv (note (VSig g) s).
Proof.
  intros [A B]. split; [|exact B]. cbn [note c_log c_ep0 filter conclusion]. rewrite reads_cons, app_nil_r. exact A.
Qed.
Lemma setup_request_cinv r s s' : setup_request r s = Ret s' -> cinv s -> cinv s'.
Proof.
  unfold setup_request. intros H I.
  destruct (_ =? 0x67); [destruct (_ =? 0xa1)|destruct (_ =? 0x64); [|destruct (_ =? 0x66)]].
  - unfold send_status in H. destruct (c_status s) as [st|]; [|discriminate]. injection H as <-.
    destruct (write_frame (status_data st) s) as (_ & _ & C & _ & Q).
    destruct I as [A B]. split; [|now rewrite Q]. rewrite C. pose proof (write_concl (status_data st) s). lia.
  - injection H as <-. set (x := dir_in _).
    destruct (stall_frame x s) as (_ & _ & C & _ & Q).
    destruct I as [A B]. split; [|now rewrite Q]. rewrite C. pose proof (stall_concl x s). lia.
  - injection H as <-. now apply note_cinv.
  - injection H as <-. now apply note_cinv.
  - injection H as <-. set (x := dir_in _).
    destruct (stall_frame x s) as (_ & _ & C & _ & Q).
    destruct I as [A B]. split; [|now rewrite Q]. rewrite C. pose proof (stall_concl x s). lia.
Qed.
Lemma handle_event_cinv r s s' : handle_event r s = Ret s' -> cinv s -> cinv s'.
Proof.
  unfold handle_event. intros H I.
  destruct (nth 8 r 0) as [|p]; [injection H as <-; now apply note_cinv|].
  do 3 (try (destruct p as [p|p|])); try discriminate H;
    try (injection H as <-; now apply note_cinv).
  eapply setup_request_cinv; eauto.
Qed.
Lemma cstep_cinv a s s' : cstep a s = Ret s' -> cinv s -> cinv s'.
Proof.
  intros H I. destruct a as [q|st|d| |]; cbn [cstep] in H.
  - destruct (_ <=? 1) eqn:E; injection H as <-; [|exact I].
    apply N.leb_le in E. destruct I as [A B]. split; [|exact E].
    cbn [c_log c_ep0]. destruct (c_ep0 s); cbn [busy] in *; lia.
  - injection H as <-. exact I.
  - destruct (c_todo s) eqn:T; [|injection H as <-; exact I].
    destruct I as [A B].
    destruct (c_ep0 s) as [|su|] eqn:E0.
    + apply Ret_inj in H. subst s'. set (n := MAX_CONTROL / REC).
      pose proof (filter_len_take is_setup n (c_q s)) as F.
      split; [|cbn [c_q]; lia]. cbn [c_log c_ep0].
      rewrite concl_reads, reads_reads, filter_app, len_app. cbn [busy] in A.
      destruct (last_setup _) as [su|] eqn:L; cbn [busy]; [apply last_setup_some in L|]; lia.
    + destruct (dir_in _).
      * apply Ret_inj in H. subst s'. split; [|exact B].
        cbn [set_ep0 note c_log c_ep0 filter conclusion busy]. rewrite reads_cons, app_nil_r, len_cons.
        cbn [busy] in A. lia.
      * apply Ret_inj in H. subst s'. split; [|exact B].
        cbn [c_log c_ep0 filter conclusion busy]. rewrite reads_cons, app_nil_r, len_cons.
        cbn [busy] in A. lia.
    + apply Ret_inj in H. subst s'. split; [|exact B]. cbn [set_ep0 c_log c_ep0 busy] in *. lia.
  - injection H as <-. exact I.
  - destruct (c_todo s) as [|r rest]; [injection H as <-; exact I|].
    eapply handle_event_cinv; eauto.
Qed.
Lemma crun_cinv l : forall s s', crun l s = Ret s' -> cinv s -> cinv s'.
Proof.
  induction l as [|a l IH]; intros s s' H I; cbn [crun] in H; [injection H as <-; exact I|].
  destruct (cstep a s) as [s1| |] eqn:E; try discriminate.
  eapply IH; eauto. eapply cstep_cinv; eauto.
Qed.

(** ** The status *)
Definition last_set (l : list cact) : option N :=
  fold_left (fun o a => match a with MSetStatus st => Some st | _ => o end) l None.
Lemma cstep_status a s s' : cstep a s = Ret s' ->
  c_status s' = match a with MSetStatus st => Some st | _ => c_status s end.
Proof.
  intros H. destruct a as [q|st|d| |]; cbn [cstep] in H.
  - destruct (_ <=? 1); injection H as <-; reflexivity.
  - injection H as <-; reflexivity.
  - destruct (c_todo s); [|injection H as <-; reflexivity].
    destruct (c_ep0 s); [| destruct (dir_in _)|]; apply Ret_inj in H; subst s'; reflexivity.
  - injection H as <-; reflexivity.
  - destruct (c_todo s) as [|r rest]; [injection H as <-; reflexivity|].
    unfold handle_event in H. destruct (nth 8 r 0) as [|p]; [injection H as <-; reflexivity|].
    do 3 (try (destruct p as [p|p|])); try discriminate H; try (injection H as <-; reflexivity).
    unfold setup_request in H. cbn [c_status] in *.
    destruct (_ =? 0x67); [destruct (_ =? 0xa1)|destruct (_ =? 0x64); [|destruct (_ =? 0x66)]].
    + unfold send_status in H. cbn [c_status] in H. destruct (c_status s) as [st|] eqn:C; [|discriminate].
      injection H as <-. etransitivity; [apply write_frame|]. cbn [c_status]. reflexivity.
    + injection H as <-. etransitivity; [apply stall_frame|]. reflexivity.
    + injection H as <-; reflexivity.
    + injection H as <-; reflexivity.
    + injection H as <-. etransitivity; [apply stall_frame|]. reflexivity.
Qed.
Lemma crun_status l : forall s s', crun l s = Ret s' ->
  c_status s' = fold_left (fun o a => match a with MSetStatus st => Some st | _ => o end) l (c_status s).
Proof.
  induction l as [|a l IH]; intros s s' H; cbn [crun] in H; [injection H as <-; reflexivity|].
  destruct (cstep a s) as [s1| |] eqn:E; try discriminate.
  cbn [obind] in H. cbn [fold_left]. rewrite (IH _ _ H), (cstep_status _ _ _ E). reflexivity.
Qed.
