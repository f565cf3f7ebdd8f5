(** C93: a write that fails in the middle of SendObject, on the USB connection. *)
From Verif Require Import Base Wire WireSpec WireProofs WireProofs2 Framing FramingProofs Responder RSpec RLogic ROne2 RGate RExec RSession RSend RSend2 RDemo Usb UsbReset UsbWhole UsbSend P_Usb UsbFail.

(** The initiator sends the content of an announced object, the pieces [pre] are stored, writing [bad] fails
    with [c], and at most one packet of the content is still to come.  The request is answered once, with [c],
    the rest is dropped, and whatever commands follow are each answered. *)
Theorem C93_last_packets_partial : forall env formats cat props_by_type prop_desc s tid ps h size pre bad post c reqs more,
  undisturbed env -> transport_works env -> tables_ok props_by_type prop_desc -> storage_is_ready env -> idle s -> command_ok OP_SendObject tid ps ->
  r_session s <> 0 -> tid <> 0 -> tid <> 0xFFFFFFFF -> announced s h size 0 ->
  let content := concat (pre ++ bad :: post) in 12 + len content < 0xFFFFFFFF -> Forall (fun b => b <> []) (tl (pre ++ bad :: post)) ->
  (forall b, In b pre -> code_of_write env h b R_OK) -> code_of_write env h bad c -> c <> R_OK -> c <> R_Undefined -> len (concat pre) < size ->
  (List.length post <= 1)%nat ->
  Forall (answerable env) reqs -> concat more = concat (map bytes_of reqs) -> whole more (map bytes_of reqs) ->
  let packets := command_bytes OP_SendObject tid ps :: object_packets (spec_header (12 + len content) 2 OP_SendObject tid) (pre ++ bad :: post) in
  exists s' outs, usb_packets env formats cat props_by_type prop_desc 0 (packets ++ more) s = Some (Ret (0, s')) /\
    responses (r_log s') = rev outs ++ [resp_out c tid []] ++ responses (r_log s) /\ Forall2 answers reqs outs /\ idle s'.
Proof.
  intros env formats cat pt pd s tid ps h size pre bad post c reqs more Q T TB RD ID CO SE T1 T2 HA content LT NE HW HB C1 C2 LP HL RA EM WH packets.
  set (hdr := spec_header (12 + len content) 2 OP_SendObject tid) in *. assert (LH : len hdr = 12) by apply spec_header_len.
  assert (PC : plain_container (hdr ++ content)) by (apply header_plain; [reflexivity|exact LT]).
  assert (LD : len (hdr ++ content) = 12 + len content) by (rewrite len_app, LH; reflexivity).
  assert (MAIN : exists s2 l, usb_packets env formats cat pt pd 0 packets s = Some (Ret (0, s2)) /\ r_log s2 = l ++ r_log s /\ r_st s2 = IDLE /\ responses l = [resp_out c tid []]).
  { destruct (command_send env formats cat pt pd s tid ps h size ID CO RD SE T1 T2 HA) as (s1 & l1 & E1 & E2 & E3 & E4 & E5 & E6).
    unfold packets. cbn [Usb.usb_packets]. pose proof (command_plain OP_SendObject tid ps CO) as PL.
    assert (FP : usb_loop env formats cat pt pd (S (List.length (command_bytes OP_SendObject tid ps))) 0 false (command_bytes OP_SendObject tid ps) s = Some (Ret (0, s1))).
    { rewrite (first_packet env formats cat pt pd (command_bytes OP_SendObject tid ps) [] (len (command_bytes OP_SendObject tid ps)) s s1);
        [rewrite (command_no_reset _ _ _ _ _ _ _ _ _ s1 ID CO E1), N.eqb_refl, N.sub_diag; reflexivity|destruct PL; lia|rewrite app_nil_r; exact PL|rewrite app_nil_r; reflexivity|].
      rewrite N.sub_diag. exact E1. }
    rewrite FP.
    destruct pre as [|b pre]; cbn [app object_packets tl] in *.
    - cbn [Usb.usb_packets].
      assert (EC : (hdr ++ bad) ++ concat post = hdr ++ content) by (unfold content; cbn [app concat]; rewrite <- app_assoc; reflexivity).
      set (last := 12 + len content - len (hdr ++ bad) =? 0).
      destruct (send_fail env formats cat pt pd Q _ h size 0 s1 (hdr ++ bad) bad true last c E4 ltac:(exists hdr; auto) HB C1 C2) as (s2 & l & F1 & F2 & F3 & F4 & F5 & F6 & F7 & F8 & F9).
      rewrite (first_packet env formats cat pt pd (hdr ++ bad) (concat post) (12 + len content) s1 s2); [|rewrite len_app; lia|rewrite EC; exact PC|rewrite EC; symmetry; exact LD|exact F1].
      destruct E4 as (K1 & K2 & _). rewrite (waiting_step _ _ _ _ _ _ s1 _ _ _ s2 (conj K1 K2) F1), N.eqb_refl.
      destruct (after_failure env formats cat pt pd post s2 (12 + len content - len (hdr ++ bad)) F3) as (s3 & l3 & G1 & G2 & G3 & G4 & G5 & G6); [unfold content; cbn [app concat]; rewrite !len_app; lia|exact NE|exact HL|].
      exists s3, (l3 ++ l ++ l1). split; [exact G1|]. split; [rewrite G2, F2, E2, <- !app_assoc; reflexivity|]. split; [exact G6|]. rewrite !responses_app, G3, F8, (noise_responses l1) by exact E3. reflexivity.
    - cbn [Usb.usb_packets].
      assert (EC : (hdr ++ b) ++ concat (pre ++ bad :: post) = hdr ++ content) by (unfold content; cbn [app concat]; rewrite <- app_assoc; reflexivity).
      assert (NB : bad <> []) by (rewrite Forall_forall in NE; apply NE, in_or_app; right; left; reflexivity). assert (0 < len bad) by (destruct bad; [contradiction|rewrite len_cons; lia]).
      assert (NL : (12 + len content - len (hdr ++ b) =? 0) = false). { apply N.eqb_neq. unfold content. cbn [app concat]. rewrite !len_app, concat_app, len_app. cbn [concat]. rewrite len_app. lia. }
      cbn [concat] in LP. rewrite len_app in LP.
      destruct (send_more env formats cat pt pd _ h size 0 s1 (hdr ++ b) b true E4 ltac:(exists hdr; auto) (HW b (or_introl eq_refl)) ltac:(lia)) as (s2 & r & F1 & HR1 & El & _ & _).
      rewrite (first_packet env formats cat pt pd (hdr ++ b) (concat (pre ++ bad :: post)) (12 + len content) s1 s2); [|rewrite len_app; lia|rewrite EC; exact PC|rewrite EC; symmetry; exact LD|rewrite NL; exact F1].
      rewrite El. cbn [resets]. rewrite N.eqb_refl.
      assert (NP : Forall (fun x => x <> []) post). { apply Forall_app in NE as [_ NE]. apply Forall_cons_iff in NE as [_ NE]. exact NE. }
      destruct (usb_more_fail env formats cat pt pd Q _ h size c bad post C1 C2 NB HB NP HL pre (0 + len b) s2 (12 + len content - len (hdr ++ b)) HR1) as (s3 & l & G1 & G2 & G3 & G4 & G5).
      { intros x Hx. split; [exact (HW x (or_intror Hx))|]. apply Forall_app in NE as [NE _]. rewrite Forall_forall in NE. exact (NE x Hx). }
      { rewrite P_Send.total_len. lia. }
      { unfold content. cbn [app concat]. rewrite !len_app, LH. match goal with |- 12 + (?x + ?y) - _ = ?z => change z with y; generalize x y; clear; intros; lia end. }
      exists s3, (l ++ (ACall (SWrite h (Some b) true false), r) :: l1). split; [exact G1|]. split; [rewrite G2, El, E2, <- app_assoc; reflexivity|]. split; [exact G4|].
      rewrite responses_app, G5. change (responses ((ACall (SWrite h (Some b) true false), r) :: l1)) with (responses l1). rewrite (noise_responses l1) by exact E3. reflexivity. }
  destruct MAIN as (s2 & l & A1 & A2 & A3 & A4).
  destruct (C92_commands env formats cat pt pd reqs more s2 Q T TB (or_introl A3) RA EM WH) as (s' & outs & B1 & B2 & B3 & B4).
  exists s', outs. rewrite packets_app, A1. split; [exact B1|]. split; [|auto]. rewrite B2, A2, responses_app, A4. reflexivity.
Qed.

(** ** What goes wrong otherwise *)
(** the disk is full from the second packet on *)
Definition full_disk : list (act * ans) -> act -> ans :=
  demo (fun a => match a with ACall (SWrite _ (Some _) first _) => if first then None else Some (fail 0x200C) | _ => None end).
Definition ex_announced200 : rstate := set_seq (Some (mk_ss (mk_objinfo 65537 0x3000 0 200 0 0 0 0 0 0 0 0 0 0 0 [] [] [] []) 12 0)) in_session.
(** The initiator sends one file, whose bytes happen to read as a container of their own further on: when the
    disk is full two packets earlier, these bytes are taken for a command.  Here object 9 is deleted. *)
Theorem C93_content_executed_refuted : let content := [1;1;1;1] ++ [2;2] ++ [3;3] ++ command_bytes OP_DeleteObject 7 [9] in
  exists s', usb_packets full_disk [] cat0 props0 desc0 0
      [command_bytes OP_SendObject 6 []; spec_header 212 2 OP_SendObject 6 ++ [1;1;1;1]; [2;2]; [3;3]; command_bytes OP_DeleteObject 7 [9]] ex_announced200 = Some (Ret (0, s')) /\
    len content < 200 /\ map (fun o => (o_code o, o_tid o)) (responses (r_log s')) = [(R_OK, 7); (0x200C, 6)] /\ In (SDelete 9 0) (calls (r_log s')).
Proof. cbv zeta. eexists. split; [vm_compute; reflexivity|]. split; [reflexivity|]. split; [vm_compute; reflexivity|]. vm_compute. auto. Qed.
(** and a file of zeros makes the daemon read memory that is not the packet's *)
Theorem C93_zeros_refuted :
  usb_packets full_disk [] cat0 props0 desc0 0
      [command_bytes OP_SendObject 6 []; spec_header 212 2 OP_SendObject 6 ++ [0;0;0;0]; [0;0]; [0;0]; [0;0;0;0]] ex_announced200 = Some UB.
Proof. vm_compute. reflexivity. Qed.

(** ** Example *)
(** the same transfer, the second packet not being stored, with one packet after it, then GetStorageIDs *)
Definition broken : list (act * ans) -> act -> ans :=
  demo (fun a => match a with ACall (SWrite _ (Some b) _ _) => if len b =? 2 then Some (fail 0x200C) else None | _ => None end).
Example C93_hypotheses_met : announced ex_announced200 12 200 0 /\ (forall b, In b [[1;1;1;1]] -> code_of_write broken 12 b R_OK) /\ code_of_write broken 12 [2;2] 0x200C /\ undisturbed broken /\ transport_works broken /\ storage_is_ready broken /\
  Forall (answerable broken) [(OP_GetStorageIDs, 7, [])] /\ whole [command_bytes OP_GetStorageIDs 7 []] [command_bytes OP_GetStorageIDs 7 []].
Proof.
  assert (RD : storage_is_ready broken) by (intros hist; reflexivity).
  split; [eapply by_info; reflexivity|]. split; [intros b [<-|[]] hist f g; reflexivity|]. split; [intros hist f g; reflexivity|]. split. { intros hist a. destruct a as [[]| | | | |]; try reflexivity. destruct data as [b|]; [|reflexivity]. unfold broken, demo. destruct (len b =? 2); reflexivity. }
  split. { intros hist o l. reflexivity. } split; [exact RD|]. split.
  - constructor; [|constructor]. split; [split; [reflexivity|]; split; [reflexivity|]; split; [vm_compute; discriminate|repeat constructor]|]. split; [reflexivity|]. split; [discriminate|]. split; [intros _; exact RD|]. intros H. exfalso. revert H. vm_compute. intuition discriminate.
  - intros c1 x c2 E. destruct c1 as [|y c1]; [|destruct c1; discriminate]. injection E as <- <-. apply uncut_by. intros k Hk. cbn [List.length] in Hk. assert (K : (k = 0 \/ k = 1)%nat) by lia. destruct K as [->| ->]; vm_compute; first [left; discriminate|right; discriminate].
Qed.
Example C93_example : exists s', usb_packets broken [] cat0 props0 desc0 0
    [command_bytes OP_SendObject 6 []; spec_header 20 2 OP_SendObject 6 ++ [1;1;1;1]; [2;2]; [3;3]; command_bytes OP_GetStorageIDs 7 []] ex_announced200 = Some (Ret (0, s')) /\
    map (fun o => (o_code o, o_tid o)) (responses (r_log s')) = [(R_OK, 7); (0x200C, 6)].
Proof. eexists. split; [vm_compute; reflexivity|]. vm_compute. reflexivity. Qed.
Print Assumptions C93_last_packets_partial.
Print Assumptions C93_content_executed_refuted.
Print Assumptions C93_zeros_refuted.
