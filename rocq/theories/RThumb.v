(** GetThumb: what is asked and what is sent (C90). *)
From Verif Require Import Base Wire WireSpec Responder RSpec RLogic ROne2 RGate RExec RSession RSend RSend2 RColl RPropList ROps.

(** ** Specification *)
(** the bytes of a value that is an array of bytes; any other value has none *)
Definition bytes_of (v : variant) : bytes := match v with VVec t b => if t =? 0x4002 then b else [] | _ => [] end.
(** the data container with the bytes [b] *)
Definition thumb_data (tid : N) (b : bytes) : outc := mk_out TYPE_DATA OP_GetThumb tid (PRaw b ((12 + len b) mod 2^32)).

(** ** Proofs *)
Section X.
Variable env : list (act * ans) -> act -> ans.
Variable formats : list N.
Variable cat : N -> N.
Variable props_by_type : N -> N * list N.
Variable prop_desc : N -> N -> N * option objpropdesc.
Hypothesis quiet : undisturbed env.
Notation run := (run env formats cat props_by_type prop_desc).
Lemma thumb_ok s tid h d : storage_is_ready env -> idle s -> command_ok OP_GetThumb tid [h] -> r_session s <> 0 -> tid <> 0 -> tid <> 0xFFFFFFFF ->
  snd (prop_desc CAT_IMAGE PROP_Rep_Sample_Data) = Some d -> (forall l, a_code (env l (ACall (SGetProps h [d]))) = R_OK) ->
  exists s' l r, run [command OP_GetThumb tid [h]] s = Ret (tt, s') /\ r_log s' = l ++ r_log s /\ r_st s' = IDLE /\ r_session s' = r_session s /\
    asked l = [(SGetProps h [d], r)] /\ (exists l1, r = env l1 (ACall (SGetProps h [d]))) /\
    datas l = [inl (thumb_data tid (bytes_of (snd (nth 0 (a_vals r) (0, VNull)))))] /\ responses l = [resp_out R_OK tid []].
Proof.
  intros Hr Hi Hc Hs Ht1 Ht2 HD HO. rewrite run1.
  destruct (command_eq env formats cat props_by_type prop_desc s _ tid _ Hi Hc (fun _ => Hr)) as (l & Hl & ->).
  change (lookup_op OP_GetThumb _) with (Some (h_getThumb env prop_desc)). cbv iota. set (q := mk_req _ _ _). set (s1 := set_log _ _).
  unfold h_getThumb, check, bind at 1, bind at 1, get at 1, ret at 1. change (q_tid q) with tid. change (r_session s1) with (r_session s).
  replace (pre_check (r_session s) tid) with R_OK by (unfold pre_check; replace (r_session s =? 0) with false by lia; replace (tid =? 0) with false by lia; replace (tid =? 0xFFFFFFFF) with false by lia; reflexivity).
  change (isok R_OK) with true. cbn [when]. rewrite HD. unfold bind at 1, need, ret at 1. change (par q 0) with h.
  rewrite call_eq. set (r := env _ _). assert (OK : a_code r = R_OK) by apply HO. rewrite OK. change (isok R_OK) with true. cbn [when]. cbv zeta.
  set (s2 := add_log _ s1).
  destruct (res_data env quiet q (PRaw (variant_vec DT_AUINT8 (snd (nth 0 (a_vals r) (0, VNull)))) (u32 (12 + len (variant_vec DT_AUINT8 (snd (nth 0 (a_vals r) (0, VNull))))))) R_OK s2) as (n & dd & c & ps & E & F & D & Re).
  - apply started_active.
  - reflexivity.
  - change (r_session s2) with (r_session s). change (q_tid q) with tid.
    unfold pre_check. replace (r_session s =? 0) with false by lia. replace (tid =? 0) with false by lia. replace (tid =? 0xFFFFFFFF) with false by lia. reflexivity.
  - rewrite E. inversion F; subst dd c ps. exists (set_log (n ++ r_log s2) (after_response s2)), (n ++ [(ACall (SGetProps h [d]), r)] ++ l), r.
    split; [reflexivity|]. split; [cbn [r_log set_log]; unfold s2; cbn [r_log add_log]; unfold s1; cbn [r_log set_log]; rewrite <- !app_assoc; reflexivity|]. split; [reflexivity|]. split; [reflexivity|].
    rewrite !asked_app, !datas_app, !responses_app, (noise_asked l Hl), (noise_datas l Hl), (noise_responses l Hl), !app_nil_r. cbn [app].
    replace (asked n) with (@nil (scall * ans)) by congruence. cbn [asked harmless datas responses app].
    split; [reflexivity|]. split; [eexists; reflexivity|]. rewrite D, Re. split; reflexivity.
Qed.
(** the storage refuses: nothing is sent, and the responder goes on waiting *)
Lemma thumb_refused s tid h d : storage_is_ready env -> idle s -> command_ok OP_GetThumb tid [h] -> r_session s <> 0 -> tid <> 0 -> tid <> 0xFFFFFFFF ->
  snd (prop_desc CAT_IMAGE PROP_Rep_Sample_Data) = Some d -> (forall l, a_code (env l (ACall (SGetProps h [d]))) <> R_OK) ->
  exists s' l, run [command OP_GetThumb tid [h]] s = Ret (tt, s') /\ r_log s' = l ++ r_log s /\ r_st s' = WAIT_RESP /\ datas l = [] /\ responses l = [].
Proof.
  intros Hr Hi Hc Hs Ht1 Ht2 HD HO. rewrite run1.
  destruct (command_eq env formats cat props_by_type prop_desc s _ tid _ Hi Hc (fun _ => Hr)) as (l & Hl & ->).
  change (lookup_op OP_GetThumb _) with (Some (h_getThumb env prop_desc)). cbv iota. set (q := mk_req _ _ _). set (s1 := set_log _ _).
  unfold h_getThumb, check, bind at 1, bind at 1, get at 1, ret at 1. change (q_tid q) with tid. change (r_session s1) with (r_session s).
  replace (pre_check (r_session s) tid) with R_OK by (unfold pre_check; replace (r_session s =? 0) with false by lia; replace (tid =? 0) with false by lia; replace (tid =? 0xFFFFFFFF) with false by lia; reflexivity).
  change (isok R_OK) with true. cbn [when]. rewrite HD. unfold bind at 1, need, ret at 1. change (par q 0) with h.
  rewrite call_eq. set (r := env _ _). assert (OK : isok (a_code r) = false) by (unfold isok; apply N.eqb_neq; apply HO). rewrite OK. cbn [when].
  exists (add_log (ACall (SGetProps h [d]), r) s1), ((ACall (SGetProps h [d]), r) :: l). split; [reflexivity|]. split; [reflexivity|]. split; [reflexivity|].
  cbn [datas responses]. split; [apply (noise_datas l Hl)|apply (noise_responses l Hl)].
Qed.
End X.
