(** C91: SendObjectPropList announces exactly the object the property list describes. *)
From Verif Require Import Base Wire WireSpec WireProofs WireProofs2 Responder RSpec RLogic ROne2 RGate RExec RSession RSend RSend2 RColl RPropList ROps REdit2 RSendList.
From Verif Require RDemo.

(** However the list is cut into packets there is one response, and the questions to the storage
    are those of [list_script]: the storage, the folder, the 4 GiB limit, then -- if no element is
    out of place and there is a file name -- one addition of the object with the last name of the
    list, the announced format, size, storage and folder.  If the addition succeeds, the response
    names the storage, folder and handle the storage chose, and the content to arrive next is that
    object's. *)
Theorem C91_request : forall env formats cat props_by_type prop_desc s tid st parent fmt hi lo els p1 rest,
  undisturbed env -> storage_is_ready env -> idle s -> command_ok OP_SendObjectPropList tid [st; parent; fmt; hi; lo] -> r_session s <> 0 -> tid <> 0 -> tid <> 0xFFFFFFFF ->
  Forall element_ok els -> (forall e, In e els -> el_prop e = NAME -> exists n, el_value e = VStr n) -> 12 + len (list_bytes els) < 2^32 -> 4 <= len p1 ->
  p1 ++ concat rest = spec_header (12 + len (list_bytes els)) 2 OP_SendObjectPropList tid ++ list_bytes els ->
  exists s' v c ps, run env formats cat props_by_type prop_desc (command OP_SendObjectPropList tid [st; parent; fmt; hi; lo] :: data_phase (p1 :: rest)) s = Ret (tt, s') /\
    judged (fits prop_desc (cat (fmt mod 65536))) els v /\ closes s s' (list_script st parent (fmt mod 65536) hi lo v) tid c ps /\
    (c = R_OK -> r_seq s = None -> announced s' (nth 2 ps 0) lo 0).
Proof.
  intros env formats cat pt pd s tid st parent fmt hi lo els p1 rest Q Hr Hi Hc Hs T1 T2 HE HN HL H4 HP.
  destruct (prop_list_ok env formats cat pt pd Q s tid st parent fmt hi lo els p1 rest Hr Hi Hc Hs T1 T2 HE HN HL H4 HP) as (s' & v & c & ps & E & J & C & SQ & _ & A).
  exists s', v, c, ps. split; [exact E|]. split; [exact J|]. split; [exact C|]. intros OK NS. destruct (A OK) as (p & P1 & P2 & P3 & P4).
  apply (by_props s' _ _ _ p); try assumption; [congruence|]. destruct Hc as (_ & _ & _ & HB). repeat (apply Forall_cons_iff in HB as [? HB]). change (2^64) with 18446744073709551616. lia.
Qed.
Lemma provided_pre q sc conv d c ps : harmless q = false -> follows (provided q sc) conv d c ps -> exists r t, conv = (q, r) :: t /\ ((a_code r = R_OK /\ follows sc t d c ps) \/ (a_code r <> R_OK /\ t = [] /\ c = a_code r)).
Proof.
  intros HQ F. unfold provided in F. inversion F as [|? ? ? ? ? ? ? HH FF|? ? ? ? ? ? ? HH FF]; subst; [|congruence]. eexists _, _. split; [reflexivity|]. match goal with X : follows (if ok (a_code ?r) then _ else _) _ _ _ _ |- _ => unfold ok in X; destruct (a_code r =? R_OK) eqn:E; [apply N.eqb_eq in E; left; auto|apply N.eqb_neq in E; right; unfold fail in X; inversion X; subst; auto] end.
Qed.
Lemma asked_changed l : changed l = filter changes (map fst (asked l)).
Proof.
  induction l as [|[a r] l IH]; [reflexivity|]. change ((a, r) :: l) with ([(a, r)] ++ l). rewrite changed_app, asked_app, map_app, filter_app, IH. f_equal.
  destruct a as [c| | | | |]; try reflexivity. cbn [asked]. unfold changed. cbn [calls]. destruct c; reflexivity.
Qed.
(** An object of 4 GiB or more: nothing is added to the storage, the answer is Object_Too_Large
    (or the refusal of the storage or the folder), and what was announced before is still
    expected. *)
Theorem C91_too_large : forall env formats cat props_by_type prop_desc s tid st parent fmt hi lo els p1 rest,
  undisturbed env -> storage_is_ready env -> idle s -> command_ok OP_SendObjectPropList tid [st; parent; fmt; hi; lo] -> r_session s <> 0 -> tid <> 0 -> tid <> 0xFFFFFFFF ->
  Forall element_ok els -> (forall e, In e els -> el_prop e = NAME -> exists n, el_value e = VStr n) -> 12 + len (list_bytes els) < 2^32 -> 4 <= len p1 ->
  p1 ++ concat rest = spec_header (12 + len (list_bytes els)) 2 OP_SendObjectPropList tid ++ list_bytes els ->
  hi <> 0 ->
  exists s' l o, run env formats cat props_by_type prop_desc (command OP_SendObjectPropList tid [st; parent; fmt; hi; lo] :: data_phase (p1 :: rest)) s = Ret (tt, s') /\
    r_log s' = l ++ r_log s /\ responses l = [o] /\ o_code o <> R_OK /\ changed l = [] /\ r_seq s' = r_seq s /\ r_pl s' = r_pl s /\
    (forall q r, In (q, r) (asked l) -> q = SCheckStorage st \/ q = SCheckHandle parent) /\
    ((forall q r, In (q, r) (asked l) -> a_code r = R_OK) -> o_code o = R_Object_Too_Large).
Proof.
  intros env formats cat pt pd s tid st parent fmt hi lo els p1 rest Q Hr Hi Hc Hs T1 T2 HE HN HL H4 HP HI.
  destruct (prop_list_ok env formats cat pt pd Q s tid st parent fmt hi lo els p1 rest Hr Hi Hc Hs T1 T2 HE HN HL H4 HP) as (s' & v & c & ps & E & J & (l & o & _ & _ & L & F & _ & RS & _ & OC & _) & SQ & PL & _).
  exists s', l, o. split; [exact E|]. split; [exact L|]. split; [exact RS|]. rewrite OC, asked_changed.
  assert (K : c <> R_OK /\ (forall q r, In (q, r) (asked l) -> q = SCheckStorage st \/ q = SCheckHandle parent) /\ ((forall q r, In (q, r) (asked l) -> a_code r = R_OK) -> c = R_Object_Too_Large)).
  { assert (Z : (hi =? 0) = false) by (apply N.eqb_neq; exact HI).
    assert (SZ : forall t, follows (if hi =? 0 then add_script st parent (fmt mod 65536) lo v else fail R_Object_Too_Large) t None c ps -> t = [] /\ c = R_Object_Too_Large) by (rewrite Z; intros t X; unfold fail in X; inversion X; auto).
    assert (PLC : forall t, follows (let sized := if hi =? 0 then add_script st parent (fmt mod 65536) lo v else fail R_Object_Too_Large in if (parent =? 0) || (parent =? 0xFFFFFFFF) then sized else provided (SCheckHandle parent) sized) t None c ps ->
        c <> R_OK /\ (forall q r, In (q, r) t -> q = SCheckHandle parent) /\ ((forall q r, In (q, r) t -> a_code r = R_OK) -> c = R_Object_Too_Large)).
    { cbv zeta. intros t X. destruct (_ || _).
      - apply SZ in X as [-> ->]. split; [discriminate|]. split; [intros q r []|reflexivity].
      - apply provided_pre in X; [|reflexivity]; destruct X as (r & t' & -> & [[R X]|[R [-> ->]]]).
        + apply SZ in X as [-> ->]. split; [discriminate|]. split; [intros q r' [X|[]]; congruence|reflexivity].
        + split; [exact R|]. split; [intros q r' [X|[]]; congruence|intros X; exfalso; apply R, (X (SCheckHandle parent) r); left; reflexivity]. }
    unfold list_script in F. destruct (st =? 0).
    - apply PLC in F as (A & B & C). split; [exact A|]. split; [intros q r X; right; exact (B q r X)|exact C].
    - apply provided_pre in F; [|reflexivity]; destruct F as (r & t' & AE & [[R X]|[R [-> ->]]]); rewrite AE.
      + apply PLC in X as (A & B & C). split; [exact A|]. split; [intros q r' [Y|Y]; [left; congruence|right; exact (B q r' Y)]|intros Y; apply C; intros q r' I; apply (Y q r'); right; exact I].
      + split; [exact R|]. split; [intros q r' [X|[]]; left; congruence|intros X; exfalso; apply R, (X (SCheckStorage st) r); left; reflexivity]. }
  destruct K as (K1 & K2 & K3). split; [exact K1|]. split; [|split; [exact SQ|split; [exact (PL HI)|split; [exact K2|exact K3]]]].
  clear -K2. induction (asked l) as [|[q r] t IH]; [reflexivity|]. cbn [map filter fst]. destruct (K2 q r (or_introl eq_refl)) as [-> | ->]; apply IH; intros q' r' X; apply (K2 q' r'); right; exact X.
Qed.

(** ** A concrete exchange: a one element list naming the file "a", in two packets *)
Definition ex_list : list element := [mk_el 0 NAME DT_STR (VStr [97])].
Definition ex_cmd := command OP_SendObjectPropList 5 [0; 0; 0x3000; 0; 6].
Definition ex_data (els : list element) : bytes := spec_header (12 + len (list_bytes els)) 2 OP_SendObjectPropList 5 ++ list_bytes els.
Example C91_example :
  command_ok OP_SendObjectPropList 5 [0; 0; 0x3000; 0; 6] /\ Forall element_ok ex_list /\ (forall e, In e ex_list -> el_prop e = NAME -> exists n, el_value e = VStr n) /\
  judged (fits RDemo.desc0 0) ex_list (Named 0 [97]) /\
  match RDemo.demo_run RDemo.plain (ex_cmd :: data_phase [firstn 20 (ex_data ex_list); skipn 20 (ex_data ex_list)]) RDemo.in_session with
  | Ret (_, s') => (changed (r_log s'), responses (r_log s'), option_map pl_handle (r_pl s'))
  | _ => ([], [], None)
  end = ([SAddItem 0 0 (new_object 0 0 0x3000 6 [97])], [mk_out TYPE_RESPONSE R_OK 5 (PItems (map u32_item [0x00010001; 0; 7]))], Some 7).
Proof.
  split; [split; [reflexivity|]; split; [reflexivity|]; split; [vm_compute; discriminate|]; repeat constructor|].
  split; [constructor; [|constructor]; split; [reflexivity|]; split; [reflexivity|]; split; [reflexivity|]; split; [|exact Logic.I]; repeat constructor; try (vm_compute; congruence); intros c r H; injection H as <- <-; split; discriminate|].
  split; [intros e [<-|[]] _; exists [97]; reflexivity|]. split; [apply (j_named _ [] _ [] [97]); [repeat constructor|reflexivity|reflexivity|constructor]|vm_compute; reflexivity].
Qed.
(** an element about another object spoils the list; the answer names its place *)
Definition bad_list : list element := ex_list ++ [mk_el 4 0xDC44 DT_STR (VStr [98])].
Example C91_bad_example : judged (fits RDemo.desc0 0) bad_list (Bad 1) /\
  match RDemo.demo_run RDemo.plain (ex_cmd :: data_phase [ex_data bad_list]) RDemo.in_session with
  | Ret (_, s') => (changed (r_log s'), responses (r_log s'))
  | _ => ([], [])
  end = ([], [mk_out TYPE_RESPONSE R_Invalid_Dataset 5 (PItems (map u32_item [0; 0; 0; 1]))]).
Proof. split; [apply (j_bad _ ex_list); [repeat constructor|reflexivity]|vm_compute; reflexivity]. Qed.
Example C91_large_example :
  match RDemo.demo_run RDemo.plain (command OP_SendObjectPropList 5 [0; 0; 0x3000; 1; 6] :: data_phase [ex_data ex_list]) RDemo.in_session with
  | Ret (_, s') => (changed (r_log s'), map o_code (responses (r_log s')), r_pl s')
  | _ => ([], [], None)
  end = ([], [R_Object_Too_Large], None).
Proof. vm_compute. reflexivity. Qed.

(** After a refused property list SendObject should be answered NoValidObjectInfo.  It is not:
    the content that follows the refusal is written to object 0, the root folder *)
Definition refused_then_sent : list input :=
  ex_cmd :: data_phase [ex_data bad_list] ++ command OP_SendObject 6 [] :: data_phase [spec_header 18 2 OP_SendObject 6 ++ [1;2;3;4;5;6]].
Theorem C91_refused_list_refuted :
  exists s', RDemo.demo_run RDemo.plain refused_then_sent RDemo.in_session = Ret (tt, s') /\
    map o_code (rev (responses (r_log s'))) = [R_Invalid_Dataset; R_OK] /\ In (SWrite 0 (Some [1;2;3;4;5;6]) true true) (changed (r_log s')).
Proof. eexists. split; [vm_compute; reflexivity|]. split; [vm_compute; reflexivity|vm_compute; tauto]. Qed.
Print Assumptions C91_request.
Print Assumptions C91_too_large.
Print Assumptions C91_refused_list_refuted.
