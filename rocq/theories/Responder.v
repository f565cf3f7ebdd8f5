(** MTPResponder (mts/protocol/mtpresponder.cpp): command dispatch, sessions,
    data phases, responses, cancel/suspend/reset.

    The rest of the system -- storage factory, device info provider, transport --
    is an environment [env]: a function from the history of everything the
    responder did and got back so far to the next answer.  Theorems quantify over
    all environments.  A handler runs in [M]: it changes the responder state
    [rstate] and appends (action, answer) pairs to the history [r_log] (newest
    first).

    Not modelled: log output; the device status and command pending/finished
    signals (they only drive the ctrl endpoint status and a timer); containers
    left over by memory exhaustion.  MTPExtensionManager's list of extensions is
    never filled (mtpextensionmanager.cpp:38-46), so no operation is claimed by
    an extension. *)
From Verif Require Import Base Wire WireSpec.

(** ** Codes: mtptypes.h:95-183 *)
Definition OP_GetDeviceInfo := 0x1001.      Definition OP_OpenSession := 0x1002.
Definition OP_CloseSession := 0x1003.       Definition OP_GetStorageIDs := 0x1004.
Definition OP_GetStorageInfo := 0x1005.     Definition OP_GetNumObjects := 0x1006.
Definition OP_GetObjectHandles := 0x1007.   Definition OP_GetObjectInfo := 0x1008.
Definition OP_GetObject := 0x1009.          Definition OP_GetThumb := 0x100A.
Definition OP_DeleteObject := 0x100B.       Definition OP_SendObjectInfo := 0x100C.
Definition OP_SendObject := 0x100D.         Definition OP_SetObjectProtection := 0x1012.
Definition OP_GetDevicePropDesc := 0x1014.  Definition OP_GetDevicePropValue := 0x1015.
Definition OP_SetDevicePropValue := 0x1016. Definition OP_ResetDevicePropValue := 0x1017.
Definition OP_MoveObject := 0x1019.         Definition OP_CopyObject := 0x101A.
Definition OP_GetPartialObject := 0x101B.   Definition OP_GetPartialObject64 := 0x95C1.
Definition OP_SendPartialObject64 := 0x95C2. Definition OP_TruncateObject64 := 0x95C3.
Definition OP_BeginEditObject := 0x95C4.    Definition OP_EndEditObject := 0x95C5.
Definition OP_GetObjectPropsSupported := 0x9801. Definition OP_GetObjectPropDesc := 0x9802.
Definition OP_GetObjectPropValue := 0x9803. Definition OP_SetObjectPropValue := 0x9804.
Definition OP_GetObjectPropList := 0x9805.  Definition OP_SetObjectPropList := 0x9806.
Definition OP_GetInterdependentPropDesc := 0x9807. Definition OP_SendObjectPropList := 0x9808.
Definition OP_GetObjectReferences := 0x9810. Definition OP_SetObjectReferences := 0x9811.
Definition OP_Skip := 0x9820.

Definition R_Undefined := 0x2000.           Definition R_OK := 0x2001.
Definition R_GeneralError := 0x2002.        Definition R_SessionNotOpen := 0x2003.
Definition R_InvalidTransID := 0x2004.      Definition R_OperationNotSupported := 0x2005.
Definition R_IncompleteTransfer := 0x2007.  Definition R_InvalidStorageID := 0x2008.
Definition R_InvalidObjectHandle := 0x2009. Definition R_DevicePropNotSupported := 0x200A.
Definition R_InvalidObjectFormatCode := 0x200B. Definition R_AccessDenied := 0x200F.
Definition R_NoValidObjectInfo := 0x2015.   Definition R_InvalidCodeFormat := 0x2016.
Definition R_InvalidParentObject := 0x201A. Definition R_InvalidParameter := 0x201D.
Definition R_SessionAlreadyOpen := 0x201E.  Definition R_Invalid_ObjectProp_Format := 0xA802.
Definition R_Invalid_Dataset := 0xA806.     Definition R_By_Group_Unsupported := 0xA807.
Definition R_By_Depth_Unsupported := 0xA808. Definition R_Object_Too_Large := 0xA809.
Definition R_ObjectProp_Not_Supported := 0xA80A.

Definition EV_ObjectAdded := 0x4002.        Definition EV_ObjectRemoved := 0x4003.
Definition EV_ObjectInfoChanged := 0x4007.  Definition EV_ObjectPropChanged := 0xC801.
Definition FMT_Undefined := 0x3000.         Definition FMT_Association := 0x3001.
Definition PROP_File_Name := 0xDC07.        Definition PROP_Name := 0xDC44.
Definition PROP_Rep_Sample_Data := 0xDC86.
Definition DEV_Sync_Partner := 0xD401.      Definition DEV_Friendly_Name := 0xD402.
Definition DEV_Volume := 0xD403.
Definition CAT_UNSUPPORTED := 1.            Definition CAT_IMAGE := 4.
Definition CAT_COMMON := 5.
Definition ALL := 0xFFFFFFFF.
Definition MAX_CONTENT := 0xFFFFFFFF - 12.  (* mtptypes.h:226-227 *)
Definition BUFFER_MAX := 16384.             (* mtpresponder.cpp:56 *)

(** ** Calls to the outside and their answers *)
Inductive scall :=
| SReady | SStorageIds | SCheckStorage (id : N) | SStorageInfo (id : N) | SCheckHandle (h : N)
| SGetHandles (id fmt assoc : N) | SGetInfo (h : N) | SGetPath (h : N) | SDelete (h fmt : N)
| SAddItem (id parent : N) (i : objinfo) | SWrite (h : N) (data : option bytes) (first last : bool)
| SWritePartial (h off : N) (data : bytes) (first last : bool) | STruncate (h size : N)
| SRead (h n off : N) | SMove (h parent id : N) | SCopy (h parent id : N)
| SGetRefs (h : N) | SSetRefs (h : N) (l : list N)
| SGetProps (h : N) (ds : list objpropdesc) | SSetProps (h : N) (l : list (objpropdesc * variant)) (spl : bool)
| SSetEvents (h : N) (b : bool) | SGetEvents (h : N) | SFlush (h : N)
| SDevInfo                       (* m_devInfoProvider getters used by GetDeviceInfo *)
| SDevDesc (code : N)            (* m_propertyPod->getDevicePropDesc: reads current values *)
| SDevSet (code : N) (s : list N) (* setDeviceFriendlyName / setSyncPartner *)
| SSession (open : bool).        (* sessionOpenChanged *)

(** a container handed to the transport: header fields and content.  [PItems]:
    values streamed in with operator<< (bytes: C02), length computed.  [PRaw]: bytes
    copied in, with the length field set to [declared]. *)
Inductive payload := PItems (l : list item) | PRaw (b : bytes) (declared : N).
Record outc := mk_out { o_type : N; o_code : N; o_tid : N; o_pay : payload }.

Inductive act :=
| ACall (c : scall)
| ASend (o : outc) (last : bool)      (* m_transporter->sendData of a container *)
| ASendRaw (b : bytes) (last : bool)  (* m_transporter->sendData of further content *)
| AResend (o : outc) (last : bool)    (* sendData of the saved container on resume *)
| AEvent (o : outc)                   (* m_transporter->sendEvent *)
| AReset.                             (* m_transporter->reset() *)

(** signals that the nested event loop of a send or a copy may deliver *)
Inductive sig := SigCancel | SigReset | SigSuspend | SigResume | SigEvent (ev : N) (params : list N).
Record ans := mk_ans { a_code : N; a_nums : list N; a_bytes : bytes; a_info : objinfo; a_vals : list (N * variant);
                       a_dpd : option devpropdesc; a_items : list item; a_bool : bool; a_async : list sig }.
Definition a_num (a : ans) (i : nat) : N := nth i (a_nums a) 0.

(** ** State *)
Inductive rst := IDLE | WAIT_DATA | WAIT_RESP | TX_CANCEL | SUSPEND | WAIT_STORAGE.
Definition rst_eqb (a b : rst) : bool :=
  match a, b with IDLE, IDLE | WAIT_DATA, WAIT_DATA | WAIT_RESP, WAIT_RESP | TX_CANCEL, TX_CANCEL | SUSPEND, SUSPEND
  | WAIT_STORAGE, WAIT_STORAGE => true | _, _ => false end.
(** reqContainer: the header fields and parameters it is asked for (parsed at
    reception; the code re-reads them from the same unchanged buffer) *)
Record req := mk_req { q_code : N; q_tid : N; q_par : list N }.
Definition par (q : req) (i : nat) : N := nth i (q_par q) 0.
(** MTPSendObjectSequence, mtpresponder.h:228-239 *)
Record sendseq := mk_ss { ss_info : objinfo; ss_handle : N; ss_written : N }.
(** ObjPropListInfo, mtpresponder.h:192-226; elements: code, data type, value *)
Record plinfo := mk_pl { pl_storage : N; pl_parent : N; pl_size : N; pl_format : N; pl_handle : N; pl_cur : N;
                         pl_elems : list (N * N * variant) }.
Record rstate := mk_r {
  r_st : rst; r_prev : rst; r_session : N; r_req : option req; r_data : option rxc; r_resp : N;
  r_seq : option sendseq; r_pl : option plinfo;
  r_edit : option (N * N);               (* objHandle, writeOffset *)
  r_resend : option (outc * bool);       (* m_containerToBeResent, m_resendBuffer, m_isLastPacket *)
  r_wait : bytes; r_wait_done : bool;    (* m_storageWaitData, m_storageWaitDataComplete *)
  r_log : list (act * ans) }.
Definition set_st x s := mk_r x (r_prev s) (r_session s) (r_req s) (r_data s) (r_resp s) (r_seq s) (r_pl s) (r_edit s) (r_resend s) (r_wait s) (r_wait_done s) (r_log s).
Definition set_prev x s := mk_r (r_st s) x (r_session s) (r_req s) (r_data s) (r_resp s) (r_seq s) (r_pl s) (r_edit s) (r_resend s) (r_wait s) (r_wait_done s) (r_log s).
Definition set_session x s := mk_r (r_st s) (r_prev s) x (r_req s) (r_data s) (r_resp s) (r_seq s) (r_pl s) (r_edit s) (r_resend s) (r_wait s) (r_wait_done s) (r_log s).
Definition set_req x s := mk_r (r_st s) (r_prev s) (r_session s) x (r_data s) (r_resp s) (r_seq s) (r_pl s) (r_edit s) (r_resend s) (r_wait s) (r_wait_done s) (r_log s).
Definition set_data x s := mk_r (r_st s) (r_prev s) (r_session s) (r_req s) x (r_resp s) (r_seq s) (r_pl s) (r_edit s) (r_resend s) (r_wait s) (r_wait_done s) (r_log s).
Definition set_resp x s := mk_r (r_st s) (r_prev s) (r_session s) (r_req s) (r_data s) x (r_seq s) (r_pl s) (r_edit s) (r_resend s) (r_wait s) (r_wait_done s) (r_log s).
Definition set_seq x s := mk_r (r_st s) (r_prev s) (r_session s) (r_req s) (r_data s) (r_resp s) x (r_pl s) (r_edit s) (r_resend s) (r_wait s) (r_wait_done s) (r_log s).
Definition set_pl x s := mk_r (r_st s) (r_prev s) (r_session s) (r_req s) (r_data s) (r_resp s) (r_seq s) x (r_edit s) (r_resend s) (r_wait s) (r_wait_done s) (r_log s).
Definition set_edit x s := mk_r (r_st s) (r_prev s) (r_session s) (r_req s) (r_data s) (r_resp s) (r_seq s) (r_pl s) x (r_resend s) (r_wait s) (r_wait_done s) (r_log s).
Definition set_resend x s := mk_r (r_st s) (r_prev s) (r_session s) (r_req s) (r_data s) (r_resp s) (r_seq s) (r_pl s) (r_edit s) x (r_wait s) (r_wait_done s) (r_log s).
Definition set_wait x y s := mk_r (r_st s) (r_prev s) (r_session s) (r_req s) (r_data s) (r_resp s) (r_seq s) (r_pl s) (r_edit s) (r_resend s) x y (r_log s).
Definition add_log x s := mk_r (r_st s) (r_prev s) (r_session s) (r_req s) (r_data s) (r_resp s) (r_seq s) (r_pl s) (r_edit s) (r_resend s) (r_wait s) (r_wait_done s) (x :: r_log s).
(** mtpresponder.cpp:104-121 *)
Definition r_init : rstate := mk_r IDLE IDLE 0 None None R_OK None None None None [] false [].

(** ** The monad *)
Definition M (A : Type) := rstate -> outcome (A * rstate).
Definition ret {A} (a : A) : M A := fun s => Ret (a, s).
Definition bind {A B} (m : M A) (f : A -> M B) : M B :=
  fun s => match m s with Ret (a, s1) => f a s1 | UB => UB | Abort => Abort end.
Definition crash {A} : M A := fun _ => UB.
Definition get {A} (f : rstate -> A) : M A := fun s => Ret (f s, s).
Definition upd (f : rstate -> rstate) : M unit := fun s => Ret (tt, f s).
Definition lift {A} (o : outcome A) : M A := fun s => match o with Ret a => Ret (a, s) | UB => UB | Abort => Abort end.
Definition need {A} (o : option A) : M A := match o with Some a => ret a | None => crash end.
Declare Scope m_scope.
Delimit Scope m_scope with m.
Notation "x <- m ;; k" := (bind m (fun x => k)) (at level 61, m at next level, right associativity) : m_scope.
Notation "' p <- m ;; k" := (bind m (fun x => match x with p => k end)) (at level 61, p pattern, m at next level, right associativity) : m_scope.
Notation "m ;;; k" := (bind m (fun _ => k)) (at level 61, right associativity) : m_scope.
Open Scope m_scope.
Definition when (b : bool) (m : M unit) : M unit := if b then m else ret tt.

Section R.
Variable env : list (act * ans) -> act -> ans.
(** device info provider and property pod tables (constant while running) *)
Variable formats : list N.                 (* supportedFormats() *)
Variable cat : N -> N.                     (* getFormatCodeCategory, mtpdeviceinfo.cpp:647 *)
Variable props_by_type : N -> N * list N.  (* PropertyPod::getObjectPropsSupportedByType *)
Variable prop_desc : N -> N -> N * option objpropdesc. (* PropertyPod::getObjectPropDesc *)

Definition ask (a : act) : M ans := fun s => let r := env (r_log s) a in Ret (r, add_log (a, r) s).
Definition call (c : scall) : M ans := ask (ACall c).

(** ** Signals *)
(** 2625-2638 *)
Definition delete_stored : M unit := upd (fun s => set_req None (set_data None s)).
(** 2711-2723; 2858-2862 handleDeviceReset is this plus a status signal *)
Definition close_session : M unit :=
  upd (set_session 0) ;;; delete_stored ;;; upd (set_st IDLE) ;;; upd (set_seq None) ;;; upd (set_pl None).
(** 2746-2751 *)
Definition handle_suspend : M unit := st <- get r_st ;; upd (set_prev st) ;;; upd (set_st SUSPEND).
(** 2753-2768.  [busy]: delivered by the event loop nested in another sendData,
    which makes the transporter refuse this one (mtptransporterusb.cpp sendData,
    m_writer_busy). *)
Definition handle_resume (busy : bool) : M unit :=
  p <- get r_prev ;; upd (set_st p) ;;;
  rs <- get r_resend ;;
  match rs with
  | None => ret tt
  | Some (o, last) =>
    upd (set_resend None) ;;;
    if rst_eqb p TX_CANCEL || busy then ret tt else (_ <- ask (AResend o last) ;; ret tt)
  end.
(** 2775-2856 *)
Definition handle_cancel : M unit :=
  rq <- get r_req ;;
  match rq with
  | None => ret tt
  | Some q =>
    upd (set_st TX_CANCEL) ;;;
    when ((q_code q =? OP_SendObject) || (q_code q =? OP_SendObjectPropList) || (q_code q =? OP_SendObjectInfo))
      (pl <- get r_pl ;; sq <- get r_seq ;;
       let h := match pl with Some p => pl_handle p | None => match sq with Some x => ss_handle x | None => 0 end end in
       when (negb (h =? 0)) (_ <- call (SDelete h FMT_Undefined) ;; ret tt) ;;;
       match pl with Some _ => upd (set_pl None) | None => upd (set_seq None) end) ;;;
    delete_stored
  end.
(** 3017-3073; [params] as given by the storage (params[0] exists for the four
    object events; modelled as 0 otherwise) *)
Definition event_filtered (ev : N) : bool := (ev =? EV_ObjectRemoved) || (ev =? EV_ObjectInfoChanged) || (ev =? EV_ObjectPropChanged).
Definition u32_item (x : N) : item := IVal DT_UINT32 (VInt x).
Definition event_out (ev : N) (params : list N) : outc := mk_out TYPE_EVENT ev 0xFFFFFFFF (PItems (map u32_item params)).
Definition dispatch_event (ev : N) (params : list N) : M unit :=
  let h := if event_filtered ev || (ev =? EV_ObjectAdded) then nth 0 params 0 else 0 in
  enabled <- (if negb (h =? 0) && negb (h =? ALL)
              then _ <- call (SGetPath h) ;; r <- call (SGetEvents h) ;;
                   (* storagefactory.cpp:467-474: an unknown handle leaves the flag untouched *)
                   ret (if a_code r =? R_OK then a_bool r else true)
              else ret true) ;;
  if event_filtered ev && negb enabled then ret tt else
  (* sendContainer 286-347 for an event container *)
  st <- get r_st ;;
  if rst_eqb st SUSPEND then ret tt else (_ <- ask (AEvent (event_out ev params)) ;; ret tt).
Definition handle_sig (busy : bool) (g : sig) : M unit :=
  match g with
  | SigCancel => handle_cancel | SigReset => close_session | SigSuspend => handle_suspend
  | SigResume => handle_resume busy | SigEvent ev ps => dispatch_event ev ps
  end.
Fixpoint run_sigs (busy : bool) (l : list sig) : M unit :=
  match l with [] => ret tt | g :: r => handle_sig busy g ;;; run_sigs busy r end.
(** calls that run the event loop: object copy and move (storageplugin.cpp:66) *)
Definition call_loop (c : scall) : M ans := r <- call c ;; run_sigs false (a_async r) ;;; ret r.

(** ** Sending *)
(** 286-347 for data and response containers; true also when the transport
    reported failure (its result is not looked at) *)
Definition send_container (o : outc) (last : bool) : M bool :=
  st <- get r_st ;;
  if rst_eqb st TX_CANCEL then ret false else
  if rst_eqb st SUSPEND then upd (set_resend (Some (o, last))) ;;; ret false else
  when (o_type o =? TYPE_RESPONSE) (upd (set_st IDLE)) ;;;
  r <- ask (ASend o last) ;;
  run_sigs true (a_async r) ;;;
  when (o_type o =? TYPE_RESPONSE) delete_stored ;;;
  ret true.
Definition data_out (q : req) (p : payload) : outc := mk_out TYPE_DATA (q_code q) (q_tid q) p.
(** 349-365: the transaction id passes through a quint16 *)
Definition send_response (code : N) : M unit :=
  rq <- get r_req ;;
  match rq with
  | None => ret tt
  | Some q => _ <- send_container (mk_out TYPE_RESPONSE code (u16 (q_tid q)) (PItems [])) true ;; ret tt
  end.
(** 367-379: no null check *)
Definition send_response1 (code p : N) : M unit :=
  rq <- get r_req ;;
  match rq with
  | None => crash
  | Some q => _ <- send_container (mk_out TYPE_RESPONSE code (u16 (q_tid q)) (PItems [u32_item p])) true ;; ret tt
  end.
(** the common tail of the query handlers: optional data, then the response *)
Definition data_then (q : req) (p : payload) (code : N) : M unit :=
  sent <- send_container (data_out q p) true ;; when sent (send_response code).
(** 2640-2649 *)
Definition pre_check (session tid : N) : N :=
  if session =? 0 then R_SessionNotOpen else if (tid =? 0) || (tid =? 0xFFFFFFFF) then R_InvalidTransID else R_OK.
Definition check (q : req) : M N := s <- get r_session ;; ret (pre_check s (q_tid q)).
Definition vec32 (l : list N) : item := IVal DT_AUINT32 (VVec DT_AUINT32 l).
Definition vec16 (l : list N) : item := IVal DT_AUINT16 (VVec DT_AUINT16 l).
Definition isok (c : N) : bool := c =? R_OK.

(** ** Command handlers *)
(** 815-890; the answer to SDevInfo carries the items written *)
Definition h_getDeviceInfo (q : req) : M unit := r <- call SDevInfo ;; data_then q (PItems (a_items r)) R_OK.
(** 892-913 *)
Definition h_openSession (q : req) : M unit :=
  s <- get r_session ;;
  if par q 0 =? 0 then send_response R_InvalidParameter
  else if negb (s =? 0) then send_response1 R_SessionAlreadyOpen s
  else upd (set_session (par q 0)) ;;; send_response R_OK ;;; (_ <- call (SSession true) ;; ret tt).
(** 915-936 *)
Definition h_closeSession (q : req) : M unit :=
  s <- get r_session ;;
  if s =? 0 then send_response R_SessionNotOpen
  else upd (set_session 0) ;;; upd (set_seq None) ;;; upd (set_pl None) ;;; (_ <- call (SSession false) ;; send_response R_OK).
(** 938-968 *)
Definition h_getStorageIDs (q : req) : M unit :=
  c <- check q ;;
  if isok c then r <- call SStorageIds ;;
    if isok (a_code r) then data_then q (PItems [vec32 (a_nums r)]) R_OK else send_response (a_code r)
  else send_response c.
(** 970-1022 *)
Definition h_getStorageInfo (q : req) : M unit :=
  c <- check q ;;
  if isok c then
    r1 <- call (SCheckStorage (par q 0)) ;;
    if isok (a_code r1) then
      r2 <- call (SStorageInfo (par q 0)) ;;
      if isok (a_code r2) then
        r3 <- call (SCheckStorage (par q 0)) ;;
        if isok (a_code r3) then data_then q (PItems (a_items r2)) R_OK else send_response (a_code r3)
      else send_response (a_code r2)
    else send_response (a_code r1)
  else send_response c.
(** 1036-1060 = 1078-1102 *)
Definition object_query (q : req) : M (N * list N) :=
  c <- check q ;;
  if negb (isok c) then ret (c, []) else
  c1 <- (if par q 0 =? ALL then ret R_OK else r <- call (SCheckStorage (par q 0)) ;; ret (a_code r)) ;;
  if negb (isok c1) then ret (c1, []) else
  let c2 := if negb (par q 1 =? 0) && negb (existsb (N.eqb (u16 (par q 1))) formats) then R_Invalid_ObjectProp_Format else R_OK in
  c3 <- (if isok c2 && negb (par q 2 =? 0) && negb (par q 2 =? ALL)
         then r <- call (SCheckHandle (par q 2)) ;; ret (a_code r) else ret c2) ;;
  if negb (isok c3) then ret (c3, []) else
  r <- call (SGetHandles (par q 0) (u16 (par q 1)) (par q 2)) ;; ret (a_code r, a_nums r).
(** 1024-1063 *)
Definition h_getNumObjects (q : req) : M unit :=
  '(c, l) <- object_query q ;; send_response1 c (u32 (len l)).
(** 1065-1123; std::sort *)
Fixpoint insert (x : N) (l : list N) : list N := match l with [] => [x] | y :: r => if x <=? y then x :: l else y :: insert x r end.
Fixpoint isort (l : list N) : list N := match l with [] => [] | x :: r => insert x (isort r) end.
Definition h_getObjectHandles (q : req) : M unit :=
  '(c, l) <- object_query q ;;
  if isok c then data_then q (PItems [vec32 (isort l)]) R_OK else send_response c.
(** 1125-1160 *)
Definition h_getObjectInfo (q : req) : M unit :=
  c <- check q ;;
  if isok c then r <- call (SGetInfo (par q 0)) ;;
    if isok (a_code r) then data_then q (PItems [IObj (a_info r)]) R_OK else send_response (a_code r)
  else send_response c.

(** 2891-2991.  Buffer contents are what readData put there, cut or zero-filled to
    the requested length (the rest of the buffer is indeterminate). *)
Definition fit (n : N) (b : bytes) : bytes := take n (b ++ repeat 0 (N.to_nat n)).
(** the continuation loop 2932-2965; result: (respCode, offsetNow, remainingLength, contentSent) *)
Fixpoint seg_loop (fuel : nat) (h off remaining : N) : M (N * N * bool) :=
  match fuel with
  | O => fun _ => Abort
  | S f =>
    let n := if remaining <? BUFFER_MAX then remaining else BUFFER_MAX in
    r <- call (SRead h n off) ;;
    if negb (isok (a_code r)) then ret (a_code r, remaining, false) else
    r2 <- ask (ASendRaw (fit n (a_bytes r)) (n =? remaining)) ;;
    run_sigs true (a_async r2) ;;;
    if negb (a_bool r2) then ret (R_OK, remaining, false) else
    let rem1 := remaining - n in
    if rem1 =? 0 then ret (R_OK, rem1, true) else seg_loop f h (off + n) rem1
  end.
Definition seg_respond (op resp sent : N) : M unit :=
  if op =? OP_GetPartialObject
  then send_response1 resp (if MAX_CONTENT <? sent then 0xFFFFFFFF else u32 sent)
  else send_response resp.
Definition send_segmented (q : req) (h off tail : N) : M unit :=
  let total := sub64 tail off in
  let n := if total <? BUFFER_MAX - 12 then total else BUFFER_MAX - 12 in
  let declared := if MAX_CONTENT <? total then 0xFFFFFFFF else u32 (12 + total) in
  r <- call (SRead h n off) ;;
  if negb (isok (a_code r)) then seg_respond (q_code q) (a_code r) 0 else
  sent <- send_container (data_out q (PRaw (fit n (a_bytes r)) declared)) (n =? total) ;;
  if negb sent then seg_respond (q_code q) R_OK 0 else
  let rem := total - n in
  if rem =? 0 then seg_respond (q_code q) R_OK n else
  '(resp, rem2, done) <- seg_loop (S (N.to_nat (rem / BUFFER_MAX))) h (off + n) rem ;;
  if done then seg_respond (q_code q) resp total else ret tt.
(** 1163-1213 *)
Definition get_object_common (q : req) (h off size : N) : M unit :=
  c <- check q ;;
  if negb (isok c) then send_response c else
  r <- call (SGetInfo h) ;;
  if negb (isok (a_code r)) then send_response (a_code r) else
  let tail := u64 (off + size) in
  let osz := oi_size (a_info r) in
  if oi_format (a_info r) =? FMT_Association then send_response R_InvalidObjectHandle
  else if osz <? off then send_response R_InvalidParameter
  else if tail <? off then send_response R_InvalidParameter
  else send_segmented q h (N.min off osz) (N.min tail osz).
(** 1215-1225, 1322-1332, 1510-1527 *)
Definition off64 (lo hi : N) : N := u64 (hi * 4294967296 + lo).
Definition h_getObject (q : req) : M unit := get_object_common q (par q 0) 0 MAX_CONTENT.
Definition h_getPartialObject (q : req) : M unit := get_object_common q (par q 0) (par q 1) (par q 2).
Definition h_getPartialObject64 (q : req) : M unit := get_object_common q (par q 0) (off64 (par q 1) (par q 2)) (par q 3).
(** 1227-1267 *)
Definition h_getThumb (q : req) : M unit :=
  c <- check q ;;
  when (isok c)
    (d <- need (snd (prop_desc CAT_IMAGE PROP_Rep_Sample_Data)) ;;
     r <- call (SGetProps (par q 0) [d]) ;;
     when (isok (a_code r))
       (let b := variant_vec DT_AUINT8 (snd (nth 0 (a_vals r) (0, VNull))) in
        data_then q (PRaw b (u32 (12 + len b))) R_OK)).
(** 1269-1282 *)
Definition h_deleteObject (q : req) : M unit :=
  c <- check q ;;
  if isok c then r <- call (SDelete (par q 0) (u16 (par q 1))) ;; send_response (a_code r) else send_response c.
(** 1284-1295 (sendObjectInfoReq), 2056-2068 (setObjectPropListReq), 2164-2175 (setObjReferencesReq) *)
Definition h_check_only (q : req) : M unit := c <- check q ;; upd (set_resp c).
(** 1297-1320 *)
Definition h_sendObject (q : req) : M unit :=
  c <- check q ;; sq <- get r_seq ;; pl <- get r_pl ;;
  upd (set_resp (if isok c then match sq, pl with None, None => R_NoValidObjectInfo | _, _ => c end else c)).
(** 1334-1339, 1430-1435, 2070-2075 *)
Definition h_unsupported (q : req) : M unit := send_response R_OperationNotSupported.
(** 1341-1371 *)
Definition h_getDevicePropDesc (q : req) : M unit :=
  c <- check q ;;
  if negb (isok c) then send_response c else
  r <- call (SDevDesc (u16 (par q 0))) ;;
  match a_dpd r with
  | Some d => if isok (a_code r) then data_then q (PItems [IDpd d]) R_OK else send_response (a_code r)
  | None => send_response (a_code r)
  end.
(** 1373-1404 *)
Definition h_getDevicePropValue (q : req) : M unit :=
  c <- check q ;;
  if negb (isok c) then send_response c else
  r <- call (SDevDesc (u16 (par q 0))) ;;
  match a_dpd r with
  | Some d => if isok (a_code r) then data_then q (PItems [IVal (dpd_type d) (dpd_current d)]) R_OK else send_response (a_code r)
  | None => send_response (a_code r)
  end.
(** 1406-1428 *)
Definition h_setDevicePropValue (q : req) : M unit :=
  c <- check q ;;
  if negb (isok c) then upd (set_resp c) else
  r <- call (SDevDesc (u16 (par q 0))) ;;
  upd (set_resp (match a_dpd r with Some _ => if isok (a_code r) then R_OK else R_DevicePropNotSupported | None => R_DevicePropNotSupported end)).
(** 1437-1468 and 1470-1508: the common checks, then the action *)
Definition move_copy_checks (q : req) : M N :=
  c <- check q ;;
  if negb (isok c) then ret c else
  r1 <- call (SCheckHandle (par q 0)) ;;
  if negb (isok (a_code r1)) then ret (a_code r1) else
  r2 <- call (SCheckStorage (par q 1)) ;;
  if negb (isok (a_code r2)) then ret (a_code r2) else
  if par q 2 =? 0 then ret R_OK else
  r3 <- call (SCheckHandle (par q 2)) ;;
  if isok (a_code r3) then ret R_OK else ret R_InvalidParentObject.
Definition h_moveObject (q : req) : M unit :=
  c <- move_copy_checks q ;;
  if isok c then r <- call_loop (SMove (par q 0) (par q 2) (par q 1)) ;; send_response (a_code r) else send_response c.
Definition h_copyObject (q : req) : M unit :=
  c <- move_copy_checks q ;;
  '(c2, h) <- (if isok c then r <- call_loop (SCopy (par q 0) (par q 2) (par q 1)) ;; ret (a_code r, a_num r 0)
               else ret (c, 0)) ;;
  st <- get r_st ;;
  if rst_eqb st TX_CANCEL then ret tt else send_response1 c2 h.
(** the edit-mode test of 1552-1559, 1636-1642, 1707-1712 *)
Definition edit_check (c h : N) : M N :=
  if negb (isok c) then ret c else
  e <- get r_edit ;;
  ret (match e with None => R_GeneralError | Some (eh, _) => if eh =? h then R_OK else R_InvalidObjectHandle end).
(** 1529-1573 *)
Definition h_sendPartialObject64 (q : req) : M unit :=
  c <- check q ;; c2 <- edit_check c (par q 0) ;;
  when (isok c2) (upd (set_edit (Some (par q 0, off64 (par q 1) (par q 2))))) ;;;
  upd (set_resp c2).
(** 1615-1652 *)
Definition h_truncateObject64 (q : req) : M unit :=
  c <- check q ;; c2 <- edit_check c (par q 0) ;;
  if isok c2 then r <- call (STruncate (par q 0) (off64 (par q 1) (par q 2))) ;; send_response (a_code r)
  else send_response c2.
(** 1654-1688 *)
Definition h_beginEdit (q : req) : M unit :=
  c <- check q ;;
  if negb (isok c) then send_response c else
  r <- call (SCheckHandle (par q 0)) ;;
  if negb (isok (a_code r)) then send_response (a_code r) else
  upd (set_edit (Some (par q 0, 0))) ;;; (_ <- call (SSetEvents (par q 0) false) ;; send_response R_OK).
(** 1690-1728 *)
Definition h_endEdit (q : req) : M unit :=
  c <- check q ;; c2 <- edit_check c (par q 0) ;;
  if isok c2 then _ <- call (SFlush (par q 0)) ;; _ <- call (SSetEvents (par q 0) true) ;;
                  upd (set_edit None) ;;; send_response R_OK
  else send_response c2.
(** 1730-1767: session id 1 is passed to preCheck *)
Definition h_getObjPropsSupported (q : req) : M unit :=
  if negb (isok (pre_check 1 (q_tid q))) then send_response R_InvalidTransID else
  let (c, l) := props_by_type (cat (u16 (par q 0))) in
  if isok c then data_then q (PItems [vec16 l]) R_OK else send_response c.
(** 1769-1810 *)
Definition h_getObjPropDesc (q : req) : M unit :=
  c <- check q ;;
  if negb (isok c) then send_response c else
  let category := cat (u16 (par q 1)) in
  if category =? CAT_UNSUPPORTED then send_response R_Invalid_ObjectProp_Format else
  let (c2, d) := prop_desc category (u16 (par q 0)) in
  if isok c2 then d <- need d ;; data_then q (PItems [IOpd d]) R_OK else send_response c2.
(** 1812-1872; the extension fallback for ObjectProp_Not_Supported only asks for
    the path and leaves code and value alone (no extensions) *)
Definition h_getObjPropValue (q : req) : M unit :=
  c <- check q ;;
  if negb (isok c) then send_response c else
  r <- call (SGetInfo (par q 0)) ;;
  if negb (isok (a_code r)) then send_response (a_code r) else
  let (c2, d) := prop_desc (cat (oi_format (a_info r))) (u16 (par q 1)) in
  if negb (isok c2) then send_response c2 else
  d <- need d ;;
  r2 <- call (SGetProps (par q 0) [d]) ;;
  (if a_code r2 =? R_ObjectProp_Not_Supported then _ <- call (SGetPath (par q 0)) ;; ret tt else ret tt) ;;;
  if isok (a_code r2) then
    data_then q (PItems [IVal (opd_type d) (match a_vals r2 with [(_, v)] => v | _ => VNull end)]) R_OK
  else send_response (a_code r2).
(** 1874-1904 *)
Definition h_setObjPropValue (q : req) : M unit :=
  c <- check q ;; upd (set_resp c) ;;;
  when (isok c)
    (r <- call (SGetInfo (par q 0)) ;;
     upd (set_resp (a_code r)) ;;;
     when (isok (a_code r))
       (let (c2, d) := prop_desc (cat (oi_format (a_info r))) (u16 (par q 1)) in
        upd (set_resp c2) ;;;
        when (isok c2) (d <- need d ;; when (negb (opd_getset d)) (upd (set_resp R_AccessDenied))))).
(** 2864-2889; elements whose value is invalid are skipped.  The storage answers
    with (code, value) pairs for the descriptions asked for. *)
Definition desc_of (ds : list objpropdesc) (code : N) : option objpropdesc := find (fun d => opd_code d =? code) ds.
Fixpoint prop_items (h : N) (ds : list objpropdesc) (vals : list (N * variant)) : list item * N :=
  match vals with
  | [] => ([], 0)
  | (code, v) :: r =>
    let (l, n) := prop_items h ds r in
    match v, desc_of ds code with
    | VNull, _ | _, None => (l, n)
    | _, Some d => (u32_item h :: IVal DT_UINT16 (VInt code) :: IVal DT_UINT16 (VInt (opd_type d)) :: IVal (opd_type d) v :: l, n + 1)
    end
  end.
(** 1993-2002: the descriptions of all supported properties but the sample data *)
Fixpoint all_descs (category : N) (l : list N) : M (N * list objpropdesc) :=
  match l with
  | [] => ret (R_OK, [])
  | p :: r =>
    let (c, d) := prop_desc category p in
    d <- need d ;;     (* propDesc->uPropCode is read without looking at the response code *)
    if negb (isok c) then ret (c, []) else
    '(c2, ds) <- all_descs category r ;;
    ret (c2, if opd_code d =? PROP_Rep_Sample_Data then ds else d :: ds)
  end.
(** 1978-2021 *)
Fixpoint prop_list_loop (hs : list N) (prop : N) : M (N * (list item * N)) :=
  match hs with
  | [] => ret (R_OK, ([], 0))
  | h :: rest =>
    r <- call (SGetInfo h) ;;
    if negb (isok (a_code r)) then ret (a_code r, ([], 0)) else
    let category0 := cat (oi_format (a_info r)) in
    let category := if category0 =? CAT_UNSUPPORTED then CAT_COMMON else category0 in
    '(c, ds) <- (if prop =? 0xFFFF
                 then let (c, l) := props_by_type category in if isok c then all_descs category l else ret (c, [])
                 else let (c, d) := prop_desc category prop in
                      ret (c, match d with Some d => [d] | None => [] end)) ;;
    if negb (isok c) then ret (c, ([], 0)) else
    r2 <- call (SGetProps h ds) ;;
    if negb (isok (a_code r2)) then ret (a_code r2, ([], 0)) else
    let (items, n) := prop_items h ds (a_vals r2) in
    '(c3, (l, m)) <- prop_list_loop rest prop ;;
    ret (c3, (items ++ l, n + m))
  end.
(** 1906-2054 *)
Definition h_getObjectPropList (q : req) : M unit :=
  let h := par q 0 in let fmt := u16 (par q 1) in let prop := u16 (par q 2) in let depth := par q 4 in
  let fix_code c := if c =? R_InvalidObjectFormatCode then R_InvalidCodeFormat else c in
  c <- check q ;;
  if negb (isok c) then send_response c else
  if (h =? 0) && (depth =? 0) then data_then q (PItems [u32_item 0]) R_OK
  else if (1 <? depth) && (depth <? 0xFFFFFFFF) then send_response R_By_Depth_Unsupported
  else if prop =? 0 then send_response R_By_Group_Unsupported
  else if negb (fmt =? 0) && (cat fmt =? CAT_UNSUPPORTED) then send_response R_InvalidCodeFormat
  else
    '(c1, hs) <- (if depth =? 0 then ret (R_OK, [h])
                  else let t := if h =? 0 then ALL else if h =? ALL then 0 else h in
                       r <- call (SGetHandles ALL fmt t) ;; ret (a_code r, a_nums r)) ;;
    if negb (isok c1) then data_then q (PItems [u32_item 0]) (fix_code c1) else
    '(c2, (items, n)) <- prop_list_loop hs prop ;;
    if isok c2 then data_then q (PItems (u32_item (u32 n) :: items)) R_OK else send_response (fix_code c2).
(** 2077-2130 *)
Definition h_sendObjectPropList (q : req) : M unit :=
  c <- check q ;; upd (set_resp c) ;;;
  when (isok c)
    (c1 <- (if par q 0 =? 0 then ret R_OK else r <- call (SCheckStorage (par q 0)) ;; ret (a_code r)) ;;
     upd (set_resp c1) ;;;
     when (isok c1)
       (c2 <- (if (par q 1 =? 0) || (par q 1 =? ALL) then ret R_OK else r <- call (SCheckHandle (par q 1)) ;; ret (a_code r)) ;;
        upd (set_resp c2) ;;;
        when (isok c2)
          (if negb (par q 3 =? 0) then upd (set_resp R_Object_Too_Large)
           else upd (set_pl (Some (mk_pl (par q 0) (par q 1) (par q 4) (u16 (par q 2)) 0 0 [])))))).
(** 2132-2162 *)
Definition h_getObjReferences (q : req) : M unit :=
  c <- check q ;;
  if negb (isok c) then send_response c else
  r <- call (SGetRefs (par q 0)) ;;
  if isok (a_code r) then data_then q (PItems [vec32 (a_nums r)]) R_OK else send_response (a_code r).
(** 2177-2189 *)
Definition h_skip (q : req) : M unit := c <- check q ;; send_response c.

(** 242-282 *)
Definition op_table : list (N * (req -> M unit)) :=
  [ (OP_GetDeviceInfo, h_getDeviceInfo); (OP_OpenSession, h_openSession); (OP_CloseSession, h_closeSession);
    (OP_GetStorageIDs, h_getStorageIDs); (OP_GetStorageInfo, h_getStorageInfo); (OP_GetNumObjects, h_getNumObjects);
    (OP_GetObjectHandles, h_getObjectHandles); (OP_GetObjectInfo, h_getObjectInfo); (OP_GetObject, h_getObject);
    (OP_GetThumb, h_getThumb); (OP_DeleteObject, h_deleteObject); (OP_SendObjectInfo, h_check_only);
    (OP_SendObject, h_sendObject); (OP_GetPartialObject, h_getPartialObject);
    (OP_SetObjectProtection, h_unsupported); (OP_GetDevicePropDesc, h_getDevicePropDesc);
    (OP_GetDevicePropValue, h_getDevicePropValue); (OP_SetDevicePropValue, h_setDevicePropValue);
    (OP_ResetDevicePropValue, h_unsupported); (OP_MoveObject, h_moveObject); (OP_CopyObject, h_copyObject);
    (OP_GetPartialObject64, h_getPartialObject64); (OP_SendPartialObject64, h_sendPartialObject64);
    (OP_TruncateObject64, h_truncateObject64); (OP_BeginEditObject, h_beginEdit); (OP_EndEditObject, h_endEdit);
    (OP_GetObjectPropsSupported, h_getObjPropsSupported); (OP_GetObjectPropDesc, h_getObjPropDesc);
    (OP_GetObjectPropValue, h_getObjPropValue); (OP_SetObjectPropValue, h_setObjPropValue);
    (OP_GetObjectPropList, h_getObjectPropList); (OP_SetObjectPropList, h_check_only);
    (OP_GetInterdependentPropDesc, h_unsupported); (OP_SendObjectPropList, h_sendObjectPropList);
    (OP_GetObjectReferences, h_getObjReferences); (OP_SetObjectReferences, h_check_only); (OP_Skip, h_skip) ].
Fixpoint lookup_op (code : N) (t : list (N * (req -> M unit))) : option (req -> M unit) :=
  match t with [] => None | (c, h) :: r => if code =? c then Some h else lookup_op code r end.

(** ** Data handlers *)
Definition get_rx : M rxc := d <- get r_data ;; need d.
(** *recvContainer >> x *)
Definition rd {A} (f : rxc -> outcome (A * rxc)) : M A :=
  r <- get_rx ;; '(a, r1) <- lift (f r) ;; upd (set_data (Some r1)) ;;; ret a.
(** 2191-2250; only called with mtpResp = OK (647-700) *)
Definition with_parent (o : objinfo) (p : N) : objinfo :=
  mk_objinfo (oi_storage o) (oi_format o) (oi_protection o) (oi_size o) (oi_thumb_format o) (oi_thumb_size o) (oi_thumb_w o)
    (oi_thumb_h o) (oi_image_w o) (oi_image_h o) (oi_depth o) p (oi_assoc_type o) (oi_assoc_desc o) (oi_seq o)
    (oi_name o) (oi_capture o) (oi_modified o) (oi_keywords o).
Definition respond_with (q : req) (code : N) (params : list N) : M unit :=
  _ <- send_container (mk_out TYPE_RESPONSE code (q_tid q) (PItems (map u32_item params))) true ;; ret tt.
Definition d_sendObjectInfo (q : req) : M unit :=
  upd (set_pl None) ;;;
  o <- rd rx_objinfo ;;
  if oi_size o =? 0xFFFFFFFF then upd (set_seq None) ;;; respond_with q R_Object_Too_Large []
  else
    let o1 := with_parent o (par q 1) in
    r <- call (SAddItem (par q 0) (par q 1) o1) ;;
    if isok (a_code r) then
      upd (set_seq (Some (mk_ss o1 (a_num r 2) 0))) ;;; respond_with q R_OK [a_num r 0; a_num r 1; a_num r 2]
    else upd (set_seq None) ;;; respond_with q (a_code r) [].
(** 2667-2709 *)
Definition send_object_check (h n : N) (last : bool) : M N :=
  pl <- get r_pl ;; sq <- get r_seq ;;
  match pl, sq with
  | Some p, _ =>
    let cur := u64 (pl_cur p + n) in
    upd (set_pl (Some (mk_pl (pl_storage p) (pl_parent p) (pl_size p) (pl_format p) (pl_handle p) cur (pl_elems p)))) ;;;
    if cur <? pl_size p then
      if last then _ <- call (STruncate h 0) ;; ret R_IncompleteTransfer else ret R_Undefined
    else ret R_OK
  | None, Some x =>
    let w := u32 (ss_written x + n) in
    upd (set_seq (Some (mk_ss (ss_info x) (ss_handle x) w))) ;;;
    if w <? oi_size (ss_info x) then
      if last then _ <- call (STruncate h 0) ;; ret R_IncompleteTransfer else ret R_Undefined
    else ret R_OK
  | None, None => ret R_OK
  end.
(** 2306-2341: the properties to apply after an object announced by SendObjectPropList *)
Fixpoint apply_list (h category : N) (l : list (N * N * variant)) : M (list (objpropdesc * variant)) :=
  match l with
  | [] => ret []
  | (code, _, v) :: r =>
    skip <- (if code =? PROP_File_Name then ret true
             else if code =? PROP_Name then
               i <- call (SGetInfo h) ;;
               ret (isok (a_code i) && (if list_eq_dec N.eq_dec (variant_str v) (oi_name (a_info i)) then true else false))
             else ret false) ;;
    t <- apply_list h category r ;;
    let (c, d) := prop_desc category code in
    ret (match d with Some d => if negb skip && isok c then (d, v) :: t else t | None => t end)
  end.
(** 2252-2356 *)
Definition d_sendObject (data : bytes) (first last : bool) : M unit :=
  pl0 <- get r_pl ;; sq0 <- get r_seq ;;
  let h := match sq0 with Some x => ss_handle x | None => match pl0 with Some p => pl_handle p | None => 0 end end in
  code <- (match pl0, sq0 with
           | None, None => ret R_NoValidObjectInfo
           | _, _ =>
             if first && (len data <? 12) then crash else   (* objectLen underflows: reads outside the packet *)
             let body := if first then drop 12 data else data in
             r <- call (SWrite h (Some body) first last) ;;
             if isok (a_code r) then send_object_check h (len body) last else ret (a_code r)
           end) ;;
  if code =? R_Undefined then ret tt else
  upd (set_seq None) ;;;
  pl <- get r_pl ;;
  match pl with
  | Some p => when (isok code)
      (vals <- apply_list h (cat (pl_format p)) (pl_elems p) ;; _ <- call (SSetProps h vals true) ;; ret tt)
  | None => ret tt
  end ;;;
  (_ <- call (SWrite h None false true) ;; send_response code ;;; upd (set_pl None)).
(** 1575-1613 *)
Definition d_sendPartial (data : bytes) (first last : bool) : M N :=
  e <- get r_edit ;;
  match e with
  | None => ret R_GeneralError
  | Some (h, off) =>
    if first && (len data <? 12) then ret R_GeneralError else
    let body := if first then drop 12 data else data in
    r <- call (SWritePartial h off body first last) ;;
    upd (set_edit (Some (h, u64 (off + len body)))) ;;;
    ret (a_code r)
  end.
(** 2358-2411; result: (response code, index of the next element) *)
Fixpoint set_list_loop (n : nat) (i : N) : M (N * N) :=
  match n with
  | O => ret (R_OK, i)
  | S k =>
    h <- rd (rx_int 4) ;;
    r <- call (SGetInfo h) ;;
    c <- (if negb (isok (a_code r)) then ret (a_code r) else
          p <- rd (rx_int 2) ;;
          let (c1, d) := prop_desc (cat (oi_format (a_info r))) p in
          if negb (isok c1) then ret c1 else
          d <- need d ;;
          if negb (opd_getset d) then ret R_AccessDenied else
          ty <- rd (rx_int 2) ;;
          v <- rd (rx_variant ty) ;;
          r2 <- call (SSetProps h [(d, v)] false) ;;
          ret (a_code r2)) ;;
    if isok c then set_list_loop k (i + 1) else ret (c, i + 1)
  end.
Definition d_setObjectPropList (q : req) : M unit :=
  n <- rd (rx_int 4) ;;
  '(c, i) <- set_list_loop (N.to_nat n) 0 ;;
  if isok c then send_response R_OK else send_response1 c (sub32 i 1).
(** 2413-2525; scan: elements, last file name with its index; or failure at an index *)
Fixpoint scan_list (n : nat) (i category : N) (acc : list (N * N * variant)) (fname : option (N * list N))
    : M (list (N * N * variant) * option N * option (N * list N)) :=
  match n with
  | O => ret (rev acc, None, fname)
  | S k =>
    h <- rd (rx_int 4) ;;
    if negb (h =? 0) then ret (rev acc, Some i, fname) else
    p <- rd (rx_int 2) ;;
    if negb (isok (fst (prop_desc category p))) then ret (rev acc, Some i, fname) else
    ty <- rd (rx_int 2) ;;
    v <- rd (rx_variant ty) ;;
    scan_list k (i + 1) category ((p, ty, v) :: acc) (if p =? PROP_File_Name then Some (i, variant_str v) else fname)
  end.
Definition blank_info (storage size parent fmt : N) (name : list N) : objinfo :=
  mk_objinfo storage fmt 0 size 0 0 0 0 0 0 0 parent 0 0 0 name [] [] [].
Definition d_sendObjectPropList (q : req) : M unit :=
  pl <- get r_pl ;;
  match pl with
  | None => send_response R_GeneralError
  | Some p =>
    n <- rd (rx_int 4) ;;
    '(elems, bad, fname) <- scan_list (N.to_nat n) 0 (cat (pl_format p)) [] None ;;
    let p1 := mk_pl (pl_storage p) (pl_parent p) (pl_size p) (pl_format p) (pl_handle p) (pl_cur p) elems in
    upd (set_pl (Some p1)) ;;;
    match bad, fname with
    | Some i, _ => respond_with q R_Invalid_Dataset [0; 0; 0; i]
    | None, None => respond_with q R_Invalid_Dataset []
    | None, Some (i, []) => respond_with q R_Invalid_Dataset [0; 0; 0; i]
    | None, Some (i, name) =>
      r <- call (SAddItem (pl_storage p) (pl_parent p) (blank_info (pl_storage p) (pl_size p) (pl_parent p) (pl_format p) name)) ;;
      (* storage id, parent and handle are reference parameters *)
      upd (set_pl (Some (mk_pl (a_num r 0) (a_num r 1) (pl_size p) (pl_format p) (a_num r 2) (pl_cur p) elems))) ;;;
      if isok (a_code r) then respond_with q R_OK [a_num r 0; a_num r 1; a_num r 2]
      else respond_with q (a_code r) [0; 0; 0; i]
    end
  end.
(** 2527-2565 *)
Definition d_setDevicePropValue (q : req) : M unit :=
  let code := u16 (par q 0) in
  (if (code =? DEV_Friendly_Name) || (code =? DEV_Sync_Partner) then s <- rd rx_str ;; _ <- call (SDevSet code s) ;; ret tt
   else if code =? DEV_Volume then _ <- rd (rx_int 4) ;; ret tt else ret tt) ;;;
  send_response R_OK.
(** 2567-2606 *)
Definition d_setObjPropValue (q : req) : M unit :=
  r <- call (SGetInfo (par q 0)) ;;
  if negb (isok (a_code r)) then send_response (a_code r) else
  let (c2, d) := prop_desc (cat (oi_format (a_info r))) (u16 (par q 1)) in
  if negb (isok c2) then send_response c2 else
  d <- need d ;;
  v <- rd (rx_variant (opd_type d)) ;;
  r2 <- call (SSetProps (par q 0) [(d, v)] false) ;;
  (if a_code r2 =? R_ObjectProp_Not_Supported then _ <- call (SGetPath (par q 0)) ;; ret tt else ret tt) ;;;
  send_response (a_code r2).
(** 2608-2623 *)
Definition d_setObjReferences (q : req) : M unit :=
  l <- rd (rx_vec 4) ;; r <- call (SSetRefs (par q 0) l) ;; send_response (a_code r).

(** 638-748 *)
Definition pass_through (code : N) : bool := (code =? OP_SendObject) || (code =? OP_SendPartialObject64).
Definition data_handler (q : req) (data : bytes) (first last : bool) : M unit :=
  resp0 <- get r_resp ;;
  (if pass_through (q_code q) then upd (set_data None)
   else if first then r <- lift (rx_new data) ;; upd (set_data (Some r))
   else d <- get r_data ;;
        match d with Some r => r1 <- lift (rx_append r data) ;; upd (set_data (Some r1)) | None => ret tt end) ;;;
  if negb (pass_through (q_code q)) && negb last then ret tt else
  d <- get r_data ;;
  resp1 <- (match d with
            | Some r => if isok resp0 then
                t <- lift (rx_tid r) ;; c <- lift (rx_code r) ;;
                ret (if negb (t =? q_tid q) then R_InvalidTransID else if negb (c =? q_code q) then R_GeneralError else R_OK)
              else ret resp0
            | None => ret resp0
            end) ;;
  let finish c := upd (set_resp c) ;;; when last (send_response c) in
  if negb (isok resp1) then finish resp1
  else if q_code q =? OP_SendObjectInfo then d_sendObjectInfo q
  else if q_code q =? OP_SendObject then d_sendObject data first last
  else if q_code q =? OP_SendPartialObject64 then c <- d_sendPartial data first last ;; finish c
  else if q_code q =? OP_SetObjectPropList then d_setObjectPropList q
  else if q_code q =? OP_SendObjectPropList then d_sendObjectPropList q
  else if q_code q =? OP_SetDevicePropValue then d_setDevicePropValue q
  else if q_code q =? OP_SetObjectPropValue then d_setObjPropValue q
  else if q_code q =? OP_SetObjectReferences then d_setObjReferences q
  else finish R_OperationNotSupported.

(** ** Reception *)
(** 579-636 *)
Definition has_data_phase (code : N) : bool :=
  existsb (N.eqb code) [OP_SendObjectInfo; OP_SendObject; OP_SetObjectPropList; OP_SendObjectPropList;
                        OP_SetDevicePropValue; OP_SetObjectPropValue; OP_SetObjectReferences; OP_SendPartialObject64].
(** 3075-3091 *)
Definition needs_storage (code : N) : bool :=
  negb (existsb (N.eqb code) [OP_GetDeviceInfo; OP_OpenSession; OP_CloseSession; OP_GetStorageIDs; OP_GetStorageInfo;
                              OP_GetDevicePropDesc; OP_GetDevicePropValue; OP_SetDevicePropValue; OP_ResetDevicePropValue]).
(** 503-536: whose path is logged *)
Definition logged_handle (q : req) : N :=
  let c := q_code q in
  if existsb (N.eqb c) [OP_GetObjectInfo; OP_GetObject; OP_GetThumb; OP_DeleteObject; OP_GetPartialObject; OP_SetObjectProtection;
       OP_MoveObject; OP_CopyObject; OP_GetObjectPropValue; OP_SetObjectPropValue; OP_GetObjectPropList; OP_GetObjectReferences;
       OP_SetObjectReferences; OP_GetPartialObject64; OP_SendPartialObject64; OP_TruncateObject64; OP_BeginEditObject; OP_EndEditObject]
  then par q 0
  else if existsb (N.eqb c) [OP_SendObjectInfo; OP_SendObjectPropList] then par q 1
  else if existsb (N.eqb c) [OP_GetNumObjects; OP_GetObjectHandles] then par q 2
  else 0.
(** 490-577 *)
Definition command_handler (q : req) : M unit :=
  let h := logged_handle q in
  when (negb (h =? 0) && negb (h =? ALL)) (_ <- call (SGetPath h) ;; ret tt) ;;;
  upd (set_resp R_OK) ;;;
  r <- call SReady ;;
  if negb (a_bool r) && needs_storage (q_code q) then
    upd (set_st WAIT_STORAGE) ;;; upd (set_wait [] false)
  else match lookup_op (q_code q) op_table with
       | Some f => f q
       | None => send_response R_OperationNotSupported
       end.
Definition parse_req (data : bytes) : outcome req :=
  do r <- rx_new data; do c <- rx_code r; do t <- rx_tid r; do p <- rx_params r; Ret (mk_req c t p).
Definition phase_state (code : N) : rst := if has_data_phase code then WAIT_DATA else WAIT_RESP.
Definition reset_transport : M unit := _ <- ask AReset ;; ret tt.
(** 381-456 *)
Definition receive (data : bytes) (first last : bool) : M unit :=
  st <- get r_st ;;
  match st with
  | IDLE | TX_CANCEL | SUSPEND =>
    upd (set_st IDLE) ;;; upd (set_req None) ;;;
    if first && last then
      q <- lift (parse_req data) ;;
      upd (set_req (Some q)) ;;; upd (set_st (phase_state (q_code q))) ;;; command_handler q
    else reset_transport
  | WAIT_DATA =>
    rq <- get r_req ;;
    match rq with
    | None => upd (set_st IDLE) ;;; reset_transport
    | Some q => data_handler q data first last
    end
  | WAIT_STORAGE =>
    w <- get r_wait ;;
    if first && negb (len w =? 0) then upd (set_st IDLE) ;;; reset_transport
    else upd (set_wait (w ++ data) last)
  | WAIT_RESP => upd (set_st IDLE) ;;; reset_transport
  end.
(** 458-488 *)
Definition storage_ready : M unit :=
  st <- get r_st ;;
  if rst_eqb st WAIT_STORAGE then
    rq <- get r_req ;; q <- need rq ;;
    upd (set_st (phase_state (q_code q))) ;;;
    command_handler q ;;;
    w <- get r_wait ;; d <- get r_wait_done ;;
    when (negb (len w =? 0)) (receive w true d) ;;;
    upd (set_wait [] false)
  else ret tt.

(** ** Runs *)
Inductive input := IRecv (data : bytes) (first last : bool) | ISig (g : sig) | IReady.
Definition step (i : input) : M unit :=
  match i with
  | IRecv d f l => receive d f l
  | ISig g => handle_sig false g
  | IReady => storage_ready
  end.
Fixpoint run (l : list input) : M unit := match l with [] => ret tt | i :: r => step i ;;; run r end.
End R.
