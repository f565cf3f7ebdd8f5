(** Model of the property descriptions, mts/protocol/propertypod.cpp. *)
From Coq Require Import NArith List Bool.
Import ListNotations.
From Verif Require Import Base AList Wire.
Open Scope N_scope.

(** MTPObjectFormatCategory, mts/common/mtptypes.h *)
Definition CAT_UNSUPPORTED := 1. Definition CAT_AUDIO := 2. Definition CAT_VIDEO := 3.
Definition CAT_IMAGE := 4. Definition CAT_COMMON := 5.
(** data types and form flags *)
Definition T_U8 := 0x0002. Definition T_U16 := 0x0004. Definition T_U32 := 0x0006.
Definition T_U64 := 0x0008. Definition T_U128 := 0x000A. Definition T_AU8 := 0x4002. Definition T_STR := 0xFFFF.
Inductive flag := NONE | RANGE | ENUM | DATE_TIME | BYTE_ARRAY.

(** The limits and lists of MtpDeviceInfo (mtpdeviceinfo.h:121-217,274) used here. *)
Record provider := mk_provider {
  pv_audio_channels : list N; pv_video_channels : list N; pv_codecs : list N;
  pv_audio_bitrate : N * N; pv_video_bitrate : N * N; pv_fps : N * N;
  pv_image_w : N * N; pv_image_h : N * N; pv_video_w : N * N; pv_video_h : N * N;
  pv_battery : N; pv_partner : list N; pv_friendly : list N; pv_icon : list N; pv_device_type : N }.

(** An entry of the static tables before the constructor fills in the form field. *)
Record raw := mk_raw { w_code : N; w_type : N; w_set : bool; w_default : variant; w_flag : flag }.
Definition zero := VInt 0.       (* QVariant(0) *)
Definition empty := VStr [].     (* QVariant(QString()) *)
(** propertypod.cpp:45-112 m_commonPropDesc *)
Definition common_table : list raw := [
  mk_raw 0xDC01 T_U32 false zero NONE;          (* StorageID *)
  mk_raw 0xDC02 T_U16 false zero NONE;          (* Obj_Format *)
  mk_raw 0xDC03 T_U16 false zero ENUM;          (* Protection_Status *)
  mk_raw 0xDC04 T_U64 false zero NONE;          (* Obj_Size *)
  mk_raw 0xDC07 T_STR true empty NONE;          (* Obj_File_Name *)
  mk_raw 0xDC08 T_STR false empty DATE_TIME;    (* Date_Created *)
  mk_raw 0xDC09 T_STR false empty DATE_TIME;    (* Date_Modified *)
  mk_raw 0xDC0B T_U32 false zero NONE;          (* Parent_Obj *)
  mk_raw 0xDC41 T_U128 false zero NONE;         (* Persistent_Unique_ObjId *)
  mk_raw 0xDC44 T_STR true empty NONE;          (* Name *)
  mk_raw 0xDC4F T_U8 false zero ENUM].          (* Non_Consumable *)
(** propertypod.cpp:114-151 m_imagePropDesc *)
Definition image_table : list raw := [
  mk_raw 0xDC87 T_U32 false zero RANGE;         (* Width *)
  mk_raw 0xDC88 T_U32 false zero RANGE;         (* Height *)
  mk_raw 0xDC81 T_U16 false zero ENUM;          (* Rep_Sample_Format *)
  mk_raw 0xDC84 T_U32 false zero RANGE;         (* Rep_Sample_Width *)
  mk_raw 0xDC83 T_U32 false zero RANGE;         (* Rep_Sample_Height *)
  mk_raw 0xDC86 T_AU8 false zero BYTE_ARRAY].   (* Rep_Sample_Data *)
(** propertypod.cpp:153-257 m_audioPropDesc (the parts under #if 0 are not compiled) *)
Definition audio_table : list raw := [
  mk_raw 0xDC46 T_STR true empty NONE;          (* Artist *)
  mk_raw 0xDC9A T_STR true empty NONE;          (* Album_Name *)
  mk_raw 0xDC8B T_U16 true zero NONE;           (* Track *)
  mk_raw 0xDC8C T_STR true zero NONE;           (* Genre *)
  mk_raw 0xDC91 T_U32 true zero NONE;           (* Use_Count *)
  mk_raw 0xDC89 T_U32 true zero NONE;           (* Duration *)
  mk_raw 0xDE92 T_U16 true zero ENUM;           (* Bitrate_Type *)
  mk_raw 0xDE93 T_U32 true zero ENUM;           (* Sample_Rate *)
  mk_raw 0xDE94 T_U16 true zero ENUM;           (* Nbr_Of_Channels *)
  mk_raw 0xDE99 T_U32 true zero ENUM;           (* Audio_WAVE_Codec *)
  mk_raw 0xDE9A T_U32 true zero RANGE;          (* Audio_BitRate *)
  mk_raw 0xDC9D T_U16 true zero ENUM].          (* DRM_Status *)
(** propertypod.cpp:259-409 m_videoPropDesc *)
Definition video_table : list raw := [
  mk_raw 0xDE93 T_U32 true zero ENUM;           (* Sample_Rate *)
  mk_raw 0xDE9B T_U32 true zero ENUM;           (* Video_FourCC_Codec *)
  mk_raw 0xDE9C T_U32 true zero RANGE;          (* Video_BitRate *)
  mk_raw 0xDE9D T_U32 true zero RANGE;          (* Frames_Per_Thousand_Secs *)
  mk_raw 0xDC8C T_STR true zero NONE;           (* Genre *)
  mk_raw 0xDE94 T_U16 true zero ENUM;           (* Nbr_Of_Channels *)
  mk_raw 0xDE99 T_U32 true zero ENUM;           (* Audio_WAVE_Codec *)
  mk_raw 0xDE9A T_U32 true zero RANGE;          (* Audio_BitRate *)
  mk_raw 0xDC87 T_U32 true zero RANGE;          (* Width *)
  mk_raw 0xDC88 T_U32 true zero RANGE;          (* Height *)
  mk_raw 0xDC46 T_STR true empty NONE;          (* Artist *)
  mk_raw 0xDC9A T_STR true empty NONE;          (* Album_Name *)
  mk_raw 0xDC91 T_U32 true zero NONE;           (* Use_Count *)
  mk_raw 0xDC89 T_U32 true zero NONE;           (* Duration *)
  mk_raw 0xDC8B T_U16 true zero NONE;           (* Track *)
  mk_raw 0xDC9D T_U16 true zero ENUM].          (* DRM_Status *)

Section Pod.
Variable pv : provider.

(** populateEnumDesc, propertypod.cpp:637-749: the values of an enumeration (for codes
    without a case the form field stays invalid and converts to an empty enumeration;
    no such code is in the tables) *)
Definition enum_values (category code : N) : list N :=
  if code =? 0xDC9D then [0; 1]
  else if code =? 0xDC03 then [0; 1; 0x8002; 0x8003]
  else if code =? 0xDC4F then [0; 1]
  else if code =? 0xDC81 then [0x3808; 0x380B]
  else if code =? 0xDE92 then [0; 1; 2; 3]
  else if code =? 0xDE93 then [8000; 11025; 22050; 44000; 44100; 48000]
  else if code =? 0xDE94 then (if category =? CAT_AUDIO then pv_audio_channels pv else if category =? CAT_VIDEO then pv_video_channels pv else [])
  else if code =? 0xDE99 then pv_codecs pv
  else if code =? 0xDE9B then [0x44495643; 0x454C524D; 0x3153534D; 0x31564D57; 0x33564D57; 0x34363248]
  else [].
(** isTechObjProp, propertypod.cpp:805-828, restricted to codes populateTechObjPropDesc
    (751-803) has a case for; the video table is filled with category AUDIO (535) *)
Definition tech_range (category code : N) : option (N * N) :=
  if code =? 0xDE9A then Some (pv_audio_bitrate pv)
  else if code =? 0xDE9C then Some (pv_video_bitrate pv)
  else if code =? 0xDE9D then Some (pv_fps pv)
  else if (code =? 0xDC87) || (code =? 0xDC84) then Some (if category =? CAT_IMAGE then pv_image_w pv else pv_video_w pv)
  else if (code =? 0xDC88) || (code =? 0xDC83) then Some (if category =? CAT_IMAGE then pv_image_h pv else pv_video_h pv)
  else None.
(** the form field the constructor leaves (509-538); an unset field converts to zeros *)
Definition form_of (enum_cat tech_cat : N) (w : raw) : form :=
  match w_flag w with
  | NONE => FNone | DATE_TIME => FDateTime | BYTE_ARRAY => FByteArray 0
  | ENUM => let l := enum_values enum_cat (w_code w) in FEnum (len l) (map VInt l)
  | RANGE => match tech_range tech_cat (w_code w) with
             | Some (a, b) => FRange (VInt a) (VInt b) (VInt 1)
             | None => FRange VNull VNull VNull end
  end.
(** The default value as it is sent: QVariant conversion to the property's type (the
    integer 0 as a string is the string 0, as a 128 bit number or array it is empty) *)
Definition typed (ty : N) (v : variant) : variant :=
  if ty =? T_STR then (match v with VInt 0 => VStr [48] | VNull => VStr [] | _ => v end)
  else if ty =? T_U128 then (match v with VInt128 _ => v | _ => VInt128 0 end)
  else if ty =? T_AU8 then (match v with VVec _ _ => v | _ => VVec T_AU8 [] end)
  else match v with VNull => VInt 0 | _ => v end.
Definition describe (enum_cat tech_cat : N) (w : raw) : objpropdesc :=
  mk_opd (w_code w) (w_type w) (w_set w) (typed (w_type w) (w_default w)) 0 (form_of enum_cat tech_cat w).

(** QMap insertion in key order, replacing an equal key *)
Fixpoint qinsert {V : Type} (k : N) (v : V) (l : list (N * V)) : list (N * V) :=
  match l with
  | [] => [(k, v)]
  | (k', v') :: r => if k =? k' then (k, v) :: r else if k <? k' then (k, v) :: l else (k', v') :: qinsert k v r
  end.
Definition qmap {V : Type} (f : raw -> V) (t : list raw) : list (N * V) :=
  fold_left (fun m w => qinsert (w_code w) (f w) m) t [].
Definition common_map := qmap (describe CAT_COMMON 0) common_table.
Definition image_map := qmap (describe CAT_IMAGE CAT_IMAGE) image_table.
Definition audio_map := qmap (describe CAT_AUDIO CAT_AUDIO) audio_table.
Definition video_map := qmap (describe CAT_VIDEO CAT_AUDIO) video_table.

(** getObjectPropsSupportedByType, propertypod.cpp:545-575 *)
Definition pod_props (category : N) : N * list N :=
  if (category =? CAT_COMMON) || (category =? CAT_UNSUPPORTED) then (0x2001, akeys common_map)
  else if category =? CAT_IMAGE then (0x2001, akeys common_map ++ akeys image_map)
  else if category =? CAT_AUDIO then (0x2001, akeys common_map ++ akeys audio_map)
  else if category =? CAT_VIDEO then (0x2001, akeys common_map ++ akeys video_map)
  else (0xA802, []).
(** getObjectPropDesc, propertypod.cpp:612-635 *)
Definition pod_desc (category code : N) : N * option objpropdesc :=
  match aget code common_map with
  | Some d => (0x2001, Some d)
  | None =>
    let d := if category =? CAT_IMAGE then aget code image_map
             else if category =? CAT_AUDIO then aget code audio_map
             else if category =? CAT_VIDEO then aget code video_map else None in
    (match d with Some _ => 0x2001 | None => 0xA801 end, d)
  end.

(** m_devicePropDesc, propertypod.cpp:414-450, with the constructor's additions (539-570:
    the defaults are the provider's values when the pod was built, [pv]), and
    getDevicePropDesc (585-634): the current values are those of the provider [now].
    Codes outside the table belong to extensions or are refused; extensions are not
    modelled. *)
Definition dev_desc (now : provider) (code : N) : N * option devpropdesc :=
  if code =? 0x5001 then (0x2001, Some (mk_dpd 0x5001 T_U8 false (typed T_U8 VNull) (VInt (pv_battery now)) (FRange (VInt 0) (VInt 100) (VInt 10))))
  else if code =? 0xD401 then (0x2001, Some (mk_dpd 0xD401 T_STR true (VStr (pv_partner pv)) (VStr (pv_partner now)) FNone))
  else if code =? 0xD402 then (0x2001, Some (mk_dpd 0xD402 T_STR true (VStr (pv_friendly pv)) (VStr (pv_friendly now)) FNone))
  else if code =? 0xD405 then (0x2001, Some (mk_dpd 0xD405 T_AU8 false (typed T_AU8 VNull) (VVec T_AU8 (pv_icon now)) FNone))
  else if code =? 0xD407 then (0x2001, Some (mk_dpd 0xD407 T_U32 false (VInt (pv_device_type pv)) (VInt (pv_device_type now)) FNone))
  else (0x200A, None).
End Pod.

(** the shipped mts/deviceinfo.xml, lines 98-120: device properties advertised *)
Definition shipped_dev_props : list N := [0x5001; 0xD402; 0xD401; 0x501F; 0xD407; 0xD405].
(** and lines 123-153: formats *)
Definition shipped_common : list N := [0x3000; 0x3001; 0x3004; 0x3005; 0xBA03; 0xBA05; 0xBB82; 0xBB83; 0xBE02].
Definition shipped_image : list N := [0x3800; 0x3801; 0x3807; 0x380B; 0x380D; 0x3804].
Definition shipped_audio : list N := [0x3008; 0x3009; 0xB901; 0xB902; 0xB903].
Definition shipped_video : list N := [0x300A; 0x300B; 0xB984; 0xB982; 0xB981].
(** MtpDeviceInfo::getFormatCodeCategory, mtpdeviceinfo.cpp:647-665 *)
Definition format_category (common audio video image : list N) (f : N) : N :=
  let has l := existsb (N.eqb f) l in
  if has common then CAT_COMMON else if has audio then CAT_AUDIO else if has video then CAT_VIDEO
  else if has image then CAT_IMAGE else CAT_COMMON.
