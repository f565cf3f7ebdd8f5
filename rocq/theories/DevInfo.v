(** Device information: mts/platform/deviceinfo/mtpdeviceinfo.cpp, xmlhandler.cpp and
    deviceinfoprovider.cpp.

    The configuration file is the sequence of callbacks QXmlSimpleReader makes
    (xmlhandler.cpp:57-155 startElement, 157-166 endElement, 168-376 characters), followed by a
    verdict whether the document was well formed.  Reading numbers (QString::toUShort/toUInt)
    is a parameter: any function giving a number or a failure. *)
From Verif Require Import Base.

Definition text := list N.

(** Elements.  The numeric limits (StdVersion, ImageMinWidth, ...: xmlhandler.cpp:189-341) are
    gathered as [ENumber]: they set one number each and are not part of the model's state. *)
Inductive el :=
| EDeviceInfo | EExtn | ENumber | EManufacturer | EModel | EVersion | ESerial
| EOpCode | EEvCode | EPropCode | EPropValue | ECodec | EVChannel | EAChannel
| ECommon | EImage | EAudio | EVideo
| EOther.                              (* any other element: state DEFAULT *)
Inductive tok :=
| TStart (e : el) (id : text)          (* id attribute, empty if absent *)
| TChars (t : text)
| TEnd.
Record file := mk_file { f_toks : list tok; f_wf : bool }.

(** mtpdeviceinfo.h members *)
Record info := mk_info {
  n_ops : list N; n_evs : list N; n_props : list N;
  n_codecs : list N; n_vch : list N; n_ach : list N;
  n_common : list N; n_image : list N; n_audio : list N; n_video : list N;
  n_friendly : text; n_partner : text; n_copy : text; n_type : N;
  n_manu : text; n_model : text; n_version : text; n_serial : text
}.

(** mtpdeviceinfo.cpp:46-66 the default texts, as UTF-16 units *)
Definition txt_friendly : text := [70; 114; 105; 101; 110; 100; 108; 121].        (* Friendly *)
Definition txt_nemo : text := [78; 101; 109; 111].                                (* Nemo *)
Definition txt_copy : text := [68; 111; 32; 78; 111; 116; 32; 67; 111; 112; 121]. (* Do Not Copy *)
Definition txt_serial : text := repeat 48 31 ++ [49].
(** mtpdeviceinfo.cpp:266-306 constructor *)
Definition info0 : info :=
  mk_info [] [] [] [] [] [] [] [] [] [] txt_friendly txt_nemo txt_copy 3 txt_nemo txt_nemo txt_nemo txt_serial.

(** mtpdeviceinfo.cpp:68-261 the built-in tables *)
Definition ops_table : list N :=
  [0x1001; 0x1002; 0x1003; 0x1004; 0x1005; 0x1006; 0x1007; 0x1008; 0x1009; 0x100B; 0x100C; 0x100D; 0x101A; 0x1019; 0x9806;
   0x9805; 0x9808; 0x101B; 0x1014; 0x1015; 0x1016; 0x9801; 0x9802; 0x9803; 0x9804; 0x9810; 0x9811; 0x95C1; 0x95C2; 0x95C3;
   0x95C4; 0x95C5].
Definition channel_table : list N := [1; 2].
Definition codec_table : list N := [0; 6; 7; 0x55; 0x160; 0x161; 0x162; 0x4201; 0xA106; 0x22].
Definition common_formats : list N :=
  [0x3000; 0x3001; 0x3004; 0x3005; 0xBA03; 0xBA05; 0xBB82; 0xBB83; 0xBE02; 0xBA13; 0xBB21; 0xBA09; 0xBB11; 0xBE01; 0xBA08;
   0xBB81; 0xBA06; 0xBA81; 0xBA02; 0xBA0B; 0xBB01; 0xBA07; 0xBA01; 0xBB61; 0xBB41; 0xBA04; 0xBA0A; 0x3006; 0x3003; 0xBA11;
   0xBA84; 0xBA12; 0xBA85; 0xBA86; 0xBA83; 0xBA14; 0x3002; 0xBB20; 0xBB10; 0xBE00; 0xBA00; 0xBB80; 0xBA80; 0xB802; 0xBB00;
   0xBB60; 0xBB40; 0xBE80; 0xBA10; 0xBA82; 0xBB42; 0xBE03; 0xBB22].
Definition image_formats : list N :=
  [0x3800; 0x3801; 0x3807; 0x380B; 0x380D; 0x3804; 0xB908; 0x3805; 0x3803; 0x3808; 0x380F; 0xB804; 0x3810; 0x3809; 0x380A;
   0x3802; 0x380E; 0xB803; 0xB881].
Definition audio_formats : list N :=
  [0x3009; 0xB901; 0x3008; 0xB903; 0xB985; 0x3007; 0xB904; 0xB906; 0xB983; 0xB907; 0xB215; 0xB900].
Definition video_formats : list N :=
  [0x300A; 0x300B; 0xB984; 0xB982; 0xB981; 0x300C; 0xB987; 0xB986; 0xB988; 0xB980].
Definition events_table : list N :=
  [0x4009; 0x4003; 0x4002; 0x4004; 0x4005; 0x400A; 0x400C; 0x4007; 0x4008; 0x4006; 0xC801].
Definition props_table : list N := [0xD401; 0xD402].

(** QChar::isSpace; QString::simplified is empty exactly if all characters are spaces *)
Definition is_space (c : N) : bool :=
  (c =? 0x20) || ((9 <=? c) && (c <=? 13)) || (c =? 0x85) || (c =? 0xA0) || (c =? 0x1680) ||
  ((0x2000 <=? c) && (c <=? 0x200A)) || (c =? 0x2028) || (c =? 0x2029) || (c =? 0x202F) || (c =? 0x205F) || (c =? 0x3000).
Definition blank (t : text) : bool := forallb is_space t.

Section Reading.
Variable hex16 hex32 : text -> option N.     (* toUShort(&ok, 16), toUInt(&ok, 16) *)
Variable number : text -> bool.              (* whether an [ENumber] text is a number *)

(** XMLHandler: m_state, m_devpropcode and the device info being filled *)
Record hst := mk_hst { h_el : el; h_code : N; h_info : info }.

Definition num (o : option N) : N := match o with Some x => x | None => 0 end.
Definition okay (o : option N) : bool := match o with Some _ => true | None => false end.

Definition add_op (i : info) x := mk_info (n_ops i ++ [x]) (n_evs i) (n_props i) (n_codecs i) (n_vch i) (n_ach i) (n_common i) (n_image i) (n_audio i) (n_video i) (n_friendly i) (n_partner i) (n_copy i) (n_type i) (n_manu i) (n_model i) (n_version i) (n_serial i).
Definition add_ev (i : info) x := mk_info (n_ops i) (n_evs i ++ [x]) (n_props i) (n_codecs i) (n_vch i) (n_ach i) (n_common i) (n_image i) (n_audio i) (n_video i) (n_friendly i) (n_partner i) (n_copy i) (n_type i) (n_manu i) (n_model i) (n_version i) (n_serial i).
Definition add_prop (i : info) x := mk_info (n_ops i) (n_evs i) (n_props i ++ [x]) (n_codecs i) (n_vch i) (n_ach i) (n_common i) (n_image i) (n_audio i) (n_video i) (n_friendly i) (n_partner i) (n_copy i) (n_type i) (n_manu i) (n_model i) (n_version i) (n_serial i).
Definition add_codec (i : info) x := mk_info (n_ops i) (n_evs i) (n_props i) (n_codecs i ++ [x]) (n_vch i) (n_ach i) (n_common i) (n_image i) (n_audio i) (n_video i) (n_friendly i) (n_partner i) (n_copy i) (n_type i) (n_manu i) (n_model i) (n_version i) (n_serial i).
Definition add_vch (i : info) x := mk_info (n_ops i) (n_evs i) (n_props i) (n_codecs i) (n_vch i ++ [x]) (n_ach i) (n_common i) (n_image i) (n_audio i) (n_video i) (n_friendly i) (n_partner i) (n_copy i) (n_type i) (n_manu i) (n_model i) (n_version i) (n_serial i).
Definition add_ach (i : info) x := mk_info (n_ops i) (n_evs i) (n_props i) (n_codecs i) (n_vch i) (n_ach i ++ [x]) (n_common i) (n_image i) (n_audio i) (n_video i) (n_friendly i) (n_partner i) (n_copy i) (n_type i) (n_manu i) (n_model i) (n_version i) (n_serial i).
Definition set_common (i : info) x := mk_info (n_ops i) (n_evs i) (n_props i) (n_codecs i) (n_vch i) (n_ach i) x (n_image i) (n_audio i) (n_video i) (n_friendly i) (n_partner i) (n_copy i) (n_type i) (n_manu i) (n_model i) (n_version i) (n_serial i).
Definition set_image (i : info) x := mk_info (n_ops i) (n_evs i) (n_props i) (n_codecs i) (n_vch i) (n_ach i) (n_common i) x (n_audio i) (n_video i) (n_friendly i) (n_partner i) (n_copy i) (n_type i) (n_manu i) (n_model i) (n_version i) (n_serial i).
Definition set_audio (i : info) x := mk_info (n_ops i) (n_evs i) (n_props i) (n_codecs i) (n_vch i) (n_ach i) (n_common i) (n_image i) x (n_video i) (n_friendly i) (n_partner i) (n_copy i) (n_type i) (n_manu i) (n_model i) (n_version i) (n_serial i).
Definition set_video (i : info) x := mk_info (n_ops i) (n_evs i) (n_props i) (n_codecs i) (n_vch i) (n_ach i) (n_common i) (n_image i) (n_audio i) x (n_friendly i) (n_partner i) (n_copy i) (n_type i) (n_manu i) (n_model i) (n_version i) (n_serial i).
Definition set_texts (i : info) fr pa co ty ma mo ve se := mk_info (n_ops i) (n_evs i) (n_props i) (n_codecs i) (n_vch i) (n_ach i) (n_common i) (n_image i) (n_audio i) (n_video i) fr pa co ty ma mo ve se.
Definition set_friendly (i : info) x := set_texts i x (n_partner i) (n_copy i) (n_type i) (n_manu i) (n_model i) (n_version i) (n_serial i).
Definition set_partner (i : info) x := set_texts i (n_friendly i) x (n_copy i) (n_type i) (n_manu i) (n_model i) (n_version i) (n_serial i).

(** xmlhandler.cpp:255-275 DEVPROPVAL *)
Definition prop_value (code : N) (t : text) (i : info) : info :=
  if code =? 0xD402 then set_friendly i t
  else if code =? 0xD401 then set_partner i t
  else if code =? 0x501F then set_texts i (n_friendly i) (n_partner i) t (n_type i) (n_manu i) (n_model i) (n_version i) (n_serial i)
  else if code =? 0xD407 then set_texts i (n_friendly i) (n_partner i) (n_copy i) (num (hex32 t)) (n_manu i) (n_model i) (n_version i) (n_serial i)
  else i.

(** xmlhandler.cpp:168-376 characters: new state and the result *)
Definition characters (t : text) (h : hst) : hst * bool :=
  if blank t then (h, true)
  else
    let i := h_info h in
    let up i' := mk_hst (h_el h) (h_code h) i' in
    match h_el h with
    | EOther => (h, false)
    | EDeviceInfo | EExtn => (h, true)
    | ENumber => (h, number t)
    | EManufacturer => (up (set_texts i (n_friendly i) (n_partner i) (n_copy i) (n_type i) t (n_model i) (n_version i) (n_serial i)), true)
    | EModel => (up (set_texts i (n_friendly i) (n_partner i) (n_copy i) (n_type i) (n_manu i) t (n_version i) (n_serial i)), true)
    | EVersion => (up (set_texts i (n_friendly i) (n_partner i) (n_copy i) (n_type i) (n_manu i) (n_model i) t (n_serial i)), true)
    | ESerial => (up (set_texts i (n_friendly i) (n_partner i) (n_copy i) (n_type i) (n_manu i) (n_model i) (n_version i) t), true)
    | EOpCode => (up (add_op i (num (hex16 t))), okay (hex16 t))
    | EEvCode => (up (add_ev i (num (hex16 t))), okay (hex16 t))
    | EPropCode => (mk_hst (h_el h) (num (hex16 t)) (add_prop i (num (hex16 t))), okay (hex16 t))
    | EPropValue => (up (prop_value (h_code h) t i), true)
    | ECodec => (up (add_codec i (num (hex32 t))), okay (hex32 t))
    | EVChannel => (up (add_vch i (num (hex16 t))), okay (hex16 t))
    | EAChannel => (up (add_ach i (num (hex16 t))), okay (hex16 t))
    | ECommon => (up (set_common i (n_common i ++ [num (hex16 t)])), okay (hex16 t))
    | EImage => (up (set_image i (n_image i ++ [num (hex16 t)])), okay (hex16 t))
    | EAudio => (up (set_audio i (n_audio i ++ [num (hex16 t)])), okay (hex16 t))
    | EVideo => (up (set_video i (n_video i ++ [num (hex16 t)])), okay (hex16 t))
    end.

(** one callback; false makes the reader stop *)
Definition callback (k : tok) (h : hst) : hst * bool :=
  match k with
  | TStart e _ => (mk_hst e (h_code h) (h_info h), true)
  | TChars t => characters t h
  | TEnd => (h, match h_el h with EOther => false | _ => true end)
  end.
Fixpoint parse (l : list tok) (h : hst) : hst * bool :=
  match l with
  | [] => (h, true)
  | k :: l' => match callback k h with
               | (h', true) => parse l' h'
               | (h', false) => (h', false)
               end
  end.

(** mtpdeviceinfo.cpp:357-377: what is not yet there is appended *)
Definition augment (base more : list N) : list N :=
  fold_left (fun acc x => if existsb (N.eqb x) acc then acc else acc ++ [x]) more base.

(** 336-355: defaults if the file could not be read completely; 357-377 augmentation *)
Definition finish (ok : bool) (i : info) : info :=
  mk_info (augment (n_ops i) ops_table)
    (if ok then n_evs i else n_evs i ++ events_table)
    (if ok then n_props i else n_props i ++ props_table)
    (if ok then n_codecs i else n_codecs i ++ codec_table)
    (if ok then n_vch i else n_vch i ++ channel_table)
    (if ok then n_ach i else n_ach i ++ channel_table)
    (augment (n_common i) common_formats) (augment (n_image i) image_formats)
    (augment (n_audio i) audio_formats) (augment (n_video i) video_formats)
    (n_friendly i) (n_partner i) (n_copy i) (n_type i) (n_manu i) (n_model i) (n_version i) (n_serial i).
(** the constructor *)
Definition startup (f : file) : info :=
  let (h, ok) := parse (f_toks f) (mk_hst EOther 0 info0) in finish (ok && f_wf f) (h_info h).
(** 379 m_supportedFormats *)
Definition formats_of (i : info) : list N := n_image i ++ n_audio i ++ n_video i ++ n_common i.
End Reading.

(** mtpdeviceinfo.cpp:553-579 modifyDeviceInfoXml on the callbacks of the file: the first
    DevPropValue element with this id gets the text, replacing its first child.  (An element
    with further children is not modelled; writing the file is assumed to succeed, and a text
    to be read back as it was written.) *)
Fixpoint text_eqb (a b : text) : bool :=
  match a, b with
  | [], [] => true
  | x :: a', y :: b' => (x =? y) && text_eqb a' b'
  | _, _ => false
  end.
Definition chars (v : text) : list tok := match v with [] => [] | _ => [TChars v] end.
Fixpoint set_value (id v : text) (l : list tok) : list tok :=
  match l with
  | [] => []
  | TStart EPropValue id' :: l' =>
    if text_eqb id id' then
      TStart EPropValue id' :: chars v ++ match l' with TChars _ :: r => r | _ => l' end
    else TStart EPropValue id' :: set_value id v l'
  | k :: l' => k :: set_value id v l'
  end.
(** 545-547: a file that is not well formed gives an empty document, nothing is found and
    nothing is written *)
Definition rewrite_file (id v : text) (f : file) : file :=
  if f_wf f then mk_file (set_value id v (f_toks f)) true else f.
Definition ID_friendly : text := [102; 114; 105; 101; 110; 100; 108; 121; 110; 97; 109; 101].   (* friendlyname *)
Definition ID_partner : text := [115; 121; 110; 99; 112; 97; 114; 116; 110; 101; 114].         (* syncpartner *)

(** The running program: what is reported and what is in the file.
    516-533 setSyncPartner, setDeviceFriendlyName *)
Inductive dact := DFriendly (v : text) | DPartner (v : text) | DRestart.
Record dst := mk_dst { d_info : info; d_file : file }.
Definition dstep hex16 hex32 number (s : dst) (a : dact) : dst :=
  match a with
  | DFriendly v => mk_dst (set_friendly (d_info s) v) (rewrite_file ID_friendly v (d_file s))
  | DPartner v => mk_dst (set_partner (d_info s) v) (rewrite_file ID_partner v (d_file s))
  | DRestart => mk_dst (startup hex16 hex32 number (d_file s)) (d_file s)
  end.

(** ** Battery: mtpdeviceinfo.cpp:617-623 setBatteryLevel, deviceinfoprovider.cpp:66-71.
    The announcements made, newest first. *)
Record bst := mk_bst { b_level : N; b_said : list N }.
(** mtpdeviceinfo.cpp:68,302 BATTERYLEVEL_DEFAULT *)
Definition battery0 : bst := mk_bst 0 [].
Definition battery (s : bst) (percent : Z) : bst :=
  if (percent <? 0)%Z then s
  else let l := Z.to_N (Z.min percent 255) in
       if b_level s =? l then s else mk_bst l (l :: b_said s).
