(** The MTP 1.1 wire format, written independently of the code: what bytes each
    kind of value must occupy in a dataset (MTP spec 3.2 "Simple types",
    "Arrays", "Strings"; 5.3.1 ObjectInfo; 5.3.2 property descriptions). *)
From Verif Require Import Base Wire.

(** n-byte little endian integer: the unique list of n bytes whose value is x. *)
Definition spec_int : forall (n : nat) (x : N), bytes := le_enc.

(** Array: 32-bit element count, then the elements. *)
Definition spec_array (n : nat) (l : list N) : bytes :=
  spec_int 4 (len l) ++ concat (map (spec_int n) l).

(** String: one byte count of UTF-16 units including the terminating 0; the
    empty string is the single byte 0. *)
Definition spec_string (s : list N) : bytes :=
  match s with
  | [] => [0]
  | _ => (len s + 1) :: concat (map (spec_int 2) s) ++ [0; 0]
  end.

(** Width in bytes of the elements of an integer or array type. *)
Definition width (ty : N) : nat :=
  match (ty mod 0x4000)%N with
  | 1%N | 2%N => 1 | 3%N | 4%N => 2 | 5%N | 6%N => 4 | 7%N | 8%N => 8
  | 9%N | 10%N => 16 | _ => 0
  end.

(** The integer/array/string values of each data type. [has_type ty v]: v is a
    value of MTP data type ty. *)
Inductive has_type : N -> variant -> Prop :=
| ht_int ty x : In ty [1;2;3;4;5;6;7;8] -> x < 256 ^ N.of_nat (width ty) -> has_type ty (VInt x)
| ht_int128 ty x : In ty [9;10] -> x < 256 ^ 16 -> has_type ty (VInt128 x)
| ht_vec ty l : In ty [0x4001;0x4002;0x4003;0x4004;0x4005;0x4006;0x4007;0x4008;0x400A] ->
    Forall (fun x => x < 256 ^ N.of_nat (width ty)) l -> has_type ty (VVec ty l)
| ht_vec128s l : Forall (fun x => x < 256 ^ 16) l -> has_type 0x4009 (VVec 0x400A l)
| ht_str s : Forall (fun c => 0 < c < 65536) s -> len s <= 254 ->
    (* not starting with a byte order mark *)
    (forall c r, s = c :: r -> c <> 0xFEFF /\ c <> 0xFFFE) -> has_type 0xFFFF (VStr s).

(** Bytes of a value. *)
Definition spec_value (ty : N) (v : variant) : bytes :=
  match v with
  | VInt x | VInt128 x => spec_int (width ty) x
  | VVec _ l => spec_array (width ty) l
  | VStr s => spec_string s
  | VNull => []
  end.

(** Container header: total length, type, code, transaction id. *)
Definition spec_header (length type code tid : N) : bytes :=
  spec_int 4 length ++ spec_int 2 type ++ spec_int 2 code ++ spec_int 4 tid.

(** ObjectInfo dataset (MTP 1.1 section 5.3.1). *)
Definition spec_objinfo (o : objinfo) : bytes :=
  spec_int 4 (oi_storage o) ++ spec_int 2 (oi_format o) ++ spec_int 2 (oi_protection o) ++
  spec_int 4 (oi_size o) ++ spec_int 2 (oi_thumb_format o) ++ spec_int 4 (oi_thumb_size o) ++
  spec_int 4 (oi_thumb_w o) ++ spec_int 4 (oi_thumb_h o) ++ spec_int 4 (oi_image_w o) ++
  spec_int 4 (oi_image_h o) ++ spec_int 4 (oi_depth o) ++ spec_int 4 (oi_parent o) ++
  spec_int 2 (oi_assoc_type o) ++ spec_int 4 (oi_assoc_desc o) ++ spec_int 4 (oi_seq o) ++
  spec_string (oi_name o) ++ spec_string (oi_capture o) ++ spec_string (oi_modified o) ++
  spec_string (oi_keywords o).

Definition str_ok (s : list N) : Prop := has_type 0xFFFF (VStr s).
Record objinfo_ok (o : objinfo) : Prop := {
  ok_storage : oi_storage o < 2^32;
  ok_format : oi_format o < 2^16;
  ok_prot : oi_protection o < 2^16;
  ok_size : oi_size o < 2^64;
  ok_tf : oi_thumb_format o < 2^16;
  ok_ts : oi_thumb_size o < 2^32;
  ok_tw : oi_thumb_w o < 2^32;
  ok_th : oi_thumb_h o < 2^32;
  ok_iw : oi_image_w o < 2^32;
  ok_ih : oi_image_h o < 2^32;
  ok_depth : oi_depth o < 2^32;
  ok_parent : oi_parent o < 2^32;
  ok_at : oi_assoc_type o < 2^16;
  ok_ad : oi_assoc_desc o < 2^32;
  ok_seq : oi_seq o < 2^32;
  ok_name : str_ok (oi_name o);
  ok_capture : str_ok (oi_capture o);
  ok_modified : str_ok (oi_modified o);
  ok_keywords : str_ok (oi_keywords o)
}.
(** The same object info with its size as the 32-bit wire field carries it. *)
Definition with_size (o : objinfo) (n : N) : objinfo :=
  mk_objinfo (oi_storage o) (oi_format o) (oi_protection o) n (oi_thumb_format o)
    (oi_thumb_size o) (oi_thumb_w o) (oi_thumb_h o) (oi_image_w o) (oi_image_h o)
    (oi_depth o) (oi_parent o) (oi_assoc_type o) (oi_assoc_desc o) (oi_seq o)
    (oi_name o) (oi_capture o) (oi_modified o) (oi_keywords o).

(** Property description datasets (MTP 1.1 sections 5.1.2.1 and 5.3.2.3). *)
Definition spec_form (ty : N) (f : form) : bytes :=
  match f with
  | FNone | FDateTime => []
  | FRange a b c => spec_value ty a ++ spec_value ty b ++ spec_value ty c
  | FEnum n vs => spec_int 2 n ++ concat (map (spec_value ty) vs)
  | FFixedArray n => spec_int 2 n
  | FRegex s => spec_string s
  | FByteArray n | FLongString n => spec_int 4 n
  end.
(** FormFlag values of the standard *)
Definition spec_flag (f : form) : N :=
  match f with
  | FNone => 0x00 | FRange _ _ _ => 0x01 | FEnum _ _ => 0x02 | FDateTime => 0x03
  | FFixedArray _ => 0x04 | FRegex _ => 0x05 | FByteArray _ => 0x06 | FLongString _ => 0xFF
  end.
Definition spec_opd (d : objpropdesc) : bytes :=
  spec_int 2 (opd_code d) ++ spec_int 2 (opd_type d) ++ spec_int 1 (bool_byte (opd_getset d)) ++
  spec_value (opd_type d) (opd_default d) ++ spec_int 4 (opd_group d) ++
  spec_int 1 (spec_flag (opd_form d)) ++ spec_form (opd_type d) (opd_form d).
Definition spec_dpd (d : devpropdesc) : bytes :=
  spec_int 2 (dpd_code d) ++ spec_int 2 (dpd_type d) ++ spec_int 1 (bool_byte (dpd_getset d)) ++
  spec_value (dpd_type d) (dpd_default d) ++ spec_value (dpd_type d) (dpd_current d) ++
  spec_int 1 (spec_flag (dpd_form d)) ++ spec_form (dpd_type d) (dpd_form d).
Definition form_ok (ty : N) (f : form) : Prop :=
  match f with
  | FNone | FDateTime => True
  | FRange a b c => has_type ty a /\ has_type ty b /\ has_type ty c
  | FEnum n vs => n = len vs /\ Forall (has_type ty) vs
  | FFixedArray n => n < 2^16
  | FRegex s => str_ok s
  | FByteArray n | FLongString n => n < 2^32
  end.

(** ** Items a container is filled with *)
Inductive item : Type :=
| IVal (ty : N) (v : variant)     (* any typed value: integer, array, string *)
| IObj (o : objinfo)
| IOpd (d : objpropdesc)
| IDpd (d : devpropdesc).
Definition item_ok (i : item) : Prop :=
  match i with
  | IVal ty v => has_type ty v
  | IObj o => objinfo_ok o /\ oi_size o < 2^32
  | IOpd d => has_type (opd_type d) (opd_default d) /\ form_ok (opd_type d) (opd_form d)
  | IDpd d => has_type (dpd_type d) (dpd_default d) /\ has_type (dpd_type d) (dpd_current d) /\
              form_ok (dpd_type d) (dpd_form d)
  end.
Definition spec_item (i : item) : bytes :=
  match i with
  | IVal ty v => spec_value ty v
  | IObj o => spec_objinfo o
  | IOpd d => spec_opd d
  | IDpd d => spec_dpd d
  end.
(** The responder's operator<< for each. *)
Definition tx_item (t : txc) (i : item) : outcome txc :=
  match i with
  | IVal ty v => tx_variant ty t v
  | IObj o => tx_objinfo t o
  | IOpd d => tx_opd t d
  | IDpd d => tx_dpd t d
  end.
Fixpoint tx_items (t : txc) (l : list item) : outcome txc :=
  match l with
  | [] => Ret t
  | i :: r => do t1 <- tx_item t i; tx_items t1 r
  end.

(** The responder fills a fresh container with [before], then [write], then
    [after]; the bytes are those the format prescribes ([enc] for [write]); a
    receiver of exactly those bytes that skips [before] gets [a] from [read], and
    its cursor is then just behind [enc]. *)
Definition survives {A} (write : txc -> outcome txc) (read : rxc -> outcome (A * rxc))
    (enc : bytes) (a : A) : Prop :=
  forall type code tid est before after t0,
  tx_new type code tid est = Ret t0 ->
  12 + len (concat before) + len enc + len (concat after) <= 2147483392 ->
  exists t r r1 r2,
    (do t1 <- tx_serialize_all t0 before; do t2 <- write t1; tx_serialize_all t2 after) = Ret t /\
    tx_buffer t = spec_header (12 + len (concat before ++ enc ++ concat after)) type code tid
                  ++ concat before ++ enc ++ concat after /\
    rx_new (tx_buffer t) = Ret r /\
    rx_bytes (len (concat before)) r = Ret (concat before, r1) /\
    read r1 = Ret (a, r2) /\ rx_off r2 = rx_off r1 + len enc.

(** Byte [i] of the little endian form of [x]. *)
Definition byte_of (x : N) (i : nat) : N := (x / 256 ^ N.of_nat i) mod 256.
