(** MTP containers: building (MTPTxContainer), parsing (MTPRxContainer) and
    128-bit identifiers (MtpInt128).  Only definitions, no proofs.

    Both classes are compiled with LITTLE_ENDIAN defined (glibc's <endian.h>
    always defines that macro), so the memcpy branches are the ones modelled. *)
From Verif Require Import Base.

(** ** Constants: mts/common/mtptypes.h *)
Definition MTP_HEADER_SIZE : N := 12.
Definition TYPE_COMMAND : N := 1.
Definition TYPE_DATA : N := 2.
Definition TYPE_RESPONSE : N := 3.
Definition TYPE_EVENT : N := 4.

(** Data type codes, mtptypes.h:560-585 (MTPDataType). *)
Definition DT_INT8 : N := 1.
Definition DT_UINT8 : N := 2.
Definition DT_INT16 : N := 3.
Definition DT_UINT16 : N := 4.
Definition DT_INT32 : N := 5.
Definition DT_UINT32 : N := 6.
Definition DT_INT64 : N := 7.
Definition DT_UINT64 : N := 8.
Definition DT_INT128 : N := 9.
Definition DT_UINT128 : N := 10.
Definition DT_AINT8 : N := 0x4001.
Definition DT_AUINT8 : N := 0x4002.
Definition DT_AINT16 : N := 0x4003.
Definition DT_AUINT16 : N := 0x4004.
Definition DT_AINT32 : N := 0x4005.
Definition DT_AUINT32 : N := 0x4006.
Definition DT_AINT64 : N := 0x4007.
Definition DT_AUINT64 : N := 0x4008.
Definition DT_AINT128 : N := 0x4009.
Definition DT_AUINT128 : N := 0x400A.
Definition DT_STR : N := 0xFFFF.

(** ** Values held in a QVariant
    Integers are bit patterns (two's complement for the signed types).
    [VVec t l] is a QVector whose element type is that of array type [t].
    [VInt128] is MtpInt128 as the number its 16 little endian bytes denote. *)
Inductive variant : Type :=
| VNull                     (* default constructed QVariant *)
| VInt (n : N)              (* any of quint8 .. quint64, qint8 .. qint64 *)
| VInt128 (n : N)
| VVec (t : N) (l : list N)
| VStr (s : list N).        (* QString: UTF-16 units *)

(** QVariant::value<quintK>(): numeric conversion truncates; other contents
    convert to 0 (simplification: string to number conversion, which no
    property of this code base uses, is not modelled). *)
Definition variant_int (v : variant) : N := match v with VInt n => n | _ => 0 end.
Definition variant_int128 (v : variant) : N := match v with VInt128 n => n | _ => 0 end.
(** QVariant::value<QVector<T>>(): empty when the held type differs. *)
Definition variant_vec (t : N) (v : variant) : list N :=
  match v with VVec t' l => if t' =? t then l else [] | _ => [] end.
(** QVariant::value<QString>() (number to string conversion not modelled). *)
Definition variant_str (v : variant) : list N := match v with VStr s => s | _ => [] end.

(** ** MTPTxContainer (mts/protocol/mtptxcontainer.cpp) *)

(** [tx_mem] is m_buffer[0 .. m_offset), [tx_cap] m_bufferCapacity. *)
Record txc := mk_txc {
  tx_mem : bytes;
  tx_cap : N;
  tx_compute : bool;   (* m_computeContainerLength *)
  tx_large : bool      (* m_extraLargeContainer *)
}.
Definition tx_off (t : txc) : N := len (tx_mem t).   (* m_offset *)

(** mtptxcontainer.cpp:35-52 constructor: header with length 0. *)
Definition tx_new (type code tid estimate : N) : outcome txc :=
  let cap := u32 (MTP_HEADER_SIZE + estimate) in
  if cap <? MTP_HEADER_SIZE then UB else
  Ret (mk_txc (le_enc 4 0 ++ le_enc 2 type ++ le_enc 2 code ++ le_enc 4 tid)
              cap true false).

(** mtptxcontainer.cpp:450-458 expandBuffer; EXPANSION_STEP_SIZE = 512
    (mtpcontainer.h:125).  realloc failure is not modelled. *)
Definition tx_expand (t : txc) (required : N) : txc :=
  mk_txc (tx_mem t) (u32 (tx_cap t + u32 (required + 512))) (tx_compute t) (tx_large t).

(** memcpy(m_buffer + m_offset, src, n); m_offset += n.  UB when it would write
    outside the allocation. *)
Definition tx_memcpy (t : txc) (bs : bytes) : outcome txc :=
  if tx_off t + len bs <=? tx_cap t
  then Ret (mk_txc (tx_mem t ++ bs) (tx_cap t) (tx_compute t) (tx_large t))
  else UB.

(** mtptxcontainer.cpp:378-405 serialize(source, elementSize, numberOfElements):
    [bs] are the source bytes; the byte count wraps at 32 bits. *)
Definition tx_serialize (t : txc) (bs : bytes) : outcome txc :=
  let n := u32 (len bs) in
  let t1 := if tx_cap t <? u32 (tx_off t + n)
            then tx_expand t (u32 (tx_off t + n)) else t in
  tx_memcpy t1 (take n bs).

Fixpoint tx_serialize_all (t : txc) (l : list bytes) : outcome txc :=
  match l with
  | [] => Ret t
  | b :: r => do t1 <- tx_serialize t b; tx_serialize_all t1 r
  end.

(** mtptxcontainer.cpp:86-198 operator<< for integers and vectors of [k]-byte
    integers (signed ones are cast to unsigned). *)
Definition tx_int (k : nat) (t : txc) (x : N) : outcome txc := tx_serialize t (le_enc k x).
Definition tx_vec (k : nat) (t : txc) (l : list N) : outcome txc :=
  do t1 <- tx_int 4 t (u32 (len l));
  tx_serialize t1 (flat_map (le_enc k) l).

(** mtptxcontainer.cpp:200-204 MtpInt128. *)
Definition tx_int128 (t : txc) (x : N) : outcome txc := tx_serialize t (le_enc 16 x).

(** mtptxcontainer.cpp:206-218 QVector<MtpInt128>: own growth rule. *)
Definition tx_vec128 (t : txc) (l : list N) : outcome txc :=
  let n := u32 (len l) in
  let req := u32 (4 + n * 16) in
  let t1 := if tx_cap t <? u32 (tx_off t + req) then tx_expand t req else t in
  do t2 <- tx_int 4 t1 n;
  tx_memcpy t2 (take (sub32 req 4) (flat_map (le_enc 16) l)).

(** mtptxcontainer.cpp:220-250 QString: the string is cut to 254 units, then
    scanned up to the first NUL unit (utf16() is NUL terminated). *)
Fixpoint until_nul (s : list N) : list N :=
  match s with
  | [] => []
  | c :: r => if c =? 0 then [] else c :: until_nul r
  end.
Definition tx_str (t : txc) (s : list N) : outcome txc :=
  let str := until_nul (take 254 s) in
  let n := len str in
  let chars := if 0 <? n then u8 (n + 1) else 0 in
  do t1 <- tx_serialize t [chars];
  if chars =? 0 then Ret t1
  else tx_serialize t1 (flat_map (le_enc 2) (str ++ [0])).

(** mtptxcontainer.cpp:289-376 serializeVariantByType. *)
Definition tx_variant (ty : N) (t : txc) (v : variant) : outcome txc :=
  if (ty =? DT_INT8) || (ty =? DT_UINT8) then tx_int 1 t (u8 (variant_int v))
  else if (ty =? DT_INT16) || (ty =? DT_UINT16) then tx_int 2 t (u16 (variant_int v))
  else if (ty =? DT_INT32) || (ty =? DT_UINT32) then tx_int 4 t (u32 (variant_int v))
  else if (ty =? DT_INT64) || (ty =? DT_UINT64) then tx_int 8 t (u64 (variant_int v))
  else if (ty =? DT_INT128) || (ty =? DT_UINT128) then tx_int128 t (variant_int128 v)
  else if ty =? DT_AINT8 then tx_vec 1 t (variant_vec DT_AINT8 v)
  else if ty =? DT_AUINT8 then tx_vec 1 t (variant_vec DT_AUINT8 v)
  else if ty =? DT_AINT16 then tx_vec 2 t (variant_vec DT_AINT16 v)
  else if ty =? DT_AUINT16 then tx_vec 2 t (variant_vec DT_AUINT16 v)
  else if ty =? DT_AINT32 then tx_vec 4 t (variant_vec DT_AINT32 v)
  else if ty =? DT_AUINT32 then tx_vec 4 t (variant_vec DT_AUINT32 v)
  else if ty =? DT_AINT64 then tx_vec 8 t (variant_vec DT_AINT64 v)
  else if ty =? DT_AUINT64 then tx_vec 8 t (variant_vec DT_AUINT64 v)
  else if (ty =? DT_AINT128) || (ty =? DT_AUINT128) then tx_vec128 t (variant_vec DT_AUINT128 v)
  else if ty =? DT_STR then tx_str t (variant_str v)
  else Ret t.

(** ** ObjectInfo dataset: mtptypes.h:852-872 *)
Record objinfo := mk_objinfo {
  oi_storage : N;        (* mtpStorageId              quint32 *)
  oi_format : N;         (* mtpObjectFormat           quint16 *)
  oi_protection : N;     (* mtpProtectionStatus       quint16 *)
  oi_size : N;           (* mtpObjectCompressedSize   quint64 *)
  oi_thumb_format : N;   (* mtpThumbFormat            quint16 *)
  oi_thumb_size : N;     (* mtpThumbCompressedSize    quint32 *)
  oi_thumb_w : N;        (* mtpThumbPixelWidth        quint32 *)
  oi_thumb_h : N;        (* mtpThumbPixelHeight       quint32 *)
  oi_image_w : N;        (* mtpImagePixelWidth        quint32 *)
  oi_image_h : N;        (* mtpImagePixelHeight       quint32 *)
  oi_depth : N;          (* mtpImageBitDepth          quint32 *)
  oi_parent : N;         (* mtpParentObject           quint32 *)
  oi_assoc_type : N;     (* mtpAssociationType        quint16 *)
  oi_assoc_desc : N;     (* mtpAssociationDescription quint32 *)
  oi_seq : N;            (* mtpSequenceNumber         quint32 *)
  oi_name : list N;      (* mtpFileName *)
  oi_capture : list N;   (* mtpCaptureDate *)
  oi_modified : list N;  (* mtpModificationDate *)
  oi_keywords : list N   (* mtpKeywords *)
}.

(** mtptxcontainer.cpp:275-287: the size is cast to 32 bits. *)
Definition tx_objinfo (t : txc) (o : objinfo) : outcome txc :=
  do t <- tx_int 4 t (oi_storage o);
  do t <- tx_int 2 t (oi_format o);
  do t <- tx_int 2 t (oi_protection o);
  do t <- tx_int 4 t (u32 (oi_size o));
  do t <- tx_int 2 t (oi_thumb_format o);
  do t <- tx_int 4 t (oi_thumb_size o);
  do t <- tx_int 4 t (oi_thumb_w o);
  do t <- tx_int 4 t (oi_thumb_h o);
  do t <- tx_int 4 t (oi_image_w o);
  do t <- tx_int 4 t (oi_image_h o);
  do t <- tx_int 4 t (oi_depth o);
  do t <- tx_int 4 t (oi_parent o);
  do t <- tx_int 2 t (oi_assoc_type o);
  do t <- tx_int 4 t (oi_assoc_desc o);
  do t <- tx_int 4 t (oi_seq o);
  do t <- tx_str t (oi_name o);
  do t <- tx_str t (oi_capture o);
  do t <- tx_str t (oi_modified o);
  tx_str t (oi_keywords o).

(** Form fields: mtptypes.h:681-700 and the form flags 605-625. *)
Inductive form : Type :=
| FNone
| FRange (mn mx step : variant)
| FEnum (total : N) (values : list variant)
| FDateTime
| FFixedArray (n : N)
| FRegex (s : list N)
| FByteArray (n : N)
| FLongString (n : N).
Definition form_flag (f : form) : N :=
  match f with
  | FNone => 0 | FRange _ _ _ => 1 | FEnum _ _ => 2 | FDateTime => 3
  | FFixedArray _ => 4 | FRegex _ => 5 | FByteArray _ => 6 | FLongString _ => 0xFF
  end.

Fixpoint tx_variants (ty : N) (t : txc) (l : list variant) : outcome txc :=
  match l with
  | [] => Ret t
  | v :: r => do t1 <- tx_variant ty t v; tx_variants ty t1 r
  end.

(** mtptxcontainer.cpp:407-448 serializeFormField. *)
Definition tx_form (ty : N) (t : txc) (f : form) : outcome txc :=
  match f with
  | FNone | FDateTime => Ret t
  | FRange a b c => tx_variants ty t [a; b; c]
  | FEnum n vs => do t1 <- tx_int 2 t n; tx_variants ty t1 vs
  | FFixedArray n => tx_int 2 t n
  | FRegex s => tx_str t s
  | FByteArray n | FLongString n => tx_int 4 t n
  end.

(** Property descriptions: mtptypes.h:800-828. *)
Record objpropdesc := mk_opd {
  opd_code : N; opd_type : N; opd_getset : bool; opd_default : variant;
  opd_group : N; opd_form : form
}.
Record devpropdesc := mk_dpd {
  dpd_code : N; dpd_type : N; dpd_getset : bool; dpd_default : variant;
  dpd_current : variant; dpd_form : form
}.
Definition bool_byte (b : bool) : N := if b then 1 else 0.

(** mtptxcontainer.cpp:264-273. *)
Definition tx_opd (t : txc) (d : objpropdesc) : outcome txc :=
  do t <- tx_int 2 t (opd_code d);
  do t <- tx_int 2 t (opd_type d);
  do t <- tx_int 1 t (bool_byte (opd_getset d));
  do t <- tx_variant (opd_type d) t (opd_default d);
  do t <- tx_int 4 t (opd_group d);
  do t <- tx_int 1 t (form_flag (opd_form d));
  tx_form (opd_type d) t (opd_form d).
(** mtptxcontainer.cpp:252-262. *)
Definition tx_dpd (t : txc) (d : devpropdesc) : outcome txc :=
  do t <- tx_int 2 t (dpd_code d);
  do t <- tx_int 2 t (dpd_type d);
  do t <- tx_int 1 t (bool_byte (dpd_getset d));
  do t <- tx_variant (dpd_type d) t (dpd_default d);
  do t <- tx_variant (dpd_type d) t (dpd_current d);
  do t <- tx_int 1 t (form_flag (dpd_form d));
  tx_form (dpd_type d) t (dpd_form d).

(** mtptxcontainer.cpp:62-66, mtpcontainer.cpp:114-117. *)
Definition tx_set_length (t : txc) (n : N) : txc :=
  mk_txc (le_enc 4 n ++ drop 4 (tx_mem t)) (tx_cap t) false (tx_large t).
Definition tx_set_large (t : txc) (b : bool) : txc :=
  mk_txc (tx_mem t) (tx_cap t) (tx_compute t) b.

(** mtptxcontainer.cpp:73-84 buffer(), together with bufferSize(): the bytes
    handed to the transport. *)
Definition tx_buffer (t : txc) : bytes :=
  if tx_compute t then
    le_enc 4 (if tx_large t then 0xFFFFFFFF else tx_off t) ++ drop 4 (tx_mem t)
  else tx_mem t.

(** ** MTPRxContainer (mts/protocol/mtprxcontainer.cpp) *)

(** [rx_buf] are the received bytes m_buffer[0 .. m_accumulatedLength);
    [rx_exp] = m_expectedLength = m_bufferCapacity = size of the allocation. *)
Record rxc := mk_rxc { rx_buf : bytes; rx_exp : N; rx_off : N }.

(** mtprxcontainer.cpp:37-51: allocates as many bytes as the header claims, then
    copies what was received. *)
Definition rx_new (data : bytes) : outcome rxc :=
  if len data <? 4 then UB else
  let claimed := le_dec (take 4 data) in
  if claimed <? len data then UB
  else Ret (mk_rxc data claimed MTP_HEADER_SIZE).

(** mtprxcontainer.cpp:61-72. *)
Definition rx_append (r : rxc) (data : bytes) : outcome rxc :=
  let acc := len (rx_buf r) in
  if u32 (acc + len data) <=? rx_exp r then
    if rx_exp r <? acc + len data then UB
    else Ret (mk_rxc (rx_buf r ++ data) (rx_exp r) (rx_off r))
  else Ret r.

(** mtpcontainer.cpp:64-82: header fields of a received container. *)
Definition rx_field (r : rxc) (off : N) (k : N) : outcome N :=
  if off + k <=? len (rx_buf r) then Ret (le_dec (take k (drop off (rx_buf r)))) else UB.
Definition rx_length (r : rxc) := rx_field r 0 4.
Definition rx_type (r : rxc) := rx_field r 4 2.
Definition rx_code (r : rxc) := rx_field r 6 2.
Definition rx_tid (r : rxc) := rx_field r 8 4.

(** mtprxcontainer.cpp:356-379 deserialize: [count] bytes (already reduced to 32
    bits) are copied from m_buffer + m_offset; UB when any of them was not
    received. *)
Definition rx_bytes (count : N) (r : rxc) : outcome (bytes * rxc) :=
  if rx_off r + count <=? len (rx_buf r) then
    Ret (take count (drop (rx_off r) (rx_buf r)),
         mk_rxc (rx_buf r) (rx_exp r) (u32 (rx_off r + count)))
  else UB.

(** mtprxcontainer.cpp:74-200 operator>> for integers of [k] bytes. *)
Definition rx_int (k : N) (r : rxc) : outcome (N * rxc) :=
  do (b, r1) <- rx_bytes k r; Ret (le_dec b, r1).

Fixpoint chunks (k : nat) (n : nat) (l : bytes) : list N :=
  match n with
  | O => []
  | S m => le_dec (firstn k l) :: chunks k m (skipn k l)
  end.

(** mtprxcontainer.cpp:87-214 vectors of [k]-byte integers (16 for MtpInt128):
    count, then QVector::resize(count) - Qt 5 aborts (std::bad_alloc) on blocks
    of 2^31 bytes or more and has undefined behaviour for negative sizes - then
    the elements. *)
Definition rx_vec (k : N) (r : rxc) : outcome (list N * rxc) :=
  do (n, r1) <- rx_int 4 r;
  if 2147483648 <=? n then UB
  else if 2147483648 <=? n * k then Abort
  else do (b, r2) <- rx_bytes (u32 (n * k)) r1;
       Ret (chunks (N.to_nat k) (N.to_nat n) b, r2).

(** QString::fromUtf16 (Qt, documented): a leading byte order mark is not part
    of the string; a reversed one switches to the other byte order. *)
Definition swap16 (c : N) : N := (c mod 256) * 256 + (c / 256) mod 256.
Definition from_utf16 (s : list N) : list N :=
  match s with
  | c :: r => if c =? 0xFEFF then r else if c =? 0xFFFE then map swap16 r else s
  | [] => []
  end.

(** mtprxcontainer.cpp:216-230: the last unit (terminator) is dropped unseen. *)
Definition rx_str (r : rxc) : outcome (list N * rxc) :=
  do (n, r1) <- rx_int 1 r;
  if 0 <? n then
    do (b, r2) <- rx_bytes (2 * n) r1;
    Ret (from_utf16 (take (n - 1) (chunks 2 (N.to_nat n) b)), r2)
  else Ret ([], r1).

(** mtprxcontainer.cpp:252-354; an unknown type leaves the variant null. *)
Definition rx_variant (ty : N) (r : rxc) : outcome (variant * rxc) :=
  if (ty =? DT_INT8) || (ty =? DT_UINT8) then do (x, r) <- rx_int 1 r; Ret (VInt x, r)
  else if (ty =? DT_INT16) || (ty =? DT_UINT16) then do (x, r) <- rx_int 2 r; Ret (VInt x, r)
  else if (ty =? DT_INT32) || (ty =? DT_UINT32) then do (x, r) <- rx_int 4 r; Ret (VInt x, r)
  else if (ty =? DT_INT64) || (ty =? DT_UINT64) then do (x, r) <- rx_int 8 r; Ret (VInt x, r)
  else if (ty =? DT_INT128) || (ty =? DT_UINT128) then do (x, r) <- rx_int 16 r; Ret (VInt128 x, r)
  else if ty =? DT_AINT8 then do (x, r) <- rx_vec 1 r; Ret (VVec DT_AINT8 x, r)
  else if ty =? DT_AUINT8 then do (x, r) <- rx_vec 1 r; Ret (VVec DT_AUINT8 x, r)
  else if ty =? DT_AINT16 then do (x, r) <- rx_vec 2 r; Ret (VVec DT_AINT16 x, r)
  else if ty =? DT_AUINT16 then do (x, r) <- rx_vec 2 r; Ret (VVec DT_AUINT16 x, r)
  else if ty =? DT_AINT32 then do (x, r) <- rx_vec 4 r; Ret (VVec DT_AINT32 x, r)
  else if ty =? DT_AUINT32 then do (x, r) <- rx_vec 4 r; Ret (VVec DT_AUINT32 x, r)
  else if ty =? DT_AINT64 then do (x, r) <- rx_vec 8 r; Ret (VVec DT_AINT64 x, r)
  else if ty =? DT_AUINT64 then do (x, r) <- rx_vec 8 r; Ret (VVec DT_AUINT64 x, r)
  else if (ty =? DT_AINT128) || (ty =? DT_AUINT128) then
    do (x, r) <- rx_vec 16 r; Ret (VVec DT_AUINT128 x, r)
  else if ty =? DT_STR then do (x, r) <- rx_str r; Ret (VStr x, r)
  else Ret (VNull, r).

(** mtprxcontainer.cpp:232-250. *)
Definition rx_objinfo (r : rxc) : outcome (objinfo * rxc) :=
  do (storage, r) <- rx_int 4 r;
  do (format, r) <- rx_int 2 r;
  do (prot, r) <- rx_int 2 r;
  do (size, r) <- rx_int 4 r;
  do (tf, r) <- rx_int 2 r;
  do (ts, r) <- rx_int 4 r;
  do (tw, r) <- rx_int 4 r;
  do (th, r) <- rx_int 4 r;
  do (iw, r) <- rx_int 4 r;
  do (ih, r) <- rx_int 4 r;
  do (depth, r) <- rx_int 4 r;
  do (parent, r) <- rx_int 4 r;
  do (at_, r) <- rx_int 2 r;
  do (ad, r) <- rx_int 4 r;
  do (seq, r) <- rx_int 4 r;
  do (name, r) <- rx_str r;
  do (cap, r) <- rx_str r;
  do (mod_, r) <- rx_str r;
  do (kw, r) <- rx_str r;
  Ret (mk_objinfo storage format prot size tf ts tw th iw ih depth parent at_ ad seq
                  name cap mod_ kw, r).

(** mtpcontainer.cpp:89-103 params(): the number of parameters comes from the
    claimed length; params[i] with i >= 5 writes outside the vector. *)
Fixpoint read_params (r : rxc) (off : N) (n : nat) : outcome (list N) :=
  match n with
  | O => Ret []
  | S m => do p <- rx_field r off 4; do ps <- read_params r (off + 4) m; Ret (p :: ps)
  end.
Definition pad5 (l : list N) : list N := firstn 5 (l ++ [0; 0; 0; 0; 0]).
Definition rx_params (r : rxc) : outcome (list N) :=
  do ty <- rx_type r;
  if ty =? TYPE_COMMAND then
    let n := sub32 (rx_exp r) MTP_HEADER_SIZE / 4 in
    if 5 <? n then UB
    else do ps <- read_params r MTP_HEADER_SIZE (N.to_nat n); Ret (pad5 ps)
  else Ret [0; 0; 0; 0; 0].

(** ** MtpInt128: mtptypes.h:702-782.  The 16 bytes of [val], least significant
    first. *)
Definition int128 := bytes.
(** 711-721 constructor from two quint64. *)
Definition i128_make (lower upper : N) : int128 := le_enc 8 lower ++ le_enc 8 upper.
(** 732-746 operator++ on the two 64-bit halves. *)
Definition i128_incr (v : int128) : int128 :=
  let lower := u64 (le_dec (take 8 v) + 1) in
  let upper := le_dec (drop 8 v) in
  le_enc 8 lower ++ le_enc 8 (if lower =? 0 then u64 (upper + 1) else upper).
(** 749-756 compare: difference of the most significant differing [char]s, as
    [int].  [sgn] = is plain char signed (x86: yes, ARM: no)? *)
Definition char_val (sgn : bool) (b : N) : Z :=
  if sgn && (128 <=? b) then (Z.of_N b - 256)%Z else Z.of_N b.
Fixpoint i128_cmp_from_top (sgn : bool) (a b : bytes) : Z :=
  match a, b with
  | x :: a', y :: b' =>
    let d := (char_val sgn x - char_val sgn y)%Z in
    if (d =? 0)%Z then i128_cmp_from_top sgn a' b' else d
  | _, _ => 0%Z
  end.
Definition i128_compare (sgn : bool) (a b : int128) : Z :=
  i128_cmp_from_top sgn (rev a) (rev b).
Definition i128_eqb (sgn : bool) (a b : int128) : bool := (i128_compare sgn a b =? 0)%Z.
Definition i128_gtb (sgn : bool) (a b : int128) : bool := (0 <? i128_compare sgn a b)%Z.
Definition i128_ltb (sgn : bool) (a b : int128) : bool := (i128_compare sgn a b <? 0)%Z.
