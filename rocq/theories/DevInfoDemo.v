(** The configuration file installed with the program, mts/deviceinfo.xml:32-end, as the
    callbacks the reader makes; comments and the white space between elements are left out.
    [hex_text] reads hexadecimal digits with or without 0x, as toUShort/toUInt with base 16 do
    (signs and surrounding white space are not modelled). *)
From Verif Require Import Base DevInfo.

Definition digit (c : N) : option N :=
  if (48 <=? c) && (c <=? 57) then Some (c - 48)
  else if (65 <=? c) && (c <=? 70) then Some (c - 55)
  else if (97 <=? c) && (c <=? 102) then Some (c - 87)
  else None.
Fixpoint digits (acc : N) (t : text) : option N :=
  match t with
  | [] => Some acc
  | c :: t' => match digit c with Some d => digits (acc * 16 + d) t' | None => None end
  end.
Definition hex_text (limit : N) (t : text) : option N :=
  let body := match t with 0x30 :: 0x78 :: r => r | 48 :: 88 :: r => r | _ => t end in
  match body with
  | [] => None
  | _ => match digits 0 body with Some x => if x <? limit then Some x else None | None => None end
  end.
Definition h16 := hex_text 0x10000.
Definition h32 := hex_text 0x100000000.
Definition any_number (t : text) : bool := true.

Definition shipped_toks : list tok :=
  [TStart EDeviceInfo [];
   TStart EOther [];
   TStart ENumber [];
   TChars [49; 48; 48];
   TEnd;
   TStart ENumber [];
   TChars [48; 120; 48; 48; 48; 48; 48; 48; 48; 54];
   TEnd;
   TStart ENumber [];
   TChars [49; 48; 48];
   TEnd;
   TStart EExtn [];
   TChars [109; 105; 99; 114; 111; 115; 111; 102; 116; 46; 99; 111; 109; 58; 32; 49; 46; 48; 59; 32; 109; 105; 99; 114; 111; 115; 111; 102; 116; 46; 99; 111; 109; 47; 87; 77; 80; 80; 68; 58; 32; 49; 49; 46; 48; 59; 32; 97; 110; 100; 114; 111; 105; 100; 46; 99; 111; 109; 58; 32; 49; 46; 48; 59];
   TEnd;
   TStart ENumber [];
   TChars [48; 120; 56; 48; 48; 48];
   TEnd;
   TStart EManufacturer [];
   TChars [78; 101; 109; 111];
   TEnd;
   TStart EModel [];
   TChars [85; 110; 99; 111; 110; 102; 105; 103; 117; 114; 101; 100; 32; 68; 101; 118; 105; 99; 101];
   TEnd;
   TStart EVersion [];
   TChars [66; 117; 116; 101; 111; 32; 77; 84; 80; 32; 49; 46; 48];
   TEnd;
   TStart ESerial [];
   TChars [48; 48; 48; 48; 48; 48; 48; 48; 48; 48; 48; 48; 48; 48; 48; 48; 48; 48; 48; 48; 48; 48; 48; 48; 48; 48; 48; 48; 48; 48; 48; 49];
   TEnd;
   TStart EOther [];
   TStart EOpCode [];
   TChars [48; 120; 49; 48; 48; 49];
   TEnd;
   TStart EOpCode [];
   TChars [48; 120; 49; 48; 48; 50];
   TEnd;
   TStart EOpCode [];
   TChars [48; 120; 49; 48; 48; 51];
   TEnd;
   TStart EOpCode [];
   TChars [48; 120; 49; 48; 48; 52];
   TEnd;
   TStart EOpCode [];
   TChars [48; 120; 49; 48; 48; 53];
   TEnd;
   TStart EOpCode [];
   TChars [48; 120; 49; 48; 48; 54];
   TEnd;
   TStart EOpCode [];
   TChars [48; 120; 49; 48; 48; 55];
   TEnd;
   TStart EOpCode [];
   TChars [48; 120; 49; 48; 48; 56];
   TEnd;
   TStart EOpCode [];
   TChars [48; 120; 49; 48; 48; 57];
   TEnd;
   TStart EOpCode [];
   TChars [48; 120; 49; 48; 48; 65];
   TEnd;
   TStart EOpCode [];
   TChars [48; 120; 49; 48; 48; 66];
   TEnd;
   TStart EOpCode [];
   TChars [48; 120; 49; 48; 48; 67];
   TEnd;
   TStart EOpCode [];
   TChars [48; 120; 49; 48; 48; 68];
   TEnd;
   TStart EOpCode [];
   TChars [48; 120; 49; 48; 49; 52];
   TEnd;
   TStart EOpCode [];
   TChars [48; 120; 49; 48; 49; 53];
   TEnd;
   TStart EOpCode [];
   TChars [48; 120; 49; 48; 49; 54];
   TEnd;
   TStart EOpCode [];
   TChars [48; 120; 49; 48; 49; 57];
   TEnd;
   TStart EOpCode [];
   TChars [48; 120; 49; 48; 49; 65];
   TEnd;
   TStart EOpCode [];
   TChars [48; 120; 49; 48; 49; 66];
   TEnd;
   TStart EOpCode [];
   TChars [48; 120; 57; 56; 48; 49];
   TEnd;
   TStart EOpCode [];
   TChars [48; 120; 57; 56; 48; 50];
   TEnd;
   TStart EOpCode [];
   TChars [48; 120; 57; 56; 48; 51];
   TEnd;
   TStart EOpCode [];
   TChars [48; 120; 57; 56; 48; 52];
   TEnd;
   TStart EOpCode [];
   TChars [48; 120; 57; 56; 48; 53];
   TEnd;
   TStart EOpCode [];
   TChars [48; 120; 57; 56; 48; 54];
   TEnd;
   TStart EOpCode [];
   TChars [48; 120; 57; 56; 48; 56];
   TEnd;
   TStart EOpCode [];
   TChars [48; 120; 57; 56; 49; 48];
   TEnd;
   TStart EOpCode [];
   TChars [48; 120; 57; 56; 49; 49];
   TEnd;
   TStart EOpCode [];
   TChars [48; 120; 57; 53; 99; 49];
   TEnd;
   TStart EOpCode [];
   TChars [48; 120; 57; 53; 99; 50];
   TEnd;
   TStart EOpCode [];
   TChars [48; 120; 57; 53; 99; 51];
   TEnd;
   TStart EOpCode [];
   TChars [48; 120; 57; 53; 99; 52];
   TEnd;
   TStart EOpCode [];
   TChars [48; 120; 57; 53; 99; 53];
   TEnd;
   TEnd;
   TStart EOther [];
   TStart EEvCode [];
   TChars [48; 120; 52; 48; 48; 50];
   TEnd;
   TStart EEvCode [];
   TChars [48; 120; 52; 48; 48; 51];
   TEnd;
   TStart EEvCode [];
   TChars [48; 120; 52; 48; 48; 55];
   TEnd;
   TStart EEvCode [];
   TChars [48; 120; 67; 56; 48; 49];
   TEnd;
   TStart EEvCode [];
   TChars [48; 120; 52; 48; 48; 52];
   TEnd;
   TStart EEvCode [];
   TChars [48; 120; 52; 48; 48; 53];
   TEnd;
   TStart EEvCode [];
   TChars [48; 120; 52; 48; 48; 65];
   TEnd;
   TStart EEvCode [];
   TChars [48; 120; 52; 48; 48; 57];
   TEnd;
   TStart EEvCode [];
   TChars [48; 120; 52; 48; 48; 67];
   TEnd;
   TStart EEvCode [];
   TChars [48; 120; 52; 48; 48; 56];
   TEnd;
   TStart EEvCode [];
   TChars [48; 120; 52; 48; 48; 54];
   TEnd;
   TEnd;
   TStart EOther [];
   TStart EOther [];
   TStart EPropCode [];
   TChars [48; 120; 53; 48; 48; 49];
   TEnd;
   TEnd;
   TStart EOther [];
   TStart EPropCode [];
   TChars [48; 120; 68; 52; 48; 50];
   TEnd;
   TStart EPropValue [102; 114; 105; 101; 110; 100; 108; 121; 110; 97; 109; 101];
   TChars [70; 114; 105; 101; 110; 100; 108; 121];
   TEnd;
   TEnd;
   TStart EOther [];
   TStart EPropCode [];
   TChars [48; 120; 68; 52; 48; 49];
   TEnd;
   TStart EPropValue [115; 121; 110; 99; 112; 97; 114; 116; 110; 101; 114];
   TChars [70; 114; 105; 101; 110; 100; 108; 121];
   TEnd;
   TEnd;
   TStart EOther [];
   TStart EPropCode [];
   TChars [48; 120; 53; 48; 49; 70];
   TEnd;
   TStart EPropValue [];
   TChars [68; 111; 32; 78; 111; 116; 32; 67; 111; 112; 121];
   TEnd;
   TEnd;
   TStart EOther [];
   TStart EPropCode [];
   TChars [48; 88; 68; 52; 48; 55];
   TEnd;
   TStart EPropValue [];
   TChars [48; 120; 48; 48; 48; 48; 48; 48; 48; 51];
   TEnd;
   TEnd;
   TStart EOther [];
   TStart EPropCode [];
   TChars [48; 120; 68; 52; 48; 53];
   TEnd;
   TEnd;
   TEnd;
   TStart EOther [];
   TStart ECommon [];
   TChars [48; 120; 51; 48; 48; 48];
   TEnd;
   TStart ECommon [];
   TChars [48; 120; 51; 48; 48; 49];
   TEnd;
   TStart ECommon [];
   TChars [48; 120; 51; 48; 48; 52];
   TEnd;
   TStart ECommon [];
   TChars [48; 120; 51; 48; 48; 53];
   TEnd;
   TStart ECommon [];
   TChars [48; 120; 66; 65; 48; 51];
   TEnd;
   TStart ECommon [];
   TChars [48; 120; 66; 65; 48; 53];
   TEnd;
   TStart ECommon [];
   TChars [48; 120; 66; 66; 56; 50];
   TEnd;
   TStart ECommon [];
   TChars [48; 120; 66; 66; 56; 51];
   TEnd;
   TStart ECommon [];
   TChars [48; 120; 66; 69; 48; 50];
   TEnd;
   TStart EImage [];
   TChars [48; 120; 51; 56; 48; 48];
   TEnd;
   TStart EImage [];
   TChars [48; 120; 51; 56; 48; 49];
   TEnd;
   TStart EImage [];
   TChars [48; 120; 51; 56; 48; 55];
   TEnd;
   TStart EImage [];
   TChars [48; 120; 51; 56; 48; 66];
   TEnd;
   TStart EImage [];
   TChars [48; 120; 51; 56; 48; 68];
   TEnd;
   TStart EImage [];
   TChars [48; 120; 51; 56; 48; 52];
   TEnd;
   TStart EAudio [];
   TChars [48; 120; 51; 48; 48; 56];
   TEnd;
   TStart EAudio [];
   TChars [48; 120; 51; 48; 48; 57];
   TEnd;
   TStart EAudio [];
   TChars [48; 120; 66; 57; 48; 49];
   TEnd;
   TStart EAudio [];
   TChars [48; 120; 66; 57; 48; 50];
   TEnd;
   TStart EAudio [];
   TChars [48; 120; 66; 57; 48; 51];
   TEnd;
   TStart EVideo [];
   TChars [48; 120; 51; 48; 48; 65];
   TEnd;
   TStart EVideo [];
   TChars [48; 120; 51; 48; 48; 66];
   TEnd;
   TStart EVideo [];
   TChars [48; 120; 66; 57; 56; 52];
   TEnd;
   TStart EVideo [];
   TChars [48; 120; 66; 57; 56; 50];
   TEnd;
   TStart EVideo [];
   TChars [48; 120; 66; 57; 56; 49];
   TEnd;
   TEnd;
   TEnd;
   TStart EOther [];
   TStart ECodec [];
   TChars [48; 120; 48; 48; 48; 48; 48; 48; 48; 48];
   TEnd;
   TStart ECodec [];
   TChars [48; 120; 48; 48; 48; 48; 48; 48; 48; 49];
   TEnd;
   TStart ECodec [];
   TChars [48; 120; 48; 48; 48; 48; 48; 48; 48; 54];
   TEnd;
   TStart ECodec [];
   TChars [48; 120; 48; 48; 48; 48; 48; 48; 48; 55];
   TEnd;
   TStart ECodec [];
   TChars [48; 120; 48; 48; 48; 48; 48; 48; 53; 53];
   TEnd;
   TStart ECodec [];
   TChars [48; 120; 48; 48; 48; 48; 48; 49; 54; 48];
   TEnd;
   TStart ECodec [];
   TChars [48; 120; 48; 48; 48; 48; 48; 49; 54; 49];
   TEnd;
   TStart ECodec [];
   TChars [48; 120; 48; 48; 48; 48; 48; 49; 54; 50];
   TEnd;
   TStart ECodec [];
   TChars [48; 120; 48; 48; 48; 48; 52; 50; 48; 49];
   TEnd;
   TStart ECodec [];
   TChars [48; 120; 48; 48; 48; 48; 65; 49; 48; 54];
   TEnd;
   TStart ECodec [];
   TChars [48; 120; 48; 48; 48; 48; 48; 48; 50; 50];
   TEnd;
   TEnd;
   TStart EOther [];
   TStart ENumber [];
   TChars [48];
   TEnd;
   TStart ENumber [];
   TChars [53; 48; 48; 48];
   TEnd;
   TStart ENumber [];
   TChars [48];
   TEnd;
   TStart ENumber [];
   TChars [53; 48; 48; 48];
   TEnd;
   TEnd;
   TStart EOther [];
   TStart EVChannel [];
   TChars [48; 120; 48; 48; 48; 49];
   TEnd;
   TStart EVChannel [];
   TChars [48; 120; 48; 48; 48; 50];
   TEnd;
   TStart ENumber [];
   TChars [48];
   TEnd;
   TStart ENumber [];
   TChars [49; 48; 48; 48; 48; 48];
   TEnd;
   TStart ENumber [];
   TChars [48; 120; 48; 48; 48; 49];
   TEnd;
   TStart ENumber [];
   TChars [48; 120; 48; 48; 48; 48; 48; 48; 48; 48];
   TEnd;
   TStart ENumber [];
   TChars [48; 120; 48; 48; 48; 48; 48; 48; 48; 48];
   TEnd;
   TStart ENumber [];
   TChars [48; 120; 70; 70; 70; 70; 70; 70; 70; 70];
   TEnd;
   TStart ENumber [];
   TChars [48; 120; 48; 48; 48; 48; 48; 48; 48; 48];
   TEnd;
   TStart ENumber [];
   TChars [48; 120; 70; 70; 70; 70; 70; 70; 70; 70];
   TEnd;
   TStart ENumber [];
   TChars [48; 120; 48; 48; 48; 48; 48; 48; 48; 48];
   TEnd;
   TStart ENumber [];
   TChars [48; 120; 70; 70; 70; 70; 70; 70; 70; 70];
   TEnd;
   TStart ENumber [];
   TChars [48];
   TEnd;
   TStart ENumber [];
   TChars [49; 57; 50; 48];
   TEnd;
   TStart ENumber [];
   TChars [48];
   TEnd;
   TStart ENumber [];
   TChars [49; 48; 56; 48];
   TEnd;
   TEnd;
   TStart EOther [];
   TStart EAChannel [];
   TChars [48; 120; 48; 48; 48; 49];
   TEnd;
   TStart EAChannel [];
   TChars [48; 120; 48; 48; 48; 50];
   TEnd;
   TStart ENumber [];
   TChars [48; 120; 48; 48; 48; 48; 48; 48; 48; 48];
   TEnd;
   TStart ENumber [];
   TChars [48; 120; 48; 48; 48; 48; 48; 48; 48; 48];
   TEnd;
   TStart ENumber [];
   TChars [48; 120; 70; 70; 70; 70; 70; 70; 70; 70];
   TEnd;
   TEnd;
   TEnd].
Definition shipped : file := mk_file shipped_toks true.
