(** The format a file gets from its name: fsstorageplugin.cpp:1742-1757
    getObjectFormatByExtension and the table filled in 676-750. *)
From Verif Require Import Base DevInfo.

(** fsstorageplugin.cpp:677-750: extension (as character codes), format *)
Definition ext_table : list (text * N) :=
  [
   ([112; 108; 97], 0xBA05);
   ([119; 97; 118], 0x3008);
   ([109; 112; 51], 0x3009);
   ([111; 103; 103], 0xB902);
   ([116; 120; 116], 0x3004);
   ([104; 116; 109], 0x3005);
   ([104; 116; 109; 108], 0x3005);
   ([119; 109; 118], 0xB981);
   ([97; 118; 105], 0x300A);
   ([109; 112; 103], 0x300B);
   ([109; 112; 101; 103], 0x300B);
   ([98; 109; 112], 0x3804);
   ([103; 105; 102], 0x3807);
   ([106; 112; 103], 0x3801);
   ([106; 112; 101; 103], 0x3801);
   ([112; 110; 103], 0x380B);
   ([116; 105; 102], 0x380D);
   ([116; 105; 102; 102], 0x380D);
   ([119; 109; 97], 0xB901);
   ([97; 97; 99], 0xB903);
   ([109; 112; 52], 0xB982);
   ([51; 103; 112], 0xB984);
   ([112; 108; 115], 0xBA14);
   ([97; 108; 98], 0xBA03);
   ([112; 98; 109], 0x3800);
   ([112; 99; 120], 0x3800);
   ([112; 103; 109], 0x3800);
   ([112; 112; 109], 0x3800);
   ([120; 112; 109], 0x3800);
   ([120; 119; 100], 0x3800);
   ([51; 103; 50], 0xB985);
   ([97; 105; 102; 102], 0x3007);
   ([97; 105; 102], 0x3007);
   ([109; 112; 50], 0xB983);
   ([102; 108; 97; 99], 0xB906);
   ([109; 114; 107], 0x3006);
   ([119; 112; 108], 0xBA10);
   ([109; 51; 117], 0xBA11);
   ([109; 51; 117; 56], 0xBA11);
   ([109; 112; 108], 0xBA12);
   ([109; 112; 108; 115], 0xBA12);
   ([97; 115; 120], 0xBA13);
   ([120; 109; 108], 0xBA82);
   ([109; 104; 116], 0xBA84);
   ([109; 104; 116; 109; 108], 0xBA84);
   ([97; 115; 102], 0x300C);
   ([109; 116; 115], 0xB986);
   ([109; 50; 116; 115], 0xB986);
   ([116; 115], 0xB988);
   ([106; 112; 50], 0x380F);
   ([106; 112; 103; 50], 0x380F);
   ([106; 112; 120], 0x3810);
   ([119; 98; 109; 112], 0xB803);
   ([102; 112; 120], 0x3803);
   ([100; 105; 98], 0x3804);
   ([99; 114; 119], 0x3805);
   ([106; 102; 105; 102], 0x3808);
   ([106; 102; 105], 0x3808);
   ([112; 99; 100], 0x3809);
   ([112; 105; 99; 116], 0x380A);
   ([112; 99; 116], 0x380A);
   ([112; 105; 99], 0x380A);
   ([106; 120; 114], 0xB804);
   ([104; 100; 112], 0xB804);
   ([119; 100; 112], 0xB804);
   ([109; 52; 97], 0xB215);
   ([97; 97], 0xB904);
   ([97; 97; 120], 0xB904);
   ([113; 99; 112], 0xB907);
   ([97; 109; 114], 0xB908)
  ].

(** QString::section('.', -1): what follows the last dot, everything if there is none *)
Fixpoint last_part (acc p : text) : text :=
  match p with
  | [] => acc
  | c :: p' => if c =? 46 then last_part p' p' else last_part acc p'
  end.
Definition section_dot (p : text) : text := last_part p p.

(** QHash::contains and operator[] *)
Fixpoint lookup (k : text) (l : list (text * N)) : option N :=
  match l with
  | [] => None
  | (k', v) :: l' => if text_eqb k k' then Some v else lookup k l'
  end.

(** getObjectFormatByExtension; [lower] is QString::toLower, one character at a time *)
Definition format_by_extension (lower : N -> N) (is_dir : bool) (path : text) : N :=
  if is_dir then 0x3001
  else match lookup (map lower (section_dot path)) ext_table with
       | Some f => f
       | None => 0x3000
       end.
