(** * Hex codes: spaces/rgb_truecolor.cpp:22-69 and utils/colors.h *)
From Coq Require Import ZArith QArith List Bool String Ascii.
From Verif Require Import Arith Outcome ColorModel.
Import ListNotations.
Local Open Scope Z_scope.

(** Value of a hexadecimal digit character, as the scanf conversion [%x] reads it. *)
Definition hex_digit (c : ascii) : option Z :=
  let n := Z.of_nat (nat_of_ascii c) in
  if (48 <=? n) && (n <=? 57) then Some (n - 48)
  else if (65 <=? n) && (n <=? 70) then Some (n - 55)
  else if (97 <=? n) && (n <=? 102) then Some (n - 87)
  else None.

Definition is_hash (c : ascii) : bool := Ascii.eqb c "#"%char.

(** Character class [#0-9A-Fa-f] of the regular expression, line 24. *)
Definition allowed_char (c : ascii) : bool :=
  is_hash c || match hex_digit c with Some _ => true | None => false end.

(** std::regex_match(hex_code, "^[#0-9A-Fa-f]+$"), lines 24-26. *)
Definition regex_ok (s : list ascii) : bool :=
  match s with [] => false | _ => forallb allowed_char s end.

(** One [%02x] conversion of sscanf on a string over the allowed characters (no
    white space, sign or 0x prefix can occur): at most two digits are consumed;
    no digit at all is a matching failure. *)
Definition scan_hex2 (s : list ascii) : option (Z * list ascii) :=
  match s with
  | [] => None
  | c1 :: s1 =>
      match hex_digit c1 with
      | None => None
      | Some d1 =>
          match s1 with
          | [] => Some (d1, [])
          | c2 :: s2 =>
              match hex_digit c2 with
              | None => Some (d1, s1)
              | Some d2 => Some (16 * d1 + d2, s2)
              end
          end
      end
  end.

(** sscanf_s with [n] conversions (lines 39, 49): the values that were assigned.
    After a matching failure the remaining variables stay uninitialised. *)
Fixpoint scan_many (n : nat) (s : list ascii) : list Z :=
  match n with
  | O => []
  | S m => match scan_hex2 s with
           | None => []
           | Some (v, s') => v :: scan_many m s'
           end
  end.

Section Hex.
Context {F : Type} {AF : Arith F}.

(** The tail of both constructors: alpha first, then the three channels. *)
Definition truecolor_fill (a r g b : Z) (sp : option nat) : outcome (color F) :=
  let c := with_type (color_base_ctor RGB_TRUE (fz 0) sp 3 (fz 255) (fz 0)) RGB_TRUE in
  let c := alpha_set c (fofZ a) in
  let! c := named_set RGB_TRUE c (fofZ r) 0 in
  let! c := named_set RGB_TRUE c (fofZ g) 1 in
  named_set RGB_TRUE c (fofZ b) 2.

(** spaces/rgb_truecolor.cpp:22-60.  Reading a variable sscanf_s did not assign is
    undefined behaviour.  These exceptions are thrown by value. *)
Definition rgb_truecolor_hex (hex_code : list ascii) (sp : option nat) : outcome (color F) :=
  if negb (regex_ok hex_code) then Throw (by_value invalid_argument)
  else
    let s := match hex_code with
             | c :: t => if is_hash c then t else hex_code
             | [] => hex_code
             end in
    if Nat.eqb (List.length s) 6 then
      match scan_many 3 s with
      | [r; g; b] => truecolor_fill 255 r g b sp
      | _ => Undef
      end
    else if Nat.eqb (List.length s) 8 then
      match scan_many 4 s with
      | [a; r; g; b] => truecolor_fill a r g b sp
      | _ => Undef
      end
    else Throw (by_value invalid_argument).

(** spaces/rgb_truecolor.cpp:62-69, with [int] 32 bits wide and arithmetic right shift. *)
Definition rgb_truecolor_int (h : Z) (sp : option nat) : outcome (color F) :=
  truecolor_fill (Z.land (Z.shiftr h 24) 255) (Z.land (Z.shiftr h 16) 255)
                 (Z.land (Z.shiftr h 8) 255) (Z.land h 255) sp.

(** Conversion of an (unsigned) enumerator value to a 32-bit int, modulo 2^32. *)
Definition to_int32 (v : Z) : Z :=
  let m := v mod 4294967296 in if m <? 2147483648 then m else m - 4294967296.

(** utils/colors.h:188 predefined_color(hex_code, ref_white): the colour of an
    enumerator of HexcodeColors. *)
Definition predefined_color (hex_code : Z) (sp : option nat) : outcome (color F) :=
  rgb_truecolor_int (to_int32 hex_code) sp.

End Hex.

(** utils/colors.h:29-171 enum HexcodeColors: the values of all enumerators, in order. *)
Definition hexcode_colors : list (string * Z) :=
  [("AliceBlue"%string, 4293982463);
   ("AntiqueWhite"%string, 4294634455);
   ("Aqua"%string, 4278255615);
   ("Aquamarine"%string, 4286578644);
   ("Azure"%string, 4293984255);
   ("Beige"%string, 4294309340);
   ("Bisque"%string, 4294960324);
   ("Black"%string, 4278190080);
   ("BlanchedAlmond"%string, 4294962125);
   ("Blue"%string, 4278190335);
   ("BlueViolet"%string, 4287245282);
   ("Brown"%string, 4289014314);
   ("BurlyWood"%string, 4292786311);
   ("CadetBlue"%string, 4284456608);
   ("Chartreuse"%string, 4286578432);
   ("Chocolate"%string, 4291979550);
   ("Coral"%string, 4294934352);
   ("CornflowerBlue"%string, 4284782061);
   ("Cornsilk"%string, 4294965468);
   ("Crimson"%string, 4292613180);
   ("Cyan"%string, 4278255615);
   ("DarkBlue"%string, 4278190219);
   ("DarkCyan"%string, 4278225803);
   ("DarkGoldenrod"%string, 4290283019);
   ("DarkGray"%string, 4289309097);
   ("DarkGreen"%string, 4278215680);
   ("DarkKhaki"%string, 4290623339);
   ("DarkMagenta"%string, 4287299723);
   ("DarkOliveGreen"%string, 4283788079);
   ("DarkOrange"%string, 4294937600);
   ("DarkOrchid"%string, 4288230092);
   ("DarkRed"%string, 4287299584);
   ("DarkSalmon"%string, 4293498490);
   ("DarkSeaGreen"%string, 4287609999);
   ("DarkSlateBlue"%string, 4282924427);
   ("DarkSlateGray"%string, 4281290575);
   ("DarkTurquoise"%string, 4278243025);
   ("DarkViolet"%string, 4287889619);
   ("DeepPink"%string, 4294907027);
   ("DeepSkyBlue"%string, 4278239231);
   ("DimGray"%string, 4285098345);
   ("DodgerBlue"%string, 4280193279);
   ("Firebrick"%string, 4289864226);
   ("FloralWhite"%string, 4294966000);
   ("ForestGreen"%string, 4280453922);
   ("Fuchsia"%string, 4294902015);
   ("Gainsboro"%string, 4292664540);
   ("GhostWhite"%string, 4294506751);
   ("Gold"%string, 4294956800);
   ("Goldenrod"%string, 4292519200);
   ("Gray"%string, 4286611584);
   ("Green"%string, 4278222848);
   ("GreenYellow"%string, 4289593135);
   ("Honeydew"%string, 4293984240);
   ("HotPink"%string, 4294928820);
   ("IndianRed"%string, 4291648604);
   ("Indigo"%string, 4283105410);
   ("Ivory"%string, 4294967280);
   ("Khaki"%string, 4293977740);
   ("Lavender"%string, 4293322490);
   ("LavenderBlush"%string, 4294963445);
   ("LawnGreen"%string, 4286381056);
   ("LemonChiffon"%string, 4294965965);
   ("LightBlue"%string, 4289583334);
   ("LightCoral"%string, 4293951616);
   ("LightCyan"%string, 4292935679);
   ("LightGoldenrodYellow"%string, 4294638290);
   ("LightGreen"%string, 4287688336);
   ("LightGray"%string, 4292072403);
   ("LightPink"%string, 4294948545);
   ("LightSalmon"%string, 4294942842);
   ("LightSeaGreen"%string, 4280332970);
   ("LightSkyBlue"%string, 4287090426);
   ("LightSlateGray"%string, 4286023833);
   ("LightSteelBlue"%string, 4289774814);
   ("LightYellow"%string, 4294967264);
   ("Lime"%string, 4278255360);
   ("LimeGreen"%string, 4281519410);
   ("Linen"%string, 4294635750);
   ("Magenta"%string, 4294902015);
   ("Maroon"%string, 4286578688);
   ("MediumAquamarine"%string, 4284927402);
   ("MediumBlue"%string, 4278190285);
   ("MediumOrchid"%string, 4290401747);
   ("MediumPurple"%string, 4287852763);
   ("MediumSeaGreen"%string, 4282168177);
   ("MediumSlateBlue"%string, 4286277870);
   ("MediumSpringGreen"%string, 4278254234);
   ("MediumTurquoise"%string, 4282962380);
   ("MediumVioletRed"%string, 4291237253);
   ("MidnightBlue"%string, 4279834992);
   ("MintCream"%string, 4294311930);
   ("MistyRose"%string, 4294960353);
   ("Moccasin"%string, 4294960309);
   ("NavajoWhite"%string, 4294958765);
   ("Navy"%string, 4278190208);
   ("OldLace"%string, 4294833638);
   ("Olive"%string, 4286611456);
   ("OliveDrab"%string, 4285238819);
   ("Orange"%string, 4294944000);
   ("OrangeRed"%string, 4294919424);
   ("Orchid"%string, 4292505814);
   ("PaleGoldenrod"%string, 4293847210);
   ("PaleGreen"%string, 4288215960);
   ("PaleTurquoise"%string, 4289720046);
   ("PaleVioletRed"%string, 4292571283);
   ("PapayaWhip"%string, 4294963157);
   ("PeachPuff"%string, 4294957753);
   ("Peru"%string, 4291659071);
   ("Pink"%string, 4294951115);
   ("Plum"%string, 4292714717);
   ("PowderBlue"%string, 4289781990);
   ("Purple"%string, 4286578816);
   ("Red"%string, 4294901760);
   ("RosyBrown"%string, 4290547599);
   ("RoyalBlue"%string, 4282477025);
   ("SaddleBrown"%string, 4287317267);
   ("Salmon"%string, 4294606962);
   ("SandyBrown"%string, 4294222944);
   ("SeaGreen"%string, 4281240407);
   ("SeaShell"%string, 4294964718);
   ("Sienna"%string, 4288696877);
   ("Silver"%string, 4290822336);
   ("SkyBlue"%string, 4287090411);
   ("SlateBlue"%string, 4285160141);
   ("SlateGray"%string, 4285563024);
   ("Snow"%string, 4294966010);
   ("SpringGreen"%string, 4278255487);
   ("SteelBlue"%string, 4282811060);
   ("Tan"%string, 4291998860);
   ("Teal"%string, 4278222976);
   ("Thistle"%string, 4292394968);
   ("Tomato"%string, 4294927175);
   ("Transparent"%string, 16777215);
   ("Turquoise"%string, 4282441936);
   ("Violet"%string, 4293821166);
   ("Wheat"%string, 4294303411);
   ("White"%string, 4294967295);
   ("WhiteSmoke"%string, 4294309365);
   ("Yellow"%string, 4294967040);
   ("YellowGreen"%string, 4288335154)].
