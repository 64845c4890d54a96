(** * The named colours of CSS Color Module Level 3 and 4 (vocabulary of the claim C201) *)
From Coq Require Import ZArith List String.
Import ListNotations.
Local Open Scope Z_scope.

(** Name, red, green and blue of the 140 named colours, in one spelling each (grey and gray are the same colours). *)
Definition css_colors : list (string * (Z * Z * Z)) :=
  [("AliceBlue"%string, (240, 248, 255));
   ("AntiqueWhite"%string, (250, 235, 215));
   ("Aqua"%string, (0, 255, 255));
   ("Aquamarine"%string, (127, 255, 212));
   ("Azure"%string, (240, 255, 255));
   ("Beige"%string, (245, 245, 220));
   ("Bisque"%string, (255, 228, 196));
   ("Black"%string, (0, 0, 0));
   ("BlanchedAlmond"%string, (255, 235, 205));
   ("Blue"%string, (0, 0, 255));
   ("BlueViolet"%string, (138, 43, 226));
   ("Brown"%string, (165, 42, 42));
   ("BurlyWood"%string, (222, 184, 135));
   ("CadetBlue"%string, (95, 158, 160));
   ("Chartreuse"%string, (127, 255, 0));
   ("Chocolate"%string, (210, 105, 30));
   ("Coral"%string, (255, 127, 80));
   ("CornflowerBlue"%string, (100, 149, 237));
   ("Cornsilk"%string, (255, 248, 220));
   ("Crimson"%string, (220, 20, 60));
   ("Cyan"%string, (0, 255, 255));
   ("DarkBlue"%string, (0, 0, 139));
   ("DarkCyan"%string, (0, 139, 139));
   ("DarkGoldenrod"%string, (184, 134, 11));
   ("DarkGray"%string, (169, 169, 169));
   ("DarkGreen"%string, (0, 100, 0));
   ("DarkKhaki"%string, (189, 183, 107));
   ("DarkMagenta"%string, (139, 0, 139));
   ("DarkOliveGreen"%string, (85, 107, 47));
   ("DarkOrange"%string, (255, 140, 0));
   ("DarkOrchid"%string, (153, 50, 204));
   ("DarkRed"%string, (139, 0, 0));
   ("DarkSalmon"%string, (233, 150, 122));
   ("DarkSeaGreen"%string, (143, 188, 143));
   ("DarkSlateBlue"%string, (72, 61, 139));
   ("DarkSlateGray"%string, (47, 79, 79));
   ("DarkTurquoise"%string, (0, 206, 209));
   ("DarkViolet"%string, (148, 0, 211));
   ("DeepPink"%string, (255, 20, 147));
   ("DeepSkyBlue"%string, (0, 191, 255));
   ("DimGray"%string, (105, 105, 105));
   ("DodgerBlue"%string, (30, 144, 255));
   ("Firebrick"%string, (178, 34, 34));
   ("FloralWhite"%string, (255, 250, 240));
   ("ForestGreen"%string, (34, 139, 34));
   ("Fuchsia"%string, (255, 0, 255));
   ("Gainsboro"%string, (220, 220, 220));
   ("GhostWhite"%string, (248, 248, 255));
   ("Gold"%string, (255, 215, 0));
   ("Goldenrod"%string, (218, 165, 32));
   ("Gray"%string, (128, 128, 128));
   ("Green"%string, (0, 128, 0));
   ("GreenYellow"%string, (173, 255, 47));
   ("Honeydew"%string, (240, 255, 240));
   ("HotPink"%string, (255, 105, 180));
   ("IndianRed"%string, (205, 92, 92));
   ("Indigo"%string, (75, 0, 130));
   ("Ivory"%string, (255, 255, 240));
   ("Khaki"%string, (240, 230, 140));
   ("Lavender"%string, (230, 230, 250));
   ("LavenderBlush"%string, (255, 240, 245));
   ("LawnGreen"%string, (124, 252, 0));
   ("LemonChiffon"%string, (255, 250, 205));
   ("LightBlue"%string, (173, 216, 230));
   ("LightCoral"%string, (240, 128, 128));
   ("LightCyan"%string, (224, 255, 255));
   ("LightGoldenrodYellow"%string, (250, 250, 210));
   ("LightGreen"%string, (144, 238, 144));
   ("LightGray"%string, (211, 211, 211));
   ("LightPink"%string, (255, 182, 193));
   ("LightSalmon"%string, (255, 160, 122));
   ("LightSeaGreen"%string, (32, 178, 170));
   ("LightSkyBlue"%string, (135, 206, 250));
   ("LightSlateGray"%string, (119, 136, 153));
   ("LightSteelBlue"%string, (176, 196, 222));
   ("LightYellow"%string, (255, 255, 224));
   ("Lime"%string, (0, 255, 0));
   ("LimeGreen"%string, (50, 205, 50));
   ("Linen"%string, (250, 240, 230));
   ("Magenta"%string, (255, 0, 255));
   ("Maroon"%string, (128, 0, 0));
   ("MediumAquamarine"%string, (102, 205, 170));
   ("MediumBlue"%string, (0, 0, 205));
   ("MediumOrchid"%string, (186, 85, 211));
   ("MediumPurple"%string, (147, 112, 219));
   ("MediumSeaGreen"%string, (60, 179, 113));
   ("MediumSlateBlue"%string, (123, 104, 238));
   ("MediumSpringGreen"%string, (0, 250, 154));
   ("MediumTurquoise"%string, (72, 209, 204));
   ("MediumVioletRed"%string, (199, 21, 133));
   ("MidnightBlue"%string, (25, 25, 112));
   ("MintCream"%string, (245, 255, 250));
   ("MistyRose"%string, (255, 228, 225));
   ("Moccasin"%string, (255, 228, 181));
   ("NavajoWhite"%string, (255, 222, 173));
   ("Navy"%string, (0, 0, 128));
   ("OldLace"%string, (253, 245, 230));
   ("Olive"%string, (128, 128, 0));
   ("OliveDrab"%string, (107, 142, 35));
   ("Orange"%string, (255, 165, 0));
   ("OrangeRed"%string, (255, 69, 0));
   ("Orchid"%string, (218, 112, 214));
   ("PaleGoldenrod"%string, (238, 232, 170));
   ("PaleGreen"%string, (152, 251, 152));
   ("PaleTurquoise"%string, (175, 238, 238));
   ("PaleVioletRed"%string, (219, 112, 147));
   ("PapayaWhip"%string, (255, 239, 213));
   ("PeachPuff"%string, (255, 218, 185));
   ("Peru"%string, (205, 133, 63));
   ("Pink"%string, (255, 192, 203));
   ("Plum"%string, (221, 160, 221));
   ("PowderBlue"%string, (176, 224, 230));
   ("Purple"%string, (128, 0, 128));
   ("Red"%string, (255, 0, 0));
   ("RosyBrown"%string, (188, 143, 143));
   ("RoyalBlue"%string, (65, 105, 225));
   ("SaddleBrown"%string, (139, 69, 19));
   ("Salmon"%string, (250, 128, 114));
   ("SandyBrown"%string, (244, 164, 96));
   ("SeaGreen"%string, (46, 139, 87));
   ("SeaShell"%string, (255, 245, 238));
   ("Sienna"%string, (160, 82, 45));
   ("Silver"%string, (192, 192, 192));
   ("SkyBlue"%string, (135, 206, 235));
   ("SlateBlue"%string, (106, 90, 205));
   ("SlateGray"%string, (112, 128, 144));
   ("Snow"%string, (255, 250, 250));
   ("SpringGreen"%string, (0, 255, 127));
   ("SteelBlue"%string, (70, 130, 180));
   ("Tan"%string, (210, 180, 140));
   ("Teal"%string, (0, 128, 128));
   ("Thistle"%string, (216, 191, 216));
   ("Tomato"%string, (255, 99, 71));
   ("Turquoise"%string, (64, 224, 208));
   ("Violet"%string, (238, 130, 238));
   ("Wheat"%string, (245, 222, 179));
   ("White"%string, (255, 255, 255));
   ("WhiteSmoke"%string, (245, 245, 245));
   ("Yellow"%string, (255, 255, 0));
   ("YellowGreen"%string, (154, 205, 50))].
(** The number 0xFFrrggbb. *)
Definition opaque (c : Z * Z * Z) : Z := let '(r, g, b) := c in ((255 * 256 + r) * 256 + g) * 256 + b.
