(** * Published values of the preset illuminants, RGB spaces and transfer functions
    Written from the publications (CIE 15 for the illuminants; IEC 61966-2-1, ITU-R BT.2020, ISO 22028-2
    and the tables of www.brucelindbloom.com, which the headers name as their source, for the RGB
    spaces), not from the code. *)
From Coq Require Import Reals List.
From Verif Require Import Arith Outcome GammaModel SpaceModel RArith.
Import ListNotations.
Local Open Scope R_scope.

(** ** Chromaticities (x, y) of the CIE standard illuminants, in the order
    D50 D55 D65 D75 A B C E F1 ... F12 *)
Definition illuminants_2 : list (R * R) :=
  [(0.34567, 0.35850); (0.33242, 0.34743); (0.31271, 0.32902); (0.29902, 0.31485);
   (0.44757, 0.40745); (0.34842, 0.35161); (0.31006, 0.31616); (1 / 3, 1 / 3);
   (0.31310, 0.33727); (0.37208, 0.37529); (0.40910, 0.39430); (0.44018, 0.40329);
   (0.31379, 0.34531); (0.37790, 0.38835); (0.31292, 0.32933); (0.34588, 0.35875);
   (0.37417, 0.37281); (0.34609, 0.35986); (0.38052, 0.37713); (0.43695, 0.40441)].
Definition illuminants_10 : list (R * R) :=
  [(0.34773, 0.35952); (0.33411, 0.34877); (0.31382, 0.33100); (0.29968, 0.31740);
   (0.45117, 0.40594); (0.34980, 0.35270); (0.31039, 0.31905); (1 / 3, 1 / 3);
   (0.31811, 0.33559); (0.37925, 0.36733); (0.41761, 0.38324); (0.44920, 0.39074);
   (0.31975, 0.34246); (0.38660, 0.37847); (0.31569, 0.32960); (0.34902, 0.35939);
   (0.37829, 0.37045); (0.35090, 0.35444); (0.38541, 0.37123); (0.44256, 0.39717)].
Definition within (e a b : R) : Prop := Rabs (a - b) <= e.

(** ** Transfer functions: from linear light to the stored value (encode) and back (decode) *)
Definition rpow (x y : R) : R := if Rle_dec x 0 then 0 else Rpower x y.
Definition srgb_encode (l : R) : R := if Rle_dec l 0.0031308 then 12.92 * l else 1.055 * rpow l (1 / 2.4) - 0.055.
Definition srgb_decode (v : R) : R := if Rle_dec v 0.04045 then v / 12.92 else rpow ((v + 0.055) / 1.055) 2.4.
Definition rec2020_encode (l : R) : R := if Rlt_dec l 0.018 then 4.5 * l else 1.099 * rpow l 0.45 - 0.099.
Definition rec2020_decode (v : R) : R := if Rlt_dec v 0.081 then v / 4.5 else rpow ((v + 0.099) / 1.099) (1 / 0.45).
Definition romm_encode (l : R) : R := if Rlt_dec l (1 / 512) then 16 * l else rpow l (1 / 1.8).
Definition romm_decode (v : R) : R := if Rlt_dec v (1 / 32) then v / 16 else rpow v 1.8.

(** ** RGB spaces: chromaticities of the primaries, the illuminant, the decoding function.
    The decoding functions of BT.2020 and ROMM RGB are treated separately. *)
Record rgb_table := Table {
  t_red : R * R; t_green : R * R; t_blue : R * R;
  t_white : R * R;
  t_decode : option (R -> R)
}.
Definition D50 : R * R := (0.34567, 0.35850).
Definition D65 : R * R := (0.31271, 0.32902).
Definition Ill_C : R * R := (0.31006, 0.31616).
Definition Ill_E : R * R := (1 / 3, 1 / 3).
Definition power (e : R) : option (R -> R) := Some (fun v => rpow v e).
Definition rgb_tables : list rgb_table :=
  [ (* sRGB *)           Table (0.64, 0.33) (0.30, 0.60) (0.15, 0.06) D65 (Some srgb_decode);
    (* Adobe RGB *)      Table (0.64, 0.33) (0.21, 0.71) (0.15, 0.06) D65 (power (563 / 256));
    (* PAL/SECAM *)      Table (0.64, 0.33) (0.29, 0.60) (0.15, 0.06) D65 (power 2.8);
    (* NTSC, America *)  Table (0.63, 0.34) (0.31, 0.595) (0.155, 0.07) D65 (power 2.2);
    (* NTSC 1953 *)      Table (0.67, 0.33) (0.21, 0.71) (0.14, 0.08) Ill_C (power 2.2);
    (* Apple RGB *)      Table (0.625, 0.34) (0.28, 0.595) (0.155, 0.07) D65 (power 1.8);
    (* DCI-P3, D65 *)    Table (0.68, 0.32) (0.265, 0.69) (0.15, 0.06) D65 (power 2.6);
    (* BT.2020 *)        Table (0.708, 0.292) (0.170, 0.797) (0.131, 0.046) D65 None;
    (* Wide gamut RGB *) Table (0.7347, 0.2653) (0.1152, 0.8264) (0.1566, 0.0177) D50 (power (563 / 256));
    (* ROMM RGB *)       Table (0.7347, 0.2653) (0.1596, 0.8404) (0.0366, 0.0001) D50 None;
    (* Best RGB *)       Table (0.7347, 0.2653) (0.2150, 0.7750) (0.1300, 0.0350) D50 (power 2.2);
    (* Beta RGB *)       Table (0.6888, 0.3112) (0.1986, 0.7551) (0.1265, 0.0352) D50 (power 2.2);
    (* Bruce RGB *)      Table (0.64, 0.33) (0.28, 0.65) (0.15, 0.06) D65 (power 2.2);
    (* ColorMatch RGB *) Table (0.630, 0.340) (0.295, 0.605) (0.150, 0.075) D50 (power 1.8);
    (* Don RGB 4 *)      Table (0.696, 0.300) (0.215, 0.765) (0.130, 0.035) D50 (power 2.2);
    (* Ekta Space PS5 *) Table (0.695, 0.305) (0.260, 0.700) (0.110, 0.005) D50 (power 2.2);
    (* ProPhoto RGB *)   Table (0.7347, 0.2653) (0.1596, 0.8404) (0.0366, 0.0001) D50 (power 1.8);
    (* SMPTE-C RGB *)    Table (0.630, 0.340) (0.310, 0.595) (0.155, 0.070) D65 (power 2.2);
    (* CIE RGB *)        Table (0.735, 0.265) (0.274, 0.717) (0.167, 0.009) Ill_E (power 2.2);
    (* CIE XYZ *)        Table (1, 0) (0, 1) (0, 0) Ill_E (power 2.2)].

(** A constructed space has the published primaries, white and decoding function *)
Definition decodes (gam : gamma R) (d : option (R -> R)) : Prop :=
  match d with Some f => forall v, 0 <= v <= 1 -> inverse_gamma_correction gam v = f v | None => True end.
Definition near_xy (p t : R * R) : Prop := within 0.0005 (fst p) (fst t) /\ within 0.0005 (snd p) (snd t).
Definition near_xyz (p : R * R * R) (t : R * R) : Prop :=
  let '(x, y, z) := p in near_xy (x, y) t /\ x + y + z = 1.
Definition published (o : outcome (space_def R)) (t : rgb_table) : Prop :=
  exists s a w gam, o = Ok s /\ s_white s = Some (a, w) /\ s_gamma s = Some gam /\
    near_xyz (s_red s) (t_red t) /\ near_xyz (s_green s) (t_green t) /\ near_xyz (s_blue s) (t_blue t) /\
    near_xy (cx w, cy w) (t_white t) /\ decodes gam (t_decode t).

