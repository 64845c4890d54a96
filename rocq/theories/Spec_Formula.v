(** * The published conversion formulas, in exact arithmetic

    None of these definitions mentions the model; they are written from the textbook
    descriptions of the colour models (Smith 1978 and the usual hexagon formulation for
    HSV/HSL/HCY/HSI, CIE 15 for Lab and Luv). *)
From Coq Require Import ZArith Reals List.
From Verif Require Import SpaceModel.
Import ListNotations.
Local Open Scope R_scope.

(** A value cut to the interval [lo, hi]. *)
Definition cut (lo hi x : R) : R := Rmax lo (Rmin hi x).

Definition largest (r g b : R) : R := Rmax r (Rmax g b).
Definition smallest (r g b : R) : R := Rmin r (Rmin g b).

(** The hue of (r, g, b) in degrees, in [0, 360); 0 for greys. *)
Definition hexagon_hue (r g b : R) : R :=
  let d := largest r g b - smallest r g b in
  if Req_EM_T d 0 then 0
  else if Req_EM_T r (largest r g b) then (if Rlt_dec g b then 360 + 60 * (g - b) / d else 60 * (g - b) / d)
  else if Req_EM_T g (largest r g b) then 120 + 60 * (b - r) / d
  else 240 + 60 * (r - g) / d.

(** A channel [d] on the 0..255 scale nearest to the deep channel [x] (halves go up). *)
Definition nearest_byte (x d : R) : Prop := exists n, d = IZR n /\ (0 <= n <= 255)%Z /\ 255 * x - 1 / 2 < d <= 255 * x + 1 / 2.

(** Rec. 709 luma. *)
Definition luma709 (r g b : R) : R := 0.2126 * r + 0.7152 * g + 0.0722 * b.

(** The point of the hexagon with hue [h] (degrees) and chroma [c]. *)
Definition hexagon_rgb (h c : R) : R * R * R :=
  if Rle_dec h 60 then (c, c * (h / 60), 0)
  else if Rle_dec h 120 then (c * ((120 - h) / 60), c, 0)
  else if Rle_dec h 180 then (0, c, c * ((h - 120) / 60))
  else if Rle_dec h 240 then (0, c * ((240 - h) / 60), c)
  else if Rle_dec h 300 then (c * ((h - 240) / 60), 0, c)
  else (c, 0, c * ((360 - h) / 60)).
(** The same amount added to the three channels, as a list. *)
Definition lifted (p : R * R * R) (m : R) : list R := let '(r, g, b) := p in [r + m; g + m; b + m].
Definition sum3 (p : R * R * R) : R := let '(r, g, b) := p in r + g + b.

(** HSI: the chroma is such that the mean of the channels is the intensity. *)
Definition hsi_chroma (h s i : R) : R := 3 * i * s / sum3 (hexagon_rgb h 1).
Definition hsi_rgb (h s i : R) : list R := lifted (hexagon_rgb h (hsi_chroma h s i)) (i * (1 - s)).

(** The inverse of the CIE compression function. *)
Definition cie_f_inverse (t : R) : R :=
  if Rlt_dec (6 / 29) t then t * t * t else 3 * (6 / 29) * (6 / 29) * (t - 4 / 29).

(** The u', v' chromaticity of (X, Y, Z) (CIE 1976 UCS). *)
Definition ucs_u (x y z : R) : R := 4 * x / (x + 15 * y + 3 * z).
Definition ucs_v (x y z : R) : R := 9 * y / (x + 15 * y + 3 * z).
(** CIE lightness with the rounded constants 0.008856 and 903.3 of CIE 15:1986, from
    the luminance relative to the white point. *)
Definition lightness (t : R) : R := if Rlt_dec 0.008856 t then 116 * Rpower t (1 / 3) - 16 else 903.3 * t.
Definition lightness_inverse (l : R) : R :=
  if Rlt_dec (903.3 * 0.008856) l then ((l + 16) / 116) * ((l + 16) / 116) * ((l + 16) / 116) else l / 903.3.
(** L*u*v* of (X, Y, Z) for the white point [w]. *)
Definition luv_of (w : white_point R) (x y z : R) : list R :=
  let l := lightness (y / ty_ w) in
  [l; 13 * l * (ucs_u x y z - ucs_u (tx w) (ty_ w) (tz w)); 13 * l * (ucs_v x y z - ucs_v (tx w) (ty_ w) (tz w))].
(** (X, Y, Z), with Y relative to the white, of L*u*v*. *)
Definition xyz_of_luv (w : white_point R) (l u v : R) : list R :=
  let u' := u / (13 * l) + ucs_u (tx w) (ty_ w) (tz w) in
  let v' := v / (13 * l) + ucs_v (tx w) (ty_ w) (tz w) in
  let y := lightness_inverse l in
  [y * (9 * u') / (4 * v'); y; y * (12 - 3 * u' - 20 * v') / (4 * v')].

(** (c, h) are polar coordinates of (a, b), h in degrees in [0, 360). *)
Definition polar (a b c h : R) : Prop :=
  0 <= c /\ 0 <= h < 360 /\ a = c * cos (h * PI / 180) /\ b = c * sin (h * PI / 180).
