(** * IeeeGeo: distances of geolocate_points in IEEE 754 binary64 arithmetic (src/momlevel/util.py) *)
From Coq Require Import ZArith QArith List Bool.
From Flocq Require Import Core IEEE754.BinarySingleNaN.
From Verif Require Import Ieee IeeeWave.
Local Open Scope f64_scope.

(** util.py:331-334; [np.deg2rad] multiplies by the binary64 number [np.pi / 180.0]. *)
Definition deg2rad64 (x : f64) : f64 := x * (pi64 / of_Z 180).

(** Latitude and longitude in degrees. *)
Definition place64 := (f64 * f64)%type.

(** util.py:337-340, the metric "haversine" of sklearn: the reduced distance of the site [q] and the grid point [p], and the
    angle.  SIMPLIFICATION: no fused multiply-add; [sin64], [cos64] and [asin64] are the functions of the C library. *)
Definition rdist64 (sin64 cos64 : f64 -> f64) (q p : place64) : f64 :=
  let s0 := sin64 (lit (1 # 2) * (deg2rad64 (fst q) - deg2rad64 (fst p))) in
  let s1 := sin64 (lit (1 # 2) * (deg2rad64 (snd q) - deg2rad64 (snd p))) in
  s0 * s0 + cos64 (deg2rad64 (fst q)) * cos64 (deg2rad64 (fst p)) * s1 * s1.
Definition angle_between64 (sin64 cos64 asin64 : f64 -> f64) (q p : place64) : f64 := of_Z 2 * asin64 (sqrt64 (rdist64 sin64 cos64 q p)).

(** util.py:341 *)
Definition distance64 (sin64 cos64 asin64 : f64 -> f64) (rad_earth : f64) (q p : place64) : f64 := angle_between64 sin64 cos64 asin64 q p * rad_earth.

(** util.py:340, the ball tree returns a grid point whose reduced distance is least.  SIMPLIFICATION: every point is compared;
    the bounds by which the tree leaves out points are not modelled. *)
Definition closest64 (sin64 cos64 : f64 -> f64) (q : place64) (pts : list place64) (j : nat) : Prop :=
  exists p, nth_error pts j = Some p /\
  forall k p', nth_error pts k = Some p' -> Bleb (rdist64 sin64 cos64 q p) (rdist64 sin64 cos64 q p') = true.

(** util.py:354 *)
Definition kept64 (distance threshold : f64) : bool := Bleb distance threshold.
