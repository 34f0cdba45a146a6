(** * PropertiesGeo5: C172 (the search in binary64) *)
From Coq Require Import Reals ZArith Lra Lia List.
From Flocq Require Import Core IEEE754.BinarySingleNaN.
From Verif Require Import Ieee IeeeGeo SpecGeo SpecIeeeGeo ProofsGeo ProofsIeee PropertiesFloat17.
Import ListNotations.
Local Open Scope R_scope.

(** ** C172: in binary64 the search finds the nearest grid point itself when every other one is more than 2e-13 radians (a micrometre) farther. *)
Theorem C172_binary64 : forall sin64 cos64 asin64 q pts j k pk, accurate_trig sin64 cos64 asin64 -> on_earth q -> Forall on_earth pts ->
  closest64 sin64 cos64 q pts j -> nth_error pts k = Some pk -> central_angle (place_R q) (place_R pk) <= PI / 2 ->
  (forall i p, i <> k -> nth_error pts i = Some p -> central_angle (place_R q) (place_R pk) + 2e-13 < central_angle (place_R q) (place_R p)) ->
  j = k.
Proof.
  intros sin64 cos64 asin64 q pts j k pk A Hq Hp C Ek B Far. destruct (Nat.eq_dec j k) as [E|N]; [exact E|]. exfalso.
  pose proof C as (pj & Ej & _). assert (H := C167_nearest sin64 cos64 asin64 q pts j pj k pk A Hq Hp C Ej Ek B). assert (F := Far j pj N Ej). lra.
Qed.
Print Assumptions C172_binary64.

(** A site on a grid point, the other grid point a quarter of the circumference away. *)
Example C172_binary64_case : let pts := [(of_Z 0, of_Z 0); (of_Z 0, of_Z 90)] in
  on_earth (of_Z 0, of_Z 0) /\ Forall on_earth pts /\ (exists j, closest64 sin_cr cos_cr (of_Z 0, of_Z 0) pts j) /\
  central_angle (place_R (of_Z 0, of_Z 0)) (place_R (of_Z 0, of_Z 0)) <= PI / 2 /\
  forall i p, i <> 0%nat -> nth_error pts i = Some p ->
    central_angle (place_R (of_Z 0, of_Z 0)) (place_R (of_Z 0, of_Z 0)) + 2e-13 < central_angle (place_R (of_Z 0, of_Z 0)) (place_R p).
Proof.
  intros pts. assert (Es : on_earth (of_Z 0, of_Z 0)) by (apply earth_Z; lia).
  assert (Eg : Forall on_earth pts) by (unfold pts; repeat (apply Forall_cons; [apply earth_Z; lia|]); apply Forall_nil).
  assert (V : forall a b, (Z.abs a <= 90)%Z -> (Z.abs b <= 360)%Z -> place_R (of_Z a, of_Z b) = (IZR a, IZR b)).
  { intros a b Ha Hb. unfold place_R. cbn [fst snd]. rewrite (proj2 (of_Z_rep a ltac:(change (2 ^ 53)%Z with 9007199254740992%Z; lia))), (proj2 (of_Z_rep b ltac:(change (2 ^ 53)%Z with 9007199254740992%Z; lia))). reflexivity. }
  assert (Z0 : central_angle (place_R (of_Z 0, of_Z 0)) (place_R (of_Z 0, of_Z 0)) = 0) by (apply central_angle_zero; reflexivity).
  pose proof PI2_1 as P.
  split; [exact Es|]. split; [exact Eg|]. split; [refine (C167_found _ _ _ _ pts trig_cr Es Eg _); discriminate|]. rewrite Z0. split; [lra|].
  intros [|[|i]] p N E; [contradiction N; reflexivity| |destruct i; discriminate E]. assert (Q : p = (of_Z 0, of_Z 90)) by (unfold pts in E; cbn [nth_error] in E; congruence). rewrite Q, (V 0%Z 0%Z), (V 0%Z 90%Z) by lia.
  unfold central_angle, dot, uvec, rad_of. cbn [fst snd]. replace (90 * (PI / 180)) with (PI / 2) by field. replace (0 * (PI / 180)) with 0 by ring. rewrite cos_0, sin_0, cos_PI2, sin_PI2.
  replace (1 * 1 * (1 * 0) + 1 * 0 * (1 * 1) + 0 * 0) with 0 by ring. rewrite acos_0. lra.
Qed.
