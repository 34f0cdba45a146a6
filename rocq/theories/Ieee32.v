(** * Ieee32: the local steric height computed from single precision temperature and salinity

    steric.py:96, 128, 151-163 for the usual model output: thetao and so are float32, the
    vertical coordinates float64 (deptho may be either; a float32 is converted exactly).  The
    pressure [dset[zcoord] * 1.0e4 + patm] is float64, so the density is computed as in
    [Ieee.density32] and everything after it in binary64. *)
From Coq Require Import List Bool ZArith QArith.
From Flocq Require Import IEEE754.BinarySingleNaN.
From Verif Require Import Ieee.
Import ListNotations.
Local Open Scope Q_scope.

Record cell32 := mkCell32 { ztop32 : f64; zbot32 : f64; zmid32 : f64; wet32 : bool;
                            temp32 : f32; salt32 : f32; temp_ref32 : f32; salt_ref32 : f32 }.

(** steric.py:128, 151: [delta_rho = where(volcello.notnull(), rho - reference["rho"], nan)] *)
Definition delta_rho32 (patm : f64) (c : cell32) : f64 :=
  if wet32 c then (density32 (temp32 c) (salt32 c) (pressure64 (zmid32 c) patm)
                   - density32 (temp_ref32 c) (salt_ref32 c) (pressure64 (zmid32 c) patm))%f64
  else B754_nan.

(** steric.py:153-163: [(-1.0 / rhozero) * ((dz * delta_rho).sum(zcoord))] *)
Definition term32 (depth patm : f64) (c : cell32) : f64 :=
  skipna (dz64 (ztop32 c) (zbot32 c) depth zero * delta_rho32 patm c)%f64.
Definition steric32 (rhozero depth patm : f64) (column : list cell32) (h : f64) : Prop :=
  exists s, sum64 (map (term32 depth patm) column) s /\ h = (lit (-1) / rhozero * s)%f64.
