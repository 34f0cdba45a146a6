(** * SpecIeee: the exact local steric height of a column of binary64 data *)
From Coq Require Import Reals List.
From Flocq Require Import IEEE754.BinarySingleNaN.
From Verif Require Import Ieee SpecDz SpecEos.
Import ListNotations.
Local Open Scope R_scope.

Fixpoint rsum (l : list R) : R := match l with [] => 0 | x :: l => x + rsum l end.

(** The interfaces are finite; temperatures, salinities and depth of a wet cell are finite and
    in the range of ocean states. *)
Definition cell_finite (c : cell) : Prop := is_finite (ztop c) = true /\ is_finite (zbot c) = true.
Definition wet_ok (c : cell) : Prop :=
  is_finite (zmid c) = true /\ is_finite (temp c) = true /\ is_finite (salt c) = true
  /\ is_finite (temp_ref c) = true /\ is_finite (salt_ref c) = true
  /\ 0 <= B2R (zmid c) <= 11900
  /\ -2 <= B2R (temp c) <= 40 /\ 0 <= B2R (salt c) <= 42
  /\ -2 <= B2R (temp_ref c) <= 40 /\ 0 <= B2R (salt_ref c) <= 42.
(** Density change and thickness in exact arithmetic. *)
Definition exact_delta (patm : R) (c : cell) : R :=
  if wet c then wr_rho (B2R (temp c)) (B2R (salt c)) (B2R (zmid c) * 10000 + patm)
                - wr_rho (B2R (temp_ref c)) (B2R (salt_ref c)) (B2R (zmid c) * 10000 + patm)
  else 0.
Definition thickness (depth : R) (c : cell) : R := overlap (B2R (ztop c)) (B2R (zbot c)) 0 depth.
Definition exact_height (rhozero depth patm : R) (column : list cell) : R :=
  - (1 / rhozero) * rsum (map (fun c => thickness depth c * exact_delta patm c) column).
