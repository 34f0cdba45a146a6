(** * Ieee: the equations of state, calc_dz and the steric column in IEEE 754 arithmetic

    The other files use exact real arithmetic.  Here numbers are the binary64 and binary32
    data of the Flocq library, with signed zeros, infinities and NaN, and every operation
    rounds to nearest, ties to even, and overflows to an infinity.
    SIMPLIFICATION: there is one NaN (no payload) and there are no exception flags. *)
From Coq Require Import ZArith QArith List Permutation Bool.
From Flocq Require Import Core IEEE754.BinarySingleNaN.
Import ListNotations.

Definition f64 : Type := binary_float 53 1024.
Definition f32 : Type := binary_float 24 128.
#[export] Instance prec53 : Prec_gt_0 53 := eq_refl.
#[export] Instance prec24 : Prec_gt_0 24 := eq_refl.
#[export] Instance emax1024 : Prec_lt_emax 53 1024 := eq_refl.
#[export] Instance emax128 : Prec_lt_emax 24 128 := eq_refl.

Declare Scope f64_scope.
Delimit Scope f64_scope with f64.
Bind Scope f64_scope with f64.
Definition add64 (x y : f64) : f64 := Bplus mode_NE x y.
Definition sub64 (x y : f64) : f64 := Bminus mode_NE x y.
Definition mul64 (x y : f64) : f64 := Bmult mode_NE x y.
Definition div64 (x y : f64) : f64 := Bdiv mode_NE x y.
Notation "x + y" := (add64 x y) : f64_scope.
Notation "x - y" := (sub64 x y) : f64_scope.
Notation "x * y" := (mul64 x y) : f64_scope.
Notation "x / y" := (div64 x y) : f64_scope.

Declare Scope f32_scope.
Delimit Scope f32_scope with f32.
Bind Scope f32_scope with f32.
Definition add32 (x y : f32) : f32 := Bplus mode_NE x y.
Definition mul32 (x y : f32) : f32 := Bmult mode_NE x y.
Notation "x + y" := (add32 x y) : f32_scope.
Notation "x * y" := (mul32 x y) : f32_scope.

(** Conversions between the formats. *)
Definition widen (x : f32) : f64 :=
  match x with
  | B754_zero s => B754_zero s
  | B754_infinity s => B754_infinity s
  | B754_nan => B754_nan
  | B754_finite s m e _ => binary_normalize 53 1024 prec53 emax1024 mode_NE (cond_Zopp s (Zpos m)) e s
  end.
Definition narrow (x : f64) : f32 :=
  match x with
  | B754_zero s => B754_zero s
  | B754_infinity s => B754_infinity s
  | B754_nan => B754_nan
  | B754_finite s m e _ => binary_normalize 24 128 prec24 emax128 mode_NE (cond_Zopp s (Zpos m)) e s
  end.

(** A decimal literal of the source, the fraction of two integers below 2^53: the nearest
    binary64 number. *)
Definition of_Z (z : Z) : f64 := binary_normalize 53 1024 prec53 emax1024 mode_NE z 0 false.
Definition lit (q : Q) : f64 := div64 (of_Z (Qnum q)) (of_Z (Zpos (Qden q))).

Local Open Scope f64_scope.

(** eos/wright.py:6-20 *)
Definition A0 := lit (7057924 # 10000000000).
Definition A1 := lit (3480336 # 10000000000000).
Definition A2 := lit (-1112733 # 10000000000000).
Definition B0 := lit (579074900 # 1).
Definition B1 := lit (3516535 # 1).
Definition B2 := lit (-4002714 # 100).
Definition B3 := lit (2084372 # 10000).
Definition B4 := lit (5944068 # 10).
Definition B5 := lit (-9643486 # 1000).
Definition C0 := lit (1704853 # 10).
Definition C1 := lit (7904722 # 10000).
Definition C2 := lit (-7984422 # 1000000).
Definition C3 := lit (5140652 # 100000000).
Definition C4 := lit (-2302158 # 10000).
Definition C5 := lit (-3079464 # 1000000).

(** eos/wright.py:44-46, shared by the functions below *)
Definition al0_64 (T S : f64) : f64 := A0 + A1 * T + A2 * S.
Definition p0_64 (T S : f64) : f64 := B0 + B4 * S + T * (B1 + T * (B2 + B3 * T) + B5 * S).
Definition lam_64 (T S : f64) : f64 := C0 + C4 * S + T * (C1 + T * (C2 + C3 * T) + C5 * S).

(** eos/wright.py:23-50 density *)
Definition density64 (T S p : f64) : f64 :=
  let al0 := al0_64 T S in let p0 := p0_64 T S in let lam := lam_64 T S in
  let I_denom := lit 1 / (lam + al0 * (p + p0)) in
  (p + p0) * I_denom.

(** eos/wright.py:53-85 drho_dtemp *)
Definition drho_dtemp64 (T S p : f64) : f64 :=
  let al0 := al0_64 T S in let p0 := p0_64 T S in let lam := lam_64 T S in
  let I_denom2 := lit 1 / (lam + al0 * (p + p0)) in
  let I_denom2 := I_denom2 * I_denom2 in
  I_denom2 *
   (lam * (B1 + T * (lit 2 * B2 + lit 3 * B3 * T) + B5 * S)
    - (p + p0) * ((p + p0) * A1 + (C1 + T * (C2 * lit 2 + C3 * lit 3 * T) + C5 * S))).

(** eos/wright.py:88-119 drho_dsal *)
Definition drho_dsal64 (T S p : f64) : f64 :=
  let al0 := al0_64 T S in let p0 := p0_64 T S in let lam := lam_64 T S in
  let I_denom2 := lit 1 / (lam + al0 * (p + p0)) in
  let I_denom2 := I_denom2 * I_denom2 in
  I_denom2 * (lam * (B4 + B5 * T) - (p + p0) * ((p + p0) * A2 + (C4 + C5 * T))).

(** eos/wright.py:122-142 alpha and 145-165 beta *)
Definition alpha64 (T S p : f64) : f64 := lit (-1) * (drho_dtemp64 T S p / density64 T S p).
Definition beta64 (T S p : f64) : f64 := drho_dsal64 T S p / density64 T S p.

(** eos/linear.py:26-58 density (rho_ref=None) *)
Definition linear_density64 (T S : f64) : f64 :=
  lit 1000 + ((lit (-2 # 10) * T) + (lit (8 # 10) * S)).

(** The functions of wright.py when temperature and salinity are float32 arrays and the
    pressure is a float64 array (the usual case for model output, since pressure comes from the
    float64 vertical coordinate, steric.py:96).  NumPy computes with float32 as long as all
    arrays involved are float32, after converting Python numbers to float32, and with float64
    as soon as the pressure enters. *)
Local Open Scope f32_scope.
Definition al0_32 (T S : f32) : f32 := narrow A0 + narrow A1 * T + narrow A2 * S.
Definition p0_32 (T S : f32) : f32 :=
  narrow B0 + narrow B4 * S + T * (narrow B1 + T * (narrow B2 + narrow B3 * T) + narrow B5 * S).
Definition lam_32 (T S : f32) : f32 :=
  narrow C0 + narrow C4 * S + T * (narrow C1 + T * (narrow C2 + narrow C3 * T) + narrow C5 * S).
Definition density32 (T S : f32) (p : f64) : f64 :=
  let al0 := widen (al0_32 T S) in let p0 := widen (p0_32 T S) in let lam := widen (lam_32 T S) in
  let I_denom := (lit 1 / (lam + al0 * (p + p0)))%f64 in
  ((p + p0) * I_denom)%f64.
Definition drho_dtemp32 (T S : f32) (p : f64) : f64 :=
  let al0 := widen (al0_32 T S) in let p0 := widen (p0_32 T S) in let lam := widen (lam_32 T S) in
  let I_denom2 := (lit 1 / (lam + al0 * (p + p0)))%f64 in
  let I_denom2 := (I_denom2 * I_denom2)%f64 in
  let first := lam_32 T S *
    (narrow B1 + T * (narrow (lit 2 * B2) + narrow (lit 3 * B3) * T) + narrow B5 * S) in
  let second := narrow C1 + T * (narrow (C2 * lit 2) + narrow (C3 * lit 3) * T) + narrow C5 * S in
  (I_denom2 * (widen first - (p + p0) * ((p + p0) * A1 + widen second)))%f64.
Definition drho_dsal32 (T S : f32) (p : f64) : f64 :=
  let al0 := widen (al0_32 T S) in let p0 := widen (p0_32 T S) in let lam := widen (lam_32 T S) in
  let I_denom2 := (lit 1 / (lam + al0 * (p + p0)))%f64 in
  let I_denom2 := (I_denom2 * I_denom2)%f64 in
  let first := lam_32 T S * (narrow B4 + narrow B5 * T) in
  let second := narrow C4 + narrow C5 * T in
  (I_denom2 * (widen first - (p + p0) * ((p + p0) * A2 + widen second)))%f64.
Definition alpha32 (T S : f32) (p : f64) : f64 := (lit (-1) * (drho_dtemp32 T S p / density32 T S p))%f64.
Definition beta32 (T S : f32) (p : f64) : f64 := (drho_dsal32 T S p / density32 T S p)%f64.
Definition linear_density32 (T S : f32) : f32 :=
  narrow (lit 1000) + ((narrow (lit (-2 # 10)) * T) + (narrow (lit (8 # 10)) * S)).
Local Close Scope f32_scope.

(** derived.py:397 and steric.py:96: pressure from depth *)
Definition pressure64 (z patm : f64) : f64 := z * lit 10000 + patm.

(** numpy.minimum (NaN if either argument is), comparison with zero *)
Definition zero : f64 := B754_zero false.
Definition npmin (x y : f64) : f64 :=
  if is_nan x || is_nan y then B754_nan else if Bltb y x then y else x.
(** derived.py:312, 317 xr.where(part < 0.0, 0.0, part) *)
Definition where_neg (part : f64) : f64 := if Bltb part zero then zero else part.

(** derived.py:308-318, one cell of calc_dz *)
Definition dz64 (ztop zbot depth top : f64) : f64 :=
  let dz_field := zbot - ztop in
  let result := npmin (where_neg (depth - ztop)) dz_field in
  npmin (where_neg (zbot - top)) result.

(** derived.py:320-323: the fraction of the cell *)
Definition nan_if_zero (x : f64) : f64 := if Beqb x zero then B754_nan else x.
Definition dz_fraction64 (ztop zbot depth top : f64) : f64 :=
  nan_if_zero (dz64 ztop zbot depth top) / nan_if_zero (zbot - ztop).

(** [sum64 l s]: [s] is a possible result of adding the numbers of [l] in some order and
    association (numpy adds pairwise, in blocks). *)
Inductive sum64 : list f64 -> f64 -> Prop :=
| sum_one x : sum64 [x] x
| sum_add l1 l2 s1 s2 : sum64 l1 s1 -> sum64 l2 s2 -> sum64 (l1 ++ l2) (s1 + s2)
| sum_perm l l' s : Permutation l l' -> sum64 l s -> sum64 l' s.

(** steric.py:96, 128, 151-163, one column of the local calculation:
    [delta_rho = where(volcello.notnull(), rho - reference["rho"], nan)] and
    [(-1.0 / rhozero) * ((dz * delta_rho).sum(zcoord))], where the sum skips NaN. *)
Record cell := mkCell { ztop : f64; zbot : f64; zmid : f64; wet : bool;
                        temp : f64; salt : f64; temp_ref : f64; salt_ref : f64 }.
Definition rho_at (T S z patm : f64) : f64 := density64 T S (pressure64 z patm).
Definition delta_rho64 (patm : f64) (c : cell) : f64 :=
  if wet c then rho_at (temp c) (salt c) (zmid c) patm - rho_at (temp_ref c) (salt_ref c) (zmid c) patm
  else B754_nan.
Definition skipna (x : f64) : f64 := if is_nan x then zero else x.
Definition term64 (depth patm : f64) (c : cell) : f64 :=
  skipna (dz64 (ztop c) (zbot c) depth zero * delta_rho64 patm c).
Definition steric64 (rhozero depth patm : f64) (column : list cell) (h : f64) : Prop :=
  exists s, sum64 (map (term64 depth patm) column) s /\ h = lit (-1) / rhozero * s.
