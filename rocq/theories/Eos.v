(** * Eos: model of src/momlevel/eos/{wright,linear,__init__}.py and
    util.eos_func_from_str *)
From Coq Require Import Reals List String Bool.
From Verif Require Import Num Py.
Import ListNotations.
Local Open Scope R_scope.

(** ** eos/wright.py *)

(** wright.py:6-20, module constants (exact decimals). *)
Definition A0 : fval := Fin (7057924 / 10^10).
Definition A1 : fval := Fin (3480336 / 10^13).
Definition A2 : fval := Fin (- (1112733 / 10^13)).
Definition B0 : fval := Fin 579074900.
Definition B1 : fval := Fin 3516535.
Definition B2 : fval := Fin (- (4002714 / 10^2)).
Definition B3 : fval := Fin (2084372 / 10^4).
Definition B4 : fval := Fin (5944068 / 10).
Definition B5 : fval := Fin (- (9643486 / 10^3)).
Definition C0 : fval := Fin (1704853 / 10).
Definition C1 : fval := Fin (7904722 / 10^4).
Definition C2 : fval := Fin (- (7984422 / 10^6)).
Definition C3 : fval := Fin (5140652 / 10^8).
Definition C4 : fval := Fin (- (2302158 / 10^4)).
Definition C5 : fval := Fin (- (3079464 / 10^6)).

Declare Scope f_scope.
Delimit Scope f_scope with f.
Local Infix "+" := fadd : f_scope.
Local Infix "-" := fsub : f_scope.
Local Infix "*" := fmul : f_scope.
Local Infix "/" := fdiv : f_scope.

(** wright.py:44, 74, 109 *)
Definition w_al0 (T S : fval) : fval := (A0 + A1 * T + A2 * S)%f.
(** wright.py:45, 75, 110 *)
Definition w_p0 (T S : fval) : fval :=
  (B0 + B4 * S + T * (B1 + T * (B2 + B3 * T) + B5 * S))%f.
(** wright.py:46, 76, 111 *)
Definition w_lam (T S : fval) : fval :=
  (C0 + C4 * S + T * (C1 + T * (C2 + C3 * T) + C5 * S))%f.

(** wright.py:23-50 density *)
Definition wright_density (T S p : fval) : fval :=
  let al0 := w_al0 T S in
  let p0 := w_p0 T S in
  let lam := w_lam T S in
  let I_denom := (Fin 1 / (lam + al0 * (p + p0)))%f in
  ((p + p0) * I_denom)%f.

(** wright.py:53-85 drho_dtemp *)
Definition wright_drho_dtemp (T S p : fval) : fval :=
  let al0 := w_al0 T S in
  let p0 := w_p0 T S in
  let lam := w_lam T S in
  let I_denom2 := (Fin 1 / (lam + al0 * (p + p0)))%f in
  let I_denom2 := (I_denom2 * I_denom2)%f in
  (I_denom2 *
     (lam * (B1 + T * (Fin 2 * B2 + Fin 3 * B3 * T) + B5 * S)
      - (p + p0) * ((p + p0) * A1 + (C1 + T * (C2 * Fin 2 + C3 * Fin 3 * T) + C5 * S))))%f.

(** wright.py:88-119 drho_dsal *)
Definition wright_drho_dsal (T S p : fval) : fval :=
  let al0 := w_al0 T S in
  let p0 := w_p0 T S in
  let lam := w_lam T S in
  let I_denom2 := (Fin 1 / (lam + al0 * (p + p0)))%f in
  let I_denom2 := (I_denom2 * I_denom2)%f in
  (I_denom2 * (lam * (B4 + B5 * T) - (p + p0) * ((p + p0) * A2 + (C4 + C5 * T))))%f.

(** wright.py:122-142 alpha *)
Definition wright_alpha (T S p : fval) : fval :=
  (Fin (-1) * (wright_drho_dtemp T S p / wright_density T S p))%f.

(** wright.py:145-165 beta *)
Definition wright_beta (T S p : fval) : fval :=
  (wright_drho_dsal T S p / wright_density T S p)%f.

(** ** eos/linear.py *)

(** linear.py:17-23 *)
Definition RHO_T0_S0 : fval := Fin 1000.
Definition DRHO_DT : fval := Fin (- (2 / 10)).
Definition DRHO_DS : fval := Fin (8 / 10).

(** linear.py:26-58 density; [p] is ignored, [rho_ref] optional. *)
Definition linear_density_ref (T S p : fval) (rho_ref : option fval) : fval :=
  let rho := match rho_ref with None => RHO_T0_S0 | Some r => (RHO_T0_S0 - r)%f end in
  (rho + ((DRHO_DT * T) + (DRHO_DS * S)))%f.
Definition linear_density (T S p : fval) : fval := linear_density_ref T S p None.

(** linear.py:61-84, 87-110 *)
Definition linear_drho_dtemp (T S p : fval) : fval := DRHO_DT.
Definition linear_drho_dsal (T S p : fval) : fval := DRHO_DS.

(** [np.full_like(T, fill_value=v)]: the result has T's dtype, so for an
    integer array the fill value is truncated toward zero. *)
Definition trunc (x : R) : R :=
  IZR (if Rltb x 0 then (- Int_part (- x))%Z else Int_part x).
Definition full_like (t_int : bool) (T v : fval) : fval :=
  if t_int then match v with Fin x => Fin (trunc x) | w => w end else v.

(** linear.py:113-136 alpha; [t_int]: does the array T have an integer dtype? *)
Definition linear_alpha (t_int : bool) (T S p : fval) : fval :=
  (Fin (-1) * (full_like t_int T DRHO_DT / linear_density T S p))%f.

(** linear.py:139-162 beta *)
Definition linear_beta (t_int : bool) (T S p : fval) : fval :=
  (full_like t_int T DRHO_DS / linear_density T S p)%f.

(** ** eos/__init__.py and util.py:227-249 eos_func_from_str *)

Inductive eos_module := Wright | Linear.
Inductive func_name := FDensity | FAlpha | FBeta.

(** What [eos.__dict__[name]] is: an EOS module, another object that has a
    [__dict__] (without the requested function), or an object without [__dict__]. *)
Inductive eos_attr := AModule (m : eos_module) | AWithDict | ANoDict.

(** Keys of [momlevel.eos.__dict__] (eos/__init__.py:1-4 plus the attributes every
    package object has). *)
Definition eos_dict : dict eos_attr :=
  [ ("__name__", ANoDict); ("__doc__", ANoDict); ("__package__", ANoDict);
    ("__loader__", AWithDict); ("__spec__", AWithDict); ("__path__", ANoDict);
    ("__file__", ANoDict); ("__cached__", ANoDict); ("__builtins__", ANoDict);
    ("linear", AModule Linear); ("wright", AModule Wright) ]%string.

(** util.py:243-249.  SIMPLIFICATION: [eos_str] is a str (the isinstance assertion holds). *)
Definition eos_func_from_str (eos_str : string) (fn : func_name) : res (eos_module * func_name) :=
  let s := lower eos_str in
  match dget s eos_dict with
  | None => Err ValueError
  | Some (AModule m) => Ok (m, fn)
  | Some AWithDict => Err KeyError
  | Some ANoDict => Err AttributeError
  end.

(** The function object returned by [eos_func_from_str]. *)
Definition eos_apply (t_int : bool) (mf : eos_module * func_name) : fval -> fval -> fval -> fval :=
  match mf with
  | (Wright, FDensity) => wright_density
  | (Wright, FAlpha) => wright_alpha
  | (Wright, FBeta) => wright_beta
  | (Linear, FDensity) => linear_density
  | (Linear, FAlpha) => linear_alpha t_int
  | (Linear, FBeta) => linear_beta t_int
  end.
