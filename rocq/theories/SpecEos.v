(** * SpecEos: independent statement of the equations of state (real numbers only)

    Wright (1997), J. Atmos. Ocean. Tech. 14, 735-740, expanded polynomials:
      alpha0 = a0 + a1 T + a2 S
      p0     = b0 + b1 T + b2 T^2 + b3 T^3 + b4 S + b5 T S
      lambda = c0 + c1 T + c2 T^2 + c3 T^3 + c4 S + c5 T S
      rho    = (p + p0) / (lambda + alpha0 (p + p0)). *)
From Coq Require Import Reals.
Local Open Scope R_scope.

Definition wr_alpha0 (T S : R) : R := 7.057924e-4 + 3.480336e-7 * T - 1.112733e-7 * S.
Definition wr_p0 (T S : R) : R :=
  5.790749e8 + 3.516535e6 * T - 4.002714e4 * T^2 + 2.084372e2 * T^3
  + 5.944068e5 * S - 9.643486e3 * T * S.
Definition wr_lambda (T S : R) : R :=
  1.704853e5 + 7.904722e2 * T - 7.984422 * T^2 + 5.140652e-2 * T^3
  - 2.302158e2 * S - 3.079464 * T * S.
Definition wr_denom (T S p : R) : R := wr_lambda T S + wr_alpha0 T S * (p + wr_p0 T S).
Definition wr_rho (T S p : R) : R := (p + wr_p0 T S) / wr_denom T S p.

(** The idealised linear equation of state: 1000 - 0.2 T + 0.8 S. *)
Definition lin_rho (T S : R) : R := 1000 - 0.2 * T + 0.8 * S.

(** The range of ocean states considered in C04 and C05. *)
Definition ocean_box (T S p : R) : Prop :=
  -2 <= T <= 40 /\ 0 <= S <= 42 /\ 0 <= p <= 120000000.

(** Strings equal up to the case of ASCII letters. *)
From Coq Require Import String Ascii Arith.
Inductive same_letter : ascii -> ascii -> Prop :=
| sl_same c : same_letter c c
| sl_upper_lower c d : (65 <= nat_of_ascii c <= 90)%nat ->
    (nat_of_ascii d = nat_of_ascii c + 32)%nat -> same_letter c d
| sl_lower_upper c d : (65 <= nat_of_ascii d <= 90)%nat ->
    (nat_of_ascii c = nat_of_ascii d + 32)%nat -> same_letter c d.
Inductive same_name : string -> string -> Prop :=
| sn_nil : same_name EmptyString EmptyString
| sn_cons c d s t : same_letter c d -> same_name s t -> same_name (String c s) (String d t).

(** Ocean states warmer than the (approximate) temperature of maximum density at the
    surface, 4.4 - 0.22 S degC. *)
Definition warm_box (T S p : R) : Prop := ocean_box T S p /\ 4.4 - 0.22 * S <= T.
