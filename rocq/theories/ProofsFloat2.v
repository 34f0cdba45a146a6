(** * ProofsFloat2: the float64 equations of state as analysed expressions (proofs only) *)
From Coq Require Import Reals Lra Lia QArith Qreals Qminmax Qabs List ZArith.
From Verif Require Import SpecFloat64 ProofsFloat SpecEos.
Import ListNotations.
Local Open Scope R_scope.

Definition xT := V 0. Definition xS := V 1. Definition xP := V 2.
Definition eA0 := Lit (7057924 # 10000000000).
Definition eA1 := Lit (3480336 # 10000000000000).
Definition eA2 := Lit (-1112733 # 10000000000000).
Definition eB0 := Lit (579074900 # 1).
Definition eB1 := Lit (3516535 # 1).
Definition eB2 := Lit (-4002714 # 100).
Definition eB3 := Lit (2084372 # 10000).
Definition eB4 := Lit (5944068 # 10).
Definition eB5 := Lit (-9643486 # 1000).
Definition eC0 := Lit (1704853 # 10).
Definition eC1 := Lit (7904722 # 10000).
Definition eC2 := Lit (-7984422 # 1000000).
Definition eC3 := Lit (5140652 # 100000000).
Definition eC4 := Lit (-2302158 # 10000).
Definition eC5 := Lit (-3079464 # 1000000).
(** [f]: the format used before the pressure enters; [c e]: conversion of a Python number *)
Section Expressions.
Variable f : fmt.
Let c (e : expr) : expr := match f with F64 => e | F32 => Cast F32 e end.
Let add := Add f. Let mul := Mul f.
Let dadd := Add F64. Let dmul := Mul F64. Let dsub := Sub F64. Let ddiv := Div F64.
Definition e_al0 T S := add (add (c eA0) (mul (c eA1) T)) (mul (c eA2) S).
Definition e_p0 T S := add (add (c eB0) (mul (c eB4) S))
  (mul T (add (add (c eB1) (mul T (add (c eB2) (mul (c eB3) T)))) (mul (c eB5) S))).
Definition e_lam T S := add (add (c eC0) (mul (c eC4) S))
  (mul T (add (add (c eC1) (mul T (add (c eC2) (mul (c eC3) T)))) (mul (c eC5) S))).
Definition e_den T S P := dadd (e_lam T S) (dmul (e_al0 T S) (dadd P (e_p0 T S))).
Definition e_density T S P := dmul (dadd P (e_p0 T S)) (ddiv (Lit 1) (e_den T S P)).
Definition e_i2 T S P := dmul (ddiv (Lit 1) (e_den T S P)) (ddiv (Lit 1) (e_den T S P)).
Definition e_dT T S P := dmul (e_i2 T S P)
  (dsub (mul (e_lam T S) (add (add (c eB1) (mul T (add (c (dmul (Lit 2) eB2)) (mul (c (dmul (Lit 3) eB3)) T)))) (mul (c eB5) S)))
       (dmul (dadd P (e_p0 T S)) (dadd (dmul (dadd P (e_p0 T S)) eA1)
          (add (add (c eC1) (mul T (add (c (dmul eC2 (Lit 2))) (mul (c (dmul eC3 (Lit 3))) T)))) (mul (c eC5) S))))).
Definition e_dS T S P := dmul (e_i2 T S P)
  (dsub (mul (e_lam T S) (add (c eB4) (mul (c eB5) T)))
       (dmul (dadd P (e_p0 T S)) (dadd (dmul (dadd P (e_p0 T S)) eA2) (add (c eC4) (mul (c eC5) T))))).
Definition e_alpha T S P := dmul (Lit (-1)) (ddiv (e_dT T S P) (e_density T S P)).
Definition e_beta T S P := ddiv (e_dS T S P) (e_density T S P).
Definition e_linear T S := add (c (Lit 1000)) (add (mul (c (Lit (-2 # 10))) T) (mul (c (Lit (8 # 10))) S)).
End Expressions.
Definition e_pres z a := Add F64 (Mul F64 z (Lit 10000)) a.

Definition env3 (T S p : R) (i : nat) : R := match i with O => T | 1%nat => S | _ => p end.
Definition whole (a b : Z) : bnd := mkB (a * one) (b * one) 0.
Definition box3 (i : nat) : bnd :=
  match i with O => whole (-2) 40 | 1%nat => whole 0 42 | _ => whole 0 120000000 end.
