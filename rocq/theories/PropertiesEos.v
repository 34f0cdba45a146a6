(** * PropertiesEos: C01-C06 *)
From Coq Require Import Reals Lra List String Bool.
From Verif Require Import Num NumFacts Py Eos SpecEos ProofsEos ProofsEosBox ProofsEosApi.
Import ListNotations.
Local Open Scope R_scope.

(** Wright's density is the published rational function, and it is a finite number
    exactly where the published denominator does not vanish. *)
Theorem C01_wright_density_formula : forall T S p,
  (wr_denom T S p <> 0 -> wright_density (Fin T) (Fin S) (Fin p) = Fin (wr_rho T S p)) /\
  (is_fin (wright_density (Fin T) (Fin S) (Fin p)) = true <-> wr_denom T S p <> 0).
Proof. intros T S p; split; [exact (wright_density_Fin T S p) | exact (wright_density_fin_iff T S p)]. Qed.
Print Assumptions C01_wright_density_formula.

(** C01: drho_dtemp is the derivative of density with respect to temperature. *)
Theorem C01_drho_dtemp_is_derivative : forall T S p,
  is_fin (wright_density (Fin T) (Fin S) (Fin p)) = true ->
  exists d, wright_drho_dtemp (Fin T) (Fin S) (Fin p) = Fin d /\
    derivable_pt_lim (fun t => val (wright_density (Fin t) (Fin S) (Fin p))) T d.
Proof. exact wright_dT. Qed.
Print Assumptions C01_drho_dtemp_is_derivative.

(** C02: drho_dsal is the derivative of density with respect to salinity. *)
Theorem C02_drho_dsal_is_derivative : forall T S p,
  is_fin (wright_density (Fin T) (Fin S) (Fin p)) = true ->
  exists d, wright_drho_dsal (Fin T) (Fin S) (Fin p) = Fin d /\
    derivable_pt_lim (fun s => val (wright_density (Fin T) (Fin s) (Fin p))) S d.
Proof. exact wright_dS. Qed.
Print Assumptions C02_drho_dsal_is_derivative.

(** C03, Wright. *)
Theorem C03_wright_alpha_beta : forall T S p r,
  wright_density (Fin T) (Fin S) (Fin p) = Fin r -> r <> 0 ->
  exists dT dS,
    derivable_pt_lim (fun t => val (wright_density (Fin t) (Fin S) (Fin p))) T dT /\
    derivable_pt_lim (fun s => val (wright_density (Fin T) (Fin s) (Fin p))) S dS /\
    wright_alpha (Fin T) (Fin S) (Fin p) = Fin (- (1 / r) * dT) /\
    wright_beta (Fin T) (Fin S) (Fin p) = Fin ((1 / r) * dS).
Proof. exact wright_alpha_beta. Qed.
Print Assumptions C03_wright_alpha_beta.

(** C03, Linear (floating-point temperature array). *)
Theorem C03_linear_alpha_beta : forall T S p r,
  linear_density (Fin T) (Fin S) (Fin p) = Fin r -> r <> 0 ->
  exists dT dS,
    derivable_pt_lim (fun t => val (linear_density (Fin t) (Fin S) (Fin p))) T dT /\
    derivable_pt_lim (fun s => val (linear_density (Fin T) (Fin s) (Fin p))) S dS /\
    linear_drho_dtemp (Fin T) (Fin S) (Fin p) = Fin dT /\
    linear_drho_dsal (Fin T) (Fin S) (Fin p) = Fin dS /\
    linear_alpha false (Fin T) (Fin S) (Fin p) = Fin (- (1 / r) * dT) /\
    linear_beta false (Fin T) (Fin S) (Fin p) = Fin ((1 / r) * dS).
Proof. exact linear_alpha_beta. Qed.
Print Assumptions C03_linear_alpha_beta.

(** Finding: with an integer temperature array the Linear coefficients are zero
    ([np.full_like] keeps the integer dtype and truncates -0.2 and 0.8). *)
Theorem C03_linear_integer_input_refuted : forall T S p r,
  linear_density (Fin T) (Fin S) (Fin p) = Fin r -> r <> 0 ->
  linear_alpha true (Fin T) (Fin S) (Fin p) = Fin 0 /\
  linear_beta true (Fin T) (Fin S) (Fin p) = Fin 0.
Proof. exact linear_alpha_int. Qed.
Print Assumptions C03_linear_integer_input_refuted.

(** C04: no division by zero and a physical density throughout the ocean box. *)
Theorem C04_density_range : forall T S p, ocean_box T S p ->
  0 < wr_denom T S p /\
  exists r, wright_density (Fin T) (Fin S) (Fin p) = Fin r /\ 980 < r < 1100.
Proof.
  intros T S p H. assert (Hd := denom_pos T S p H). split; [exact Hd|].
  exists (wr_rho T S p). split; [apply wright_density_Fin; lra | exact (rho_bounds T S p H)].
Qed.
Print Assumptions C04_density_range.

(** C05: denser with pressure and with salinity. *)
Theorem C05_density_monotone : forall T S p,
  ocean_box T S p ->
  (forall p', ocean_box T S p' -> p < p' ->
     exists r r', wright_density (Fin T) (Fin S) (Fin p) = Fin r /\
                  wright_density (Fin T) (Fin S) (Fin p') = Fin r' /\ r < r') /\
  (forall S', ocean_box T S' p -> S < S' ->
     exists r r', wright_density (Fin T) (Fin S) (Fin p) = Fin r /\
                  wright_density (Fin T) (Fin S') (Fin p) = Fin r' /\ r < r') /\
  (exists b, wright_beta (Fin T) (Fin S) (Fin p) = Fin b /\ 0 < b).
Proof.
  intros T S p H. assert (Hd := denom_pos T S p H). assert (Hr := rho_bounds T S p H). repeat split.
  - intros p' H' Hlt. assert (Hd' := denom_pos T S p' H').
    exists (wr_rho T S p), (wr_rho T S p').
    rewrite !wright_density_Fin by lra. repeat split. exact (rho_increasing_p T S p p' H H' Hlt).
  - intros S' H' Hlt. assert (Hd' := denom_pos T S' p H').
    exists (wr_rho T S p), (wr_rho T S' p).
    rewrite !wright_density_Fin by lra. repeat split. exact (rho_increasing_S T S S' p H H' Hlt).
  - exists (wr_drho_dS T S p / wr_rho T S p). unfold wright_beta.
    rewrite wright_drho_dsal_Fin, wright_density_Fin, fdiv_Fin by lra. split; [reflexivity|].
    apply Rdiv_lt_0_compat; [exact (drho_dS_pos T S p H) | lra].
Qed.
Print Assumptions C05_density_monotone.

(** C06: which strings name which equation of state. *)
Theorem C06_names : forall s f,
  (forall m, eos_func_from_str s f = Ok (m, f) <-> same_name s (module_name m)) /\
  (eos_func_from_str s f = Err ValueError <-> forall k, In k (dkeys eos_dict) -> ~ same_name s k) /\
  (forall g m r, eos_func_from_str s f = Ok (m, r) -> r = f /\ eos_func_from_str s g = Ok (m, g)).
Proof.
  intros s f. split; [|split].
  - intros m; exact (eos_resolves s m f).
  - exact (eos_unknown s f).
  - intros g m r; exact (eos_never_mixed s f g m r).
Qed.
Print Assumptions C06_names.

(** Non-vacuity: an ordinary ocean state and the name used by default. *)
Example C04_nonvacuous : ocean_box 10 35 10000000.
Proof. unfold ocean_box; lra. Qed.
Example C01_C02_C03_nonvacuous :
  is_fin (wright_density (Fin 10) (Fin 35) (Fin 10000000)) = true /\
  exists r, wright_density (Fin 10) (Fin 35) (Fin 10000000) = Fin r /\ r <> 0.
Proof.
  destruct (C04_density_range _ _ _ C04_nonvacuous) as (_ & r & Hr & H1 & H2).
  rewrite Hr. split; [reflexivity|]. exists r. split; [reflexivity|lra].
Qed.
Example C05_nonvacuous : ocean_box 10 35 0 /\ ocean_box 10 36 0 /\ ocean_box 10 35 1.
Proof. unfold ocean_box; lra. Qed.
Example C03_linear_nonvacuous : exists r, linear_density (Fin 10) (Fin 35) (Fin 0) = Fin r /\ r <> 0.
Proof. rewrite linear_density_Fin. exists (lin_rho 10 35). split; [reflexivity|]. unfold lin_rho; lra. Qed.
Example C06_nonvacuous :
  eos_func_from_str "Wright" FAlpha = Ok (Wright, FAlpha) /\
  eos_func_from_str "LINEAR" FBeta = Ok (Linear, FBeta) /\
  eos_func_from_str "teos10" FDensity = Err ValueError.
Proof. repeat split. Qed.

(** C101: with a reference density the linear equation of state returns the density minus the
    reference; a missing value anywhere gives a missing value. *)
Theorem C101_linear_reference : forall T S p r,
  (forall t s x, T = Fin t -> S = Fin s -> r = Fin x ->
     linear_density_ref T S p (Some r) = Fin (1000 - 0.2 * t + 0.8 * s - x) /\
     linear_density_ref T S p None = Fin (1000 - 0.2 * t + 0.8 * s)) /\
  (T = NaN \/ S = NaN \/ r = NaN -> linear_density_ref T S p (Some r) = NaN).
Proof.
  intros T S p r. split.
  - intros t s x -> -> ->. unfold linear_density_ref, RHO_T0_S0, DRHO_DT, DRHO_DS. cbn. split; f_equal; lra.
  - unfold linear_density_ref, RHO_T0_S0, DRHO_DT, DRHO_DS.
    intros [->|[->| ->]]; [destruct r, S|destruct r, T|destruct T, S]; cbn; try reflexivity;
      repeat (match goal with |- context [if ?b then _ else _] => destruct b end; try reflexivity).
Qed.
Print Assumptions C101_linear_reference.
Example C101_case : linear_density_ref (Fin 10) (Fin 35) (Fin 0) (Some (Fin 1000)) = Fin 26.
Proof. rewrite (proj1 (proj1 (C101_linear_reference (Fin 10) (Fin 35) (Fin 0) (Fin 1000)) _ _ _ eq_refl eq_refl eq_refl)). f_equal. lra. Qed.
