(** * PropertiesAttrs: C158 (attributes of density, potential density and the expansion coefficients) *)
From Coq Require Import Reals Lra List String Bool ZArith.
From Verif Require Import Num NumFacts Py Arr ArrFacts Eos Derived Attrs Meta TestMeta SpecEos ProofsEosApi SpecEos ProofsEosApi ProofsFields PropertiesEos SpecUnits PropertiesUnits PropertiesFields ProofsFields3 ProofsFields2 ProofsEosApi.
Import ListNotations.
Local Open Scope string_scope.
Local Open Scope R_scope.

(** The comment names, up to capitals, the equation of state [m]. *)
Definition names_eos (attrs : dict string) (m : eos_module) : Prop :=
  exists name, dget "comment" attrs = Some ("calculated with the " ++ name ++ " equation of state") /\ same_name name (module_name m).

Theorem C158_comment : forall ti T S p eos r,
  (calc_rho T S p eos = Ok r -> exists m, names_eos (calc_rho_attrs eos) m /\
     forall e, at_ r e = eos_apply false (m, FDensity) (at_ T e) (at_ S e) (at_ p e)) /\
  (calc_alpha ti T S p eos = Ok r -> exists m, names_eos (calc_alpha_attrs eos) m /\
     forall e, at_ r e = eos_apply ti (m, FAlpha) (at_ T e) (at_ S e) (at_ p e)) /\
  (calc_beta ti T S p eos = Ok r -> exists m, names_eos (calc_beta_attrs eos) m /\
     forall e, at_ r e = eos_apply ti (m, FBeta) (at_ T e) (at_ S e) (at_ p e)) /\
  (forall level text, calc_pdens T S level p eos = Ok r -> exists m, names_eos (calc_pdens_attrs eos text) m /\
     forall e, at_ r e = eos_apply false (m, FDensity) (at_ T e) (at_ S e) (fadd (fmul level (Fin 10000)) (at_ p e))).
Proof.
  intros ti T S p eos r.
  split; [|split; [|split]].
  - intros H. destruct (eos_calc_pointwise _ _ _ _ _ _ _ H) as (m & N & V & _). exists m. split; [exists eos; split; [reflexivity|exact N]|exact V].
  - intros H. destruct (eos_calc_pointwise _ _ _ _ _ _ _ H) as (m & N & V & _). exists m. split; [exists eos; split; [reflexivity|exact N]|exact V].
  - intros H. destruct (eos_calc_pointwise _ _ _ _ _ _ _ H) as (m & N & V & _). exists m. split; [exists eos; split; [reflexivity|exact N]|exact V].
  - intros level text H. unfold calc_pdens in H. apply bind_inv in H as (? & _ & H).
    destruct (eos_calc_pointwise _ _ _ _ _ _ _ H) as (m & N & V & _). exists m. split; [exists eos; split; [reflexivity|exact N]|exact V].
Qed.
Print Assumptions C158_comment.

(** The units in [attrs] are one over the units of the variable [var] of the generated data. *)
Definition per_unit (vars : dict Meta.meta) (var : string) (attrs : dict string) : Prop :=
  exists a u w, dget var vars = Some a /\ dget "units" (Meta.m_attrs a) = Some u /\ dget "units" attrs = Some w /\ same_name w (u ++ "-1").

Theorem C158_units : forall m nyears calendar vars eos T S p r,
  generate_test_data_meta nyears calendar = Ok vars ->
  eos_apply false (m, FDensity) (Fin T) (Fin S) (Fin p) = Fin r -> r <> 0 ->
  exists dT dS,
    derivable_pt_lim (fun t => val (eos_apply false (m, FDensity) (Fin t) (Fin S) (Fin p))) T dT /\
    derivable_pt_lim (fun s => val (eos_apply false (m, FDensity) (Fin T) (Fin s) (Fin p))) S dS /\
    eos_apply false (m, FAlpha) (Fin T) (Fin S) (Fin p) = Fin (- (1 / r) * dT) /\ per_unit vars "thetao" (calc_alpha_attrs eos) /\
    eos_apply false (m, FBeta) (Fin T) (Fin S) (Fin p) = Fin ((1 / r) * dS) /\ per_unit vars "so" (calc_beta_attrs eos).
Proof.
  intros m nyears calendar vars eos T S p r Hv Hr Nr.
  assert (P1 : per_unit vars "thetao" (calc_alpha_attrs eos)).
  { destruct nyears; vm_compute in Hv; injection Hv as <-; do 3 eexists; repeat split; try reflexivity; apply same_name_lower; reflexivity. }
  assert (P2 : per_unit vars "so" (calc_beta_attrs eos)).
  { destruct nyears; vm_compute in Hv; injection Hv as <-; do 3 eexists; repeat split; try reflexivity; apply same_name_lower; reflexivity. }
  destruct m; cbn [eos_apply] in *.
  - destruct (C03_wright_alpha_beta T S p r Hr Nr) as (dT & dS & A & B & C & D). exists dT, dS. auto 10.
  - destruct (C03_linear_alpha_beta T S p r Hr Nr) as (dT & dS & A & B & _ & _ & C & D). exists dT, dS. auto 10.
Qed.
Print Assumptions C158_units.

(** The stability angle is an angle in the units its attributes name. *)
Definition full_turn (w : string) : option R :=
  if String.eqb w "degrees" then Some 360 else if String.eqb w "radians" then Some (2 * PI) else None.

Theorem C158_angle : forall ti t s p z eos zc r al be dt ds e a b x y,
  calc_stability_angle ti t s p z eos zc = Ok r ->
  calc_alpha ti t s p eos = Ok al -> calc_beta ti t s p eos = Ok be ->
  differentiate zc z t = Ok dt -> differentiate zc z s = Ok ds ->
  at_ al e = Fin a -> at_ be e = Fin b -> at_ dt e = Fin x -> at_ ds e = Fin y -> a * x <> 0 -> b * y <> a * x ->
  exists w T ang, dget "units" calc_stability_angle_attrs = Some w /\ full_turn w = Some T /\ at_ r e = Fin ang /\
    tan (ang / T * (2 * PI)) = (a * x + b * y) / (a * x - b * y) /\ Rabs ang < T / 4.
Proof.
  intros ti t s p z eos zc r al be dt ds e a b x y H Ha Hb Ht Hs Ea Eb Ex Ey N1 N2.
  destruct (C25_stability_angle ti t s p z eos zc r al be dt ds e a b x y H Ha Hb Ht Hs Ea Eb Ex Ey) as [_ F].
  destruct (F N1) as (ang & Er & B & Q & V & _). exists "degrees", 360, ang. split; [reflexivity|]. split; [reflexivity|]. split; [exact Er|]. split.
  - replace (ang / 360 * (2 * PI)) with (ang * PI / 180) by field. exact (V N2).
  - assert (ang <> 90) by (intros E; apply N2, Q, E). apply Rabs_def1; lra.
Qed.
Print Assumptions C158_angle.

(** The inverse barometer height is a length: with pressure in pascal, density in the units of [calc_rho] and gravity in
    metres per square second, the hydrostatic relation holds between the quantities, in any system of units. *)
Theorem C158_barometer : forall t s p g eos h, inverse_barometer t s p (Fin g) eos = Ok h -> g <> 0 ->
  exists rho up ur ug u, calc_rho t s p eos = Ok rho /\
    parse_units "kg m-1 s-2" = Some up /\ units_of (calc_rho_attrs eos) = Some ur /\ parse_units "m s-2" = Some ug /\
    units_of inverse_barometer_attrs = Some u /\
    forall l tt m e q d, 0 < l -> 0 < tt -> 0 < m -> at_ p e = Fin q -> at_ rho e = Fin d -> d <> 0 ->
      exists x, at_ h e = Fin x /\
        quantity ur (change l tt m ur * d) * quantity ug (change l tt m ug * g) * quantity u (change l tt m u * x) = - quantity up (change l tt m up * q).
Proof.
  intros t s p g eos h H G. destruct (C10_hydrostatic t s p g eos h H G) as (rho & Er & V).
  exists rho, (mkU 0 (-1) (-2) 1), (mkU 0 (-3) 0 1), (mkU 0 1 (-2) 0), (mkU 0 1 0 0). split; [exact Er|]. do 4 (split; [reflexivity|]). intros l tt m e q d Pl Pt Pm Eq Ed Nd.
  destruct (V e) as [W _]. destruct (W d q Ed Nd Eq) as (x & Ex & X). exists x. split; [exact Ex|].
  replace q with (- (d * g * x)) by lra. unfold quantity, change. cbn [u10 uL uT uM].
  change (powerRZ l (-3)) with (/ (l * (l * (l * 1)))). change (powerRZ l (-1)) with (/ (l * 1)). change (powerRZ tt (-2)) with (/ (tt * (tt * 1))).
  cbn [powerRZ]. change (Pos.to_nat 1) with 1%nat. cbn [pow]. field. repeat split; apply Rgt_not_eq; assumption.
Qed.
Print Assumptions C158_barometer.

Example C158_case : (exists vars, generate_test_data_meta 2 "noleap" = Ok vars) /\
  (exists r, eos_apply false (Wright, FDensity) (Fin 10) (Fin 35) (Fin 10000000) = Fin r /\ r <> 0) /\
  (exists r, calc_alpha false (mkArr [("x", 2%nat)] (fun _ => Fin 10)) (mkArr [("x", 2%nat)] (fun _ => Fin 35)) (mkArr [("x", 2%nat)] (fun _ => Fin 0)) "LINEAR" = Ok r) /\
  names_eos (calc_alpha_attrs "LINEAR") Linear /\ ~ names_eos (calc_alpha_attrs "LINEAR") Wright.
Proof.
  split; [eexists; vm_compute; reflexivity|]. split; [exact (proj2 C01_C02_C03_nonvacuous)|].
  split; [eexists; reflexivity|]. split.
  - exists "LINEAR". split; [reflexivity|]. apply same_name_lower. reflexivity.
  - intros (n & E & N). apply same_name_lower in N. cbn in E. injection E as E.
    destruct n as [|c n]; [discriminate N|]. cbn in E. injection E as <- _. discriminate N.
Qed.

Example C158_case_angle : exists t s r al be dt ds e a b x y,
  calc_stability_angle false t s (scalar (Fin 101325)) ProofsFields3.w_z "Linear" "z_l" = Ok r /\
  calc_alpha false t s (scalar (Fin 101325)) "Linear" = Ok al /\ calc_beta false t s (scalar (Fin 101325)) "Linear" = Ok be /\
  differentiate "z_l" ProofsFields3.w_z t = Ok dt /\ differentiate "z_l" ProofsFields3.w_z s = Ok ds /\
  at_ al e = Fin a /\ at_ be e = Fin b /\ at_ dt e = Fin x /\ at_ ds e = Fin y /\ a * x <> 0 /\ b * y <> a * x.
Proof.
  destruct (C26_case true) as (r & al & be & dt & ds & a & b & ang & H & Ha & Hb & Ht & Hs & Ea & Eb & Ex & Ey & Er & B & _).
  destruct (C25_stability_angle _ _ _ _ _ _ _ _ _ _ _ _ _ _ _ _ _ H Ha Hb Ht Hs Ea Eb Ex Ey) as [Z F]. cbv iota in Ex, Ey, Z, F.
  assert (N : a * 1 <> 0) by (intros E; rewrite (Z E) in Er; discriminate Er).
  destruct (F N) as (ang' & Er' & _ & Q & _). rewrite Er in Er'. injection Er' as <-.
  exists (c26_T true), (c26_T false), r, al, be, dt, ds, ProofsFields3.w_e, a, b, 1, (-1). repeat (split; [eassumption|]). intros E. apply Q in E. lra.
Qed.
Example C158_case_barometer : exists h rho x d, inverse_barometer (ex_arr 10) (ex_arr 35) (ex_arr 101325) (Fin 9.8) "Linear" = Ok h /\
  calc_rho (ex_arr 10) (ex_arr 35) (ex_arr 101325) "Linear" = Ok rho /\ at_ rho (fun _ => O) = Fin d /\ d <> 0 /\ at_ h (fun _ => O) = Fin x.
Proof.
  destruct (inverse_barometer (ex_arr 10) (ex_arr 35) (ex_arr 101325) (Fin 9.8) "Linear") as [h|] eqn:E; [|discriminate E].
  destruct (C10_hydrostatic _ _ _ _ _ _ E ltac:(lra)) as (rho & Er & V).
  assert (D : at_ rho (fun _ => O) = Fin (lin_rho 10 35)).
  { unfold calc_rho in Er. rewrite (calc_linear_inv _ _ _ _ _ _ _ (proj2 (same_name_lower "Linear" "linear") eq_refl) Er). apply linear_density_Fin. }
  assert (N : lin_rho 10 35 <> 0) by (unfold lin_rho; lra).
  destruct (proj1 (V (fun _ => O)) _ 101325 D N eq_refl) as (x & Ex & _). exists h, rho, x, (lin_rho 10 35). auto.
Qed.
