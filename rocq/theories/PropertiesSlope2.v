(** * PropertiesSlope2: C142, how strongly the global mean sea level reacts to temperature and salinity *)
From Coq Require Import Reals Lra Lia List String Bool Arith ZArith.
From Verif Require Import Num NumFacts Py Arr ArrFacts Eos SpecEos Derived SpecDz Dataset SpecSteric
  ProofsEos ProofsEosBox ProofsEosApi ProofsEosSlope ProofsFields ProofsFields2 ProofsDz ProofsBudget ProofsSteric ProofsSteric2 ProofsSteric3
  ProofsThermal ProofsSteric4 ProofsStericOk ProofsSteric5 ProofsStericDemo ProofsStericDemo2 PropertiesSteric PropertiesSteric6 PropertiesSteric7.
Import ListNotations.
Local Open Scope string_scope.
Local Open Scope R_scope.

Lemma ln_lipschitz c a b : 0 < c -> c <= a -> c <= b -> Rabs (ln a - ln b) <= Rabs (a - b) / c.
Proof.
  intros Hc Ha Hb. destruct (log_mean a b) as (r & B & E); try lra. assert (R : c <= r) by (unfold Rmin in B; destruct (Rle_dec a b); lra).
  rewrite <- E, Rabs_mult, (Rabs_right r) by lra. apply Rmult_le_reg_r with c; [exact Hc|].
  replace (r * Rabs (ln a - ln b) / c * c) with (Rabs (ln a - ln b) * r) by (field; lra).
  apply Rmult_le_compat_l; [apply Rabs_pos|exact R].
Qed.
Lemma ln_bounds c d a b : 0 < c -> c <= a <= d -> c <= b <= d -> b <= a -> (a - b) / d <= ln a - ln b <= (a - b) / c.
Proof.
  intros Hc Ha Hb L. destruct (log_mean a b) as (r & B & E); try lra. rewrite Rmin_right, Rmax_left in B by lra. rewrite <- E.
  assert (P : 0 <= ln a - ln b) by (destruct (Req_dec a b) as [->|N]; [lra|assert (X := ln_increasing b a ltac:(lra) ltac:(lra)); lra]).
  split; [apply Rmult_le_reg_r with d; [lra|]|apply Rmult_le_reg_r with c; [lra|]];
  [replace (r * (ln a - ln b) / d * d) with (r * (ln a - ln b)) by (field; lra); rewrite (Rmult_comm (ln a - ln b))
  |replace (r * (ln a - ln b) / c * c) with (r * (ln a - ln b)) by (field; lra); rewrite (Rmult_comm (ln a - ln b))]; apply Rmult_le_compat_r; lra.
Qed.
Lemma Rsum_box_abs ds F e : NoDup (map fst ds) -> Rabs (Rsum_box ds F e) <= Rsum_box ds (fun e' => Rabs (F e')) e.
Proof.
  intros N. apply Rabs_le. split; [|apply Rsum_box_le; [exact N|]; intros e' _; apply Rle_abs].
  replace (- Rsum_box ds (fun e' => Rabs (F e')) e) with ((-1) * Rsum_box ds (fun e' => Rabs (F e')) e) by ring.
  rewrite <- Rsum_box_scal. apply Rsum_box_le; [exact N|]. intros e' _. assert (X := Rle_abs (- F e')). rewrite Rabs_Ropp in X. lra.
Qed.

(** In every wet cell of the grid temperature and salinity, at each time and at time level [i], are those of sea water. *)
Definition ocean_cells (dims : list (string * nat)) (t : string) (i : nat) (T Sa V : arr) (p : index -> R) : Prop :=
  forall e v, (forall d n, In (d, n) dims -> (e d < n)%nat) -> held true t i V e = Fin v -> 0 <= v /\
    exists a b a0 b0, at_ T e = Fin a /\ at_ Sa e = Fin b /\ at_ T (upd e t i) = Fin a0 /\ at_ Sa (upd e t i) = Fin b0 /\
      ocean_box a b (p e) /\ ocean_box a0 b0 (p e).
(** Volume of the cell at time level [i], and change of a field since then (none if it is held fixed) *)
Definition cell_volume (t : string) (i : nat) (V : arr) (e : index) : R := odef (opt (held true t i V e)).
Definition since (fixed : bool) (t : string) (i : nat) (a : arr) (e : index) : R := odef (opt (held fixed t i a e)) - odef (opt (held true t i a e)).

Section Masses.
Variables (dims : list (string * nat)) (t : string) (i : nat) (T Sa V : arr) (p : index -> R).
Hypothesis ND : NoDup (map fst dims).
Hypothesis NI : forall e s, at_ V e <> Inf s.
Hypothesis OC : ocean_cells dims t i T Sa V p.
Let M fT fS e := water_mass Wright dims fT fS t i T Sa V p e.
Let vol := cell_volume t i V.
Let volume e := Rsum_box dims vol e.
Let dT f e := since f t i T e.
Let dS f e := since f t i Sa e.
Let rho fT fS e := odef (cell_density Wright (held fT t i T e) (held fS t i Sa e) (p e)).

Lemma cell_cases e0 e : in_box dims e0 e -> (vol e = 0) \/
  (0 <= vol e /\ exists a b a0 b0, ocean_box a b (p e) /\ ocean_box a0 b0 (p e) /\
    (forall fT fS, rho fT fS e = wr_rho (if fT then a0 else a) (if fS then b0 else b) (p e)) /\
    (forall f, dT f e = (if f then a0 else a) - a0) /\ (forall f, dS f e = (if f then b0 else b) - b0)).
Proof.
  intros [R _]. unfold vol, cell_volume. destruct (held true t i V e) as [|s|v] eqn:EV; [left; reflexivity|destruct (NI _ _ EV)|right].
  destruct (OC e v R EV) as (P & a & b & a0 & b0 & A & B & A0 & B0 & O & O0). split; [exact P|]. exists a, b, a0, b0. split; [exact O|]. split; [exact O0|].
  unfold rho, dT, dS, since, held. split; [|split].
  - intros fT fS. destruct fT, fS; rewrite ?A, ?B, ?A0, ?B0; reflexivity.
  - intros f. destruct f; rewrite ?A, ?A0; reflexivity.
  - intros f. destruct f; rewrite ?B, ?B0; reflexivity.
Qed.
Lemma box_mix a b a0 b0 q (f g : bool) : ocean_box a b q -> ocean_box a0 b0 q -> ocean_box (if f then a0 else a) (if g then b0 else b) q.
Proof. unfold ocean_box. destruct f, g; tauto. Qed.
Lemma mass_form fT fS e : M fT fS e = Rsum_box dims (fun e' => rho fT fS e' * vol e') e.
Proof. reflexivity. Qed.
Lemma mass_range fT fS e : 980 * volume e <= M fT fS e <= 1100 * volume e.
Proof.
  rewrite mass_form. unfold volume. rewrite <- !Rsum_box_scal.
  split; (apply Rsum_box_le; [exact ND|]; intros e' He; destruct (cell_cases e e' He) as [-> |(P & a & b & a0 & b0 & O & O0 & R & _ & _)]; [lra|];
    rewrite R; assert (X := rho_bounds _ _ _ (box_mix a b a0 b0 (p e') fT fS O O0)); apply Rmult_le_compat_r; lra).
Qed.
Lemma mass_diff fT fS e : M fT fS e - M true true e = Rsum_box dims (fun e' => (rho fT fS e' - rho true true e') * vol e') e.
Proof.
  rewrite !mass_form. replace (Rsum_box dims (fun e' => rho fT fS e' * vol e') e - Rsum_box dims (fun e' => rho true true e' * vol e') e)
    with (Rsum_box dims (fun e' => rho fT fS e' * vol e') e + (-1) * Rsum_box dims (fun e' => rho true true e' * vol e') e) by ring.
  rewrite <- Rsum_box_scal, <- Rsum_box_plus. apply Rsum_box_ext. intros e'. ring.
Qed.
Lemma mass_change fT fS e : Rabs (M fT fS e - M true true e) <= Rsum_box dims (fun e' => vol e' * (0.5 * Rabs (dT fT e') + 0.83 * Rabs (dS fS e'))) e.
Proof.
  rewrite mass_diff. eapply Rle_trans; [apply Rsum_box_abs, ND|]. apply Rsum_box_le; [exact ND|]. intros e' He.
  destruct (cell_cases e e' He) as [-> |(P & a & b & a0 & b0 & O & O0 & R & ET & ES)]; [rewrite Rmult_0_r, Rmult_0_l, Rabs_R0; lra|].
  rewrite !R, ET, ES, Rabs_mult, (Rabs_right (vol e')), Rmult_comm by lra. apply Rmult_le_compat_l; [exact P|].
  set (x := if fT then a0 else a). set (y := if fS then b0 else b).
  assert (B1 : ocean_box x y (p e')) by (apply box_mix; assumption). assert (B2 : ocean_box a0 y (p e')) by (apply (box_mix a b a0 b0 (p e') true fS); assumption).
  destruct (diff_T a0 x y (p e') B2 B1) as (c & C & E1). destruct (diff_S a0 b0 y (p e') O0 B2) as (d & D & E2).
  replace (wr_rho x y (p e') - wr_rho a0 b0 (p e')) with (c * (x - a0) + d * (y - b0)) by (rewrite <- E1, <- E2; ring).
  eapply Rle_trans; [apply Rabs_triang|]. rewrite !Rabs_mult. apply Rplus_le_compat; (apply Rmult_le_compat_r; [apply Rabs_pos|]).
  - apply Rabs_le. lra.
  - rewrite Rabs_right; lra.
Qed.
Lemma mass_fresh e : (forall e', in_box dims e e' -> vol e' <> 0 -> dS false e' <= 0) ->
  0.65 * Rsum_box dims (fun e' => vol e' * - dS false e') e <= M true true e - M true false e <= 0.83 * Rsum_box dims (fun e' => vol e' * - dS false e') e.
Proof.
  intros F. replace (M true true e - M true false e) with ((-1) * (M true false e - M true true e)) by ring. rewrite mass_diff, <- !Rsum_box_scal.
  split; (apply Rsum_box_le; [exact ND|]; intros e' He; specialize (F e' He);
    destruct (cell_cases e e' He) as [Z |(P & a & b & a0 & b0 & O & O0 & R & ET & ES)]; [rewrite Z; lra|];
    destruct (Req_dec (vol e') 0) as [Z|N]; [rewrite Z; lra|]; specialize (F N); rewrite !R, ES in *; cbv iota in *;
    assert (B : ocean_box a0 b (p e')) by (apply (box_mix a b a0 b0 (p e') true false); assumption);
    destruct (diff_S a0 b0 b (p e') O0 B) as (d & D & ->)).
  - replace (-1 * (d * (b - b0) * vol e')) with (d * (vol e' * - (b - b0))) by ring. apply Rmult_le_compat_r; [apply Rmult_le_pos; lra|lra].
  - replace (-1 * (d * (b - b0) * vol e')) with (d * (vol e' * - (b - b0))) by ring. apply Rmult_le_compat_r; [apply Rmult_le_pos; lra|lra].
Qed.
Lemma mass_mixed e : Rabs (M false false e - M true false e - M false true e + M true true e) <= 0.0051 * Rsum_box dims (fun e' => vol e' * (Rabs (dT false e') * Rabs (dS false e'))) e.
Proof.
  rewrite !mass_form.
  assert (X : Rsum_box dims (fun e' => rho false false e' * vol e') e - Rsum_box dims (fun e' => rho true false e' * vol e') e - Rsum_box dims (fun e' => rho false true e' * vol e') e + Rsum_box dims (fun e' => rho true true e' * vol e') e
    = Rsum_box dims (fun e' => (rho false false e' - rho false true e' - rho true false e' + rho true true e') * vol e') e).
  { set (A := Rsum_box dims (fun e' => rho false false e' * vol e') e). set (B := Rsum_box dims (fun e' => rho true false e' * vol e') e).
    set (C := Rsum_box dims (fun e' => rho false true e' * vol e') e). set (D := Rsum_box dims (fun e' => rho true true e' * vol e') e).
    replace (A - B - C + D) with ((A + (-1) * B) + ((-1) * C + D)) by ring. unfold A, B, C, D. rewrite <- !Rsum_box_scal, <- !Rsum_box_plus. apply Rsum_box_ext. intros e'. ring. }
  rewrite X, <- Rsum_box_scal. eapply Rle_trans; [apply Rsum_box_abs, ND|]. apply Rsum_box_le; [exact ND|]. intros e' He.
  destruct (cell_cases e e' He) as [-> |(P & a & b & a0 & b0 & O & O0 & R & ET & ES)]; [rewrite Rmult_0_r, Rmult_0_l, Rabs_R0; lra|].
  rewrite !R, ET, ES. cbv iota. destruct (diff_TS a0 a b0 b (p e') O0 O) as (c & C & ->).
  rewrite !Rabs_mult, (Rabs_right (vol e')) by lra.
  replace (0.0051 * (vol e' * (Rabs (a - a0) * Rabs (b - b0)))) with (0.0051 * (Rabs (a - a0) * Rabs (b - b0)) * vol e') by ring.
  apply Rmult_le_compat_r; [exact P|]. apply Rmult_le_compat_r; [apply Rmult_le_pos; apply Rabs_pos|exact C].
Qed.
End Masses.

(** The run: the reference state is built from the data and all three heights are computed. *)
Definition global_run ds cn rhozero pa eos strict k ref (variant : string) (s : arr) : Prop :=
  setup_reference_state ds (scalar (Fin pa)) eos cn k = Ok ref /\
  exists r, steric ds (Some ref) cn None rhozero (scalar (Fin pa)) eos variant "global" strict = Ok (r, ref) /\ dget variant r = Some s.

Section Run.
Variables (ds : dataset) (t z y x zb zn : string) (nt nz ny nx : nat) (T Sa V area depth zl zi : arr)
  (pa : R) (eos : string) (cn : option (dict string)) (rhozero : R) (strict : bool) (k : Z) (i : nat) (p : index -> R).
Hypothesis RG : regular ds t z y x zb zn nt nz ny nx T Sa V area depth zl zi.
Hypothesis WF : wf_ds ds.
Hypothesis Hm : same_name eos "wright".
Hypothesis Hc : default_coords cn = (t, z, zb).
Hypothesis Ha : strict = true -> validate_areacello area (Fin 361110920000000%R) (Fin (2 / 100)%R) = true.
Hypothesis Hr : rhozero <> 0.
Hypothesis Hk : selects k nt i.
Hypothesis FO : field_ok Wright T Sa V zl (scalar (Fin pa)) p.
Hypothesis DEF : forall e a b fT fS, held fT t i T e = Fin a -> held fS t i Sa e = Fin b -> eos_defined Wright a b (p e).
Let dims := [(z, nz); (y, ny); (x, nx)].
Hypothesis OC : ocean_cells dims t i T Sa V p.
Hypothesis IA : no_inf area.
Hypothesis PA : forall e, 0 < total_area area e.
Hypothesis PV : forall e, 0 < Rsum_box dims (cell_volume t i V) e.
Let volume e := Rsum_box dims (cell_volume t i V) e.
Let M fT fS e := water_mass Wright dims fT fS t i T Sa V p e.

Lemma dims_nodup : NoDup (map fst dims).
Proof. assert (RG' := RG). destruct RG'. inversion rg_names; assumption. Qed.
Lemma V_fin e s : at_ V e <> Inf s.
Proof. destruct (FO e) as (_ & _ & A & _). apply A. Qed.
Lemma M_range fT fS e : 980 * volume e <= M fT fS e <= 1100 * volume e.
Proof. apply (mass_range dims t i T Sa V p dims_nodup V_fin OC). Qed.

Lemma run_height : exists ref, forall variant, In variant ["steric"; "thermosteric"; "halosteric"] ->
  exists s, global_run ds cn rhozero pa eos strict k ref variant s /\
  forall e, at_ s e = Fin (volume e / total_area area e * (ln (M true true e / volume e) - ln (M (fixes_T variant) (fixes_S variant) e / volume e))).
Proof.
  assert (HM : same_name eos (module_name Wright)) by exact Hm.

  destruct (level_fields _ _ _ _ _ _ _ _ _ _ _ _ _ _ _ _ _ _ _ _ _ _ _ RG HM Hc WF FO k i Hk)
    as (T0 & S0 & V0 & rho0 & volo & masso & rhoga & E & D1 & D2 & D3 & D4 & D5 & D6 & D7 & E1 & E2 & E3 & E4 & E5 & E6).
  eexists. intros variant Hvar.
  destruct (steric_ok_given _ _ _ _ _ _ _ _ _ _ _ _ _ _ _ _ _ _ RG strict (Fin pa) eos Wright HM Ha cn rhozero variant "global" Hc Hvar
    T0 S0 V0 rho0 volo masso rhoga D1 D2 D3 D4 D5 D6 D7 (fun _ => Hr)) as (rg & Rg).
  assert (MP : forall fT fS e, 0 < M fT fS e) by (intros fT fS e; assert (X := M_range fT fS e); assert (Y := PV e); unfold volume in X; lra).
  destruct (both_global _ _ _ _ _ _ _ _ _ _ _ _ _ _ _ _ _ _ pa eos Wright cn p RG HM Hc FO i T0 S0 V0 rho0 volo masso rhoga D1 D2 D3 E1 E2 E3 E5 E6 variant Hvar
    (fun e a b => DEF e a b _ _) rhozero strict rg IA PA PV (MP _ _) (MP _ _) Rg) as (sg & Hsg & Vsg).
  exists sg. split; [split; [exact E|exists rg; split; assumption]|exact Vsg].
Qed.
Lemma mean_range fT fS e : 980 <= M fT fS e / volume e <= 1100.
Proof.
  assert (X := M_range fT fS e). assert (Y := PV e). fold (volume e) in Y.
  split; apply Rmult_le_reg_r with (volume e); try exact Y; unfold Rdiv; rewrite Rmult_assoc, Rinv_l, Rmult_1_r by lra; lra.
Qed.
Lemma height_bound fT fS e : Rabs (volume e / total_area area e * (ln (M true true e / volume e) - ln (M fT fS e / volume e))) <=
  1 / (980 * total_area area e) * Rabs (M fT fS e - M true true e).
Proof.
  assert (Y := PV e). fold (volume e) in Y. assert (A := PA e).
  assert (L := ln_lipschitz 980 (M true true e / volume e) (M fT fS e / volume e) ltac:(lra) (proj1 (mean_range _ _ e)) (proj1 (mean_range _ _ e))).
  rewrite Rabs_mult, (Rabs_right (volume e / total_area area e)) by (apply Rle_ge, Rlt_le, Rdiv_lt_0_compat; assumption).
  apply Rmult_le_compat_l with (r := volume e / total_area area e) in L; [|apply Rlt_le, Rdiv_lt_0_compat; assumption].
  eapply Rle_trans; [exact L|].
  replace (M true true e / volume e - M fT fS e / volume e) with ((M true true e - M fT fS e) / volume e) by (field; lra).
  unfold Rdiv at 3. rewrite Rabs_mult, (Rabs_right (/ volume e)), (Rabs_minus_sym (M true true e)) by (apply Rle_ge, Rlt_le, Rinv_0_lt_compat; exact Y).
  apply Req_le. field. split; lra.
Qed.
Lemma height_fresh e : M true false e <= M true true e ->
  1 / (1100 * total_area area e) * (M true true e - M true false e) <= volume e / total_area area e * (ln (M true true e / volume e) - ln (M true false e / volume e))
    <= 1 / (980 * total_area area e) * (M true true e - M true false e).
Proof.
  intros L. assert (Y := PV e). fold (volume e) in Y. assert (A := PA e).
  assert (L' : M true false e / volume e <= M true true e / volume e) by (apply Rmult_le_compat_r; [apply Rlt_le, Rinv_0_lt_compat; exact Y|exact L]).
  destruct (ln_bounds 980 1100 _ _ ltac:(lra) (mean_range true true e) (mean_range true false e) L') as (B1 & B2).
  replace (M true true e / volume e - M true false e / volume e) with ((M true true e - M true false e) / volume e) in * by (field; lra).
  assert (P : 0 <= volume e / total_area area e) by (apply Rlt_le, Rdiv_lt_0_compat; assumption).
  apply Rmult_le_compat_l with (r := volume e / total_area area e) in B1; [|exact P].
  apply Rmult_le_compat_l with (r := volume e / total_area area e) in B2; [|exact P].
  split; [eapply Rle_trans; [|exact B1]|eapply Rle_trans; [exact B2|]]; apply Req_le; field; split; lra.
Qed.
Lemma height_mixed e : let D := Rabs (M false false e - M true false e - M false true e + M true true e) in
  let P := Rabs (M false true e - M true true e) in let Q := Rabs (M true false e - M true true e) in
  let h fT fS := volume e / total_area area e * (ln (M true true e / volume e) - ln (M fT fS e / volume e)) in
  Rabs (h false false - (h false true + h true false)) <= 1 / total_area area e * ((1100 * D + P * Q / volume e) / (980 * 980)).
Proof.
  intros D P Q h. assert (Y := PV e). fold (volume e) in Y. assert (A := PA e).
  assert (R1 := mean_range true true e). assert (R2 := mean_range true false e). assert (R3 := mean_range false true e). assert (R4 := mean_range false false e).
  unfold h. set (v := volume e) in *. set (a := M true true e / v) in *. set (b := M true false e / v) in *. set (c := M false true e / v) in *. set (d := M false false e / v) in *.
  replace (v / total_area area e * (ln a - ln d) - (v / total_area area e * (ln a - ln c) + v / total_area area e * (ln a - ln b)))
    with (v / total_area area e * (ln (c * b) - ln (d * a))) by (rewrite !ln_mult by lra; ring).
  assert (B1 : 980 * 980 <= c * b) by (apply Rmult_le_compat; lra). assert (B2 : 980 * 980 <= d * a) by (apply Rmult_le_compat; lra).
  assert (L := ln_lipschitz (980 * 980) (c * b) (d * a) ltac:(lra) B1 B2).
  rewrite Rabs_mult, (Rabs_right (v / total_area area e)) by (apply Rle_ge, Rlt_le, Rdiv_lt_0_compat; assumption).
  assert (E : Rabs (c * b - d * a) <= (1100 * D + P * Q / v) / v).
  { replace (c * b - d * a) with ((c - a) * (b - a) + - (a * (d - b - c + a))) by ring.
    eapply Rle_trans; [apply Rabs_triang|]. rewrite Rabs_Ropp, !Rabs_mult, (Rabs_right a) by lra.
    assert (I : 0 < / v) by (apply Rinv_0_lt_compat; exact Y).
    assert (X1 : Rabs (c - a) = P * / v) by (unfold P; rewrite <- (Rabs_right (/ v)) by lra; rewrite <- Rabs_mult; f_equal; unfold c, a; field; lra).
    assert (X2 : Rabs (b - a) = Q * / v) by (unfold Q; rewrite <- (Rabs_right (/ v)) by lra; rewrite <- Rabs_mult; f_equal; unfold b, a; field; lra).
    assert (X3 : Rabs (d - b - c + a) = D * / v) by (unfold D; rewrite <- (Rabs_right (/ v)) by lra; rewrite <- Rabs_mult; f_equal; unfold d, b, c, a; field; lra).
    rewrite X1, X2, X3. assert (ZD : 0 <= D * / v) by (apply Rmult_le_pos; [apply Rabs_pos|lra]).
    assert (W : a * (D * / v) <= 1100 * (D * / v)) by (apply Rmult_le_compat_r; lra). unfold Rdiv. lra. }
  assert (P0 : 0 <= v / total_area area e) by (apply Rlt_le, Rdiv_lt_0_compat; assumption).
  assert (L2 : Rabs (ln (c * b) - ln (d * a)) <= (1100 * D + P * Q / v) / v / (980 * 980)).
  { eapply Rle_trans; [exact L|]. apply Rmult_le_compat_r; [apply Rlt_le, Rinv_0_lt_compat; lra|exact E]. }
  apply Rmult_le_compat_l with (r := v / total_area area e) in L2; [|exact P0]. eapply Rle_trans; [exact L2|]. apply Req_le. field. split; lra.
Qed.
End Run.

(** C142: with the Wright equation the global steric, thermosteric and halosteric heights are bounded by the volume-weighted
    changes of temperature and salinity since the reference time, divided by 980 kg/m3 and the area of the ocean. *)
Theorem C142_bound : forall ds t z y x zb zn nt nz ny nx T Sa V area depth zl zi pa eos cn rhozero strict k i p,
  regular ds t z y x zb zn nt nz ny nx T Sa V area depth zl zi -> wf_ds ds -> same_name eos "wright" -> default_coords cn = (t, z, zb) ->
  (strict = true -> validate_areacello area (Fin 361110920000000%R) (Fin (2 / 100)%R) = true) -> rhozero <> 0 -> selects k nt i ->
  field_ok Wright T Sa V zl (scalar (Fin pa)) p ->
  (forall e a b fT fS, held fT t i T e = Fin a -> held fS t i Sa e = Fin b -> eos_defined Wright a b (p e)) ->
  let dims := [(z, nz); (y, ny); (x, nx)] in
  ocean_cells dims t i T Sa V p -> no_inf area -> (forall e, 0 < total_area area e) -> (forall e, 0 < Rsum_box dims (cell_volume t i V) e) ->
  exists ref, forall variant, In variant ["steric"; "thermosteric"; "halosteric"] -> exists s, global_run ds cn rhozero pa eos strict k ref variant s /\
    forall e, exists h, at_ s e = Fin h /\
      Rabs h <= 1 / (980 * total_area area e) *
        Rsum_box dims (fun e' => cell_volume t i V e' * (0.5 * Rabs (since (fixes_T variant) t i T e') + 0.83 * Rabs (since (fixes_S variant) t i Sa e'))) e.
Proof.
  intros ds t z y x zb zn nt nz ny nx T Sa V area depth zl zi pa eos cn rhozero strict k i p RG WF Hm Hc Ha Hr Hk FO DEF dims OC IA PA PV.
  destruct (run_height _ _ _ _ _ _ _ _ _ _ _ _ _ _ _ _ _ _ pa eos cn rhozero strict k i p RG WF Hm Hc Ha Hr Hk FO DEF OC IA PA PV) as (ref & H).
  exists ref. intros variant Hvar. destruct (H variant Hvar) as (s & G & Vs). exists s. split; [exact G|]. intros e. eexists. split; [apply Vs|].
  eapply Rle_trans; [apply (height_bound _ _ _ _ _ _ _ _ _ _ _ _ _ _ _ _ _ _ pa i p RG FO OC PA PV)|].
  apply Rmult_le_compat_l; [specialize (PA e); apply Rlt_le, Rdiv_lt_0_compat; lra|].
  apply (mass_change _ t i T Sa V p (dims_nodup _ _ _ _ _ _ _ _ _ _ _ _ _ _ _ _ _ _ RG) (V_fin _ _ _ _ _ _ FO) OC).
Qed.
Print Assumptions C142_bound.

(** An ocean that has not become saltier anywhere stands higher: by at least 0.65/1100 and at most 0.83/980 of the
    volume-weighted freshening divided by the area. *)
Theorem C142_freshening : forall ds t z y x zb zn nt nz ny nx T Sa V area depth zl zi pa eos cn rhozero strict k i p e,
  regular ds t z y x zb zn nt nz ny nx T Sa V area depth zl zi -> wf_ds ds -> same_name eos "wright" -> default_coords cn = (t, z, zb) ->
  (strict = true -> validate_areacello area (Fin 361110920000000%R) (Fin (2 / 100)%R) = true) -> rhozero <> 0 -> selects k nt i ->
  field_ok Wright T Sa V zl (scalar (Fin pa)) p ->
  (forall e a b fT fS, held fT t i T e = Fin a -> held fS t i Sa e = Fin b -> eos_defined Wright a b (p e)) ->
  let dims := [(z, nz); (y, ny); (x, nx)] in
  ocean_cells dims t i T Sa V p -> no_inf area -> (forall e, 0 < total_area area e) -> (forall e, 0 < Rsum_box dims (cell_volume t i V) e) ->
  (forall e', in_box dims e e' -> cell_volume t i V e' <> 0 -> since false t i Sa e' <= 0) ->
  exists ref s h, global_run ds cn rhozero pa eos strict k ref "halosteric" s /\ at_ s e = Fin h /\
    let F := Rsum_box dims (fun e' => cell_volume t i V e' * - since false t i Sa e') e / total_area area e in
    0 <= 0.65 / 1100 * F <= h /\ h <= 0.83 / 980 * F.
Proof.
  intros ds t z y x zb zn nt nz ny nx T Sa V area depth zl zi pa eos cn rhozero strict k i p e RG WF Hm Hc Ha Hr Hk FO DEF dims OC IA PA PV FR.
  destruct (run_height _ _ _ _ _ _ _ _ _ _ _ _ _ _ _ _ _ _ pa eos cn rhozero strict k i p RG WF Hm Hc Ha Hr Hk FO DEF OC IA PA PV) as (ref & H).
  destruct (H "halosteric" ltac:(cbn; tauto)) as (s & G & Vs). exists ref, s. eexists. split; [exact G|]. split; [apply Vs|]. cbv zeta.
  assert (ND := dims_nodup _ _ _ _ _ _ _ _ _ _ _ _ _ _ _ _ _ _ RG).
  destruct (mass_fresh _ t i T Sa V p ND (V_fin _ _ _ _ _ _ FO) OC e FR) as (B1 & B2).
  assert (N : 0 <= Rsum_box dims (fun e' => cell_volume t i V e' * - since false t i Sa e') e).
  { apply Rsum_box_nonneg; [exact ND|]. intros e' He. specialize (FR e' He).
    destruct (cell_cases dims t i T Sa V p (V_fin _ _ _ _ _ _ FO) OC e e' He) as [-> |(P & _)]; [lra|].
    destruct (Req_dec (cell_volume t i V e') 0) as [-> |Z]; [lra|]. specialize (FR Z). apply Rmult_le_pos; lra. }
  fold dims in B1, B2. set (X := Rsum_box dims (fun e' => cell_volume t i V e' * - since false t i Sa e') e) in *.
  change (fixes_T "halosteric") with true. change (fixes_S "halosteric") with false. assert (A := PA e).
  assert (C := height_fresh _ _ _ _ _ _ _ _ _ _ _ _ _ _ _ _ _ _ pa i p RG FO OC PA PV e). fold dims in C.
  destruct C as (C1 & C2); [lra|]. assert (I : 0 < / total_area area e) by (apply Rinv_0_lt_compat; exact A).
  split; [split|].
  - apply Rmult_le_pos; [lra|]. apply Rmult_le_pos; lra.
  - eapply Rle_trans; [|exact C1]. replace (0.65 / 1100 * (X / total_area area e)) with (1 / (1100 * total_area area e) * (0.65 * X)) by (field; lra).
    apply Rmult_le_compat_l; [apply Rlt_le, Rdiv_lt_0_compat; lra|exact B1].
  - eapply Rle_trans; [exact C2|]. replace (0.83 / 980 * (X / total_area area e)) with (1 / (980 * total_area area e) * (0.83 * X)) by (field; lra).
    apply Rmult_le_compat_l; [apply Rlt_le, Rdiv_lt_0_compat; lra|exact B2].
Qed.
Print Assumptions C142_freshening.

(** The global steric height differs from the sum of the thermosteric and halosteric heights by terms of second order only. *)
Theorem C142_nearly_additive : forall ds t z y x zb zn nt nz ny nx T Sa V area depth zl zi pa eos cn rhozero strict k i p,
  regular ds t z y x zb zn nt nz ny nx T Sa V area depth zl zi -> wf_ds ds -> same_name eos "wright" -> default_coords cn = (t, z, zb) ->
  (strict = true -> validate_areacello area (Fin 361110920000000%R) (Fin (2 / 100)%R) = true) -> rhozero <> 0 -> selects k nt i ->
  field_ok Wright T Sa V zl (scalar (Fin pa)) p ->
  (forall e a b fT fS, held fT t i T e = Fin a -> held fS t i Sa e = Fin b -> eos_defined Wright a b (p e)) ->
  let dims := [(z, nz); (y, ny); (x, nx)] in
  ocean_cells dims t i T Sa V p -> no_inf area -> (forall e, 0 < total_area area e) -> (forall e, 0 < Rsum_box dims (cell_volume t i V) e) ->
  exists ref s1 s2 s3, global_run ds cn rhozero pa eos strict k ref "steric" s1 /\ global_run ds cn rhozero pa eos strict k ref "thermosteric" s2 /\
    global_run ds cn rhozero pa eos strict k ref "halosteric" s3 /\
    forall e, exists h1 h2 h3, at_ s1 e = Fin h1 /\ at_ s2 e = Fin h2 /\ at_ s3 e = Fin h3 /\
      let warm e' := Rabs (since false t i T e') in let salt e' := Rabs (since false t i Sa e') in let v := cell_volume t i V in
      Rabs (h1 - (h2 + h3)) <= 1 / total_area area e *
        ((1100 * (0.0051 * Rsum_box dims (fun e' => v e' * (warm e' * salt e')) e) +
          (0.5 * Rsum_box dims (fun e' => v e' * warm e') e) * (0.83 * Rsum_box dims (fun e' => v e' * salt e') e) / Rsum_box dims v e) / (980 * 980)).
Proof.
  intros ds t z y x zb zn nt nz ny nx T Sa V area depth zl zi pa eos cn rhozero strict k i p RG WF Hm Hc Ha Hr Hk FO DEF dims OC IA PA PV.
  destruct (run_height _ _ _ _ _ _ _ _ _ _ _ _ _ _ _ _ _ _ pa eos cn rhozero strict k i p RG WF Hm Hc Ha Hr Hk FO DEF OC IA PA PV) as (ref & H).
  destruct (H "steric" ltac:(cbn; tauto)) as (s1 & G1 & V1). destruct (H "thermosteric" ltac:(cbn; tauto)) as (s2 & G2 & V2). destruct (H "halosteric" ltac:(cbn; tauto)) as (s3 & G3 & V3).
  exists ref, s1, s2, s3. split; [exact G1|]. split; [exact G2|]. split; [exact G3|]. intros e. do 3 eexists. split; [apply V1|]. split; [apply V2|]. split; [apply V3|]. cbv zeta.
  change (fixes_T "steric") with false. change (fixes_S "steric") with false. change (fixes_T "thermosteric") with false. change (fixes_S "thermosteric") with true.
  change (fixes_T "halosteric") with true. change (fixes_S "halosteric") with false.
  eapply Rle_trans; [apply (height_mixed _ _ _ _ _ _ _ _ _ _ _ _ _ _ _ _ _ _ pa i p RG FO OC PA PV e)|].
  assert (ND := dims_nodup _ _ _ _ _ _ _ _ _ _ _ _ _ _ _ _ _ _ RG). assert (NI := V_fin _ _ _ _ _ _ FO).
  assert (B0 := mass_mixed _ t i T Sa V p ND NI OC e). assert (B1 := mass_change _ t i T Sa V p ND NI OC false true e). assert (B2 := mass_change _ t i T Sa V p ND NI OC true false e).
  cbv beta zeta in B0, B1, B2. fold dims in B0, B1, B2 |- *.
  assert (B1' : Rsum_box dims (fun e' => cell_volume t i V e' * (0.5 * Rabs (since false t i T e') + 0.83 * Rabs (since true t i Sa e'))) e
     = 0.5 * Rsum_box dims (fun e' => cell_volume t i V e' * Rabs (since false t i T e')) e).
  { rewrite <- Rsum_box_scal. apply Rsum_box_ext. intros e'. replace (since true t i Sa e') with 0 by (unfold since; ring). rewrite Rabs_R0. ring. }
  assert (B2' : Rsum_box dims (fun e' => cell_volume t i V e' * (0.5 * Rabs (since true t i T e') + 0.83 * Rabs (since false t i Sa e'))) e
     = 0.83 * Rsum_box dims (fun e' => cell_volume t i V e' * Rabs (since false t i Sa e')) e).
  { rewrite <- Rsum_box_scal. apply Rsum_box_ext. intros e'. replace (since true t i T e') with 0 by (unfold since; ring). rewrite Rabs_R0. ring. }
  rewrite B1' in B1. rewrite B2' in B2. specialize (PA e). specialize (PV e). fold dims in PV.
  apply Rmult_le_compat_l; [apply Rlt_le, Rdiv_lt_0_compat; lra|]. apply Rmult_le_compat_r; [apply Rlt_le, Rinv_0_lt_compat; lra|].
  apply Rplus_le_compat; [apply Rmult_le_compat_l; [lra|exact B0]|].
  apply Rmult_le_compat_r; [apply Rlt_le, Rinv_0_lt_compat; exact PV|]. apply Rmult_le_compat; try apply Rabs_pos; assumption.
Qed.
Print Assumptions C142_nearly_additive.

(** Two months on four columns, two of them land; the second month is one degree warmer and one unit fresher. *)
Definition gf_S := mkArr d4 (fun e => Fin (if Nat.eqb (e "time") 0 then 35 else 34)).
Definition gf : dataset :=
  [("thetao", ch_T); ("so", gf_S); ("volcello", gl_V); ("areacello", demo_A); ("deptho", demo_D); ("z_l", ch_zl); ("z_i", demo_zi)].
Lemma gf_wf : wf_ds gf.
Proof.
  intros k a H. unfold gf in H. cbn [dget] in H.
  repeat (destruct (String.eqb k _); [injection H as <-; apply wf_of; [nodup|intros e e' He;
    try reflexivity; rewrite ?(He "time"), ?(He "xh"), ?(He "z_l"), ?(He "z_i") by (cbn; tauto); reflexivity]|]).
  discriminate.
Qed.
Lemma gf_regular : regular gf "time" "z_l" "yh" "xh" "z_i" "z_i" 2 2 2 2 ch_T gf_S gl_V demo_A demo_D ch_zl demo_zi.
Proof. destruct ch_regular. constructor; try assumption; reflexivity. Qed.
Lemma gf_box e f g : exists a b, held f "time" 0 ch_T e = Fin a /\ held g "time" 0 gf_S e = Fin b /\ ocean_box a b (ch_p e).
Proof.
  unfold held, ocean_box, ch_p. cbn. destruct f, g; cbn; destruct (Nat.eqb (e "time") 0), (Nat.eqb (e "z_l") 0);
  eexists _, _; (split; [reflexivity|]; split; [reflexivity|]; lra).
Qed.
Lemma gf_def e a b fT fS : held fT "time" 0 ch_T e = Fin a -> held fS "time" 0 gf_S e = Fin b -> eos_defined Wright a b (ch_p e).
Proof.
  intros A B. destruct (gf_box e fT fS) as (a' & b' & A' & B' & O). rewrite A in A'. rewrite B in B'. injection A' as <-. injection B' as <-.
  cbn [eos_defined]. apply Rgt_not_eq, denom_pos, O.
Qed.
Lemma gf_field : field_ok Wright ch_T gf_S gl_V ch_zl (scalar (Fin 101325)) ch_p.
Proof.
  intros e. destruct (gl_field Wright e) as (A & _ & B & C & _). split; [exact A|]. split; [discriminate|]. split; [exact B|]. split; [exact C|].
  intros a b. apply (gf_def e a b false false).
Qed.
Lemma gf_cells : ocean_cells [("z_l", 2%nat); ("yh", 2%nat); ("xh", 2%nat)] "time" 0 ch_T gf_S gl_V ch_p.
Proof.
  intros e v _ H. destruct (gf_box e false false) as (a & b & A & B & O). destruct (gf_box e true true) as (a0 & b0 & A0 & B0 & O0).
  split; [|exists a, b, a0, b0; repeat (split; [assumption|]); assumption].
  unfold held in H. cbn in H. destruct (Nat.eqb _ 1); [discriminate|]. injection H as <-. destruct (Nat.eqb _ 0); lra.
Qed.
Example C142_case : exists ref s1 s2 s3,
  global_run gf None 1035 101325 "Wright" true 0 ref "steric" s1 /\ global_run gf None 1035 101325 "Wright" true 0 ref "thermosteric" s2 /\ global_run gf None 1035 101325 "Wright" true 0 ref "halosteric" s3 /\
  forall e, e "time" = 1%nat -> exists h1 h2 h3, at_ s1 e = Fin h1 /\ at_ s2 e = Fin h2 /\ at_ s3 e = Fin h3 /\
    Rabs h1 <= 2.04 /\ Rabs h2 <= 0.77 /\ 0.88 <= h3 <= 1.28 /\ Rabs (h1 - (h2 + h3)) <= 0.01.
Proof.
  assert (Hm : same_name "Wright" "wright") by (apply same_name_lower; reflexivity).
  assert (AR : forall e, total_area demo_A e = 361110920000000) by (intros e; unfold total_area; cbn; lra).
  assert (PA : forall e, 0 < total_area demo_A e) by (intros e; rewrite AR; lra).
  assert (VOL : forall e, Rsum_box [("z_l", 2%nat); ("yh", 2%nat); ("xh", 2%nat)] (cell_volume "time" 0 gl_V) e = 361110920000000 / 4 * 6000) by (intros e; unfold cell_volume, held; cbn; lra).
  assert (PV : forall e, 0 < Rsum_box [("z_l", 2%nat); ("yh", 2%nat); ("xh", 2%nat)] (cell_volume "time" 0 gl_V) e) by (intros e; rewrite VOL; lra).
  assert (IA : no_inf demo_A) by (intros e s; discriminate).
  assert (NZ : 1035 <> 0) by lra. assert (SE : selects 0 2 0) by (split; [lia|left; reflexivity]).
  destruct (C142_bound _ _ _ _ _ _ _ _ _ _ _ _ _ _ _ _ _ _ 101325 "Wright" None 1035 true 0 0 ch_p gf_regular gf_wf Hm eq_refl (fun _ => demo_area) NZ SE gf_field gf_def gf_cells IA PA PV) as (ref & B).
  destruct (C142_nearly_additive _ _ _ _ _ _ _ _ _ _ _ _ _ _ _ _ _ _ 101325 "Wright" None 1035 true 0 0 ch_p gf_regular gf_wf Hm eq_refl (fun _ => demo_area) NZ SE gf_field gf_def gf_cells IA PA PV)
    as (ref' & s1 & s2 & s3 & (R1 & G1) & (_ & G2) & (_ & G3) & C).
  exists ref', s1, s2, s3. split; [split; assumption|]. split; [split; assumption|]. split; [split; assumption|]. intros e He.
  destruct (C142_freshening _ _ _ _ _ _ _ _ _ _ _ _ _ _ _ _ _ _ 101325 "Wright" None 1035 true 0 0 ch_p e gf_regular gf_wf Hm eq_refl (fun _ => demo_area) NZ SE gf_field gf_def gf_cells IA PA PV)
    as (ref3 & s3' & h3' & (R3 & r3' & F3 & F3') & F4 & F5).
  { intros e' _ _. unfold since, held. cbn. destruct (Nat.eqb (e' "time") 0); cbn; lra. }
  rewrite R1 in R3. injection R3 as <-.
  destruct (B "steric" ltac:(cbn; tauto)) as (s1' & (R2 & r1' & Q1 & Q1') & B1). rewrite R1 in R2. injection R2 as <-.
  destruct (B "thermosteric" ltac:(cbn; tauto)) as (s2' & (_ & r2' & Q2 & Q2') & B2).
  destruct G1 as (r1 & G1 & G1'). destruct G2 as (r2 & G2 & G2'). destruct G3 as (r3 & G3 & G3').
  rewrite G1 in Q1. injection Q1 as <-. rewrite G1' in Q1'. injection Q1' as <-. rewrite G2 in Q2. injection Q2 as <-. rewrite G2' in Q2'. injection Q2' as <-.
  rewrite G3 in F3. injection F3 as <-. rewrite G3' in F3'. injection F3' as <-.
  destruct (C e) as (h1 & h2 & h3 & X1 & X2 & X3 & X4). destruct (B1 e) as (k1 & Y1 & Z1). destruct (B2 e) as (k2 & Y2 & Z2).
  rewrite X1 in Y1. injection Y1 as <-. rewrite X2 in Y2. injection Y2 as <-. rewrite X3 in F4. injection F4 as <-.
  exists h1, h2, h3. split; [exact X1|]. split; [exact X2|]. split; [exact X3|].
  cbv zeta in X4, F5. rewrite VOL in X4. rewrite AR in X4, F5, Z1, Z2.
  change (fixes_T "steric") with false in Z1. change (fixes_S "steric") with false in Z1. change (fixes_T "thermosteric") with false in Z2. change (fixes_S "thermosteric") with true in Z2.
  assert (K1 : Rabs (11 - 10) = 1) by (rewrite Rabs_right; lra). assert (K2 : Rabs (34 - 35) = 1) by (rewrite Rabs_left; lra). assert (K3 : Rabs (35 - 35) = 0) by (rewrite Rminus_diag_eq by reflexivity; apply Rabs_R0).
  unfold cell_volume, since, held in X4, F5, Z1, Z2. cbn in X4, F5, Z1, Z2. unfold upd in X4, F5, Z1, Z2. cbn in X4, F5, Z1, Z2. rewrite !He in X4, F5, Z1, Z2. cbn in X4, F5, Z1, Z2.
  rewrite ?K1, ?K2, ?K3 in X4. rewrite ?K1, ?K2, ?K3 in Z1. rewrite ?K1, ?K2, ?K3 in Z2.
  clear - X4 F5 Z1 Z2. split; [lra|]. split; [lra|]. split; [lra|]. lra.
Qed.
