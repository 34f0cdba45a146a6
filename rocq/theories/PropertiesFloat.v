(** * PropertiesFloat: rounding errors (C89-C96)

    [B2R x] is the real number represented by the finite binary64 (or binary32) datum [x]. *)
From Coq Require Import Reals Lra Lia List ZArith QArith Bool.
From Flocq Require Import Core IEEE754.BinarySingleNaN.
From Verif Require Import SpecFloat64 Ieee SpecIeee SpecDz SpecEos ProofsEos ProofsEosBox
  ProofsIeee ProofsFloat3 ProofsFloat4 ProofsFloat5 ProofsFloat6 ProofsFloat7 ProofsFloat13.
Import ListNotations.
Local Open Scope R_scope.

(** C89: in binary64 arithmetic the density of Wright's equation of state does not overflow and
    differs from the formula, evaluated exactly, by less than 3.4e-12 kg m-3. *)
Theorem C89_density64 : forall T S p : f64,
  is_finite T = true -> is_finite S = true -> is_finite p = true ->
  ocean_box (B2R T) (B2R S) (B2R p) ->
  is_finite (density64 T S p) = true
  /\ Rabs (B2R (density64 T S p) - wr_rho (B2R T) (B2R S) (B2R p)) <= 3.4e-12
  /\ 979 < B2R (density64 T S p) < 1101.
Proof.
  intros T S p F1 F2 F3 B. destruct (density64_close T S p F1 F2 F3 B) as [F E].
  change (IZR (10 ^ 13)) with 10000000000000 in E.
  assert (Bt := rho_bounds (B2R T) (B2R S) (B2R p) B).
  split; [exact F|]. split; [lra|]. apply Rabs_le_inv in E. lra.
Qed.
Print Assumptions C89_density64.

(** The order of two densities is preserved as soon as they differ by 7e-12 kg m-3. *)
Theorem C89_order64 : forall T S p T' S' p' : f64,
  is_finite T = true -> is_finite S = true -> is_finite p = true ->
  is_finite T' = true -> is_finite S' = true -> is_finite p' = true ->
  ocean_box (B2R T) (B2R S) (B2R p) -> ocean_box (B2R T') (B2R S') (B2R p') ->
  wr_rho (B2R T) (B2R S) (B2R p) + 7e-12 <= wr_rho (B2R T') (B2R S') (B2R p') ->
  B2R (density64 T S p) < B2R (density64 T' S' p').
Proof.
  intros T S p T' S' p' F1 F2 F3 F4 F5 F6 B B' L.
  destruct (density64_close T S p F1 F2 F3 B) as [_ E]. destruct (density64_close T' S' p' F4 F5 F6 B') as [_ E'].
  change (IZR (10 ^ 13)) with 10000000000000 in *. apply Rabs_le_inv in E, E'. lra.
Qed.
Print Assumptions C89_order64.
(** Binary64 data in the range: 10 degC, 35 PSU, 1e6 Pa, and a saltier sample that is denser. *)
Example C89_data : let T := of_Z 10 in let S := of_Z 35 in let S' := of_Z 36 in let p := of_Z 1000000 in
  is_finite T = true /\ is_finite S = true /\ is_finite p = true
  /\ B2R T = 10 /\ B2R S = 35 /\ B2R p = 1000000 /\ ocean_box (B2R T) (B2R S) (B2R p)
  /\ B2SF (density64 T S p) = SpecFloat.S754_finite false 4518560717780961 (-42)
  /\ B2R (density64 T S p) < B2R (density64 T S' p).
Proof.
  intros T S S' p. b2r T H1. b2r S H2. b2r p H3. b2r (density64 T S p) H5. b2r (density64 T S' p) H6.
  repeat (split; [first [vm_compute; reflexivity|lra|unfold ocean_box; lra]|]). lra.
Qed.

(** C90: the derivatives of density and the expansion coefficients in binary64 arithmetic. *)
Theorem C90_derivatives64 : forall (T S p : f64) dT dS,
  is_finite T = true -> is_finite S = true -> is_finite p = true ->
  ocean_box (B2R T) (B2R S) (B2R p) ->
  derivable_pt_lim (fun t => wr_rho t (B2R S) (B2R p)) (B2R T) dT ->
  derivable_pt_lim (fun s => wr_rho (B2R T) s (B2R p)) (B2R S) dS ->
  let rho := wr_rho (B2R T) (B2R S) (B2R p) in
  is_finite (drho_dtemp64 T S p) = true /\ Rabs (B2R (drho_dtemp64 T S p) - dT) <= 2e-14
  /\ is_finite (drho_dsal64 T S p) = true /\ Rabs (B2R (drho_dsal64 T S p) - dS) <= 8e-15
  /\ is_finite (alpha64 T S p) = true /\ Rabs (B2R (alpha64 T S p) - - (dT / rho)) <= 6e-17
  /\ is_finite (beta64 T S p) = true /\ Rabs (B2R (beta64 T S p) - dS / rho) <= 3e-17.
Proof.
  intros T S p dT dS F1 F2 F3 B HT HS. cbv zeta.
  rewrite (deriv_T _ _ _ _ B HT), (deriv_S _ _ _ _ B HS).
  destruct (drho_dtemp64_close T S p F1 F2 F3 B) as [A1 A2]. destruct (drho_dsal64_close T S p F1 F2 F3 B) as [A3 A4].
  destruct (alpha64_close T S p F1 F2 F3 B) as [A5 A6]. destruct (beta64_close T S p F1 F2 F3 B) as [A7 A8].
  pow_const. repeat split; try assumption; lra.
Qed.
Print Assumptions C90_derivatives64.

Theorem C90_linear64 : forall T S : f64, is_finite T = true -> is_finite S = true ->
  -2 <= B2R T <= 40 -> 0 <= B2R S <= 42 ->
  is_finite (linear_density64 T S) = true
  /\ Rabs (B2R (linear_density64 T S) - lin_rho (B2R T) (B2R S)) <= 3e-13.
Proof.
  intros T S F1 F2 H1 H2. destruct (linear64_close T S F1 F2 H1 H2) as [A1 A2]. pow_const. split; [assumption|lra].
Qed.
Print Assumptions C90_linear64.
(** The derivatives exist everywhere in the range, and the computed ones have the expected signs. *)
Example C90_data : let T := of_Z 10 in let S := of_Z 35 in let p := of_Z 1000000 in
  (exists dT, derivable_pt_lim (fun t => wr_rho t (B2R S) (B2R p)) (B2R T) dT)
  /\ (exists dS, derivable_pt_lim (fun s => wr_rho (B2R T) s (B2R p)) (B2R S) dS)
  /\ B2R (drho_dtemp64 T S p) < -0.1 /\ 0.7 < B2R (drho_dsal64 T S p)
  /\ 1e-4 < B2R (alpha64 T S p) /\ 7e-4 < B2R (beta64 T S p).
Proof.
  intros T S p. b2r T H1. b2r S H2. b2r p H3. assert (B : ocean_box (B2R T) (B2R S) (B2R p)) by (unfold ocean_box; lra).
  assert (D := denom_pos _ _ _ B).
  b2r (drho_dtemp64 T S p) H4. b2r (drho_dsal64 T S p) H5. b2r (alpha64 T S p) H6. b2r (beta64 T S p) H7.
  split; [exists (wr_drho_dT (B2R T) (B2R S) (B2R p)); apply wr_rho_dT; lra|].
  split; [exists (wr_drho_dS (B2R T) (B2R S) (B2R p)); apply wr_rho_dS; lra|]. repeat split; lra.
Qed.

(** C91: calc_dz in binary64 arithmetic returns the exact thickness rounded once. *)
Theorem C91_dz64 : forall zt zb d top : f64,
  is_finite zt = true -> is_finite zb = true -> is_finite d = true -> is_finite top = true ->
  0 <= B2R zt -> 0 <= B2R zb -> 0 <= B2R d -> 0 <= B2R top ->
  is_finite (dz64 zt zb d top) = true
  /\ B2R (dz64 zt zb d top)
     = fl (Rmin (Rmax 0 (B2R zb - B2R top)) (Rmin (Rmax 0 (B2R d - B2R zt)) (B2R zb - B2R zt)))
  /\ (B2R zt <= B2R zb -> B2R top = 0 ->
      B2R (dz64 zt zb d top) = fl (overlap (B2R zt) (B2R zb) 0 (B2R d))).
Proof.
  intros zt zb d top F1 F2 F3 F4 P1 P2 P3 P4.
  destruct (dz64_rep zt zb d top F1 F2 F3 F4 P1 P2 P3 P4) as [F V]. split; [exact F|]. split; [exact V|].
  intros H1 H2. rewrite V, H2. f_equal. apply exact_dz_overlap; [split; assumption|exact P3].
Qed.
Print Assumptions C91_dz64.

(** The fraction of a cell lies between 0 and 1 and is exactly 1 for a cell above the bottom. *)
Theorem C91_fraction64 : forall zt zb d top : f64,
  is_finite zt = true -> is_finite zb = true -> is_finite d = true -> is_finite top = true ->
  0 <= B2R zt < B2R zb -> 0 <= B2R d -> 0 <= B2R top ->
  (B2R (dz64 zt zb d top) <> 0 ->
   is_finite (dz_fraction64 zt zb d top) = true /\ 0 <= B2R (dz_fraction64 zt zb d top) <= 1)
  /\ (B2R zb <= B2R d -> B2R top <= B2R zt ->
      is_finite (dz_fraction64 zt zb d top) = true /\ B2R (dz_fraction64 zt zb d top) = 1).
Proof.
  intros zt zb d top F1 F2 F3 F4 [P1 L] P3 P4. assert (P2 : 0 <= B2R zb) by lra.
  assert (Fr := fraction_rep zt zb d top F1 F2 F3 F4 P1 P2 P3 P4 L). split.
  - intros N. destruct (Fr N) as (A & B & _). split; assumption.
  - intros H1 H2. assert (Full := fraction_full zt zb d top F1 F2 F3 F4 P1 P2 P3 P4 L H1 H2).
    assert (Pos := fl_sub_pos zt zb F1 F2 L).
    destruct (Fr ltac:(lra)) as (A & _ & C). split; [exact A|]. rewrite C, Full.
    unfold Rdiv. rewrite Rinv_r by lra. apply fl_1.
Qed.
Print Assumptions C91_fraction64.
(** A cell from 0.1 m to 1.3 m (neither is a binary64 number, and the difference is rounded) in
    0.2 m of water, and one far above the bottom. *)
Example C91_data : let zt := lit (1 # 10) in let zb := lit (13 # 10) in
  is_finite zt = true /\ is_finite zb = true /\ 0 <= B2R zt < B2R zb
  /\ 0.09 < B2R (dz64 zt zb (lit (2 # 10)) zero) < 0.11
  /\ 0.08 < B2R (dz_fraction64 zt zb (lit (2 # 10)) zero) < 0.09
  /\ B2R (dz_fraction64 zt zb (of_Z 5000) zero) = 1
  /\ B2R (dz64 zt zb (of_Z 5000) zero) <> B2R zb - B2R zt.
Proof.
  intros zt zb. b2r zt H1. b2r zb H2. b2r (dz64 zt zb (lit (2 # 10)) zero) H3.
  b2r (dz_fraction64 zt zb (lit (2 # 10)) zero) H4. b2r (dz_fraction64 zt zb (of_Z 5000) zero) H5.
  b2r (dz64 zt zb (of_Z 5000) zero) H6.
  do 2 (split; [vm_compute; reflexivity|]). repeat split; lra.
Qed.

(** C92: the local steric height of a column of at most 1000 levels and 12000 m of water, summed
    in any order, is within 3e-10 m of the exact value. *)
Theorem C92_column64 : forall (rhozero depth patm : f64) (column : list cell) (h : f64),
  is_finite rhozero = true -> 1000 <= B2R rhozero <= 1100 ->
  is_finite depth = true -> 0 <= B2R depth ->
  is_finite patm = true -> 0 <= B2R patm <= 110000 ->
  (forall c, In c column ->
     cell_finite c /\ 0 <= B2R (ztop c) <= B2R (zbot c) /\ (wet c = true -> wet_ok c)) ->
  rsum (map (thickness (B2R depth)) column) <= 12000 ->
  (length column <= 1000)%nat ->
  steric64 rhozero depth patm column h ->
  is_finite h = true
  /\ Rabs (B2R h - exact_height (B2R rhozero) (B2R depth) (B2R patm) column) <= 3e-10.
Proof. intros rhozero depth patm column h F1 H1 F2 H2 F3 H3 Hc Ht Hn Hs. apply column_close; assumption. Qed.
Print Assumptions C92_column64.
(** A column of three cells in 25 m of water: one warmed by 1 K, one freshened, and one of land
    whose temperature is missing. *)
Definition col92 : list cell :=
  [ mkCell (of_Z 0) (of_Z 10) (of_Z 5) true (of_Z 11) (of_Z 35) (of_Z 10) (of_Z 35);
    mkCell (of_Z 10) (of_Z 30) (of_Z 20) true (of_Z 8) (of_Z 34) (of_Z 8) (of_Z 35);
    mkCell (of_Z 30) (of_Z 50) (of_Z 40) false B754_nan B754_nan B754_nan B754_nan ].
Example C92_data :
  (forall c, In c col92 -> cell_finite c /\ 0 <= B2R (ztop c) <= B2R (zbot c) /\ (wet c = true -> wet_ok c))
  /\ rsum (map (thickness (B2R (of_Z 25))) col92) <= 12000
  /\ (exists h, steric64 (of_Z 1035) (of_Z 25) (of_Z 101325) col92 h /\ 0.01 < B2R h < 0.02).
Proof.
  split; [|split].
  - intros c [<-|[<-|[<-|[]]]]; cbn [ztop zbot zmid wet temp salt temp_ref salt_ref];
      (split; [split; vm_compute; reflexivity|]).
    + b2r (of_Z 0) H0. b2r (of_Z 10) H1. b2r (of_Z 5) H2. b2r (of_Z 11) H3. b2r (of_Z 35) H4.
      unfold wet_ok; cbn [ztop zbot zmid wet temp salt temp_ref salt_ref].
      split; [lra|]. intros _. do 5 (split; [vm_compute; reflexivity|]). lra.
    + b2r (of_Z 30) H0. b2r (of_Z 10) H1. b2r (of_Z 20) H2. b2r (of_Z 8) H3. b2r (of_Z 34) H4. b2r (of_Z 35) H5.
      unfold wet_ok; cbn [ztop zbot zmid wet temp salt temp_ref salt_ref].
      split; [lra|]. intros _. do 5 (split; [vm_compute; reflexivity|]). lra.
    + b2r (of_Z 30) H0. b2r (of_Z 50) H1. split; [lra|discriminate].
  - b2r (of_Z 0) H0. b2r (of_Z 10) H1. b2r (of_Z 30) H2. b2r (of_Z 50) H3. b2r (of_Z 25) H4.
    unfold col92, thickness; cbn [map rsum ztop zbot]. rewrite H0, H1, H2, H3, H4. unfold overlap, Rmin, Rmax.
    repeat destruct (Rle_dec _ _); lra.
  - pose (t := map (term64 (of_Z 25) (of_Z 101325)) col92).
    pose (a := nth 0 t zero). pose (b := nth 1 t zero). pose (d := nth 2 t zero).
    exists (lit (-1) / of_Z 1035 * (a + (b + d)))%f64. split.
    + exists (a + (b + d))%f64. split; [|reflexivity].
      exact (sum_add [a] ([b] ++ [d]) _ _ (sum_one a) (sum_add [b] [d] _ _ (sum_one b) (sum_one d))).
    + b2r (lit (-1) / of_Z 1035 * (a + (b + d)))%f64 H. lra.
Qed.

(** C93: with unchanged temperature and salinity the height is exactly zero, whatever the values
    (even if some are missing or out of range) and the order of the sum. *)
Theorem C93_unchanged64 : forall (rhozero depth patm : f64) (column : list cell) (h : f64),
  is_finite rhozero = true -> 1 <= B2R rhozero ->
  is_finite depth = true -> 0 <= B2R depth ->
  (forall c, In c column -> cell_finite c /\ 0 <= B2R (ztop c) /\ 0 <= B2R (zbot c)
     /\ temp c = temp_ref c /\ salt c = salt_ref c) ->
  steric64 rhozero depth patm column h ->
  is_finite h = true /\ B2R h = 0.
Proof.
  intros rhozero depth patm column h F1 H1 F2 H2 Hc (s & Hs & ->).
  apply height_zero; [exact F1|exact H1|]. apply (sum_zero _ _ Hs).
  apply Forall_forall. intros x Hx. apply in_map_iff in Hx as (c & <- & Ic).
  destruct (Hc c Ic) as (A1 & A2 & A3 & A4 & A5). apply term_unchanged; assumption.
Qed.
Print Assumptions C93_unchanged64.
Example C93_data :
  let col := map (fun c => mkCell (ztop c) (zbot c) (zmid c) true (temp_ref c) (salt_ref c) (temp_ref c) (salt_ref c)) col92 in
  (forall c, In c col -> cell_finite c /\ 0 <= B2R (ztop c) /\ 0 <= B2R (zbot c) /\ temp c = temp_ref c /\ salt c = salt_ref c)
  /\ exists c, In c col /\ wet c = true /\ temp c = B754_nan.
Proof.
  split.
  - b2r (of_Z 0) H0. b2r (of_Z 10) H1. b2r (of_Z 30) H2. b2r (of_Z 50) H3.
    intros c [<-|[<-|[<-|[]]]]; cbn [ztop zbot zmid wet temp salt temp_ref salt_ref];
      (split; [split; vm_compute; reflexivity|]); repeat split; lra.
  - eexists. split; [right; right; left; reflexivity|]. split; reflexivity.
Qed.

(** C94: a missing temperature, salinity or pressure gives missing results. *)
Theorem C94_missing64 : forall T S p : f64, T = B754_nan \/ S = B754_nan \/ p = B754_nan ->
  density64 T S p = B754_nan /\ drho_dtemp64 T S p = B754_nan /\ drho_dsal64 T S p = B754_nan
  /\ alpha64 T S p = B754_nan /\ beta64 T S p = B754_nan.
Proof. exact missing_eos. Qed.
Print Assumptions C94_missing64.
Example C94_data : exists T S p : f64, T = B754_nan /\ is_finite S = true /\ is_finite p = true.
Proof. exists B754_nan, (of_Z 35), (of_Z 1000000). split; [reflexivity|]. split; vm_compute; reflexivity. Qed.

(** C95: temperature and salinity in single precision. *)
Theorem C95_density32 : forall (T S : f32) (p : f64),
  is_finite T = true -> is_finite S = true -> is_finite p = true ->
  ocean_box (B2R T) (B2R S) (B2R p) ->
  is_finite (density32 T S p) = true
  /\ Rabs (B2R (density32 T S p) - wr_rho (B2R T) (B2R S) (B2R p)) <= 3.8e-4.
Proof.
  intros T S p F1 F2 F3 B. destruct (density32_sharp T S F1 F2 p F3 B) as [A1 A2]. split; [assumption|lra].
Qed.
Print Assumptions C95_density32.

Theorem C95_derivatives32 : forall (T S : f32) (p : f64) dT dS,
  is_finite T = true -> is_finite S = true -> is_finite p = true ->
  ocean_box (B2R T) (B2R S) (B2R p) ->
  derivable_pt_lim (fun t => wr_rho t (B2R S) (B2R p)) (B2R T) dT ->
  derivable_pt_lim (fun s => wr_rho (B2R T) s (B2R p)) (B2R S) dS ->
  let rho := wr_rho (B2R T) (B2R S) (B2R p) in
  is_finite (drho_dtemp32 T S p) = true /\ Rabs (B2R (drho_dtemp32 T S p) - dT) <= 6.4e-6
  /\ is_finite (drho_dsal32 T S p) = true /\ Rabs (B2R (drho_dsal32 T S p) - dS) <= 2.3e-6
  /\ is_finite (alpha32 T S p) = true /\ Rabs (B2R (alpha32 T S p) - - (dT / rho)) <= 1.7e-8
  /\ is_finite (beta32 T S p) = true /\ Rabs (B2R (beta32 T S p) - dS / rho) <= 7e-9.
Proof.
  intros T S p dT dS F1 F2 F3 B HT HS. cbv zeta.
  rewrite (deriv_T _ _ _ _ B HT), (deriv_S _ _ _ _ B HS).
  destruct (drho_dtemp32_close T S p F1 F2 F3 B) as [A1 A2]. destruct (drho_dsal32_close T S p F1 F2 F3 B) as [A3 A4].
  destruct (alpha32_close T S p F1 F2 F3 B) as [A5 A6]. destruct (beta32_close T S p F1 F2 F3 B) as [A7 A8].
  pow_const. repeat split; try assumption; lra.
Qed.
Print Assumptions C95_derivatives32.

Theorem C95_linear32 : forall T S : f32, is_finite T = true -> is_finite S = true ->
  -2 <= B2R T <= 40 -> 0 <= B2R S <= 42 ->
  is_finite (linear_density32 T S) = true
  /\ Rabs (B2R (linear_density32 T S) - lin_rho (B2R T) (B2R S)) <= 1.3e-4.
Proof.
  intros T S F1 F2 H1 H2. destruct (linear32_close T S F1 F2 H1 H2) as [A1 A2]. pow_const. split; [assumption|lra].
Qed.
Print Assumptions C95_linear32.
(** The single-precision result at 10 degC, 35 PSU, 1e6 Pa differs from the double-precision one. *)
Example C95_data : let T := narrow (of_Z 10) in let S := narrow (of_Z 35) in let p := of_Z 1000000 in
  is_finite T = true /\ is_finite S = true /\ ocean_box (B2R T) (B2R S) (B2R p)
  /\ B2SF (density32 T S p) = SpecFloat.S754_finite false 4518560511928165 (-42)
  /\ Rabs (B2R (density32 T S p) - B2R (density64 (of_Z 10) (of_Z 35) p)) > 4e-5.
Proof.
  intros T S p. b2r T H1. b2r S H2. b2r p H3. b2r (density32 T S p) H4. b2r (density64 (of_Z 10) (of_Z 35) p) H5.
  do 2 (split; [vm_compute; reflexivity|]). split; [unfold ocean_box; lra|]. split; [vm_compute; reflexivity|].
  rewrite H4, H5. apply Rlt_gt. unfold Rabs. destruct (Rcase_abs _); lra.
Qed.

(** C96: warming lowers the computed density of warm water.  In single precision this fails:
    at 10 degC, 35 PSU and 5 m, warming by 1/4096 K raises the computed density. *)
Theorem C96_warming32_refuted : exists (T T' S : f32) (p : f64),
  is_finite T = true /\ is_finite T' = true /\ is_finite S = true /\ is_finite p = true
  /\ warm_box (B2R T) (B2R S) (B2R p) /\ warm_box (B2R T') (B2R S) (B2R p)
  /\ B2R T + 2e-4 < B2R T'
  /\ wr_rho (B2R T') (B2R S) (B2R p) < wr_rho (B2R T) (B2R S) (B2R p)
  /\ B2R (density32 T S p) + 1e-5 < B2R (density32 T' S p).
Proof. exact warming32. Qed.
Print Assumptions C96_warming32_refuted.

(** What holds: a change of density of at least 7.7e-4 kg m-3 keeps its sign. *)
Theorem C96_order32_partial : forall (T S T' S' : f32) (p p' : f64),
  is_finite T = true -> is_finite S = true -> is_finite p = true ->
  is_finite T' = true -> is_finite S' = true -> is_finite p' = true ->
  ocean_box (B2R T) (B2R S) (B2R p) -> ocean_box (B2R T') (B2R S') (B2R p') ->
  wr_rho (B2R T) (B2R S) (B2R p) + 7.7e-4 <= wr_rho (B2R T') (B2R S') (B2R p') ->
  B2R (density32 T S p) < B2R (density32 T' S' p').
Proof.
  intros T S T' S' p p' F1 F2 F3 F4 F5 F6 B B' L.
  destruct (density32_sharp T S F1 F2 p F3 B) as [_ E]. destruct (density32_sharp T' S' F4 F5 p' F6 B') as [_ E'].
  pow_const. apply Rabs_le_inv in E, E'. lra.
Qed.
Print Assumptions C96_order32_partial.
(** A warming of 1 K exceeds the threshold: the exact density falls by more than 0.1 kg m-3. *)
Example C96_data : let T := narrow (of_Z 11) in let T' := narrow (of_Z 10) in let S := narrow (of_Z 35) in
  let p := of_Z 151325 in
  is_finite T = true /\ is_finite T' = true /\ is_finite S = true /\ is_finite p = true
  /\ ocean_box (B2R T) (B2R S) (B2R p) /\ ocean_box (B2R T') (B2R S) (B2R p)
  /\ wr_rho (B2R T) (B2R S) (B2R p) + 7.7e-4 <= wr_rho (B2R T') (B2R S) (B2R p).
Proof.
  intros T T' S p. b2r T H1. b2r T' H2. b2r S H3. b2r p H4.
  do 4 (split; [vm_compute; reflexivity|]). do 2 (split; [unfold ocean_box; lra|]).
  b2r (density32 T S p) H5. b2r (density32 T' S p) H6.
  destruct (density32_close T S p ltac:(vm_compute; reflexivity) ltac:(vm_compute; reflexivity) ltac:(vm_compute; reflexivity)
    ltac:(unfold ocean_box; lra)) as [_ E].
  destruct (density32_close T' S p ltac:(vm_compute; reflexivity) ltac:(vm_compute; reflexivity) ltac:(vm_compute; reflexivity)
    ltac:(unfold ocean_box; lra)) as [_ E'].
  pow_const. apply Rabs_le_inv in E, E'. lra.
Qed.
