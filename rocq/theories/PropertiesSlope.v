(** * PropertiesSlope: C139-C141, how strongly density and sea level react to temperature and salinity *)
From Coq Require Import Reals Lra Lia List String Bool Arith ZArith.
From Verif Require Import Num NumFacts Py Arr ArrFacts Eos SpecEos Derived SpecDz Dataset SpecSteric
  ProofsEos ProofsEosBox ProofsEosApi ProofsEosSlope ProofsFields ProofsFields2 ProofsDz ProofsBudget ProofsSteric ProofsSteric2 ProofsSteric3
  ProofsSteric4 ProofsStericOk ProofsStericDemo ProofsStericDemo2 PropertiesSteric.
Import ListNotations.
Local Open Scope string_scope.
Local Open Scope R_scope.

(** ** C139: ranges of the derivatives *)
Theorem C139_derivatives : forall T S p, ocean_box T S p ->
  exists a b, wright_drho_dtemp (Fin T) (Fin S) (Fin p) = Fin a /\ wright_drho_dsal (Fin T) (Fin S) (Fin p) = Fin b /\
    -0.5 <= a <= 0.12 /\ 0.65 <= b <= 0.83.
Proof.
  intros T S p H. exists (wr_drho_dT T S p), (wr_drho_dS T S p). assert (D := box_den T S p H).
  split; [apply wright_drho_dtemp_Fin, D|]. split; [apply wright_drho_dsal_Fin, D|]. split; [apply slope_T, H|apply slope_S, H].
Qed.
Print Assumptions C139_derivatives.
Theorem C139_coefficients : forall T S p, ocean_box T S p ->
  exists a b, wright_alpha (Fin T) (Fin S) (Fin p) = Fin a /\ wright_beta (Fin T) (Fin S) (Fin p) = Fin b /\
    -1.3e-4 <= a <= 5.2e-4 /\ 5.9e-4 <= b <= 8.5e-4.
Proof.
  intros T S p H. assert (D := box_den T S p H). assert (R := rho_bounds T S p H). assert (X := slope_T T S p H). assert (Y := slope_S T S p H).
  unfold wright_alpha, wright_beta. rewrite wright_density_Fin, wright_drho_dtemp_Fin, wright_drho_dsal_Fin by exact D.
  set (r := wr_rho T S p) in *. set (x := wr_drho_dT T S p) in *. set (y := wr_drho_dS T S p) in *.
  assert (E : Reqb r 0 = false) by (apply Reqb_false; lra). cbn [fdiv fmul fopp]. rewrite E. cbn [fmul fopp].
  assert (I : 0 < / r) by (apply Rinv_0_lt_compat; lra).
  assert (I1 : / r <= / 980) by (apply Rinv_le_contravar; lra). assert (I2 : / 1100 <= / r) by (apply Rinv_le_contravar; lra).
  eexists. eexists. split; [reflexivity|]. split; [reflexivity|]. unfold Rdiv. set (i := / r) in *. clearbody i x y. clear - X Y I I1 I2.
  assert (0 <= i * (x + 0.5)) by (apply Rmult_le_pos; lra). assert (0 <= i * (0.12 - x)) by (apply Rmult_le_pos; lra).
  assert (0 <= i * (y - 0.65)) by (apply Rmult_le_pos; lra). assert (0 <= i * (0.83 - y)) by (apply Rmult_le_pos; lra). lra.
Qed.
Print Assumptions C139_coefficients.
(** Differences of density over the box, and their interaction *)
Theorem C139_differences : forall T S T' S' p, ocean_box T S p -> ocean_box T' S' p ->
  exists r a b r', wright_density (Fin T) (Fin S) (Fin p) = Fin r /\ wright_density (Fin T') (Fin S) (Fin p) = Fin a /\
    wright_density (Fin T) (Fin S') (Fin p) = Fin b /\ wright_density (Fin T') (Fin S') (Fin p) = Fin r' /\
    Rabs (a - r) <= 0.5 * Rabs (T' - T) /\ 0.65 * Rabs (S' - S) <= Rabs (b - r) <= 0.83 * Rabs (S' - S) /\
    Rabs ((r' - r) - ((a - r) + (b - r))) <= 0.0051 * (Rabs (T' - T) * Rabs (S' - S)).
Proof.
  intros T S T' S' p H H'.
  assert (HX : ocean_box T' S p) by (destruct H as (A & B & C), H' as (A' & B' & C'); unfold ocean_box; tauto).
  assert (HY : ocean_box T S' p) by (destruct H as (A & B & C), H' as (A' & B' & C'); unfold ocean_box; tauto).
  exists (wr_rho T S p), (wr_rho T' S p), (wr_rho T S' p), (wr_rho T' S' p).
  split; [apply wright_density_Fin, box_den, H|]. split; [apply wright_density_Fin, box_den, HX|]. split; [apply wright_density_Fin, box_den, HY|].
  split; [apply wright_density_Fin, box_den, H'|].
  destruct (diff_T T T' S p H HX) as (c & C & E). destruct (diff_S T S S' p H HY) as (d & D & F). destruct (diff_TS T T' S S' p H H') as (k & K & G).
  rewrite E, F. split; [|split; [split|]].
  - rewrite Rabs_mult. apply Rmult_le_compat_r; [apply Rabs_pos|]. apply Rabs_le. lra.
  - rewrite Rabs_mult. apply Rmult_le_compat_r; [apply Rabs_pos|]. rewrite Rabs_right; lra.
  - rewrite Rabs_mult. apply Rmult_le_compat_r; [apply Rabs_pos|]. rewrite Rabs_right; lra.
  - rewrite <- E, <- F. match goal with |- Rabs ?x <= _ => replace x with (k * ((T' - T) * (S' - S))) by (rewrite <- G; ring) end.
    rewrite !Rabs_mult. apply Rmult_le_compat_r; [apply Rmult_le_pos; apply Rabs_pos|exact K].
Qed.
Print Assumptions C139_differences.
Example C139_state : ocean_box 10 35 10000000 /\ ocean_box 11 34 10000000.
Proof. unfold ocean_box. lra. Qed.

(** ** C140 *)
(** A level contributes when it is wet and all of its values are present. *)
Definition counts (vol T S T0 S0 : fval) : bool := notnull vol && is_fin T && is_fin S && is_fin T0 && is_fin S0.
Definition change (b : bool) (x x0 : fval) : R := if b then val x - val x0 else 0.
Lemma column_height d reference cn vm rhozero patm eos variant domain strict res ref ds m T S T0 S0 z n p w e vol depth :
  local_column d reference cn vm rhozero patm eos variant domain strict res ref ds m T S T0 S0 z n p w e ->
  dget "volcello" ref = Some vol -> dget "deptho" ds = Some depth ->
  (forall k x0 y0, (k < n)%nat -> at_ T0 (upd e z k) = Fin x0 -> at_ S0 (upd e z k) = Fin y0 -> eos_defined m x0 y0 (p k) \/
     counts (at_ vol (upd e z k)) (at_ T (upd e z k)) (at_ S (upd e z k)) (at_ T0 (upd e z k)) (at_ S0 (upd e z k)) = false) ->
  exists sea, dget variant res = Some sea /\
    at_ sea e = if notnull (at_ vol (upd e z 0)) then
      Fin (- (1 / rhozero) * Rsum n (fun k => overlap (w k) (w (Datatypes.S k)) 0 (water_depth (at_ depth e)) *
        (if counts (at_ vol (upd e z k)) (at_ T (upd e z k)) (at_ S (upd e z k)) (at_ T0 (upd e z k)) (at_ S0 (upd e z k)) then
           eos_rho m (val (at_ T (upd e z k))) (val (at_ S (upd e z k))) (p k) - eos_rho m (val (at_ T0 (upd e z k))) (val (at_ S0 (upd e z k))) (p k) else 0)))
      else NaN.
Proof.
  intros (H1 & H2 & H3 & H4 & H5 & H6 & H7 & H8 & H9 & (d0 & k0 & H10 & H11) & (t & zb & vol' & rho0 & zl & ifaces & depth' & zi & G1 & G2 & G3 & G4 & G5 & G6 & G7 & G8) & H12) V0 D0 HD.
  rewrite G2 in V0. injection V0 as ->. rewrite G6 in D0. injection D0 as ->.
  destruct (local_formula _ _ _ _ _ _ _ _ _ _ _ _ ds m t z zb T S vol rho0 zl ifaces depth zi n p w e H1 H2 H4 G1 H5 H6 H7 G2 G3 G4 G5 G6 G7 G8) as (_ & sea & _ & E & _ & V).
  exists sea. split; [exact E|]. rewrite V. destruct (notnull (at_ vol (upd e z 0))); [|reflexivity]. f_equal. unfold steric_height. f_equal.
  apply Rsum_ext. intros k Hk. cbn [c_w c_floor column_at]. f_equal.
  unfold density_change. cbn [c_wet c_T c_S c_rho0 c_p column_at]. specialize (HD k). unfold counts in *.
  destruct (notnull (at_ vol (upd e z k))); [|reflexivity]. cbn [andb] in *.
  rewrite G4 in H11.
  assert (Er := built_density d0 patm eos cn k0 ref m t z zb T0 S0 rho0 zl H10 G1 H11 H5 H8 H9 G3 (upd e z k)).
  destruct (at_ T (upd e z k)) as [|s|a] eqn:ET; try reflexivity. destruct (at_ S (upd e z k)) as [|s|b] eqn:ES; try reflexivity. cbn [is_fin andb opt val] in *.
  destruct (at_ T0 (upd e z k)) as [|s|a0] eqn:ET0.
  { rewrite eos_density_nan in Er by tauto. rewrite Er. reflexivity. }
  { exfalso. apply (proj1 (H12 k s Hk)), ET0. }
  destruct (at_ S0 (upd e z k)) as [|s|b0] eqn:ES0.
  { rewrite eos_density_nan in Er by tauto. rewrite Er. reflexivity. }
  { exfalso. apply (proj2 (H12 k s Hk)), ES0. }
  cbn [is_fin andb] in HD. destruct (HD a0 b0 Hk eq_refl eq_refl) as [M1|M1]; [|discriminate].
  destruct G8 as (_ & _ & _ & _ & _ & C6). destruct (C6 k Hk) as (_ & _ & _ & (x1 & y1 & K4 & K5 & K6) & _).
  rewrite K4, K5 in Er. cbn [fmul fadd] in Er. replace (x1 * 10000 + y1) with (p k) in Er by (rewrite K6; ring).
  rewrite eos_density_Fin in Er by exact M1. rewrite Er. reflexivity.
Qed.
(** Every contributing level lies in the ocean range, now and in the reference state. *)
Definition ocean_levels (vol T S T0 S0 : arr) (z : string) (n : nat) (p : nat -> R) (e : index) : Prop :=
  forall k, (k < n)%nat -> let ek := upd e z k in counts (at_ vol ek) (at_ T ek) (at_ S ek) (at_ T0 ek) (at_ S0 ek) = true ->
    ocean_box (val (at_ T ek)) (val (at_ S ek)) (p k) /\ ocean_box (val (at_ T0 ek)) (val (at_ S0 ek)) (p k).
Lemma ocean_height d reference cn vm rhozero patm eos variant domain strict res ref ds T S T0 S0 z n p w e vol depth :
  local_column d reference cn vm rhozero patm eos variant domain strict res ref ds Wright T S T0 S0 z n p w e ->
  dget "volcello" ref = Some vol -> dget "deptho" ds = Some depth -> ocean_levels vol T S T0 S0 z n p e ->
  exists sea, dget variant res = Some sea /\
    at_ sea e = if notnull (at_ vol (upd e z 0)) then
      Fin (- (1 / rhozero) * Rsum n (fun k => overlap (w k) (w (Datatypes.S k)) 0 (water_depth (at_ depth e)) *
        (if counts (at_ vol (upd e z k)) (at_ T (upd e z k)) (at_ S (upd e z k)) (at_ T0 (upd e z k)) (at_ S0 (upd e z k)) then
           wr_rho (val (at_ T (upd e z k))) (val (at_ S (upd e z k))) (p k) - wr_rho (val (at_ T0 (upd e z k))) (val (at_ S0 (upd e z k))) (p k) else 0)))
      else NaN.
Proof.
  intros H V D O. apply (column_height _ _ _ _ _ _ _ _ _ _ _ _ _ Wright T S T0 S0 z n p w e vol depth H V D).
  intros k x0 y0 Hk A B. destruct (counts (at_ vol (upd e z k)) (at_ T (upd e z k)) (at_ S (upd e z k)) (at_ T0 (upd e z k)) (at_ S0 (upd e z k))) eqn:C; [left|right; reflexivity].
  destruct (O k Hk C) as (_ & O2). rewrite A, B in O2. apply box_den, O2.
Qed.

Theorem C140_bound : forall d reference cn vm rhozero patm eos variant domain strict res ref ds T S T0 S0 z n p w e vol depth,
  local_column d reference cn vm rhozero patm eos variant domain strict res ref ds Wright T S T0 S0 z n p w e ->
  dget "volcello" ref = Some vol -> dget "deptho" ds = Some depth -> ocean_levels vol T S T0 S0 z n p e ->
  exists sea, dget variant res = Some sea /\ (at_ sea e = NaN \/ exists h, at_ sea e = Fin h /\
    Rabs h <= 1 / rhozero * Rsum n (fun k => let ek := upd e z k in let b := counts (at_ vol ek) (at_ T ek) (at_ S ek) (at_ T0 ek) (at_ S0 ek) in
      overlap (w k) (w (Datatypes.S k)) 0 (water_depth (at_ depth e)) *
      (0.5 * Rabs (change b (at_ T ek) (at_ T0 ek)) + 0.83 * Rabs (change b (at_ S ek) (at_ S0 ek))))).
Proof.
  intros d reference cn vm rhozero patm eos variant domain strict res ref ds T S T0 S0 z n p w e vol depth H V D O.
  destruct (ocean_height _ _ _ _ _ _ _ _ _ _ _ _ _ _ _ _ _ _ _ _ _ _ _ _ H V D O) as (sea & E & X).
  exists sea. split; [exact E|]. rewrite X. destruct (notnull _); [right|left; reflexivity]. eexists. split; [reflexivity|].
  assert (H3 : 0 < rhozero) by apply H. assert (0 < 1 / rhozero) by (apply Rdiv_lt_0_compat; lra).
  rewrite Rabs_mult, Rabs_Ropp, (Rabs_right (1 / rhozero)) by lra. apply Rmult_le_compat_l; [lra|].
  eapply Rle_trans; [apply Rsum_abs|]. apply Rsum_le. intros k Hk. cbv zeta.
  rewrite Rabs_mult, (Rabs_right (overlap _ _ _ _)) by (apply Rle_ge; unfold overlap; apply Rmax_l).
  apply Rmult_le_compat_l; [unfold overlap; apply Rmax_l|].
  destruct (counts _ _ _ _ _) eqn:C; cbn [change]; [|rewrite Rabs_R0; lra].
  destruct (O k Hk C) as (O1 & O2). set (x := val (at_ T (upd e z k))) in *. set (y := val (at_ S (upd e z k))) in *.
  set (x0 := val (at_ T0 (upd e z k))) in *. set (y0 := val (at_ S0 (upd e z k))) in *.
  assert (HX : ocean_box x y0 (p k)) by (destruct O1 as (? & ? & ?), O2 as (? & ? & ?); unfold ocean_box; tauto).
  destruct (diff_T x0 x y0 (p k) O2 HX) as (c & Cc & Ec). destruct (diff_S x y0 y (p k) HX O1) as (f & Cf & Ef).
  replace (wr_rho x y (p k) - wr_rho x0 y0 (p k)) with ((wr_rho x y0 (p k) - wr_rho x0 y0 (p k)) + (wr_rho x y (p k) - wr_rho x y0 (p k))) by ring.
  rewrite Ec, Ef. eapply Rle_trans; [apply Rabs_triang|]. rewrite !Rabs_mult.
  apply Rplus_le_compat; (apply Rmult_le_compat_r; [apply Rabs_pos|]); apply Rabs_le; lra.
Qed.
Print Assumptions C140_bound.

(** Freshening raises the halosteric sea level by between 0.65 and 0.83 kg/m3 per unit of salinity. *)
Theorem C140_freshening : forall d reference cn vm rhozero patm eos domain strict res ref ds T S T0 S0 z n p w e vol depth,
  local_column d reference cn vm rhozero patm eos "halosteric" domain strict res ref ds Wright T S T0 S0 z n p w e ->
  dget "volcello" ref = Some vol -> dget "deptho" ds = Some depth -> ocean_levels vol T S T0 S0 z n p e ->
  (forall k x y, (k < n)%nat -> at_ S (upd e z k) = Fin x -> at_ S0 (upd e z k) = Fin y -> x <= y) ->
  let fresh := Rsum n (fun k => let ek := upd e z k in overlap (w k) (w (Datatypes.S k)) 0 (water_depth (at_ depth e)) *
      change (counts (at_ vol ek) (at_ T ek) (at_ S ek) (at_ T0 ek) (at_ S0 ek)) (at_ S0 ek) (at_ S ek)) in
  exists sea, dget "halosteric" res = Some sea /\ (at_ sea e = NaN \/ exists h, at_ sea e = Fin h /\ 0.65 / rhozero * fresh <= h <= 0.83 / rhozero * fresh).
Proof.
  intros d reference cn vm rhozero patm eos domain strict res ref ds T S T0 S0 z n p w e vol depth H V D O F fresh.
  destruct (ocean_height _ _ _ _ _ _ _ _ _ _ _ _ _ _ _ _ _ _ _ _ _ _ _ _ H V D O) as (sea & E & X).
  exists sea. split; [exact E|]. rewrite X. destruct (notnull _); [right|left; reflexivity]. eexists. split; [reflexivity|].
  assert (H3 : 0 < rhozero) by apply H. assert (I : 0 < / rhozero) by (apply Rinv_0_lt_compat; lra).
  assert (HT : T = T0).
  { destruct H as (_ & _ & _ & _ & _ & _ & Hu & H8 & _). inversion Hu; subst. congruence. }
  match goal with |- _ <= - (1 / rhozero) * Rsum n ?f <= _ => set (g := f) end.
  assert (B : forall k, (k < n)%nat -> let ek := upd e z k in
    let q := overlap (w k) (w (Datatypes.S k)) 0 (water_depth (at_ depth e)) * change (counts (at_ vol ek) (at_ T ek) (at_ S ek) (at_ T0 ek) (at_ S0 ek)) (at_ S0 ek) (at_ S ek) in
    0.65 * q <= -1 * g k /\ -1 * g k <= 0.83 * q).
  { intros k Hk. cbv zeta. unfold g. assert (W : 0 <= overlap (w k) (w (Datatypes.S k)) 0 (water_depth (at_ depth e))) by (unfold overlap; apply Rmax_l).
    set (ov := overlap _ _ _ _) in *. destruct (counts _ _ _ _ _) eqn:C; cbn [change]; [|lra].
    destruct (O k Hk C) as (O1 & O2). rewrite <- HT in *.
    assert (FF : val (at_ S (upd e z k)) <= val (at_ S0 (upd e z k))).
    { unfold counts in C. rewrite !andb_true_iff in C. destruct C as ((((_ & _) & C1) & _) & C2).
      destruct (at_ S (upd e z k)) as [|?|a] eqn:Q1; try discriminate. destruct (at_ S0 (upd e z k)) as [|?|b] eqn:Q2; try discriminate. apply (F k a b Hk Q1 Q2). }
    set (x := val (at_ T (upd e z k))) in *. set (y := val (at_ S (upd e z k))) in *. set (y0 := val (at_ S0 (upd e z k))) in *.
    destruct (diff_S x y0 y (p k) O2 O1) as (f & Cf & Ef). rewrite Ef.
    assert (P : 0 <= ov * (y0 - y)) by (apply Rmult_le_pos; lra). set (q := ov * (y0 - y)) in *.
    replace (-1 * (ov * (f * (y - y0)))) with (f * q) by (unfold q; ring).
    split; apply Rmult_le_compat_r; lra. }
  replace (- (1 / rhozero) * Rsum n g) with (/ rhozero * Rsum n (fun k => -1 * g k)) by (rewrite Rsum_scal; field; lra).
  unfold fresh. split.
  - replace (0.65 / rhozero * Rsum n _) with (/ rhozero * (0.65 * fresh)) by (unfold fresh; field; lra). apply Rmult_le_compat_l; [lra|].
    unfold fresh. rewrite <- Rsum_scal. apply Rsum_le. intros k Hk. apply B, Hk.
  - replace (0.83 / rhozero * Rsum n _) with (/ rhozero * (0.83 * fresh)) by (unfold fresh; field; lra). apply Rmult_le_compat_l; [lra|].
    unfold fresh. rewrite <- Rsum_scal. apply Rsum_le. intros k Hk. apply B, Hk.
Qed.
Print Assumptions C140_freshening.

(** ** C141: the interaction of the two effects *)
Theorem C141_nearly_additive : forall d reference cn vm rhozero patm eos domain strict r1 r2 r3 ref ds T S T0 S0 z n p w e vol depth,
  local_column d reference cn vm rhozero patm eos "steric" domain strict r1 ref ds Wright T S T0 S0 z n p w e ->
  local_column d reference cn vm rhozero patm eos "thermosteric" domain strict r2 ref ds Wright T S0 T0 S0 z n p w e ->
  local_column d reference cn vm rhozero patm eos "halosteric" domain strict r3 ref ds Wright T0 S T0 S0 z n p w e ->
  dget "volcello" ref = Some vol -> dget "deptho" ds = Some depth ->
  (* temperature and salinity are missing together *)
  (forall k, (k < n)%nat -> is_fin (at_ T (upd e z k)) = is_fin (at_ S (upd e z k))) ->
  ocean_levels vol T S T0 S0 z n p e ->
  exists s1 s2 s3, dget "steric" r1 = Some s1 /\ dget "thermosteric" r2 = Some s2 /\ dget "halosteric" r3 = Some s3 /\
    ((at_ s1 e = NaN /\ at_ s2 e = NaN /\ at_ s3 e = NaN) \/
     exists h1 h2 h3, at_ s1 e = Fin h1 /\ at_ s2 e = Fin h2 /\ at_ s3 e = Fin h3 /\
       Rabs (h1 - (h2 + h3)) <= 0.0051 / rhozero * Rsum n (fun k => let ek := upd e z k in
         let b := counts (at_ vol ek) (at_ T ek) (at_ S ek) (at_ T0 ek) (at_ S0 ek) in
         overlap (w k) (w (Datatypes.S k)) 0 (water_depth (at_ depth e)) *
         (Rabs (change b (at_ T ek) (at_ T0 ek)) * Rabs (change b (at_ S ek) (at_ S0 ek))))).
Proof.
  intros d reference cn vm rhozero patm eos domain strict r1 r2 r3 ref ds T S T0 S0 z n p w e vol depth H1 H2 H3 V D J O.
  assert (C2 : forall k, (k < n)%nat -> let ek := upd e z k in counts (at_ vol ek) (at_ T ek) (at_ S0 ek) (at_ T0 ek) (at_ S0 ek) = counts (at_ vol ek) (at_ T ek) (at_ S ek) (at_ T0 ek) (at_ S0 ek)).
  { intros k Hk. cbv zeta. unfold counts. specialize (J k Hk). rewrite J. destruct (is_fin (at_ S _)), (notnull _), (is_fin (at_ S0 _)), (is_fin (at_ T0 _)); reflexivity. }
  assert (C3 : forall k, (k < n)%nat -> let ek := upd e z k in counts (at_ vol ek) (at_ T0 ek) (at_ S ek) (at_ T0 ek) (at_ S0 ek) = counts (at_ vol ek) (at_ T ek) (at_ S ek) (at_ T0 ek) (at_ S0 ek)).
  { intros k Hk. cbv zeta. unfold counts. specialize (J k Hk). rewrite <- J. destruct (is_fin (at_ T _)), (notnull _), (is_fin (at_ S0 _)), (is_fin (at_ T0 _)); reflexivity. }
  assert (O2 : ocean_levels vol T S0 T0 S0 z n p e).
  { intros k Hk. cbv zeta. rewrite (C2 k Hk). intros C. destruct (O k Hk C) as ((A1 & A2 & A3) & (B1 & B2 & B3)). unfold ocean_box. tauto. }
  assert (O3 : ocean_levels vol T0 S T0 S0 z n p e).
  { intros k Hk. cbv zeta. rewrite (C3 k Hk). intros C. destruct (O k Hk C) as ((A1 & A2 & A3) & (B1 & B2 & B3)). unfold ocean_box. tauto. }
  destruct (ocean_height _ _ _ _ _ _ _ _ _ _ _ _ _ _ _ _ _ _ _ _ _ _ _ _ H1 V D O) as (s1 & E1 & X1).
  destruct (ocean_height _ _ _ _ _ _ _ _ _ _ _ _ _ _ _ _ _ _ _ _ _ _ _ _ H2 V D O2) as (s2 & E2 & X2).
  destruct (ocean_height _ _ _ _ _ _ _ _ _ _ _ _ _ _ _ _ _ _ _ _ _ _ _ _ H3 V D O3) as (s3 & E3 & X3).
  exists s1, s2, s3. split; [exact E1|]. split; [exact E2|]. split; [exact E3|]. rewrite X1, X2, X3. clear X1 X2 X3.
  destruct (notnull (at_ vol (upd e z 0))); [right|left; tauto]. eexists. eexists. eexists. split; [reflexivity|]. split; [reflexivity|]. split; [reflexivity|].
  assert (P : 0 < rhozero) by apply H1.
  assert (R3 : forall f1 f2 f3, - (1 / rhozero) * Rsum n f1 - (- (1 / rhozero) * Rsum n f2 + - (1 / rhozero) * Rsum n f3) = / rhozero * Rsum n (fun k => -1 * f1 k + (f2 k + f3 k))).
  { intros f1 f2 f3. rewrite Rsum_plus, Rsum_plus, Rsum_scal. field. lra. }
  rewrite R3. clear R3.
  assert (I : 0 < / rhozero) by (apply Rinv_0_lt_compat; lra). rewrite Rabs_mult, (Rabs_right (/ rhozero)) by lra.
  assert (R1 : forall g, 0.0051 / rhozero * Rsum n g = / rhozero * Rsum n (fun k => 0.0051 * g k)) by (intros g; rewrite Rsum_scal; field; lra).
  rewrite R1. clear R1.
  apply Rmult_le_compat_l; [lra|]. eapply Rle_trans; [apply Rsum_abs|]. apply Rsum_le. intros k Hk. cbv beta zeta.
  rewrite (C2 k Hk), (C3 k Hk). assert (W : 0 <= overlap (w k) (w (Datatypes.S k)) 0 (water_depth (at_ depth e))) by (unfold overlap; apply Rmax_l).
  set (ov := overlap _ _ _ _) in *. destruct (counts _ _ _ _ _) eqn:C; cbn [change]; [|rewrite !Rabs_R0, !Rmult_0_r, !Rplus_0_r, Rabs_R0; lra].
  destruct (O k Hk C) as (B1 & B2). set (x := val (at_ T (upd e z k))) in *. set (y := val (at_ S (upd e z k))) in *.
  set (x0 := val (at_ T0 (upd e z k))) in *. set (y0 := val (at_ S0 (upd e z k))) in *.
  destruct (diff_TS x0 x y0 y (p k) B2 B1) as (c & Cc & Ec).
  match goal with |- Rabs ?l <= _ => replace l with (- (ov * (c * ((x - x0) * (y - y0))))) by (rewrite <- Ec; ring) end.
  rewrite Rabs_Ropp, !Rabs_mult, (Rabs_right ov) by lra.
  replace (0.0051 * (ov * (Rabs (x - x0) * Rabs (y - y0)))) with (ov * (0.0051 * (Rabs (x - x0) * Rabs (y - y0)))) by ring.
  apply Rmult_le_compat_l; [exact W|]. apply Rmult_le_compat_r; [apply Rmult_le_pos; apply Rabs_pos|exact Cc].
Qed.
Print Assumptions C141_nearly_additive.

(** The second month of the demonstration ocean is one degree warmer and one unit fresher over 3000 m: the interaction is
    at most 1.5 cm, and the halosteric height lies between 1.88 m and 2.41 m. *)
Lemma fresh_columns : exists r1 r2 r3 ref T0 S0 V0, let e := fun d => if String.eqb d "time" then 1%nat else 0%nat in
  local_column fresh None None None 1035 (scalar (Fin 101325)) "Wright" "steric" "local" true r1 ref fresh Wright demo_T fresh_S T0 S0 "z_l" 2 demo_p demo_w e /\
  local_column fresh None None None 1035 (scalar (Fin 101325)) "Wright" "thermosteric" "local" true r2 ref fresh Wright demo_T S0 T0 S0 "z_l" 2 demo_p demo_w e /\
  local_column fresh None None None 1035 (scalar (Fin 101325)) "Wright" "halosteric" "local" true r3 ref fresh Wright T0 fresh_S T0 S0 "z_l" 2 demo_p demo_w e /\
  dget "volcello" ref = Some V0 /\ dget "deptho" fresh = Some demo_D /\
  (forall k, at_ V0 (upd e "z_l" k) = Fin 1000 /\ at_ T0 (upd e "z_l" k) = Fin 10 /\ at_ S0 (upd e "z_l" k) = Fin 35 /\ at_ demo_T (upd e "z_l" k) = Fin 11 /\ at_ fresh_S (upd e "z_l" k) = Fin 34).
Proof.
  destruct (fresh_facts "steric" ltac:(cbn; tauto)) as (r1 & ref & T0 & S0 & V0 & rho0 & E & Er1 & G1 & G2 & G3 & G4 & H1 & H2 & H3).
  destruct (fresh_facts "thermosteric" ltac:(cbn; tauto)) as (r2 & ref2 & _ & _ & _ & _ & E2 & Er2 & _).
  destruct (fresh_facts "halosteric" ltac:(cbn; tauto)) as (r3 & ref3 & _ & _ & _ & _ & E3 & Er3 & _).
  rewrite E in E2, E3. injection E2 as <-. injection E3 as <-.
  assert (HV : forall e, at_ V0 e = at_ demo_V (upd e "time" 0)).
  { assert (Hm : same_name "Wright" (module_name Wright)) by (apply same_name_lower; reflexivity).
    destruct (reference_ok _ _ _ _ _ _ _ _ _ _ _ _ _ _ _ _ _ _ fresh_regular (Fin 101325) "Wright" Wright Hm None 0 0 eq_refl eq_refl)
      as (T1 & S1 & V1 & rho1 & volo & masso & rhoga & E' & _ & _ & _ & _ & _ & _ & _ & _ & _ & W).
    rewrite E in E'. injection E' as ->. cbn in G3. injection G3 as <-. exact W. }
  exists r1, r2, r3, ref, T0, S0, V0. set (e := fun d => if String.eqb d "time" then 1%nat else 0%nat). cbv zeta.
  assert (O : forall k t s, (k < 2)%nat -> 10 <= t <= 11 -> 34 <= s <= 35 -> ocean_box t s (demo_p k)).
  { intros k t s Hk Ht Hs. unfold ocean_box, demo_p. destruct k as [|[|k]]; [cbn; lra|cbn; lra|lia]. }
  assert (LC : forall variant r T S, steric fresh None None None 1035 (scalar (Fin 101325)) "Wright" variant "local" true = Ok (r, ref) ->
     uses_fields fresh ref variant T S ->
     (forall k, at_ T (upd e "z_l" k) = Fin 11 \/ at_ T (upd e "z_l" k) = Fin 10) -> (forall k, at_ S (upd e "z_l" k) = Fin 34 \/ at_ S (upd e "z_l" k) = Fin 35) ->
     local_column fresh None None None 1035 (scalar (Fin 101325)) "Wright" variant "local" true r ref fresh Wright T S T0 S0 "z_l" 2 demo_p demo_w e).
  { intros variant r T S Er Hu HT HS. split; [exact Er|]. split; [discriminate|]. split; [lra|]. split; [reflexivity|].
    split; [apply same_name_lower; reflexivity|]. split; [exact fresh_wf|]. split; [exact Hu|].
    split; [exact G1|]. split; [exact G2|]. split; [exists fresh, 0%Z; split; [exact E|reflexivity]|]. split.
    + exists "time", "z_i", V0, rho0, demo_zl, demo_zi, demo_D, "z_i". repeat (split; [reflexivity || assumption|]).
      split; [cbn; intuition discriminate|]. split; [reflexivity|]. split; [reflexivity|].
      split; [intros k _; reflexivity|]. split; [intros k _; unfold demo_w; rewrite S_INR; lra|].
      split; [intros s; discriminate|]. intros k Hk. cbv zeta.
      split; [intros s; destruct (HT k) as [-> | ->]; discriminate|]. split; [intros s; destruct (HS k) as [-> | ->]; discriminate|].
      split; [intros s; destruct (H3 e k Hk) as [x ->]; discriminate|]. split.
      * exists (1000 + 2000 * INR k), 101325. repeat split.
      * intros t s Et Es. cbn [eos_defined]. apply Rgt_not_eq, denom_pos, O; [exact Hk| |];
          [destruct (HT k) as [Q|Q]|destruct (HS k) as [Q|Q]]; (rewrite Et in Q || rewrite Es in Q); injection Q as ->; lra.
    + intros k s _. rewrite H1, H2. split; discriminate. }
  assert (FT : forall k, at_ demo_T (upd e "z_l" k) = Fin 11) by (intros k; cbn; f_equal; lra).
  assert (FS : forall k, at_ fresh_S (upd e "z_l" k) = Fin 34) by (intros k; cbn; f_equal; lra).
  split; [apply LC; [exact Er1|apply uf_steric; reflexivity|left; apply FT|left; apply FS]|].
  split; [apply LC; [exact Er2|apply uf_thermo; [reflexivity|exact G2]|left; apply FT|right; apply H2]|].
  split; [apply LC; [exact Er3|apply uf_halo; [exact G1|reflexivity]|right; apply H1|left; apply FS]|].
  split; [exact G3|]. split; [reflexivity|]. intros k. split; [apply HV|]. split; [apply H1|]. split; [apply H2|]. split; [apply FT|apply FS].
Qed.
Example C140_C141_fresh : exists r1 r2 r3 ref s1 s2 s3 h1 h2 h3, let e := fun d => if String.eqb d "time" then 1%nat else 0%nat in
  steric fresh None None None 1035 (scalar (Fin 101325)) "Wright" "steric" "local" true = Ok (r1, ref) /\
  steric fresh None None None 1035 (scalar (Fin 101325)) "Wright" "thermosteric" "local" true = Ok (r2, ref) /\
  steric fresh None None None 1035 (scalar (Fin 101325)) "Wright" "halosteric" "local" true = Ok (r3, ref) /\
  dget "steric" r1 = Some s1 /\ dget "thermosteric" r2 = Some s2 /\ dget "halosteric" r3 = Some s3 /\
  at_ s1 e = Fin h1 /\ at_ s2 e = Fin h2 /\ at_ s3 e = Fin h3 /\
  Rabs (h1 - (h2 + h3)) <= 0.015 /\ Rabs h1 <= 3.86 /\ Rabs h2 <= 1.45 /\ 1.88 <= h3 <= 2.41.
Proof.
  destruct fresh_columns as (r1 & r2 & r3 & ref & T0 & S0 & V0 & L1 & L2 & L3 & V & D & F). set (e := fun d => if String.eqb d "time" then 1%nat else 0%nat) in *. cbv zeta in *.
  assert (OL : forall T S, (forall k, at_ T (upd e "z_l" k) = Fin 11 \/ at_ T (upd e "z_l" k) = Fin 10) -> (forall k, at_ S (upd e "z_l" k) = Fin 34 \/ at_ S (upd e "z_l" k) = Fin 35) ->
    ocean_levels V0 T S T0 S0 "z_l" 2 demo_p e).
  { intros T S HT HS k Hk. cbv zeta. intros _. destruct (F k) as (_ & -> & -> & _ & _).
    destruct (HT k) as [-> | ->], (HS k) as [-> | ->]; cbn [val]; unfold ocean_box, demo_p; destruct k as [|[|k]]; try lia; cbn; lra. }
  assert (F0 : forall k, at_ V0 (upd e "z_l" k) = Fin 1000) by (intros k; apply F). assert (F1 : forall k, at_ T0 (upd e "z_l" k) = Fin 10) by (intros k; apply F).
  assert (F2 : forall k, at_ S0 (upd e "z_l" k) = Fin 35) by (intros k; apply F). assert (F3 : forall k, at_ demo_T (upd e "z_l" k) = Fin 11) by (intros k; apply F).
  assert (F4 : forall k, at_ fresh_S (upd e "z_l" k) = Fin 34) by (intros k; apply F).
  assert (O1 := OL demo_T fresh_S (fun k => or_introl (F3 k)) (fun k => or_introl (F4 k))).
  assert (O2 := OL demo_T S0 (fun k => or_introl (F3 k)) (fun k => or_intror (F2 k))).
  assert (O3 := OL T0 fresh_S (fun k => or_intror (F1 k)) (fun k => or_introl (F4 k))).
  destruct (C141_nearly_additive _ _ _ _ _ _ _ _ _ _ _ _ _ _ _ _ _ _ _ _ _ _ _ V0 demo_D L1 L2 L3 V D) as (s1 & s2 & s3 & E1 & E2 & E3 & X).
  { intros k _. rewrite F3, F4. reflexivity. }
  { exact O1. }
  destruct (C140_bound _ _ _ _ _ _ _ _ _ _ _ _ _ _ _ _ _ _ _ _ _ _ V0 demo_D L1 V D O1) as (s1' & E1' & Y1). rewrite E1 in E1'. injection E1' as <-.
  destruct (C140_bound _ _ _ _ _ _ _ _ _ _ _ _ _ _ _ _ _ _ _ _ _ _ V0 demo_D L2 V D O2) as (s2' & E2' & Y2). rewrite E2 in E2'. injection E2' as <-.
  destruct (C140_freshening _ _ _ _ _ _ _ _ _ _ _ _ _ _ _ _ _ _ _ _ _ V0 demo_D L3 V D O3) as (s3' & E3' & Y3).
  { intros k x y _ A B. rewrite F4 in A. rewrite F2 in B. injection A as <-. injection B as <-. lra. }
  rewrite E3 in E3'. injection E3' as <-.
  assert (NN : at_ s1 e <> NaN).
  { destruct (ocean_height _ _ _ _ _ _ _ _ _ _ _ _ _ _ _ _ _ _ _ _ _ _ V0 demo_D L1 V D O1) as (s & A & B). rewrite E1 in A. injection A as <-. rewrite B, F0. discriminate. }
  destruct X as [(X & _)|(h1 & h2 & h3 & X1 & X2 & X3 & X4)]; [contradiction|].
  destruct Y1 as [Y1|(k1 & K1 & B1)]; [congruence|]. destruct Y2 as [Y2|(k2 & K2 & B2)]; [congruence|]. destruct Y3 as [Y3|(k3 & K3 & B3)]; [congruence|].
  rewrite X1 in K1. injection K1 as <-. rewrite X2 in K2. injection K2 as <-. rewrite X3 in K3. injection K3 as <-.
  assert (W0 : overlap (demo_w 0) (demo_w 1) 0 (water_depth (at_ demo_D e)) = 2000).
  { unfold overlap, demo_w. cbn. unfold Rmax, Rmin. repeat destruct (Rle_dec _ _); lra. }
  assert (W1 : overlap (demo_w 1) (demo_w 2) 0 (water_depth (at_ demo_D e)) = 1000).
  { unfold overlap, demo_w. cbn. unfold Rmax, Rmin. repeat destruct (Rle_dec _ _); lra. }
  assert (C1 : Rabs (11 - 10) = 1) by (rewrite Rabs_right; lra). assert (C2 : Rabs (34 - 35) = 1) by (rewrite Rabs_left; lra).
  assert (C3 : Rabs (35 - 35) = 0) by (rewrite Rminus_diag_eq by reflexivity; apply Rabs_R0).
  cbn [Rsum] in X4, B1, B2, B3. cbv zeta in X4, B1, B2, B3.
  rewrite !F0, !F1, !F2, !F3, ?F4 in X4, B1. rewrite !F0, !F1, !F2, !F3 in B2. rewrite !F0, !F1, !F2, !F4 in B3.
  cbn [counts notnull isnull negb is_fin andb change val] in X4, B1, B2, B3. rewrite ?W0, ?W1, ?C1, ?C2, ?C3 in X4, B1, B2, B3.
  exists r1, r2, r3, ref, s1, s2, s3, h1, h2, h3. split; [apply L1|]. split; [apply L2|]. split; [apply L3|]. split; [exact E1|]. split; [exact E2|]. split; [exact E3|].
  split; [exact X1|]. split; [exact X2|]. split; [exact X3|]. rewrite C1, C2 in X4, B1. rewrite C1, C3 in B2. clear - X4 B1 B2 B3. lra.
Qed.
