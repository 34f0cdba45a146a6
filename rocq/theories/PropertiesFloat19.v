(** * PropertiesFloat19: C174 (the parts of the local steric height in binary64) *)
From Coq Require Import Reals Lra Lia List ZArith QArith Bool.
From Flocq Require Import Core IEEE754.BinarySingleNaN.
From Verif Require Import SpecFloat64 Ieee SpecIeee SpecDz SpecEos ProofsEos ProofsEosBox ProofsEosSlope ProofsIeee ProofsFloat6 PropertiesFloat.
Import ListNotations.
Local Open Scope R_scope.

(** steric.py:115-120: the thermosteric height takes the salinity of the reference state, the halosteric height its temperature. *)
Definition thermo (c : cell) : cell := mkCell (ztop c) (zbot c) (zmid c) (wet c) (temp c) (salt_ref c) (temp_ref c) (salt_ref c).
Definition halo (c : cell) : cell := mkCell (ztop c) (zbot c) (zmid c) (wet c) (temp_ref c) (salt c) (temp_ref c) (salt_ref c).

(** Changes of temperature and salinity, zero on land. *)
Definition warming (c : cell) : R := if wet c then B2R (temp c) - B2R (temp_ref c) else 0.
Definition salting (c : cell) : R := if wet c then B2R (salt c) - B2R (salt_ref c) else 0.

(** A column of at most 1000 levels and 12000 m of sea water. *)
Record sea_column (rhozero depth patm : f64) (column : list cell) : Prop := {
  sc_rho : is_finite rhozero = true /\ 1000 <= B2R rhozero <= 1100;
  sc_depth : is_finite depth = true /\ 0 <= B2R depth;
  sc_patm : is_finite patm = true /\ 0 <= B2R patm <= 110000;
  sc_cells : forall c, In c column -> cell_finite c /\ 0 <= B2R (ztop c) <= B2R (zbot c) /\ (wet c = true -> wet_ok c);
  sc_total : rsum (map (thickness (B2R depth)) column) <= 12000;
  sc_levels : (length column <= 1000)%nat }.

Lemma sea_map f rhozero depth patm column : (forall c, ztop (f c) = ztop c /\ zbot (f c) = zbot c /\ wet (f c) = wet c /\ (wet_ok c -> wet_ok (f c))) ->
  sea_column rhozero depth patm column -> sea_column rhozero depth patm (map f column).
Proof.
  intros F [A B C D E G]. constructor; try assumption.
  - intros c I. apply in_map_iff in I as (c0 & <- & I). destruct (F c0) as (F1 & F2 & F3 & F4), (D c0 I) as ([D1 D1'] & D2 & D3). unfold cell_finite.
    rewrite F1, F2, F3. split; [split; assumption|]. split; [exact D2|]. intros W. apply F4, D3, W.
  - rewrite map_map. erewrite map_ext; [exact E|]. intros c. unfold thickness. destruct (F c) as (-> & -> & _). reflexivity.
  - rewrite map_length. exact G.
Qed.
Lemma thermo_sea rhozero depth patm column : sea_column rhozero depth patm column -> sea_column rhozero depth patm (map thermo column).
Proof. apply sea_map. intros c. repeat (split; [reflexivity|]). unfold wet_ok, thermo. cbn. tauto. Qed.
Lemma halo_sea rhozero depth patm column : sea_column rhozero depth patm column -> sea_column rhozero depth patm (map halo column).
Proof. apply sea_map. intros c. repeat (split; [reflexivity|]). unfold wet_ok, halo. cbn. tauto. Qed.
Lemma sea_height rhozero depth patm column h : sea_column rhozero depth patm column -> steric64 rhozero depth patm column h ->
  is_finite h = true /\ Rabs (B2R h - exact_height (B2R rhozero) (B2R depth) (B2R patm) column) <= 3e-10.
Proof. intros [[A A'] [B B'] [C C'] D E G] H. exact (C92_column64 rhozero depth patm column h A A' B B' C C' D E G H). Qed.

Lemma thick_nonneg d c : 0 <= B2R (ztop c) <= B2R (zbot c) -> 0 <= thickness d c.
Proof. intros _. unfold thickness, overlap. apply Rmax_l. Qed.
Lemma sea_box patm c : 0 <= patm <= 110000 -> wet_ok c ->
  let p := B2R (zmid c) * 10000 + patm in ocean_box (B2R (temp c)) (B2R (salt c)) p /\ ocean_box (B2R (temp_ref c)) (B2R (salt_ref c)) p.
Proof. intros P (_ & _ & _ & _ & _ & Z & A & B & C & D) p. unfold ocean_box, p. lra. Qed.
Lemma rsum_le {A} (f g : A -> R) l : (forall x, In x l -> f x <= g x) -> rsum (map f l) <= rsum (map g l).
Proof. induction l as [|x l IH]; intros H; cbn [map rsum]; [lra|]. specialize (IH (fun y I => H y (or_intror I))). specialize (H x (or_introl eq_refl)). lra. Qed.
Lemma rsum_abs_le {A} (f g : A -> R) l : (forall x, In x l -> Rabs (f x) <= g x) -> Rabs (rsum (map f l)) <= rsum (map g l).
Proof.
  induction l as [|x l IH]; intros H; cbn [map rsum]; [rewrite Rabs_R0; lra|]. specialize (IH (fun y I => H y (or_intror I))). specialize (H x (or_introl eq_refl)).
  eapply Rle_trans; [apply Rabs_triang|lra].
Qed.
Lemma rsum_lin {A} (f g : A -> R) a b l : rsum (map (fun x => a * f x + b * g x) l) = a * rsum (map f l) + b * rsum (map g l).
Proof. induction l as [|x l IH]; cbn [map rsum]; [ring|]. rewrite IH. ring. Qed.

Section Column.
  Variables (rhozero depth patm : f64) (column : list cell).
  Hypothesis SC : sea_column rhozero depth patm column.
  Let th := thickness (B2R depth).
  Let pa := B2R patm.
  Let r := B2R rhozero.

  Lemma abs_delta c : In c column -> Rabs (th c * exact_delta pa c) <= th c * (0.5 * Rabs (warming c) + 0.83 * Rabs (salting c)).
  Proof.
    intros I. destruct SC as [_ _ [_ P] D _ _]. destruct (D c I) as (_ & Z & W). assert (T := thick_nonneg (B2R depth) c Z). fold (th c) in T.
    rewrite Rabs_mult, (Rabs_pos_eq (th c)) by exact T. apply Rmult_le_compat_l; [exact T|]. unfold exact_delta, warming, salting.
    destruct (wet c); [|rewrite !Rabs_R0; lra]. destruct (sea_box pa c P (W eq_refl)) as [B1 B0]. cbv zeta in B1, B0.
    set (p := B2R (zmid c) * 10000 + pa) in *. set (T1 := B2R (temp c)) in *. set (S1 := B2R (salt c)) in *. set (T0 := B2R (temp_ref c)) in *. set (S0 := B2R (salt_ref c)) in *.
    assert (BM : ocean_box T0 S1 p) by (unfold ocean_box in *; lra).
    destruct (diff_T T0 T1 S1 p BM B1) as (a & Ha & Ea). destruct (diff_S T0 S0 S1 p B0 BM) as (b & Hb & Eb).
    replace (wr_rho T1 S1 p - wr_rho T0 S0 p) with (a * (T1 - T0) + b * (S1 - S0)) by lra.
    eapply Rle_trans; [apply Rabs_triang|]. rewrite !Rabs_mult. apply Rplus_le_compat; apply Rmult_le_compat_r; try apply Rabs_pos; apply Rabs_le; lra.
  Qed.

  Lemma cross_delta c : In c column ->
    Rabs (th c * exact_delta pa c - th (thermo c) * exact_delta pa (thermo c) - th (halo c) * exact_delta pa (halo c)) <= th c * (0.0051 * (Rabs (warming c) * Rabs (salting c))).
  Proof.
    intros I. destruct SC as [_ _ [_ P] D _ _]. destruct (D c I) as (_ & Z & W). assert (T := thick_nonneg (B2R depth) c Z). fold (th c) in T.
    change (th (thermo c)) with (th c). change (th (halo c)) with (th c).
    replace (th c * exact_delta pa c - th c * exact_delta pa (thermo c) - th c * exact_delta pa (halo c)) with (th c * (exact_delta pa c - exact_delta pa (thermo c) - exact_delta pa (halo c))) by ring.
    rewrite Rabs_mult, (Rabs_pos_eq (th c)) by exact T. apply Rmult_le_compat_l; [exact T|]. unfold exact_delta, warming, salting, thermo, halo. cbn [wet temp salt temp_ref salt_ref zmid].
    destruct (wet c); [|rewrite !Rabs_R0; replace (0 - 0 - 0) with 0 by ring; rewrite Rabs_R0; lra]. destruct (sea_box pa c P (W eq_refl)) as [B1 B0]. cbv zeta in B1, B0.
    set (p := B2R (zmid c) * 10000 + pa) in *. set (T1 := B2R (temp c)) in *. set (S1 := B2R (salt c)) in *. set (T0 := B2R (temp_ref c)) in *. set (S0 := B2R (salt_ref c)) in *.
    destruct (diff_TS T0 T1 S0 S1 p B0 B1) as (k & Hk & Ek).
    replace (wr_rho T1 S1 p - wr_rho T0 S0 p - (wr_rho T1 S0 p - wr_rho T0 S0 p) - (wr_rho T0 S1 p - wr_rho T0 S0 p)) with (k * ((T1 - T0) * (S1 - S0))) by lra.
    rewrite !Rabs_mult. apply Rmult_le_compat_r; [apply Rmult_le_pos; apply Rabs_pos|exact Hk].
  Qed.
End Column.

(** ** C174: in binary64 the thermosteric and halosteric heights add up to the steric height, up to rounding and the cross term of the equation of state. *)
Theorem C174_nearly_additive : forall rhozero depth patm column h1 h2 h3, sea_column rhozero depth patm column ->
  steric64 rhozero depth patm column h1 -> steric64 rhozero depth patm (map thermo column) h2 -> steric64 rhozero depth patm (map halo column) h3 ->
  is_finite h1 = true /\ is_finite h2 = true /\ is_finite h3 = true /\
  Rabs (B2R h1 - (B2R h2 + B2R h3)) <=
    9e-10 + 0.0051 / B2R rhozero * rsum (map (fun c => thickness (B2R depth) c * (Rabs (warming c) * Rabs (salting c))) column).
Proof.
  intros rhozero depth patm column h1 h2 h3 SC H1 H2 H3.
  destruct (sea_height _ _ _ _ _ SC H1) as [F1 E1]. destruct (sea_height _ _ _ _ _ (thermo_sea _ _ _ _ SC) H2) as [F2 E2]. destruct (sea_height _ _ _ _ _ (halo_sea _ _ _ _ SC) H3) as [F3 E3].
  repeat (split; [assumption|]). pose proof (proj2 (sc_rho _ _ _ _ SC)) as Hr.
  unfold exact_height in E1, E2, E3. rewrite map_map in E2, E3.
  set (r := B2R rhozero) in *. set (pa := B2R patm) in *. set (th := thickness (B2R depth)) in *.
  set (s1 := rsum (map (fun c => th c * exact_delta pa c) column)) in *.
  set (s2 := rsum (map (fun c => th (thermo c) * exact_delta pa (thermo c)) column)) in *.
  set (s3 := rsum (map (fun c => th (halo c) * exact_delta pa (halo c)) column)) in *.
  set (w := fun c => th c * (Rabs (warming c) * Rabs (salting c))).
  assert (X : Rabs (s1 - s2 - s3) <= 0.0051 * rsum (map w column)).
  { replace (s1 - s2 - s3) with (rsum (map (fun c => th c * exact_delta pa c - th (thermo c) * exact_delta pa (thermo c) - th (halo c) * exact_delta pa (halo c)) column)).
    - eapply Rle_trans; [apply rsum_abs_le; intros c I; exact (cross_delta rhozero depth patm column SC c I)|]. apply Req_le.
      clear. unfold w. induction column as [|c l IH]; cbn [map rsum]; [ring|]. fold th in IH |- *. rewrite IH. ring.
    - unfold s1, s2, s3. clear. induction column as [|c l IH]; cbn [map rsum]; [ring|]. rewrite IH. ring. }
  assert (Y : Rabs (- (1 / r) * s1 - (- (1 / r) * s2 + - (1 / r) * s3)) <= 0.0051 / r * rsum (map w column)).
  { replace (- (1 / r) * s1 - (- (1 / r) * s2 + - (1 / r) * s3)) with (- (1 / r) * (s1 - s2 - s3)) by ring.
    rewrite Rabs_mult, Rabs_Ropp, Rabs_pos_eq by (apply Rlt_le, Rdiv_lt_0_compat; lra).
    replace (0.0051 / r * rsum (map w column)) with (1 / r * (0.0051 * rsum (map w column))) by (unfold Rdiv; ring).
    apply Rmult_le_compat_l; [apply Rlt_le, Rdiv_lt_0_compat; lra|exact X]. }
  revert E1 E2 E3 Y. fold th w. generalize (0.0051 / r * rsum (map w column)) as u. generalize (- (1 / r) * s1) as a1. generalize (- (1 / r) * s2) as a2. generalize (- (1 / r) * s3) as a3.
  intros a3 a2 a1 u E1 E2 E3 Y. apply Rabs_le_inv in E1, E2, E3, Y. apply Rabs_le. lra.
Qed.
Print Assumptions C174_nearly_additive.

(** Steric, thermosteric and halosteric heights are bounded by the changes of temperature and salinity. *)
Theorem C174_bound : forall rhozero depth patm column h, sea_column rhozero depth patm column -> steric64 rhozero depth patm column h ->
  Rabs (B2R h) <= 3e-10 + 1 / B2R rhozero * rsum (map (fun c => thickness (B2R depth) c * (0.5 * Rabs (warming c) + 0.83 * Rabs (salting c))) column).
Proof.
  intros rhozero depth patm column h SC H. destruct (sea_height _ _ _ _ _ SC H) as [_ E]. pose proof (proj2 (sc_rho _ _ _ _ SC)) as Hr. unfold exact_height in E.
  set (r := B2R rhozero) in *. set (pa := B2R patm) in *. set (th := thickness (B2R depth)) in *. set (s := rsum (map (fun c => th c * exact_delta pa c) column)) in *.
  assert (X : Rabs s <= rsum (map (fun c => th c * (0.5 * Rabs (warming c) + 0.83 * Rabs (salting c))) column)).
  { apply rsum_abs_le. intros c I. exact (abs_delta rhozero depth patm column SC c I). }
  assert (Y : Rabs (- (1 / r) * s) <= 1 / r * rsum (map (fun c => th c * (0.5 * Rabs (warming c) + 0.83 * Rabs (salting c))) column)).
  { rewrite Rabs_mult, Rabs_Ropp, (Rabs_pos_eq (1 / r)) by (apply Rlt_le, Rdiv_lt_0_compat; lra). apply Rmult_le_compat_l; [apply Rlt_le, Rdiv_lt_0_compat; lra|exact X]. }
  apply Rabs_le_inv in E, Y. apply Rabs_le. lra.
Qed.
Print Assumptions C174_bound.

(** Where no salinity has risen, the halosteric height is the freshening times 0.65 to 0.83, up to rounding. *)
Theorem C174_freshening : forall rhozero depth patm column h, sea_column rhozero depth patm column -> steric64 rhozero depth patm (map halo column) h ->
  (forall c, In c column -> salting c <= 0) ->
  let fresh := rsum (map (fun c => thickness (B2R depth) c * - salting c) column) in
  0.65 / B2R rhozero * fresh - 3e-10 <= B2R h <= 0.83 / B2R rhozero * fresh + 3e-10.
Proof.
  intros rhozero depth patm column h SC H Fr fresh. destruct (sea_height _ _ _ _ _ (halo_sea _ _ _ _ SC) H) as [_ E]. pose proof (proj2 (sc_rho _ _ _ _ SC)) as Hr. unfold exact_height in E. rewrite map_map in E.
  set (r := B2R rhozero) in *. set (pa := B2R patm) in *. set (th := thickness (B2R depth)) in *. set (s := rsum (map (fun c => th (halo c) * exact_delta pa (halo c)) column)) in *.
  assert (K : forall c, In c column -> 0.65 * (th c * - salting c) <= - (th (halo c) * exact_delta pa (halo c)) <= 0.83 * (th c * - salting c)).
  { intros c I. specialize (Fr c I). destruct SC as [_ _ [_ P] D _ _]. destruct (D c I) as (_ & Z & W). assert (T := thick_nonneg (B2R depth) c Z). fold th in T. change (th (halo c)) with (th c).
    unfold exact_delta, salting, halo in *. cbn [wet temp salt temp_ref salt_ref zmid]. destruct (wet c); [|lra]. destruct (sea_box pa c P (W eq_refl)) as [B1 B0]. cbv zeta in B1, B0.
    set (p := B2R (zmid c) * 10000 + pa) in *. set (T0 := B2R (temp_ref c)) in *. set (S1 := B2R (salt c)) in *. set (S0 := B2R (salt_ref c)) in *.
    assert (BM : ocean_box T0 S1 p) by (unfold ocean_box in *; lra).
    destruct (diff_S T0 S0 S1 p B0 BM) as (b & Hb & ->).
    assert (U : 0 <= th c * - (S1 - S0)) by (apply Rmult_le_pos; lra).
    replace (- (th c * (b * (S1 - S0)))) with (b * (th c * - (S1 - S0))) by ring. split; apply Rmult_le_compat_r; lra. }
  assert (X : 0.65 * fresh <= - s <= 0.83 * fresh).
  { unfold fresh, s. fold th. clear -K. induction column as [|c l IH]; cbn [map rsum]; [lra|]. specialize (IH (fun y I => K y (or_intror I))). specialize (K c (or_introl eq_refl)). lra. }
  assert (Q : 0 < 1 / r) by (apply Rdiv_lt_0_compat; lra).
  assert (Y : 0.65 / r * fresh <= - (1 / r) * s <= 0.83 / r * fresh).
  { replace (- (1 / r) * s) with (1 / r * - s) by ring. replace (0.65 / r * fresh) with (1 / r * (0.65 * fresh)) by (unfold Rdiv; ring). replace (0.83 / r * fresh) with (1 / r * (0.83 * fresh)) by (unfold Rdiv; ring).
    split; apply Rmult_le_compat_l; lra. }
  apply Rabs_le_inv in E. lra.
Qed.
Print Assumptions C174_freshening.

(** The column of C92: one level warmer, one fresher, one on land. *)
Example C174_case : sea_column (of_Z 1035) (of_Z 25) (of_Z 101325) col92 /\
  (exists h1 h2 h3, steric64 (of_Z 1035) (of_Z 25) (of_Z 101325) col92 h1 /\ steric64 (of_Z 1035) (of_Z 25) (of_Z 101325) (map thermo col92) h2 /\
     steric64 (of_Z 1035) (of_Z 25) (of_Z 101325) (map halo col92) h3) /\
  forall c, In c col92 -> salting c <= 0.
Proof.
  split; [|split].
  - destruct C92_data as (A & B & _). b2r (of_Z 1035) H0. b2r (of_Z 25) H1. b2r (of_Z 101325) H2. constructor; try (split; [vm_compute; reflexivity|lra]); [exact A|exact B|cbn; lia].
  - assert (G : forall l, l <> [] -> exists h, steric64 (of_Z 1035) (of_Z 25) (of_Z 101325) l h).
    { intros l N. assert (S0 : exists s, sum64 (map (term64 (of_Z 25) (of_Z 101325)) l) s).
      { induction l as [|c l IH]; [contradiction N; reflexivity|]. destruct l as [|c' l]; [eexists; cbn [map]; apply sum_one|]. destruct IH as [s Hs]; [discriminate|].
        eexists. change (map (term64 (of_Z 25) (of_Z 101325)) (c :: c' :: l)) with ([term64 (of_Z 25) (of_Z 101325) c] ++ map (term64 (of_Z 25) (of_Z 101325)) (c' :: l)). apply sum_add; [apply sum_one|exact Hs]. }
      destruct S0 as [s Hs]. eexists. exists s. split; [exact Hs|reflexivity]. }
    destruct (G col92 ltac:(discriminate)) as [h1 E1]. destruct (G (map thermo col92) ltac:(discriminate)) as [h2 E2]. destruct (G (map halo col92) ltac:(discriminate)) as [h3 E3]. exists h1, h2, h3. auto.
  - b2r (of_Z 34) H0. b2r (of_Z 35) H1. intros c [<-|[<-|[<-|[]]]]; unfold salting; cbn [wet salt salt_ref]; lra.
Qed.
