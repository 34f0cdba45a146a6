(** * PropertiesFloat2: rounding errors of the global steric height (C98, C99)

    [B2R x] is the real number represented by the finite binary64 datum [x]. *)
From Coq Require Import Reals Lra Lia List ZArith QArith Bool.
From Flocq Require Import Core IEEE754.BinarySingleNaN.
From Verif Require Import SpecFloat64 Ieee IeeeGlobal SpecIeee SpecIeeeGlobal SpecEos ProofsEosBox
  ProofsIeee ProofsFloat6 ProofsFloat9 ProofsFloat10.
Import ListNotations.
Local Open Scope R_scope.

(** C98: in binary64 arithmetic the global steric height is finite, and it differs from
    V / A * ln (reference mass / mass), evaluated exactly, by at most
    V / A * (9e-15 + 2.25 k / 2^53), where [k] bounds the number of additions that any one cell
    passes through in the sums over the grid, in whatever order they are carried out. *)
Theorem C98_global64 : forall log64 k sum patm cells areas,
  accurate_log log64 -> (Z.of_nat k <= 1000000)%Z ->
  is_finite patm = true -> 0 <= B2R patm <= 110000 -> Forall gcell_ok cells -> Forall size_ok areas ->
  0 < total_volume cells <= 10 ^ 100 -> 0 < total_area64 areas <= 10 ^ 100 ->
  sums_within k sum patm cells areas ->
  is_finite (global64 log64 sum patm cells areas) = true /\
  Rabs (B2R (global64 log64 sum patm cells areas)
        - total_volume cells / total_area64 areas
          * ln (reference_mass64 (B2R patm) cells / total_mass64 (B2R patm) cells))
    <= total_volume cells / total_area64 areas * (9 / 10 ^ 15 + 9 / 4 * INR k / 2 ^ 53).
Proof. exact global_close. Qed.
Print Assumptions C98_global64.

(** C99: where temperature and salinity equal those of the reference state, the computed global
    steric height is exactly zero, although the masses themselves carry rounding errors. *)
Theorem C99_unchanged_global64 : forall log64 k sum patm cells areas,
  accurate_log log64 -> (Z.of_nat k <= 1000000)%Z ->
  is_finite patm = true -> 0 <= B2R patm <= 110000 -> Forall gcell_ok cells -> Forall size_ok areas ->
  0 < total_volume cells <= 10 ^ 100 -> 0 < total_area64 areas <= 10 ^ 100 ->
  sums_within k sum patm cells areas ->
  (forall c, In c cells -> g_T c = g_Tref c /\ g_S c = g_Sref c) ->
  is_finite (global64 log64 sum patm cells areas) = true /\ B2R (global64 log64 sum patm cells areas) = 0.
Proof. exact global_zero. Qed.
Print Assumptions C99_unchanged_global64.

(** ** Concrete cases *)

(** An accurate logarithm exists: the exact logarithm, rounded to nearest. *)
Example C98_log : accurate_log log_nearest.
Proof. exact log_nearest_accurate. Qed.
(** So does a sum: any non-empty grid, added cell after cell. *)
Example C98_sum : forall patm cells areas k, cells <> [] -> areas <> [] ->
  (List.length cells <= k)%nat -> (List.length areas <= k)%nat -> sums_within k seqsum patm cells areas.
Proof. exact seqsum_within. Qed.

(** Two ocean cells of 10^12 and 10^13 m3, one of land and an area of 3.61e8 m2; the upper cell
    has warmed from 10 to 11 degC. *)
Definition land64 : gcell := mkGcell B754_nan (of_Z 5) B754_nan B754_nan B754_nan B754_nan.
Definition demo64 (T : Z) : list gcell :=
  [mkGcell (of_Z (10 ^ 12)) (of_Z 5) (of_Z T) (of_Z 35) (of_Z 10) (of_Z 35); land64;
   mkGcell (of_Z (10 ^ 13)) (of_Z 1000) (of_Z 4) (of_Z 34) (of_Z 4) (of_Z 34)].
Definition demo_areas : list f64 := [of_Z 361000000; B754_nan].
Lemma size_of_Z z : (1 <= z < 2 ^ 53)%Z -> size_ok (of_Z z).
Proof.
  intros Hz. destruct (of_Z_rep z ltac:(lia)) as [F V]. right. split; [exact F|]. rewrite V. right.
  assert (1 <= IZR z) by (apply IZR_le; lia). eapply Rle_trans; [|eassumption].
  rewrite <- Rinv_1. apply Rinv_le_contravar; [lra|]. apply pow_R1_Rle; lra.
Qed.
Lemma cell_of_Z v z T S T' S' : (1 <= v < 2 ^ 53)%Z -> (0 <= z <= 6000)%Z -> (0 <= T <= 40)%Z -> (0 <= S <= 42)%Z ->
  (0 <= T' <= 40)%Z -> (0 <= S' <= 42)%Z -> gcell_ok (mkGcell (of_Z v) (of_Z z) (of_Z T) (of_Z S) (of_Z T') (of_Z S')).
Proof.
  intros Hv Hz HT HS HT' HS'. split; [apply size_of_Z, Hv|]. intros _. cbn [g_z g_T g_S g_Tref g_Sref].
  destruct (of_Z_rep z ltac:(lia)) as [Fz ->]. destruct (of_Z_rep T ltac:(lia)) as [FT ->].
  destruct (of_Z_rep S ltac:(lia)) as [FS ->]. destruct (of_Z_rep T' ltac:(lia)) as [FT' ->].
  destruct (of_Z_rep S' ltac:(lia)) as [FS' ->].
  do 5 (split; [assumption|]). repeat split; apply IZR_le; lia.
Qed.
Lemma demo_ok T : (0 <= T <= 20)%Z -> Forall gcell_ok (demo64 T) /\ Forall size_ok demo_areas /\
  total_volume (demo64 T) = IZR (11 * 10 ^ 12) /\ total_area64 demo_areas = 361000000.
Proof.
  intros HT.
  destruct (of_Z_rep (10 ^ 12) ltac:(lia)) as [F1 V1]. destruct (of_Z_rep (10 ^ 13) ltac:(lia)) as [F2 V2].
  destruct (of_Z_rep 361000000 ltac:(lia)) as [F9 V9].
  split; [|split; [|split]].
  - unfold demo64. constructor; [apply cell_of_Z; lia|]. constructor; [split; [left; reflexivity|discriminate]|].
    constructor; [apply cell_of_Z; lia|]. constructor.
  - unfold demo_areas. constructor; [apply size_of_Z; lia|]. constructor; [left; reflexivity|constructor].
  - unfold total_volume, demo64, land64. cbn [map rsum g_vol]. rewrite V1, V2. cbn [B2R].
    change (10 ^ 12)%Z with 1000000000000%Z. change (10 ^ 13)%Z with 10000000000000%Z. change (11 * 1000000000000)%Z with 11000000000000%Z. lra.
  - unfold total_area64, demo_areas. cbn [map rsum]. rewrite V9. cbn [B2R]. lra.
Qed.
Example C98_demo : exists h, h = global64 log_nearest seqsum (of_Z 101325) (demo64 11) demo_areas /\
  is_finite h = true /\
  Rabs (B2R h - IZR (11 * 10 ^ 12) / 361000000
        * ln (reference_mass64 101325 (demo64 11) / total_mass64 101325 (demo64 11))) <= / 10 ^ 9.
Proof.
  exists (global64 log_nearest seqsum (of_Z 101325) (demo64 11) demo_areas). split; [reflexivity|].
  destruct (demo_ok 11 ltac:(lia)) as (C1 & C2 & C3 & C4).
  destruct (of_Z_rep 101325 ltac:(lia)) as [F V].
  destruct (C98_global64 log_nearest 3 seqsum (of_Z 101325) (demo64 11) demo_areas C98_log ltac:(lia) F ltac:(rewrite V; lra) C1 C2) as [H1 H2].
  - rewrite C3. split; [apply IZR_lt; reflexivity|]. rewrite pow_IZR. apply IZR_le. vm_compute. discriminate.
  - rewrite C4. split; [lra|]. rewrite pow_IZR. apply IZR_le. vm_compute. discriminate.
  - apply C98_sum; try discriminate; cbn; lia.
  - rewrite C3, C4, V in H2. split; [exact H1|]. eapply Rle_trans; [exact H2|].
    change (INR 3) with (1 + 1 + 1). change (11 * 10 ^ 12)%Z with 11000000000000%Z.
    replace (10 ^ 15) with 1000000000000000 by ring. replace (2 ^ 53) with 9007199254740992 by ring.
    replace (10 ^ 9) with 1000000000 by ring. lra.
Qed.
Example C99_demo : (forall c, In c (demo64 10) -> g_T c = g_Tref c /\ g_S c = g_Sref c) /\
  B2R (global64 log_nearest seqsum (of_Z 101325) (demo64 10) demo_areas) = 0.
Proof.
  assert (S0 : forall c, In c (demo64 10) -> g_T c = g_Tref c /\ g_S c = g_Sref c).
  { intros c [<-|[<-|[<-|[]]]]; split; reflexivity. }
  split; [exact S0|].
  destruct (demo_ok 10 ltac:(lia)) as (C1 & C2 & C3 & C4).
  destruct (of_Z_rep 101325 ltac:(lia)) as [F V].
  apply (C99_unchanged_global64 log_nearest 3 seqsum (of_Z 101325) (demo64 10) demo_areas C98_log ltac:(lia) F ltac:(rewrite V; lra) C1 C2); [| |apply C98_sum; try discriminate; cbn; lia|exact S0].
  - rewrite C3. split; [apply IZR_lt; reflexivity|]. rewrite pow_IZR. apply IZR_le. vm_compute. discriminate.
  - rewrite C4. split; [lra|]. rewrite pow_IZR. apply IZR_le. vm_compute. discriminate.
Qed.
