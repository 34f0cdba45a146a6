(** * ProofsCal: facts about calendars and date arithmetic *)
From Coq Require Import Reals ZArith List String Bool Arith Lia Lra.
From Verif Require Import Num NumFacts Calendar SpecTime.
Import ListNotations.
Local Open Scope Z_scope.

Lemma dim_bounds c y m : 28 <= days_in_month c y m <= 31.
Proof.
  unfold days_in_month; destruct c; try lia;
  do 12 (destruct m as [|m]; [lazy beta iota; try destruct (leap _ y); lia|]); lazy beta iota; lia.
Qed.

Lemma month_start_S c y m : (1 <= m)%nat ->
  month_start c y (S m) = month_start c y m + days_in_month c y m.
Proof.
  intros H. unfold month_start. replace (S m - 1)%nat with (m - 1 + 1)%nat by lia.
  rewrite seq_app, map_app. replace (1 + (m - 1))%nat with m by lia.
  cbn [seq map]. generalize (map (days_in_month c y) (seq 1 (m - 1))). intros l.
  induction l as [|x l IH]; cbn [app fold_right]; [lia | rewrite IH; lia].
Qed.

Lemma month_start_1 c y : month_start c y 1 = 0.
Proof. reflexivity. Qed.

Lemma month_start_nonneg c y m : 0 <= month_start c y m.
Proof.
  unfold month_start. generalize (seq 1 (m - 1)); intros l. induction l as [|x l IH]; cbn [map fold_right]; [lia|].
  pose proof (dim_bounds c y x). lia.
Qed.

Lemma month_start_13 c y :
  month_start c y 13 = match c with Day360 => 360 | _ => if leap c y then 366 else 365 end.
Proof.
  unfold month_start. change (seq 1 (13 - 1)) with [1;2;3;4;5;6;7;8;9;10;11;12]%nat.
  cbn [map fold_right]. unfold days_in_month. destruct c; try destruct (leap _ y); reflexivity.
Qed.

Lemma year_start_step c y : regular c y ->
  year_start c (y + 1) = year_start c y + month_start c y 13.
Proof.
  intros Hr. rewrite month_start_13.
  assert (J : (y + 1 - 1) / 4 = (y - 1) / 4 + (if julian_leap y then 1 else 0)).
  { unfold julian_leap. destruct (Z.eqb_spec (y mod 4) 0); Z.div_mod_to_equations; lia. }
  assert (G : (y + 1 - 1) / 4 - (y + 1 - 1) / 100 + (y + 1 - 1) / 400 =
              (y - 1) / 4 - (y - 1) / 100 + (y - 1) / 400 + (if gregorian_leap y then 1 else 0)).
  { assert (forall k, 0 < k -> (y + 1 - 1) / k = (y - 1) / k + (if y mod k =? 0 then 1 else 0)) as D.
    { intros k Hk. replace (y + 1 - 1) with y by lia.
      destruct (Z.eqb_spec (y mod k) 0) as [E|E].
      - assert (y = k * (y / k)) by (pose proof (Z.div_mod y k); lia).
        assert ((y - 1) / k = y / k - 1); [|lia].
        symmetry. apply Z.div_unique with (r := k - 1); lia.
      - assert ((y - 1) / k = y / k); [|lia].
        symmetry. apply Z.div_unique with (r := y mod k - 1).
        + pose proof (Z.mod_pos_bound y k). lia.
        + pose proof (Z.div_mod y k). lia. }
    rewrite (D 4), (D 100), (D 400) by lia. unfold gregorian_leap.
    destruct (Z.eqb_spec (y mod 4) 0), (Z.eqb_spec (y mod 100) 0), (Z.eqb_spec (y mod 400) 0);
      cbn; try lia; exfalso; Z.div_mod_to_equations; lia. }
  destruct c; unfold year_start, leap.
  - lia.
  - lia.
  - lia.
  - destruct (julian_leap y); lia.
  - destruct (gregorian_leap y); lia.
  - assert (y <> 1582) by (apply Hr; reflexivity).
    destruct (Z.ltb_spec y 1583), (Z.ltb_spec (y + 1) 1583); try lia.
    + destruct (julian_leap y); lia.
    + destruct (gregorian_leap y); lia.
Qed.

Lemma year_start_lt1 c y : year_start c y + 1 <= year_start c (y + 1).
Proof.
  destruct (Z.eq_dec y 1582) as [->|E].
  - destruct c; vm_compute; congruence.
  - rewrite year_start_step by (intros _; exact E). rewrite month_start_13.
    destruct c; try destruct (leap _ y); lia.
Qed.

Lemma year_start_mono c y y' : y <= y' -> year_start c y + (y' - y) <= year_start c y'.
Proof.
  intros H. assert (exists n, y' = y + Z.of_nat n) as [n ->] by (exists (Z.to_nat (y' - y)); lia). clear H.
  induction n as [|n IH]; [replace (y + Z.of_nat 0) with y by lia; lia|].
  pose proof (year_start_lt1 c (y + Z.of_nat n)).
  replace (y + Z.of_nat (S n)) with (y + Z.of_nat n + 1) by lia. lia.
Qed.

Lemma year_start_lt_inv c y y' : year_start c y < year_start c y' -> y < y'.
Proof.
  intros H. destruct (Z.lt_ge_cases y y') as [L|L]; [exact L|].
  pose proof (year_start_mono c y' y L). lia.
Qed.

Lemma year_start_le_lt c y y' : year_start c y < year_start c (y' + 1) -> y <= y'.
Proof. intros H. apply year_start_lt_inv in H. lia. Qed.

Lemma month_start_mono c y m m' : (1 <= m)%nat -> (m <= m')%nat -> month_start c y m <= month_start c y m'.
Proof.
  intros H1 H. induction H as [|m' H IH]; [lia|]. rewrite month_start_S by lia.
  pose proof (dim_bounds c y m'). lia.
Qed.

Local Open Scope R_scope.

Lemma abs_day_lower c d : valid_date c d -> IZR (year_start c (d_year d)) <= abs_day c d.
Proof.
  intros [_ [H _]]. unfold abs_day. rewrite plus_IZR.
  pose proof (IZR_le _ _ (month_start_nonneg c (d_year d) (d_month d))). lra.
Qed.

Lemma abs_day_upper_month c d : valid_date c d ->
  abs_day c d < IZR (year_start c (d_year d) + month_start c (d_year d) (S (d_month d))).
Proof.
  intros [[H1 _] [_ H]]. unfold abs_day. rewrite month_start_S by exact H1. rewrite !plus_IZR. lra.
Qed.

Lemma abs_day_upper c d : valid_date c d -> regular c (d_year d) ->
  abs_day c d < IZR (year_start c (d_year d + 1)).
Proof.
  intros H R. eapply Rlt_le_trans; [exact (abs_day_upper_month c d H)|].
  apply IZR_le. rewrite year_start_step by exact R.
  destruct H as [[H1 H2] _]. pose proof (month_start_mono c (d_year d) (S (d_month d)) 13). lia.
Qed.

Lemma up_bounds x : 0 <= x -> x < INR (Z.to_nat (up x)).
Proof.
  intros H. destruct (archimed x) as [A _]. rewrite INR_IZR_INZ, Z2Nat.id; [lra|].
  apply le_IZR. lra.
Qed.

Lemma add_loop_spec c Y : forall fuel d delta,
  valid_date c d -> 0 <= delta ->
  (d_year d <= Y)%Z -> (forall y, (d_year d <= y <= Y)%Z -> regular c y) ->
  abs_day c d + delta < IZR (year_start c (Y + 1)) ->
  d_pos d + delta < 28 * INR (S fuel) ->
  let r := add_loop fuel c d delta in
  valid_date c r /\ abs_day c r = abs_day c d + delta /\ (d_year d <= d_year r <= Y)%Z.
Proof.
  induction fuel as [|fuel IH]; intros d delta [Hm Hp] Hd HY Hreg Hlt Hfuel; cbn [add_loop].
  - pose proof (dim_bounds c (d_year d) (d_month d)) as [L _]. apply IZR_le in L.
    rewrite (proj2 (Rltb_true _ _)) by (cbn [INR] in Hfuel; lra).
    cbn [d_year]. repeat split; cbn [d_year d_month d_pos]; try lia; try (cbn [INR] in Hfuel; lra).
    unfold abs_day. cbn [d_year d_month d_pos]. lra.
  - destruct (Rltb (d_pos d + delta) (IZR (days_in_month c (d_year d) (d_month d)))) eqn:E.
    + apply Rltb_true in E. cbn [d_year]. repeat split; cbn [d_year d_month d_pos]; try lia; try lra.
      unfold abs_day. cbn [d_year d_month d_pos]. lra.
    + apply Rltb_false in E.
      pose proof (dim_bounds c (d_year d) (d_month d)) as [L _]. apply IZR_le in L.
      set (len := IZR (days_in_month c (d_year d) (d_month d))) in *.
      rewrite S_INR in Hfuel.
      destruct (Nat.ltb_spec (d_month d) 12) as [M|M].
      * assert (A : abs_day c (mkDate (d_year d) (S (d_month d)) 0) = abs_day c d + (len - d_pos d)).
        { unfold abs_day. cbn [d_year d_month d_pos]. rewrite month_start_S by lia.
          rewrite !plus_IZR. unfold len. lra. }
        destruct (IH (mkDate (d_year d) (S (d_month d)) 0) (delta - (len - d_pos d))) as (V & B & C).
        -- split; cbn [d_year d_month d_pos]; [lia|].
           pose proof (dim_bounds c (d_year d) (S (d_month d))) as [L' _]. apply IZR_le in L'. lra.
        -- lra.
        -- exact HY.
        -- exact Hreg.
        -- rewrite A. lra.
        -- cbn [d_pos]. lra.
        -- split; [exact V|]. split; [rewrite B, A; lra | exact C].
      * assert (d_month d = 12%nat) as M12 by lia.
        assert (Reg : regular c (d_year d)) by (apply Hreg; lia).
        assert (A : abs_day c (mkDate (d_year d + 1) 1 0) = abs_day c d + (len - d_pos d)).
        { unfold abs_day. cbn [d_year d_month d_pos]. rewrite year_start_step by exact Reg.
          rewrite month_start_1, M12, month_start_S by lia. unfold len. rewrite M12.
          rewrite !plus_IZR. lra. }
        assert (HY' : (d_year d + 1 <= Y)%Z).
        { apply (year_start_le_lt c). apply lt_IZR.
          apply Rle_lt_trans with (abs_day c d + delta); [|exact Hlt].
          assert (IZR (year_start c (d_year d + 1)) = abs_day c (mkDate (d_year d + 1) 1 0)) as ->.
          { unfold abs_day. cbn [d_year d_month d_pos]. rewrite month_start_1, plus_IZR. lra. }
          rewrite A. lra. }
        destruct (IH (mkDate (d_year d + 1) 1 0) (delta - (len - d_pos d))) as (V & B & C).
        -- split; cbn [d_year d_month d_pos]; [lia|].
           pose proof (dim_bounds c (d_year d + 1) 1) as [L' _]. apply IZR_le in L'. lra.
        -- lra.
        -- exact HY'.
        -- cbn [d_year]. intros y Hy. apply Hreg. lia.
        -- rewrite A. lra.
        -- cbn [d_pos]. lra.
        -- split; [exact V|]. split; [rewrite B, A; lra |]. cbn [d_year] in C. lia.
Qed.

Lemma add_days_spec c Y d delta :
  valid_date c d -> 0 <= delta ->
  (d_year d <= Y)%Z -> (forall y, (d_year d <= y <= Y)%Z -> regular c y) ->
  abs_day c d + delta < IZR (year_start c (Y + 1)) ->
  let r := add_days c d delta in
  valid_date c r /\ abs_day c r = abs_day c d + delta /\ (d_year d <= d_year r <= Y)%Z.
Proof.
  intros V H H1 H2 H3. unfold add_days. apply add_loop_spec; auto.
  destruct V as [_ [P0 P]]. pose proof (dim_bounds c (d_year d) (d_month d)) as [_ L]. apply IZR_le in L.
  pose proof (up_bounds delta H). rewrite !S_INR. lra.
Qed.

(** Dates are determined by their position on the axis. *)
Lemma abs_day_inj c d d' : valid_date c d -> valid_date c d' ->
  regular c (d_year d) -> regular c (d_year d') -> abs_day c d = abs_day c d' -> d = d'.
Proof.
  intros V V' R R' E.
  assert (Y : d_year d = d_year d').
  { pose proof (abs_day_lower c d V). pose proof (abs_day_upper c d V R).
    pose proof (abs_day_lower c d' V'). pose proof (abs_day_upper c d' V' R').
    assert (d_year d <= d_year d')%Z by (apply (year_start_le_lt c), lt_IZR; lra).
    assert (d_year d' <= d_year d)%Z by (apply (year_start_le_lt c), lt_IZR; lra). lia. }
  assert (M : d_month d = d_month d').
  { pose proof (abs_day_upper_month c d V) as U. pose proof (abs_day_upper_month c d' V') as U'.
    destruct V as [[A1 A2] [A3 A4]], V' as [[B1 B2] [B3 B4]].
    unfold abs_day in *. rewrite Y in *.
    destruct (lt_eq_lt_dec (d_month d) (d_month d')) as [[L|L]|L]; [|exact L|]; exfalso.
    - pose proof (IZR_le _ _ (month_start_mono c (d_year d') (S (d_month d)) (d_month d') ltac:(lia) ltac:(lia))) as Q.
      rewrite !plus_IZR in *. lra.
    - pose proof (IZR_le _ _ (month_start_mono c (d_year d') (S (d_month d')) (d_month d) ltac:(lia) ltac:(lia))) as Q.
      rewrite !plus_IZR in *. lra. }
  destruct d as [y m p], d' as [y' m' p']; cbn [d_year d_month d_pos] in *. subst.
  f_equal. unfold abs_day in E; cbn [d_year d_month d_pos] in E. lra.
Qed.

(** Midpoint of the year. *)
Lemma first_valid c y m : (1 <= m <= 12)%nat -> valid_date c (mkDate y m 0).
Proof.
  intros H. split; cbn [d_year d_month d_pos]; [exact H|].
  pose proof (dim_bounds c y m) as [L _]. apply IZR_le in L. lra.
Qed.

Lemma abs_day_jan1 c y : abs_day c (mkDate y 1 0) = IZR (year_start c y).
Proof. unfold abs_day; cbn [d_year d_month d_pos]. rewrite month_start_1, plus_IZR. lra. Qed.

Lemma year_midpoint c y : regular c y ->
  let r := midpoint c (mkDate y 1 0) (mkDate (y + 1) 1 0) in
  valid_date c r /\ d_year r = y /\
  abs_day c r = (IZR (year_start c y) + IZR (year_start c (y + 1))) / 2.
Proof.
  intros R. unfold midpoint, dsub. rewrite !abs_day_jan1.
  assert (year_start c y < year_start c (y + 1))%Z as L by (pose proof (year_start_lt1 c y); lia).
  apply IZR_lt in L.
  destruct (add_days_spec c y (mkDate y 1 0) ((IZR (year_start c (y + 1)) - IZR (year_start c y)) / 2))
    as (V & B & C).
  - apply first_valid; lia.
  - lra.
  - cbn [d_year]; lia.
  - cbn [d_year]. intros z Hz. replace z with y by lia. exact R.
  - rewrite abs_day_jan1. lra.
  - split; [exact V|]. split; [cbn [d_year] in C; lia|]. rewrite B, abs_day_jan1. lra.
Qed.

(** Midpoint of a month: same year, same month. *)
Lemma abs_day_next c y m : regular c y -> (1 <= m <= 12)%nat ->
  abs_day c (if Nat.ltb m 12 then mkDate y (S m) 0 else mkDate (y + 1) 1 0) =
  abs_day c (mkDate y m 0) + IZR (days_in_month c y m).
Proof.
  intros R M. destruct (Nat.ltb_spec m 12).
  - unfold abs_day; cbn [d_year d_month d_pos]. rewrite month_start_S by lia. rewrite !plus_IZR. lra.
  - assert (m = 12)%nat as -> by lia. rewrite abs_day_jan1, year_start_step by exact R.
    rewrite month_start_S by lia. unfold abs_day; cbn [d_year d_month d_pos]. rewrite !plus_IZR. lra.
Qed.

Lemma month_midpoint c y m : regular c y -> (1 <= m <= 12)%nat ->
  midpoint c (mkDate y m 0) (if Nat.ltb m 12 then mkDate y (S m) 0 else mkDate (y + 1) 1 0) =
  mkDate y m (IZR (days_in_month c y m) / 2).
Proof.
  intros R M. unfold midpoint, dsub. rewrite abs_day_next by assumption.
  pose proof (dim_bounds c y m) as [L _]. apply IZR_le in L.
  unfold add_days. cbn [add_loop d_year d_month d_pos].
  match goal with |- context [Rltb ?a ?b] => assert (Rltb a b = true) as -> by (apply Rltb_true; lra) end.
  f_equal. lra.
Qed.
