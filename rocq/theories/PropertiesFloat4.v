(** * PropertiesFloat4: rounding errors of the time conversion factors (C132, C133) *)
From Coq Require Import Reals Lra Lia List ZArith QArith Bool String.
From Flocq Require Import Core IEEE754.BinarySingleNaN.
From Verif Require Import Num NumFacts Py Trend SpecTrend SpecFloat64 Ieee IeeeTrend SpecIeee
  ProofsFloat ProofsIeee ProofsFloat5 ProofsFloat8 ProofsFloat9 ProofsFloat10.
Import ListNotations.
Local Open Scope string_scope.
Local Open Scope R_scope.

Lemma same_Z (x : f64) z : (Z.abs z < 2 ^ 53)%Z -> is_finite x = true -> Beqb x (of_Z z) = true -> rep64 x (IZR z).
Proof.
  intros Hz F E. destruct (of_Z_rep z Hz) as [F2 V2]. split; [exact F|]. rewrite <- V2. rewrite Beqb_correct in E by assumption.
  destruct (Req_bool_spec (B2R x) (B2R (of_Z z))) as [Q|]; [exact Q|discriminate E].
Qed.
Definition day64 : f64 := (lit (1000000000 # 1) * lit (60 # 1) * lit (60 # 1) * lit (24 # 1))%f64.
Lemma day64_rep : rep64 day64 86400000000000.
Proof. apply (same_Z _ 86400000000000); vm_compute; reflexivity. Qed.

(** A length in days between a thousandth and a million. *)
Definition length_ok (d : f64) : Prop := is_finite d = true /\ / 1000 <= B2R d <= 1000000.
Lemma tiny_1 x : / 10 ^ 30 <= x -> bpow radix2 (-1022) <= x.
Proof. intros H. eapply Rle_trans; [apply tiny_pow|]. eapply Rle_trans; [|exact H]. apply Rinv_le_contravar; [apply pow_lt; lra|]. apply Rle_pow; [lra|lia]. Qed.
Lemma fits_30 x y : near (1 + u) x y -> x <= 10 ^ 30 -> fits64 y.
Proof.
  intros N H. unfold fits64. rewrite Rabs_pos_eq by exact (near_pos _ _ _ N). destruct N as (_ & X & _ & N). eapply Rle_lt_trans; [exact N|].
  assert (B := big_pow). assert (10 ^ 300 = 10 ^ 30 * 10 ^ 270) by (rewrite <- pow_add; reflexivity).
  assert (2 <= 10 ^ 270). { apply Rle_trans with (10 ^ 1); [lra|]. apply Rle_pow; [lra|lia]. }
  assert (x * (1 + u) <= 10 ^ 30 * 2). { assert (U := u_pos). assert (u <= 1) by (rewrite u_val; lra). apply Rmult_le_compat; lra. }
  assert (0 < 10 ^ 30) by (apply pow_lt; lra). nra.
Qed.
Lemma e30 x : x <= 1000000000000000000000 -> x <= 10 ^ 30.
Proof. intros H. replace (10 ^ 30) with 1000000000000000000000000000000 by ring. lra. Qed.
Lemma e30' x : / 1000000000000000000000 <= x -> / 10 ^ 30 <= x.
Proof. intros H. eapply Rle_trans; [|exact H]. apply Rinv_le_contravar; [lra|]. apply e30. lra. Qed.
Lemma days_near d : length_ok d -> is_finite (day64 * d)%f64 = true /\ near (1 + u) (B2R d * (86400 * 1000000000)) (B2R (day64 * d)%f64).
Proof.
  intros [F L]. assert (N := near_fl (86400000000000 * B2R d)). destruct (mul64_rep day64 d _ _ day64_rep (conj F eq_refl)) as [Q V].
  - apply (fits_30 (86400000000000 * B2R d)); [apply N, tiny_1, e30'; lra|]. apply e30. lra.
  - split; [exact Q|]. rewrite V. replace (B2R d * (86400 * 1000000000)) with (86400000000000 * B2R d) by ring. apply N, tiny_1, e30'. lra.
Qed.
Lemma exact_near (x : f64) z v : rep64 x (IZR z) -> IZR z = v -> 0 <= v -> is_finite x = true /\ near (1 + u) v (B2R x).
Proof. intros [F V] <- P. split; [exact F|]. rewrite V. assert (U := u_pos). apply near_weaken with 1; [lra|]. apply near_refl, P. Qed.
Lemma table_entry dm dy s v : length_ok dm -> length_ok dy -> unit_length (B2R dm) (B2R dy) s = Some v ->
  exists x, dget s (ns_table64 dm dy) = Some x /\ is_finite x = true /\ near (1 + u) v (B2R x) /\ 1 <= v <= 86400000000000000000.
Proof.
  intros Hm Hy H. unfold unit_length in H. unfold ns_table64.
  repeat (match type of H with
    (if String.eqb ?a ?b then _ else _) = _ => destruct (String.eqb_spec a b) as [->|?NE]; [injection H as <-; cbn [dget String.eqb Ascii.eqb Bool.eqb]; eexists; split; [reflexivity|]|] end).
  8: discriminate H.
  all: try (split; [|split; [|lra]]).
  1,2: destruct (exact_near (lit 1) 1 1) as [A B]; [apply (same_Z _ 1); vm_compute; reflexivity|reflexivity|lra|assumption].
  1,2: destruct (exact_near (lit (1000000000 # 1)) 1000000000 1000000000) as [A B]; [apply (same_Z _ 1000000000); vm_compute; reflexivity|reflexivity|lra|assumption].
  1,2: destruct (exact_near (lit (1000000000 # 1) * lit (60 # 1))%f64 60000000000 (60 * 1000000000)) as [A B]; [apply (same_Z _ 60000000000); vm_compute; reflexivity|lra|lra|assumption].
  1,2: destruct (exact_near (lit (1000000000 # 1) * lit (60 # 1) * lit (60 # 1))%f64 3600000000000 (3600 * 1000000000)) as [A B]; [apply (same_Z _ 3600000000000); vm_compute; reflexivity|lra|lra|assumption].
  1,2: destruct (exact_near day64 86400000000000 (86400 * 1000000000)) as [A B]; [exact day64_rep|lra|lra|assumption].
  - destruct (days_near dm Hm) as [A B]. destruct Hm as [_ Hm]. split; [exact A|]. split; [exact B|lra].
  - destruct (days_near dy Hy) as [A B]. destruct Hy as [_ Hy]. split; [exact A|]. split; [exact B|lra].
Qed.
Lemma near_nonzero v (x : f64) : is_finite x = true -> near (1 + u) v (B2R x) -> 0 < v -> Beqb x zero = false.
Proof.
  intros F N P. rewrite Beqb_correct by (try exact F; reflexivity). apply Req_bool_false. cbn [zero B2R]. assert (H := near_spos _ _ _ N P). lra.
Qed.
Lemma table_nonzero dm dy : length_ok dm -> length_ok dy -> forall kv, In kv (ns_table64 dm dy) -> Beqb (snd kv) zero = false.
Proof.
  intros Hm Hy kv I. assert (T := fun s v => table_entry dm dy s v Hm Hy). unfold ns_table64 in I. cbn [In] in I.
  assert (G : forall s, unit_length (B2R dm) (B2R dy) s <> None -> dget s (ns_table64 dm dy) = Some (snd kv) -> Beqb (snd kv) zero = false).
  { intros s U D. destruct (unit_length (B2R dm) (B2R dy) s) as [v|] eqn:E; [|contradiction]. destruct (T s v E) as (x & D' & F & N & L).
    rewrite D in D'. injection D' as ->. apply (near_nonzero v); [exact F|exact N|lra]. }
  destruct I as [<-|[<-|[<-|[<-|[<-|[<-|[<-|[]]]]]]]].
  - apply (G "ns"); [discriminate|reflexivity].
  - apply (G "s"); [discriminate|reflexivity].
  - apply (G "min"); [discriminate|reflexivity].
  - apply (G "hr"); [discriminate|reflexivity].
  - apply (G "day"); [discriminate|reflexivity].
  - apply (G "mon"); [discriminate|reflexivity].
  - apply (G "yr"); [discriminate|reflexivity].
Qed.
Lemma inverse_table dm dy : length_ok dm -> length_ok dy ->
  mapM (fun kv : string * f64 => if Beqb (snd kv) zero then Err ZeroDivisionError else Ok (fst kv, (lit 1 / snd kv)%f64)) (ns_table64 dm dy)
  = Ok (map (fun kv : string * f64 => (fst kv, (lit 1 / snd kv)%f64)) (ns_table64 dm dy)).
Proof.
  intros Hm Hy. assert (N := table_nonzero dm dy Hm Hy). induction (ns_table64 dm dy) as [|kv l IH]; [reflexivity|].
  cbn [mapM map]. rewrite (N kv) by (left; reflexivity). cbn [bind]. rewrite IH by (intros q Q; apply N; right; exact Q). reflexivity.
Qed.
Lemma dget_snd {A B} (f : A -> B) k (l : dict A) : dget k (map (fun kv => (fst kv, f (snd kv))) l) = option_map f (dget k l).
Proof. induction l as [|[k' v] l IH]; cbn; [reflexivity|]. destruct (String.eqb k k'); [reflexivity|exact IH]. Qed.
Lemma factor_value dm dy a b x y : length_ok dm -> length_ok dy -> dget a (ns_table64 dm dy) = Some x -> dget b (ns_table64 dm dy) = Some y ->
  time_conversion_factor64 a b dm dy = Ok (x * (lit 1 / y))%f64.
Proof.
  intros Hm Hy Ha Hb. unfold time_conversion_factor64. rewrite (inverse_table dm dy Hm Hy). cbn [bind].
  assert (Db := dget_snd (fun v : f64 => (lit 1 / v)%f64) b (ns_table64 dm dy)). rewrite Hb in Db. cbn [option_map] in Db.
  unfold dmem, dlookup. rewrite Ha, Db. reflexivity.
Qed.
Lemma one_rep : rep64 (lit 1) 1.
Proof. apply (same_Z _ 1); vm_compute; reflexivity. Qed.

(** C132: with lengths of the month and the year between 0.001 and 1000000 days, the factor between two recognised
    units computed in binary64 is finite and within five relative roundings of the ratio of their lengths;
    units that are not recognised are rejected. *)
Theorem C132_factor64 : forall dm dy a b va vb, length_ok dm -> length_ok dy ->
  unit_length (B2R dm) (B2R dy) a = Some va -> unit_length (B2R dm) (B2R dy) b = Some vb ->
  exists f, time_conversion_factor64 a b dm dy = Ok f /\ is_finite f = true /\ Rabs (B2R f - va / vb) <= 5 / 2 ^ 53 * (va / vb).
Proof.
  intros dm dy a b va vb Hm Hy Ha Hb. destruct (table_entry dm dy a va Hm Hy Ha) as (x & Dx & Fx & Nx & Lx).
  destruct (table_entry dm dy b vb Hm Hy Hb) as (y & Dy & Fy & Ny & Ly). exists (x * (lit 1 / y))%f64. split; [apply factor_value; assumption|].
  assert (U := u_pos). assert (U1 : u <= / 1000) by (rewrite u_val; lra).
  assert (Px := near_spos _ _ _ Nx ltac:(lra)). assert (Py := near_spos _ _ _ Ny ltac:(lra)).
  assert (Bx : / 2 <= B2R x <= 200000000000000000000). { destruct Nx as (_ & _ & N1 & N2). split; [|nra].
    eapply Rle_trans; [|exact N1]. apply Rmult_le_reg_r with (1 + u); [lra|]. unfold Rdiv. rewrite Rmult_assoc, Rinv_l by lra. nra. }
  assert (By : / 2 <= B2R y <= 200000000000000000000). { destruct Ny as (_ & _ & N1 & N2). split; [|nra].
    eapply Rle_trans; [|exact N1]. apply Rmult_le_reg_r with (1 + u); [lra|]. unfold Rdiv. rewrite Rmult_assoc, Rinv_l by lra. nra. }
  assert (Iy : / 200000000000000000000 <= 1 / B2R y <= 2).
  { unfold Rdiv. rewrite Rmult_1_l. split; [apply Rinv_le_contravar; lra|]. rewrite <- (Rinv_inv 2). apply Rinv_le_contravar; lra. }
  assert (N1 := near_fl (1 / B2R y) ltac:(apply tiny_1, e30'; lra)).
  destruct (div64_rep (lit 1) y _ _ one_rep (conj Fy eq_refl)) as [Q1 V1]; [lra|apply (fits_30 (1 / B2R y)); [exact N1|apply e30; lra]|].
  assert (Nd : near ((1 + u) * (1 + u)) (1 / vb) (B2R (lit 1 / y)%f64)).
  { rewrite V1. eapply near_trans; [|exact N1]. rewrite <- (Rmult_1_l (1 + u)). apply near_div; [apply near_refl; lra|exact Ny|lra]. }
  assert (Bd : / 400000000000000000000 <= B2R (lit 1 / y)%f64 <= 4).
  { rewrite V1. destruct N1 as (_ & _ & M1 & M2). split; [|nra]. eapply Rle_trans; [|exact M1].
    apply Rmult_le_reg_r with (1 + u); [lra|]. replace (1 / B2R y / (1 + u) * (1 + u)) with (1 / B2R y) by (field; lra). nra. }
  set (d := (lit 1 / y)%f64) in *.
  assert (N2 := near_fl (B2R x * B2R d)). assert (Bp : / 1000000000000000000000 <= B2R x * B2R d <= 1000000000000000000000) by nra.
  specialize (N2 ltac:(apply tiny_1, e30'; apply Bp)).
  destruct (mul64_rep x d _ _ (conj Fx eq_refl) (conj Q1 eq_refl)) as [Q2 V2]; [apply (fits_30 (B2R x * B2R d)); [exact N2|apply e30; apply Bp]|].
  split; [exact Q2|]. rewrite V2.
  assert (NN := near_trans _ _ _ _ _ (near_mul _ _ _ _ _ _ Nx Nd) N2).
  assert (NA := near_abs _ _ _ NN). replace (va / vb) with (va * (1 / vb)) by (field; lra). eapply Rle_trans; [exact NA|].
  rewrite Rmult_comm. apply Rmult_le_compat_r; [apply NN|]. rewrite u_val. replace (2 ^ 53) with 9007199254740992 by ring. lra.
Qed.
Print Assumptions C132_factor64.

Theorem C132_unrecognised64 : forall dm dy a b, length_ok dm -> length_ok dy ->
  (time_conversion_factor64 a b dm dy = Err AssertionError <->
   ~ In a ["ns"; "s"; "min"; "hr"; "day"; "mon"; "yr"] \/ ~ In b ["ns"; "s"; "min"; "hr"; "day"; "mon"; "yr"]).
Proof.
  intros dm dy a b Hm Hy.
  assert (M : forall s, In s ["ns"; "s"; "min"; "hr"; "day"; "mon"; "yr"] <-> exists x, dget s (ns_table64 dm dy) = Some x).
  { intros s. split.
    - intros I. cbn [In] in I. destruct I as [<-|[<-|[<-|[<-|[<-|[<-|[<-|[]]]]]]]]; eexists; reflexivity.
    - intros (x & D). unfold ns_table64 in D. cbn [dget] in D.
      repeat (match type of D with (if String.eqb ?p ?q then _ else _) = _ => destruct (String.eqb_spec p q) as [->|?NE]; [cbn; tauto|] end). discriminate D. }
  split.
  - intros H. destruct (in_dec string_dec a ["ns"; "s"; "min"; "hr"; "day"; "mon"; "yr"]) as [Ia|]; [|left; assumption].
    destruct (in_dec string_dec b ["ns"; "s"; "min"; "hr"; "day"; "mon"; "yr"]) as [Ib|]; [|right; assumption].
    apply M in Ia as (x & Dx). apply M in Ib as (y & Dy). rewrite (factor_value dm dy a b x y) in H by assumption. discriminate H.
  - intros H. unfold time_conversion_factor64. rewrite (inverse_table dm dy Hm Hy). cbn [bind].
    assert (Db := dget_snd (fun v : f64 => (lit 1 / v)%f64) b (ns_table64 dm dy)).
    unfold dmem. destruct (dget a (ns_table64 dm dy)) as [x|] eqn:Ea; cbn [bind assert_]; [|reflexivity].
    rewrite Db. destruct (dget b (ns_table64 dm dy)) as [y|] eqn:Eb; cbn [bind assert_ option_map]; [|reflexivity].
    exfalso. destruct H as [H|H]; apply H, M; eexists; eassumption.
Qed.
Print Assumptions C132_unrecognised64.

(** C133: in binary64 the factors are not exact: with the default lengths a minute has 60.00000000000001 seconds, and with
    the length 365.2425 of the Gregorian year a year is 0.9999999999999999 years. *)
Theorem C133_refuted :
  (exists f, time_conversion_factor64 "min" "s" default_month64 default_year64 = Ok f /\ is_finite f = true /\ B2R f <> 60) /\
  (exists f, time_conversion_factor64 "yr" "yr" default_month64 (lit (3652425 # 10000)) = Ok f /\ is_finite f = true /\ B2R f <> 1).
Proof.
  assert (K : forall (f : f64) z, (Z.abs z < 2 ^ 53)%Z -> is_finite f = true -> Beqb f (of_Z z) = false -> B2R f <> IZR z).
  { intros f z Hz F E Q. destruct (of_Z_rep z Hz) as [F2 V2]. rewrite Beqb_correct, V2, Q, Req_bool_true in E by (try assumption; reflexivity). discriminate E. }
  split.
  - eexists. split; [reflexivity|]. split; [vm_compute; reflexivity|]. apply (K _ 60%Z); vm_compute; reflexivity.
  - eexists. split; [reflexivity|]. split; [vm_compute; reflexivity|]. apply (K _ 1%Z); vm_compute; reflexivity.
Qed.
Print Assumptions C133_refuted.

(** What holds: the units whose length is fixed convert to themselves by exactly one and to nanoseconds by exactly their length,
    whatever the lengths of the month and the year; with the default lengths every unit converts to itself by exactly one. *)
Lemma length_default : length_ok default_month64 /\ length_ok default_year64.
Proof.
  assert (Y : rep64 default_year64 365) by (apply (same_Z _ 365); vm_compute; reflexivity). destruct Y as [Y1 Y2].
  split; [|split; [exact Y1|rewrite Y2; lra]]. split; [vm_compute; reflexivity|].
  assert (A : Bleb (of_Z 30) default_month64 = true) by (vm_compute; reflexivity). assert (B : Bleb default_month64 (of_Z 31) = true) by (vm_compute; reflexivity).
  rewrite Bleb_correct in A, B by (vm_compute; reflexivity). destruct (of_Z_rep 30) as [_ A2]; [lia|]. destruct (of_Z_rep 31) as [_ B2]; [lia|].
  rewrite A2 in A. rewrite B2 in B. destruct (Rle_bool_spec 30 (B2R default_month64)) as [A3|]; [|discriminate A].
  destruct (Rle_bool_spec (B2R default_month64) 31) as [B3|]; [|discriminate B]. lra.
Qed.
Theorem C133_fixed_partial : forall dm dy s, length_ok dm -> length_ok dy -> In s ["ns"; "s"; "min"; "hr"; "day"] ->
  exists f g v, unit_length (B2R dm) (B2R dy) s = Some v /\
    time_conversion_factor64 s s dm dy = Ok f /\ B2R f = 1 /\ time_conversion_factor64 s "ns" dm dy = Ok g /\ B2R g = v.
Proof.
  intros dm dy s Hm Hy I.
  assert (K : forall (f : f64) z, (Z.abs z < 2 ^ 53)%Z -> is_finite f = true -> Beqb f (of_Z z) = true -> B2R f = IZR z) by (intros f z A B C; apply (same_Z f z A B C)).
  cbn [In] in I. destruct I as [<-|[<-|[<-|[<-|[<-|[]]]]]]; do 3 eexists; (split; [reflexivity|]);
    (split; [eapply factor_value; [exact Hm|exact Hy|reflexivity|reflexivity]|]);
    (split; [apply (K _ 1%Z); vm_compute; reflexivity|]); (split; [eapply factor_value; [exact Hm|exact Hy|reflexivity|reflexivity]|]).
  - apply (K _ 1%Z); vm_compute; reflexivity.
  - apply (K _ 1000000000%Z); vm_compute; reflexivity.
  - rewrite (K _ 60000000000%Z); [lra| | |]; vm_compute; reflexivity.
  - rewrite (K _ 3600000000000%Z); [lra| | |]; vm_compute; reflexivity.
  - rewrite (K _ 86400000000000%Z); [lra| | |]; vm_compute; reflexivity.
Qed.
Print Assumptions C133_fixed_partial.
Theorem C133_default_partial : forall s, In s ["ns"; "s"; "min"; "hr"; "day"; "mon"; "yr"] ->
  exists f, time_conversion_factor64 s s default_month64 default_year64 = Ok f /\ B2R f = 1.
Proof.
  intros s I. destruct length_default as [Hm Hy]. assert (J : In s ["ns"; "s"; "min"; "hr"; "day"] \/ s = "mon" \/ s = "yr") by (cbn [In] in *; intuition).
  destruct J as [J|[->| ->]].
  - destruct (C133_fixed_partial _ _ s Hm Hy J) as (f & g & v & _ & A & B & _). exists f. split; assumption.
  - eexists. split; [eapply factor_value; [exact Hm|exact Hy|reflexivity|reflexivity]|]. apply (same_Z _ 1); vm_compute; reflexivity.
  - eexists. split; [eapply factor_value; [exact Hm|exact Hy|reflexivity|reflexivity]|]. apply (same_Z _ 1); vm_compute; reflexivity.
Qed.
Print Assumptions C133_default_partial.

(** With the default lengths the factors are those of a month of 30.417 days and a year of 365 days. *)
Lemma month_default : Rabs (B2R default_month64 - 30417 / 1000) <= / 2 ^ 53 * (30417 / 1000).
Proof.
  assert (E : Q2R (30417 # 1000) = 30417 / 1000) by (unfold Q2R; cbn; lra).
  assert (N : near (1 + u) (30417 / 1000) (fl (30417 / 1000))) by (apply near_fl, tiny_1, e30'; lra).
  destruct (lit_rep (30417 # 1000) eq_refl eq_refl) as [_ V]; [rewrite E; apply (fits_30 (30417 / 1000)); [exact N|apply e30; lra]|].
  assert (U := fl_error (30417 / 1000)). change default_month64 with (lit (30417 # 1000)). rewrite V, E.
  destruct N as (_ & _ & N1 & N2). assert (W : / 2 ^ 53 = u) by (rewrite u_val; simpl; lra). rewrite W.
  apply Rabs_le. split; [|lra]. assert (30417 / 1000 - 30417 / 1000 * u <= 30417 / 1000 / (1 + u)); [|lra].
  assert (P := u_pos). apply Rmult_le_reg_r with (1 + u); [lra|]. replace (30417 / 1000 / (1 + u) * (1 + u)) with (30417 / 1000) by (field; lra). nra.
Qed.
Lemma unit_default a va : unit_length (30417 / 1000) 365 a = Some va ->
  exists va', unit_length (B2R default_month64) (B2R default_year64) a = Some va' /\ 0 < va /\ Rabs (va' - va) <= / 2 ^ 53 * va.
Proof.
  assert (Y : rep64 default_year64 365) by (apply (same_Z _ 365); vm_compute; reflexivity). destruct Y as [_ Y2]. rewrite Y2. assert (M := month_default).
  assert (Z : 0 < / 2 ^ 53) by (apply Rinv_0_lt_compat, pow_lt; lra).
  assert (T : forall v, 0 < v -> 0 < v /\ Rabs (v - v) <= / 2 ^ 53 * v) by (intros v P; split; [exact P|rewrite Rminus_diag_eq, Rabs_R0 by reflexivity; nra]).
  unfold unit_length. repeat match goal with |- context [if String.eqb a ?s then _ else _] => destruct (String.eqb a s) end;
    intros [= <-]; eexists; (split; [reflexivity|]); try (apply T; lra). split; [lra|].
  rewrite <- Rmult_minus_distr_r, Rabs_mult, (Rabs_pos_eq (86400 * 1000000000)) by lra. nra.
Qed.
Theorem C132_defaults64 : forall a b va vb,
  unit_length (30417 / 1000) 365 a = Some va -> unit_length (30417 / 1000) 365 b = Some vb ->
  exists f, time_conversion_factor64 a b default_month64 default_year64 = Ok f /\ is_finite f = true /\ Rabs (B2R f - va / vb) <= 8 / 2 ^ 53 * (va / vb).
Proof.
  intros a b va vb A B. destruct length_default as [Hm Hy].
  destruct (unit_default a va A) as (va' & A1 & A2 & A3). destruct (unit_default b vb B) as (vb' & B1 & B2 & B3).
  destruct (C132_factor64 _ _ a b va' vb' Hm Hy A1 B1) as (f & F1 & F2 & F3). exists f. split; [exact F1|]. split; [exact F2|].
  assert (W : / 2 ^ 53 = u) by (rewrite u_val; simpl; lra). replace (5 / 2 ^ 53) with (5 * u) in F3 by (rewrite <- W; reflexivity). replace (8 / 2 ^ 53) with (8 * u) by (rewrite <- W; reflexivity). rewrite W in *.
  assert (U0 := u_pos). assert (U1 : u <= / 1000000) by (rewrite u_val; lra). clear W. apply Rabs_le_inv in A3, B3.
  assert (P : 0 < va' /\ 0 < vb') by (split; nra). destruct P as [P1 P2].
  set (q := va / vb) in *. assert (Q : 0 < q) by (apply Rdiv_lt_0_compat; assumption). assert (EQ : va = q * vb) by (unfold q; field; lra).
  assert (R : Rabs (va' / vb' - q) <= 2.1 * u * q).
  { assert (G : va' / vb' - q = (va' - q * vb') / vb') by (field; lra). rewrite G. unfold Rdiv. rewrite Rabs_mult, (Rabs_pos_eq (/ vb')) by (left; apply Rinv_0_lt_compat, P2).
    apply Rmult_le_reg_r with vb'; [exact P2|]. rewrite Rmult_assoc, Rinv_l, Rmult_1_r by lra.
    assert (H1 : Rabs (va' - q * vb') <= 2 * u * q * vb). { replace (va' - q * vb') with ((va' - va) - q * (vb' - vb)) by (rewrite EQ; ring).
      assert (q * (u * vb) = u * va) by (rewrite EQ; ring). assert (- (q * (u * vb)) <= q * (vb' - vb) <= q * (u * vb)) by (split; nra). apply Rabs_le. split; nra. }
    assert (H2 : vb <= 1.01 * vb') by nra. assert (0 <= 2 * u * q) by nra. nra. }
  apply Rabs_le_inv in R. assert (V : va' / vb' <= 1.01 * q) by nra. assert (V0 : 0 < va' / vb') by (apply Rdiv_lt_0_compat; assumption).
  assert (X : 5 * u * (va' / vb') <= 5 * u * (1.01 * q)) by (apply Rmult_le_compat_l; lra). assert (X2 := Rle_trans _ _ _ F3 X). apply Rabs_le_inv in X2.
  apply Rabs_le. split; nra.
Qed.
Print Assumptions C132_defaults64.

Example C132_example : length_ok default_month64 /\ length_ok default_year64 /\
  (exists f, time_conversion_factor64 "yr" "day" default_month64 default_year64 = Ok f /\ B2R f = 365) /\
  time_conversion_factor64 "year" "day" default_month64 default_year64 = Err AssertionError.
Proof.
  destruct length_default as [Hm Hy]. split; [exact Hm|]. split; [exact Hy|]. split.
  - eexists. split; [eapply factor_value; [exact Hm|exact Hy|reflexivity|reflexivity]|]. apply (same_Z _ 365); vm_compute; reflexivity.
  - apply C132_unrecognised64; [exact Hm|exact Hy|]. left. intros [X|[X|[X|[X|[X|[X|[X|[]]]]]]]]; discriminate X.
Qed.
