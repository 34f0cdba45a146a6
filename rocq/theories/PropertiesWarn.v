(** * PropertiesWarn: C170 (warnings) *)
From Coq Require Import Reals ZArith List String Ascii Bool Arith Lia Lra.
From Verif Require Import Num NumFacts Py Arr ArrFacts Dataset Trend Warn SpecTrend ProofsTide ProofsSteric5 ProofsTrend ProofsTrend2 ProofsTrend3 PropertiesTrend PropertiesTrend2.
Import ListNotations.
Local Open Scope string_scope.

Definition with_units (u : string) (s : darr) : darr := mkDarr (da_name s) (da_data s) (dset "units" u (da_attrs s)).
Lemma broadcast_warned slope ix : In TimeUnitsAssumed (broadcast_warnings slope ix) <->
  ix_cf ix = true /\ (forall u, dget "units" (da_attrs slope) = Some u -> ~ contains_inverse u).
Proof.
  unfold broadcast_warnings. destruct (ix_cf ix); [|split; [intros []|intros [H _]; discriminate H]].
  destruct (dget "units" (da_attrs slope)) as [u|].
  - destruct (has_inv u) eqn:K.
    + apply has_inv_spec in K. destruct (some_words u K) as (w & ws & E). rewrite E. cbn. split; [intros []|intros [_ H]; exact (H u eq_refl K)].
    + assert (N : ~ contains_inverse u) by (rewrite <- has_inv_spec, K; discriminate). rewrite (no_words u N). cbn. split; [|intros _; left; reflexivity].
      intros _. split; [reflexivity|]. intros u' E. injection E as <-. exact N.
  - split; [|intros _; left; reflexivity]. intros _. split; [reflexivity|]. intros u' E. discriminate E.
Qed.

(** ** C170: broadcast_trend warns exactly when the axis holds dates and the units name no inverse unit, and then the slope is taken per
    nanosecond; otherwise nothing is assumed. *)
Theorem C170_assumed : forall slope ix z,
  (broadcast_warnings slope ix <> [] <-> ix_cf ix = true /\ (forall u, dget "units" (da_attrs slope) = Some u -> ~ contains_inverse u)) /\
  (broadcast_warnings slope ix <> [] -> broadcast_trend slope ix z = broadcast_trend (with_units "ns-1" slope) ix z).
Proof.
  intros slope ix z.
  assert (A : broadcast_warnings slope ix <> [] <-> In TimeUnitsAssumed (broadcast_warnings slope ix)).
  { unfold broadcast_warnings. destruct (ix_cf ix); [|split; [intros H; contradiction H; reflexivity|intros []]].
    destruct (dget "units" (da_attrs slope)) as [u|]; [|split; [intros _; left; reflexivity|discriminate]].
    destruct (map drop_inv (filter has_inv (split_space u))); split; try discriminate; [intros _; left; reflexivity|intros H; contradiction H; reflexivity|intros []]. }
  rewrite A, broadcast_warned. split; [reflexivity|]. intros [C N]. unfold broadcast_trend. rewrite C. cbn [with_units da_attrs da_data]. rewrite dget_dset_same.
  destruct (dget "units" (da_attrs slope)) as [u|]; [|reflexivity]. rewrite (no_words u (N u eq_refl)). reflexivity.
Qed.
Print Assumptions C170_assumed.

(** Slopes computed by calc_linear_trend carry their unit: no warning. *)
Theorem C170_fitted : forall ix x tu s i, calc_linear_trend ix x tu = Ok (s, i) -> broadcast_warnings s ix = [].
Proof.
  intros ix x tu s i E. destruct (ix_cf ix) eqn:C; [|unfold broadcast_warnings; rewrite C; reflexivity].
  destruct (calc_inv ix x tu s i E) as (Hn & Hz & v & Hv). destruct (calc_ok ix x tu v Hn Hz Hv) as (s' & i' & E' & _ & _ & _ & _ & _ & _ & U).
  rewrite E in E'. injection E' as <- <-. unfold unit_scale in Hv. rewrite C in Hv. unfold broadcast_warnings. rewrite C, (U C).
  rewrite (slope_words (dget "units" (da_attrs x)) _ v Hv), map_app.
  destruct (match dget "units" (da_attrs x) with Some u => filter has_inv (split_space u) | None => [] end); reflexivity.
Qed.
Print Assumptions C170_fitted.

Lemma array_silent ix x order : detrend_array_warnings ix x order = [].
Proof.
  unfold detrend_array_warnings. destruct (order =? 1)%Z; [|reflexivity]. destruct (calc_linear_trend ix x None) as [[s i]|] eqn:E; [|reflexivity].
  exact (C170_fitted ix x None s i E).
Qed.
(** linear_detrend warns exactly of variables that describe time averaging; the old name in util adds one warning and changes nothing. *)
Theorem C170_detrend : forall ix x order mode,
  linear_detrend_warnings ix x order mode =
    (match x with
     | XDataset vs => if existsb (fun k => existsb (String.eqb k) ["time_bnds"; "average_T1"; "average_T2"; "average_DT"]) (map fst vs) then [IncompatibleVariable] else []
     | _ => [] end) /\
  snd (util_linear_detrend ix x order mode) = linear_detrend ix x order mode /\
  fst (util_linear_detrend ix x order mode) = Deprecated :: linear_detrend_warnings ix x order mode.
Proof.
  intros ix x order mode. split; [|split; reflexivity]. destruct x as [a|vs|]; [apply array_silent| |reflexivity].
  cbn [linear_detrend_warnings]. assert (L : loop_warnings ix vs order mode = []).
  { induction vs as [|[k a] vs IH]; [reflexivity|]. cbn [loop_warnings]. destruct (dmem _ _); [|exact IH]. rewrite array_silent. cbn [app]. destruct (detrend_array _ _ _ _); [exact IH|reflexivity]. }
  rewrite L, app_nil_r. replace (existsb (fun var => smem var (dkeys vs)) questionable_vars)
    with (existsb (fun k => existsb (String.eqb k) ["time_bnds"; "average_T1"; "average_T2"; "average_DT"]) (map fst vs)); [reflexivity|].
  apply eq_true_iff_eq. rewrite !existsb_exists. unfold smem, dkeys, questionable_vars. split.
  - intros (k & I1 & H). apply existsb_exists in H as (q & I2 & E). apply String.eqb_eq in E. subst q. exists k. split; [exact I2|]. apply existsb_exists. exists k. split; [exact I1|apply String.eqb_refl].
  - intros (q & I1 & H). apply existsb_exists in H as (k & I2 & E). apply String.eqb_eq in E. subst k. exists q. split; [exact I2|]. apply existsb_exists. exists q. split; [exact I1|apply String.eqb_refl].
Qed.
Print Assumptions C170_detrend.

(** An area out of range is an error in strict mode and a warning otherwise; nothing else depends on the mode. *)
Theorem C170_area : forall ds reference additional,
  (In AreaOutOfRange (validate_warnings ds false) <-> In BadArea (validate_errors ds reference true additional)) /\
  validate_warnings ds true = [] /\ ~ In BadArea (validate_errors ds reference false additional) /\
  (forall e, e <> BadArea -> In e (validate_errors ds reference true additional) <-> In e (validate_errors ds reference false additional)).
Proof.
  intros ds reference additional.
  assert (R : forall n var, ~ In BadArea (rank_error ds n var)) by (intros n var; unfold rank_error; destruct (dget var ds); [destruct (Nat.eqb _ _)|]; cbn; intros H; intuition discriminate).
  assert (F : forall n l, ~ In BadArea (flat_map (rank_error ds n) l)) by (intros n l H; apply in_flat_map in H as (y & _ & H); exact (R _ _ H)).
  unfold validate_errors, validate_warnings.
  set (e2 := match filter _ _ with [] => [] | _ => _ end). assert (N2 : ~ In BadArea e2) by (unfold e2; destruct (filter _ _); cbn; intros H; intuition discriminate).
  replace (existsb (fun _ : string => false) (dkeys ds)) with false by (induction (dkeys ds); [reflexivity|assumption]). rewrite andb_false_r. cbn [app].
  set (e3 := flat_map _ ["thetao"; "so"; "volcello"]). assert (N3 : ~ In BadArea e3) by apply F. set (e4 := flat_map _ ["areacello"; "deptho"]). assert (N4 : ~ In BadArea e4) by apply F.
  set (e6 := if reference then _ else []). assert (N6 : ~ In BadArea e6).
  { unfold e6. destruct reference; [|intros []]. intros H. apply in_app_iff in H as [H|H]; [exact (R _ _ H)|exact (F _ _ H)]. }
  clearbody e2 e3 e4 e6. destruct (dget "areacello" ds) as [a|]; [destruct (validate_areacello a ocean_area area_tolerance)|].
  all: split; [split; intros H; try (destruct H; fail); try (left; reflexivity); repeat (apply in_app_iff in H as [H|H]); cbn in H |- *; try tauto; repeat (rewrite in_app_iff; cbn); tauto|].
  all: split; [reflexivity|]. all: split; [intros H; repeat (apply in_app_iff in H as [H|H]); cbn in H; tauto|].
  all: intros e He; repeat (rewrite in_app_iff; cbn [In]); intuition congruence.
Qed.
Print Assumptions C170_area.

(** A slope "per year" written m/yr is warned about and taken per nanosecond; with m yr-1 there is no warning. *)
Definition ex_slope (u : string) : darr := mkDarr "slope" (mkArr [] (fun _ => Fin 3)) [("units", u)].
Example C170_case :
  broadcast_warnings (ex_slope "m/yr") (ex_ix true "time") = [TimeUnitsAssumed] /\ broadcast_warnings (ex_slope "m yr-1") (ex_ix true "time") = [] /\
  (exists r, broadcast_trend (ex_slope "m/yr") (ex_ix true "time") false = Ok r /\ at_ r (fun _ => 1%nat) = Fin 6) /\
  (exists s i, calc_linear_trend (ex_ix true "time") (ex_da "time" [("units", "m")]) (Some "yr") = Ok (s, i)) /\
  linear_detrend_warnings (ex_ix true "time") (XDataset [("ssh", ex_da "time" [("units", "m")]); ("average_DT", ex_da "time" [])]) 1 "remove" = [IncompatibleVariable] /\
  validate_warnings [("areacello", mkArr [("x", 1%nat)] (fun _ => Fin 510000000000000))] false = [AreaOutOfRange].
Proof.
  split; [reflexivity|]. split; [reflexivity|]. split; [|split; [|split]].
  - unfold broadcast_trend. cbn [ex_ix ix_cf ex_slope da_attrs dget String.eqb Ascii.eqb Bool.eqb da_data]. replace (map drop_inv _) with (@nil string) by reflexivity. cbn [bind].
    replace (strictly_increasing _) with true.
    + eexists. split; [reflexivity|]. cbn. f_equal. lra.
    + symmetry. apply forallb_forall. intros i Hi. apply Rltb_true. cbn in Hi. destruct Hi as [<-|[<-|[]]]; cbn; lra.
  - destruct C60_example as (s & i & e & E & _). exists s, i. exact E.
  - rewrite (proj1 (C170_detrend _ _ _ _)). reflexivity.
  - unfold validate_warnings. cbn [dget String.eqb Ascii.eqb Bool.eqb]. set (a := mkArr _ _).
    destruct (validate_areacello a ocean_area area_tolerance) eqn:V; [|reflexivity]. exfalso.
    assert (I : SpecSteric.area_in_range a 361110920000000 (2 / 100)).
    { refine (proj1 (area_interval a _ _ _ _ _) V); [lra| |intros e s H; discriminate H]. change (NoDup ["x"]). apply NoDup_cons; [intros []|apply NoDup_nil]. }
    revert I. unfold SpecSteric.area_in_range, SpecSteric.total_area. cbn. lra.
Qed.
