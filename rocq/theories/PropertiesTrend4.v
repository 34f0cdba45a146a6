(** * PropertiesTrend4: C143 (units of a trend in time), C144 (attributes of trends and seasonal models) *)
From Coq Require Import Reals ZArith List String Ascii Bool Arith Lia Lra Psatz.
From Verif Require Import Num NumFacts Py Arr ArrFacts Calendar Trend TrendAxis SpecTime SpecTrend ProofsUtil ProofsFields ProofsTide ProofsStericOk ProofsGeo2
  ProofsTrend ProofsTrend2 ProofsTrend3 ProofsTrend4 ProofsAvg PropertiesTrend PropertiesTrend2 Seasonal SpecSeason ProofsPinv ProofsSeason ProofsSeason2 ProofsStericDemo.
Import ListNotations.
Local Open Scope string_scope.
Local Open Scope R_scope.

(** ** C143 *)
(** The time unit asked for, and the text saying "[u] per [w]". *)
Definition asked (tu : option string) : string := match tu with None => "ns" | Some w => w end.
Definition per (u : option string) (w : string) : string := (match u with Some u => u ++ " " | None => "" end) ++ " " ++ w ++ "-1".
(** The valid samples of the series through [e] lie on the line [p t + q], and there are two of them. *)
Definition on_line (d : string) (n : nat) (t : nat -> R) (a : arr) (e : index) (p q : R) : Prop :=
  two_times n t (fun j => at_ a (upd e d j)) /\
  forall j, (j < n)%nat -> notnull (at_ a (upd e d j)) = true -> at_ a (upd e d j) = Fin (p * t j + q).
(** [w] is one of the seven units, of [len] nanoseconds. *)
Definition length_of (w : string) (len : R) : Prop := unit_length (30417 / 1000) 365 w = Some len.

(** On cftime dates the slope is per unit asked for, and the units say so. *)
Theorem C143_cftime_partial : forall d n t x tu s i, calc_linear_trend (axis_of CFTime d n t) x tu = Ok (s, i) ->
  (forall e, not_inf (at_ (da_data x) e)) ->
  exists len, length_of (asked tu) len /\ dget "units" (da_attrs s) = Some (per (dget "units" (da_attrs x)) (asked tu)) /\
    forall e p q, on_line d n t (da_data x) e p q -> at_ (da_data s) e = Fin (p * len) /\ at_ (da_data i) e = Fin q.
Proof.
  intros d n t x tu s i H F. destruct (calc_inv _ _ _ _ _ H) as (Hd & Hs & v & Hv).
  destruct (calc_ok _ x tu v Hd Hs Hv) as (s' & i' & E & _ & _ & _ & _ & _ & _ & U). rewrite H in E. apply Ok_inj in E. injection E as <- <-.
  exists v. split; [exact Hv|]. split; [exact (U eq_refl)|].
  intros e p q (T & L). exact (C60_linear_data _ _ _ _ _ v p q e H F Hv T L).
Qed.
Print Assumptions C143_cftime_partial.

(** On numpy dates every unit is accepted and ignored: the slope is per nanosecond and keeps the units of the data. *)
Theorem C143_numpy_partial : forall d n t x tu,
  In d (names (da_data x)) -> (exists j, (j < n)%nat /\ t j <> 0) -> (forall e, not_inf (at_ (da_data x) e)) ->
  exists s i, calc_linear_trend (axis_of NumpyTime d n t) x tu = Ok (s, i) /\ dget "units" (da_attrs s) = dget "units" (da_attrs x) /\
    forall e p q, on_line d n t (da_data x) e p q -> at_ (da_data s) e = Fin p /\ at_ (da_data i) e = Fin q.
Proof.
  intros d n t x tu Hd Hz F. assert (HS : slope_unit (axis_of NumpyTime d n t) tu 1) by reflexivity.
  assert (Z : sumsq (axis_of NumpyTime d n t) <> 0) by (apply sumsq_nz; exact Hz).
  destruct (proj2 (C60_succeeds (axis_of NumpyTime d n t) x tu)) as (s & i & E); [split; [exact Hd|]; split; [exact Hz|exists 1; exact HS]|].
  exists s, i. split; [exact E|]. split.
  - unfold calc_linear_trend in E. cbn [axis_of ix_cf is_time_index ix_dim] in E. destruct (dget d (adims (da_data x))); [|discriminate]. cbn [bind] in E.
    match type of E with context [Reqb ?r 0] => destruct (Reqb r 0); [discriminate|] end. cbn [bind] in E. apply Ok_inj in E. injection E as <- _.
    cbn [da_attrs]. rewrite dget_dset_other by discriminate. reflexivity.
  - intros e p q (T & L). destruct (C60_linear_data _ _ _ _ _ 1 p q e E F HS T L) as (A & B). rewrite Rmult_1_r in A. split; assumption.
Qed.
Print Assumptions C143_numpy_partial.

(** One metre per year of 365 days, sampled at noon of the first three days of 1970. *)
Definition day_ns : R := 86400 * 1000000000.
Definition rise_t (j : nat) : R := (INR j + 1 / 2) * day_ns.
Definition rise : darr := mkDarr "zos" (mkArr [("time", 3%nat)] (fun e => Fin (rise_t (e "time") / (365 * day_ns)))) [("units", "m")].
Theorem C143_refuted : exists s i, calc_linear_trend (axis_of NumpyTime "time" 3 rise_t) rise (Some "yr") = Ok (s, i) /\
  on_line "time" 3 rise_t (da_data rise) (fun _ => 0%nat) (1 / (365 * day_ns)) 0 /\
  dget "units" (da_attrs s) = Some "m" /\ at_ (da_data s) (fun _ => 0%nat) <> Fin 1.
Proof.
  assert (L : on_line "time" 3 rise_t (da_data rise) (fun _ => 0%nat) (1 / (365 * day_ns)) 0).
  { split.
    - exists 0%nat, 1%nat. repeat split; try lia. unfold rise_t, day_ns. cbn. lra.
    - intros j _ _. cbn. f_equal. unfold rise_t, day_ns. cbn. field. }
  destruct (C143_numpy_partial "time" 3 rise_t rise (Some "yr")) as (s & i & E & U & V).
  - left. reflexivity.
  - exists 0%nat. split; [lia|]. unfold rise_t, day_ns. cbn. lra.
  - intros e. exact I.
  - exists s, i. split; [exact E|]. split; [exact L|]. split; [exact U|]. destruct (V _ _ _ L) as (-> & _). unfold day_ns. intros Q. injection Q as Q. lra.
Qed.
Print Assumptions C143_refuted.
Example C143_case : exists s i, calc_linear_trend (axis_of CFTime "time" 3 rise_t) rise (Some "yr") = Ok (s, i) /\
  dget "units" (da_attrs s) = Some "m  yr-1" /\ at_ (da_data s) (fun _ => 0%nat) = Fin 1.
Proof.
  destruct (proj2 (C60_succeeds (axis_of CFTime "time" 3 rise_t) rise (Some "yr"))) as (s & i & E).
  - split; [left; reflexivity|]. split; [exists 0%nat; split; [cbn; lia|cbn; unfold rise_t, day_ns; cbn; lra]|eexists; reflexivity].
  - exists s, i. split; [exact E|]. destruct (C143_cftime_partial _ _ _ _ _ _ _ E (fun e => I)) as (len & Hl & U & V). split; [exact U|].
    destruct C143_refuted as (_ & _ & _ & L & _). destruct (V _ _ _ L) as (-> & _). f_equal. injection Hl as <-. unfold day_ns. field.
Qed.

(** Broadcasting a slope labelled "[u] [w]-1" along dates divides by the length of [w] on cftime dates only. *)
Lemma one_unit u w v : known w v -> ~ contains_inverse u -> filter has_inv (split_space (u ++ " " ++ w ++ "-1")) = [w ++ "-1"].
Proof.
  intros K N. destruct (unit_word w v K) as (W1 & W2 & _). change (" " ++ w ++ "-1") with (String " " (w ++ "-1")).
  rewrite split_app, W1, filter_app, (no_words u N). cbn [filter app]. rewrite W2. reflexivity.
Qed.
Theorem C143_broadcast_partial : forall d n t slope u w len,
  ~ In d (names (da_data slope)) -> (forall j, (S j < n)%nat -> t j < t (S j)) ->
  length_of w len -> ~ contains_inverse u -> dget "units" (da_attrs slope) = Some (u ++ " " ++ w ++ "-1") ->
  exists f g, broadcast_trend slope (axis_of CFTime d n t) false = Ok f /\ broadcast_trend slope (axis_of NumpyTime d n t) false = Ok g /\
    adims f = (adims (da_data slope) ++ [(d, n)])%list /\ adims g = (adims (da_data slope) ++ [(d, n)])%list /\
    forall e m, at_ (da_data slope) e = Fin m -> at_ f e = Fin (m / len * t (e d)) /\ at_ g e = Fin (m * t (e d)).
Proof.
  intros d n t slope u w len Nd Hi K NI U. assert (Pv := known_pos _ _ K). change (known w len) in K.
  assert (I1 : strictly_increasing (axis_of CFTime d n t) = true) by (apply increasing_ok; exact Hi).
  assert (I2 : strictly_increasing (axis_of NumpyTime d n t) = true) by (apply increasing_ok; exact Hi).
  unfold broadcast_trend. rewrite I1, I2. cbn [axis_of ix_cf is_time_index bind]. rewrite U, (one_unit u w len K NI). cbn [map].
  destruct (unit_word _ _ K) as (_ & _ & ->).
  assert (A2 := amul_interp (axis_of NumpyTime d n t) (da_data slope) Nd). rewrite A2. cbn [bind].
  destruct (String.eqb_spec w "ns") as [-> |Nw].
  - assert (len = 1) as -> by (unfold known in K; cbn in K; injection K as <-; reflexivity). cbn [bind].
    assert (A1 := amul_interp (axis_of CFTime d n t) (da_data slope) Nd). rewrite A1. cbn [bind].
    eexists _, _. split; [reflexivity|]. split; [reflexivity|]. cbn [adims at_ axis_of ix_dim ix_n ix_val]. split; [reflexivity|]. split; [reflexivity|].
    intros e m ->. cbn [fmul]. split; f_equal. field.
  - rewrite (factor_known w "ns" len 1 K known_ns). cbn [bind].
    assert (A1 := amul_interp (axis_of CFTime d n t) (amap (fun v => fmul v (Fin (1 / (len / 1)))) (da_data slope)) Nd). rewrite A1. cbn [bind].
    eexists _, _. split; [reflexivity|]. split; [reflexivity|]. cbn [adims at_ axis_of ix_dim ix_n ix_val amap]. split; [reflexivity|]. split; [reflexivity|].
    intros e m ->. cbn [fmul]. split; f_equal. field. lra.
Qed.
Print Assumptions C143_broadcast_partial.

(** 3 mm per year along the same three days: a few micrometres on cftime dates, more than 10^10 metres on numpy dates. *)
Definition rate : darr := mkDarr "zos_slope" (mkArr [] (fun _ => Fin 0.003)) [("units", "m yr-1")].
Theorem C143_broadcast_refuted : exists f g, broadcast_trend rate (axis_of CFTime "time" 3 rise_t) false = Ok f /\
  broadcast_trend rate (axis_of NumpyTime "time" 3 rise_t) false = Ok g /\
  forall e, e "time" = 2%nat -> exists a b, at_ f e = Fin a /\ at_ g e = Fin b /\ a < 3e-5 /\ 1e10 < b.
Proof.
  destruct (C143_broadcast_partial "time" 3 rise_t rate "m" "yr" (365 * (86400 * 1000000000))) as (f & g & F & G & _ & _ & V); try reflexivity.
  - intros [].
  - intros j _. unfold rise_t, day_ns. rewrite S_INR. lra.
  - intros (a & b & Q). destruct a as [|c [|c' a]]; cbn in Q; try discriminate Q.
  - exists f, g. split; [exact F|]. split; [exact G|]. intros e He. destruct (V e 0.003 eq_refl) as (-> & ->). eexists _, _. split; [reflexivity|]. split; [reflexivity|].
    rewrite He. unfold rise_t, day_ns. cbn. lra.
Qed.
Print Assumptions C143_broadcast_refuted.

(** ** C144 *)
(** The slope and the intercept carry the attributes of the data except for the comment and, on a cftime axis, the units of the slope. *)
Theorem C144_trend : forall ix x tu s i k, calc_linear_trend ix x tu = Ok (s, i) ->
  dget k (da_attrs i) = (if String.eqb k "comment" then Some "Y-intercept of linear trend" else dget k (da_attrs x)) /\
  dget k (da_attrs s) = (if String.eqb k "comment" then Some "Slope of linear trend"
    else if ix_cf ix && String.eqb k "units" then Some (per (dget "units" (da_attrs x)) (asked tu)) else dget k (da_attrs x)).
Proof.
  intros ix x tu s i k H. unfold calc_linear_trend in H.
  destruct (dget (ix_dim ix) (adims (da_data x))); [|discriminate]. cbn [bind] in H.
  match type of H with context [Reqb ?r 0] => destruct (Reqb r 0); [discriminate|] end. cbn [bind] in H.
  assert (D : forall v (m : dict string), dget k (dset "comment" v m) = if String.eqb k "comment" then Some v else dget k m).
  { intros v m. destruct (String.eqb_spec k "comment") as [-> |N]; [apply dget_dset_same|apply dget_dset_other; congruence]. }
  destruct (ix_cf ix).
  - apply bind_inv in H as (f & _ & H). apply Ok_inj in H. injection H as <- <-. cbn [da_attrs andb]. split; [apply D|].
    destruct (String.eqb_spec k "comment") as [-> |N1].
    + rewrite dget_dset_other by discriminate. apply dget_dset_same.
    + destruct (String.eqb_spec k "units") as [-> |N2].
      * rewrite dget_dset_same, dget_dset_other by discriminate. reflexivity.
      * rewrite !dget_dset_other by congruence. reflexivity.
  - apply Ok_inj in H. injection H as <- <-. cbn [da_attrs andb]. split; apply D.
Qed.
Print Assumptions C144_trend.

(** The attributes of the seasonal model and of its residuals: exactly three, derived from those of the data. *)
Definition tagged (a : dict string) (suffix title : string) (m : dict string) : Prop :=
  dget "standard_name" a = Some (match dget "standard_name" m with Some v => v ++ "_" ++ suffix | None => suffix end) /\
  dget "long_name" a = Some (match dget "long_name" m with Some v => title ++ ", " ++ v | None => title end) /\
  dget "units" a = Some (match dget "units" m with Some v => v | None => "" end) /\
  forall k, ~ In k ["standard_name"; "long_name"; "units"] -> dget k a = None.
Theorem C144_seasonal : forall ax x tcoord s r, seasonal_model ax x tcoord = Ok (s, r) ->
  tagged (da_attrs s) "smodel" "Seasonal model" (da_attrs x) /\ tagged (da_attrs r) "sresid" "Seasonal residuals" (da_attrs x).
Proof.
  intros ax x tcoord s r H. unfold seasonal_model in H. destruct (String.eqb (ta_name ax) tcoord); [|destruct (dmem _ _); discriminate].
  apply bind_inv in H as (u & _ & H). apply bind_inv in H as (d & _ & H). apply Ok_inj in H. injection H as <- <-. cbn [da_attrs].
  assert (G : forall suf long m, tagged (season_attrs suf long m) suf long m).
  { intros suf long m. unfold tagged, season_attrs, with_suffix, with_prefix. split; [cbn; destruct (dget "standard_name" m); reflexivity|].
    split; [cbn; destruct (dget "long_name" m) as [v|]; [rewrite app_assoc_s|]; reflexivity|]. split; [reflexivity|].
    intros k N. cbn [dget]. cbn [In] in N. destruct (String.eqb_spec k "standard_name"); [subst; tauto|]. destruct (String.eqb_spec k "long_name"); [subst; tauto|].
    destruct (String.eqb_spec k "units"); [subst; tauto|]. reflexivity. }
  split; apply G.
Qed.
Print Assumptions C144_seasonal.
Example C144_case : exists s i, calc_linear_trend (axis_of CFTime "time" 3 rise_t) rise None = Ok (s, i) /\
  dget "comment" (da_attrs i) = Some "Y-intercept of linear trend" /\ dget "units" (da_attrs i) = Some "m" /\ dget "units" (da_attrs s) = Some "m  ns-1".
Proof.
  destruct (proj2 (C60_succeeds (axis_of CFTime "time" 3 rise_t) rise None)) as (s & i & E).
  - split; [left; reflexivity|]. split; [exists 0%nat; split; [cbn; lia|cbn; unfold rise_t, day_ns; cbn; lra]|eexists; reflexivity].
  - exists s, i. split; [exact E|]. split; [exact (proj1 (C144_trend _ _ _ _ _ "comment" E))|]. split; [exact (proj1 (C144_trend _ _ _ _ _ "units" E))|exact (proj2 (C144_trend _ _ _ _ _ "units" E))].
Qed.
Example C144_seasonal_case : exists s r, seasonal_model (mkAxis "time" (Some NoLeap) (range_D NoLeap 2001 10))
    (mkDarr "zos" (mkArr [("time", 10%nat)] (fun e => Fin (INR (e "time")))) [("long_name", "Sea level"); ("units", "m"); ("cell_methods", "time: mean")]) "time" = Ok (s, r) /\
  dget "long_name" (da_attrs r) = Some "Seasonal residuals, Sea level" /\ dget "standard_name" (da_attrs s) = Some "smodel" /\ dget "cell_methods" (da_attrs r) = None.
Proof.
  match goal with |- exists s r, seasonal_model ?ax ?x _ = _ /\ _ => destruct (seasonal_model_ok ax x eq_refl) as (s & r & E & _) end.
  - apply ProofsStericDemo.wf_of; [repeat constructor; intros []|]. intros e e' H. cbn. rewrite (H "time") by (cbn; tauto). reflexivity.
  - left. reflexivity.
  - exists s, r. split; [exact E|]. destruct (C144_seasonal _ _ _ _ _ E) as ((A & _) & (_ & B & _ & C)). split; [exact B|]. split; [exact A|]. apply C. cbn. intuition discriminate.
Qed.
