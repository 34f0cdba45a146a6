# Formal model of momlevel in Rocq (Coq 8.16.1)

`/repo` (jkrasting/momlevel) is read as text; it is not run.  The model is a set of
shallow, total Gallina functions in `rocq/theories/`, each citing the lines it models.
`properties.jsonl` states the properties, `MANIFEST.json` maps each to its theorems.

## Layout

| files | contents |
|-------|----------|
| `Num`, `Py`, `Arr`, `Calendar` | numbers, Python values and exceptions, labelled arrays, cftime calendars |
| `Eos`, `Spice`, `Derived`, `N2Edges`, `Dataset`, `Util`, `Geo`, `TimeAvg`, `YearText`, `TestData`, `Trend`, `Seasonal` | the model of the code |
| `Ieee`, `Ieee32`, `IeeeGlobal`, `IeeeTime`, `IeeeTrend`, `IeeeDerived` | the equations of state, `calc_dz`, the local and global steric heights, the averages over time, the time conversion factors, the inverse barometer, numpy.gradient and `calc_n2` in IEEE arithmetic |
| `Spec*` | vocabulary of the statements (no code of the model unless a statement is about a call) |
| `Proofs*`, `NumFacts`, `ArrFacts` | proofs |
| `Properties*` | the theorems `Cnn_...`, each followed by `Print Assumptions` and, beside it, concrete examples |

A theorem ending in `_refuted` exhibits inputs for which the code violates the property; the
matching `_partial` theorem says exactly what holds instead.  The manifest status of such a
property is `partial`.

## Numbers

A float64 is `fval := NaN | Inf sign | Fin (x : R)`: exact real arithmetic with the IEEE
rules for NaN and infinities.  Decimal literals are their exact decimal values.  Rounding,
overflow of finite results and the sign of zero are not modelled there (a zero denominator counts
as `+0`).

`Ieee` models the same arithmetic in IEEE 754 binary64 (`binary_float 53 1024` of Flocq's
`BinarySingleNaN`, computed by its verified operations, round to nearest even) for the equations of
state, `calc_dz` and the local and global steric heights, and in the mixed precision numpy uses when temperature and
salinity are float32 (weak Python scalars, float64 pressure).  C89-C96 bound the distance to the exact
layer.  The error bounds come from a fixed-point interval analyser (`ProofsFloat.bound`), proved sound
once for all expressions and then run by the kernel.  The sums of the global height (C98, C99) may be
carried out in any order and association (`tree64`), as numpy and dask choose; `np.log` is any function
accurate to one unit in the last place on [1/2, 2] (a hypothesis, met by the correctly rounded logarithm).

## Arrays

An xarray `DataArray` is a list of named, sized dimensions and a function from an index
assignment (dimension name -> position) to a value.  Broadcasting by name, `isel`, `squeeze`,
`sum` (skipna), `where`, `ffill`, `transpose`, `a[0]`, `np.gradient` are functions on it.
Index coordinates of the arguments of one operation are assumed equal (xarray would align
them).  `Align` drops this assumption for `steric` with a supplied reference: arrays carry
labels and every operation aligns them; `C112_same_labels` proves that equal labels give
the positional model.  Exceptions are values (`Err AssertionError`, ...).

## What is modelled

| code | model | not modelled |
|------|-------|--------------|
| `eos/wright.py`, `eos/linear.py`, `eos/__init__.py` | `Eos` | |
| `spice/flament.py` | `Spice`, `IeeeSpice` (binary64) | |
| `derived.py` | `Derived`, `N2Edges` (`calc_n2` with `interfaces`), `Attrs` (attributes), `IeeeDerived`, `IeeeWave`, `IeeeVort`, `IeeeBudget`, `IeeeSphere`, `IeeeTurner` (binary64) | |
| `dynamic.py` | `Derived`, `Attrs`, `IeeeDerived` (binary64) | |
| `reference.py`, `steric.py` | `Dataset`, `TimeAvg` (`annual=True`), `Align` (index labels), `Meta` (attributes and `dtype` of the result), `TestMeta` (attributes of the reference), `Calls` (arguments, `verbose`), `Kinds` (arguments of a wrong kind) | |
| `util.py:32-249` | `Util`, `TimeAvg`, `YearText` (years in strings), `Dataset`, `Eos`, `Meta` (attributes of `annual_average`) | other attributes |
| `util.py:252-367 geolocate_points` | `Geo`, `IeeeGeo` (binary64) | non-numeric columns; the bounds of the ball tree |
| `util.py:370-397 get_pv_colormap` | `Grid` | |
| `util.py:399-451 get_xgcm_grid` | `Grid` (names), `Derived` (the operators of the grid it returns) | |
| `util.py:454-860` | `TimeAvg`, `YearText`, `Util`, `Dataset`, `Geo`, `IeeeSphere`, `IeeeArea` (binary64), `AvgMeta` (attributes of the averages), `Warn` (warning of validate_dataset) | warning texts, other attributes |
| `util.py:863-870 linear_detrend` | `Warn` | |
| `tidegauge.py` | `Geo`, `TideMeta` (attributes), `TideAux` (coordinates attached to the arrays), `Gauges` (bundled lists, csv argument), `TideWarn` (warnings) | attached coordinates called `mask` are left out |
| `trend.py` | `Trend`, `TrendAxis` (kinds of index), `Seasonal`, `IeeeTrend`, `IeeeBroadcast` (binary64), `Warn` (warnings) | see the SIMPLIFICATION comments |
| `test_data/*` | `TestData`, `TestMeta` (attributes), `YearText` | random numbers are arguments |
| `__init__.py` (metadata, re-exports) | | all of it |

Every simplification is marked SIMPLIFICATION at the definition concerned.

## Trusted base

1. Coq's kernel (8.16.1).  No axiom is declared in this development, nothing is admitted.
   Libraries: Coq's standard library; in the `*Float*` and `*Ieee*` files also Flocq 4.1.0 (`Core`,
   `IEEE754.BinarySingleNaN`, `Prop`), which declares no axiom there (see the table below).
2. The axioms of the standard library listed below under each theorem:
   * **D** `ClassicalDedekindReals.sig_forall_dec`
   * **N** `ClassicalDedekindReals.sig_not_dec`
   * **F** `FunctionalExtensionality.functional_extensionality_dep`
   * **C** `Classical_Prop.classic`
3. The reading of third-party code, recorded where it is used:
   * numpy / xarray: elementwise operations, broadcasting by name, `skipna` reductions, `where`, `ffill`,
     `differentiate(edge_order=2)`, `polyfit`, `weighted().mean`, `groupby`, `concat`, `rename`, `apply_ufunc`
     (including its check of the shape of the result), `full_like` on integer arrays;
   * `np.linalg.pinv` and `lstsq` in exact arithmetic (the Moore-Penrose inverse; `ProofsPinv` proves that the
     modelled matrix satisfies the four Penrose equations and that they determine it);
   * cftime calendars and `cftime_range`, exact instead of to the microsecond; the start of a range is read as an
     ISO 8601 date with a year of four digits, anything else raises ValueError;
   * sklearn's ball tree: returns a nearest neighbour under its haversine formula (any one of several equally
     near ones); C172 and C173 weaken this to a neighbour at most a tolerance farther than the nearest;
   * xgcm `diff`, `interp` with zero fill; `transform(method="linear")` with masked edges (releases of xgcm in
     which grids are periodic by default refuse this call, so that `calc_n2` with `interfaces` raises there);
   * alignment: arithmetic and `DataArray.where` use the inner join (common labels in the order of the left
     operand), `apply_ufunc` and `xr.where` the exact join; computed variables have no encoding;
   * dask `map_overlap` without overlap: the function is applied to every block;
   * pandas `concat(axis=1)` and row lookup.
4. That the Gallina definitions say what the cited lines say.  They are meant to be compared side by side.

### Print Assumptions

<!-- assumptions: begin -->
465 theorems.

**none** (21): `C06_names`, `C111_dataarray`, `C111_dataset`, `C116_described_partial`, `C116_described_refuted`, `C156_generated_partial`, `C156_generated_refuted`, `C156_reference_partial`, `C156_reference_refuted`, `C156_steric_partial`, `C156_steric_refuted`, `C162_partial`, `C162_refuted`, `C168_units`, `C45_default_coords`, `C45_other_keys`, `C46_alphabetize`, `C47_reset_array`, `C47_reset_dataset`, `C49_reject`, `C49_tile`

**D** (8): `C176_accepted`, `C176_defaults`, `C176_rejected`, `C176_values`, `C176_wrapper`, `C179_default`, `C179_keyword`, `C179_order`

**DF** (151): `C01_drho_dtemp_is_derivative`, `C01_wright_density_formula`, `C02_drho_dsal_is_derivative`, `C03_linear_alpha_beta`, `C03_linear_integer_input_refuted`, `C03_wright_alpha_beta`, `C04_density_range`, `C05_density_monotone`, `C07_pdens`, `C07_rho_alpha_beta_pointwise`, `C07_rho_alpha_beta_total`, `C08_calc_spice`, `C08_spice_numpy`, `C100_generated_columns`, `C100_generated_dz`, `C101_linear_reference`, `C105_range_needed`, `C106_generated_positions`, `C106_generated_separate`, `C107_generated_area`, `C107_generated_vorticity`, `C108_monthly`, `C109_annual`, `C109_monthly`, `C10_hydrostatic`, `C10_wright_ocean`, `C114_dz`, `C114_masso`, `C114_pv`, `C114_rel_vort`, `C114_rhoga`, `C114_rossby_rd`, `C114_volo`, `C115_cm_partial`, `C115_cm_refuted`, `C118_adjust_negative`, `C118_alpha_beta`, `C118_dz`, `C118_inverse_barometer`, `C118_masso`, `C118_n2`, `C118_pdens`, `C118_pv`, `C118_rel_vort`, `C118_rho`, `C118_rossby_rd`, `C11_thickness_bounds`, `C120_whole_years`, `C121_dimensions`, `C121_partial`, `C121_pv_dimensions`, `C121_pv_partial`, `C121_refuted`, `C122_intervals`, `C126_annual`, `C126_labels`, `C126_monthly`, `C126_outside`, `C127_refuted`, `C127_start_year_partial`, `C12_default_top_is_overlap`, `C139_coefficients`, `C139_derivatives`, `C13_column_total`, `C143_broadcast_partial`, `C143_broadcast_refuted`, `C149_labels`, `C149_mean`, `C14_accepts`, `C14_rejects_mismatch`, `C14_rejects_negative`, `C155_consistent`, `C155_described`, `C158_barometer`, `C158_comment`, `C158_units`, `C15_wet_fraction`, `C168_edges`, `C168_methods`, `C16_range_overlap_partial`, `C16_range_overlap_refuted`, `C170_area`, `C170_assumed`, `C17_adjust_negative_n2`, `C18_time_dependent_partial`, `C18_time_dependent_refuted`, `C19_derivative_exact_on_quadratics`, `C19_derivative_linear`, `C20_n2_linear_eos`, `C21_zcoord_partial`, `C24_rossby_radius`, `C27_masso`, `C27_rhoga_between`, `C27_volo`, `C28_circulation`, `C28_missing_variable`, `C28_potential_flow`, `C28_shape`, `C29_pv_centers`, `C29_pv_corners`, `C29_pv_units`, `C29_shape`, `C30_reference_values`, `C30_time_index`, `C31_partial`, `C31_refuted`, `C41_open_interval`, `C42_decision`, `C42_reports`, `C43_partial`, `C43_refuted`, `C44_partial`, `C44_refuted`, `C55_bounds`, `C55_dataset`, `C55_time_stamps`, `C55_weighted_mean`, `C56_count_partial`, `C56_monthly_partial`, `C56_refuted`, `C57_daily_mean`, `C57_generated`, `C59_consistent`, `C59_ratio`, `C59_unrecognised`, `C59_zero_length`, `C67_dates_partial`, `C67_dates_refuted`, `C67_no_leap_partial`, `C67_samples_partial`, `C67_samples_refuted`, `C71_daily`, `C71_other_frequency`, `C71_stub_daily`, `C71_stub_monthly`, `C72_area`, `C73_expansion_positive`, `C79_partial`, `C79_refuted`, `C80_generated_accepted`, `C81_axis_name_refuted`, `C81_from_first_sample_partial`, `C81_other_axis_partial`, `C84_monthly_refuted`, `C85_n2_wright`, `C86_edges`, `C86_total`, `C87_linear_profiles_partial`, `C87_next_to_end_refuted`, `C88_adjust_column_partial`, `C88_adjust_edges_refuted`

**CDF** (1): `C149_errors`

**DFN** (73): `C09_coriolis`, `C103_linear`, `C103_order`, `C103_origin`, `C108_cycle`, `C108_nothing_to_average`, `C108_same_outcome`, `C109_cycle`, `C109_generated`, `C109_generated_daily`, `C114_wave_speed`, `C118_wave_speed`, `C119_averages`, `C119_seasonal`, `C119_trend`, `C120_order`, `C126_cycle`, `C135_extremes`, `C135_linear`, `C135_monotone`, `C136_spread`, `C137_coefficients`, `C137_deseason`, `C137_model`, `C137_residuals`, `C143_cftime_partial`, `C144_seasonal`, `C144_trend`, `C147_layers`, `C147_monotone`, `C147_scaling`, `C170_detrend`, `C170_fitted`, `C178_partial`, `C178_refuted`, `C21_zcoord_refuted`, `C22_wave_speed`, `C23_time_dependent_partial`, `C23_time_dependent_refuted`, `C48_band`, `C48_sphere`, `C48_too_small`, `C58_errors`, `C58_labels`, `C58_mean`, `C58_min_max`, `C58_std`, `C60_all_missing`, `C60_least_squares`, `C60_linear_data`, `C60_metadata`, `C65_independent`, `C66_cycle_model`, `C66_exact`, `C66_idempotent`, `C66_least_squares`, `C68_chunks`, `C68_each_series`, `C69_coeff_refuted`, `C69_outputs_partial`, `C69_unknown_format`, `C70_changes_partial`, `C70_refuted`, `C82_deseason_refuted`, `C82_seasonal_model_refuted`, `C83_array_partial`, `C83_ignored_refuted`, `C83_refuted`, `C84_360_day_refuted`, `C84_cycle_360_refuted`, `C84_daily_partial`, `C84_leap_refuted`, `C84_model_daily_partial`

**CDFN** (211): `C102_longitudes`, `C104_global`, `C104_local`, `C105_compensation`, `C105_increasing`, `C106_generated`, `C106_on_grid`, `C110_annual_partial`, `C110_annual_refuted`, `C110_dtype_partial`, `C112_common_cells`, `C112_fixed_field`, `C112_same_labels`, `C113_disjoint_partial`, `C113_refuted`, `C113_same_partial`, `C117_steric`, `C117_time`, `C118_stability_angle`, `C123_global_local`, `C124_annual_formula`, `C125_linear`, `C128_labels_partial`, `C128_refuted`, `C128_square_partial`, `C129_provenance`, `C129_values`, `C130_annual`, `C130_cycle`, `C131_bits_partial`, `C131_refuted`, `C131_single_partial`, `C132_defaults64`, `C132_factor64`, `C132_unrecognised64`, `C133_default_partial`, `C133_fixed_partial`, `C133_refuted`, `C134_by_name_partial`, `C134_consistent_partial`, `C134_nominal_partial`, `C134_refuted`, `C134_used_partial`, `C138_column32_partial`, `C138_refuted`, `C138_unchanged32_partial`, `C139_differences`, `C140_bound`, `C140_freshening`, `C141_nearly_additive`, `C142_bound`, `C142_freshening`, `C142_nearly_additive`, `C143_numpy_partial`, `C143_refuted`, `C145_isothermal_refuted`, `C145_partial`, `C145_stratified_refuted`, `C146_finer_grid`, `C146_moved_sites`, `C146_threshold`, `C148_default_gravity`, `C148_linear`, `C148_missing`, `C148_wright`, `C149_binary64`, `C150_gradient`, `C150_n2`, `C150_sign`, `C151_homogeneous_partial`, `C151_homogeneous_refuted`, `C152_adjust`, `C152_rossby`, `C152_wave_speed`, `C153_pv_centers`, `C153_pv_corners`, `C153_uniform_flow`, `C153_vorticity`, `C154_irrotational_partial`, `C154_irrotational_refuted`, `C157_between_partial`, `C157_between_refuted`, `C157_budget`, `C157_mean`, `C158_angle`, `C159_coriolis`, `C160_monotone_partial`, `C160_monotone_refuted`, `C161_cell`, `C161_relative`, `C161_sphere`, `C163_missing`, `C163_origin`, `C163_sea`, `C163_spice`, `C164_angle`, `C164_column`, `C164_missing`, `C165_partial`, `C165_refuted`, `C166_broadcast`, `C166_detrend`, `C166_from_zero`, `C166_missing`, `C166_round_trip`, `C166_unrecognised`, `C167_distance`, `C167_found`, `C167_nearest`, `C167_threshold`, `C169_decision`, `C169_default`, `C169_not_finite`, `C171_file`, `C171_global_partial`, `C171_last`, `C171_us_partial`, `C171_us_refuted`, `C172_binary64`, `C172_exact`, `C172_near`, `C172_relaxed`, `C173_exact`, `C173_near`, `C174_bound`, `C174_freshening`, `C174_nearly_additive`, `C175_bound`, `C175_freshening`, `C175_nearly_additive`, `C176_verbose`, `C177_returns`, `C177_right`, `C177_wrong`, `C180_disabled`, `C180_enabled`, `C25_stability_angle`, `C26_stable_column_partial`, `C26_stable_column_refuted`, `C32_defined`, `C32_local_formula`, `C33_global`, `C33_local`, `C34_land_mask`, `C35_linear_additive`, `C36_freshening_linear`, `C36_freshening_wright`, `C36_warming_linear`, `C36_warming_wright`, `C37_global_formula`, `C38_independent`, `C38_unknown_variant`, `C39_refuted`, `C40_default_reference`, `C40_reuse`, `C50_contract_met`, `C50_nearest`, `C50_total`, `C51_central_angle`, `C51_metric`, `C52_partial`, `C52_refuted`, `C53_nearest_series`, `C53_one_dimensional`, `C53_total`, `C54_bad_arguments`, `C54_partial`, `C54_refuted`, `C60_succeeds`, `C61_idempotent`, `C61_line_invariant`, `C61_rejected`, `C61_residuals`, `C61_smallest`, `C61_total`, `C62_mean_not_kept_refuted`, `C62_mean_shift_partial`, `C63_is_fitted_line`, `C63_round_trip`, `C64_exact_partial`, `C64_units_rejected_refuted`, `C73_density_decreases`, `C74_no_threshold`, `C74_partial`, `C74_refuted`, `C75_triangle`, `C76_partial`, `C76_refuted`, `C77_partial`, `C77_refuted`, `C78_partial`, `C78_refuted`, `C80_generated_steric`, `C89_density64`, `C89_order64`, `C90_derivatives64`, `C90_linear64`, `C91_dz64`, `C91_fraction64`, `C92_column64`, `C93_unchanged64`, `C94_missing64`, `C95_density32`, `C95_derivatives32`, `C95_linear32`, `C96_order32_partial`, `C96_warming32_refuted`, `C97_rejected`, `C97_varname_map`, `C98_global64`, `C99_unchanged_global64`

<!-- assumptions: end -->

## Findings

Properties that the code violates, with a proved witness (`_refuted`) and the proved exact
behaviour (`_partial`):

<!-- findings: begin -->
* **C16** calc_dz over a depth range equals the overlap with [top, min(depth,bottom)].  False of the code when the top and the floor of the range both fall strictly inside one cell (calc_dz returns min(zb-top, floor-zt)); _refuted gives a witness, _partial proves equality exactly outside that case and that the result is never too small.
* **C18** adjust_negative_n2 treats the surface level of time-dependent (t,z,...) arrays.  False of the code: adjusted[0] addresses the first dimension (time), not the surface. _partial is the exact behaviour.
* **C21** calc_n2(adjust_negative=True) and calc_wave_speed honour the zcoord argument.  False of the code: calc_n2(adjust_negative=True) and calc_wave_speed do not forward zcoord; _partial shows renaming commutes with calc_n2 without adjustment.
* **C23** calc_wave_speed on time-dependent input returns one value per time and column.  False of the code: n2[0] is the first time level, so the vertical dimension is broadcast back into the result.
* **C26** |stability angle|<45 means the water column is stable.  False of the code (arctan instead of arctan2): _refuted gives a witness, _partial is the exact true characterisation.
* **C31** A valid dataset with a size-one spatial dimension can be used as reference.  False of the code: squeeze() removes size-one spatial dimensions and calc_volo then asserts; _partial proves success for every regular dataset without them.
* **C39** An unrecognised domain is rejected.  False of the code: every string other than 'global' behaves as 'local' (proved for all arguments).
* **C43** A reference dataset with a time coordinate is rejected.  False of the code: x.lower is not called, so the time coordinate is never found; _partial: four-dimensional reference fields are rejected by the rank check.
* **C44** strict=False turns errors into warnings.  False of the code: strict=False silences only the area check; _partial is the exact relation between the two modes.
* **C52** mod_index indexes df_model.  False of the code when the mask removes a row: mod_index counts rows of the masked frame. _partial: true when no row is masked out.
* **C54** extract_tidegauge rejects x/y coordinates on different dimensions.  False of the code: the check compares xcoord.dims with itself. _partial states what happens instead.
* **C56** annual_average rejects incomplete years.  False of the code: only the count 12 is checked, so twelve samples of one month pass. _partial: exact error condition, and the claim for series without two samples in one month.
* **C62** linear_detrend(mode='correct') retains the magnitude of the data.  Refuted as stated: mode='correct' subtracts m*x with x in ns since 1970, so the mean moves by m*mean(x) (C62_mean_not_kept_refuted). Proved: the exact shift, that no trend remains, and the exact condition under which the mean is kept.
* **C64** linear_detrend works for any units attribute.  Refuted as stated: any units containing '-1' raise ValueError on a date axis (C64_units_rejected_refuted). Proved: the exact condition for success.
* **C67** Decimal time used by the seasonal fits is strictly increasing.  Refuted: the 366th day of a leap year is counted past the start of the next year (seasonal_model), and deseason's sample number over year length falls at the start of a leap year. The partial theorems give the exact conditions.
* **C69** deseason outputs are mutually consistent.  Refuted for output_format='coeff' on arrays whose only dimension is time (TypeError); everything else holds.
* **C70** deseason does not modify its input.  Refuted: the attributes of the input are changed in place; the partial theorem lists every change.
* **C74** Warned sites are exactly the sites left out.  False of the code exactly at the threshold (warn uses >=, keep uses <=). _partial: true elsewhere; C74_no_threshold: warnings with threshold None raise TypeError.
* **C76** loc_coords selects the coordinate columns.  False of the code: the columns 'lat' and 'lon' are read for real_coords whatever loc_coords says. _partial: works when those columns also exist.
* **C77** One output variable per located site.  False of the code: repeated site names overwrite each other. _partial: true for distinct names.
* **C78** steric(annual=True) honours coord_names.  False of the code: annual=True always averages over 'time'. _partial: exact condition for success.
* **C79** annual_average leaves static variables alone.  False of the code: a Dataset variable without the time dimension gains one. _partial: its values are unchanged.
* **C81** broadcast_trend(subtract_time_zero=True) starts at zero for any axis.  Refuted as stated: the code subtracts along the literal 'time' (C81_axis_name_refuted). Proved: correct on an axis called time; ValueError on any other when the slope has no time dimension.
* **C82** Seasonal functions work with any time dimension name.  Refuted: 'time' is hard-coded in both functions.
* **C83** seasonal_cycle_model uses the given length of the year.  Refuted: a scalar daysinyear is ignored, 365 is always used; arrays are honoured.
* **C84** deseason's harmonics repeat every calendar year.  Refuted for 360_day and leap-year calendars and for samples that are not daily; holds for daily noleap and all_leap data.
* **C87** calc_n2 on cell edges is defined at every interface between two levels.  Refuted: regridding masks the end interfaces and the centred difference loses their neighbours too; exact for linear profiles at the remaining interfaces.
* **C88** calc_n2 on cell edges can adjust negative values.  Refuted: calc_n2 always adjusts along 'z_l', which regridding has removed; holds for single columns whose interfaces are named 'z_l'.
* **C96** Warming lowers density also in single precision.  Refuted: at 10 degC, 35 PSU and 5 m, warming by 1/4096 K raises the single-precision density by more than 1e-5 kg m-3 (the terms depending on temperature and salinity alone are rounded to 24 bits). _partial: differences of 7.7e-4 kg m-3 keep their sign; in double precision 7e-12 suffices (C89_order64).
* **C110** The requested dtype is set on every output variable of steric.  Refuted for annual=True: the averaged variables are computed anew and have no encoding, so they are stored as float64; without annual it holds (C110_dtype_partial).
* **C113** A global height is finite or refused when labels differ.  Refuted: rho * volcello is aligned by an inner join, so only common cells enter the mass; with none in common the mass is 0 and the height is +inf without any error (C113_disjoint_partial). With equal labels it is the positional result.
* **C115** Potential vorticity in cm denotes the same quantity.  Refuted: the label reads '10^14 cm-1 s-1' but the numbers count 10^-14 cm-1 s-1 (C115_cm_partial), so label and number are 28 orders of magnitude apart.
* **C116** Every derived field is described.  Refuted for calc_rossby_rd and calc_wave_speed, which set the key 'long name' instead of 'long_name'; proved for the others.
* **C121** coord_dict replaces only the grid names it mentions.  Refuted as stated: a coord_dict that leaves out one of the four keys raises KeyError (C121_refuted). What holds: with all four keys present the names are used and further keys are ignored; without one of them KeyError; None is the full default dictionary; the names must be dimensions of the data; calc_pv reads coord_dict only if interp_n2 is True. That xgcm refuses an unknown dimension with ValueError is trusted.
* **C127** Test time axes can start in any year.  Refuted for start years before 1000: generate_time_stub writes the year without zfill(4), so "850-01-01" is not a date and ValueError is raised. What holds: exactly the years 1000 to 9999 are accepted and then the axis starts there. That xarray refuses other strings is trusted.
* **C128** The wet mask is matched to the grid by dimension name.  Refuted: pd.concat matches tuples of labels by position. On a square grid with equal labels along both dimensions a mask listed as (x, y) is silently applied transposed, so that a gauge on the only wet cell gets the series of a land cell; with different labels ValueError is raised. With the dimensions in the order of the coordinates see C53.
* **C131** The annual mean of a constant is that constant in double precision.  Refuted: with the NoLeap calendar twelve values 0.1 added in order give 0.10000000000000002, so an annual mean can also leave the range of the monthly values. What holds: values with at most 44 significant bits, in particular all single-precision data, come out unchanged in every order, also when some months are missing; in general C130 bounds the difference.
* **C133** Time conversion factors of whole ratios are exact in double precision.  Refuted: time_conversion_factor multiplies by the rounded reciprocal 1.0 / v instead of dividing, so with the default lengths a minute has 60.00000000000001 s, and with days_per_year=365.2425 the factor from yr to yr is 0.9999999999999999. What holds: units of fixed length convert to themselves by exactly one and to ns by exactly their length, and with the default lengths every unit converts to itself by exactly one.
* **C134** Tide gauges are located on the coordinate arrays that were passed.  Refuted: to_dataframe puts attached coordinates before the array itself and util.py:330 keeps the first of several columns with one name, so an array computed from ds.geolon that still carries the original geolon as attached coordinate is ignored. C134_used_partial says exactly which values are used; they are the passed ones when the attached coordinates agree (C134_consistent_partial), in particular for coordinates taken by name (C134_by_name_partial). Attached coordinates called mask are not modelled.
* **C138** Local steric height of single precision data.  Refuted: in 6000 m of water at 1.78 degC and 34 PSU, warmed by 1/2048 K, the height rises by more than 0.4 mm but the computed height falls by more than 0.1 mm, because numpy evaluates the terms depending on temperature and salinity alone in float32 and their errors are the same at every level. _partial: the error is at most 0.78 micrometres per metre of water (4.7 mm in 6000 m), and unchanged data give exactly zero.
* **C143** A trend in time is per the unit asked for and labelled so.  Refuted: trend.py:59 and 269 recognise only CFTimeIndex. xarray decodes standard-calendar times to numpy datetimes, for which get_clean_interp_index also gives nanoseconds, but there time_units is ignored (even an unknown one): a rise of 1 m per year asked for per year comes back as 3.2e-17 with units 'm' (C143_refuted), and broadcasting 3 mm yr-1 over three days gives more than 1e10 m (C143_broadcast_refuted). _partial: correct on cftime axes, and exactly what happens on numpy ones.
* **C145** A stratified water column has a stability angle.  Refuted: derived.py:755-757 divides beta*dS/dz by alpha*dT/dz, so where temperature does not contribute (an isothermal layer, or alpha = 0 at the temperature of maximum density) the angle is missing, though it should be -45 or 45 degrees there: C145_isothermal_refuted for every column of uniform temperature, C145_stratified_refuted for one with N2 > 0. _partial: the angle exists exactly where alpha and dT/dz are both non-zero.
* **C151** A homogeneous column has zero buoyancy frequency.  calc_n2 returns rounding noise of either sign for homogeneous water on unequal levels, which adjust_negative then treats as instability. C151_homogeneous_partial gives the exact value 0 and the bound on the noise; missing is that the computed value is zero, which is false.
* **C154** Irrotational flow has no computed vorticity.  C154_irrotational_partial bounds the spurious vorticity and gives the exact case; missing is that it is zero, which is false in binary64.
* **C156** Attributes refer to variables of the same dataset.  The _partial theorems say exactly which references dangle; missing is that none does, which is false.
* **C157** Volume, mass and mean density in binary64.  The bound on volume, mass and mean density is proved. The mean density computed in binary64 may leave the range of the densities: refuted by one cell of density 1020.7 and volume 74388, whose mean is 1.1e-13 larger. The partial theorem bounds how far it leaves the range.
* **C160** The computed Coriolis parameter increases strictly with latitude.  Refuted for every accurate sine: among twenty neighbouring latitudes next to the pole two have parameters that do not increase. The partial theorem covers latitudes within 89 degrees that are at least 1e-10 degrees apart.
* **C162** annual_cycle and monthly_average keep attributes.  Refuted: xarray drops attributes in reductions by default and, unlike annual_average, neither function copies them back; with the option keep_attrs variables keep theirs, but a Dataset still loses its own attributes because it is rebuilt from an empty one (util.py:153, 478), and the time axis has none. C162_partial states exactly what is kept.
* **C165** Side of 45 degrees of the computed stability angle.  Refuted for every such inverse tangent: a contribution 2^-60 of the other is lost in 1+r and 1-r, and the angle is exactly 45 degrees. C165_partial: the sides are never exchanged, the angle is 45 exactly when salinity does not vary, and the distinction is strict when neither contribution is less than 1e-14 of the other.
* **C171** Every gauge of a bundled list has its series.  Refuted for the default list: us_tide_gauges.csv has two gauges called MAYPORT (PSMSL 2326 and 316), so 117 gauges give 116 variables on every grid and the one at 30.40 N is lost (C171_us_refuted). _partial: the global list gives all 18 in order (C171_global_partial), and every other US gauge has its series (C171_us_partial). C171_last says for any list with repeated names which site is kept: the last one of that name that a wet cell reaches. The positions are the decimal numbers of the files; other columns are not modelled.
* **C178** calc_linear_trend refuses anything but a DataArray with AssertionError.  False: trend.py:244 reads arr.name before the check of line 247, so an argument without an attribute `name` (most Datasets, numpy arrays, None) raises AttributeError. C178_partial says which error every argument raises.
<!-- findings: end -->

## Mutation tests

`tools/mutate.py` edits a definition of the model in a scratch copy, rebuilds everything above
it and reports which theorems no longer follow (a broken proof is admitted in the copy, and
`Print Assumptions` then shows which theorems rest on it).  `seeded/LOG.jsonl` has one line per
attempt.  Some edits repair a defect of the code; there the `_refuted` theorems have to fail.
