{
 "claims": [
  {
   "property": "C01",
   "status": "proved",
   "theorems": [
    "C01_wright_density_formula",
    "C01_drho_dtemp_is_derivative"
   ],
   "note": ""
  },
  {
   "property": "C02",
   "status": "proved",
   "theorems": [
    "C02_drho_dsal_is_derivative"
   ],
   "note": ""
  },
  {
   "property": "C03",
   "status": "proved",
   "theorems": [
    "C03_wright_alpha_beta",
    "C03_linear_alpha_beta",
    "C03_linear_integer_input_refuted"
   ],
   "note": "For integer temperature arrays the Linear alpha/beta are 0 (np.ones_like keeps the integer dtype); C03_linear_integer_input_refuted records it. Proved for float inputs, which is what the property states."
  },
  {
   "property": "C04",
   "status": "proved",
   "theorems": [
    "C04_density_range"
   ],
   "note": ""
  },
  {
   "property": "C05",
   "status": "proved",
   "theorems": [
    "C05_density_monotone"
   ],
   "note": ""
  },
  {
   "property": "C06",
   "status": "proved",
   "theorems": [
    "C06_names"
   ],
   "note": ""
  },
  {
   "property": "C07",
   "status": "proved",
   "theorems": [
    "C07_rho_alpha_beta_pointwise",
    "C07_rho_alpha_beta_total",
    "C07_pdens"
   ],
   "note": "Pressure is ignored by the Linear equation, so a missing pressure propagates only with Wright; extra pressure dimensions are rejected with Linear."
  },
  {
   "property": "C08",
   "status": "proved",
   "theorems": [
    "C08_spice_numpy",
    "C08_calc_spice"
   ],
   "note": ""
  },
  {
   "property": "C09",
   "status": "proved",
   "theorems": [
    "C09_coriolis"
   ],
   "note": ""
  },
  {
   "property": "C10",
   "status": "proved",
   "theorems": [
    "C10_hydrostatic",
    "C10_wright_ocean"
   ],
   "note": ""
  },
  {
   "property": "C11",
   "status": "proved",
   "theorems": [
    "C11_thickness_bounds"
   ],
   "note": ""
  },
  {
   "property": "C12",
   "status": "proved",
   "theorems": [
    "C12_default_top_is_overlap"
   ],
   "note": ""
  },
  {
   "property": "C13",
   "status": "proved",
   "theorems": [
    "C13_column_total"
   ],
   "note": ""
  },
  {
   "property": "C14",
   "status": "proved",
   "theorems": [
    "C14_rejects_negative",
    "C14_rejects_mismatch",
    "C14_accepts"
   ],
   "note": ""
  },
  {
   "property": "C15",
   "status": "proved",
   "theorems": [
    "C15_wet_fraction"
   ],
   "note": ""
  },
  {
   "property": "C16",
   "status": "partial",
   "theorems": [
    "C16_range_overlap_partial",
    "C16_range_overlap_refuted"
   ],
   "note": "False of the code when the top and the floor of the range both fall strictly inside one cell (calc_dz returns min(zb-top, floor-zt)); _refuted gives a witness, _partial proves equality exactly outside that case and that the result is never too small."
  },
  {
   "property": "C17",
   "status": "proved",
   "theorems": [
    "C17_adjust_negative_n2"
   ],
   "note": ""
  },
  {
   "property": "C18",
   "status": "partial",
   "theorems": [
    "C18_time_dependent_refuted",
    "C18_time_dependent_partial"
   ],
   "note": "False of the code: adjusted[0] addresses the first dimension (time), not the surface. _partial is the exact behaviour."
  },
  {
   "property": "C19",
   "status": "proved",
   "theorems": [
    "C19_derivative_exact_on_quadratics",
    "C19_derivative_linear"
   ],
   "note": ""
  },
  {
   "property": "C20",
   "status": "proved",
   "theorems": [
    "C20_n2_linear_eos"
   ],
   "note": ""
  },
  {
   "property": "C21",
   "status": "partial",
   "theorems": [
    "C21_zcoord_refuted",
    "C21_zcoord_partial"
   ],
   "note": "False of the code: calc_n2(adjust_negative=True) and calc_wave_speed do not forward zcoord; _partial shows renaming commutes with calc_n2 without adjustment."
  },
  {
   "property": "C22",
   "status": "proved",
   "theorems": [
    "C22_wave_speed"
   ],
   "note": ""
  },
  {
   "property": "C23",
   "status": "partial",
   "theorems": [
    "C23_time_dependent_refuted",
    "C23_time_dependent_partial"
   ],
   "note": "False of the code: n2[0] is the first time level, so the vertical dimension is broadcast back into the result."
  },
  {
   "property": "C24",
   "status": "proved",
   "theorems": [
    "C24_rossby_radius"
   ],
   "note": ""
  },
  {
   "property": "C25",
   "status": "proved",
   "theorems": [
    "C25_stability_angle"
   ],
   "note": ""
  },
  {
   "property": "C26",
   "status": "partial",
   "theorems": [
    "C26_stable_column_refuted",
    "C26_stable_column_partial"
   ],
   "note": "False of the code (arctan instead of arctan2): _refuted gives a witness, _partial is the exact true characterisation."
  },
  {
   "property": "C27",
   "status": "proved",
   "theorems": [
    "C27_volo",
    "C27_masso",
    "C27_rhoga_between"
   ],
   "note": ""
  },
  {
   "property": "C28",
   "status": "proved",
   "theorems": [
    "C28_circulation",
    "C28_potential_flow",
    "C28_missing_variable",
    "C28_shape"
   ],
   "note": ""
  },
  {
   "property": "C29",
   "status": "proved",
   "theorems": [
    "C29_pv_units",
    "C29_pv_centers",
    "C29_pv_corners",
    "C29_shape"
   ],
   "note": ""
  },
  {
   "property": "C30",
   "status": "proved",
   "theorems": [
    "C30_reference_values",
    "C30_time_index"
   ],
   "note": ""
  },
  {
   "property": "C31",
   "status": "partial",
   "theorems": [
    "C31_refuted",
    "C31_partial"
   ],
   "note": "False of the code: squeeze() removes size-one spatial dimensions and calc_volo then asserts; _partial proves success for every regular dataset without them."
  },
  {
   "property": "C32",
   "status": "proved",
   "theorems": [
    "C32_local_formula",
    "C32_defined"
   ],
   "note": ""
  },
  {
   "property": "C33",
   "status": "proved",
   "theorems": [
    "C33_local",
    "C33_global"
   ],
   "note": ""
  },
  {
   "property": "C34",
   "status": "proved",
   "theorems": [
    "C34_land_mask"
   ],
   "note": ""
  },
  {
   "property": "C35",
   "status": "proved",
   "theorems": [
    "C35_linear_additive"
   ],
   "note": ""
  },
  {
   "property": "C36",
   "status": "proved",
   "theorems": [
    "C36_warming_linear",
    "C36_warming_wright",
    "C36_freshening_linear",
    "C36_freshening_wright"
   ],
   "note": "Wright warming is proved above the line T = 4.4 - 0.22 S (C73); below it the density anomaly of cold fresh water has the other sign."
  },
  {
   "property": "C37",
   "status": "proved",
   "theorems": [
    "C37_global_formula"
   ],
   "note": ""
  },
  {
   "property": "C38",
   "status": "proved",
   "theorems": [
    "C38_unknown_variant",
    "C38_independent"
   ],
   "note": ""
  },
  {
   "property": "C39",
   "status": "partial",
   "theorems": [
    "C39_refuted"
   ],
   "note": "False of the code: every string other than 'global' behaves as 'local' (proved for all arguments)."
  },
  {
   "property": "C40",
   "status": "proved",
   "theorems": [
    "C40_reuse",
    "C40_default_reference"
   ],
   "note": ""
  },
  {
   "property": "C41",
   "status": "proved",
   "theorems": [
    "C41_open_interval"
   ],
   "note": ""
  },
  {
   "property": "C42",
   "status": "proved",
   "theorems": [
    "C42_decision",
    "C42_reports"
   ],
   "note": ""
  },
  {
   "property": "C43",
   "status": "partial",
   "theorems": [
    "C43_refuted",
    "C43_partial"
   ],
   "note": "False of the code: x.lower is not called, so the time coordinate is never found; _partial: four-dimensional reference fields are rejected by the rank check."
  },
  {
   "property": "C44",
   "status": "partial",
   "theorems": [
    "C44_refuted",
    "C44_partial"
   ],
   "note": "False of the code: strict=False silences only the area check; _partial is the exact relation between the two modes."
  },
  {
   "property": "C45",
   "status": "proved",
   "theorems": [
    "C45_default_coords",
    "C45_other_keys"
   ],
   "note": ""
  },
  {
   "property": "C46",
   "status": "proved",
   "theorems": [
    "C46_alphabetize"
   ],
   "note": ""
  },
  {
   "property": "C47",
   "status": "proved",
   "theorems": [
    "C47_reset_dataset",
    "C47_reset_array"
   ],
   "note": ""
  },
  {
   "property": "C48",
   "status": "proved",
   "theorems": [
    "C48_band",
    "C48_sphere",
    "C48_too_small"
   ],
   "note": ""
  },
  {
   "property": "C49",
   "status": "proved",
   "theorems": [
    "C49_tile",
    "C49_reject"
   ],
   "note": ""
  },
  {
   "property": "C50",
   "status": "proved",
   "theorems": [
    "C50_nearest",
    "C50_total",
    "C50_contract_met"
   ],
   "note": ""
  },
  {
   "property": "C51",
   "status": "proved",
   "theorems": [
    "C51_central_angle",
    "C51_metric"
   ],
   "note": ""
  },
  {
   "property": "C52",
   "status": "partial",
   "theorems": [
    "C52_refuted",
    "C52_partial"
   ],
   "note": "False of the code when the mask removes a row: mod_index counts rows of the masked frame. _partial: true when no row is masked out."
  },
  {
   "property": "C53",
   "status": "proved",
   "theorems": [
    "C53_nearest_series",
    "C53_total",
    "C53_one_dimensional"
   ],
   "note": ""
  },
  {
   "property": "C54",
   "status": "partial",
   "theorems": [
    "C54_refuted",
    "C54_partial",
    "C54_bad_arguments"
   ],
   "note": "False of the code: the check compares xcoord.dims with itself. _partial states what happens instead."
  },
  {
   "property": "C55",
   "status": "proved",
   "theorems": [
    "C55_weighted_mean",
    "C55_bounds",
    "C55_time_stamps",
    "C55_dataset"
   ],
   "note": ""
  },
  {
   "property": "C56",
   "status": "partial",
   "theorems": [
    "C56_refuted",
    "C56_count_partial",
    "C56_monthly_partial"
   ],
   "note": "False of the code: only the count 12 is checked, so twelve samples of one month pass. _partial: exact error condition, and the claim for series without two samples in one month."
  },
  {
   "property": "C57",
   "status": "proved",
   "theorems": [
    "C57_generated",
    "C57_daily_mean"
   ],
   "note": ""
  },
  {
   "property": "C58",
   "status": "proved",
   "theorems": [
    "C58_mean",
    "C58_min_max",
    "C58_std",
    "C58_errors",
    "C58_labels"
   ],
   "note": ""
  },
  {
   "property": "C59",
   "status": "proved",
   "theorems": [
    "C59_ratio",
    "C59_consistent",
    "C59_unrecognised",
    "C59_zero_length"
   ],
   "note": ""
  },
  {
   "property": "C60",
   "status": "proved",
   "theorems": [
    "C60_least_squares",
    "C60_linear_data",
    "C60_all_missing",
    "C60_succeeds",
    "C60_metadata"
   ],
   "note": ""
  },
  {
   "property": "C61",
   "status": "proved",
   "theorems": [
    "C61_total",
    "C61_residuals",
    "C61_smallest",
    "C61_idempotent",
    "C61_line_invariant",
    "C61_rejected"
   ],
   "note": ""
  },
  {
   "property": "C62",
   "status": "partial",
   "theorems": [
    "C62_mean_shift_partial",
    "C62_mean_not_kept_refuted"
   ],
   "note": "Refuted as stated: mode='correct' subtracts m*x with x in ns since 1970, so the mean moves by m*mean(x) (C62_mean_not_kept_refuted). Proved: the exact shift, that no trend remains, and the exact condition under which the mean is kept."
  },
  {
   "property": "C63",
   "status": "proved",
   "theorems": [
    "C63_round_trip",
    "C63_is_fitted_line"
   ],
   "note": ""
  },
  {
   "property": "C64",
   "status": "partial",
   "theorems": [
    "C64_units_rejected_refuted",
    "C64_exact_partial"
   ],
   "note": "Refuted as stated: any units containing '-1' raise ValueError on a date axis (C64_units_rejected_refuted). Proved: the exact condition for success."
  },
  {
   "property": "C65",
   "status": "proved",
   "theorems": [
    "C65_independent"
   ],
   "note": ""
  },
  {
   "property": "C66",
   "status": "proved",
   "theorems": [
    "C66_least_squares",
    "C66_exact",
    "C66_idempotent",
    "C66_cycle_model"
   ],
   "note": ""
  },
  {
   "property": "C67",
   "status": "partial",
   "theorems": [
    "C67_dates_refuted",
    "C67_dates_partial",
    "C67_no_leap_partial",
    "C67_samples_refuted",
    "C67_samples_partial"
   ],
   "note": "Refuted: the 366th day of a leap year is counted past the start of the next year (seasonal_model), and deseason's sample number over year length falls at the start of a leap year. The partial theorems give the exact conditions."
  },
  {
   "property": "C68",
   "status": "proved",
   "theorems": [
    "C68_each_series",
    "C68_chunks"
   ],
   "note": ""
  },
  {
   "property": "C69",
   "status": "partial",
   "theorems": [
    "C69_outputs_partial",
    "C69_unknown_format",
    "C69_coeff_refuted"
   ],
   "note": "Refuted for output_format='coeff' on arrays whose only dimension is time (TypeError); everything else holds."
  },
  {
   "property": "C70",
   "status": "partial",
   "theorems": [
    "C70_changes_partial",
    "C70_refuted"
   ],
   "note": "Refuted: the attributes of the input are changed in place; the partial theorem lists every change."
  },
  {
   "property": "C71",
   "status": "proved",
   "theorems": [
    "C71_daily",
    "C71_stub_monthly",
    "C71_stub_daily",
    "C71_other_frequency"
   ],
   "note": ""
  },
  {
   "property": "C72",
   "status": "proved",
   "theorems": [
    "C72_area"
   ],
   "note": ""
  },
  {
   "property": "C73",
   "status": "proved",
   "theorems": [
    "C73_density_decreases",
    "C73_expansion_positive"
   ],
   "note": ""
  },
  {
   "property": "C74",
   "status": "partial",
   "theorems": [
    "C74_refuted",
    "C74_partial",
    "C74_no_threshold"
   ],
   "note": "False of the code exactly at the threshold (warn uses >=, keep uses <=). _partial: true elsewhere; C74_no_threshold: warnings with threshold None raise TypeError."
  },
  {
   "property": "C75",
   "status": "proved",
   "theorems": [
    "C75_triangle"
   ],
   "note": ""
  },
  {
   "property": "C76",
   "status": "partial",
   "theorems": [
    "C76_refuted",
    "C76_partial"
   ],
   "note": "False of the code: the columns 'lat' and 'lon' are read for real_coords whatever loc_coords says. _partial: works when those columns also exist."
  },
  {
   "property": "C77",
   "status": "partial",
   "theorems": [
    "C77_partial",
    "C77_refuted"
   ],
   "note": "False of the code: repeated site names overwrite each other. _partial: true for distinct names."
  },
  {
   "property": "C78",
   "status": "partial",
   "theorems": [
    "C78_refuted",
    "C78_partial"
   ],
   "note": "False of the code: annual=True always averages over 'time'. _partial: exact condition for success."
  },
  {
   "property": "C79",
   "status": "partial",
   "theorems": [
    "C79_refuted",
    "C79_partial"
   ],
   "note": "False of the code: a Dataset variable without the time dimension gains one. _partial: its values are unchanged."
  },
  {
   "property": "C80",
   "status": "proved",
   "theorems": [
    "C80_generated_accepted",
    "C80_generated_steric"
   ],
   "note": ""
  },
  {
   "property": "C81",
   "status": "partial",
   "theorems": [
    "C81_from_first_sample_partial",
    "C81_axis_name_refuted",
    "C81_other_axis_partial"
   ],
   "note": "Refuted as stated: the code subtracts along the literal 'time' (C81_axis_name_refuted). Proved: correct on an axis called time; ValueError on any other when the slope has no time dimension."
  },
  {
   "property": "C82",
   "status": "partial",
   "theorems": [
    "C82_seasonal_model_refuted",
    "C82_deseason_refuted"
   ],
   "note": "Refuted: 'time' is hard-coded in both functions."
  },
  {
   "property": "C83",
   "status": "partial",
   "theorems": [
    "C83_ignored_refuted",
    "C83_refuted",
    "C83_array_partial"
   ],
   "note": "Refuted: a scalar daysinyear is ignored, 365 is always used; arrays are honoured."
  },
  {
   "property": "C84",
   "status": "partial",
   "theorems": [
    "C84_daily_partial",
    "C84_360_day_refuted",
    "C84_leap_refuted",
    "C84_monthly_refuted",
    "C84_model_daily_partial",
    "C84_cycle_360_refuted"
   ],
   "note": "Refuted for 360_day and leap-year calendars and for samples that are not daily; holds for daily noleap and all_leap data."
  },
  {
   "property": "C85",
   "status": "proved",
   "theorems": [
    "C85_n2_wright"
   ],
   "note": ""
  },
  {
   "property": "C86",
   "status": "proved",
   "theorems": [
    "C86_edges",
    "C86_total"
   ],
   "note": ""
  },
  {
   "property": "C87",
   "status": "partial",
   "theorems": [
    "C87_next_to_end_refuted",
    "C87_linear_profiles_partial"
   ],
   "note": "Refuted: regridding masks the end interfaces and the centred difference loses their neighbours too; exact for linear profiles at the remaining interfaces."
  },
  {
   "property": "C88",
   "status": "partial",
   "theorems": [
    "C88_adjust_edges_refuted",
    "C88_adjust_column_partial"
   ],
   "note": "Refuted: calc_n2 always adjusts along 'z_l', which regridding has removed; holds for single columns whose interfaces are named 'z_l'."
  },
  {
   "property": "C89",
   "status": "proved",
   "theorems": [
    "C89_density64",
    "C89_order64"
   ],
   "note": ""
  },
  {
   "property": "C90",
   "status": "proved",
   "theorems": [
    "C90_derivatives64",
    "C90_linear64"
   ],
   "note": ""
  },
  {
   "property": "C91",
   "status": "proved",
   "theorems": [
    "C91_dz64",
    "C91_fraction64"
   ],
   "note": ""
  },
  {
   "property": "C92",
   "status": "proved",
   "theorems": [
    "C92_column64"
   ],
   "note": "Sum in any order and association; numpy's pairwise sum is one of them. Thickness and pressure are computed from the interfaces as in the code."
  },
  {
   "property": "C93",
   "status": "proved",
   "theorems": [
    "C93_unchanged64"
   ],
   "note": ""
  },
  {
   "property": "C94",
   "status": "proved",
   "theorems": [
    "C94_missing64"
   ],
   "note": ""
  },
  {
   "property": "C95",
   "status": "proved",
   "theorems": [
    "C95_density32",
    "C95_derivatives32",
    "C95_linear32"
   ],
   "note": ""
  },
  {
   "property": "C96",
   "status": "partial",
   "theorems": [
    "C96_warming32_refuted",
    "C96_order32_partial"
   ],
   "note": "Refuted: at 10 degC, 35 PSU and 5 m, warming by 1/4096 K raises the single-precision density by more than 1e-5 kg m-3 (the terms depending on temperature and salinity alone are rounded to 24 bits). _partial: differences of 7.7e-4 kg m-3 keep their sign; in double precision 7e-12 suffices (C89_order64)."
  },
  {
   "property": "C97",
   "status": "proved",
   "theorems": [
    "C97_varname_map",
    "C97_rejected"
   ],
   "note": ""
  },
  {
   "property": "C98",
   "status": "proved",
   "theorems": [
    "C98_global64"
   ],
   "note": ""
  },
  {
   "property": "C99",
   "status": "proved",
   "theorems": [
    "C99_unchanged_global64"
   ],
   "note": ""
  },
  {
   "property": "C100",
   "status": "proved",
   "theorems": [
    "C100_generated_columns",
    "C100_generated_dz"
   ],
   "note": ""
  },
  {
   "property": "C101",
   "status": "proved",
   "theorems": [
    "C101_linear_reference"
   ],
   "note": ""
  },
  {
   "property": "C102",
   "status": "proved",
   "theorems": [
    "C102_longitudes"
   ],
   "note": ""
  },
  {
   "property": "C103",
   "status": "proved",
   "theorems": [
    "C103_linear",
    "C103_origin",
    "C103_order"
   ],
   "note": ""
  },
  {
   "property": "C104",
   "status": "proved",
   "theorems": [
    "C104_local",
    "C104_global"
   ],
   "note": ""
  },
  {
   "property": "C105",
   "status": "proved",
   "theorems": [
    "C105_increasing",
    "C105_compensation",
    "C105_range_needed"
   ],
   "note": ""
  },
  {
   "property": "C106",
   "status": "proved",
   "theorems": [
    "C106_on_grid",
    "C106_generated_positions",
    "C106_generated_separate",
    "C106_generated"
   ],
   "note": ""
  },
  {
   "property": "C107",
   "status": "proved",
   "theorems": [
    "C107_generated_vorticity",
    "C107_generated_area"
   ],
   "note": ""
  },
  {
   "property": "C108",
   "status": "proved",
   "theorems": [
    "C108_cycle",
    "C108_monthly",
    "C108_same_outcome",
    "C108_nothing_to_average"
   ],
   "note": ""
  },
  {
   "property": "C109",
   "status": "proved",
   "theorems": [
    "C109_annual",
    "C109_cycle",
    "C109_monthly",
    "C109_generated",
    "C109_generated_daily"
   ],
   "note": ""
  },
  {
   "property": "C110",
   "status": "partial",
   "theorems": [
    "C110_dtype_partial",
    "C110_annual_partial",
    "C110_annual_refuted"
   ],
   "note": "Refuted for annual=True: the averaged variables are computed anew and have no encoding, so they are stored as float64; without annual it holds (C110_dtype_partial)."
  },
  {
   "property": "C111",
   "status": "proved",
   "theorems": [
    "C111_dataset",
    "C111_dataarray"
   ],
   "note": ""
  },
  {
   "property": "C112",
   "status": "proved",
   "theorems": [
    "C112_same_labels",
    "C112_fixed_field",
    "C112_common_cells"
   ],
   "note": ""
  },
  {
   "property": "C113",
   "status": "partial",
   "theorems": [
    "C113_disjoint_partial",
    "C113_refuted",
    "C113_same_partial"
   ],
   "note": "Refuted: rho * volcello is aligned by an inner join, so only common cells enter the mass; with none in common the mass is 0 and the height is +inf without any error (C113_disjoint_partial). With equal labels it is the positional result."
  },
  {
   "property": "C114",
   "status": "proved",
   "theorems": [
    "C114_rel_vort",
    "C114_masso",
    "C114_volo",
    "C114_rhoga",
    "C114_rossby_rd",
    "C114_pv",
    "C114_wave_speed",
    "C114_dz"
   ],
   "note": "The wave speed of a column whose surface N2 is not positive uses the constant 1e-8 s-2 and so is tied to SI units; such columns are excluded."
  },
  {
   "property": "C115",
   "status": "partial",
   "theorems": [
    "C115_cm_refuted",
    "C115_cm_partial"
   ],
   "note": "Refuted: the label reads '10^14 cm-1 s-1' but the numbers count 10^-14 cm-1 s-1 (C115_cm_partial), so label and number are 28 orders of magnitude apart."
  },
  {
   "property": "C116",
   "status": "partial",
   "theorems": [
    "C116_described_refuted",
    "C116_described_partial"
   ],
   "note": "Refuted for calc_rossby_rd and calc_wave_speed, which set the key 'long name' instead of 'long_name'; proved for the others."
  },
  {
   "property": "C117",
   "status": "proved",
   "theorems": [
    "C117_steric",
    "C117_time"
   ],
   "note": "All variables of the input well-formed; thetao and so have the selected dimension; the areacello check is either off or not affected by the selection."
  },
  {
   "property": "C118",
   "status": "proved",
   "theorems": [
    "C118_rho",
    "C118_alpha_beta",
    "C118_pdens",
    "C118_inverse_barometer",
    "C118_n2",
    "C118_stability_angle",
    "C118_adjust_negative",
    "C118_wave_speed",
    "C118_rossby_rd",
    "C118_masso",
    "C118_rel_vort",
    "C118_pv",
    "C118_dz"
   ],
   "note": "Error preservation is stated for all but calc_dz. The column functions (adjust_negative_n2, calc_wave_speed) with the vertical dimension first; otherwise see C18 and C23. The pressure may have the dimension only if temperature or salinity has it (C07)."
  },
  {
   "property": "C119",
   "status": "proved",
   "theorems": [
    "C119_averages",
    "C119_trend",
    "C119_seasonal"
   ],
   "note": ""
  },
  {
   "property": "C120",
   "status": "proved",
   "theorems": [
    "C120_whole_years",
    "C120_order"
   ],
   "note": ""
  },
  {
   "property": "C121",
   "status": "partial",
   "theorems": [
    "C121_refuted",
    "C121_partial",
    "C121_pv_partial",
    "C121_dimensions",
    "C121_pv_dimensions"
   ],
   "note": "Refuted as stated: a coord_dict that leaves out one of the four keys raises KeyError (C121_refuted). What holds: with all four keys present the names are used and further keys are ignored; without one of them KeyError; None is the full default dictionary; the names must be dimensions of the data; calc_pv reads coord_dict only if interp_n2 is True. That xgcm refuses an unknown dimension with ValueError is trusted."
  },
  {
   "property": "C122",
   "status": "proved",
   "theorems": [
    "C122_intervals"
   ],
   "note": "Real arithmetic; the numbers that np.arange makes here are exact in binary64."
  },
  {
   "property": "C123",
   "status": "proved",
   "theorems": [
    "C123_global_local"
   ],
   "note": ""
  },
  {
   "property": "C124",
   "status": "proved",
   "theorems": [
    "C124_annual_formula"
   ],
   "note": ""
  },
  {
   "property": "C125",
   "status": "proved",
   "theorems": [
    "C125_linear"
   ],
   "note": ""
  },
  {
   "property": "C126",
   "status": "proved",
   "theorems": [
    "C126_annual",
    "C126_monthly",
    "C126_cycle",
    "C126_labels",
    "C126_outside"
   ],
   "note": "Four-digit ISO 8601 years are what xarray's reader accepts (trusted); recent xarray releases also read five digits. The year 0 is left out: some calendars do not have it."
  },
  {
   "property": "C127",
   "status": "partial",
   "theorems": [
    "C127_refuted",
    "C127_start_year_partial"
   ],
   "note": "Refuted for start years before 1000: generate_time_stub writes the year without zfill(4), so \"850-01-01\" is not a date and ValueError is raised. What holds: exactly the years 1000 to 9999 are accepted and then the axis starts there. That xarray refuses other strings is trusted."
  },
  {
   "property": "C128",
   "status": "partial",
   "theorems": [
    "C128_square_partial",
    "C128_labels_partial",
    "C128_refuted"
   ],
   "note": "Refuted: pd.concat matches tuples of labels by position. On a square grid with equal labels along both dimensions a mask listed as (x, y) is silently applied transposed, so that a gauge on the only wet cell gets the series of a land cell; with different labels ValueError is raised. With the dimensions in the order of the coordinates see C53."
  },
  {
   "property": "C129",
   "status": "proved",
   "theorems": [
    "C129_values",
    "C129_provenance"
   ],
   "note": "The row number mod_index is C52. The numeric coordinates of the csv file are those of the located site."
  },
  {
   "property": "C130",
   "status": "proved",
   "theorems": [
    "C130_annual",
    "C130_cycle"
   ],
   "note": "Relates the binary64 computation to the exact model of annual_average and annual_cycle (whose values are specified by C55 and C58). The order in which xarray.dot and the mean add is left open. monthly_average uses the same mean; its statement in binary64 is not spelled out."
  },
  {
   "property": "C131",
   "status": "partial",
   "theorems": [
    "C131_refuted",
    "C131_bits_partial",
    "C131_single_partial"
   ],
   "note": "Refuted: with the NoLeap calendar twelve values 0.1 added in order give 0.10000000000000002, so an annual mean can also leave the range of the monthly values. What holds: values with at most 44 significant bits, in particular all single-precision data, come out unchanged in every order, also when some months are missing; in general C130 bounds the difference."
  },
  {
   "property": "C132",
   "status": "proved",
   "theorems": [
    "C132_factor64",
    "C132_unrecognised64",
    "C132_defaults64"
   ],
   "note": "The exact model is C59. Lengths that are NaN, infinite or outside the range are not covered."
  },
  {
   "property": "C133",
   "status": "partial",
   "theorems": [
    "C133_refuted",
    "C133_fixed_partial",
    "C133_default_partial"
   ],
   "note": "Refuted: time_conversion_factor multiplies by the rounded reciprocal 1.0 / v instead of dividing, so with the default lengths a minute has 60.00000000000001 s, and with days_per_year=365.2425 the factor from yr to yr is 0.9999999999999999. What holds: units of fixed length convert to themselves by exactly one and to ns by exactly their length, and with the default lengths every unit converts to itself by exactly one."
  },
  {
   "property": "C134",
   "status": "partial",
   "theorems": [
    "C134_used_partial",
    "C134_consistent_partial",
    "C134_by_name_partial",
    "C134_nominal_partial",
    "C134_refuted"
   ],
   "note": "Refuted: to_dataframe puts attached coordinates before the array itself and util.py:330 keeps the first of several columns with one name, so an array computed from ds.geolon that still carries the original geolon as attached coordinate is ignored. C134_used_partial says exactly which values are used; they are the passed ones when the attached coordinates agree (C134_consistent_partial), in particular for coordinates taken by name (C134_by_name_partial). Attached coordinates called mask are not modelled."
  },
  {
   "property": "C135",
   "status": "proved",
   "theorems": [
    "C135_linear",
    "C135_monotone",
    "C135_extremes"
   ],
   "note": ""
  },
  {
   "property": "C136",
   "status": "proved",
   "theorems": [
    "C136_spread"
   ],
   "note": ""
  },
  {
   "property": "C137",
   "status": "proved",
   "theorems": [
    "C137_model",
    "C137_deseason",
    "C137_coefficients",
    "C137_residuals"
   ],
   "note": ""
  },
  {
   "property": "C138",
   "status": "partial",
   "theorems": [
    "C138_column32_partial",
    "C138_unchanged32_partial",
    "C138_refuted"
   ],
   "note": "Refuted: in 6000 m of water at 1.78 degC and 34 PSU, warmed by 1/2048 K, the height rises by more than 0.4 mm but the computed height falls by more than 0.1 mm, because numpy evaluates the terms depending on temperature and salinity alone in float32 and their errors are the same at every level. _partial: the error is at most 0.78 micrometres per metre of water (4.7 mm in 6000 m), and unchanged data give exactly zero."
  },
  {
   "property": "C139",
   "status": "proved",
   "theorems": [
    "C139_derivatives",
    "C139_coefficients",
    "C139_differences"
   ],
   "note": "Bounds by Bernstein coefficients over the box and the mean value theorem; the true extremes are -0.490, 0.112, 0.671, 0.819 and 0.0045."
  },
  {
   "property": "C140",
   "status": "proved",
   "theorems": [
    "C140_bound",
    "C140_freshening"
   ],
   "note": "For columns whose contributing levels are in the ocean range; a level contributes when it is wet and its temperatures and salinities are present."
  },
  {
   "property": "C141",
   "status": "proved",
   "theorems": [
    "C141_nearly_additive"
   ],
   "note": "For columns whose contributing levels are in the ocean range; with the linear equation the heights add up exactly (C35)."
  },
  {
   "property": "C142",
   "status": "proved",
   "theorems": [
    "C142_bound",
    "C142_freshening",
    "C142_nearly_additive"
   ],
   "note": "Exact arithmetic, Wright equation. The reference state is built from the data at any time level and then reused, as steric does when it builds the reference itself. Every wet cell must hold temperature and salinity within the ocean range at each time and at the reference time. Temperature enters by at most 0.5 kg/m3 per degree (0.12 below the temperature of maximum density has the other sign), so only salinity fixes the sign of the change."
  },
  {
   "property": "C143",
   "status": "partial",
   "theorems": [
    "C143_cftime_partial",
    "C143_numpy_partial",
    "C143_refuted",
    "C143_broadcast_partial",
    "C143_broadcast_refuted"
   ],
   "note": "Refuted: trend.py:59 and 269 recognise only CFTimeIndex. xarray decodes standard-calendar times to numpy datetimes, for which get_clean_interp_index also gives nanoseconds, but there time_units is ignored (even an unknown one): a rise of 1 m per year asked for per year comes back as 3.2e-17 with units 'm' (C143_refuted), and broadcasting 3 mm yr-1 over three days gives more than 1e10 m (C143_broadcast_refuted). _partial: correct on cftime axes, and exactly what happens on numpy ones."
  },
  {
   "property": "C144",
   "status": "proved",
   "theorems": [
    "C144_trend",
    "C144_seasonal"
   ],
   "note": "The attribute setter of xarray copies, so the data keep their own attributes. In detrend the printed slope and intercept inside detrend_comment are not modelled (C61_total: every other attribute is kept)."
  },
  {
   "property": "C145",
   "status": "partial",
   "theorems": [
    "C145_isothermal_refuted",
    "C145_stratified_refuted",
    "C145_partial"
   ],
   "note": "Refuted: derived.py:755-757 divides beta*dS/dz by alpha*dT/dz, so where temperature does not contribute (an isothermal layer, or alpha = 0 at the temperature of maximum density) the angle is missing, though it should be -45 or 45 degrees there: C145_isothermal_refuted for every column of uniform temperature, C145_stratified_refuted for one with N2 > 0. _partial: the angle exists exactly where alpha and dT/dz are both non-zero."
  },
  {
   "property": "C146",
   "status": "proved",
   "theorems": [
    "C146_threshold",
    "C146_finer_grid",
    "C146_moved_sites"
   ],
   "note": "The nearest-neighbour search is any function meeting the specification of BallTree with the haversine metric (see C50); ties may be broken differently in the two runs."
  },
  {
   "property": "C147",
   "status": "proved",
   "theorems": [
    "C147_scaling",
    "C147_monotone",
    "C147_layers"
   ],
   "note": ""
  },
  {
   "property": "C148",
   "status": "proved",
   "theorems": [
    "C148_wright",
    "C148_linear",
    "C148_default_gravity",
    "C148_missing"
   ],
   "note": ""
  },
  {
   "property": "C149",
   "status": "proved",
   "theorems": [
    "C149_mean",
    "C149_labels",
    "C149_errors",
    "C149_binary64"
   ],
   "note": "In binary64 k bounds the additions a sample passes through; the data are binary64."
  },
  {
   "property": "C150",
   "status": "proved",
   "theorems": [
    "C150_gradient",
    "C150_n2",
    "C150_sign"
   ],
   "note": "gradient64 and n2_64 (IeeeDerived.v) follow numpy's order of operations, including the test on the rounded steps; the exact value is that of the exact-arithmetic model of calc_n2. The data and the coordinate are float64; adjust_negative and interfaces are not part of this claim."
  },
  {
   "property": "C151",
   "status": "partial",
   "theorems": [
    "C151_homogeneous_refuted",
    "C151_homogeneous_partial"
   ],
   "note": "calc_n2 returns rounding noise of either sign for homogeneous water on unequal levels, which adjust_negative then treats as instability. C151_homogeneous_partial gives the exact value 0 and the bound on the noise; missing is that the computed value is zero, which is false."
  },
  {
   "property": "C152",
   "status": "proved",
   "theorems": [
    "C152_adjust",
    "C152_wave_speed",
    "C152_rossby"
   ],
   "note": "Square root and division are correctly rounded (IEEE 754); np.pi is the binary64 number nearest to pi (its distance from pi is proved with Machin's formula)."
  },
  {
   "property": "C153",
   "status": "proved",
   "theorems": [
    "C153_vorticity",
    "C153_uniform_flow",
    "C153_pv_centers",
    "C153_pv_corners"
   ],
   "note": "Exact counterparts: C28 and C29. The boundary value 0 of xgcm (boundary='fill') is included."
  },
  {
   "property": "C154",
   "status": "partial",
   "theorems": [
    "C154_irrotational_refuted",
    "C154_irrotational_partial"
   ],
   "note": "C154_irrotational_partial bounds the spurious vorticity and gives the exact case; missing is that it is zero, which is false in binary64."
  },
  {
   "property": "C155",
   "status": "proved",
   "theorems": [
    "C155_consistent",
    "C155_described"
   ],
   "note": "Values in TestData, attributes in TestMeta; C155_described ties the two."
  },
  {
   "property": "C156",
   "status": "partial",
   "theorems": [
    "C156_generated_refuted",
    "C156_generated_partial",
    "C156_reference_refuted",
    "C156_reference_partial",
    "C156_steric_refuted",
    "C156_steric_partial"
   ],
   "note": "The _partial theorems say exactly which references dangle; missing is that none does, which is false."
  },
  {
   "property": "C157",
   "status": "partial",
   "theorems": [
    "C157_budget",
    "C157_between_refuted",
    "C157_between_partial",
    "C157_mean"
   ],
   "note": "The bound on volume, mass and mean density is proved. The mean density computed in binary64 may leave the range of the densities: refuted by one cell of density 1020.7 and volume 74388, whose mean is 1.1e-13 larger. The partial theorem bounds how far it leaves the range."
  },
  {
   "property": "C158",
   "status": "proved",
   "theorems": [
    "C158_comment",
    "C158_units",
    "C158_angle",
    "C158_barometer"
   ],
   "note": ""
  },
  {
   "property": "C159",
   "status": "proved",
   "theorems": [
    "C159_coriolis"
   ],
   "note": "The sine of the platform is a parameter; its accuracy is a hypothesis (an instance, the correctly rounded sine, is exhibited). Only latitudes of type binary64 are modelled."
  },
  {
   "property": "C160",
   "status": "partial",
   "theorems": [
    "C160_monotone_refuted",
    "C160_monotone_partial"
   ],
   "note": "Refuted for every accurate sine: among twenty neighbouring latitudes next to the pole two have parameters that do not increase. The partial theorem covers latitudes within 89 degrees that are at least 1e-10 degrees apart."
  },
  {
   "property": "C161",
   "status": "proved",
   "theorems": [
    "C161_cell",
    "C161_relative",
    "C161_sphere"
   ],
   "note": "The sine of the platform is a parameter with a bounded error; the sum over the sphere is the exact sum of the computed areas."
  },
  {
   "property": "C162",
   "status": "partial",
   "theorems": [
    "C162_refuted",
    "C162_partial"
   ],
   "note": "Refuted: xarray drops attributes in reductions by default and, unlike annual_average, neither function copies them back; with the option keep_attrs variables keep theirs, but a Dataset still loses its own attributes because it is rebuilt from an empty one (util.py:153, 478), and the time axis has none. C162_partial states exactly what is kept."
  },
  {
   "property": "C163",
   "status": "proved",
   "theorems": [
    "C163_spice",
    "C163_sea",
    "C163_missing",
    "C163_origin"
   ],
   "note": "The power function of the platform is a parameter; its accuracy is a hypothesis (an instance, the correctly rounded power, is exhibited). Only arrays of type binary64 are modelled; numpy's ones, identity and square for the exponents 0, 1 and 2 are exact or correctly rounded."
  },
  {
   "property": "C164",
   "status": "proved",
   "theorems": [
    "C164_angle",
    "C164_column",
    "C164_missing"
   ],
   "note": "The inverse tangent of the platform is a parameter; its accuracy is a hypothesis (an instance, the correctly rounded one, is exhibited). C164_column states the bound in terms of the computed coefficients and gradients, whose own errors are the subject of C90 and C150."
  },
  {
   "property": "C165",
   "status": "partial",
   "theorems": [
    "C165_refuted",
    "C165_partial"
   ],
   "note": "Refuted for every such inverse tangent: a contribution 2^-60 of the other is lost in 1+r and 1-r, and the angle is exactly 45 degrees. C165_partial: the sides are never exchanged, the angle is 45 exactly when salinity does not vary, and the distinction is strict when neither contribution is less than 1e-14 of the other."
  },
  {
   "property": "C166",
   "status": "proved",
   "theorems": [
    "C166_broadcast",
    "C166_from_zero",
    "C166_round_trip",
    "C166_detrend",
    "C166_missing",
    "C166_unrecognised"
   ],
   "note": "The least-squares fit itself (numpy's lstsq) and the conversion of dates to nanoseconds are not modelled in binary64; slope, intercept and times are arbitrary. With subtract_time_zero the error is proportional to the times themselves, not to their difference."
  },
  {
   "property": "C167",
   "status": "proved",
   "theorems": [
    "C167_distance",
    "C167_nearest",
    "C167_found",
    "C167_threshold"
   ],
   "note": "Every grid point is compared; the bounds by which sklearn's ball tree leaves out points are not modelled in binary64. No fused multiply-add. Beyond a quarter of the circumference the arcsine loses accuracy and nothing is claimed."
  },
  {
   "property": "C168",
   "status": "proved",
   "theorems": [
    "C168_units",
    "C168_edges",
    "C168_methods"
   ],
   "note": "The table of units by standard name is the specification; psu and degC are accepted names."
  },
  {
   "property": "C169",
   "status": "proved",
   "theorems": [
    "C169_decision",
    "C169_default",
    "C169_not_finite"
   ],
   "note": "Fields in binary32 are not covered; references and tolerances are Python floats."
  },
  {
   "property": "C170",
   "status": "proved",
   "theorems": [
    "C170_assumed",
    "C170_fitted",
    "C170_detrend",
    "C170_area"
   ],
   "note": "Texts and categories of the warnings are not modelled, nor are Python's warning filters."
  },
  {
   "property": "C171",
   "status": "partial",
   "theorems": [
    "C171_last",
    "C171_global_partial",
    "C171_us_refuted",
    "C171_us_partial",
    "C171_file"
   ],
   "note": "Refuted for the default list: us_tide_gauges.csv has two gauges called MAYPORT (PSMSL 2326 and 316), so 117 gauges give 116 variables on every grid and the one at 30.40 N is lost (C171_us_refuted). _partial: the global list gives all 18 in order (C171_global_partial), and every other US gauge has its series (C171_us_partial). C171_last says for any list with repeated names which site is kept: the last one of that name that a wet cell reaches. The positions are the decimal numbers of the files; other columns are not modelled."
  },
  {
   "property": "C172",
   "status": "proved",
   "theorems": [
    "C172_near",
    "C172_exact",
    "C172_relaxed",
    "C172_binary64"
   ],
   "note": "The bounds of the ball tree are not modelled in binary64; C172_near and C172_exact hold for any search that meets the tolerance."
  },
  {
   "property": "C173",
   "status": "proved",
   "theorems": [
    "C173_near",
    "C173_exact"
   ],
   "note": "The tolerance of the binary64 search is C167/C172."
  },
  {
   "property": "C174",
   "status": "proved",
   "theorems": [
    "C174_nearly_additive",
    "C174_bound",
    "C174_freshening"
   ],
   "note": "Wright's equation of state; local heights."
  },
  {
   "property": "C175",
   "status": "proved",
   "theorems": [
    "C175_bound",
    "C175_freshening",
    "C175_nearly_additive"
   ],
   "note": "Wright's equation of state; domain='global'."
  },
  {
   "property": "C176",
   "status": "proved",
   "theorems": [
    "C176_values",
    "C176_accepted",
    "C176_wrapper",
    "C176_defaults",
    "C176_rejected",
    "C176_verbose"
   ],
   "note": "Argument values are opaque; the binding rules are Python's."
  },
  {
   "property": "C177",
   "status": "proved",
   "theorems": [
    "C177_right",
    "C177_returns",
    "C177_wrong"
   ],
   "note": "The mapping varname_map and the input dataset are taken to be of the right kind."
  },
  {
   "property": "C178",
   "status": "partial",
   "theorems": [
    "C178_refuted",
    "C178_partial"
   ],
   "note": "False: trend.py:244 reads arr.name before the check of line 247, so an argument without an attribute `name` (most Datasets, numpy arrays, None) raises AttributeError. C178_partial says which error every argument raises."
  },
  {
   "property": "C179",
   "status": "proved",
   "theorems": [
    "C179_keyword",
    "C179_order",
    "C179_default"
   ],
   "note": ""
  },
  {
   "property": "C180",
   "status": "proved",
   "theorems": [
    "C180_disabled",
    "C180_enabled"
   ],
   "note": "Warnings issued before geolocate_points raises are left out."
  }
 ]
}