{
 "s7": {
  "tightened": [
   "C66_least_squares",
   "C66_exact",
   "C84_model_daily_partial",
   "C84_cycle_360_refuted"
  ],
  "note": "C66_cycle_model survived in its first form: it took the decimal times from the model. Restated with calendar quantities only."
 },
 "a15": {
  "tightened": [
   "C97_varname_map",
   "C97_rejected"
  ],
  "note": "Nothing failed; the two theorems were added and fail on this edit."
 },
 "t8": {
  "note": "Equivalent edit: only proof scripts break, the statements remain true."
 },
 "s10": {
  "note": "Repairs a defect: the refutation must fail."
 },
 "a13": {
  "note": "Repairs a defect: the refutation must fail."
 },
 "e7": {
  "tightened": [
   "C101_linear_reference"
  ],
  "note": "Nothing failed; the theorem was added and fails on this edit."
 },
 "x7": {
  "tightened": [
   "C100_generated_columns"
  ],
  "note": "Nothing failed; the theorem was added and fails on this edit."
 },
 "x9": {
  "tightened": [
   "C100_generated_dz"
  ],
  "note": "Nothing failed; the theorem was added and fails on this edit."
 },
 "w12": {
  "note": "Repairs a defect: the refutation must fail."
 },
 "g11": {
  "note": "Repairs a defect: the refutation must fail."
 },
 "g12": {
  "note": "Repairs a defect: the refutation must fail."
 },
 "e11": {
  "note": "Repairs a defect: the refutation must fail."
 },
 "d23": {
  "note": "Repairs a defect: the refutation must fail."
 },
 "td8": {
  "tightened": [
   "C106_generated_separate"
  ],
  "note": "Nothing failed; the theorem was added and fails on this edit."
 },
 "at6": {
  "note": "Repairs a defect: the refutation must fail."
 },
 "at7": {
  "note": "Repairs a defect: the refutation must fail."
 },
 "qd3": {
  "tightened": [
   "C42_decision",
   "C42_reports",
   "C31_partial",
   "C32_defined"
  ],
  "note": "the ocean area and its two percent tolerance are now written out in the statements instead of naming the constants of the model"
 },
 "qt3": {
  "tightened": [
   "C60_least_squares",
   "C60_linear_data",
   "C63_round_trip",
   "C63_is_fitted_line"
  ],
  "note": "slope_unit now states the default month of 30.417 days and year of 365 days as numbers"
 },
 "qt4": {
  "tightened": [
   "C60_least_squares",
   "C60_linear_data",
   "C63_round_trip",
   "C63_is_fitted_line"
  ],
  "note": "slope_unit now states the default month of 30.417 days and year of 365 days as numbers"
 },
 "qg5": {
  "tightened": [
   "C121_pv_dimensions"
  ],
  "note": "new theorem: calc_pv is called with the caller's symmetric flag and the names found in any of the three arrays"
 },
 "qg9": {
  "tightened": [
   "C121_pv_dimensions"
  ],
  "note": "new theorem: calc_pv is called with the caller's symmetric flag and the names found in any of the three arrays"
 },
 "ge1": {
  "tightened": [],
  "note": "the default of a column lookup that always succeeds; no claim is broken"
 },
 "ge5": {
  "tightened": [],
  "note": "the default of a lookup that always succeeds; no claim is broken"
 },
 "qt2": {
  "tightened": [],
  "note": "differs only for a unit string that repeats the suffix -1; no claim is about such strings"
 },
 "qt10": {
  "tightened": [
   "C144_trend"
  ],
  "note": "attributes of slope and intercept were not stated in full"
 },
 "qs3": {
  "tightened": [
   "C144_seasonal"
  ],
  "note": "attributes of the seasonal model were not stated"
 },
 "dv5": {
  "tightened": [
   "C28_shape",
   "C29_shape"
  ],
  "note": "The corner counts of symmetric and non-symmetric grids were not stated; two theorems now give them for every input."
 },
 "qtd2": {
  "tightened": [
   "C155_consistent"
  ],
  "note": "C155_consistent added: the corner axes xq and yq have as many points as the centres and lie half a cell after them."
 },
 "qat1": {
  "tightened": [
   "C158_units"
  ],
  "note": "C158_units added: the units of each coefficient are one over the units of the variable it differentiates by."
 },
 "qat4": {
  "tightened": [
   "C158_comment"
  ],
  "note": "C158_comment added: the comment names the equation of state whose formula gave the values."
 },
 "ta6": {
  "tightened": [
   "C134_nominal_partial"
  ],
  "note": "C134_nominal_partial added: one-dimensional coordinates, tiled first, are used as without attached coordinates."
 },
 "f6": {
  "tightened": [],
  "note": "Harmless: every theorem on binary64 data takes data that are finite or missing, and infinities are outside the claims."
 },
 "f10": {
  "tightened": [
   "C132_defaults64"
  ],
  "note": "no theorem on the binary64 factors gave the default lengths of month and year as numbers; C132_defaults64 now does"
 },
 "aa4": {
  "tightened": [
   "C158_angle"
  ],
  "note": "no theorem related the number to the unit named in the attributes; C158_angle now does"
 },
 "aa5": {
  "tightened": [
   "C158_barometer"
  ],
  "note": "no theorem related the number to the unit named in the attributes; C158_barometer now does"
 },
 "mm1": {
  "tightened": [],
  "note": "harmless: the accepted variants are in lower case, where the two functions agree"
 },
 "ib4": {
  "tightened": [
   "C157_mean"
  ],
  "note": "C157_mean added: the composition of the three functions is bounded, not only its last step."
 },
 "tm1": {
  "tightened": [
   "C168_units"
  ],
  "note": "No theorem spoke about the values of the generated attributes; C168_units now says that the time axis names the calendar it was made with."
 },
 "tm3": {
  "tightened": [
   "C168_edges"
  ],
  "note": "C156 only asked that the edges variable exists; C168_edges now says that it has one more point and that the levels lie midway."
 },
 "tm6": {
  "tightened": [
   "C168_units"
  ],
  "note": "C168_units now ties the units to the standard name."
 },
 "tm7": {
  "tightened": [
   "C168_units"
  ],
  "note": "C168_units now ties the units to the standard name."
 }
}