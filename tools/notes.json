{
"C03": "For integer temperature arrays the Linear alpha/beta are 0 (np.ones_like keeps the integer dtype); C03_linear_integer_input_refuted records it. Proved for float inputs, which is what the property states.",
"C07": "Pressure is ignored by the Linear equation, so a missing pressure propagates only with Wright; extra pressure dimensions are rejected with Linear.",
"C26": "False of the code (arctan instead of arctan2): _refuted gives a witness, _partial is the exact true characterisation.",
"C16": "False of the code when the top and the floor of the range both fall strictly inside one cell (calc_dz returns min(zb-top, floor-zt)); _refuted gives a witness, _partial proves equality exactly outside that case and that the result is never too small.",
"C18": "False of the code: adjusted[0] addresses the first dimension (time), not the surface. _partial is the exact behaviour.",
"C21": "False of the code: calc_n2(adjust_negative=True) and calc_wave_speed do not forward zcoord; _partial shows renaming commutes with calc_n2 without adjustment.",
"C23": "False of the code: n2[0] is the first time level, so the vertical dimension is broadcast back into the result.",
"C31": "False of the code: squeeze() removes size-one spatial dimensions and calc_volo then asserts; _partial proves success for every regular dataset without them.",
"C36": "Wright warming is proved above the line T = 4.4 - 0.22 S (C73); below it the density anomaly of cold fresh water has the other sign.",
"C39": "False of the code: every string other than 'global' behaves as 'local' (proved for all arguments).",
"C43": "False of the code: x.lower is not called, so the time coordinate is never found; _partial: four-dimensional reference fields are rejected by the rank check.",
"C44": "False of the code: strict=False silences only the area check; _partial is the exact relation between the two modes.",
"C52": "False of the code when the mask removes a row: mod_index counts rows of the masked frame. _partial: true when no row is masked out.",
"C54": "False of the code: the check compares xcoord.dims with itself. _partial states what happens instead.",
"C56": "False of the code: only the count 12 is checked, so twelve samples of one month pass. _partial: exact error condition, and the claim for series without two samples in one month.",
"C74": "False of the code exactly at the threshold (warn uses >=, keep uses <=). _partial: true elsewhere; C74_no_threshold: warnings with threshold None raise TypeError.",
"C76": "False of the code: the columns 'lat' and 'lon' are read for real_coords whatever loc_coords says. _partial: works when those columns also exist.",
"C77": "False of the code: repeated site names overwrite each other. _partial: true for distinct names.",
"C78": "False of the code: annual=True always averages over 'time'. _partial: exact condition for success.",
"C79": "False of the code: a Dataset variable without the time dimension gains one. _partial: its values are unchanged.",
"C62": "Refuted as stated: mode='correct' subtracts m*x with x in ns since 1970, so the mean moves by m*mean(x) (C62_mean_not_kept_refuted). Proved: the exact shift, that no trend remains, and the exact condition under which the mean is kept.",
"C64": "Refuted as stated: any units containing '-1' raise ValueError on a date axis (C64_units_rejected_refuted). Proved: the exact condition for success.",
"C81": "Refuted as stated: the code subtracts along the literal 'time' (C81_axis_name_refuted). Proved: correct on an axis called time; ValueError on any other when the slope has no time dimension.",
"C67": "Refuted: the 366th day of a leap year is counted past the start of the next year (seasonal_model), and deseason's sample number over year length falls at the start of a leap year. The partial theorems give the exact conditions.",
"C69": "Refuted for output_format='coeff' on arrays whose only dimension is time (TypeError); everything else holds.",
"C70": "Refuted: the attributes of the input are changed in place; the partial theorem lists every change.",
"C82": "Refuted: 'time' is hard-coded in both functions.",
"C83": "Refuted: a scalar daysinyear is ignored, 365 is always used; arrays are honoured.",
"C84": "Refuted for 360_day and leap-year calendars and for samples that are not daily; holds for daily noleap and all_leap data.",
"C87": "Refuted: regridding masks the end interfaces and the centred difference loses their neighbours too; exact for linear profiles at the remaining interfaces.",
"C88": "Refuted: calc_n2 always adjusts along 'z_l', which regridding has removed; holds for single columns whose interfaces are named 'z_l'.",
"C96": "Refuted: at 10 degC, 35 PSU and 5 m, warming by 1/4096 K raises the single-precision density by more than 1e-5 kg m-3 (the terms depending on temperature and salinity alone are rounded to 24 bits). _partial: differences of 7.7e-4 kg m-3 keep their sign; in double precision 7e-12 suffices (C89_order64).",
"C92": "Sum in any order and association; numpy's pairwise sum is one of them. Thickness and pressure are computed from the interfaces as in the code.",
"C110": "Refuted for annual=True: the averaged variables are computed anew and have no encoding, so they are stored as float64; without annual it holds (C110_dtype_partial).",
"C113": "Refuted: rho * volcello is aligned by an inner join, so only common cells enter the mass; with none in common the mass is 0 and the height is +inf without any error (C113_disjoint_partial). With equal labels it is the positional result.",
"C114": "The wave speed of a column whose surface N2 is not positive uses the constant 1e-8 s-2 and so is tied to SI units; such columns are excluded.",
"C115": "Refuted: the label reads '10^14 cm-1 s-1' but the numbers count 10^-14 cm-1 s-1 (C115_cm_partial), so label and number are 28 orders of magnitude apart.",
"C116": "Refuted for calc_rossby_rd and calc_wave_speed, which set the key 'long name' instead of 'long_name'; proved for the others.",
"C117": "All variables of the input well-formed; thetao and so have the selected dimension; the areacello check is either off or not affected by the selection.",
"C118": "Error preservation is stated for all but calc_dz. The column functions (adjust_negative_n2, calc_wave_speed) with the vertical dimension first; otherwise see C18 and C23. The pressure may have the dimension only if temperature or salinity has it (C07).",
"C121": "Refuted as stated: a coord_dict that leaves out one of the four keys raises KeyError (C121_refuted). What holds: with all four keys present the names are used and further keys are ignored; without one of them KeyError; None is the full default dictionary; the names must be dimensions of the data; calc_pv reads coord_dict only if interp_n2 is True. That xgcm refuses an unknown dimension with ValueError is trusted.",
"C122": "Real arithmetic; the numbers that np.arange makes here are exact in binary64.",
"C126": "Four-digit ISO 8601 years are what xarray's reader accepts (trusted); recent xarray releases also read five digits. The year 0 is left out: some calendars do not have it.",
"C127": "Refuted for start years before 1000: generate_time_stub writes the year without zfill(4), so \"850-01-01\" is not a date and ValueError is raised. What holds: exactly the years 1000 to 9999 are accepted and then the axis starts there. That xarray refuses other strings is trusted.",
"C128": "Refuted: pd.concat matches tuples of labels by position. On a square grid with equal labels along both dimensions a mask listed as (x, y) is silently applied transposed, so that a gauge on the only wet cell gets the series of a land cell; with different labels ValueError is raised. With the dimensions in the order of the coordinates see C53.",
"C129": "The row number mod_index is C52. The numeric coordinates of the csv file are those of the located site.",
"C130": "Relates the binary64 computation to the exact model of annual_average and annual_cycle (whose values are specified by C55 and C58). The order in which xarray.dot and the mean add is left open. monthly_average uses the same mean; its statement in binary64 is not spelled out.",
"C131": "Refuted: with the NoLeap calendar twelve values 0.1 added in order give 0.10000000000000002, so an annual mean can also leave the range of the monthly values. What holds: values with at most 44 significant bits, in particular all single-precision data, come out unchanged in every order, also when some months are missing; in general C130 bounds the difference.",
"C132": "The exact model is C59. Lengths that are NaN, infinite or outside the range are not covered.",
"C133": "Refuted: time_conversion_factor multiplies by the rounded reciprocal 1.0 / v instead of dividing, so with the default lengths a minute has 60.00000000000001 s, and with days_per_year=365.2425 the factor from yr to yr is 0.9999999999999999. What holds: units of fixed length convert to themselves by exactly one and to ns by exactly their length, and with the default lengths every unit converts to itself by exactly one.",
"C134": "Refuted: to_dataframe puts attached coordinates before the array itself and util.py:330 keeps the first of several columns with one name, so an array computed from ds.geolon that still carries the original geolon as attached coordinate is ignored. C134_used_partial says exactly which values are used; they are the passed ones when the attached coordinates agree (C134_consistent_partial), in particular for coordinates taken by name (C134_by_name_partial). Attached coordinates called mask are not modelled.",
"C138": "Refuted: in 6000 m of water at 1.78 degC and 34 PSU, warmed by 1/2048 K, the height rises by more than 0.4 mm but the computed height falls by more than 0.1 mm, because numpy evaluates the terms depending on temperature and salinity alone in float32 and their errors are the same at every level. _partial: the error is at most 0.78 micrometres per metre of water (4.7 mm in 6000 m), and unchanged data give exactly zero.",
"C139": "Bounds by Bernstein coefficients over the box and the mean value theorem; the true extremes are -0.490, 0.112, 0.671, 0.819 and 0.0045.",
"C140": "For columns whose contributing levels are in the ocean range; a level contributes when it is wet and its temperatures and salinities are present.",
"C141": "For columns whose contributing levels are in the ocean range; with the linear equation the heights add up exactly (C35).",
"C142": "Exact arithmetic, Wright equation. The reference state is built from the data at any time level and then reused, as steric does when it builds the reference itself. Every wet cell must hold temperature and salinity within the ocean range at each time and at the reference time. Temperature enters by at most 0.5 kg/m3 per degree (0.12 below the temperature of maximum density has the other sign), so only salinity fixes the sign of the change.",
"C143": "Refuted: trend.py:59 and 269 recognise only CFTimeIndex. xarray decodes standard-calendar times to numpy datetimes, for which get_clean_interp_index also gives nanoseconds, but there time_units is ignored (even an unknown one): a rise of 1 m per year asked for per year comes back as 3.2e-17 with units 'm' (C143_refuted), and broadcasting 3 mm yr-1 over three days gives more than 1e10 m (C143_broadcast_refuted). _partial: correct on cftime axes, and exactly what happens on numpy ones.",
"C144": "The attribute setter of xarray copies, so the data keep their own attributes. In detrend the printed slope and intercept inside detrend_comment are not modelled (C61_total: every other attribute is kept).",
"C145": "Refuted: derived.py:755-757 divides beta*dS/dz by alpha*dT/dz, so where temperature does not contribute (an isothermal layer, or alpha = 0 at the temperature of maximum density) the angle is missing, though it should be -45 or 45 degrees there: C145_isothermal_refuted for every column of uniform temperature, C145_stratified_refuted for one with N2 > 0. _partial: the angle exists exactly where alpha and dT/dz are both non-zero.",
"C146": "The nearest-neighbour search is any function meeting the specification of BallTree with the haversine metric (see C50); ties may be broken differently in the two runs.",
"C149": "In binary64 k bounds the additions a sample passes through; the data are binary64.",
"C150": "gradient64 and n2_64 (IeeeDerived.v) follow numpy's order of operations, including the test on the rounded steps; the exact value is that of the exact-arithmetic model of calc_n2. The data and the coordinate are float64; adjust_negative and interfaces are not part of this claim.",
"C151": "calc_n2 returns rounding noise of either sign for homogeneous water on unequal levels, which adjust_negative then treats as instability. C151_homogeneous_partial gives the exact value 0 and the bound on the noise; missing is that the computed value is zero, which is false.",
"C152": "Square root and division are correctly rounded (IEEE 754); np.pi is the binary64 number nearest to pi (its distance from pi is proved with Machin's formula).",
"C153": "Exact counterparts: C28 and C29. The boundary value 0 of xgcm (boundary='fill') is included.",
"C154": "C154_irrotational_partial bounds the spurious vorticity and gives the exact case; missing is that it is zero, which is false in binary64.",
"C155": "Values in TestData, attributes in TestMeta; C155_described ties the two.",
"C156": "The _partial theorems say exactly which references dangle; missing is that none does, which is false.",
"C157": "The bound on volume, mass and mean density is proved. The mean density computed in binary64 may leave the range of the densities: refuted by one cell of density 1020.7 and volume 74388, whose mean is 1.1e-13 larger. The partial theorem bounds how far it leaves the range.",
"C159": "The sine of the platform is a parameter; its accuracy is a hypothesis (an instance, the correctly rounded sine, is exhibited). Only latitudes of type binary64 are modelled.",
"C160": "Refuted for every accurate sine: among twenty neighbouring latitudes next to the pole two have parameters that do not increase. The partial theorem covers latitudes within 89 degrees that are at least 1e-10 degrees apart.",
"C161": "The sine of the platform is a parameter with a bounded error; the sum over the sphere is the exact sum of the computed areas.",
"C162": "Refuted: xarray drops attributes in reductions by default and, unlike annual_average, neither function copies them back; with the option keep_attrs variables keep theirs, but a Dataset still loses its own attributes because it is rebuilt from an empty one (util.py:153, 478), and the time axis has none. C162_partial states exactly what is kept.",
"C163": "The power function of the platform is a parameter; its accuracy is a hypothesis (an instance, the correctly rounded power, is exhibited). Only arrays of type binary64 are modelled; numpy's ones, identity and square for the exponents 0, 1 and 2 are exact or correctly rounded.",
"C164": "The inverse tangent of the platform is a parameter; its accuracy is a hypothesis (an instance, the correctly rounded one, is exhibited). C164_column states the bound in terms of the computed coefficients and gradients, whose own errors are the subject of C90 and C150.",
"C165": "Refuted for every such inverse tangent: a contribution 2^-60 of the other is lost in 1+r and 1-r, and the angle is exactly 45 degrees. C165_partial: the sides are never exchanged, the angle is 45 exactly when salinity does not vary, and the distinction is strict when neither contribution is less than 1e-14 of the other.",
"C166": "The least-squares fit itself (numpy's lstsq) and the conversion of dates to nanoseconds are not modelled in binary64; slope, intercept and times are arbitrary. With subtract_time_zero the error is proportional to the times themselves, not to their difference.",
"C167": "Every grid point is compared; the bounds by which sklearn's ball tree leaves out points are not modelled in binary64. No fused multiply-add. Beyond a quarter of the circumference the arcsine loses accuracy and nothing is claimed.",
"C168": "The table of units by standard name is the specification; psu and degC are accepted names.",
"C169": "Fields in binary32 are not covered; references and tolerances are Python floats.",
"C170": "Texts and categories of the warnings are not modelled, nor are Python's warning filters.",
"C171": "Refuted for the default list: us_tide_gauges.csv has two gauges called MAYPORT (PSMSL 2326 and 316), so 117 gauges give 116 variables on every grid and the one at 30.40 N is lost (C171_us_refuted). _partial: the global list gives all 18 in order (C171_global_partial), and every other US gauge has its series (C171_us_partial). C171_last says for any list with repeated names which site is kept: the last one of that name that a wet cell reaches. The positions are the decimal numbers of the files; other columns are not modelled.",
"C172": "The bounds of the ball tree are not modelled in binary64; C172_near and C172_exact hold for any search that meets the tolerance.",
"C173": "The tolerance of the binary64 search is C167/C172.",
"C174": "Wright's equation of state; local heights.",
"C175": "Wright's equation of state; domain='global'.",
"C176": "Argument values are opaque; the binding rules are Python's.",
"C177": "The mapping varname_map and the input dataset are taken to be of the right kind.",
"C178": "False: trend.py:244 reads arr.name before the check of line 247, so an argument without an attribute `name` (most Datasets, numpy arrays, None) raises AttributeError. C178_partial says which error every argument raises.",
"C179": "",
"C180": "Warnings issued before geolocate_points raises are left out."
}
