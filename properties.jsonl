{"id": "C01", "title": "wright.drho_dtemp is the temperature derivative of wright.density", "statement": "At every (T,S,p) where the density formula's denominator is non-zero, eos.wright.drho_dtemp(T,S,p) is exactly the partial derivative with respect to T of eos.wright.density(T,S,p).", "quantifier": "all real T, S, p with non-zero denominator", "why_tests_cant": "The domain is a continuum and the statement is a limit; tests compare a few numbers.", "anchors": ["src/momlevel/eos/wright.py:density", "src/momlevel/eos/wright.py:drho_dtemp"]}
{"id": "C02", "title": "wright.drho_dsal is the salinity derivative of wright.density", "statement": "At every (T,S,p) where the density denominator is non-zero, eos.wright.drho_dsal(T,S,p) is exactly the partial derivative with respect to S of eos.wright.density.", "quantifier": "all real T, S, p with non-zero denominator", "why_tests_cant": "Continuum of inputs and a limit.", "anchors": ["src/momlevel/eos/wright.py:density", "src/momlevel/eos/wright.py:drho_dsal"]}
{"id": "C03", "title": "alpha and beta are -(1/rho) drho/dT and (1/rho) drho/dS for both equations of state", "statement": "For float inputs, alpha = -(1/rho) d(rho)/dT and beta = (1/rho) d(rho)/dS, for the Wright and the Linear equation of state, with the derivative taken of that same equation's density.", "quantifier": "all real T, S, p where density and its denominator are non-zero, both equations of state", "why_tests_cant": "Continuum of inputs.", "anchors": ["src/momlevel/eos/wright.py:alpha", "src/momlevel/eos/wright.py:beta", "src/momlevel/eos/linear.py:alpha", "src/momlevel/eos/linear.py:beta"]}
{"id": "C04", "title": "Wright density is well defined and in a physical range for ocean states", "statement": "For every ocean state with -2<=T<=40 degC, 0<=S<=42 psu and 0<=p<=1.2e8 Pa the Wright denominator is strictly positive (no division by zero) and the density lies strictly between 980 and 1100 kg m-3.", "quantifier": "all real (T,S,p) in the box", "why_tests_cant": "A box in R^3 cannot be enumerated; polynomial extrema may hide between sample points.", "anchors": ["src/momlevel/eos/wright.py:density"]}
{"id": "C05", "title": "Wright density strictly increases with pressure and with salinity in the ocean range", "statement": "In the ocean box, raising p (T,S fixed) strictly raises the density, and raising S (T,p fixed) strictly raises the density; consequently beta>0.", "quantifier": "all pairs of states in the box differing in one variable", "why_tests_cant": "Monotonicity is a statement on all pairs.", "anchors": ["src/momlevel/eos/wright.py:density", "src/momlevel/eos/wright.py:drho_dsal", "src/momlevel/eos/wright.py:beta"]}
{"id": "C06", "title": "Equation-of-state names resolve case-insensitively and consistently, unknown names are rejected", "statement": "Names equal up to ASCII case to 'wright' or 'linear' resolve to that module's function for each of density/alpha/beta; any other string that is not an attribute name of the eos package raises ValueError; the three wrappers never mix two equations of state for one name.", "quantifier": "all strings", "why_tests_cant": "The set of strings is infinite.", "anchors": ["src/momlevel/util.py:eos_func_from_str", "src/momlevel/derived.py:calc_rho", "src/momlevel/derived.py:calc_alpha", "src/momlevel/derived.py:calc_beta"]}
{"id": "C07", "title": "calc_rho/alpha/beta/pdens act point by point with label-based broadcasting", "statement": "The value of calc_rho (alpha, beta, pdens) at a grid point depends only on temperature, salinity and pressure at that labelled point; a missing temperature or salinity (and, for Wright, a missing pressure: Linear ignores pressure) gives a missing result; the result carries exactly the union of the input dimensions; the call succeeds whenever shared dimensions agree in size (for Linear: and pressure brings no new dimension); pdens rejects levels outside [0,7500] m and otherwise equals calc_rho at pressure level*1e4+patm.", "quantifier": "all arrays of any dimensionality and size, all index positions, both EOS", "why_tests_cant": "All shapes and all positions.", "anchors": ["src/momlevel/derived.py:calc_rho", "src/momlevel/derived.py:calc_alpha", "src/momlevel/derived.py:calc_beta", "src/momlevel/derived.py:calc_pdens"]}
{"id": "C08", "title": "Spiciness is the Flament polynomial, elementwise, and keeps the shape", "statement": "spice(T,S) has the shape of T and, at every multi-index, equals sum_{i<6,j<5} B_ij T^i (S-35)^j of the values at that multi-index; arrays of different shapes are rejected; spice(0,35)=0.", "quantifier": "all arrays of any shape", "why_tests_cant": "All ranks and sizes, every index; the implementation flattens, expands and reshapes.", "anchors": ["src/momlevel/spice/flament.py:spice", "src/momlevel/spice/flament.py:B_IJ", "src/momlevel/derived.py:calc_spice"]}
{"id": "C09", "title": "Coriolis parameter: odd, bounded, zero on the equator and strictly increasing with latitude", "statement": "calc_coriolis(-lat) = -calc_coriolis(lat), |f| <= 4 pi/86400, f has the sign of the latitude on [-90,90], and f is strictly increasing on [-90,90].", "quantifier": "all real latitudes", "why_tests_cant": "Continuum, pairs of latitudes.", "anchors": ["src/momlevel/derived.py:calc_coriolis"]}
{"id": "C10", "title": "Inverse barometer height is hydrostatic", "statement": "inverse_barometer h satisfies rho(tos,sos,pso)*g*h = -pso at every point, so h<0 for every positive surface pressure and positive density; a missing input gives a missing h.", "quantifier": "all arrays, every gravity > 0, both EOS", "why_tests_cant": "All shapes, positions and values.", "anchors": ["src/momlevel/dynamic.py:inverse_barometer"]}
{"id": "C11", "title": "calc_dz thickness is between zero and the full cell thickness", "statement": "Each thickness returned by calc_dz (fraction=False) satisfies 0 <= dz <= z_bot - z_top of its cell, for increasing interfaces and any accepted depth, top and bottom >= 0.", "quantifier": "all interface vectors, depths (incl. missing), top, bottom", "why_tests_cant": "All grids and bathymetries.", "anchors": ["src/momlevel/derived.py:calc_dz"]}
{"id": "C12", "title": "calc_dz with the default top equals the overlap of the cell with the water column", "statement": "With top=0 the returned dz is the length of the intersection of [z_top,z_bot] with [0,min(depth,bottom)], missing depths counting as zero.", "quantifier": "all non-decreasing non-negative interfaces, depths, bottoms", "why_tests_cant": "All grids and bathymetries including partial bottom cells.", "anchors": ["src/momlevel/derived.py:calc_dz"]}
{"id": "C13", "title": "calc_dz column totals equal the clipped water depth", "statement": "With top=0 and interfaces starting at 0, summing dz over the vertical gives exactly min(depth, bottom, deepest interface).", "quantifier": "all vertical grids of any number of levels, all depths", "why_tests_cant": "Induction on number of levels.", "anchors": ["src/momlevel/derived.py:calc_dz"]}
{"id": "C14", "title": "calc_dz rejects negative depths, levels or interfaces and mismatched vertical grids", "statement": "calc_dz raises if any non-missing depth, level or interface is negative or if interfaces is not exactly one longer than levels; otherwise it returns a field.", "quantifier": "all inputs", "why_tests_cant": "Quantifies over all arrays.", "anchors": ["src/momlevel/derived.py:calc_dz"]}
{"id": "C15", "title": "calc_dz fraction=True gives the wet fraction of each cell", "statement": "With fraction=True each value is missing exactly where the thickness (or the full cell) is zero and otherwise equals thickness / full thickness, in (0,1].", "quantifier": "all grids, depths, top, bottom", "why_tests_cant": "All inputs.", "anchors": ["src/momlevel/derived.py:calc_dz"]}
{"id": "C16", "title": "calc_dz over a depth range equals the overlap with [top, min(depth,bottom)]", "statement": "For any top and bottom, dz is the length of the intersection of the cell with [top, min(depth,bottom)].", "quantifier": "all grids, depths, top, bottom", "why_tests_cant": "Needs every relative position of four numbers in every cell.", "anchors": ["src/momlevel/derived.py:calc_dz"]}
{"id": "C17", "title": "adjust_negative_n2 on (z,...) arrays: positive output, same mask, positive values untouched, negatives take the nearest positive value above", "statement": "For an N2 array whose first dimension is the vertical one, the result is missing exactly where the input is missing, is > 0 everywhere else, equals the input wherever the input is positive, and elsewhere equals the closest positive value above in the column, or 1e-8 if there is none.", "quantifier": "all columns of any depth and any mask pattern", "why_tests_cant": "All patterns of negative and missing values.", "anchors": ["src/momlevel/derived.py:adjust_negative_n2"]}
{"id": "C18", "title": "adjust_negative_n2 treats the surface level of time-dependent (t,z,...) arrays", "statement": "The same guarantee holds for the (time, z, y, x) arrays the library itself produces with calc_n2.", "quantifier": "all arrays with leading time dimension", "why_tests_cant": "All patterns; the shipped test checks only a checksum.", "anchors": ["src/momlevel/derived.py:adjust_negative_n2", "src/momlevel/derived.py:calc_n2"]}
{"id": "C19", "title": "Vertical derivatives used by N2 are exact on quadratic profiles over any uneven grid", "statement": "The second-order vertical derivative used by calc_n2 and calc_stability_angle returns the exact derivative of every quadratic profile at every level, end levels included, for every strictly monotone grid with at least 3 levels, and it is linear in the profile.", "quantifier": "all grids, all quadratic profiles", "why_tests_cant": "All grids of all sizes.", "anchors": ["src/momlevel/derived.py:calc_n2", "src/momlevel/derived.py:calc_stability_angle"]}
{"id": "C20", "title": "N2 is (g/rho) times the density gradient for the linear equation of state", "statement": "With eos='Linear', calc_n2 equals (g/rho) d(rho)/dz evaluated with the same derivative operator, hence is positive exactly where density increases with depth.", "quantifier": "all columns, grids and gravities", "why_tests_cant": "All profiles.", "anchors": ["src/momlevel/derived.py:calc_n2"]}
{"id": "C21", "title": "calc_n2(adjust_negative=True) and calc_wave_speed honour the zcoord argument", "statement": "For a dataset whose vertical coordinate is not called z_l, passing its name as zcoord gives the same result as renaming it to z_l.", "quantifier": "all coordinate names", "why_tests_cant": "All names.", "anchors": ["src/momlevel/derived.py:calc_n2", "src/momlevel/derived.py:calc_wave_speed"]}
{"id": "C22", "title": "First-mode wave speed is the vertical integral of N over pi, non-negative, missing exactly on land", "statement": "For (z,y,x) inputs calc_wave_speed = (1/pi) sum_k sqrt(N2adj_k) dz_k over levels with valid N2 and dz, is >=0, has no vertical dimension, and is missing exactly where the surface N2 is missing.", "quantifier": "all columns", "why_tests_cant": "All columns and masks.", "anchors": ["src/momlevel/derived.py:calc_wave_speed"]}
{"id": "C23", "title": "calc_wave_speed on time-dependent input returns one value per time and column", "statement": "For (time,z,y,x) inputs the result has dimensions (time,y,x).", "quantifier": "all (t,z,y,x) arrays", "why_tests_cant": "All shapes.", "anchors": ["src/momlevel/derived.py:calc_wave_speed"]}
{"id": "C24", "title": "Rossby radius is wave speed over |f|", "statement": "calc_rossby_rd * |f| = wave speed, is >=0 for non-negative wave speed, is the same at +f and -f, and is infinite exactly at f=0 with positive speed.", "quantifier": "all arrays", "why_tests_cant": "All values.", "anchors": ["src/momlevel/derived.py:calc_rossby_rd"]}
{"id": "C25", "title": "Stability angle lies in [-90,90] and |angle|<45 exactly when the temperature and salinity contributions have opposite sign", "statement": "Wherever the angle is defined it is in [-90,90] degrees; it is in (-45,45) iff the density ratio (beta dS/dz)/(alpha dT/dz) is negative, 45 exactly when the salinity contribution is zero, and missing where the temperature contribution is zero.", "quantifier": "all columns", "why_tests_cant": "All values.", "anchors": ["src/momlevel/derived.py:calc_stability_angle"]}
{"id": "C26", "title": "|stability angle|<45 means the water column is stable", "statement": "As documented: the column is gravitationally stable (N2>0) wherever the angle lies in (-45,45).", "quantifier": "all columns", "why_tests_cant": "All values.", "anchors": ["src/momlevel/derived.py:calc_stability_angle", "src/momlevel/derived.py:calc_n2"]}
{"id": "C27", "title": "Ocean volume, mass and mean density are consistent", "statement": "volo is the sum of all non-missing cell volumes and requires 3 dimensions; masso at each time is the sum over all non-time dimensions of density*volume over cells where both are present; rhoga*volo=masso, and rhoga lies between the smallest and largest cell density when the masks agree and volumes are positive.", "quantifier": "all grids, masks and values", "why_tests_cant": "All sizes and masks.", "anchors": ["src/momlevel/derived.py:calc_volo", "src/momlevel/derived.py:calc_masso", "src/momlevel/derived.py:calc_rhoga"]}
{"id": "C28", "title": "Relative vorticity satisfies the discrete circulation theorem", "statement": "On every grid the relative vorticity times cell area summed over any rectangular block of corner points equals the circulation of (u dx, v dy) around the block; flow derived from a potential has zero interior vorticity. The result has as many corners as cells along each axis, one more of each on a symmetric grid.", "quantifier": "all grids, velocities, blocks", "why_tests_cant": "All sizes.", "anchors": ["src/momlevel/derived.py:calc_rel_vort", "src/momlevel/util.py:get_xgcm_grid"]}
{"id": "C29", "title": "Potential vorticity combines absolute vorticity and stratification; units option is checked", "statement": "calc_pv=(zeta+f)*N2/g at each point (N2 averaged to corners when interp_n2), units='cm' gives |pv|*1e12 >= 0, other units raise ValueError. With interp_n2 the result has as many corners as N2 has cells along each axis, one more of each on a symmetric grid.", "quantifier": "all arrays and unit strings", "why_tests_cant": "All inputs.", "anchors": ["src/momlevel/derived.py:calc_pv"]}
{"id": "C30", "title": "The reference state is the chosen time level of the input", "statement": "setup_reference_state returns thetao, so, volcello equal to the dataset at time_index, rho equal to the equation of state at z*1e4+patm, and volo, masso, rhoga computed from those fields.", "quantifier": "all datasets with no size-one spatial dimension, all time indices", "why_tests_cant": "All datasets.", "anchors": ["src/momlevel/reference.py:setup_reference_state"]}
{"id": "C31", "title": "A valid dataset with a size-one spatial dimension can be used as reference", "statement": "Any dataset accepted by validate_dataset yields a reference state, including a single column or a single section.", "quantifier": "all accepted datasets", "why_tests_cant": "All shapes.", "anchors": ["src/momlevel/reference.py:setup_reference_state", "src/momlevel/derived.py:calc_volo"]}
{"id": "C32", "title": "Local steric height formula", "statement": "steric(domain='local') returns at each (t,y,x) ocean column -(1/rhozero) * sum_k dz_k*(rho(t,k)-rho_ref(k)) over levels valid in the reference, and delta_rho=rho-rho_ref there.", "quantifier": "all datasets, rhozero, patm, both EOS", "why_tests_cant": "All datasets.", "anchors": ["src/momlevel/steric.py:steric"]}
{"id": "C33", "title": "Steric, thermosteric and halosteric heights vanish at the reference time", "statement": "With no reference supplied, all three variants are exactly zero at the first time level in every ocean column, local and global (positive mean density).", "quantifier": "all datasets", "why_tests_cant": "All datasets.", "anchors": ["src/momlevel/steric.py:steric", "src/momlevel/reference.py:setup_reference_state"]}
{"id": "C34", "title": "Land mask of local steric height", "statement": "The local steric height is missing exactly where the reference surface cell volume is missing, at every time; no other missing input makes it missing.", "quantifier": "all mask patterns", "why_tests_cant": "All masks.", "anchors": ["src/momlevel/steric.py:steric"]}
{"id": "C35", "title": "Linear EOS: steric = thermosteric + halosteric", "statement": "With equation_of_state='Linear' the local steric height equals the sum of the thermosteric and halosteric heights at every point with valid inputs.", "quantifier": "all datasets", "why_tests_cant": "All datasets.", "anchors": ["src/momlevel/steric.py:steric", "src/momlevel/steric.py:thermosteric", "src/momlevel/steric.py:halosteric", "src/momlevel/eos/linear.py:density"]}
{"id": "C36", "title": "Warming raises thermosteric, freshening raises halosteric sea level", "statement": "If in a column every temperature is >= the reference temperature (Linear EOS: any values; Wright: densities monotone there) thermosteric height is >=0; if every salinity is <= its reference value the halosteric height is >=0 (Linear: any values, Wright: ocean box).", "quantifier": "all datasets", "why_tests_cant": "All datasets.", "anchors": ["src/momlevel/steric.py:thermosteric", "src/momlevel/steric.py:halosteric"]}
{"id": "C37", "title": "Global steric height is reference height times the log density ratio", "statement": "steric(domain='global') = (volo/sum(areacello)) * ln(rhoga_ref/(masso(t)/volo)), positive iff the mean density fell below its reference, and reference_height=volo/area.", "quantifier": "all datasets", "why_tests_cant": "All datasets.", "anchors": ["src/momlevel/steric.py:steric"]}
{"id": "C38", "title": "Variant and domain dispatch", "statement": "variant other than steric/thermosteric/halosteric raises ValueError; thermosteric holds salinity at the reference and does not depend on the dataset's salinity after the reference time; halosteric symmetric.", "quantifier": "all variants strings, all datasets", "why_tests_cant": "All strings and datasets.", "anchors": ["src/momlevel/steric.py:steric", "src/momlevel/steric.py:halosteric", "src/momlevel/steric.py:thermosteric"]}
{"id": "C39", "title": "An unrecognised domain is rejected", "statement": "steric(domain=d) raises for any d other than 'local' and 'global'.", "quantifier": "all strings", "why_tests_cant": "All strings.", "anchors": ["src/momlevel/steric.py:steric"]}
{"id": "C40", "title": "Re-using a returned reference reproduces the result", "statement": "Calling steric again with the reference dataset returned by a first call without reference gives the same result.", "quantifier": "all datasets, variants, domains", "why_tests_cant": "All datasets.", "anchors": ["src/momlevel/steric.py:steric"]}
{"id": "C41", "title": "validate_areacello accepts exactly the open tolerance interval", "statement": "validate_areacello is True iff the sum of non-missing areas lies strictly between (1-tol)*ref and (1+tol)*ref (ref>0).", "quantifier": "all fields, ref>0, tol", "why_tests_cant": "All fields.", "anchors": ["src/momlevel/util.py:validate_areacello"]}
{"id": "C42", "title": "validate_dataset decision rule", "statement": "validate_dataset accepts a dataset iff all required variables are present, 3-D variables and 2-D variables have the required rank, (if strict) the area is in range and, for references, rho has 3 dims and the scalars 0; otherwise it raises ValueError reporting every failed check.", "quantifier": "all datasets and flags", "why_tests_cant": "All datasets.", "anchors": ["src/momlevel/util.py:validate_dataset"]}
{"id": "C43", "title": "A reference dataset with a time coordinate is rejected", "statement": "validate_dataset(reference=True) raises if the dataset has a coordinate called time.", "quantifier": "all datasets", "why_tests_cant": "All datasets.", "anchors": ["src/momlevel/util.py:validate_dataset"]}
{"id": "C44", "title": "strict=False turns errors into warnings", "statement": "With strict=False, validate_dataset never raises (documented: warnings are issued).", "quantifier": "all datasets", "why_tests_cant": "All datasets.", "anchors": ["src/momlevel/util.py:validate_dataset"]}
{"id": "C45", "title": "default_coords returns the mapped name or the default independently for each key", "statement": "default_coords(m) = (m.get('t','time'), m.get('z','z_l'), m.get('zbounds','z_i')), unaffected by any other key.", "quantifier": "all dictionaries", "why_tests_cant": "All dictionaries.", "anchors": ["src/momlevel/util.py:default_coords"]}
{"id": "C46", "title": "alphabetize_dataset only reorders", "statement": "alphabetize_dataset returns the same variables with the same contents in ascending name order, and is idempotent.", "quantifier": "all datasets", "why_tests_cant": "All datasets.", "anchors": ["src/momlevel/util.py:alphabetize_dataset"]}
{"id": "C47", "title": "reset_encoding removes exactly the requested keys", "statement": "After reset_encoding no variable nor the dataset has any requested encoding key, all other keys and all data are unchanged, and a second call changes nothing.", "quantifier": "all datasets and key lists", "why_tests_cant": "All datasets.", "anchors": ["src/momlevel/util.py:reset_encoding"]}
{"id": "C48", "title": "standard_grid_cell_area covers the sphere", "statement": "For every uniform global latitude-longitude grid (any number >=2 of rows and columns, either orientation) the cell areas are non-negative and sum to exactly 4 pi R^2.", "quantifier": "all resolutions and radii", "why_tests_cant": "All resolutions; telescoping of a transcendental sum.", "anchors": ["src/momlevel/util.py:standard_grid_cell_area"]}
{"id": "C49", "title": "tile_nominal_coords is the full product grid", "statement": "tile_nominal_coords(x,y) returns 2-D arrays with lon[j,i]=x[i] and lat[j,i]=y[j], dims (y,x).", "quantifier": "all vectors", "why_tests_cant": "All sizes.", "anchors": ["src/momlevel/util.py:tile_nominal_coords"]}
{"id": "C50", "title": "geolocate_points returns the nearest valid grid point within the threshold", "statement": "Every returned location is mapped to a model point whose mask is 1, no valid model point is closer on the sphere, the reported distance is that distance in km, and exactly the locations with distance <= threshold are returned, in order.", "quantifier": "all model grids and location lists", "why_tests_cant": "All grids.", "anchors": ["src/momlevel/util.py:geolocate_points"]}
{"id": "C51", "title": "The search metric is the great-circle distance and ignores the longitude convention", "statement": "The distance used is R times the central angle between the two points, is symmetric, non-negative, zero only for the same point, at most pi*R, and unchanged when 360 is added to any longitude.", "quantifier": "all coordinates", "why_tests_cant": "Continuum.", "anchors": ["src/momlevel/util.py:geolocate_points"]}
{"id": "C52", "title": "mod_index indexes df_model", "statement": "As documented, mod_index is the position of the selected point in the df_model the caller passed.", "quantifier": "all model frames and masks", "why_tests_cant": "All frames.", "anchors": ["src/momlevel/util.py:geolocate_points"]}
{"id": "C53", "title": "extract_tidegauge returns the series of the nearest wet cell for each site", "statement": "For each site within the threshold the output variable named after the site is the input array at the nearest wet grid cell, and no other variable is present.", "quantifier": "all arrays, masks, sites with distinct names", "why_tests_cant": "All inputs.", "anchors": ["src/momlevel/tidegauge.py:extract_tidegauge", "src/momlevel/tidegauge.py:extract_point"]}
{"id": "C54", "title": "extract_tidegauge rejects x/y coordinates on different dimensions", "statement": "If the two coordinate arrays have different dimensions the call fails the dimension check.", "quantifier": "all coordinate arrays", "why_tests_cant": "All inputs.", "anchors": ["src/momlevel/tidegauge.py:extract_tidegauge"]}
{"id": "C55", "title": "annual_average is the days-in-month weighted mean of each year", "statement": "For each calendar year (ascending) the result is sum(days*value)/sum(days) over the year's 12 months with missing months skipped, lies between the smallest and largest monthly value, reproduces constants, and is stamped at the midpoint of that year.", "quantifier": "all monthly series, calendars, numbers of years", "why_tests_cant": "All series and calendars.", "anchors": ["src/momlevel/util.py:annual_average"]}
{"id": "C56", "title": "annual_average rejects incomplete years", "statement": "annual_average raises if any year does not contain each of its 12 months exactly once.", "quantifier": "all series", "why_tests_cant": "All series.", "anchors": ["src/momlevel/util.py:annual_average"]}
{"id": "C57", "title": "monthly_average then annual_average equals the plain mean of complete daily data", "statement": "For a complete daily series without gaps in any calendar, annual_average(monthly_average(x)) is the arithmetic mean of all daily values of each year.", "quantifier": "all complete daily series, calendars", "why_tests_cant": "All series, calendars.", "anchors": ["src/momlevel/util.py:monthly_average", "src/momlevel/util.py:annual_average"]}
{"id": "C58", "title": "annual_cycle groups all years by month", "statement": "annual_cycle(func='mean') returns 12 values, the m-th being the mean over all samples in month m, min/max bound it, and unknown func raises ValueError.", "quantifier": "all series", "why_tests_cant": "All series.", "anchors": ["src/momlevel/util.py:annual_cycle"]}
{"id": "C59", "title": "time_conversion_factor is a consistent conversion system", "statement": "For recognised units factor(a,a)=1, factor(a,b)*factor(b,c)=factor(a,c), factor(a,b)=1/factor(b,a)>0; unrecognised units raise AssertionError.", "quantifier": "all unit strings, all positive days_per_month/year", "why_tests_cant": "All triples and overrides.", "anchors": ["src/momlevel/trend.py:time_conversion_factor"]}
{"id": "C60", "title": "calc_linear_trend is the least-squares line", "statement": "The returned slope and intercept minimise the sum of squared residuals over the non-missing samples among all lines, uniquely, and reproduce exactly linear data.", "quantifier": "all series with two distinct valid times", "why_tests_cant": "All series, all competing lines.", "anchors": ["src/momlevel/trend.py:calc_linear_trend"]}
{"id": "C61", "title": "linear_detrend(mode='remove') leaves zero-mean, trend-free residuals", "statement": "Residuals sum to zero, are orthogonal to time, detrending again changes nothing, and adding any line to the input does not change the result.", "quantifier": "all series", "why_tests_cant": "All series.", "anchors": ["src/momlevel/trend.py:linear_detrend", "src/momlevel/trend.py:_detrend_array"]}
{"id": "C62", "title": "linear_detrend(mode='correct') retains the magnitude of the data", "statement": "mode='correct' removes the slope while keeping the time mean of the input (retaining the original magnitude).", "quantifier": "all series", "why_tests_cant": "All series.", "anchors": ["src/momlevel/trend.py:linear_detrend", "src/momlevel/trend.py:_detrend_array"]}
{"id": "C63", "title": "Trend units round-trip", "statement": "A slope computed in any recognised unit and broadcast back along the time axis gives the same fitted line as the native one.", "quantifier": "all recognised units, all arrays whose units attribute has no inverse token", "why_tests_cant": "All unit combinations, strings.", "anchors": ["src/momlevel/trend.py:calc_linear_trend", "src/momlevel/trend.py:broadcast_trend"]}
{"id": "C64", "title": "linear_detrend works for any units attribute", "statement": "linear_detrend succeeds whatever the units attribute of the input.", "quantifier": "all unit strings", "why_tests_cant": "All strings.", "anchors": ["src/momlevel/trend.py:linear_detrend", "src/momlevel/trend.py:broadcast_trend"]}
{"id": "C65", "title": "linear_detrend on a Dataset treats variables independently", "statement": "Each variable having the dimension is detrended as alone, all others are passed through unchanged; same variable names in the same order.", "quantifier": "all datasets", "why_tests_cant": "All datasets.", "anchors": ["src/momlevel/trend.py:linear_detrend"]}
{"id": "C66", "title": "seasonal_model decomposes the series by orthogonal projection", "statement": "model + residual = input; residuals are orthogonal to constant, trend and the four harmonics; no other combination of them fits better; applying it to residuals returns them unchanged; any exact combination has zero residual.", "quantifier": "all series and time axes", "why_tests_cant": "All series; all competing fits.", "anchors": ["src/momlevel/trend.py:seasonal_model", "src/momlevel/trend.py:seasonal_cycle_model"]}
{"id": "C67", "title": "Decimal time used by the seasonal fits is strictly increasing", "statement": "The decimal-year coordinate is strictly increasing in time.", "quantifier": "all calendars and dates", "why_tests_cant": "All dates.", "anchors": ["src/momlevel/trend.py:seasonal_model", "src/momlevel/trend.py:seasonal_cycle_model", "src/momlevel/trend.py:deseason"]}
{"id": "C68", "title": "deseason results do not depend on dask chunking", "statement": "For every chunking of the input (including along time) the values are those of fitting each full time series separately.", "quantifier": "all chunkings", "why_tests_cant": "All chunkings.", "anchors": ["src/momlevel/trend.py:deseason", "src/momlevel/trend.py:_detrend_deseason_lazy", "src/momlevel/trend.py:_detrend_deseason_chunk"]}
{"id": "C69", "title": "deseason outputs are mutually consistent", "statement": "residuals + model = input and model = sum of coeff times the basis at each point; unknown output_format raises ValueError; coeff output works for arrays of any dimensionality.", "quantifier": "all arrays", "why_tests_cant": "All arrays.", "anchors": ["src/momlevel/trend.py:deseason", "src/momlevel/trend.py:_detrend_deseason_chunk"]}
{"id": "C70", "title": "deseason does not modify its input", "statement": "Calling deseason leaves the input array's attributes unchanged, so a second call returns the same metadata.", "quantifier": "all attribute dictionaries", "why_tests_cant": "All histories of calls.", "anchors": ["src/momlevel/trend.py:deseason"]}
{"id": "C71", "title": "Generated daily and monthly time axes are complete and contiguous", "statement": "generate_daily_timeaxis contains every day of the requested years exactly once; generate_time_stub bounds are contiguous, each time stamp is the midpoint strictly inside its bounds, and the intervals sum to the requested years; other frequencies raise ValueError.", "quantifier": "all start years (of four digits for generate_time_stub, see C127), lengths, calendars", "why_tests_cant": "All years and calendars.", "anchors": ["src/momlevel/test_data/time.py:generate_daily_timeaxis", "src/momlevel/test_data/time.py:generate_time_stub"]}
{"id": "C72", "title": "Generated datasets have a valid ocean area", "statement": "The generated areacello always sums to 3.6111092e14 and is accepted by validate_areacello, whatever the random field.", "quantifier": "all random fields with non-zero sum", "why_tests_cant": "All seeds.", "anchors": ["src/momlevel/test_data/tripolar/horizontal.py:xy_fields", "src/momlevel/util.py:validate_areacello"]}
{"id": "C73", "title": "Wright density decreases with temperature above the maximum-density line", "statement": "For T >= 4.4 - 0.22*S inside the ocean box the Wright thermal expansion coefficient is positive, drho_dtemp is negative and density strictly decreases with temperature (so warming raises thermosteric sea level there).", "quantifier": "all T, S, p in the box above the line", "why_tests_cant": "A continuum of states; a sign change in a corner of the box is invisible to samples.", "anchors": ["src/momlevel/eos/wright.py:density", "src/momlevel/eos/wright.py:drho_dtemp", "src/momlevel/eos/wright.py:alpha"]}
{"id": "C74", "title": "Warned sites are exactly the sites left out", "statement": "With warnings enabled, a site is warned about as not mapped exactly when it is missing from the output.", "quantifier": "all model frames, sites and thresholds", "why_tests_cant": "Needs a site exactly at the threshold; all inputs.", "anchors": ["src/momlevel/util.py:geolocate_points"]}
{"id": "C75", "title": "The search metric satisfies the triangle inequality", "statement": "For any three places the great-circle distance between two of them is at most the sum of the distances via the third (what the ball tree's pruning relies on).", "quantifier": "all coordinates", "why_tests_cant": "Continuum.", "anchors": ["src/momlevel/util.py:geolocate_points"]}
{"id": "C76", "title": "loc_coords selects the coordinate columns", "statement": "geolocate_points works for any names of the site coordinate columns passed in loc_coords.", "quantifier": "all column names", "why_tests_cant": "All names; the tests only use the default.", "anchors": ["src/momlevel/util.py:geolocate_points"]}
{"id": "C77", "title": "One output variable per located site", "statement": "extract_tidegauge returns as many variables as there are sites within the threshold.", "quantifier": "all site lists", "why_tests_cant": "All site lists; silent overwriting on repeated names (the bundled US list repeats MAYPORT).", "anchors": ["src/momlevel/tidegauge.py:extract_tidegauge"]}
{"id": "C78", "title": "steric(annual=True) honours coord_names", "statement": "steric with annual=True succeeds for every dataset with complete years on which annual=False succeeds, whatever the name of the time coordinate given in coord_names.", "quantifier": "all datasets and coordinate names", "why_tests_cant": "All names; the tests only use 'time'.", "anchors": ["src/momlevel/steric.py:steric", "src/momlevel/util.py:annual_average"]}
{"id": "C79", "title": "annual_average leaves static variables alone", "statement": "A variable of a Dataset that has no time dimension is returned by annual_average with the same dimensions and values.", "quantifier": "all datasets", "why_tests_cant": "All datasets; the tests have no static variable.", "anchors": ["src/momlevel/util.py:annual_average"]}
{"id": "C80", "title": "Generated test data is always accepted", "statement": "Every dataset produced by generate_test_data passes validate_dataset in strict mode and steric computes all variants on it with either equation of state and any domain.", "quantifier": "all random fields (area with non-zero sum, non-negative depth fractions), all numbers of times", "why_tests_cant": "All seeds.", "anchors": ["src/momlevel/test_data/__init__.py:generate_test_data", "src/momlevel/util.py:validate_dataset", "src/momlevel/steric.py:steric"]}
{"id": "C81", "title": "broadcast_trend(subtract_time_zero=True) starts at zero for any axis", "statement": "With subtract_time_zero the broadcast trend is the plain one minus its value at the first sample of the broadcast axis, whatever the name of that axis.", "quantifier": "all slopes, axes and axis names", "why_tests_cant": "All axis names.", "anchors": ["src/momlevel/trend.py:broadcast_trend"]}
{"id": "C82", "title": "Seasonal functions work with any time dimension name", "statement": "seasonal_model(tcoord=t) and deseason(tdim=t) work for a time coordinate with any name t.", "quantifier": "all names", "why_tests_cant": "All names.", "anchors": ["src/momlevel/trend.py:seasonal_model", "src/momlevel/trend.py:deseason"]}
{"id": "C83", "title": "seasonal_cycle_model uses the given length of the year", "statement": "With daysinyear=v the fitted harmonics have a period of v and v/2 samples: a pure cycle of that period leaves no residual.", "quantifier": "all year lengths and series", "why_tests_cant": "All year lengths.", "anchors": ["src/momlevel/trend.py:seasonal_cycle_model"]}
{"id": "C84", "title": "deseason's harmonics repeat every calendar year", "statement": "The time used by deseason is in decimal years: samples at the same time of year have the same phase, whole years apart.", "quantifier": "all calendars, start years and sampling intervals", "why_tests_cant": "All calendars and lengths.", "anchors": ["src/momlevel/trend.py:deseason", "src/momlevel/trend.py:seasonal_cycle_model"]}
{"id": "C85", "title": "N2 with Wright's equation is the gradient of locally referenced density", "statement": "With eos='Wright' and values in the ocean range, calc_n2 equals -(g/rho) times the derivative of density along the vertical gradients of temperature and salinity at the local pressure, hence is positive exactly where locally referenced density increases with depth.", "quantifier": "all arrays, grids, gravities and surface pressures in the ocean range", "why_tests_cant": "All profiles; a wrong sign or pressure reference passes a frozen sum of one random field only by accident.", "anchors": ["src/momlevel/derived.py:calc_n2"]}
{"id": "C86", "title": "calc_n2 on cell edges uses linear interpolation", "statement": "With interfaces given, calc_n2 equals the calculation applied to temperature and salinity interpolated linearly in depth to the interfaces, missing outside the range of the levels, and succeeds whenever temperature and salinity share their dimensions and there are at least three interfaces.", "quantifier": "all arrays, grids and interfaces", "why_tests_cant": "No test passes interfaces.", "anchors": ["src/momlevel/derived.py:calc_n2"]}
{"id": "C87", "title": "calc_n2 on cell edges is defined at every interface between two levels", "statement": "With interfaces given, N2 has a value at every interface which lies between two levels with data.", "quantifier": "all columns and grids", "why_tests_cant": "No test passes interfaces.", "anchors": ["src/momlevel/derived.py:calc_n2"]}
{"id": "C88", "title": "calc_n2 on cell edges can adjust negative values", "statement": "calc_n2 with interfaces and adjust_negative=True succeeds and returns the stabilised values of the result without adjustment.", "quantifier": "all inputs", "why_tests_cant": "No test passes interfaces.", "anchors": ["src/momlevel/derived.py:calc_n2", "src/momlevel/derived.py:adjust_negative_n2"]}
{"id": "C89", "title": "Wright density in double precision is accurate", "statement": "Evaluated in IEEE binary64 in the order the code uses, wright.density of finite ocean values neither overflows nor becomes missing and differs from the exact value of the formula by at most 3.4e-12 kg m-3; two densities which differ by 7e-12 kg m-3 keep their order.", "quantifier": "all binary64 temperatures, salinities and pressures in the ocean range (-2..40 degC, 0..42 PSU, 0..1.2e8 Pa)", "why_tests_cant": "Rounding error must be bounded over some 2^150 inputs.", "anchors": ["src/momlevel/eos/wright.py:density"]}
{"id": "C90", "title": "Density derivatives in double precision are accurate", "statement": "In binary64, drho_dtemp, drho_dsal, alpha and beta are within 2e-14, 8e-15, 6e-17 and 3e-17 of the derivatives of the exact density (of -drho/dT/rho and drho/dS/rho); linear.density is within 3e-13 of the exact formula.", "quantifier": "all binary64 inputs in the ocean range", "why_tests_cant": "Rounding error must be bounded over all inputs.", "anchors": ["src/momlevel/eos/wright.py:drho_dtemp", "src/momlevel/eos/wright.py:drho_dsal", "src/momlevel/eos/wright.py:alpha", "src/momlevel/eos/wright.py:beta", "src/momlevel/eos/linear.py:density"]}
{"id": "C91", "title": "Layer thickness in double precision is rounded once", "statement": "calc_dz of finite non-negative interfaces, depth and top returns the exact thickness rounded once to binary64; the fraction of a non-empty cell lies in [0,1] and is exactly 1 for a cell entirely inside the water.", "quantifier": "all finite non-negative binary64 values", "why_tests_cant": "Rounding may move a fraction above one on some grid.", "anchors": ["src/momlevel/derived.py:calc_dz"]}
{"id": "C92", "title": "Local steric height in double precision is accurate", "statement": "The local steric height of a column of at most 1000 levels and 12000 m of water, computed in binary64 and summed in any order, is finite and within 3e-10 m of its exact value, whatever is stored in dry cells.", "quantifier": "all columns, all orders of summation", "why_tests_cant": "The error depends on every level and on the order of the reduction, which numpy and dask choose.", "anchors": ["src/momlevel/steric.py:steric"]}
{"id": "C93", "title": "No spurious steric height", "statement": "In binary64, unchanged temperature and salinity give a steric height of exactly zero whatever the values and the order of the sum.", "quantifier": "all columns, all orders of summation", "why_tests_cant": "A rounding residue could show for some values only.", "anchors": ["src/momlevel/steric.py:steric"]}
{"id": "C94", "title": "A missing input gives a missing density", "statement": "If temperature, salinity or pressure is NaN, then density, drho_dtemp, drho_dsal, alpha and beta are NaN, whatever the other values (infinities included).", "quantifier": "all binary64 inputs", "why_tests_cant": "Products with zero and infinity would have to be tried.", "anchors": ["src/momlevel/eos/wright.py:density", "src/momlevel/eos/wright.py:alpha", "src/momlevel/eos/wright.py:beta"]}
{"id": "C95", "title": "Density in mixed single precision", "statement": "With temperature and salinity in single precision and pressure in double precision, density is within 3.8e-4 kg m-3 of the exact value, its derivatives within 6.4e-6 and 2.3e-6, alpha and beta within 1.7e-8 and 7e-9; linear.density in single precision is within 1.3e-4.", "quantifier": "all binary32 temperatures and salinities and binary64 pressures in the ocean range", "why_tests_cant": "Rounding error must be bounded over all inputs.", "anchors": ["src/momlevel/eos/wright.py:density", "src/momlevel/eos/wright.py:drho_dtemp", "src/momlevel/eos/wright.py:drho_dsal", "src/momlevel/eos/wright.py:alpha", "src/momlevel/eos/wright.py:beta", "src/momlevel/eos/linear.py:density"]}
{"id": "C96", "title": "Warming lowers density also in single precision", "statement": "With temperature and salinity in single precision, warming warm sea water never raises the computed density.", "quantifier": "all binary32 inputs in the range where the exact density decreases with temperature", "why_tests_cant": "The violations are rare and small.", "anchors": ["src/momlevel/eos/wright.py:density"]}
{"id": "C97", "title": "varname_map equals renaming the dataset beforehand", "statement": "steric with varname_map gives the result it gives without it on the dataset whose variables and dimensions are renamed beforehand, with and without annual averaging. A name that is not in the dataset, or two variables that end up with the same name, raise ValueError.", "quantifier": "all datasets, renamings and other arguments", "why_tests_cant": "The upstream tests never pass varname_map.", "anchors": ["src/momlevel/steric.py:steric"]}
{"id": "C98", "title": "Global steric height in double precision is accurate", "statement": "Evaluated in IEEE binary64, the global steric height V/A*ln(Mref/M) of steric(domain='global') is finite and differs from the exact value by at most V/A*(9e-15 + 2.25*k/2^53), where k bounds the number of additions any cell passes through; the order in which cells are added does not matter. Missing volumes and areas are skipped.", "quantifier": "all grids of ocean cells (volumes and areas missing, zero or at least 1e-100, totals up to 1e100), all summation orders with k up to 10^6, any logarithm accurate to one unit in the last place", "why_tests_cant": "Rounding error must be bounded over all grids and all summation orders (numpy and dask add in different orders).", "anchors": ["src/momlevel/steric.py:steric", "src/momlevel/derived.py:calc_masso", "src/momlevel/derived.py:calc_rhoga", "src/momlevel/derived.py:calc_volo", "src/momlevel/reference.py:setup_reference_state"]}
{"id": "C99", "title": "An unchanged ocean has exactly zero global steric height in double precision", "statement": "If temperature and salinity equal those of the reference state, the computed binary64 global steric height is exactly zero, not merely small.", "quantifier": "all grids as in C98, any summation", "why_tests_cant": "Exactness over all grids; tests compare with a tolerance.", "anchors": ["src/momlevel/steric.py:steric", "src/momlevel/reference.py:setup_reference_state"]}
{"id": "C100", "title": "Generated vertical grids are consistent", "statement": "In the datasets of generate_test_data and generate_test_data_dz the interfaces start at 0 and increase, each level is the centre of its interfaces, and the thicknesses which calc_dz returns add up to the generated depth in every column (zero in the two columns without depth).", "quantifier": "all random fields", "why_tests_cant": "All seeds.", "anchors": ["src/momlevel/test_data/__init__.py:generate_test_data", "src/momlevel/test_data/__init__.py:generate_test_data_dz", "src/momlevel/test_data/tripolar/vertical.py:zlevel_fields", "src/momlevel/derived.py:calc_dz"]}
{"id": "C101", "title": "Linear density relative to a reference", "statement": "linear.density with rho_ref returns the density minus rho_ref, without it the density; missing values propagate.", "quantifier": "all values", "why_tests_cant": "The upstream tests never pass rho_ref.", "anchors": ["src/momlevel/eos/linear.py:density"]}
{"id": "C102", "title": "Geolocation does not depend on how the grid is listed", "statement": "Two calls of geolocate_points over the same wet points and the same locations, listing the points in another order, writing longitudes in another convention (offset by whole turns) or resolving ties differently, return the same location names and the same distances in the same order.", "quantifier": "all grids, locations, thresholds and tie-breaking rules of the nearest-neighbour tree", "why_tests_cant": "All orders and conventions; tests use one grid.", "anchors": ["src/momlevel/util.py:geolocate_points"]}
{"id": "C103", "title": "The fitted trend is linear in the data and independent of time origin and sample order", "statement": "calc_linear_trend of a combination a x1 + c x2 of two records with the same gaps returns the same combination of slopes and intercepts; moving the origin of time leaves the slope and moves the intercept along the line; permuting the samples changes nothing.", "quantifier": "all records with valid samples at two different times, all factors, shifts and permutations", "why_tests_cant": "Relations between calls on arbitrary data; tests check single records.", "anchors": ["src/momlevel/trend.py:calc_linear_trend"]}
{"id": "C104", "title": "Changing the reference time shifts the steric height by a constant field", "statement": "For a dataset whose temperature, salinity and cell volumes have the same gaps at all times, the local steric height relative to time j equals the height relative to time k minus the height of time j relative to k, at every point and time; with cell volumes constant in time the same holds for the global steric height.", "quantifier": "all regular datasets, both equations of state, all reference times (including negative indices)", "why_tests_cant": "A relation between two calls with different reference states on arbitrary data.", "anchors": ["src/momlevel/steric.py:steric", "src/momlevel/reference.py:setup_reference_state"]}
{"id": "C105", "title": "Spiciness increases with temperature and salinity", "statement": "calc_spice is larger for the warmer and saltier of two waters, by at least 0.03 per degree and 0.36 per psu in 0..30 degC, 30..40 psu, and by at least 0.016 per degree and 0.14 per psu in -2..40 degC, 32..38 psu; equally spicy waters in one of these ranges are therefore the fresher the warmer. The fit is not monotone outside (40 degC, 40 psu).", "quantifier": "all temperatures and salinities of the ranges", "why_tests_cant": "A continuum of values; a single wrong digit of the 30 coefficients can break it between the tabulated points.", "anchors": ["src/momlevel/spice/flament.py:spice", "src/momlevel/derived.py:calc_spice"]}
{"id": "C106", "title": "A gauge at the position of a wet grid cell gets that cell's series", "statement": "extract_tidegauge gives a location that lies exactly at the position of an unmasked grid cell (its longitude in any convention) the series of that cell, for every non-negative or absent threshold, provided that no other unmasked cell lies at the same place. On the grids made by test_data's xy_fields this holds for all 25 cell centres, whose positions are -72 + 36 j and 36 + 72 i degrees.", "quantifier": "all fields, grids, masks, locations, thresholds and nearest-neighbour implementations", "why_tests_cant": "The tests extract the bundled gauges from one grid; none of these lies on a grid point.", "anchors": ["src/momlevel/tidegauge.py:extract_tidegauge", "src/momlevel/util.py:geolocate_points", "src/momlevel/test_data/tripolar/horizontal.py:xy_fields"]}
{"id": "C107", "title": "Generated velocity data feed calc_rel_vort", "statement": "generate_test_data_uv returns a dataset from which calc_rel_vort, with default names, computes a vorticity on (time, z_l, yq, xq) equal to the circulation around the corner divided by the corner's area, with a zero boundary value behind the last row and column; the generated corner areas add up to the ocean area.", "quantifier": "all random fields with nonzero areas and any number of times", "why_tests_cant": "The tests use one seed and compare one sum.", "anchors": ["src/momlevel/test_data/__init__.py:generate_test_data_uv", "src/momlevel/derived.py:calc_rel_vort"]}
{"id": "C108", "title": "Averaging a Dataset averages each of its numeric variables", "statement": "annual_cycle and monthly_average of a Dataset return exactly its numeric variables (dates and time differences are dropped), each equal to the result of the DataArray call on that variable with the same new time axis; the Dataset call raises exactly when the DataArray call on a numeric variable with the time dimension does, with the same exception, and a Dataset without such a variable is a KeyError.", "quantifier": "all datasets, time axes, calendars and statistics", "why_tests_cant": "All datasets; tests use one dataset with two random fields.", "anchors": ["src/momlevel/util.py:annual_cycle", "src/momlevel/util.py:monthly_average", "src/momlevel/util.py:annual_average"]}
{"id": "C109", "title": "Averages of complete monthly and daily records", "statement": "For n complete years of monthly data annual_average succeeds and its k-th value is sum(days * value)/days-in-year over samples 12k..12k+11 stamped in year s+k; annual_cycle's m-th value is the mean over the n years; monthly_average is the identity on values. In particular the datasets of generate_test_data_time are mapped by monthly_average to themselves (monthly frequency, same time axis), and the daily ones by monthly_average then annual_average to the mean over the days of each year.", "quantifier": "all start years (of four digits for generated datasets, see C127), lengths and calendars, all fields", "why_tests_cant": "All calendars, start years and fields; tests use five years of one seed.", "anchors": ["src/momlevel/util.py:annual_average", "src/momlevel/util.py:annual_cycle", "src/momlevel/util.py:monthly_average", "src/momlevel/test_data/__init__.py:generate_test_data_time"]}
{"id": "C110", "title": "The requested dtype is set on every output variable of steric", "statement": "Every data variable that steric, thermosteric or halosteric returns carries the requested dtype in its encoding and a units attribute (kg m-3 for delta_rho, m otherwise), with and without annual=True; coordinates of the result carry the attributes they have in the dataset.", "quantifier": "all datasets, references, variants, domains, dtypes and metadata", "why_tests_cant": "All combinations of variant, domain, coordinates and attributes; tests compare values only.", "anchors": ["src/momlevel/steric.py:steric", "src/momlevel/util.py:annual_average"]}
{"id": "C111", "title": "annual_average keeps attributes", "statement": "The result of annual_average has the attributes of its argument, and every variable and coordinate the argument also has keeps its attributes, whatever the averaging operations left on them; names the argument does not have get none; encodings are not touched.", "quantifier": "all Datasets and DataArrays and all metadata", "why_tests_cant": "All metadata and coordinate layouts; the tests check one dataset.", "anchors": ["src/momlevel/util.py:annual_average"]}
{"id": "C112", "title": "Heights are computed cell by cell on equal labels", "statement": "With a supplied reference, steric compares each cell of the reference with the cell of the dataset that has the same labels. If the labels agree, the result is the one computed by position (same values or same exception). If they differ, thermosteric and halosteric raise; a local steric height is returned only when every labelled cell of the reference is a cell of the dataset, and then anomaly and thickness of each cell are those of the cell with the same labels.", "quantifier": "all datasets, references, labels, equations of state and domains", "why_tests_cant": "All pairs of labellings; the tests always use a reference made from the same dataset.", "anchors": ["src/momlevel/steric.py:steric", "src/momlevel/derived.py:calc_rho"]}
{"id": "C113", "title": "A global height is finite or refused when labels differ", "statement": "On finite positive fields the global steric height is finite, whatever the labels of the dataset and of the supplied reference; a reference that does not cover the cells of the dataset is refused.", "quantifier": "all datasets, references and labels", "why_tests_cant": "All pairs of labellings; the tests always use a reference made from the same dataset.", "anchors": ["src/momlevel/steric.py:steric", "src/momlevel/derived.py:calc_masso"]}
{"id": "C114", "title": "Results carry the units they are labelled with", "statement": "Rewriting all inputs in other units of length, time and mass multiplies the result by the factor its own units attribute prescribes: relative vorticity, mass, volume, mean density, Rossby radius, potential vorticity, wave speed (columns whose surface N2 is positive or missing) and layer thickness (fractions do not change); exceptions are the same.", "quantifier": "all positive unit factors, fields, grids and options", "why_tests_cant": "All unit systems; the tests use one set of units and check few attributes.", "anchors": ["src/momlevel/derived.py:calc_rel_vort", "src/momlevel/derived.py:calc_masso", "src/momlevel/derived.py:calc_volo", "src/momlevel/derived.py:calc_rhoga", "src/momlevel/derived.py:calc_rossby_rd", "src/momlevel/derived.py:calc_pv", "src/momlevel/derived.py:calc_wave_speed", "src/momlevel/derived.py:calc_dz"]}
{"id": "C115", "title": "Potential vorticity in cm denotes the same quantity", "statement": "With units='cm', each number times the units attribute of the result is the absolute value of the potential vorticity that units='m' gives.", "quantifier": "all fields, grids and options", "why_tests_cant": "All values; the tests compare sums with stored numbers and do not read the attribute.", "anchors": ["src/momlevel/derived.py:calc_pv"]}
{"id": "C116", "title": "Every derived field is described", "statement": "Every DataArray returned by the functions of derived.py and dynamic.py that sets attributes has a non-empty long_name and units.", "quantifier": "all functions, equations of state, levels and options", "why_tests_cant": "The tests do not read these attributes.", "anchors": ["src/momlevel/derived.py:calc_rossby_rd", "src/momlevel/derived.py:calc_wave_speed", "src/momlevel/dynamic.py:inverse_barometer"]}
{"id": "C117", "title": "Sea level in pieces", "statement": "With a supplied reference state, the heights that steric computes from a selection along a horizontal or time dimension of all inputs are that selection of the heights computed from everything. For the time dimension the reference needs no selection, and this also holds for domain='global'.", "quantifier": "all datasets, references, equations of state, variants, dimensions and selections (subsets, reorderings, repetitions), of any size", "why_tests_cant": "Processing a long record in chunks must give the same numbers for every way to cut it; the tests run on one 5-step record.", "anchors": ["src/momlevel/steric.py:steric"]}
{"id": "C118", "title": "Derived fields in pieces", "statement": "Density, expansion coefficients, potential density, N2, stability angle, layer thickness, wave speed, Rossby radius, total mass, vorticity, potential vorticity and inverse barometer, computed from a selection along a dimension over which they are not differentiated or summed, equal that selection of the field computed from everything. Calls that fail also fail on the selection with the same error.", "quantifier": "all inputs, dimensions and selections", "why_tests_cant": "All ways to cut the inputs; the tests use one fixed array per function.", "anchors": ["src/momlevel/derived.py:calc_rho", "src/momlevel/derived.py:calc_n2", "src/momlevel/derived.py:calc_dz", "src/momlevel/derived.py:calc_pv", "src/momlevel/derived.py:calc_masso", "src/momlevel/dynamic.py:inverse_barometer"]}
{"id": "C119", "title": "Time series at a point depend on that point only", "statement": "annual_average, annual_cycle, monthly_average, calc_linear_trend, the detrended series and seasonal_model of a selection of points are that selection of the results for all points; errors are the same.", "quantifier": "all fields, axes, selections along any non-time dimension, modes and reductions", "why_tests_cant": "All fields and selections; the tests check sums over one random field.", "anchors": ["src/momlevel/util.py:annual_average", "src/momlevel/util.py:annual_cycle", "src/momlevel/util.py:monthly_average", "src/momlevel/trend.py:calc_linear_trend", "src/momlevel/trend.py:linear_detrend", "src/momlevel/trend.py:seasonal_model"]}
{"id": "C120", "title": "Averages depend neither on the order of the samples nor on other years", "statement": "Permuting the samples changes none of annual_average, monthly_average and annual_cycle (with a given label year). The annual means of a selection of whole years are those of the full record, with the same time stamps.", "quantifier": "all records, fields with missing or infinite values, permutations and selections of years", "why_tests_cant": "All permutations and subsets of all records.", "anchors": ["src/momlevel/util.py:annual_average", "src/momlevel/util.py:annual_cycle", "src/momlevel/util.py:monthly_average"]}
{"id": "C121", "title": "coord_dict replaces only the grid names it mentions", "statement": "calc_rel_vort and calc_pv give the same result for a coord_dict that names some of the four grid positions as for the dictionary completed with the MOM6 names (xh, yh, xq, yq); no coord_dict means those four names, and a name that is not a dimension of the data is refused.", "quantifier": "all datasets, variable maps, coordinate dictionaries and grid symmetries", "why_tests_cant": "The tests only use the default names; the dictionary may name any subset of the positions.", "anchors": ["src/momlevel/util.py:get_xgcm_grid", "src/momlevel/derived.py:calc_rel_vort", "src/momlevel/derived.py:calc_pv"]}
{"id": "C122", "title": "Every potential vorticity has one colour", "statement": "The levels and colours that get_pv_colormap returns assign exactly one level interval, and a colour for it, to every non-negative value.", "quantifier": "all real values v >= 0", "why_tests_cant": "The values are a continuum; a test looks at the lengths of the lists or at a few values.", "anchors": ["src/momlevel/util.py:get_pv_colormap"]}
{"id": "C123", "title": "Global and local heights agree", "statement": "If the volume of every wet cell is its area times its thickness, then the global height of any variant, multiplied by a density that lies between the mean densities of the reference and of the changed ocean, equals rhozero times the area mean of the local heights; in particular both have the same sign and vanish together.", "quantifier": "all datasets in the usual layout with any sizes and dimension names, either equation of state, all three variants, every reference time", "why_tests_cant": "It relates a logarithm of total masses to a sum over all columns; tests only compare stored numbers for one random dataset.", "anchors": ["src/momlevel/steric.py:steric", "src/momlevel/derived.py:calc_masso", "src/momlevel/derived.py:calc_dz"]}
{"id": "C124", "title": "Annual heights and annual density anomalies belong together", "statement": "With annual=True the averaged local height is -(1/rhozero) times the sum over the levels of the layer thickness times the averaged delta_rho, and missing exactly on land: the two averaged output variables satisfy the formula that the monthly ones satisfy.", "quantifier": "all datasets, calendars, years, variants, equations of state and columns whose gaps are the same at all times", "why_tests_cant": "Averaging skips missing months with renormalised weights, so commutation with the vertical sum depends on the pattern of gaps over all inputs.", "anchors": ["src/momlevel/steric.py:steric", "src/momlevel/util.py:annual_average"]}
{"id": "C125", "title": "With the linear equation of state averaging before or after makes no difference", "statement": "For the linear equation of state and a given reference state, the annual averages of delta_rho and of the local height equal the delta_rho and the height computed from annual averages of temperature and salinity, for each variant.", "quantifier": "all datasets, calendars, years, variants and columns whose gaps are the same at all times", "why_tests_cant": "Equality of two programs over all temperature and salinity histories.", "anchors": ["src/momlevel/steric.py:steric", "src/momlevel/util.py:annual_average", "src/momlevel/eos/linear.py:density"]}
{"id": "C126", "title": "The labels of averages survive being written as text", "statement": "annual_average, annual_cycle and monthly_average write the year into a string and read it back; for the years 1 to 9999 the labels have the year of the data, also years with fewer than four digits; for negative years and years from 10000 no result is returned but ValueError.", "quantifier": "all records, calendars, fields and years", "why_tests_cant": "Tests use years of four digits only; model years below 1000 are usual in control runs.", "anchors": ["src/momlevel/util.py:annual_average", "src/momlevel/util.py:annual_cycle", "src/momlevel/util.py:monthly_average"]}
{"id": "C127", "title": "Test time axes can start in any year", "statement": "generate_time_stub and generate_test_data_time return an axis that starts on January 1 of start_year, as generate_daily_timeaxis does.", "quantifier": "all positive start years, lengths, calendars and both frequencies", "why_tests_cant": "Tests only use the start year 1981.", "anchors": ["src/momlevel/test_data/time.py:generate_time_stub", "src/momlevel/test_data/time.py:generate_test_data_time"]}
{"id": "C128", "title": "The wet mask is matched to the grid by dimension name", "statement": "extract_tidegauge with a mask whose dimensions are listed in another order than those of the coordinates selects the same wet cells.", "quantifier": "all grids, labels, masks and sites", "why_tests_cant": "The only test uses a mask in the order of the coordinates.", "anchors": ["src/momlevel/tidegauge.py:extract_tidegauge", "src/momlevel/util.py:geolocate_points"]}
{"id": "C129", "title": "An extracted series says where it comes from", "statement": "Every variable returned by extract_tidegauge carries as attributes the site name, the position of the site, the position, labels and dimension names of the very cell whose values it holds, and the distance between the two; other csv columns and attributes of the array are kept unless they bear one of these names.", "quantifier": "all grids, masks, sites, thresholds, csv columns and attributes", "why_tests_cant": "Tests compare sums of values and never look at the attributes.", "anchors": ["src/momlevel/tidegauge.py:extract_point", "src/momlevel/tidegauge.py:extract_tidegauge", "src/momlevel/util.py:geolocate_points"]}
{"id": "C130", "title": "Averages over time are accurate in double precision", "statement": "In binary64 arithmetic, whatever the order of the additions and with or without fused multiply-adds, annual_average returns NaN exactly when every month of the year is missing, and otherwise a finite number within 15 * 2^-53 * B (+ 2^-1075) of the exact weighted mean, B being the largest absolute value of the year; annual_cycle(func='mean') is accurate in the same way.", "quantifier": "all time axes, calendars, series of finite or missing values up to 1e300 and summation orders", "why_tests_cant": "Tests compare sums of results on one machine to a tolerance; they cannot cover all data, summation orders and instruction sets.", "anchors": ["src/momlevel/util.py:annual_average", "src/momlevel/util.py:annual_cycle"]}
{"id": "C131", "title": "The annual mean of a constant is that constant in double precision", "statement": "If all twelve monthly values of a year are the same finite number, annual_average computed in binary64 returns exactly that number.", "quantifier": "all calendars, time axes and finite values up to 1e300", "why_tests_cant": "Tests use random fields and compare sums to a tolerance.", "anchors": ["src/momlevel/util.py:annual_average"]}
{"id": "C132", "title": "Time conversion factors are accurate in double precision", "statement": "For lengths of the month and the year between 0.001 and 1000000 days, time_conversion_factor computed in binary64 returns, for two recognised units, a finite number within 5 * 2^-53 relative of the ratio of their lengths, and raises AssertionError exactly when one of the units is not recognised.", "quantifier": "all unit strings and all binary64 lengths of the month and the year in the range", "why_tests_cant": "Tests evaluate a few pairs of units with the default lengths.", "anchors": ["src/momlevel/trend.py:time_conversion_factor"]}
{"id": "C133", "title": "Time conversion factors of whole ratios are exact in double precision", "statement": "Computed in binary64, the factor from a unit to itself is exactly one and the factors between units of fixed length are the exact whole ratios (60 seconds per minute).", "quantifier": "all recognised units and lengths of the month and the year", "why_tests_cant": "Tests compare with a tolerance and use the default lengths.", "anchors": ["src/momlevel/trend.py:time_conversion_factor"]}
{"id": "C134", "title": "Tide gauges are located on the coordinate arrays that were passed", "statement": "extract_tidegauge compares the sites with the values of the x and y arrays that were passed (or taken from the array by name), whatever coordinates are attached to those arrays or to the wet mask.", "quantifier": "all coordinate arrays of rank other than one, attached coordinates, masks, site tables and thresholds", "why_tests_cant": "Tests pass coordinate names of one data set, whose attached coordinates equal the arrays themselves.", "anchors": ["src/momlevel/tidegauge.py:extract_tidegauge", "src/momlevel/util.py:geolocate_points", "src/momlevel/util.py:validate_tidegauge_data"]}
{"id": "C135", "title": "Averages over time are linear and monotone", "statement": "For two fields on the same time axis that are missing at the same samples, annual_average, monthly_average and annual_cycle(func='mean') of k*a + l*b equal k times the average of a plus l times the average of b; when a <= b at every sample the averages, and the minima and maxima of the annual cycle, are in the same order. All results have the same time axis.", "quantifier": "all time axes, calendars, fields without infinities and real factors", "why_tests_cant": "Tests average a few random fields.", "anchors": ["src/momlevel/util.py:annual_average", "src/momlevel/util.py:monthly_average", "src/momlevel/util.py:annual_cycle"]}
{"id": "C136", "title": "The spread of the annual cycle scales with the data", "statement": "annual_cycle(func='std') of k*a + c equals |k| times annual_cycle(func='std') of a, missing where that is missing, so that a change of units or of the zero point does not alter the spread.", "quantifier": "all time axes, calendars, fields without infinities, factors and offsets", "why_tests_cant": "Tests compute the spread of single fields.", "anchors": ["src/momlevel/util.py:annual_cycle"]}
{"id": "C137", "title": "Seasonal fits are linear in the data", "statement": "For two fields on the same dimensions, seasonal_model and deseason (residuals, model and coefficients) of k*a + l*b equal k times the result for a plus l times the result for b at every point whose two series are finite, whatever the chunks of a and b. Adding a constant, a trend, an annual and a semiannual harmonic at deseason's own decimal time to a series does not change the residuals of deseason.", "quantifier": "all time axes, calendars, dimensions, chunkings, finite series and real factors", "why_tests_cant": "Tests fit single fields, so a defect in the fit that depends on the size of the data or mixes points would go unseen.", "anchors": ["src/momlevel/trend.py:seasonal_model", "src/momlevel/trend.py:deseason"]}
{"id": "C138", "title": "Local steric height of single precision data", "statement": "With temperature and salinity in single precision, as ocean models write them, the local steric height of a column of sea water is accurate to a tenth of a millimetre and has the right sign.", "quantifier": "all columns of at most 1000 levels and 12000 m of water with binary32 temperature and salinity in the ocean range, every order of summation", "why_tests_cant": "The rounding errors of the density are coherent over a water column only for particular values of temperature and salinity.", "anchors": ["src/momlevel/steric.py:steric", "src/momlevel/eos/wright.py:density"]}
{"id": "C139", "title": "Density reacts to temperature and salinity within known limits", "statement": "For every temperature from -2 to 40 degC, salinity from 0 to 42 and pressure from 0 to 12000 dbar the Wright density changes by at most 0.5 kg/m3 downwards and 0.12 kg/m3 upwards per degree and by 0.65 to 0.83 kg/m3 per unit of salinity; the expansion and contraction coefficients lie in the corresponding ranges; and the effect of changing both differs from the sum of the two separate effects by at most 0.0051 kg/m3 per degree and unit of salinity.", "quantifier": "all temperatures, salinities and pressures of the ocean range, and all pairs of such states at one pressure", "why_tests_cant": "The claim is about every state and every finite change, including the corners of the range; it rests on bounds of polynomials of degree six over a box, not on sampled values.", "anchors": ["src/momlevel/eos/wright.py:drho_dtemp", "src/momlevel/eos/wright.py:drho_dsal", "src/momlevel/eos/wright.py:alpha", "src/momlevel/eos/wright.py:beta", "src/momlevel/eos/wright.py:density"]}
{"id": "C140", "title": "Sea level changes no more than the ocean does", "statement": "With the Wright equation every local steric, thermosteric or halosteric height is bounded by the thickness-weighted sum of 0.5 kg/m3 per degree of temperature change and 0.83 kg/m3 per unit of salinity change, divided by rhozero; and freshening of a column raises its halosteric height by between 0.65 and 0.83 kg/m3 per unit of salinity.", "quantifier": "all datasets, reference states, columns, times and variants for which steric returns and the contributing levels are in the ocean range", "why_tests_cant": "It relates the output to the input for every water column, whatever the number of levels, partial bottom cells and missing values.", "anchors": ["src/momlevel/steric.py:steric", "src/momlevel/steric.py:thermosteric", "src/momlevel/steric.py:halosteric"]}
{"id": "C141", "title": "Thermosteric and halosteric heights nearly add up", "statement": "With the Wright equation the local steric height differs from the sum of the thermosteric and the halosteric height by at most 0.0051 / rhozero times the thickness-weighted sum of the products of the temperature and the salinity changes.", "quantifier": "all datasets, reference states, columns and times for which the three functions return, temperature and salinity are missing together and the contributing levels are in the ocean range", "why_tests_cant": "The nonlinear remainder must be bounded for every profile; a test can only compare the three results on a few fields.", "anchors": ["src/momlevel/steric.py:steric", "src/momlevel/steric.py:thermosteric", "src/momlevel/steric.py:halosteric", "src/momlevel/eos/wright.py:density"]}
{"id": "C142", "title": "Global mean sea level changes no more than the ocean does", "statement": "With the Wright equation the global steric, thermosteric and halosteric heights are bounded by the volume-weighted changes of temperature (0.5 kg/m3 per degree) and salinity (0.83 kg/m3 per unit) divided by 980 kg/m3 and the ocean area; freshening raises the global halosteric height by at least 0.65/1100 and at most 0.83/980 of the volume-weighted freshening per area; and the steric height differs from the sum of the two others by terms of second order only.", "quantifier": "all regular datasets, times and reference times whose wet cells hold sea water within the ocean range", "why_tests_cant": "It bounds the logarithm of a ratio of two sums over the whole grid for every size of grid and every field; a test evaluates one grid.", "anchors": ["src/momlevel/steric.py:steric", "src/momlevel/steric.py:thermosteric", "src/momlevel/steric.py:halosteric", "src/momlevel/reference.py:setup_reference_state"]}
{"id": "C143", "title": "A trend in time is per the unit asked for and labelled so", "statement": "On any axis of dates calc_linear_trend(time_units=w) returns the slope per w with units '<units of the data> w-1', and broadcast_trend converts a slope labelled '<units> w-1' accordingly.", "quantifier": "all series, date axes (cftime or numpy datetimes) and time units", "why_tests_cant": "The tests use one cftime axis; the kind of index, the unit and the units attribute vary independently.", "anchors": ["src/momlevel/trend.py:calc_linear_trend", "src/momlevel/trend.py:broadcast_trend"]}
{"id": "C144", "title": "Attributes of trends and seasonal models", "statement": "Slope and intercept carry exactly the attributes of the data apart from the comment naming them and the units of the slope; the seasonal model and residuals carry exactly a standard name, a long name and units derived from those of the data.", "quantifier": "all arrays, attributes, axes and time units for which the functions return", "why_tests_cant": "Attributes are arbitrary dictionaries, present or absent in any combination.", "anchors": ["src/momlevel/trend.py:calc_linear_trend", "src/momlevel/trend.py:seasonal_model"]}
{"id": "C145", "title": "A stratified water column has a stability angle", "statement": "calc_stability_angle gives a number wherever temperature, salinity and their gradients are known and the column is stratified (N2 > 0), whatever the share of temperature and salinity in the stratification.", "quantifier": "all columns, equations of state and pressures", "why_tests_cant": "The tests compare a few sums over random profiles, in which the temperature gradient is never exactly zero.", "anchors": ["src/momlevel/derived.py:calc_stability_angle"]}
{"id": "C146", "title": "Geolocation responds sensibly to the threshold, to the grid and to the position of the sites", "statement": "A larger threshold only adds sites and keeps the matches of the others; a grid with more selectable points loses no site and brings none farther from its match; moving a site by an angle d changes its distance by at most r*d.", "quantifier": "all frames of grid points and sites, masks, thresholds, radii and nearest-neighbour searches meeting the specification of BallTree", "why_tests_cant": "The claim compares two runs over arbitrary pairs of inputs; the tests run one grid with one threshold.", "anchors": ["src/momlevel/util.py:geolocate_points"]}
{"id": "C147", "title": "How the wave speed depends on stratification and layering", "statement": "Multiplying N2 by a and all thicknesses by b multiplies the wave speed by sqrt(a)*b; thicker layers never give a slower wave; and dividing layers into thinner ones of the same N2 (including those whose negative N2 is replaced from above) does not change the wave speed.", "quantifier": "all columns, numbers of layers, factors and ways of dividing the layers", "why_tests_cant": "Relations between arbitrary columns, including unstable and missing layers.", "anchors": ["src/momlevel/derived.py:calc_wave_speed", "src/momlevel/derived.py:adjust_negative_n2"]}
{"id": "C148", "title": "Accuracy of the inverse barometer in binary64", "statement": "At every ocean surface state (-2..40 degC, 0..42 psu) and surface pressure up to 2 bar, inverse_barometer computed in IEEE binary64 is within 1.4e-13 m of the exact height, with either equation of state, also for the default gravity 9.8 (not a binary64 number); missing inputs give a missing height.", "quantifier": "all binary64 temperatures, salinities, pressures and gravities in the range", "why_tests_cant": "Rounding errors of all binary64 inputs.", "anchors": ["src/momlevel/dynamic.py:inverse_barometer"]}
{"id": "C149", "title": "Monthly averages of any record", "statement": "monthly_average returns twelve times per sampled year, in order; each is the mean of the valid samples of its month in its year (missing when there is none), labelled with the middle of that month; it raises exactly when some sampled year lacks samples in some month; in binary64 each mean is within (k+1) rounding errors of the exact one.", "quantifier": "all records (any sampling, order and number of years), calendars, gaps and orders of summation", "why_tests_cant": "The tests average one daily record.", "anchors": ["src/momlevel/util.py:monthly_average"]}
{"id": "C150", "title": "Vertical derivatives and the squared buoyancy frequency are accurate in binary64", "statement": "For any column of binary64 numbers on increasing levels at least h apart, numpy.gradient with second-order edges, as xarray's differentiate calls it, returns at every level a finite number within 60 roundings (60 * 2^-53) of M/h of the exact derivative, where M bounds the values; this holds whether or not numpy takes its constant-step branch. For temperature in [-2,40], salinity in [0,42], depths in [0,11900] m and surface pressure up to 110000 Pa, the value calc_n2 computes with the Wright equation of state differs from the exact one by at most 5.5e-16 |dT/dz| + 2.5e-16 |dS/dz| + 6e-15/h, so its sign is right wherever |N2| exceeds 2.1e-13/h.", "quantifier": "for all numbers of levels (at least 3), all increasing binary64 coordinates with steps between 2^-100 and 2^100, all binary64 profiles, all levels, all gravities of magnitude at most 10", "why_tests_cant": "the rounding error depends on every bit of the coordinate and of the data; the branch for constant steps is taken when the rounded differences agree, even if the exact ones do not, and no finite set of columns covers the combinations.", "anchors": ["src/momlevel/derived.py:calc_n2"]}
{"id": "C151", "title": "A homogeneous column has zero buoyancy frequency", "statement": "A column of constant temperature and salinity has N2 = 0 at every level. True in exact arithmetic. False in binary64: on unequal levels the three weights of numpy's difference formula do not cancel, so the value is a small number of either sign (water of 10 degrees and salinity 35 at 5, 15 and 30 m is unstable at the first level and stable at the last). What holds: the magnitude is at most 6e-15/h, where h is the smallest step.", "quantifier": "for all constant temperatures in [-2,40] and salinities in [0,42], all levels at least h apart, all positions", "why_tests_cant": "the residual depends on the rounding of each weight; on equally spaced levels, as in the test data, it is exactly zero.", "anchors": ["src/momlevel/derived.py:calc_n2"]}
{"id": "C152", "title": "Wave speed and Rossby radius are accurate in binary64", "statement": "In binary64 arithmetic the adjusted buoyancy frequency is exactly the value the exact adjustment selects (or 1e-8 rounded once). With numpy's square root, value of pi and any order of summation, the computed wave speed differs from the exact one by a relative error of at most (k+5) times 1.12e-16, where k is the largest number of additions any layer passes through; the Rossby radius by (k+6) times as much; both are missing or infinite where the exact ones are.", "quantifier": "For all columns of up to a million levels whose squared frequencies are missing or any number up to 2^100 and whose layers are missing, empty or between 2^-100 and 2^100 thick, all summation orders with at most a million additions per number, all Coriolis parameters of size 2^-100 to 2^100 or zero.", "why_tests_cant": "A test compares a few columns in one order of summation; the claim is for every column, including subnormal frequencies, and every order.", "anchors": ["src/momlevel/derived.py:calc_wave_speed", "src/momlevel/derived.py:calc_rossby_rd", "src/momlevel/derived.py:adjust_negative_n2"]}
{"id": "C153", "title": "Vorticity and potential vorticity are accurate in binary64", "statement": "In binary64 arithmetic the computed relative vorticity at every corner, boundary corners included, differs from the exact one by at most 4.5e-16 times the sum of the sizes of the four products u*dx, v*dy around the corner divided by the area (plus 2^-900); it is exactly zero at interior corners of a uniform flow on a uniform grid. Potential vorticity with buoyancy frequency at the corners has a relative error of at most 3.4e-16 (5.6e-16 in cm units); with interpolated buoyancy frequency the error is at most 7.8e-16 (1.01e-15) times the absolute vorticity times the mean size of the four frequencies over gravity.", "quantifier": "For all grids, symmetric or not, all corners, all finite velocities, lengths, Coriolis parameters and frequencies of size up to 2^100, all areas and gravities of size at least 2^-100.", "why_tests_cant": "A test compares a few corners with a tolerance that hides or exaggerates cancellation; the bound holds for every corner and states exactly what cancellation costs.", "anchors": ["src/momlevel/derived.py:calc_rel_vort", "src/momlevel/derived.py:calc_pv"]}
{"id": "C154", "title": "Irrotational flow has no computed vorticity", "statement": "If the products u*dx and v*dy around an interior corner are differences of a potential, the vorticity computed in binary64 is zero. This fails: products that are rounded leave a vorticity; it is bounded by 4.5e-16 times the size of the four products over the area and it is zero whenever the four products and their difference are binary64 numbers.", "quantifier": "For all potentials, grids and interior corners, all velocities and lengths of size up to 2^100 and areas of at least 2^-100.", "why_tests_cant": "The failure needs particular digits; the bound and the exact case quantify over all flows.", "anchors": ["src/momlevel/derived.py:calc_rel_vort"]}
{"id": "C155", "title": "Generated test datasets are consistent", "statement": "In every dataset made by generate_test_data, generate_test_data_uv and generate_test_data_dz each dimension has one size throughout, every axis variable lies on its own dimension, the corner axes xq and yq have as many points as the centres and lie half a cell after them, and the variables are exactly those whose attributes are set.", "quantifier": "For all numbers of years and times, all calendars and all random fields (area fields with nonzero sum).", "why_tests_cant": "The random fields and the number of times are arbitrary; a test sees one seed and one length.", "anchors": ["src/momlevel/test_data/__init__.py:generate_test_data", "src/momlevel/test_data/__init__.py:generate_test_data_uv", "src/momlevel/test_data/__init__.py:generate_test_data_dz"]}
{"id": "C156", "title": "Attributes refer to variables of the same dataset", "statement": "Every variable named by a bounds, edges, cell_measures or time_avg_info attribute is in the dataset, for generated test data, for the reference state of such a dataset and for the result of steric. This fails: generated data with nyears=0 refer to time_bnds and average_T1, average_T2, average_DT, which are only made for nyears>=1; the reference keeps time_avg_info of thetao, so and volcello but not its targets; the heights keep the bounds attribute of time without time_bnds. For nyears>=1 generated data are self-contained, a reference state has dangling references exactly where a copied attribute names something other than its eight variables and the kept coordinates, and in the result of steric only coordinates are concerned.", "quantifier": "For all numbers of years and calendars; for all datasets, kept coordinates, equations of state, variants, domains and dtypes.", "why_tests_cant": "Tests compare values, not references between variables, and only for the datasets at hand.", "anchors": ["src/momlevel/test_data/__init__.py:generate_test_data", "src/momlevel/test_data/__init__.py:generate_test_data_uv", "src/momlevel/reference.py:setup_reference_state", "src/momlevel/steric.py:steric"]}
{"id": "C157", "title": "Volume, mass and mean density in binary64", "statement": "Computed in binary64, in any order of summation, the ocean volume, the ocean mass and the mean density differ from the exact sums over the cells by relative errors of k, k+1 and 2k+2 units of 1.12e-16, where no number passes through more than k additions. The mean density lies between the smallest and the largest density of the cells. The latter fails: one cell of density 1020.7 and volume 74388 has a mean density above 1020.7. The mean leaves the range by a relative (2k+2) 1.12e-16 at most.", "quantifier": "For all arrays of densities and volumes (missing, zero or between 2^-100 and 2^100), all orders of summation with up to 500000 additions in sequence, and all ranges of density.", "why_tests_cant": "Tests compare with a tolerance on one random dataset; the error depends on the order of summation, which numpy and dask choose by array size and chunks.", "anchors": ["src/momlevel/derived.py:calc_volo", "src/momlevel/derived.py:calc_masso", "src/momlevel/derived.py:calc_rhoga"]}
{"id": "C158", "title": "Attributes of density, expansion coefficients, stability angle and barometric height agree with their values", "statement": "The comment of a density, potential density, thermal expansion or haline contraction names, up to capitals, the equation of state whose formula gave its values; the coefficient that is the relative derivative of density with temperature has the units of one over the temperature of the test data, and the one with salinity one over its salinity, up to capitals; the stability angle divided by a full turn in the unit its attributes name is the angle whose tangent is (a T_z + b S_z)/(a T_z - b S_z); the inverse barometer height, in the unit its attributes name, satisfies the hydrostatic relation with pressure in pascal and density in the unit of the density, in every system of units.", "quantifier": "For all arrays, all accepted names of an equation of state, all levels, and all temperatures, salinities and pressures at which the density is a nonzero number.", "why_tests_cant": "Tests do not read the comment or units of these results; the name may be written in any capitals.", "anchors": ["src/momlevel/derived.py:calc_alpha", "src/momlevel/derived.py:calc_beta", "src/momlevel/derived.py:calc_rho", "src/momlevel/derived.py:calc_pdens", "src/momlevel/derived.py:calc_stability_angle", "src/momlevel/dynamic.py:inverse_barometer"]}
{"id": "C159", "title": "The Coriolis parameter in binary64", "statement": "Computed in binary64 with any sine whose relative error is at most 2^-50, the Coriolis parameter of every latitude (zero, or at least 2^-900 degrees) is finite, differs from the exact one by at most 2.7e-15 of it, has the sign of the latitude and is zero exactly on the equator, exceeds twice the rate of rotation by at most that relative error, and is opposite at opposite latitudes if the sine is odd.", "quantifier": "For all binary64 latitudes between the poles and all sines of the stated accuracy.", "why_tests_cant": "Tests evaluate the function at a few latitudes on one machine, with one implementation of the sine.", "anchors": ["src/momlevel/derived.py:calc_coriolis"]}
{"id": "C160", "title": "The computed Coriolis parameter increases strictly with latitude", "statement": "Of two binary64 latitudes between the poles the larger one has the larger computed Coriolis parameter.", "quantifier": "For all pairs of binary64 latitudes and all sines with a relative error of at most 2^-50.", "why_tests_cant": "The failures are pairs of neighbouring numbers next to the poles.", "anchors": ["src/momlevel/derived.py:calc_coriolis"]}
{"id": "C161", "title": "Cell areas in binary64", "statement": "Computed in binary64 with any sine of absolute error at most 2^-50, every cell area of a grid between the poles is finite and within an explicit distance of the exact area of the same centres; with rows and columns of at least a thousandth of a degree it is positive with a relative error of at most 1.6e-10/dlat^2 + 3e-13/dlon (degrees); the cells of a uniform global grid of n rows and m columns add up to 4 pi r^2 up to a relative error of 3e-15 n + 1e-15 m + 1e-27 n m.", "quantifier": "For all numbers of rows and columns, all binary64 centres with cells inside the sphere, either direction, all radii between 1 and 1e9 and all sines of the stated accuracy.", "why_tests_cant": "Tests check one grid against stored numbers; the cancellation between the sines is worst in the polar rows of fine grids.", "anchors": ["src/momlevel/util.py:standard_grid_cell_area"]}
{"id": "C162", "title": "annual_cycle and monthly_average keep attributes", "statement": "Like annual_average, annual_cycle and monthly_average return averaged variables with the attributes (units, long_name) of the variables they average, the attributes of the Dataset, and the attributes of the time coordinate.", "quantifier": "For all Datasets and DataArrays, whatever their variables, coordinates and attributes, and either setting of xarray's keep_attrs option.", "why_tests_cant": "The tests compare values; none of them looks at an attribute of a climatology, and a dictionary of attributes can have any content.", "anchors": ["src/momlevel/util.py:annual_cycle", "src/momlevel/util.py:monthly_average"]}
{"id": "C163", "title": "Spiciness in double precision", "statement": "Computed in binary64, with third to fifth powers accurate to 2^-50 and the thirty terms added in any order, the spiciness of water differs from the exact polynomial by at most 6.4e-15 times the sum of the absolute values of its terms (1e-12 between -32 and 32 degrees and 30 and 40 psu, so that water spicier by 2e-12 is computed to be spicier), is exactly zero at 0 degrees and 35 psu, and is missing where temperature or salinity is missing.", "quantifier": "For all binary64 temperatures and salinities up to 100 in absolute value, all power functions of the stated accuracy and all orders and associations of the additions.", "why_tests_cant": "Tests compare a few values on one machine with a tolerance; terms of the polynomial are a hundred times larger than their sum, so the error depends on temperature and salinity.", "anchors": ["src/momlevel/spice/flament.py:spice", "src/momlevel/derived.py:calc_spice"]}
{"id": "C164", "title": "Stability angle in double precision", "statement": "Computed in binary64, the stability (Turner) angle differs by at most 1.1e-13 degrees from the angle between -90 and 90 degrees whose tangent is the sum of the contributions of temperature and salinity to the stratification divided by their difference, unless the two contributions agree to 1e-15; it is missing where the contribution of temperature is zero, whatever the salinity.", "quantifier": "For all binary64 expansion coefficients and gradients that are zero or between 2^-200 and 2^200 in size, and all inverse tangents with an error of at most 2^-50.", "why_tests_cant": "Tests compare a few values with a tolerance; the sum and difference of the contributions cancel near the ends of the range, where the error could be unbounded, and only an error analysis shows that it is not.", "anchors": ["src/momlevel/derived.py:calc_stability_angle"]}
{"id": "C165", "title": "Side of 45 degrees of the computed stability angle", "statement": "In binary64 the stability angle is strictly between -45 and 45 degrees exactly when temperature and salinity contribute to the stratification with opposite signs.", "quantifier": "For all binary64 expansion coefficients and gradients that are zero or between 2^-200 and 2^200 in size, and all inverse tangents with an error of at most 2^-50 that do not decrease and are correctly rounded at 1 and -1.", "why_tests_cant": "The statement can only fail for contributions more than fourteen orders of magnitude apart or through an unlucky rounding, which no list of sample values explores.", "anchors": ["src/momlevel/derived.py:calc_stability_angle"]}
{"id": "C166", "title": "Broadcast and removed trends in double precision", "statement": "Computed in binary64, a slope per recognised unit of time broadcast along times in nanoseconds is their product within 12 units of relative rounding (2^-53); relative to the first time it is exactly zero there; a slope per nanosecond converted to any unit and broadcast again gives the same line within 22 units; and subtracting a fitted line adds at most 3.1 units of the sizes of data, line and intercept. Missing values stay missing and unrecognised units are rejected.", "quantifier": "For all recognised units, all slopes, intercepts, times and data that are zero or between 2^-200 and 2^200 in size, and both modes of detrending.", "why_tests_cant": "Tests use one record and one unit with a tolerance; the conversion factors are inexact for months, and errors grow with the distance of the record from 1970.", "anchors": ["src/momlevel/trend.py:broadcast_trend", "src/momlevel/trend.py:calc_linear_trend", "src/momlevel/trend.py:_detrend_array"]}
{"id": "C167", "title": "Distances and nearest grid points in double precision", "statement": "Computed in binary64, the haversine distance of a site and a grid point at most a quarter of the circumference away is the great-circle distance within 1e-13 earth radii; the grid point of least reduced distance always exists and no other grid point is nearer by more than 2e-13 radians; and the threshold keeps every site nearer and drops every site farther than it, except within 1e-13 radii of the threshold; a computed distance equal to the threshold is kept.", "quantifier": "For all finite latitudes up to 90 and longitudes up to 360 degrees in size, all nonempty lists of grid points, all radii from 1 to 2^100, all thresholds, and all sine, cosine and arcsine functions accurate to 2^-50 with a nonnegative cosine on [-pi/2, pi/2].", "why_tests_cant": "Rounding errors depend on the positions; cancellation for neighbouring points and near the poles, and sites equally far from two grid points, are not found by a few station lists.", "anchors": ["src/momlevel/util.py:geolocate_points"]}
{"id": "C168", "title": "Units, edges and cell methods of generated test data", "statement": "In generated data every variable with a standard name has the units of that quantity, every axis has the units of its direction (depths counting downwards), the geographic coordinates, cell widths and the Coriolis parameter have theirs, and the time axis names the calendar it was made with. The edges of the depth axis are one more than its levels, which lie midway between them. Cell methods name only dimensions of their variable besides time and area, and for quantities with a standard name all of them.", "quantifier": "For all numbers of years and times, all calendars and all random fields.", "why_tests_cant": "Tests compare values; no test reads the attributes, and the calendar and the numbers of years are arbitrary.", "anchors": ["src/momlevel/test_data/__init__.py:generate_test_data", "src/momlevel/test_data/__init__.py:generate_test_data_uv"]}
{"id": "C169", "title": "Validation of the cell area in double precision", "statement": "Computed in binary64, validate_areacello accepts every field whose total area deviates from the reference by less than the tolerance and rejects every other one, except when the relative deviation is within (k+3) 1.12e-16 (S/r+1) of the tolerance, where S is the exact total, r the reference and k the number of additions a cell goes through. With the defaults totals from 3.538888e14 to 3.683331e14 are accepted, and those up to 3.538886e14 or from 3.683332e14 are rejected. Sums that are not finite are rejected.", "quantifier": "For all fields of at most 2^100 cells that are missing, zero or between 2^-100 and 2^100, all orders of summation with at most 10^6 additions in a row, all references between 2^-100 and 2^100 and all tolerances.", "why_tests_cant": "The order of summation depends on the shape and on dask chunks; a test with one field cannot show that the decision does not depend on it.", "anchors": ["src/momlevel/util.py:validate_areacello"]}
{"id": "C170", "title": "Warnings say what was assumed", "statement": "broadcast_trend warns exactly when the axis holds cftime dates and the units of the slope name no inverse unit, and then the result is the one for a slope per nanosecond. Slopes from calc_linear_trend never cause this warning. linear_detrend warns exactly of datasets with time_bnds, average_T1, average_T2 or average_DT; the deprecated util.linear_detrend has the same result and one more warning. validate_dataset with strict=False warns of the area exactly when strict=True reports it as an error; no other check depends on strict.", "quantifier": "For all slopes, unit texts, index kinds, datasets, orders, modes and lists of additional variables.", "why_tests_cant": "A missing warning shows only for the unit text or the dataset that should cause it; no test in the repository looks at warnings.", "anchors": ["src/momlevel/trend.py:broadcast_trend", "src/momlevel/trend.py:linear_detrend", "src/momlevel/util.py:linear_detrend", "src/momlevel/util.py:validate_dataset"]}
{"id": "C171", "title": "Every gauge of a bundled list has its series", "statement": "With a bundled list and no threshold, extract_tidegauge returns one variable for every gauge of the list, the series of the wet cell nearest to that gauge.", "quantifier": "For all arrays, grids with at least one wet cell, masks and tie-breaking rules of the search; both bundled lists.", "why_tests_cant": "The tests use one grid and a threshold; whether a gauge is lost depends on the list, and that it is lost on every grid needs a proof.", "anchors": ["src/momlevel/tidegauge.py:extract_tidegauge"]}
{"id": "C172", "title": "A search with rounding errors finds the same grid points", "statement": "If the search may return any grid point at most eps radians farther than the nearest, geolocate_points maps every site to a valid grid point at most eps farther than the nearest valid one and reports the distance of that point. If for every site the nearest valid grid point is more than eps nearer than all others, the whole result (matches, distances, warnings, errors) is that of an exact search. In binary64 eps is 2e-13: the search finds the nearest grid point itself when every other one is more than 2e-13 radians farther.", "quantifier": "For all grids, masks, sites, thresholds, earth radii and searches accurate to eps; in binary64 for all grids and all sine and cosine functions accurate to 2^-50, nearest point at most a quarter of the circumference away.", "why_tests_cant": "Rounding errors depend on the platform; a test sees one grid on one platform.", "anchors": ["src/momlevel/util.py:geolocate_points"]}
{"id": "C173", "title": "Tide gauge series with a search that has rounding errors", "statement": "If the search may return any grid point at most eps radians farther than the nearest, extract_tidegauge gives every site the series of a wet cell at most eps farther than the nearest wet cell, keeps it exactly when the distance of that cell is within the threshold, and invents no sites. A site with a wet cell more than eps nearer than every other wet cell gets the series of that very cell.", "quantifier": "For all arrays, grids of rank other than one with unique labels, masks, site lists with distinct names, thresholds and searches accurate to eps.", "why_tests_cant": "Rounding errors depend on the platform; a test sees one grid on one platform.", "anchors": ["src/momlevel/tidegauge.py:extract_tidegauge", "src/momlevel/util.py:geolocate_points"]}
{"id": "C174", "title": "Thermosteric and halosteric heights in binary64", "statement": "Evaluated in IEEE binary64 and summed in any order, the steric height of a column differs from the sum of its thermosteric and halosteric heights by at most 9e-10 m plus 0.0051 / rhozero times the thickness-weighted sum of the products of the temperature and salinity changes; each of the heights is at most 3e-10 m plus 1 / rhozero times the thickness-weighted sum of 0.5 kg/m3 per degree and 0.83 kg/m3 per unit of salinity; and where no salinity has risen the halosteric height is between 0.65 and 0.83 kg/m3 per unit of freshening, up to 3e-10 m.", "quantifier": "For all columns of at most 1000 levels and 12000 m of sea water, all contents of dry cells and all orders of summation of the three sums.", "why_tests_cant": "Rounding errors depend on the data and the order of summation; a test sees a few columns on one platform.", "anchors": ["src/momlevel/steric.py:steric", "src/momlevel/steric.py:thermosteric", "src/momlevel/steric.py:halosteric"]}
{"id": "C175", "title": "Size, sign and additivity of the global steric height in binary64", "statement": "Evaluated in IEEE binary64, the global steric, thermosteric or halosteric height is at most (0.5 times the volume-weighted temperature change + 0.83 times the volume-weighted salinity change) / (980 times the ocean area); where no salinity has risen the halosteric height lies between 0.65/1100 and 0.83/980 of the volume-weighted freshening per area; and the steric height differs from the sum of the two others by terms of second order only; each up to the rounding error V/A*(9e-15 + 2.25*k/2^53), three times for the sum.", "quantifier": "For all grids of ocean cells (volumes and areas missing, zero or at least 1e-100, totals up to 1e100), all summation orders with at most k <= 10^6 additions per cell, any logarithm accurate to one unit in the last place.", "why_tests_cant": "Rounding errors depend on the data, the order of summation and the platform.", "anchors": ["src/momlevel/steric.py:steric", "src/momlevel/steric.py:thermosteric", "src/momlevel/steric.py:halosteric"]}
{"id": "C176", "title": "Arguments of steric and its wrappers, and what verbose prints", "statement": "A call of steric is accepted exactly when it gives dset, gives no parameter twice, has at most thirteen positional arguments and uses known keywords only; every parameter then gets its positional argument, else its keyword, else the default (Boussinesq density 1035, surface pressure 101325, Wright, steric, local, float32, strict, not annual, not verbose).  thermosteric and halosteric accept exactly the same calls less those that give variant, by keyword or by an eighth positional argument, and differ in variant only.  Every other call raises TypeError.  A call that returns prints one line, naming the origin of the reference state, if verbose, and nothing otherwise.", "quantifier": "For all lists of positional arguments, all dictionaries of keywords, all values; for printing, all datasets and options.", "why_tests_cant": "The ways of passing thirteen parameters by position or keyword are too many to enumerate; the wrappers forward *args and **kwargs, so a clash shows only for particular calls.", "anchors": ["src/momlevel/steric.py:steric", "src/momlevel/steric.py:thermosteric", "src/momlevel/steric.py:halosteric"]}
{"id": "C177", "title": "Arguments of a wrong kind never give a steric height", "statement": "steric returns only if reference is None or a Dataset, coord_names None or a dict and equation_of_state a string; with those kinds its outcome is that of the model of C32 and following, errors included; and if a call returns, the same call with any of the three replaced by something of a wrong kind raises AssertionError.", "quantifier": "For all datasets, options and combinations of wrong arguments, reference given or not.", "why_tests_cant": "The checks are spread over four functions and happen at different points of the computation.", "anchors": ["src/momlevel/steric.py:steric", "src/momlevel/util.py:default_coords", "src/momlevel/util.py:eos_func_from_str", "src/momlevel/reference.py:setup_reference_state"]}
{"id": "C178", "title": "calc_linear_trend refuses anything but a DataArray with AssertionError", "statement": "calc_linear_trend raises the AssertionError that explains the supported type for every argument that is not a DataArray.", "quantifier": "For all arguments.", "why_tests_cant": "The outcome depends on which attributes the object happens to have.", "anchors": ["src/momlevel/trend.py:calc_linear_trend"]}
{"id": "C179", "title": "Equivalent ways of writing a call of steric", "statement": "Giving the last positional argument by keyword instead, reordering the keywords, or spelling out a default does not change what steric, thermosteric or halosteric receive; calls that are rejected stay rejected.", "quantifier": "For all lists of arguments and dictionaries of keywords (spelling out a default: for accepted calls of steric).", "why_tests_cant": "There are too many ways of writing a call with thirteen parameters.", "anchors": ["src/momlevel/steric.py:steric", "src/momlevel/steric.py:thermosteric", "src/momlevel/steric.py:halosteric"]}
{"id": "C180", "title": "Warnings of extract_tidegauge", "statement": "With disable_warning set, extract_tidegauge warns about no site; its only warning is the one on 1-D coordinates, issued once and exactly when both coordinates are found and 1-D (disable_warning does not silence it).  With the warnings enabled and a threshold, the same warning is followed by one for each site whose distance, as reported by a call without threshold, reaches the threshold, in the order of the site file.", "quantifier": "For all coordinates, site files, masks, thresholds and any ball tree.", "why_tests_cant": "The warnings come from two other functions and depend on every distance.", "anchors": ["src/momlevel/tidegauge.py:extract_tidegauge", "src/momlevel/util.py:tile_nominal_coords", "src/momlevel/util.py:geolocate_points"]}
