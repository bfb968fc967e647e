{"id": "C01", "title": "Cycling lands on the next good record", "statement": "After get_next_good_ocb_ind, rec_ind is the smallest record index above the old rec_ind whose figure of merit lies in the closed merit interval and that passes every custom criterion; if there is none, rec_ind is the record count (or old+1 if that is larger). No good record in between is skipped, no bad record is selected, and no other attribute changes.", "quantifier": "all boundary data sets of any length, all starting indices >= -1, all merit bounds (including infinities and NaN) and all lists of custom criteria", "why_tests_cant": "the loop depends on the whole record history; tests only walk a handful of files with fixed criteria", "anchors": ["ocbpy/_boundary.py:OCBoundary.get_next_good_ocb_ind"]}
{"id": "C02", "title": "Meaning of custom selection criteria", "statement": "A record is rejected by ('min',v) iff value<=v, ('mineq',v) iff value<v, ('equal',v) iff value!=v, ('maxeq',v) iff value>v, ('max',v) iff value>=v; unknown attribute names and unknown operators never reject; the order of the criteria is irrelevant; a NaN figure of merit is never good, while a NaN attribute only fails 'equal'.", "quantifier": "all attribute values incl. NaN and infinities, all criteria, all orders of the criteria", "why_tests_cant": "value/operator/order combinations are unbounded and NaN comparisons are easy to miss", "anchors": ["ocbpy/_boundary.py:OCBoundary.get_next_good_ocb_ind"]}
{"id": "C03", "title": "All good records are retrieved exactly once, in order", "statement": "retrieve_all_good_indices returns exactly the strictly ascending list of all good record indices of the boundary object and leaves rec_ind as it was.", "quantifier": "all boundary data sets, all criteria, any current rec_ind", "why_tests_cant": "needs induction over the number of records", "anchors": ["ocbpy/cycle_boundary.py:retrieve_all_good_indices"]}
{"id": "C04", "title": "Matching always terminates", "statement": "match_data_ocb returns for every list of data times and every boundary object: neither the record nor the data cursor can loop for ever.", "quantifier": "all data time lists, boundary time lists (sorted or not), starting cursors, tolerances and criteria", "why_tests_cant": "non-termination cannot be observed by a finite test", "anchors": ["ocbpy/cycle_boundary.py:match_data_ocb"]}
{"id": "C05", "title": "A reported match is a real match", "statement": "When match_data_ocb returns a data index inside the data and leaves rec_ind inside the records, the two times differ by at most max_tol seconds, the record is a good one (when the search started from an unset or good record), the returned data index is not before the one given and rec_ind never moves backwards.", "quantifier": "all inputs, sorted or not", "why_tests_cant": "must hold on every path through three nested loops", "anchors": ["ocbpy/cycle_boundary.py:match_data_ocb"]}
{"id": "C06", "title": "Matching skips no matchable measurement", "statement": "For time-sorted data and boundaries, the index returned by match_data_ocb is the first measurement at or after idat that has a good boundary record (at or after the cursor) within max_tol; if it reports exhaustion then no such measurement exists.", "quantifier": "all sorted data and boundary time lists, all tolerances, all criteria", "why_tests_cant": "completeness is a statement about everything that was skipped", "anchors": ["ocbpy/cycle_boundary.py:match_data_ocb"]}
{"id": "C07", "title": "The matched boundary is the closest in time", "statement": "For strictly time-sorted boundaries, the record chosen by match_data_ocb is the good record (at or after the cursor) closest in time to the returned measurement, the earliest one on ties.", "quantifier": "all strictly sorted boundary time lists and sorted data", "why_tests_cant": "optimality over all records", "anchors": ["ocbpy/cycle_boundary.py:match_data_ocb"]}
{"id": "C08", "title": "Closest match with repeated boundary times", "statement": "The closest-in-time guarantee of match_data_ocb should also hold when several good boundary records carry the same time stamp (combined DMSP satellites).", "quantifier": "all sorted (not strictly) boundary time lists", "why_tests_cant": "the local descent stops at a plateau; only a counterexample search or a proof shows where it breaks", "anchors": ["ocbpy/cycle_boundary.py:match_data_ocb", "ocbpy/boundaries/dmsp_ssj_files.py:format_ssj_boundary_files"]}
{"id": "C09", "title": "Processing a file pairs every measurement with its closest good boundary", "statement": "The matching loop used by vort2ascii_ocb/supermag2ascii_ocb/add_ocb_to_data produces, for sorted inputs, exactly the list of (measurement, closest good boundary) pairs of those measurements having a good boundary within max_sdiff, each measurement once and in order.", "quantifier": "all sorted data sets, all strictly sorted boundary sets, all tolerances", "why_tests_cant": "end-to-end property of an unbounded loop over a stateful cursor", "anchors": ["ocbpy/instruments/vort.py:vort2ascii_ocb", "ocbpy/instruments/supermag.py:supermag2ascii_ocb", "ocbpy/instruments/pysat_instruments.py:add_ocb_to_data", "ocbpy/cycle_boundary.py:match_data_ocb"]}
{"id": "C10", "title": "Processing never crashes for lack of a matching boundary", "statement": "Converting a data file none of whose measurements is close to a boundary should write an output with no data lines rather than fail.", "quantifier": "all data sets and boundary sets", "why_tests_cant": "depends on the None return of match_data_ocb reaching an integer comparison", "anchors": ["ocbpy/instruments/vort.py:vort2ascii_ocb", "ocbpy/instruments/supermag.py:supermag2ascii_ocb", "ocbpy/instruments/pysat_instruments.py:add_ocb_to_data", "ocbpy/cycle_boundary.py:match_data_ocb"]}
{"id": "C11", "title": "Dual-boundary pairs are valid", "statement": "After set_good_ind, records, dtime, ocb_ind and eab_ind have one common length; every pair consists of a good OCB and a good EAB whose times differ by at most max_delta; dtime is the OCB time; EAB indices strictly increase and OCB indices never decrease.", "quantifier": "all OCB and EAB data sets and criteria", "why_tests_cant": "loop invariant over both cursors", "anchors": ["ocbpy/_boundary.py:DualBoundary.set_good_ind"]}
{"id": "C12", "title": "Dual-boundary pairing is one-to-one and closest", "statement": "Each good OCB should be paired at most once, with its closest good EAB.", "quantifier": "all sorted OCB and EAB data sets, all max_delta", "why_tests_cant": "only shows when the boundary cadence is shorter than twice max_delta; shipped test files have a coarser cadence", "anchors": ["ocbpy/_boundary.py:DualBoundary.set_good_ind"]}
{"id": "C13", "title": "Dual-boundary index keeps both boundaries in step", "statement": "Assigning or cycling the DualBoundary rec_ind keeps the OCB and EAB rec_ind equal to the paired indices; cycling visits 0,1,...,records in order and then stays at records.", "quantifier": "all pair lists and all sequences of cycling calls", "why_tests_cant": "invariant over operation histories", "anchors": ["ocbpy/_boundary.py:DualBoundary.rec_ind", "ocbpy/_boundary.py:DualBoundary.get_next_good_ind"]}
{"id": "C14", "title": "Out-of-range dual index is out of range for both boundaries", "statement": "Assigning a DualBoundary rec_ind outside its records should leave both component boundaries at an out-of-range index, so that coordinate conversions return NaN.", "quantifier": "all assigned index values", "why_tests_cant": "off-by-sign for rec_ind > records; tests only assign rec_ind == records", "anchors": ["ocbpy/_boundary.py:DualBoundary.rec_ind"]}
{"id": "C15", "title": "fix_range normalises into the half-open interval", "statement": "For min<max and 0<val_range<=max-min, fix_range returns values in [min,max) that differ from the input by an integer multiple of val_range, leaves in-range values alone, maps NaN to NaN, acts elementwise on arrays and is idempotent; it raises ValueError iff min>=max or val_range<=0.", "quantifier": "all real inputs, bounds and ranges, arrays of any length (exact arithmetic)", "why_tests_cant": "unbounded number of loop iterations", "anchors": ["ocbpy/ocb_time.py:fix_range"]}
{"id": "C16", "title": "fix_range postcondition for a user supplied range", "statement": "min <= fix_range(v,min,max,val_range) < max for every accepted val_range.", "quantifier": "all accepted val_range, including val_range > max-min", "why_tests_cant": "the documented postcondition has no side condition; tests only use consistent ranges", "anchors": ["ocbpy/ocb_time.py:fix_range"]}
{"id": "C17", "title": "fix_range in double precision", "statement": "fix_range terminates and returns a value in [min,max) for every binary64 input.", "quantifier": "all binary64 values including infinities, tiny negatives and huge values", "why_tests_cant": "special floats are never exercised", "anchors": ["ocbpy/ocb_time.py:fix_range"]}
{"id": "C18", "title": "Degrees and hours convert back and forth", "statement": "deg2hr(hr2deg(h)) = h mod 24 and hr2deg(deg2hr(d)) = d mod 360; results lie in [0,24) and in [min_deg,max_deg) respectively, with the narrow-range adjustment to [max_deg-360,max_deg).", "quantifier": "all real hours/degrees and requested ranges", "why_tests_cant": "universally quantified over the reals", "anchors": ["ocbpy/ocb_time.py:deg2hr", "ocbpy/ocb_time.py:hr2deg"]}
{"id": "C19", "title": "Radians and hours convert back and forth", "statement": "rad2hr(hr2rad(h, m)) = h mod 24 for every max_range m and hr2rad lands in [m-2pi, m); hr2rad preserves sine and cosine of the hour angle.", "quantifier": "all real hours and maxima", "why_tests_cant": "universally quantified over the reals", "anchors": ["ocbpy/ocb_time.py:hr2rad", "ocbpy/ocb_time.py:rad2hr"]}
{"id": "C20", "title": "Solar local time and longitude are inverse at a fixed time", "statement": "glon2slt(slt2glon(s,t),t) = s mod 24, slt2glon(glon2slt(g,t),t) = g mod 360; slt in [0,24), longitude in [-180,360).", "quantifier": "all local times/longitudes and all times of day", "why_tests_cant": "universally quantified over the reals", "anchors": ["ocbpy/ocb_time.py:slt2glon", "ocbpy/ocb_time.py:glon2slt", "ocbpy/ocb_time.py:datetime2hr"]}
{"id": "C21", "title": "Hours of day", "statement": "datetime2hr is in [0,24), strictly increasing through the day and determines the time of day.", "quantifier": "all valid hour/minute/second/microsecond values", "why_tests_cant": "8.64e10 distinct values", "anchors": ["ocbpy/ocb_time.py:datetime2hr"]}
{"id": "C22", "title": "Year and seconds-of-year give the right time", "statement": "year_soy_to_datetime(y,s) is the start of year y plus s seconds for whole seconds within the year; days past the year end roll over as the calendar does or raise.", "quantifier": "all years and all integer seconds of year", "why_tests_cant": "calendar arithmetic over all years", "anchors": ["ocbpy/ocb_time.py:year_soy_to_datetime"]}
{"id": "C23", "title": "Fractional seconds-of-year", "statement": "year_soy_to_datetime should return a time within half a second of the requested one for every (float) seconds-of-year inside the year.", "quantifier": "all rational seconds of year", "why_tests_cant": "fails only for fractional parts at the end of a minute", "anchors": ["ocbpy/ocb_time.py:year_soy_to_datetime"]}
{"id": "C24", "title": "Years-since-1900 and day of year", "statement": "yyddd_to_date parses every well formed YYDDD string (with optional decimals) to the first day of the year plus DDD-1 days, and rejects non-strings and bad days.", "quantifier": "all years 1900.. and days 1..366", "why_tests_cant": "string and calendar domain is unbounded", "anchors": ["ocbpy/ocb_time.py:yyddd_to_date"]}
{"id": "C25", "title": "Seconds of day are added with microsecond ceiling", "statement": "convert_time with a date and sod>=0 returns the date plus sod rounded up to the next microsecond.", "quantifier": "all dates and all nonnegative rational sod", "why_tests_cant": "rounding over all fractions", "anchors": ["ocbpy/ocb_time.py:convert_time"]}
{"id": "C26", "title": "Format length bound", "statement": "get_datetime_fmt_len(fmt) is at least the length of any time formatted with fmt.", "quantifier": "all formats and all times", "why_tests_cant": "formats are arbitrary strings; fails when a directive is repeated", "anchors": ["ocbpy/ocb_time.py:get_datetime_fmt_len"]}
{"id": "C27", "title": "Boundary points normalise to the reference latitude", "statement": "A point at the (corrected) boundary radius from the boundary centre is mapped by normal_coord to exactly boundary_lat, points inside poleward and points outside equatorward of it, the centre to the pole.", "quantifier": "all centres, radii, radius corrections, hemispheres and points", "why_tests_cant": "continuous domain", "anchors": ["ocbpy/_boundary.py:OCBoundary.normal_coord"]}
{"id": "C28", "title": "Normalise then revert is the identity", "statement": "revert_coord applied to the result of normal_coord with the returned r_corr gives back the latitude and the MLT modulo 24 h.", "quantifier": "all points of the hemisphere with finite, hemisphere-side normalised latitude, all boundaries with positive radius", "why_tests_cant": "continuous domain, trigonometric identities", "anchors": ["ocbpy/_boundary.py:OCBoundary.normal_coord", "ocbpy/_boundary.py:OCBoundary.revert_coord"]}
{"id": "C29", "title": "Revert then normalise is the identity", "statement": "normal_coord applied to the result of revert_coord gives back the OCB latitude and MLT modulo 24 h whenever the correction used is the one at the resulting AACGM MLT.", "quantifier": "all OCB positions and boundaries", "why_tests_cant": "continuous domain", "anchors": ["ocbpy/_boundary.py:OCBoundary.normal_coord", "ocbpy/_boundary.py:OCBoundary.revert_coord"]}
{"id": "C30", "title": "Output ranges of the coordinate conversions", "statement": "normal_coord and revert_coord return local times in [0,24) and latitudes with hemisphere*lat<=90.", "quantifier": "all inputs", "why_tests_cant": "continuous domain", "anchors": ["ocbpy/_boundary.py:OCBoundary.normal_coord", "ocbpy/_boundary.py:OCBoundary.revert_coord"]}
{"id": "C31", "title": "Undefined boundaries and wrong hemispheres give NaN", "statement": "With rec_ind outside the records, or all points in the wrong hemisphere, both conversions return NaN for every element; in mixed input to normal_coord exactly the wrong-hemisphere points get NaN coordinates.", "quantifier": "all inputs and states", "why_tests_cant": "all indices, all mixtures of hemispheres", "anchors": ["ocbpy/_boundary.py:OCBoundary.normal_coord", "ocbpy/_boundary.py:OCBoundary.revert_coord"]}
{"id": "C32", "title": "Array conversion equals pointwise conversion", "statement": "Converting an array of positions gives at each element what converting that position alone gives.", "quantifier": "all arrays of any length", "why_tests_cant": "array length unbounded; mixed-hemisphere elements behave differently in revert_coord", "anchors": ["ocbpy/_boundary.py:OCBoundary.normal_coord", "ocbpy/_boundary.py:OCBoundary.revert_coord"]}
{"id": "C33", "title": "Coordinate conversion does not modify the caller's arrays", "statement": "normal_coord and get_aacgm_boundary_lat should not change the arrays passed in.", "quantifier": "all array inputs", "why_tests_cant": "aliasing is invisible to tests comparing return values", "anchors": ["ocbpy/_boundary.py:OCBoundary.normal_coord", "ocbpy/_boundary.py:OCBoundary.get_aacgm_boundary_lat", "ocbpy/ocb_time.py:fix_range"]}
{"id": "C34", "title": "Computed boundary latitude lies on the boundary", "statement": "The latitude stored by get_aacgm_boundary_lat at an MLT is a point whose normalised latitude is boundary_lat; it is NaN exactly when the meridian does not meet the boundary poleward half-line (negative radius or negative discriminant).", "quantifier": "all MLTs, all boundaries and corrections", "why_tests_cant": "continuous domain", "anchors": ["ocbpy/_boundary.py:OCBoundary.get_aacgm_boundary_lat", "ocbpy/_boundary.py:OCBoundary.normal_coord"]}
{"id": "C35", "title": "Existing boundary latitudes are preserved unless overwrite", "statement": "get_aacgm_boundary_lat only touches the requested records, keeps previously computed records when overwrite is False and replaces them when it is True.", "quantifier": "all record lists, all sequences of calls", "why_tests_cant": "history dependent", "anchors": ["ocbpy/_boundary.py:OCBoundary.get_aacgm_boundary_lat"]}
{"id": "C36", "title": "Boundary MLT is normalised to a day", "statement": "get_aacgm_boundary_lat should store MLT values in [0,24).", "quantifier": "all input MLT", "why_tests_cant": "only values beyond one period show the single-step wrap", "anchors": ["ocbpy/_boundary.py:OCBoundary.get_aacgm_boundary_lat"]}
{"id": "C37", "title": "Dual normalisation maps both boundaries to their reference latitudes", "statement": "Dual normal_coord sends the OCB to ocb boundary_lat, the EAB to eab boundary_lat, the equator to the equator, and is continuous and strictly monotone in latitude along each meridian below the OCB.", "quantifier": "all pairs of boundaries with the EAB equatorward of the OCB at that MLT, both hemispheres", "why_tests_cant": "continuous domain, three regions", "anchors": ["ocbpy/_boundary.py:DualBoundary.normal_coord"]}
{"id": "C38", "title": "Dual normalise then revert is the identity", "statement": "Dual revert_coord(is_ocb=False, aacgm_mlt given) applied to the result of Dual normal_coord gives back the latitude, and the MLT.", "quantifier": "all points in all three regions, both hemispheres", "why_tests_cant": "continuous domain", "anchors": ["ocbpy/_boundary.py:DualBoundary.normal_coord", "ocbpy/_boundary.py:DualBoundary.revert_coord"]}
{"id": "C39", "title": "Dual conversion preserves stored boundaries", "statement": "With overwrite False, Dual normal_coord, revert_coord and calc_r leave previously stored boundary latitudes/MLTs of both boundaries unchanged.", "quantifier": "all prior histories of stored boundaries", "why_tests_cant": "history dependent", "anchors": ["ocbpy/_boundary.py:DualBoundary.normal_coord", "ocbpy/_boundary.py:DualBoundary.revert_coord", "ocbpy/_boundary.py:DualBoundary.calc_r"]}
{"id": "C40", "title": "Dual revert at an undefined record", "statement": "Dual revert_coord should return NaN when rec_ind is outside the records, as normal_coord does.", "quantifier": "all index values and inputs", "why_tests_cant": "rare state", "anchors": ["ocbpy/_boundary.py:DualBoundary.revert_coord"]}
{"id": "C41", "title": "Dual construction guarantees a valid configuration", "statement": "A DualBoundary that was constructed has OCB and EAB in the same hemisphere with |eab boundary_lat| < |ocb boundary_lat| and max_delta>0.", "quantifier": "all constructor arguments", "why_tests_cant": "argument combinations incl. pre-built boundary objects", "anchors": ["ocbpy/_boundary.py:DualBoundary.__init__"]}
{"id": "C42", "title": "Region radii", "statement": "calc_r returns for each point the scaled/unscaled extent of the region containing it (polar cap, auroral oval, sub-auroral) and the regions partition all latitudes.", "quantifier": "all points, both hemispheres", "why_tests_cant": "continuous domain", "anchors": ["ocbpy/_boundary.py:DualBoundary.calc_r"]}
{"id": "C43", "title": "Reference latitude is put in the requested hemisphere", "statement": "After construction with a nonzero boundary_lat it has the sign of hemisphere and its magnitude is unchanged; hemisphere other than +-1 raises ValueError.", "quantifier": "all latitudes and hemispheres", "why_tests_cant": "continuous domain", "anchors": ["ocbpy/_boundary.py:OCBoundary.__init__"]}
{"id": "C44", "title": "Loading keeps exactly the requested records", "statement": "load keeps, in file order, exactly the records with stime<=time<=etime (None = unbounded); dtime and every data attribute have length records and stay aligned; rec_ind is -1.", "quantifier": "all files and time windows", "why_tests_cant": "any number of records", "anchors": ["ocbpy/_boundary.py:OCBoundary.load"]}
{"id": "C45", "title": "Cartesian boundary centres are converted faithfully", "statement": "For x/y files, r_cent>=0, phi_cent in [0,360) and the centre used by normal_coord is the point with x towards dawn and y towards noon given in the file.", "quantifier": "all x,y", "why_tests_cant": "continuous domain", "anchors": ["ocbpy/_boundary.py:OCBoundary.load", "ocbpy/_boundary.py:OCBoundary.normal_coord"]}
{"id": "C46", "title": "Quadrants classify all finite inputs", "statement": "define_vect_quadrants/define_pole_quadrants return exactly one of 1..4 (N/S by component or angle, E/W by sign or local-time difference modulo 24) for finite inputs and 0 exactly when an input is NaN.", "quantifier": "all inputs", "why_tests_cant": "boundaries of the half-planes, unbounded local time differences", "anchors": ["ocbpy/vectors.py:define_vect_quadrants", "ocbpy/vectors.py:define_pole_quadrants"]}
{"id": "C47", "title": "Destination azimuth is a proper angle", "statement": "calc_dest_polar_angle is in [0,180] degrees for quadrants consistent with the angles and undefined (NaN) iff an angle is NaN; undefined quadrants raise.", "quantifier": "all angles and quadrant pairs", "why_tests_cant": "16 quadrant pairs times a continuum", "anchors": ["ocbpy/vectors.py:calc_dest_polar_angle"]}
{"id": "C48", "title": "Vector adjustment is a rotation", "statement": "For a vector not aligned with the poles, adjust_vector rotates the horizontal components by the pole angle towards the destination pole: n'=n cosA + s e sinA, e'=e cosA - s n sinA with s=+1/-1 for a pole to the east/west; the vertical component is unchanged.", "quantifier": "all vectors, pole angles in (0,180), all quadrants", "why_tests_cant": "16 quadrant pairs times a continuum", "anchors": ["ocbpy/vectors.py:adjust_vector", "ocbpy/vectors.py:calc_dest_polar_angle", "ocbpy/vectors.py:calc_dest_vec_sign"]}
{"id": "C49", "title": "Vector adjustment preserves magnitude and vertical component", "statement": "The magnitude and the vertical component of a vector are preserved by adjust_vector.", "quantifier": "all vectors, angles and quadrants", "why_tests_cant": "special cases (no horizontal part, aligned poles)", "anchors": ["ocbpy/vectors.py:adjust_vector"]}
{"id": "C50", "title": "Pole angle is the spherical angle", "statement": "calc_vec_pole_angle returns the angle at the data point between the great circles to the base pole and to the destination pole, in [0,180].", "quantifier": "all data and pole positions in general position (northern pole)", "why_tests_cant": "spherical trigonometry over a continuum", "anchors": ["ocbpy/vectors.py:calc_vec_pole_angle"]}
{"id": "C51", "title": "Rotated north is the direction to the destination pole", "statement": "get_pole_loc, calc_vec_pole_angle, the quadrants and adjust_vector together give the component of the vector along the great circle towards the boundary pole and the component to its right.", "quantifier": "all northern data points, vectors and poles in general position", "why_tests_cant": "end-to-end spherical geometry", "anchors": ["ocbpy/vectors.py:adjust_vector", "ocbpy/vectors.py:calc_vec_pole_angle", "ocbpy/vectors.py:define_pole_quadrants", "ocbpy/vectors.py:get_pole_loc"]}
{"id": "C52", "title": "Aligned poles agree with the general case", "statement": "When data point, base pole and destination pole lie on one meridian the result equals the limit of the general rotation: unchanged when both poles are in the same direction, reversed when the data point is between them.", "quantifier": "all latitudes with equal or opposite meridians", "why_tests_cant": "measure-zero special cases", "anchors": ["ocbpy/vectors.py:calc_vec_pole_angle", "ocbpy/vectors.py:adjust_vector"]}
{"id": "C53", "title": "Southern hemisphere vectors", "statement": "For southern boundaries the destination pole used for vectors is the southern boundary centre.", "quantifier": "all southern boundaries", "why_tests_cant": "all shipped vector tests are northern", "anchors": ["ocbpy/vectors.py:get_pole_loc", "ocbpy/ocb_scaling.py:VectorData.set_ocb"]}
{"id": "C54", "title": "Scalar and array vectors scale alike", "statement": "VectorData gives the same normalised vector for a single vector given as scalars as for the same vector given as one-element arrays.", "quantifier": "all vectors, scalings and positions", "why_tests_cant": "two separate code paths", "anchors": ["ocbpy/ocb_scaling.py:VectorData.scale_vector", "ocbpy/ocb_scaling.py:VectorData.set_ocb"]}
{"id": "C55", "title": "Scaling laws", "statement": "normal_evar scales by unscaled_r/scaled_r and normal_curl_evar by its square; both are linear in the value, identity at equal radii, composable and invertible for non-zero radii.", "quantifier": "all values and non-zero radii", "why_tests_cant": "continuous domain", "anchors": ["ocbpy/ocb_scaling.py:normal_evar", "ocbpy/ocb_scaling.py:normal_curl_evar"]}
{"id": "C56", "title": "Haversine and its inverse", "statement": "hav is in [0,1], even and 2pi-periodic; archav(hav(a))=|a| for |a|<=pi up to the documented tiny-value cut-off; archav(h)=NaN for negative h; hav(archav(h))=h for h in [1e-16,1].", "quantifier": "all reals", "why_tests_cant": "continuous domain", "anchors": ["ocbpy/ocb_scaling.py:hav", "ocbpy/ocb_scaling.py:archav"]}
{"id": "C57", "title": "Boundary corrections are periodic and bounded", "statement": "circular, elliptical and harmonic corrections have period 24 h; the elliptical correction lies in [-a(1+e), -a(1-e)] (never zero denominator), the harmonic one within the sum of its amplitudes; unknown instruments or methods raise ValueError.", "quantifier": "all MLTs, instruments and methods", "why_tests_cant": "continuous domain", "anchors": ["ocbpy/ocb_correction.py:circular", "ocbpy/ocb_correction.py:elliptical", "ocbpy/ocb_correction.py:harmonic"]}
{"id": "C58", "title": "Default boundary file satisfies the request", "statement": "get_default_file returns a file whose hemisphere, instrument and time span are compatible with the request and no lower-priority one when a higher priority instrument is available; with no compatible file it returns None and the instrument unchanged.", "quantifier": "all sets of available files and requests", "why_tests_cant": "arbitrary directory contents", "anchors": ["ocbpy/boundaries/files.py:get_default_file", "ocbpy/boundaries/files.py:get_boundary_files"]}
{"id": "C59", "title": "Default file choice with several files per instrument", "statement": "With several candidate files get_default_file should return one whose own dates cover the request and never fail.", "quantifier": "all sets of available files", "why_tests_cant": "depends on directory listing order", "anchors": ["ocbpy/boundaries/files.py:get_default_file"]}
{"id": "C60", "title": "DMSP file selection", "statement": "evaluate_dmsp_boundary_file accepts a file iff its satellite is requested and its start time is in [stime, etime).", "quantifier": "all file names, times and satellites", "why_tests_cant": "boundary instants", "anchors": ["ocbpy/boundaries/dmsp_ssj_files.py:evaluate_dmsp_boundary_file"]}
{"id": "C61", "title": "DMSP circle passes through both boundary crossings", "statement": "The circle written for a DMSP pass has its centre midway between the two crossings and both crossings on it.", "quantifier": "all pairs of crossings", "why_tests_cant": "continuous domain", "anchors": ["ocbpy/boundaries/dmsp_ssj_files.py:format_ssj_boundary_files"]}
{"id": "C62", "title": "SuperMAG loader reads back what was written", "statement": "load_supermag_ascii_data applied to a file of well formed blocks returns every station line once, in order, with its block's time, station count and indices; all columns have equal length.", "quantifier": "all numbers of blocks and stations", "why_tests_cant": "unbounded files", "anchors": ["ocbpy/instruments/supermag.py:load_supermag_ascii_data"]}
{"id": "C63", "title": "SuperMAG blocks with no stations", "statement": "A block announcing zero stations should contribute no data and not disturb the following blocks.", "quantifier": "all files", "why_tests_cant": "state machine corner", "anchors": ["ocbpy/instruments/supermag.py:load_supermag_ascii_data"]}
{"id": "C64", "title": "Vorticity loader reads back what was written", "statement": "load_vorticity_ascii_data applied to a file of well formed blocks returns every record once, in order, with its block's time; all columns have equal length; malformed counts raise.", "quantifier": "all numbers of blocks and records", "why_tests_cant": "unbounded files", "anchors": ["ocbpy/instruments/vort.py:load_vorticity_ascii_data"]}
{"id": "C65", "title": "Truncated vorticity files are reported", "statement": "A vorticity file cut in the middle of a block raises an error instead of silently losing the block.", "quantifier": "all truncation points", "why_tests_cant": "every crash point", "anchors": ["ocbpy/instruments/vort.py:load_vorticity_ascii_data"]}
{"id": "C66", "title": "File size gate", "statement": "test_file accepts exactly existing regular files with size in (0, 2e9].", "quantifier": "all sizes", "why_tests_cant": "boundary sizes", "anchors": ["ocbpy/instruments/general.py:test_file"]}
{"id": "C67", "title": "General ASCII loader column typing", "statement": "load_ascii_data assigns integer type exactly to the columns requested by the caller and to the integer date columns at their positions, and does not alter the caller's lists.", "quantifier": "all column layouts", "why_tests_cant": "layouts are unbounded; tests use date columns first", "anchors": ["ocbpy/instruments/general.py:load_ascii_data"]}
{"id": "C68", "title": "Satellite track band", "statement": "satellite_track accepts a point iff it lies in the band of the line through the two crossings and is not more than past_bound equatorward of the nearer crossing; invalid tolerances or hemispheres raise ValueError.", "quantifier": "all points, crossings and tolerances", "why_tests_cant": "continuous domain", "anchors": ["ocbpy/cycle_boundary.py:satellite_track"]}
{"id": "C69", "title": "Boundary crossings lie on their own track", "statement": "The two boundary crossings defining a satellite track should be accepted by satellite_track for any non-negative tolerances.", "quantifier": "all pairs of crossings", "why_tests_cant": "fails only for steep tracks; tests use a shallow one", "anchors": ["ocbpy/cycle_boundary.py:satellite_track"]}
{"id": "C70", "title": "Boundary type is chosen from the file name", "statement": "add_ocb_to_data builds the boundary object named by ocbfile, including its documented default.", "quantifier": "all file name strings", "why_tests_cant": "string predicates", "anchors": ["ocbpy/instruments/pysat_instruments.py:add_ocb_to_data"]}
{"id": "C71", "title": "Only data of the requested hemisphere is converted", "statement": "add_ocb_to_data leaves data from the other hemisphere unconverted (NaN) for both pandas and xarray instruments.", "quantifier": "all data and both hemispheres", "why_tests_cant": "xarray branch differs from the pandas branch", "anchors": ["ocbpy/instruments/pysat_instruments.py:add_ocb_to_data"]}
{"id": "C72", "title": "Padding and masking keeps alignment", "statement": "reshape_pad_mask_flatten returns, for every broadcastable input, the repeated values at the selected positions in order.", "quantifier": "all array sizes and masks", "why_tests_cant": "unbounded shapes", "anchors": ["ocbpy/instruments/pysat_instruments.py:reshape_pad_mask_flatten"]}
{"id": "C73", "title": "Dual vorticity output uses the matched record", "statement": "vort2ascii_ocb with a DualBoundary scales each vorticity with the radius of the OCB record matched to it.", "quantifier": "all pair lists", "why_tests_cant": "differs only when ocb_ind is not 0,1,2,...", "anchors": ["ocbpy/instruments/vort.py:vort2ascii_ocb"]}
{"id": "C74", "title": "Vector data validation", "statement": "VectorData accepts exactly the combinations of scalar/array data, data-index and boundary-index shapes described in its documentation and otherwise raises ValueError.", "quantifier": "all shapes", "why_tests_cant": "combinatorial", "anchors": ["ocbpy/ocb_scaling.py:VectorData.__init__", "ocbpy/ocb_scaling.py:VectorData._test_update_vector_shape", "ocbpy/ocb_scaling.py:VectorData._test_update_bound_shape"]}
{"id": "C75", "title": "fix_range leaves its argument unchanged", "statement": "Calling fix_range on an array leaves the caller's array as it was.", "quantifier": "all arrays and ranges", "why_tests_cant": "aliasing is invisible in the returned value, and tests compare only that", "anchors": ["ocbpy/ocb_time.py:fix_range"]}
{"id": "C76", "title": "Malformed times are reported with ValueError", "statement": "convert_time rejects malformed year/seconds-of-year or YYDDD input with ValueError, never with another exception.", "quantifier": "all years, seconds of year and YYDDD texts", "why_tests_cant": "the failing branch depends on how much of an arbitrary text the parser consumes", "anchors": ["ocbpy/ocb_time.py:convert_time"]}
{"id": "C77", "title": "Seconds of day are never dropped", "statement": "Whenever convert_time with a date and seconds of day succeeds, the result depends on the seconds of day: values a second or more apart give different times.", "quantifier": "all date texts and all nonnegative rational seconds of day", "why_tests_cant": "an ignored argument only shows for input texts a test did not think of", "anchors": ["ocbpy/ocb_time.py:convert_time"]}
{"id": "C78", "title": "Date and time-of-day texts give the written time", "statement": "convert_time(date, tod) in the default format returns exactly the written date and time; characters after the seconds are ignored unless they contain a blank, in which case ValueError is raised.", "quantifier": "all calendar dates, all times of day and all trailing texts", "why_tests_cant": "the trailing text is arbitrary", "anchors": ["ocbpy/ocb_time.py:convert_time"]}
{"id": "C79", "title": "MLT values of any numeric type are accepted", "statement": "get_aacgm_boundary_lat accepts integer as well as floating point MLT arrays.", "quantifier": "all MLT arrays, stored boundaries and record lists", "why_tests_cant": "dtype-dependent failure of an in-place operation that an all-float test never sees", "anchors": ["ocbpy/_boundary.py:OCBoundary.get_aacgm_boundary_lat"]}
{"id": "C80", "title": "Geographic normalise then revert is the identity", "statement": "For geographic input, revert_coord applied to the result of normal_coord gives back the geographic latitude and the local time modulo 24 h, provided the AACGM conversion inverts itself.", "quantifier": "all positions, heights, times, boundaries and all self-inverse AACGM conversions", "why_tests_cant": "continuous domain; depends on an external library", "anchors": ["ocbpy/_boundary.py:OCBoundary.normal_coord", "ocbpy/_boundary.py:OCBoundary.revert_coord", "ocbpy/ocb_time.py:slt2glon", "ocbpy/ocb_time.py:glon2slt"]}
{"id": "C81", "title": "A point's dual coordinates do not depend on the other points", "statement": "Dual normal_coord applied to an array gives each point the coordinates it gives that point alone.", "quantifier": "all arrays of any length, all dual boundaries", "why_tests_cant": "the dependence shows only when a point in no region is combined with one counted in two", "anchors": ["ocbpy/_boundary.py:DualBoundary.normal_coord"]}
{"id": "C82", "title": "Arrays of vectors are adjusted element by element", "statement": "adjust_vector applied to arrays gives each vector the components it gives that vector alone; vectors with NaN values give NaN instead of raising, provided some vector can be adjusted.", "quantifier": "all arrays of any length, mixing ordinary, aligned, zero and NaN vectors", "why_tests_cant": "masked-array bookkeeping: quadrants are recomputed for the whole array when one is missing", "anchors": ["ocbpy/vectors.py:adjust_vector"]}
{"id": "C83", "title": "One vector relative to many boundaries", "statement": "adjust_vector applied to one vector and arrays of boundary poles returns one vector for each pole.", "quantifier": "all arrays of poles of any length", "why_tests_cant": "the loss shows only when some but not all of the poles are aligned with the vector", "anchors": ["ocbpy/vectors.py:adjust_vector", "ocbpy/ocb_scaling.py:VectorData.set_ocb"]}
{"id": "C84", "title": "Setting a dual boundary's record index selects its pair", "statement": "Assigning DualBoundary.rec_ind selects the paired OCB and EAB records; an index before the first or past the last pair selects none, so that coordinates are undefined.", "quantifier": "all dual boundaries and all integer indices", "why_tests_cant": "index arithmetic over unbounded indices and arbitrary pairings", "anchors": ["ocbpy/_boundary.py:DualBoundary.rec_ind"]}
{"id": "C85", "title": "Arrays of vectors are normalised element by element", "statement": "set_ocb on a VectorData holding arrays, with one boundary index or with one per vector, gives each vector the coordinates and components it gives that vector alone; vectors outside the boundary's hemisphere get NaN.", "quantifier": "all arrays of any length, all boundaries, all positions", "why_tests_cant": "mixing of hemispheres within an array and continuous positions", "anchors": ["ocbpy/ocb_scaling.py:VectorData.set_ocb", "ocbpy/ocb_scaling.py:VectorData.scale_vector"]}
{"id": "C86", "title": "Normalised components are the scaled components along the boundary pole", "statement": "After set_ocb the north component is the vector's component towards the boundary centre and the east component the one to its right, each passed through the scaling function with the boundary's radius and the reference radius; with normal_evar the magnitude is scaled by the ratio of the radii.", "quantifier": "all vectors, positions, boundaries and scaling functions", "why_tests_cant": "continuous domain and arbitrary scaling functions", "anchors": ["ocbpy/ocb_scaling.py:VectorData.set_ocb", "ocbpy/ocb_scaling.py:VectorData.scale_vector", "ocbpy/ocb_scaling.py:normal_evar"]}
{"id": "C87", "title": "Geographic vectors become magnetic vectors", "statement": "update_vect_coords_to_mag replaces the components by those along the direction of the magnetic pole of the hemisphere and at right angles to it.", "quantifier": "all positions, vectors and pole locations", "why_tests_cant": "continuous domain, both hemispheres", "anchors": ["ocbpy/ocb_scaling.py:VectorData.update_vect_coords_to_mag"]}
{"id": "C88", "title": "set_ocb takes the coordinates from the given boundary", "statement": "After set_ocb the boundary coordinates of the vector are those normal_coord of the given boundary returns at the vector's record, and the boundary's rec_ind is that record.", "quantifier": "all vectors, boundaries and earlier calls", "why_tests_cant": "depends on the history of calls on the same object", "anchors": ["ocbpy/ocb_scaling.py:VectorData.set_ocb"]}
{"id": "C89", "title": "set_ocb leaves the measurement alone", "statement": "set_ocb changes neither the location nor the components of the vectors, nor the boundary apart from its rec_ind.", "quantifier": "all vectors, arrays and boundaries", "why_tests_cant": "in-place changes appear only for particular mixtures of hemispheres", "anchors": ["ocbpy/ocb_scaling.py:VectorData.set_ocb", "ocbpy/_boundary.py:OCBoundary.normal_coord"]}
{"id": "C90", "title": "Repeating set_ocb changes nothing", "statement": "Calling set_ocb again with the same boundary and scaling function gives the same values.", "quantifier": "all vectors, arrays, boundaries and indices", "why_tests_cant": "two-call histories over all states", "anchors": ["ocbpy/ocb_scaling.py:VectorData.set_ocb"]}
{"id": "C91", "title": "The default AMPERE correction keeps large boundaries positive", "statement": "With the default elliptical correction for AMPERE the corrected boundary radius is positive at every MLT exactly when the circle's radius exceeds 6.2155 degrees.", "quantifier": "all radii and local times", "why_tests_cant": "an exact threshold over a continuous domain", "anchors": ["ocbpy/ocb_correction.py:elliptical"]}
{"id": "C92", "title": "Every record has its boundary correction", "statement": "After load there is one correction function and one set of arguments per kept record: the array given, the function given repeated, or the instrument's default; arrays of another length, other objects and instruments without default raise ValueError.", "quantifier": "all files, windows and corrections", "why_tests_cant": "any number of records", "anchors": ["ocbpy/_boundary.py:OCBoundary.load", "ocbpy/_boundary.py:OCBoundary._set_default_rfunc"]}
{"id": "C93", "title": "Cartesian centres become polar centres", "statement": "For files with columns x and y each kept record gets r_cent>=0 and phi_cent in [0,360) describing the circle whose centre lies x towards dawn and y towards noon.", "quantifier": "all files, windows and finite centres", "why_tests_cant": "continuous domain, any number of records", "anchors": ["ocbpy/_boundary.py:OCBoundary.load"]}
{"id": "C94", "title": "Construction without a usable file", "statement": "A missing or unreadable file, or no instrument, gives a boundary object without data and no exception; a readable file is loaded and its name kept; the instrument name is lowered; a hemisphere other than 1 and -1 raises ValueError.", "quantifier": "all file systems, names, instruments and times", "why_tests_cant": "depends on the file system", "anchors": ["ocbpy/_boundary.py:OCBoundary.__init__"]}
{"id": "C95", "title": "EABoundary accepts the documented instruments", "statement": "EABoundary can be constructed for every documented instrument name, in any case, without specifying a correction.", "quantifier": "all instrument names", "why_tests_cant": "arbitrary strings", "anchors": ["ocbpy/_boundary.py:EABoundary.__init__", "ocbpy/_boundary.py:EABoundary._set_default_rfunc"]}
{"id": "C96", "title": "The open-closed boundary of a pair is poleward", "statement": "A DualBoundary has both boundaries in one hemisphere and the reference latitude of the OCB poleward of that of the EAB; arguments violating this raise ValueError.", "quantifier": "all arguments and boundary objects", "why_tests_cant": "arbitrary objects and reals", "anchors": ["ocbpy/_boundary.py:DualBoundary.__init__"]}
{"id": "C97", "title": "Boundary objects can be printed", "statement": "repr of any constructed boundary object succeeds.", "quantifier": "all constructor arguments, files and time windows", "why_tests_cant": "depends on files and windows", "anchors": ["ocbpy/_boundary.py:OCBoundary.__repr__"]}
{"id": "C98", "title": "A requested instrument overrides the times", "statement": "When an instrument is named, get_default_file returns a file whenever one of that instrument exists for the hemisphere, whatever the starting and ending times.", "quantifier": "all sets of available files and requests", "why_tests_cant": "arbitrary directory contents", "anchors": ["ocbpy/boundaries/files.py:get_default_file"]}
{"id": "C99", "title": "DMSP files of the requested days are selected", "statement": "Every boundary file whose day meets the requested period, for a requested satellite, is accepted by the DMSP file selection.", "quantifier": "all file names, times and satellites", "why_tests_cant": "boundary instants", "anchors": ["ocbpy/boundaries/dmsp_ssj_files.py:evaluate_dmsp_boundary_file"]}
{"id": "C100", "title": "Downloading leaves standard output as it was", "statement": "After fetch_ssj_boundary_files, whether it returns or raises, sys.stdout is what it was before the call.", "quantifier": "all downloads, archives and requests", "why_tests_cant": "depends on failures of the download and on the caller's stream", "anchors": ["ocbpy/boundaries/dmsp_ssj_files.py:fetch_ssj_boundary_files"]}
{"id": "C101", "title": "The archive is found from the download message", "statement": "fetch_ssj_boundary_files finds the name of the archive in the link printed by the download, and ends for every link.", "quantifier": "all links", "why_tests_cant": "arbitrary strings; the search may loop forever", "anchors": ["ocbpy/boundaries/dmsp_ssj_files.py:fetch_ssj_boundary_files"]}
{"id": "C102", "title": "Temporary download files are removed", "statement": "With rm_temp the checksum file and the archive are gone after fetch_ssj_boundary_files, the extracted files are present and no other file is lost.", "quantifier": "all directories, downloads and archives", "why_tests_cant": "every failure point", "anchors": ["ocbpy/boundaries/dmsp_ssj_files.py:fetch_ssj_boundary_files"]}
{"id": "C103", "title": "Exactly the requested DMSP files are extracted", "statement": "fetch_ssj_boundary_files returns the files of the archive selected by satellite and time, in the archive's order, and all of them when nothing was requested; satellites other than 16, 17 and 18 and missing directories raise ValueError and change nothing.", "quantifier": "all archives and requests", "why_tests_cant": "any number of files", "anchors": ["ocbpy/boundaries/dmsp_ssj_files.py:fetch_ssj_boundary_files"]}
{"id": "C104", "title": "Every DMSP pass is written to its hemisphere's file", "statement": "format_ssj_boundary_files writes each pass of every readable input file once, in order, to the files of its hemisphere.", "quantifier": "all lists of input files and passes", "why_tests_cant": "any number of files and passes", "anchors": ["ocbpy/boundaries/dmsp_ssj_files.py:format_ssj_boundary_files"]}
{"id": "C105", "title": "Formatted DMSP files are found later", "statement": "The files written by format_ssj_boundary_files lie beside the input and their names follow the convention by which get_default_file recognises dmsp-ssj files.", "quantifier": "all directories and file names", "why_tests_cant": "arbitrary strings", "anchors": ["ocbpy/boundaries/dmsp_ssj_files.py:format_ssj_boundary_files", "ocbpy/boundaries/files.py:get_boundary_files"]}
{"id": "C106", "title": "SuperMAG fill values become NaN", "statement": "load_supermag_ascii_data returns NaN wherever the file has the fill value 999999 for a measured or computed quantity.", "quantifier": "all files of well formed blocks", "why_tests_cant": "unbounded files; every column", "anchors": ["ocbpy/instruments/supermag.py:load_supermag_ascii_data"]}
{"id": "C107", "title": "Truncated SuperMAG files are reported", "statement": "A SuperMAG file cut in the middle of a block raises an error instead of silently returning part of the block.", "quantifier": "all files and truncation points", "why_tests_cant": "every crash point", "anchors": ["ocbpy/instruments/supermag.py:load_supermag_ascii_data"]}
{"id": "C108", "title": "Times of a table come from its own rows", "statement": "When load_ascii_data is given the columns and the format of the time, the datetime column holds, for every row, the instant written in that row's own columns, whichever columns these are.", "quantifier": "all tables with at least two rows, all column layouts, dates, times of day, seconds of day and seconds of year", "why_tests_cant": "layouts, row counts and instants are unbounded; tests use two fixed files", "anchors": ["ocbpy/instruments/general.py:load_ascii_data", "ocbpy/ocb_time.py:convert_time"]}
{"id": "C109", "title": "A table with one row is a table", "statement": "load_ascii_data on a file with one data row returns one value for every column.", "quantifier": "all one-row tables", "why_tests_cant": "every one-row file must be considered; tests use files with several rows", "anchors": ["ocbpy/instruments/general.py:load_ascii_data"]}
{"id": "C110", "title": "Unusable tables are reported", "statement": "load_ascii_data returns the caller's header and no data for a missing, empty or oversized file, and raises for files without data rows (IndexError) and with rows of different lengths (ValueError).", "quantifier": "all files", "why_tests_cant": "all files without rows or with ragged rows, any number of lines", "anchors": ["ocbpy/instruments/general.py:load_ascii_data", "ocbpy/instruments/general.py:test_file"]}
{"id": "C111", "title": "The times never overwrite a column", "statement": "The times are stored under the first of datetime, DATETIME, DT and dt that is not a column name; if all four are column names load_ascii_data raises IndexError.", "quantifier": "all lists of column names", "why_tests_cant": "name lists are unbounded", "anchors": ["ocbpy/instruments/general.py:load_ascii_data"]}
{"id": "C112", "title": "The hemisphere of the data is detected", "statement": "Without a hemisphere, add_ocb_to_data uses the hemisphere all the latitudes lie in, and raises ValueError for data from both; a given hemisphere is used as given.", "quantifier": "all arrays of latitudes, with NaN and infinite values", "why_tests_cant": "arrays are unbounded; tests use one file per hemisphere", "anchors": ["ocbpy/instruments/pysat_instruments.py:add_ocb_to_data"]}
{"id": "C113", "title": "Every sample gets the boundary of its own time", "statement": "add_ocb_to_data converts each sample of the hemisphere with a finite value at the usable boundary record closest to its time, if within max_sdiff; all other samples are left without value; the number and order of samples is kept.", "quantifier": "all instruments with one time coordinate, all boundaries, limits and selection criteria", "why_tests_cant": "all interleavings of samples and records, including rejected samples between accepted ones", "anchors": ["ocbpy/instruments/pysat_instruments.py:add_ocb_to_data", "ocbpy/cycle_boundary.py:match_data_ocb"]}
{"id": "C114", "title": "Each vector is made from its own description", "statement": "What add_ocb_to_data uses for a vector is the description of that vector and the defaults, not the descriptions of other vectors.", "quantifier": "all sets of vector descriptions, in any order", "why_tests_cant": "interaction of several dictionaries with different keys", "anchors": ["ocbpy/instruments/pysat_instruments.py:add_ocb_to_data"]}
{"id": "C115", "title": "Vectors are scaled as the caller listed them", "statement": "add_ocb_to_data scales a vector named in evar_names as an electric field, one named in curl_evar_names as its curl, and any other by its own function (ValueError if it has none); calling again with the same arguments does the same.", "quantifier": "all lists of names and vector descriptions, and repeated calls", "why_tests_cant": "history of calls with shared mutable arguments", "anchors": ["ocbpy/instruments/pysat_instruments.py:add_ocb_to_data"]}
{"id": "C116", "title": "Names of vector output", "statement": "For every vector name, the names add_ocb_to_data makes for the vector output are those it assigns to, they contain the boundary type, and different vectors or attributes have different names.", "quantifier": "all vector names and boundary types", "why_tests_cant": "string replacement on arbitrary names", "anchors": ["ocbpy/instruments/pysat_instruments.py:add_ocb_to_data"]}
{"id": "C117", "title": "Latitudes and local times on different coordinates are combined", "statement": "When the local times and latitudes of an xarray instrument have different coordinates, add_ocb_to_data pairs every local time with every latitude of the combined grid.", "quantifier": "all coordinate names, sizes and values", "why_tests_cant": "unbounded shapes", "anchors": ["ocbpy/instruments/pysat_instruments.py:add_ocb_to_data"]}
{"id": "C118", "title": "Every usable SuperMAG station is written", "statement": "supermag2ascii_ocb writes a line of column names, then for each station of the chosen hemisphere with finite local time and field components, and a good boundary record within max_sdiff, one line with its values and those converted at the closest such record, in the order of the input.", "quantifier": "all SuperMAG files in order of time, boundaries, hemispheres, limits and selection criteria", "why_tests_cant": "stations, times and boundary records are unbounded and can interleave in any way", "anchors": ["ocbpy/instruments/supermag.py:supermag2ascii_ocb"]}
{"id": "C119", "title": "The station count is the number of lines at that time", "statement": "In the output of supermag2ascii_ocb the column NST of every line is the number of lines of the file with that date and time.", "quantifier": "all SuperMAG files and boundaries", "why_tests_cant": "needs counting over arbitrarily long outputs with arbitrary rejected stations", "anchors": ["ocbpy/instruments/supermag.py:supermag2ascii_ocb"]}
{"id": "C120", "title": "Output lines have the columns the header names", "statement": "Every line written by supermag2ascii_ocb and vort2ascii_ocb, with or without save_all, has as many words as the header line.", "quantifier": "all files, values, boundaries and options", "why_tests_cant": "values of any size and sign, including NaN, must stay separate words", "anchors": ["ocbpy/instruments/supermag.py:supermag2ascii_ocb", "ocbpy/instruments/vort.py:vort2ascii_ocb"]}
{"id": "C121", "title": "Every vorticity entry of the hemisphere is written", "statement": "vort2ascii_ocb writes a header line, then one line for each entry of the chosen hemisphere with a good boundary record within max_sdiff, with its time and values and those converted at the closest such record, in order; without entries in the hemisphere no file is written.", "quantifier": "all vorticity files in order of time, boundaries, hemispheres, options, limits and selection criteria", "why_tests_cant": "entries, blocks and boundary records are unbounded", "anchors": ["ocbpy/instruments/vort.py:vort2ascii_ocb"]}
{"id": "C122", "title": "Written local times are local times", "statement": "A local time in [0, 24) is written as a number in [0, 24).", "quantifier": "all local times and numbers of decimals", "why_tests_cant": "a continuum of values; the failures lie in a small interval", "anchors": ["ocbpy/instruments/supermag.py:supermag2ascii_ocb", "ocbpy/instruments/vort.py:vort2ascii_ocb"]}
{"id": "C123", "title": "Loading boundaries for the period of the data loses no match", "statement": "When the output functions load the boundaries themselves, from max_sdiff+1 seconds before the first to as long after the last datum, every datum is paired with the record it would be paired with if the whole boundary file had been loaded.", "quantifier": "all boundary files, data times and limits", "why_tests_cant": "all pairs of time series of any length", "anchors": ["ocbpy/instruments/supermag.py:supermag2ascii_ocb", "ocbpy/instruments/vort.py:vort2ascii_ocb", "ocbpy/cycle_boundary.py:match_data_ocb"]}
{"id": "C124", "title": "Stations with missing values are not used", "statement": "supermag2ascii_ocb converts no station whose location, local time or field is missing.", "quantifier": "all SuperMAG files with missing values in any place", "why_tests_cant": "any subset of values of any station can be missing", "anchors": ["ocbpy/instruments/supermag.py:supermag2ascii_ocb", "ocbpy/instruments/supermag.py:load_supermag_ascii_data"]}
{"id": "C125", "title": "Unusable input of the output functions is reported", "statement": "The output functions raise IOError for an unusable input or output file, ValueError for files that were not loaded, and write nothing for a boundary without records.", "quantifier": "all files, boundaries and options", "why_tests_cant": "every form of unusable file has to be considered", "anchors": ["ocbpy/instruments/supermag.py:supermag2ascii_ocb", "ocbpy/instruments/vort.py:vort2ascii_ocb"]}
{"id": "C126", "title": "Written files can be read back", "statement": "A file written by supermag2ascii_ocb or vort2ascii_ocb is read by load_ascii_data (one header line, date and time in the first two columns) as a table with the times, names and counts of the data and the numbers rounded as written.", "quantifier": "all files written, with two or more lines", "why_tests_cant": "a round trip over two instruments for arbitrary stations, values and lengths", "anchors": ["ocbpy/instruments/supermag.py:supermag2ascii_ocb", "ocbpy/instruments/vort.py:vort2ascii_ocb", "ocbpy/instruments/general.py:load_ascii_data"]}
{"id": "C127", "title": "Locations change coordinate system at their own time", "statement": "VectorData.update_loc_coords replaces every location by the one aacgmv2 gives for it in the requested system, at its own time and with the method of its system; vectors are untouched; a number of times that differs from the number of locations raises ValueError.", "quantifier": "all locations (scalar or array), times (one or several), systems and spellings of their names", "why_tests_cant": "the combination of system, spelling, number of locations and number of times is unbounded", "anchors": ["ocbpy/ocb_scaling.py:VectorData.update_loc_coords"]}
{"id": "C128", "title": "Changing the coordinate system back restores the location", "statement": "If the conversions of aacgmv2 undo each other, update_loc_coords to magnetic coordinates and back to the original system restores the object.", "quantifier": "all objects, times and systems", "why_tests_cant": "a round trip for arbitrary locations and times", "anchors": ["ocbpy/ocb_scaling.py:VectorData.update_loc_coords", "ocbpy/ocb_time.py:slt2glon", "ocbpy/ocb_time.py:glon2slt"]}
{"id": "C129", "title": "Asking again for a coordinate system changes nothing", "statement": "A second call of update_loc_coords for the same system, at whatever time, leaves the object as it is.", "quantifier": "all objects, names and times of the two calls", "why_tests_cant": "an idempotence claim over arbitrary states and arguments", "anchors": ["ocbpy/ocb_scaling.py:VectorData.update_loc_coords"]}
{"id": "C130", "title": "Geographic vectors become magnetic vectors", "statement": "After VectorData.update_vect_coords_to_mag the location is magnetic and the components are those of the same vector along the direction to the magnetic pole and to the right of it, each vector of an array being treated at its own time as it would be alone; magnetic vectors are left alone.", "quantifier": "all vectors, locations, times, systems and answers of aacgmv2", "why_tests_cant": "a geometric claim for all vectors and pole positions", "anchors": ["ocbpy/ocb_scaling.py:VectorData.update_vect_coords_to_mag", "ocbpy/vectors.py:adjust_vector"]}
{"id": "C131", "title": "Only known and compatible coordinate systems are accepted", "statement": "VectorData accepts exactly the names magnetic, geocentric and geodetic in any mixture of capitals for locations and vectors, except the combination of geocentric and geodetic, and raises ValueError otherwise.", "quantifier": "all pairs of strings", "why_tests_cant": "there are infinitely many strings", "anchors": ["ocbpy/ocb_scaling.py:VectorData._test_coords", "ocbpy/ocb_scaling.py:VectorData.__init__"]}
{"id": "C132", "title": "Geographic vectors are converted at the time of their boundary", "statement": "VectorData.set_ocb converts geographic vectors to magnetic coordinates at the time of the boundary record each one belongs to, with the requested trace method.", "quantifier": "all boundaries, record indices, vectors and trace methods", "why_tests_cant": "the record index of the boundary object depends on the history of calls", "anchors": ["ocbpy/ocb_scaling.py:VectorData.set_ocb", "ocbpy/ocb_scaling.py:VectorData.update_vect_coords_to_mag"]}
{"id": "C133", "title": "Assigning indices keeps the vectors and discards results", "statement": "After any accepted sequence of assignments to dat_ind and ocb_ind a VectorData has the indices assigned last, one value of every component per data index, the components, locations and heights it was made with, and no results of set_ocb.", "quantifier": "all objects and all sequences of accepted index assignments", "why_tests_cant": "the sequences are unbounded and mix scalars and arrays of any length", "anchors": ["ocbpy/ocb_scaling.py:VectorData.dat_ind", "ocbpy/ocb_scaling.py:VectorData.ocb_ind", "ocbpy/ocb_scaling.py:VectorData._test_update_vector_shape", "ocbpy/ocb_scaling.py:VectorData._test_update_bound_shape", "ocbpy/ocb_scaling.py:VectorData.clear_data"]}
{"id": "C134", "title": "A rejected index leaves the object as it was", "statement": "When an assignment to dat_ind or ocb_ind raises (always ValueError), the object is unchanged, or at least keeps every value except the index and can be put back by assigning the old index.", "quantifier": "all objects and rejected assignments", "why_tests_cant": "every combination of shapes that can be rejected has to be considered", "anchors": ["ocbpy/ocb_scaling.py:VectorData.dat_ind", "ocbpy/ocb_scaling.py:VectorData.ocb_ind"]}
{"id": "C135", "title": "Any boundary index that fits the vectors is accepted", "statement": "ocb_ind can be assigned to an object reached by any history exactly when there is one vector, one boundary index, or one boundary index per vector; afterwards there are boundary coordinates for each index, kept or unset, results are unset and the vectors are untouched.", "quantifier": "all reachable objects and all indices", "why_tests_cant": "reachable objects come from unbounded histories of assignments", "anchors": ["ocbpy/ocb_scaling.py:VectorData.ocb_ind", "ocbpy/ocb_scaling.py:VectorData._test_update_bound_shape"]}
{"id": "C136", "title": "A new boundary index gives the coordinates of the new record", "statement": "Assigning ocb_ind and calling set_ocb gives the same as a new VectorData made with that index.", "quantifier": "all vectors, boundaries, indices and scaling functions", "why_tests_cant": "depends on the history of the object", "anchors": ["ocbpy/ocb_scaling.py:VectorData.ocb_ind", "ocbpy/ocb_scaling.py:VectorData.set_ocb", "ocbpy/ocb_scaling.py:VectorData.clear_data"]}
{"id": "C137", "title": "Assigning a value replaces that value consistently", "statement": "Assigning a location, component or boundary coordinate of a VectorData stores it for every index and changes no other given value, and magnitude and results are those of the present values.", "quantifier": "all objects and assigned values", "why_tests_cant": "all histories of assignments and calls have to be considered", "anchors": ["ocbpy/ocb_scaling.py:VectorData.__setattr__", "ocbpy/ocb_scaling.py:VectorData._dat_attr_setter", "ocbpy/ocb_scaling.py:VectorData._ocb_attr_setter"]}
{"id": "C138", "title": "The magnitude is the length of the vector", "statement": "A VectorData made without a magnitude has for each vector the length of its components as magnitude, after any sequence of index assignments; a magnitude that was given is kept.", "quantifier": "all vectors and all sequences of accepted index assignments", "why_tests_cant": "the sequences and the vectors are unbounded", "anchors": ["ocbpy/ocb_scaling.py:VectorData.vect_mag", "ocbpy/ocb_scaling.py:VectorData.__init__", "ocbpy/ocb_scaling.py:VectorData.dat_ind"]}
{"id": "C139", "title": "Evaluating the representation of a boundary gives the same boundary", "statement": "eval(repr(b)) of an OCBoundary, EABoundary or DualBoundary made by the constructor is a boundary with the same file, instrument, hemisphere, latitude, limits, records and corrections.", "quantifier": "all files, times, instruments, latitudes and correction functions", "why_tests_cant": "every table of records and every mixture of corrections has to survive", "anchors": ["ocbpy/_boundary.py:OCBoundary.__repr__", "ocbpy/_boundary.py:DualBoundary.__repr__", "ocbpy/_boundary.py:OCBoundary.__init__"]}
{"id": "C140", "title": "The text of a boundary shows its records and its corrections", "statement": "str of a boundary made by the constructor never raises: without a file it says so; with a file it shows the number of records, the first and last time, the first two and last two records in order, each once, and exactly the correction functions in use, each with the keyword arguments it is used with.", "quantifier": "all boundaries, numbers of records and assignments of corrections to records", "why_tests_cant": "any number of records, including one to four where the shown records overlap", "anchors": ["ocbpy/_boundary.py:OCBoundary.__str__"]}
{"id": "C141", "title": "Evaluating the representation of a VectorData gives the same vector data", "statement": "eval(repr(v)) of a VectorData made by the constructor, also after boundary coordinates were set, is a VectorData with the same indices, locations, components, magnitude, coordinate names, labels and scaling function.", "quantifier": "all objects made by the constructor and all later boundary coordinates and results", "why_tests_cant": "any arrays, names and functions have to survive the text", "anchors": ["ocbpy/ocb_scaling.py:VectorData.__repr__", "ocbpy/ocb_scaling.py:VectorData.__init__"]}
{"id": "C142", "title": "The text of a VectorData shows every vector, location and result once", "statement": "str of a VectorData never raises; it shows for every data index its location and its vector, for every boundary index its coordinates, and every result that is set, each once and in order, with the indices they belong to.", "quantifier": "all objects made by the constructor and all results of matching shape", "why_tests_cant": "any number of vectors and boundaries, given as scalars or arrays in any combination", "anchors": ["ocbpy/ocb_scaling.py:VectorData.__str__", "ocbpy/ocb_scaling.py:VectorData.__init__"]}
{"id": "C143", "title": "A single height applies to every sample", "statement": "add_ocb_to_data with one height (as by default) converts every accepted sample near a boundary with that height, for pandas and xarray instruments of any shape.", "quantifier": "all instruments, locations, masks, times and boundary records", "why_tests_cant": "the shapes and the numbers of samples and records are unbounded", "anchors": ["ocbpy/instruments/pysat_instruments.py:add_ocb_to_data"]}
{"id": "C144", "title": "Latitudes, local times and heights on different coordinates are combined", "statement": "When latitude, local time and height of an xarray instrument have different coordinates, add_ocb_to_data uses at every combination of coordinate values the latitude, the local time and the height at these coordinate values.", "quantifier": "all coordinates, sizes and values of latitudes, local times and heights", "why_tests_cant": "every layout of every size must put every value in its place", "anchors": ["ocbpy/instruments/pysat_instruments.py:add_ocb_to_data"]}
{"id": "C145", "title": "Locations are repeated along the other coordinates of the data", "statement": "When the data have coordinates that the locations lack, add_ocb_to_data uses for every sample the location and height at the coordinates they share, and gives the output all coordinates of the data.", "quantifier": "all locations and heights, and any number of further coordinates of any size", "why_tests_cant": "any number of coordinates of any size", "anchors": ["ocbpy/instruments/pysat_instruments.py:add_ocb_to_data"]}
{"id": "C146", "title": "Samples with several coordinates get the boundary of their own time", "statement": "With time-ordered input, the output of add_ocb_to_data has at every position whose sample is accepted the normalised location of that sample at the usable boundary record closest to the time of the sample, if that is within the allowed difference, and no value elsewhere.", "quantifier": "all instruments with any number of coordinates, masks, boundary files and limits", "why_tests_cant": "any number of times, coordinates, samples and records", "anchors": ["ocbpy/instruments/pysat_instruments.py:add_ocb_to_data"]}
{"id": "C147", "title": "Samples and output have their coordinates in the same order", "statement": "The coordinates along which add_ocb_to_data looks for samples, and those of the arrays it reads locations from and writes output to, are the same in the same order, the time first.", "quantifier": "all coordinates of latitudes, local times and variables, and whether they are data variables or coordinates", "why_tests_cant": "any number of variables with any coordinates", "anchors": ["ocbpy/instruments/pysat_instruments.py:add_ocb_to_data"]}
{"id": "C148", "title": "Vectors are normalised with a dual boundary as with its open-closed boundary", "statement": "set_ocb of a VectorData with a DualBoundary gives at every pair the components, magnitude, local time and radii that set_ocb gives with the open-closed boundary at the record of that pair, and as latitude the one normal_coord of the dual boundary gives at that pair, whether the vectors are one, an array, or an array with one pair each.", "quantifier": "all dual boundaries, pairs, vectors and scaling functions", "why_tests_cant": "any number of vectors, each at its own pair of records", "anchors": ["ocbpy/ocb_scaling.py:VectorData.set_ocb", "ocbpy/ocb_scaling.py:VectorData._assign_normal_coord_output", "ocbpy/_boundary.py:DualBoundary.normal_coord", "ocbpy/_boundary.py:DualBoundary.rec_ind"]}
{"id": "C149", "title": "The radii used for scaling with a dual boundary are those of the region of the vector", "statement": "After set_ocb with a DualBoundary, unscaled_r and scaled_r are the radii calc_r of the dual boundary gives for the boundary latitude, local time and correction of the vector.", "quantifier": "all dual boundaries, pairs and vectors", "why_tests_cant": "the region depends on real-valued positions of both boundaries and of the vector", "anchors": ["ocbpy/ocb_scaling.py:VectorData.set_ocb", "ocbpy/_boundary.py:DualBoundary.calc_r"]}
{"id": "C150", "title": "Normalising vectors with a dual boundary changes neither measurements nor boundaries", "statement": "A successful set_ocb with a DualBoundary leaves every location (also outside the hemisphere) and component, the records and pairs of the dual boundary, and every boundary location stored on either boundary as they were.", "quantifier": "all dual boundaries with any stored boundary locations, all pairs, one or several for any vectors", "why_tests_cant": "the boundaries are recalculated and stored for each pair in turn", "anchors": ["ocbpy/ocb_scaling.py:VectorData.set_ocb", "ocbpy/_boundary.py:DualBoundary.normal_coord", "ocbpy/_boundary.py:DualBoundary.get_aacgm_boundary_lats"]}
{"id": "C151", "title": "Wrapping doubles into a range of whole limits", "statement": "In double precision, fix_range with whole limits and a whole period no wider than the range ends for every finite value up to 2^50 and returns the value plus a whole number of periods, exactly, at or above the minimum and below the maximum.", "quantifier": "all finite doubles up to 2^50, and all whole limits and periods", "why_tests_cant": "2^63 doubles; every addition and subtraction of the loops may round", "anchors": ["ocbpy/ocb_time.py:fix_range"]}
{"id": "C152", "title": "Hours and degrees convert back and forth in double precision", "statement": "hr2deg and deg2hr of a finite double end, land in [min_deg, max_deg) and [0,24), and differ from the exact conversion, up to whole turns, by at most a few units of roundoff; converting there and back gives the double that went in.", "quantifier": "all finite doubles of ordinary size", "why_tests_cant": "2^63 doubles; multiplication and division round", "anchors": ["ocbpy/ocb_time.py:deg2hr", "ocbpy/ocb_time.py:hr2deg"]}
{"id": "C153", "title": "Times of day and solar local times in double precision", "statement": "datetime2hr is a double in [0,24) within 2^-47 h of the time of day and keeps the order of times a microsecond apart; slt2glon and glon2slt land in [-180,360) and [0,24) and differ from the exact conversion, up to whole turns, by a few units of roundoff; there and back gives the double that went in.", "quantifier": "all times of day to the microsecond, all finite doubles of ordinary size", "why_tests_cant": "8.64e10 times of day and 2^63 doubles", "anchors": ["ocbpy/ocb_time.py:datetime2hr", "ocbpy/ocb_time.py:slt2glon", "ocbpy/ocb_time.py:glon2slt"]}
{"id": "C154", "title": "Each pysat sample is scaled from its own value", "statement": "For pysat data with several coordinates, every accepted sample near a record gets the value scaled from the values of the variables at the place with the same coordinates, with the record closest to its own time and its own location and height; all others stay NaN. This holds for variables on the first coordinates, in any order, and for variables on all coordinates when the samples at each time are a box; with two coordinates that is always so.", "quantifier": "all instruments, masks, boundaries and tolerances", "why_tests_cant": "any number of coordinates, sizes, masks and records", "anchors": ["ocbpy/instruments/pysat_instruments.py:add_ocb_to_data", "ocbpy/instruments/pysat_instruments.py:reshape_pad_mask_flatten"]}
{"id": "C155", "title": "The values selected at a time have the coordinates of the samples", "statement": "When variables with several coordinates are scaled, the values selected at a time have their coordinates in the same order as the samples they are assigned to. If not, samples get values of other samples.", "quantifier": "all coordinates of the variables used", "why_tests_cant": "any number of variables and coordinates, in any order", "anchors": ["ocbpy/instruments/pysat_instruments.py:add_ocb_to_data"]}
{"id": "C156", "title": "Existing metadata of an instrument are kept", "statement": "add_ocb_to_data gives every output metadata and never changes metadata the instrument already has; add_ocb_to_metadata changes at most the metadata of the named output, and those only if there are none or overwriting is asked for.", "quantifier": "all metadata, outputs and boundaries", "why_tests_cant": "any number of variables, labels and outputs", "anchors": ["ocbpy/instruments/pysat_instruments.py:add_ocb_to_data", "ocbpy/instruments/pysat_instruments.py:add_ocb_to_metadata"]}
{"id": "C157", "title": "Metadata of an output follow those of the variable", "statement": "New metadata of the output of a scaled variable name the boundary of that output in name and description, have fill value NaN and the given notes, and keep every other label of the metadata of the variable; for a variable without metadata the name is made from that of the output.", "quantifier": "all variable names, metadata and labels", "why_tests_cant": "any names and labels", "anchors": ["ocbpy/instruments/pysat_instruments.py:add_ocb_to_metadata"]}
{"id": "C158", "title": "The notes of an output tell the boundary used", "statement": "After add_ocb_to_data, the notes of each output tell the instrument, file and boundary latitude of the boundaries used, and for vectors the scaling function.", "quantifier": "all outputs, boundaries and metadata", "why_tests_cant": "any metadata before the call, also those of an earlier call", "anchors": ["ocbpy/instruments/pysat_instruments.py:add_ocb_to_data"]}
{"id": "C159", "title": "A scaled variable gets the metadata of that variable", "statement": "After add_ocb_to_data, the metadata of the output of a scaled variable are made from those of the same variable.", "quantifier": "all variable names and metadata", "why_tests_cant": "any names, also names with boundary words in them", "anchors": ["ocbpy/instruments/pysat_instruments.py:add_ocb_to_data"]}
{"id": "C160", "title": "Metadata of vector output", "statement": "After add_ocb_to_data, the outputs of a vector have the units and limits of its first component, fill value NaN, and names and descriptions that tell the boundary and tell the outputs apart.", "quantifier": "all vector names and metadata", "why_tests_cant": "any names, components and metadata", "anchors": ["ocbpy/instruments/pysat_instruments.py:add_ocb_to_data", "ocbpy/instruments/pysat_instruments.py:add_ocb_to_metadata"]}
{"id": "C161", "title": "Northern and southern boundaries are mirror images", "statement": "A boundary with the same circles in the other hemisphere gives, for opposite latitudes, opposite latitudes and the same local times, corrections and radii: normal_coord, revert_coord, boundary latitudes (also those already stored) and, for dual boundaries, the region radii; and it raises the same exceptions.", "quantifier": "all boundaries, records, arrays of coordinates and stored boundaries", "why_tests_cant": "any arrays, also with NaN and latitudes of the wrong hemisphere", "anchors": ["ocbpy/_boundary.py:OCBoundary.normal_coord", "ocbpy/_boundary.py:OCBoundary.revert_coord", "ocbpy/_boundary.py:OCBoundary.get_aacgm_boundary_lat", "ocbpy/_boundary.py:DualBoundary.normal_coord", "ocbpy/_boundary.py:DualBoundary.revert_coord", "ocbpy/_boundary.py:DualBoundary.calc_r"]}
{"id": "C162", "title": "Conversions follow a boundary turned around the pole", "statement": "When a boundary is turned around the pole by a number of hours (or dawn and dusk are exchanged), positions turned in the same way have the same boundary latitude and correction, and boundary local times turned in the same way; likewise for the reverse conversion and for the boundary latitudes. Local times at the centre and at the pole have no meaning and are excepted.", "quantifier": "all boundaries, hours and positions", "why_tests_cant": "a continuum of angles; correction functions of any form", "anchors": ["ocbpy/_boundary.py:OCBoundary.normal_coord", "ocbpy/_boundary.py:OCBoundary.revert_coord", "ocbpy/_boundary.py:OCBoundary.get_aacgm_boundary_lat"]}
{"id": "C163", "title": "The text of a boundary file is read column by column", "statement": "OCBoundary.load skips the header lines and reads from every further line that is not blank or a comment the named columns in order: dates and times as text, sector counts and years as whole numbers, all others as floats, with NaN or -1 for words that are no numbers; further words of a line are not used. Lines of different or too small width are refused.", "quantifier": "all files, header lengths, column names and texts", "why_tests_cant": "any number of lines, blanks, comments and words", "anchors": ["ocbpy/_boundary.py:OCBoundary.load"]}
{"id": "C164", "title": "Every DMSP pass is written to the files of its hemisphere", "statement": "format_ssj_boundary_files writes for each pass of the input files, in order, one line to each of the two boundary files of its hemisphere, with satellite, the second of the middle time, radius and centre of the circle on which the two crossings are opposite, figure of merit and crossings, rounded to three decimals.", "quantifier": "all lists of input files and passes", "why_tests_cant": "any number of files, comments, columns in any order, and passes", "anchors": ["ocbpy/boundaries/dmsp_ssj_files.py:format_ssj_boundary_files"]}
{"id": "C165", "title": "DMSP files written are loaded again", "statement": "OCBoundary loads a file written by format_ssj_boundary_files with one record for each pass in the time window, at the second of its middle time; the loaded values are those of the pass rounded to three decimals and both crossings of a record lie on its circle to within 0.00125 degrees.", "quantifier": "all input files, hemispheres, boundaries and time windows", "why_tests_cant": "composition of two programs through text, for any number of passes", "anchors": ["ocbpy/boundaries/dmsp_ssj_files.py:format_ssj_boundary_files", "ocbpy/_boundary.py:OCBoundary.load"]}
{"id": "C166", "title": "DMSP crossings lie at the reference latitude of their own boundary", "statement": "When a DMSP pass is formatted and its boundary file is loaded, normal_coord with the record of the pass puts both crossings within 0.00125 * (90 - |boundary latitude|) / r degrees of the boundary latitude, r being the loaded radius.", "quantifier": "all input files, passes, hemispheres, boundary latitudes and time windows", "why_tests_cant": "a continuum of positions, through three programs and two texts", "anchors": ["ocbpy/boundaries/dmsp_ssj_files.py:format_ssj_boundary_files", "ocbpy/_boundary.py:OCBoundary.load", "ocbpy/_boundary.py:OCBoundary.normal_coord"]}
{"id": "C167", "title": "Fetching and formatting DMSP files in one step", "statement": "fetch_format_ssj_boundary_files writes the four boundary files, with the passes of the downloaded files that were asked for and under the names of the time span, and returns their names; with rm_temp the downloaded files are gone afterwards, without it they are kept, and no other file is lost. With no file in the time span it raises ValueError, and errors of the download are passed on.", "quantifier": "all downloads, archives, contents and requests", "why_tests_cant": "any number of archive members and files already in the directory", "anchors": ["ocbpy/boundaries/dmsp_ssj_files.py:fetch_format_ssj_boundary_files"]}
{"id": "C168", "title": "Geographic positions come back from dual-boundary coordinates", "statement": "For a dual boundary, revert_coord with geographic output undoes normal_coord of geographic (latitude, solar local time) positions: each latitude comes back and each local time modulo 24 hours, in [0, 24), at the height given, when aacgmv2 inverts itself.", "quantifier": "all paired boundaries, positions in their three regions, arrays, heights and times of day", "why_tests_cant": "a continuum of positions and any aacgmv2; arrays of any mixture of regions", "anchors": ["ocbpy/_boundary.py:DualBoundary.normal_coord", "ocbpy/_boundary.py:DualBoundary.revert_coord"]}
{"id": "C169", "title": "The boundary period read for a pysat instrument suffices", "statement": "When add_ocb_to_data is given a boundary file instead of a boundary object, it reads only the boundaries from max_sdiff + 1 seconds before the first sample to as much after the last; its output, if it has any value, is the output the whole file gives, and the boundaries read are exactly those of this period.", "quantifier": "all boundary files, samples, selection criteria, hemispheres and time differences", "why_tests_cant": "any number of boundaries and samples at any times", "anchors": ["ocbpy/instruments/pysat_instruments.py:add_ocb_to_data", "ocbpy/_boundary.py:OCBoundary.load"]}
{"id": "C170", "title": "Names given to add_ocb_to_data are checked and collected", "statement": "add_ocb_to_data raises ValueError when the latitude or local time is not a variable, a scaled name is neither a variable nor a vector, a vector component is not a variable, or a vector has no scaling, and for no other names; the values it requires to be finite are those of the two coordinates, the scaled variables and the vector components, each once.", "quantifier": "all variables, names, vectors and descriptions", "why_tests_cant": "any number of names in any order and overlap", "anchors": ["ocbpy/instruments/pysat_instruments.py:add_ocb_to_data"]}
{"id": "C171", "title": "Outputs of add_ocb_to_data are complete and distinct", "statement": "The outputs are one for each coordinate, the radius correction, each scaled variable and each vector, named after it and the boundary, and no two of them share a name.", "quantifier": "all variables, names, vectors and boundary names", "why_tests_cant": "any number of names in any order and overlap", "anchors": ["ocbpy/instruments/pysat_instruments.py:add_ocb_to_data"]}
{"id": "C172", "title": "Criteria given with a dual boundary select the pairs used", "statement": "When vort2ascii_ocb or match_data_ocb is given selection criteria and a DualBoundary, measurements are paired with exactly the pairs of boundaries that meet the criteria: each measurement with such a pair within max_sdiff is used once, with the closest of them, and no other measurement is used.", "quantifier": "all dual boundaries, criteria, measurement times and tolerances", "why_tests_cant": "any number of records and measurements; the pairs are rebuilt on every call", "anchors": ["ocbpy/cycle_boundary.py:match_data_ocb", "ocbpy/_boundary.py:DualBoundary.set_good_ind", "ocbpy/instruments/vort.py:vort2ascii_ocb"]}
{"id": "C173", "title": "Criteria of one call do not carry over to the next", "statement": "A call of match_data_ocb with selection criteria and a DualBoundary gives the same match and leaves the same pairs and record whatever calls, pairings and cursor movements came before, and a call without criteria uses the default pairs.", "quantifier": "all dual boundaries and all histories of matching, pairing, cursor assignment and cycling", "why_tests_cant": "histories of any length", "anchors": ["ocbpy/cycle_boundary.py:match_data_ocb", "ocbpy/_boundary.py:DualBoundary.set_good_ind", "ocbpy/_boundary.py:DualBoundary.rec_ind"]}
{"id": "C174", "title": "Stations are paired with the closest dual boundary", "statement": "Given a DualBoundary, supermag2ascii_ocb pairs each station measurement that has a usable pair of boundaries within max_sdiff with the closest of them, once, several stations of one time with the same pair, and uses no other measurement; with selection criteria the usable pairs are those that meet the criteria.", "quantifier": "all dual boundaries, cursors, criteria, measurement times and tolerances", "why_tests_cant": "any number of records, stations and times", "anchors": ["ocbpy/instruments/supermag.py:supermag2ascii_ocb", "ocbpy/cycle_boundary.py:match_data_ocb"]}
{"id": "C175", "title": "Samples of a pysat instrument converted with a dual boundary", "statement": "Given a DualBoundary, add_ocb_to_data computes the values of every sample in the hemisphere with finite data from the OCB record and the EAB record of the closest pair within max_sdiff, among the pairs that meet the criteria, and leaves every other sample without value.", "quantifier": "all dual boundaries, samples, hemispheres, criteria and tolerances", "why_tests_cant": "any number of records and samples; the two record indices differ from the index of the pair", "anchors": ["ocbpy/instruments/pysat_instruments.py:add_ocb_to_data", "ocbpy/cycle_boundary.py:match_data_ocb", "ocbpy/_boundary.py:DualBoundary.set_good_ind"]}
{"id": "C176", "title": "Keywords of add_ocb_to_data reach the dual boundary or the criteria", "statement": "When add_ocb_to_data makes the DualBoundary itself, every keyword DualBoundary accepts is passed to it with the value given, and is not used as a criterion; every other keyword is a criterion and is not passed; the hemisphere, period and both instruments take the values of the data and the call unless given.", "quantifier": "all keywords and values", "why_tests_cant": "any number of keywords in any order", "anchors": ["ocbpy/instruments/pysat_instruments.py:add_ocb_to_data", "ocbpy/_boundary.py:DualBoundary.__init__"]}
{"id": "C177", "title": "The text of a dual boundary reports its pairs", "statement": "Whatever was done with a DualBoundary, its text gives the current number of pairs, the times of the earliest and the latest pair (or none if there is no pair), the largest time difference, and the texts of the EAB and the OCB; pairs are in the order of time even when the records of the two boundaries are not.", "quantifier": "all pairs of boundaries, record orders, and histories of matching, pairing, cursor assignment and cycling", "why_tests_cant": "histories and record numbers of any length", "anchors": ["ocbpy/_boundary.py:DualBoundary.__str__", "ocbpy/_boundary.py:DualBoundary.set_good_ind"]}
{"id": "C178", "title": "The representation of a dual boundary evaluates to a fresh copy", "statement": "Evaluating repr of a DualBoundary gives an object equal to it.", "quantifier": "all pairs of boundaries and histories of matching, pairing, cursor assignment and cycling", "why_tests_cant": "histories of any length", "anchors": ["ocbpy/_boundary.py:DualBoundary.__repr__", "ocbpy/_boundary.py:DualBoundary.__init__"]}
{"id": "C179", "title": "Hours to radians in double precision", "statement": "For every finite double up to 2^40, hr2rad returns a double in [0, 2 pi) that is pi/12 times the hours up to whole turns and a few units of rounding; the excluded maximum 2.0 * np.pi is never returned.", "quantifier": "all finite doubles up to 2^40 either way (accuracy: ten days either way)", "why_tests_cant": "2^64 doubles; the number of turns taken off is unbounded", "anchors": ["ocbpy/ocb_time.py:hr2rad", "ocbpy/ocb_time.py:fix_range"]}
{"id": "C180", "title": "Radians to hours in double precision, and back", "statement": "For every finite double up to 2^40, rad2hr returns a double in [0, 24) that is 12/pi times the angle up to whole days and a few units of rounding; converting the hours of a day to radians and back, or the angles of a turn to hours and back, gives the same value.", "quantifier": "all finite doubles up to 2^40 either way", "why_tests_cant": "2^64 doubles; the number of days taken off is unbounded", "anchors": ["ocbpy/ocb_time.py:rad2hr", "ocbpy/ocb_time.py:hr2rad"]}
{"id": "C181", "title": "Floating-point seconds do not change what is matched", "statement": "match_data_ocb compares time differences as floating-point seconds; it finds the same measurement and boundary record as with exact times, so the record found is the one closest in exact time.", "quantifier": "all boundaries, data times, tolerances, criteria and starting indices", "why_tests_cant": "any number of records; differences that tie or round the wrong way are single microseconds among 2^53", "anchors": ["ocbpy/cycle_boundary.py:match_data_ocb"]}
{"id": "C182", "title": "Seconds of year in double precision", "statement": "For every double from 0 to 2^50, year_soy_to_datetime and convert_time give the time of its exact value: the roundings of the divisions and differences never move a day, hour, minute or second. Whole seconds are exact, other values are rounded to the nearest second.", "quantifier": "all doubles and years", "why_tests_cant": "2^62 doubles, among them those next to every whole minute, hour and day", "anchors": ["ocbpy/ocb_time.py:year_soy_to_datetime", "ocbpy/ocb_time.py:convert_time"]}
{"id": "C183", "title": "Seconds of day in double precision", "statement": "convert_time with seconds of day sod adds sod rounded up to a whole microsecond; whole seconds are exact, and a number of microseconds written in seconds gives this number of microseconds.", "quantifier": "all doubles from 0 to 2^40, dates, times of day and formats", "why_tests_cant": "2^62 doubles; whether a product rounds up or down depends on the last bit", "anchors": ["ocbpy/ocb_time.py:convert_time"]}
{"id": "C184", "title": "Times of vorticity files in double precision", "statement": "load_vorticity_ascii_data gives every entry the second of its decimal hours: hours that are a whole number of seconds give this second, and later hours are never earlier times.", "quantifier": "all files and all hours of two days", "why_tests_cant": "any number of blocks and entries; the second given depends on the last bit of a product", "anchors": ["ocbpy/instruments/vort.py:load_vorticity_ascii_data"]}
{"id": "C185", "title": "Middle times of DMSP passes in double precision", "statement": "format_ssj_boundary_files puts a pass at the middle of the two times of its crossings: exactly when these are written with up to five decimals, to a microsecond otherwise, never before the earlier or after the later crossing, at the second of the exact middle unless that is half a microsecond before the next and whichever comes first; times that are not numbers raise ValueError, infinite ones OverflowError.", "quantifier": "all seconds of day of two days", "why_tests_cant": "the microsecond depends on the rounding of a sum, a product and a difference of doubles", "anchors": ["ocbpy/boundaries/dmsp_ssj_files.py:format_ssj_boundary_files"]}
{"id": "C186", "title": "A tolerance that is a float", "statement": "match_data_ocb with a whole number of seconds given as a float (60.0) does what it does with the integer (60); the record it stops at is within the tolerance.", "quantifier": "all boundaries, data times, starting indices, selection criteria and tolerances up to 2^40 s", "why_tests_cant": "depends on the order of any number of boundary and data times", "anchors": ["ocbpy/cycle_boundary.py:match_data_ocb"]}
{"id": "C187", "title": "A maximum time difference that is a float", "statement": "DualBoundary with a whole number of seconds given as a float (max_delta=60.0) pairs the records as with the integer (60).", "quantifier": "all pairs of boundaries, selection criteria and maximum differences up to 2^40 s", "why_tests_cant": "depends on the order of any number of records of two files", "anchors": ["ocbpy/_boundary.py:DualBoundary.set_good_ind", "ocbpy/cycle_boundary.py:match_data_ocb"]}
