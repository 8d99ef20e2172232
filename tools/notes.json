{
 "C03": [
  "proved",
  "Involution proved for every encodable array; C03_decoder_limit_refuted records that the decoder also accepts numbers above the largest encodable one, which cannot be flipped."
 ],
 "C04": [
  "proved",
  "Elementwise for one regime; C04_mixed_regimes_refuted shows the failure for mixed arrays."
 ],
 "C100": [
  "proved",
  "The exception is C100_diameters_refuted. New antenna positions and diameters given by the user, other keywords, sidereal times, history and the final check are not modelled."
 ],
 "C101": [
  "proved",
  "The exception is C101_mixed_refuted. C101_names and C101_numbers suppose that the number of antennas is set. Locations, diameters, x_orientation, warnings and the final check are not modelled."
 ],
 "C102": [
  "proved",
  "The default format of names; names are ASCII strings, and Python's limit on the number of digits of strings read as integers is left out. The other parameters of Telescope.new are not modelled."
 ],
 "C20": [
  "proved",
  "Exact for ordered lookups and, outside the one-row-each reversed case (C20_two_rows_reversed_refuted), for unordered ones. Histories are those of Spec/AccessSpec.v step; in-place edits of arrays behind the object are outside."
 ],
 "C21": [
  "proved",
  "Complete case analysis for keys in key_cells (squeezing not modelled); the three failing situations are proved as findings."
 ],
 "C22": [
  "proved",
  "For objects with distinct polarizations; see key_cells for the keys. For a pair key with unconjugable polarizations set_data writes only the rows stored as asked (not stated)."
 ],
 "C23": [
  "proved",
  "For the calls in Spec/AccessSpec.v step; C23_x_orientation_refuted for the unwatched attribute."
 ],
 "C24": [
  "proved",
  "get_data equality is for keys given by polarization number and both objects self-consistent (bl_coded is shown kept by default_coded; rect_truthful by C62). C24_mixed_numbering_refuted records the 256-scheme failure. Auto-correlations turned by an index list are conjugated in place (a != b in the statement)."
 ],
 "C25": [
  "proved",
  "Proved for polarizations fixed by conjugation; C25_cross_polarization_flags_refuted shows the claim false for cross polarizations."
 ],
 "C26": [
  "proved",
  "Histories include phase, unproject_phase and consolidation. C26_merge_named_twice_refuted: merge_phase_centers(['a','a']) deletes an entry that is in use."
 ],
 "C27": [
  "proved",
  "'Smallest id' is not guaranteed by set.pop, so the statement says: free, non-negative and bounded by the number of ids in use; proved for every choice function."
 ],
 "C28": [
  "proved",
  "C28_split_keeping_the_name_refuted: with the default new_name=None a split of part of the rows is a silent no-op."
 ],
 "C29": [
  "proved",
  "Side condition 'distinguishable' is necessary: C29_alike_reference_entries_refuted."
 ],
 "C30": [
  "proved",
  ""
 ],
 "C31": [
  "proved",
  "exact on non-empty axes with distinct window numbers; repeated numbers refuted"
 ],
 "C32": [
  "proved",
  "all argument combinations; the window list itself can be left unsorted (refuted part)"
 ],
 "C33": [
  "proved",
  "Floats are exact rationals. Several windows kept apart are covered when only the first has flags; the refuted theorems show what happens otherwise. eq_coeffs are averaged too. Warnings and the frequency spacing check that only warns are not modelled."
 ],
 "C34": [
  "proved",
  "remove_flex_pol is covered for windows without repeated frequencies (numpy's default argsort is not stable). eq_coeffs is carried along unchanged, as in the code; metadata_only objects are not modelled."
 ],
 "C35": [
  "proved",
  "ant_str, metadata-only objects, the history and the warnings are not modelled. Empty frequencies or polarizations lists are accepted by the code and are covered (for flex-pol objects an empty polarizations list is excluded)."
 ],
 "C36": [
  "proved",
  ""
 ],
 "C37": [
  "proved",
  ""
 ],
 "C38": [
  "proved",
  "np.isclose is modelled exactly over Z values with rational tolerances."
 ],
 "C39": [
  "proved",
  "Model of __add__ for objects with data. Row labels are pairs (time, baseline) instead of the formatted string; the order of the strings is a parameter, so the theorems hold for any."
 ],
 "C40": [
  "proved",
  "Model of fast_concat for objects with data; any number of objects. Nants_data, history and filename are not modelled."
 ],
 "C41": [
  "proved",
  "Visibilities are integers (exact arithmetic); the data arrays are taken to have one shape, as the metadata comparison ensures."
 ],
 "C42": [
  "proved",
  "Exact rationals; the phasing of unprojected and driftscan data, LSTs, apparent coordinates and uvws are not modelled; of check() only the count of baselines."
 ],
 "C43": [
  "proved",
  "Exact rationals; the phasing of unprojected and driftscan data, LSTs, apparent coordinates and uvws are not modelled; of check() only the count of baselines."
 ],
 "C44": [
  "proved",
  "Exact rationals; the phasing of unprojected and driftscan data, LSTs, apparent coordinates and uvws are not modelled; of check() only the count of baselines."
 ],
 "C45": [
  "proved",
  "Exact rationals; the phasing of unprojected and driftscan data, LSTs, apparent coordinates and uvws are not modelled; of check() only the count of baselines."
 ],
 "C46": [
  "proved",
  "Coordinates and tolerances are exact; frozensets are compared by value where the code compares their hashes."
 ],
 "C47": [
  "proved",
  "Coordinates and tolerances are exact; frozensets are compared by value where the code compares their hashes. A zero tolerance (division by zero) is not modelled."
 ],
 "C48": [
  "proved",
  "Coordinates and tolerances are exact; frozensets are compared by value where the code compares their hashes. The lengths of the centers (square roots) are not modelled."
 ],
 "C49": [
  "proved",
  "Exact rationals with infinities; NaN, complex input and rounding are not modelled. The square root is a real number, so quadmean_lies_between uses the axioms of the standard library's reals."
 ],
 "C50": [
  "proved",
  "N-dimensional boolean arrays of any shape with any axis argument."
 ],
 "C51": [
  "proved",
  "Flag mode; comparisons of telescope and spectral-window metadata in the conversion are assumed to succeed; of check() only the count of times is modelled."
 ],
 "C52": [
  "proved",
  "Strings are lists of 8-bit characters."
 ],
 "C53": [
  "proved",
  "Current (little-endian, unpadded) record format, cross- and auto-correlations; values are integers of a given number of bytes. Masks, channel averaging and objects of several files are not modelled; nor is how metadata tables are written."
 ],
 "C54": [
  "proved",
  "Exact rationals; scaling a float32 by a power of two is exact. NaN and infinities are not modelled."
 ],
 "C55": [
  "proved",
  "Quotients are exact rationals."
 ],
 "C56": [
  "proved",
  "Flag mode, methods 'or' and 'and'; telescope metadata comparisons are assumed to succeed; of check() only the count of times is modelled."
 ],
 "C57": [
  "proved",
  "Antennas in the data are assumed to be listed by the telescope; the final check() and Nants_data are not modelled."
 ],
 "C59": [
  "proved",
  "Exact rationals. Gain type solutions with a frequency array; delays, wide-band solutions and Dterm_cal, warnings and history are not modelled. Times and frequencies are compared with an absolute tolerance."
 ],
 "C60": [
  "proved",
  "Exact real arithmetic (the axioms of the standard library's reals); rounding is not modelled. The site is given by latitude, longitude and altitude."
 ],
 "C61": [
  "proved",
  "Model of functools.lru_cache (keys by equality, least recently used entry evicted) with returned lists as shared objects."
 ],
 "C62": [
  "proved",
  "Per mutating call with the side conditions in the statement; C62_stale_after_conjugation_refuted and C19_autos_first_breaks_rectangularity_refuted are the failures."
 ],
 "C64": [
  "proved",
  "C64_phasing_overwrites_refuted: phase() passes the id of the inexact match with force_update=True, so an entry in use by unselected rows is replaced."
 ],
 "C65": [
  "proved",
  "Model of UVParameter.__eq__ and UVBase.__eq__ for None, real and integer numbers and arrays, strings and lists of strings; dicts, recarrays, astropy and nested objects are values compared by an opaque equality; NaN, complex arrays and type checks are not modelled."
 ],
 "C66": [
  "proved",
  "Exact real arithmetic (the axioms of the standard library's reals); rounding is not modelled. np.empty's contents are an arbitrary matrix in the model."
 ],
 "C67": [
  "proved",
  "Exact real arithmetic (the axioms of the standard library's reals); rounding is not modelled."
 ],
 "C68": [
  "proved",
  "Exact real arithmetic (the axioms of the standard library's reals); rounding is not modelled. Bowring's formula is not exact off the ellipsoid, so no exact inverse is claimed there."
 ],
 "C69": [
  "proved",
  "Exact real arithmetic (the axioms of the standard library's reals); rounding is not modelled."
 ],
 "C70": [
  "proved",
  "Coordinates and tolerances are exact; frozensets are compared by value where the code compares their hashes."
 ],
 "C71": [
  "proved",
  "Exact rationals; the phasing of unprojected and driftscan data, LSTs, apparent coordinates and uvws are not modelled; of check() only the count of baselines."
 ],
 "C72": [
  "proved",
  "The groups and the list of conjugated baselines are inputs (C46-C48 are about finding them). No baseline occurs in both orientations. Exact rationals; times are integers. Of the metadata only baselines and times are modelled."
 ],
 "C73": [
  "proved",
  "Real numbers in place of floats. The sky (astropy, erfa) is any function from position, time and LST to apparent place. lookup_name=True at JPL-Horizons, ephemeris extension, masks that select nothing are not modelled. Phasing under a stored name needs an explicit epoch."
 ],
 "C74": [
  "proved",
  "As for C73. The hypothesis on position angles excludes rows at one hour angle and declination that differ in position angle (see C66). Rows phased with cat_type='unprojected' need a new name and phase_frame='altaz'."
 ],
 "C75": [
  "proved",
  "Real numbers in place of floats, so that the imaginary parts _check_auto_power removes are exactly zero. The last two axes of non-healpix beams are one pixel axis. Feeds named from two families (x and e) raise KeyError and are excluded by good_feeds."
 ],
 "C76": [
  "proved",
  "As for C75."
 ],
 "C77": [
  "proved",
  "A frequency that is all zero gives NaN in the code and an error in the model. Areas are for polarization strings; interpolation to healpix is not modelled."
 ],
 "C78": [
  "proved",
  "Phase centers, history and metadata_only objects are not modelled; sorts are stable."
 ],
 "C79": [
  "proved",
  "C79_solutions_refuted, C79_window_jones_refuted, C79_same_range_refuted and C79_totals_refuted show that the exceptions are needed. Broadcasting of arrays of other shapes is not modelled; it cannot arise for valid objects."
 ],
 "C80": [
  "proved",
  "C80_absent_window_refuted, C80_two_windows_refuted and C80_negative_refuted show that the exceptions are needed. Selection by phase center, history and warnings are not modelled."
 ],
 "C81": [
  "proved",
  "Over the real numbers. History and the calls of check are not modelled."
 ],
 "C82": [
  "proved",
  "C82_total_quality_refuted, C82_uneven_refuted and C82_twins_refuted show that the exceptions are needed. When windows are combined, C82_remove assumes that no frequency is within the tolerance of all channels of a window with several (resolved). metadata_only objects and history are not modelled."
 ],
 "C83": [
  "proved",
  "C83_order_refuted, C83_shared_frequency_refuted, C83_one_channel_refuted and C83_repeated_refuted show that the exceptions are needed. ant_str, history and the final check are not modelled; polarization_array holds integers."
 ],
 "C84": [
  "proved",
  "C84_twice_refuted, C84_antennas_refuted, C84_times_refuted, C84_baselines_refuted and C84_windows_refuted show that the exceptions are needed. The telescopes are taken to be the same; file names, history and collapsed polarizations are not modelled."
 ],
 "C85": [
  "proved",
  "C85_default_threshold_refuted and C85_or_labels_refuted show that the exceptions are needed. NaN metrics and the history are not modelled; of the final check only the shapes are."
 ],
 "C86": [
  "proved",
  "C86_squares_refuted shows the last exception; the weights of one are part of C86_flags. Arithmetic is exact and there are no NaNs. Averages of metrics that are themselves quadratic means are covered for the quadratic mean only (suits)."
 ],
 "C87": [
  "proved",
  "The exceptions are C87_pol_order_refuted, C87_pol_twice_refuted, C87_power_basis_refuted, C87_sign_refuted and C87_half_done_refuted. History, warnings and the rest of the check are not modelled."
 ],
 "C88": [
  "proved",
  "The exceptions are C88_order_refuted, C88_overwrite_refuted, C88_overwrite_basis_refuted, C88_holes_refuted, C88_power_basis_refuted and C88_orientation_refuted. File names, history and the rest of the check are not modelled."
 ],
 "C89": [
  "proved",
  "The exceptions are C89_order_refuted, C89_windows (a choice of channels is never granted with several windows) with C89_windows_refuted, C89_decreasing_refuted and C89_flags_refuted. Numbers are exact: the rounding to single precision in the file, the conversion of coordinates between metres and seconds, tolerances, header keywords and the antenna table beyond the numbers are not modelled."
 ],
 "C90": [
  "proved",
  "The exceptions are C90_nothing_refuted, C90_feed_refuted, C90_orientation_refuted, C90_swapped_refuted, C90_group_refuted and C90_twice_refuted; C90_meaning assumes several polarizations or no letters for the last one. The regular expressions are modelled by functions on characters; warnings and printing are not modelled."
 ],
 "C91": [
  "proved",
  "The exceptions are C91_any_refuted, C91_or_mask_refuted, C91_group_keys_refuted and C91_length_refuted. Entries are lists of integers (several for fields like tsys); one field is read or set at a time; sorting on reading (the array of records) is not modelled."
 ],
 "C92": [
  "proved",
  "For discard_flagged=False and tables that are in order or not at the same places; the exceptions are C92_discard_refuted and C92_order_refuted. Tables without data are not modelled; records are compared field by field."
 ],
 "C93": [
  "proved",
  "The exceptions are C93_autos_refuted, C93_any_refuted and C93_widen_refuted. Aliases, codes (names of sources) and the data arrays are not modelled; integration numbers are below 2^32."
 ],
 "C94": [
  "proved",
  "The exceptions are the theorems with suffix _refuted. The telescope, phase centers, uvws and the test for rectangular axes (C17) are not modelled; sidereal time is any function of time."
 ],
 "C95": [
  "proved",
  "Data are exact reals (no nan). The exception is C95_unordered_refuted."
 ],
 "C96": [
  "proved",
  "The exception is C96_again_refuted. Data are exact rationals; the cache of antpair2ind is not used (C20, C23)."
 ],
 "C97": [
  "proved",
  "The exceptions are C97_shared_window_refuted, C97_window_order_refuted, C97_wide_windows_refuted and C97_references_refuted. Catalogs of phase centers, histories, filenames and telescopes are not modelled beyond one token that must agree."
 ],
 "C98": [
  "proved",
  "The exception is C98_frequencies_refuted. The wiring and the packing of files are as documented in the code. Frequencies, widths and times are exact. FITS files, scaling, the Van Vleck, bandpass, digital gain and cable corrections and aoflagger files are not modelled."
 ],
 "C99": [
  "proved",
  "The exceptions are C99_reuse_refuted, C99_select_refuted, C99_bandpass_refuted and C99_polarizations_refuted. Splines are arbitrary functions of an image, their options and a direction. Kinds other than nearest and linear, coupling matrices, basis vectors and the check of the domain are not modelled."
 ]
}
