{"id": "C01", "title": "Baseline numbers round-trip to antenna pairs", "statement": "If antnums_to_baseline(ant1, ant2, Nants) accepts arrays of antenna numbers (not using the miriad convention, with or without attempt256), then baseline_to_antnums of the result, with any accepted Nants, returns exactly ant1 and ant2.", "quantifier": "all antenna arrays of any length with any numbers, every Nants_telescope, both values of attempt256", "why_tests_cant": "The encoder has three numeric regimes chosen from the maximum of the whole array and the decoder re-derives the regime from the minimum of the whole array; only an argument over all values excludes a collision at a regime boundary.", "anchors": ["src/pyuvdata/utils/bls.py:antnums_to_baseline", "src/pyuvdata/utils/bls.py:baseline_to_antnums", "src/pyuvdata/utils/bls.pyx:antnums_to_baseline", "src/pyuvdata/utils/bls.pyx:baseline_to_antnums"]}
{"id": "C02", "title": "Baseline numbers are unique and fit in 64 bits", "statement": "Within one accepted antnums_to_baseline call (non-miriad) two entries get the same number only if they are the same ordered pair, every produced number is in [0, 2**64) with no wraparound, and the produced array is accepted by baseline_to_antnums.", "quantifier": "all antenna arrays accepted by the encoder", "why_tests_cant": "The value space is 2**62 pairs; wraparound or collision can hide anywhere.", "anchors": ["src/pyuvdata/utils/bls.pyx:antnums_to_baseline", "src/pyuvdata/utils/bls.py:antnums_to_baseline"]}
{"id": "C03", "title": "Flipping a baseline index swaps the antennas and is an involution", "statement": "For any baseline array produced by the encoder, baseline_index_flip decodes to the same pairs with the antennas swapped, and flipping twice gives numbers that decode to the original pairs.", "quantifier": "all encodable antenna arrays and all Nants", "why_tests_cant": "Same regime interplay as C01, composed twice.", "anchors": ["src/pyuvdata/utils/bls.py:baseline_index_flip"]}
{"id": "C04", "title": "Decoding an array agrees with decoding its elements", "statement": "baseline_to_antnums on an array returns element by element what it returns for each baseline number on its own, whenever all the numbers belong to one encoding regime; for arrays mixing regimes this fails.", "quantifier": "all arrays of baseline numbers", "why_tests_cant": "The regime is selected from the array minimum, so one element changes how all others decode.", "anchors": ["src/pyuvdata/utils/bls.py:baseline_to_antnums", "src/pyuvdata/utils/bls.pyx:baseline_to_antnums"]}
{"id": "C05", "title": "Miriad-convention baseline numbers decode with the MIRIAD rule", "statement": "A number made with use_miriad_convention decodes with the miriad bl2ij rule to the pair it came from for all pairs both below 256 or with ant2>255 and ant1 in range, and the convention as a whole is not injective.", "quantifier": "all pairs of antenna numbers", "why_tests_cant": "Per-element regime and a shared number space", "anchors": ["src/pyuvdata/utils/bls.pyx:_antnum_to_bl_2048_miriad", "src/pyuvdata/uvdata/aipy_extracts.py:bl2ij", "src/pyuvdata/uvdata/aipy_extracts.py:ij2bl"]}
{"id": "C06", "title": "Index lists converted to slices select the same elements", "statement": "For a strictly increasing index list, the list of slices produced for chunked reading/writing selects exactly those indices, in order, whatever the max_nslice limits; the returned success flag only reports the number of slices.", "quantifier": "all strictly increasing index lists and all limits", "why_tests_cant": "Slice merging depends on unbounded look-ahead over the spacing pattern.", "anchors": ["src/pyuvdata/utils/tools.py:_convert_to_slices"]}
{"id": "C07", "title": "slicify is meaning-preserving", "statement": "slicify returns None for None/empty, and otherwise an object selecting exactly the given indices in order, for every strictly increasing list.", "quantifier": "all strictly increasing index lists", "why_tests_cant": "unbounded list structure", "anchors": ["src/pyuvdata/utils/tools.py:slicify"]}
{"id": "C08", "title": "Declared slice lengths are true lengths", "statement": "For every non-negative start, positive step and non-empty in-range slice the length used to allocate the output of a partial HDF5 read equals the number of elements the slice selects.", "quantifier": "all slices and axis lengths", "why_tests_cant": "arithmetic over unbounded integers", "anchors": ["src/pyuvdata/utils/io/hdf5.py:_get_slice_len"]}
{"id": "C09", "title": "Partial reads and writes address exactly the requested block", "statement": "Reading with a per-axis list of slices returns the array whose (i,j,k) entry is the dataset entry at the i-th, j-th, k-th selected index; writing with the same indices changes exactly those entries, and reading after writing returns what was written.", "quantifier": "all 3-d datasets, all per-axis index specifications", "why_tests_cant": "Offsets accumulate over arbitrarily many slices on each axis", "anchors": ["src/pyuvdata/utils/io/hdf5.py:_index_dset", "src/pyuvdata/utils/io/hdf5.py:_get_dset_shape"]}
{"id": "C10", "title": "Sorted-unique set helpers implement set algebra", "statement": "The union, intersection and difference helpers return strictly increasing lists whose members are exactly the set-theoretic result, for any inputs including None.", "quantifier": "all integer lists", "why_tests_cant": "quantifies over all inputs", "anchors": ["src/pyuvdata/utils/tools.py:_sorted_unique_union", "src/pyuvdata/utils/tools.py:_sorted_unique_intersection", "src/pyuvdata/utils/tools.py:_sorted_unique_difference"]}
{"id": "C11", "title": "Combining objects merges filenames as a sorted union", "statement": "The filename attribute of a combination is None iff both are None, otherwise a duplicate-free sorted list containing exactly the names of both when both are set; combination is commutative, associative and idempotent on normalised lists.", "quantifier": "all pairs/triples of filename lists", "why_tests_cant": "algebraic laws range over all inputs and any order of combining", "anchors": ["src/pyuvdata/utils/tools.py:_combine_filenames"]}
{"id": "C12", "title": "Range-overlap test is exact", "statement": "The time/LST range overlap check answers yes iff two of the given ranges share an interior point, even though only neighbours after sorting are compared.", "quantifier": "all lists of ranges with start<=stop", "why_tests_cant": "pairwise property from a linear scan needs induction", "anchors": ["src/pyuvdata/utils/tools.py:_check_range_overlap"]}
{"id": "C13", "title": "Polarization and Jones names round-trip", "statement": "polstr2num(polnum2str(n)) = n for every legal polarization number, with every x_orientation setting; likewise jstr2num/jnum2str; and no two numbers share a name.", "quantifier": "all polarization numbers and x_orientation values, lists of any length", "why_tests_cant": "lists of arbitrary length", "anchors": ["src/pyuvdata/utils/pol.py:polstr2num", "src/pyuvdata/utils/pol.py:polnum2str", "src/pyuvdata/utils/pol.py:jstr2num", "src/pyuvdata/utils/pol.py:jnum2str"]}
{"id": "C14", "title": "Polarization conjugation is an involution that swaps feeds", "statement": "conj_pol applied twice is the identity, on numbers and on strings, the string and integer versions agree, and it fixes exactly the polarizations whose two feeds agree (and the pseudo-Stokes ones).", "quantifier": "all legal polarizations", "why_tests_cant": "needed as an algebraic law by conjugate_bls", "anchors": ["src/pyuvdata/utils/pol.py:conj_pol"]}
{"id": "C15", "title": "Conjugate-pol reordering is the right involutive permutation", "statement": "reorder_conj_pols returns, for a duplicate-free polarization array closed under conjugation, a self-inverse permutation that maps each index to the index of its conjugate, and raises ValueError exactly when the array is not closed.", "quantifier": "all polarization arrays", "why_tests_cant": "arbitrary arrays", "anchors": ["src/pyuvdata/utils/pol.py:reorder_conj_pols"]}
{"id": "C16", "title": "reorder_pols permutes and sorts the polarization axis", "statement": "Ordering by AIPS or CASA gives a permutation of the polarization axis, sorted by |pol| or by the CASA rank, and data, flags and nsamples stay attached to their polarization.", "quantifier": "all polarization arrays and data cubes", "why_tests_cant": "arbitrary arrays; data and labels must move together", "anchors": ["src/pyuvdata/utils/pol.py:determine_pol_order", "src/pyuvdata/uvdata/uvdata.py:reorder_pols"]}
{"id": "C17", "title": "A blt axis declared rectangular really is", "statement": "If determine_rectangularity answers (True, f), then the baseline-time axis is the product of a list of Nbls baselines and a list of Ntimes times laid out in the declared order; (False, .) is returned whenever the size does not match.", "quantifier": "all time/baseline arrays and all blt_order values consistent with the data", "why_tests_cant": "two-dimensional layout over arrays of any size", "anchors": ["src/pyuvdata/utils/bltaxis.py:determine_rectangularity"]}
{"id": "C18", "title": "The determined blt order is a true description of the axis", "statement": "If determine_blt_order returns an order, the blt axis is sorted by that major key and minor key. Conversely a rectangular axis with at least two increasing times and two increasing baseline numbers is recognised: time-major as (time, baseline) when neither antenna array is constant, baseline-major as (baseline, time) when the two antenna arrays are not both nondecreasing (otherwise the function can fail its own internal assertion).", "quantifier": "all arrays of times, antennas and baselines", "why_tests_cant": "sortedness is a property of the whole array", "anchors": ["src/pyuvdata/utils/bltaxis.py:determine_blt_order"]}
{"id": "C19", "title": "reorder_blts only permutes and achieves the requested order", "statement": "reorder_blts with a named order rearranges whole baseline-time records (no record lost, duplicated or mixed with another) and the result is sorted by major then minor key, autos first when requested; applying it twice changes nothing.", "quantifier": "all objects, all legal order/minor_order/autos_first combinations", "why_tests_cant": "permutation and sortedness for any size", "anchors": ["src/pyuvdata/uvdata/uvdata.py:reorder_blts"]}
{"id": "C20", "title": "antpair2ind finds exactly the rows of an antenna pair", "statement": "antpair2ind returns an index selecting precisely the rows whose antennas are the pair in the given order, in increasing order; with ordered=False, the rows stored as (a,b) followed by the rows stored as (b,a), except that the answer is wrong when each orientation has exactly one row and the reversed one comes first. The answer does not depend on whether it comes from the cache, from the rectangular shortcut, or from a search.", "quantifier": "all objects with a valid rectangularity flag, all pairs, all histories of earlier queries", "why_tests_cant": "Answers come from a cache whose content depends on the whole call history", "anchors": ["src/pyuvdata/uvdata/uvdata.py:antpair2ind"]}
{"id": "C21", "title": "get_data returns the right baseline with the right orientation", "statement": "get_data, get_flags and get_nsamples for a key return the rows stored as (a,b) followed by the (conjugated) rows stored as (b,a) with the conjugate polarization, get_times the times of these rows in the same order, and KeyError if there is nothing, independent of earlier queries. Exceptions that are shown to fail: conjugate polarizations stored in exactly the opposite order (silently dropped), polarizations without stored conjugates (rows stored the other way round are left out of a pair key), and a polarization available in one orientation only while both have rows (ValueError).", "quantifier": "all objects, keys and query histories", "why_tests_cant": "history-dependent caches and two-sided lookup", "anchors": ["src/pyuvdata/uvdata/uvdata.py:_key2inds", "src/pyuvdata/uvdata/uvdata.py:_smart_slicing", "src/pyuvdata/uvdata/uvdata.py:get_data"]}
{"id": "C22", "title": "set then get returns the data and leaves the rest untouched", "statement": "After a successful set_data/set_flags/set_nsamples, reading the same key returns the written block and every entry outside that key is unchanged; a wrong shape or a conjugated key is rejected with no change.", "quantifier": "all objects, keys and blocks", "why_tests_cant": "frame property over the whole array", "anchors": ["src/pyuvdata/uvdata/uvdata.py:set_data", "src/pyuvdata/uvdata/uvdata.py:_set_method_helper"]}
{"id": "C23", "title": "Stale-cache freedom", "statement": "After any sequence of mutating API calls (conjugate, reorder, set_data and siblings, rectangularity, assigning antenna, polarization or other arrays) interleaved with queries, a query gives the same answer as on a fresh object with the same arrays. (Changing telescope.x_orientation is shown to break this.)", "quantifier": "all finite interleavings of queries and mutations", "why_tests_cant": "history property: unbounded interleavings", "anchors": ["src/pyuvdata/uvdata/uvdata.py:antpair2ind", "src/pyuvdata/uvdata/uvdata.py:_key2inds", "src/pyuvdata/uvdata/uvdata.py:_clear_antpair2ind_cache", "src/pyuvdata/parameter.py:UVParameter.setter"]}
{"id": "C24", "title": "Conjugating baselines preserves the visibilities", "statement": "For an object with distinct legal polarizations and baseline numbers in the default scheme: conjugate_bls exchanges the antennas, negates the uvw and conjugates (moving each polarization to its conjugate) exactly the rows asked for and leaves all other rows and arrays alone; get_data((a,b,pol)) with a != b is unchanged up to row order, with the times moving along; an index list applied twice restores the original; for the named conventions (tolerance >= 0) every row satisfies the convention afterwards and a second call does nothing; it raises ValueError if a needed conjugate polarization is missing. Exception (refuted): numbers in the 256 scheme get mixed with the default scheme.", "quantifier": "all objects, all index lists, all six named conventions, any tolerance, uvw or antenna positions", "why_tests_cant": "mutation of many arrays at once must remain consistent for every row", "anchors": ["src/pyuvdata/uvdata/uvdata.py:conjugate_bls"]}
{"id": "C25", "title": "Conjugating baselines keeps flags and nsamples attached to their visibility", "statement": "After conjugate_bls the flag and nsample reported for (a,b,pol), a != b, are those reported before, for every polarization that conjugation leaves fixed. Exception (refuted): for cross polarizations the flags and nsamples stay behind, so flagged data become unflagged.", "quantifier": "all objects, conventions and keys", "why_tests_cant": "needs per-polarization flags on conjugated rows", "anchors": ["src/pyuvdata/uvdata/uvdata.py:conjugate_bls"]}
{"id": "C26", "title": "The phase center catalog never dangles", "statement": "After any sequence of successful phase-center operations (add, rename, split, merge of a list that names no entry twice, clear unused, the catalog part of phase and unproject_phase, consolidation with a reference catalog whose entries can be told apart) every baseline-time refers to an existing catalog entry, entries have distinct ids, and Nphase is the number of entries. (Merging a list that names an entry twice deletes the entry its baseline-times refer to: refuted separately.)", "quantifier": "all histories of phase-center operations from any consistent state", "why_tests_cant": "invariant over unbounded histories", "anchors": ["src/pyuvdata/uvdata/uvdata.py:_add_phase_center", "src/pyuvdata/uvdata/uvdata.py:_remove_phase_center", "src/pyuvdata/uvdata/uvdata.py:_clear_unused_phase_centers", "src/pyuvdata/uvdata/uvdata.py:rename_phase_center", "src/pyuvdata/uvdata/uvdata.py:split_phase_center", "src/pyuvdata/uvdata/uvdata.py:merge_phase_centers", "src/pyuvdata/uvdata/uvdata.py:phase", "src/pyuvdata/uvdata/uvdata.py:unproject_phase", "src/pyuvdata/uvdata/uvdata.py:_consolidate_phase_center_catalogs"]}
{"id": "C27", "title": "New phase center ids are fresh", "statement": "generate_new_phase_center_id returns the requested id if it is neither in the catalog (other than as the old id being replaced) nor reserved, and raises ValueError exactly when it is taken or the old id is unknown. Without a request it keeps the old id if that is allowed, and otherwise returns a non-negative id that is neither in use nor reserved and does not exceed the number of ids in use, whichever element set.pop happens to give.", "quantifier": "all catalogs, reserved sets, requested/old ids", "why_tests_cant": "arbitrary sets of ids", "anchors": ["src/pyuvdata/utils/phase_center_catalog.py:generate_new_phase_center_id"]}
{"id": "C28", "title": "Splitting and merging phase centers only relabels", "statement": "split_phase_center gives exactly the selected baseline-times of the source an entry with the new name and the same position and leaves every other baseline-time and entry unchanged; if a new name different from the old one is given the selected baseline-times get an id of their own. merge_phase_centers, for a list that names no entry twice, moves exactly the baseline-times of the listed ids to the first one, removes exactly the other listed entries, and without force_merge only merges entries that agree. (Splitting part of a source without a new name, the default, silently does nothing: refuted separately.)", "quantifier": "all catalogs, selections and id lists", "why_tests_cant": "arbitrary selections; several special cases refuted", "anchors": ["src/pyuvdata/uvdata/uvdata.py:split_phase_center", "src/pyuvdata/uvdata/uvdata.py:merge_phase_centers"]}
{"id": "C29", "title": "Consolidating catalogs preserves what every baseline-time points at", "statement": "Consolidating an object's catalog with a reference catalog succeeds whenever no entry answers the description of two different reference entries; then every baseline-time refers to an entry with the same position (and the same name unless names are ignored) as before, two baseline-times share an id exactly when they did before, and every entry of the reference catalog is present under its own id. (If two reference entries describe the same place - possible after a rename, or with ignore_name - the earlier id is lost: refuted separately.)", "quantifier": "all pairs of catalogs with any id clashes", "why_tests_cant": "id renumbering chains over arbitrary catalogs", "anchors": ["src/pyuvdata/uvdata/uvdata.py:_consolidate_phase_center_catalogs", "src/pyuvdata/uvdata/uvdata.py:_update_phase_center_id"]}
{"id": "C30", "title": "Clearing unused phase centers is exact", "statement": "_clear_unused_phase_centers removes exactly the entries no baseline-time refers to, and keeps the others unchanged.", "quantifier": "all catalogs and id arrays", "why_tests_cant": "set equality over arbitrary arrays", "anchors": ["src/pyuvdata/uvdata/uvdata.py:_clear_unused_phase_centers"]}
{"id": "C31", "title": "Spectral-window contiguity check is exact", "statement": "For a non-empty axis and a spw_array without repeats, the check accepts iff the channels of each spectral window form one contiguous block and the window numbers match spw_array; interspersed channels raise ValueError. (A repeated number in spw_array can let interspersed channels through.)", "quantifier": "all flex_spw_id arrays", "why_tests_cant": "counting breaks is equivalent to grouping only by an induction", "anchors": ["src/pyuvdata/utils/frequency.py:_check_flex_spw_contiguous"]}
{"id": "C32", "title": "Frequency sorting is a sorting permutation within windows", "statement": "reorder_freqs rearranges whole channels by a permutation, keeps every channel with its window and every window with its polarization, groups windows in the requested order (number, median frequency, either direction, or an index array), sorts channels of the selected windows in the requested direction, and leaves other windows' channels in place; legal requests never fail. (spw_array itself is rewritten in order of appearance only if some channel moves.)", "quantifier": "all frequency axes and all argument combinations", "why_tests_cant": "permutation and sortedness for any axis", "anchors": ["src/pyuvdata/utils/frequency.py:_sort_freq_helper", "src/pyuvdata/uvdata/uvdata.py:reorder_freqs"]}
{"id": "C33", "title": "frequency_average averages each channel exactly once", "statement": "With one spectral window, with windows merged (respect_spws=False), or when only the first window has flags, frequency_average partitions the channels of each window into consecutive bins of n (last one ragged or dropped), the output frequency is the mean and the channel width the sum of the bin's, an output is flagged iff all (or any, if propagating) inputs are, and the output is the nsample-weighted mean (or sum, for summing correlators) of the unflagged inputs (of all inputs when all are flagged). Total channel width is conserved whenever nothing is dropped. Exceptions: with flags in a later window the averaging may fail or erase fully flagged samples, and dropping ragged ends may leave a listed window without channels.", "quantifier": "all axes, numbers of windows, n, options, flag patterns and weights", "why_tests_cant": "partition and weighted-mean identities over any size", "anchors": ["src/pyuvdata/uvdata/uvdata.py:frequency_average"]}
{"id": "C34", "title": "Flex-pol conversions keep every sample and round-trip", "statement": "convert_to_flex_pol moves sample (channel j, polarization k) to channel j + Nfreqs k, in a window carrying that polarization, and changes nothing else; remove_flex_pol, with or without combining windows, puts every sample under the polarization of its window with its frequency and width, at a place of its own, and flags what is left over. Converting and combining back returns data, flags, nsamples, frequencies, widths, window numbers and polarizations; only the order of spw_array may change. Exception: if two windows have the same frequencies and widths the way back fails with ValueError. The conversion that drops flagged polarizations keeps every unflagged sample and refuses if a window has several unflagged polarizations.", "quantifier": "all cubes, window layouts and polarization lists, all choices of new window numbers", "why_tests_cant": "reindexing of a whole cube", "anchors": ["src/pyuvdata/uvdata/uvdata.py:_make_flex_pol", "src/pyuvdata/uvdata/uvdata.py:remove_flex_pol", "src/pyuvdata/uvdata/uvdata.py:convert_to_flex_pol"]}
{"id": "C35", "title": "select keeps exactly the records matching every criterion", "statement": "select keeps a baseline-time iff it satisfies all given criteria (antenna numbers or names, baselines, times or LSTs, phase centers, blt_inds), keeps the original order, keeps a channel iff its frequency is listed directly or by channel number, a polarization iff it is listed (with a flexible polarization axis: a channel iff its window's polarization is also listed), leaves kept records unchanged, and drops windows and (without keep_all_metadata) antennas left without data. It is an error if no baseline-time satisfies the criteria, and it succeeds if everything named is there and some baseline-time satisfies them. Exceptions (refuted): eq_coeffs keeps its old antenna axis; two frequencies of different windows cannot be selected together; a polarization in one of several baselines replaces the polarizations argument.", "quantifier": "all objects and all combinations of criteria", "why_tests_cant": "intersection of many index sets over any data", "anchors": ["src/pyuvdata/uvdata/uvdata.py:_select_preprocess", "src/pyuvdata/uvdata/uvdata.py:_select_by_index", "src/pyuvdata/uvdata/uvdata.py:select"]}
{"id": "C36", "title": "Baseline selection is independent of antenna order", "statement": "select(bls=L) is the same for any way of writing each pair of L as (a,b) or (b,a) (a polarization is conjugated with the pair) when the data hold only one orientation of each pair; this fails when both orientations are present.", "quantifier": "all objects and pairs", "why_tests_cant": "requires data with both orientations", "anchors": ["src/pyuvdata/uvdata/uvdata.py:_select_preprocess"]}
{"id": "C37", "title": "Channel selection by index keeps those channels", "statement": "select(freq_chans=L) keeps exactly the channels in L when frequencies are distinct; with repeated frequencies in different windows it keeps more.", "quantifier": "all frequency axes and lists", "why_tests_cant": "needs duplicate frequencies across windows", "anchors": ["src/pyuvdata/uvdata/uvdata.py:_select_preprocess"]}
{"id": "C38", "title": "Time and LST selection covers exactly the requested interval", "statement": "For an object with a time array, selecting by times, time_range, lsts or lst_range returns exactly the indices of the matching times (listed values up to the tolerances; LST ranges whose upper end is below the lower one go through zero), and there is an answer exactly if one criterion is given, each listed value is present and something is in the range. For an object with time ranges, if no stored LST range and no requested one goes through 2 pi, exactly the ranges holding a listed value or overlapping the requested range are returned. Exception (refuted): with ranges through 2 pi overlapping ranges are left out and disjoint ones are taken.", "quantifier": "all arrays and ranges", "why_tests_cant": "wraparound cases", "anchors": ["src/pyuvdata/utils/times.py:_select_times_helper"]}
{"id": "C39", "title": "Adding two objects loses and moves no visibility", "statement": "In a + b every axis has the labels of a and of b, each once; every visibility, flag and nsample of b appears at its own (time, baseline, window and frequency, polarization) label, every one of a at a label b does not have appears at its label, and remaining cells are zero and flagged; metadata, channel widths and phase centers follow their rows and channels. Only samples that are zero and flagged are overwritten, otherwise the call is refused; objects that agree where they overlap can be combined. Proviso: on each axis the labels of b shared with a precede the new ones; without it (refuted) data are put under wrong labels.", "quantifier": "all pairs of objects with disjoint or overwritable data", "why_tests_cant": "three axes with arbitrary interleavings of shared and new labels", "anchors": ["src/pyuvdata/uvdata/uvdata.py:__add__"]}
{"id": "C40", "title": "fast_concat puts objects one after the other", "statement": "fast_concat puts the objects one after the other along the axis: each record (channel, polarization) of each object appears, with its metadata, at its offset after the preceding objects; the other axes are those of the first object; objects that differ from the first on the other axes, the telescope or the units are refused, others are accepted. Two objects may have any phase center catalogs, any number may have the same catalog; each record then refers to the phase center it referred to. Exceptions (refuted): three or more objects with different catalogs; flexible polarizations, which are taken from the first object by position.", "quantifier": "any number of objects of any sizes", "why_tests_cant": "any number of operands", "anchors": ["src/pyuvdata/uvdata/uvdata.py:fast_concat"]}
{"id": "C41", "title": "sum_vis and diff_vis are inverse", "statement": "sum_vis (diff_vis) gives the sums (differences) of the visibilities, keeps all other parameters of the first object, and adds the extra keywords only the second has; diff_vis(sum_vis(a,b),b) then succeeds and has the visibilities of a. Objects whose compared parameters agree within tolerances are accepted, all others are refused, and so is an override parameter that does not exist. Exceptions (refuted): antenna numbers of 100000 and more are not told apart; objects with an unsorted list of file names can be summed but not differenced again.", "quantifier": "all pairs of objects", "why_tests_cant": "algebraic law", "anchors": ["src/pyuvdata/uvdata/uvdata.py:sum_vis", "src/pyuvdata/uvdata/uvdata.py:diff_vis"]}
{"id": "C42", "title": "Upsampling tiles each integration", "statement": "upsample_in_time replaces each integration longer than max_int_time (by more than 1 ms) by n equal pieces whose integration times add up to the original, whose centers have the original center as mean, which abut without gap or overlap, carry the same baseline, phase center, flags, nsamples and data (or equal shares of the data in summing mode, adding up to the original); each piece is at most max_int_time up to a relative 1.001e-5, and n - 1 pieces would not do. Exception (refuted): because of that tolerance a piece can exceed max_int_time.", "quantifier": "all integrations and target times", "why_tests_cant": "rational arithmetic for every n, odd or even", "anchors": ["src/pyuvdata/uvdata/uvdata.py:upsample_in_time"]}
{"id": "C43", "title": "Upsampling keeps all other integrations", "statement": "upsample_in_time keeps every integration not longer than max_int_time unchanged; if none is longer by more than 1 ms the object is unchanged. Exception (refuted): an integration longer by at most 1 ms is silently lost as soon as another one is upsampled.", "quantifier": "all objects", "why_tests_cant": "tolerance band between the two comparisons", "anchors": ["src/pyuvdata/uvdata/uvdata.py:upsample_in_time", "src/pyuvdata/uvdata/uvdata.py:_harmonize_resample_arrays"]}
{"id": "C44", "title": "Downsampling partitions each baseline's integrations", "statement": "downsample_in_time cuts the integrations of each baseline that has one shorter than min_int_time (of every baseline with n_times_to_avg), in time order, into consecutive non-overlapping windows, each complete as soon as it reaches the target; what remains at the end is kept as a last window on request and dropped otherwise; other baselines are unchanged; total integration time per baseline is conserved when ragged windows are kept; the two passes agree for min_int_time, so the internal assertion cannot fail, and for n_times_to_avg with fewer than 99900 integrations per baseline. Exceptions (refuted): a baseline with a single integration raises IndexError; 100001 integrations cannot be averaged in pairs (IndexError); dropping the ragged window of a baseline that has no other raises ValueError.", "quantifier": "all sequences of integration times and targets", "why_tests_cant": "loop invariant over unbounded sequences; two separately written loops must agree", "anchors": ["src/pyuvdata/uvdata/uvdata.py:downsample_in_time"]}
{"id": "C45", "title": "Downsampled values are weighted means of unflagged inputs", "statement": "A downsampled sample is flagged iff all its inputs are; its value is the mean weighted by nsample*integration time over unflagged inputs (over all when all flagged), or their sum in summing mode; its nsample is the weight divided by the total time of the window, its integration time that total, and its time the time-weighted mean, which lies within the window; with several phase centers a window is within one.", "quantifier": "all flag patterns, weights and windows", "why_tests_cant": "all masks", "anchors": ["src/pyuvdata/uvdata/uvdata.py:downsample_in_time"]}
{"id": "C46", "title": "Clustering finds the isolated groups", "statement": "find_clusters returns exactly the sets of ids that are pairwise closer than the tolerance and have no other location that close to a member; no id is in two groups; with strict every id is in a group, and strict is refused exactly if being close is not transitive on the input; the blocks used to save memory change nothing. Exception (refuted): without strict, ids of an ambiguous chain are silently left out of every group.", "quantifier": "all point sets of any dimension, tolerances and numbers of blocks", "why_tests_cant": "graph properties over arbitrary point sets", "anchors": ["src/pyuvdata/utils/redundancy.py:find_clusters", "src/pyuvdata/utils/redundancy.py:_adj_list", "src/pyuvdata/utils/redundancy.py:_find_cliques"]}
{"id": "C47", "title": "Grid clustering partitions the baselines", "statement": "find_clusters_grid puts each id in exactly one group, always answers for a positive tolerance, and every member is closer than the tolerance to the group's first member, no coordinate of two members differing by more than 3/4 of the tolerance. Exceptions (refuted): two members of a group can be farther apart than the tolerance, and equal vectors can be put in different groups.", "quantifier": "all ids, vectors and positive tolerances", "why_tests_cant": "hash-grid iteration order", "anchors": ["src/pyuvdata/utils/redundancy.py:find_clusters_grid"]}
{"id": "C48", "title": "Redundancy with conjugates lists each baseline once", "statement": "get_baseline_redundancies returns groups that partition the input baselines (repeated numbers are refused), with include_conjugates a list of exactly the baselines whose first coordinate beyond the tolerance is negative; reversing baselines that have such a coordinate changes neither groups nor centers; the vectors of a group, turned forward, are near as in C46/C47 and the center is their mean. Exception (refuted): nearly equal baselines on either side of the orientation boundary are kept apart.", "quantifier": "all baseline numbers, vectors, tolerances and both algorithms", "why_tests_cant": "index translation after conjugation", "anchors": ["src/pyuvdata/utils/redundancy.py:get_baseline_redundancies"]}
{"id": "C49", "title": "Masked mean collapse is a weighted mean over finite entries", "statement": "For every output element, mean_collapse is the weighted mean of the finite elements that are collapsed into it, absmean_collapse of their magnitudes and quadmean_collapse the root of the weighted mean of their squares; with non-negative weights it lies between the bounds of the finite elements of positive weight; the returned weights (squares of weights) are the sums over the finite elements. Without any finite weighted element the result is inf with zero weight; with default weights it is inf only then. Any axis or tuple of axes is accepted if every axis exists and is named once. Exception (refuted): finite elements whose positive weights add up to 1e-10 or less also give inf.", "quantifier": "all arrays and non-negative weights", "why_tests_cant": "inequality for all lists", "anchors": ["src/pyuvdata/utils/array_collapse.py:mean_collapse", "src/pyuvdata/utils/array_collapse.py:absmean_collapse", "src/pyuvdata/utils/array_collapse.py:quadmean_collapse"]}
{"id": "C50", "title": "Boolean collapses are any/all", "statement": "For every output element, or_collapse (and_collapse) is true exactly if some (every) element collapsed into it is; the two are dual under negation; arrays that are not boolean and unknown algorithm names are refused with ValueError.", "quantifier": "all arrays", "why_tests_cant": "all lists", "anchors": ["src/pyuvdata/utils/array_collapse.py:or_collapse", "src/pyuvdata/utils/array_collapse.py:and_collapse"]}
{"id": "C51", "title": "Applying flags never unflags and flags exactly what was asked", "statement": "apply_uvflag changes nothing but flags and, without unflag_first, leaves every flagged sample flagged. With a waterfall (times increasing) a sample becomes flagged iff it was or the waterfall flags its time, channel and polarization; with an antenna type object iff it was or one of its antennas is flagged or unknown, or its time is unknown; with a baseline type object missing pairs are wholly flagged or untouched as requested and any other row takes the flags of the row of equal rank in its pair (the only one, if there is one), which is the row of the same time if the pair has the same times in the same order in both. Exceptions (refuted): a baseline type object with polarizations or times in another order flags the wrong ones; flags for earlier times are accepted; a waterfall for other times is accepted and ignored; a waterfall of one time is refused instead of broadcast.", "quantifier": "all objects, flag arrays and options", "why_tests_cant": "frame and monotonicity over whole arrays", "anchors": ["src/pyuvdata/utils/apply_uvflag.py:apply_uvflag"]}
{"id": "C52", "title": "History combination keeps every word", "statement": "The history after combining objects (+, fast_concat, sum_vis, diff_vis) starts with the whole history of the first, and every space-delimited word of the history of every other object occurs in it (unless it is already there spaced differently); with verbose_history the other history is there literally. Histories equal up to spaces and line breaks add nothing, and what is added is exactly the words not yet there, so combining again adds nothing. Exception (refuted): when + only overwrites invalid samples, the history of the second object is lost.", "quantifier": "all histories", "why_tests_cant": "word-level loop over arbitrary text", "anchors": ["src/pyuvdata/utils/history.py:_combine_history_addition", "src/pyuvdata/utils/history.py:_check_histories"]}
{"id": "C53", "title": "Mir spectral records round-trip", "statement": "Writing the spectral records of a Mir dataset succeeds and puts integrations one after the other in increasing order, with their records packed one after the other. A file made of any number of appended writes, no integration in two of them, in increasing order or all integrations of one size, gives back the records written for every selection of records, read through a memory map (the default); without one, for integrations of one size and a selection without gaps. Exceptions (refuted): use_mmap=False with a gap in the selection silently reads other bytes; use_mmap=False on integrations of different sizes raises KeyError; records of one integration appended in two writes read back as each other.", "quantifier": "all lists of records of any lengths, all histories of appended writes, all selections", "why_tests_cant": "offset arithmetic over any number of records", "anchors": ["src/pyuvdata/uvdata/mir_parser.py:MirParser._make_packdata", "src/pyuvdata/uvdata/mir_meta_data.py:MirMetaData._recalc_dataoff"]}
{"id": "C54", "title": "Mir scaled-integer coding is accurate", "statement": "Converting visibilities to scaled 16-bit integers and back keeps the flags, gives weight 0 or 1, zeroes flagged channels and replaces every other component by the next multiple towards zero of one step, which is at most 2^-14 of the largest component (or 2^-66). The integers never overflow, and -32768 appears exactly in flagged channels. Integers decoded and coded again (scale factor at least -66) stand for the same visibilities, and are the same if some value uses all 15 bits. Exceptions (refuted): the error can be more than half a step, because values are truncated; the step is set by flagged channels too, which can wipe out the others.", "quantifier": "all spectra, all valid raw records", "why_tests_cant": "numerical bound for all values", "anchors": ["src/pyuvdata/uvdata/mir_parser.py:MirParser._convert_vis_to_raw", "src/pyuvdata/uvdata/mir_parser.py:MirParser._convert_raw_to_vis"]}
{"id": "C55", "title": "Row/column flag propagation", "statement": "and_rows_cols sets a cell exactly when its whole row or its whole column is set in the input; so it adds no flag, drops partial ones, and is idempotent. flags2waterfall gives in each cell the fraction of flagged samples among those of its time and channel (and polarization if kept): one exactly if all are flagged, zero exactly if none is.", "quantifier": "all waterfalls, blt layouts and flag arrays", "why_tests_cant": "all boolean matrices", "anchors": ["src/pyuvdata/uvflag/uvflag.py:and_rows_cols", "src/pyuvdata/uvflag/uvflag.py:flags2waterfall"]}
{"id": "C56", "title": "UVFlag type conversion is lossless on what it keeps", "statement": "Converting a waterfall UVFlag (times increasing) to baseline or antenna type gives every baseline (antenna) at each time the waterfall's flags for that time, and collapsing back with 'and'/'or' gives the waterfall. Collapsing sets a cell iff some (each) row of the time is set. An antenna type object converted to baselines flags a row iff one of its antennas is flagged or unknown, or its time is unknown. Exception (refuted): a waterfall with times not in increasing order is put at the wrong times.", "quantifier": "all waterfalls, antenna flags and baseline layouts", "why_tests_cant": "any layout of the blt axis", "anchors": ["src/pyuvdata/uvflag/uvflag.py:UVFlag.to_baseline", "src/pyuvdata/uvflag/uvflag.py:UVFlag.to_waterfall", "src/pyuvdata/uvflag/uvflag.py:UVFlag.to_antenna"]}
{"id": "C57", "title": "Redundancy inflation copies the compressed data to every member of its group", "statement": "After inflate_by_redundancy every baseline of a redundant group with data carries, at each time, a copy of the row of the group's first baseline present in the object (turned forward); nothing else appears and nothing appears twice; the axis is in the order asked for. If all antenna pairs get numbers of one kind, the antennas are those of the baseline, no autocorrelation and no baseline longer than the tolerance in some direction disappears, and an object with at most one baseline per group keeps all such rows. Exceptions (refuted): an antenna number of 2048 or more makes rows disappear or get antennas that do not exist; short baselines stored against the order of the antenna list disappear; Ntimes is not updated.", "quantifier": "all objects, antenna lists, tolerances, orders and both grouping algorithms", "why_tests_cant": "index arithmetic with running counters", "anchors": ["src/pyuvdata/uvdata/uvdata.py:inflate_by_redundancy"]}
{"id": "C58", "title": "Writing a file in parts equals writing it whole", "statement": "Initialising a uvh5 file and writing disjoint blocks covering the data (in any order) leaves the file with the same data as one full write; re-writing a part is idempotent.", "quantifier": "all tilings and orders of partial writes", "why_tests_cant": "schedule property over any sequence of writes", "anchors": ["src/pyuvdata/uvdata/uvh5.py:UVH5.write_uvh5_part", "src/pyuvdata/utils/io/hdf5.py:_index_dset"]}
{"id": "C59", "title": "Calibration applies the right solutions and can be undone", "statement": "uvcalibrate on frequencies in increasing order, with a single solution time, time ranges, or times in increasing order that every baseline has, multiplies or divides every visibility by g1*conj(g2) for the solutions of its two antennas (matched by name) and feeds (matched by orientation), its frequency and its time, with the factor between the polarization conventions; visibilities without both solutions are flagged and keep their value up to that factor; flagged or zero solutions do the same if flags are propagated. Compatible objects raise no exception. uvcalibrate with undo=True and the same options then succeeds and restores every visibility (gains nonzero, or flags propagated). Flags only grow, even if an exception is raised. Exceptions (refuted): rows or frequencies in another order get other solutions; a baseline without some of the times stops the calibration half way; gains whose product is at most 1e-8 count as zero; undo sets the unit to 'uncalib' whatever it was; undo without repeating the conventions given to the calibration leaves a factor of two.", "quantifier": "all gain tables, visibilities, options, orders of antennas and polarizations", "why_tests_cant": "algebraic identity over all values", "anchors": ["src/pyuvdata/utils/uvcalibrate.py:uvcalibrate"]}
{"id": "C60", "title": "Coordinate rotations are isometries and invert each other", "statement": "ECEF_from_rotECEF and rotECEF_from_ECEF invert each other and are turns about the polar axis; ENU_from_ECEF gives for every point its offset from the site along east, north and up, is refused exactly if the distance of a point from the Earth's (Moon's) centre is out of range, and ECEF_from_ENU inverts it (and it inverts ECEF_from_ENU where the range check allows); all keep distances, for every latitude, longitude and altitude.", "quantifier": "all vectors and angles", "why_tests_cant": "continuous inputs", "anchors": ["src/pyuvdata/utils/coordinates.py:rotECEF_from_ECEF", "src/pyuvdata/utils/coordinates.py:ECEF_from_rotECEF", "src/pyuvdata/utils/coordinates.py:ENU_from_ECEF", "src/pyuvdata/utils/coordinates.py:ECEF_from_ENU", "src/pyuvdata/utils/coordinates.pyx"]}
{"id": "C61", "title": "The cached polarization names cannot be changed by a caller", "statement": "The memoized conversions polnum2str, polstr2num, jnum2str and jstr2num give for one number or name what the uncached function gives, whatever was called or changed before; for lists and errors too as long as no caller changes a list it was given. Exceptions (refuted): changing a returned list changes the answers to later calls; polnum2str(1.0) raises or not depending on whether polnum2str(1) was called before.", "quantifier": "all histories of calls and all uses of the returned value", "why_tests_cant": "needs a history in which a returned value was modified", "anchors": ["src/pyuvdata/utils/pol.py:polnum2str"]}
{"id": "C62", "title": "The rectangularity flag stays truthful", "statement": "If blts_are_rectangular is true and describes the object before a mutating call it still does afterwards: for reorder_pols, select, a + b, reorder_blts by a named order without autos_first, set_rectangularity(force=True) on a truthfully ordered object, fast_concat if the order declared by the first object is that of the result, and conjugate_bls when whole baselines are turned and none runs into one recorded in the other direction. Exceptions (refuted): conjugate_bls with a pair recorded in both directions; reorder_blts with autos_first; fast_concat along baseline-times when the declared order is not kept.", "quantifier": "all objects and all mutating calls", "why_tests_cant": "the flag is only refreshed by some of the calls; the consequence shows up in later queries", "anchors": ["src/pyuvdata/uvdata/uvdata.py:conjugate_bls", "src/pyuvdata/uvdata/uvdata.py:set_rectangularity", "src/pyuvdata/uvdata/uvdata.py:_select_by_index"]}
{"id": "C63", "title": "The lists of baselines, antenna pairs and antennas are exact", "statement": "get_baseline_nums, get_antpairs and get_ants list every baseline, pair and antenna with data exactly once and nothing else, on rectangular and non-rectangular objects alike.", "quantifier": "all objects with a valid rectangularity flag", "why_tests_cant": "two different algorithms depending on a flag must agree for all axes", "anchors": ["src/pyuvdata/uvdata/uvdata.py:get_baseline_nums", "src/pyuvdata/uvdata/uvdata.py:get_antpairs", "src/pyuvdata/uvdata/uvdata.py:get_ants"]}
{"id": "C64", "title": "Phasing or unprojecting selected rows leaves the catalog entries of other rows alone", "statement": "phase with a select_mask, to a name not yet in the catalog or to the name and position of a stored entry, points exactly the selected baseline-times at an entry with the name and position asked for, and every other baseline-time still refers to the same entry. unproject_phase points exactly the selected, not yet unprojected baseline-times at an unprojected entry of the given name and changes no other. (Phasing selected rows to another position under a name already in use overwrites the stored entry, so rows outside the selection change position: refuted separately.)", "quantifier": "all consistent catalogs, id arrays, masks, names and positions", "why_tests_cant": "arbitrary catalogs with clashing names, ids and masks", "anchors": ["src/pyuvdata/uvdata/uvdata.py:phase", "src/pyuvdata/uvdata/uvdata.py:_phase_dict_helper", "src/pyuvdata/uvdata/uvdata.py:unproject_phase", "src/pyuvdata/uvdata/uvdata.py:_add_phase_center"]}
{"id": "C65", "title": "Equality of objects", "statement": "a == b exactly if they have the same parameters and every parameter not excused by allowed_failures is equal up to its tolerances; every object equals itself; integer arrays below 100000 are compared exactly. Exceptions (refuted): larger integers, such as antenna numbers, may differ and compare equal; == is not symmetric.", "quantifier": "all pairs of objects with any parameters, shapes, values and tolerances; all allowed_failures", "why_tests_cant": "quantifies over all values and tolerances; tests compare a few objects", "anchors": ["src/pyuvdata/parameter.py:UVParameter.__eq__", "src/pyuvdata/uvbase.py:UVBase.__eq__"]}
{"id": "C66", "title": "Baseline coordinates from antenna positions", "statement": "calc_uvw from antenna positions (set_uvws_from_antenna_positions, phase with use_ant_pos) gives for every record the textbook (u, v, w) of the difference of its two antenna positions at hour angle lst - ra - longitude, its declination and its position angle, and with to_enu the east, north and up components, for every antenna numbering, order of records and number of distinct directions. Exception (refuted): consecutive records with the same hour angle and declination but different position angles (two phase centers at one place in different frames) all get the position angle of the first.", "quantifier": "all antenna positions and numberings, records, angles and array lengths", "why_tests_cant": "continuous inputs: all angles, vectors and array lengths", "anchors": ["src/pyuvdata/utils/phasing.py:calc_uvw", "src/pyuvdata/utils/phasing.py:_rotate_one_axis", "src/pyuvdata/utils/phasing.py:_rotate_two_axis", "src/pyuvdata/uvdata/uvdata.py:set_uvws_from_antenna_positions"]}
{"id": "C67", "title": "Baseline coordinates from their old coordinates", "statement": "calc_uvw from old uvws (phase and unproject_phase with use_ant_pos=False) gives for every record the coordinates of the same baseline towards the new place, whether it comes from or goes to another place or east-north-up; going there and back restores the uvws, and baseline lengths are kept. Exception (refuted): without position angles, moving to the place where the data already are raises TypeError. old_uvw_calc gives the textbook coordinates in a frame that does not turn with the Earth, and undo_old_uvw_calc is its inverse, both ways.", "quantifier": "all uvws, angles and array lengths", "why_tests_cant": "continuous inputs: all angles, vectors and array lengths", "anchors": ["src/pyuvdata/utils/phasing.py:calc_uvw", "src/pyuvdata/utils/phasing.py:_rotate_one_axis", "src/pyuvdata/utils/phasing.py:_rotate_two_axis"]}
{"id": "C68", "title": "Geodetic coordinates", "statement": "XYZ_from_LatLonAlt puts altitude 0 on the ellipsoid and measures altitude along its normal; LatLonAlt_from_XYZ inverts it exactly on the ellipsoid, for a sphere at every altitude, and in longitude always, for latitudes strictly between the poles. Exception (refuted): at a pole the altitude comes back as minus the radius of curvature.", "quantifier": "all ellipsoids, latitudes, longitudes and altitudes", "why_tests_cant": "continuous inputs: all angles, vectors and array lengths", "anchors": ["src/pyuvdata/utils/coordinates.py:LatLonAlt_from_XYZ", "src/pyuvdata/utils/coordinates.py:XYZ_from_LatLonAlt", "src/pyuvdata/utils/coordinates.pyx:_lla_from_xyz", "src/pyuvdata/utils/coordinates.pyx:_xyz_from_latlonalt"]}
{"id": "C69", "title": "Spherical coordinates", "statement": "cart3_to_polar2 recovers the longitude in [0, 2 pi) and the latitude from any positive multiple of polar2_to_cart3, and polar2_to_cart3 of cart3_to_polar2 is the direction of the vector.", "quantifier": "all angles and vectors", "why_tests_cant": "continuous inputs: all angles, vectors and array lengths", "anchors": ["src/pyuvdata/utils/phasing.py:polar2_to_cart3", "src/pyuvdata/utils/phasing.py:cart3_to_polar2"]}
{"id": "C70", "title": "Redundant groups from antenna positions list every pair once", "statement": "get_antenna_redundancies lists every pair of antennas (with include_autos also each antenna with itself) exactly once, as the baseline number of the pair ordered so that the vector from the first to the second antenna does not point back, in groups whose vectors are near, with their mean as center; the grid algorithm answers for any two or more antennas with distinct valid numbers. Exception (refuted): the docstring gives the vector with the opposite sign.", "quantifier": "all antenna numbers and positions, tolerances and both algorithms", "why_tests_cant": "pairs, flips and mixed numbering schemes over arbitrary arrays", "anchors": ["src/pyuvdata/utils/redundancy.py:get_antenna_redundancies", "src/pyuvdata/utils/redundancy.py:get_baseline_redundancies", "src/pyuvdata/utils/bls.py:baseline_index_flip"]}
{"id": "C71", "title": "resample_in_time moves integrations toward the target", "statement": "resample_in_time leaves the object unchanged if all integration times are within a factor of two of the target; if one is at least twice the target, no integration longer than the target (up to the tolerances) is left. With only_upsample nothing is averaged, with only_downsample nothing is split: the result is the object or what upsample_in_time or downsample_in_time alone gives. Exceptions (refuted): data averaged to within 1 ms above the target are then lost; integrations of at least twice the target can be produced out of shorter ones.", "quantifier": "all objects, targets and options", "why_tests_cant": "Depends on every combination of integration times, target and tolerance.", "anchors": ["src/pyuvdata/uvdata/uvdata.py: UVData.resample_in_time", "src/pyuvdata/uvdata/uvdata.py: UVData.upsample_in_time", "src/pyuvdata/uvdata/uvdata.py: UVData.downsample_in_time"]}
{"id": "C72", "title": "compress_by_redundancy keeps one baseline of each group", "statement": "compress_by_redundancy leaves exactly the rows of the first baseline of each redundant group, in their order and with their times. With method 'select' they are unchanged. With method 'average', if times of the group are either the same to the tolerance or clearly different and the row is the only one of its baseline at its time, a row becomes the average, weighted by nsamples, of the unflagged visibilities of the group at that time, reversed baselines conjugated; nsamples are those of what was averaged; it is flagged exactly where everything was flagged; if all rows are flagged everywhere, all are averaged. So data that agree are unchanged. Exceptions (refuted): XY and YX of reversed baselines are not exchanged; a visibility flagged in all rows is lost (0, no samples) unless the rows are flagged everywhere, contrary to the documentation; rows without a clear time come out as zeros that are not flagged.", "quantifier": "all groups of baselines, all lists of conjugated baselines, all data, flags and nsamples, all times and tolerances", "why_tests_cant": "Tests use a few simulated files with regular times; which rows are averaged depends on the clustering of all the times of a group, on missing and repeated times and on which rows are flagged.", "anchors": ["src/pyuvdata/uvdata/uvdata.py:UVData.compress_by_redundancy", "src/pyuvdata/utils/redundancy.py:find_clusters"]}
{"id": "C73", "title": "Phasing changes visibilities only by the w-term", "statement": "Call measured what a visibility is without its phase term: the visibility itself for an unprojected row, and for a projected row the visibility times e^(+2 pi i w f / c) with the w the object states. phase (to a new name, or to a position stored under this name) keeps what was measured for every row and everything about rows outside select_mask; unproject_phase keeps it for the selected and for unprojected rows; set_uvws_from_antenna_positions and update_antenna_positions (delta_antpos=False) keep it for projected rows, and for all if none is projected. So after any history of such calls unproject_phase() gives back what was measured, and phasing to a new name gives the visibilities, uvws and apparent coordinates that phasing at once would have given. Exceptions (refuted): unproject_phase with select_mask replaces the uvws of all rows, so those of projected rows outside the mask do not fit their visibilities; set_uvws_from_antenna_positions turns unprojected rows of objects with projected ones; update_antenna_positions(delta_antpos=True) turns the unprojected rows and not the projected ones; phase(lookup_name=True) to an unprojected entry turns the visibilities unless cat_type='unprojected' is given too.", "quantifier": "all objects, phase centers, masks, sky positions (any map from position and time to apparent place), antenna positions, frequencies and visibilities; all histories of calls", "why_tests_cant": "Tests phase a few files back and forth and compare to a tolerance; that the phase terms of any sequence of calls cancel needs all angles, masks and mixtures of projected and unprojected rows.", "anchors": ["src/pyuvdata/uvdata/uvdata.py:UVData.phase", "src/pyuvdata/uvdata/uvdata.py:UVData.unproject_phase", "src/pyuvdata/uvdata/uvdata.py:UVData.set_uvws_from_antenna_positions", "src/pyuvdata/uvdata/uvdata.py:UVData.update_antenna_positions", "src/pyuvdata/uvdata/uvdata.py:UVData._apply_w_proj", "src/pyuvdata/utils/phasing.py:calc_uvw"]}
{"id": "C74", "title": "After phasing the stated coordinates are those of the baselines", "statement": "After phase to a new name the selected rows carry the apparent place of the position asked for at their own time and LST, and the position angle of the frame there. With use_ant_pos=True their uvws are those of their baseline (second antenna minus first) towards that place, if rows of one place have one position angle; with use_ant_pos=False uvws that fit the old place are turned to fit the new one. Hence, starting from an object in which every row's uvw is that of its baseline towards the place stated and unprojected rows are at the zenith, this holds after any history of phase, unproject_phase() , set_uvws_from_antenna_positions and update_antenna_positions (with or without delta_antpos). Exceptions (refuted): unproject_phase with select_mask also sets the uvws of rows outside the mask; phase(use_ant_pos=False) with a mask of part of the rows raises ValueError; phase(lookup_name=True) takes the position angle in the frame given as argument and not in that of the entry.", "quantifier": "all objects, antenna positions, phase centers, masks, apparent places, LSTs, latitudes and longitudes; all histories of calls", "why_tests_cant": "Tests compare with stored uvws of a few files; the claim is an invariant over all geometries, masks and sequences of calls.", "anchors": ["src/pyuvdata/uvdata/uvdata.py:UVData.phase", "src/pyuvdata/uvdata/uvdata.py:UVData.unproject_phase", "src/pyuvdata/uvdata/uvdata.py:UVData.set_uvws_from_antenna_positions", "src/pyuvdata/uvdata/uvdata.py:UVData.update_antenna_positions", "src/pyuvdata/uvdata/uvdata.py:UVData._apply_w_proj", "src/pyuvdata/utils/phasing.py:calc_uvw", "src/pyuvdata/utils/phasing.py:calc_app_coords", "src/pyuvdata/utils/phasing.py:calc_frame_pos_angle"]}
{"id": "C75", "title": "Power beams are products of the fields of two feeds on the sky", "statement": "For an E-field beam of a single antenna with two vector components and one or two feeds named x/y, e/n (with x_orientation) or r/l in any order, efield_to_power gives one polarization per wanted product of feeds, labelled with the number of that product, whose value at each frequency and pixel is the Hermitian product of the two feeds' fields on the sky (components times basis vectors); with keep_basis_vector it is the product component by component. Automatic products are real and >= 0, the two cross products are conjugate, |cross|^2 is at most the product of the automatic ones, and fields that agree on the sky give the same power whatever basis they are stored in. Axes, normalization and bandpass are kept. Exception (refuted): a three-component beam is refused with ValueError, but an in-place call has by then already turned the object into a 'power' beam that still holds the field.", "quantifier": "all fields, basis vectors, feeds, orientations, frequencies and pixels", "why_tests_cant": "Tests compare one simulated beam with a stored file; the identities must hold for every field and every basis.", "anchors": ["src/pyuvdata/uvbeam/uvbeam.py:UVBeam.efield_to_power", "src/pyuvdata/uvbeam/uvbeam.py:UVBeam._check_auto_power", "src/pyuvdata/uvbeam/uvbeam.py:UVBeam._fix_auto_power"]}
{"id": "C76", "title": "Pseudo-Stokes beams are the diagonal of the Mueller matrix, up to sign", "statement": "For an E-field beam with two feeds efield_to_pstokes gives the polarizations pI, pQ, pU, pV with values |M_ss|, where M_ss = 1/2 Tr(s J s J^+) (s the Pauli matrix of the Stokes parameter, J the field, components by feeds) is real. pI is half the total power of the two feeds, no other beam exceeds it, and with orthonormal basis vectors it is the mean of the two automatic power beams of efield_to_power. Exceptions (refuted): negative M_QQ, M_UU and M_VV lose their sign; basis vectors that are not orthonormal are ignored, so that pI differs from the mean of the power beams; a beam with one feed raises IndexError after polarization_array was replaced.", "quantifier": "all fields, frequencies and pixels", "why_tests_cant": "Tests check shapes and one beam whose Mueller diagonal is positive; the formula is about all fields.", "anchors": ["src/pyuvdata/uvbeam/uvbeam.py:UVBeam.efield_to_pstokes", "src/pyuvdata/uvbeam/uvbeam.py:UVBeam._construct_mueller", "src/pyuvdata/uvbeam/uvbeam.py:UVBeam._stokes_matrix"]}
{"id": "C77", "title": "Peak normalization moves the peak into the bandpass; areas are bounded by the sky", "statement": "peak_normalize divides each frequency by its largest absolute value over components, feeds or polarizations and pixels and multiplies the bandpass by it: beam times bandpass is unchanged, all absolute values are at most 1 and 1 is reached at every frequency; normalizing again changes nothing. It succeeds whenever no frequency is all zero. For a peak-normalized healpix power beam with values between 0 and 1, get_beam_area and get_beam_sq_area are the sums of the values and of their squares times the solid angle of a pixel, with 0 <= square area <= area <= 4 pi. Exceptions (refuted): a beam normalized as E-field and then converted to power is still labelled 'peak' although its maximum may be 2, and its area 8 pi; beam times bandpass differs between normalizing before and after the conversion, as the conversion does not square the bandpass.", "quantifier": "all beams, bandpasses, frequencies and pixel sets", "why_tests_cant": "Tests normalize one beam; the invariants are about all data, including which cell holds the maximum.", "anchors": ["src/pyuvdata/uvbeam/uvbeam.py:UVBeam.peak_normalize", "src/pyuvdata/uvbeam/uvbeam.py:UVBeam.get_beam_area", "src/pyuvdata/uvbeam/uvbeam.py:UVBeam.get_beam_sq_area", "src/pyuvdata/uvbeam/uvbeam.py:UVBeam._get_beam"]}
{"id": "C78", "title": "Reordering calibration solutions moves whole entries and obeys the request", "statement": "For a valid UVCal object with distinct labels, reorder_antennas, reorder_freqs, reorder_times and reorder_jones keep what is recorded for every (antenna, channel or window, time, Jones term): gain or delay, flag, quality, total quality, all metadata of times, channels and windows, and the Jones term of each window (flex_jones_array); the other axes are not touched and the result is valid. The axis is then in the order asked for: the given index array, increasing or decreasing numbers (times by time_array or by the start of time_range), names in alphabetical order, windows by number, frequency or index with their channels in blocks, channels by frequency within the selected windows. Every legal request succeeds and an index array that does not list each position once raises ValueError, except that an object with one window and one channel (or a wide_band one with one window) ignores the request.", "quantifier": "all objects, wide_band or not, with or without qualities and flex Jones, and all order requests", "why_tests_cant": "Tests reorder a few files and compare sorted labels; the association of every array with its labels must hold for all permutations.", "anchors": ["src/pyuvdata/uvcal/uvcal.py:UVCal.reorder_antennas", "src/pyuvdata/uvcal/uvcal.py:UVCal.reorder_freqs", "src/pyuvdata/uvcal/uvcal.py:UVCal.reorder_times", "src/pyuvdata/uvcal/uvcal.py:UVCal.reorder_jones", "src/pyuvdata/utils/frequency.py:_sort_freq_helper"]}
{"id": "C79", "title": "Combining calibration solutions loses, invents and mislabels nothing", "statement": "Adding two valid UVCal objects gives a valid object whose antennas, channels (or windows), times and Jones terms are the unions of the two. The solution for given labels is the one of the object that has it, with its flag and quality (quality 0 if that object has none but the other has); combinations neither has are zero and flagged. Total qualities are kept unless antennas are added. What is recorded about times and channels comes from the first object, else the second. Two objects that both have a solution for some labels, have parameters of different kinds or values, or name different reference antennas for a common time are refused with ValueError; all other objects are combined. Exceptions: solutions are put at the right labels only if on each axis of the second object the labels it shares with the first come before the new ones (otherwise solutions are exchanged between labels); the Jones terms of windows (flex_jones_array) are right only if no channel is new or the windows of both objects, in this order, are increasing; objects with time ranges cannot be combined if any two ranges overlap, even if they are the same range and another axis differs; with total qualities, adding times fails if no object has qualities, and several windows fail if only the second object has total qualities.", "quantifier": "all pairs of objects, wide_band or not, with or without qualities, total qualities, reference antennas, time ranges and flex Jones", "why_tests_cant": "Tests split a few files and add the parts back; the placement must be right for all overlaps and orders of labels on four axes at once.", "anchors": ["src/pyuvdata/uvcal/uvcal.py:UVCal.__add__", "src/pyuvdata/uvcal/uvcal.py:UVCal.__iadd__", "src/pyuvdata/utils/tools.py:_check_range_overlap"]}
{"id": "C80", "title": "Selecting calibration solutions keeps exactly what was asked for", "statement": "UVCal.select keeps exactly the antennas listed (by number or name), the times asked for, the Jones terms listed, and the channels listed by frequency, channel number or window (any of them), or the windows listed for a wide_band object; if the Jones terms belong to windows, just the channels of these windows. Everything recorded about what is kept (solutions, flags, qualities, total qualities, times, reference antennas, channel widths, frequency ranges, Jones terms of windows) is kept unchanged and in the old order, the windows left are those that still have a channel, and the result is a valid object. A request that names an absent antenna, frequency, channel or Jones term, or an absent window of a wide_band object, is refused; a request that can be met is met. get_gains, get_flags and get_quality return the part of the arrays for the antenna and Jones term asked for. Exceptions: an absent window is silently ignored if the object has channels; a selection of several channels no two neighbours of which are in the same window is refused with ValueError; a negative channel number can keep a channel twice and out of order; a criterion on windows is ignored if there is only one; time ranges through 2 pi behave as for C38.", "quantifier": "all valid objects, wide_band or not, with times or time ranges, with or without qualities and flex Jones, and all combinations of criteria", "why_tests_cant": "The criteria interact on four axes and two kinds of windows; tests try each criterion on a few files.", "anchors": ["src/pyuvdata/uvcal/uvcal.py:UVCal.select", "src/pyuvdata/uvcal/uvcal.py:UVCal._select_preprocess", "src/pyuvdata/uvcal/uvcal.py:UVCal._select_by_index", "src/pyuvdata/uvcal/uvcal.py:UVCal.get_gains", "src/pyuvdata/uvcal/uvcal.py:UVCal.get_flags", "src/pyuvdata/uvcal/uvcal.py:UVCal.get_quality", "src/pyuvdata/uvcal/uvcal.py:UVCal.ant2ind", "src/pyuvdata/uvcal/uvcal.py:UVCal.jpol2ind"]}
{"id": "C81", "title": "Delays turn into gains of modulus one with the phase of the delay", "statement": "convert_to_gain turns a delay object with one spectral window into a valid gain object: for every antenna, time, Jones term and every frequency asked for the gain is exp(+2 pi i delay frequency) for the 'plus' and exp(-2 pi i delay frequency) for the 'minus' convention, and every channel has the flag, the quality and the total quality of the delay; antennas, times, Jones terms and the window are unchanged. Hence gains have modulus one, the two conventions undo each other, gains of sums of delays are products and on a baseline only the difference of the delays counts. It is refused exactly for gain objects, several windows, an unknown convention, frequencies that are not a one-dimensional array or lie outside the frequency range of the window, and channel widths of another shape.", "quantifier": "all delay objects, delays, frequencies, widths, conventions, flags and qualities", "why_tests_cant": "A test compares the gains of one file with the same formula; unit modulus, inverse conventions and additivity are claims about all delays and frequencies.", "anchors": ["src/pyuvdata/uvcal/uvcal.py:UVCal.convert_to_gain"]}
{"id": "C82", "title": "Jones terms can be moved to windows of their own and back", "statement": "UVCal.convert_to_flex_jones gives a valid object with one window for each window and Jones term, the windows of the first term keeping their numbers; the channels of a new window have the frequencies, widths (or ranges), solutions, flags and qualities that the old window had for that term, and antennas and times do not change. It works for every object with Jones terms whose windows do not have their own already. UVCal.remove_flex_jones gives a valid object with an ordinary Jones axis, on which each window fills the entries of one window for its term and all other entries are flagged; windows are combined only if their channels agree within the tolerances and every combined window then has every Jones term, and with combine_spws=False none are. Converting and removing gives back everything recorded, if the windows have equally many channels and no two have the same channels within the tolerances. Exceptions: neither method accepts a total quality (unless there is a single Jones term to convert, or to remove with one window); windows with different numbers of channels, or with the same channels, make the way back fail with ValueError unless combine_spws=False.", "quantifier": "all valid calibration objects with at least one window, wide_band or not, with or without qualities, all window numbers, all non-negative tolerances, and all orders in which a set of new window numbers can be listed", "why_tests_cant": "Which windows match depends on the frequencies, their order and the tolerances; tests use one or two windows of one file.", "anchors": ["src/pyuvdata/uvcal/uvcal.py:UVCal.convert_to_flex_jones", "src/pyuvdata/uvcal/uvcal.py:UVCal.remove_flex_jones"]}
{"id": "C83", "title": "Selecting flags or metrics keeps exactly what was asked for", "statement": "UVFlag.select keeps exactly the baseline-times (times) that satisfy every criterion given on antennas, antenna pairs, times and positions, the channels listed by frequency or by number, and the polarizations listed or given with the pairs, in their old order, with every value and label they had; an object of type antenna has the antennas listed, in the order listed. It succeeds exactly if everything named is there (a channel number or antenna position may be negative, a row position may not), the criteria go with the type of the object and with each other, and some row is left. The result is self-consistent. Exceptions: if rows of a pair are stored both ways round, only those stored as the pair was written are kept; asking for a channel by number keeps every channel with its frequency; the single channel of an object that has one cannot be asked for by number; an antenna listed twice in an object of type antenna is kept twice.", "quantifier": "all self-consistent flag or metric objects of the three types, with any number of windows, and all combinations of criteria (ant_str excepted)", "why_tests_cant": "The criteria combine by intersection and union in ways that depend on the type and the data; tests select a few combinations from one file.", "anchors": ["src/pyuvdata/uvflag/uvflag.py:UVFlag.select", "src/pyuvdata/uvflag/uvflag.py:UVFlag._select_preprocess", "src/pyuvdata/uvflag/uvflag.py:UVFlag._select_metadata"]}
{"id": "C84", "title": "Adding flags or metrics along an axis puts one object after the other", "statement": "Adding two UVFlag objects along time, baseline, antenna, frequency or polarization gives an object in which the first is followed by the second along that axis: every value of either is there with its labels, and the other axes are those of the first object. It succeeds exactly if the objects are of the same type and mode and agree on every other axis (baseline-times row by row), the type has that axis, the second object has the arrays of the first, and no frequency, and no time unless the type is baseline, would be there twice. The sum is self-consistent, with the windows in the order of first appearance if there are several, if no antenna is in both objects added along the antennas. Selecting the frequencies of one object out of a sum along frequency gives back what it recorded. Exceptions: an object of type baseline can be added to itself along time, so that every baseline-time is there twice, and one of type antenna along the antennas; objects of type baseline cannot be added along time if they have different numbers of times, nor along baselines if they have different numbers of baselines; windows that share a frequency cannot be added.", "quantifier": "all pairs of self-consistent flag or metric objects, all axes, all tolerances", "why_tests_cant": "The code concatenates five kinds of arrays along an axis whose number depends on the type; tests add a file to a copy with shifted labels.", "anchors": ["src/pyuvdata/uvflag/uvflag.py:UVFlag.__add__", "src/pyuvdata/uvflag/uvflag.py:UVFlag.__iadd__"]}
{"id": "C85", "title": "Switching between flags and metrics, and combining flags", "statement": "to_flag flags exactly the positions whose metric is at least the threshold; to_metric makes flags ones and zeros, with weights of one, or, with convert_wgts, of zero exactly on the lines (all channels of one time or all times of one channel, in the waterfall of one antenna, one antenna pair and one polarization) that are flagged everywhere. Neither changes a label or an object already in that mode, and flags made into a metric come back for every threshold above 0 up to 1. Or-ing two flag objects flags a sample exactly if either does, the second being broadcast to the shape of the first, and is refused exactly if one is not in flag mode or the shapes do not allow it; for objects of one shape the order does not matter. Exceptions: with the default threshold, infinite metrics are flagged although the documentation says nothing is; or compares no labels, so flags of different times, frequencies or types are combined by position.", "quantifier": "all flag and metric objects of the three types, all thresholds (infinite ones included), all pairs of objects", "why_tests_cant": "Tests convert one small object with one threshold; the weights depend on which lines of which waterfall are flagged everywhere.", "anchors": ["src/pyuvdata/uvflag/uvflag.py:UVFlag.to_flag", "src/pyuvdata/uvflag/uvflag.py:UVFlag.to_metric", "src/pyuvdata/uvflag/uvflag.py:UVFlag.__or__", "src/pyuvdata/uvflag/uvflag.py:UVFlag.__ior__"]}
{"id": "C86", "title": "Averaging metrics over baselines, antennas, polarizations and objects", "statement": "With a mean, absolute mean or quadratic mean, to_waterfall gives in every time, channel and polarization the weighted average over all baselines at that time, or all antennas, and the sum of their weights; collapse_pol does the same over the polarizations and combine_metrics over objects, sample by sample. Infinite values do not count and an average of weight at most 1e-10 is infinite. If every weight is zero or above that, averaging the polarizations first, or combining some objects first, gives the average over everything, and the order of the objects never matters. The mean of flags is the fraction flagged; after to_metric with convert_wgts it is the fraction flagged of the samples not on a line flagged everywhere, and infinite if there are none. Every time of a baseline object is in its waterfall once, in increasing order, with the LST of the first row at that time. combine_metrics refuses flag objects, other shapes and logical methods. Exceptions: flags averaged directly get weights of one however many samples there are; a waterfall with squared weights, which to_waterfall makes on request, cannot be averaged over polarizations.", "quantifier": "all metric and flag objects of the three types, all weights, the three means, all lists of other objects", "why_tests_cant": "Tests average one small object whose weights are all one; that grouping does not matter is a statement about all values and weights.", "anchors": ["src/pyuvdata/uvflag/uvflag.py:UVFlag.to_waterfall", "src/pyuvdata/uvflag/uvflag.py:UVFlag.collapse_pol", "src/pyuvdata/uvflag/uvflag.py:UVFlag.combine_metrics", "src/pyuvdata/utils/array_collapse.py:collapse"]}
{"id": "C87", "title": "Selecting parts of an antenna beam", "statement": "UVBeam.select leaves, along every axis, exactly the elements asked for, in the order of the beam: image axes by index, healpix pixels by number, frequencies by value or channel number (either is enough), feeds by name or by the direction they point in, polarizations by number or name. Every number of data_array, basis_vector_array, bandpass_array, the receiver temperature, loss and mismatch arrays, the S parameters and the coupling matrix is the one the beam had under the same labels. A request is carried out only if everything it names is there: no index out of range or empty index list, no feeds of a power beam, no polarizations of an electric field beam, no pixels of a gridded one. Exceptions: polarizations asked for in another order than the beam's come back under the wrong labels; the same polarization twice fails the check; image selections of power beams that kept their basis vectors fail; dropping the cross polarizations makes negative powers positive; a request refused in place may have been carried out in part.", "quantifier": "all beams with distinct labels and consistent shapes, healpix or gridded, power or electric field, simple or phased array; all combinations of selection arguments", "why_tests_cant": "Tests select a few elements in beam order from stored files; which number ends under which label has to hold for every request and combination.", "anchors": ["src/pyuvdata/uvbeam/uvbeam.py:UVBeam.select"]}
{"id": "C88", "title": "Adding parts of an antenna beam", "statement": "Adding two UVBeam objects gives a beam whose axes hold the labels of both (those of the first if the second adds none, else in increasing order), in which every number of data_array that either beam had is found under the same labels and cells that neither had are zero; bandpass, receiver, loss, mismatch, S parameters, coupling matrix and basis vectors are those of the second beam where it has them, else those of the first. Beams of different type, antenna type, pixel coordinates or number of vector components, or with a common cell, are refused with ValueError. A beam with increasing frequencies that select has split in two along frequency is the sum of the parts. Exceptions: if the labels of the second beam are in another order than in the sum, its numbers come back under the wrong labels; bandpass and basis vectors of the first beam are overwritten without comparison; cells that neither had cannot be told from zeros; power beams that kept their basis vectors cannot be added along the image; x_orientation is not compared.", "quantifier": "all pairs of beams with distinct labels and consistent shapes, healpix or gridded, power or electric field, simple or phased array; all splits along frequency", "why_tests_cant": "Tests add a few halves of stored beams in beam order; that each number keeps its labels must hold for every pair and every way the labels interleave.", "anchors": ["src/pyuvdata/uvbeam/uvbeam.py:UVBeam.__add__", "src/pyuvdata/uvbeam/uvbeam.py:UVBeam.select"]}
{"id": "C89", "title": "Writing and reading UVFITS files", "statement": "write_uvfits succeeds exactly if the windows of the object are blocks of equal size, all in use, with frequencies evenly spaced by their channel width and positive, and the polarizations are evenly spaced once ordered by size. Reading the file back gives every visibility, nsample and flag under its row, channel and polarization: same coordinates, times, LSTs, antennas, integration times and phase centers, same frequencies and channel widths, polarizations ordered by size, windows renumbered from 0, and ids of phase centers shifted by one if one of them is 0. Reading with a choice of rows, channels (one window) and polarizations gives that part of the whole. Exceptions: if spw_array lists the windows in another order than their channels, visibilities come back under the frequencies of other windows; a choice of channels of a file with several windows is either refused with an unspecific error or ignored; one window with decreasing frequencies comes back with negative channel widths and cannot be written again; unflagged visibilities with nsample 0 come back flagged; use_miriad_convention adds one to the antenna numbers if the smallest is 0.", "quantifier": "all objects with consistent shapes, any number of rows, windows, channels and polarizations; all sorted index lists for the three axes", "why_tests_cant": "Tests write and read a few stored data sets; that every visibility keeps its labels must hold for all sizes, polarization orders and selections.", "anchors": ["src/pyuvdata/uvdata/uvfits.py:UVFITS.read_uvfits", "src/pyuvdata/uvdata/uvfits.py:UVFITS.write_uvfits", "src/pyuvdata/uvdata/uvfits.py:UVFITS._get_data", "src/pyuvdata/utils/frequency.py:_check_freq_spacing", "src/pyuvdata/utils/io/fits.py:_gethduaxis"]}
{"id": "C90", "title": "Strings that choose antennas", "statement": "A string of terms separated by commas (the words all, auto, cross, pI, pQ, pU, pV in any capitals; an antenna number; a pair of antennas or of antennas in parentheses, joined by an underscore; each number perhaps with a minus and perhaps with one of the letters l, r, x, y) given as ant_str is understood. It chooses exactly the pairs that some term includes and no later term leaves out, once each and with the two antennas in the order stored, and exactly the polarizations included and not left out later, in decreasing order; a string that begins with a minus is about all pairs; if no pair (polarization) is chosen, the answer is None, which keeps everything. A number alone chooses the pairs with that antenna; auto and cross choose the pairs of equal and of different antennas. Exceptions: naming nothing that exists keeps everything; all has no effect at the end of a string; -3x leaves out nothing unless a polarization was named before; with an x_orientation x and y name no polarization; the polarization of a pair stored in the other order is not exchanged; a group without a partner is its first antenna or an error; with a single polarization leaving a pair out by feed twice is an error.", "quantifier": "all strings of the grammar, of any length, with any numbers, groups and capitals; all objects with any antennas, pairs and legal polarizations", "why_tests_cant": "Tests parse a few dozen strings on one data set; that every string of the grammar is cut at the right places and means what its terms say concerns unboundedly many strings.", "anchors": ["src/pyuvdata/utils/bls.py:parse_ants", "src/pyuvdata/uvdata/uvdata.py:UVData.parse_ants", "docs/uvdata_tutorial.rst"]}
{"id": "C91", "title": "Metadata tables of Mir data", "statement": "A Mir metadata table that is read has all records active and finds each by its header key. get_value returns exactly the entries, in order, of the records chosen: the active ones, those active ones that meet all conditions (conditions on fields the table lacks are left out), or those with the keys or positions given; it is an error if the field, a key or a position does not exist or no condition is about a field of the table. set_value changes the field at exactly those records and nothing else. set_mask narrows the active records to those chosen, widens them, or replaces them, and says whether the mask changed. group_by puts the places of the chosen records with the same values together, each record in one group, in order. After any sequence of set_value, set_mask and reset_values, reset gives the table as it was read. Exceptions: get_value with and_where_args=False and the mask in use also returns all other active records; set_mask with and_mask=False on a table with all records active narrows it; group_by of keys fails on tables whose key has several fields; a mask of the wrong length is accepted if all records are active.", "quantifier": "all tables with any fields, records and masks; all conditions, keys, positions and values; all histories of settings, masks and resets", "why_tests_cant": "Tests use one small data file; that a query chooses exactly the right records for every list of conditions and mask, and that every history is undone by reset, ranges over unboundedly many tables and histories.", "anchors": ["src/pyuvdata/uvdata/mir_meta_data.py:MirMetaData._index_query", "src/pyuvdata/uvdata/mir_meta_data.py:MirMetaData.get_value", "src/pyuvdata/uvdata/mir_meta_data.py:MirMetaData.set_value", "src/pyuvdata/uvdata/mir_meta_data.py:MirMetaData.set_mask", "src/pyuvdata/uvdata/mir_meta_data.py:MirMetaData.group_by", "src/pyuvdata/uvdata/mir_meta_data.py:MirMetaData.reset"]}
{"id": "C92", "title": "Adding Mir metadata tables", "statement": "Two Mir metadata tables of the same type can be added exactly if merge=True is only asked for tables with the same keys at the same places, merge=False only for tables without a common key, and no two records with the same key are in conflict: never with overwrite=True, if they differ with overwrite=False, if they differ and both are active by default. The sum has exactly the keys of either, each once; a record that is in one table only keeps its values and its mask; one in both is active if it is active in either, with the values of the second table if overwrite=True, and otherwise those of the first if it is active there and those of the second if not. Exceptions: discard_flagged=True judges the second table by the mask of the first, which loses active records or raises IndexError; for two tables with the same keys at the same places that are not in the order of the keys (such as sums), the values of the wrong records are taken.", "quantifier": "all pairs of tables of any size with any keys, masks and values; all settings of merge and overwrite", "why_tests_cant": "Tests add parts of one file that is in order; the choice between records depends on every pattern of masks, common keys, differences and orders of the two tables.", "anchors": ["src/pyuvdata/uvdata/mir_meta_data.py:MirMetaData.__add__", "src/pyuvdata/uvdata/mir_meta_data.py:MirMetaData._add_check"]}
{"id": "C93", "title": "Selecting records of a Mir data set", "statement": "MirParser.select with conditions that are all to hold never fails for conditions that make sense, changes nothing but the masks of the metadata tables, and leaves a spectral record active exactly if the file has data for it and it, its baseline, its integration, the weather of that integration and both of its antennas were active before (or reset=True is given) and each of them meets the conditions on the fields its table has. An autocorrelation record stays active exactly if it and its antenna were active and meet the conditions on their fields. Afterwards no active record belongs to an inactive one, and making the masks agree once more changes neither spectral nor autocorrelation records, if each integration has weather. Exceptions: autocorrelations stay active if their integration is deselected by a field of the integration or the weather (such as the source); with and_where_args=False conditions on different tables must still all hold; with and_mask=False records already selected can be dropped.", "quantifier": "all data sets of any number of integrations, baselines, windows, antennas and weather records with any links and values and any masks, with or without autocorrelations; all lists of conditions; reset or not", "why_tests_cant": "Tests select by a few fields of one small file; the masks of six linked tables are narrowed one after the other in a single pass, and whether one pass is enough depends on every pattern of masks and links.", "anchors": ["src/pyuvdata/uvdata/mir_parser.py:MirParser.select", "src/pyuvdata/uvdata/mir_parser.py:MirParser._update_filter", "src/pyuvdata/uvdata/mir_meta_data.py:MirMetaData._make_key_mask"]}
{"id": "C94", "title": "Making new UVData objects", "statement": "UVData.new with times and antenna pairs gives a record for every time and every pair, each exactly once, in the order asked for, if do_blt_outer=True or the numbers of times and pairs differ, and both are without repetition; it gives exactly the records listed if do_blt_outer=False or, by default, if there are as many times as pairs and some are repeated; it is refused in exactly the other cases. Each record has the sidereal time and the integration time of its time. Integration times and channel widths that are left out are the distance to the next time or channel, the last one repeated, and one number is used for all. Without pairs, every two antennas occur in exactly one order and each with itself, and the order of the records that is stated is theirs. Every channel is in a window that is listed. Data, flags and numbers of samples must have the shape of the object. This holds if times are increasing where they are sorted by the code: exceptions are times not in increasing order with time_axis_faster_than_bls=True, without integration_time, or without pairs. Further exceptions: one record said to be rectangular is refused; names of polarizations such as 'ee' are not understood from the telescope's x_orientation; data given with empty=True, and flags given without data, are dropped.", "quantifier": "all lists of times, antenna pairs, antennas, frequencies, widths and integration times; all settings of do_blt_outer, blts_are_rectangular, time_axis_faster_than_bls and empty", "why_tests_cant": "Tests make objects from a few increasing times; which branch is taken and which entry is assigned to which record depends on lengths, repetitions and orders of all the arrays.", "anchors": ["src/pyuvdata/uvdata/initializers.py:new_uvdata", "src/pyuvdata/uvdata/initializers.py:configure_blt_rectangularity", "src/pyuvdata/uvdata/initializers.py:get_time_params", "src/pyuvdata/uvdata/initializers.py:get_freq_params", "src/pyuvdata/uvdata/initializers.py:get_spw_params"]}
{"id": "C95", "title": "Normalization by autocorrelations", "statement": "UVData.normalize_by_autos divides every visibility (with invert=True: multiplies it) by the geometric mean of the autocorrelations of its two antennas in the same integration, channel by channel, in the polarizations of the two feeds (xy by xx and yy, and so on; Stokes parameters by themselves). If one of these is flagged or not positive, the visibility becomes zero and flagged; if one is missing in the integration, the visibility is kept and flagged. No other flag is set. With skip_autos=True the autocorrelations of one feed are kept, and a second call with skip_autos=True and invert=True gives the data before for everything not flagged. Without, usable autocorrelations become one. It is refused exactly if there is no autocorrelation or a polarization's own feeds are missing. Exception: if times are not in increasing order in the file, autocorrelations of other integrations are used.", "quantifier": "all objects with times in order that are equal or further apart than the tolerance, at most one autocorrelation of an antenna in an integration, and any antennas, polarizations, data and flags; both settings of skip_autos and invert", "why_tests_cant": "Tests normalize a few files and compare with the same loop; which autocorrelation is used depends on the grouping of all times, and the loop overwrites the arrays from which it reads.", "anchors": ["src/pyuvdata/uvdata/uvdata.py:UVData.normalize_by_autos"]}
{"id": "C96", "title": "Removal of equalization coefficients", "statement": "UVData.remove_eq_coeffs multiplies or divides, as eq_coeffs_convention says, every visibility by the product of the coefficients of its two antennas for its channel, each record exactly once, whatever the order of records and of antennas, and changes nothing else. It is refused without change if there are no coefficients or no known convention. If no coefficient is zero, removal with the other convention restores the data. Exception: the coefficients stay on the object, and a second call applies them once more.", "quantifier": "all consistent objects, orders of records, rectangular or not, antenna numbers and coefficients", "why_tests_cant": "Tests use coefficients that are equal for all antennas or check a few baselines; that every record is met exactly once depends on the decoding of baseline numbers and on the slices for rectangular data.", "anchors": ["src/pyuvdata/uvdata/uvdata.py:UVData.remove_eq_coeffs"]}
{"id": "C97", "title": "Fast concatenation of calibration solutions", "statement": "UVCal.fast_concat along antennas, channels, spectral windows, times or Jones terms puts the objects one after the other: entry i of object number b is at position (sum of the lengths of the objects before) + i, with its label, its metadata, solutions, flags and qualities (zero where another object records qualities and this one does not; total quality is dropped along antennas); the other axes are those of the first object. Each spectral window keeps its Jones term if windows are concatenated, and if channels of objects with different windows, listed in the order of their channels, are. An axis the object does not have, and any object that does not agree with the first on what is compared, is refused with a ValueError; objects that agree are concatenated. Exceptions: along channels, Jones terms of windows go wrong if objects share a window or list windows in another order; along other axes, windows (and frequency ranges) are not compared; reference antennas are not compared along axes other than time.", "quantifier": "all lists of objects of any shape, labels and contents, any tolerances and the five axes", "why_tests_cant": "Tests split a few files in two or three parts and concatenate them again; offsets and the labels of windows depend on the sizes and on which windows each part has.", "anchors": ["src/pyuvdata/uvcal/uvcal.py:UVCal.fast_concat"]}
{"id": "C98", "title": "Reading files of the MWA correlators", "statement": "UVData.read_mwa_corr_fits gives each pair of antennas of the metafits file one row per time, whatever the order of the antennas in that file, and to each polarization of the row the complex conjugate of the legacy correlator's product of the two filter-bank outputs that carry the inputs of those antennas and feeds; the filter bank carries every input on exactly one output. The data of each file go to the frequencies of the coarse channel the file holds (legacy: channels up to 128 from low to high, then the others from high to low; MWAX: the number of the file), in increasing order, with one spectral window per coarse channel if a channel in between has no file and a single one otherwise. Data no file has are flagged (in all coarse channels with propagate_coarse_flags), as are exactly: fine channels within edge_width of an edge of a coarse channel, the centers of coarse channels with flag_dc_offset, start_flag and end_flag seconds at the ends, and rows of antennas marked in the metafits file. Widths that are not multiples of channel or integration are refused with a ValueError. Exception: if the coarse channels of the observation are not consecutive numbers, frequencies are wrong.", "quantifier": "all orders of the 128 antennas, tile numbers, correlator products, sets of coarse channels and files, numbers of fine channels, widths, integrations and flag settings", "why_tests_cant": "Tests compare a few files with another reader; the map has 33024 entries for each of 128! orders of antennas, and which file holds which channel depends on the set of channels.", "anchors": ["src/pyuvdata/uvdata/mwa_corr_fits.py:MWACorrFITS.read_mwa_corr_fits", "src/pyuvdata/uvdata/mwa_corr_fits.py:MWACorrFITS._read_fits_file", "src/pyuvdata/uvdata/mwa_corr_fits.py:MWACorrFITS.flag_init", "src/pyuvdata/uvdata/corr_fits.pyx:input_output_mapping", "src/pyuvdata/uvdata/corr_fits.pyx:generate_map"]}
{"id": "C99", "title": "Interpolation of beams", "statement": "UVBeam.interp gives, at each requested frequency, the beam of a nearest frequency of the object if all requested frequencies are closer than freq_interp_tol to one of the object or the kind is nearest, and with kind linear otherwise, for data (real and imaginary parts) and bandpass, the value on the straight line between the two neighbouring frequencies, in whatever order they are listed; at frequencies of the object it gives the object's own values; interpolation from a single frequency or outside of the range is refused with a ValueError. At directions, each value is the spline through one image only, that of its axis, frequency and requested polarization, and a polarization the object does not have is refused with a ValueError; in a new object on a grid each pixel has the zenith angle and azimuth of its axes. With reuse_spline, after any history of calls on the object, a call gives what it would give without, if all calls that save or reuse splines have the same spline_opts and, except at frequencies of the object, the same kind of interpolation in frequency. Exceptions: two calls with the same arguments but different sets of frequencies can use different kinds, and then saved splines give wrong values; saved splines survive a selection of polarizations and then are those of other polarizations; without freq_array the bandpass returned is the number of the first frequency; a new object keeps the order of its polarizations although the data are in the order requested.", "quantifier": "all beams, frequencies in any order, requested frequencies, tolerances, directions, polarizations, splines, and all histories of calls with saved splines", "why_tests_cant": "Tests compare a few beams with themselves or with a second call; whether a saved spline is the right one depends on every earlier call on the object.", "anchors": ["src/pyuvdata/uvbeam/uvbeam.py:UVBeam.interp", "src/pyuvdata/uvbeam/uvbeam.py:UVBeam._interp_freq", "src/pyuvdata/uvbeam/uvbeam.py:UVBeam._interp_az_za_rect_spline", "src/pyuvdata/uvbeam/uvbeam.py:UVBeam._interp_healpix_bilinear"]}
{"id": "C100", "title": "Calibration objects made for data objects", "statement": "UVCal.initialize_from_uvdata without further metadata gives an object with the times of the data, each once and increasing, with the integration time of the first record of each time; with the channels, widths and windows of the data, or with one solution per window, with the windows of the data or those listed, each with the lowest and highest frequency of its channels (a listed window without channels is refused with a ValueError; with one solution per channel listed windows must be as many as those of the data and are otherwise ignored); with solutions for the antennas with data, or those asked for, that the telescope has, each once and increasing; and with the two polarizations of the feeds of the data, or the one of data with a single such polarization, and a ValueError for pseudo-Stokes data. If antennas are chosen by numbers or by names, but not both, the telescope has exactly these, in increasing order of numbers, each with its own name and position, and with its own diameter if the telescope of the data lists its antennas in increasing order. Exception: otherwise antennas get the diameters of others.", "quantifier": "all data objects, lists of times, antennas, polarizations, channels and windows, and all choices of antennas and windows", "why_tests_cant": "Tests use telescopes whose antennas are listed in increasing order, a few windows and times; the assignment of entries depends on the orders and repetitions of all arrays.", "anchors": ["src/pyuvdata/uvcal/initializers.py:new_uvcal_from_uvdata", "src/pyuvdata/uvcal/initializers.py:new_uvcal", "src/pyuvdata/uvdata/initializers.py:get_spw_params"]}
{"id": "C101", "title": "Antennas of known telescopes", "statement": "Telescope.update_params_from_known_telescopes, for a known telescope with a file of antenna positions, sets the number of antennas, names, numbers and positions to those of the file if all are missing or with overwrite=True. Otherwise it keeps all that is present; if each antenna has a name of the file, missing numbers and positions are those of the antenna of the same name; if no antenna has a name of the file but each has a number of it, missing names and positions are those of the antenna of the same number; and if an antenna has neither a name nor a number of the file, nothing is changed. Exception: if some antennas are found by name and others by number, antennas can get the positions of others.", "quantifier": "all files of antennas and all telescope objects with any of the number of antennas, names, numbers and positions missing", "why_tests_cant": "Tests use a few telescopes in which all antennas are found by name or all by number; which entry is assigned depends on the whole of both lists and their orders.", "anchors": ["src/pyuvdata/telescopes.py:Telescope.update_params_from_known_telescopes"]}
{"id": "C102", "title": "Antennas given to new telescopes", "statement": "The antennas given to a new Telescope as antenna_positions, antenna_names and antenna_numbers are accepted exactly if positions have three coordinates for each antenna and names and numbers are distinct and equally many. Given an array, positions, names and numbers are those given, in their order; names missing are made from the numbers, with at least three characters, so that each reads as its number and different numbers have different names, and distinct numbers alone are therefore always enough; numbers missing are read from the names. Given a dictionary, which must not be empty, positions are its values and its keys, all numbers or all names, replace the numbers or names given. Everything else is refused with a ValueError.", "quantifier": "all arrays and dictionaries of positions, lists of names and lists of numbers, given or missing", "why_tests_cant": "Tests use a few antennas with small numbers; that made names never clash and read as their numbers holds for all integers, and acceptance depends on all entries of the lists.", "anchors": ["src/pyuvdata/telescopes.py:get_antenna_params", "src/pyuvdata/telescopes.py:Telescope.new"]}
