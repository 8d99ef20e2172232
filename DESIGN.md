# Formal model of pyuvdata in Rocq — design

## 1. What this is

`/verif/rocq/theories` holds a shallow embedding in Rocq (Coq 8.16.1) of the
array-manipulating core of pyuvdata (source in `/repo/src/pyuvdata`), and
theorems about it.  Every function modelled is a total Gallina function that
mirrors the Python branch by branch; Python exceptions are values
(`Err ValueError` etc.).  Properties are listed in `properties.jsonl`, the
status of each is in `MANIFEST.json`.

## 2. Layout

| directory / file pattern | content |
|---|---|
| `theories/Lib/*.v` | numpy/Python prelude: results, index lists, `nonzero`, `take`, `unique`, `argsort`, slices, 3-d arrays; lemmas about them |
| `theories/Model/*.v` | the model; every definition cites file and lines in `/repo` |
| `theories/Spec/*.v` | small independent specifications (plain predicates) used in property statements |
| `theories/Proofs/*.v` | lemmas |
| `theories/Properties/*.v` | only property theorems (closed by `exact`), `Print Assumptions`, and `Example`s showing that hypotheses are met |

## 3. Modelling conventions (apply everywhere unless a comment says otherwise)

* **Integers.** numpy int64/uint64 arrays are `list Z` (or `list N`/`nat` for
  indices).  Wraparound is modelled only for baseline numbers (`mod 2^64`).
* **Floats.** A finite IEEE double is an integer multiple of 2^-1074, so
  arrays of finite doubles that are only compared/sorted are modelled as `Z`
  (the scaled integers).  Where the code does arithmetic (averages,
  resampling), values are exact rationals (`Q`/`Qc`) or reals; rounding is not
  modelled.  NaN is not modelled; `inf` is modelled only in `array_collapse`.
* **Complex visibilities** are pairs of exact numbers with the usual conjugate.
* **Arrays.** 1-d arrays are lists.  3-d data-like arrays
  (Nblts, Nfreqs, Npols) are either nested lists or a shape together with a
  function from indices to values; an index outside the shape is never read by
  a theorem.
* **Sorting.** `np.argsort` and `np.lexsort` are modelled by a stable sort.
  (`np.argsort`'s default is not guaranteed stable; no theorem about `argsort`
  users depends on the order of ties unless stated.)
* **Exceptions** are modelled where they decide the result; warnings and
  `print` are not modelled.  `run_check` is not modelled (objects are assumed
  to be checked separately).
* **Strings** are `string` when their content matters (names, histories,
  filenames), otherwise an enumerated type.

## 4. Trusted base

* Coq 8.16.1's kernel (and `vm_compute` used in examples).
* The faithfulness of the hand-written model to the Python/Cython text
  (comments cite the lines so that it can be reviewed).
* Axioms: see section 6 (regenerated from `Print Assumptions`).

## 5. Plan per property

| id | model | proof idea |
|---|---|---|
| C01–C04 | `Model/Bls.v`: wrappers of bls.py and the Cython loops with arithmetic mod 2^64 | regime analysis with `lia`/`Z.div_mod` |
| C05 | same + `aipy_extracts` bl2ij/ij2bl | arithmetic; refutation by witness |
| C06–C08 | `Model/Tools.v`: `_convert_to_slices`, `slicify`, `_get_slice_len` | induction on the list with the "current run" invariant |
| C09, C58 | `Model/Hdf5.v`: `_index_dset` over 3-d arrays | induction over the list of block selections |
| C10–C12 | `Model/Tools.v` | sorted-list induction |
| C13–C16 | `Model/Pol.v`: dictionaries as association lists | finite case analysis lifted to lists by induction; permutation proofs |
| C17–C18 | `Model/BltAxis.v` | reshape lemmas |
| C19 | `Model/Reorder.v` | stable sort lemmas |
| C20–C25 | `Model/Access.v`, `Model/Reorder.v`: rows, caches, keys, conjugation | invariant "cache entries are correct" by induction over operation sequences |
| C26–C30 | `Model/PhaseCenter.v`: catalog as association list, id array | invariant by induction over operation sequences |
| C31–C32 | `Model/Freq.v` | induction; permutation |
| C33 | `Model/FreqAvg.v` over Qc | chunk lemmas |
| C34 | `Model/FlexPol.v` | index algebra |
| C35–C38 | `Model/Select.v`, `Model/Times.v` | set characterisation of index lists |
| C39 | `Model/Add.v` | label-based specification, index algebra |
| C40 | `Model/Concat.v` | blocks located by the sizes of the preceding ones |
| C41, C65 | `Model/Param.v` | parameters with tolerances; exact algebra on the visibilities |
| C42–C45, C71 | `Model/Resample.v` over Q: rows of the blt axis, both passes of downsample_in_time | the scan equals a cut into windows (induction with the open window as state); closed form of the window count; rational arithmetic |
| C46–C48, C70 | `Model/Redundancy.v`: blocks, cliques, grid, conjugates, antenna pairs, over Z vectors | graph search invariants; grid cells bound distances; pairs through the numbering's inverse |
| C49–C50 | `Model/Collapse.v` | list induction |
| C51, C55, C56 | `Model/UVFlag.v`: the three types in flag mode, conversions, collapse, apply_uvflag | pointwise; fold over waterfall rows, loop over antenna pairs with the pair lookup of C20 |
| C52 | `Model/History.v` | induction over words |
| C53 | `Model/Mir.v`: bytes of a file, positions, writing, reading in batches, headers and their repair | layout lemmas; invariant of the batches; the scan of the headers finds every block |
| C54 | `Model/MirVis.v` over Q: exponent, truncation to int16, flags | bounds on powers of two |
| C57 | `Model/Inflate.v`: orientation, groups, the fill loop with its counter, renaming and reordering | loop invariant gives the list of (baseline, row) pairs; numbering and orientation lemmas give membership |
| C59 | `Model/Calibrate.v` over Q: conventions, matching of names, feeds, times and frequencies, the loop with the state kept on an exception | position lemmas for sorted arrays with a tolerance; invariant over the keys; complex field identities |
| C60, C68, C69 | `Model/Coordinates.v` over R | trigonometric identities; atan2 inverts polar coordinates |
| C66, C67 | `Model/Rotation.v`: matrices filled element by element, calc_uvw | matrices are products of turns; run-length argument for shared rotations |
| C61 | `Model/Cache.v`: lru_cache with a heap of returned lists | invariant over operation sequences |
| C72 | `Model/Compress.v`: selection, clusters of times, averages | clusters of times on a line are classes of near times; their mean meets one row; folds write each row once |
| C73, C74 | `Model/Phase.v`: phase, unproject_phase, set_uvws_from_antenna_positions, update_antenna_positions, _apply_w_proj over reals, with the catalog of C64 and calc_uvw of C66/C67 | the visibility times the phase of the stated w is invariant under each step; the stated uvw is a function of baseline and stated place; induction over histories |
| C75, C76, C77 | `Model/Beam.v`: efield_to_power, efield_to_pstokes, peak_normalize, _get_beam, get_beam_area, get_beam_sq_area over reals, in-place state on errors included | algebra per cell; labels by the table of C13; loop invariant over frequencies for the peak |
| C78, C79 | `Model/UVCal.v`: reorder_antennas, reorder_freqs, reorder_times, reorder_jones, __add__ of calibration solutions | a relation "rearranged by four permutations" closed under composition; the axis merging of C39 per axis |
| C80 | `Model/CalSelect.v`: UVCal.select, get_gains, get_flags, get_quality | one lemma per axis that picking positions composes; soundness and totality of the list of positions for each criterion |
| C81 | `Model/CalGain.v`: convert_to_gain | inversion of a successful call; angle sums for exp(i x) |
| C82 | `Model/FlexJones.v`: UVCal.convert_to_flex_jones, remove_flex_jones | the layout of the converted channels as an interface; removal for any assignment of windows that respects channels and Jones terms; the matching loop gives such an assignment, and on a converted object the original windows |
| C83 | `Model/FlagSelect.v`: UVFlag.select for the three types | each stage gives the positions its criterion describes, or an exception exactly if something named is missing; the stages compose; then the arrays are indexed |
| C84 | `Model/FlagAdd.v`: UVFlag.__add__ for the three types | the checks decide the conditions of the specification; then each array is a concatenation; together with C83 for getting the parts back |
| C85 | `Model/FlagMode.v`: to_flag, to_metric and or of UVFlag, arrays with shapes as in `Model/Collapse.v` | thresholds compared as real numbers; each weight is the product of idempotent factors, one per waterfall; broadcasting by the reversed shapes |
| C86 | `Model/FlagMode.v`: to_waterfall, collapse_pol and combine_metrics of UVFlag on top of `Model/Collapse.v` | every collapse is an average of a list of values and weights; an average counts for the values it was made of, so groups may be averaged first |
| C87 | `Model/BeamSelect.v`: UVBeam.select with all arrays it cuts | each step is a map of positions along one axis; maps compose and labels are distinct, so equal labels give equal numbers |
| C88 | `Model/BeamAdd.v`: UVBeam.__add__ with all arrays it joins | one lemma per axis: where the sum writes the other beam's numbers, where it keeps this one's, where it pads; then label by label |
| C89 | `Model/Uvfits.v`: write_uvfits and read_uvfits with selections, the file as header axes, FQ, AN and SU tables and weights | blocks of channels by division with remainder, the polarization order as a permutation; partial reads by comparing the indices kept on each axis |
| C90 | `Model/ParseAnts.v`: parse_ants with its regular expressions as functions on characters | a grammar of terms in the specification; the reader cuts a written string at its terms (induction on terms, lookahead by first characters); what is chosen by an invariant on the lists of pairs and polarizations |
| C91 | `Model/MirMeta.v`: MirMetaData queries, values, masks, header index, groups, reset | exact characterisation of the records a query chooses; frames for setting; stability of insertion sort and runs of a sorted list for groups; an invariant (stored or unchanged) over histories for reset |
| C92 | `Model/MirAdd.v`: MirMetaData.__add__ and _add_check with their dictionaries and masks | all branches reduce to one loop that drops each common key from one side; counting of the keys dropped for the errors; positions determined by keys for the sum |
| C93 | `Model/MirSelect.v`: _make_key_mask, _update_filter and MirParser.select over six linked tables | each narrowing is described by a predicate on records; the twelve steps are composed to one description of each table, from which exactness, consistency and stability follow |
| C94 | `Model/NewData.v`: get_time_params, get_freq_params, configure_blt_rectangularity, get_spw_params and the blt axis and arrays of new_uvdata | the choice of branch is decided exactly; entries of tiled and repeated arrays by division with remainder; pairs of antennas by induction |
| C95 | `Model/Normalize.v`: normalize_by_autos, with numpy's bisection | groups of times by induction over the bisection; every group changes only its own records and reads their old values, by induction over groups and records; dictionaries of factors by induction over the group |
| C96 | `Model/EqCoeffs.v`: remove_eq_coeffs, on the model of get_antpairs and antpair2ind of C20 | induction over the antenna pairs, which are without repetition and cover the records |
| C97 | `Model/CalConcat.v`: UVCal.fast_concat for all five axes | offsets in concatenated lists and arrays by induction over the objects; windows by order of first appearance |
| C98 | `Model/MwaCorr.v`: input_output_mapping, generate_map, order of rows, polarizations, coarse channels, windows and frequencies, flag_init and flags of antennas | writes of generate_map are to distinct positions (their list is increasing, by computation), by induction over it; positions of pairs by induction over the antennas; ranks in sorted lists for files; arithmetic for flags |
| C99 | `Model/BeamInterp.v`: frequency interpolation (nearest, linear as in interp1d), loop over axes, polarizations and frequencies with saved splines, new object on a grid, select of polarizations | positions in sorted lists for neighbours, field arithmetic for lines; invariant of the saved splines (each is the spline of its key) by induction over the loop and over the history of calls |
| C100 | `Model/CalFromData.v`: times, channels or windows, choice of antennas, antennas with solutions and polarizations of new_uvcal_from_uvdata | positions selected and sorted are those chosen (membership), sorted lists, induction over windows and channels |
| C101 | `Model/KnownAnts.v`: antennas in Telescope.update_params_from_known_telescopes | induction over the two matching loops; counting of distinct antennas found for the unknown ones |
| C102 | `Model/AntParams.v`: get_antenna_params with the formatting and reading of integers | decimal strings read back (standard library's DecimalString), case analysis with exact conditions of acceptance |

Not expressible in the model: file-format byte layouts of external libraries
(HDF5, FITS, CASA tables), astropy/erfa astrometry values, floating-point
rounding, numpy views/aliasing beyond what is stated, performance.

## 6. Axioms used

`Print Assumptions` is run under every property theorem.  All theorems over
`Z`, `nat`, `Q` and lists are "Closed under the global context".  Theorems over
the reals (the quadratic mean of C49; C60, C66-C69, C73-C77, C81, C85, C95) list the axioms of the standard library's `Reals`
(`ClassicalDedekindReals.sig_not_dec`, `ClassicalDedekindReals.sig_forall_dec`,
`FunctionalExtensionality.functional_extensionality_dep`) only; the theorems of
C68 and C69 that use `atan`, `asin` or `acos` also list `Classical_Prop.classic`,
which the standard library's analysis of these functions uses.  No axiom of our own
is used.

## 7. Findings

Claims that turned out false of the code as written.  Each is a theorem
`Cnn_…_refuted` with a concrete witness; the English property was narrowed to
what is true.

| theorem | what happens |
|---|---|
| C03_decoder_limit_refuted | baseline_to_antnums misreads numbers beyond the supported antenna limit |
| C04_mixed_regimes_refuted | decoding an array that mixes numbering regimes goes wrong |
| C05_miriad_not_injective | two antenna pairs share a Miriad baseline number |
| C06_decreasing_refuted, C06_duplicates_refuted, C06_empty_list | _convert_to_slices on decreasing, repeated, empty lists |
| C07_slicify_decreasing_refuted | slicify of a decreasing range loses index 0 |
| C08_empty_slice_length_refuted | _get_slice_len of an empty slice |
| C09_ndarray_index_refuted | indexing with two list axes |
| C17_wrong_declared_order_refuted | a wrong declared axis order is believed |
| C18_valid_axis_rejected_refuted | a rectangular axis is reported as not rectangular |
| C19_index_list_may_lose_records_refuted | reorder_blts with a repeated index list loses records |
| C19_autos_first_breaks_rectangularity_refuted | autos_first leaves a stale rectangularity flag |
| C20_two_rows_reversed_refuted | antpair2ind slice for two rows in reverse order |
| C21_reversed_polarizations_refuted, C21_one_sided_polarization_refuted, C21_rows_left_out_refuted | get_data corner cases |
| C23_x_orientation_refuted | changing x_orientation does not invalidate cached keys |
| C24_mixed_numbering_refuted | conjugate_bls renumbers with a single convention |
| C25_cross_polarization_flags_refuted | conjugation does not swap cross-pol flags |
| C26_merge_named_twice_refuted | merging a list that names an entry twice deletes an entry in use |
| C28_split_keeping_the_name_refuted | split without new name is a silent no-op |
| C29_alike_reference_entries_refuted | consolidation loses a reference id |
| C62_stale_after_conjugation_refuted | blt metadata stale after conjugation |
| C64_phasing_overwrites_refuted | phase() under a used name moves unselected rows |
| C31_repeated_window_refuted | a window number listed twice in spw_array hides interspersed channels from the contiguity check |
| C32_window_list_left_unsorted_refuted | reorder_freqs(spw_order="number") leaves spw_array unsorted when no channel has to move |
| C33_other_windows_flagged_refuted | frequency_average clears the mask of fully flagged bins at the global channel number instead of the number inside the window: in windows after the first, fully flagged bins come out as 0 instead of the mean of their inputs. |
| C33_other_windows_flagged_fails_refuted | The same wrong index is out of range when the last bin of a later window is flagged: IndexError. |
| C33_window_without_channels_refuted | frequency_average(keep_ragged=False) leaves a window with fewer than n channels in spw_array with no channel in it. |
| C34_equal_windows_refuted | An object with two windows of identical frequencies and widths can be converted with convert_to_flex_pol but not back: remove_flex_pol (which combines windows by default) raises ValueError, because windows are matched by their channels only. |
| C38_wrapped_range_missed_refuted | With time ranges, lst_range does not return a stored LST range that goes through 2 pi although it overlaps the requested range. |
| C38_wrapped_range_taken_refuted | With time ranges, an lst_range going through 2 pi returns stored ranges disjoint from it. |
| C38_wrapped_lst_missed_refuted | With time ranges, of several ranges through 2 pi that hold a listed LST only one is returned. |
| C35_eq_coeffs_refuted | select(keep_all_metadata=False) shortens the telescope's antenna axis but not eq_coeffs (Nants_telescope x Nfreqs), because only the parameters of the telescope object are indexed. |
| C35_one_channel_per_window_refuted | Selecting two or more frequencies with at most one channel per window raises ValueError (minimum of an empty array) although all frequencies are there. |
| C35_mixed_tuples_refuted | With bls=[(0,1,'xx'),(0,2)] and polarizations=[-6] the polarizations argument is silently replaced by 'xx'. |
| C36_both_directions_refuted | With both (a,b) and (b,a) stored, bls=[(a,b)] and bls=[(b,a)] select different records. |
| C37_repeated_frequency_refuted | freq_chans=[0] also keeps channels of other windows with the same frequency. |
| C39_new_channel_before_a_shared_one_refuted | `a + b` writes b's data block with np.ix_ into the positions of b's labels in the order they have in the sum; if on some axis of b a new label precedes one shared with a, the samples of the two are exchanged (frequencies 100,200 + 50,100: what b measured at 50 is recorded at 100). |
| C65_large_antenna_numbers_refuted, C41_large_antenna_numbers_refuted | Integer parameters are compared with the default relative tolerance 1e-5 (np.allclose), so antenna numbers (baseline numbers, ids) 200000 and 200001 are equal: objects of different antennas compare equal, and sum_vis adds their visibilities. |
| C65_symmetry_refuted | `a == b` uses the tolerance relative to the value of the right object; 99999 == 100000 but not 100000 == 99999. |
| C41_unsorted_filenames_refuted | sum_vis combines and sorts the file names, and the next call compares the list in order: diff_vis(sum_vis(a, b), b) raises ValueError if the file names of a and b were the same but not sorted. |
| C40_three_catalogs_refuted | fast_concat merges the catalogs in a binary tree into the left object. The first object is renumbered again by the third after the second was made consistent with it: three objects with different phase centers under id 0 give a result in which the records of the second refer to the phase center of the third, without any error. |
| C40_window_polarizations_refuted | fast_concat neither compares nor merges flex_spw_polarization_array; along the frequency axis it also reorders spw_array by first appearance without permuting it, so windows end up with another polarization. |
| C62_fast_concat_refuted | fast_concat along the baseline-time axis keeps blt_order of the first object although the result need not have it; set_rectangularity trusts it and reports a rectangular layout that is not there. |
| C49_tiny_weights_refuted | mean_collapse treats a total weight of at most 1e-10 as no weight: finite data with weights such as 1e-11 average to inf although the returned weight is positive. |
| C52_overwrite_refuted | `a + b` that only overwrites invalid samples of a (no axis grows) drops the history of b, although all its data come from b. |
| C61_changed_list_refuted | polnum2str and its siblings return the cached list itself for sequences: UVData.get_pols() hands it to the user, and changing it changes the result of every later call in the process. |
| C61_float_refuted | polnum2str(1.0) (or np.int16(1)) raises ValueError on a fresh cache but returns 'pI' after polnum2str(1), because 1 == 1.0 as cache keys. |
| C66_position_angle_refuted | calc_uvw(use_ant_pos=True) groups consecutive records by hour angle and declination only: records of two phase centers at the same place in different frames (e.g. ICRS and galactic) all get the first one's frame position angle, so set_uvws_from_antenna_positions writes wrong u and v for them. |
| C67_no_angle_refuted | calc_uvw(use_ant_pos=False) without frame_pa raises TypeError (None - 0.0) when the new place equals the old one. |
| C68_pole_refuted | LatLonAlt_from_XYZ at a pole (x = y = 0) returns altitude -a²/b (about -6.4e6 m on the Earth): it divides the distance from the axis, 0, by cos(latitude); in floating point 0/6e-17 is 0 too. |
| C46_nonstrict_covers_refuted | find_clusters(strict=False) drops, without a warning, every id whose neighbourhood is not a clique; compress_by_redundancy(method='average') uses it for the times of a group, so such times are left zero and unflagged. |
| C47_pairwise_near_refuted | find_clusters_grid can put two baselines up to 1.3 times the tolerance apart in one group. |
| C47_equal_together_refuted | find_clusters_grid can put two identical baseline vectors in different groups (the result depends on which cells have been used before). |
| C48_near_together_refuted | get_baseline_redundancies(include_conjugates=True): two baselines that differ by much less than the tolerance, with u just above and just below -tol, are oriented oppositely and not grouped. |
| C70_docstring_sign_refuted | get_antenna_redundancies: the docstring says blvec = enu[a1] - enu[a2]; the code forms enu[a2] - enu[a1]. |
| C57_antennas_refuted | inflate_by_redundancy on a telescope of up to 2048 antennas with a number of 2048 or more: the groups mix numbers of the 2048 and the 2147483648 kind, which baseline_to_antnums decodes together as the smaller kind, giving antennas such as 5244929 that do not exist. |
| C57_large_numbers_lost_refuted | Same cause: rows of antenna pairs below 2048 are stored under numbers of the large kind, which are in no group, and are dropped without a warning. |
| C57_short_lost_refuted | inflate_by_redundancy drops a baseline shorter than the tolerance if it is stored against the order of the antenna list (its pair is in the groups only in the other order). |
| C57_ntimes_refuted | inflate_by_redundancy replaces the data of all but the first present baseline of a group; times only the others have disappear while Ntimes keeps its value, so check() raises after the object was changed. |
| C51_polarization_order_refuted | apply_uvflag with a baseline type UVFlag whose polarizations are in another order reorders only the polarization list of its copy, not the flags, so the wrong polarizations are flagged. |
| C51_time_order_refuted | apply_uvflag matches the rows of a pair by rank, not by time: a UVFlag with another row order flags the wrong times without an error. |
| C51_earlier_times_refuted | The check for mismatched times (and frequencies) tests `tdiff > tol` without an absolute value: flags for earlier times (lower frequencies) are applied. |
| C51_other_times_refuted | A waterfall for entirely different times passes the time check (it is converted to the times of the data first) and applies nothing. |
| C51_single_time_refuted | A waterfall of one time is refused with ValueError although the docstring promises broadcasting (to_baseline leaves Ntimes at one and check() objects). |
| C56_unsorted_times_refuted | to_baseline takes row i of the waterfall for the i-th smallest time; a waterfall with unsorted times (e.g. after __add__ along time) is broadcast to the wrong times. |
| C42_too_long_refuted | upsample_in_time rounds the number of pieces down when the quotient is within a relative 1e-5 of an integer: 1000.005 s with max_int_time=1000 s stays one piece. |
| C43_just_above_refuted | upsample_in_time keeps rows with integration_time <= max_int_time and splits those longer by more than 1 ms; rows in between are in neither group and disappear when another row is split. |
| C44_single_integration_refuted | downsample_in_time looks at dtime[0] of each baseline: a baseline with a single (short) integration raises IndexError, after the object has been reordered. |
| C44_many_integrations_refuted | downsample_in_time(n_times_to_avg=2) on 100001 integrations raises IndexError: np.isclose(50000.5, 50000) holds, so the output arrays are one row too small. |
| C44_dropped_baseline_refuted | downsample_in_time(keep_ragged=False) may drop all of a baseline; Nbls is not updated and the check raises ValueError. |
| C71_loses_data_refuted | resample_in_time first averages to within 1 ms above the target and then, if another baseline is split, loses those rows (see C43): two thirds of a baseline's data go without a message. |
| C71_lengthens_refuted | resample_in_time decides on splitting before it averages: 1 s and 19.5 s with a target of 10 s become one integration of 20.5 s. |
| C59_time_order_refuted | uvcalibrate compares np.unique of both time arrays and then applies the solutions by position: rows of a baseline in decreasing time order (or unsorted solution times) get the gains of other times, without a message. |
| C59_freq_order_refuted | uvcalibrate compares sorted frequencies and then applies the solutions by position: solutions with decreasing frequencies are applied to the wrong channels, without a message. |
| C59_half_calibrated_refuted | uvcalibrate(inplace=True) with several solution times raises ValueError (broadcast) at the first baseline that lacks one of the times, when earlier baselines are calibrated already; vis_units still say uncalibrated. |
| C59_small_gains_refuted | uvcalibrate with prop_flags (default) uses np.isclose(gain, 0): gains of 1e-5 each (product 1e-10) are taken for zero, all data are flagged and left uncalibrated. |
| C59_unit_refuted | uvcalibrate(undo=True) sets vis_units to 'uncalib' even if the solutions have no gain_scale and the unit was 'Jy' before and after the calibration. |
| C59_conventions_refuted | uvcalibrate with uvc_pol_convention='sum', uvd_pol_convention='avg' and then undo=True without them succeeds and leaves the data off by a factor of two: the convention of the solutions is then guessed from the data. |
| C53_gap_refuted | MirParser.read_data(use_mmap=False): del_offset in _read_packdata leaves out the header of the records read before, so every read after the first starts 8 bytes late for each; selecting integrations 1 and 3 of four gives wrong data for 3 (only warnings). |
| C53_sizes_refuted | For the same reason a Mir file whose integrations have different sizes cannot be read with use_mmap=False: KeyError. |
| C53_split_refuted | Writing the two sidebands of one integration to a Mir file with two writes (append_data=True) restarts dataoff at 0; both records are then read from the first block, without a message. |
| C54_half_step_refuted | _convert_vis_to_raw truncates (astype) rather than rounds: errors up to a full step, always towards zero. |
| C54_flagged_scale_refuted | _convert_vis_to_raw takes the common exponent from all channels, although its comment says only unflagged ones count: one bad flagged channel of 1e5 turns visibilities of 1 into 0. |
| C72_cross_pols_refuted | compress_by_redundancy(method='average') conjugates the visibilities of reversed baselines but does not exchange XY with YX (conjugate_bls does): cross polarizations are averaged with each other. |
| C72_flagged_refuted | compress_by_redundancy(method='average'): the documentation says that a visibility flagged in all rows is averaged anyway; this is so only if all channels and polarizations of these rows are flagged, else it becomes 0 with nsample 0. |
| C72_unflagged_refuted | compress_by_redundancy(method='average') leaves rows for which it finds no cluster of times (times that form a chain, a baseline with two rows at one time) as zeros with nsample 0 that are not flagged, even if all the input was flagged. |
| C73_unproject_mask_refuted, C74_unproject_mask_refuted | unproject_phase(select_mask=...) assigns the new uvws (zenith) to all rows (uvdata.py:4375), also to projected rows outside the mask, whose visibilities and apparent coordinates are left alone: their stated w no longer fits, and the next phase call applies wrong phases. |
| C73_set_uvws_refuted | set_uvws_from_antenna_positions on an object with projected and unprojected rows applies e^(-2 pi i w) to the unprojected ones: the old w is set to zero for them (uvdata.py:4972) and the new one is not. |
| C73_delta_refuted | update_antenna_positions(delta_antpos=True) passes the mask of unprojected rows to _apply_w_proj (uvdata.py:5054-5058); the comment says these are screened out. Projected rows are not corrected, unprojected ones are changed. |
| C73_lookup_refuted | phase(lookup_name=True) to an unprojected entry tests the cat_type argument and not the type found (uvdata.py:4841): without cat_type='unprojected' a w-term is applied to rows that become unprojected. |
| C74_rotate_mask_refuted | phase(use_ant_pos=False, select_mask=...) passes the old apparent coordinates of all rows with new ones of the selected rows: numpy raises ValueError unless all rows are selected. |
| C74_lookup_frame_refuted | phase(lookup_name=True) calculates phase_center_frame_pa for the phase_frame argument (icrs by default), whatever the frame of the entry; uvws are turned to the wrong north. |
| C75_three_vector_refuted | efield_to_power(inplace=True) on a beam with Naxes_vec=3 raises ValueError after setting Npols, polarization_array, Naxes_vec=1 and beam_type='power' (uvbeam.py:920-938, 974): the object is left half converted. |
| C76_sign_refuted | _construct_mueller returns np.abs of the Mueller element (uvbeam.py:1090), so a negative M_QQ, M_UU or M_VV (for instance feeds swapped with respect to the basis vectors) becomes positive. |
| C76_basis_refuted | efield_to_pstokes uses the components as Jones matrix and drops basis_vector_array without applying it; for basis vectors that are not orthonormal pI is not the mean of the power beams. |
| C76_one_feed_refuted | efield_to_pstokes on a beam with one feed raises IndexError after replacing polarization_array (uvbeam.py:1150). |
| C77_converted_refuted | efield_to_power and efield_to_pstokes keep data_normalization='peak' although the peak of the power may be anything up to 2 per feed; get_beam_area then accepts the beam and can return more than 4 pi. |
| C77_order_refuted | efield_to_power does not square bandpass_array: normalizing before the conversion and after it give different values of beam times bandpass. |
| C79_solutions_refuted | UVCal.__add__: if the second object has a new label before a shared one on an axis (antennas [1, 2] at one time plus antennas [0, 1] at another), its solutions are stored under exchanged labels: the shared entries are matched by position after sorting only the entries common to both. |
| C79_window_jones_refuted | UVCal.__add__: flex_jones_array is appended but not sorted with the windows: adding window 1 to window 2 exchanges their Jones terms, wide_band or not. |
| C79_same_range_refuted | UVCal.__add__: two objects with the same time_range cannot be combined along antennas, frequencies or Jones terms: their common range is reported as overlapping. |
| C79_totals_refuted | UVCal.__add__: with total_quality_array but no quality_array, adding times raises AttributeError; wide_band objects with several windows raise IndexError or ValueError if only the second has total qualities. |
| C80_absent_window_refuted | UVCal.select: a window that is not in the object is silently ignored if the object has channels, although it is an error for a wide_band object. |
| C80_two_windows_refuted | UVCal.select: freq_chans with one channel of each of two windows raises ValueError (minimum of an empty array): the spacing check, meant only for a warning, looks at neighbours in the same window and there are none. |
| C80_negative_refuted | UVCal.select: freq_chans are not normalised, so [3, 4, -1] on five channels keeps the last channel twice, first and last. |
| C82_total_quality_refuted | UVCal.convert_to_flex_jones and remove_flex_jones: an object with a total_quality_array cannot be converted (ValueError: wrong number of axes in a transpose) nor back (IndexError: no fourth axis). |
| C82_uneven_refuted | UVCal.remove_flex_jones(): windows with different numbers of channels make np.allclose raise ValueError (shapes cannot be broadcast), so what convert_to_flex_jones made of such an object cannot be undone with the defaults. |
| C82_twins_refuted | UVCal.remove_flex_jones(): two windows with the same channels are taken for one and the duplicated Jones terms raise ValueError. |
| C83_order_refuted | UVFlag.select(bls=...): 'the ordering of the numbers within the tuple does not matter' is false if rows of the pair are stored both ways round: (1, 2) keeps only those stored as (1, 2). |
| C83_shared_frequency_refuted | UVFlag.select(freq_chans=[0]): the channel is looked up by its frequency, so a channel of another window with the same frequency is kept too. |
| C83_one_channel_refuted | UVFlag.select(freq_chans=[0]) on an object with one channel raises IndexError: np.squeeze makes the frequency array zero-dimensional. |
| C83_repeated_refuted | UVFlag.select(antenna_nums=[2, 2]) on an object of type antenna keeps the antenna twice; antenna positions are neither sorted nor made unique, unlike every other axis. |
| C84_twice_refuted | UVFlag.__add__ along time of an object of type baseline and itself succeeds: nothing checks for overlapping baseline-times, and each is then there twice. |
| C84_antennas_refuted | UVFlag.__add__ along antenna of an object and itself succeeds; every antenna is in ant_array twice. |
| C84_times_refuted | UVFlag.__add__ along time of two objects of type baseline with the same baselines but different numbers of times raises ValueError: the per-row baseline arrays are compared, which have the length Nblts. |
| C84_baselines_refuted | UVFlag.__add__ along baseline of two objects with the same times but different numbers of baselines raises ValueError: the per-row time arrays are compared. |
| C84_windows_refuted | UVFlag.__add__ along frequency of two windows that share a frequency fails: Nfreqs is set to the number of different frequencies, not of channels. |
| C85_default_threshold_refuted | UVFlag.to_flag with the default threshold flags infinite metrics, which is what collapsing without weight gives; its documentation says the flags are all False. |
| C85_or_labels_refuted | UVFlag.__or__ compares no labels: flags of other times, frequencies, polarizations or another type are or-ed by position if the shapes broadcast. |
| C86_squares_refuted | UVFlag.collapse_pol, and to_waterfall with keep_pol=False, of a waterfall made with return_weights_square=True raise ValueError: weights_square_array is not averaged and fails the check. |
| C87_pol_order_refuted | UVBeam.select(polarizations=[-6, -5]) on a beam with polarizations -5, -6 sets polarization_array to the request but cuts data_array in the order of the beam (uvbeam.py:3229-3247): the numbers change labels silently. |
| C87_pol_twice_refuted | UVBeam.select with the same polarization twice gives a polarization_array longer than Npols; the check raises ValueError, with the object already changed. |
| C87_power_basis_refuted | UVBeam.select along image axes cuts basis_vector_array only for electric field beams: a power beam made with keep_basis_vector=True keeps the whole array and the check raises ValueError. |
| C87_sign_refuted | UVBeam.select that drops all cross polarizations replaces data_array by its absolute value: negative powers change sign. |
| C87_half_done_refuted | UVBeam.select in place with a valid image selection and a frequency that is not there raises ValueError with the image already cut. |
| C88_order_refuted | UVBeam.__add__ sorts the new labels but copies the numbers of the second beam in its own order (uvbeam.py:2767-2810): adding a beam with frequencies [120, 110] to one with [100] puts the numbers of 120 under 110. |
| C88_overwrite_refuted | UVBeam.__add__ along the image axis replaces the bandpass of the first beam by that of the second on common frequencies, without comparing them. |
| C88_overwrite_basis_refuted | UVBeam.__add__ along frequency replaces the basis vectors of the first beam by those of the second, without comparing them. |
| C88_holes_refuted | UVBeam.__add__ along two axes leaves zeros, without any mark, in cells that neither beam has. |
| C88_power_basis_refuted | UVBeam.__add__ along the image axis does not extend the basis vectors of power beams that kept them: the check raises ValueError. |
| C88_orientation_refuted | UVBeam.__add__ does not compare x_orientation: beams whose feeds point in different directions are combined under the first's. |
| C89_order_refuted | write_uvfits makes the FQ table in the order of spw_array but writes the visibilities in the order of the channels (uvfits.py:915-925, 985): with spw_array [7, 3] and channels in windows [3, 3, 7, 7] the file has the visibilities of each window under the frequencies of the other. |
| C89_windows_refuted | read_uvfits with freq_chans or frequencies on a file with several windows: freq_frac is multiplied by Nspws (uvfits.py:248), so that half of the channels of two windows counts as all, and everything is read; C89_windows: other choices raise AssertionError, IndexError or ValueError. |
| C89_decreasing_refuted | read_uvfits without an FQ table takes channel_width from CDELT4 with its sign (uvfits.py:459): one window with decreasing frequencies comes back with negative widths, and write_uvfits then raises ValueError. |
| C89_flags_refuted | UVFITS weights hold flags and nsamples together: unflagged visibilities with nsample 0 come back flagged (warned about); use_miriad_convention shifts antenna numbers, and the reader does not undo it. |
| C90_nothing_refuted | parse_ants returns None for a string whose antennas do not exist or that leaves out all it includes (bls.py:340-344): select(ant_str='99') keeps all the data; 'all' is only effective alone or before another term (bls.py:206). |
| C90_feed_refuted | parse_ants removes excluded polarizations from the list of those named so far (bls.py:322-330), which is empty for a string like '-3x': nothing is left out. |
| C90_orientation_refuted | parse_ants compares names like 'xx' with get_pols, which uses 'ee' and 'nn' if x_orientation is set (bls.py:297): feed letters then choose nothing, and e and n are not in the regular expression. |
| C90_swapped_refuted | parse_ants exchanges the antennas of a pair stored in the other order but not the feeds (bls.py:270-274): '1x_10y' with the pair (10, 1) chooses xy, which is feed x of antenna 10. |
| C90_group_refuted | parse_ants: '(1,2)' alone is taken as antenna 1, since the comma counts as a letter in [x,y,l,r] (bls.py:246); '(1)' and '(1,)_2' raise AttributeError; the tutorial's 'i,I' raises ValueError. |
| C90_twice_refuted | parse_ants with one polarization removes the pair without checking that it is there (bls.py:318-319): '-1x_2x,-1x_2x' raises ValueError. |
| C91_any_refuted | MirMetaData._index_query starts from the mask and joins conditions to it with or when and_where_args=False (mir_meta_data.py:1155-1171): get_value(..., where=..., and_where_args=False) returns every active record, plus inactive ones that match. |
| C91_or_mask_refuted | MirMetaData.set_mask ignores and_mask if all records are active (mir_meta_data.py:1587): or-ing records into a full mask deactivates all others. |
| C91_group_keys_refuted | MirMetaData.group_by without return_index indexes the list of header keys with an array (mir_meta_data.py:1830-1833): TypeError for tables with a pseudo header key (eng, ac, antpos, weather). |
| C91_length_refuted | MirMetaData.set_mask does not check the length of a given mask if all records are active (mir_meta_data.py:1580-1597). |
| C92_discard_refuted | MirMetaData._add_check with discard_flagged=True looks up the records of other in self._mask (mir_meta_data.py:2103): active records of other are dropped, inactive ones kept, and IndexError is raised if other is longer. |
| C92_order_refuted | MirMetaData._add_check uses array order (Ellipsis) for masks and data but key order for the keys if both tables have the same keys (mir_meta_data.py:2113, 2139-2146); __add__ does not sort, so adding two copies of an unsorted table (such as a previous sum) keeps inactive records with stale values and marks them active. |
| C93_autos_refuted | MirParser._update_filter never narrows eng_data by in_data (mir_parser.py:1885-1921), so selecting a source leaves the autocorrelations of all other integrations selected. |
| C93_any_refuted | MirParser.select(and_where_args=False) makes one mask for each table and intersects them: conditions on fields of different tables must all hold (mir_parser.py:3192-3213). |
| C93_widen_refuted | MirParser.select(and_mask=False): a table whose records are all active takes the new mask instead of the union (mir_meta_data.py:1589), and tables without the field become fully active; records selected before are dropped by a condition on another table. |
| C94_fast_refuted | configure_blt_rectangularity with time_axis_faster_than_bls=True tiles the sorted unique times but the sidereal and integration times in the order given (initializers.py:176-178): for unsorted times each record has those of another time (only a warning about LSTs). |
| C94_integration_refuted | get_time_params derives integration_time from the sorted times and does not put it back into the order of time_array (initializers.py:49-55). |
| C94_order_refuted | new_uvdata sets blt_order to ('time', 'ant1') for unsorted times (initializers.py:576-580). |
| C94_single_refuted | configure_blt_rectangularity reads times[1] if blts_are_rectangular=True: IndexError for a single record (initializers.py:199). |
| C94_pol_refuted | new_uvdata converts polarization names with the deprecated argument x_orientation instead of the telescope's (initializers.py:599-602): 'ee' raises KeyError although the telescope has an x_orientation; UVCal.new uses the telescope's. |
| C94_dropped_refuted | new_uvdata ignores data_array, flag_array and nsample_array if empty=True, and the last two without data_array, without a warning (initializers.py:656-691). |
| C95_unordered_refuted | normalize_by_autos sets ordered_time to time_array[...] if times are not in order, instead of time_array[blt_idx] (uvdata.py:11951): the bisection runs over unsorted times while the indices are sorted, and autocorrelations of other integrations are used, silently. |
| C96_again_refuted | remove_eq_coeffs leaves eq_coeffs on the object: a second call is not refused and applies them again (uvdata.py:4174-4235). |
| C97_shared_window_refuted | UVCal.fast_concat along channels with flex_jones_array, for objects that share a window: the Jones terms kept are the first ones of the concatenated list, not those of the remaining windows, because the comparison list is built after spw_array has been overwritten (uvcal.py:3447-3885). |
| C97_window_order_refuted | The same, for a first object whose spw_array is not in the order of its channels: even its own windows get other Jones terms. |
| C97_wide_windows_refuted | UVCal.fast_concat along times, antennas or Jones terms does not compare spw_array, freq_range and flex_spw_id_array: wide_band solutions for other windows are accepted and recorded under the windows of the first object. |
| C97_references_refuted | UVCal.fast_concat along axes other than time does not compare ref_antenna_array: the first object's is kept for the solutions of all. |
| C98_frequencies_refuted | read_mwa_corr_fits computes frequencies from the position of a coarse channel in the list of the observation (spw_inds[i] - center_coarse_chan, mwa_corr_fits.py:1655), not from its number: observations with coarse channels that are not consecutive (picket fence) get the frequencies of consecutive channels, in one spectral window, without a warning. |
| C99_reuse_refuted | interp(reuse_spline=True) saves splines by (frequency, polarization index, axis) (uvbeam.py:1536), although their values depend on the kind of frequency interpolation, which is replaced by nearest only if all frequencies of a call are within the tolerance (uvbeam.py:1926-1934), and on spline_opts: a later call with other frequencies silently gets the nearest beam where it should interpolate. |
| C99_select_refuted | saved_interp_functions survives select, and its keys are indices of polarizations: after interp(reuse_spline=True) and select(polarizations=...) in place, interp(reuse_spline=True) returns another polarization. |
| C99_bandpass_refuted | interp(return_bandpass=True) without freq_array returns bandpass_array[0] (uvbeam.py:1382, 1663), one number, not the bandpass of shape (Nfreqs,). |
| C99_polarizations_refuted | interp(new_object=True, polarizations=[...]) does not update polarization_array: with all polarizations in another order, data get the labels of other polarizations; with fewer, check fails. |
| C100_diameters_refuted | new_uvcal_from_uvdata sorts antenna numbers, names and positions of the chosen antennas by number, but assigns antenna_diameters unsorted (uvcal/initializers.py:554-560): if the telescope does not list its antennas in increasing order, antennas silently get the diameters of others. |
| C101_mixed_refuted | Telescope.update_params_from_known_telescopes first finds antennas by name, then the others by number, and takes positions in the order in which antennas were found (telescopes.py:609-647) without restoring the order of the object: with antennas of both kinds, antennas silently get the positions of others. |

## 8. Further modelling notes

* `set.pop()` may return any element.  The functions that use it take a choice
  function `pop`; theorems hold for every `pop` with `picks pop`.
* h5py allows at most one list index, in increasing order; `Model/Hdf5.v`
  raises otherwise.
* Dictionaries are association lists in insertion order (`Lib/Dict.v`).
