{
 "claims": [
  {
   "property": "C01",
   "status": "proved",
   "theorems": [
    "C01_umask",
    "C01_umask_out_of_range",
    "C01_window",
    "C01_window_out_of_range"
   ],
   "note": ""
  },
  {
   "property": "C02",
   "status": "proved",
   "theorems": [
    "C02_rotate_left",
    "C02_rotate_right",
    "C02_rotations_inverse",
    "C02_rotate_edges",
    "C02_cycle",
    "C02_cycle_period"
   ],
   "note": "Shift 0 (left) terminates the program and shift 32 is undefined; both are theorems."
  },
  {
   "property": "C03",
   "status": "proved",
   "theorems": [
    "C03_get_bit_ntuple",
    "C03_zero_length_refuted",
    "C03_from_uint",
    "C03_from_whole_uint"
   ],
   "note": "Stated for 1..32 bits. C03_zero_length_refuted records that a zero-length request returns the unmasked word."
  },
  {
   "property": "C04",
   "status": "proved",
   "theorems": [
    "C04_get_ntuple_cyclic"
   ],
   "note": ""
  },
  {
   "property": "C05",
   "status": "partial",
   "theorems": [
    "C05_long_window_refuted",
    "C05_rejected_windows",
    "C05_accepted_windows"
   ],
   "note": "Refuted as stated: C05_long_window_refuted. The two other theorems say exactly which windows make the program exit and that all others are copied correctly."
  },
  {
   "property": "C06",
   "status": "proved",
   "theorems": [
    "C06_get_uint_rand_32"
   ],
   "note": ""
  },
  {
   "property": "C07",
   "status": "partial",
   "theorems": [
    "C07_narrow_generators_refuted",
    "C07_actual_words",
    "C07_clean_words_partial"
   ],
   "note": "Refuted as stated: C07_narrow_generators_refuted. C07_actual_words says exactly what every call returns for every width below 32; C07_clean_words_partial says which words are right."
  },
  {
   "property": "C08",
   "status": "proved",
   "theorems": [
    "C08_get_rand_bits",
    "C08_all_requests",
    "C08_narrow_generators",
    "C08_small_results_are_zero"
   ],
   "note": "Stated for 4-byte results. C08_all_requests covers up to 128 bits and whole-word results including the requests that end the program; C08_small_results_are_zero records that 1- and 2-byte results are always zero."
  },
  {
   "property": "C09",
   "status": "proved",
   "theorems": [
    "C09_reset_reproducible"
   ],
   "note": ""
  },
  {
   "property": "C10",
   "status": "proved",
   "theorems": [
    "C10_get_rand_bits_uint",
    "C10_result_fits"
   ],
   "note": ""
  },
  {
   "property": "C11",
   "status": "partial",
   "theorems": [
    "C11_full_width_refuted",
    "C11_full_width_aligned_partial"
   ],
   "note": "Refuted as stated: C11_full_width_refuted. C11_full_width_aligned_partial: right when nothing is buffered."
  },
  {
   "property": "C12",
   "status": "partial",
   "theorems": [
    "C12_accepted_patterns_exit",
    "C12_get_rand_pattern_refuted",
    "C12_other_patterns"
   ],
   "note": "Refuted as stated: C12_get_rand_pattern_refuted; C12_accepted_patterns_exit and C12_other_patterns describe every terminated pattern."
  },
  {
   "property": "C13",
   "status": "proved",
   "theorems": [
    "C13_dumpbits_text",
    "C13_round_trip"
   ],
   "note": ""
  },
  {
   "property": "C14",
   "status": "proved",
   "theorems": [
    "C14_binary_rank",
    "C14_rank_unique",
    "C14_rank_tests_count"
   ],
   "note": ""
  },
  {
   "property": "C15",
   "status": "partial",
   "theorems": [
    "C15_wide_matrices_refuted"
   ],
   "note": "Refuted as stated: C15_wide_matrices_refuted. Matrices up to 32 columns, the only ones the tests use, are covered by C14."
  },
  {
   "property": "C16",
   "status": "proved",
   "theorems": [
    "C16_accumulation"
   ],
   "note": "std_test.c with the statistical test, the KS value and the sorting order as parameters; counters 32-bit; hypotheses: sort permutes, counters below 2^31, some KS p-value positive after each call but the last (C17 covers the other case)."
  },
  {
   "property": "C17",
   "status": "partial",
   "theorems": [
    "C17_zero_pvalue_refuted",
    "C17_restart"
   ],
   "note": "Refuted as stated: with all KS p-values 0.0 std_test takes the call for the first one, discards the p-values and collects the same number again (C17_restart, in general)."
  },
  {
   "property": "C18",
   "status": "proved",
   "theorems": [
    "C18_execute_test"
   ],
   "note": "execute_test loop with fuel; doubles are IEEE binary64 (Flocq), so the stopping comparisons are the C ones. Hypotheses: Xfail>0, no NaN among KS p-values, counters below 2^31."
  },
  {
   "property": "C19",
   "status": "partial",
   "theorems": [
    "C19_xfail_zero_refuted",
    "C19_nan_refuted"
   ],
   "note": "Refuted as stated: -Y 2 -X 0 with a KS p-value of 0.0 loops for ever; so does a NaN with the default thresholds. C18 gives termination otherwise."
  },
  {
   "property": "C20",
   "status": "proved",
   "theorems": [
    "C20_assessment"
   ],
   "note": "Finite thresholds; p any double that is not NaN (see C52). Tails are those of the rounded double 1 - x, as in the code."
  },
  {
   "property": "C21",
   "status": "proved",
   "theorems": [
    "C21_every_value_counted_once",
    "C21_deciles"
   ],
   "note": "Deciles are exact in real arithmetic for the ten bins used by every report; for other bin counts each value is counted once but the bin edges are those of the rounded quotient p/(1/nbins)."
  },
  {
   "property": "C22",
   "status": "proved",
   "theorems": [
    "C22_bundling",
    "C22_counts_conserved"
   ],
   "note": "Chi-square, degrees of freedom and cells used are given exactly (same double operations in the same order); totals of observed counts are conserved exactly."
  },
  {
   "property": "C23",
   "status": "proved",
   "theorems": [
    "C23_cyclic",
    "C23_rewinds"
   ],
   "note": "For every well-formed file (comments, the three header lines in any order, integer, octal, hexadecimal or binary data lines, anything after them) and every number of reads below 2^63."
  },
  {
   "property": "C24",
   "status": "partial",
   "theorems": [
    "C24_cyclic",
    "C24_small_refuted",
    "C24_second_refuted"
   ],
   "note": "Refuted as stated: files of fewer than 16 words are refused (C24_small_refuted) and only the first generator of the process knows the length and wraps (C24_second_refuted). C24_cyclic proves the property for the first generator and every file of at least 16 complete words, including lengths that are not multiples of 4."
  },
  {
   "property": "C25",
   "status": "partial",
   "theorems": [
    "C25_uint",
    "C25_binary",
    "C25_large_refuted"
   ],
   "note": "Proved for 1 to 2^31-1 numbers in ASCII (C25_uint) and for the binary format (C25_binary, at least 16 numbers). Refuted beyond: from 2^31 numbers on the header's count overflows atoi (C25_large_refuted)."
  },
  {
   "property": "C26",
   "status": "partial",
   "theorems": [
    "C26_fields",
    "C26_split",
    "C26_strings",
    "C26_long_refuted"
   ],
   "note": "Refuted as stated: a field of 128 or more characters is not terminated, so the string found in its place runs on into the next field (C26_long_refuted). Everything else is proved for every line."
  },
  {
   "property": "C27",
   "status": "proved",
   "theorems": [
    "C27_width"
   ],
   "note": "C27_width: for every 32-bit maximum the loop terminates with the number of significant bits and the mask 2^bits-1."
  },
  {
   "property": "C28",
   "status": "partial",
   "theorems": [
    "C28_actual",
    "C28_refuted",
    "C28_alone_refuted"
   ],
   "note": "Refuted as stated: every output takes two successive draws of the first component (C28_actual gives the exact stream for every number of components); C28_refuted; with no component the generator is used unallocated (C28_alone_refuted)."
  },
  {
   "property": "C29",
   "status": "partial",
   "theorems": [
    "C29_ca",
    "C29_aes",
    "C29_threefish",
    "C29_XOR",
    "C29_kiss",
    "C29_superkiss_refuted",
    "C29_superkiss_bound",
    "C29_uvag",
    "C29_dev_random",
    "C29_dev_random_refuted",
    "C29_R"
   ],
   "note": "Proved for XOR, kiss, uvag, AES_OFB, Threefish_OFB, the cellular automaton and the six R generators (every seed and history; the R generators never return the declared maximum); refuted for superkiss (first output exceeds UINT_MAX for every seed; bounded by 3*2^32) and for the device generators (eight bytes are read into an unsigned long declared 32 bits wide)."
  },
  {
   "property": "C30",
   "status": "partial",
   "theorems": [
    "C30_ca_ignored",
    "C30_ca_refuted",
    "C30_aes",
    "C30_threefish",
    "C30_kiss",
    "C30_superkiss",
    "C30_uvag_refuted",
    "C30_uvag_reset_partial",
    "C30_R_any",
    "C30_R"
   ],
   "note": "Proved for kiss, superkiss, AES_OFB, Threefish_OFB and the six R generators (C30_R_any: whatever the shared static array held) for every history. Refuted for uvag (bits left over in the shared buffer; C30_uvag_reset_partial: reproducible when the bit buffers are reset before seeding) and for the cellular automaton (C30_ca_ignored: the seed given is ignored; C30_ca_refuted: reseeding never reproduces the first 514 numbers)."
  },
  {
   "property": "C31",
   "status": "proved",
   "theorems": [
    "C31_schedule",
    "C31_encrypt",
    "C31_decrypt",
    "C31_roundtrip",
    "C31_ofb"
   ],
   "note": "All three key sizes; encryption, decryption, round trip and the OFB generator. FIPS 197 is transcribed in AesSpec.v; the lookup tables are copied literally from the source."
  },
  {
   "property": "C32",
   "status": "proved",
   "theorems": [
    "C32_reference",
    "C32_unrolled",
    "C32_agree",
    "C32_permutation",
    "C32_rotation",
    "C32_zero_count"
   ],
   "note": "Both implementations equal the Threefish-512 of the Skein 1.1 paper (ThreefishSpec.v) on any number of blocks, and that function is a bijection of blocks."
  },
  {
   "property": "C33",
   "status": "partial",
   "theorems": [
    "C33_exact",
    "C33_isolated_partial",
    "C33_undercount_refuted",
    "C33_overrun_refuted"
   ],
   "note": "Refuted as stated: after a repeated spacing the loop skips the first element of the next group (C33_undercount_refuted) and runs past the array when the largest spacing is repeated (C33_overrun_refuted). C33_exact gives the value for every sample; C33_isolated_partial covers the samples where the claim holds."
  },
  {
   "property": "C34",
   "status": "proved",
   "theorems": [
    "C34_kperm",
    "C34_all_numbers"
   ],
   "note": "Distinct values below 2^31; index in 0..119, equal iff same relative order, all 120 taken. Larger values: see C54."
  },
  {
   "property": "C35",
   "status": "partial",
   "theorems": [
    "C35_opso",
    "C35_oqso",
    "C35_dna",
    "C35_bitstream",
    "C35_counter_wraps_refuted",
    "C35_dna_exact",
    "C35_bitstream_exact"
   ],
   "note": "Refuted as stated for DNA and bitstream: their char counters wrap, so a word that occurs a multiple of 256 times counts as missing (C35_counter_wraps_refuted); the exact count is characterised by C35_dna_exact and C35_bitstream_exact. OPSO and OQSO are proved in full."
  },
  {
   "property": "C36",
   "status": "proved",
   "theorems": [
    "C36_stream",
    "C36_byte",
    "C36_totals"
   ],
   "note": "Generator results below 2^32."
  },
  {
   "property": "C37",
   "status": "proved",
   "theorems": [
    "C37_runs"
   ],
   "note": "The tables are characterised exactly, at both ends."
  },
  {
   "property": "C38",
   "status": "proved",
   "theorems": [
    "C38_craps",
    "C38_only_craps"
   ],
   "note": "Dice in 1..6 (what gsl_rng_uniform_int(rng,6) promises). C38_craps: decided games are counted exactly; C38_only_craps: if the test returns, the games were decided. Termination: C57."
  },
  {
   "property": "C39",
   "status": "proved",
   "theorems": [
    "C39_euclid",
    "C39_tables"
   ],
   "note": "Numbers below 2^32 from get_rand_bits_uint as a stream; the table size (uint)sqrt(...) is a parameter."
  },
  {
   "property": "C40",
   "status": "proved",
   "theorems": [
    "C40_monobit",
    "C40_countx"
   ],
   "note": "SWAR counters equal a recursive bit count for every word."
  },
  {
   "property": "C41",
   "status": "partial",
   "theorems": [
    "C41_frequencies_partial",
    "C41_wrap_refuted"
   ],
   "note": "Refuted as stated for 2^27 words and more: the number of windows wraps (C41_wrap_refuted). Proved for every shorter list of words."
  },
  {
   "property": "C42",
   "status": "partial",
   "theorems": [
    "C42_runs_partial",
    "C42_overflow_refuted"
   ],
   "note": "Refuted as stated from 2^31 bits on: the int loop counter overflows (C42_overflow_refuted, for every generator). Proved for every shorter bit string and every width."
  },
  {
   "property": "C43",
   "status": "proved",
   "theorems": [
    "C43_histograms",
    "C43_conservation",
    "C43_limits"
   ],
   "note": "The full histograms are characterised; conservation follows. Sizes 0 and >= 32: C43_limits."
  },
  {
   "property": "C44",
   "status": "proved",
   "theorems": [
    "C44_all_pairs",
    "C44_rgb",
    "C44_2d",
    "C44_3d"
   ],
   "note": "C44_all_pairs: early exit = all pairs, including the rounding of subtraction, squares, sums and root. C44_2d, C44_rgb, C44_3d: the value found is the least exact distance up to 2^-49, from ten points on in the plane and more than 3^d points in dimension d. gsl_heapsort is a parameter with its contract."
  },
  {
   "property": "C45",
   "status": "partial",
   "theorems": [
    "C45_listing",
    "C45_default_fields",
    "C45_flags",
    "C45_accepted",
    "C45_refused",
    "C45_name_refuted",
    "C45_twice_refuted",
    "C45_default_twice_refuted"
   ],
   "note": "Refuted as stated: the listed field file_rng_stat cannot be given by name (C45_name_refuted), and a field requested twice (or again after default) switches on a different field (C45_twice_refuted, C45_default_twice_refuted). For every accepted command line whose requests do not repeat a field, C45_flags gives exactly the union of the requested fields, also on top of default; C45_accepted and C45_refused say which arguments are accepted; C45_listing and C45_default_fields tie the field list to the program's -F listing."
  },
  {
   "property": "C46",
   "status": "partial",
   "theorems": [
    "C46_run_all",
    "C46_all_tests",
    "C46_user_refuted"
   ],
   "note": "Refuted as stated for tests registered by a user interface (C46_user_refuted: number 600 is never executed). C46_run_all: for every table and every user ntuple exactly the specified schedule is executed, in order, up to the test that ends the program, and ntuple is restored; C46_all_tests: with the program's table every registered test is executed."
  },
  {
   "property": "C47",
   "status": "partial",
   "theorems": [
    "C47_filltree_partial",
    "C47_zeros_refuted",
    "C47_stuck_refuted",
    "C47_few_refuted"
   ],
   "note": "Refuted as stated: zero words are not stored in the tree, so a tree can take more than 20 words and the counter index leaves its table (C47_zeros_refuted); a generator stuck at zero ends the test with one p-value unset (C47_stuck_refuted); tsamples < 4 divides by zero. For nonzero words, 7 <= width < 32 and tsamples >= 4 the test is in bounds and counts exactly the search trees grown from consecutive rotated words (C47_filltree_partial). The statement for dab_filltree2 is C73."
  },
  {
   "property": "C48",
   "status": "partial",
   "theorems": [
    "C48_rotation_partial",
    "C48_injective_partial",
    "C48_undefined_refuted",
    "C48_filltree_refuted",
    "C48_dct_refuted",
    "C48_dct_partial",
    "C48_dct_few_refuted"
   ],
   "note": "Refuted as stated: with a 32-bit generator the rotation by 0 shifts by 32, so the first sample of every run is undefined; dab_dct with 2 or 3 samples divides by zero. Where the shift counts are in range the macro is a rotation and injective, and the DCT test uses the four quarter turns for a quarter of the samples each (width < 32, tsamples a multiple of 4)."
  },
  {
   "property": "C49",
   "status": "partial",
   "theorems": [
    "C49_rand_bits_uint_reset_refuted"
   ],
   "note": "Refuted as stated: C49_rand_bits_uint_reset_refuted."
  },
  {
   "property": "C50",
   "status": "partial",
   "theorems": [
    "C50_default_mode",
    "C50_request_honoured_refuted"
   ],
   "note": "Refuted as stated: the Xoff cap of add_2_test applies in the default mode too, so -p 200000 gives 100000 p-values. C50_default_mode gives min(psamples, Xoff) in general."
  },
  {
   "property": "C51",
   "status": "partial",
   "theorems": [
    "C51_clear_test",
    "C51_scaled_below_one_refuted"
   ],
   "note": "Refuted as stated when the default scaled by -m rounds to zero (create_test uses 1, clear_test 0); proved otherwise."
  },
  {
   "property": "C52",
   "status": "partial",
   "theorems": [
    "C52_nan_reported_passed_refuted",
    "C52_nan_histogram_refuted"
   ],
   "note": "Refuted as stated: NaN is reported PASSED for all thresholds (C52_nan_reported_passed_refuted) and makes the histogram convert NaN to int, which is undefined (C52_nan_histogram_refuted)."
  },
  {
   "property": "C53",
   "status": "partial",
   "theorems": [
    "C53_tail_dropped_refuted",
    "C53_ndof_wraps_refuted",
    "C53_not_repeatable_refuted"
   ],
   "note": "Refuted as stated: a tail that stays below the cutoff is dropped from the total, with no cell reaching the cutoff ndof wraps to 2^32-1, and a second evaluation counts small cells twice because the vector is modified in place. C22 characterises what is computed."
  },
  {
   "property": "C54",
   "status": "partial",
   "theorems": [
    "C54_full_range_order_refuted",
    "C54_signed_order"
   ],
   "note": "Refuted as stated: kperm copies into int, so values of 2^31 and more compare as negative. C54_signed_order gives the order actually compared, for all 32-bit values."
  },
  {
   "property": "C55",
   "status": "proved",
   "theorems": [
    "C55_operm5_counts"
   ],
   "note": "Counters are exact naturals (doubles below 2^53 in the code)."
  },
  {
   "property": "C56",
   "status": "partial",
   "theorems": [
    "C56_closing_step_refuted"
   ],
   "note": "Refuted as stated: a rising sequence leaves no rising run in the table (for every rising sequence)."
  },
  {
   "property": "C57",
   "status": "partial",
   "theorems": [
    "C57_periodic_finishes",
    "C57_always_finishes_refuted"
   ],
   "note": "Refuted as stated for arbitrary generators; C57_periodic_finishes proves termination for every generator that is periodic from the start."
  },
  {
   "property": "C58",
   "status": "partial",
   "theorems": [
    "C58_second_call_refuted",
    "C58_small_run_refuted"
   ],
   "note": "Refuted as stated: a first call with fewer than 165 samples keeps an empty table that later calls overrun, and counts no gcd at all. C39_tables covers calls whose table has the size in use."
  },
  {
   "property": "C59",
   "status": "partial",
   "theorems": [
    "C59_zero_stream_refuted"
   ],
   "note": "Refuted as stated: a generator stuck at zero makes the draw-until-nonzero loop endless. C39_tables covers streams with nonzero values."
  },
  {
   "property": "C60",
   "status": "proved",
   "theorems": [
    "C60_ntuple_from_uint",
    "C60_ntuple_from_whole_uint"
   ],
   "note": ""
  },
  {
   "property": "C61",
   "status": "partial",
   "theorems": [
    "C61_overlapping_words_refuted",
    "C61_bitstream_overlaps"
   ],
   "note": "Refuted as stated: the words of OPSO, OQSO and DNA do not overlap; only those of bitstream do (C61_bitstream_overlaps)."
  },
  {
   "property": "C62",
   "status": "partial",
   "theorems": [
    "C62_many_samples_refuted"
   ],
   "note": "Refuted as stated: from 8388641 samples on bitstream reads past its buffer; C35_bitstream covers up to 8388640."
  },
  {
   "property": "C63",
   "status": "proved",
   "theorems": [
    "C63_opso2"
   ],
   "note": ""
  },
  {
   "property": "C64",
   "status": "partial",
   "theorems": [
    "C64_mask_set_up_refuted"
   ],
   "note": "Refuted as stated: the last mask is computed as 1<<31 in int, which is undefined."
  },
  {
   "property": "C65",
   "status": "proved",
   "theorems": [
    "C65_expected",
    "C65_sum"
   ],
   "note": "Exact rationals stand for the doubles of the code."
  },
  {
   "property": "C66",
   "status": "proved",
   "theorems": [
    "C66_histogram"
   ],
   "note": "A sample is assumed to be counted without reading past the array (see C33). The bound kmax depends on gsl_ran_poisson_pdf and is a parameter."
  },
  {
   "property": "C67",
   "status": "partial",
   "theorems": [
    "C67_statistic_partial",
    "C67_wrap_refuted"
   ],
   "note": "Refuted as stated: the number of bits is kept in 32 bits and wraps (C67_wrap_refuted). Proved whenever width*tsamples < 2^32."
  },
  {
   "property": "C68",
   "status": "partial",
   "theorems": [
    "C68_blocks",
    "C68_first_block_refuted",
    "C68_regions_overlap_refuted"
   ],
   "note": "Refuted as stated: the first block of every size >= 4 has 2^j+1 words, and an all-ones block is counted in the next size's zero cell. C68_blocks gives the exact contents of the table and shows that every access is inside it."
  },
  {
   "property": "C69",
   "status": "partial",
   "theorems": [
    "C69_bytes_partial",
    "C69_narrow_refuted"
   ],
   "note": "Refuted as stated for generators of fewer than 8 bits: every run shifts by more than 31 (C69_narrow_refuted). Proved for widths 8 to 32."
  },
  {
   "property": "C70",
   "status": "partial",
   "theorems": [
    "C70_permutations",
    "C70_large_refuted"
   ],
   "note": "Refuted as stated for 13 and more: k! does not fit an unsigned int (C70_large_refuted). Proved for sizes up to 12."
  },
  {
   "property": "C71",
   "status": "proved",
   "theorems": [
    "C71_persist"
   ],
   "note": ""
  },
  {
   "property": "C72",
   "status": "proved",
   "theorems": [
    "C72_lagged"
   ],
   "note": "For an arbitrary addition, in particular the rounded one."
  },
  {
   "property": "C73",
   "status": "proved",
   "theorems": [
    "C73_filltree2",
    "C73_filltree2_bits"
   ],
   "note": "In bounds, no early return and conservation for every stream and width; result depends only on the LSB-first bit stream."
  },
  {
   "property": "C74",
   "status": "partial",
   "theorems": [
    "C74_seed_distinct_partial",
    "C74_seed_high_refuted"
   ],
   "note": "Refuted as stated: only the low 33 bits of the seed reach the key (C74_seed_high_refuted); below 2^33 seeds are kept apart."
  },
  {
   "property": "C75",
   "status": "proved",
   "theorems": [
    "C75_stream",
    "C75_seed_distinct"
   ],
   "note": "Seeding, stream and separation of seeds, for every 64-bit seed."
  },
  {
   "property": "C76",
   "status": "partial",
   "theorems": [
    "C76_leak_refuted",
    "C76_raw"
   ],
   "note": "Refuted for file_input, whose fclose is commented out (C76_leak_refuted); proved for file_input_raw (C76_raw)."
  },
  {
   "property": "C77",
   "status": "partial",
   "theorems": [
    "C77_float_refuted"
   ],
   "note": "Refuted: (uint) f*UINT_MAX casts before multiplying, so every deviate in [0,1) is read as 0 (C77_float_refuted)."
  },
  {
   "property": "C78",
   "status": "partial",
   "theorems": [
    "C78_blank_refuted",
    "C78_text"
   ],
   "note": "Refuted: for a blank line sscanf returns EOF, not 0, and the uninitialised iret is returned (C78_blank_refuted). C78_text proves rejection of lines starting with another character."
  },
  {
   "property": "C79",
   "status": "proved",
   "theorems": [
    "C79_alive",
    "C79_period"
   ],
   "note": "C79_alive and C79_period, by computing with the shift register as a matrix over GF(2) and the factorisation of 2^32-1."
  },
  {
   "property": "C80",
   "status": "partial",
   "theorems": [
    "C80_short_refuted",
    "C80_period",
    "C80_no_repeat"
   ],
   "note": "Refuted as stated: the register has period exactly 306706140 (C80_period, C80_short_refuted); it does not repeat earlier (C80_no_repeat)."
  },
  {
   "property": "C81",
   "status": "partial",
   "theorems": [
    "C81_R",
    "C81_closed",
    "C81_distinct",
    "C81_kiss_refuted",
    "C81_device_refuted"
   ],
   "note": "Refuted as stated: C81_closed shows the number lies in [0,1] and is exactly 1 for the largest output; C81_kiss_refuted exhibits it; device generators exceed 1 (C81_device_refuted). C81_distinct: different outputs give different numbers. C81_R: the R generators stay strictly between 0 and 1."
  },
  {
   "property": "C82",
   "status": "proved",
   "theorems": [
    "C82_ca_seeds"
   ],
   "note": "C82_ca_seeds: the sequences differ within the first 514 numbers, for all pairs of 32-bit seeds, because each automaton step can be undone."
  },
  {
   "property": "C83",
   "status": "proved",
   "theorems": [
    "C83_twister"
   ],
   "note": "Every seed and history; the MT19937 recurrence and tempering are written independently in RSpec.v."
  },
  {
   "property": "C84",
   "status": "partial",
   "theorems": [
    "C84_same_refuted"
   ],
   "note": "Refuted as stated: C84_same_refuted shows both return the same integers and the same doubles for every seed (and which: one lagged Fibonacci sequence, the first hundred of every 1009 words, less one)."
  },
  {
   "property": "C85",
   "status": "partial",
   "theorems": [
    "C85_upper_refuted",
    "C85_lower_refuted",
    "C85_exact"
   ],
   "note": "Refuted as stated: for seed 500990680 every number is at least 4294901759, for seed 2267926323 the low half is constant; C85_exact: these and 2374165890, 2480405457 are all the seeds for which a half stops changing."
  },
  {
   "property": "C86",
   "status": "partial",
   "theorems": [
    "C86_shared_refuted",
    "C86_overrun_refuted"
   ],
   "note": "Refuted as stated: C86_shared_refuted (after seeding another generator whose state covers it, a generator's numbers no longer depend on its own seed, for every pair with n_seed k <= n_seed k'), C86_overrun_refuted (drawing from the Mersenne twister after seeding multicarry reads before the state array)."
  },
  {
   "property": "C87",
   "status": "proved",
   "theorems": [
    "C87_period"
   ],
   "note": "Exact period of the state for every seed."
  },
  {
   "property": "C88",
   "status": "partial",
   "theorems": [
    "C88_by_number",
    "C88_by_name",
    "C88_every_test",
    "C88_garbage_refuted",
    "C88_last_refuted"
   ],
   "note": "Refuted as stated: a number followed by other characters is taken as the number (C88_garbage_refuted) and a name after a number is ignored (C88_last_refuted). Proved: the number given last (C88_by_number), the name given last when only names are given (C88_by_name), and every registered test is reachable by its name (C88_every_test)."
  },
  {
   "property": "C89",
   "status": "partial",
   "theorems": [
    "C89_samples",
    "C89_samples_refuted",
    "C89_settings"
   ],
   "note": "Refuted for -t from 2^31 on: the value is reduced modulo 2^32 or replaced by the default (C89_samples_refuted, for all such n below 2^63). Proved below 2^31 (C89_samples) and for the other settings below 2^32 (C89_settings)."
  },
  {
   "property": "C90",
   "status": "partial",
   "theorems": [
    "C90_safe",
    "C90_generators_refuted",
    "C90_seeds_refuted"
   ],
   "note": "Refuted as stated: the 101st -g or -S writes past the end of a table (C90_generators_refuted, C90_seeds_refuted, for all arguments). C90_safe: with at most 100 of each nothing undefined happens, whatever the other options."
  },
  {
   "property": "C91",
   "status": "partial",
   "theorems": [
    "C91_combined_refuted",
    "C91_seeds_refuted"
   ],
   "note": "Refuted: the generator tested is always the one the first -g alone selects (C91_combined_refuted, for all command lines), and what is stored as the seed of a generator is its number (C91_seeds_refuted)."
  },
  {
   "property": "C92",
   "status": "partial",
   "theorems": [
    "C92_reload_partial",
    "C92_twice_refuted",
    "C92_overrun_refuted"
   ],
   "note": "Refuted: from the 34th call tests run twice (C92_twice_refuted), from the 67th run_all_tests reads past the table (C92_overrun_refuted), because two of the counters are not reset. C92_reload_partial: up to 33 calls change nothing."
  },
  {
   "property": "C93",
   "status": "partial",
   "theorems": [
    "C93_dimension_refuted",
    "C93_safe"
   ],
   "note": "Refuted as stated: C93_dimension_refuted (ntuple above 5 writes outside the point, ntuple 0, the default of -d 201, reads coordinates never set). C93_safe: dimensions 1 to 5 are safe."
  },
  {
   "property": "C94",
   "status": "partial",
   "theorems": [
    "C94_start_refuted"
   ],
   "note": "Refuted as stated: C94_start_refuted (two points at opposite corners: both tests report the side of the square, their starting value). With more than 3^d points the value is the least distance: C44_2d, C44_rgb."
  },
  {
   "property": "C95",
   "status": "proved",
   "theorems": [
    "C95_sequence"
   ],
   "note": "For every seed there are sequences obeying the three recurrences, and every run of n draws returns their sums (as unsigned long, not reduced modulo 2^32, see C29/C80)."
  },
  {
   "property": "C96",
   "status": "proved",
   "theorems": [
    "C96_order"
   ],
   "note": "Stated over IEEE doubles; pow and exp are arbitrary functions of their bits; equality of the verdicts includes the undefined and non-ending ones."
  },
  {
   "property": "C97",
   "status": "partial",
   "theorems": [
    "C97_bounds",
    "C97_refuted"
   ],
   "note": "Refuted as stated (C97_refuted): for 1/4, 1/2, 3/4 the statistic is 0 while the distance is 1/4. C97_bounds: it is the largest |p_i - i/(n+1)| up to 2^-52, and never exceeds the distance nor falls short of it by more than 1/(n+1), up to 2^-52."
  },
  {
   "property": "C98",
   "status": "proved",
   "theorems": [
    "C98_exact",
    "C98_verdict",
    "C98_quick"
   ],
   "note": "Proved with real numbers in place of doubles (the code is modelled once, over a record of arithmetic operations); rounding errors of the matrix power are not bounded. C98_quick: everywhere else the approximation published with the formula is returned, below 1/64."
  },
  {
   "property": "C99",
   "status": "partial",
   "theorems": [
    "C99_refuted"
   ],
   "note": "Refuted as stated (C99_refuted): with the default -k 0 and any number of at least 5000 p-values at i/(n+1) the verdict is 2, the alternating series being cut off at its first term."
  },
  {
   "property": "C100",
   "status": "partial",
   "theorems": [
    "C100_refuted",
    "C100_many_refuted"
   ],
   "note": "Refuted as stated: when all p-values are NaN the verdict is exactly 1 (C100_refuted), or 2 for 5000 or more of them with -k 0 (C100_many_refuted)."
  },
  {
   "property": "C101",
   "status": "partial",
   "theorems": [
    "C101_safe",
    "C101_refuted"
   ],
   "note": "Refuted as stated (C101_refuted): with -k 2 and 23200 or more p-values equal to 0 the dimension m*m overflows an int. C101_safe: with -k 0 always, with any other setting but 2 up to fifteen million p-values, and with -k 2 up to 23169, the test ends normally. Other settings above fifteen million are open."
  },
  {
   "property": "C102",
   "status": "partial",
   "theorems": [
    "C102_refuted"
   ],
   "note": "Refuted as stated (C102_refuted): for the p-values 0, 1/n, ..., (n-1)/n, for every n from 2 on, the loop runs for at least 2^53 rounds."
  },
  {
   "property": "C103",
   "status": "proved",
   "theorems": [
    "C103_series"
   ],
   "note": "Proved with real numbers in place of doubles, for a positive statistic (C99 shows what happens at 0)."
  },
  {
   "property": "C104",
   "status": "partial",
   "theorems": [
    "C104_bounds",
    "C104_series",
    "C104_refuted"
   ],
   "note": "Refuted as stated (C104_refuted): for the p-values 0 and 1/2 the statistic is 0 instead of 1/2, because the rise is measured at i/n instead of (i+1)/n. C104_bounds: the statistic never exceeds Kuiper's and falls short by at most 1/n, up to 2^-50. C104_series: the verdict is the two series summed with doubles until they settle."
  },
  {
   "property": "C105",
   "status": "proved",
   "theorems": [
    "C105_pearson",
    "C105_poisson",
    "C105_geometric",
    "C105_rounding",
    "C105_rounding_poisson",
    "C105_rounding_vtest"
   ],
   "note": "Real-number reading: exact equality with Pearson's statistic for the three tests (C105_pearson, C105_poisson, C105_geometric). Double reading: relative error bound and finiteness (C105_rounding, C105_rounding_poisson, C105_rounding_vtest), for counts up to 2^32 and expected values between 2^-100 and 2^40. gsl_sf_gamma_inc_Q and the densities are parameters."
  },
  {
   "property": "C106",
   "status": "partial",
   "theorems": [
    "C106_bins",
    "C106_blind",
    "C106_refuted"
   ],
   "note": "Refuted as stated: bins are selected by the observed, not the expected count, so bins hit at most ten times are ignored whatever is expected there (C106_blind), and a table with ten hits in every bin fits every law, with 2^32-1 degrees of freedom (C106_refuted). C106_bins says what is computed."
  },
  {
   "property": "C107",
   "status": "partial",
   "theorems": [
    "C107_gtest",
    "C107_sign",
    "C107_refuted"
   ],
   "note": "Refuted as stated: with 46341 or more bins the correction overflows an int (C107_refuted). Up to 46340 bins C107_gtest gives the formula and C107_sign the sign and the zeros."
  },
  {
   "property": "C108",
   "status": "partial",
   "theorems": [
    "C108_independence",
    "C108_refuted"
   ],
   "note": "Refuted as stated: an empty row makes the statistic NaN (C108_refuted). C108_independence is the real-number reading for all tables with sum below 2^32."
  },
  {
   "property": "C109",
   "status": "partial",
   "theorems": [
    "C109_overlapping",
    "C109_values",
    "C109_marsaglia",
    "C109_refuted",
    "C109_first"
   ],
   "note": "Refuted as stated: C109_overlapping and C109_values prove what the program computes for every m >= 2 (the scaled overlapping sums, then Marsaglia's first three values and, from the fourth on, a formula with y[t-2] in the place of y[0]); C109_marsaglia proves that the formula left in the comment gives the identity covariance matrix; C109_refuted proves that the program's value t >= 3 has covariance -(t-2)/sqrt(2a(a-1)m) with the first value and variance 1+(t-2)/(a(a-1)), a = 2m+1-t. Exact arithmetic; rounding is not bounded."
  },
  {
   "property": "C110",
   "status": "partial",
   "theorems": [
    "C110_refuted",
    "C110_deviates",
    "C110_safe"
   ],
   "note": "Refuted as stated: C110_refuted proves that 0 or 1 samples index outside the arrays; C110_safe and C110_deviates prove the rest: for 2 to 2^31-1 samples (as far as the KS test itself is safe, C101) there is a verdict, and it depends on the first 2m-1 deviates only."
  },
  {
   "property": "C111",
   "status": "proved",
   "theorems": [
    "C111_counts",
    "C111_zero",
    "C111_step",
    "C111_exact"
   ],
   "note": "C111_counts proves the table for all deviates and sample counts; C111_step and C111_exact say when the rounded product makes a step differ (by one, for a product just above an integer; never once k <= 2^21 and deviates are n/2^32), with an example where it does; C111_zero: a deviate 0 makes the sample count as 48."
  },
  {
   "property": "C112",
   "status": "proved",
   "theorems": [
    "C112_step",
    "C112_table",
    "C112_sum",
    "C112_expected"
   ],
   "note": "C112_table bounds the difference between each entry and the exact probability by 1.2e-8 (the table has 8 decimals), by Newton's identities for the complete symmetric functions of 1/2..1/(2^31-1) and interval arithmetic inside Coq; C112_sum: the entries add up to exactly 1; C112_step: a uniform deviate gives each value with the same probability. The start is 2^31-1, as in the code."
  },
  {
   "property": "C113",
   "status": "proved",
   "theorems": [
    "C113_law",
    "C113_table_32x32",
    "C113_table_6x8",
    "C113_counts_32x32",
    "C113_counts_6x8",
    "C113_expected_32x32",
    "C113_expected_6x8"
   ],
   "note": "C113_law is the textbook count of m x n bit matrices of rank r, C113_table_* show every table entry to be the correctly rounded proportion of inputs that the program itself counts in that cell, C113_expected_* carry this to the doubles handed to Vtest_eval."
  },
  {
   "property": "C114",
   "status": "proved",
   "theorems": [
    "C114_mean",
    "C114_covariance",
    "C114_inverse",
    "C114_relations",
    "C114_no_more_relations",
    "C114_independent"
   ],
   "note": "Exact averages over all orderings, by counting linear extensions of overlapping windows; the matrix statements by certificates checked by the kernel. The description of the test still says rank 99; C114 shows that the rank is 96, as the code has it."
  },
  {
   "property": "C115",
   "status": "proved",
   "theorems": [
    "C115_overlapping",
    "C115_disjoint",
    "C115_pvalue"
   ],
   "note": "In exact arithmetic (the arithmetic of the statistic is a parameter of the model), with the table's decimal entries."
  },
  {
   "property": "C116",
   "status": "proved",
   "theorems": [
    "C116_expected"
   ],
   "note": "Every n >= 13; exact: the constant is 1/2, -1/6, -5/24, -11/120, -19/720, -1/144 for the six lengths."
  },
  {
   "property": "C117",
   "status": "proved",
   "theorems": [
    "C117_covariance",
    "C117_inverse"
   ],
   "note": "C117_covariance gives the covariances exactly (n RunCov + RunEnd) for every n >= 13; C117_inverse: every entry of the table is within 1/2 (within 1/20 below 10000) of the exact inverse."
  },
  {
   "property": "C118",
   "status": "partial",
   "theorems": [
    "C118_mean",
    "C118_mean_refuted",
    "C118_pvalues"
   ],
   "note": "Refuted as stated: C118_mean: the mean is exactly 16420650751/2724321600 + (3426216358303/311351040)/n, that is 6.0274 + 11004.35/n, because the ill-conditioned table is rounded (0.0274) and the last run is dropped half of the time (11004/n): 17 for a thousand numbers, 6.14 for the default (C118_mean_refuted). C118_pvalues: the statistics are compared with six degrees of freedom."
  },
  {
   "property": "C119",
   "status": "proved",
   "theorems": [
    "C119_opso",
    "C119_oqso",
    "C119_opso2_pair",
    "C119_opso2_single"
   ],
   "note": "Exact mean and variance for every number of words."
  },
  {
   "property": "C120",
   "status": "partial",
   "theorems": [
    "C120_opso",
    "C120_opso2",
    "C120_oqso_refuted",
    "C120_other_samples_refuted",
    "C120_pvalues"
   ],
   "note": "Refuted as stated: true for OPSO (to 0.0009) and both parts of OPSO2 (to 1e-13), false for OQSO, which divides by 294.66, the standard deviation for overlapping words, while its words do not overlap and the count deviates by 290.33: the statistic's mean square is 0.9708. With half a million samples or fewer (an option) the OPSO statistic is below -1300 on average."
  },
  {
   "property": "C121",
   "status": "partial",
   "theorems": [
    "C121_dna_mean",
    "C121_dna_refuted",
    "C121_dna_program"
   ],
   "note": "Refuted as stated: the mean is right to a fiftieth of sigma (C121_dna_mean), but the standard deviation is at most 293.42 while the test divides by 337.29, the value for overlapping words, so the statistic's mean square is at most 0.758 instead of 1 (C121_dna_refuted). The law is that of the words that do not occur; C121_dna_program shows that the program reports exactly that number whenever no word occurs 256 times (its cells are chars, see C35)."
  },
  {
   "property": "C122",
   "status": "proved",
   "theorems": [
    "C122_games",
    "C122_program"
   ],
   "note": "Product law of the results (C122_games: share of the 36^L roll sequences, exact count), and the program counts these games (C122_program, from C38)."
  },
  {
   "property": "C123",
   "status": "proved",
   "theorems": [
    "C123_throws",
    "C123_last",
    "C123_wins",
    "C123_win_moments"
   ],
   "note": "In exact arithmetic: the 20 single bins (C123_throws), the last bin as an infinite series (C123_last), the probability of winning 244/495 (C123_wins), mean and standard deviation of the number of wins in n games as limits over games of bounded length (C123_win_moments). pow is exact powers; rounding of the table is not covered."
  },
  {
   "property": "C124",
   "status": "proved",
   "theorems": [
    "C124_program",
    "C124_mean"
   ],
   "note": "C124_mean is about the same text read with real numbers; C124_program says that with doubles this text is the model of Vtest_eval. With every cell counted, or a bundled tail that reaches the cutoff, the mean is exactly the number of degrees of freedom; a dropped tail adds its probability (less than cutoff/n)."
  },
  {
   "property": "C125",
   "status": "partial",
   "theorems": [
    "C125_transform",
    "C125_direct",
    "C125_inverse",
    "C125_inverse_even",
    "C125_inverse_odd_refuted"
   ],
   "note": "Refuted as stated: iDCT2 (which the test does not call) divides by len/2 rounded down, so for odd lengths the result is too large by n/(n-1) (C125_inverse_odd_refuted; C125_inverse gives the result for every length from 2 on, C125_inverse_even the identity). C125_transform and C125_direct prove the part about the forward transform for all usable lengths."
  },
  {
   "property": "C126",
   "status": "proved",
   "theorems": [
    "C126_law"
   ],
   "note": "C126_law gives mean, variance and all covariances of the adjusted coefficients over all vectors; the factor sqrt(2), marked as a guess in the source, is confirmed. The standard deviation is that of the fallback method (dct_sd)."
  },
  {
   "property": "C127",
   "status": "proved",
   "theorems": [
    "C127_primary",
    "C127_fallback",
    "C127_test"
   ],
   "note": "C127_primary and C127_fallback characterise both methods for all vectors; C127_test puts them together with chisq_pearson and kstest. When the vectors can be read at all is C48."
  },
  {
   "property": "C128",
   "status": "proved",
   "theorems": [
    "C128_parked",
    "C128_count"
   ],
   "note": "Doubles modelled bit by bit (Flocq). The comparison of the rounded difference with 1.0 is the comparison of the exact difference with 1 + 2^-53."
  },
  {
   "property": "C129",
   "status": "proved",
   "theorems": [
    "C129_pvalue"
   ],
   "note": "The constants 3523 and 21.9 come from simulation (Marsaglia) and have no closed form; they are not judged."
  },
  {
   "property": "C130",
   "status": "proved",
   "theorems": [
    "C130_program",
    "C130_independent",
    "C130_slots",
    "C130_complete",
    "C130_table"
   ],
   "note": "Over all bit strings (CoinSpec counts strings of fixed length); the program reads whole words, so the bits are those of the words' low w bits. Table entries are taken as exact decimals."
  },
  {
   "property": "C131",
   "status": "proved",
   "theorems": [
    "C131_bins",
    "C131_pvalues",
    "C131_mean",
    "C131_default"
   ],
   "note": "Exact real arithmetic; the incomplete gamma function Q and the logarithm are parameters of the model (Q stays abstract, ln is the real logarithm). Table entries are exact decimals."
  },
  {
   "property": "C132",
   "status": "partial",
   "theorems": [
    "C132_few_refuted",
    "C132_first_refuted"
   ],
   "note": "Refuted as stated: with at most 112 (second test) or 19 (first test) samples no bin expects four trees, the number of bins is a negative unsigned difference and the chi-square routine indexes with it (C132_few_refuted, C132_first_refuted). From 113 and 20 samples on C131 and C134 give the p-values."
  },
  {
   "property": "C133",
   "status": "proved",
   "theorems": [
    "C133_table",
    "C133_eleven",
    "C133_slots",
    "C133_sixteen",
    "C133_words",
    "C133_words_slots"
   ],
   "note": "Table entries are exact decimals. Rotations that the C standard leaves undefined (C48) are excluded; the generator continues with ones after the 16 words, which matters only on the sequences counted in 136/2^w."
  },
  {
   "property": "C134",
   "status": "proved",
   "theorems": [
    "C134_bins",
    "C134_pvalues"
   ],
   "note": "Exact real arithmetic; the incomplete gamma function is a parameter. Generators of 32 bits make an undefined shift in the first tree (C48), zero words can overrun the counters (C47)."
  },
  {
   "property": "C135",
   "status": "proved",
   "theorems": [
    "C135_stream",
    "C135_byte",
    "C135_stream_mean",
    "C135_byte_mean",
    "C135_few"
   ],
   "note": "Exact arithmetic. The cells' cutoff needs 79280 samples so that every cell of five letters expects at least five; with fewer, Vtest bundles cells and the difference no longer has mean 2500 (C124 covers Vtest)."
  },
  {
   "property": "C136",
   "status": "proved",
   "theorems": [
    "C136_pvalues",
    "C136_means",
    "C136_pearson"
   ],
   "note": "Exact arithmetic; the normal and incomplete gamma functions are parameters. From 2^27 words on the count wraps (C41)."
  },
  {
   "property": "C137",
   "status": "proved",
   "theorems": [
    "C137_pvalue",
    "C137_moments"
   ],
   "note": "Exact arithmetic; the normal distribution function is a parameter. From 2^32 bits on the count of bits wraps (C67)."
  },
  {
   "property": "C138",
   "status": "proved",
   "theorems": [
    "C138_pvalue",
    "C138_moments",
    "C138_constant"
   ],
   "note": "Exact arithmetic; the normal distribution function is a parameter. The bias of 1/2 is 0.0006 sigma at the default of 100000 words. From 2^31 bits on the behaviour is undefined (C42)."
  },
  {
   "property": "C139",
   "status": "proved",
   "theorems": [
    "C139_unseen",
    "C139_mean",
    "C139_pvalue",
    "C139_few"
   ],
   "note": "Proved over all sequences. The deviation 428 itself is not proved. The variable overlap is local and always 1, so the non-overlapping branch is dead code and is not modelled."
  },
  {
   "property": "C140",
   "status": "partial",
   "theorems": [
    "C140_file",
    "C140_file_refuted"
   ],
   "note": "Refuted as stated: of a name of more than 128 characters only the first 128 are kept, without a message, although the variable holds 1023 (C140_file_refuted). Proved for names of up to 128 characters (C140_file)."
  },
  {
   "property": "C141",
   "status": "partial",
   "theorems": [
    "C141_by_number",
    "C141_by_name",
    "C141_default",
    "C141_garbage_refuted"
   ],
   "note": "Refuted as stated: a number followed by other characters is accepted as that number (C141_garbage_refuted). Proved for numerals below 2^31 and for names of fewer than 20 characters (C141_by_number, C141_by_name) and for the default (C141_default)."
  },
  {
   "property": "C142",
   "status": "partial",
   "theorems": [
    "C142_pvalue",
    "C142_few",
    "C142_mean",
    "C142_variance",
    "C142_wide",
    "C142_narrow_refuted"
   ],
   "note": "Refuted as stated: below 24 bits the three bytes share bits and the variance is too large, three times too large at 8 bits (C142_narrow_refuted); with fewer than 1280 samples the p-value is constant (C142_few). Proved: the p-value (C142_pvalue), the mean (C142_mean), the variance for every width (C142_variance), which is that of chi-square from 24 bits on (C142_wide)."
  },
  {
   "property": "C143",
   "status": "partial",
   "theorems": [
    "C143_pvalue",
    "C143_moments",
    "C143_own",
    "C143_gsl",
    "C143_narrow_refuted"
   ],
   "note": "Refuted as stated: C143_moments gives the mean and variance for words of w bits divided by any d. C143_own: for 32-bit words divided by 2^32-1 (dieharder's own generators) the mean is exact and the variance right to the factor 1+2/(2^32-1). C143_gsl: for a divisor 2^w the mean is low by sqrt(3n)/2^w assumed standard deviations, the variance by the factor 1-4^-w. C143_narrow_refuted: files of numbers narrower than 32 bits are still divided by 2^32-1, so the sum is below n/2 whatever the numbers are, and by sqrt(3n)/2 standard deviations with at most 30 bits. C143_pvalue: the p-value is the Gaussian one of the difference, in exact arithmetic."
  },
  {
   "property": "C144",
   "status": "proved",
   "theorems": [
    "C144_variance",
    "C144_bounds",
    "C144_equal"
   ],
   "note": "In exact arithmetic (C124_program ties the text to the double version). C144_equal: for equally likely cells the variance is 2(k-1)(1-1/n). The lower bound is twice the degrees of freedom up to the factor 1-1/n; with the cutoff of 5 the excess is at most m/5."
  },
  {
   "property": "C145",
   "status": "partial",
   "theorems": [
    "C145_pvalue",
    "C145_few",
    "C145_different",
    "C145_mean",
    "C145_narrow_refuted"
   ],
   "note": "Refuted as stated: ties make the orders unequally likely. C145_different: for tuples without ties the mean is k!-1 and the variance 2(k!-1)(1-1/n). C145_mean: for all tuples the mean is k!-1+(n-1) k! u, where u is at most the square of k(k-1)/2^(w+1), negligible at 32 bits. C145_narrow_refuted: with few bits the mean is at least k!-1+(n-1)(k!/2^(wk)-1), for one bit and k=5 119+2.75(n-1). C145_pvalue: from 5 k! samples on the p-value is that of the statistic with k!-1 degrees of freedom; C145_few: below it does not depend on the numbers."
  },
  {
   "property": "C146",
   "status": "partial",
   "theorems": [
    "C146_binomial",
    "C146_pvalue",
    "C146_moments",
    "C146_same",
    "C146_few",
    "C146_rare_refuted"
   ],
   "note": "Refuted as stated: when all positive counts of a value together are expected less than 20 times (64 tsamples < 20 * 2^nb: ntuple 19 and more for the default 100000 samples, 12 for 1000) the statistic has one term and no degree of freedom, and the p-value is 0 for every sequence of draws (C146_rare_refuted, with gsl_sf_gamma_inc_Q(0,x) = 0 for x > 0); below 20 samples the p-value is constant (C146_few). Otherwise: the expected counts are exact (C146_binomial), the p-value is that of the chosen value's statistic (C146_pvalue), mean and variance of it are exact (C146_moments) and do not depend on the value (C146_same)."
  },
  {
   "property": "C147",
   "status": "partial",
   "theorems": [
    "C147_single_refuted",
    "C147_reverse",
    "C147_mean",
    "C147_tail",
    "C147_small",
    "C147_uniform",
    "C147_uniform_small",
    "C147_levels",
    "C147_limit",
    "C147_none_refuted",
    "C147_few_refuted"
   ],
   "note": "Refuted as stated: the reported value is upside down - a single p-value p is reported as 1-p (C147_single_refuted) - and dab_monobit2 with too few samples for one level (fewer than 404 for a 32-bit generator) chooses no level and reports p-value 0 for every generator (C147_none_refuted, C147_few_refuted). Proved: complements give complements, the mean is 1/2, the exact tail, the law is uniform up to r^2/2, with 1-15 levels the test is free of undefined behaviour and combines one Pearson p-value per level (bins with more than ten blocks), 16 and more levels exit. gsl_ran_binomial_pdf and gsl_sf_gamma_inc_Q are parameters; exact arithmetic."
  },
  {
   "property": "C148",
   "status": "partial",
   "theorems": [
    "C148_pvalue",
    "C148_blind_refuted",
    "C148_narrow_refuted",
    "C148_narrow_dab_refuted",
    "C148_mean",
    "C148_default"
   ],
   "note": "Refuted as stated: the number of bins is found by a search upwards from 1 that stops at the first bin of at most five expected samples, also below the Poisson law's peak; then only samples with 0 or 1 repeated spacings count, and if all have two or more the p-value is a constant (C148_blind_refuted): diehard_birthdays for generators of up to 22 bits with its 100 samples (C148_narrow_refuted), dab_birthdays1 up to 27 bits with its 2000 (C148_narrow_dab_refuted). Proved: the search ends and the p-value is Pearson's for the bins found (C148_pvalue), six bins with lambda 2 by default (C148_default), the mean of the statistic for every law of the counts (C148_mean). Samples are counted as the program counts them (C33). Exact arithmetic; gsl_ran_poisson_pdf is the Poisson law; gsl_sf_gamma_inc_Q is a parameter."
  },
  {
   "property": "C149",
   "status": "proved",
   "theorems": [
    "C149_hash",
    "C149_period",
    "C149_nonzero",
    "C149_next"
   ],
   "note": "The starting value is that of the source; fwrite is modelled by the number of values it accepts. The length of the period is not computed, only bounded by 2^32-1."
  },
  {
   "property": "C150",
   "status": "partial",
   "theorems": [
    "C150_reproducible",
    "C150_replay",
    "C150_row_alone",
    "C150_row_seeds",
    "C150_whole_words_tidy",
    "C150_left_over",
    "C150_pieces_tidy",
    "C150_leftover_refuted",
    "C150_later_row_refuted",
    "C150_big_seed_refuted",
    "C150_multiples",
    "C150_zero_refuted"
   ],
   "note": "Refuted as stated: reseeding does not empty the bit buffers, so with -s 1 a row after a test that left bits over is not what its test gives alone with the same seed (leftover_refuted); without -s 1 the seed is shown beside every row but only the whole run can be repeated (later_row_refuted); -S with a multiple of 2^32 is taken as no seed (big_seed_refuted, multiples) and a random seed that comes out as 0 cannot be given back (zero_refuted). Proved: independence of the random source for all other seeds (reproducible), replay of whole runs (replay), replay of single rows and the seeds shown for tests that leave the buffers clean (row_alone, row_seeds); left_over gives the number of bits each test leaves, and tests whose pieces fill whole generator words are clean (whole_words_tidy, pieces_tidy). Assumes that setting a seed forgets the earlier state (C30)."
  },
  {
   "property": "C151",
   "status": "partial",
   "theorems": [
    "C151_rate",
    "C151_wrapped",
    "C151_refuted",
    "C151_zero_refuted",
    "C151_overflow_refuted"
   ],
   "note": "Refuted as stated: the number of draws is multiplied as unsigned int, so from 2^32 draws on (-t 100000 -p 50000) the speed shown is that of the draws modulo 2^32 (refuted, wrapped); for multiples of 2^32 it is 0 (zero_refuted, in doubles); 2^31 draws per pass overflow the int loop variable (overflow_refuted). Proved over the reals for every smaller run and every clock (rate)."
  },
  {
   "property": "C152",
   "status": "partial",
   "theorems": [
    "C152_binomial",
    "C152_total",
    "C152_many_refuted",
    "C152_over_refuted"
   ],
   "note": "Refuted as stated: from 171 trials on, and for more successes than trials, the factorial of GSL overflows and aborts the program (many_refuted, over_refuted). Proved in exact arithmetic for up to 170 trials (binomial, total)."
  },
  {
   "property": "C153",
   "status": "proved",
   "theorems": [
    "C153_listed",
    "C153_choose"
   ],
   "note": "For every list of fewer than 200 GSL names and every combination of devices: the listing is exactly the content of the table (listed), and a listed number given with -g chooses that entry, with -f for the generators that read a file (choose, on the option parser and selection of C141). The layout of the listing is not modelled."
  },
  {
   "property": "C154",
   "status": "partial",
   "theorems": [
    "C154_fixed",
    "C154_device_refuted",
    "C154_numbers"
   ],
   "note": "Refuted as stated for the device generators: they are numbered from 500 in the order in which they can be opened, so 500 is /dev/random or /dev/urandom (device_refuted). Proved for dieharder's own generators (200-209) and R's (400-405), whatever GSL and the devices are (fixed)."
  },
  {
   "property": "C155",
   "status": "partial",
   "theorems": [
    "C155_draws",
    "C155_distance",
    "C155_kuiper",
    "C155_order",
    "C155_one",
    "C155_many_refuted",
    "C155_many_kuiper_refuted",
    "C155_zeros_refuted"
   ],
   "note": "Refuted as stated: from 2^31 samples on the p-value is -1 (C155_many_refuted) or the sort runs over a negative length (C155_many_kuiper_refuted), and a generator that gives only zeros is never judged (C155_zeros_refuted). Below 2^31 samples C155_draws, C155_distance, C155_kuiper, C155_order and C155_one hold for every stream that gives the samples."
  },
  {
   "property": "C156",
   "status": "partial",
   "theorems": [
    "C156_device",
    "C156_device_all",
    "C156_clock",
    "C156_same_second",
    "C156_far",
    "C156_refuted",
    "C156_few",
    "C156_short_refuted"
   ],
   "note": "Refuted as stated: from the clock the same seed comes again after 999999 microseconds, and n seconds give at most n+999999 seeds (C156_refuted, C156_few); a short read leaves the seed undefined (C156_short_refuted). C156_device, C156_device_all, C156_clock, C156_same_second and C156_far say exactly when seeds differ."
  },
  {
   "property": "C157",
   "status": "partial",
   "theorems": [
    "C157_listed",
    "C157_choose",
    "C157_marks",
    "C157_all",
    "C157_do_not_use_refuted"
   ],
   "note": "Refuted as stated: -a runs the test marked Do Not Use (C157_do_not_use_refuted). The rest holds: C157_listed, C157_choose, C157_marks, C157_all."
  },
  {
   "property": "C158",
   "status": "partial",
   "theorems": [
    "C158_all",
    "C158_one",
    "C158_neither",
    "C158_output",
    "C158_unknown_refuted",
    "C158_bad_option_refuted"
   ],
   "note": "Refuted as stated for the status: a generator that does not exist and an unknown option end the program with status 0 and nothing done (C158_unknown_refuted, C158_bad_option_refuted). What is run is as stated: C158_all, C158_one, C158_neither, C158_output."
  },
  {
   "property": "C159",
   "status": "partial",
   "theorems": [
    "C159_seeded",
    "C159_leak_refuted",
    "C159_missing_refuted",
    "C159_nested_refuted"
   ],
   "note": "Refuted as stated: every set of generators ever made stays allocated (C159_leak_refuted); an empty number crashes (C159_missing_refuted) and the supergenerator as its own component never ends (C159_nested_refuted). C159_seeded: otherwise the generators and seeds are the right ones after any sequence of seeds."
  },
  {
   "property": "C160",
   "status": "partial",
   "theorems": [
    "C160_lag",
    "C160_default",
    "C160_fraction_refuted",
    "C160_range_refuted",
    "C160_nonfinite_refuted"
   ],
   "note": "Refuted as stated: between -1 and 1 (0 excepted) the lag wraps to 2^32 (C160_fraction_refuted) and at most -1, at least 2^32 or not finite the conversion is undefined (C160_range_refuted, C160_nonfinite_refuted). C160_lag and C160_default: right for 0 and for 1 <= x < 2^32."
  },
  {
   "property": "C161",
   "status": "partial",
   "theorems": [
    "C161_expected",
    "C161_total",
    "C161_enough",
    "C161_statistic",
    "C161_mean",
    "C161_mean_refuted",
    "C161_small_refuted",
    "C161_law"
   ],
   "note": "Refuted as stated: the statistic leaves out the divisor 1 but a degree of freedom is subtracted all the same, so with exact expected counts its mean is the degrees of freedom plus the probability of the divisor 1, about 0.61 (C161_mean_refuted); with so few samples that the table has at most two cells (below 1481) it is 0 with 2^32-1 degrees of freedom whatever the numbers (C161_small_refuted, with doubles). C161_expected, C161_total, C161_enough, C161_statistic, C161_mean: the expected counts, at least 100 in each cell, the statistic and its mean for any law, in exact arithmetic; by C124_program the same text with doubles is the model of Vtest_eval. C161_law: as many pairs have the divisor k as coprime pairs exist up to 1/k of the range, the reason for the expected counts 1/k^2; that the share of coprime pairs tends to 6/pi^2 is not proved."
  },
  {
   "property": "C162",
   "status": "partial",
   "theorems": [
    "C162_table_refuted",
    "C162_total",
    "C162_counts",
    "C162_possible",
    "C162_shape",
    "C162_mean"
   ],
   "note": "Refuted as stated: the share of pairs with one division is smaller than the table's 5.39e-9 (C162_table_refuted, over all 2^64 pairs). The effect on a p-value is negligible, the cell expects 0.05 of ten million samples. C162_total, C162_counts, C162_possible, C162_shape: the table adds up to 1 exactly, the counts to their number, every pair falls in a cell with a positive entry, one peak at 19. C162_mean: for samples that follow the table the statistic has its degrees of freedom as mean, but for cells left out with less than 5 expected samples (exact arithmetic; C124_program links the text to doubles)."
  },
  {
   "property": "C163",
   "status": "partial",
   "theorems": [
    "C163_routine",
    "C163_lag_refuted",
    "C163_other"
   ],
   "note": "Refuted as stated: the routine takes the lag from the test's ntuple, which create_test sets to 0 and nothing changes, so consecutive numbers are added whatever -n and -x say (C163_lag_refuted). C163_routine: with an ntuple in the test the routine would use every (ntuple+1)-th number. C163_other: test 203, from the same text, copies -n there first. The number of samples is as asked. The command line program does not register the test (add_ui_tests is not called by main)."
  },
  {
   "property": "C164",
   "status": "partial",
   "theorems": [
    "C164_number",
    "C164_all",
    "C164_order",
    "C164_name_refuted",
    "C164_documented_refuted"
   ],
   "note": "Refuted as stated: proved for tests chosen by number, for -a and for the order of the outputs, and every array access is in bounds; but a test chosen by its name is never described, because names are only looked up when a test is run, and the example given in the summary of the options itself (dieharder -D 3 -h) describes no test."
  }
 ]
}