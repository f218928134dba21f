{"id": "C01", "title": "Bit masks and bit windows select exactly the requested bits", "statement": "b_umask(bstart,bstop) returns a 32-bit word whose bits numbered bstart..bstop (bit 0 = most significant) are 1 and all others 0; b_window(input,bstart,bstop,boffset) moves exactly the bits bstart..bstop of input to the positions starting at boffset, drops what falls off the end and zeroes every other bit. Out-of-range requests terminate the program (exit) instead of returning a value.", "quantifier": "every 32-bit input word and every bstart, bstop, boffset, including out-of-range ones", "why_tests_cant": "There are 2^32 words times ~2^15 window requests; a test samples a few and would not notice one wrong boundary.", "anchors": ["libdieharder/bits.c:b_umask", "libdieharder/bits.c:b_window"]}
{"id": "C02", "title": "Rotations rotate", "statement": "b_rotate_right(x,s) and b_rotate_left(x,s) return the cyclic rotation of the 32 bits of x by s, for 1<=s<=31, and are mutually inverse; cycle(x,n) rotates the low n bits right by one, so n applications give back x. (b_rotate_left with shift 0 does not return at all.)", "quantifier": "every 32-bit word and every shift 1..31 (0 and 32 handled separately); for cycle every n in 1..32", "why_tests_cant": "Exhausting 2^32 words times all shifts is not what unit tests do, and the edge shifts behave differently from the interior ones.", "anchors": ["libdieharder/bits.c:b_rotate_left", "libdieharder/bits.c:b_rotate_right", "libdieharder/bits.c:cycle"]}
{"id": "C03", "title": "get_bit_ntuple returns the cyclic bit window of a bit string", "statement": "For a string of bslen words of rmax_bits bits each (last word least significant), get_bit_ntuple(bitstr,bslen,blen,boffset) with 1<=blen<=32 returns the blen bits at bit positions boffset, boffset+1, ... taken cyclically, and only reads inside the array.", "quantifier": "every array length >= 1, every word width 1..32, every content, every blen in 1..32 and every offset inside the string", "why_tests_cant": "The carry/wrap loop has data-dependent trip counts; only specific offset/length/width combinations cross word and array boundaries.", "anchors": ["libdieharder/bits.c:get_bit_ntuple"]}
{"id": "C04", "title": "get_ntuple_cyclic copies a cyclic window of up to 32 bits", "statement": "For any input bit string of ilen 32-bit words and any offset, get_ntuple_cyclic copies the requested ntuple (1..32) bits, read cyclically, right-justified into the last word of the output buffer, terminates, does not exit and stays within both arrays.", "quantifier": "every input array length >= 1, every content, every offset, every ntuple 1..32", "why_tests_cant": "The five-rule loop has boundary cases for every (start,end) residue pair modulo 32; tests cover only a handful of the 32x32 pairs and array wraps.", "anchors": ["libdieharder/bits.c:get_ntuple_cyclic"]}
{"id": "C05", "title": "get_ntuple_cyclic copies windows longer than 32 bits", "statement": "For ntuple > 32 (as long as it fits in the output buffer) get_ntuple_cyclic likewise returns the cyclic window of ntuple bits, without terminating the program.", "quantifier": "every offset and every ntuple > 32 fitting the output buffer", "why_tests_cant": "The failure needs a particular relation between start and end residues; a random test can easily miss it, and a test harness would just see the process exit with status 0.", "anchors": ["libdieharder/bits.c:get_ntuple_cyclic", "libdieharder/bits.c:b_window"]}
{"id": "C06", "title": "get_uint_rand on a 32-bit generator delivers the generator's words unchanged and in order", "statement": "With a 32-bit generator, the i-th call of get_uint_rand after a reset returns exactly the i-th word of the generator.", "quantifier": "every generator output sequence and every number of calls", "why_tests_cant": "The function keeps static buffers between calls, so the claim is about every call history, not about a single call.", "anchors": ["libdieharder/bits.c:get_uint_rand", "libdieharder/bits.c:reset_bit_buffers"]}
{"id": "C07", "title": "get_uint_rand repackages the bits of narrower generators without loss or corruption", "statement": "With an rmax_bits-bit generator (rmax_bits < 32), the concatenation of the words returned by get_uint_rand is the concatenation of the rmax_bits-bit outputs of the generator.", "quantifier": "every generator width below 32, every output sequence, every number of calls", "why_tests_cant": "The corruption occurs only at the call where the residual bit count returns to rmax_bits (every 31st call for 31-bit generators) and yields plausible random-looking words.", "anchors": ["libdieharder/bits.c:get_uint_rand"]}
{"id": "C08", "title": "get_rand_bits deals out the generator's bit stream without skipping or repeating bits", "statement": "For a 32-bit generator, any sequence of get_rand_bits requests of 0..32 bits each returns consecutive, non-overlapping pieces of the generator's bit stream, each right-justified in the result.", "quantifier": "every generator output sequence and every finite history of request sizes", "why_tests_cant": "The 6-word circular buffer has an enormous number of (index, bit) states and refills depend on the whole history of request sizes.", "anchors": ["libdieharder/bits.c:get_rand_bits", "libdieharder/bits.c:get_ntuple_cyclic"]}
{"id": "C09", "title": "Resetting the bit buffers makes runs reproducible", "statement": "After reset_bit_buffers, the values produced by get_uint_rand and get_rand_bits depend only on the generator outputs drawn after the reset, not on anything that happened before.", "quantifier": "every pair of prior histories and every continuation of calls", "why_tests_cant": "It quantifies over all earlier states of the static buffers; tests would need to enumerate histories.", "anchors": ["libdieharder/bits.c:reset_bit_buffers", "libdieharder/bits.c:get_uint_rand", "libdieharder/bits.c:get_rand_bits"]}
{"id": "C10", "title": "get_rand_bits_uint deals out the generator's bit stream in order", "statement": "For any generator width 1..32, any sequence of requests of 1..32 bits other than exactly the generator width returns consecutive non-overlapping pieces of the generator's bit stream (most significant bits first within a word), and the result fits in the requested number of bits.", "quantifier": "every generator width, every output sequence, every finite history of request sizes", "why_tests_cant": "Static buffering across calls; correctness at refill boundaries depends on the entire history.", "anchors": ["libdieharder/static_get_bits.c:get_rand_bits_uint"]}
{"id": "C11", "title": "A full-width request to get_rand_bits_uint preserves stream order", "statement": "A request for exactly rmax_bits bits also returns the next rmax_bits bits of the stream, even if some bits are still buffered.", "quantifier": "every generator output sequence and every mixed history of request sizes", "why_tests_cant": "Only mixed request sizes expose the bypass of the buffer; each test uses one fixed size.", "anchors": ["libdieharder/static_get_bits.c:get_rand_bits_uint"]}
{"id": "C12", "title": "get_rand_pattern returns the requested pattern of bits", "statement": "get_rand_pattern with a list of positive (take) and negative (skip) bit counts totalling at most the result size returns to its caller with the requested bits.", "quantifier": "every pattern list and every generator output sequence", "why_tests_cant": "An early exit(0) looks like a successful program end to a test runner that only checks the exit status.", "anchors": ["libdieharder/bits.c:get_rand_pattern"]}
{"id": "C13", "title": "Binary dumps and binary strings round-trip", "statement": "bit2uint applied to the n-character MSB-first binary text that dumpbits-style printing produces for a value below 2^n gives back the value, for n <= 32.", "quantifier": "every n in 1..32 and every value below 2^n", "why_tests_cant": "The domain is 2^32 values per width.", "anchors": ["libdieharder/bits.c:bit2uint", "libdieharder/bits.c:dumpbits"]}
{"id": "C14", "title": "binary_rank computes the GF(2) rank (up to 32 columns)", "statement": "For every bit matrix with at most 32 columns, binary_rank returns the rank of the matrix over GF(2), reads and writes only inside the matrix and terminates.", "quantifier": "every number of rows >= 1, every number of columns 1..32, every matrix content", "why_tests_cant": "There are 2^1024 32x32 matrices; a wrong pivot rule shows up only on special shapes.", "anchors": ["libdieharder/rank.c:binary_rank"]}
{"id": "C15", "title": "binary_rank computes the GF(2) rank for wider matrices", "statement": "The same for more than 32 columns (several words per row).", "quantifier": "every number of columns above 32", "why_tests_cant": "None of the shipped tests uses wide matrices, so no test exercises this path.", "anchors": ["libdieharder/rank.c:binary_rank"]}
{"id": "C16", "title": "A test run accumulates exactly the requested number of p-values", "statement": "After create_test and any number k>=0 of further std_test calls under an 'until resolved' strategy, each statistic holds exactly the p-values produced so far: the first call runs psamples rounds, each later call runs Xstep more, none is overwritten or recomputed, the count never exceeds Xoff, and every p-value slot written lies inside the allocated buffer.", "quantifier": "every psamples, Xstep, Xoff with psamples<=Xoff and every number of calls (assuming the reported p-value is not exactly 0.0)", "why_tests_cant": "The claim ranges over arbitrary call histories and parameter values; array overflow is silent.", "anchors": ["libdieharder/std_test.c:create_test", "libdieharder/std_test.c:std_test", "libdieharder/std_test.c:add_2_test"]}
{"id": "C17", "title": "A p-value of exactly zero does not corrupt the accounting", "statement": "Even when the Kolmogorov-Smirnov p-value of the accumulated samples is exactly 0.0, a further std_test call adds Xstep samples to the previous ones.", "quantifier": "every state in which all KS p-values are 0.0", "why_tests_cant": "Requires a generator bad enough to underflow the p-value; the failing path silently discards samples.", "anchors": ["libdieharder/std_test.c:std_test"]}
{"id": "C18", "title": "execute_test terminates and stops for the documented reason", "statement": "In every strategy the test loop of execute_test performs finitely many rounds and stops only when: strategy 0 - after one round; resolve-ambiguity - the smallest p-value is below Xfail, or not below Xweak, or psamples reached Xoff; test-to-destruction - the smallest p-value is below Xfail or psamples reached Xoff.", "quantifier": "every sequence of p-values the test may produce, every Xstep>0, Xoff, Xweak, Xfail>0", "why_tests_cant": "The loop length depends on the p-values of all rounds; termination cannot be tested.", "anchors": ["dieharder/run_test.c:execute_test"]}
{"id": "C19", "title": "execute_test terminates for every threshold the command line accepts", "statement": "Termination also holds with Xfail = 0.", "quantifier": "every command-line accepted threshold", "why_tests_cant": "Non-termination cannot be observed by a test.", "anchors": ["dieharder/run_test.c:execute_test", "libdieharder/std_test.c:std_test"]}
{"id": "C20", "title": "Assessment of a p-value", "statement": "A line is reported FAILED iff p < Xfail or p > 1 - Xfail; otherwise WEAK iff p < Xweak or p > 1 - Xweak; otherwise PASSED. Exactly one assessment is printed, and moving p towards 1/2 never makes the assessment worse.", "quantifier": "every p-value that is a number (infinities included) and every pair of finite thresholds, in double arithmetic", "why_tests_cant": "Real-valued domain with four boundaries and a rounded subtraction.", "anchors": ["dieharder/output.c:output_table_line", "dieharder/output.c:output_report"]}
{"id": "C21", "title": "The p-value histogram counts every p-value exactly once", "statement": "For p-values in [0,1], the bins of the printed histogram sum to the number of p-values whatever the number of bins; with the ten bins every report uses, bin i counts exactly those with i/10 <= p < (i+1)/10 (1.0 counted in the last bin); the vertical scale is found in finitely many steps, every bar is drawn to its exact height in units of that scale and none is clipped.", "quantifier": "every list of fewer than 2^31 p-values in [0,1], every -p value, every bin count from 1 to 2^30 (deciles: ten bins)", "why_tests_cant": "Unbounded lists; boundary values and the rounding of p/0.1 are the interesting points.", "anchors": ["libdieharder/histogram.c:histogram", "dieharder/output.c:output_histogram"]}
{"id": "C22", "title": "Chi-square tail bundling conserves the counts", "statement": "Vtest_eval uses every cell whose expectation reaches the cutoff once and as it is, and folds all the others into one tail cell (observed and expected added up in order), used if it reaches the cutoff. When there are no small cells or their tail is used, the observed counts of the cells used add up to exactly the total of the input. Unless preset, the degrees of freedom are (number of cells used) - 1 as soon as one cell is used.", "quantifier": "every vector length below 2^31, every content and every cutoff; exact totals for counts adding up to at most 2^53", "why_tests_cant": "Unbounded vectors with arbitrary cutoff patterns.", "anchors": ["libdieharder/Vtest.c:Vtest_eval"]}
{"id": "C23", "title": "Reading an ASCII number file is cyclic and complete", "statement": "file_input returns the numbers of the file in order and, after the last of the filecount numbers, starts again with the first; rptr is the number of values read since the last rewind, the total count and rewind count are consistent (total = rewinds*filecount + position).", "quantifier": "every file content, every filecount >= 1 and every number of reads", "why_tests_cant": "Arbitrary number of reads and rewinds; counters interact.", "anchors": ["libdieharder/rng_file_input.c:file_input_get"]}
{"id": "C24", "title": "Reading a raw binary file is cyclic and complete", "statement": "file_input_raw returns the 32-bit words of the file in order and wraps to the first word after the last complete word.", "quantifier": "every file length >= 4 bytes and every number of reads", "why_tests_cant": "Arbitrary lengths (not multiple of 4 too) and histories.", "anchors": ["libdieharder/rng_file_input_raw.c:file_input_raw_get", "libdieharder/rng_file_input_raw.c:file_input_raw_set"]}
{"id": "C25", "title": "Numbers written by dieharder -o can be read back", "statement": "The unsigned integer file output by output_rnds and read by the file_input generator gives back the same numbers in the same order.", "quantifier": "every list of 32-bit numbers (with a matching count header)", "why_tests_cant": "Round trip over arbitrary lists.", "anchors": ["dieharder/output_rnds.c:output_rnds", "libdieharder/rng_file_input.c:file_input_set", "libdieharder/rng_file_input.c:file_input_get"]}
{"id": "C26", "title": "Field splitting", "statement": "split breaks a line into its maximal runs of non-separator characters, in order, and terminates each field; the number returned is the number of fields; fields longer than the buffer or more fields than the array are truncated without writing outside the arrays.", "quantifier": "every NUL-terminated input line", "why_tests_cant": "All strings of all lengths.", "anchors": ["libdieharder/parse.c:split"]}
{"id": "C27", "title": "rmax_bits is the bit width of the selected generator", "statement": "After a generator with maximum random_max is selected, rmax_bits is the number of significant bits of random_max and rmax_mask is 2^rmax_bits - 1.", "quantifier": "every maximum from 1 to 2^32-1", "why_tests_cant": "2^32 possible maxima.", "anchors": ["dieharder/choose_rng.c:select_rng", "dieharder/choose_rng.c:select_XOR"]}
{"id": "C28", "title": "The XOR generator combines one draw of each component", "statement": "Each output of the XOR generator is the exclusive or of exactly one fresh output of each of the selected generators.", "quantifier": "every number of component generators >= 1 and every component output sequence", "why_tests_cant": "A test would need to compare streams of all components; a skipped draw yields equally random-looking output.", "anchors": ["libdieharder/rng_XOR.c:XOR_get"]}
{"id": "C29", "title": "Generators stay within their declared range", "statement": "Every output of the kiss, superkiss, uvag, threefish, AES, jenkins, cellular automaton and R generators is at most the maximum declared in its generator table.", "quantifier": "every seed and every number of draws", "why_tests_cant": "Unbounded sequences from 2^32 or 2^64 seeds.", "anchors": ["libdieharder/rng_kiss.c", "libdieharder/rng_superkiss.c", "libdieharder/rng_uvag.c", "libdieharder/rng_threefish.c", "libdieharder/rng_aes.c", "libdieharder/rng_jenkins.c", "libdieharder/rng_ca.c", "libdieharder/rngs_gnu_r.c"]}
{"id": "C30", "title": "Reseeding a generator reproduces its sequence", "statement": "Setting the same seed twice produces the same output sequence, whatever was drawn in between and whatever other generators were used.", "quantifier": "every seed, every intermediate history", "why_tests_cant": "Quantifies over all intermediate histories of static/shared state.", "anchors": ["libdieharder/rng_ca.c:ca_set", "libdieharder/rng_uvag.c:uvag_set", "libdieharder/rng_kiss.c:kiss_set", "libdieharder/rngs_gnu_r.c"]}
{"id": "C31", "title": "The AES used by the AES_OFB generator is AES-128 as standardised", "statement": "rijndaelKeySetupEnc/rijndaelEncrypt with 128-bit keys compute the FIPS-197 cipher for every key and every block, and rijndaelDecrypt inverts it.", "quantifier": "every 128-bit key and every 128-bit block", "why_tests_cant": "2^256 combinations; test vectors check only a few table entries.", "anchors": ["libdieharder/rijndael-alg-fst.c:rijndaelKeySetupEnc", "libdieharder/rijndael-alg-fst.c:rijndaelEncrypt", "libdieharder/rijndael-alg-fst.c:rijndaelDecrypt"]}
{"id": "C32", "title": "The two Threefish-512 implementations agree and are permutations", "statement": "The reference and the unrolled Threefish-512 block function return identical blocks for every key, tweak and input, and for a fixed key and tweak different inputs give different outputs.", "quantifier": "every key, tweak and block (2^1152 combinations)", "why_tests_cant": "Far beyond testing; a wrong rotation constant in one of 72 rounds may only show on some inputs.", "anchors": ["libdieharder/skein_block_ref.c:Threefish_512_Process_Blocks", "libdieharder/skein_block64.c:Threefish_512_Process_Blocks64"]}
{"id": "C33", "title": "The birthday-spacings count is the number of repeated intervals", "statement": "diehard_birthdays (and dab_birthdays1) bins each trial by the number of interval values that repeat an earlier interval value, reading only the intervals computed.", "quantifier": "every list of sorted intervals, every length", "why_tests_cant": "The defect appears only when two runs of equal intervals are adjacent or at the end of the array.", "anchors": ["libdieharder/diehard_birthdays.c:diehard_birthdays", "libdieharder/dab_birthdays1.c:dab_birthdays1"]}
{"id": "C34", "title": "kperm numbers the orderings of five values", "statement": "For five distinct values, the index kperm computes lies in 0..119 and two 5-tuples get the same index iff their elements are in the same relative order; so all 120 orderings are distinguished.", "quantifier": "every 5-tuple of distinct unsigned values below 2^31", "why_tests_cant": "2^160 inputs; the property is a bijection.", "anchors": ["libdieharder/diehard_operm5.c:kperm"]}
{"id": "C35", "title": "Missing-word counting", "statement": "The OPSO, OQSO, DNA and bitstream tests count exactly the words of the alphabet that never occur among the sampled words, and each sampled word is the documented bit window of the generator output.", "quantifier": "every generator output sequence", "why_tests_cant": "2^20 counters over 2^21 samples: overflow of a counter is invisible to a sample-based test.", "anchors": ["libdieharder/diehard_opso.c", "libdieharder/diehard_oqso.c", "libdieharder/diehard_dna.c", "libdieharder/diehard_bitstream.c"]}
{"id": "C36", "title": "Count-the-1s letters and words", "statement": "In the count-the-1s tests each byte is mapped to the letter given by its number of 1 bits (0-2,3,4,5,6-8), and the running five-letter index equals the base-5 value of the last five letters at every step; every count is added inside the 5^5 and 5^4 tables.", "quantifier": "every byte stream of every length", "why_tests_cant": "Sliding index over arbitrary histories.", "anchors": ["libdieharder/diehard_count_1s_stream.c:diehard_count_1s_stream", "libdieharder/diehard_count_1s_byte.c:diehard_count_1s_byte"]}
{"id": "C37", "title": "Runs up and down are counted completely", "statement": "For a sequence of at least two numbers, diehard_runs counts the maximal rising blocks and the maximal non-rising blocks of the sequence by their length (6 and more together), leaving out exactly one of the two final blocks; exactly tsamples runs are counted in total, one per comparison.", "quantifier": "every sequence of random numbers of every length >= 2", "why_tests_cant": "Unbounded sequences; boundary treatment at both ends.", "anchors": ["libdieharder/diehard_runs.c:diehard_runs"]}
{"id": "C38", "title": "The craps test plays craps", "statement": "Each simulated game follows the rules of craps (7/11 wins at once, 2/3/12 loses at once, otherwise the point is rolled again before a 7), the recorded number of throws is the number of rolls made (capped), and wins and throws are counted once per game.", "quantifier": "every sequence of dice rolls", "why_tests_cant": "Games have unbounded length.", "anchors": ["libdieharder/diehard_craps.c:diehard_craps"]}
{"id": "C39", "title": "The GCD test computes gcds and step counts", "statement": "For every pair of nonzero 32-bit numbers the test obtains their greatest common divisor and the number of division steps Euclid's algorithm takes, and updates its two tables inside their bounds.", "quantifier": "every pair of nonzero 32-bit numbers", "why_tests_cant": "2^64 pairs.", "anchors": ["libdieharder/marsaglia_tsang_gcd.c:marsaglia_tsang_gcd"]}
{"id": "C40", "title": "Bit counting is exact", "statement": "The monobit tests count exactly the 1 bits of every sampled 32-bit word; the counter of countx counts exactly the positions among the low 32 bits at which a word's bits change, and its result is always inside its bucket table.", "quantifier": "every 32-bit word (monobit), every word (countx)", "why_tests_cant": "2^32 words in a branch-free formula.", "anchors": ["libdieharder/sts_monobit.c:sts_monobit", "libdieharder/dab_monobit2.c:dab_monobit2", "libdieharder/countx.c:count"]}
{"id": "C41", "title": "Serial test frequencies", "statement": "sts_serial counts, for each m=1..16, every one of the 32*tsamples cyclic m-bit windows of the bit stream exactly once, in the cell given by its value.", "quantifier": "every list of words", "why_tests_cant": "Arbitrary lengths, 16 tables of up to 65536 cells.", "anchors": ["libdieharder/sts_serial.c:sts_serial"]}
{"id": "C42", "title": "STS runs: transitions", "statement": "sts_runs counts the ones of the cyclic bit string and its 01 and 10 boundaries; both boundary counts are always equal.", "quantifier": "every list of words", "why_tests_cant": "Arbitrary length.", "anchors": ["libdieharder/sts_runs.c:sts_runs"]}
{"id": "C43", "title": "Bit-distribution conservation", "statement": "rgb_bitdist distributes exactly tsamples trials over the histogram of each of the 2^ntuple patterns, and the per-trial counts over all patterns sum to the number of ntuples drawn per trial.", "quantifier": "every generator output sequence, every ntuple 1..31", "why_tests_cant": "Exponential number of histograms, arbitrary history.", "anchors": ["libdieharder/rgb_bitdist.c:rgb_bitdist"]}
{"id": "C44", "title": "The minimum-distance sweep finds the minimum distance", "statement": "The early-exit sweep over points sorted by the first coordinate used by diehard_2dsphere and rgb_minimum_distance returns the same value as comparing all pairs from the same starting value, and the value the three minimum-distance tests report is, up to a relative error of 2^-49, the least Euclidean distance between two of the points drawn (diehard_3dsphere also reports the cube of that distance).", "quantifier": "every list of points of dimension 1 to 5 of any length with coordinates between 2^-64 and 2^30; every stream of uniform numbers between 2^-60 and 1; more than 3^dimension points", "why_tests_cant": "Pruning errors show only for special geometric configurations and rounding only for particular coordinates.", "anchors": ["libdieharder/diehard_2dsphere.c", "libdieharder/diehard_3dsphere.c", "libdieharder/rgb_minimum_distance.c"]}
{"id": "C45", "title": "Command-line output flags", "statement": "The -D option accepts, by number or by name, exactly the output fields listed by the program and the resulting flag word has precisely the bits of the requested fields.", "quantifier": "every list of field names/numbers", "why_tests_cant": "All combinations of 19 fields in all orders, including repetitions.", "anchors": ["dieharder/parsecl.c:parsecl", "dieharder/output.h"]}
{"id": "C46", "title": "run -a covers every registered test and leaves the settings as they were", "statement": "run_all_tests executes every registered test at least once, the multi-ntuple tests once per documented ntuple value, in a fixed order, and restores the user's ntuple setting.", "quantifier": "every registry content and every user ntuple", "why_tests_cant": "Quantifies over all registry sizes and settings.", "anchors": ["dieharder/run_all_tests.c:run_all_tests"]}
{"id": "C47", "title": "Fill-tree insertion stays in bounds", "statement": "In dab_filltree and dab_filltree2 every tree access and every counter update is inside its array.", "quantifier": "every generator output sequence and default ntuple", "why_tests_cant": "Needs a generator emitting long runs of zeros; heap corruption is silent.", "anchors": ["libdieharder/dab_filltree.c:dab_filltree", "libdieharder/dab_filltree2.c:dab_filltree2"]}
{"id": "C48", "title": "Rotation of samples in the DCT and fill-tree tests is defined", "statement": "The rotation applied to the samples (RotL) is defined behaviour and is a bijection on rmax_bits-bit words for every rotation amount the test uses.", "quantifier": "every word, every width and every tsamples", "why_tests_cant": "Undefined shifts give platform dependent results that tests on one platform cannot reveal.", "anchors": ["libdieharder/dab_dct.c:dab_dct", "libdieharder/dab_filltree.c:dab_filltree"]}
{"id": "C49", "title": "Resetting the bit buffers also resets the small-request bit buffer", "statement": "After reset_bit_buffers and a reseed, the values returned by get_rand_bits_uint depend only on the generator outputs drawn from then on.", "quantifier": "every prior history and every continuation", "why_tests_cant": "The leftover bits come from the previous test run in the same process; single-test runs never see them.", "anchors": ["libdieharder/static_get_bits.c:get_rand_bits_uint", "libdieharder/bits.c:reset_bit_buffers"]}
{"id": "C50", "title": "A request for N p-values is honoured", "statement": "Without an 'until resolved' strategy, a run asked for N p-values (-p N) performs one round and reports the Kolmogorov-Smirnov p-value of exactly N p-values per statistic.", "quantifier": "every N, every test, every Xoff", "why_tests_cant": "The limit only shows for N above Xoff (100000 by default), which no quick test runs.", "anchors": ["libdieharder/std_test.c:add_2_test", "dieharder/run_test.c:execute_test"]}
{"id": "C51", "title": "Clearing a test makes it start over", "statement": "After clear_test, the next std_test call behaves as the first one after create_test: it collects the same number of fresh p-values and none of the old ones counts.", "quantifier": "every state of a test and every setting of -p, -m, -a", "why_tests_cant": "Depends on every history of the test and on the default number of p-values scaled by -m, including scales that round to zero.", "anchors": ["libdieharder/std_test.c:clear_test", "libdieharder/std_test.c:create_test", "libdieharder/std_test.c:std_test"]}
{"id": "C52", "title": "A p-value that is not a number is never reported as a pass", "statement": "If a test produces NaN as its p-value, the report does not call it PASSED and its histogram can still be printed.", "quantifier": "every test result and every choice of thresholds", "why_tests_cant": "NaN fails every comparison, so the outcome depends on which branch is the fall-through.", "anchors": ["dieharder/output.c:output_table_line", "dieharder/output.c:output_histogram"]}
{"id": "C53", "title": "A chi-square evaluation accounts for all the data and can be repeated", "statement": "Vtest_eval uses all observed counts of the vector, yields a usable number of degrees of freedom, and evaluating the same Vtest again gives the same chi-square.", "quantifier": "every vector and cutoff", "why_tests_cant": "Needs vectors whose small cells together stay below the cutoff, and a second evaluation of the same vector.", "anchors": ["libdieharder/Vtest.c:Vtest_eval"]}
{"id": "C54", "title": "operm5 numbers orderings of full-range values", "statement": "For five distinct 32-bit values the permutation index depends exactly on the relative order of the values drawn.", "quantifier": "every 5-tuple of distinct 32-bit values", "why_tests_cant": "Only values on both sides of 2^31 expose the difference between signed and unsigned comparison.", "anchors": ["libdieharder/diehard_operm5.c:kperm"]}
{"id": "C55", "title": "operm5 counts every window once", "statement": "With overlapping samples, round t counts the ordering of the generator results t..t+4; without, disjoint groups of five are used. Every round is counted exactly once, no index leaves the 120-entry table, and tsamples+5 (or 5*tsamples+5) results are drawn.", "quantifier": "every generator output sequence, every tsamples, both settings of overlap", "why_tests_cant": "Circular-buffer indexing over arbitrary histories.", "anchors": ["libdieharder/diehard_operm5.c:diehard_operm5"]}
{"id": "C56", "title": "The closing comparison of diehard_runs", "statement": "The comparison that closes the sequence (last number against first) counts as a step from the last number to the first, so that an unbroken rising sequence is recorded as a rising run.", "quantifier": "every sequence", "why_tests_cant": "The direction of one comparison changes at most one count per run.", "anchors": ["libdieharder/diehard_runs.c:diehard_runs"]}
{"id": "C57", "title": "The craps test finishes", "statement": "diehard_craps plays all its games in finitely many rolls.", "quantifier": "every generator", "why_tests_cant": "Non-termination cannot be observed by a test.", "anchors": ["libdieharder/diehard_craps.c:diehard_craps"]}
{"id": "C58", "title": "The GCD test can be run with any sample counts", "statement": "marsaglia_tsang_gcd may be called repeatedly with different numbers of samples and counts every pair in its gcd table.", "quantifier": "every sequence of calls", "why_tests_cant": "Static state is carried from call to call.", "anchors": ["libdieharder/marsaglia_tsang_gcd.c:marsaglia_tsang_gcd"]}
{"id": "C59", "title": "The GCD test finishes", "statement": "marsaglia_tsang_gcd finishes on every generator.", "quantifier": "every generator", "why_tests_cant": "Non-termination cannot be observed by a test.", "anchors": ["libdieharder/marsaglia_tsang_gcd.c:marsaglia_tsang_gcd"]}
{"id": "C60", "title": "Bit windows out of one word", "statement": "Taking n bits out of one generator word starting at a bit offset delivers bits offset, offset+1, ... of the word, wrapping around at the word's width as often as needed.", "quantifier": "every word width 1..32, word, length up to 32 and offset", "why_tests_cant": "2^32 words times all offsets and widths.", "anchors": ["libdieharder/bits.c:get_bit_ntuple_from_uint", "libdieharder/bits.c:get_bit_ntuple_from_whole_uint"]}
{"id": "C61", "title": "Overlapping words overlap", "statement": "In the sparse-occupancy tests that document overlapping words (OPSO, OQSO, DNA, bitstream), consecutive words share all but one of their letters as documented.", "quantifier": "every generator output sequence", "why_tests_cant": "The defect changes no individual result, only the joint distribution of counts.", "anchors": ["libdieharder/diehard_opso.c:diehard_opso", "libdieharder/diehard_oqso.c:diehard_oqso", "libdieharder/diehard_dna.c:diehard_dna", "libdieharder/diehard_bitstream.c:diehard_bitstream"]}
{"id": "C62", "title": "Bitstream accepts every number of samples", "statement": "The bitstream test runs with every number of samples the user may set and never reads outside its buffer of generator words.", "quantifier": "every number of samples and generator", "why_tests_cant": "Needs the buffer bound for all sample counts; the default never triggers it.", "anchors": ["libdieharder/diehard_bitstream.c:diehard_bitstream"]}
{"id": "C63", "title": "dab_opso2 counts missing words", "statement": "dab_opso2 counts, for each of its two kinds of words, exactly the 24-bit words that never occur among the sampled words.", "quantifier": "every generator output sequence and number of samples", "why_tests_cant": "2^24 flags packed in bit fields over 2^26 samples.", "anchors": ["libdieharder/dab_opso2.c:dab_opso2"]}
{"id": "C64", "title": "dab_opso2 bit masks are defined", "statement": "The set-up of the bit masks of dab_opso2 is free of undefined behaviour.", "quantifier": "every run", "why_tests_cant": "The compiler may do as expected in any one build.", "anchors": ["libdieharder/dab_opso2.c:dab_opso2"]}
{"id": "C65", "title": "Count-the-1s expectations", "statement": "The expected count of each word cell in the count-the-1s tests is the number of samples times the product of the shares of its letters among the 256 bytes, and the shares of all cells add up to 1.", "quantifier": "every word length, cell and number of samples", "why_tests_cant": "Exact identity over all cells.", "anchors": ["libdieharder/diehard_count_1s_stream.c:ps", "libdieharder/diehard_count_1s_byte.c:pb"]}
{"id": "C66", "title": "Birthdays histogram", "statement": "Cell k of the histogram the birthday-spacings tests hand to their chi-square test is the number of samples with k repeated spacings, for all k below the number of cells; samples with more repeats are left out.", "quantifier": "every generator, number of samples and number of cells", "why_tests_cant": "Holds for arbitrary histories.", "anchors": ["libdieharder/diehard_birthdays.c:diehard_birthdays", "libdieharder/dab_birthdays1.c:dab_birthdays1"]}
{"id": "C67", "title": "The monobit statistic is ones minus zeros", "statement": "For every generator width and every number of samples, the STS monobit statistic before scaling is the number of 1 bits minus the number of 0 bits sampled.", "quantifier": "every generator stream, width and tsamples", "why_tests_cant": "The failing runs need 2^27 words.", "anchors": ["libdieharder/sts_monobit.c:sts_monobit"]}
{"id": "C68", "title": "dab_monobit2 counts the ones of every block", "statement": "For every generator and run length, the table that dab_monobit2 tests holds, for each block size 2, 4, 8, ... words, the histogram of the numbers of 1 bits in the blocks of that many words.", "quantifier": "every generator stream, width 1..32, up to 15 block sizes, fewer than 2^32 samples", "why_tests_cant": "Only the first block of each size and blocks of ones are affected, hidden in 65 million samples.", "anchors": ["libdieharder/dab_monobit2.c:dab_monobit2"]}
{"id": "C69", "title": "Byte-distribution table", "statement": "For every generator width and every number of samples, the byte-distribution test counts the low, the middle and the high byte of three successive words, each in its own column, with no access outside its table.", "quantifier": "every generator stream, width and tsamples", "why_tests_cant": "Narrow generators take a path that is undefined only there.", "anchors": ["libdieharder/dab_bytedistrib.c:dab_bytedistrib"]}
{"id": "C70", "title": "Permutations test counts orderings", "statement": "rgb_permutations counts every tuple in the cell of the permutation that sorts it, for every tuple size.", "quantifier": "every generator stream, tuple size and tsamples; GSL sorting and permutation enumeration as documented", "why_tests_cant": "k! cells; sizes from 13 on overflow.", "anchors": ["libdieharder/rgb_permutations.c:rgb_permutations"]}
{"id": "C71", "title": "Persistent bits are reported exactly", "statement": "rgb_persist reports a bit exactly if it is one of the generator's bits and keeps its value through all 256 numbers of at least one of the samples.", "quantifier": "every sequence of samples, every mask", "why_tests_cant": "Depends on every number of every sample.", "anchors": ["libdieharder/rgb_persist.c:rgb_persist"]}
{"id": "C72", "title": "Lagged sums use every (lag+1)-th number", "statement": "rgb_lagged_sums adds, in order, exactly the draws number lag, 2*lag+1, 3*lag+2, ..., and draws (lag+1)*tsamples numbers in total.", "quantifier": "every generator stream, lag and tsamples", "why_tests_cant": "Any lag and any length.", "anchors": ["libdieharder/rgb_lagged_sums.c:rgb_lagged_sums"]}
{"id": "C73", "title": "Second fill-tree test counts every tree once, in bounds", "statement": "dab_filltree2 never leaves its tables, never gives up early, counts every tree exactly once in the table of sizes and once in the table of positions, and its result depends only on the bit stream (least significant bit of each word first).", "quantifier": "every generator output sequence, word width and tsamples, default ntuple", "why_tests_cant": "Must hold for every bit stream; a single out-of-range count corrupts the heap silently.", "anchors": ["libdieharder/dab_filltree2.c:dab_filltree2", "libdieharder/dab_filltree2.c:insertBit"]}
{"id": "C74", "title": "Different seeds give the AES_OFB generator different key streams' keys", "statement": "Two different seeds handed to the AES_OFB generator expand to two different AES keys, so a seed identifies one key stream.", "quantifier": "every pair of different unsigned long seeds", "why_tests_cant": "2^128 pairs of seeds; colliding seeds differ only in bits a test would not vary.", "anchors": ["libdieharder/rng_aes.c:aes_set"]}
{"id": "C75", "title": "The Threefish_OFB generator is a key stream fixed by its seed", "statement": "For every seed the Threefish_OFB generator returns the words of the output-feedback stream of Threefish-512 started from the block holding the seed; every output is within the declared range and two different seeds differ within the first sixteen outputs.", "quantifier": "every 64-bit seed and every number of calls", "why_tests_cant": "The sequence is unbounded and there are 2^64 seeds.", "anchors": ["libdieharder/rng_threefish.c:threefish_set", "libdieharder/rng_threefish.c:threefish_get"]}
{"id": "C76", "title": "Reseeding does not accumulate open files", "statement": "Reseeding (reopening) a generator that reads from a file closes the file it had open, so the number of open files does not grow with the number of reseeds.", "quantifier": "every well-formed number file, every limit on open files, every number of reseeds; every history of reads and reseeds of a raw file", "why_tests_cant": "The failure needs as many reseeds as the system allows open files.", "anchors": ["libdieharder/rng_file_input.c:file_input_set", "libdieharder/rng_file_input_raw.c:file_input_raw_set"]}
{"id": "C77", "title": "Files of uniform deviates are scaled to 32-bit numbers", "statement": "A number file of type e, f or g holding deviates u in [0,1) yields the 32-bit numbers proportional to u.", "quantifier": "every file of that type and every deviate", "why_tests_cant": "Needs the statement for every double; a handful of files would look random only if inspected.", "anchors": ["libdieharder/rng_file_input.c:file_input_get"]}
{"id": "C78", "title": "Malformed data lines are rejected", "statement": "A data line that holds no number ends the program with an error; it never yields an unspecified number.", "quantifier": "every data line and every integer file type", "why_tests_cant": "The value of an uninitialised variable looks like a number.", "anchors": ["libdieharder/rng_file_input.c:file_input_get"]}
{"id": "C79", "title": "The kiss generator never degenerates", "statement": "After any seeding, the kiss generator never reaches a state with its shift register or its carry pair at a fixed point, and its internal state does not repeat before 2^32*(2^32-1) draws.", "quantifier": "every seed, every seeding generator and every number of draws", "why_tests_cant": "The period is beyond 2^63 draws; a cycle started by one bad seed cannot be met by sampling.", "anchors": ["libdieharder/rng_kiss.c:kiss_get", "libdieharder/rng_kiss.c:kiss_set"]}
{"id": "C80", "title": "The shift register of superkiss runs through every nonzero value", "statement": "The 32-bit shift register of the superkiss generator has period 2^32-1, as its design states for the combined period.", "quantifier": "every number of draws", "why_tests_cant": "Measuring a period of 2^32 draws needs exhaustive stepping, not a sampled test.", "anchors": ["libdieharder/rng_superkiss.c:superkiss_get"]}
{"id": "C81", "title": "Uniform numbers lie in [0,1)", "statement": "The floating-point interface of every generator returns a number at least 0 and strictly below 1.", "quantifier": "every output of every generator", "why_tests_cant": "The value one occurs once in 2^32 draws.", "anchors": ["libdieharder/rng_kiss.c:kiss_get_double", "libdieharder/rng_aes.c:aes_get_double", "libdieharder/rng_threefish.c:threefish_get_double", "libdieharder/rng_dev_random.c:dev_random_get_double", "libdieharder/rng_file_input_raw.c:file_input_raw_get_double"]}
{"id": "C82", "title": "Different seeds give different sequences", "statement": "Seeding the cellular-automaton generator from two different global seeds gives two different output sequences.", "quantifier": "every pair of different 32-bit seeds", "why_tests_cant": "2^63 pairs of seeds.", "anchors": ["libdieharder/rng_ca.c:ca_set", "libdieharder/rng_ca.c:ca_get"]}
{"id": "C83", "title": "R_mersenne_twister is the Mersenne twister", "statement": "For every seed, the R Mersenne twister generator returns the MT19937 sequence whose 624 starting words are expanded from the seed by the congruential generator 69069 v + 1, tempered; its double is the tempered word over 2^32 and its integer the tempered word less one.", "quantifier": "every seed, every number of draws, whatever generators were used before", "why_tests_cant": "A sequence of unbounded length over 2^32 seeds", "anchors": ["libdieharder/rngs_gnu_r.c:MT_genrand", "libdieharder/rngs_gnu_r.c:RNG_Init", "libdieharder/rngs_gnu_r.c:r_rng_get"]}
{"id": "C84", "title": "R_knuth_taocp and R_knuth_taocp2 are two different generators", "statement": "The generators R_knuth_taocp and R_knuth_taocp2 listed separately give different number sequences.", "quantifier": "every seed, every number of draws", "why_tests_cant": "Equality or difference of unbounded sequences for all seeds", "anchors": ["libdieharder/rngs_gnu_r.c:RNG_Init_R_KT", "libdieharder/rngs_gnu_r.c:RNG_Init_KT2", "libdieharder/rngs_gnu_r.c:r_rng_get_taocp2"]}
{"id": "C85", "title": "No seed makes R_marsaglia_multicarry degenerate", "statement": "For every seed neither the upper nor the lower half of the numbers of R_marsaglia_multicarry stops changing.", "quantifier": "every seed, every number of draws", "why_tests_cant": "Four bad seeds out of 2^32", "anchors": ["libdieharder/rngs_gnu_r.c:unif_rand", "libdieharder/rngs_gnu_r.c:FixupSeeds"]}
{"id": "C86", "title": "R generators in use at the same time do not influence each other", "statement": "Seeding or drawing from one of the R generators does not change the numbers another one returns, and never makes another one leave its state array.", "quantifier": "every pair of the six generators, every seed", "why_tests_cant": "Quantifies over interleavings of generators sharing hidden static state", "anchors": ["libdieharder/rngs_gnu_r.c:dummyvec", "libdieharder/rngs_gnu_r.c:RNG_Table"]}
{"id": "C87", "title": "R_wichmann_hill has period 6953607871644 for every seed", "statement": "For every seed the state of R_wichmann_hill returns to its starting value after exactly 6953607871644 draws, and not before.", "quantifier": "every seed, every number of draws", "why_tests_cant": "7e12 draws per seed", "anchors": ["libdieharder/rngs_gnu_r.c:unif_rand", "libdieharder/rngs_gnu_r.c:FixupSeeds"]}
{"id": "C88", "title": "The -d option runs the requested test", "statement": "The -d option selects the test with the given number or name: the test run is the registered one with that number or short name, the last -d counts, and an unknown number or name ends the program with status 1 without running a test.", "quantifier": "every command line and every table of tests", "why_tests_cant": "Quantifies over all command lines, names and tables; wrong selections (a name ignored, a number with trailing characters) still run some test.", "anchors": ["dieharder/parsecl.c:parsecl", "dieharder/run_test.c:run_test", "libdieharder/dieharder_test_types.c:dieharder_test_types"]}
{"id": "C89", "title": "Numeric options are taken exactly", "statement": "-t n requests n samples per test, and the other numeric options (-i -k -L -n -O -P -p -v -Y) set exactly the number given; the last occurrence counts and no other option changes the value.", "quantifier": "every command line and every number", "why_tests_cant": "Truncation shows only for numbers beyond 2^31, which no test run uses because of the running time.", "anchors": ["dieharder/parsecl.c:parsecl"]}
{"id": "C90", "title": "Parsing the command line is memory safe", "statement": "No command line, however many -g and -S options it has, makes the option parser read or write outside its tables.", "quantifier": "every command line", "why_tests_cant": "The overflow needs more than 100 options and its effect depends on memory layout.", "anchors": ["dieharder/parsecl.c:parsecl", "dieharder/globals.c:gnumbs", "dieharder/globals.c:gseeds"]}
{"id": "C91", "title": "Several -g options combine the generators, each with its seed", "statement": "When several -g options are given (each with its -S seed), the numbers tested come from the combination of all the generators, each seeded with its own seed.", "quantifier": "every command line with two or more -g options", "why_tests_cant": "The numbers produced look equally random whether one generator or the combination is used.", "anchors": ["dieharder/parsecl.c:parsecl", "dieharder/choose_rng.c:select_rng"]}
{"id": "C92", "title": "The table of tests can be loaded again", "statement": "Calling dieharder_test_types any number of times before dieharder -a's run_all_tests gives the same run as calling it once.", "quantifier": "every number of calls", "why_tests_cant": "Needs many calls in one process.", "anchors": ["libdieharder/dieharder_test_types.c:dieharder_test_types", "dieharder/run_all_tests.c:run_all_tests"]}
{"id": "C93", "title": "rgb_minimum_distance runs safely for every n-tuple setting", "statement": "Running rgb_minimum_distance with any value of the -n option, including the default, stays within its arrays and reads only coordinates it has set.", "quantifier": "every ntuple, every number of points, every stream of uniform numbers", "why_tests_cant": "Out-of-bounds writes need not show in a test run.", "anchors": ["libdieharder/rgb_minimum_distance.c:rgb_minimum_distance", "include/dieharder/libdieharder.h:dTuple"]}
{"id": "C94", "title": "The reported minimum distance is a distance between two points", "statement": "The minimum distance diehard_2dsphere and rgb_minimum_distance turn into a p-value is the distance between two of the points drawn, for every number of points from two on.", "quantifier": "every stream of uniform numbers and every number of points", "why_tests_cant": "Needs few points far apart.", "anchors": ["libdieharder/diehard_2dsphere.c", "libdieharder/rgb_minimum_distance.c"]}
{"id": "C95", "title": "The superkiss generator produces its published sequence", "statement": "After seeding, the k-th number drawn from superkiss is the sum of the k-th terms of a complementary multiply-with-carry sequence with lag 41790 and multiplier 7010176, a 32-bit congruential sequence and a 32-bit shift-register sequence, started from the values the seeding generator delivers.", "quantifier": "all seeds, all seeding generators, any number of draws", "why_tests_cant": "The sequence passes through a refilled table of 41790 words; a finite test sees a few of its draws only.", "anchors": ["libdieharder/rng_superkiss.c:superkiss_get", "libdieharder/rng_superkiss.c:superkiss_refill", "libdieharder/rng_superkiss.c:superkiss_set"]}
{"id": "C96", "title": "The combined p-value does not depend on the order of the p-values", "statement": "Applying the Kolmogorov-Smirnov test to the same p-values in another order gives the same verdict, bit for bit, whichever correct sorting routine is used and for every -k setting from 0 to 2.", "quantifier": "all lists of finite p-values, all permutations of them, all sorting routines, all -k settings", "why_tests_cant": "The number of orders of a hundred p-values is beyond any test.", "anchors": ["libdieharder/kstest.c:kstest"]}
{"id": "C97", "title": "The statistic of the KS test is the Kolmogorov-Smirnov distance", "statement": "The number from which the combined p-value is computed is the largest distance between the empirical distribution of the p-values and the uniform distribution, up to rounding.", "quantifier": "all lists of at least two p-values in [0,1]", "why_tests_cant": "Both sides are suprema over a continuum.", "anchors": ["libdieharder/kstest.c:kstest"]}
{"id": "C98", "title": "The exact KS p-value is the formula of Marsaglia, Tsang and Wang", "statement": "Where no approximation is chosen, the p-value of the KS test is 1 minus n!/n^n times the middle entry of the n-th power of the Marsaglia-Tsang-Wang matrix.", "quantifier": "all numbers of p-values (up to 15,000,000 for the function, 4999 for the test), all distances, all -k settings", "why_tests_cant": "The matrix power is computed by repeated squaring with rescaling by powers of ten; every exponent and dimension is a different path.", "anchors": ["libdieharder/kstest.c:p_ks_new", "libdieharder/kstest.c:mPower", "libdieharder/kstest.c:mMultiply", "libdieharder/kstest.c:kstest"]}
{"id": "C99", "title": "The combined p-value is a probability", "statement": "The p-value the KS test returns for p-values in [0,1] lies in [0,1].", "quantifier": "all lists of p-values, all -k settings", "why_tests_cant": "The offending inputs are p-values close to the ideal positions.", "anchors": ["libdieharder/kstest.c:kstest", "libdieharder/kstest.c:q_ks"]}
{"id": "C100", "title": "A NaN among the p-values shows in the verdict", "statement": "If the p-values handed to the KS test are not numbers, the verdict is not that of a good generator.", "quantifier": "all numbers of p-values, all -k settings", "why_tests_cant": "NaN p-values arise only in degenerate runs.", "anchors": ["libdieharder/kstest.c:kstest"]}
{"id": "C101", "title": "The KS test works for every number of p-values", "statement": "For p-values in [0,1] the KS test ends without undefined behaviour for every number of p-values and every -k setting.", "quantifier": "all lists of 2 to 2^31-1 p-values in [0,1], all -k settings", "why_tests_cant": "An overflow appears only for tens of thousands of p-values and large distances.", "anchors": ["libdieharder/kstest.c:kstest", "libdieharder/kstest.c:p_ks_new", "libdieharder/kstest.c:mPower"]}
{"id": "C102", "title": "The Kuiper test ends", "statement": "With -k 3 the Kuiper version of the test returns a verdict for all p-values in [0,1].", "quantifier": "all lists of p-values in [0,1]", "why_tests_cant": "Termination of a loop on floating-point convergence.", "anchors": ["libdieharder/kstest.c:kstest_kuiper", "libdieharder/kstest.c:q_ks_kuiper"]}
{"id": "C103", "title": "For 5000 or more p-values the combined p-value is Kolmogorov's limit distribution", "statement": "With the default setting and at least 5000 p-values, the p-value of the KS test is the limit distribution of Kolmogorov at (sqrt n + 0.12 + 0.11/sqrt n) times the statistic, exceeding it by at most 2 exp(-20000 x^2).", "quantifier": "all lists of at least 5000 p-values with a positive statistic", "why_tests_cant": "An infinite series against its hundredth partial sum, for every argument.", "anchors": ["libdieharder/kstest.c:kstest", "libdieharder/kstest.c:q_ks"]}
{"id": "C104", "title": "The Kuiper test evaluates Kuiper's statistic", "statement": "The statistic of the Kuiper test (-k 3) is the largest rise of the empirical distribution above the uniform one plus its largest fall below, and its verdict is the published series at that statistic.", "quantifier": "all lists of at least two p-values in [0,1]", "why_tests_cant": "Suprema over a continuum; a series summed until it stops changing.", "anchors": ["libdieharder/kstest.c:kstest_kuiper", "libdieharder/kstest.c:q_ks_kuiper"]}
{"id": "C105", "title": "Chi-square p-values are those of Pearson's statistic", "statement": "The p-value of the Pearson, Poisson and geometric chi-square tests is the upper tail of the chi-square law with one degree of freedom less than there are bins, at the sum of (observed-expected)^2/expected; computed with doubles the sum is off by no more than one rounding per bin and a few more, and is never negative or NaN.", "quantifier": "all vectors of counts, all expected values or laws, any number of bins", "why_tests_cant": "a table of examples cannot bound the rounding error over all count vectors or show that the argument handed to the incomplete gamma function is always valid", "anchors": ["libdieharder/chisq.c:chisq_pearson", "libdieharder/chisq.c:chisq_poisson", "libdieharder/chisq.c:chisq_geometric", "libdieharder/Vtest.c:Vtest_eval"]}
{"id": "C106", "title": "The binomial chi-square test notices missing and misplaced counts", "statement": "The p-value of the binomial chi-square test depends on every bin in which the binomial law expects a substantial number of samples.", "quantifier": "all vectors of counts, all laws", "why_tests_cant": "the samples that would show the failure are those of a defective generator, for all of which the claim is made", "anchors": ["libdieharder/chisq.c:chisq_binomial"]}
{"id": "C107", "title": "The uniform likelihood-ratio test", "statement": "The p-value of the likelihood-ratio test is the upper tail of the chi-square law at the likelihood ratio of the counts against equal probabilities, divided by Smith's correction; the ratio is never negative and vanishes only for equal counts; it can be had for any number of bins.", "quantifier": "all vectors of counts and numbers of bins", "why_tests_cant": "an inequality over all count vectors; the overflow needs more than 46340 bins", "anchors": ["libdieharder/chisq.c:chisq_uint_uniform_gtest"]}
{"id": "C108", "title": "The test of independence of a table", "statement": "The p-value of the two-dimensional chi-square test is that of Pearson's test of independence with (rows-1)(columns-1) degrees of freedom, for every table.", "quantifier": "all tables of counts", "why_tests_cant": "ranges over all tables, including those with empty rows", "anchors": ["libdieharder/chisq.c:chisq2d"]}
{"id": "C109", "title": "The sums test turns overlapping sums into independent normal values", "statement": "diehard_sums forms the m sums of m consecutive uniform deviates, scales them to mean 0 and variance m and transforms them linearly so that the transformed values are uncorrelated, each with mean 0 and variance 1, before applying the normal distribution and the Kolmogorov-Smirnov test.", "quantifier": "every number of samples m >= 2 and every sequence of uniform deviates, in exact arithmetic", "why_tests_cant": "The covariance matrix is a property of the distribution over all deviate sequences and all pairs of positions; a run shows one sample of it", "anchors": ["libdieharder/diehard_sums.c:diehard_sums"]}
{"id": "C110", "title": "The sums test is safe for every number of samples", "statement": "For every number of samples the user may ask for, diehard_sums stays within its arrays, draws 2m-1 deviates and produces one p-value.", "quantifier": "every number of samples, every deviate sequence, every arithmetic", "why_tests_cant": "The out-of-bounds accesses happen only for sizes nobody tests with", "anchors": ["libdieharder/diehard_sums.c:diehard_sums"]}
{"id": "C111", "title": "The squeeze test counts the steps of each sample", "statement": "diehard_squeeze takes each sample from 2147483647 by k = ceil(k*U) until k is 1, at most 48 times, and counts it once in the bin of its number of steps, with all counts up to 6 together and all from 48 on together; it draws one deviate per step and never leaves its table.", "quantifier": "every sequence of deviates in [0,1] and every number of samples below 2^31", "why_tests_cant": "The number of steps and of deviates drawn depends on the whole sequence; the rounding of k*U to a double matters only for rare deviates", "anchors": ["libdieharder/diehard_squeeze.c:diehard_squeeze"]}
{"id": "C112", "title": "The squeeze test compares with the right law", "statement": "The 43 expected frequencies of diehard_squeeze are the probabilities of the numbers of steps from 2147483647 to 1 when every step goes to one of 1, ..., k with the same probability.", "quantifier": "all 43 bins", "why_tests_cant": "The law is defined by a recursion over 2^31 states; nobody can compute it by running the program, and a wrong digit in the table changes p-values only slightly", "anchors": ["libdieharder/diehard_squeeze.c:sdata", "libdieharder/diehard_squeeze.c:diehard_squeeze"]}
{"id": "C113", "title": "The rank tests count by rank and compare with the exact law", "statement": "diehard_rank_32x32 and diehard_rank_6x8 count each sample once, in the cell of the rank of its own matrix (ranks up to 29, respectively 2, together), and the expected probabilities they use are the exact probabilities of those cells for uniformly distributed words, correctly rounded to the digits given.", "quantifier": "every sequence of words, every number of samples below 2^31, every cell; the law for all matrix sizes", "why_tests_cant": "The probabilities are proportions of 2^1024 and 2^192 possible matrices; no sampling confirms ten digits", "anchors": ["libdieharder/diehard_rank_32x32.c:diehard_rank_32x32", "libdieharder/diehard_rank_6x8.c:diehard_rank_6x8", "libdieharder/rank.c:binary_rank"]}
{"id": "C114", "title": "The matrix of the overlapping-permutations test inverts the covariance matrix of its counts", "statement": "When every ordering of the generator's results is equally likely, each of the 120 counts the overlapping 5-permutation test makes from n windows has mean n/120, their covariances are n times a fixed matrix minus a fixed end correction, the 120x120 table shipped with the test is a generalised inverse of that matrix (to 4e-13 in every entry), and the rank of the matrix is 96, the number of degrees of freedom the test uses: its null space is spanned by 24 independent relations.", "quantifier": "every number of windows n >= 4 and every pair of counts; all (n+4)! orderings of the results", "why_tests_cant": "The mean and covariances are averages over (n+4)! orderings, which no run can enumerate, and the table has 14400 entries whose correctness only shows in the distribution of p-values.", "anchors": ["libdieharder/diehard_operm5.c:diehard_operm5", "libdieharder/diehard_operm5.c:kperm", "include/dieharder/diehard_operm5.h:pseudoInv"]}
{"id": "C115", "title": "The statistic of the permutations test has the mean of its reference distribution", "statement": "Averaged over all orderings of the generator's results, the statistic of the overlapping 5-permutation test is 96 + b/n with b about 16.467, 96 being the degrees of freedom used for the p-value; without overlap it is exactly 119, again the degrees of freedom used; and the p-value is that of the absolute value of the statistic for these degrees of freedom.", "quantifier": "every number of samples n and all orderings of the results", "why_tests_cant": "An average over factorially many orderings cannot be computed by running the test; a statistic with a slightly wrong mean would only bias p-values.", "anchors": ["libdieharder/diehard_operm5.c:diehard_operm5", "include/dieharder/diehard_operm5.h:pseudoInv"]}
{"id": "C116", "title": "Runs test: expected numbers of runs", "statement": "For n numbers whose orderings are all equally likely, the runs test counts on average n b_i runs of length i (i = 1..5, and 6 for six and more), with the constants b_i of its table, up to a constant of at most 1/2; the same for rising and falling runs.", "quantifier": "every number n >= 13 of samples, every run length, both directions, averages over all n! orderings", "why_tests_cant": "An average over all n! orderings for every n; a test run sees a handful of sequences and could not tell a wrong digit of the table from chance.", "anchors": ["libdieharder/diehard_runs.c:diehard_runs", "libdieharder/diehard_runs.c:b"]}
{"id": "C117", "title": "Runs test: the matrix is the inverse of the covariance matrix", "statement": "The 6x6 table of the runs test is the inverse of the matrix of covariances per number of the counted runs, every entry correctly rounded to the digits given.", "quantifier": "every number n >= 13 of samples, every pair of run lengths, all 36 entries", "why_tests_cant": "The covariances are averages over all n! orderings for every n, and the rounding of an inverse needs exact arithmetic.", "anchors": ["libdieharder/diehard_runs.c:a", "libdieharder/diehard_runs.c:diehard_runs"]}
{"id": "C118", "title": "Runs test: the statistic follows the distribution it is compared with", "statement": "For random numbers the statistic of the runs test has mean 6, the mean of the chi-square distribution with six degrees of freedom with which it is compared, for every sample size.", "quantifier": "every number n >= 13 of samples, rising and falling runs, averages over all n! orderings", "why_tests_cant": "The deviation is a property of the average over all orderings; single runs scatter far more than it.", "anchors": ["libdieharder/diehard_runs.c:diehard_runs"]}
{"id": "C119", "title": "The number of missing words of OPSO, OQSO and OPSO2 has the occupancy law's mean and variance", "statement": "Over all equally likely sequences of generator results, the count of missing words that OPSO, OQSO and both parts of OPSO2 report for n words of M possible ones has mean M(1-1/M)^n and variance M(1-1/M)^n + M(M-1)(1-2/M)^n - M^2(1-1/M)^(2n): the words a test takes from the generator are independent and uniform, although several come from the same results.", "quantifier": "every number n of words and every generator width with room for the letters (20, 30 or 24 bits), over all sequences of results", "why_tests_cant": "The mean and the variance are sums over 2^(32 k) sequences; simulation with one generator tests that generator as much as the program.", "anchors": ["libdieharder/diehard_opso.c:diehard_opso", "libdieharder/diehard_oqso.c:diehard_oqso", "libdieharder/dab_opso2.c:dab_opso2"]}
{"id": "C120", "title": "The expected counts and standard deviations of OPSO, OQSO and OPSO2 are those of their statistics", "statement": "For a perfect generator the statistic (expected - counted)/sigma that each test turns into a p-value has mean 0 and mean square 1 to three digits, with the constants in the program and the number of samples it uses.", "quantifier": "all equally likely sequences of generator results; the default sample numbers 2^21 and 2^26, and other numbers for OPSO", "why_tests_cant": "A three percent error of a variance shows only in tens of thousands of runs of a test of two million words each, and then cannot be told from a defect of the generator.", "anchors": ["libdieharder/diehard_opso.c:diehard_opso", "libdieharder/diehard_oqso.c:diehard_oqso", "libdieharder/dab_opso2.c:dab_opso2", "libdieharder/Xtest.c:Xtest_eval"]}
{"id": "C121", "title": "The expected count and standard deviation of DNA are those of its statistic", "statement": "For a perfect generator of 32-bit results the number of words that do not occur among the 2^21 words of the DNA test has the mean and the standard deviation that the test uses.", "quantifier": "all equally likely sequences of generator results; the default number of samples", "why_tests_cant": "The windows of one block of ten results share bits and wrap around, so the law is not that of independent words; a simulation needs tens of thousands of runs to separate the two standard deviations and cannot say which is right.", "anchors": ["libdieharder/diehard_dna.c:diehard_dna", "libdieharder/Xtest.c:Xtest_eval"]}
{"id": "C122", "title": "With fair dice the games of the craps test are independent and follow the rules' probabilities", "statement": "Among all equally likely sequences of rolls, the share in which the games of a craps test have given numbers of throws and given winners is the product, over the games, of the probability of that number of throws and that winner; and the test then counts exactly these games.", "quantifier": "all lists of results of any number of games, all lengths of the sequence of rolls that decide them", "why_tests_cant": "There are 36^L sequences of rolls; the share is an identity about all of them, for games of every length.", "anchors": ["libdieharder/diehard_craps.c:diehard_craps", "libdieharder/diehard_craps.c:roll"]}
{"id": "C123", "title": "The expected values of the craps test are those of fair dice", "statement": "The expected numbers of games by their number of throws, the expected number of wins and its standard deviation are the ones that fair dice give, for every number of games; the last bin holds the games of 21 and more throws.", "quantifier": "all numbers of games, all bins, games of unbounded length", "why_tests_cant": "The probabilities are sums over games of unbounded length; a sample shows the expected values only to a few digits.", "anchors": ["libdieharder/diehard_craps.c:diehard_craps"]}
{"id": "C124", "title": "The chi-square statistic of independent samples has its degrees of freedom as mean", "statement": "When the samples of a test are independent and equally likely and the expected counts given to the vector test are exact, the mean of the statistic over all sequences of samples is the number of degrees of freedom from which the p-value is computed, plus the probability of the cells that are left out because even together they do not reach the cutoff.", "quantifier": "All finite sets of outcomes and assignments to cells, all numbers of samples from one on, all positive cutoffs; in exact arithmetic.", "why_tests_cant": "It is a statement about the average over all sequences of samples, whose number grows exponentially.", "anchors": ["libdieharder/Vtest.c:Vtest_eval", "include/dieharder/Vtest.h"]}
{"id": "C125", "title": "The DCT test computes the discrete cosine transform", "statement": "For every vector of words whose length is at most 4 or a power of two, the transform computed by way of the Fourier transform is the discrete cosine transform of type II of the words, the same as the direct sum; the inverse transform undoes it for every length.", "quantifier": "All vectors of words of usable length; in exact arithmetic, the GSL's real radix-2 Fourier transform being what its documentation says.", "why_tests_cant": "The claim is an identity of real-valued functions of every vector; a test compares a few vectors up to a tolerance.", "anchors": ["libdieharder/dab_dct.c:fDCT2", "libdieharder/dab_dct.c:fDCT2_fft", "libdieharder/dab_dct.c:iDCT2"]}
{"id": "C126", "title": "The DCT coefficients of random words are standardised exactly", "statement": "When all vectors of words are equally likely, every coefficient of the transform, the first one adjusted as the test does it, has mean zero and is uncorrelated with the others, and all coefficients have the same variance, which is the square of the standard deviation the test divides by, up to the relative error 4^-w of w-bit words.", "quantifier": "All usable lengths, all word widths from one bit on, all pairs of coefficients; in exact arithmetic.", "why_tests_cant": "The averages run over all vectors of words, 2^(w len) of them.", "anchors": ["libdieharder/dab_dct.c:dab_dct"]}
{"id": "C127", "title": "The DCT test counts positions of the largest coefficient or falls back to p-values", "statement": "With more than five vectors per position, the test counts every vector at the first position where its adjusted transform is largest in absolute value, and returns the chi-square p-value of the counts against equal shares with one degree of freedom less than positions; with fewer it returns the Kolmogorov-Smirnov p-value of the p-values of all coefficients.", "quantifier": "All lists of vectors of usable length and all numbers of samples for which the vectors are read without undefined behaviour (see C48).", "why_tests_cant": "The property ranges over all sequences of words, and ties or zero vectors are too rare to appear in tests.", "anchors": ["libdieharder/dab_dct.c:dab_dct"]}
{"id": "C128", "title": "The parking lot test parks exactly the cars that do not crash", "statement": "Whatever deviates in [0,1) the generator returns, the parking lot test parks exactly those of its attempts whose car overlaps none of the cars parked before it (no more than one apart in both directions, up to half a unit in the last place of the rounded difference), never leaves its array of 12000 places, draws two deviates per attempt, and its count lies between one twenty-fifth of the number of unit squares of the 100 by 100 lot that were hit and that number, so between 1 and 10000.", "quantifier": "every sequence of deviates, every number of attempts and every starting point", "why_tests_cant": "The sequences of 24000 deviates cannot be enumerated; a wrong boundary in the crash test or an overflow of the array would appear only for particular positions.", "anchors": ["libdieharder/diehard_parking_lot.c:diehard_parking_lot"]}
{"id": "C129", "title": "The p-value of the parking lot test is that of its count", "statement": "The parking lot test draws exactly 24000 deviates and its p-value is the normal distribution function with standard deviation 21.9 of 3523 less the number of parked cars, the subtraction being exact.", "quantifier": "every sequence of deviates in [0,1)", "why_tests_cant": "Every reachable count would have to be produced by a suitable generator.", "anchors": ["libdieharder/diehard_parking_lot.c:diehard_parking_lot", "libdieharder/Xtest.c:Xtest_eval"]}
{"id": "C130", "title": "The table of the second tree-filling test is the law of fair bits", "statement": "The second tree-filling test fills each tree by the bits of the generator's words, least significant first, and stops at the first descent that finds no free place. On fair bits the trees are independent, each ends after at most 127 descents at one of 64 slots with all slots equally likely, and the program's 127 nonzero table entries are the chances of the numbers of descents to a relative error of 4e-15.", "quantifier": "every generator with words of 1 to 32 bits, every number of trees, every bit string of sufficient length", "why_tests_cant": "A table taken from simulation agrees with samples up to their noise; only the exact law over all bit strings can settle whether it is right.", "anchors": ["libdieharder/dab_filltree2.c:dab_filltree2", "libdieharder/dab_filltree2.c:insertBit", "libdieharder/dab_filltree2.c:targetData"]}
{"id": "C131", "title": "The p-values of the second tree-filling test", "statement": "From 113 samples on, the first p-value is the chi-square p-value over the bins from the first expecting at least four trees to the one before the last expecting more than four; the mean of its statistic on fair bits is its degrees of freedom plus the probability of the counts left out (81 + 3.19e-6 with 5,000,000 samples), up to 5e-15 for each bin. The second p-value is that of the likelihood-ratio statistic of the 64 slots.", "quantifier": "every generator with words of 1 to 32 bits, every number of samples from 113 to 2^32, in exact arithmetic", "why_tests_cant": "The mean of the statistic ranges over all bit strings of 762 bits per tree.", "anchors": ["libdieharder/dab_filltree2.c:dab_filltree2", "libdieharder/chisq.c:chisq_pearson", "libdieharder/chisq.c:chisq_gtest"]}
{"id": "C132", "title": "The tree-filling tests work for every number of samples", "statement": "Whatever number of samples the user asks for, the two tree-filling tests return p-values.", "quantifier": "every number of samples, every generator", "why_tests_cant": "The failing numbers of samples are far below the defaults and never tried by a test run with default settings.", "anchors": ["libdieharder/dab_filltree2.c:dab_filltree2", "libdieharder/dab_filltree.c:dab_filltree"]}
{"id": "C133", "title": "The table of the first tree-filling test is the law of random orders", "statement": "Over all orders of different numbers, the share of those in which the tree of four levels has room for exactly i numbers is the i-th table entry of the test within 2.3e-6 (within half a unit of the last digit for the first eight entries, and too small by at least 2.2e-6 for eleven numbers); the slot where the last descent ends is independent of it and uniform over the 16 slots. One tree of the program, over all sequences of 16 words of w bits and any rotation, has the same law up to 136/2^w.", "quantifier": "all sets of different numbers of any size, all orders, every width up to 32 bits and every defined rotation", "why_tests_cant": "The comment in the code says the table was estimated empirically; samples cannot tell how far it is from the true law.", "anchors": ["libdieharder/dab_filltree.c:dab_filltree", "libdieharder/dab_filltree.c:insert", "libdieharder/dab_filltree.c:targetData"]}
{"id": "C134", "title": "The p-values of the first tree-filling test", "statement": "From 20 samples on, on nonzero words of 7 to 31 bits, the first p-value is the chi-square p-value of the numbers of words over the bins from the first expecting at least four trees to the one before the last expecting more than four, and the second that of the 16 slots against the number of samples divided by 16 and rounded down.", "quantifier": "every generator with nonzero words of 7 to 31 bits, every number of samples from 20 on, in exact arithmetic", "why_tests_cant": "All streams of words would have to be tried.", "anchors": ["libdieharder/dab_filltree.c:dab_filltree", "libdieharder/chisq.c:chisq_pearson"]}
{"id": "C135", "title": "The count-the-1s tests compare the right statistic with its exact mean", "statement": "From 79280 samples on (the default is 256000), the p-value of each count-the-1s test is the normal distribution function, with sigma sqrt(5000), of 2500 minus the difference of Pearson's statistics of the five- and of the four-letter words, the expected counts being the exact shares of the bytes with each letter. For any number of samples, the means of the two statistics over all sequences of 32-bit words are exactly 3124 and 624, so that the difference has mean 2500, although the words of the stream test overlap. With up to four samples the p-value does not depend on the numbers.", "quantifier": "every generator of 32-bit words, every number of samples from 79280 on (any number for the means), in exact arithmetic; the means over all sequences of words", "why_tests_cant": "The mean over all sequences of numbers is not reachable by sampling, and the dependence of overlapping words could bias it.", "anchors": ["libdieharder/diehard_count_1s_stream.c:diehard_count_1s_stream", "libdieharder/diehard_count_1s_byte.c:diehard_count_1s_byte", "libdieharder/Vtest.c:Vtest_eval", "libdieharder/Xtest.c:Xtest_eval"]}
{"id": "C136", "title": "The serial test reports NIST's psi-square differences, with chi-square means", "statement": "For every nonempty run of fewer than 2^27 words the 30 p-values of sts_serial are the normal distribution function of zeros minus ones and, for window lengths 2 to 16, the upper incomplete gamma function of half the first and (from length 3) the second difference of psi-square of NIST SP 800-22, in that order. Over all sequences of words psi-square of length m has mean exactly 2^m-1, its differences have exactly the number of degrees of freedom as their mean, and zeros minus ones has mean zero and the variance used, for every number of words.", "quantifier": "every sequence of 1 to 2^27-1 words of 32 bits, in exact arithmetic; the means over all sequences of any number of words", "why_tests_cant": "All bit strings would have to be tried.", "anchors": ["libdieharder/sts_serial.c:sts_serial"]}
{"id": "C137", "title": "The monobit test divides by the standard deviation of its statistic", "statement": "For fewer than 2^32 bits the p-value of sts_monobit is the normal distribution function of zeros minus ones with sigma the square root of the number of bits; over all sequences of w-bit words ones minus zeros has mean zero and exactly that standard deviation.", "quantifier": "every generator of words of up to 32 bits, every number of samples below 2^32 bits, in exact arithmetic; the moments over all sequences of any number of words of any positive width", "why_tests_cant": "All sequences of words would have to be tried.", "anchors": ["libdieharder/sts_monobit.c:sts_monobit", "libdieharder/Xtest.c:Xtest_eval"]}
{"id": "C138", "title": "What the STS runs test compares under fair bits", "statement": "For fewer than 2^31 bits the p-value of sts_runs is the normal distribution function of 2np(1-p) minus the number of changes around the cyclic bit string with sigma 2 sqrt(n) p(1-p), p the share of ones. Over all strings of n >= 3 bits the number of changes less 2np(1-p) has mean exactly 1/2 (not zero) and variance (n-2-2/n)/4, and the square of sigma has mean (n-2+3/n-2/n^2)/4. If all bits are equal the value zero is compared with sigma zero.", "quantifier": "every nonempty sequence of words of 1 to 32 bits with fewer than 2^31 bits, in exact arithmetic; the moments over all sequences of words with at least three bits", "why_tests_cant": "All bit strings would have to be tried.", "anchors": ["libdieharder/sts_runs.c:sts_runs", "libdieharder/Xtest.c:Xtest_eval"]}
{"id": "C139", "title": "The bitstream test expects the right number of missing words", "statement": "When all bit sequences are equally likely, the number of 20-bit words that do not occur among the first n overlapping words of the stream is on average 2^20 (1-2^-20)^n up to 19 (1-(1-2^-20)^n), for every n the test's buffer has room for. With the default 2^21 words the count the program makes, in counters that wrap at 256, is on average between 141892.7 and 141925.7; the program compares it with 141909 and a deviation of 428, so the statistic its p-value is computed from is 0 on average up to 0.04. With half a million words or fewer the same constants are used and the statistic is below -890 for every generator.", "quantifier": "every sequence of the 262146 results the test reads; every number of words up to 8388640", "why_tests_cant": "A test sees a few sequences; the mean over all of them and the effect of the overlaps and of the wrapping counters need an argument.", "anchors": ["libdieharder/diehard_bitstream.c:diehard_bitstream", "libdieharder/Xtest.c:Xtest_eval"]}
{"id": "C140", "title": "The file named with -f is the file used", "statement": "The -f option given last names the file that the file generators read and that -o writes.", "quantifier": "every sequence of command-line options and every file name of any length", "why_tests_cant": "names of every length cannot be enumerated; a test would use short names", "anchors": ["dieharder/parsecl.c:parsecl", "dieharder/globals.c:filename", "dieharder/rdieharder.c:rdieharder", "libdieharder/rng_file_input.c:file_input_set", "dieharder/output_rnds.c:output_rnds"]}
{"id": "C141", "title": "-g chooses the generator asked for", "statement": "The -g option given first chooses the generator with exactly the given number or name; anything else, and a file generator without a file, is refused; without -g the default generator is used.", "quantifier": "every sequence of command-line options, every argument of -g and every table of generators", "why_tests_cant": "all argument strings and all combinations of options cannot be enumerated", "anchors": ["dieharder/parsecl.c:parsecl", "dieharder/choose_rng.c:select_rng", "dieharder/set_globals.c:set_globals"]}
{"id": "C142", "title": "The byte distribution test's statistic has the distribution its p-value assumes", "statement": "For a generator of fair bits the sum of the nine chi-square statistics of dab_bytedistrib has mean 2295, the number of degrees of freedom used, and the variance 2*2295 of chi-square (up to 1 - 1/tsamples), and the p-value is computed from all cells.", "quantifier": "every word width from 8 to 32, every number of samples, the average over all sequences of words", "why_tests_cant": "the average runs over 2^(96 tsamples) sequences", "anchors": ["libdieharder/dab_bytedistrib.c:dab_bytedistrib", "libdieharder/Vtest.c:Vtest_eval"]}
{"id": "C143", "title": "The lagged sums test assumes the right mean and variance of the sum of uniform deviates", "statement": "For every lag and number of samples, with all words of the generator equally likely, the sum that rgb_lagged_sums computes has the mean tsamples/2 and the variance tsamples/12 that it is compared with, for generators of any width and however they form their uniform deviates.", "quantifier": "every lag, sample number, word width; all sequences of words", "why_tests_cant": "a test can draw a few sequences; the moments are averages over all (2^w)^(tsamples(lag+1)) sequences", "anchors": ["libdieharder/rgb_lagged_sums.c:rgb_lagged_sums", "libdieharder/Xtest.c:Xtest_eval", "libdieharder/rng_file_input.c:file_input_get_double"]}
{"id": "C144", "title": "Vtest's chi-square statistic has the variance of Pearson's statistic for independent samples", "statement": "For n independent samples from any finite distribution, given to Vtest with the exact expected counts and any positive cutoff, the variance of the statistic is 2(m-1+q^2)(1-1/n) + (sum of the reciprocals of the m terms' probabilities - m^2 - 4q(m-1+q))/n, where m is the number of terms and q the probability of the cells that are left out; if nothing is left out it lies between 2(m-1)(1-1/n) and that plus m/cutoff - m^2/n.", "quantifier": "every finite distribution, every assignment of outcomes to cells, every number of samples, every cutoff; all sequences of samples", "why_tests_cant": "the variance is an average over all sequences of samples; a test sees a few of them, for one distribution", "anchors": ["libdieharder/Vtest.c:Vtest_eval"]}
{"id": "C145", "title": "The permutations test's statistic has the law of chi-square that it assumes", "statement": "For every tuple size k, generator width and number of samples, with all words equally likely, the chi-square statistic of rgb_permutations has the mean k!-1 and the variance of chi-square with k!-1 degrees of freedom, so that its p-values are those of a fair generator.", "quantifier": "every tuple size, width, number of samples; every tie-breaking by the sort; all sequences of tuples", "why_tests_cant": "the moments are averages over all sequences of samples, and hold for every order the sort may give to ties", "anchors": ["libdieharder/rgb_permutations.c:rgb_permutations", "libdieharder/Vtest.c:Vtest_eval"]}
{"id": "C146", "title": "The bit distribution test computes a usable p-value for every ntuple size", "statement": "For every ntuple size up to 31 and every number of samples, with all bits fair, rgb_bitdist compares the number of times a value is shown among 64 draws with its exact (binomial) law, its statistic has the degrees of freedom used for the p-value as its mean whichever value is chosen, and a fair generator does not fail the test with certainty.", "quantifier": "every ntuple size, number of samples, chosen value; all sequences of draws", "why_tests_cant": "the law is an average over 2^(64 nb tsamples) sequences; a failure that is certain for some sizes looks like a bad generator in a test", "anchors": ["libdieharder/rgb_bitdist.c:rgb_bitdist", "libdieharder/Vtest.c:Vtest_eval"]}
{"id": "C147", "title": "The combination of several p-values into one and the p-value of the block-of-ones test", "statement": "When a test makes several p-values and reports the most extreme one corrected for their number, the reported value is small exactly when one of them is suspiciously near 0 and has a uniform law if they are independent and uniform; the monobit test over blocks (dab_monobit2) reports for every accepted number of levels and samples the combination of one chi-square p-value per level, and never leaves its table.", "quantifier": "all lists of p-values; all finite symmetric laws of independent p-values; all generators of 1 to 32 bits, level numbers and sample numbers", "why_tests_cant": "the law of the corrected extreme value is a statement about all lists of p-values, and the cases in which no level is tested at all depend on width and sample number together", "anchors": ["libdieharder/dab_dct.c:evalMostExtreme", "libdieharder/dab_monobit2.c:dab_monobit2", "libdieharder/chisq.c:chisq_binomial"]}
{"id": "C148", "title": "The p-value of the birthday spacings tests", "statement": "For every width of generator and every number of samples the birthday spacings tests compare the numbers of samples with 0, 1, 2, ... repeated spacings with the Poisson law of parameter m^3/(4n), and the p-value depends on what the generator produces.", "quantifier": "all generators, widths of 1 to 32 bits, numbers of samples and of birthdays, and all laws of the number of repeated spacings", "why_tests_cant": "whether any sample enters the statistic depends on width, number of birthdays and number of samples together; a test run shows a p-value in every case", "anchors": ["libdieharder/diehard_birthdays.c:diehard_birthdays", "libdieharder/dab_birthdays1.c:dab_birthdays1", "libdieharder/chisq.c:chisq_poisson"]}
{"id": "C149", "title": "The Jenkins generator program writes the one-at-a-time hashes and never degenerates", "statement": "The program writes, as its k-th number, the one-at-a-time hash of k zero bytes; its sequence returns to the first number, within a period no number occurs twice, no number is 0, and each number determines those that follow.", "quantifier": "all positions in the sequence and every amount that can be written", "why_tests_cant": "the statement covers the whole sequence of up to 2^32 numbers and all its continuations", "anchors": ["libdieharder/rng_jenkins.c:main"]}
{"id": "C150", "title": "The seed shown reproduces the run", "statement": "Giving -S a seed makes the rows of a run independent of the random source and of timing; a run started from a random seed is repeated by giving the seed it shows; with per-test reseeding each row is repeated by running its test alone with the seed in that row.", "quantifier": "every generator, list of tests, seed, random source, strategy and rate setting", "why_tests_cant": "Depends on every seed (including 0 and numbers beyond 32 bits), on the history of tests run before in the process and on the random source.", "anchors": ["dieharder/choose_rng.c:choose_rng", "dieharder/run_test.c:execute_test", "dieharder/time_rng.c:time_rng", "libdieharder/rgb_timing.c:rgb_timing", "libdieharder/random_seed.c:random_seed", "dieharder/parsecl.c:parsecl", "libdieharder/static_get_bits.c:get_rand_bits_uint"]}
{"id": "C151", "title": "The speed shown is draws per second", "statement": "The rands/second in the report is the number of random numbers drawn in the timing loop divided by the time the loop took.", "quantifier": "every number of passes and of draws per pass, every sequence of clock readings", "why_tests_cant": "The product of the two counts wraps only for runs of 2^32 draws and more, which no test suite times.", "anchors": ["libdieharder/rgb_timing.c:rgb_timing", "libdieharder/timing.c:delta_timing", "dieharder/time_rng.c:time_rng"]}
{"id": "C152", "title": "binomial is the binomial probability", "statement": "The library function binomial(n,k,p) returns the probability of k successes in n independent trials of probability p, for every n and k; over k the values add up to 1.", "quantifier": "every number of trials, of successes and every probability", "why_tests_cant": "An identity over all reals p and all n; the failing arguments lie beyond the range of the factorial of the library.", "anchors": ["libdieharder/prob.c:binomial"]}
{"id": "C153", "title": "Every generator listed can be chosen by its number", "statement": "The list printed by -g -1 (or after a wrong -g) shows every generator available, each with the number that chooses it with -g, and nothing else.", "quantifier": "every set of GSL generators (fewer than 200), every set of devices, every listed entry and every command line giving its number", "why_tests_cant": "The table depends on the GSL version and the devices of the machine; a test sees one of them.", "anchors": ["libdieharder/dieharder_rng_types.c:dieharder_rng_types", "dieharder/list_rngs.c:list_rngs", "dieharder/choose_rng.c:select_rng"]}
{"id": "C154", "title": "Generator numbers are the same on every machine", "statement": "The number of a generator does not depend on what else the machine offers, so scripts with -g numbers mean the same everywhere.", "quantifier": "every set of GSL generators and devices", "why_tests_cant": "Needs machines with different devices and GSL versions.", "anchors": ["libdieharder/dieharder_rng_types.c:dieharder_rng_types"]}
{"id": "C155", "title": "The uniformity test judges the numbers drawn, in any order", "statement": "The KS uniformity test (-d 204) takes tsamples nonzero numbers from the generator and no more than needed, and its p-value is that of the chosen Kolmogorov-Smirnov test of these numbers: neither their order nor the zeros between them matter. It delivers a p-value for every generator and every number of samples.", "quantifier": "every stream of numbers in [0,1), every number of samples, every -k, every correct sort", "why_tests_cant": "Ranges over all streams and orders; the failing numbers of samples are 2^31 and more.", "anchors": ["libdieharder/rgb_kstest_test.c:rgb_kstest_test", "libdieharder/kstest.c:kstest", "libdieharder/kstest.c:kstest_kuiper"]}
{"id": "C156", "title": "Every run without -S gets its own seed", "statement": "Without a seed on the command line, runs that read different bytes from /dev/urandom, or start at different times when there is no such device, use different seeds.", "quantifier": "every reading of the device, every pair of instants of the clock", "why_tests_cant": "Ranges over all pairs of instants; equal seeds arise 999999 microseconds apart, which a test meets only by chance.", "anchors": ["libdieharder/random_seed.c:random_seed"]}
{"id": "C157", "title": "The list of tests shows the tests there are and how to use them", "statement": "dieharder -l shows every test once, in the order of the numbers, each with the number that chooses it with -d; a number not shown is refused. -a runs the tests shown except those marked as not to be used.", "quantifier": "every state of the test table, every command line, every number, every ntuple setting", "why_tests_cant": "Relates the listing to every command line that could follow it.", "anchors": ["dieharder/list_tests.c:list_tests", "libdieharder/dieharder_test_types.c:dieharder_test_types", "dieharder/run_test.c:run_test", "dieharder/run_all_tests.c:run_all_tests"]}
{"id": "C158", "title": "The command line decides what is run, and status 0 means it was", "statement": "With a generator chosen, -a runs the whole suite (whatever -d says), otherwise the one test of -d is run, -o writes numbers and runs no test, and nothing else is run. The exit status is 0 only if what was asked for has been done.", "quantifier": "every command line of options, every set of generators and devices, every behaviour of the tests", "why_tests_cant": "Ranges over all command lines and machines.", "anchors": ["dieharder/dieharder.c:main", "dieharder/choose_rng.c:choose_rng", "dieharder/parsecl.c:parsecl", "dieharder/run_test.c:run_test", "dieharder/run_all_tests.c:run_all_tests"]}
{"id": "C159", "title": "The supergenerator is built from the generators asked for", "statement": "With -g 207 and further -g options the supergenerator combines exactly the generators given, each seeded with its own output of the seeding generator; setting a new seed starts them all afresh and keeps nothing of the old ones. Numbers that cannot be combined are refused.", "quantifier": "every table of generators, every list of -g numbers, every sequence of seeds", "why_tests_cant": "Ranges over all lists of generators and all sequences of reseedings.", "anchors": ["libdieharder/rng_XOR.c:XOR_set", "dieharder/choose_rng.c:select_rng", "dieharder/run_test.c:execute_test"]}
{"id": "C160", "title": "The lag given with -x is the lag used", "statement": "The library test named after the gorilla test adds every lag-th number of the generator, with the lag given by -x (2 without -x), and draws lag*tsamples numbers, for every value of -x.", "quantifier": "every generator stream, every double given with -x, every number of samples", "why_tests_cant": "Ranges over all doubles; the failing ones make a test draw 2^32 numbers per sample.", "anchors": ["libdieharder/marsaglia_tsang_gorilla.c:marsaglia_tsang_gorilla", "dieharder/parsecl.c:parsecl"]}
{"id": "C161", "title": "The divisors of the gcd test are compared with the right chi-square law", "statement": "When marsaglia_tsang_gcd is run on independent uniform numbers, the chi-square statistic of the divisors found has as its mean the number of degrees of freedom its p-value is computed with, and that number is positive.", "quantifier": "every number of samples, every law of the divisors, all sequences of samples", "why_tests_cant": "the mean is over all sequences of samples; a test sees a few of them and a bias of less than one degree of freedom in several hundred", "anchors": ["libdieharder/marsaglia_tsang_gcd.c:marsaglia_tsang_gcd", "libdieharder/Vtest.c:Vtest_eval"]}
{"id": "C162", "title": "The table of the numbers of divisions is the law of uniform pairs", "statement": "The gcd test compares the numbers of divisions Euclid's algorithm makes with a table of probabilities. The table is the law of these numbers for two independent uniform nonzero 32-bit numbers, its expected counts add up to the number of samples, and no pair falls in a cell that expects none.", "quantifier": "all pairs of nonzero 32-bit numbers, every number of samples, every table of counts, all sequences of samples", "why_tests_cant": "there are 2^64 pairs; the table was made by sampling, and no sample shows that one of its entries is not exact", "anchors": ["libdieharder/marsaglia_tsang_gcd.c:kprob", "libdieharder/marsaglia_tsang_gcd.c:marsaglia_tsang_gcd", "libdieharder/Vtest.c:Vtest_eval"]}
{"id": "C163", "title": "The example test takes the lag the user gives", "statement": "The example test a user interface registers as number 600 adds up uniform deviates sampled with the lag the user specifies, and turns the sum of the requested number of samples into a p-value.", "quantifier": "every value of -n, -x, -t and -a, every stream of numbers, every position in it", "why_tests_cant": "whether an option has any influence is a statement about all its values; a run with one value looks as random as another", "anchors": ["dieharder/user_template.c:user_template", "libdieharder/std_test.c:create_test", "libdieharder/rgb_lagged_sums.c:rgb_lagged_sums"]}
{"id": "C164", "title": "Help describes the chosen test", "statement": "With -h the program prints the description of the test chosen with -d, by its number or by its name; with -a it prints the descriptions of all registered tests, each once and in the order of their numbers; otherwise it prints the summary of the options. A bad option comes before -l, -l before -F, -F before -h, and each of them ends the program with status 0 before any test is run.", "quantifier": "all command lines made of options", "why_tests_cant": "The output depends on every combination of options, their order, and every test number and name.", "anchors": ["dieharder/help.c:help", "dieharder/parsecl.c:parsecl"]}
