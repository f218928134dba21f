# Design of the formal model of dieharder

The code under study is `/repo` (eddelbuettel/dieharder, C).  It is read as
text; nothing is built or run.  This file says what is modelled, how each
property is proved and what has to be trusted.

## 1. Shape of the model

* Plain Gallina functions over `list`, `nat`, `N`, `Z`, `option` and records.
  No axioms of our own, no functors, no module types, no section-less
  variables.
* `unsigned int` values are `N` with explicit reduction `mod 2^32`
  (`mod 2^64` for `unsigned long`); `int` values are `Z` where signedness
  matters, and overflow is an outcome.
* Every C function that can exit, run into undefined behaviour or loop forever
  returns `outcome A := Ok a | Exit code | UB reason | OutOfFuel`.  Array
  accesses go through checked accessors that return `UB` out of bounds.
* Static and global variables are explicit state records.
* Calls to the outside (`gsl_rng_get`, `fscanf`, `fread`) are inputs: a stream
  `nat -> N` with a position, or a list, or a function argument.  Special
  functions of GSL and libm (incomplete gamma, normal distribution function,
  `pow`, `exp`, binomial and Poisson densities) are arguments of the model;
  where a theorem needs one to be the mathematical function, that is a
  hypothesis in its statement.
* Loops are folds, structural recursion, or recursion on fuel; running out of
  fuel is `OutOfFuel`, and theorems state that the outcome is `Ok`.
* Floating point.  The numerical code is written once, over a record `arith`
  of operations.  `doubles` instantiates it with IEEE binary64 of Flocq
  (`binary_float 53 1024`, round to nearest even), `reals` with exact real
  arithmetic.  A theorem about `doubles` speaks about the rounded
  computation; a theorem about `reals` about the formula the program
  evaluates.  The notes in MANIFEST.json say which reading is used.
* Probabilities are averages over finite lists of all equally likely inputs
  (`average`, `lists_samples`); no measure theory is used.

Files: `*Model.v` (and `*Stat.v`) hold definitions only, with a comment citing
the file and lines modelled; `*Spec.v` holds the small independent
specifications; `*Lemmas.v`, `*Law.v` hold proofs; `Prop*.v` holds the
property theorems, the examples that show the hypotheses are met, and
`Print Assumptions`.

Naming: the theorems of property Cnn start with `Cnn_`.  `_refuted` marks a
theorem that the property as stated is false of the code (a finding); the
other theorems of that property then say what does hold.  `_partial` marks a
proved part.  A property is `proved` in MANIFEST.json only if its full
statement is proved.

## 2. Properties: what is modelled, how it is proved

| Id | Title | Modelled | Proof | Theorems in | Status |
|----|-------|----------|-------|-------------|--------|
| C01 | Bit masks and bit windows select exactly the requested bits | `b_umask`, `b_window` | bitwise extensionality with `N.testbit` against "bit k of the result is set iff ..." | PropBits.v | proved |
| C02 | Rotations rotate | `b_rotate_left`, `b_rotate_right`, `cycle` | bitwise, index arithmetic modulo 32 | PropBits.v | proved |
| C03 | get_bit_ntuple returns the cyclic bit window of a bit string | `get_bit_ntuple` with its mask and carry loops | loop invariant: result holds the first rlen bits of the cyclic window | PropBits.v | proved |
| C04 | get_ntuple_cyclic copies a cyclic window of up to 32 bits | `get_ntuple_cyclic`, all five rules, exits and bounds | case analysis on the rule taken, bitwise, for ntuple <= 32 | PropCyclic.v | proved |
| C05 | get_ntuple_cyclic copies windows longer than 32 bits | same model | refuted by a computed witness; the exact set of bad (offset, ntuple) is characterised if feasible | PropCyclic.v | refuted as stated; rest proved |
| C06 | get_uint_rand on a 32-bit generator delivers the generator's words unchanged and in order | `get_uint_rand` + static state | invariant over the number of calls | PropStream.v | proved |
| C07 | get_uint_rand repackages the bits of narrower generators without loss or corruption | same model | refuted by witness (31 and 16 bit) | PropStream.v | refuted as stated; rest proved |
| C08 | get_rand_bits deals out the generator's bit stream without skipping or repeating bits | `get_rand_bits` + static state, on top of C04 | refinement: state represents a position in the infinite bit stream; induction over the request list | PropStream.v | proved |
| C09 | Resetting the bit buffers makes runs reproducible | `reset_bit_buffers` | equality of observable behaviour from any two states after reset | PropStream.v | proved |
| C10 | get_rand_bits_uint deals out the generator's bit stream in order | `get_rand_bits_uint` | refinement to a bit stream position | PropStream.v | proved |
| C11 | A full-width request to get_rand_bits_uint preserves stream order | same model | refuted by witness | PropStream.v | refuted as stated; rest proved |
| C12 | get_rand_pattern returns the requested pattern of bits | `get_rand_pattern` | every accepted pattern exits (general theorem, the refutation) | PropStream.v | refuted as stated; rest proved |
| C13 | Binary dumps and binary strings round-trip | `bit2uint`, text produced by `dumpbits` | induction on the number of digits | PropBits.v | proved |
| C14 | binary_rank computes the GF(2) rank (up to 32 columns) | `binary_rank` | elimination invariant: span preserved; rank = log2 of the size of the row space, and via a Gaussian-elimination-free definition (max size of an independent subset of rows) | PropRank.v | proved |
| C15 | binary_rank computes the GF(2) rank for wider matrices | same model | refuted by witness | PropRank.v | refuted as stated; rest proved |
| C16 | A test run accumulates exactly the requested number of p-values | `create_test`, `std_test`, `add_2_test` bookkeeping; statistic as oracle | induction over calls | PropEngine.v | proved |
| C17 | A p-value of exactly zero does not corrupt the accounting | same | refuted by witness | PropEngine.v | refuted as stated; rest proved |
| C18 | execute_test terminates and stops for the documented reason | `execute_test` loop over the oracle of p-values | measure Xoff - psamples | PropEngine.v | proved |
| C19 | execute_test terminates for every threshold the command line accepts | same | refuted: for every fuel the loop has not stopped | PropEngine.v | refuted as stated; rest proved |
| C20 | Assessment of a p-value | assessment decision in `output_table_line` | case analysis, monotonicity | PropReport.v | proved |
| C21 | The p-value histogram counts every p-value exactly once | `histogram` binning | induction over the list of p-values | PropReport.v | proved |
| C22 | Chi-square tail bundling conserves the counts | `Vtest_eval` bundling loop | loop invariant over the index | PropReport.v | proved |
| C23 | Reading an ASCII number file is cyclic and complete | `file_input_get` and counters | induction over reads | PropFile.v | proved |
| C24 | Reading a raw binary file is cyclic and complete | `file_input_raw_get/set` | induction over reads | PropFile.v | refuted as stated; rest proved |
| C25 | Numbers written by dieharder -o can be read back | printing (`%10u`) and scanning (`fscanf %u`) of decimal numbers, header lines | digit round trip, induction over the list | PropFile.v | refuted as stated; rest proved |
| C26 | Field splitting | `split` | induction over the characters against "maximal runs" | PropFile.v | refuted as stated; rest proved |
| C27 | rmax_bits is the bit width of the selected generator | bit counting loop in `select_rng` | loop invariant on shifts | PropGens.v | proved |
| C28 | The XOR generator combines one draw of each component | `XOR_get` | refuted: first component's role and double draw of the second | PropGens.v | refuted as stated; rest proved |
| C29 | Generators stay within their declared range | step functions of the generators | range invariants; superkiss refuted | PropCa.v, PropCipherGens.v, PropGens.v, PropR.v | refuted as stated; rest proved |
| C30 | Reseeding a generator reproduces its sequence | set functions | equality; cellular automaton and shared R state refuted | PropCa.v, PropCipherGens.v, PropGens.v, PropR.v | refuted as stated; rest proved |
| C31 | The AES used by the AES_OFB generator is AES-128 as standardised | T-table AES and FIPS-197 | tables checked by computation over all 256 bytes, linearity of xor | PropAes.v | proved |
| C32 | The two Threefish-512 implementations agree and are permutations | reference loop and unrolled rounds | symbolic equality of rounds; inverse function | PropThreefish.v | proved |
| C33 | The birthday-spacings count is the number of repeated intervals | counting loop | refuted by witnesses; correct characterisation for lists without adjacent runs | PropBirthdays.v | refuted as stated; rest proved |
| C34 | kperm numbers the orderings of five values | `kperm` | finite sweep over orderings lifted by order-isomorphism | PropKperm.v | proved |
| C35 | Missing-word counting | word extraction + counters | bitwise; counting lemma; char counter wrap refuted | PropMissing.v | refuted as stated; rest proved |
| C36 | Count-the-1s letters and words | letter table and index update | finite sweep on bytes, induction on the stream | PropCountOnes.v | proved |
| C37 | Runs up and down are counted completely | run counting loop | loop invariant | PropRuns.v | proved |
| C38 | The craps test plays craps | game loop | refinement to rules of craps | PropCraps.v | proved |
| C39 | The GCD test computes gcds and step counts | Euclid loop | `N.gcd` and step-count spec | PropGcd.v | proved |
| C40 | Bit counting is exact | SWAR popcount | digit-wise decomposition | PropPopcount.v | proved |
| C41 | Serial test frequencies | window extraction and counters | bitwise | PropSerial.v | refuted as stated; rest proved |
| C42 | STS runs: transitions | boundary counting | cyclic induction | PropSerial.v | refuted as stated; rest proved |
| C43 | Bit-distribution conservation | histogram updates | counting invariants | PropBitdist.v | proved |
| C44 | The minimum-distance sweep finds the minimum distance | sweep | sortedness + pruning argument on integers/rationals | PropSphere.v, PropSphere2.v | proved |
| C45 | Command-line output flags | flag parsing | finite sweep for names, refuted for the last field | PropCli.v | refuted as stated; rest proved |
| C46 | run -a covers every registered test and leaves the settings as they were | schedule as a list | list reasoning | PropCli.v | refuted as stated; rest proved |
| C47 | Fill-tree insertion stays in bounds | tree insertion | bounds invariant, refuted for dab_filltree counters | PropTree.v | refuted as stated; rest proved |
| C48 | Rotation of samples in the DCT and fill-tree tests is defined | `RotL` with shift UB | bitwise; UB refutation | PropTree.v | refuted as stated; rest proved |
| C49 | Resetting the bit buffers also resets the small-request bit buffer | reset and small-request buffer | witness computed in the model | PropStream.v | refuted as stated; rest proved |
| C50 | A request for N p-values is honoured | add_2_test loop | closed form min(psamples, Xoff) by induction on the calls | PropEngine.v | refuted as stated; rest proved |
| C51 | Clearing a test makes it start over | clear_test against create_test | case analysis; witness for the rounded default | PropEngine.v | refuted as stated; rest proved |
| C52 | A p-value that is not a number is never reported as a pass | verdict and histogram on NaN | case analysis over the comparison outcomes | PropReport.v | refuted as stated; rest proved |
| C53 | A chi-square evaluation accounts for all the data and can be repeated | Vtest_eval with its in-place tail | witnesses; C22 gives the characterisation | PropReport.v | refuted as stated; rest proved |
| C54 | operm5 numbers orderings of full-range values | kperm copied into int | order isomorphism for the signed order | PropKperm.v | refuted as stated; rest proved |
| C55 | operm5 counts every window once | operm5 window loop | counting invariant | PropKperm.v | proved |
| C56 | The closing comparison of diehard_runs | closing comparison of diehard_runs | induction over rising sequences | PropRuns.v | refuted as stated; rest proved |
| C57 | The craps test finishes | roll loop of craps | non-termination for a stuck stream by induction on fuel; termination for periodic streams by pigeonhole | PropCraps.v | refuted as stated; rest proved |
| C58 | The GCD test can be run with any sample counts | static table of the gcd test | state invariant; witness for the stale table | PropGcd.v | refuted as stated; rest proved |
| C59 | The GCD test finishes | draw-until-nonzero loop | induction on fuel | PropGcd.v | refuted as stated; rest proved |
| C60 | Bit windows out of one word | bit windows | bitwise extensionality | PropMissing.v | proved |
| C61 | Overlapping words overlap | word extraction of OPSO, OQSO, DNA, bitstream | bitwise; witnesses | PropMissing.v | refuted as stated; rest proved |
| C62 | Bitstream accepts every number of samples | buffer index of bitstream | bound on the index, witness at the limit | PropMissing.v | refuted as stated; rest proved |
| C63 | dab_opso2 counts missing words | dab_opso2 tables | counting invariant | PropMissing.v | proved |
| C64 | dab_opso2 bit masks are defined | mask table | undefined shift made explicit | PropMissing.v | refuted as stated; rest proved |
| C65 | Count-the-1s expectations | count-the-1s expectation tables | exact rational computation | PropCountOnes.v | proved |
| C66 | Birthdays histogram | birthdays histogram | counting invariant | PropBirthdays.v | proved |
| C67 | The monobit statistic is ones minus zeros | monobit bit counter | counting invariant modulo 2^32 | PropPopcount.v | refuted as stated; rest proved |
| C68 | dab_monobit2 counts the ones of every block | dab_monobit2 block table | invariant on the partial sums of every level | PropPopcount.v | refuted as stated; rest proved |
| C69 | Byte-distribution table | byte distribution table | counting invariant; undefined shift | PropRgb.v | refuted as stated; rest proved |
| C70 | Permutations test counts orderings | permutation counts | counting invariant; k! modulo 2^32 | PropRgb.v | refuted as stated; rest proved |
| C71 | Persistent bits are reported exactly | persist masks | bitwise fold | PropRgb.v | proved |
| C72 | Lagged sums use every (lag+1)-th number | lagged sums loop | list reasoning with an abstract addition | PropRgb.v | proved |
| C73 | Second fill-tree test counts every tree once, in bounds | dab_filltree2 insertion | array invariant: occupied slots form a tree | PropTree.v | proved |
| C74 | Different seeds give the AES_OFB generator different key streams' keys | AES_OFB seeding | key bytes as a function of the seed | PropAes.v | refuted as stated; rest proved |
| C75 | The Threefish_OFB generator is a key stream fixed by its seed | Threefish_OFB | refinement to the key stream | PropThreefish.v | proved |
| C76 | Reseeding does not accumulate open files | file_input reopening | count of open handles by induction | PropFile.v | refuted as stated; rest proved |
| C77 | Files of uniform deviates are scaled to 32-bit numbers | sscanf and cast of a deviate | cast semantics on rationals | PropFile.v | refuted as stated; rest proved |
| C78 | Malformed data lines are rejected | line parsing | case analysis on sscanf results | PropFile.v | refuted as stated; rest proved |
| C79 | The kiss generator never degenerates | kiss components | matrix over GF(2), factorisation of 2^32-1, orders in Z/p | PropGens.v | proved |
| C80 | The shift register of superkiss runs through every nonzero value | superkiss register | matrix order over GF(2) | PropGens.v | refuted as stated; rest proved |
| C81 | Uniform numbers lie in [0,1) | uniform scaling | Flocq doubles | PropR.v, PropUniform.v | refuted as stated; rest proved |
| C82 | Different seeds give different sequences | cellular automaton | each step is injective | PropCa.v | proved |
| C83 | R_mersenne_twister is the Mersenne twister | R Mersenne twister | refinement to the MT19937 recurrence | PropR.v | proved |
| C84 | R_knuth_taocp and R_knuth_taocp2 are two different generators | R Knuth TAOCP | refinement to one lagged Fibonacci sequence | PropR.v | refuted as stated; rest proved |
| C85 | No seed makes R_marsaglia_multicarry degenerate | R multicarry | multiplicative orders modulo a*2^16-1 | PropR2.v | refuted as stated; rest proved |
| C86 | R generators in use at the same time do not influence each other | shared R state | state reasoning over the shared array | PropR2.v | refuted as stated; rest proved |
| C87 | R_wichmann_hill has period 6953607871644 for every seed | R Wichmann-Hill | orders modulo the three primes, lcm | PropR2.v | proved |
| C88 | The -d option runs the requested test | -d parsing, strtol and names | string induction, finite sweep over names | PropCli2.v | refuted as stated; rest proved |
| C89 | Numeric options are taken exactly | numeric options | strtol and double conversion | PropCli2.v | refuted as stated; rest proved |
| C90 | Parsing the command line is memory safe | option table writes | invariant on the counters | PropCli3.v | refuted as stated; rest proved |
| C91 | Several -g options combine the generators, each with its seed | XOR seed tables | state reasoning over the option loop | PropCli3.v | refuted as stated; rest proved |
| C92 | The table of tests can be loaded again | test table loading | invariant on the counters over calls | PropCli3.v | refuted as stated; rest proved |
| C93 | rgb_minimum_distance runs safely for every n-tuple setting | rgb_minimum_distance | array bounds by case analysis | PropSphere3.v | refuted as stated; rest proved |
| C94 | The reported minimum distance is a distance between two points | minimum distance start value | witness; sortedness argument with C44 | PropSphere3.v | refuted as stated; rest proved |
| C95 | The superkiss generator produces its published sequence | superkiss step | refinement to three recurrences | PropSuperkiss.v | proved |
| C96 | The combined p-value does not depend on the order of the p-values | kstest over doubles | sortedness determines the sorted list | PropKs.v | proved |
| C97 | The statistic of the KS test is the Kolmogorov-Smirnov distance | kstest statistic | rounding bounds with Flocq | PropKs.v | refuted as stated; rest proved |
| C98 | The exact KS p-value is the formula of Marsaglia, Tsang and Wang | p_ks_new / matrix power | the program read over real numbers, equal to the published formula | PropKs2.v, PropKs5.v | proved |
| C99 | The combined p-value is a probability | kstest verdict | series cut-off computed for all n | PropKs3.v | refuted as stated; rest proved |
| C100 | A NaN among the p-values shows in the verdict | NaN through qsort and the statistic | case analysis on IEEE comparisons | PropKs3.v | refuted as stated; rest proved |
| C101 | The KS test works for every number of p-values | matrix dimension in int | bounds; witness | PropKs4.v | refuted as stated; rest proved |
| C102 | The Kuiper test ends | kuiper series | the term never becomes small: induction on rounds | PropKs4.v | refuted as stated; rest proved |
| C103 | For 5000 or more p-values the combined p-value is Kolmogorov's limit distribution | Q_ks | the program over reals, alternating series remainder | PropKs5.v | proved |
| C104 | The Kuiper test evaluates Kuiper's statistic | kuiper statistic | rounding bounds with Flocq | PropKs5.v | refuted as stated; rest proved |
| C105 | Chi-square p-values are those of Pearson's statistic | chisq_pearson, _poisson, _geometric | fold equal to Pearson's sum; forward error analysis | PropChisq.v | proved |
| C106 | The binomial chi-square test notices missing and misplaced counts | chisq_binomial | fold over the bins above ten | PropChisq2.v | refuted as stated; rest proved |
| C107 | The uniform likelihood-ratio test | chisq_uint_uniform_gtest | formula over reals; int overflow explicit | PropChisq3.v | refuted as stated; rest proved |
| C108 | The test of independence of a table | chisq2d | formula over reals; NaN witness over doubles | PropChisq3.v | refuted as stated; rest proved |
| C109 | The sums test turns overlapping sums into independent normal values | diehard_sums | linear algebra over reals: the covariance matrix of the sums | PropSums.v | refuted as stated; rest proved |
| C110 | The sums test is safe for every number of samples | diehard_sums indices | bounds | PropSums.v | refuted as stated; rest proved |
| C111 | The squeeze test counts the steps of each sample | squeeze loop | counting invariant, rounding of the product | PropSqueeze.v | proved |
| C112 | The squeeze test compares with the right law | squeeze table | Newton's identities and interval arithmetic | PropSqueeze2.v | proved |
| C113 | The rank tests count by rank and compare with the exact law | rank tables | counting matrices by rank; correct rounding of each entry | PropRankLaw.v | proved |
| C114 | The matrix of the overlapping-permutations test inverts the covariance matrix of its counts | operm5 pseudo-inverse | linear extensions of overlapping windows; certificates | PropOperm.v | proved |
| C115 | The statistic of the permutations test has the mean of its reference distribution | operm5 statistic | trace identity with C114 | PropOperm.v | proved |
| C116 | Runs test: expected numbers of runs | runs expectation | counting arrangements by relative order | PropRunsLaw.v | proved |
| C117 | Runs test: the matrix is the inverse of the covariance matrix | runs matrix | exact covariances by shared windows; certified inverse | PropRunsLaw.v | proved |
| C118 | Runs test: the statistic follows the distribution it is compared with | runs statistic | trace with the exact covariance | PropRunsLaw.v | refuted as stated; rest proved |
| C119 | The number of missing words of OPSO, OQSO and OPSO2 has the occupancy law's mean and variance | missing words | occupancy law: mean and variance over all sequences | PropMissingLaw.v | proved |
| C120 | The expected counts and standard deviations of OPSO, OQSO and OPSO2 are those of their statistics | opso/oqso constants | C119 with interval bounds | PropMissingLaw.v | refuted as stated; rest proved |
| C121 | The expected count and standard deviation of DNA are those of its statistic | DNA constants | exact second moments by blocks of words | PropDnaLaw.v | refuted as stated; rest proved |
| C122 | With fair dice the games of the craps test are independent and follow the rules' probabilities | craps games | product law of games over all roll sequences | PropCrapsLaw.v | proved |
| C123 | The expected values of the craps test are those of fair dice | craps tables | series over the rules | PropCrapsLaw.v | proved |
| C124 | The chi-square statistic of independent samples has its degrees of freedom as mean | Vtest over reals | mean of Pearson's statistic over all samples | PropVtestLaw.v | proved |
| C125 | The DCT test computes the discrete cosine transform | iDCT2/fDCT2 | trigonometric identities over reals | PropDct.v | refuted as stated; rest proved |
| C126 | The DCT coefficients of random words are standardised exactly | DCT moments | orthogonality of the cosines, independence over all vectors | PropDct.v | proved |
| C127 | The DCT test counts positions of the largest coefficient or falls back to p-values | dab_dct | both methods as folds | PropDct.v | proved |
| C128 | The parking lot test parks exactly the cars that do not crash | parking lot | invariant over attempts with Flocq doubles | PropParking.v | proved |
| C129 | The p-value of the parking lot test is that of its count | parking lot p-value | formula | PropParking.v | proved |
| C130 | The table of the second tree-filling test is the law of fair bits | filltree2 table | tree law by recursion on coin strings | PropTreeLaw.v | proved |
| C131 | The p-values of the second tree-filling test | filltree2 p-values | folds over reals | PropTreeLaw.v | proved |
| C132 | The tree-filling tests work for every number of samples | filltree limits | negative bin count made explicit | PropTreeLaw.v, PropTreeOrder.v | refuted as stated; rest proved |
| C133 | The table of the first tree-filling test is the law of random orders | filltree table | random binary search tree law by counting orders | PropTreeOrder.v | proved |
| C134 | The p-values of the first tree-filling test | filltree p-values | folds over reals | PropTreeOrder.v | proved |
| C135 | The count-the-1s tests compare the right statistic with its exact mean | count-the-1s statistic | mean over all byte sequences | PropBitStat.v | proved |
| C136 | The serial test reports NIST's psi-square differences, with chi-square means | sts_serial | mean over all bit sequences | PropBitStat.v | proved |
| C137 | The monobit test divides by the standard deviation of its statistic | sts_monobit | mean and variance over all bit sequences | PropBitStat.v | proved |
| C138 | What the STS runs test compares under fair bits | sts_runs | mean and variance over all bit sequences | PropBitStat.v | proved |
| C139 | The bitstream test expects the right number of missing words | bitstream | expected missing words by overlap counting (autocorrelation bound) | PropBstream.v | proved |
| C140 | The file named with -f is the file used | -f handling | string induction | PropFileName.v | refuted as stated; rest proved |
| C141 | -g chooses the generator asked for | -g handling | strtol model, string induction | PropChoose.v | refuted as stated; rest proved |
| C142 | The byte distribution test's statistic has the distribution its p-value assumes | dab_bytedistrib statistic | mean and variance over all words | PropBytes.v | refuted as stated; rest proved |
| C143 | The lagged sums test assumes the right mean and variance of the sum of uniform deviates | rgb_lagged_sums moments | independence over all word sequences | PropLagged.v | refuted as stated; rest proved |
| C144 | Vtest's chi-square statistic has the variance of Pearson's statistic for independent samples | Vtest variance | second moments over all samples | PropVtestVar.v | proved |
| C145 | The permutations test's statistic has the law of chi-square that it assumes | rgb_permutations statistic | share of each order with ties | PropOrders.v | refuted as stated; rest proved |
| C146 | The bit distribution test computes a usable p-value for every ntuple size | rgb_bitdist statistic | binomial law of the counts, C124 and C144 | PropBitdistLaw.v | refuted as stated; rest proved |
| C147 | The combination of several p-values into one and the p-value of the block-of-ones test | evalMostExtreme, dab_monobit2 | symmetry and tail of the extreme of independent values; fold over the levels | PropMost.v | refuted as stated; rest proved |
| C148 | The p-value of the birthday spacings tests | birthdays_kmax, chisq_poisson | search induction, Pearson fold, mean over all samples | PropBirthdays2.v | refuted as stated; rest proved |
| C149 | The Jenkins generator program writes the one-at-a-time hashes and never degenerates | rng_jenkins | injectivity of step and output, pigeonhole | PropJenkins.v | proved |
| C150 | The seed shown reproduces the run | choose_rng, time_rng, execute_test seeding, random_seed, get_rand_bits_uint | induction over the list of tests, buffer invariant | PropSeeds.v | refuted as stated; rest proved |
| C151 | The speed shown is draws per second | rgb_timing, delta_timing | sum of passes, real arithmetic, double division by zero | PropTiming.v | refuted as stated; rest proved |
| C152 | binomial is the binomial probability | prob.c binomial | Pascal recurrence, binomial theorem | PropProb.v | refuted as stated; rest proved |
| C153 | Every generator listed can be chosen by its number | dieharder_rng_types, list_rngs, select_rng | array induction, composition with C141 | PropRngTable.v | proved |
| C154 | Generator numbers are the same on every machine | dieharder_rng_types | array induction | PropRngTable.v | refuted as stated; rest proved |
| C155 | The uniformity test judges the numbers drawn, in any order | rgb_kstest_test, gsl_rng_uniform_pos | induction over draws, composition with C96, C97, C104 | PropUniformity.v | refuted as stated; rest proved |
| C156 | Every run without -S gets its own seed | random_seed | modular arithmetic | PropRandomSeed.v | refuted as stated; rest proved |
| C157 | The list of tests shows the tests there are and how to use them | list_tests, dieharder_test_types, run_test | array induction, composition with C88 and C46 | PropListTests.v | refuted as stated; rest proved |
| C158 | The command line decides what is run, and status 0 means it was | main, choose_rng, parsecl, run_test, run_all_tests | induction over options, composition with C46, C88, C141 | PropMain.v | refuted as stated; rest proved |
| C159 | The supergenerator is built from the generators asked for | XOR_set, gsl_rng_alloc | induction over the loop and over fuel | PropXorSeed.v | refuted as stated; rest proved |
| C160 | The lag given with -x is the lag used | marsaglia_tsang_gorilla | real arithmetic of the cast, composition with C72 | PropGorilla.v | refuted as stated; rest proved |
| C161 | The divisors of the gcd test are compared with the right chi-square law | chi-square of the divisors in marsaglia_tsang_gcd | sums over the table, moments over all samples as in C124 | PropGcdChisq.v, PropGcdLaw.v | refuted as stated; rest proved |
| C162 | The table of the numbers of divisions is the law of uniform pairs | chi-square of the numbers of divisions, table kprob | counting divisors in blocks, list enumeration, composition with C39 and C124 | PropGcdSteps.v | refuted as stated; rest proved |
| C163 | The example test takes the lag the user gives | user_template, create_test, rgb_lagged_sums | composition with C72 | PropTemplate.v | refuted as stated; rest proved |
| C164 | Help describes the chosen test | help, the end of parsecl | projection of the switches over the options, C157 | PropHelp.v | refuted as stated; rest proved |

## 3. Trusted base

* Coq 8.16.1: kernel and its virtual machine (`vm_compute`).  `coqchk`, which
  does not use the virtual machine, accepts the compiled files.
* `Print Assumptions` stands under the theorems in the `Prop*.v` files; section
  4 records what it lists for each theorem.
* The libraries used: the standard library and Flocq (binary64 arithmetic);
  from these only definitions and
  proved lemmas, no axioms except those of the standard library in section 4.
* The reading of the C code: the model is tied to the source by the line
  citations in the comments only.
* C semantics assumed: `int` and `unsigned int` are 32 bit, `unsigned long` 64
  bit, `double` is IEEE binary64 evaluated without extra precision,
  little-endian byte order where the code copies bytes, two's complement.
* Seeded faults (`seeded/LOG.jsonl`): for each edit of the model the theorems
  that fail are computed from the first failing lemmas and the dependency
  graph of the files; a definition's own unfolding lemma failing counts as a
  failure of the theorems that use it.

## 4. Axioms

No axioms of our own.  Some theorems depend on axioms of Coq's standard
library, through its real numbers (`Coq.Reals`), which Flocq also uses:

* N - `ClassicalDedekindReals.sig_not_dec`
* D - `ClassicalDedekindReals.sig_forall_dec`
* F - `FunctionalExtensionality.functional_extensionality_dep`
* C - `Classical_Prop.classic`

(The checker's list of library axioms also names the fields of the standard
library's module type of real numbers, `Coq.Reals.Rdefinitions`, and of
`Under_rel` of ssreflect; they are instantiated there, not assumed.)

What `Print Assumptions` lists:

* Closed under the global context (275 theorems): C01_umask, C01_umask_out_of_range, C01_window, C01_window_out_of_range, C02_cycle, C02_cycle_period, C02_rotate_edges, C02_rotate_left, C02_rotate_right, C02_rotations_inverse, C03_from_uint, C03_from_whole_uint, C03_get_bit_ntuple, C03_zero_length_refuted, C04_get_ntuple_cyclic, C05_accepted_windows, C05_long_window_refuted, C05_rejected_windows, C06_get_uint_rand_32, C07_actual_words, C07_clean_words_partial, C07_narrow_generators_refuted, C08_all_requests, C08_get_rand_bits, C08_narrow_generators, C08_small_results_are_zero, C09_reset_reproducible, C10_get_rand_bits_uint, C10_result_fits, C11_full_width_aligned_partial, C11_full_width_refuted, C12_accepted_patterns_exit, C12_get_rand_pattern_refuted, C12_other_patterns, C13_dumpbits_text, C13_round_trip, C14_binary_rank, C14_rank_tests_count, C14_rank_unique, C15_wide_matrices_refuted, C23_cyclic, C23_rewinds, C24_cyclic, C24_second_refuted, C24_small_refuted, C25_binary, C25_large_refuted, C25_uint, C26_fields, C26_long_refuted, C26_split, C26_strings, C27_width, C28_actual, C28_alone_refuted, C28_refuted, C29_XOR, C29_aes, C29_ca, C29_dev_random, C29_dev_random_refuted, C29_kiss, C29_superkiss_bound, C29_superkiss_refuted, C29_threefish, C29_uvag, C30_aes, C30_ca_ignored, C30_ca_refuted, C30_kiss, C30_superkiss, C30_threefish, C30_uvag_refuted, C30_uvag_reset_partial, C31_decrypt, C31_encrypt, C31_ofb, C31_roundtrip, C31_schedule, C32_agree, C32_permutation, C32_reference, C32_rotation, C32_unrolled, C32_zero_count, C33_exact, C33_isolated_partial, C33_overrun_refuted, C33_undercount_refuted, C34_all_numbers, C34_kperm, C35_bitstream, C35_bitstream_exact, C35_counter_wraps_refuted, C35_dna, C35_dna_exact, C35_opso, C35_oqso, C36_byte, C36_stream, C36_totals, C37_runs, C38_craps, C38_only_craps, C39_euclid, C39_tables, C40_countx, C40_monobit, C41_frequencies_partial, C41_wrap_refuted, C42_overflow_refuted, C42_runs_partial, C43_conservation, C43_histograms, C43_limits, C45_accepted, C45_default_fields, C45_default_twice_refuted, C45_flags, C45_listing, C45_name_refuted, C45_refused, C45_twice_refuted, C46_all_tests, C46_run_all, C46_user_refuted, C47_few_refuted, C47_filltree_partial, C47_stuck_refuted, C47_zeros_refuted, C48_dct_few_refuted, C48_dct_partial, C48_dct_refuted, C48_filltree_refuted, C48_injective_partial, C48_rotation_partial, C48_undefined_refuted, C49_rand_bits_uint_reset_refuted, C54_full_range_order_refuted, C54_signed_order, C55_operm5_counts, C56_closing_step_refuted, C57_always_finishes_refuted, C57_periodic_finishes, C58_second_call_refuted, C58_small_run_refuted, C59_zero_stream_refuted, C60_ntuple_from_uint, C60_ntuple_from_whole_uint, C61_bitstream_overlaps, C61_overlapping_words_refuted, C62_many_samples_refuted, C63_opso2, C64_mask_set_up_refuted, C65_expected, C65_sum, C66_histogram, C67_statistic_partial, C67_wrap_refuted, C68_blocks, C68_first_block_refuted, C68_regions_overlap_refuted, C69_bytes_partial, C69_narrow_refuted, C70_large_refuted, C70_permutations, C71_persist, C72_lagged, C73_filltree2, C73_filltree2_bits, C74_seed_distinct_partial, C74_seed_high_refuted, C75_seed_distinct, C75_stream, C76_leak_refuted, C76_raw, C78_blank_refuted, C78_text, C79_alive, C79_period, C80_no_repeat, C80_period, C80_short_refuted, C82_ca_seeds, C88_by_name, C88_by_number, C88_every_test, C88_garbage_refuted, C88_last_refuted, C89_samples, C89_samples_refuted, C89_settings, C90_generators_refuted, C90_safe, C90_seeds_refuted, C91_combined_refuted, C91_seeds_refuted, C92_overrun_refuted, C92_reload_partial, C92_twice_refuted, C95_sequence, C107_refuted, C110_deviates, C110_refuted, C112_sum, C113_law, C113_table_32x32, C113_table_6x8, C122_program, C130_program, C133_sixteen, C140_file, C140_file_refuted, C141_by_name, C141_by_number, C141_default, C141_garbage_refuted, C147_limit, C149_hash, C149_next, C149_nonzero, C149_period, C150_big_seed_refuted, C150_later_row_refuted, C150_left_over, C150_leftover_refuted, C150_multiples, C150_pieces_tidy, C150_replay, C150_reproducible, C150_row_alone, C150_row_seeds, C150_whole_words_tidy, C150_zero_refuted, C151_overflow_refuted, C153_choose, C153_listed, C154_device_refuted, C154_fixed, C154_numbers, C156_clock, C156_device, C156_device_all, C156_far, C156_few, C156_refuted, C156_same_second, C156_short_refuted, C157_all, C157_choose, C157_do_not_use_refuted, C157_listed, C157_marks, C158_all, C158_bad_option_refuted, C158_neither, C158_one, C158_output, C158_unknown_refuted, C159_leak_refuted, C159_missing_refuted, C159_nested_refuted, C159_seeded, C160_nonfinite_refuted, C161_law, C162_shape, C162_table_refuted, C163_lag_refuted, C163_other, C163_routine, C164_all, C164_documented_refuted, C164_name_refuted, C164_number, C164_order.

* Axioms D, F (54 theorems): C112_step, C112_table, C114_covariance, C114_independent, C114_inverse, C114_mean, C114_no_more_relations, C114_relations, C116_expected, C117_covariance, C117_inverse, C119_opso, C119_opso2_pair, C119_opso2_single, C119_oqso, C122_games, C130_complete, C130_independent, C130_slots, C130_table, C131_bins, C131_default, C131_mean, C133_eleven, C133_slots, C133_table, C133_words, C133_words_slots, C134_bins, C135_byte_mean, C135_stream_mean, C136_means, C136_pearson, C139_unseen, C142_mean, C142_narrow_refuted, C142_variance, C142_wide, C143_moments, C143_own, C145_different, C145_mean, C145_narrow_refuted, C146_binomial, C146_same, C148_mean, C152_binomial, C152_many_refuted, C152_over_refuted, C152_total, C160_default, C160_fraction_refuted, C160_lag, C160_range_refuted.

* Axioms N, D, F (92 theorems): C98_exact, C98_verdict, C105_geometric, C105_pearson, C105_poisson, C106_bins, C108_independence, C109_first, C109_marsaglia, C109_overlapping, C109_refuted, C109_values, C115_disjoint, C115_overlapping, C115_pvalue, C118_mean, C118_mean_refuted, C118_pvalues, C120_opso, C120_opso2, C120_oqso_refuted, C120_other_samples_refuted, C120_pvalues, C121_dna_mean, C121_dna_program, C121_dna_refuted, C123_last, C123_throws, C123_win_moments, C123_wins, C124_mean, C125_direct, C125_inverse, C125_inverse_even, C125_inverse_odd_refuted, C125_transform, C126_law, C127_fallback, C127_primary, C127_test, C132_first_refuted, C134_pvalues, C135_byte, C135_few, C135_stream, C136_pvalues, C137_moments, C137_pvalue, C138_constant, C138_moments, C138_pvalue, C139_few, C139_pvalue, C142_few, C142_pvalue, C143_gsl, C143_narrow_refuted, C143_pvalue, C144_bounds, C144_equal, C144_variance, C145_few, C145_pvalue, C146_few, C146_moments, C146_pvalue, C146_rare_refuted, C147_few_refuted, C147_levels, C147_mean, C147_none_refuted, C147_reverse, C147_single_refuted, C147_small, C147_tail, C147_uniform, C147_uniform_small, C148_blind_refuted, C148_pvalue, C151_rate, C151_refuted, C151_wrapped, C161_enough, C161_expected, C161_mean, C161_mean_refuted, C161_statistic, C161_total, C162_counts, C162_mean, C162_possible, C162_total.

* Axioms N, D, F, C (96 theorems): C16_accumulation, C17_restart, C17_zero_pvalue_refuted, C18_execute_test, C19_nan_refuted, C19_xfail_zero_refuted, C20_assessment, C21_deciles, C21_every_value_counted_once, C22_bundling, C22_counts_conserved, C29_R, C30_R, C30_R_any, C44_2d, C44_3d, C44_all_pairs, C44_rgb, C50_default_mode, C50_request_honoured_refuted, C51_clear_test, C51_scaled_below_one_refuted, C52_nan_histogram_refuted, C52_nan_reported_passed_refuted, C53_ndof_wraps_refuted, C53_not_repeatable_refuted, C53_tail_dropped_refuted, C77_float_refuted, C81_R, C81_closed, C81_device_refuted, C81_distinct, C81_kiss_refuted, C83_twister, C84_same_refuted, C85_exact, C85_lower_refuted, C85_upper_refuted, C86_overrun_refuted, C86_shared_refuted, C87_period, C93_dimension_refuted, C93_safe, C94_start_refuted, C96_order, C97_bounds, C97_refuted, C98_quick, C99_refuted, C100_many_refuted, C100_refuted, C101_refuted, C101_safe, C102_refuted, C103_series, C104_bounds, C104_refuted, C104_series, C105_rounding, C105_rounding_poisson, C105_rounding_vtest, C106_blind, C106_refuted, C107_gtest, C107_sign, C108_refuted, C110_safe, C111_counts, C111_exact, C111_step, C111_zero, C112_expected, C113_counts_32x32, C113_counts_6x8, C113_expected_32x32, C113_expected_6x8, C124_program, C128_count, C128_parked, C129_pvalue, C131_pvalues, C132_few_refuted, C139_mean, C148_default, C148_narrow_dab_refuted, C148_narrow_refuted, C151_zero_refuted, C155_distance, C155_draws, C155_kuiper, C155_many_kuiper_refuted, C155_many_refuted, C155_one, C155_order, C155_zeros_refuted, C161_small_refuted.

## 5. Modelled and not modelled

Source files of which at least one function is modelled (the comments of the
`.v` files give functions and lines):

`Vtest.c`, `Xtest.c`, `add_ui_rngs.c`, `add_ui_tests.c`, `bits.c`, `chisq.c`, `choose_rng.c`, `countx.c`, `dab_birthdays1.c`, `dab_bytedistrib.c`, `dab_dct.c`, `dab_filltree.c`, `dab_filltree2.c`, `dab_monobit2.c`, `dab_opso2.c`, `diehard_2dsphere.c`, `diehard_3dsphere.c`, `diehard_birthdays.c`, `diehard_bitstream.c`, `diehard_count_1s_byte.c`, `diehard_count_1s_stream.c`, `diehard_craps.c`, `diehard_dna.c`, `diehard_operm5.c`, `diehard_operm5.h`, `diehard_opso.c`, `diehard_oqso.c`, `diehard_oqso.h`, `diehard_parking_lot.c`, `diehard_rank_32x32.c`, `diehard_rank_6x8.c`, `diehard_runs.c`, `diehard_squeeze.c`, `diehard_sums.c`, `dieharder.c`, `dieharder_rng_types.c`, `dieharder_rng_types.h`, `dieharder_test_types.c`, `dieharder_test_types.h`, `globals.c`, `help.c`, `kstest.c`, `libdieharder.h`, `list_rngs.c`, `list_tests.c`, `marsaglia_tsang_gcd.c`, `marsaglia_tsang_gorilla.c`, `output.c`, `output.h`, `output_rnds.c`, `parse.c`, `parse.h`, `parsecl.c`, `prob.c`, `random_seed.c`, `rank.c`, `rgb_bitdist.c`, `rgb_kstest_test.c`, `rgb_lagged_sums.c`, `rgb_lagged_sums.h`, `rgb_minimum_distance.c`, `rgb_permutations.c`, `rgb_persist.c`, `rgb_timing.c`, `rijndael-alg-fst.c`, `rng_XOR.c`, `rng_aes.c`, `rng_ca.c`, `rng_dev_arandom.c`, `rng_dev_random.c`, `rng_dev_urandom.c`, `rng_file_input.c`, `rng_file_input_raw.c`, `rng_jenkins.c`, `rng_kiss.c`, `rng_stdin_input_raw.c`, `rng_superkiss.c`, `rng_threefish.c`, `rng_uvag.c`, `rngs_gnu_r.c`, `run_all_tests.c`, `run_test.c`, `set_globals.c`, `skein.h`, `skein_block64.c`, `skein_block_ref.c`, `skein_port.h`, `static_get_bits.c`, `std_test.c`, `sts_monobit.c`, `sts_runs.c`, `sts_serial.c`, `time_rng.c`, `timing.c`, `user_template.c`, `user_template.h`.

Source files without a model (help texts, examples, files the build does not
include, or code not reached):

`diehard_runs_working.c`, `dieharder_exit.c`, `histogram.c`, `list_rand.c`, `rdieharder.c`, `rgb_lmn.c`, `rgb_operm.c`, `rng_empty_random.c`, `rngav.c`, `sample.c`, `testbits.c`, `version.c`.

Outside the model in all files: GSL's own generators and special functions,
memory allocation failure, printing layout except where a property needs it,
wall-clock time, signals.  The accuracy of p-values as doubles is covered only
where a theorem is about `doubles` (C81, C96-C102, C104, C105, C107, C108,
C111, C113, C128).

## 6. Findings

Statements a user would expect and that are false of the code; the theorem
`Cnn_..._refuted` proves it for the model.

* **C03** get_bit_ntuple returns the cyclic bit window of a bit string: Stated for 1..32 bits. C03_zero_length_refuted records that a zero-length request returns the unmasked word.
* **C05** get_ntuple_cyclic copies windows longer than 32 bits: C05_long_window_refuted. The two other theorems say exactly which windows make the program exit and that all others are copied correctly.
* **C07** get_uint_rand repackages the bits of narrower generators without loss or corruption: C07_narrow_generators_refuted. C07_actual_words says exactly what every call returns for every width below 32; C07_clean_words_partial says which words are right.
* **C11** A full-width request to get_rand_bits_uint preserves stream order: C11_full_width_refuted. C11_full_width_aligned_partial: right when nothing is buffered.
* **C12** get_rand_pattern returns the requested pattern of bits: C12_get_rand_pattern_refuted; C12_accepted_patterns_exit and C12_other_patterns describe every terminated pattern.
* **C15** binary_rank computes the GF(2) rank for wider matrices: C15_wide_matrices_refuted. Matrices up to 32 columns, the only ones the tests use, are covered by C14.
* **C17** A p-value of exactly zero does not corrupt the accounting: with all KS p-values 0.0 std_test takes the call for the first one, discards the p-values and collects the same number again (C17_restart, in general).
* **C19** execute_test terminates for every threshold the command line accepts: -Y 2 -X 0 with a KS p-value of 0.0 loops for ever; so does a NaN with the default thresholds. C18 gives termination otherwise.
* **C24** Reading a raw binary file is cyclic and complete: files of fewer than 16 words are refused (C24_small_refuted) and only the first generator of the process knows the length and wraps (C24_second_refuted). C24_cyclic proves the property for the first generator and every file of at least 16 complete words, including lengths that are not multiples of 4.
* **C25** Numbers written by dieharder -o can be read back: Proved for 1 to 2^31-1 numbers in ASCII (C25_uint) and for the binary format (C25_binary, at least 16 numbers). Refuted beyond: from 2^31 numbers on the header's count overflows atoi (C25_large_refuted).
* **C26** Field splitting: a field of 128 or more characters is not terminated, so the string found in its place runs on into the next field (C26_long_refuted). Everything else is proved for every line.
* **C28** The XOR generator combines one draw of each component: every output takes two successive draws of the first component (C28_actual gives the exact stream for every number of components); C28_refuted; with no component the generator is used unallocated (C28_alone_refuted).
* **C29** Generators stay within their declared range: Proved for XOR, kiss, uvag, AES_OFB, Threefish_OFB, the cellular automaton and the six R generators (every seed and history; the R generators never return the declared maximum); refuted for superkiss (first output exceeds UINT_MAX for every seed; bounded by 3*2^32) and for the device generators (eight bytes are read into an unsigned long declared 32 bits wide).
* **C30** Reseeding a generator reproduces its sequence: Proved for kiss, superkiss, AES_OFB, Threefish_OFB and the six R generators (C30_R_any: whatever the shared static array held) for every history. Refuted for uvag (bits left over in the shared buffer; C30_uvag_reset_partial: reproducible when the bit buffers are reset before seeding) and for the cellular automaton (C30_ca_ignored: the seed given is ignored; C30_ca_refuted: reseeding never reproduces the first 514 numbers).
* **C33** The birthday-spacings count is the number of repeated intervals: after a repeated spacing the loop skips the first element of the next group (C33_undercount_refuted) and runs past the array when the largest spacing is repeated (C33_overrun_refuted). C33_exact gives the value for every sample; C33_isolated_partial covers the samples where the claim holds.
* **C35** Missing-word counting: for DNA and bitstream: their char counters wrap, so a word that occurs a multiple of 256 times counts as missing (C35_counter_wraps_refuted); the exact count is characterised by C35_dna_exact and C35_bitstream_exact. OPSO and OQSO are proved in full.
* **C41** Serial test frequencies: for 2^27 words and more: the number of windows wraps (C41_wrap_refuted). Proved for every shorter list of words.
* **C42** STS runs: transitions: from 2^31 bits on: the int loop counter overflows (C42_overflow_refuted, for every generator). Proved for every shorter bit string and every width.
* **C45** Command-line output flags: the listed field file_rng_stat cannot be given by name (C45_name_refuted), and a field requested twice (or again after default) switches on a different field (C45_twice_refuted, C45_default_twice_refuted). For every accepted command line whose requests do not repeat a field, C45_flags gives exactly the union of the requested fields, also on top of default; C45_accepted and C45_refused say which arguments are accepted; C45_listing and C45_default_fields tie the field list to the program's -F listing.
* **C46** run -a covers every registered test and leaves the settings as they were: for tests registered by a user interface (C46_user_refuted: number 600 is never executed). C46_run_all: for every table and every user ntuple exactly the specified schedule is executed, in order, up to the test that ends the program, and ntuple is restored; C46_all_tests: with the program's table every registered test is executed.
* **C47** Fill-tree insertion stays in bounds: zero words are not stored in the tree, so a tree can take more than 20 words and the counter index leaves its table (C47_zeros_refuted); a generator stuck at zero ends the test with one p-value unset (C47_stuck_refuted); tsamples < 4 divides by zero. For nonzero words, 7 <= width < 32 and tsamples >= 4 the test is in bounds and counts exactly the search trees grown from consecutive rotated words (C47_filltree_partial). The statement for dab_filltree2 is C73.
* **C48** Rotation of samples in the DCT and fill-tree tests is defined: with a 32-bit generator the rotation by 0 shifts by 32, so the first sample of every run is undefined; dab_dct with 2 or 3 samples divides by zero. Where the shift counts are in range the macro is a rotation and injective, and the DCT test uses the four quarter turns for a quarter of the samples each (width < 32, tsamples a multiple of 4).
* **C49** Resetting the bit buffers also resets the small-request bit buffer: C49_rand_bits_uint_reset_refuted.
* **C50** A request for N p-values is honoured: the Xoff cap of add_2_test applies in the default mode too, so -p 200000 gives 100000 p-values. C50_default_mode gives min(psamples, Xoff) in general.
* **C51** Clearing a test makes it start over: when the default scaled by -m rounds to zero (create_test uses 1, clear_test 0); proved otherwise.
* **C52** A p-value that is not a number is never reported as a pass: NaN is reported PASSED for all thresholds (C52_nan_reported_passed_refuted) and makes the histogram convert NaN to int, which is undefined (C52_nan_histogram_refuted).
* **C53** A chi-square evaluation accounts for all the data and can be repeated: a tail that stays below the cutoff is dropped from the total, with no cell reaching the cutoff ndof wraps to 2^32-1, and a second evaluation counts small cells twice because the vector is modified in place. C22 characterises what is computed.
* **C54** operm5 numbers orderings of full-range values: kperm copies into int, so values of 2^31 and more compare as negative. C54_signed_order gives the order actually compared, for all 32-bit values.
* **C56** The closing comparison of diehard_runs: a rising sequence leaves no rising run in the table (for every rising sequence).
* **C57** The craps test finishes: for arbitrary generators; C57_periodic_finishes proves termination for every generator that is periodic from the start.
* **C58** The GCD test can be run with any sample counts: a first call with fewer than 165 samples keeps an empty table that later calls overrun, and counts no gcd at all. C39_tables covers calls whose table has the size in use.
* **C59** The GCD test finishes: a generator stuck at zero makes the draw-until-nonzero loop endless. C39_tables covers streams with nonzero values.
* **C61** Overlapping words overlap: the words of OPSO, OQSO and DNA do not overlap; only those of bitstream do (C61_bitstream_overlaps).
* **C62** Bitstream accepts every number of samples: from 8388641 samples on bitstream reads past its buffer; C35_bitstream covers up to 8388640.
* **C64** dab_opso2 bit masks are defined: the last mask is computed as 1<<31 in int, which is undefined.
* **C67** The monobit statistic is ones minus zeros: the number of bits is kept in 32 bits and wraps (C67_wrap_refuted). Proved whenever width*tsamples < 2^32.
* **C68** dab_monobit2 counts the ones of every block: the first block of every size >= 4 has 2^j+1 words, and an all-ones block is counted in the next size's zero cell. C68_blocks gives the exact contents of the table and shows that every access is inside it.
* **C69** Byte-distribution table: for generators of fewer than 8 bits: every run shifts by more than 31 (C69_narrow_refuted). Proved for widths 8 to 32.
* **C70** Permutations test counts orderings: for 13 and more: k! does not fit an unsigned int (C70_large_refuted). Proved for sizes up to 12.
* **C74** Different seeds give the AES_OFB generator different key streams' keys: only the low 33 bits of the seed reach the key (C74_seed_high_refuted); below 2^33 seeds are kept apart.
* **C76** Reseeding does not accumulate open files: Refuted for file_input, whose fclose is commented out (C76_leak_refuted); proved for file_input_raw (C76_raw).
* **C77** Files of uniform deviates are scaled to 32-bit numbers: Refuted: (uint) f*UINT_MAX casts before multiplying, so every deviate in [0,1) is read as 0 (C77_float_refuted).
* **C78** Malformed data lines are rejected: Refuted: for a blank line sscanf returns EOF, not 0, and the uninitialised iret is returned (C78_blank_refuted). C78_text proves rejection of lines starting with another character.
* **C80** The shift register of superkiss runs through every nonzero value: the register has period exactly 306706140 (C80_period, C80_short_refuted); it does not repeat earlier (C80_no_repeat).
* **C81** Uniform numbers lie in [0,1): C81_closed shows the number lies in [0,1] and is exactly 1 for the largest output; C81_kiss_refuted exhibits it; device generators exceed 1 (C81_device_refuted). C81_distinct: different outputs give different numbers. C81_R: the R generators stay strictly between 0 and 1.
* **C84** R_knuth_taocp and R_knuth_taocp2 are two different generators: C84_same_refuted shows both return the same integers and the same doubles for every seed (and which: one lagged Fibonacci sequence, the first hundred of every 1009 words, less one).
* **C85** No seed makes R_marsaglia_multicarry degenerate: for seed 500990680 every number is at least 4294901759, for seed 2267926323 the low half is constant; C85_exact: these and 2374165890, 2480405457 are all the seeds for which a half stops changing.
* **C86** R generators in use at the same time do not influence each other: C86_shared_refuted (after seeding another generator whose state covers it, a generator's numbers no longer depend on its own seed, for every pair with n_seed k <= n_seed k'), C86_overrun_refuted (drawing from the Mersenne twister after seeding multicarry reads before the state array).
* **C88** The -d option runs the requested test: a number followed by other characters is taken as the number (C88_garbage_refuted) and a name after a number is ignored (C88_last_refuted). Proved: the number given last (C88_by_number), the name given last when only names are given (C88_by_name), and every registered test is reachable by its name (C88_every_test).
* **C89** Numeric options are taken exactly: Refuted for -t from 2^31 on: the value is reduced modulo 2^32 or replaced by the default (C89_samples_refuted, for all such n below 2^63). Proved below 2^31 (C89_samples) and for the other settings below 2^32 (C89_settings).
* **C90** Parsing the command line is memory safe: the 101st -g or -S writes past the end of a table (C90_generators_refuted, C90_seeds_refuted, for all arguments). C90_safe: with at most 100 of each nothing undefined happens, whatever the other options.
* **C91** Several -g options combine the generators, each with its seed: Refuted: the generator tested is always the one the first -g alone selects (C91_combined_refuted, for all command lines), and what is stored as the seed of a generator is its number (C91_seeds_refuted).
* **C92** The table of tests can be loaded again: Refuted: from the 34th call tests run twice (C92_twice_refuted), from the 67th run_all_tests reads past the table (C92_overrun_refuted), because two of the counters are not reset. C92_reload_partial: up to 33 calls change nothing.
* **C93** rgb_minimum_distance runs safely for every n-tuple setting: C93_dimension_refuted (ntuple above 5 writes outside the point, ntuple 0, the default of -d 201, reads coordinates never set). C93_safe: dimensions 1 to 5 are safe.
* **C94** The reported minimum distance is a distance between two points: C94_start_refuted (two points at opposite corners: both tests report the side of the square, their starting value). With more than 3^d points the value is the least distance: C44_2d, C44_rgb.
* **C97** The statistic of the KS test is the Kolmogorov-Smirnov distance: for 1/4, 1/2, 3/4 the statistic is 0 while the distance is 1/4. C97_bounds: it is the largest |p_i - i/(n+1)| up to 2^-52, and never exceeds the distance nor falls short of it by more than 1/(n+1), up to 2^-52.
* **C99** The combined p-value is a probability: with the default -k 0 and any number of at least 5000 p-values at i/(n+1) the verdict is 2, the alternating series being cut off at its first term.
* **C100** A NaN among the p-values shows in the verdict: when all p-values are NaN the verdict is exactly 1 (C100_refuted), or 2 for 5000 or more of them with -k 0 (C100_many_refuted).
* **C101** The KS test works for every number of p-values: with -k 2 and 23200 or more p-values equal to 0 the dimension m*m overflows an int. C101_safe: with -k 0 always, with any other setting but 2 up to fifteen million p-values, and with -k 2 up to 23169, the test ends normally. Other settings above fifteen million are open.
* **C102** The Kuiper test ends: for the p-values 0, 1/n, ..., (n-1)/n, for every n from 2 on, the loop runs for at least 2^53 rounds.
* **C104** The Kuiper test evaluates Kuiper's statistic: for the p-values 0 and 1/2 the statistic is 0 instead of 1/2, because the rise is measured at i/n instead of (i+1)/n. C104_bounds: the statistic never exceeds Kuiper's and falls short by at most 1/n, up to 2^-50. C104_series: the verdict is the two series summed with doubles until they settle.
* **C106** The binomial chi-square test notices missing and misplaced counts: bins are selected by the observed, not the expected count, so bins hit at most ten times are ignored whatever is expected there (C106_blind), and a table with ten hits in every bin fits every law, with 2^32-1 degrees of freedom (C106_refuted). C106_bins says what is computed.
* **C107** The uniform likelihood-ratio test: with 46341 or more bins the correction overflows an int (C107_refuted). Up to 46340 bins C107_gtest gives the formula and C107_sign the sign and the zeros.
* **C108** The test of independence of a table: an empty row makes the statistic NaN (C108_refuted). C108_independence is the real-number reading for all tables with sum below 2^32.
* **C109** The sums test turns overlapping sums into independent normal values: C109_overlapping and C109_values prove what the program computes for every m >= 2 (the scaled overlapping sums, then Marsaglia's first three values and, from the fourth on, a formula with y[t-2] in the place of y[0]); C109_marsaglia proves that the formula left in the comment gives the identity covariance matrix; C109_refuted proves that the program's value t >= 3 has covariance -(t-2)/sqrt(2a(a-1)m) with the first value and variance 1+(t-2)/(a(a-1)), a = 2m+1-t. Exact arithmetic; rounding is not bounded.
* **C110** The sums test is safe for every number of samples: C110_refuted proves that 0 or 1 samples index outside the arrays; C110_safe and C110_deviates prove the rest: for 2 to 2^31-1 samples (as far as the KS test itself is safe, C101) there is a verdict, and it depends on the first 2m-1 deviates only.
* **C118** Runs test: the statistic follows the distribution it is compared with: C118_mean: the mean is exactly 16420650751/2724321600 + (3426216358303/311351040)/n, that is 6.0274 + 11004.35/n, because the ill-conditioned table is rounded (0.0274) and the last run is dropped half of the time (11004/n): 17 for a thousand numbers, 6.14 for the default (C118_mean_refuted). C118_pvalues: the statistics are compared with six degrees of freedom.
* **C120** The expected counts and standard deviations of OPSO, OQSO and OPSO2 are those of their statistics: true for OPSO (to 0.0009) and both parts of OPSO2 (to 1e-13), false for OQSO, which divides by 294.66, the standard deviation for overlapping words, while its words do not overlap and the count deviates by 290.33: the statistic's mean square is 0.9708. With half a million samples or fewer (an option) the OPSO statistic is below -1300 on average.
* **C121** The expected count and standard deviation of DNA are those of its statistic: the mean is right to a fiftieth of sigma (C121_dna_mean), but the standard deviation is at most 293.42 while the test divides by 337.29, the value for overlapping words, so the statistic's mean square is at most 0.758 instead of 1 (C121_dna_refuted). The law is that of the words that do not occur; C121_dna_program shows that the program reports exactly that number whenever no word occurs 256 times (its cells are chars, see C35).
* **C125** The DCT test computes the discrete cosine transform: iDCT2 (which the test does not call) divides by len/2 rounded down, so for odd lengths the result is too large by n/(n-1) (C125_inverse_odd_refuted; C125_inverse gives the result for every length from 2 on, C125_inverse_even the identity). C125_transform and C125_direct prove the part about the forward transform for all usable lengths.
* **C132** The tree-filling tests work for every number of samples: with at most 112 (second test) or 19 (first test) samples no bin expects four trees, the number of bins is a negative unsigned difference and the chi-square routine indexes with it (C132_few_refuted, C132_first_refuted). From 113 and 20 samples on C131 and C134 give the p-values.
* **C140** The file named with -f is the file used: of a name of more than 128 characters only the first 128 are kept, without a message, although the variable holds 1023 (C140_file_refuted). Proved for names of up to 128 characters (C140_file).
* **C141** -g chooses the generator asked for: a number followed by other characters is accepted as that number (C141_garbage_refuted). Proved for numerals below 2^31 and for names of fewer than 20 characters (C141_by_number, C141_by_name) and for the default (C141_default).
* **C142** The byte distribution test's statistic has the distribution its p-value assumes: below 24 bits the three bytes share bits and the variance is too large, three times too large at 8 bits (C142_narrow_refuted); with fewer than 1280 samples the p-value is constant (C142_few). Proved: the p-value (C142_pvalue), the mean (C142_mean), the variance for every width (C142_variance), which is that of chi-square from 24 bits on (C142_wide).
* **C143** The lagged sums test assumes the right mean and variance of the sum of uniform deviates: C143_moments gives the mean and variance for words of w bits divided by any d. C143_own: for 32-bit words divided by 2^32-1 (dieharder's own generators) the mean is exact and the variance right to the factor 1+2/(2^32-1). C143_gsl: for a divisor 2^w the mean is low by sqrt(3n)/2^w assumed standard deviations, the variance by the factor 1-4^-w. C143_narrow_refuted: files of numbers narrower than 32 bits are still divided by 2^32-1, so the sum is below n/2 whatever the numbers are, and by sqrt(3n)/2 standard deviations with at most 30 bits. C143_pvalue: the p-value is the Gaussian one of the difference, in exact arithmetic.
* **C145** The permutations test's statistic has the law of chi-square that it assumes: ties make the orders unequally likely. C145_different: for tuples without ties the mean is k!-1 and the variance 2(k!-1)(1-1/n). C145_mean: for all tuples the mean is k!-1+(n-1) k! u, where u is at most the square of k(k-1)/2^(w+1), negligible at 32 bits. C145_narrow_refuted: with few bits the mean is at least k!-1+(n-1)(k!/2^(wk)-1), for one bit and k=5 119+2.75(n-1). C145_pvalue: from 5 k! samples on the p-value is that of the statistic with k!-1 degrees of freedom; C145_few: below it does not depend on the numbers.
* **C146** The bit distribution test computes a usable p-value for every ntuple size: when all positive counts of a value together are expected less than 20 times (64 tsamples < 20 * 2^nb: ntuple 19 and more for the default 100000 samples, 12 for 1000) the statistic has one term and no degree of freedom, and the p-value is 0 for every sequence of draws (C146_rare_refuted, with gsl_sf_gamma_inc_Q(0,x) = 0 for x > 0); below 20 samples the p-value is constant (C146_few). Otherwise: the expected counts are exact (C146_binomial), the p-value is that of the chosen value's statistic (C146_pvalue), mean and variance of it are exact (C146_moments) and do not depend on the value (C146_same).
* **C147** The combination of several p-values into one and the p-value of the block-of-ones test: the reported value is upside down - a single p-value p is reported as 1-p (C147_single_refuted) - and dab_monobit2 with too few samples for one level (fewer than 404 for a 32-bit generator) chooses no level and reports p-value 0 for every generator (C147_none_refuted, C147_few_refuted). Proved: complements give complements, the mean is 1/2, the exact tail, the law is uniform up to r^2/2, with 1-15 levels the test is free of undefined behaviour and combines one Pearson p-value per level (bins with more than ten blocks), 16 and more levels exit. gsl_ran_binomial_pdf and gsl_sf_gamma_inc_Q are parameters; exact arithmetic.
* **C148** The p-value of the birthday spacings tests: the number of bins is found by a search upwards from 1 that stops at the first bin of at most five expected samples, also below the Poisson law's peak; then only samples with 0 or 1 repeated spacings count, and if all have two or more the p-value is a constant (C148_blind_refuted): diehard_birthdays for generators of up to 22 bits with its 100 samples (C148_narrow_refuted), dab_birthdays1 up to 27 bits with its 2000 (C148_narrow_dab_refuted). Proved: the search ends and the p-value is Pearson's for the bins found (C148_pvalue), six bins with lambda 2 by default (C148_default), the mean of the statistic for every law of the counts (C148_mean). Samples are counted as the program counts them (C33). Exact arithmetic; gsl_ran_poisson_pdf is the Poisson law; gsl_sf_gamma_inc_Q is a parameter.
* **C150** The seed shown reproduces the run: reseeding does not empty the bit buffers, so with -s 1 a row after a test that left bits over is not what its test gives alone with the same seed (leftover_refuted); without -s 1 the seed is shown beside every row but only the whole run can be repeated (later_row_refuted); -S with a multiple of 2^32 is taken as no seed (big_seed_refuted, multiples) and a random seed that comes out as 0 cannot be given back (zero_refuted). Proved: independence of the random source for all other seeds (reproducible), replay of whole runs (replay), replay of single rows and the seeds shown for tests that leave the buffers clean (row_alone, row_seeds); left_over gives the number of bits each test leaves, and tests whose pieces fill whole generator words are clean (whole_words_tidy, pieces_tidy). Assumes that setting a seed forgets the earlier state (C30).
* **C151** The speed shown is draws per second: the number of draws is multiplied as unsigned int, so from 2^32 draws on (-t 100000 -p 50000) the speed shown is that of the draws modulo 2^32 (refuted, wrapped); for multiples of 2^32 it is 0 (zero_refuted, in doubles); 2^31 draws per pass overflow the int loop variable (overflow_refuted). Proved over the reals for every smaller run and every clock (rate).
* **C152** binomial is the binomial probability: from 171 trials on, and for more successes than trials, the factorial of GSL overflows and aborts the program (many_refuted, over_refuted). Proved in exact arithmetic for up to 170 trials (binomial, total).
* **C154** Generator numbers are the same on every machine: for the device generators: they are numbered from 500 in the order in which they can be opened, so 500 is /dev/random or /dev/urandom (device_refuted). Proved for dieharder's own generators (200-209) and R's (400-405), whatever GSL and the devices are (fixed).
* **C155** The uniformity test judges the numbers drawn, in any order: from 2^31 samples on the p-value is -1 (C155_many_refuted) or the sort runs over a negative length (C155_many_kuiper_refuted), and a generator that gives only zeros is never judged (C155_zeros_refuted). Below 2^31 samples C155_draws, C155_distance, C155_kuiper, C155_order and C155_one hold for every stream that gives the samples.
* **C156** Every run without -S gets its own seed: from the clock the same seed comes again after 999999 microseconds, and n seconds give at most n+999999 seeds (C156_refuted, C156_few); a short read leaves the seed undefined (C156_short_refuted). C156_device, C156_device_all, C156_clock, C156_same_second and C156_far say exactly when seeds differ.
* **C157** The list of tests shows the tests there are and how to use them: -a runs the test marked Do Not Use (C157_do_not_use_refuted). The rest holds: C157_listed, C157_choose, C157_marks, C157_all.
* **C158** The command line decides what is run, and status 0 means it was: for the status: a generator that does not exist and an unknown option end the program with status 0 and nothing done (C158_unknown_refuted, C158_bad_option_refuted). What is run is as stated: C158_all, C158_one, C158_neither, C158_output.
* **C159** The supergenerator is built from the generators asked for: every set of generators ever made stays allocated (C159_leak_refuted); an empty number crashes (C159_missing_refuted) and the supergenerator as its own component never ends (C159_nested_refuted). C159_seeded: otherwise the generators and seeds are the right ones after any sequence of seeds.
* **C160** The lag given with -x is the lag used: between -1 and 1 (0 excepted) the lag wraps to 2^32 (C160_fraction_refuted) and at most -1, at least 2^32 or not finite the conversion is undefined (C160_range_refuted, C160_nonfinite_refuted). C160_lag and C160_default: right for 0 and for 1 <= x < 2^32.
* **C161** The divisors of the gcd test are compared with the right chi-square law: the statistic leaves out the divisor 1 but a degree of freedom is subtracted all the same, so with exact expected counts its mean is the degrees of freedom plus the probability of the divisor 1, about 0.61 (C161_mean_refuted); with so few samples that the table has at most two cells (below 1481) it is 0 with 2^32-1 degrees of freedom whatever the numbers (C161_small_refuted, with doubles). C161_expected, C161_total, C161_enough, C161_statistic, C161_mean: the expected counts, at least 100 in each cell, the statistic and its mean for any law, in exact arithmetic; by C124_program the same text with doubles is the model of Vtest_eval. C161_law: as many pairs have the divisor k as coprime pairs exist up to 1/k of the range, the reason for the expected counts 1/k^2; that the share of coprime pairs tends to 6/pi^2 is not proved.
* **C162** The table of the numbers of divisions is the law of uniform pairs: the share of pairs with one division is smaller than the table's 5.39e-9 (C162_table_refuted, over all 2^64 pairs). The effect on a p-value is negligible, the cell expects 0.05 of ten million samples. C162_total, C162_counts, C162_possible, C162_shape: the table adds up to 1 exactly, the counts to their number, every pair falls in a cell with a positive entry, one peak at 19. C162_mean: for samples that follow the table the statistic has its degrees of freedom as mean, but for cells left out with less than 5 expected samples (exact arithmetic; C124_program links the text to doubles).
* **C163** The example test takes the lag the user gives: the routine takes the lag from the test's ntuple, which create_test sets to 0 and nothing changes, so consecutive numbers are added whatever -n and -x say (C163_lag_refuted). C163_routine: with an ntuple in the test the routine would use every (ntuple+1)-th number. C163_other: test 203, from the same text, copies -n there first. The number of samples is as asked. The command line program does not register the test (add_ui_tests is not called by main).
* **C164** Help describes the chosen test: proved for tests chosen by number, for -a and for the order of the outputs, and every array access is in bounds; but a test chosen by its name is never described, because names are only looked up when a test is run, and the example given in the summary of the options itself (dieharder -D 3 -h) describes no test.
