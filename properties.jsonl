{"id": "C01", "title": "Power-of-two helpers are exact", "statement": "is_power_of_two(n) returns true exactly when n = 2^k for some k; next_power_of_two(n) returns the least power of two that is >= n for every 1 <= n <= 2^63, and panics for other n; min_u64 and max_u64 return the smaller and the larger of two sizes. The mcl backend's is_power_of_2 and next_pow_of_2 do the same, except that next_pow_of_2 gives one for zero and is_power_of_2 panics on zero.", "quantifier": "every 64-bit machine word n", "why_tests_cant": "there are 2^64 inputs and the bit tricks have boundary cases at every power of two", "anchors": ["blst-from-scratch/src/utils.rs: is_power_of_two, next_power_of_two, min_u64, max_u64", "mcl-kzg/kzg/src/utilities.rs: is_power_of_2, next_pow_of_2"]}
{"id": "C02", "title": "Logarithm helpers are exact on their domain", "statement": "log_2_byte(b) is floor(log2 b) for every non-zero byte, log2_u64(n) is floor(log2 n) for every non-zero u64, and log2_pow2(n) = k for n = 2^k with k < 32 (and is wrong for larger powers of two). The mcl backend's log_2 gives the floor of the logarithm of every 64-bit word, and zero for zero.", "quantifier": "every u8 / u64 value", "why_tests_cant": "the domain is 2^64 values; the mask constants of log2_pow2 only cover 32 bits", "anchors": ["blst-from-scratch/src/utils.rs: log_2_byte, log2_pow2, log2_u64", "mcl-kzg/kzg/src/utilities.rs: log_2"]}
{"id": "C03", "title": "Bit-reversal reordering is an involutive permutation", "statement": "For every vector whose length is a power of two, reverse_bit_order moves the element at position i to the position whose binary digits are those of i reversed; it loses no element and applying it twice restores the input. mcl's reverse_bits_limited(length, value) reverses the bits of the value within the number of bits of the length, and is its own inverse on values of at most that many bits. Deviations: order_by_rev_bit_order of mcl panics on one-element vectors, reverse_bit_order on empty ones, and reverse_bits_limited for the length zero.", "quantifier": "every power-of-two length and every content", "why_tests_cant": "length is unbounded; in-place swaps can double-swap or drop elements only at particular sizes", "anchors": ["blst-from-scratch/src/utils.rs: reverse_bit_order", "mcl-kzg/kzg/src/utilities.rs: order_by_rev_bit_order", "mcl-kzg/kzg/src/utilities.rs: reverse_bits_limited"]}
{"id": "C04", "title": "Field exponentiation agrees with repeated multiplication", "statement": "Fr::pow(x, n) equals x multiplied by itself n times (x^0 = 1) for every field element and every exponent, in the blst-from-scratch and zkcrypto backends.", "quantifier": "every field element x and every exponent n", "why_tests_cant": "infinitely many pairs; square-and-multiply has one branch per bit of n", "anchors": ["blst-from-scratch/src/types/fr.rs: pow", "mcl-kzg/kzg/src/trait_implementations/fr.rs: pow", "zkcrypto/src/zkfr.rs: pow"]}
{"id": "C05", "title": "Roots-of-unity table of FFTSettings::new", "statement": "FFTSettings::new(scale) succeeds exactly when scale < 32; then max_width = 2^scale, entry i of the expanded table is w^i for 0 <= i <= max_width where w has multiplicative order exactly max_width, and entry i of the reversed table is w^(max_width-i), the inverse of w^i.", "quantifier": "every scale (in particular each of the 32 embedded constants) and every table index", "why_tests_cant": "tables have up to 2^31 entries, and the order of a root is a statement about all its powers", "anchors": ["blst-from-scratch/src/types/fft_settings.rs: new, expand_root_of_unity", "blst-from-scratch/src/consts.rs: SCALE2_ROOT_OF_UNITY"]}
{"id": "C06", "title": "FFT argument checking", "statement": "fft_fr and fft_g1 return an error exactly when the input length exceeds max_width or is not a power of two (zero included), and otherwise succeed (no panic, no out-of-bounds access) with an output as long as the input.", "quantifier": "every input vector of every length and every settings value built by FFTSettings::new", "why_tests_cant": "absence of out-of-bounds access has to hold for every recursion depth", "anchors": ["blst-from-scratch/src/fft_fr.rs: fft_fr", "blst-from-scratch/src/fft_g1.rs: fft_g1"]}
{"id": "C07", "title": "Forward FFT evaluates the polynomial at the roots of unity", "statement": "For every accepted input of length n, element i of fft_fr(p, false) is p(w^i), the polynomial with coefficient vector p evaluated at the i-th power of the n-th root of unity given by the settings.", "quantifier": "every power-of-two length n <= max_width, every coefficient vector, every index i", "why_tests_cant": "the recursion depth and vector space are unbounded", "anchors": ["blst-from-scratch/src/fft_fr.rs: fft_fr_fast, fft_fr"]}
{"id": "C08", "title": "Inverse FFT is the exact inverse of the FFT", "statement": "fft_fr(fft_fr(v,false),true) = v and fft_fr(fft_fr(v,true),false) = v for every accepted v.", "quantifier": "every accepted vector", "why_tests_cant": "all vectors over a 255-bit field, all lengths", "anchors": ["blst-from-scratch/src/fft_fr.rs: fft_fr_fast, fft_fr"]}
{"id": "C09", "title": "Fast and slow field transforms agree", "statement": "fft_fr_fast and fft_fr_slow, called with the same data and roots, produce the same output for every power-of-two length.", "quantifier": "every vector, stride 1, every table of roots of unity of matching order", "why_tests_cant": "tests compare one scale and one vector", "anchors": ["blst-from-scratch/src/fft_fr.rs: fft_fr_fast, fft_fr_slow"]}
{"id": "C10", "title": "FFT over G1 computes the same linear map in the exponent", "statement": "fft_g1 of the vector ([a_0]G,...,[a_{n-1}]G) is ([b_0]G,...) where b = fft_fr(a); more generally entry i is the sum of w^(ij) times input j; inverse composed with forward is the identity, and fft_g1_fast and fft_g1_slow agree.", "quantifier": "every vector of group elements of every accepted length", "why_tests_cant": "all group vectors, unbounded depth", "anchors": ["blst-from-scratch/src/fft_g1.rs: fft_g1_fast, fft_g1, fft_g1_slow"]}
{"id": "C11", "title": "Data-availability extension stays in the low-degree code", "statement": "For evens of power-of-two length n with 2n <= max_width, das_fft_extension returns n odds such that the interleaving (even_0, odd_0, even_1, ...) is the evaluation vector of a polynomial with fewer than n+1 coefficients, i.e. its inverse FFT is zero in the upper half; the odds are the only ones with this property.", "quantifier": "every even vector of every accepted length", "why_tests_cant": "unbounded recursion over arbitrary field vectors", "anchors": ["blst-from-scratch/src/data_availability_sampling.rs: das_fft_extension, das_fft_extension_stride"]}
{"id": "C12", "title": "Data-availability extension argument checking", "statement": "das_fft_extension returns an error exactly when the input is empty, not of power-of-two length, or 2*length > max_width; otherwise it succeeds without panicking and returns as many values as it was given.", "quantifier": "every input vector and settings", "why_tests_cant": "index bounds must hold at every recursion level", "anchors": ["blst-from-scratch/src/data_availability_sampling.rs: das_fft_extension"]}
{"id": "C13", "title": "Polynomial evaluation", "statement": "eval(p, x) equals the sum of p_i x^i for the empty polynomial, for x = 0 and for every polynomial with at least two coefficients; evaluating a polynomial with exactly one coefficient at a non-zero point is a usize underflow (panic with overflow checks).", "quantifier": "every polynomial and every point", "why_tests_cant": "lengths and coefficients unbounded", "anchors": ["blst-from-scratch/src/types/poly.rs: eval", "zkcrypto/src/zkfr.rs / poly.rs: eval_at"]}
{"id": "C14", "title": "Direct multiplication truncates the true product", "statement": "For non-empty operands mul_direct(a, b, len) returns exactly the first len coefficients of the product polynomial a*b, zero-padded to len; for an empty operand blst-from-scratch returns an empty polynomial.", "quantifier": "all operands and all output lengths", "why_tests_cant": "unbounded lengths and values", "anchors": ["blst-from-scratch/src/types/poly.rs: mul_direct"]}
{"id": "C15", "title": "FFT multiplication agrees with direct multiplication", "statement": "For non-empty operands, and truncated lengths whose padded product fits in 2^31, mul_fft(a,b,len) returns exactly the first len coefficients of a*b (including output lengths longer than the product and shorter than the operands); hence mul(a,b,len) does not depend on the 64/64/128 thresholds. poly_mul_fft of the settings gives the same product.", "quantifier": "all operands, all output lengths >= 1", "why_tests_cant": "the threshold dispatch makes small tests use one path only", "anchors": ["blst-from-scratch/src/types/poly.rs: mul_fft, mul, pad", "blst-from-scratch/src/types/poly.rs: FFTSettingsPoly::poly_mul_fft"]}
{"id": "C16", "title": "Power-series inverse", "statement": "For a polynomial with non-zero constant term and n >= 1, inverse(n) returns n coefficients c such that p*c = 1 modulo x^n; it returns an error when the constant term is zero, and an error when n = 0 or p is empty.", "quantifier": "every polynomial and every output length", "why_tests_cant": "Newton iteration over the bits of n-1; all n", "anchors": ["blst-from-scratch/src/types/poly.rs: inverse"]}
{"id": "C17", "title": "Long division yields the Euclidean quotient", "statement": "long_div(a,b) with a non-zero leading coefficient of b returns q with a = q*b + r for an r with fewer coefficients than b, of length max(0, len a - len b + 1); this q is unique.  It errs when b is empty or its top coefficient is zero.", "quantifier": "all dividends and divisors", "why_tests_cant": "unbounded lengths and coefficients", "anchors": ["blst-from-scratch/src/types/poly.rs: long_div, poly_quotient_length"]}
{"id": "C18", "title": "Fast division agrees with long division", "statement": "fast_div(a,b) = long_div(a,b) for all operands for which both are defined, hence div does not depend on its length-128 threshold.", "quantifier": "all dividends and divisors", "why_tests_cant": "fast division only runs for lengths >= 128, i.e. hardly covered by tests", "anchors": ["blst-from-scratch/src/types/poly.rs: fast_div, div, flip, _poly_norm"]}
{"id": "C19", "title": "Scaling and unscaling are mutually inverse", "statement": "unscale(scale(p)) = p and scale(unscale(p)) = p for every polynomial; scaled evaluation satisfies eval(unscale_poly(p), x) = eval(p, 5x) and eval(scale_poly(p), x) = eval(p, x/5).", "quantifier": "every polynomial (for the table-based variant up to 65536 coefficients)", "why_tests_cant": "all vectors and lengths", "anchors": ["blst-from-scratch/src/types/poly.rs: scale, unscale", "blst-from-scratch/src/recovery.rs: scale_poly, unscale_poly"]}
{"id": "C20", "title": "Vanishing polynomial of a small index set", "statement": "do_zero_poly_mul_partial(idxs, stride) returns the coefficients of the product of (x - w^(i*stride)) over the given indices; it errs exactly on the empty list, and evaluates to zero at exactly those roots.", "quantifier": "every list of in-range indices and every stride", "why_tests_cant": "all subsets of the domain", "anchors": ["blst-from-scratch/src/zero_poly.rs: do_zero_poly_mul_partial"]}
{"id": "C21", "title": "reduce_partials multiplies its inputs", "statement": "reduce_partials(domain_size, partials) returns the product polynomial of the given non-empty polynomials, of length 1 + sum of (length - 1), whenever domain_size is a power of two >= that length and <= max_width; otherwise an error is returned.", "quantifier": "every list of polynomials and every domain size", "why_tests_cant": "unbounded number and size of partials", "anchors": ["blst-from-scratch/src/zero_poly.rs: reduce_partials, pad_poly"]}
{"id": "C22", "title": "Vanishing polynomial of an arbitrary missing set", "statement": "zero_poly_via_multiplication(domain, missing) returns the monic product of (x - w^i) over the missing indices, zero-padded to domain coefficients, together with its evaluations on the domain; the evaluations are zero exactly at missing indices.  It holds whenever 1 <= |missing| and |missing| <= 63*(domain/64+1) (in particular up to half of the domain).", "quantifier": "every power-of-two domain up to max_width, every missing set of that size", "why_tests_cant": "the tree reduction has data-dependent offsets and lengths; the number of missing subsets is exponential", "anchors": ["blst-from-scratch/src/zero_poly.rs: zero_poly_via_multiplication"]}
{"id": "C23", "title": "Near-total loss on a large domain", "statement": "zero_poly_via_multiplication returns its documented result for every missing set smaller than the domain.  (Refuted: on a domain of 8192 with 8128 or more missing indices it returns an error / underflows.)", "quantifier": "every domain and every missing set of fewer than domain indices", "why_tests_cant": "requires a domain of 8192 and near-total loss, which no test covers", "anchors": ["blst-from-scratch/src/zero_poly.rs: zero_poly_via_multiplication"]}
{"id": "C24", "title": "Recovery returns the unique codeword", "statement": "For every polynomial with at most n/2 coefficients, if at least half (and not all) of its n evaluations are present, recover_poly_from_samples returns all n original evaluations, whichever positions are missing.", "quantifier": "every polynomial, every n up to max_width (and 65536), every missing pattern", "why_tests_cant": "exponentially many missing patterns", "anchors": ["blst-from-scratch/src/recovery.rs: recover_poly_from_samples", "blst-from-scratch/src/types/poly.rs: recover_poly_from_samples"]}
{"id": "C25", "title": "Recovery never silently contradicts the given samples", "statement": "Whenever recover_poly_from_samples returns Ok, the returned vector agrees with every sample that was present.", "quantifier": "every sample vector (consistent or not)", "why_tests_cant": "all inconsistent inputs", "anchors": ["blst-from-scratch/src/recovery.rs: recover_poly_from_samples"]}
{"id": "C26", "title": "Recovery with no missing sample", "statement": "Recovery of a complete sample vector returns it unchanged.  (Refuted: the call panics because the empty vanishing polynomial is indexed.)", "quantifier": "every complete sample vector", "why_tests_cant": "a corner case of a data-dependent set", "anchors": ["blst-from-scratch/src/recovery.rs: recover_poly_from_samples", "blst-from-scratch/src/types/poly.rs: recover_poly_from_samples", "blst-from-scratch/src/zero_poly.rs: zero_poly_via_multiplication"]}
{"id": "C27", "title": "The null sentinel is distinguishable from real data", "statement": "No genuine sample value is treated as missing.  (Refuted for the null-based entry point of blst-from-scratch: null is the field element 2^256-1 mod r; holds for zkcrypto where null is a non-canonical bit pattern.)", "quantifier": "every field element", "why_tests_cant": "one in 2^255 values", "anchors": ["blst-from-scratch/src/types/fr.rs: null, is_null", "blst-from-scratch/src/recovery.rs: recover_poly_from_samples", "zkcrypto/src/zkfr.rs: null"]}
{"id": "C28", "title": "Commitment is the polynomial evaluated at the secret in the exponent", "statement": "With a setup whose i-th element is [s^i]G, commit_to_poly(p) = [p(s)]G; it errs exactly when p is longer than the setup; the result does not depend on the small/large multi-scalar path or on trailing zero coefficients.", "quantifier": "every polynomial, every secret, every setup length", "why_tests_cant": "the secret and coefficients range over a 255-bit field", "anchors": ["blst-from-scratch/src/types/kzg_settings.rs: commit_to_poly", "blst-from-scratch/src/kzg_proofs.rs: g1_linear_combination"]}
{"id": "C29", "title": "Commitments are additively homomorphic", "statement": "commit(a*p + b*q) = [a]commit(p) + [b]commit(q) coefficientwise.", "quantifier": "all polynomials of equal length and all scalars", "why_tests_cant": "all field values", "anchors": ["blst-from-scratch/src/types/kzg_settings.rs: commit_to_poly"]}
{"id": "C30", "title": "Trusted setup contents", "statement": "generate_trusted_setup(n, secret) returns n elements in each group, the i-th being [s^i]G1 and [s^i]G2 where s is the secret scalar.", "quantifier": "every n and every 32-byte secret", "why_tests_cant": "all secrets and lengths", "anchors": ["blst-from-scratch/src/utils.rs: generate_trusted_setup"]}
{"id": "C31", "title": "Single proofs: completeness", "statement": "For every polynomial fitting the setup, every point x, check_proof_single(commit(p), compute_proof_single(p,x), x, p(x)) accepts.  The honest proof is rejected for every other value.  A setup of a single element makes the check panic.", "quantifier": "every polynomial, point and secret (including x equal to the secret)", "why_tests_cant": "all field values", "anchors": ["blst-from-scratch/src/types/kzg_settings.rs: compute_proof_single, check_proof_single, commit_to_poly"]}
{"id": "C32", "title": "Single proofs: what acceptance means", "statement": "check_proof_single accepts (C, pi, x, y) exactly when C - [y]G = [s - x]pi; hence an accepted proof for a wrong value of a committed polynomial yields, from public data, an equation that determines 1/(s-x) in the exponent (two different values at one point cannot both be proved unless the prover can produce [1/(s-x)]G).", "quantifier": "all commitments, proofs, points and claimed values, honest or adversarial", "why_tests_cant": "adversarial inputs range over groups of 2^255 elements", "anchors": ["blst-from-scratch/src/types/kzg_settings.rs: check_proof_single", "blst-from-scratch/src/kzg_proofs.rs: pairings_verify"]}
{"id": "C33", "title": "Multi proofs: completeness", "statement": "For n a power of two and x non-zero, with n < setup length, the proof computed by compute_proof_multi(p, x, n) is accepted by check_proof_multi for the values p(x w^i), 0 <= i < n.  For x = 0 and n > 1 completeness fails: acceptance is then characterised exactly.", "quantifier": "every polynomial, coset offset x, coset size n and secret", "why_tests_cant": "all field values and sizes", "anchors": ["blst-from-scratch/src/types/kzg_settings.rs: compute_proof_multi, check_proof_multi"]}
{"id": "C34", "title": "Multi proofs: what acceptance means", "statement": "check_proof_multi accepts (C, pi, x, ys) exactly when C - [I(s)]G = [s^n - x^n]pi where I is the interpolation of ys on the coset x<w>.", "quantifier": "all commitments, proofs, offsets, values", "why_tests_cant": "adversarial inputs", "anchors": ["blst-from-scratch/src/types/kzg_settings.rs: check_proof_multi"]}
{"id": "C35", "title": "Proof argument checking", "statement": "compute_proof_multi errs exactly when n is not a power of two and panics exactly when the quotient is longer than the setup; check_proof_multi errs exactly when n is not a power of two or the number of values is not a power of two within the settings width, and otherwise panics exactly when there are fewer than n values or n is not below the setup length; KZGSettings::new errs exactly when one of the three lengths is below max_width and otherwise panics exactly when the requested length exceeds a secret vector.", "quantifier": "all argument lengths", "why_tests_cant": "all size combinations", "anchors": ["blst-from-scratch/src/types/kzg_settings.rs: new, compute_proof_multi, check_proof_multi"]}
{"id": "C36", "title": "FK20 single proofs equal individually computed proofs", "statement": "For a polynomial with n coefficients (n a power of two, 2n = the n2 of the settings), entry i of data_availability_optimized is compute_proof_single(p, w^i), for the 2n-th root w; data_availability returns the same proofs in bit-reversed order.", "quantifier": "every polynomial, size and secret", "why_tests_cant": "all polynomials and sizes", "anchors": ["blst-from-scratch/src/types/fk20_single_settings.rs: new, data_availability, data_availability_optimized", "blst-from-scratch/src/fk20_proofs.rs"]}
{"id": "C37", "title": "FK20 multi proofs equal individually computed multi proofs", "statement": "For a polynomial with n coefficients and chunk length l, entry i of data_availability_optimized is compute_proof_multi(p, w^i, l) for the 2n-th root w; data_availability returns them in bit-reversed order.", "quantifier": "every polynomial, size, chunk length and secret", "why_tests_cant": "all polynomials and sizes", "anchors": ["blst-from-scratch/src/types/fk20_multi_settings.rs: new, data_availability, data_availability_optimized", "blst-from-scratch/src/fk20_proofs.rs"]}
{"id": "C38", "title": "FK20 argument checking", "statement": "The FK20 constructors return Ok exactly when the size is a power of two at least 2 within the settings' domain (and, for the chunked form, the chunk length is a power of two at most half of it), and an error otherwise. The data_availability entry points return an error when the polynomial's length is not a power of two or twice it exceeds the domain. (Beyond that a polynomial whose length does not match the FK20 settings is not rejected: a longer one panics, a shorter one gives Ok with elements that are not its proofs, or panics when shorter than the chunk.)", "quantifier": "all sizes", "why_tests_cant": "all combinations of sizes", "anchors": ["blst-from-scratch/src/types/fk20_single_settings.rs", "blst-from-scratch/src/types/fk20_multi_settings.rs"]}
{"id": "C39", "title": "Toeplitz pipeline multiplies by the Toeplitz matrix", "statement": "toeplitz_part_3(toeplitz_part_2(c, toeplitz_part_1(x))) returns in its first half the product of the circulant matrix with first column c with the zero-extended x, and identity elements in the second half; for c = toeplitz_coeffs_step(p) this is the upper-triangular Toeplitz matrix of p's coefficients with the top-right corner entry (which meets only the last element of x) equal to zero.", "quantifier": "all vectors x and coefficient vectors of power-of-two length", "why_tests_cant": "unbounded sizes", "anchors": ["blst-from-scratch/src/fk20_proofs.rs: toeplitz_part_1, toeplitz_part_2, toeplitz_part_3, toeplitz_coeffs_stride"]}
{"id": "C40", "title": "Parallel and sequential builds agree", "statement": "Every function with a rayon feature path returns the same value with the feature on and off, for any scheduling of the spawned tasks.", "quantifier": "all inputs and all interleavings of the forked tasks", "why_tests_cant": "schedules cannot be enumerated", "anchors": ["blst-from-scratch/src/fft_fr.rs: fft_fr_fast", "blst-from-scratch/src/fft_g1.rs: fft_g1_fast", "blst-from-scratch/src/data_availability_sampling.rs", "blst-from-scratch/src/zero_poly.rs: zero_poly_via_multiplication", "blst-from-scratch/src/types/poly.rs: mul_fft"]}
{"id": "C41", "title": "Scalar limb arithmetic refines arithmetic modulo r (zkcrypto)", "statement": "For canonical operands, Scalar add, sub, neg, double, mul and square return canonical limbs representing the sum, difference, negation, double and product modulo r.", "quantifier": "every pair of canonical 4x64-bit operands", "why_tests_cant": "2^510 operand pairs; carry chains have rare paths", "anchors": ["zkcrypto/src/curve/scalar.rs: add, sub, neg, double, mul, square, montgomery_reduce, adc, sbb, mac"]}
{"id": "C42", "title": "Scalar byte encoding (zkcrypto)", "statement": "from_bytes(to_bytes(a)) = Some a for canonical a; from_bytes accepts exactly the 32-byte strings encoding an integer below r and then to_bytes restores the bytes; from_bytes_wide reduces a 512-bit integer modulo r.", "quantifier": "every canonical scalar / every byte string", "why_tests_cant": "2^256 strings", "anchors": ["zkcrypto/src/curve/scalar.rs: from_bytes, to_bytes, from_bytes_wide, from_u512, from_raw"]}
{"id": "C43", "title": "Scalar inversion, division and powers (zkcrypto)", "statement": "invert(a) is None exactly for zero, and otherwise the multiplicative inverse; the trait's inverse panics exactly for zero; div never fails and returns Ok(0) for a zero divisor; pow and pow_vartime return a^e for every 256-bit exponent.", "quantifier": "every canonical scalar", "why_tests_cant": "a 300-step addition chain over 2^255 values", "anchors": ["zkcrypto/src/curve/scalar.rs: invert, pow, pow_vartime"]}
{"id": "C44", "title": "The scalar modulus is prime", "statement": "The modulus r embedded in the code is prime, 2^32 divides r-1 exactly, and the 32 embedded constants are primitive 2^k-th roots of unity; so Z/r is a field and every result above applies to it.", "quantifier": "all candidate divisors / all powers", "why_tests_cant": "primality is a universally quantified statement over divisors", "anchors": ["zkcrypto/src/curve/scalar.rs: MODULUS", "blst-from-scratch/src/consts.rs: SCALE2_ROOT_OF_UNITY", "mcl-kzg/kzg/src/fk20_fft.rs: SCALE_2_ROOT_OF_UNITY_PR5_STRINGS, SCALE_2_ROOT_OF_UNITY_PR7_STRINGS"]}
{"id": "C45", "title": "Scalar multiplication of a group element by its bit expansion", "statement": "Multiplying a point by a scalar through the length-trimmed little-endian byte representation (including the special cases 0 and 1) equals scalar multiplication by the full integer.", "quantifier": "every scalar below r", "why_tests_cant": "the bit-length computation has a branch per leading byte", "anchors": ["blst-from-scratch/src/types/g1.rs: mul", "blst-from-scratch/src/utils.rs: log_2_byte"]}
{"id": "C46", "title": "Settings history independence (mcl)", "statement": "The roots used by FFTSettings::new / new_custom_primitive_roots do not depend on which constructors were called before.  For concurrent callers of one kind the same holds under every interleaving. Deviation: when both kinds run at once, a call is still given the entry of some table of the calls, but it can be the other call's table, for both kinds, and a caller of new can leave the wrong table behind for all later calls (the global table is shared mutable state).", "quantifier": "every history of constructor calls / every interleaving", "why_tests_cant": "histories and interleavings are unbounded", "anchors": ["mcl-kzg/kzg/src/fk20_fft.rs: init_globals, init_globals_custom, new, new_custom_primitive_roots"]}
{"id": "C47", "title": "Recovery rejects samples that are not a codeword", "statement": "If the present samples do not lie on any polynomial with at most n/2 coefficients, recover_poly_from_samples does not return Ok.  (Refuted: for every n >= 4 there are such samples, with a single missing position, for which it returns Ok with an invented value.)", "quantifier": "every sample vector of length n", "why_tests_cant": "tests only recover from genuine codewords; the failure is the absence of a degree check for all corrupted inputs", "anchors": ["blst-from-scratch/src/types/poly.rs: recover_poly_from_samples", "blst-from-scratch/src/recovery.rs: recover_poly_from_samples"]}
{"id": "C48", "title": "Square roots (zkcrypto)", "statement": "sqrt(a) returns Some(s) with s*s = a for every square a (zero included) and None for every non-square.", "quantifier": "every canonical scalar", "why_tests_cant": "the Tonelli-Shanks loop has a different path for each 2-adic order; 2^255 inputs", "anchors": ["zkcrypto/src/curve/scalar.rs: sqrt"]}
{"id": "C49", "title": "Scalar limb shift (zkcrypto)", "statement": "divn(n) on limbs holding the integer m leaves limbs holding floor(m / 2^n) for every n (n >= 256 included), and reduce() turns a scalar into the limbs of its canonical integer.", "quantifier": "every four-limb integer and every shift", "why_tests_cant": "2^256 integers times every word/bit split of the shift", "anchors": ["zkcrypto/src/curve/scalar.rs: divn, reduce"]}
{"id": "C50", "title": "Trait settings constructor (mcl)", "statement": "FFTSettings::new(scale) of the trait, for scale mod 256 below 32, returns settings of width 2^(scale mod 256) whose expanded roots are the powers 0..width of a primitive root of unity of that order and whose reverse table is the same list backwards; it returns an error when scale mod 256 is 32 or more. Rejecting every scale from 32 on, as the other backends do, fails: the scale is cut to eight bits, so 256 + s is accepted as s.", "quantifier": "every scale, every earlier state of the global table", "why_tests_cant": "scales above 255 and every prior history are never exercised", "anchors": ["mcl-kzg/kzg/src/trait_implementations/fft_settings.rs: new", "mcl-kzg/kzg/src/fk20_fft.rs: new_custom_primitive_roots, expand_root_of_unity"]}
{"id": "C51", "title": "Scalar FFT (mcl)", "statement": "fft on up to max_width coefficients returns the values of the polynomial at the powers of the root of unity of the next power of two (zero padding), an error when the input is longer; for every power-of-two length below 2^31 the inverse transform undoes it in both orders; the fast and slow low-level transforms agree. At length 2^31 the inverse is wrong (negated), because the length is cast to i32.", "quantifier": "every input length and content, all settings built by either constructor after any history", "why_tests_cant": "all lengths and contents; the failing length needs 64 GB", "anchors": ["mcl-kzg/kzg/src/fk20_fft.rs: fft, inplace_fft, _fft, _simple_ftt, fft_fr_slow, fft_fr_fast"]}
{"id": "C52", "title": "Group FFT (mcl)", "statement": "fft_g1 on 2^m points returns the linear combinations of the points with powers of the 2^m-th root of unity and is undone by the inverse flag (m < 31); lengths that are too long or not powers of two are errors. The empty input is not an error: it panics (division by zero).", "quantifier": "every length and every list of group elements", "why_tests_cant": "group elements and lengths are unbounded", "anchors": ["mcl-kzg/kzg/src/fk20_fft.rs: fft_g1, fft_g1_inv, _fft_g1, _fft_g1_simple", "mcl-kzg/kzg/src/trait_implementations/fft_g1.rs: fft_g1"]}
{"id": "C53", "title": "Transform independent of the settings' size", "statement": "For two settings that both accept a power-of-two input, the transform (and its inverse) gives the same result. It holds for the blst settings and for the mcl inherent constructor; it fails for the mcl trait constructor, where every scale below 7 disagrees with every scale from 7 on at every size from 8.", "quantifier": "every pair of scales, every accepted input", "why_tests_cant": "pairs of scales times all inputs; the embedded tables were only compared at the scales used by tests", "anchors": ["blst-from-scratch/src/types/fft_settings.rs: new", "blst-from-scratch/src/fft_fr.rs: fft_fr", "mcl-kzg/kzg/src/fk20_fft.rs: SCALE_2_ROOT_OF_UNITY_PR7_STRINGS, fft"]}
{"id": "C54", "title": "Data-availability extension (mcl)", "statement": "For 2^m values with 2^(m+1) at most max_width, das_fft_extension returns the odd-position values of the polynomial of degree below 2^m taking the given values at the even positions; for any other length the inherent method returns an error but the trait method panics.", "quantifier": "every length and content, all settings", "why_tests_cant": "lengths and contents are unbounded", "anchors": ["mcl-kzg/kzg/src/das.rs: das_fft_extension, _das_fft_extension", "mcl-kzg/kzg/src/trait_implementations/das.rs: das_fft_extension"]}
{"id": "C55", "title": "Exponentiation (mcl)", "statement": "pow(x, n) is x to the n for every n >= 1. For n = 0 it is not one: it returns x.", "quantifier": "every field element, every exponent", "why_tests_cant": "2^255 bases and every exponent", "anchors": ["mcl-kzg/kzg/src/trait_implementations/fr.rs: pow", "mcl-kzg/kzg/src/data_types/fr.rs: pow"]}
{"id": "C56", "title": "Backend agreement (blst, mcl)", "statement": "The settings of blst and of the mcl trait constructor are equal for scales below 7, and on common settings the two transforms agree on every power-of-two input shorter than 2^31. For scales 7 to 31 the two backends' transforms differ at every size from 8.", "quantifier": "every scale, size and content", "why_tests_cant": "tests never compare two backends", "anchors": ["blst-from-scratch/src/consts.rs: SCALE2_ROOT_OF_UNITY", "blst-from-scratch/src/fft_fr.rs: fft_fr", "mcl-kzg/kzg/src/fk20_fft.rs: SCALE_2_ROOT_OF_UNITY_PR7_STRINGS, fft"]}
{"id": "C57", "title": "Polynomial products (mcl)", "statement": "mul_direct returns exactly the first len coefficients of the product for all operands (zeros when an operand is empty), agreeing with the blst backend on non-empty operands. mul_fft and mul return the same for product lengths up to 2^30 with or without supplied settings, and settings that are too small give an error. Products longer than 2^30 come out negated, and mul_fft asked for zero coefficients panics where mul returns the empty product.", "quantifier": "every pair of operands, every output length, any settings built by a constructor", "why_tests_cant": "operands and lengths are unbounded; the length at which the sign goes wrong is far beyond test sizes", "anchors": ["mcl-kzg/kzg/src/kzg10.rs: mul_direct, mul_fft, mul_, mul, pad_coeffs"]}
{"id": "C58", "title": "Power-series inverse (mcl)", "statement": "For p with non-zero constant term and n >= 1 with 2n-1 at most 2^30, inverse(p, n) returns n coefficients c with p*c = 1 modulo x^n; a zero constant term is an error; an empty polynomial or n = 0 returns the empty polynomial (the other backends report an error).", "quantifier": "every polynomial, every requested length up to the bound", "why_tests_cant": "Newton iteration over all lengths and coefficient values", "anchors": ["mcl-kzg/kzg/src/kzg10.rs: inverse"]}
{"id": "C59", "title": "Polynomial division (mcl)", "statement": "long_division returns the Euclidean quotient whenever the divisor's leading coefficient is non-zero and an error otherwise, the same as the blst long division on all inputs; fast_div returns the same for dividends up to 2^29 coefficients, including the empty dividend; div returns the Euclidean quotient by the divisor stripped of zero leading coefficients, and an error exactly for a zero divisor.", "quantifier": "every dividend and divisor (fast_div and div: dividend up to 2^29 coefficients)", "why_tests_cant": "operands are unbounded and the two algorithms are chosen by length", "anchors": ["mcl-kzg/kzg/src/kzg10.rs: long_division, fast_div, div, normalise_coeffs, flip_coeffs, poly_quotient_length"]}
{"id": "C60", "title": "Vanishing polynomials (mcl)", "statement": "For any set of positions of a 2^m-point domain, do_zero_poly_mul_partial returns the monic polynomial vanishing exactly there (an error for no positions); reduce_partials multiplies any non-empty list of partial polynomials (an error if the length is no power of two or too small, a panic if wider than the settings); zero_poly_via_multiplication returns that polynomial padded to the domain together with its values on the domain for any number of missing positions up to 63*(n/64+1). No missing position gives two zero vectors (the blst backend gives empty ones), inadmissible sizes give errors, and larger losses panic. On equal settings the result is that of the blst backend.", "quantifier": "every set of missing positions (any order, repetitions allowed), every domain up to 2^30 points, any settings built by a constructor", "why_tests_cant": "the number of missing-position sets is exponential in the domain size and the tree reduction takes a different shape for each count", "anchors": ["mcl-kzg/kzg/src/zero_poly.rs: pad_poly, do_zero_poly_mul_partial, reduce_partials, zero_poly_via_multiplication"]}
{"id": "C61", "title": "Erasure recovery (mcl)", "statement": "With at least one and at most half of the samples missing, recover_from_samples returns all values of the polynomial the samples were taken from; in general the unique codeword of degree below the number of present samples through them. There is no 65536-sample limit in the sequential build; the parallel build's tables give the same results up to 65536 samples and panic above. shift_in_place and unshift_in_place are mutually inverse. A complete sample vector comes back as all zeros; a loss beyond 63*(n/64+1), a total loss, an empty vector and a vector wider than the settings panic; a length that is no power of two is an error. unwrap_default replaces absent samples by zero and keeps the others.", "quantifier": "every codeword, every pattern of losses, every domain up to 2^30 points, any settings built by a constructor", "why_tests_cant": "loss patterns are exponentially many; the tests only lose random halves at a few sizes", "anchors": ["mcl-kzg/kzg/src/data_recovery.rs: shift_in_place, unshift_in_place, _shift_in_place, recover_from_samples", "mcl-kzg/kzg/src/data_recovery.rs: unwrap_default"]}
{"id": "C62", "title": "Scalar conversions (mcl)", "statement": "from_u64_arr and to_u64_arr are mutually inverse between the field and four-word arrays (least significant word first) of value below the group order, larger arrays panic, and from_u64 is exact. from_scalar reads the 32 bytes as four big-endian words with the least significant word first, panicking at or above the group order; the blst backend reads the same bytes as one little-endian number, so equal secret bytes denote different scalars. The null scalar is an ordinary field element that callers can also construct.", "quantifier": "every word array, every scalar, every 32-byte string", "why_tests_cant": "2^256 inputs; tests use palindromic or tiny values for which the byte order does not show", "anchors": ["mcl-kzg/kzg/src/data_types/fr.rs: from_u64_arr, to_u64_arr", "mcl-kzg/kzg/src/trait_implementations/fr.rs: from_u64, null, is_null", "mcl-kzg/kzg/src/kzg_settings.rs: generate_trusted_setup"]}
{"id": "C63", "title": "Commitments and opening proofs (mcl)", "statement": "The trusted setup is the list of powers of the secret; settings narrower than the transforms are an error and more elements than available panic; commitments are the value at the secret and overlong polynomials an error. Single and multi proofs made honestly are accepted for the true values; a single proof is accepted exactly when commitment - [y]G = [s - x]proof, and two values accepted at one point give away [1/(s-x)]G; a multi proof exactly when commitment - [I(s)]G = [s^n - x^n]proof for the polynomial I through the claimed values. Deviations from the blst backend: a single proof of an overlong polynomial silently drops the top of the quotient; missing values count as zeros; n = 0, too many or too few values and small setups panic.", "quantifier": "every pairing, every setup made by the constructors, every polynomial, point, commitment and proof element", "why_tests_cant": "acceptance must hold for all polynomials and points and fail for all wrong values; error cases at the edge lengths are not exercised", "anchors": ["mcl-kzg/kzg/src/kzg10.rs: Curve::new2, commit, gen_proof_at, is_proof_valid, verify_pairing", "mcl-kzg/kzg/src/kzg_settings.rs: new, compute_proof_multi, check_proof_multi, generate_trusted_setup"]}
{"id": "C64", "title": "FK20 batch proofs (mcl)", "statement": "For a polynomial of 2^m coefficients and matching settings, data_availability_optimized returns the individually computed single proofs at all 2^(m+1) roots of unity, and the multi version the multi proofs of every coset (given the polynomial extended to twice its length, whatever the extension holds); data_availability returns the same in bit-reversed order. Constructors accept exactly the admissible sizes (zero sizes panic). Deviations: a longer polynomial gives too few elements (single) or a panic (multi), a shorter one wrong elements (single) or a panic (multi), and an empty one a panic.", "quantifier": "every pairing, every setup made by the constructors, every polynomial with up to 2^29 coefficients, every chunk length", "why_tests_cant": "the batch algorithm is a chain of transforms whose agreement with the individual proofs must hold for every polynomial and size", "anchors": ["mcl-kzg/kzg/src/fk20_fft.rs", "mcl-kzg/kzg/src/fk20_matrix.rs", "mcl-kzg/kzg/src/kzg10.rs"]}
{"id": "C65", "title": "Settings, transforms and extension (zkcrypto)", "statement": "new(scale) with scale below 32 gives width 2^scale and the ordered powers of a primitive root, forwards and backwards; larger scales are an error. The field transform evaluates a polynomial at the powers of the root, the inverse undoes it in both orders, and lengths that are not a power of two or exceed the width are an error; likewise for group elements. The data-availability extension returns the unique odd-indexed values making the interleaved vector a codeword of half degree; bad lengths are an error. Deviations: settings from from_scale carry no roots, so every transform of two or more values panics; new_fft_settings ignores the scale and its settings reject every transform. fft_fr_slow and fft_g1_slow give the same output as the fast transforms on power-of-two lengths.", "quantifier": "every scale, every vector length and content, every module over the scalar field", "why_tests_cant": "lengths up to 2^31 and contents from a field of 2^255 elements; tests use one or two sizes and never the alternative constructors", "anchors": ["zkcrypto/src/fftsettings.rs", "zkcrypto/src/fft_fr.rs", "zkcrypto/src/fft_g1.rs", "zkcrypto/src/das.rs", "zkcrypto/src/consts.rs", "zkcrypto/src/fft_fr.rs: fft_fr_slow", "zkcrypto/src/fft_g1.rs: fft_g1_slow"]}
{"id": "C66", "title": "Polynomial products, inverses and quotients (zkcrypto)", "statement": "Direct, transform-based and threshold-selected multiplication return the same list: the product's coefficients cut or zero-padded to the requested length. inverse(n) returns n coefficients c with p*c = 1 mod x^n, and errors for an empty polynomial or zero constant term. Long and fast division return the unique Euclidean quotient when the divisor's stored top coefficient is non-zero; the public div first drops top zeros of both. Deviations: inverse with length 0 panics; dividing the zero polynomial panics; a stored zero top coefficient makes long division silently return zeros and fast division panic. pad and pad_ cut or zero-pad to the requested length; pad_poly errors instead of cutting. Division of scalars by zero returns zero, their inverse of zero panics.", "quantifier": "every pair of coefficient lists with transform size up to 2^31, every output length", "why_tests_cant": "thresholds at 64/128 coefficients separate different algorithms whose agreement must hold for all contents; degenerate operands are untested", "anchors": ["zkcrypto/src/poly.rs: poly_mul, poly_mul_fft, poly_mul_direct, inverse, poly_long_div, poly_fast_div, new_poly_div"]}
{"id": "C67", "title": "Scaling, normal form, degree and linear division (zkcrypto)", "statement": "scale and unscale are mutually inverse and substitute x/5 and 5x (with an extra factor 1/5 and 5). from_coefficients_vec drops exactly the zeros at the top. degree is the index of the top coefficient (0 for the zero polynomial). ruffini(z) on a polynomial in normal form returns the normal-form q with p(x) = (x - z) q(x) + p(z). A non-zero polynomial stored with a zero top coefficient makes degree and ruffini panic. eval gives the value of the polynomial and pow the power, except that eval panics on one-coefficient polynomials at points other than zero.", "quantifier": "every coefficient list, every point", "why_tests_cant": "identities over all polynomials; no test calls ruffini or degree on stored zeros", "anchors": ["zkcrypto/src/poly.rs: scale, unscale, from_coefficients_vec, truncate_leading_zeros, degree, ruffini", "zkcrypto/src/poly.rs: eval", "zkcrypto/src/zkfr.rs: pow"]}
{"id": "C68", "title": "Vanishing polynomials (zkcrypto)", "statement": "The small vanishing polynomial is monic with exactly the given roots; reduce_partials multiplies its inputs; zero_poly_via_multiplication returns the monic polynomial vanishing exactly at the missing positions together with its evaluations, for any non-empty set of fewer than n positions up to 63*(n/64+1) (in particular any half). The empty set gives empty lists; too many positions, a domain wider than the settings or not a power of two are errors. Deviations: more than 63*(n/64+1) positions are an error; reduce_partials panics instead of failing when the domain is wider than the settings.", "quantifier": "every domain size up to 2^31, every set (and order, with repetitions) of positions", "why_tests_cant": "exponentially many position sets; the reduction tree has different shapes by size", "anchors": ["zkcrypto/src/zero_poly.rs"]}
{"id": "C69", "title": "Erasure recovery (zkcrypto)", "statement": "For samples of a codeword with at most half of them missing (at least one) the full codeword is returned, whatever the pattern and however large; in general the unique codeword through the present samples of degree below their number; a returned vector agrees with every present sample. Unlike blst-from-scratch there is no 65536-sample limit. Deviations: a complete vector, a length that is not a power of two and a length beyond the settings all panic.", "quantifier": "every domain size up to 2^31, every codeword, every erasure pattern", "why_tests_cant": "exponentially many erasure patterns; tests draw a few random ones at one size", "anchors": ["zkcrypto/src/recover.rs: recover_poly_from_samples, scale_poly, unscale_poly"]}
{"id": "C70", "title": "Multi-scalar multiplication (zkcrypto)", "statement": "The bucket-method multi-scalar multiplication (entry points for field elements and for scalars held as Montgomery limbs) returns the sum of the scalar multiples of the points, whatever the window size chosen from the number of scalars; zero and one scalars take special paths without changing the result, and surplus points or scalars are ignored.", "quantifier": "every list of points in every module over the scalar field, every list of fewer than 2^64 scalars", "why_tests_cant": "window decomposition over all 255-bit scalars and all lengths; tests exercise a few random vectors and never lists of different lengths", "anchors": ["zkcrypto/src/curve/multiscalar_mul.rs: msm_variable_base"]}
{"id": "C71", "title": "Trusted setup, commitments, single and multi proofs (zkcrypto)", "statement": "The trusted setup consists of the powers of the secret in both groups. A commitment is the polynomial's value at the secret times the generator. compute_proof_single/multi return the quotient's commitment; an honest proof is accepted for the true value(s); a single check accepts exactly when the opening equation holds, so two values accepted at one point reveal 1/(s-x). Deviations: a non-canonical secret panics; a polynomial longer than the setup panics; the zero polynomial has no proof (panic); a multi check at x = 0 panics; kzg settings accept any setup and ignore the length argument.", "quantifier": "every pairing over the scalar field, every secret, setup size, polynomial, point, coset size and claimed value", "why_tests_cant": "algebraic identity over all polynomials and points; soundness quantifies over all forged proofs", "anchors": ["zkcrypto/src/kzg_proofs.rs", "zkcrypto/src/kzg_types.rs"]}
{"id": "C72", "title": "Batch proofs (zkcrypto)", "statement": "data_availability_optimized returns one proof per point (single) or per coset (multi) of the double-sized domain, each equal to the individually computed one; data_availability returns them in bit-reversed order. A trusted setup one element (single) or one chunk (multi) shorter than the polynomial is enough; a shorter one panics. Bad sizes are errors. Deviations: a polynomial longer than the size given to the constructor, or shorter than one chunk, panics; a shorter one is accepted by the single variant and gets wrong proofs; for the zero polynomial the batch answers with identities although no individual proof exists.", "quantifier": "every pairing over the scalar field, every polynomial of every power-of-two size up to the settings, every chunk size", "why_tests_cant": "tests compare a handful of sizes; equality with individual proofs is an identity over all polynomials", "anchors": ["zkcrypto/src/fk20.rs"]}
{"id": "C73", "title": "Settings, transforms and extension (Arkworks)", "statement": "new(scale) and from_scale(scale) with scale below 32 give width 2^scale and the ordered powers of a primitive root, forwards and backwards, and clone copies them; larger scales are an error. The field transform evaluates a polynomial at the powers of the root, the inverse undoes it in both orders, and lengths that are not a power of two or exceed the width are an error; likewise for group elements. Settings, field transforms and extension equal those of the blst backend on every input. The buffer transform returns the first values of the transform, one per place of the buffer, whatever strides and roots are passed; a buffer longer than the data panics. Deviation: the slow group transform of a single point leaves the output buffer unchanged.", "quantifier": "every scale, every vector length and content, every module over the scalar field, every library constant whose square is the last entry of the crate's table", "why_tests_cant": "lengths up to 2^31 and contents from a field of 2^255 elements; agreement of two backends on all inputs is not testable", "anchors": ["Arkworks/src/kzg_types.rs: FFTSettings", "Arkworks/src/kzg_proofs.rs: LFFTSettings::from_scale", "Arkworks/src/fft.rs", "Arkworks/src/fft_g1.rs", "Arkworks/src/das.rs"]}
{"id": "C74", "title": "Polynomial products, inverses and quotients (Arkworks)", "statement": "For non-zero factors direct, transform-based and threshold-selected multiplication return the same list: the product's coefficients cut or zero-padded to the requested length; settings that are too narrow are an error. inverse(n) returns n coefficients c with p*c = 1 mod x^n, and errors for an empty polynomial or zero constant term. Long division returns the unique Euclidean quotient of the operands without top zeros, fast division the unique quotient when the divisor's stored top coefficient is non-zero, and div a quotient with remainder of length below the divisor's. Deviations: the direct product with a zero factor is the empty list whatever length was asked for, while the transform product is padded; length 0 makes the transform product and inverse panic; a zero divisor panics in long division and is an error in fast division, so div does one or the other depending on the lengths; a zero dividend makes fast division panic when the quotient has fewer than 128 coefficients.", "quantifier": "every pair of coefficient lists with transform size up to 2^31, every output length, every optional settings value made by new", "why_tests_cant": "thresholds at 64/128 coefficients separate different algorithms whose agreement must hold for all contents; degenerate operands are untested", "anchors": ["Arkworks/src/poly.rs", "Arkworks/src/kzg_types.rs: Poly for PolyData"]}
{"id": "C75", "title": "Scaling and evaluation (Arkworks)", "statement": "scale and unscale keep the length, are mutually inverse and substitute x/5 and 5x. eval returns the value of the polynomial, with or without zeros at the top.", "quantifier": "every coefficient list, every point", "why_tests_cant": "identities over all polynomials", "anchors": ["Arkworks/src/recover.rs: scale_poly, unscale_poly", "Arkworks/src/kzg_proofs.rs: eval_poly", "Arkworks/src/kzg_types.rs: Poly for PolyData"]}
{"id": "C76", "title": "Vanishing polynomials (Arkworks)", "statement": "The small vanishing polynomial of a non-empty index list is monic, vanishes on exactly the listed points and has the coefficients of the product of linear factors; an empty list is an error. reduce_partials multiplies its arguments when the domain is a power of two between the product's length and the width; a domain that is too short is an error, one that is no power of two or exceeds the width panics. zero_poly_via_multiplication returns that polynomial and its values for up to 63(d/64+1) missing indices in a domain of d; empty input gives empty output and bad sizes are an error. Deviation: more missing indices than that, still fewer than d, are an error.", "quantifier": "every index list, every domain size, every settings value made by new", "why_tests_cant": "all subsets of domains up to 2^31 points", "anchors": ["Arkworks/src/zero_poly.rs"]}
{"id": "C77", "title": "Recovery from samples (Arkworks)", "statement": "If the present samples lie on a polynomial of degree below half the length and at most half (but at least one) are missing, recovery returns all values of it. In general the result is the unique codeword of degree below the number of present samples through them, and every success agrees with every present sample. A number of samples that is not a power of two is an error. Deviations: a complete sample vector panics, and so does one longer than the settings' width.", "quantifier": "every sample vector and erasure pattern, every settings value made by new", "why_tests_cant": "exponentially many erasure patterns", "anchors": ["Arkworks/src/recover.rs: recover_poly_from_samples"]}
{"id": "C78", "title": "Trusted setup and settings (Arkworks)", "statement": "Settings made by new(secret_g1, secret_g2, length, fft) hold length+1 powers of one scalar in both groups; an empty point list panics. Deviations: generate_trusted_setup returns identity points only and panics for a secret that is not a canonical scalar; the scalar in the settings is drawn by a seeded generator whose seed consists of four limbs of the X coordinate of the last given G1 point, so all settings of one length made from a generated trusted setup are equal whatever the secret; cloning settings draws another scalar and gives settings one element longer.", "quantifier": "every length, secret, point list and generator", "why_tests_cant": "the tests compare settings with themselves only; that the secret has no effect is a statement about all secrets", "anchors": ["Arkworks/src/kzg_proofs.rs: generate_trusted_setup, setup, new_kzg_settings, KZGSettings::clone", "Arkworks/src/kzg_types.rs: KZGSettings::new"]}
{"id": "C79", "title": "Commitments and single proofs (Arkworks)", "statement": "commit_to_poly returns the polynomial's value at the drawn scalar times the generator if the polynomial has at most length+1 coefficients and degree below length (below 3 for length 2), and panics otherwise. compute_proof_single returns the commitment to the quotient by X-x, the identity for the zero polynomial, and panics exactly when the degree is too large or the length is 0. The honest proof is accepted for the true value and rejected for every other. The check accepts exactly when the opening equation holds, so two values accepted at one point reveal 1/(s-x).", "quantifier": "every polynomial, point, value, claimed commitment and proof, and settings made by the constructors", "why_tests_cant": "soundness is a statement about all wrong values and proofs", "anchors": ["Arkworks/src/kzg_proofs.rs: commit_to_poly, compute_proof_single, open, check_proof_single, trim"]}
{"id": "C80", "title": "Multi proofs (Arkworks)", "statement": "compute_proof_multi(p, x, n) returns the commitment to the quotient by X^n - x^n; for n = 0 it is the commitment itself. The honest proof for a power-of-two number of points is accepted, and the check accepts exactly when the pairing equation for the interpolated values holds. Deviations: the check panics for a number of values that is no power of two or exceeds the transforms, for x = 0, for more points than values and for more points than the settings' length; the zero polynomial panics for some lengths from n = 127 on.", "quantifier": "every polynomial, coset offset, number of points, claimed commitment, proof and value list", "why_tests_cant": "quantifies over wrong values and proofs, and over all lengths around the division threshold", "anchors": ["Arkworks/src/kzg_proofs.rs: compute_proof_multi, check_proof_multi"]}
{"id": "C81", "title": "Batch proofs (Arkworks)", "statement": "data_availability_optimized returns one proof per point (single) or per coset (multi) of the double-sized domain, each equal to the individually computed one; data_availability returns them in bit-reversed order. The constructors are errors for bad sizes and panic when the settings are too short. Lengths that are no power of two or too long for the transforms are errors. Deviations: a polynomial longer than the size given to the constructor, or shorter than one chunk, panics; a shorter one is accepted by the single variant and gets wrong proofs.", "quantifier": "every power-of-two size, chunk length and polynomial", "why_tests_cant": "equality of whole proof vectors for all sizes and polynomials", "anchors": ["Arkworks/src/fk20_proofs.rs: KzgFK20SingleSettings, KzgFK20MultiSettings, toeplitz_part_1, toeplitz_part_2, toeplitz_part_3"]}
{"id": "C82", "title": "Scalars and group helpers (Arkworks)", "statement": "from_u64_arr and to_u64_arr are mutually inverse between scalars and four-word numbers (least significant word first) below the modulus; from_u64 is exact; equals, is_zero and is_one decide equality of the scalars. div and inverse are exact and panic for a zero divisor. make_data(n) lists the multiples 1..n of the generator and the linear combination of the first n points is their weighted sum, panicking when points or scalars run out. Deviations: from_u64_arr turns numbers at or above the modulus silently into zero; the null scalar is the ordinary scalar (2^256-1) mod r, which callers can also construct; eucl_inverse always panics.", "quantifier": "every word array, every stored scalar, every list of points and scalars", "why_tests_cant": "2^256 inputs", "anchors": ["Arkworks/src/kzg_types.rs: Fr for FsFr", "Arkworks/src/utils.rs: blst_fr_into_pc_fr, pc_fr_into_blst_fr", "Arkworks/src/fft_g1.rs: make_data, g1_linear_combination"]}
{"id": "C83", "title": "Base field limb arithmetic (zkcrypto)", "statement": "The six-word base field elements below the modulus correspond one to one to the integers modulo p (Montgomery form), p is prime, and add, sub, neg, mul, square, conditional_select, zero, one, equality and is_zero compute the corresponding field operations.", "quantifier": "every pair of canonical six-word elements", "why_tests_cant": "2^762 operand pairs; carries and final subtractions are hit by vanishingly few inputs", "anchors": ["zkcrypto/src/curve/fp.rs: add, sub, neg, mul, square, montgomery_reduce, subtract_p, ct_eq, is_zero"]}
{"id": "C84", "title": "Base field encodings (zkcrypto)", "statement": "to_bytes gives the 48 big-endian bytes of the canonical integer; from_bytes accepts exactly the 48-byte strings below p and inverts to_bytes; lexicographically_largest is true exactly when the canonical integer exceeds that of the negative. Deviation: the twelve-word reduction (used by random), documented as reading a big-endian 768-bit number, weights the last six words by 2^384 instead of the first six.", "quantifier": "every element, every 48-byte string, every twelve-word array", "why_tests_cant": "2^384 strings; the boundary at p and at (p-1)/2 is a single value", "anchors": ["zkcrypto/src/curve/fp.rs: to_bytes, from_bytes, lexicographically_largest, from_u768, random"]}
{"id": "C85", "title": "Base field inverse, powers and square roots (zkcrypto)", "statement": "invert is None exactly for zero and otherwise the multiplicative inverse; pow_vartime raises to the given little-endian multi-word exponent; sqrt returns a square root for every square and None for every non-square.", "quantifier": "every element and every exponent of any number of words", "why_tests_cant": "all elements and all exponents", "anchors": ["zkcrypto/src/curve/fp.rs: invert, pow_vartime, sqrt"]}
{"id": "C86", "title": "G1 point arithmetic (zkcrypto)", "statement": "The curve y^2 = x^3 + 4 over the base field with the chord-and-tangent operations is an abelian group, and the projective and affine G1 operations (identity, add, sub, neg, double, mixed addition and subtraction, conversion in both directions, equality, is_identity, sum, batch_normalize) compute the group operations for all inputs, including equal and opposite points and the identity; batch_normalize panics exactly when the slices differ in length. Deviation: is_on_curve of a projective point accepts every triple with z = 0, e.g. (1, 0, 0), which stands for no point.", "quantifier": "every pair of points of the curve in every coordinate representation; lists of any length", "why_tests_cant": "about 2^381 points, each with 2^381 coordinate triples; special cases of the complete formulas", "anchors": ["zkcrypto/src/curve/g1.rs: G1Affine, G1Projective, add, double, add_mixed, sub, neg, ct_eq, batch_normalize, is_on_curve, sum"]}
{"id": "C87", "title": "G1 scalar multiplication (zkcrypto)", "statement": "Multiplying a point of the order-r subgroup by a scalar through the endomorphism split and the signed window recoding gives the multiple by the canonical integer of the scalar, with and without overflow checks, unless rounding the split carries out of a 64-bit word; scalars below 2^190 never do. Deviations: when the rounding carries, a build with overflow checks panics and one without returns a wrong point (the generator times 2^64 * lambda - 1); for a point of the curve outside the subgroup the result is not the multiple (the point (0, 2) of order 3 times lambda gives the point itself instead of the identity).", "quantifier": "every point of the subgroup, every scalar, both builds", "why_tests_cant": "2^255 scalars; the carry happens for about one scalar in 2^65, so random tests do not meet it", "anchors": ["zkcrypto/src/curve/g1.rs: multiply, glv_recoding, mul_short, sub_borrow, regular_recoding, precompute, linear_pass, mul"]}
{"id": "C88", "title": "G1 subgroup membership (zkcrypto)", "statement": "The generator has order exactly r; the points of the curve killed by r are exactly the multiples of the generator; is_torsion_free returns true exactly for them and never panics on a point of the curve. They form a module over the scalar field, which is what the KZG, FK20 and recovery properties assume of the first group.", "quantifier": "every point of the curve", "why_tests_cant": "membership for all points; that no other point is killed by r is a counting argument over the whole curve", "anchors": ["zkcrypto/src/curve/g1.rs: generator, is_torsion_free"]}
{"id": "C89", "title": "G1 encodings (zkcrypto)", "statement": "to_compressed and to_uncompressed write the flag bits and big-endian coordinates of the ZCash format; from_compressed and from_uncompressed accept exactly the encodings of points of the order-r subgroup and return that point, rejecting every other string without a panic (also coordinates off the curve); the unchecked readers accept exactly the encodings of curve points (compressed) and any two coordinates below p or the identity (uncompressed); writing and reading back gives an equal point, for projective points too.", "quantifier": "every point and every string of 48 or 96 bytes", "why_tests_cant": "2^384 and 2^768 strings; non-canonical flags and coordinates are measure-zero cases", "anchors": ["zkcrypto/src/curve/g1.rs: to_compressed, to_uncompressed, from_compressed, from_uncompressed, from_compressed_unchecked, from_uncompressed_unchecked, GroupEncoding"]}
{"id": "C90", "title": "Quadratic extension arithmetic (zkcrypto)", "statement": "Addition, subtraction, negation, multiplication, squaring, multiplication by the non-residue 1+u, selection, equality, zero test, conjugation and powers by word lists of Fp2 compute the corresponding operation of the field Fp[u]/(u^2+1); inversion returns the inverse of every non-zero element and none for zero; every element has exactly one machine representation.", "quantifier": "every pair of elements, every list of 64-bit exponent words", "why_tests_cant": "p^4 pairs of operands; the carries of twelve-word products are not reachable by sampling", "anchors": ["zkcrypto/src/curve/fp2.rs: Fp2::add, sub, neg, mul, square, mul_by_nonresidue, conjugate, pow_vartime, invert, ct_eq, conditional_select"]}
{"id": "C91", "title": "Square roots and signs in the quadratic extension (zkcrypto)", "statement": "Fp2::sqrt returns a square root of every square and none for every non-square, including zero, squares of base field elements and squares of multiples of u; lexicographically_largest is true exactly when the element is greater than its negative, comparing the coefficient of u first.", "quantifier": "every element of Fp2", "why_tests_cant": "the exceptional branch (alpha = -1) and non-squares must all be decided correctly over p^2 elements", "anchors": ["zkcrypto/src/curve/fp2.rs: Fp2::sqrt, lexicographically_largest"]}
{"id": "C92", "title": "Extensions of degree six and twelve (zkcrypto)", "statement": "Addition, subtraction, negation, multiplication, squaring, selection, equality, zero test, embedding and inversion of Fp6 = Fp2[v]/(v^3-1-u) and Fp12 = Fp6[w]/(w^2-v) compute the operations of these fields, inversion returning none exactly for zero; the sparse products mul_by_1, mul_by_01 and mul_by_014 equal the full products by the sparse elements.", "quantifier": "every tuple of elements", "why_tests_cant": "p^24 pairs of operands; Karatsuba-style formulas can be wrong in a single coefficient", "anchors": ["zkcrypto/src/curve/fp6.rs: Fp6", "zkcrypto/src/curve/fp12.rs: Fp12"]}
{"id": "C93", "title": "Frobenius maps (zkcrypto)", "statement": "frobenius_map of Fp2, Fp6 and Fp12 raises every element to the power p (so the table constants are the right roots), and conjugation of Fp12 raises to the power p^6.", "quantifier": "every element", "why_tests_cant": "a wrong constant shows only against an independent 381-bit exponentiation; the claim is about all p^12 elements", "anchors": ["zkcrypto/src/curve/fp2.rs: frobenius_map", "zkcrypto/src/curve/fp6.rs: frobenius_map", "zkcrypto/src/curve/fp12.rs: frobenius_map, conjugate"]}
{"id": "C94", "title": "Points of the second group (zkcrypto)", "statement": "On the curve y^2 = x^3 + 4(1+u) over Fp2, addition, mixed addition, subtraction, negation, doubling, sums, conversion between affine and projective points, batch normalisation, equality and the identity test compute the chord-and-tangent group law for all points, including equal points, opposite points and the identity. Batch normalisation panics exactly when the output slice has another length. Deviation: the curve test of projective points accepts coordinates with z = 0 that belong to no point.", "quantifier": "every pair of points in every homogeneous representation; every list of points", "why_tests_cant": "p^4 pairs of points, each with p^2 representations; exceptional cases have negligible probability under sampling", "anchors": ["zkcrypto/src/curve/g2.rs: G2Projective::add, add_mixed, double, batch_normalize, is_on_curve", "zkcrypto/src/curve/g2.rs: G2Affine::from, neg, is_on_curve, ct_eq"]}
{"id": "C95", "title": "Scalar multiplication and subgroup of the second group (zkcrypto)", "statement": "Multiplying any point of the curve over Fp2 by any scalar gives that multiple of the point; the generator is on the curve and has order exactly r; is_torsion_free accepts a point of the curve exactly when r times the point is the identity; the accepted points form a module over the scalar field, and they are exactly the r multiples of the generator.", "quantifier": "every point of the curve, every scalar", "why_tests_cant": "the loop skips the top bit, so all 2^255 scalars matter; that a 255-bit multiple of the generator vanishes needs certified arithmetic", "anchors": ["zkcrypto/src/curve/g2.rs: G2Projective::multiply, mul, generator", "zkcrypto/src/curve/g2.rs: G2Affine::is_torsion_free, generator"]}
{"id": "C96", "title": "Frobenius map and cofactor clearing of the second group (zkcrypto)", "statement": "psi maps (x, y) to (x^p / xi^((p-1)/3), y^p / xi^((p-1)/2)), is an endomorphism of the curve group that preserves the subgroup and multiplies every multiple of the generator by the curve parameter x, and satisfies psi^4 - psi^2 + 1 = 0; psi2 is psi applied twice; clear_cofactor computes psi^2(2P) + (x^2 - x - 1)P + (x - 1)psi(P); the points on which psi is the multiplication by x are exactly the points of the subgroup.", "quantifier": "every point of the curve over Fp2, in every representation", "why_tests_cant": "the five 381-bit constants must be exactly the right roots of unity for the maps to be homomorphisms on all p^2 points", "anchors": ["zkcrypto/src/curve/g2.rs: G2Projective::psi, psi2, mul_by_x, clear_cofactor"]}
{"id": "C97", "title": "Encodings of the second group (zkcrypto)", "statement": "to_compressed and to_uncompressed write the 96 and 192 byte encodings with the flag bits in the first byte; different points have different encodings; from_compressed and from_uncompressed accept exactly the encodings of points of the subgroup and return that point; the unchecked compressed reader accepts exactly the encodings of points of the curve and the unchecked uncompressed reader any two reduced coordinates or the identity; reading what was written returns an equal point.", "quantifier": "every 96 or 192 byte string, every point of the curve", "why_tests_cant": "2^768 and 2^1536 inputs; the rejected strings and the sign of the root must be right for all of them", "anchors": ["zkcrypto/src/curve/g2.rs: G2Affine::to_compressed, to_uncompressed, from_compressed, from_compressed_unchecked, from_uncompressed, from_uncompressed_unchecked", "zkcrypto/src/curve/g2.rs: G2Projective::to_bytes, from_bytes"]}
{"id": "C98", "title": "Final exponentiation (zkcrypto)", "statement": "final_exponentiation raises every non-zero element of Fp12 to the power 3 (p^12 - 1) / r, so its result has order dividing r; it is multiplicative: the exponentiation of the sum of two Miller loop results is the sum of the exponentiations. On zero it panics (unwrap of a missing inverse).", "quantifier": "every element of Fp12", "why_tests_cant": "the exponent has 4314 bits and is reached through Frobenius maps, conjugations and cyclotomic squarings that are only valid on a subgroup; tests compare a few values only", "anchors": ["zkcrypto/src/curve/pairings.rs: MillerLoopResult::final_exponentiation, fp4_square, cyclotomic_square, cycolotomic_exp, add"]}
{"id": "C99", "title": "Target group (zkcrypto)", "statement": "Addition, negation, subtraction, doubling, sums and comparison of target group elements are multiplication, inversion, division, squaring, products and equality of r-th roots of unity in Fp12 and stay among them; multiplying by a scalar is the power with that exponent and makes the target group a module over the scalar field. Deviation: the random element is the identity whatever the random generator.", "quantifier": "every r-th root of unity in Fp12, every scalar", "why_tests_cant": "negation is a conjugation, right only on the subgroup; the multiplication loop skips the top bit of the scalar; randomness is never compared by tests", "anchors": ["zkcrypto/src/curve/pairings.rs: Gt::{identity, double, neg, add, sub, mul, sum, eq, is_identity, random}"]}
{"id": "C100", "title": "Pairing (zkcrypto)", "statement": "pairing returns, for every point P of the first curve and every point Q of the second subgroup, the power 3 (p^12 - 1) / r of the inverse of Miller's function of length |x|, the product of the lines of the additions Q + Q, 2Q + Q, ..., (|x| - 1)Q + Q evaluated at P; preparing points, the multi Miller loop over any number of pairs and the final exponentiation return the product of these values. The value is an r-th root of unity, is 1 when one point is the identity, and is bilinear in both arguments, additions and all integer multiples.", "quantifier": "all points of the first curve, all points of the second subgroup, all lists of pairs, all multiples", "why_tests_cant": "a wrong line formula or loop bit gives a map that looks random but is not bilinear for some points; the upstream test checks one pair of scalars", "anchors": ["zkcrypto/src/curve/pairings.rs: pairing, multi_miller_loop, G2Prepared::from, miller_loop, ell, doubling_step, addition_step"]}
{"id": "C101", "title": "Comparison of pairings (zkcrypto)", "statement": "pairings_verify never panics and returns true exactly when the pairing of the first two points equals the pairing of the last two.", "quantifier": "all points of the first curve and of the second subgroup, in every representation, including identities", "why_tests_cant": "a sign or a pair exchanged in the product makes only some equations fail; identities use a separate path", "anchors": ["zkcrypto/src/kzg_types.rs: pairings_verify"]}
{"id": "C102", "title": "The pairing is not degenerate (zkcrypto)", "statement": "The generator constant of the target group is the pairing of the two generators, has order exactly r, and is what pairing returns for them; the pairing of a point of the first subgroup and a point of the second is 1 only when one of them is the identity; pairings_verify on multiples x1 G1, x2 G2, y1 G1, y2 G2 returns whether x1 x2 = y1 y2 in the scalar field; the two subgroups, the target group and the pairing together are a pairing in the sense of the abstract theorems about commitments (C28-C39, C71, C72, C78-C81).", "quantifier": "all points of the subgroups, all integers and scalars", "why_tests_cant": "a degenerate or wrongly generated group passes every equation that should hold; only inequations for all exponents exclude it", "anchors": ["zkcrypto/src/curve/pairings.rs: Gt::generator, pairing", "zkcrypto/src/kzg_types.rs: pairings_verify"]}
{"id": "C103", "title": "Point types of the interface (zkcrypto)", "statement": "identity, generator and negative_generator of the point types stand for the identity, the generator and its negative; add_or_dbl, dbl, sub, equals and is_inf are addition, doubling, subtraction, equality and the test for the identity of points, in every representation and including equal, opposite and identity arguments.", "quantifier": "all points of both curves in every homogeneous representation", "why_tests_cant": "the special cases (equal points in different representations, opposite points, identity) are rare", "anchors": ["zkcrypto/src/kzg_types.rs: G1 for G1Projective, G2 for G2Projective, G1_GENERATOR, G1_NEGATIVE_GENERATOR, G2_GENERATOR, G2_NEGATIVE_GENERATOR"]}
{"id": "C104", "title": "Commitments and opening proofs on the curve (zkcrypto)", "statement": "With the machine representation of points and scalars: generate_trusted_setup returns the multiples of the two generators by the powers of the secret; commit_to_poly returns p(s) G, and panics for polynomials longer than the setup; check_proof_single answers whether e(C - y G, H) = e(Pi, (s - x) H), for points of the subgroup whether C - y G = (s - x) Pi, and panics when the setup has fewer than two points; proofs computed for a polynomial are accepted exactly for its value; the same for openings on cosets, with the errors for sizes that are not powers of two and the panics for the zero polynomial, short setups and x = 0. Deviations: the scalar multiplication of C87 makes setups with overflow checks panic when a power of the secret carries, and without them some setups are wrong; a claimed value that carries makes the check panic, or, without overflow checks, there are values y and y' such that the proof of y' is accepted for y and the proof of y rejected; commitments and proofs are not checked to lie in the subgroup, so adding a point of order 3 to an accepted proof or commitment gives another accepted one.", "quantifier": "all secrets whose powers do not carry, all polynomials, points, commitments and proofs (any points of the curve), claimed values that do not carry", "why_tests_cant": "the defect needs a value in a set of density 2^-65; acceptance for all points cannot be sampled", "anchors": ["zkcrypto/src/kzg_proofs.rs: generate_trusted_setup, new_kzg_settings, commit_to_poly, compute_proof_single, check_proof_single, compute_proof_multi, check_proof_multi", "zkcrypto/src/kzg_types.rs: KZGSettings for KZGSettings"]}
{"id": "C105", "title": "Conversions to and from blst's types (zkcrypto)", "statement": "Converting a scalar to blst's type and back gives the same value in both directions, and so does converting polynomials to blst. Deviations: the conversion of polynomials from blst keeps only the lowest word of the stored form of each coefficient, so the coefficient x becomes (x 2^256 mod r) mod 2^64; the conversion of base field elements from blst divides by 2^384, so it is wrong for every non-zero element; the conversions of points copy homogeneous coordinates into Jacobian ones and back, and are right exactly for the identity, for points with Z = 1, and for points with x = 0 and Z = -1. Converting a point to blst and back gives the same point.", "quantifier": "all scalars, polynomials, base field elements, points of the first curve in every representation", "why_tests_cant": "points normalised to Z = 1 convert correctly; the deviation depends on the representation of the point, not on the point", "anchors": ["zkcrypto/src/utils.rs: blst_poly_into_zk_poly, pc_poly_into_blst_poly, zk_fr_into_blst_fr, blst_fr_into_zk_fr, zk_fp_into_blst_fp, blst_fp_into_zk_fp, zk_g1projective_into_blst_p1, blst_p1_into_zk_g1projective"]}
{"id": "C106", "title": "Parallel builds of zkcrypto, Arkworks and mcl", "statement": "Built with the parallel feature, transforms over scalars and over the group, the extension for data availability sampling, multiplication with transforms, vanishing polynomials, the sum of scalar multiples (zkcrypto) and recovery (mcl) stop under every schedule, without deadlock, and return what they return without joins: the same value, the same error or a panic.", "quantifier": "all inputs, all schedules of the joined closures, all ways in which the pool cuts a parallel iteration", "why_tests_cant": "a test sees one schedule; the thresholds hide the joins from small inputs", "anchors": ["zkcrypto/src/fft_fr.rs: fft_fr_fast", "zkcrypto/src/fftsettings.rs: das_fft_extension_stride", "zkcrypto/src/poly.rs: poly_mul_fft", "zkcrypto/src/zero_poly.rs: reduce_partials, zero_poly_via_multiplication", "zkcrypto/src/curve/multiscalar_mul.rs: msm_variable_base", "Arkworks/src/fft_g1.rs: fft_g1_fast", "Arkworks/src/das.rs: das_fft_extension_stride", "Arkworks/src/poly.rs: poly_mul_fft", "mcl-kzg/kzg/src/fk20_fft.rs: _fft, _fft_g1", "mcl-kzg/kzg/src/das.rs", "mcl-kzg/kzg/src/kzg10.rs: mul_fft", "mcl-kzg/kzg/src/zero_poly.rs", "mcl-kzg/kzg/src/data_recovery.rs: recover_from_samples"]}
{"id": "C107", "title": "Tables of scale factors kept for the life of the process (zkcrypto and Arkworks, parallel build)", "statement": "Recovery, and scaling and unscaling of polynomials, return the same in the parallel build as in the sequential one, whatever calls the process has made before, as long as the calls come one after the other: the tables of powers of 1/5 and of 5 only ever hold correct powers, and the joined closures of one recovery never use the same table at the same time. Deviations: scaling an empty polynomial panics (the sequential build returns it); two calls at the same time in a fresh process can both insert the power 1, after which both return unscaled coefficients; the table stays wrong, every later scaling of 2 to 1025 coefficients leaves the second one unscaled, and recoveries that succeed in the sequential build panic.", "quantifier": "all settings, samples and polynomials, all states of the tables that earlier calls can leave, all sequences of calls, all schedules of the joined closures", "why_tests_cant": "the defect needs two first calls to overlap in a window of a few instructions; the state of the tables depends on the history of the process", "anchors": ["zkcrypto/src/recover.rs: scale_poly, unscale_poly, recover_poly_from_samples", "Arkworks/src/recover.rs: scale_poly, unscale_poly, recover_poly_from_samples"]}
{"id": "C108", "title": "Numbers of points and cofactor clearing (zkcrypto curve)", "statement": "The first curve has exactly p - x points and the second exactly h2 * r, with subgroups of exactly r points; clearing the cofactor computes (1 - x) P on the first and (x^2 - x - 1) P + (x - 1) psi(P) + psi^2(2 P) on the second; from every point of the curve the result is in the subgroup and passes the subgroup test; every point of the subgroup is the result for exactly cofactor-many points.", "quantifier": "all points of both curves, in all projective representations, with and without overflow checks", "why_tests_cant": "the curves have about 2^381 and 2^762 points; that the image is the whole subgroup, each point equally often, is a statement about all of them", "anchors": ["zkcrypto/src/curve/g1.rs: clear_cofactor, is_torsion_free", "zkcrypto/src/curve/g2.rs: clear_cofactor, is_torsion_free, psi, psi2"]}
{"id": "C109", "title": "Random scalars, field elements and points (zkcrypto)", "statement": "Scalar::random and the random of the base field and its extensions return the integer read from the bytes drawn, reduced, and consume exactly these bytes; every scalar and every field element comes from the same number of byte strings up to one. G1 and G2 random return the first drawn point whose multiple by the cofactor map is not the identity; the result is always in the subgroup and never the identity, and every such point can be drawn; they never panic. Deviations: a generator that returns zeros keeps both loops running for ever; Fr::rand maps three arrays of words to each small value and two to each large one; G1::rand can return the identity, panics in builds with overflow checks for some draws, and returns a different multiple of the generator without them.", "quantifier": "all generators, seen as arbitrary state machines, all states, any number of rounds", "why_tests_cant": "a test draws a few values from one generator; the claims are about all generators and all outputs", "anchors": ["zkcrypto/src/curve/scalar.rs: random", "zkcrypto/src/curve/fp.rs, fp2.rs, fp6.rs, fp12.rs: random", "zkcrypto/src/curve/g1.rs, g2.rs: random", "zkcrypto/src/zkfr.rs: rand", "zkcrypto/src/kzg_types.rs: rand"]}
{"id": "C110", "title": "Point types of the blst, Arkworks, mcl and ckzg backends", "statement": "In every backend the identity, the generators and the negated generators are Jacobian coordinates, in Montgomery form, of the point at infinity, of the standard generators of the two groups and of their opposites; mcl's generators built from decimal strings are the same points. Default values are the point at infinity. Arkworks' conversions between its library's points and the stored ones keep the point and undo each other. Given a library that adds, doubles, negates, subtracts, compares and multiplies correctly, add_or_dbl, dbl, sub, equals, is_inf and mul return the sum, double, difference, equality, test and multiple, equal operands and the point at infinity included; add_or_dbl leaves its receiver as it was in the blst, mcl and ckzg backends. Deviations: in Arkworks add_or_dbl overwrites the receiver with the sum, so the receiver keeps its point only if the other operand is the identity; the default of Arkworks' second group panics; mcl's from_arr_64 reads plain integers, so it does not give back a point from the words of that point, and a third coordinate at or above the modulus silently gives the identity.", "quantifier": "all points of both curves in all their Jacobian representations, all scalars, all libraries meeting the contract", "why_tests_cant": "tests compare results of a few additions and never look at the receiver afterwards; constants that are consistently wrong in one backend pass every test that uses only that backend", "anchors": ["blst-from-scratch/src/consts.rs, types/g1.rs, types/g2.rs", "Arkworks/src/kzg_types.rs: ArkG1, ArkG2; utils.rs; fft_g1.rs, kzg_proofs.rs: constants", "mcl-kzg/kzg/src/data_types/g1.rs, g2.rs; trait_implementations/g1.rs, g2.rs; kzg10.rs: gen; fk20_fft.rs: constants", "ckzg/src/consts.rs, finite.rs"]}
{"id": "C111", "title": "Fourier transforms of G1 points on machine words (zkcrypto)", "statement": "On points given as words of projective coordinates, fft_g1 returns words of the discrete Fourier transform (inverse: with the factor 1/n) of the points, for every power-of-two length up to the width of the settings, and a transform followed by the opposite one gives back the points; other lengths are refused with an error; the quadratic fft_g1_slow computes the same sums. In a build with overflow checks the call returns these points or panics. Deviation: it panics for every input of a length for which one of the roots of unity used is a scalar that rounds with a carry (C87); no transform of up to 64 points has such a root.", "quantifier": "all points of the subgroup in all representations by words, all lengths, both directions, all settings, with and without overflow checks", "why_tests_cant": "tests transform a few multiples of the generator in one representation; whether a root of unity is one of the scalars that break the multiplication depends on the length", "anchors": ["zkcrypto/src/fft_g1.rs: fft_g1, fft_g1_fast, fft_g1_slow"]}
{"id": "C112", "title": "Batch proofs on machine words (zkcrypto)", "statement": "With settings made from a trusted setup, data_availability_optimized for single and for multi proofs returns words of exactly the points that compute_proof_single and compute_proof_multi compute at the successive roots of unity (points at infinity for the zero polynomial), data_availability returns the same words in bit-reversed order, and each of these proofs is accepted for the value of the polynomial and for no other; wrong sizes are refused with an error, a setup that is too short makes the constructor panic. In a build with overflow checks the calls return this or panic. Deviations: if one of the scalars that the points are multiplied by in between rounds with a carry (C87), a build with overflow checks panics, and there are polynomials of every size for which it does; a build without them returns, for such polynomials, the proofs of another polynomial.", "quantifier": "all trusted setups, all polynomials of all power-of-two sizes and all chunk lengths, with and without overflow checks", "why_tests_cant": "the failing polynomials are a fraction of about 2^-65 of all; representations by words of equal points differ between the batch and the single functions", "anchors": ["zkcrypto/src/fk20.rs: ZkFK20SingleSettings, ZkFK20MultiSettings, toeplitz_part_1, toeplitz_part_2, toeplitz_part_3"]}
{"id": "C113", "title": "Memory behind the objects of the ckzg crate", "statement": "For every sequence of calls of the public methods of KzgPoly, KzgFFTSettings, KzgKZGSettings, KzgFK20SingleSettings and KzgFK20MultiSettings (constructors, default, clone, moves, drops, reads and writes of coefficients and tables, use for proofs): if the client never clones, never makes a default polynomial, keeps indices in range, takes no slice of an empty polynomial, passes vectors at least as long as the length it states, and keeps the settings that others were made from in their variable while they are used, then no memory is freed twice, used after being freed or accessed outside an array, and once all variables are gone no memory is left; a coefficient that was written is read back and no other one changes; eval, inverse, div, long_div, fast_div and mul_direct return what the library computes from the coefficients of the operands and leave all polynomials as they were; a constructor that reports an error leaves everything as it was. Deviations: none of this care is asked for by the types. A clone of an object that holds memory shares its arrays and the second drop is a double free; dropping KzgPoly::default() frees the address of an expired temporary; get_coeff_at, set_coeff_at and the accessors of roots do not check their index; get_coeffs of a polynomial of length 0 makes a slice at the null pointer; settings keep a raw pointer to the variable they were made from; KZGSettings::new reads beyond vectors that are too short; the scale is cut to 32 bits; after a failed constructor, and after a failed div, the destructor runs on whatever the library left in the object, for div a pointer to an expired temporary if the library did not touch it.", "quantifier": "all libraries meeting the stated contract, all programs of any length, all values", "why_tests_cant": "the tests drop each object once and never clone, move or over-index; undefined behaviour need not show in a run", "anchors": ["ckzg/src/poly.rs: KzgPoly", "ckzg/src/fftsettings.rs: KzgFFTSettings", "ckzg/src/kzgsettings.rs: KzgKZGSettings", "ckzg/src/fk20settings.rs: KzgFK20SingleSettings, KzgFK20MultiSettings"]}
{"id": "C114", "title": "Functions of the ckzg crate around its calls into C", "statement": "generate_trusted_setup returns, for every 32-byte secret, the points s^i G1 and s^i G2 for i below the length, s being the secret reduced modulo the group order; fft_fr, fft_g1, das_fft_extension, recover_poly_from_samples and the single batch proofs return exactly what the library wrote for exactly the given data; poly_mul_fft makes settings of the least sufficient scale; mcl's make_data returns the multiples 1..n of the generator. Deviations: ckzg's make_data returns n copies of the generator, because the sum is discarded; poly_mul_fft of two empty operands (or with length 0) panics on underflow, and without overflow checks uses a transform of size one; batch proofs in chunks come with a tail of default points behind the proofs; a sample equal to Fr::null() is treated as missing; check_proof_multi reads as many values as it is told, beyond a shorter vector; bound_fft_fr_fast and bound_fft_fr_slow always process 4096 entries, beyond shorter slices.", "quantifier": "all lengths, all secrets, all data, all libraries meeting the stated contract", "why_tests_cant": "make_data is only used to compare two transforms of the same data; the tests state the right lengths and use full-size slices", "anchors": ["ckzg/src/fftsettings.rs: make_data, poly_mul_fft, bound_fft_fr_fast, bound_fft_fr_slow, fft_fr, fft_g1, das_fft_extension", "ckzg/src/kzgsettings.rs: generate_trusted_setup, check_proof_multi", "ckzg/src/fk20settings.rs: data_availability", "ckzg/src/poly.rs: recover_poly_from_samples", "mcl-kzg/kzg/src/fk20_fft.rs: make_data"]}
{"id": "C115", "title": "Scalar trait: one program, five crates", "statement": "A program over the scalar trait (construction from words or a u64, add, sub, mul, sqr, negate, inverse, eucl_inverse, pow, div, equality and zero/one tests, to_u64_arr) computes modulo the group order, and shows the same words and truth values with every backend if it does not subtract, invert, divide by zero, take the power 0 or build a scalar from words not below the order. Every program, portable or not, behaves per crate as one table of answers says, including which statement panics. Deviations from one common meaning: words not below the order are reduced (blst, ckzg, zkcrypto), become zero (Arkworks) or panic (mcl); ckzg has no sub and no inverse; ckzg, Arkworks and mcl have no eucl_inverse; the inverse of zero is zero (blst, mcl) or a panic (zkcrypto, Arkworks), division by zero is Ok(0) except for a panic in Arkworks; x.pow(0) is x in mcl; blst's null is the ordinary scalar (2^256-1) mod r, ckzg's is no scalar. rand of blst and ckzg gives each scalar for three or two of the 2^256 drawn arrays.", "quantifier": "all programs of any length, all literals, all libraries meeting the stated contract, all drawn words", "why_tests_cant": "the shared tests run a few fixed expressions per backend and never compare backends on the same program", "anchors": ["kzg/src/lib.rs: Fr", "blst-from-scratch/src/types/fr.rs", "ckzg/src/finite.rs: Fr for BlstFr", "zkcrypto/src/zkfr.rs", "Arkworks/src/kzg_types.rs: Fr for FsFr", "mcl-kzg/kzg/src/trait_implementations/fr.rs"]}
{"id": "C116", "title": "One input, four backends", "statement": "Given the same input, blst-from-scratch, zkcrypto, Arkworks and mcl return the same value from: the settings constructors, transforms over scalars and points in both directions, the DAS extension, products, inverses and quotients of polynomials by every method, the zero polynomial, recovery of erased samples, commitments, single and coset proofs and their verification, and both kinds of FK20 proofs. The transforms, the erasure code and FK20 need, for mcl only, a scale below 7, since above it mcl works with another root of unity (C56). Recovery needs at most 2^16 samples (C24), the products need operands with a nonzero coefficient and the quotients operands with nonzero leading coefficients. Deviations: an inverse of zero terms is an error (blst), a panic (zkcrypto, Arkworks) or empty (mcl); the product with an empty polynomial is empty, in mcl zeros; with a zero polynomial it is zeros, in Arkworks empty; zero divided by a polynomial is zeros (blst, mcl), a panic (zkcrypto) or empty (Arkworks); with nothing missing the zero polynomial is empty, in mcl zeros; recovering a complete codeword panics, in mcl it returns zeros; proving for the zero polynomial panics in zkcrypto only; committing to a too long polynomial is an error (blst, mcl) or a panic (zkcrypto, Arkworks); verifying a coset at 0 gives a verdict (blst, mcl) or a panic (zkcrypto, Arkworks); the same secret bytes stand for different scalars in mcl.", "quantifier": "every scale, size, polynomial, sample vector, point, secret and pairing within the stated limits", "why_tests_cant": "every backend is tested alone on fixed inputs; nothing compares two of them", "anchors": ["kzg/src/lib.rs: traits Fr, G1, FFTFr, FFTG1, DAS, Poly, ZeroPoly, PolyRecover, KZGSettings, FK20SingleSettings, FK20MultiSettings", "blst-from-scratch/src", "zkcrypto/src", "Arkworks/src", "mcl-kzg/kzg/src"]}
{"id": "C117", "title": "What the scalar type publishes about its field", "statement": "In zkcrypto, every nonzero scalar is the power of multiplicative_generator() by exactly one exponent below r-1, and the generator is not a square; root_of_unity() is the power of the generator by the odd number (r-1)/2^S, and its powers give one exactly at the multiples of 2^S; the modulus has NUM_BITS bits; from_repr accepts every 32-byte number of CAPACITY bits, and not every number of one bit more; to_repr gives the bytes of the canonical number, which from_repr reads back, and so does the conversion into an array; is_odd is the parity of that number; sum of any number of scalars, also of none, is their sum in the field. The default scalar is zero.", "quantifier": "all scalars, all exponents, all byte arrays, all lists", "why_tests_cant": "that 7 generates the whole multiplicative group is a statement about 2^255 elements; the tests only check that the root of unity has the stated power", "anchors": ["zkcrypto/src/curve/scalar.rs: GENERATOR, ROOT_OF_UNITY, S, MODULUS_BITS, PrimeField for Scalar, From<Scalar> for [u8; 32], Sum for Scalar"]}
{"id": "C118", "title": "Texts of field elements", "statement": "Debug and Display of a scalar write 0x and the 64 lower-case hexadecimal digits of its canonical number, Debug of a base field element 0x and 96 digits, and Debug of elements of the extension fields the texts of the coefficients in order with *u, *v, *v^2 and *w. Two elements of one field have the same text exactly if they are equal. Deviation: a scalar built from words not below the modulus has the text of the scalar it reduces to, although the two are not equal.", "quantifier": "all elements of the five fields", "why_tests_cant": "tests print a handful of elements; injectivity is about all pairs", "anchors": ["zkcrypto/src/curve/scalar.rs: Debug, Display", "zkcrypto/src/curve/fp.rs: Debug", "zkcrypto/src/curve/fp2.rs: Debug", "zkcrypto/src/curve/fp6.rs: Debug", "zkcrypto/src/curve/fp12.rs: Debug"]}
{"id": "C119", "title": "Settings made by default() and the accessors of settings", "statement": "In the blst and mcl backends default transform settings hold one value: transforms return a single value unchanged and refuse two or more. In zkcrypto and Arkworks they hold nothing and every non-empty transform is refused. No extension is computed. With default KZG settings of the blst, mcl and zkcrypto backends no non-empty polynomial is committed to, and no check of a proof ever gives a verdict. No FK20 settings can be made from default settings, and default FK20 settings refuse every non-empty polynomial. For settings made by new at scale k the accessors return the width 2^k, the powers of a primitive root at the indices 0 to 2^k, and panic past them; the reversed list is the mirror image. Deviations: mcl's compute_proof_single on default settings returns the identity as the proof of every polynomial at every point; zkcrypto panics where the others return an error, as do the checks of single proofs everywhere and mcl's extension; mcl's optimised FK20 method panics on one coefficient, and mcl's default() leaves the process-wide table of roots on root 5.", "quantifier": "all inputs of every length, all scales and indices, all histories of mcl constructor calls before default()", "why_tests_cant": "tests use default objects only as placeholders; refusal is about every input", "anchors": ["blst-from-scratch/src/types/fft_settings.rs: default and accessors", "blst-from-scratch/src/types/kzg_settings.rs: default", "blst-from-scratch/src/types/fk20_single_settings.rs, fk20_multi_settings.rs: default", "mcl-kzg/kzg/src/fk20_fft.rs, kzg_settings.rs, kzg10.rs, fk20_matrix.rs: default", "zkcrypto/src/fftsettings.rs, kzg_proofs.rs, fk20.rs: default", "Arkworks/src/kzg_types.rs, fk20_proofs.rs: default"]}
{"id": "C120", "title": "Curve objects of the mcl backend", "statement": "Curve::new(secret, order) holds the generators and for every i below order the generators times secret^i, in both groups; Curve::new2 on the points of a trusted setup from the same secret gives the same curve, and panics if asked for more points than it is given. commit on the points of such a curve gives the value at the secret times the generator for every polynomial of at most order coefficients, and refuses longer ones. gen_proof_at gives, for polynomials of at most order+1 coefficients, a proof that is_proof_valid accepts with the true value and with no other. verify_pairing says whether the two pairings are equal; is_proof_valid on any curve, also with changed fields, checks e(C - yG1, G2) = e(proof, P1 - xG2) and panics if the curve has fewer than two points. from_i32 takes the integers modulo r. Deviation: gen_proof_at accepts polynomials of more coefficients and silently drops the top of the quotient; for every order from two on and non-zero secret there is a polynomial of order+2 coefficients whose honest proof is refused. The default curve is the one made with order zero.", "quantifier": "all secrets, orders, curves, polynomials, points, values and group elements, any pairing", "why_tests_cant": "the repository's tests of Curve are commented out, and a truncated quotient shows only for polynomials longer than the curve", "anchors": ["mcl-kzg/kzg/src/kzg10.rs: Curve (new, new2, is_proof_valid, verify_pairing), Polynomial (commit, gen_proof_at, from_i32)"]}
{"id": "C121", "title": "Sums of scalar multiples from signed digits (zkcrypto)", "statement": "pippenger returns the sum of the scalar multiples of the points over the shorter of the two inputs, whatever length the iterator over the scalars announces (the announced length only selects the digit width 6, 7 or 8), never panics, and agrees with msm_variable_base on fewer than 2^64 scalars. to_radix_2w turns every scalar, for each of the three widths w, into digits between -2^(w-1) and 2^(w-1)-1 that represent it in base 2^w, without overflow of the signed bytes; the digits beyond the number to_radix_2w_size_hint announces are zero. mul_by_pow_2 multiplies by 2^k for positive k, and with debug assertions panics for k = 0. The functions are compiled only with a feature that the crate does not declare, nothing calls them, and their test is commented out.", "quantifier": "all scalars, all lists of points and scalars of any lengths, all announced lengths, any module over the scalar field", "why_tests_cant": "the only test is commented out and not compiled; carries between words and out of the top digit depend on the bit pattern of the scalar", "anchors": ["zkcrypto/src/curve/multiscalar_mul.rs: pippenger, mul_by_pow_2, to_radix_2w, to_radix_2w_size_hint"]}
