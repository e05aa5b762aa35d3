# Formal model of sifraitech/kzg in Coq 8.16.1

## Code modelled

| crate | files | model | properties |
|---|---|---|---|
| `blst-from-scratch` | `utils`, `consts`, `fft_fr`, `fft_g1`, `data_availability_sampling`, `types/{fr,poly,fft_settings,kzg_settings,fk20_*}`, `zero_poly`, `recovery`, `kzg_proofs`, `fk20_proofs` | `Model_Utils`, `Model_FFT`, `Model_Das`, `Model_Poly`, `Model_ZeroPoly`, `Model_Recovery`, `Model_KZG`, `Model_FK20` | C01-C39, C45, C47 |
| same, `feature = "parallel"` | every `rayon` path | `Conc` (language), `Model_Par` | C40 |
| `zkcrypto`, `Arkworks`, `mcl-kzg/kzg`, `feature = "parallel"` | every `rayon` path; the `static mut` tables of `recover` | `Model_ParBackends` | C106, C107 |
| `mcl-kzg/kzg` | `fk20_fft`, `das`, `utilities`, `kzg10`, `zero_poly`, `data_recovery`, `kzg_settings`, `fk20_matrix`, `data_types/fr`, trait wrappers | `Model_Mcl`, `Model_MclPoly`, `Model_MclZero`, `Model_MclKZG` | C46, C50-C64 |
| `zkcrypto` | `curve/scalar` at the level of 64-bit words | `Model_Scalar` | C41-C44, C48, C49 |
| `zkcrypto` | `curve/fp` at the level of 64-bit words | `Model_Fp` | C83-C85 |
| `zkcrypto` | `curve/g1` on those words | `Model_Curve`, `Model_G1` | C86-C89 |
| `zkcrypto` | `curve/fp2`, `curve/fp6`, `curve/fp12` | `Model_Fp2`, `Model_Fp12` | C90-C93 |
| `zkcrypto` | `curve/g2` on those pairs | `Model_Curve`, `Model_G2` | C94-C97 |
| `zkcrypto` | `curve/pairings`, `pairings_verify` of `kzg_types` | `Model_Pair` | C98-C101 |
| `zkcrypto` | `kzg_proofs` and `kzg_types` again, with points and scalars in words | `Model_ZkWords` | C102-C104 |
| `zkcrypto` | `fft_g1` and `fk20` again, with points in words | `Model_ZkWordsFK` | C111, C112 |
| `zkcrypto` | `clear_cofactor` of `curve/g1` and `curve/g2`; `random` and `rand` | `Model_G1`, `Model_G2`, `Model_Random` | C108, C109 |
| `zkcrypto` | conversions to and from blst's types in `utils` | `Model_ZkConv` | C105 |
| `zkcrypto` | `utils`, `zkfr`, `consts`, `fftsettings`, `fft_fr`, `fft_g1`, `das`, `poly`, `zero_poly`, `recover`, `kzg_proofs`, `kzg_types`, `fk20`, `curve/multiscalar_mul` | `Model_Zk`, `Model_ZkZero`, `Model_ZkMsm`, `Model_ZkKZG`, `Model_ZkFK20` | C65-C72 |
| `Arkworks` | `kzg_types` (scalars, settings, polynomials), `kzg_proofs` (settings, evaluation), `fft`, `fft_g1`, `das`, `poly`, `zero_poly`, `recover` | `Model_Ark`, `Model_ArkZero` | C73-C77 |
| `Arkworks` | `kzg_proofs`, `fk20_proofs`, the stored scalars of `kzg_types` and `utils` | `Model_ArkKZG`, `Model_ArkFK20`, `Model_ArkScalar` | C78-C82 |
| `blst-from-scratch`, `Arkworks`, `mcl-kzg/kzg`, `ckzg` | point types: constants, conversions, methods over the library's arithmetic | `Model_Points` | C110 |
| `ckzg` | the five object types with raw pointers: constructors, destructors, `default`, `clone`, accessors, arithmetic of polynomials, as commands of a client program | `Model_Ckzg` | C113 |
| `ckzg`, `mcl-kzg/kzg` | buffers and sizes around the calls into C, `make_data`, `generate_trusted_setup` | `Model_CkzgCalls` | C114 |
| `kzg`, all five crates | the trait `Fr` and its implementations, programs over it | `Model_Scalars` | C115 |
| four crates written in Rust | the models above, compared on one input | no new model; `Spec_Agree` | C116 |
| `zkcrypto` | `scalar.rs`: the traits `PrimeField`, `Sum`, conversion into bytes; `Debug` of the five fields | `Model_PrimeField`, `Model_Show` | C117, C118 |
| four crates | `default()` of the settings objects, accessors of the transform settings | `Model_Defaults` | C119 |
| mcl | `Curve` objects and the polynomial methods on their points | `Model_MclCurve` | C120 |
| zkcrypto | `pippenger` (signed digits; compiled only with an undeclared feature) | `Model_Pippenger` | C121 |

Every definition cites the file and lines it transcribes.  A definition of the form
`zk_f := f` says that the Rust function consists of the same statements as the function of
`blst-from-scratch` modelled by `f`.

Not modelled: what the C library behind `ckzg` computes (only its use, C113 and C114, and the constants and point methods, C110), benches and test crates, error message texts, `Debug`,
constant-time behaviour, allocation failure, the initialisation
race of `OnceCell`, and the code of external libraries (blst, mcl, rayon, subtle, the arkworks crates, merkle_light).

C113 assumes of the C library (`good_lib`): a constructor that succeeds allocates arrays of the
documented sizes (two tables of 2^scale + 1 entries for transforms), an array without entries is
a null pointer, `free_...` frees exactly these arrays, and a failed constructor leaves fields
that the destructor skips.  The size of the arrays of points is counted, their contents are not modelled.  C114 states beside each
function how many entries the library is taken to read and write.
C115 assumes that the scalar functions of blst (`blst_lib_ok`) and c-kzg (`ckzg_fr_lib_ok`) compute modulo r,
reduce four given words modulo r, and take the inverse of zero to be zero; the null test of c-kzg is not modelled.
`zkcrypto/src/curve/multiscalar_mul.rs` lines 12-185 are behind a feature that the crate does not
define, so they are never compiled and not modelled.

## Conventions

* Every Rust function returns a value of `res A := Ok a | Err | Panic | NoFuel`.
  `Err` is an `Err(String)` (the message is dropped).  `Panic` covers out-of-bounds indexing,
  `unwrap` of an error, failed assertions and unsigned underflow, i.e. builds with overflow
  checks.  `NoFuel` marks loops without a bound of their own; theorems state `Ok`, `Err` or
  `Panic`, so they show that the fuel suffices.
* Vectors are lists indexed by `nat`; in-place loops are explicit loops (`for_range`,
  `while_`) over a state, with bounds-checked reads (`idx`) and writes (`upd`).
* Field: an arbitrary field (record `fld`) with the inverse of 0 equal to 0, the convention of
  blst and mcl.  Generic lemmas hold for every field with the required roots of unity; the
  property theorems are stated for the concrete field `Fr` of integers modulo the BLS12-381
  scalar modulus, with primality proved in Coq (C44) and the tables of the source code.
* Groups: G1, G2 and the target group are arbitrary modules over that field and the pairing
  an arbitrary non-degenerate bilinear map (`pairing`).  `toy_pairing` shows that the
  hypotheses can be met and gives computable examples.
* Parallel code: tasks over shared memory whose steps are single reads and writes of vector
  elements; `join` interleaves both closures in every possible order, parallel iterators
  split their range in every possible way.
* mcl statics: each access to a `static mut` is one step of a thread; the semantics is
  interleaving (unsynchronised access is undefined behaviour in Rust, so real behaviour can
  only be worse than what C46 refutes).
* Tables of scale factors (C107): the two `static mut` vectors of zkcrypto and Arkworks are
  cells of the shared memory; a push is a read and a write of the whole vector.  Again real
  behaviour under unsynchronised access can only be worse than what C107 refutes.  The
  polynomial of a call is a cell that only this call touches.

## Trusted base

* Coq's kernel.  `Print Assumptions` stands below every property theorem; all of them are
  "Closed under the global context".  The seven library constants of
  `Coq.ssr.ssrunder.Under_rel` that a whole-library check lists belong to the ssreflect
  plugin that is loaded by the standard library; no theorem uses them.
* The transcription from Rust to Gallina.
* External code: blst and mcl supply field arithmetic, group operations, sums of scalar
  multiples (`mulVec`, Pippenger) and the pairing, taken as ideal operations.  mcl's decimal
  parser rejects numbers at or above the group order.  mcl's final exponentiation is
  multiplication by some non-zero scalar of the order-r target group.
  For `zkcrypto` the scalar arithmetic, the multi-scalar multiplication, the base field, the
  extension fields, both groups and the pairing are modelled and proved.  C65-C72 use an
  abstract group; C102 shows that the order-r points of the two curves with the modelled pairing are
  an instance of it, and C104 restates setup, commitments and opening proofs for the machine
  words of points and scalars, with the scalar multiplication that has the defect of C87.
  Polynomial division and transforms inside C104 are on field elements, which have exactly one
  representation in words (C41).
  For C105, blst's scalars and base field elements are Montgomery words with the factors
  2^256 and 2^384, its points Jacobian coordinates, and `blst_uint64_from_*` write the words of
  the integer.
* The arkworks crates behind `Arkworks/src`: radix-2 domains, dense polynomials and field
  arithmetic are modelled by their documentation (`Model_Ark`, section `Library`).  The root
  of unity of order 2^32 that ark-bls12-381 supplies is a parameter `W`; the properties assume
  that its square is the last entry of the crate's own table (`lib_root`), which the
  documented constant satisfies (`C73_ark_library_root`).  `ark_lib` (`Model_ArkKZG`) collects
  the root, the scalar that a seeded `StdRng` draws and the X coordinates of points, all of
  them arbitrary; multi-scalar multiplication, affine conversion and the `KZG10` commitment
  and check of ark-poly-commit are modelled by their documentation.

## Files

`Base`, `Loops`, `Fld`, `Poly` (language and algebra), `Zr`, `ZrTables`, `Tables` (the field
and the tables), `Spec*` (vocabulary of the property statements), `Model_*` (transcriptions,
no proofs), `Proof_*` (lemmas), `Properties_*` (the property theorems, each closed by a lemma,
with `Print Assumptions` and an example).  `Fastmul` multiplies integers by
splitting, which makes the large certificates cheap for the standalone checker.

A theorem named `..._refuted` shows that the code deviates from what the property (or the
other backends) would suggest; the deviation is described in the property statement.

## Method per property

| id | model | proof |
|----|-------|-------|
| C01 C02 | 64-bit words as N with wrap-around | bitwise reasoning on N |
| C03 | `reverse_bit_order` with 64-bit `reverse_bits` | loop invariant over swaps |
| C04 C55 | square-and-multiply, repeated multiplication | induction on bits / rounds |
| C05 C44 C50 | constants table, `expand_root_of_unity`, concrete field Z/r | Pocklington primality; orders by squaring |
| C06-C10 C51-C53 C65 C73 | recursive in-place FFT over field / module | induction on depth, sum splitting |
| C11 C12 C54 | recursive in-place extension | induction on depth, against polynomial evaluation |
| C13-C19 C57-C59 C66 C67 C74 C75 | polynomial functions | loop invariants; convolution theorem; Newton iteration |
| C20-C23 C60 C68 C76 | vanishing polynomials | loop invariants; tree reduction invariant; refutation by computation |
| C24-C27 C47 C61 C69 C77 | recovery | interpolation uniqueness |
| C28-C35 C63 C71 C78-C80 | KZG settings | module algebra, bilinearity |
| C36-C39 C64 C72 C81 | FK20 | circulant embedding through the DFT |
| C40 | fork-join of disjoint state | all interleavings of the two tasks give the sequential result |
| C41-C43 C48 C49 | limbs as Z with 2^64 carries | refinement to Z mod r |
| C45 C70 | bit and window decomposition | arithmetic on Z |
| C46 | state machine of global tables | invariant over histories; counterexample interleaving |
| C56 | blst against mcl | equality of the two specifications |
| C83-C85 | six words as Z with 2^64 carries | refinement to Z mod p, p prime by Pocklington |
| C86 | homogeneous coordinates over any coordinate type | field identities; the group law by case analysis on the chord and tangent formulas |
| C87 C88 | endomorphism (x, y) -> (beta x, y), recoding on bytes | eigenvalue of the generator by a certificate of slopes (`Cert_G1`); counting points bounds the r-torsion |
| C89 | bytes | bit fields as sums of powers of two |
| C90-C93 | pairs and triples of lower elements | refinement to the tower of fields `Fp2`, `Fp6`, `Fp12` (`Tower`, `Ext`); binomial theorem in characteristic p |
| C94-C97 | homogeneous coordinates over `Fp2` | the curve lemmas of C86-C89 instantiated at `Fp2`; semilinear maps of the curve (`Proof_Twist`); the order of the generator from its eigenvalue under the Frobenius map and a certified chain of 69 additions (`Proof_Chain2`, `Cert_G2`) |
| C98 C99 | elements of Fp12 | exponent arithmetic in the cyclotomic subgroup |
| C100 C101 | Miller loop with its three drivers | the final power kills factors of subfields, so each step multiplies by the value of a line (`Proof_Steps`, `Proof_Drivers`); bilinearity from the product formula of lines on the curve (`Proof_Lines`, `Proof_Bilin`); the r-torsion over Fp2 is cyclic because a division polynomial has few roots (`Proof_Ladder`, `Proof_G2Sub`) |
| C102 | constants of the generators | the value of the pairing of the generators computed once in digits the kernel handles fast (`Digits`, `Proof_Generator`), compared with the constant of the code |
| C103 C104 | words related to an instance of the abstract pairing | logical relation through every function (`Proof_Rel`, `Proof_ZkWords`) |
| C105 | words, as C41 and C83 | field identities between Jacobian and homogeneous coordinates |
| C106 | fork-join of disjoint state | as C40 |
| C107 | tables of powers in shared cells | invariant of the tables kept by every call; the two closures of a join touch different cells; counterexample interleaving |
| C108 | as C86 and C94 | lower bound on the number of points from certified points of prime order (`Cert_Cofactor`, `Cert_Cofactor2`, `Prime448`), upper bound by counting abscissas (`Proof_Subgroups`); the cofactor map kills the complement of the subgroup |
| C109 | generators as state machines, loops with fuel | induction on rounds; counting residues |
| C110 | words in Jacobian coordinates; the library's point arithmetic is a parameter with a contract (`lib_ok`) | field identities; a library meeting the contract is built from the code of C86 and C94 |
| C111 | points as words, scalars as values handed to the multiplication as limbs; `checked` selects overflow checks | a relation between runs on words and runs in the instance of C102, with a panic allowed or not; roots checked by computation for C111_small |
| C112 | as C111; settings from the public constructors | the same relation through the constructors and both methods; C72 in the instance |
| C113 | heap of arrays, variables holding objects, undefined behaviour as an outcome | invariant: every allocated array belongs to exactly one object of a variable; kept by each command |
| C114 | buffers as lists, what C computes as a parameter; points as in C110 | loop invariants; arithmetic on sizes |
| C115 | programs as lists of statements, a table of answers (`dialect`) per crate; blst and c-kzg as libraries with a contract, `ark_ff` and mcl as the field | simulation between machine words and the field, by induction on the program |
| C116 | the models of C07-C81 side by side; the settings of each backend come from its own constructor and hold powers of one secret | each result is characterised up to equality (values at roots, products, quotients, codewords, openings), so results of two backends that meet the characterisation are equal |
| C117 | constants as words; `scalar.rs:948-993` needs a feature the crate does not declare | the factors of r - 1 are proved prime by trial division, so the order of 7 is r - 1; its powers are distinct, hence all residues (`Generator.v`) |
| C118 | texts as lists of characters; writing does not fail | digits read back to the number; fixed lengths separate the coefficients |
| C119 | settings as records; `default` gives empty tables | each call is followed to its first check or first access |
| C120 | any pairing over the scalar field; the final exponentiation as a non-zero exponent | loop invariant for the points; the opening identity in the exponent; an overlong polynomial X^(order+1) for the refutation |
| C121 | scalars as numbers below r, digits as integers with the wrap-around of signed bytes | invariant of the digit loop: digits so far plus carry are the low bits of the scalar; Abel summation over the buckets; Horner over the columns |
| C62 C82 | byte / word conversions | arithmetic on Z |

## Mutation testing

`seeded/LOG.jsonl` has one line per wrong program tried.  The edit is applied to a scratch
copy; a proof that no longer checks is replaced by `Admitted` there, and `theorems_failed`
lists the property theorems whose `Print Assumptions` then shows such a gap.

For the later lines only the files that use the edited definition are checked again, and the
property theorems are those that refer to a failed lemma, directly or through others.  Both
ways give the same kind of list.

This over-approximates: a listed theorem has lost its proof, which does not show that it is
false of the mutant.  The verdicts therefore differ by evidence:

* `caught: an example evaluates differently`: a concrete evaluation fails, so the mutant
  behaves differently.
* `proof breaks`: only proof scripts fail.  A brittle script over an equivalent program would
  look the same (K5 and U8 are such cases).
* `equivalent program`, `expected equivalent program`: the theorems are believed to stay true;
  no kill is claimed.
* `inconclusive`: the only failure is a time-out.
* `caught: evaluated on an instance`: the script timed out, and the original and the mutant
  were evaluated on an instance on which a theorem fixes the result; they differ.
* `ill-typed edit`, `no result`: the edit or the tool failed; the note names the second run.
* An id ending in `b`, `r` or `s` is a second run of the same edit, or of a corrected one.
* `not caught`, `caught only by an example`: a weakness; see `theorems_tightened`.
