{"id": "C01", "title": "Linear combination arithmetic is faithful", "statement": "Every arithmetic operator on Variable, FieldElement and LinearCombination (+, -, unary -, scalar *, +=, From) produces a linear combination whose value under any assignment is the corresponding field expression of the operands' values.", "quantifier": "all linear combinations (any length, repeated variables allowed), all scalars, all assignments of field elements to variables", "why_tests_cant": "Infinitely many combinations and assignments; the operators only concatenate terms, so the claim is about all of them.", "anchors": ["src/r1cs/linear_combination.rs: Mul/Neg/Add/Sub/AddAssign/From impls"]}
{"id": "C02", "title": "simplify preserves meaning under every hash iteration order", "statement": "LinearCombination::simplify returns a combination in which every variable occurs exactly once, exactly the variables of the input occur, and whose value under every assignment equals the input's, whatever order the internal HashMap is iterated in.", "quantifier": "all linear combinations, all iteration orders of the hash map, all assignments", "why_tests_cant": "HashMap order is randomised per process; a test sees a handful of orders.", "anchors": ["src/r1cs/linear_combination.rs: LinearCombination::simplify"]}
{"id": "C03", "title": "Prover's multiplication gates are always satisfied", "statement": "After any sequence of API calls on a Prover (commit, multiply, allocate, allocate_multiplier, allocate_single, constrain, specify_randomized_constraints and its callbacks), the three witness vectors have equal length and at every index output = left * right, including multipliers that are only half assigned.", "quantifier": "all client programs (any interleaving, any length, any challenge-dependent second phase), all values", "why_tests_cant": "Quantifies over every interleaving of half allocations, multiplications and callbacks.", "anchors": ["src/r1cs/prover.rs: multiply, allocate, allocate_multiplier, allocate_single, _allocate_vars"]}
{"id": "C04", "title": "Variables handed out are valid and never aliased", "statement": "Each variable returned by commit, allocate, allocate_single, multiply or allocate_multiplier refers to an existing slot of the constraint system, was never returned by an earlier call, and its value never changes afterwards (except that a pending multiplier's unreturned right and output wires may be filled in).", "quantifier": "all client programs, on prover and verifier, in both phases", "why_tests_cant": "Aliasing appears only under particular interleavings of single and paired allocation.", "anchors": ["src/r1cs/prover.rs: allocate, _allocate_vars, commit", "src/r1cs/verifier.rs: allocate, _allocate_vars, commit"]}
{"id": "C05", "title": "multiply constrains exactly its inputs", "statement": "cs.multiply(l, r) on the prover allocates a gate holding the values of l, r and their product, and adds exactly two constraints, which hold of an assignment precisely when the gate's wires equal the values of l and r.", "quantifier": "all prover states, all linear combinations over existing variables, all assignments", "why_tests_cant": "Ranges over all states and linear combinations.", "anchors": ["src/r1cs/prover.rs: multiply", "src/r1cs/verifier.rs: multiply"]}
{"id": "C06", "title": "Prover and verifier build the same circuit", "statement": "If prover and verifier run the same client program, the verifier being given the commitments the prover produced, they end with the same number of multipliers, the same number of commitments, the same commitments, and constraint lists that are coefficient-wise equal; the same variables are handed out at each step and the same second-phase callbacks are registered.", "quantifier": "all pairs of matching prover/verifier client programs, all witnesses, all hash orders inside simplify", "why_tests_cant": "A divergence can hide behind any interleaving; tests exercise fixed circuits.", "anchors": ["src/r1cs/prover.rs", "src/r1cs/verifier.rs", "src/r1cs/constraint_system.rs"]}
{"id": "C07", "title": "Missing assignments are errors for the prover and harmless for the verifier", "statement": "On the prover, allocate/allocate_multiplier/allocate_single called with None return MissingAssignment and leave the constraint system unchanged; called with Some they succeed. On the verifier the assignment argument is ignored and the call always succeeds.", "quantifier": "all prover and verifier states, all arguments", "why_tests_cant": "Needs every reachable state, in particular pending-multiplier states.", "anchors": ["src/r1cs/prover.rs: allocate, allocate_multiplier, allocate_single", "src/r1cs/verifier.rs: allocate, allocate_multiplier, allocate_single"]}
{"id": "C08", "title": "Second-phase callbacks run once, in order, after the first-phase commitments", "statement": "The callbacks registered through specify_randomized_constraints run exactly once each, in registration order, after the first-phase commitments were absorbed into the transcript and with no pending multiplier; an error returned by one aborts prove/verify with that error; with no callback the one-phase separator is absorbed, otherwise the two-phase one.", "quantifier": "all lists of callbacks, all callback bodies, all transcripts", "why_tests_cant": "Callbacks are arbitrary programs; order and error propagation must hold for all of them.", "anchors": ["src/r1cs/prover.rs: create_randomized_constraints", "src/r1cs/verifier.rs: create_randomized_constraints"]}
{"id": "C09", "title": "Flattening computes the z-weighted sum of all constraints", "statement": "For every challenge z the flattened weights satisfy <wL,aL>+<wR,aR>+<wO,aO>-<wV,v>-wc = sum over the constraints q of z^(q+1) times the value of constraint q, for every assignment; prover and verifier compute the same wL, wR, wO, wV.", "quantifier": "all constraint lists over existing variables (repeated variables included), all z, all assignments", "why_tests_cant": "Needs all constraint lists and all z.", "anchors": ["src/r1cs/prover.rs: flattened_constraints", "src/r1cs/verifier.rs: flattened_constraints"]}
{"id": "C10", "title": "A violated constraint survives z-batching for all but few z", "statement": "If an assignment violates at least one of Q constraints, the z-weighted sum vanishes for at most Q values of z; likewise a violated multiplication gate survives y-batching for all but n-1 values of y.", "quantifier": "all constraint systems and assignments, all fields of prime order", "why_tests_cant": "A statement about the number of roots over the entire field.", "anchors": ["src/r1cs/prover.rs: flattened_constraints, prove", "src/r1cs/verifier.rs: flattened_constraints, verify"]}
{"id": "C11", "title": "Polynomial products are exact", "statement": "VecPoly1::inner_product (Karatsuba) and VecPoly3::special_inner_product return the coefficients of the inner product of the two vector polynomials: evaluating the result at x equals the inner product of the evaluations at x, for special_inner_product under its documented precondition that lhs.0 and rhs.2 are zero; without the precondition it is false.", "quantifier": "all vectors of any equal length, all x", "why_tests_cant": "Identity over all lengths and values.", "anchors": ["src/utils/vector_poly.rs: VecPoly1::inner_product, VecPoly3::special_inner_product, Poly2::eval, Poly6::eval, VecPoly1::eval, VecPoly3::eval"]}
{"id": "C12", "title": "Inner product argument: completeness", "statement": "For every power of two n and all vectors a, b of length n, factors and generators, the proof returned by create_ipp from a transcript is accepted by verify_ipp from the same transcript state, against P = sum a_i Gf_i G_i + sum b_i Hf_i H_i + <a,b> Q, provided no round challenge is zero; both leave the transcript in the same state.", "quantifier": "all n = 2^k (1 <= n < 2^32), all vectors, generators, factors, all transcripts and random-oracle behaviours", "why_tests_cant": "Unbounded recursion depth and all challenge values.", "anchors": ["src/ipp.rs: IPP::create_ipp, IPP::verify_ipp"]}
{"id": "C13", "title": "Inner product verification scalars have the documented closed form", "statement": "verification_scalars returns u_j^2, u_j^-2 and s with s_i equal to the product over rounds j of u_j or its inverse according to bit (lg n - 1 - j) of i, so that reversing s inverts it entry-wise; and it rejects exactly the length mismatches.", "quantifier": "all n = 2^k, all lists L and R of equal length, all transcripts, non-zero challenges", "why_tests_cant": "The inductive construction of s must be right for every index at every size.", "anchors": ["src/ipp.rs: IPP::verification_scalars"]}
{"id": "C14", "title": "IPP verification accepts exactly one P", "statement": "For a fixed transcript and well-formed proof (a, b, L, R) verify_ipp returns Ok for exactly one group element P and VerificationError for every other one.", "quantifier": "all proofs, transcripts and group elements", "why_tests_cant": "All P must be covered.", "anchors": ["src/ipp.rs: IPP::verify_ipp"]}
{"id": "C15", "title": "create_ipp shape and failure", "statement": "create_ipp panics exactly when the length is not a power of two or the six vectors disagree in length; otherwise it returns lg n elements in L and in R.", "quantifier": "all vector lengths", "why_tests_cant": "All lengths.", "anchors": ["src/ipp.rs: IPP::create_ipp"]}
{"id": "C16", "title": "IPP special soundness", "statement": "From accepting IPP conversations sharing their prefix but with distinct challenges (a tree with four challenges per round, pairwise different up to sign), an extractor computes vectors a, b that open P with c = <a,b>, or exposes a non-trivial linear relation between the generators.", "quantifier": "all n = 2^k, all generators, all P, all transcript trees", "why_tests_cant": "Knowledge soundness is about all adversaries.", "anchors": ["src/ipp.rs: IPP::verify_ipp"]}
{"id": "C17", "title": "R1CS completeness", "statement": "If the prover's assignment satisfies every constraint (first and second phase) and enough generators are supplied, Prover::prove returns a proof and Verifier::verify, run on the matching client program with the produced commitments, returns Ok, for every random choice of prover and verifier, as long as no challenge that must be inverted is zero.", "quantifier": "all client programs, witnesses, prover randomness, verifier randomness, generators, transcripts, any number of multipliers and phases", "why_tests_cant": "All circuits, paddings and phase splits; unit tests try a dozen.", "anchors": ["src/r1cs/prover.rs: Prover::prove", "src/r1cs/verifier.rs: Verifier::verify", "src/ipp.rs"]}
{"id": "C18", "title": "Unsatisfied witnesses are rejected except on bad challenges", "statement": "If the prover runs the honest algorithm on an assignment violating some constraint, the verifier accepts only if the z-weighted sum of the violations is zero or x = 0 or r = 0.", "quantifier": "all client programs, all assignments, all randomness and challenges", "why_tests_cant": "Needs all circuits and wrong witnesses.", "anchors": ["src/r1cs/prover.rs: prove", "src/r1cs/verifier.rs: verify"]}
{"id": "C19", "title": "Batched final check equals the two protocol equations", "statement": "Verifier::verify accepts a well-formed proof for every verifier randomness r iff the t-polynomial equation and the inner-product equation both hold; if they do not both hold, at most one value of r makes it accept.", "quantifier": "all proofs (honest or not), all circuits, all r", "why_tests_cant": "Quantifies over all adversarial proofs and all r.", "anchors": ["src/r1cs/verifier.rs: verify"]}
{"id": "C20", "title": "Transcript synchrony", "statement": "On matching programs and an honest proof the prover and verifier drive the transcript through exactly the same sequence of operations, hence derive identical challenges.", "quantifier": "all client programs, witnesses, random oracles", "why_tests_cant": "All programs.", "anchors": ["src/transcript.rs", "src/r1cs/prover.rs: prove", "src/r1cs/verifier.rs: verify", "src/ipp.rs"]}
{"id": "C21", "title": "Transcript binds every proof element and commitment before the challenges that depend on it", "statement": "Two verifier runs whose transcripts coincide when a challenge is drawn used the same commitments and the same proof elements preceding this challenge.", "quantifier": "all pairs of proofs and commitment lists", "why_tests_cant": "All pairs of inputs.", "anchors": ["src/transcript.rs", "src/r1cs/verifier.rs: verify"]}
{"id": "C22", "title": "The transcript does not bind public constants of the circuit", "statement": "Full claim: challenges depend on the whole public statement. This is false: constants in constraints (e.g. expected hash output, set, bounds) never enter the transcript, and a prover who chooses the constant after seeing the challenges can make the verifier accept a false statement.", "quantifier": "all circuits; existence of an accepted false statement", "why_tests_cant": "An absence of absorption is a property of all runs.", "anchors": ["src/transcript.rs", "src/r1cs/prover.rs: prove, flattened_constraints", "src/r1cs/verifier.rs: verify"]}
{"id": "C23", "title": "Generator shortage is reported, never mis-verified", "statement": "prove returns InvalidGeneratorsLength when fewer G generators than multipliers (or than the padded number) are supplied, verify returns InvalidGeneratorsLength when fewer than the padded number are supplied; both only look at G: too few H generators cause a panic instead of an error.", "quantifier": "all circuits, all generator vectors", "why_tests_cant": "All lengths.", "anchors": ["src/r1cs/prover.rs: prove", "src/r1cs/verifier.rs: verify"]}
{"id": "C24", "title": "Verification is total on adversarial proofs", "statement": "Full claim: verify never panics on a proof received from the network. False: a proof whose R list is shorter (or longer) than its L list makes verify panic; with |L| = |R| and enough H generators verify never panics; a wrong |L| is reported as VerificationError by verify but panics in verify_ipp.", "quantifier": "all proofs, all circuits", "why_tests_cant": "All malformed proofs.", "anchors": ["src/r1cs/verifier.rs: verify", "src/ipp.rs: verification_scalars, verify_ipp"]}
{"id": "C25", "title": "bit_gadget", "statement": "An assignment satisfies the constraints added by bit_gadget iff the quantity's value is 0 or 1 (auxiliary wires then being determined); the honest prover produces a satisfying assignment for 0 and 1.", "quantifier": "all constraint systems, variables and assignments", "why_tests_cant": "All field values.", "anchors": ["src/r1cs/gadgets/helper_constraints/bit.rs"]}
{"id": "C26", "title": "is_nonzero_gadget", "statement": "The constraints added are satisfiable iff x * x_inv = 1; hence they imply x is not zero, and with x_inv = x^-1 they hold for every non-zero x.", "quantifier": "all variables, assignments", "why_tests_cant": "All field values.", "anchors": ["src/r1cs/gadgets/helper_constraints/non_zero.rs", "src/r1cs/gadgets/non_zero.rs"]}
{"id": "C27", "title": "positive_no_gadget", "statement": "The constraints are satisfiable iff the quantity's value is congruent to an integer in [0, 2^n); the honest prover satisfies them exactly when the canonical value is below 2^n.", "quantifier": "all n, all values, all fields", "why_tests_cant": "All bit lengths and values, including n beyond the field size.", "anchors": ["src/r1cs/gadgets/helper_constraints/positive_no.rs"]}
{"id": "C28", "title": "Bound check", "statement": "When 2^(n+1) is at most the field order, a committed value passing the bound check gadget with bounds lower <= upper lies in [lower, upper]; conversely the honest prover succeeds for every value in the range whenever upper-lower < 2^n. Without the size condition soundness fails; out-of-range values make the prover's u64 subtraction underflow.", "quantifier": "all u64 values and bounds, all n, all assignments", "why_tests_cant": "2^64 inputs and all adversarial assignments.", "anchors": ["src/r1cs/gadgets/bound_check.rs"]}
{"id": "C29", "title": "vector_sum_constraints and set membership", "statement": "vector_sum_constraints holds iff the values sum to the given number in the field. set_membership_gadget's constraints are satisfiable for committed v and differences iff v is an element of the set (and differences are set[i]-v); the empty set is never satisfiable.", "quantifier": "all sets, values, assignments", "why_tests_cant": "All sets of all sizes.", "anchors": ["src/r1cs/gadgets/helper_constraints/vector_sum.rs", "src/r1cs/gadgets/set_membership.rs"]}
{"id": "C30", "title": "Alternative set membership", "statement": "Full claim: proofs of prove_set_membership_alt verify iff the value is in the set. Proved: a satisfying assignment implies the value is in the set or is zero; refuted: value zero is provable for every non-empty set not containing it, and an honest proof for a set that lists the value twice is rejected.", "quantifier": "all sets of u64, all values, all assignments", "why_tests_cant": "Needs all adversarial witnesses.", "anchors": ["src/r1cs/gadgets/set_membership_alt.rs"]}
{"id": "C31", "title": "Set non-membership", "statement": "The constraints are satisfiable for committed v and given set iff v differs from every element of the set (field-wise).", "quantifier": "all sets, values, assignments", "why_tests_cant": "All sets.", "anchors": ["src/r1cs/gadgets/set_non_membership.rs"]}
{"id": "C32", "title": "Hamming distance", "statement": "Full claim: an accepted proof shows the committed vector differs from the public vector in exactly count positions. False: the gadget never ties the allocated difference to the committed value. Proved: honest completeness, and that the number of non-zero allocated differences is congruent to count.", "quantifier": "all vectors, counts, assignments", "why_tests_cant": "Needs all adversarial witnesses.", "anchors": ["src/r1cs/gadgets/hamming_distance.rs"]}
{"id": "C33", "title": "MiMC gadget computes MiMC", "statement": "In every satisfying assignment the linear combination returned by the mimc gadget evaluates to the native mimc function of the input values; the honest prover's assignment is satisfying.", "quantifier": "all inputs, all constants, all numbers of rounds, all assignments", "why_tests_cant": "All inputs and round counts.", "anchors": ["src/r1cs/gadgets/mimc.rs", "src/r1cs/gadgets/helper_constraints/mimc.rs"]}
{"id": "C34", "title": "Poseidon gadget computes the Poseidon permutation", "statement": "For the cube and quint S-boxes, in every satisfying assignment the outputs of the permutation and hash gadgets (2:1, 4:1, 8:1) evaluate to the native permutation/hash of the inputs, whatever order simplify's hash map is iterated in; the honest prover's assignment is satisfying.", "quantifier": "all parameters (width, rounds, constants, matrices), inputs, assignments, hash orders", "why_tests_cant": "All inputs and parameter sets.", "anchors": ["src/r1cs/gadgets/helper_constraints/poseidon.rs", "src/r1cs/gadgets/poseidon_hash.rs"]}
{"id": "C35", "title": "Inverse S-box gadget", "statement": "Full claim: same as for cube/quint. False: the inverse S-box gadget never constrains its input wire, so the output can be any non-zero element; moreover input 0 is unprovable although the native function maps 0 to 0.", "quantifier": "all inputs, assignments", "why_tests_cant": "Needs all adversarial witnesses.", "anchors": ["src/r1cs/gadgets/helper_constraints/poseidon.rs: synthesize_inverse_sbox"]}
{"id": "C36", "title": "Hash database semantics", "statement": "InMemoryHashDb::get returns the most recently inserted value for a key, and HashNotFoundInDB carrying the key if none was inserted.", "quantifier": "all insertion histories and keys", "why_tests_cant": "All histories.", "anchors": ["src/utils/hash_db.rs"]}
{"id": "C37", "title": "Index digit representations", "statement": "get_base_4_repr / get_base_8_repr return exactly num_digits digits, all below the base, whose weighted sum is the index modulo base^num_digits; get_byte_size is the smallest number of bytes holding that many digits.", "quantifier": "all indices, all numbers of digits", "why_tests_cant": "All indices and depths.", "anchors": ["src/r1cs/gadgets/helper_constraints/sparse_merkle_tree_4_ary.rs", "src/r1cs/gadgets/helper_constraints/sparse_merkle_tree_8_ary.rs", "src/r1cs/gadgets/helper_constraints/mod.rs"]}
{"id": "C38", "title": "Sparse Merkle trees behave as maps", "statement": "After any history of updates, get(idx) returns the value of the last update to idx (or the initial empty leaf 0), for 4-ary and 8-ary trees of every depth, unless two different node tuples inserted in this history have the same hash; indices that agree modulo arity^depth denote the same leaf.", "quantifier": "all histories, indices, depths, hash functions", "why_tests_cant": "Unbounded histories and depths.", "anchors": ["src/r1cs/gadgets/helper_constraints/sparse_merkle_tree_4_ary.rs", "src/r1cs/gadgets/helper_constraints/sparse_merkle_tree_8_ary.rs"]}
{"id": "C39", "title": "Merkle proofs verify and bind", "statement": "A proof returned by get verifies against the tree's root; and if two proofs of the tree's depth verify against the same root and index with different leaf values, a hash collision can be exhibited.", "quantifier": "all trees, indices, proofs, depths", "why_tests_cant": "All adversarial proofs.", "anchors": ["src/r1cs/gadgets/helper_constraints/sparse_merkle_tree_4_ary.rs: verify_proof", "src/r1cs/gadgets/helper_constraints/sparse_merkle_tree_8_ary.rs: verify_proof"]}
{"id": "C40", "title": "Merkle root determines contents", "statement": "Two trees of equal depth produced by any histories with equal roots have the same contents, or a hash collision occurred.", "quantifier": "all pairs of histories", "why_tests_cant": "All pairs of histories.", "anchors": ["src/r1cs/gadgets/helper_constraints/sparse_merkle_tree_4_ary.rs", "src/r1cs/gadgets/helper_constraints/sparse_merkle_tree_8_ary.rs"]}
{"id": "C41", "title": "Merkle membership gadget", "statement": "In every satisfying assignment of the 4-ary (8-ary) membership gadget the leaf, index digits and sibling values recompute the root with the native hash; the index digits are genuine base-4/8 digits of the index value. Fewer proof nodes than levels are accepted by the verifier functions (refuted depth check).", "quantifier": "all depths, assignments, hash parameters", "why_tests_cant": "All depths and adversarial witnesses.", "anchors": ["src/r1cs/gadgets/helper_constraints/sparse_merkle_tree_4_ary.rs: vanilla_merkle_merkle_tree_4_verif_gadget", "src/r1cs/gadgets/sparse_merkle_tree_4_ary.rs", "src/r1cs/gadgets/helper_constraints/sparse_merkle_tree_8_ary.rs", "src/r1cs/gadgets/sparse_merkle_tree_8_ary.rs"]}
{"id": "C42", "title": "Randomness policy", "statement": "Every gen_proof/prove function that takes (randomness, rng) returns GadgetError when both are None and touches nothing; otherwise the committed value uses the supplied randomness if present.", "quantifier": "all values and options", "why_tests_cant": "All inputs.", "anchors": ["src/errors.rs", "src/r1cs/gadgets/"]}
{"id": "C43", "title": "End-to-end gadget proofs verify", "statement": "For every gadget's gen_proof/verify_proof pair, a proof generated for a true statement is accepted by the matching verify function on the produced commitments.", "quantifier": "all true statements, randomness, transcripts, generators", "why_tests_cant": "All inputs.", "anchors": ["src/r1cs/gadgets/"]}
{"id": "C44", "title": "Generator derivation", "statement": "get_generators(prefix, n) hashes n pairwise different strings, is a prefix of get_generators(prefix, n+k); two different prefixes may nevertheless share generators (e.g. \"G\" and \"G1\").", "quantifier": "all prefixes and sizes", "why_tests_cant": "All sizes.", "anchors": ["src/utils/mod.rs: get_generators"]}
{"id": "C45", "title": "Randomizer index selection", "statement": "get_indices_to_modify returns only indices below data_size, at most count_modified of them, strictly without duplicates; get_randomized_data changes exactly the selected positions.", "quantifier": "all nonces, sizes, counts, hash behaviours", "why_tests_cant": "All inputs.", "anchors": ["src/r1cs/gadgets/randomizer.rs"]}
{"id": "C46", "title": "Randomizer gadget", "statement": "In every satisfying assignment the gadget's original root is the root obtained from the modified tree by writing the original values back at the selected indices.", "quantifier": "all trees, indices, assignments", "why_tests_cant": "All trees and adversarial witnesses.", "anchors": ["src/r1cs/gadgets/randomizer.rs"]}
{"id": "C47", "title": "Chained challenges", "statement": "gen_challenges(input, state, n) returns max(1, n) challenges: each is the hash of the given state, the bytes of all input points, and the bytes of every earlier challenge times the group generator; the state is left as the bytes hashed for the last challenge, and asking for more challenges does not change the first ones.", "quantifier": "all inputs, states and n", "why_tests_cant": "All lengths.", "anchors": ["src/utils/mod.rs: gen_challenges"]}
{"id": "C48", "title": "R1CS special soundness", "statement": "From accepting proofs of one circuit that share their prefixes but answer different challenges (as many y as padded multipliers, one more z than constraints, five u, seven x, two w and a tree of inner-product conversations under each), an extractor that sees only challenges and the scalars of the proofs computes openings of all commitments and an assignment satisfying every multiplier and constraint, or a non-trivial linear relation between the generators. The first-phase wires it finds are those committed before the second-phase challenges: two extractions with the same first-phase points and commitments, even for different second phases, agree on them or give a relation. A proof that verify accepts for two values of its random factor is such an accepting conversation.", "quantifier": "all circuits whose constraints determine the committed values, all generators, commitments and (adversarial) proofs, all trees of challenges", "why_tests_cant": "Knowledge soundness is about all adversaries, all circuits and all challenge trees.", "anchors": ["src/r1cs/verifier.rs: verify", "src/r1cs/prover.rs: prove", "src/ipp.rs: IPP::verify_ipp"]}
{"id": "C49", "title": "Poseidon parameters", "statement": "PoseidonParams::new(width, fb, fe, partial) panics exactly when there is no table for the width (3, 5 or 9; only 5 with the feature secp256k1) or the table has too few round constants for fb+partial+fe rounds; otherwise it returns the given numbers, the first rounds*width constants of the table for that width and its matrix. In the field of the order that the tables of a feature are made for (BLS12-381, alt_bn128, secp256k1, ed25519) every table constant is a canonical field element, the matrix is the Cauchy matrix of 1/(width+i+j), and it is maximum distance separable: a change of the input and the change of the output it causes have together more than width non-zero elements. The tables of the feature bn254 are not made for amcl's curve BN254: there constants exceed the order and the matrix is another one.", "quantifier": "all features, widths and round numbers; all vectors for the distance property", "why_tests_cant": "The distance property quantifies over all vectors over a 255-bit field; the tables are copied digits that no test checks.", "anchors": ["src/r1cs/gadgets/helper_constraints/poseidon.rs: PoseidonParams::new", "src/r1cs/gadgets/poseidon_constants.rs"]}
{"id": "C50", "title": "The Poseidon permutation is one", "statement": "With parameters made by PoseidonParams::new for any of the four curves and the Quint or Inverse S-box, Poseidon_permutation is a bijection of the vectors of that width (also with the bn254 tables on amcl's BN254); in general it is one whenever the matrix is maximum distance separable and the S-box exponent is prime to the order minus one. With the Cube S-box it is not injective on any of the curves, and (almost) every input of hash_2, hash_4 and hash_8 has a second preimage.", "quantifier": "all features, all round numbers, all vectors", "why_tests_cant": "Bijectivity on a set of about 2^765 to 2^2295 vectors; a colliding pair is never hit by random tests.", "anchors": ["src/r1cs/gadgets/helper_constraints/poseidon.rs: Poseidon_permutation, SboxType, Poseidon_hash_2, Poseidon_hash_4, Poseidon_hash_8"]}
{"id": "C51", "title": "Proofs do not depend on the witness (perfect witness indistinguishability)", "statement": "Take two provers whose programs match the same verifier program (same commitments, same circuit) but that commit to and assign different secret values, both satisfying the circuit. If the blinding generator generates the group, then for every possible proof the number of random tapes with which the first prover outputs exactly this proof equals the number with which the second one does (provided the challenge y of that proof is not zero). So no function of a proof tells which secrets were used.", "quantifier": "all programs, both phases, all pairs of satisfying secrets, all proofs and final transcripts, all generator lists that are long enough, all tape lengths that cover what prove draws", "why_tests_cant": "It compares complete distributions over tapes of hundreds of field elements; a reused or missing blinding factor still gives proofs that verify.", "anchors": ["src/r1cs/prover.rs: Prover::prove, Prover::commit", "src/ipp.rs: IPP::create_ipp"]}
{"id": "C52", "title": "Knowledge soundness of the gadget verifiers", "statement": "For each verifying function of a gadget (non-zero, bounded number, set membership in both variants, set non-membership, MiMC preimage, Poseidon hash of 2, 4 and 8 inputs, leaf inclusion in 4-ary and 8-ary Merkle trees, randomizer), for all commitments and public inputs: an extractor that sees only the public circuit, the challenges and the scalars of a tree of accepted proofs computes openings of all commitments whose values are in the gadget's relation (for example: the committed value is in the set; the committed values hash to the output), or a linear relation between the generators. Conversely, for all secrets in the relation the honest prover can answer every tree of challenges.", "quantifier": "all commitments, public inputs, transcripts, generator lists of sufficient length, all well-formed trees of accepted proofs; for the converse all secrets and challenges", "why_tests_cant": "It quantifies over all cheating provers; no run exhibits an extractor.", "anchors": ["src/r1cs/gadgets/*.rs: verify_* functions", "src/r1cs/verifier.rs: Verifier::verify", "src/r1cs/prover.rs: Prover::prove"]}
{"id": "C53", "title": "Several gadgets in one proof", "statement": "For any list of gadget calls, in any order and any number of times: if the proving functions are called one after the other on one prover with secrets that the gadgets allow, prove succeeds and the verifier, on which the corresponding verifying functions were called with the returned commitments, accepts; the commitments contain the secrets under the randomness that was passed. Whoever can make a verifier accept on which such a list of verifying functions was called knows openings of all commitments such that every gadget's relation holds of its own part of the values, or a linear relation between the generators.", "quantifier": "all lists of calls of the non-zero, bound, set, hamming distance (completeness only), MiMC, Poseidon, leaf inclusion and randomizer functions; all commitments, public inputs, secrets, randomness, labels, generators, trees of accepted proofs", "why_tests_cant": "The tests combine three bound checks, and one bound check with two set gadgets; interference between the indices, the pending multiplier or the transcript of arbitrary combinations, and cheating provers, are out of reach.", "anchors": ["tests/multiple_constraint_systems.rs", "src/r1cs/gadgets/*.rs: prove_*, verify_* functions", "src/r1cs/prover.rs: Prover", "src/r1cs/verifier.rs: Verifier"]}
{"id": "C54", "title": "Zero knowledge: proofs can be written down without the witness", "statement": "There is an algorithm that writes down proofs for the circuit of a verifier without knowing any secret value, if it is told the challenges y, z, u and x in advance. A given proof is output by a prover that knows a witness with exactly as many choices of its random values as the algorithm outputs it with its own random values, told the challenges that belong to this proof. The verifier accepts every proof that the algorithm outputs, also if its constraints cannot be satisfied.", "quantifier": "all circuits with one or two phases built through the constraint-system interface, all witnesses, labels, generators with a generating blinding generator, all proofs with y and x not zero, all numbers of random values large enough, all random values", "why_tests_cant": "Zero knowledge is a statement about the distribution of all proofs over all random values and about an algorithm that is not in the code; no finite number of runs shows it.", "anchors": ["src/r1cs/prover.rs: Prover::prove", "src/r1cs/verifier.rs: Verifier::verify", "src/r1cs/proof.rs: R1CSProof", "src/ipp.rs: IPP::create_ipp"]}
{"id": "C55", "title": "Knowledge error against interactive cheating provers", "statement": "Take any prover strategy for the interactive protocol (every message a function of the challenges received so far) and any set C of challenges. If it is accepted for more than the fraction (N + q + 13 + 7 log2 N)/|C| of all challenge vectors over C, where N is the padded number of multipliers and q the number of constraints, then among the conversations it wins there are enough to extract, by the algorithm of C48, openings of the commitments and an assignment that satisfies the circuit, or a linear relation between the generators. Conversely, with a satisfying assignment all challenge vectors without a zero can be answered.", "quantifier": "all circuits (also with a second phase, for its fixed constraints), all generators, commitments, all strategies, all finite challenge sets, all ways to choose which winning vectors are counted", "why_tests_cant": "It ranges over all cheating provers, an infinite family of functions, and over all challenge vectors; tests only run the honest prover.", "anchors": ["src/r1cs/prover.rs: Prover::prove", "src/r1cs/verifier.rs: Verifier::verify", "src/ipp.rs: IPP::verify_ipp", "src/transcript.rs: TranscriptProtocol::challenge_scalar"]}
{"id": "C56", "title": "Knowledge error of Fiat-Shamir proofs in the random-oracle model", "statement": "Let a prover ask a random oracle (merlin's challenge function) at most Q questions, in any order and adaptively, and then output a proof. If Verifier::verify, with its challenges answered by the same oracle, accepts this proof for more than the fraction (Q + 5 + log2 N) * max(N, q, 7)/|C| + 1/|R| of all oracles with answers in C and all random values of the verifier in R, then there are oracles for which the proofs it outputs form a tree from which the algorithm of C48 extracts openings of the commitments and a satisfying assignment, or a linear relation between the generators. verify asks exactly one question for every challenge, about everything that was absorbed before. Conversely, with a satisfying assignment Q = 5 + log2 N questions suffice to convince verify under every oracle whose answers are not zero.", "quantifier": "all circuits without second phase, all generators and commitments, all adaptive provers with at most Q questions, all oracles over any finite set C of non-zero answers, all sets R of random values", "why_tests_cant": "It is about the number of hash functions for which an arbitrary cheating program succeeds; a test runs one program with one hash function.", "anchors": ["src/r1cs/verifier.rs: Verifier::verify", "src/transcript.rs: TranscriptProtocol", "src/ipp.rs: IPP::verification_scalars", "src/r1cs/proof.rs: R1CSProof"]}
{"id": "C57", "title": "Knowledge error of the gadgets against provers that choose the commitments", "statement": "Let a prover ask a random oracle (merlin's challenge function) at most Q questions, adaptively, and then output commitments for a given list of public statements (not zero, in a range, in a set, not in a set, preimage of a MiMC or Poseidon hash, leaf of a Merkle tree, ...) together with one proof. The circuit that the verifying functions build does not depend on the commitments, only on their number. If the verifying functions and Verifier::verify accept for more than the fraction (Q + 5 + log2 N) * max(N, q, 7)/|C| + 1/|R| of all oracles with answers in C and all random values of the verifier in R, then for some of the commitment lists it outputs, the proofs it outputs with these commitments form a tree from which an algorithm extracts openings of all of them to values of which all statements are true, or a linear relation between the generators. Conversely a prover who knows such values convinces the verifier with 5 + log2 N questions under every oracle whose answers are not zero.", "quantifier": "all lists of statements of the kinds of C53 except hamming distance, all generators, all adaptive provers with at most Q questions that choose the commitments and the proof, all oracles over any finite set C of non-zero answers, all sets R of random values", "why_tests_cant": "It is about every program that chooses commitments after looking at hash values; a test runs the honest prover with one hash function.", "anchors": ["src/r1cs/verifier.rs: Verifier::commit, Verifier::verify", "src/r1cs/gadgets: verify_* functions", "src/transcript.rs: TranscriptProtocol::commit_point, challenge_scalar"]}
{"id": "C58", "title": "Zero knowledge in the random oracle model", "statement": "Take a prover with a circuit without randomized constraints whose values satisfy all constraints, with merlin's challenge function answered by a random oracle with non-zero answers. A distinguisher asks the oracle at most Q questions, then receives a proof together with the transcript that Prover::prove leaves behind, then asks any number of questions and guesses. There is a simulator that knows only the generators, the commitments, the constraints and the transcript after the commitments; it chooses the challenges itself and the oracle is then changed at the questions of its proof. Counted over all oracles and all values of the prover's random numbers, the distinguisher says yes for the real proof and for the simulated proof equally often up to the fraction Q / (order of the group). The simulator works on every circuit, even if nothing satisfies it, and Verifier::verify with the changed oracle accepts its proofs.", "quantifier": "all circuits without second phase and all values that satisfy them, all generators (blinding generator generating the group), all distinguishers with at most Q questions before the proof and any number after it, all sets C of non-zero answers, all finite sets of questions that contain those of proofs of this size, all lengths of the random tape", "why_tests_cant": "It compares the distributions of proofs over all random choices and all hash functions, for every distinguishing program; a test sees one proof.", "anchors": ["src/r1cs/prover.rs: Prover::prove", "src/r1cs/verifier.rs: Verifier::verify", "src/transcript.rs: TranscriptProtocol::challenge_scalar", "src/ipp.rs: IPP::create_ipp"]}
{"id": "C59", "title": "Whole sessions with gadgets are zero knowledge", "statement": "Call any of the proving functions of src/r1cs/gadgets any number of times on one prover, with secrets that satisfy the statements and without passing blindings (they are drawn from the rng), then Prover::prove. All returned commitments and the proof together reveal nothing but the statements (the public arguments of the verifying functions) and the number of commitments: with merlin's challenge function answered by a random oracle with non-zero answers, a distinguisher that asks, gets the commitments, asks again, gets the proof with the final transcript and asks any number of further questions says yes for the real session and for a simulated one equally often up to the fraction Q / (order of the group), counted over all oracles and all values of the rng, where Q bounds its questions before the proof. The simulator gets no secret: its commitments are random multiples of h, its proof is simulated for the circuit that the verifying functions build. It also works for false statements, and then Verifier::verify with the changed oracle accepts.", "quantifier": "all lists of calls of the proving functions (all 13 kinds) with satisfying secrets and rng blindings, all sizes of sets, depths, rounds and tables, all transcripts and generators (blinding generator generating the group), all distinguishers, all sets of non-zero answers, all finite sets of questions that contain those of sessions of this size", "why_tests_cant": "It is about the joint distribution of commitments and proof over all random choices and all hash functions, for every distinguishing program and every combination of gadgets; a test sees one session.", "anchors": ["src/r1cs/gadgets/bound_check.rs: prove_bounded_num", "src/r1cs/gadgets/set_membership.rs: prove_set_membership", "src/r1cs/gadgets/randomizer.rs", "src/r1cs/gadgets/sparse_merkle_tree_4_ary.rs: prove_leaf_inclusion_4_ary_merkle_tree", "src/r1cs/prover.rs: Prover::commit, Prover::prove", "src/r1cs/verifier.rs: Verifier::verify"]}
{"id": "C60", "title": "Knowledge error of circuits with randomized constraints", "statement": "Take a circuit whose second phase (ConstraintSystem::specify_randomized_constraints) draws challenges with fixed labels and then adds gates and constraints that depend on them. A cheating prover asks the random oracle behind merlin at most Q questions and outputs a proof for given commitments. If Verifier::verify accepts for more than the fraction (Q + r + 5 + k) * max(d_i, N, q, 7) / |C| + 1/|R| of the oracles (answers in C, not zero) and of the verifier's batching values (in R), then its own proofs yield, by a program on scalars, either a non-trivial relation between the generators, or openings of the commitments and wires of the first phase, fixed before the challenges, such that for more than d_1 values of the first challenge, each followed by more than d_2 values of the second one and so on, the same openings and the same first-phase wires can be completed to a satisfying assignment of the circuit with these challenges. In particular a product check at a random point proves a permutation. Here r is the number of challenges, N = 2^k the padded number of gates, q the number of constraints. A prover that knows such openings and wires for all challenges always wins.", "quantifier": "all circuits with a second phase of fixed size that recover the committed values, all numbers of challenges and all d_i, all provers with at most Q questions, all finite answer sets, all finite sets of questions that contain those of the verifier", "why_tests_cant": "It is about every cheating prover and counts over all hash functions and challenge values; a test runs one prover with one hash.", "anchors": ["src/r1cs/constraint_system.rs: ConstraintSystem::specify_randomized_constraints, RandomizedConstraintSystem::challenge_scalar", "src/r1cs/verifier.rs: Verifier::verify, Verifier::create_randomized_constraints", "src/transcript.rs: TranscriptProtocol::r1cs_2phase_domain_sep, challenge_scalar", "src/r1cs/proof.rs: R1CSProof"]}
{"id": "C61", "title": "The debugging matrices hold one row per constraint", "statement": "For every circuit over its own variables, get_weight_matrices of prover and verifier return one row per constraint and one column per wire (or commitment), whose entries are the coefficients of the last term on that variable; the verifier also returns minus the sum of all constants. If a constraint repeats no variable (as after simplify), its rows multiplied with an assignment, plus its constant, are its value, and when this holds for all constraints flattened_constraints_elaborated equals flattened_constraints for every challenge. With a repeated variable it does not: for a commitment x and the constraint x + x, the two differ for every non-zero challenge. A variable that does not exist makes the functions panic.", "quantifier": "all prover and verifier states, all constraint lists and assignments, all challenges", "why_tests_cant": "The functions are only meant for debugging and the assertions that compare them are commented out; a test compares them on one circuit, and on most circuits they agree.", "anchors": ["src/r1cs/prover.rs: Prover::get_weight_matrices, Prover::flattened_constraints_elaborated, Prover::flattened_constraints", "src/r1cs/verifier.rs: Verifier::get_weight_matrices", "src/r1cs/linear_combination.rs: LinearCombination::simplify"]}
{"id": "C62", "title": "The size of a gadget's circuit is fixed by its public arguments", "statement": "Every proving and every verifying function that succeeds has added a number of multiplication gates and a number of linear constraints that depend only on its public arguments (for Merkle openings: also on the number of commitments), never on the secrets, the blindings, the random values or what the constraint system held before: 2 and 6 for non-zero, 2n and 4n+5 for a bound check with n bits, k and 3k+1, 3k and 7k+2, 2k and 7k for the three set gadgets with k elements, 2k and 3k+1 for the hamming distance, 2n and 4n+1 for MiMC, 2/3/3 and 4/6/7 for each cube/quint/inverse S-box of Poseidon (plus one constraint per hash), and per level 13 + a permutation and 26 + a permutation (34 and 68 for 8-ary trees). Sizes of several calls on one prover or verifier add up. So the number of generators needed is the sum of the gates rounded up to a power of two: with fewer, Verifier::verify rejects every proof and Prover::prove returns none. The knowledge error of C57 and the simulator of C59 can be stated with these numbers.", "quantifier": "all statements of all 13 proving/verifying functions and all lists of them, all commitments, secrets, random values, and all earlier states of the prover or verifier", "why_tests_cant": "A test counts the gates of one instance; it cannot show that no secret or commitment changes the count, which would leak through the size of the proof.", "anchors": ["src/r1cs/gadgets: bound_check.rs, non_zero.rs, set_membership.rs, set_membership_alt.rs, set_non_membership.rs, hamming_distance.rs, mimc.rs, poseidon_hash.rs, sparse_merkle_tree_4_ary.rs, sparse_merkle_tree_8_ary.rs, randomizer.rs", "src/r1cs/prover.rs: Prover::prove", "src/r1cs/verifier.rs: Verifier::verify"]}
{"id": "C63", "title": "Exactly when verification panics", "statement": "Whether a verifying function panics, returns an error or makes its circuit is decided by its public arguments and the number of commitments it is given, never by the commitments themselves, the random values or the transcript. It panics if there are fewer commitments than it removes from the vector; otherwise only: the bound check if max < min and overflow checks are on; MiMC if there are fewer constants than rounds; the Merkle openings if the sibling commitments end within a level that is begun (surplus ones after the last level are ignored); the randomizer if the depth it is told is not that of the modified tree. Only the hamming distance returns an error (GadgetError, when the numbers differ). The whole check of one or several statements then returns InvalidGeneratorsLength if the vector G is shorter than the gates rounded up to a power of two; else VerificationError if the number of points L is not the logarithm of that; else panics if H is too short or the numbers of points L and R differ (or if the proof has no points and batch_invert of the dependency panics on nothing); else it returns Ok or VerificationError. In particular, with the right numbers no received proof can crash a verifier.", "quantifier": "all statements of the verifying functions with fitting hash parameters (and, for the randomizer, a modified tree whose nodes are in its database, as every tree made by the tree's functions without hash collisions), and all lists of them; all commitments, all proofs of any shape, all generators, labels and random values; overflow checks on and off", "why_tests_cant": "A test tries some malformed inputs; it cannot show that no other input crashes a server that verifies received proofs.", "anchors": ["src/r1cs/gadgets: bound_check.rs, non_zero.rs, set_membership.rs, set_membership_alt.rs, set_non_membership.rs, hamming_distance.rs, mimc.rs, poseidon_hash.rs, sparse_merkle_tree_4_ary.rs, sparse_merkle_tree_8_ary.rs, randomizer.rs (verify functions)", "src/r1cs/verifier.rs: Verifier::verify", "src/ipp.rs: IPP::verification_scalars"]}
{"id": "C64", "title": "Zero knowledge of circuits with randomized constraints in the random oracle model", "statement": "Take a prover whose callbacks (ConstraintSystem::specify_randomized_constraints) draw challenges with fixed labels, draw no random numbers themselves, and then add gates and constraints that depend on the challenges, and whose values satisfy the whole circuit whatever the challenges are. Merlin's challenge function is answered by a random oracle with non-zero answers. A distinguisher asks the oracle at most Q questions, then receives a proof together with the transcript that Prover::prove leaves behind, then asks any number of questions and guesses. There is a simulator that knows only the generators, the commitments, the transcript before Prover::prove and, as a function of the challenges, the constraints; it chooses all challenges itself, also those of the second phase, and the oracle is then changed at the questions of its proof. Counted over all oracles and all values of the prover's random numbers, the distinguisher says yes for the real proof and for the simulated proof equally often up to the fraction Q / (order of the group). The simulator works on every circuit, even if nothing satisfies it, and Verifier::verify, whose own callbacks draw the same challenges, accepts its proofs with the changed oracle. In particular the proof that committed values are a permutation of others (C60) reveals neither the values nor the permutation.", "quantifier": "all first phases, all callbacks of fixed labels and number of gates, all values that satisfy the circuit for all challenges, all generators (blinding generator generating the group), all distinguishers with at most Q questions before the proof and any number after it, all sets C of non-zero answers, all finite sets of questions that contain those of proofs of this size, all lengths of the random tape", "why_tests_cant": "It compares the distributions of proofs over all random choices and all hash functions, for every distinguishing program; a test sees one proof.", "anchors": ["src/r1cs/prover.rs: Prover::prove, Prover::create_randomized_constraints", "src/r1cs/constraint_system.rs: ConstraintSystem::specify_randomized_constraints, RandomizedConstraintSystem::challenge_scalar", "src/r1cs/verifier.rs: Verifier::verify", "src/transcript.rs: TranscriptProtocol::r1cs_2phase_domain_sep, challenge_scalar"]}
{"id": "C65", "title": "Exactly when proving panics or refuses", "statement": "Whether a proving function panics, returns an error or commits to its values is decided as follows, whatever the secret values, the random values and the transcript, and whether or not the statement is true. Without blindings and without a random number generator, every function that takes blindings returns GadgetError. The hash functions and MiMC return GadgetError unless they get exactly their number of inputs and as many blindings; the Merkle openings unless they get two blindings; the hamming distance if its vectors differ in length. Otherwise they panic only: the bound check if the value is not between the bounds and overflow checks are on (with overflow checks off it goes on); MiMC if there are fewer constants than rounds; the openings if the siblings end within a level that is begun, or (8-ary) if an index has too few bytes for the depth; the randomizer if a value given is missing or is not the leaf of the original tree, or the depth is not that of the modified tree. In all other cases the commitments are returned, in the number that the verifying function takes, also for a false statement. Prover::prove then returns InvalidGeneratorsLength if G is shorter than the gates; else panics if H is; else returns InvalidGeneratorsLength if G is shorter than the gates rounded up to a power of two; else panics if H is; else returns a proof whose numbers of points L and R are the logarithm of that. The same is so for whole proofs of several statements at once.", "quantifier": "all proving functions with any arguments (hash parameters fitting; for the randomizer trees whose nodes are in their databases, as every tree made by the tree's functions without hash collisions; for the 4-ary trees an index with a digit per level) and all lists of them; all generators, labels, transcripts and random values; overflow checks on and off", "why_tests_cant": "A test runs a prover on a few statements; it cannot show that no other values, in particular secret ones, make it crash or reveal by an error that the statement is false.", "anchors": ["src/r1cs/gadgets: bound_check.rs, non_zero.rs, set_membership.rs, set_membership_alt.rs, set_non_membership.rs, hamming_distance.rs, mimc.rs, poseidon_hash.rs, sparse_merkle_tree_4_ary.rs, sparse_merkle_tree_8_ary.rs, randomizer.rs (prove and gen_proof functions)", "src/r1cs/prover.rs: Prover::prove"]}
{"id": "C66", "title": "The scalars of an accepted proof are determined by what precedes them", "statement": "Fix the points of a proof. If two proofs with the same points A, S and T both satisfy the verifier's equation for the evaluation, then they have the same evaluation and the same blinding of it, or the differences are the coefficients of a discrete-logarithm relation between g and h. If a proof and the same proof with other last scalars a, b of the inner-product argument are both accepted with the same randomness (or both satisfy the equation of the inner-product argument), then the last scalars are the same, or explicit coefficients, computed from the two pairs and the challenges, are a non-trivial relation between g, G and H. The same holds for the inner-product argument on its own. So without knowing such a relation nobody can turn an accepted proof into a different accepted proof by changing these scalars.", "quantifier": "all verifier states and circuits (with second phase or not), all proofs, generators and challenges, with non-zero challenges y, u and round challenges; all sizes of the inner-product argument with at least one round (or an inversion of an empty list that does not panic)", "why_tests_cant": "A test can change a scalar of a proof and see it rejected; it cannot show that every other value is rejected.", "anchors": ["src/ipp.rs: IPP::verify_ipp, IPP::verification_scalars", "src/r1cs/verifier.rs: Verifier::verify", "src/r1cs/proof.rs: R1CSProof"]}
{"id": "C67", "title": "Honest proofs are rejected with probability at most (1 + k) / |C|", "statement": "Replace the transcript by a random oracle with answers in a set C (zero may be one of them). For every prover without second phase whose values satisfy its constraints, every verifier of the same circuit and every choice of the random values of prover and verifier, the fraction of oracles with which prove fails or verify does not accept the proof is at most (1 + k) / |C|, where 2^k is the padded number of gates. The same holds for whole sessions of honest calls of the proving functions followed by the verifying functions. The prover is the Fiat-Shamir transform of an interactive prover, whose messages depend on the earlier challenges only and which is accepted whenever the first challenge and the challenges of the rounds of the inner-product argument are not zero; the other challenges may be anything.", "quantifier": "all circuits and satisfying values built through the API, all numbers of gates with fewer than 32 rounds, all lists of honest calls, all random tapes, all finite sets of answers and all sets of questions that contain those of the verification", "why_tests_cant": "A test sees proofs being accepted; it cannot count the transcripts for which an honest proof is rejected, as they occur with negligible probability.", "anchors": ["src/r1cs/prover.rs: Prover::prove", "src/r1cs/verifier.rs: Verifier::verify", "src/ipp.rs: IPP::create_ipp, IPP::verification_scalars", "src/transcript.rs: TranscriptProtocol::challenge_scalar"]}
{"id": "C68", "title": "Knowledge and completeness error with the challenges of the code", "statement": "The challenge that the transcript returns is the integer denoted by a string of MODBYTES bytes, reduced modulo the group order p. So each challenge results from floor(B/p) or floor(B/p)+1 of the B = 256^MODBYTES strings, and zero is one of them. Model the transcript as a random oracle that answers with such strings. A prover that chooses the commitments, asks at most Q questions and makes the verifying functions of the gadgets accept with probability more than (Q+5+k) (max(N,q,7)+1) (1/p+1/B) + 1/|R| yields openings of the commitments as the statements say, or a non-trivial relation between the generators; here N = 2^k is the padded number of gates, q the number of constraints and R the set from which the verifier draws its random value. The same holds with randomized constraints, with the number of their challenges added to Q+5+k. An honest session is rejected with probability at most (1+k) (1/p+1/B).", "quantifier": "all lists of statements, adversaries, numbers of questions, numbers of gates and constraints, circuits with second phase of fixed size, honest sessions and random tapes, and all lists of possible challenges with bounded repetitions", "why_tests_cant": "A test runs the transcript on a few inputs; the bias of the reduction and the probability of a zero challenge are far too small to be observed, and the errors range over all adversaries.", "anchors": ["src/transcript.rs: TranscriptProtocol::challenge_scalar", "src/r1cs/prover.rs: Prover::prove", "src/r1cs/verifier.rs: Verifier::verify", "src/ipp.rs: IPP::verification_scalars"]}
{"id": "C69", "title": "Honest proofs of circuits with randomized constraints are rejected with probability at most (1 + k) / |C|", "statement": "C67 for circuits whose constraints depend on challenges: the prover and the verifier have callbacks which draw challenges with the same labels and which lead, for every answer, to the same circuit, satisfied by the values of the prover. Replace the transcript by a random oracle with answers in a set C (zero may be one of them). Whatever random values the prover and the verifier draw, the fraction of oracles with which prove fails or verify does not accept its proof is at most (1 + k) / |C|, where 2^k is the padded number of gates after the second phase. The number of challenges of the callbacks does not matter. With the challenges that the code derives from strings of MODBYTES bytes the fraction is at most (1 + k) (1/p + 1/256^MODBYTES), p the group order. For the proof that two pairs of commitments are a shuffle the bound is 3 / |C|.", "quantifier": "all provers built through the API, callbacks, labels and circuits as functions of the challenges, all numbers of gates with fewer than 32 rounds, all random tapes, all finite sets of answers and all sets of questions that contain those of the verification", "why_tests_cant": "A test sees proofs being accepted; it cannot count the transcripts for which an honest proof is rejected, and it fixes the circuit and the callbacks.", "anchors": ["src/r1cs/prover.rs: Prover::prove, Prover::create_randomized_constraints", "src/r1cs/verifier.rs: Verifier::verify, Verifier::create_randomized_constraints", "src/r1cs/constraint_system.rs: RandomizedConstraintSystem::challenge_scalar", "src/transcript.rs: TranscriptProtocol::r1cs_2phase_domain_sep, TranscriptProtocol::challenge_scalar"]}
{"id": "C70", "title": "Zero knowledge with repeated and zero challenges, and with those of the code", "statement": "C58, C59 and C64 with any finite list C of possible answers of the random oracle, in which answers may be repeated and zero may occur. A distinguisher that asks Q questions before it gets the proof answers \"yes\" to real proofs and to simulated proofs with probabilities that differ by at most Q/p + 2 z/|C|, where p is the group order and z the number of zeros in C. This holds for the proofs of any satisfied circuit, with randomized constraints (whose challenges may be anything), and for the commitments and the proof of whole sessions of honest calls of the proving functions. With the challenges that the code derives from strings of MODBYTES bytes the difference is at most (Q+2)/p + 2/256^MODBYTES. The simulator knows the generators, the commitments (or only their number), the constraints and the transcript.", "quantifier": "all satisfied circuits and honest sessions, all distinguishers and numbers of questions, all lists of possible challenges, all numbers of gates and generators", "why_tests_cant": "Zero knowledge compares distributions over all oracles and random values; no run shows it, and the bias of the challenges and zero challenges are too rare to be observed.", "anchors": ["src/transcript.rs: TranscriptProtocol::challenge_scalar", "src/r1cs/prover.rs: Prover::prove", "src/r1cs/gadgets/: the proving functions gen_proof_of_*"]}
{"id": "C71", "title": "Exactly when proving and verifying with randomized constraints panics or refuses", "statement": "Let callbacks be registered. Prover::prove returns InvalidGeneratorsLength if G is shorter than the gates of the first phase; else panics if H is; else returns the error of the first callback that fails, and panics if a callback panics before one fails. If all callbacks succeed, let n be the number of gates then and N the next power of two: it returns InvalidGeneratorsLength if G is shorter than N; else panics if H is shorter than N or a constraint mentions a variable that does not exist; else returns a proof with log2 N points L and R, whether or not the constraints hold. Verifier::verify returns the error of the first callback that fails, and panics if a callback panics before one fails; else returns InvalidGeneratorsLength if G is shorter than N; else panics if a constraint mentions a variable that does not exist; else returns VerificationError if the proof does not have log2 N points L (or has 32 or more); else panics if H is shorter than N, if the numbers of points L and R differ, or if there are none and inverting an empty list panics; else it accepts or returns VerificationError.", "quantifier": "all provers built through the API and all verifiers, with any non-empty list of callbacks, all random values, transcripts, generators and proofs", "why_tests_cant": "A test runs a few callbacks with a few sizes; it cannot show that no other combination of callbacks, sizes and proofs panics.", "anchors": ["src/r1cs/prover.rs: Prover::prove, Prover::create_randomized_constraints", "src/r1cs/verifier.rs: Verifier::verify, Verifier::create_randomized_constraints", "src/ipp.rs: IPP::verification_scalars"]}
{"id": "C72", "title": "Knowledge error of the inner-product argument on its own", "statement": "Let the transcript, the 2^k generators G and H, the factors, the point Q and the committed point P be fixed, and let a cheating prover ask a random oracle at most q questions and then output an inner-product proof. If IPP::verify_ipp accepts for more than the fraction (q+k)(7 mu + z)/|C| of all oracles, where C is the finite list of possible answers, mu how often an answer occurs in it at most and z how often zero does, then there is a tree of accepted proofs of this prover, four for every round, from which an extractor that sees only challenges and final scalars computes vectors a and b with P = <a*Gf, G> + <b*Hf, H> + <a,b> Q, or a non-trivial linear relation between the scaled generators and Q (one between G, H and Q themselves if no factor is zero). With the challenges that the code derives from strings of MODBYTES bytes the fraction is 8 (q+k)(1/p + 1/256^MODBYTES), p being the group order. With oracle answers other than zero verify_ipp accepts exactly the conversations that the recursive verifier on paper accepts.", "quantifier": "all provers and numbers of questions, all numbers of rounds, generators, factors, points and transcripts, all lists of possible challenges", "why_tests_cant": "A bound on the chances of every cheating strategy over all random oracles cannot be observed in runs of the honest prover or of a few forgeries.", "anchors": ["src/ipp.rs: IPP::verify_ipp, IPP::verification_scalars", "src/transcript.rs: TranscriptProtocol::challenge_scalar, innerproduct_domain_sep"]}
{"id": "C73", "title": "Exactly when the inner-product verification panics, and what it accepts", "statement": "IPP::verify_ipp on arbitrary arguments panics exactly when one of these fails: L has fewer than 32 points, n is 2 to their number, R has at least as many, inverting an empty list of challenges does not panic if there are none, and min(|G|, |G_factors|, n) + min(|H_factors|, n) + 2|L| = |G| + |H| + |L| + |R|, the number of scalars being that of the points. The values of points, scalars and challenges play no part. Otherwise there is exactly one point P for which it returns Ok, and for every other it returns VerificationError; the transcript it leaves depends only on n, the transcript before, L and R. If the sizes are right and one of the round challenges u_j is zero, that point is ab Q - sum u_j^2 L_j, whatever the generators are.", "quantifier": "all arguments of verify_ipp: any lengths of the six vectors, any points, scalars, n and transcript, zero challenges included", "why_tests_cant": "The repository calls verify_ipp with matching lengths only; the lengths that panic, the mismatched ones that do not, and zero challenges (one in the group order) are never met by a test.", "anchors": ["src/ipp.rs: IPP::verify_ipp, IPP::verification_scalars"]}
{"id": "C74", "title": "Honest inner-product proofs are rejected with probability at most k / |C|", "statement": "Let a and b be vectors of 2^k entries with as many generators and factors (fewer than 32 rounds; at least one round, or an inversion of an empty list that does not panic). Over all oracles that answer the questions of the honest proofs by elements of a list C, the fraction with which IPP::create_ipp panics or IPP::verify_ipp, started from the same transcript, does not accept its proof for the point <a*Gf, G> + <b*Hf, H> + <a,b> Q is at most k z / |C|, z being how often zero occurs in C: k / |C| without repetitions, and k (1/p + 1/256^MODBYTES) for the challenges that the code makes of MODBYTES random bytes. A finite set of questions as required exists.", "quantifier": "all numbers of rounds, vectors, generators, factors, points Q, transcripts, and all lists of possible challenges", "why_tests_cant": "A bound over all answers of the hash function, of which those that make an honest proof fail are about one in the group order per round, cannot be observed in runs.", "anchors": ["src/ipp.rs: IPP::create_ipp, IPP::verify_ipp", "src/transcript.rs: TranscriptProtocol::challenge_scalar"]}
