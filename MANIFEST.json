{
 "claims": [
  {
   "property": "C01",
   "status": "proved",
   "theorems": [
    "C01_linear_combination_arithmetic"
   ],
   "note": "All operators, over all assignments."
  },
  {
   "property": "C02",
   "status": "proved",
   "theorems": [
    "C02_simplify",
    "C02_all_orders",
    "C02_simplify_in_programs"
   ],
   "note": "Every hash-map iteration order, including inside client programs."
  },
  {
   "property": "C03",
   "status": "proved",
   "theorems": [
    "C03_gates_satisfied",
    "C03_gates_satisfied_at_proof"
   ],
   "note": "Invariant over every reachable prover state."
  },
  {
   "property": "C04",
   "status": "proved",
   "theorems": [
    "C04_prover_variables",
    "C04_prover_values_stable",
    "C04_verifier_variables"
   ],
   "note": "Prover and verifier; includes odd/even allocation and the second phase."
  },
  {
   "property": "C05",
   "status": "proved",
   "theorems": [
    "C05_multiply",
    "C05_multiply_verifier"
   ],
   "note": ""
  },
  {
   "property": "C06",
   "status": "proved",
   "theorems": [
    "C06_first_phase",
    "C06_second_phase"
   ],
   "note": "Simulation between the prover program and the verifier program, both phases."
  },
  {
   "property": "C07",
   "status": "proved",
   "theorems": [
    "C07_missing_assignment",
    "C07_present_assignment",
    "C07_verifier_ignores_assignments"
   ],
   "note": ""
  },
  {
   "property": "C08",
   "status": "proved",
   "theorems": [
    "C08_prover_callbacks",
    "C08_verifier_callbacks",
    "C08_prove",
    "C08_verify"
   ],
   "note": ""
  },
  {
   "property": "C09",
   "status": "proved",
   "theorems": [
    "C09_flatten_verifier",
    "C09_flatten_prover",
    "C09_flatten_out_of_range"
   ],
   "note": ""
  },
  {
   "property": "C10",
   "status": "proved",
   "theorems": [
    "C10_z_batching",
    "C10_y_batching"
   ],
   "note": "Root counting over the prime field."
  },
  {
   "property": "C11",
   "status": "proved",
   "theorems": [
    "C11_vec_poly1_inner_product",
    "C11_special_inner_product",
    "C11_special_inner_product_refuted"
   ],
   "note": "special_inner_product is exact when the l0 and r2 vectors vanish, as in the prover; the general claim is refuted."
  },
  {
   "property": "C12",
   "status": "proved",
   "theorems": [
    "C12_ipp_completeness"
   ],
   "note": ""
  },
  {
   "property": "C13",
   "status": "proved",
   "theorems": [
    "C13_verification_scalars",
    "C13_rejects"
   ],
   "note": ""
  },
  {
   "property": "C14",
   "status": "proved",
   "theorems": [
    "C14_exactly_one_P",
    "C14_recursive_verifier"
   ],
   "note": ""
  },
  {
   "property": "C15",
   "status": "proved",
   "theorems": [
    "C15_create_ipp_panics",
    "C15_create_ipp_shape"
   ],
   "note": ""
  },
  {
   "property": "C16",
   "status": "proved",
   "theorems": [
    "C16_special_soundness"
   ],
   "note": "Extractor for a complete 4-ary tree of accepted conversations."
  },
  {
   "property": "C17",
   "status": "proved",
   "theorems": [
    "C17_completeness"
   ],
   "note": "Hypotheses: matching programs, enough generators, variables exist, non-zero inverted challenges."
  },
  {
   "property": "C18",
   "status": "proved",
   "theorems": [
    "C18_unsatisfied_rejected"
   ],
   "note": ""
  },
  {
   "property": "C19",
   "status": "proved",
   "theorems": [
    "C19_batching",
    "C19_accepted_fits"
   ],
   "note": ""
  },
  {
   "property": "C20",
   "status": "proved",
   "theorems": [
    "C20_synchrony"
   ],
   "note": ""
  },
  {
   "property": "C21",
   "status": "proved",
   "theorems": [
    "C21_challenge_points",
    "C21_binding"
   ],
   "note": "Uses EncodingOk (injective point and scalar encodings)."
  },
  {
   "property": "C22",
   "status": "proved",
   "theorems": [
    "C22_challenges_ignore_constraints",
    "C22_forgery",
    "C22_statement_bound_refuted"
   ],
   "note": "The strong claim (statement is bound) is false: C22_statement_bound_refuted gives an accepted false statement; the other theorems show it in general."
  },
  {
   "property": "C23",
   "status": "proved",
   "theorems": [
    "C23_prove_generators",
    "C23_verify_generators"
   ],
   "note": ""
  },
  {
   "property": "C24",
   "status": "proved",
   "theorems": [
    "C24_total_when_lengths_agree",
    "C24_panics_on_length_mismatch",
    "C24_wrong_number_of_rounds",
    "C24_verify_ipp_panics",
    "C24_verify_total_refuted"
   ],
   "note": "The strong claim (verify never panics) is false: C24_verify_total_refuted; the exact conditions are the other theorems."
  },
  {
   "property": "C25",
   "status": "proved",
   "theorems": [
    "C25_bit_gadget_exact",
    "C25_bit_gadget_honest"
   ],
   "note": ""
  },
  {
   "property": "C26",
   "status": "proved",
   "theorems": [
    "C26_is_nonzero_gadget_exact",
    "C26_is_nonzero_gadget_honest",
    "C26_verify_non_zero_val"
   ],
   "note": ""
  },
  {
   "property": "C27",
   "status": "proved",
   "theorems": [
    "C27_positive_no_gadget",
    "C27_positive_no_gadget_canonical",
    "C27_positive_no_gadget_honest"
   ],
   "note": "Soundness modulo p in general, exact when 2^n <= p."
  },
  {
   "property": "C28",
   "status": "proved",
   "theorems": [
    "C28_bound_check_gadget",
    "C28_verify_bounded_num",
    "C28_bounded_num_complete",
    "C28_size_condition_needed",
    "C28_out_of_range_panics",
    "C28_no_size_condition_refuted"
   ],
   "note": "Soundness under lower + 2^(n+1) <= p; without a size condition the claim is false (C28_size_condition_needed, C28_no_size_condition_refuted)."
  },
  {
   "property": "C29",
   "status": "proved",
   "theorems": [
    "C29_vector_sum_exact",
    "C29_set_membership_gadget",
    "C29_set_membership_gadget_honest",
    "C29_verify_set_membership"
   ],
   "note": "Includes: no assignment satisfies the circuit of an empty set."
  },
  {
   "property": "C30",
   "status": "proved",
   "theorems": [
    "C30_verify_set_membership_alt",
    "C30_zero_provable",
    "C30_set_membership_alt_complete",
    "C30_only_members_refuted",
    "C30_all_members_refuted"
   ],
   "note": "The full claim is false in both directions: C30_only_members_refuted, C30_all_members_refuted; C30_zero_provable in general. What does hold is proved."
  },
  {
   "property": "C31",
   "status": "proved",
   "theorems": [
    "C31_set_non_membership_gadget",
    "C31_set_non_membership_gadget_honest",
    "C31_verify_set_non_membership"
   ],
   "note": ""
  },
  {
   "property": "C32",
   "status": "proved",
   "theorems": [
    "C32_hamming_complete",
    "C32_any_count_provable",
    "C32_count_bounded",
    "C32_pending_multiplier_panics",
    "C32_soundness_refuted"
   ],
   "note": "Soundness is false: C32_soundness_refuted, C32_any_count_provable in general. What does hold is proved."
  },
  {
   "property": "C33",
   "status": "proved",
   "theorems": [
    "C33_mimc_native",
    "C33_mimc_wrong_round_count_panics",
    "C33_mimc_constraints",
    "C33_mimc_gadget",
    "C33_mimc_gadget_honest",
    "C33_verify_mimc_preimage"
   ],
   "note": ""
  },
  {
   "property": "C34",
   "status": "proved",
   "theorems": [
    "C34_permutation_native",
    "C34_permutation_wrong_length_panics",
    "C34_hash_native",
    "C34_permutation_constraints",
    "C34_permutation_gadget",
    "C34_hash_2_gadget",
    "C34_hash_4_gadget",
    "C34_hash_8_gadget",
    "C34_verify_Poseidon",
    "C34_verifier_commits_zero",
    "C34_permutation_gadget_honest"
   ],
   "note": "The hash gadgets take a variable that must hold 0; the verifying functions commit to 0 themselves (C34_verifier_commits_zero), and the theorem is conditional on that variable being 0."
  },
  {
   "property": "C35",
   "status": "proved",
   "theorems": [
    "C35_zero_unprovable",
    "C35_any_output_provable",
    "C35_pending_multiplier_panics",
    "C35_soundness_refuted",
    "C35_completeness_refuted"
   ],
   "note": "The claim made for cube and quint is false: C35_soundness_refuted, C35_completeness_refuted, and in general C35_any_output_provable, C35_zero_unprovable."
  },
  {
   "property": "C36",
   "status": "proved",
   "theorems": [
    "C36_hash_db"
   ],
   "note": ""
  },
  {
   "property": "C37",
   "status": "proved",
   "theorems": [
    "C37_base_4",
    "C37_base_8",
    "C37_base_4_panics",
    "C37_base_8_panics",
    "C37_byte_size",
    "C37_byte_size_done"
   ],
   "note": ""
  },
  {
   "property": "C38",
   "status": "proved",
   "theorems": [
    "C38_tree_4",
    "C38_tree_8"
   ],
   "note": "Collisions need only be excluded inside the tree at each moment of the history. Depths above 8*MODBYTES/log2(arity) make the digit function panic (C37)."
  },
  {
   "property": "C39",
   "status": "proved",
   "theorems": [
    "C39_get_verifies_4",
    "C39_proofs_bind_4",
    "C39_proofs_contents_4",
    "C39_short_proof_panics_4",
    "C39_get_verifies_8",
    "C39_proofs_bind_8",
    "C39_proofs_contents_8",
    "C39_short_proof_panics_8"
   ],
   "note": ""
  },
  {
   "property": "C40",
   "status": "proved",
   "theorems": [
    "C40_equal_roots_4",
    "C40_equal_roots_8"
   ],
   "note": ""
  },
  {
   "property": "C41",
   "status": "proved",
   "theorems": [
    "C41_merkle_4_gadget",
    "C41_merkle_8_gadget",
    "C41_verify_leaf_4",
    "C41_verify_leaf_8",
    "C41_verifier_commits_4",
    "C41_verifier_commits_8",
    "C41_opening_contents_4",
    "C41_opening_contents_8",
    "C41_opening_exact_4",
    "C41_opening_exact_8",
    "C41_merkle_4_gadget_honest",
    "C41_merkle_8_gadget_honest",
    "C41_inner_node_provable_4",
    "C41_inner_node_provable_8",
    "C41_depth_check_refuted"
   ],
   "note": "The gadgets and verifying functions are conditional on the variable the verifier commits to 0 (C41_verifier_commits_4/8). The depth check is refuted: C41_depth_check_refuted, and in general C41_inner_node_provable_4/8. The index is exact only when arity^depth <= p (C41_opening_exact_4/8)."
  },
  {
   "property": "C42",
   "status": "proved",
   "theorems": [
    "C42_no_randomness_bounded_num",
    "C42_no_randomness_non_zero_val",
    "C42_no_randomness_set_membership",
    "C42_no_randomness_set_membership_alt",
    "C42_no_randomness_set_non_membership",
    "C42_error_returned",
    "C42_no_randomness_mimc",
    "C42_no_randomness_Poseidon",
    "C42_wrong_number_mimc",
    "C42_wrong_number_Poseidon",
    "C42_no_randomness_leaf_inclusion",
    "C42_wrong_number_leaf_inclusion"
   ],
   "note": "Every function that takes (randomness, rng); the randomizer's functions do not."
  },
  {
   "property": "C43",
   "status": "proved",
   "theorems": [
    "C43_verify_error_returned",
    "C43_accepts_exactly",
    "C43_non_zero_val",
    "C43_set_membership",
    "C43_set_non_membership",
    "C43_mimc",
    "C43_Poseidon_2",
    "C43_Poseidon_4",
    "C43_Poseidon_8",
    "C43_leaf_inclusion_4",
    "C43_leaf_inclusion_8",
    "C43_randomizer",
    "C43_randomizer_written"
   ],
   "note": "All gadgets; for inverse S-box and other refuted claims see C30, C32, C35."
  },
  {
   "property": "C44",
   "status": "proved",
   "theorems": [
    "C44_generators",
    "C44_different_strings",
    "C44_different_generators",
    "C44_prefix",
    "C44_same_length_prefixes",
    "C44_prefixes_share_generators"
   ],
   "note": "The two prefixes sharing a generator: C44_prefixes_share_generators."
  },
  {
   "property": "C45",
   "status": "proved",
   "theorems": [
    "C45_indices",
    "C45_drawn",
    "C45_randomized",
    "C45_any_order"
   ],
   "note": "For data sizes below the curve order and below the machine word; size 0 does not terminate (Panic in the model)."
  },
  {
   "property": "C46",
   "status": "proved",
   "theorems": [
    "C46_gadget",
    "C46_verify",
    "C46_verifier_commits",
    "C46_original_contents",
    "C46_gadget_honest"
   ],
   "note": "Trees built by new/update without hash collisions. C46_original_contents says what this means for the original contents. Completeness needs depth > 0."
  },
  {
   "property": "C47",
   "status": "proved",
   "theorems": [
    "C47_challenges",
    "C47_prefix"
   ],
   "note": ""
  },
  {
   "property": "C48",
   "status": "proved",
   "theorems": [
    "C48_special_soundness",
    "C48_trees_exist",
    "C48_first_phase_binding",
    "C48_verify_accepted"
   ],
   "note": "Openings of the commitments need a left inverse of the matrix of their coefficients in the constraints (the rank condition of the paper); it is an argument of the extractor."
  },
  {
   "property": "C49",
   "status": "proved",
   "theorems": [
    "C49_new_panics",
    "C49_new_value",
    "C49_constants_reduced",
    "C49_matrix_is_cauchy",
    "C49_matrix_is_mds",
    "C49_bn254_matrix_not_cauchy",
    "C49_bn254_constants_not_reduced"
   ],
   "note": "The orders of the curves are written in Spec/PoseidonSpec.v; amcl is not part of /repo."
  },
  {
   "property": "C50",
   "status": "proved",
   "theorems": [
    "C50_permutation_bijective",
    "C50_crate_permutation_bijective",
    "C50_cube_permutation_not_injective",
    "C50_cube_hash_2_second_preimage",
    "C50_cube_hash_4_second_preimage",
    "C50_cube_hash_8_second_preimage",
    "C50_bn254_permutation_bijective"
   ],
   "note": "Second preimages for the cube S-box: C50_cube_*."
  },
  {
   "property": "C51",
   "status": "proved",
   "theorems": [
    "C51_witness_indistinguishable",
    "C51_witness_indistinguishable_one_phase",
    "C51_output_counted",
    "C51_number_of_tapes"
   ],
   "note": "The generator h must generate the group and the challenge y of the proof must not be zero; callbacks of the second phase draw no random values (no_random). The simulator is in C54."
  },
  {
   "property": "C52",
   "status": "proved",
   "theorems": [
    "C52_non_zero",
    "C52_bounded",
    "C52_set_membership",
    "C52_set_non_membership",
    "C52_set_membership_alt",
    "C52_mimc",
    "C52_Poseidon_2",
    "C52_Poseidon_4",
    "C52_Poseidon_8",
    "C52_leaf_4",
    "C52_leaf_8",
    "C52_randomizer",
    "C52_bounded_answers",
    "C52_non_zero_answers",
    "C52_set_membership_answers",
    "C52_set_membership_alt_answers",
    "C52_set_non_membership_answers",
    "C52_mimc_answers",
    "C52_Poseidon_2_answers",
    "C52_Poseidon_4_answers",
    "C52_Poseidon_8_answers",
    "C52_leaf_4_answers",
    "C52_leaf_8_answers",
    "C52_randomizer_answers"
   ],
   "note": "Not for hamming distance, whose committed values occur in no constraint (C32). Poseidon gadgets: not for the inverse S-box (C35), at least one full round at the beginning; MiMC: at least one round; sets not empty. Trees of conversations of the protocol; C48_verify_accepted relates them to verify."
  },
  {
   "property": "C53",
   "status": "proved",
   "theorems": [
    "C53_knowledge",
    "C53_proves",
    "C53_answers"
   ],
   "note": "Knowledge: not for hamming distance (C32), and under the conditions of C52. The calls are those of Spec/Compose.v; the permutation-only and auxiliary gadgets have no prove/verify functions."
  },
  {
   "property": "C54",
   "status": "proved",
   "theorems": [
    "C54_zero_knowledge",
    "C54_simulated_accepted"
   ],
   "note": "Statement about each fixed proof and its challenges; the transcript hash is a fixed function in the model, so programming it is left out. h must generate the group; y and x of the proof not zero; callbacks of the second phase draw no random values."
  },
  {
   "property": "C55",
   "status": "proved",
   "theorems": [
    "C55_knowledge_error",
    "C55_vectors",
    "C55_honest_strategy"
   ],
   "note": "The constraints are fixed: with a second phase, the statement is about the constraints that result from its challenges."
  },
  {
   "property": "C56",
   "status": "proved",
   "theorems": [
    "C56_fiat_shamir",
    "C56_fiat_shamir_protocol",
    "C56_oracles",
    "C56_verify_asks",
    "C56_honest_prover"
   ],
   "note": "Circuits without second phase. Answers are not zero (C56_fiat_shamir_protocol has no such condition, for the protocol on paper). Encodings of points and scalars injective."
  },
  {
   "property": "C57",
   "status": "proved",
   "theorems": [
    "C57_gadgets",
    "C57_same_circuit",
    "C57_circuit",
    "C57_honest_prover"
   ],
   "note": "Not for hamming distance (C32), and under the conditions of C52. The statements and the number of commitments are fixed; the adversary chooses the commitments. Answers are not zero; encodings of points and scalars injective."
  },
  {
   "property": "C58",
   "status": "proved",
   "theorems": [
    "C58_zero_knowledge",
    "C58_same_total",
    "C58_questions",
    "C58_simulated_accepted"
   ],
   "note": "Circuits without second phase. h must generate the group; answers of the oracle are not zero; encodings of points and scalars injective. The random tape replaces the rng of the code."
  },
  {
   "property": "C59",
   "status": "proved",
   "theorems": [
    "C59_session_zero_knowledge",
    "C59_same_total",
    "C59_questions",
    "C59_session_runs",
    "C59_simulated_accepted"
   ],
   "note": "Under the conditions of C58. All blindings come from the rng (draws_all); statements, numbers of commitments and, for Merkle openings, the number of levels are public. C59_simulated_accepted has the condition that the constraints only use variables of the circuit."
  },
  {
   "property": "C60",
   "status": "proved",
   "theorems": [
    "C60_two_phase",
    "C60_two_phase_protocol",
    "C60_verify_asks",
    "C60_honest_prover",
    "C60_shuffle"
   ],
   "note": "The size of the circuit and the labels of the challenges are fixed, the callbacks draw no random values; answers are not zero (C60_two_phase_protocol has no such condition, for the protocol on paper); encodings of points and scalars injective. C60_shuffle is an application to a circuit that is not in the code."
  },
  {
   "property": "C61",
   "status": "proved",
   "theorems": [
    "C61_prover_matrices",
    "C61_verifier_matrices",
    "C61_rows_are_constraints",
    "C61_out_of_range",
    "C61_elaborated_agrees",
    "C61_simplified",
    "C61_elaborated_agrees_refuted"
   ],
   "note": "For circuits with at least one constraint. The matrix product belongs to amcl_wrapper and is modelled from its interface."
  },
  {
   "property": "C62",
   "status": "proved",
   "theorems": [
    "C62_verifying_function",
    "C62_proving_function",
    "C62_verifying_session",
    "C62_proving_session",
    "C62_verify_generators",
    "C62_prove_generators",
    "C62_knowledge_error",
    "C62_in_range",
    "C62_simulated_accepted"
   ],
   "note": "C62_knowledge_error, C62_in_range and C62_simulated_accepted are for sound statements (C52): not for hamming distance and the inverse S-box."
  },
  {
   "property": "C63",
   "status": "proved",
   "theorems": [
    "C63_verifying_function",
    "C63_too_few",
    "C63_check",
    "C63_never_panics",
    "C63_built"
   ],
   "note": "Hash parameters must be consistent (C34) and of the right width. For the randomizer the database must have the nodes of the public modified tree; C63_built shows this of every tree made by the code without hash collisions."
  },
  {
   "property": "C64",
   "status": "proved",
   "theorems": [
    "C64_zero_knowledge",
    "C64_questions",
    "C64_simulated_accepted",
    "C64_shuffle"
   ],
   "note": "The callbacks are given for every oracle (the model keeps programs as data of one backend); the values must satisfy the circuit for all challenges, as those of an honest prover of a product check do."
  },
  {
   "property": "C65",
   "status": "proved",
   "theorems": [
    "C65_proving_function",
    "C65_new",
    "C65_prove",
    "C65_whole_proof",
    "C65_built"
   ],
   "note": "Hash parameters must be consistent (C34) and of the right width; an index of a 4-ary tree must have a digit for every level. For the randomizer the databases must have the nodes of the trees; C65_built shows this of every tree made by the code without hash collisions."
  },
  {
   "property": "C66",
   "status": "proved",
   "theorems": [
    "C66_ipp",
    "C66_last_scalars",
    "C66_last_scalars_equation",
    "C66_evaluation"
   ],
   "note": "The challenges y, u and those of the rounds must not be zero. e_blinding precedes the challenge w, so that another e_blinding is answered by other challenges; it is not covered."
  },
  {
   "property": "C67",
   "status": "proved",
   "theorems": [
    "C67_completeness_error",
    "C67_interactive",
    "C67_session"
   ],
   "note": "Provers without second phase; those with one are the subject of C69. The set of questions exists (C58_questions, C59_questions)."
  },
  {
   "property": "C68",
   "status": "proved",
   "theorems": [
    "C68_distribution",
    "C68_interactive",
    "C68_fiat_shamir",
    "C68_gadgets",
    "C68_two_phase",
    "C68_completeness"
   ],
   "note": "The oracle answers with uniform strings of MODBYTES bytes. C68_two_phase has the conditions of C60 except that answers may be zero; C68_completeness is for provers without second phase."
  },
  {
   "property": "C69",
   "status": "proved",
   "theorems": [
    "C69_completeness_error",
    "C69_code_challenges",
    "C69_shuffle"
   ],
   "note": "The constraints and values after the callbacks must be functions of the answers to their challenges (they may not depend on other questions). The set of questions exists (C64_questions)."
  },
  {
   "property": "C70",
   "status": "proved",
   "theorems": [
    "C70_proof",
    "C70_two_phase",
    "C70_session",
    "C70_code_proof",
    "C70_code_two_phase",
    "C70_code_session"
   ],
   "note": "The conditions of C58, C59 and C64 except those on the answers. The simulated game is the same; the sets of questions exist (C58_questions, C59_questions, C64_questions)."
  },
  {
   "property": "C71",
   "status": "proved",
   "theorems": [
    "C71_prove",
    "C71_verify"
   ],
   "note": "What the callbacks do is described by running them (C08); the exact class of each verifying function is C63, of each proving function C65."
  },
  {
   "property": "C72",
   "status": "proved",
   "theorems": [
    "C72_ipp_knowledge",
    "C72_ipp_code",
    "C72_relation",
    "C72_questions"
   ],
   "note": "The point, the generators and the factors are fixed before the prover starts; verify_ipp does not absorb them."
  },
  {
   "property": "C73",
   "status": "proved",
   "theorems": [
    "C73_panics",
    "C73_decides",
    "C73_zero_challenge"
   ],
   "note": "verify of the R1CS proof has its own count of scalars and points: C63 and C71."
  },
  {
   "property": "C74",
   "status": "proved",
   "theorems": [
    "C74_completeness_error",
    "C74_code",
    "C74_questions"
   ],
   "note": "Only the questions of the honest proofs need to be in D; such a D exists (C74_questions)."
  }
 ]
}