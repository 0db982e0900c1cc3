# Formal model of lovesh/bulletproofs-amcl in Rocq

Everything lives in `/verif/rocq/theories` (logical name `Verif`), Coq 8.16.1, standard library only.

* `Base/`: prime fields, vectors, the backend as parameters, a toy backend that satisfies all assumptions.
* `Model/`: the code, function by function; every definition cites file and lines of `/repo`.
* `Spec/`: small vocabularies used by the theorem statements (what a circuit is, what a Merkle tree is, ...).
* `Proofs/`: lemmas.
* `Props/`: the property theorems `Cxx_...` (each `exact lemma`), `Print Assumptions` of each, and concrete cases.

## 1. What is modelled and how

| Rust | Model |
|---|---|
| `FieldElement` (amcl_wrapper) | `F`, canonical residues modulo the prime group order (`Base/Fp.v`), `inverse 0 = 0`, `from(u64)`, `to_bignum`, `shift_right`, `is_odd`, `to_bytes` |
| `G1`, `G1Vector` | an arbitrary carrier with operations (`Params`) and an explicit hypothesis `ParamsOk`: a vector space over `F` with decidable equality; `EncodingOk` (injective encodings) where a theorem needs it; multi scalar multiplication with its length check |
| `merlin::Transcript` | the log of all labelled operations; a challenge is an arbitrary function (`xof`) of the log (random oracle); theorems quantify over all such functions |
| randomness (`FieldElement::random`) | a stream of field elements in the `world`; theorems quantify over all of them |
| panics (`unwrap`, indexing, `assert!`) | explicit outcome `Panic` |
| `Result<_, R1CSError>` | `result` |
| `src/r1cs/linear_combination.rs` | `Model/LinComb.v`; `simplify` takes the hash map iteration order as an argument (any permutation) |
| `trait ConstraintSystem`, `RandomizableConstraintSystem`, ... | `Model/Prog.v`: a free monad `prog` with one constructor per trait method; a gadget is written once, and interpreted by the Prover and by the Verifier |
| `src/r1cs/prover.rs`, `verifier.rs`, `proof.rs` | `Model/Prover.v`, `Model/Verifier.v`: records with the same fields; every method is a function on them; `Model/Weights.v` for the `cfg(test)` methods |
| `src/ipp.rs`, `src/utils/vector_poly.rs`, `src/transcript.rs` | `Model/IPP.v`, `Model/VectorPoly.v`, `Model/Transcript.v` |
| `src/r1cs/gadgets/{helper_constraints/*, bound_check, set_membership*, set_non_membership, hamming_distance, non_zero...}` | `Model/Gadgets.v` |
| MiMC, Poseidon (parameters, native permutation, constraints, `hash_2/4/8`) | `Model/Hash.v` |
| `PoseidonParams::new`, the tables of `poseidon_constants.rs` for all curve features | `Model/PoseidonNew.v`, `Model/PoseidonConstants*.v` |
| hash database, `get_base_4/8_repr`, sparse Merkle trees, `src/utils/mod.rs` | `Model/Merkle.v` |
| Merkle membership gadgets and their prove/verify functions | `Model/MerkleGadget.v` |
| `randomizer.rs` | `Model/Randomizer.v` |

Loops are recursive functions; in-place vector updates are list updates whose out-of-bounds case is `Panic`.
Sizes are `nat` (no 64-bit overflow of `usize`); `u64` values are integers with explicit wrap/overflow behaviour
where the code subtracts them.

## 2. What is not modelled

* amcl curve arithmetic, hash-to-curve, SHAKE/Keccak/STROBE: replaced by the parameters above.
* serialisation with serde, timing, `println!`, constant-time behaviour, thread safety.
* `#[cfg(test)]` code, except where a property mentions it (C61).
* `usize` overflow.
* the scalars `FieldElement::random` can return: a tape may hold any field element.
* Cargo features: only the tables of Poseidon constants depend on the curve (`curve` in `Model/PoseidonNew.v`, all four features,
  digit by digit in `Model/PoseidonConstants*.v`). That the crate does not compile with the feature secp256k1, because tables
  are missing, appears as a panic. All other theorems on Poseidon are for arbitrary parameters of the right dimensions (`params_ok`).
* probabilities are counted (C51, C54-C60, C64: how many random values, challenge vectors or oracles), not formalised as a monad; running
  times of extractors are not modelled. C16 and C48 are about the interactive protocol, C55 bounds its knowledge error, C56 that of the
  non-interactive proofs for a circuit fixed in advance; C22 shows what the Fiat-Shamir transformation in the code lacks when the
  statement is chosen with the proof.

## 3. Properties: where and how they are proved

Each property `Cxx` of `properties.jsonl` has theorems `Cxx_...` in a file of `Props/`; `MANIFEST.json` lists them.
A claim that is false of the code is kept as a theorem `..._refuted` with a witness, beside the strongest statement
that holds.

* **C01, C02** (`CircuitProps`): evaluation over arbitrary assignments; induction on term lists; `simplify` by a permutation argument.
* **C03-C08** (`CircuitProps`): invariants by induction on `prog`, for both interpreters; agreement (C06) by a simulation
  relation between the prover's and the verifier's program (`Spec/Sim.v`).
* **C09, C10** (`CircuitProps`): closed form of the flattening loop; root counting for polynomials over `F`.
* **C11-C16** (`IPPProps`): induction on log2 n; C16 is an extractor for a complete 4-ary tree of accepted conversations.
* **C17-C20** (`R1CSProps`): the algebraic identity of the final multi-scalar check, for an arbitrary program and both phases;
  transcript synchrony by induction on programs.
* **C21-C24** (`R1CSProps`): equality of logs implies equality of what was absorbed; the statement itself is not absorbed
  (C22, refuted); case analysis of `verify` on arbitrary proofs (C24, refuted for malformed ones).
* **C25-C32** (`GadgetProps`): per gadget, what every satisfying assignment must look like (`forces`) and honest runs
  (`completes`), composed with C17 to end-to-end statements (`proves`). Two small program logics carry this: `okspec`/`vspec`
  (verifier runs and satisfying assignments) and `both` (lockstep runs of the prover and the verifier that keep all
  constraints satisfied), both in `Proofs/GadgetTools.v`.
* **C33-C35** (`HashProps`): the circuits against an independent functional description (`Spec/HashSpec.v`).
* **C36-C40** (`TreeProps`): refinement of the trees to maps from leaf positions to values, "or an explicit collision".
* **C41** (`MerkleProps`), **C46** (`RandomizerProps`): the gadgets against that description of trees.
* **C42, C43** (`GadgetProps`, `HashProps`, `MerkleProps`, `RandomizerProps`): per gadget.
* **C44, C45, C47** (`UtilsProps`): direct induction.
* **C48** (`SoundProps`): an extractor (`Spec/R1CSExtractor.v`, a program on scalars) for trees of accepted conversations
  (`Spec/R1CSTree.v`). It represents points by coefficients over `g, h, G, H`, interpolates over w, x, u, z and y, and either
  all representations of a point agree or their difference is a relation between generators; root counting finishes the proof.
  Conversely, every satisfied circuit has accepted trees for all challenges (`Proofs/HonestTree.v`).
* **C49, C50** (`PoseidonProps`): computation over the tables, and a proof that Cauchy matrices are maximum distance separable
  by root counting; injective by Fermat's theorem, onto by counting; the order of BLS12-381 is shown prime by a Pocklington
  certificate, as are those of the other curves (for the instances, not for the theorems).
* **C51** (`IndistProps`): `prove` as a function of the witness and the drawn values (`Proofs/WICore.v`), an injective map of
  tapes that keeps the output when the witness is exchanged (`Proofs/WIShift.v`), in both directions, hence equal numbers.
  Second-phase callbacks must not draw random values of their own.
* **C52** (`KnowledgeProps`): C48 needs a left inverse of the matrix of the commitments' coefficients. It is computed by
  Gaussian elimination (`Spec/Knowledge.v`, correct by `Proofs/Recover.v`); that it exists is shown per gadget by a program
  logic for the kernel of the circuit (`Proofs/Kernel*.v`: an assignment of the committed variables that makes the committed
  part of every constraint vanish is zero). Then C48 and the `forces` theorems give `knowledge`. The converse (`answers`)
  comes from the lockstep runs of C43 and `HonestTree.v`. Hamming distance is left out: its committed values occur in no
  constraint (C32). Trees are trees of the protocol's conversations; C48_verify_accepted relates them to `verify`.
* **C53** (`ComposeProps`): `Spec/Compose.v` lists the gadget calls as data; `prove_all` and `verify_all` run a list of them on
  one prover and one verifier, as tests/multiple_constraint_systems.rs does. Completeness by induction on the list, from the
  step-by-step agreement of prover and verifier (`both`), which holds from any state; knowledge from the facts behind C52,
  which also hold from any state of the verifier: the constraints of each call determine its own part of the commitments
  (`determines`), and an assignment that satisfies all constraints satisfies those of each call.

* **C54** (`ZKProps`): `Spec/Simulator.v` is the simulator: random points `A_I`, `A_O`, `S2`, `T_3 … T_6`, random scalars and random
  vectors `l`, `r`; `t_x` is their inner product; `T_1` and `S1` are solved from the two verification equations; the inner-product
  argument is created on `l`, `r`. For fixed `y`, `z`, `u`, `x` with `x ≠ 0` and a generating `h` the random values of the prover and
  the coins of the simulator correspond one to one (`coins_of`, `masks_of` in `ZKMain.v`: the masks `s_L`, `s_R` are `l`, `r` shifted by
  the witness, the blindings of `T_1` and `S1` are determined by `t_x_blinding` and `e_blinding`), so every proof is counted equally
  often on both sides (C51 gives existence and uniqueness of the count). This is perfect zero knowledge of the protocol against a verifier
  who draws challenges independently of the proof; the random-oracle argument that programs the hash is not modelled (the hash of the
  model is a fixed function). `C54_simulated_accepted` runs `verify` on simulated proofs; its example accepts `1 = 0` on a backend with
  constant challenges.

* **C55** (`GameProps`): `Spec/Games.v` defines prover strategies and counts challenge vectors. Going from the last challenge to the
  first, a prefix of challenges is *good* when enough continuations are good; the number of vectors that are won without their prefix
  being good at the first moment is bounded level by level (`lucky_few` in `TreeCount.v`), so a strategy that wins more often has a good
  empty prefix, from which the tree is built (`TreeBuild.v`). The honest strategy answers everything (`HonestStrategy.v`).
* **C56** (`GameProps`): provers are decision trees over oracle questions; oracles are counted on a finite set `D` of questions (one
  exists for every prover, `C56_oracles`). The questions of a proof are prefixes of one log (`QueryProofs.v`, needs injective encodings),
  so the level-by-level argument of C55 applies to the answers of each question on its own; a union bound over the questions asked, plus
  those that the verifier asks, gives the factor `Q + 5 + k`. `verify_accepts` is the model's `verify` on the backend with merlin's
  challenges replaced by the oracle (`backend`); `verify`'s random value costs `1/|R|` (C19). Circuits with a second phase, whose
  constraints depend on the oracle, are not covered.

* **C57** (`AdaptiveProps`): the prover of C56 outputs the commitments as well as the proof (`adversary` is polymorphic in the output).
  The first question of a proof contains the commitments, so all branches of a tree built from equal first questions have the same
  commitments (`committed_inj` in `GadgetError.v`, `point_start` in `QueryProofs.v`). `SameCircuit.v` shows by a simulation between two runs
  of the verifying functions that the circuit does not depend on the commitments. Then C52/C53's extraction applies to the tree.
  `gadgets_accept` runs the verifying functions on the given backend and only `verify` on the backend of the oracle: the first phase
  asks no question.

* **C58** (`RomZKProps`): C54 says for each fixed proof that the prover and the simulator yield it on equally many tapes. Here the two
  are put into games with an oracle (`RomSim.v`): the real game runs `prove` on the backend whose challenges the oracle answers; in the
  simulated game the challenges are drawn first, the simulator of C54 runs on a backend that answers by them (`scripted`), and the oracle
  is changed at the questions of the simulated proof (`programmed`). `RomCount.v` proves the game hop by counting (`two_games`): for
  every fixed proof the pairs (oracle, challenges) correspond one to one, except where the distinguisher has asked a question of the
  proof before. All questions of a proof contain `A_I1`, which is uniform as the first value of the tape times `h`, so each question
  meets the proof with probability 1/order (`rare_meeting`). `RomLink.v` shows that proving and simulating depend on the oracle only
  at these questions. The number of questions after the proof is unlimited.

* **C59** (`SessionZKProps`): C58 for fixed commitments, summed over the random values that the proving functions draw. `call_draws`
  (`Proofs/RomSession.v`) shows for each of the 13 proving functions that its commitments are commitments to a list of values that
  depends on its arguments only (`contents`), blinded by the next values of the rng in order; so with `h` generating the group the
  commitments of all calls together are uniform (`shifted`: a bijection of the tapes), which is what the simulator outputs. The
  distinguisher may ask questions also between the commitments and the proof (`handed`). The simulator's circuit is that of the
  verifying functions (`SameCircuit.v`: it does not depend on the commitments).

* **C60** (`TwoPhaseProps`): C56 for circuits with a second phase. The verifier's questions now start with those of the callbacks
  (`two_phase_queries`), and each question still determines the earlier ones (`QueryTwo.v`), so the counting of C56
  (`OracleGood.adversary_good`, made generic for this) gives a tree with `r` more levels; under each choice of the `r` challenges
  hangs a tree of C48 for the constraints that these challenges lead to, and all of them share the points of the first phase
  (`TwoPhaseTree.v`, `TwoPhaseGame.v`). The extractor runs on each and compares the witnesses (`compare_witnesses`). `second_phase`
  says which callbacks are meant: they draw the challenges with fixed labels and end with the constraints `circ e`, whatever the
  oracle and the transcript. `C60_shuffle` applies it to a product check at a random point and concludes `Permutation`; the code
  has no gadget with a second phase, so this circuit is ours.

* **C61** (`WeightProps`): the `cfg(test)` functions of prover and verifier (`Model/Weights.v`). The loops are shown to produce the matrix
  of last coefficients (`Spec/WeightSpec.v`) by induction on the constraints; the product with the powers of z is the weighted sum of
  C09 when no constraint repeats a variable. `C61_elaborated_agrees_refuted` is the case `x + x`. The matrix product is a function of
  `amcl_wrapper`; what is assumed about it is in the comment on `multiply_row_vector_with_matrix`.

* **C62** (`SizeProps`): the sizes on paper are in `Spec/CircuitSize.v`. `cost` (`SizeTools.v`) is a weakest-precondition transformer over
  programs that counts the gates and constraints they ask for, whatever the answers of the constraint system; it is sound for both
  interpreters (`vrun_cost`, `prun_cost`). The sizes of the gadgets follow by induction on their loops (`SizeGadgets.v`, `SizeMerkle.v`).
  With them C57's bound and C59's simulator are stated without reference to the verifier's state; that the constraints of sound
  statements use only variables of the circuit (`C62_in_range`) comes from the same analysis that proves C52.

* **C63** (`TotalProps`): the behaviours on paper are in `Spec/Behaviour.v`. `wp` (`TotalTools.v`) is a weakest-precondition transformer over
  programs of the verifier that tracks the pending gate, the numbers of gates and commitments and a condition under which the program panics;
  `vrun_wp` is its soundness, `fine` and `crash` its two uses, with rules for calls and loops. `TotalGadgets.v` and `TotalVerify.v` go through
  the gadgets and verifying functions, `TotalRandomizer.v` through the randomizer (with the maps of nodes of `RandomizerMap.v`), `TotalMain.v`
  joins them with C23, C24 and the sizes of C62. For the randomizer `fitting` asks that the database has the nodes of the public tree;
  `C63_built` shows it for every tree made by the code.

* **C64** (`RomTwoProps`): C58 for circuits with a second phase. `Spec/RomTwo.v` gives the callbacks of the prover for every oracle
  (`prover_second_phase`: they draw challenges with fixed labels, no random values, and leave a satisfied circuit), and the simulator
  also draws their challenges in advance. `RomTwo.v` joins the counting of C58 (`two_games`) with the questions of C60 (`QueryTwo.v`)
  and C54, whose simulator and bijection of tapes cover both phases. The commitments are those of the prover, so no verifier occurs
  in the main theorem; `C64_simulated_accepted` relates the simulator to the verifier of C60. `C64_shuffle` is the prover's side of
  `C60_shuffle`, for any two committed values.

* **C65** (`AttemptProps`): the counterpart of C63 for the prover; the outcomes on paper are in `Spec/Attempt.v`. The rules of
  `TotalTools.v` are generic over the two sides, so the gadgets need no second analysis; `AttemptTools.v` proves them sound for the
  prover's interpreter, `AttemptProve.v` goes through the proving functions, `AttemptMain.v` joins them with the sizes of C62 and with
  `prove` (`prove_char`, and `prove_short_padded` for an `H` that is too short only after padding).
* **C66** (`UniqueProps`): the coefficients of the relation are written down in `Spec/Unique.v`. `UniqueMain.v` subtracts the two
  verification equations (`verify_ipp_gen`, `verify_char`); the coefficients are not all zero because the scalars `s_i` of C13 are
  units. In the toy group discrete logarithms are known, so the examples have two different accepted proofs and the relation.
* **C67** (`RomCompleteProps`): `Spec/RomComplete.v` defines when a run of `prove` and `verify` with a given oracle is not accepted.
  `HonestRounds.v` writes the rounds of `create_ipp` as functions of the earlier challenges, and `RomComplete.v` shows that the real proof
  is the output of the Fiat-Shamir transform of an interactive strategy (`real_output`). A rejected proof then means that the oracle
  answers zero to a question that this transform asks, at position 0 or at a round; `OracleWeight.v` counts such oracles (a version of the counting
  argument of C56 with a budget for each position). Proofs with a second phase are the subject of C69.
* **C68** (`ChallengeProps`): `Spec/Challenges.v` lists the challenges that result from all strings of MODBYTES bytes. The counting
  arguments of C55-C57, C60 and C67 are stated for a list of answers in which none occurs more than `mu` times (`TreeCount.v`,
  `GameInteractive.v`, `GameOracle.v`, `TwoPhaseGame.v`, `OracleWeight.v`); the earlier theorems are the case `mu = 1`. `OracleZero.v` counts the
  oracles that answer zero to one of the questions of a run, which the theorems about the code exclude. `ChallengeBytes.v` shows which
  challenge each string results in and counts the strings that result in a given challenge, and `ChallengeMain.v` puts the numbers in. That merlin's output is uniform is the random-oracle
  assumption, expressed as counting oracles; it is not an axiom.
* **C69** (`RomCompleteTwoProps`): C67 for circuits with a second phase. `Spec/RomCompleteTwo.v` says that what the callbacks of the prover
  add is a function of the answers to their challenges (`prover_second_values`) and when a run is not accepted. `RomCompleteTwo.v` shows
  that the proof of `prove` is the output of the Fiat-Shamir transform of a strategy whose first messages are followed by the
  challenges of the callbacks (`real_output2`), that it is accepted unless `y` or the challenge of a round is zero, and counts as in C67. The
  circuit of the examples is the shuffle of C60 and C64.
* **C70** (`RomZKCodeProps`): `RomCount.v` counts for a list of answers with repetitions: each vector of challenges has a multiplicity, by
  which the programmed oracles are weighted (`program_all`, `vectors_distinct`). The two games are compared where `y` and `x` are not
  zero (`two_games_most`); that the real game has such challenges as often as the simulated one follows from the same comparison, applied
  to a distinguisher that always says yes (`good_proofs`). C58, C59 and C64 are now corollaries. `RomZKCode.v` puts the numbers of C68 in.
* **C71** (`AttemptTwoProps`): C65 and C63 for `prove` and `verify` with callbacks. `AttemptTwo.v` follows `prove` to the second phase, whose
  three outcomes are those of C08 (`Spec/Callbacks.v`), and from there as in C65; `verify` after the second phase is in the class that C63 gives
  it. A constraint out of range makes the flattening panic (C09), and nothing before it can return an error.
* **C72** (`IPPGameProps`): C56 for `verify_ipp` alone. `IppGame.v` shows that the questions of the rounds determine the earlier ones and the
  points `L` and `R`, counts lucky answers with `adversary_good` (as C56 does), builds a tree with four answers per round and hands it to the
  extractor of C16. Acceptance is that of the modelled `verify_ipp` with the oracle's answers (`backend`); the shape of accepted proofs and
  that no list is empty follow from it. `P` and the generators are fixed beforehand: `verify_ipp` does not absorb them, and by C14 every
  proof is accepted for one point `P`, so nothing of the kind holds for a prover that chooses `P` after the challenges.
* **C73** (`IPPVerdictProps`): case analysis of `verify_ipp` on all lengths (`IppVerdict.v`); surplus points of `R` are ignored until the final
  comparison of lengths. With a zero challenge the shared inversion yields zero everywhere, so all values made from it vanish.
* **C74** (`IPPCompleteProps`): C67 for `create_ipp` and `verify_ipp` alone. `IppComplete.v` writes the questions of the honest prover as a
  decision tree (`ipp_asker`), shows with `create_ipp_rounds` that the modelled `create_ipp` asks exactly these, and counts the oracles that
  answer one of them by zero (`hits_weighted`); all others accept by C12.

### What the proofs found out about the code

1. The statement (public constants and the circuit itself) is not absorbed in the transcript, nor are commitments made
   in the verifier bound to it; a verifier can be convinced of a false statement whose constants were chosen after the proof (C22).
2. `verify` panics on proofs with the wrong number of rounds or empty vectors (C24).
3. `special_inner_product` is exact only when the `l0`/`r2` vectors vanish (C11).
4. `bound_check` needs a size condition between the bounds, the number of bits and the group order (C28).
5. `set_membership_alt` accepts 0 for any set and rejects members of sets with duplicates (C30).
6. `hamming_distance` leaves `var_diff` unconstrained, so any count is provable (C32).
7. The inverse S-box gadget is neither sound nor complete: an input of 0 admits any output, and the honest prover fails on it (C35).
8. The Merkle membership verifiers do not compare the number of proof nodes with the depth: inner nodes pass as leaves (C41);
   indices alias modulo the group order when `arity^depth` exceeds it.
9. Tree indices `>= arity^depth` alias in the native tree, while the gadget cannot be satisfied for them; native
   `verify_proof` panics on short proofs (C39).
10. Too few commitments make the verifying functions panic (`remove(0)`), surplus ones are ignored by some and committed by others.
11. `get_generators` with different prefixes can yield the same generator ("G", 11 and "G1", 1) (C44).
12. `gen_challenges` returns one challenge when asked for none (C47).
13. The randomizer may return fewer indices than asked for; data size 0 does not terminate; only the lowest machine word of
    an index is used; trees of depth 0 ignore the written values (C45, C46).
14. The cube S-box is not a permutation on any of the four curves (3 divides the order minus one), and makes second preimages of
    the Poseidon hashes a one-line computation (C50). Nothing in the code rejects it; the trees use the quint S-box.
15. The Poseidon tables of the feature bn254 are made for the order of alt_bn128; amcl's BN254 is another curve, on which the
    constants are not canonical and the matrix is not the intended one (C49; the order of amcl's curve is not in /repo, it is
    `amcl_bn254_order` in `Spec/PoseidonSpec.v`). Tables for secp256k1 exist for width 5 only.
16. `get_weight_matrices` (debugging only) overwrites the coefficient of a repeated variable where the flattening adds (C61).
17. `verify_ipp` compares the lengths of its arguments only in total: one generator H too few and one point R too many cancel, and the
    scalars then meet the wrong points (C73).

## 4. Trusted base

* Coq's kernel (8.16.1), including `vm_compute` in the concrete cases.
* Axioms: none. `Print Assumptions` reports "Closed under the global context" for every property theorem. `coqchk`
  also lists seven axioms of the standard library's `ssrunder`, which are loaded by a standard library file and used by no theorem here.
* The correspondence between the Rust text and the model (comments cite files and lines).
* The behaviour of the dependencies as stated in `Base/Params.v`. That these assumptions can be met is shown by an
  instance (`Base/Instances.v`: the field of 10007 elements as its own group).

## 5. Tests of the theorems

`seeded/LOG.jsonl` lists wrong variants of the model (one edit each), the claim each one breaks, the theorems whose proofs
failed, and theorems that were tightened because a variant survived. Where `examined` is given, only these property files were rebuilt.
