# Formal model of crate-crypto/rust-verkle in Coq 8.16

This file says what is modelled, how each property of `properties.jsonl` is
stated and proved, and what has to be trusted. `MANIFEST.json` maps each
property to theorem names.

## 1. Shape of the development

All Coq files live in `rocq/theories` (logical name `Verif`).

* `Base.v`, `Alg.v`, `AlgInst.v` — bytes and little-endian integers, the
  panic/error monad, the abstract algebra, concrete instances of the algebra.
* `*Model.v` — the model of the Rust code, function by function, each
  definition citing the file and lines it models. No proofs.
* `*Spec.v` — small independent specifications, written without looking at the
  model (finite maps, from-scratch tree commitment, polynomials, EIP chunking).
* `*Proofs.v` — lemmas.
* `Prop*.v` — property theorems only, each closed by `exact lemma`, followed by
  `Print Assumptions`, with `Example`s showing that the hypotheses are met.

Conventions

* **Panics** are explicit: `res A := Ok a | Panic`. `Option`/`Result` stay data
  (`option`, `sum`). A theorem `f x = Ok y` therefore includes "does not panic".
* **&mut** becomes a returned new state. `for`/`while` loops become structural
  recursion or folds.
* **Bytes** are `Z` in `[0,256)`; `[u8; 32]` is a `list Z` with the predicate
  `is_key` (length 32, all bytes in range). Types such as `[u8;31]` whose length is
  enforced by the Rust type system appear as well-formedness hypotheses.
* **HashMap / BTreeMap point access** is a total function to `option`
  (`upd m k v`); where iteration order matters (BTreeMap order in prover and
  verifier, HashMap order in `group_prover_queries`, `build_subtree`) maps are
  sorted association lists, respectively the theorem quantifies over every
  permutation.
* **Field and group.** `Fr` is a field `F`, `Element` is a module `G` over it;
  both are fields of a record `Alg`, the laws are the record `AlgLaws`, an explicit hypothesis
  of every theorem that needs it. `Element`'s `PartialEq` is the equality of
  `G` (the quotient group); the concrete curve representation is treated separately for C40/C41,
  and C53/C54 show that it is an instance.
  `group_to_field` is an arbitrary function `h : G -> F` with `h 0 = 0`, CRS
  generators are an arbitrary function. Theorems therefore hold for every
  curve, every CRS and every such map, in particular for banderwagon.
  Theorems that need collision-freeness of `h`/commitments say so.
* **rocksdb/sled, rayon, serde, arkworks** are not modelled. SHA-256
  is an arbitrary function in the theorems (`Sha256.v` defines the real one, for the test vectors); a key/value store is a finite map with atomic
  batches; parallel iterators are their sequential meaning; arkworks field and curve
  arithmetic is the abstract algebra.

## 2. Properties

| id | model | statement / proof plan |
|----|-------|------------------------|
| C01 | `TrieModel`: DB interface, MemoryDb, create/process instructions | fold of inserts from `Trie::new`; `get` = last-write-wins lookup in the history. Induction over history using the representation invariant of C06/C07. |
| C02 | same | root meta = `spec_root` of the final map; `TreeSpec` recomputes the tree from scratch. Delta lemma for sums. |
| C03 | same | spec depends on the map only (permutation lemma) + C02/C06/C07. |
| C04 | same, panics explicit | result of the fold is `Ok`. |
| C05 | same | state equality after re-insert; committed vectors differ when `2^128 <> 0` in F. |
| C06 | same | branch table at every path = classification of the set of inserted stems. |
| C07 | same | tables = functions of the map (canonical database). |
| C08 | same, generic in the backend | `insert (xs ++ ys) = insert xs; insert ys`. |
| C09 | `VerkleDbModel`: cache, batch, disk | expected false: cache keyed by depth argument, `insert_leaf` returns only the batch's old value. `_refuted` witnesses plus a `_partial` simulation theorem for the `settled_ops` histories (no changing insertion under four bytes that two stems have come to share since the last opening, and with `no_rewrite` no flushed value is changed). `DiskLost` shows the class cannot be widened: any other insertion of a new stem panics or is lost. Histories that do change flushed values: C67. |
| C10 | same + disk encodings | point reads before = after flush. |
| C11 | same | reopen = empty cache/batch on the disk map after last flush. |
| C12 | MemoryDb, VerkleDb | equality of listing with point lookups for MemoryDb; refuted for VerkleDb; there the listing is characterised exactly, and shown right in one session for all but branches at depth 4 (`DiskListing`) and for the leaves of every stem whose first four bytes no other inserted stem has (`DiskStems`; refuted when another stem has them). |
| C13 | disk keys | injectivity and disjointness of labelled keys. |
| C14 | `MetaCodec` | round trips; wrong length refuted for BranchMeta (`!len == 96`); exact outcome of every decoder and store lookup (`CodecTotal`). |
| C15–C16 | `HintModel` byte-level reader/writer | round trip for depth <= 31; refuted for depth 32; panic refuted for status bits 3. |
| C17–C18 | proof codecs | round trips by list splitting lemmas. |
| C19 | `ProofModel`: key path finder | classification theorem over canonical databases. |
| C20 | `ProofModel`: opening data, queries | each query true. |
| C21 | `ProofModel`: verifier | verifier's query list = prover's query list; side condition found by the proof (commitments that `dedup` may merge); refuted without it. Combined with C29 gives acceptance. |
| C22, C24 | verifier | direct proof; exact characterisation of the panics of the check for every proof, key list and value list (`CheckTotal`, `CheckRefused`); refutations by witness. |
| C23 | verifier against the tree | false as stated: seven kinds of accepted falsehoods (`_refuted`). Proved: if the keys differ and the claims fit one tree (`coherent`, true of every proof the prover makes), an accepted proof is true except that a stem can be hidden. Idealisation (`ideal`): no two known openings of one commitment, no collisions of `group_to_field`, both only on the commitments at hand. Combined with the extraction of C46; a double opening is turned into a relation between generators. `PropEvent` drops the idealisation: the commitments at hand are finitely many, so it holds or one of five explicit events breaks it (`EventProofs`); the same for C62, C65, C66, and C23 for the default curve. |
| C25–C26 | `StatelessModel` | equality with C02's spec; refuted for empty slots (panic), `!len ==` check. `C25_update_exactly` gives the outcome for every list of keys and of new values. |
| C27–C28 | `IpaModel` | induction over rounds with folded vectors; s-vector lemma. |
| C29 | `MultiproofModel` | aggregated polynomial identity at t; any permutation of groups. |
| C30 | `LagrangeModel`, polynomials as coefficient lists | root-counting lemma, barycentric identity. |
| C31–C32 | `MsmModel` | Booth recoding telescoping sum over Z; module homomorphism. |
| C33–C35, C45 | `FfiModel` | linearity of commitment; byte parsers; any number of updates by induction on the requests (`UpdHistSpec`). |
| C36–C39 | `SpecModel` | chunking invariant, integer arithmetic on U256. |
| C40–C41 | `ElementModel` over an abstract field with non-square d | algebra of x/y; square root choice by sign. |
| C42 | `TranscriptModel` | state is the concatenation; injectivity for equal shapes, with the label of a new transcript, of any length, among what is bound (`TranscriptLabel`). |
| C43–C44 | `ElementModel`, `GoModel` | round trip; the hexadecimal reader and the conversion against a relational description of the JSON; the whole verifier on honest trees. |
| C46 | `IpaModel`, `ProofModel` (verifiers) | special soundness: the verifier equation in closed form, extraction by induction on rounds, interpolation over t and r. The step from here to a probability over random oracles (forking) cannot be expressed in this model. |
| C47 | `ElementModel`: `CRS::new` | the search for points as an unbounded relation; prefix and distinctness lemmas. |
| C50 | `proof_read` | the accepted strings and the panicking strings characterised exactly by a separate description of the layout (`ReadSpec`). |
| C51 | prover over `VerkleDb` | the prover is shown to depend on point reads only; then C09 and C21. Counterexamples by computation. |
| C52 | verkle-spec keys, chunking, trie | C01 and C03 composed with C36–C39 for every list of writes. |
| C53 | `CurveModel`: extended coordinates over the abstract base field | denominators never vanish for points whose 1 - a x^2 is a square; associativity by polynomial identities modulo the curve equation; then elements through the points they hold. |
| C54 | `CurveAlg`: the points of prime order as an `Alg` with codecs | instance of every class of laws, and a map from elements onto it that commutes with the operations. |
| C55 | `CurveRep`: elements as coordinate pairs, two per element; `FfiModel` run on them | a pair is "twisted" if its order is not prime; twistedness is additive, so the pair computed follows from parities of integers; over any number of updates the parities add up, and hash and compressed form never differ. |
| C56 | `CurveRep` codecs, `VerkleDbModel` run on them | the disk proofs redone with a decoder that may refuse (`DiskWeak`); false in general, exact for one key; for any operations the read of the root is decided by its coordinates (`RootTotal`), and the rest by the refinement of C59. |
| C57 | `CrsModel`, `DefaultCrs` (the 257 constants) | a certificate per point: square roots showing membership, and whether (1-y)(c-y) is a square, which decides the order. |
| C58 | `Bander`: the constants of the curve | Pocklington certificates for both primes; r times one point is (0, 1); a counting argument bounds the group by that point's multiples. |
| C59 | `TrieModel`, `VerkleDbModel` run on `rep_alg` (coordinates) | a simulation: every function of the trie commutes with the map from coordinates to elements (`Refine`, `RefineDb`), so the theorems on the group carry over; refused records are the only difference. |
| C60 | `ProofModel`, `IpaModel`, `WireModel` on `rep_alg` | the same simulation for prover, verifier and encodings (`RefineIpa`, `RefineProof`, `RepProof`), and a bound on the sizes of a created proof (`CreatedFits`). |
| C61 | `StatelessModel` on `rep_alg` | the same (`RefineStateless`). |
| C62 | `StatelessModel`, `ProofModel` | the facts that C23's proof derives from accepted claims (`TruthFacts`) give the conditions under which the update is right (`StatelessUpdate.hint_true`); false without the conditions on the claims (`StatelessForget`). |
| C63 | `TrieModel`, `TreeSpec` | the root and all commitments are those of the tree of the final map (C03, C05); descent along the path of a key on which the two maps differ, where equal commitments give equal vectors or a `collision` (`CollisionProofs`); on the real curve the field is large by computation (`CollisionCases`). |
| C64 | `ProofModel`, `IpaModel` | the openings the prover collects are determined by the set of entries of the tree the keys need, each entry by its query, including the length of its polynomial (`KeySetProofs`); histories and hash maps by C03. On coordinates by refinement (`CoordKeySet`). |
| C65 | `StatelessModel` (`verify_and_update` iterated: `ChainSpec.follow`) | induction over the blocks from C25 (full nodes) and from C62 and C23 (untrusted senders). On coordinates, whatever the generators, by the refinement of C60 and C61 (`CoordChain`): the roots are equal as elements. |
| C66 | `GoModel`, `SpecModel`, `StatelessModel`, `TrieModel` together (`WitnessSpec`) | composition: C44 and C21 with C52 (accepted), C44 and C23 with C52 (true), code chunking of C52 (code), C65 with C52 (chains). On coordinates: the verdict of `verify_execution_witness` is that of the group (`CoordWitness`), and the theorems follow from those over the group. |
| C67 | `VerkleDbModel` over `TrieModel`, without `no_rewrite` (`RewriteSpec`) | lockstep simulation (`RewriteSim`): the disk trie runs like a disk trie whose stored entries are the sums (an entry of the model is a list of integers, so a sum of scalars is an entry too), and the invariant of C09 holds of that ghost trie (`RewriteProofs`). Wrong root: sums of two or more values have scalars no single value has (`RewriteFacts`), then C63. |
| C68 | `RawModel`: the commitment functions of the interface over the coordinates of `ElementModel`, on any 64 bytes | expected false: nothing is checked. Exact outcome on every input by the addition formula in projective coordinates (`RawProofs`), `_refuted` theorems for serialization, hash and sum, and agreement with `FfiModel` on the bytes of commitments. |
| C69 | `ProofModel` over `VerkleDbModel`, histories of C67 (`RewriteProofSpec`) | the disk trie reads the leaves of one canonical trie and the commitments of another: its queries are computed from those of the latter by putting values in (`RewriteProver`, along the prover's own recursion), so untouched half stems give the same queries and C21 applies, and touched ones an opening whose vector differs from the committed one (`RewriteTold`). Nobody can show a changed key: the events of C23 for the tallied contents (`RewriteTruth`). On coordinates (`CoordTold`, `CoordTruth`) the same, or a record is refused. Settled histories only, hence `_partial`. |
| C70 | `VerkleDbModel`, histories of C67; `totals` and `summed` (`AgreeSpec`) | the root of C67 rewritten as that of a history whose entries carry the two totals of each key (the root depends on the leaves' scalars only); equal totals give equal histories, hence roots (C02); equal root hashes give equal totals by the argument of C63, since totals of fewer than 2^100 operations are below 2^248 and so are told apart by the field. Against an in-memory trie the same argument with the values themselves: one value has a total below 2^129, two have one above. False for two tries on disk: `C70_refuted`, two values in either order |
| C71 | `StatelessModel` (`follow`), `VerkleDbModel`, `ChainSpec` | C65 (honest chains; or an event) gives each client's root as that of the trie after its chain; C63 compares the two, C70 compares it with a trie on disk. `PropCoordChain` states C65, C67, C70 and the honest part of C71 for coordinates and for the default generators: `C70_coord_default_refuted` is a run of the program as it is shipped |
| C72 | `RawVerifyModel`: `BindModel`'s `verify_proof_uncompressed`, unchanged, over elements as the code holds them (any x, y, t, z) | expected false: the points are not checked and y is not hashed. `C72_zero_refuted`: if D has the direction of E, then E - D has x = 0, the other points have the scalar zero or are zero, and the equality of elements compares x/y only; by closure of the elements with x = 0 under the addition formula. Agreement on group elements by two maps from elements that hold coordinates (`RawAgree`). `C72_prover` (`RawCreate`): the prover uses a commitment through the bytes it hashes only, by induction on the openings and their groups. `C72_program_case`: the bytes of one forged proof for the default generators and SHA-256, with the multiple of the generator from a certificate (`ShaForgeryCert`). |
| C73 | no new model: `FfiModel`, `BindModel` over coordinates, and `RawVerifyModel` for the uncompressed pair | refinement: coordinates cover the group (`RefineFfi`), for every input of `ffi_verify_proof`/`c_verify_proof` (`C73_verify`) and of the provers up to an order of the groups (`C73_create`); acceptance of created proofs from C45/C48 in the group, for any coordinates of the claims (`C73_created_accepted`), and with C72 for the functions that check nothing (`C73_unchecked_accepted`) |
| C74 | no new model: the writes of `TrieModel` (in-memory) and `VerkleDbModel` | `WriteSpec` says what was last written at a place since the last flush; induction on the calls for the pending batch (`WriteProofs`). False for the disk: its answer is that of the pending batch alone (`C74_disk_write_returns_exactly`) |
| C48–C49 | `BindModel` | the C functions against the Rust ones for every buffer; the Java functions and `verifyPreStateRoot` for every array. |

### Files by part of the code

| code in /repo | model | specification | theorems |
|---|---|---|---|
| verkle-trie: `trie.rs`, `memory_db.rs`, `generic.rs`, `meta.rs` (deltas, tables) | `TrieModel` | `TreeSpec` | `PropTrie` (C01–C08), `CollisionSpec` / `PropCollision` (C63) |
| `default.rs`, `generic.rs`, `meta.rs` (records), verkle-db batches | `VerkleDbModel`, `CodecModel` | `DbSpec` | `PropDb` (C09–C14) |
| `proof.rs` wire format, `ipa.rs`/`multiproof.rs` bytes | `WireModel` | `WireSpec` | `PropWire` (C15–C18), `ReadSpec` / `PropCheck` (C50) |
| `key_path_finder.rs`, `opening_data.rs`, `prover.rs`, `verifier.rs` | `ProofModel` | `ProofSpec` | `PropProof`, `PropIpa` (C19–C24), `TruthSpec` / `PropTruth` (C23), `PropCheck` (C22, C24), `PropKeySet` (C64) |
| `stateless_updater.rs` | `StatelessModel` | `StatelessSpec` | `PropStateless` (C25, C26), `PropUpdateTruth` (C62), `ChainSpec` / `PropChain` (C65), `WitnessSpec` / `PropWitness` / `PropCoordWitness` (C66), `EventSpec` / `PropEvent` (C23, C62, C65, C66) |
| ipa-multipoint: `ipa.rs`, `multiproof.rs`, `lagrange_basis.rs`, `transcript.rs`, `math_utils.rs` | `IpaModel` | `IpaSpec`, `LagrangeSpec`, `TranscriptSpec` | `PropIpa` (C27–C30, C42), `PropLabel` (C42), `SoundSpec` / `PropSound` (C46) |
| `msm.rs`, `msm_windowed_sign.rs`, `committer.rs` | `MsmModel` | `MsmSpec` | `PropMsm` (C31, C32) |
| ffi_interface: `lib.rs`, `serialization.rs` | `FfiModel` | `FfiSpec`, `FfiTotal` | `PropFfi` (C33, C34, C45), `PropFfiTotal` (C34: outcome on every input); `RawModel`, `RawSpec`, `PropRaw` (C68: commitments read without a check) |
| banderwagon: `element.rs`, `trait_impls`, `lib.rs`; `crs.rs` | `ElementModel` | `ElementSpec` | `PropElement` (C35, C40, C41, C43, C47) |
| banderwagon: `trait_impls/ops.rs`, `multi_scalar_mul` | `CurveModel` | `CurveSpec`, `CurveAlg` | `PropCurve` (C53, C54) |
| the same with elements as coordinates | `CurveRep` | `RepSpec` | `RepFfi`, `RepDisk`, `PropRep` (C55, C56); `UpdHistSpec`, `UpdHistProofs`, `RepHistory`, `RealHistory`, `PropUpdHist` (C33, C55 over many updates) |
| `default_crs.rs`, `crs.rs`: `from_bytes`, `to_bytes`, `default` | `CrsModel`, `DefaultCrs`, `Bander` | `RealSpec` | `PropCrs` (C57, C58) |
| trie, store, proofs and stateless update with elements as coordinates | `CurveRep`, no new functions | `CoordSpec` | `Refine`, `RefineDb`, `RefineProof`, `RefineIpa`, `RefineStateless`, `RootTotal`, `RepRefine`, `RepProof`, `RealRefine`, `CoordProofs`; cases `MidInst`, `CoordInst`, `CoordCases`; `PropCoord` (C56, C59–C61, C03, C17); `CoordChainSpec`, `CoordChain`, `CoordChainCases`, `PropCoordChain` (C65, C67, C70, C71 on coordinates) |
| verkle-spec | `SpecModel` | `LayoutSpec` | `PropLayout` (C36–C39) |
| prover over `default.rs`; verkle-spec over the trie | (`ProofModel`, `VerkleDbModel`, `SpecModel`) | `DbSpec`, `AccountSpec` | `WriteSpec` / `PropWrites` (C74); `PropState` (C51, C52); `RewriteSpec` / `PropRewrite` (C67); `RewriteProofSpec` / `PropTold` / `PropCoordTold` (C69); `AgreeSpec` / `PropAgree` (C70, C71) |
| `golang_proof_format.rs`, `verify_execution_witness` | `GoModel` | `GoSpec` | `PropGo` (C44) |
| bindings/c, bindings/java | `BindModel` | `BindSpec`, `JavaSpec` | `PropBind` (C48, C49); `RawVerifyModel`, `RawVerifySpec`, `PropRawVerify` (C72: points read without a check); `CoordFfiSpec`, `PropCoordFfi` (C73: on coordinates); `JavaTruth`, `PropJava` (C49: accepted values are those in the tree) |

`*Inst.v`, `*Examples.v`, `ExData.v`, `GoTrie.v` and `BindTrie.v` hold the concrete
instances and trees of the examples.

Not modelled: benchmarks and tests, `main.rs` of ipa-multipoint, build scripts, the C# binding (generated
code calling the C functions), the JNI and pointer handling of the bindings,
`Debug`/`Display` output, error texts, timing.

## 3. Trusted base

* Coq 8.16.1 kernel (and its VM, used by `vm_compute` in examples and
  refutations; coqchk re-checks them without it).
* The constants of the curve, which are in the external crate ark-ed-on-bls12-381-bandersnatch and were
  written down by hand in `Bander.v`; the test vectors of the repository (`banderwagon/src/element.rs`,
  the default generators) satisfy them.
* The reading of the Rust source: the model is hand written, nothing is extracted.
* The classes a theorem takes as hypotheses. They are parameters of the theorems, not axioms;
  each has an instance in the development, so none is contradictory.
  * `AlgLaws`: `Fr` is a field with decidable equality, `Element` a module over it. The part about
    `Element`, as well as `ParLaws`, `CodecLaws` and `ECodecLaws`, is proved of the points of the curve
    (`PropCurve`, C54) from `BaseFieldLaws`, `CurveLaws`, `ScalarLaws` and the laws of the field `Fr`.
  * `ParLaws`: `group_to_field` maps the identity to zero.
  * `CodecLaws`: records of `meta.rs`: the encodings of field and group elements have the
    right size and decode to themselves. For group elements this is true of representatives
    of prime order only (see `C40_stream_uncompressed_refuted`). The code
    computes representatives that are not, with the default generators (C55, C56): the theorems on the trie on disk that
    take `CodecLaws` (C09–C14, C51, C52, C67, C69, C70) describe the code for generators of prime order; C56, C59 to C61 and the
    theorems named `_coord_` are about the others.
  * `ECodecLaws`: 32-byte and 64-byte encodings of elements and scalars: sizes, round trips,
    and canonicity of the 32-byte forms. `PropElement` proves these of the coordinates
    (C40) from the laws of the base field. `eu_de`, the "unchecked" reader, returns a group
    element or nothing. Bytes that are coordinates of a point outside the group are the subject of C68 for
    the functions that add, update, hash and serialize commitments (`RawModel`, with coordinates), and of C72 for the
    points inside proofs and claims (`RawVerifyModel`).
  * `BaseFieldLaws`: the base field, with a square root function, the Legendre symbol and a
    sign as arkworks provides them.
  * `CurveLaws`: -1 is a square in the base field, and the order of `Fr` times a point of the
    subgroup is (0, 1) or (0, -1). Both are facts about bandersnatch; the second is its order. C58 proves
    them of the real constants, together with `BaseFieldLaws` and `ScalarLaws`, so for the real curve and
    the default generators nothing of this list is assumed (`C58_hypotheses`).
  * `ScalarLaws`: `Fr` is the integers modulo that order.
  * `FrIntLaws`, `WnafLaws`: the integer representation of scalars and arkworks'
    `WnafContext` (external).
  * `Hasher`: SHA-256 as an arbitrary function to byte strings. Theorems that need it to be
    collision free on given inputs say so. `Sha256.v` is FIPS 180-4 itself; with it the model draws the
    challenges of the test vectors of transcript.rs (`Sha256Cases.v`).
  * `Json`: `serde_json::from_str` as an arbitrary function.
* External code taken at its meaning: arkworks arithmetic, `msm` (linear combination; the
  windowed one of the repository is proved, C31), batch inversion, hex decoding (modelled as a function),
  itertools' grouping, rayon (any split of the work, see `Split`), rocksdb/sled as finite
  maps with atomic batches, `u32`/`usize` conversions on a 64-bit machine.
* Memory, stack and time are unbounded. `usize` overflow is modelled where the code can
  reach it (`C36_empty_refuted`, `C37_large_key_panics_refuted`, `C26_no_length_error_refuted`).

### Agreement of the model with the code

Theorems are about the model, so it matters that the model is the code. Besides the line by line
citations there is a test: `python3 validation/run.py` extracts the model to OCaml, puts the arithmetic
of the two prime fields under it (curve operations, encodings, SHA-256, multiproofs, trie and proofs are
the model's), and runs the test vectors found in /repo. This is a test and no theorem rests on it. It agrees on:
element.rs (encodings of six doublings, hash of the generator), transcript.rs (vectors 1-4), crs.rs (the 256 points
generated from the seed are the default ones; their digest), multiproof.rs (`test_ipa_consistency`,
`multiproof_consistency`: state and all proof bytes), trie.rs (the four fixed roots), golang_interop.rs,
trie_fuzzer.rs (roots after 100 .. 5000 random keys), proof.rs, stateless_updater.rs (three updates, each sent as
bytes), the execution witness of block 0x62 (golang_proof_format.rs), verkle-spec (`hash64`, and the root of
the devnet6 genesis, 1354 pairs through the header, code and storage layout), ffi_interface (tree keys, fixed additions,
updates, `create_proof`/`verify_proof` with 1 and 100 openings).

## 4. Axioms used

`Print Assumptions` prints "Closed under the global context" for every theorem of the
`Prop*.v` files: no axioms, neither own nor from libraries. coqchk lists seven constants
`Coq.ssr.ssrunder.Under_rel.*`; these are the parameters of a module type in a file of the standard
library that is loaded, and no theorem uses them.
