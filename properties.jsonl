{"id": "C01", "title": "get returns the last inserted value", "statement": "After any sequence of insert calls on a fresh trie over MemoryDb, get(k) returns exactly the value of the last insert whose key is k, and None when k was never inserted. Inserts of other keys (including keys sharing a stem or a path prefix, which restructure the tree) never change it.", "quantifier": "every finite sequence of (key,value) inserts over 32-byte keys and values, and every key", "why_tests_cant": "The tree is restructured differently for each prefix-sharing pattern and order; only induction over all histories covers them.", "anchors": ["verkle-trie/src/trie.rs: Trie::insert, Trie::get, create_insert_instructions, process_instructions", "verkle-trie/src/database/memory_db.rs: insert_leaf, get_leaf"]}
{"id": "C02", "title": "root commitment equals the from-scratch commitment of the final map", "statement": "After any sequence of inserts, root_commitment()/root_hash() equal the value obtained by recomputing the whole verkle tree of the final key/value map bottom-up (inner node = sum of hash(child_i)*G_i over 256 children; extension = G_0 + stem*G_1 + hash(C1)*G_2 + hash(C2)*G_3; C1/C2 = the 128 value pairs with the 2^128 presence marker). The incremental delta updates never drift from it.", "quantifier": "every insert history, every field/group instance and every point-to-field map h with h(0)=0", "why_tests_cant": "Delta updates could be wrong only for particular depths, orders, value replacements or chains; tests sample a handful.", "anchors": ["verkle-trie/src/trie.rs: process_instructions, update_leaf_table, update_stem_table, update_branch_table", "verkle-trie/src/lib.rs: TrieTrait::root_hash, root_commitment"]}
{"id": "C03", "title": "the root and the stored nodes depend only on the final key/value map", "statement": "Two insert histories which leave the same final key/value map produce the same root commitment, the same root hash and the same content of the leaf, stem and branch tables: neither order, nor intermediate overwritten values, nor repetition is observable.", "quantifier": "every pair of insert histories with equal final maps", "why_tests_cant": "Quantifies over pairs of unbounded histories; consensus depends on it.", "anchors": ["verkle-trie/src/trie.rs: Trie::insert, root_commitment", "verkle-trie/src/database/memory_db.rs: leaf_table, stem_table, branch_table"]}
{"id": "C04", "title": "insert never panics on an in-memory trie", "statement": "Starting from Trie::new over an empty MemoryDb, no sequence of insert calls reaches any of the unwrap/expect/assert/index panics in the insertion code, and root_hash/root_commitment/get never panic afterwards.", "quantifier": "every insert history over 32-byte keys and values", "why_tests_cant": "Each unwrap is justified by a global invariant of the tables that a test cannot establish.", "anchors": ["verkle-trie/src/trie.rs: create_insert_instructions, process_instructions (unwrap, assert!, expect)", "verkle-trie/src/database/memory_db.rs: get_branch_meta (panic on stem)", "verkle-trie/src/trie.rs: Trie::new"]}
{"id": "C05", "title": "re-inserting the stored value is a no-op, while a zero value is a real insertion", "statement": "Inserting (k,v) when get(k)=Some(v) leaves every table and the root unchanged. Inserting an all-zero value under an absent key makes get(k)=Some(0) and changes the committed vector (presence marker 2^128), so absent and zero are committed to differently.", "quantifier": "every reachable trie, key and value", "why_tests_cant": "Must hold in each reachable shape of the tree.", "anchors": ["verkle-trie/src/trie.rs: create_insert_instructions lines 243-256, update_leaf_table lines 510-535", "verkle-trie/src/constants.rs: TWO_POW_128"]}
{"id": "C06", "title": "every stem is stored exactly once, at the shortest prefix no other stem shares", "statement": "In every reachable MemoryDb trie the branch table contains: the root; an inner node for exactly those non-empty paths that are a proper common prefix of at least two inserted stems; a stem pointer for exactly those paths p where one inserted stem has prefix p and the parent path is an inner node or the root; nothing else. Hence paths have length at most 31, there are no dangling or stale nodes, and each inserted stem is reachable by walking its own bytes.", "quantifier": "every insert history, every path", "why_tests_cant": "A structural invariant over unbounded histories; stale or duplicated nodes appear only for specific interleavings of chain inserts.", "anchors": ["verkle-trie/src/trie.rs: create_insert_instructions, ChainInsert, path_difference, expand_path", "verkle-trie/src/database/memory_db.rs: branch_table"]}
{"id": "C07", "title": "stored metadata is coherent in every reachable state", "statement": "In every reachable trie each stored hash is the hash of the commitment stored next to it, each stem's C1/C2/extension commitments are the commitments of exactly the leaves stored under that stem, and each inner node's commitment is the commitment of the hashes of exactly its children.", "quantifier": "every insert history, every stored stem and inner node", "why_tests_cant": "Incremental maintenance can leave one stale hash that only a later operation exposes.", "anchors": ["verkle-trie/src/database/meta.rs: StemMeta, BranchMeta", "verkle-trie/src/trie.rs: update_stem_table, update_branch_table"]}
{"id": "C08", "title": "batching is unobservable", "statement": "insert(batch1 ++ batch2) is equivalent to insert(batch1); insert(batch2), and to calling insert_single on each pair in order, for the whole trie state.", "quantifier": "every split of every insert sequence, every storage backend", "why_tests_cant": "Quantifies over all splits.", "anchors": ["verkle-trie/src/lib.rs: TrieTrait::insert, insert_single", "verkle-trie/src/trie.rs: Trie::insert"]}
{"id": "C09", "title": "a trie on the caching disk database behaves like a trie in memory", "statement": "For any sequence of insert and flush operations, a trie over VerkleDb (memory cache + write batch + disk) has the same root and the same get results as the trie over MemoryDb given the same inserts.", "quantifier": "every interleaving of inserts and flushes, every key", "why_tests_cant": "Cache/batch/disk divergence needs specific depths and flush points.", "anchors": ["verkle-trie/src/database/default.rs: VerkleDb (insert_leaf, insert_branch, add_stem_as_branch_child, get_*), CACHE_DEPTH", "verkle-trie/src/trie.rs: flush_database"]}
{"id": "C10", "title": "flush is transparent to point reads", "statement": "VerkleDb::flush never changes the result of get_leaf, get_stem_meta, get_branch_meta or get_branch_child, and after it the write batch is empty and every formerly batched entry is readable from the disk store alone.", "quantifier": "every VerkleDb state with consistent encodings, every key/path", "why_tests_cant": "Holds for all batch contents including ones with stem/branch overwrites.", "anchors": ["verkle-trie/src/database/default.rs: flush, get_leaf, get_stem_meta, get_branch_meta, get_branch_child", "verkle-trie/src/database/generic.rs: GenericBatchWriter, GenericBatchDB", "verkle-db/src/lib.rs: BatchDB, BatchWriter, BareMetalKVDb"]}
{"id": "C11", "title": "after a crash, reopening yields exactly the last flushed state", "statement": "Assuming the key/value store applies a batch atomically, dropping the process at any point and reopening the database from its path gives point reads equal to those that held right after the last completed flush; a crash before the first flush yields an empty database on which Trie::new recreates the root.", "quantifier": "every sequence of operations, every crash point", "why_tests_cant": "Every crash point in every history.", "anchors": ["verkle-trie/src/database/default.rs: from_path, flush", "verkle-trie/src/trie.rs: Trie::new"]}
{"id": "C12", "title": "listing children agrees with looking children up one by one", "statement": "get_branch_children(path) returns, once each and in some order, exactly the pairs (i, c) with get_branch_child(path,i)=Some(c); get_stem_children(stem) returns exactly the pairs (i,v) with get_leaf(stem||i)=Some(v); for both MemoryDb and VerkleDb.", "quantifier": "every database state, path and stem", "why_tests_cant": "VerkleDb takes different read paths depending on depth and cache content.", "anchors": ["verkle-trie/src/database/memory_db.rs: get_branch_children, get_stem_children", "verkle-trie/src/database/default.rs: get_branch_children, get_stem_children"]}
{"id": "C13", "title": "leaf, stem and branch records never collide on disk", "statement": "The disk key of a leaf, of a stem and of a branch path are different byte strings for all keys, stems and paths, and each is an injective encoding; writing one record never changes what reading any other record returns.", "quantifier": "all 32-byte keys, 31-byte stems, paths of any length", "why_tests_cant": "Key-space separation over all lengths.", "anchors": ["verkle-trie/src/database/generic.rs: LEAF_TABLE_MARKER, STEM_TABLE_MARKER, BRANCH_TABLE_MARKER, GenericBatchWriter, GenericBatchDB"]}
{"id": "C14", "title": "node records decode to what was encoded, and malformed records are rejected", "statement": "StemMeta, BranchMeta and BranchChild round-trip through to_bytes/from_bytes; a stem pointer is never confused with a branch record; from_bytes returns Err (it does not panic or silently accept) on a byte string of the wrong length.", "quantifier": "all records; all byte strings", "why_tests_cant": "All lengths of untrusted/corrupt disk data.", "anchors": ["verkle-trie/src/database/meta.rs: StemMeta::{to_bytes,from_bytes}, BranchMeta::{to_bytes,from_bytes}, BranchChild::{to_bytes,from_bytes}"]}
{"id": "C15", "title": "VerificationHint survives the wire", "statement": "read(write(h)) = h for every hint a prover can produce, with no bytes left over; encoding is injective on them.", "quantifier": "every hint: any number of stems, depths and extension states", "why_tests_cant": "Bit-packing of depth and status; all depths and lengths.", "anchors": ["verkle-trie/src/proof.rs: VerificationHint::{read,write}"]}
{"id": "C16", "title": "decoding a VerificationHint never panics", "statement": "VerificationHint::read returns Ok or Err for every byte string; it never panics and never accepts a byte whose status bits are invalid.", "quantifier": "every byte string", "why_tests_cant": "Adversarial input space.", "anchors": ["verkle-trie/src/proof.rs: VerificationHint::read"]}
{"id": "C17", "title": "VerkleProof survives the wire", "statement": "VerkleProof::read(write(p)) = p for every proof whose hint has depths at most 31 and whose IPA proof has 8 rounds; write is injective on them.", "quantifier": "every such proof", "why_tests_cant": "Variable-length concatenation of sections; all sizes.", "anchors": ["verkle-trie/src/proof.rs: VerkleProof::{read,write}", "ipa-multipoint/src/multiproof.rs: MultiPointProof::{to_bytes,from_bytes}"]}
{"id": "C18", "title": "IPA and multipoint proofs round-trip through their byte encodings", "statement": "from_bytes(to_bytes(p), n) = p and the uncompressed variant, with exactly the documented length, for every proof with log2(n) rounds; every byte string from_bytes accepts is the encoding of what it returns up to canonical encodings of elements and scalars.", "quantifier": "every proof, every power of two n", "why_tests_cant": "All round counts.", "anchors": ["ipa-multipoint/src/ipa.rs: IPAProof::{to_bytes,from_bytes,to_bytes_uncompressed,from_bytes_unchecked_uncompressed}", "ipa-multipoint/src/multiproof.rs: MultiPointProof codecs"]}
{"id": "C19", "title": "path lookup classifies every key correctly", "statement": "For every reachable trie and key, proof creation finds: Found(v) exactly when get(key)=Some(v); StemFound when only other suffixes of the stem exist; DifferentStem(s) when the walk ends in another stem s that is in the trie and shares the walked prefix; Empty when no inserted stem has the walked prefix; and the visited inner nodes are exactly the proper prefixes of the stem down to that depth.", "quantifier": "every insert history, every key", "why_tests_cant": "All tree shapes and keys.", "anchors": ["verkle-trie/src/proof/key_path_finder.rs: KeyPathFinder::find_key_path"]}
{"id": "C20", "title": "every opening the prover emits is true", "statement": "For each query the prover builds from a reachable trie, the commitment is the vector commitment of the polynomial attached and the claimed result is that polynomial's value at the queried point; no query construction panics, whatever set (with repetitions) of keys is asked for.", "quantifier": "every insert history, every non-empty list of keys", "why_tests_cant": "All trees and key sets.", "anchors": ["verkle-trie/src/proof/prover.rs: create_prover_queries", "verkle-trie/src/proof/opening_data.rs: OpeningData, open_query"]}
{"id": "C21", "title": "honest proofs are accepted", "statement": "For a reachable trie and any non-empty list of keys, the proof returned by create_verkle_proof is accepted by check with the trie's root and the values get returns. Required side conditions must be ones an honest user can rely on.", "quantifier": "every insert history, every non-empty key list (repeated and absent keys included)", "why_tests_cant": "The verifier rebuilds queries from hints; equality of two independently computed query lists for all trees.", "anchors": ["verkle-trie/src/proof/prover.rs: create_verkle_proof", "verkle-trie/src/proof/verifier.rs: create_verifier_queries", "verkle-trie/src/proof.rs: VerkleProof::check"]}
{"id": "C22", "title": "a proof cannot claim a value under a stem declared absent", "statement": "If the hint says the stem of a key is absent (None or DifferentStem), check with Some value for that key returns false whatever the rest of the proof contains (provided it does not panic before).", "quantifier": "every proof object, key list and value list", "why_tests_cant": "Adversarial proofs.", "anchors": ["verkle-trie/src/proof/verifier.rs: create_verifier_queries lines 103-108, 158-162"]}
{"id": "C23", "title": "an accepted proof never misstates a value (idealised commitments)", "statement": "If every opening the verifier derives is a true opening of the committed tree (binding commitments), then for each queried key the claimed value equals get(key): present values are right and claimed absences are true.", "quantifier": "every trie, every (adversarial) proof, key list and value list", "why_tests_cant": "Quantifies over adversarial proofs.", "anchors": ["verkle-trie/src/proof/verifier.rs: create_verifier_queries"]}
{"id": "C24", "title": "proof checking never panics on untrusted proofs", "statement": "VerkleProof::check and verify_and_update return false/Err for every malformed proof object (lengths of hints, number of commitments, depths, stems); they never panic.", "quantifier": "every proof object, key list and value list", "why_tests_cant": "Adversarial input space.", "anchors": ["verkle-trie/src/proof/verifier.rs: assert!, expect, indexing", "verkle-trie/src/proof.rs: VerkleProof::check"]}
{"id": "C25", "title": "stateless update equals stateful insert", "statement": "verify_and_update on an honest proof returns the same root that inserting the updated values into the full trie produces, for updates of existing values, new suffixes of existing stems, new stems next to other stems and new stems in empty slots.", "quantifier": "every trie, every set of distinct keys, every choice of updated values", "why_tests_cant": "Two different algorithms must agree on all trees.", "anchors": ["verkle-trie/src/proof/stateless_updater.rs: verify_and_update, update_root, build_subtree, SparseVerkleTree::update_prefix"]}
{"id": "C26", "title": "stateless update reports malformed requests as errors", "statement": "update_root / verify_and_update return Err on duplicate keys and on key/value/updated-value lists of different lengths, and never ignore trailing entries.", "quantifier": "every argument triple", "why_tests_cant": "All lengths.", "anchors": ["verkle-trie/src/proof/stateless_updater.rs: update_root lines 41-56, has_unique_elements"]}
{"id": "C27", "title": "IPA proofs for true statements verify", "statement": "For every power of two n, vectors a, b of length n, and commitment C = <a,G>, the proof created for <a,b> is accepted by the verifier started from the same transcript, whenever no Fiat-Shamir challenge is zero; and creation does not panic.", "quantifier": "every n = 2^k, every a, b, G, Q, transcript state and hash function", "why_tests_cant": "All dimensions and challenges.", "anchors": ["ipa-multipoint/src/ipa.rs: create, IPAProof::verify"]}
{"id": "C28", "title": "the three IPA verifiers accept exactly the same proofs", "statement": "verify, verify_multiexp and verify_semi_multiexp return the same verdict on every proof of the right shape (honest or not).", "quantifier": "every proof with k rounds, every b, C, y, transcript, with non-zero challenges", "why_tests_cant": "Adversarial proofs, all sizes.", "anchors": ["ipa-multipoint/src/ipa.rs: verify, verify_multiexp, verify_semi_multiexp, to_bits"]}
{"id": "C29", "title": "multipoint proofs for true openings verify", "statement": "MultiPoint::open on any list of queries whose commitments commit to their polynomials and whose results are the polynomials' values produces a proof check accepts with the same transcript and queries, whatever order the internal grouping by evaluation point iterates in, provided the challenge t is outside the domain and IPA challenges are non-zero.", "quantifier": "every non-empty query list, every grouping order, every width 2^k", "why_tests_cant": "Hash-map iteration order is nondeterministic; all query sets.", "anchors": ["ipa-multipoint/src/multiproof.rs: MultiPoint::open, group_prover_queries, MultiPointProof::check"]}
{"id": "C30", "title": "Lagrange-basis evaluation and division are polynomial evaluation and division", "statement": "For every polynomial of degree < n given by its values on {0..n-1}: the inner product with evaluate_lagrange_coefficients(t) is its value at t for t outside the domain; divide_by_linear_vanishing(i) is the evaluation form of (f - f(i))/(X - i), and PrecomputedWeights hold A'(i), 1/A'(i), 1/k and -1/k.", "quantifier": "every n, polynomial, domain index and field point", "why_tests_cant": "Algebraic identity over all vectors and points.", "anchors": ["ipa-multipoint/src/lagrange_basis.rs: PrecomputedWeights::new, divide_by_linear_vanishing, evaluate_lagrange_coefficients, evaluate_in_domain"]}
{"id": "C31", "title": "the windowed signed multi-scalar multiplication is exact", "statement": "MSMPrecompWindowSigned::mul returns sum s_i*G_i for all scalars below 2^253 and all supported window widths; its digit recoding represents every scalar exactly and never indexes outside the precomputed table.", "quantifier": "every scalar vector, every window width 1..24", "why_tests_cant": "Booth recoding boundary windows; all scalars.", "anchors": ["banderwagon/src/msm_windowed_sign.rs: MSMPrecompWindowSigned::{new,mul,precompute_points}, get_booth_index"]}
{"id": "C32", "title": "the default committer is the linear map v -> sum v_i*G_i whatever code path it takes", "statement": "commit_lagrange (short, medium and parallel paths), scalar_mul (table or wNAF) and commit_sparse all equal sum v_i*G_i; hence committing is additive and commit_sparse of a delta added to a commitment is the commitment of the updated vector.", "quantifier": "every vector of length at most 256, every scalar and index", "why_tests_cant": "Path selection by length and index.", "anchors": ["ipa-multipoint/src/committer.rs: DefaultCommitter::{new,commit_lagrange,scalar_mul}, Committer::commit_sparse", "banderwagon/src/msm.rs: MSMPrecompWnaf"]}
{"id": "C33", "title": "FFI commitment updates equal recommitting", "statement": "update_commitment(old,i,old_v,new_v) and update_commitment_sparse return the commitment of the vector with the listed entries replaced, when old is the commitment of a vector with the given old entries; the order of the listed entries does not matter.", "quantifier": "every vector, every list of index/old/new triples with distinct indices", "why_tests_cant": "All vectors and update lists.", "anchors": ["ffi_interface/src/lib.rs: update_commitment, update_commitment_sparse, commit_to_scalars, add_commitment"]}
{"id": "C34", "title": "FFI entry points reject malformed byte input without panicking", "statement": "commit_to_scalars, deserialize_update_commitment_sparse, update_commitment_sparse, create_proof and verify_proof return Err for input of the wrong length or with non-canonical scalars; they never panic or read a truncated record.", "quantifier": "every byte string", "why_tests_cant": "Adversarial lengths.", "anchors": ["ffi_interface/src/lib.rs: _commit_to_scalars, update_commitment_sparse, create_proof, verify_proof", "ffi_interface/src/serialization.rs"]}
{"id": "C35", "title": "batch hashing equals hashing one by one", "statement": "hash_commitments / batch_map_to_scalar_field return, in order, exactly hash_commitment of each element, including when the batch contains the zero element or repetitions.", "quantifier": "every list of elements", "why_tests_cant": "Montgomery batch inversion with zeros mixed in.", "anchors": ["ffi_interface/src/lib.rs: hash_commitments, hash_commitment", "banderwagon/src/element.rs: map_to_scalar_field, batch_map_to_scalar_field"]}
{"id": "C36", "title": "code chunking covers the code exactly and marks push data", "statement": "chunkify_code returns ceil(len/31) chunks of 32 bytes; their payloads concatenate to the code padded with zeros; the first byte of chunk i is min(31, number of leading payload bytes that are PUSH data).", "quantifier": "every byte string of code", "why_tests_cant": "PUSH instructions straddling chunk boundaries at any distance.", "anchors": ["verkle-spec/src/code.rs: chunkify_code, compute_leftover_push_data"]}
{"id": "C37", "title": "storage slots map injectively to tree positions and never panic", "statement": "For every 256-bit storage key the (tree index, sub index) pair is well defined, distinct storage keys get distinct pairs, small keys land in the header group at 64..127 and large keys outside the header group.", "quantifier": "all storage keys", "why_tests_cant": "2^256 keys, overflow boundary.", "anchors": ["verkle-spec/src/storage.rs: Storage::new", "verkle-spec/src/parameters.rs"]}
{"id": "C38", "title": "header fields, code chunks and storage slots of an account never share a tree position", "statement": "The (tree index, sub index) positions of the five header fields, of every code chunk and of every storage slot of one account are pairwise distinct, so no write to one can overwrite another.", "quantifier": "all chunk numbers and storage keys", "why_tests_cant": "Arithmetic over all indices.", "anchors": ["verkle-spec/src/header.rs", "verkle-spec/src/code.rs: Code::new", "verkle-spec/src/storage.rs", "verkle-spec/src/parameters.rs"]}
{"id": "C39", "title": "the tree-key hash input encoding is faithful", "statement": "The scalars hashed for a (address, tree index) pair are the documented 16-byte little-endian chunks with length header; distinct inputs give distinct scalar vectors; the returned key is the hash with its last byte replaced by the sub index.", "quantifier": "every 32-byte address and index, every byte string up to the width limit", "why_tests_cant": "Injectivity over all inputs.", "anchors": ["verkle-spec/src/util.rs: hash_addr_int, chunk_bytes, chunk64, swap_last_byte, zero_align_bytes", "verkle-spec/src/lib.rs: hash64", "ffi_interface/src/lib.rs: get_tree_key, get_tree_key_hash"]}
{"id": "C40", "title": "element encoding is canonical and round-trips", "statement": "Two elements are equal iff their compressed encodings are equal; from_bytes(to_bytes(e)) = e; from_bytes accepts only 32-byte encodings that to_bytes can produce; the uncompressed encoding round-trips too.", "quantifier": "every valid group element; every byte string", "why_tests_cant": "All points, both representatives of each class.", "anchors": ["banderwagon/src/element.rs: to_bytes, from_bytes, PartialEq, is_positive, subgroup_check", "banderwagon/src/trait_impls/serialize.rs"]}
{"id": "C41", "title": "the point-to-field map does not depend on the representative", "statement": "map_to_field/map_to_scalar_field give the same result on both representatives (x,y) and (-x,-y) of an element, distinct elements have distinct x/y, and the zero element maps to zero.", "quantifier": "every valid group element", "why_tests_cant": "All points.", "anchors": ["banderwagon/src/element.rs: map_to_field, map_to_scalar_field, PartialEq"]}
{"id": "C42", "title": "Fiat-Shamir challenges bind everything absorbed before them", "statement": "The transcript's challenge is a function of exactly the byte string formed from all labels and messages absorbed so far (chained through earlier challenges); prover and verifier that absorb the same values derive the same challenges, and for a fixed protocol shape different absorbed values give different hash inputs.", "quantifier": "every sequence of transcript operations", "why_tests_cant": "All protocol runs.", "anchors": ["ipa-multipoint/src/transcript.rs: Transcript"]}
{"id": "C43", "title": "the CRS survives serialisation", "statement": "CRS::from_bytes(crs.to_bytes()) returns the same generators in the same order and the same Q, for every CRS with at least one generator.", "quantifier": "every CRS", "why_tests_cant": "All sizes.", "anchors": ["ipa-multipoint/src/crs.rs: to_bytes, from_bytes"]}
{"id": "C44", "title": "execution-witness proofs convert faithfully", "statement": "Converting a Go-format witness to a VerkleProof yields keys = stem||suffix in order with aligned current/new values, the same depths and statuses as the wire hint encoding, and the same commitments; invalid point encodings give None.", "quantifier": "every witness", "why_tests_cant": "All shapes of state diffs.", "anchors": ["verkle-trie/src/proof/golang_proof_format.rs: from_verkle_proof_go_to_verkle_proof, keys_with_current_values, byte_to_depth_extension_present"]}
{"id": "C45", "title": "FFI proof requests are parsed to the queries they encode", "statement": "For every list of queries, the concatenated fixed-size records are split and parsed back to exactly those (commitment, polynomial, point, value) queries, for prover (8257-byte) and verifier (65-byte) formats and the uncompressed variants.", "quantifier": "every list of queries", "why_tests_cant": "All list lengths and record contents.", "anchors": ["ffi_interface/src/serialization.rs: deserialize_proof_query, deserialize_verifier_query", "ffi_interface/src/lib.rs: create_proof, verify_proof"]}
{"id": "C46", "title": "a prover the verifiers accept knows openings of the commitments", "statement": "The verifiers of the inner-product and multipoint arguments accept a proof exactly when the textbook equation holds for the challenges they draw. A prover that is accepted for enough different challenges at every step (the challenges being drawn by whatever hash function) has a computable opening: from its messages alone one computes vectors to which the queried commitments are commitments and whose entries at the queried points are the claimed values, or else a non-trivial relation between the generators. The same holds for whole trie proofs: for every claim the check derives from the hint, the keys and the values.", "quantifier": "every prover strategy, every set of challenges of the required shape, every list of queries, every vector length that is a power of two", "why_tests_cant": "A soundness statement quantifies over all cheating provers; tests only try particular proofs.", "anchors": ["ipa-multipoint/src/ipa.rs: IPAProof::verify, verify_multiexp, verify_semi_multiexp", "ipa-multipoint/src/multiproof.rs: MultiPointProof::check", "verkle-trie/src/proof.rs: VerkleProof::check"]}
{"id": "C47", "title": "the generated reference string is a stable list of distinct group elements", "statement": "CRS::new(n, seed), when it returns, gives exactly n pairwise different valid group elements, which are the first n elements found among the hashes of seed followed by 0, 1, 2, ...; a shorter reference string with the same seed is a prefix of a longer one; it panics only when two of the points found are equal.", "quantifier": "every seed, every n", "why_tests_cant": "All seeds and sizes; the search for points has no bound.", "anchors": ["ipa-multipoint/src/crs.rs: CRS::new, generate_random_elements, assert_dedup", "banderwagon/src/lib.rs: try_reduce_to_element"]}
{"id": "C48", "title": "the C functions compute what the Rust functions compute", "statement": "create_proof and verify_proof of the C library give, for every input buffer, the result of the Rust functions of the same name (and abort where those return an error); the proofs either creation function writes (576 or 1120 bytes) are accepted by its verification counterpart together with the claims; multi_scalar_mul writes the linear combination of the generators with the first 256 whole scalars of the buffer; pedersen_hash writes the tree key hash, and nothing when a pointer is null.", "quantifier": "every input buffer, every list of openings, every list of scalars", "why_tests_cant": "All buffers, including ones of unexpected size or content, and all numbers of openings.", "anchors": ["bindings/c/src/lib.rs: pedersen_hash, multi_scalar_mul, create_proof, create_proof_uncompressed, verify_proof, verify_proof_uncompressed"]}
{"id": "C49", "title": "the Java functions return what the library computes or throw", "statement": "commit, commitAsCompressed, updateSparse, compress, compressMany, hash, hashMany and addCommitment return exactly the encoding of the result of the library operation on the encoded points and scalars; null and arrays of the wrong size give IllegalArgumentException. verifyPreStateRoot on the arrays that describe a proof, its keys and values returns the verdict of the proof check against the decoded root; when it returns true, the arrays decode to a proof that passes the check for exactly those keys and values.", "quantifier": "every Java array, including null, every proof, every list of keys and values", "why_tests_cant": "All array sizes and contents, all proofs.", "anchors": ["bindings/java/rust_code/src/lib.rs", "bindings/java/rust_code/src/parsers.rs", "bindings/java/rust_code/src/utils.rs"]}
{"id": "C50", "title": "decoding a VerkleProof returns a proof or an error for every byte string", "statement": "VerkleProof::read returns Ok or Err on every byte string, never panics, and returns Ok(p) only for the encoding of p (as written by VerkleProof::write); in particular truncated encodings and encodings followed by further bytes are errors.", "quantifier": "every byte string", "why_tests_cant": "All byte strings of all lengths; adversarial input.", "anchors": ["verkle-trie/src/proof.rs: VerificationHint::read, VerkleProof::read", "ipa-multipoint/src/multiproof.rs: MultiPointProof::from_bytes", "ipa-multipoint/src/ipa.rs: IPAProof::from_bytes"]}
{"id": "C51", "title": "a trie on disk makes the same proofs as a trie in memory", "statement": "After any sequence of insertions, flushes and reopenings, creating a proof for any list of keys from the trie on the caching disk database gives the same proof, the same root and the same verdict of the check as creating it from an in-memory trie with the same contents.", "quantifier": "every history of insertions, flushes and reopenings; every list of keys", "why_tests_cant": "All histories and crash points; the cache makes reads depend on the whole history.", "anchors": ["verkle-trie/src/database/default.rs: ReadOnlyHigherDb for VerkleDb", "verkle-trie/src/proof/prover.rs: create_verkle_proof", "verkle-trie/src/proof/opening_data.rs", "verkle-trie/src/proof/key_path_finder.rs"]}
{"id": "C52", "title": "account state stored under the keys of verkle-spec reads back", "statement": "Header fields, code chunks and storage slots of any accounts, inserted into a trie under the keys verkle-spec computes for them, read back as last written, items never written read as absent, the root depends only on the resulting state, and the code of an account can be reassembled from its chunks; as long as the hash inputs concerned do not collide.", "quantifier": "every sequence of writes to items of accounts, every item read, every code", "why_tests_cant": "All sequences of writes and all positions; needs injectivity of the layout.", "anchors": ["verkle-spec/src/header.rs", "verkle-spec/src/code.rs", "verkle-spec/src/storage.rs", "verkle-spec/src/lib.rs: hash64", "verkle-trie/src/trie.rs: insert, get"]}
{"id": "C53", "title": "group elements form a commutative group and a module over the scalars, whatever coordinates hold them", "statement": "For elements obtained by checked decoding, zero() and operations on these: addition, subtraction, negation, sums and multiplication by Fr never fail, stay in the group, give equal results for equal arguments, and obey the laws of a commutative group and of a module over Fr (associativity, commutativity, zero, inverses, distributivity; multiplying by n is adding n times); sums do not depend on the order, and multi_scalar_mul is linear and panics exactly if the numbers of bases and scalars differ.", "quantifier": "every group element in every extended coordinates, every scalar, every list", "why_tests_cant": "All points of a 253-bit group in all their projective representations; exceptional cases of the addition law are exactly what sampling misses.", "anchors": ["banderwagon/src/trait_impls/ops.rs", "banderwagon/src/element.rs: PartialEq, multi_scalar_mul, from_bytes_unchecked_uncompressed"]}
{"id": "C54", "title": "equality, hash and bytes of elements are functions on one abstract group", "statement": "There is one group in which two elements are equal exactly if they stand for the same member, and in which addition, negation, multiplication by scalars, map_to_scalar_field, to_bytes and from_bytes are functions of the members; decoding is inverse to encoding there. So commitments may be compared, hashed and sent without regard to the coordinates they were computed in.", "quantifier": "every group element, every scalar, every byte string", "why_tests_cant": "All pairs of representations of all elements.", "anchors": ["banderwagon/src/element.rs", "banderwagon/src/trait_impls/ops.rs", "banderwagon/src/trait_impls/serialize.rs"]}
{"id": "C55", "title": "which bytes the interface returns for a commitment that was updated or added", "statement": "The 64 bytes returned by update_commitment, update_commitment_sparse and add_commitment are coordinates of the same group element as the bytes commit_to_scalars returns for the updated vector (or the sum of the vectors). The bytes themselves are equal exactly if the generator has prime order or the entry did not decrease (one update), resp. if the number of entries that decreased, or whose sum passed the scalar order, on generators not of prime order is even. The bytes of a commitment are accepted by the checked reader exactly if the number of odd entries on such generators is even. With the default generators: the positions are those listed in C57.", "quantifier": "every vector of up to 256 scalars, every update, list of updates and pair of vectors, every split of the parallel work, any generators", "why_tests_cant": "Depends on the parity of a count over all entries and on the orders of 256 points; equality of bytes holds for half of the cases one would try.", "anchors": ["ffi_interface/src/lib.rs: commit_to_scalars, update_commitment, update_commitment_sparse, add_commitment", "banderwagon/src/element.rs: to_bytes_uncompressed, from_bytes_unchecked_uncompressed", "banderwagon/src/trait_impls/serialize.rs"]}
{"id": "C56", "title": "a trie on disk can be used again after it was flushed and reopened, with the points the code computes", "statement": "After insertions and a flush, a trie reopened on the same database accepts further insertions without a panic. (Records of commitments are read with a check that the point has prime order, and which of the two coordinate pairs of an element is written depends on the computation.)", "quantifier": "every key, value and set of generators", "why_tests_cant": "Whether the records can be read depends on the hashes of commitments and the orders of generators; tests with the wrong values see nothing.", "anchors": ["verkle-trie/src/database/meta.rs: StemMeta::from_bytes, BranchMeta::from_bytes", "verkle-trie/src/database/default.rs", "verkle-trie/src/trie.rs: insert", "banderwagon/src/trait_impls/serialize.rs: deserialize_with_mode"]}
{"id": "C57", "title": "the default generators are 257 different elements of the group", "statement": "CRS::default loads; its 256 generators and Q are elements of the prime-order group, none is zero and no two are equal; CRS::to_bytes is inverse to CRS::from_bytes, which panics exactly on an empty list or a coordinate that is not below the modulus. Which of the generators are in coordinates that the checked reader refuses is listed.", "quantifier": "all 257 default generators; every list of 64-byte strings", "why_tests_cant": "Membership in the group, orders and distinctness up to the choice of coordinates are facts about each of the points; no test checks them.", "anchors": ["ipa-multipoint/src/crs.rs", "ipa-multipoint/src/default_crs.rs", "banderwagon/src/element.rs"]}
{"id": "C58", "title": "the curve constants give a cyclic group of prime order meeting all assumptions", "statement": "With the constants of bandersnatch both moduli are prime, the addition law is complete on the subgroup used, and each element is exactly one multiple of any element that is not zero. The group, the default generators and the encodings meet every law that the other properties assume.", "quantifier": "every pair of elements, every scalar", "why_tests_cant": "Primality and the order of a 253-bit group cannot be enumerated.", "anchors": ["banderwagon/src/element.rs", "banderwagon/src/trait_impls/ops.rs", "banderwagon/Cargo.toml: ark-ed-on-bls12-381-bandersnatch"]}
{"id": "C59", "title": "the trie behaves as the group does, whichever coordinates its points have", "statement": "A group element has two pairs of coordinates, and the code keeps the one its additions led to. With points held as coordinates, insertions into a trie do not panic, reads return the last value, and the root is the element obtained by committing to the contents from scratch. Tries with the same contents have roots that compare equal, serialise to the same bytes and have the same hash, although their coordinates may differ. A trie on disk differs from this only by a panic on a stored record that its reader refuses.", "quantifier": "every history of insertions, flushes and reopenings, every choice of coordinates for the generators", "why_tests_cant": "Which coordinates arise depends on the whole history and on the generators; tests compare elements for a few of them.", "anchors": ["banderwagon/src/element.rs: Element, PartialEq", "banderwagon/src/trait_impls/ops.rs", "verkle-trie/src/trie.rs", "verkle-trie/src/database/default.rs", "verkle-trie/src/config.rs: DefaultConfig"]}
{"id": "C60", "title": "proofs do not depend on coordinates and survive being sent", "statement": "A proof made from a trie whose points are coordinates can be written, read back, and checked against a root that was itself sent as 32 bytes, and is accepted. The check gives the same answer for other coordinates of the same elements. Two proofs have the same bytes exactly if their elements are equal, and tries with the same contents give proofs with the same bytes.", "quantifier": "every history, list of keys, order of the prover's maps, choice of coordinates, and hash function", "why_tests_cant": "Reading replaces coordinates by others for about half of all elements; what depends on them cannot be found by trying proofs.", "anchors": ["verkle-trie/src/proof/prover.rs: create_verkle_proof", "verkle-trie/src/proof.rs: VerkleProof::check, read, write", "ipa-multipoint/src/multiproof.rs", "ipa-multipoint/src/transcript.rs", "banderwagon/src/element.rs: to_bytes, from_bytes"]}
{"id": "C61", "title": "the stateless update does not depend on coordinates", "statement": "With a proof and a root that were received as bytes, the stateless update gives the root that the trie has after the same insertions, and the same answer for any coordinates of the same elements.", "quantifier": "every history, list of keys and updates, order of the maps, choice of coordinates, and hash function", "why_tests_cant": "The coordinates received differ from those the prover held, in ways that depend on every point of the proof.", "anchors": ["verkle-trie/src/proof/stateless_updater.rs: verify_and_update, update_root"]}
{"id": "C62", "title": "a stateless update by any accepted proof gives the right root", "statement": "A client that knows only the root, and is given keys, their values and a proof by somebody it does not trust, never obtains from verify_and_update a root other than that of the trie after the insertions; if no root is returned the reason is a rejected proof, a repeated key, or a write that the proof says goes into an empty slot.", "quantifier": "every history, proof (however made), list of keys and claimed values, list of new values and iteration order of the hash set, the commitments at hand being idealised", "why_tests_cant": "The proofs range over everything an adversary can write down, and a wrong root is only noticed by comparison with the full trie.", "anchors": ["verkle-trie/src/proof/stateless_updater.rs: verify_and_update, update_root, SparseVerkleTree::update_prefix, build_subtree", "verkle-trie/src/proof/verifier.rs: create_verifier_queries"]}
{"id": "C63", "title": "the root binds the contents of the trie", "statement": "Two tries with the same root hash return the same value under every key, or the nodes of the two tries themselves contain an explicit collision: two different vectors with the same commitment (hence a non-trivial relation between the generators), two different commitments with the same hash, or a commitment that hashes to the marker of extension nodes. For the default curve and generators nothing else is assumed.", "quantifier": "every two histories of insertions of 32-byte keys and values", "why_tests_cant": "No finite set of tries excludes a pair whose roots agree through the layout of the vectors (a marker, a shifted half, an omitted stem), which an adversary would look for.", "anchors": ["verkle-trie/src/trie.rs: insert, root_hash, get", "verkle-trie/src/trie.rs: update_leaf_table, update_branch_table", "verkle-trie/src/config.rs: DefaultConfig"]}
{"id": "C64", "title": "a proof is a function of the contents and of the set of keys", "statement": "create_verkle_proof gives the same outcome for every listing of the same keys (in any order, with any repetitions), for every order in which the contents were inserted and every iteration order of the prover's hash maps; and the verifier may list keys and values in any order and with repetitions, whatever listing the prover was given.", "quantifier": "every history, every two lists of keys with the same members, every iteration order", "why_tests_cant": "The listings and iteration orders are unbounded in number, and a dependence on them shows only for particular groups of keys sharing stems or nodes.", "anchors": ["verkle-trie/src/proof/prover.rs: create_verkle_proof, create_prover_queries", "verkle-trie/src/proof/opening_data.rs: OpeningData::collect_opening_data", "verkle-trie/src/proof/verifier.rs: create_verifier_queries"]}
{"id": "C65", "title": "a client that knows only the root follows a chain of blocks", "statement": "A client that starts from the root of a trie and calls verify_and_update once for each of a list of blocks (keys, old values, proof, new values), each time on the root the last call returned, ends with the root of the trie after the writes of all blocks, and the old values it was given with each block were those of the trie at that point; it gets no root exactly if a proof is rejected, a block repeats a key, or a block writes to an empty slot.", "quantifier": "every history, list of blocks (of any length, from full nodes or from anybody) and iteration order of the hash set, the commitments at hand being idealised for blocks from untrusted senders", "why_tests_cant": "Errors in the returned root show only when the next proof is checked against it, and the number of blocks is unbounded.", "anchors": ["verkle-trie/src/proof/stateless_updater.rs: verify_and_update, update_root", "verkle-trie/src/proof/prover.rs: create_verkle_proof", "verkle-trie/src/proof.rs: VerkleProof::check"]}
{"id": "C66", "title": "a client that knows only the root learns true account state", "statement": "For account state stored under the keys of verkle-spec: the execution witness a full node makes for any header fields, code chunks and storage slots, with the values last written to them, is accepted by verify_execution_witness with the root of the state; an accepted witness, whoever made it, gives for every item the value last written (or absence), and its code chunks reassemble to the code; and a client that follows blocks of account writes with verify_and_update ends with the root of any trie that holds the same accounts, however they were written there.", "quantifier": "every list of writes to accounts, every list of items, every witness (however made), every chain of blocks; as long as the hash inputs concerned do not collide, under the conditions of C21 (made by full nodes) or C23 (made by anybody)", "why_tests_cant": "The claim spans key derivation, hexadecimal and JSON, the proof format, the verifier, the trie and the stateless updater, for all states and all witnesses an adversary can write down.", "anchors": ["ffi_interface/src/lib.rs: verify_execution_witness", "verkle-trie/src/proof/golang_proof_format.rs: from_json_str, from_verkle_proof_go_to_verkle_proof", "verkle-spec/src/header.rs, code.rs, storage.rs", "verkle-trie/src/proof/stateless_updater.rs: verify_and_update"]}
{"id": "C67", "title": "what a trie on disk commits to when flushed values are written again", "statement": "For a trie kept on disk, whatever is inserted, flushed and reopened, including changing values that were flushed before: no call panics, every get returns the value last written, and the root is exactly that of a trie in which each key carries the sums over one value per period between flushes in which the key was changed. So the root is that of an in-memory trie with the same contents as long as no key counts twice; changing a flushed value makes the root hash another one (or exhibits a collision), and after the next flush no sequence of further writes, flushes and reopenings mends it.", "quantifier": "every sequence of insertions, flushes and reopenings with keys and values of 32 bytes, in which a prefix of four bytes that two stems came to share since the last opening is left alone until the next one", "why_tests_cant": "The root depends on the whole history of flushes and writes of every key; that no later history mends it is a claim about all continuations.", "anchors": ["verkle-trie/src/database/default.rs: insert_leaf, flush, get_leaf", "verkle-trie/src/trie.rs: insert, chain_insert, update_leaf_table, update_stem_table", "verkle-db/src: BatchDB::flush"]}
{"id": "C68", "title": "what the interface makes of 64 bytes that are no commitment", "statement": "serialize_commitment, add_commitment, update_commitment, update_commitment_sparse, hash_commitment and hash_commitments treat 64 bytes that are no commitment as an error. (False. Exactly: bytes with a half that is no number below the modulus panic; any other two numbers x, y are processed like a point. Serialization keeps x and the sign of y, so that bytes off the curve become an encoding that reads back as a commitment; the hash depends on x/y only, so that bytes off the curve have the hash of a commitment; sums and updates follow the addition formula, and panic exactly if it divides by zero, which commitments never cause. Hashing one commitment with y = 0 panics, hashing a batch returns zero for it.) On the bytes of commitments the functions are those of the other properties.", "quantifier": "every string of 64 bytes, every pair of strings, every list of strings, every position and all scalars", "why_tests_cant": "Off-curve inputs are almost all of the 2^512 strings; that every commitment can be forged from other bytes, and that no commitment causes a division by zero, are claims about all of them.", "anchors": ["ffi_interface/src/lib.rs: add_commitment, update_commitment, update_commitment_sparse, hash_commitment, hash_commitments", "ffi_interface/src/serialization.rs: serialize_commitment, deserialize_commitment", "banderwagon/src/element.rs: from_bytes_unchecked_uncompressed, to_bytes, to_bytes_uncompressed, map_to_scalar_field, batch_map_to_scalar_field"]}
{"id": "C69", "title": "proofs from a trie on disk whose flushed values were written again", "statement": "For a trie kept on disk in which flushed values were changed: asking it for a proof never panics; the proof carries the hint, the commitments and the opened points of a trie with the sums of C67. If none of the requested keys shares its stem and its half of the suffixes with a key whose flushed value was changed, the proof is accepted against the trie's root with the values that get returns. If one does, the proof contains an opening that is false (or two explicit different vectors have the same commitment). And whoever makes it, no proof shows any value or the absence of a changed key against that root, and no proof shows anything but what get returns for another key, except as described in C23.", "quantifier": "every sequence of insertions, flushes and reopenings as in C67 (settled stems), every non-empty list of keys, every order of the hash map, and for the last part every proof, hint and claimed values", "why_tests_cant": "Which keys remain provable depends on the history of every key in the same half stem; that nobody can prove a changed key quantifies over all proofs.", "anchors": ["verkle-trie/src/proof/prover.rs: create_verkle_proof, create_prover_queries", "verkle-trie/src/proof/opening_data.rs: collect_opening_data, get_half_of_stem_children_children_hashes", "verkle-trie/src/database/default.rs: insert_leaf, get_leaf", "verkle-trie/src/proof.rs: check"]}
{"id": "C70", "title": "what the root hash of a trie on disk tells of its contents", "statement": "Two tries kept on disk with the same root hash hold the same values. (False, in every group: writing two values under one key, in either order, with a flush in between, gives the same root and different answers. Exactly: the root hash tells the two totals of every key, that is the sums over the values of C67 of the low halves with their markers and of the high halves, and nothing else; not even how often a key was changed.) A trie on disk that has the root hash of any in-memory trie holds the same values as that trie, and none of its flushed values was ever changed. Both up to an explicit collision of commitments or hashes.", "quantifier": "every two sequences of insertions, flushes and reopenings as in C67 (settled stems, fewer than 2^100 operations together), every history of an in-memory trie", "why_tests_cant": "The claim compares all pairs of histories; the colliding pairs come from the order of writes and flushes, not from sizes a test would vary.", "anchors": ["verkle-trie/src/database/default.rs: insert_leaf, flush", "verkle-trie/src/trie.rs: insert, root_hash, get", "verkle-trie/src/lib.rs: TrieTrait::root_hash"]}
{"id": "C71", "title": "clients and nodes at the same root hold the same state", "statement": "Two clients that know only a root and follow chains of blocks by verify-and-update, from any two starting tries, and end with roots of the same hash, speak of tries with the same value under every key. So does a node that keeps its trie on disk and has that root hash, and none of its flushed values was ever changed. For blocks from full nodes: or the two tries contain an explicit collision. For blocks from anybody: or a block that was accepted exhibits an explicit event.", "quantifier": "every two starting histories, every two chains of blocks of any length, every order of hash maps on either side, and every history of a trie on disk as in C70", "why_tests_cant": "It quantifies over pairs of whole chains and over the proofs anybody may send with them.", "anchors": ["verkle-trie/src/proof/stateless_updater.rs: verify_and_update, update_root", "verkle-trie/src/proof.rs: check", "verkle-trie/src/trie.rs: root_hash", "verkle-trie/src/database/default.rs: insert_leaf"]}
{"id": "C72", "title": "proofs read without a check: claims accepted by verify_proof_uncompressed", "statement": "verify_proof_uncompressed of the C binding accepts claims only with a proof made from polynomials that fulfil them. (False: it reads the points of the proof without a check, and the transcript hashes only the x coordinate of a point and the sign of y. For any commitments and any positions, the claims that all of them are zero there are accepted with a proof that is written down from the commitments and the challenges alone, with a first point off the curve.) If all points of the input are those of group elements the function decides as verify_proof does. create_proof_uncompressed uses a commitment through x and the sign of y only.", "quantifier": "every list of commitments and positions, every first coordinate of the forged point, every context of width 256, every hash function; every proof and claims made of group elements", "why_tests_cant": "Tests run the verifier on honest proofs; that one recipe fools it for every commitment, and that it agrees with the checked verifier on all inputs made of group elements, are claims about all commitments and all challenges.", "anchors": ["bindings/c/src/lib.rs: verify_proof_uncompressed", "bindings/c/src/lib.rs: create_proof_uncompressed", "ffi_interface/src/serialization.rs: deserialize_verifier_query_uncompressed", "ipa-multipoint/src/multiproof.rs: MultiPointProof::from_bytes_unchecked_uncompressed, check", "ipa-multipoint/src/ipa.rs: IPAProof::from_bytes_unchecked_uncompressed, verify_multiexp", "ipa-multipoint/src/transcript.rs: append_point", "banderwagon/src/element.rs: from_bytes_unchecked_uncompressed, PartialEq"]}
{"id": "C73", "title": "the proof functions of the interface do not depend on coordinates and their proofs are accepted", "statement": "With points held as coordinates, as the code holds them: verify_proof of the interface and of the C binding answers (or panics) on every byte string as it would if it computed in the group; create_proof returns the bytes it would return in the group. A proof that create_proof makes for commitments to known vectors, at true positions and values, is accepted by verify_proof with claims about the same elements, whichever coordinates the verifier is given. The uncompressed pair of the C binding, which reads elements without a check, also accepts its own proofs; in the input of its prover a commitment may be given by any numbers with its x and the sign of its y.", "quantifier": "every byte string; every list of openings; every iteration order of the prover's hash map; every choice of coordinates; every generators, the default ones in particular; every hash function (for acceptance: whose challenges are usable for the openings)", "why_tests_cant": "Which coordinates a commitment has depends on the additions that led to it, and the order of the groups on the hash map; a test sees one choice of each, and only inputs that were made honestly.", "anchors": ["ffi_interface/src/lib.rs: create_proof, verify_proof", "bindings/c/src/lib.rs: create_proof, verify_proof, create_proof_uncompressed, verify_proof_uncompressed", "ffi_interface/src/serialization.rs: deserialize_proof_query, deserialize_verifier_query, deserialize_proof_query_uncompressed, deserialize_verifier_query_uncompressed", "banderwagon/src/element.rs: to_bytes, from_bytes, PartialEq"]}
{"id": "C74", "title": "a write to the database returns what it replaces", "statement": "Each write of the database interface (insert_leaf, insert_stem, add_stem_as_branch_child, insert_branch) returns what a read of the same place would have returned before it. True of the in-memory database. (False of the database on disk: it returns what the last write at the same place wrote if no flush came since, and nothing otherwise, although the value can be read; the trie takes the value it replaces from that answer.)", "quantifier": "every state of the in-memory database; every disk, every sequence of writes and flushes after opening it, every place, value and depth", "why_tests_cant": "The answer depends on the whole sequence of writes and flushes; a test sees one of them.", "anchors": ["verkle-trie/src/database.rs: WriteOnlyHigherDb", "verkle-trie/src/database/memory_db.rs: insert_leaf, insert_stem, add_stem_as_branch_child, insert_branch", "verkle-trie/src/database/default.rs: WriteOnlyHigherDb for VerkleDb, Flush", "verkle-trie/src/trie.rs: update_leaf_table"]}
