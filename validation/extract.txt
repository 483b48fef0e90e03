From Coq Require Import ZArith Extraction ExtrOcamlBasic ExtrOcamlZBigInt ExtrOcamlNatInt.
From Verif Require Import Base Alg TrieModel CodecModel VerkleDbModel MsmModel WireModel ProofModel IpaModel StatelessModel Sha256 ElementModel CurveModel CrsModel DefaultCrs FfiModel SpecModel GoModel BindModel.
Extract Constant Z.div => "Big_int_Z.div_big_int".
Extract Constant Z.modulo => "Big_int_Z.mod_big_int".
Extract Constant Z.land => "Big_int_Z.and_big_int".
Extract Constant Z.lor => "Big_int_Z.or_big_int".
Extract Constant Z.lxor => "Big_int_Z.xor_big_int".
Extract Constant Z.shiftl => "Zz.shl".
Extract Constant Z.shiftr => "Zz.shr".
Extract Constant Z.leb => "Big_int_Z.le_big_int".
Extract Constant Z.ltb => "Big_int_Z.lt_big_int".
Extract Constant Z.of_nat => "Big_int_Z.big_int_of_int".
Extract Constant Z.to_nat => "(fun z -> if Big_int_Z.sign_big_int z < 0 then 0 else Big_int_Z.int_of_big_int z)".
Extraction "model.ml" run_mem run_disk root_commitment root_hash trie_get memory_db_ops verkle_db_ops create_verkle_proof proof_check proof_write proof_read verify_and_update sha2_256 trie_insert challenge_scalar append_scalar append_point tr_new domain_sep lbl mp_open precomputed_weights lb_new ipa_create mp_to_bytes ipa_to_bytes mp_check open_point_outside_of_domain commit_lagrange_poly evaluate_lagrange_coefficients inner_product ipa_verify_multiexp crs_new crs_from_bytes element_add element_neg element_mul element_eqb element_zero to_bytes to_bytes_uncompressed from_bytes from_bytes_unchecked_uncompressed serialize_uncompressed deserialize_uncompressed map_to_scalar_field hash64 get_tree_key_hash chunkify_code storage_slot_key context_new commit_to_scalars Z_be verify_execution_witness header_new code_chunk_key add_commitment update_commitment update_commitment_sparse get_tree_key hash_commitment_ ffi_create_proof ffi_verify_proof update_root committer_new commit_lagrange committer_scalar_mul committer_commit_sparse chunk64 addr20_to_addr32.
