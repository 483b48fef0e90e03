(** Concrete records. *)
From Verif Require Import Base BaseFacts Alg AlgInst TreeSpec TrieModel CodecModel CodecInst VerkleDbModel DbSpec VerkleDbProofs CodecTotal.

Definition ex_branch_rec : @BranchMeta ExA := mkBranchMeta (A := ExA) (zred p31 77) (zred p31 5).
Definition ex_stem_rec : @StemMeta ExA := mkStemMeta (A := ExA) (zred p31 77) (zred p31 5) (zred p31 78) (zred p31 6) (zred p31 79) (zred p31 7).
Lemma records_case :
  starts_branch_record (branch_meta_to_bytes ex_branch_rec ++ [7]) ex_branch_rec /\
  branch_meta_from_bytes (branch_meta_to_bytes ex_branch_rec ++ [7]) = Ok (Some ex_branch_rec) /\
  branch_meta_from_bytes (firstn 95 (branch_meta_to_bytes ex_branch_rec)) = Panic /\
  is_stem_record (stem_meta_to_bytes ex_stem_rec) ex_stem_rec /\
  stem_meta_from_bytes (stem_meta_to_bytes ex_stem_rec ++ [7]) = Ok None.
Proof.
  assert (HV : rust_vec (branch_meta_to_bytes ex_branch_rec ++ [7])) by (vm_compute; reflexivity).
  assert (E : branch_meta_from_bytes (branch_meta_to_bytes ex_branch_rec ++ [7]) = Ok (Some ex_branch_rec)).
  { unfold branch_meta_to_bytes. rewrite <- app_assoc. rewrite branch_parts; [| |apply Z_le_len|apply Z_le_len].
    - rewrite pt_rt, fr_rt. reflexivity.
    - unfold branch_meta_to_bytes in HV. now rewrite <- app_assoc in HV. }
  split; [now apply (proj1 (branch_record_exact _ HV))|]. split; [exact E|]. split; [apply branch_meta_short; rewrite firstn_length; lia|].
  split; [apply stem_record_exact, stem_meta_rt|]. apply stem_meta_wrong_length. vm_compute. discriminate.
Qed.
