(** What the arguments of the Java verifier say. *)
From Verif Require Import Base Alg TreeSpec BTree WireModel WireSpec ProofModel ProofSpec IpaModel GoModel GoSpec BindModel BindSpec StatelessModel SoundSpec TruthSpec ChainSpec.

Section JavaSpec.
Context {A : Alg} {C : ECodec A}.
(** The proof written in seven of the arguments. *)
Record java_says (cp cl cr os : jarray) (d : jbytes) (dp : option (list Z)) (fe : jbytes) (p : VerkleProof) : Prop := {
  jy_comms : exists bs, cp = java_list bs /\ Forall2 (fun b g => el_de b = Some g) bs (vp_comms p);
  jy_cl : exists bs, cl = java_list bs /\ Forall2 (fun b g => el_de b = Some g) bs (ipa_L (mp_ipa (vp_proof p)));
  jy_cr : exists bs, cr = java_list bs /\ Forall2 (fun b g => el_de b = Some g) bs (ipa_R (mp_ipa (vp_proof p)));
  jy_other : exists bs, os = java_list bs /\ sorted (vh_diff (vp_hint p)) /\ (forall s, In s (vh_diff (vp_hint p)) <-> In s bs);
  jy_d : exists b, d = Some b /\ el_de b = Some (mp_g (vp_proof p));
  jy_depths : exists bs, dp = Some bs /\ length (vh_ext (vp_hint p)) = length bs /\ length (vh_depths (vp_hint p)) = length bs /\
    Forall2 (fun b ed => java_status_means b (fst ed) (snd ed)) bs (combine (vh_ext (vp_hint p)) (vh_depths (vp_hint p)));
  jy_final : exists b, fe = Some b /\ sc_de (rev b) = Some (ipa_a (mp_ipa (vp_proof p)))
}.
(** The values claimed: one per key, those left over are not read. *)
Definition java_claims (keys vals : list bytes) : list (option bytes) := map java_read (firstn (length keys) vals).
Definition java_block (p : VerkleProof) (keys vals : list bytes) : block := mkBlock p keys (java_claims keys vals) [].
End JavaSpec.
