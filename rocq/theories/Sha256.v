(** SHA-256 (FIPS 180-4), the hash that the code takes from the external crate sha2
    (ipa-multipoint/src/transcript.rs:2, 18-21, 80-86; ipa-multipoint/src/crs.rs:100-110; verkle-spec/src/lib.rs).
    Elsewhere in the development the hash is an arbitrary function; this is the function it stands for. *)
From Verif Require Import Base BaseFacts.

Definition w32 (x : Z) : Z := Z.land x 0xffffffff.
Definition rotr (n x : Z) : Z := Z.lor (Z.shiftr x n) (w32 (Z.shiftl x (32 - n))).
(** FIPS 180-4, 4.1.2. *)
Definition ch (x y z : Z) : Z := Z.lxor (Z.land x y) (Z.land (Z.lxor x 0xffffffff) z).
Definition maj (x y z : Z) : Z := Z.lxor (Z.lxor (Z.land x y) (Z.land x z)) (Z.land y z).
Definition big0 (x : Z) : Z := Z.lxor (Z.lxor (rotr 2 x) (rotr 13 x)) (rotr 22 x).
Definition big1 (x : Z) : Z := Z.lxor (Z.lxor (rotr 6 x) (rotr 11 x)) (rotr 25 x).
Definition small0 (x : Z) : Z := Z.lxor (Z.lxor (rotr 7 x) (rotr 18 x)) (Z.shiftr x 3).
Definition small1 (x : Z) : Z := Z.lxor (Z.lxor (rotr 17 x) (rotr 19 x)) (Z.shiftr x 10).
(** 4.2.2. *)
Definition sha_k : list Z := [
  0x428a2f98; 0x71374491; 0xb5c0fbcf; 0xe9b5dba5; 0x3956c25b; 0x59f111f1; 0x923f82a4; 0xab1c5ed5;
  0xd807aa98; 0x12835b01; 0x243185be; 0x550c7dc3; 0x72be5d74; 0x80deb1fe; 0x9bdc06a7; 0xc19bf174;
  0xe49b69c1; 0xefbe4786; 0xfc19dc6; 0x240ca1cc; 0x2de92c6f; 0x4a7484aa; 0x5cb0a9dc; 0x76f988da;
  0x983e5152; 0xa831c66d; 0xb00327c8; 0xbf597fc7; 0xc6e00bf3; 0xd5a79147; 0x6ca6351; 0x14292967;
  0x27b70a85; 0x2e1b2138; 0x4d2c6dfc; 0x53380d13; 0x650a7354; 0x766a0abb; 0x81c2c92e; 0x92722c85;
  0xa2bfe8a1; 0xa81a664b; 0xc24b8b70; 0xc76c51a3; 0xd192e819; 0xd6990624; 0xf40e3585; 0x106aa070;
  0x19a4c116; 0x1e376c08; 0x2748774c; 0x34b0bcb5; 0x391c0cb3; 0x4ed8aa4a; 0x5b9cca4f; 0x682e6ff3;
  0x748f82ee; 0x78a5636f; 0x84c87814; 0x8cc70208; 0x90befffa; 0xa4506ceb; 0xbef9a3f7; 0xc67178f2].
(** 5.3.3. *)
Definition sha_h0 : list Z := [
  0x6a09e667; 0xbb67ae85; 0x3c6ef372; 0xa54ff53a; 0x510e527f; 0x9b05688c; 0x1f83d9ab; 0x5be0cd19].

(** 5.1.1: the message, one bit 1, zeros, and the length in bits in 8 bytes. *)
Definition sha_pad (m : bytes) : bytes :=
  m ++ 128 :: repeat 0 (Z.to_nat ((55 - Z.of_nat (length m)) mod 64)) ++ rev (Z_le 8 (8 * Z.of_nat (length m) mod 2 ^ 64)).

(** Big-endian words of a block. *)
Fixpoint words (n : nat) (b : bytes) : list Z :=
  match n with O => [] | S n' => le_Z (rev (firstn 4 b)) :: words n' (skipn 4 b) end.

(** 6.2.2, step 1, with the last 16 words kept in a list, the oldest first. *)
Definition next_word (w : list Z) : Z :=
  w32 (small1 (nth 14 w 0) + nth 9 w 0 + small0 (nth 1 w 0) + nth 0 w 0).

(** Step 3: the 64 rounds. *)
Definition round (s : list Z) (k w : Z) : list Z :=
  match s with
  | [a; b; c; d; e; f; g; h] =>
      let t1 := h + big1 e + ch e f g + k + w in
      let t2 := big0 a + maj a b c in
      [w32 (t1 + t2); a; b; c; w32 (d + t1); e; f; g]
  | _ => s
  end.
Fixpoint rounds_loop (ks : list Z) (w : list Z) (s : list Z) : list Z :=
  match ks with
  | [] => s
  | k :: ks' => rounds_loop ks' (tl w ++ [next_word w]) (round s k (hd 0 w))
  end.
(** Step 4. *)
Definition sha_block (h : list Z) (b : bytes) : list Z :=
  map (fun '(x, y) => w32 (x + y)) (combine h (rounds_loop sha_k (words 16 b) h)).
Fixpoint sha_blocks (n : nat) (h : list Z) (b : bytes) : list Z :=
  match n with O => h | S n' => sha_blocks n' (sha_block h (firstn 64 b)) (skipn 64 b) end.
Definition sha2_256 (m : bytes) : bytes :=
  let p := sha_pad m in
  concat (map (fun x => rev (Z_le 4 x)) (sha_blocks (length p / 64) sha_h0 p)).

(** ** The result is 32 bytes *)
Lemma rounds_8 ks : forall w s, length s = 8%nat -> length (rounds_loop ks w s) = 8%nat.
Proof.
  induction ks as [|k ks IH]; intros w s Hs; [exact Hs|]. cbn [rounds_loop]. apply IH.
  do 9 (destruct s as [|? s]; [try discriminate Hs|]); [reflexivity|discriminate Hs].
Qed.
Lemma block_8 h b : length h = 8%nat -> length (sha_block h b) = 8%nat.
Proof. intro Hh. unfold sha_block. rewrite map_length, combine_length, rounds_8 by exact Hh. rewrite Hh. reflexivity. Qed.
Lemma blocks_8 n : forall h b, length h = 8%nat -> length (sha_blocks n h b) = 8%nat.
Proof. induction n as [|n IH]; intros h b Hh; [exact Hh|]. cbn [sha_blocks]. apply IH. now apply block_8. Qed.
Lemma sha2_length m : length (sha2_256 m) = 32%nat.
Proof.
  unfold sha2_256. cbv zeta. set (l := sha_blocks _ _ _).
  assert (L : length l = 8%nat) by (apply blocks_8; reflexivity).
  clearbody l. do 9 (destruct l as [|? l]; [try discriminate L|]); [|discriminate L].
  cbn [map concat]. rewrite !app_length, !rev_length, !Z_le_length. reflexivity.
Qed.
Lemma sha2_bytes m : is_bytes (sha2_256 m).
Proof.
  unfold sha2_256. cbv zeta. set (l := sha_blocks _ _ _). clearbody l.
  induction l as [|x l IH]; [constructor|]. cbn [map concat]. apply Forall_app. split; [|exact IH].
  apply Forall_rev. apply Z_le_bytes.
Qed.
(** Whole blocks are hashed. *)
Lemma pad_blocks m : (length (sha_pad m) mod 64 = 0)%nat.
Proof.
  unfold sha_pad. rewrite app_length. cbn [length]. rewrite app_length, repeat_length, rev_length, Z_le_length.
  set (n := length m). apply Nat2Z.inj. rewrite Nat2Z.inj_mod. rewrite !Nat2Z.inj_add, Nat2Z.inj_succ, Nat2Z.inj_add.
  rewrite Z2Nat.id by (apply Z.mod_pos_bound; lia). change (Z.of_nat 8) with 8. change (Z.of_nat 64) with 64. change (Z.of_nat 0) with 0.
  pose proof (Z.div_mod (55 - Z.of_nat n) 64 ltac:(lia)) as D.
  replace (Z.of_nat n + Z.succ ((55 - Z.of_nat n) mod 64 + 8)) with ((1 - (55 - Z.of_nat n) / 64) * 64) by lia. apply Z.mod_mul. lia.
Qed.

(** FIPS 180-4 examples: "abc", the empty string, and a message of two blocks. *)
Example sha_abc : le_Z (rev (sha2_256 [97; 98; 99])) = 0xba7816bf8f01cfea414140de5dae2223b00361a396177a9cb410ff61f20015ad.
Proof. vm_compute. reflexivity. Qed.
Example sha_empty : le_Z (rev (sha2_256 [])) = 0xe3b0c44298fc1c149afbf4c8996fb92427ae41e4649b934ca495991b7852b855.
Proof. vm_compute. reflexivity. Qed.
Example sha_two_blocks : le_Z (rev (sha2_256 (concat (map (fun i => [97 + i; 98 + i; 99 + i; 100 + i]) [0;1;2;3;4;5;6;7;8;9;10;11;12;13])))) =
  0x248d6a61d20638b8e5c026930c3e6039a33ce45964ff2167f6ecedd419db06c1.
Proof. vm_compute. reflexivity. Qed.
