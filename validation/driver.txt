(* Field arithmetic is zarith; everything else is the extracted model. *)
open Model
module Z = Zalias.ZA
let q = Z.of_string "52435875175126190479447740508185965837690552500527637822603658699938581184513"
let r = Z.of_string "13108968793781547619861935127046491459309155893440570251786403306729687672801"
let ca = Z.sub q (Z.of_int 5)
let cd = Z.of_string "45022363124591815672509500913686876175488063829319466900776701791074614335719"
let o = Obj.repr
let zi (x : Obj.t) : Z.t = Obj.obj x
let md m x = Z.erem x m
let inv m x = if Z.sign x = 0 then Z.zero else Z.invert x m
(* Tonelli-Shanks *)
let qm1 = Z.pred q
let rec split s t = if Z.is_even t then split (s+1) (Z.shift_right t 1) else (s,t)
let (s2, odd) = split 0 qm1
let nonres = Z.of_int 7
let legendre x = Z.powm x (Z.shift_right qm1 1) q
let sqrt x =
  if Z.sign x = 0 then Some Z.zero
  else if not (Z.equal (legendre x) Z.one) then None
  else begin
    let c = ref (Z.powm nonres odd q) and rr = ref (Z.powm x (Z.shift_right (Z.succ odd) 1) q) and t = ref (Z.powm x odd q) and m = ref s2 in
    while not (Z.equal !t Z.one) do
      let i = ref 0 and tt = ref !t in
      while not (Z.equal !tt Z.one) do tt := md q (Z.mul !tt !tt); incr i done;
      let b = ref !c in
      for _ = 1 to !m - !i - 1 do b := md q (Z.mul !b !b) done;
      rr := md q (Z.mul !rr !b); c := md q (Z.mul !b !b); t := md q (Z.mul !t !c); m := !i
    done; Some !rr end
let m2 m f = fun a b -> o (md m (f (zi a) (zi b)))
let base : baseField = {
  qzero = o Z.zero; qone = o Z.one; qadd = m2 q Z.add; qmul = m2 q Z.mul; qsub = m2 q Z.sub;
  qopp = (fun a -> o (md q (Z.neg (zi a)))); qdiv = (fun a b -> o (md q (Z.mul (zi a) (inv q (zi b)))));
  qinv = (fun a -> o (inv q (zi a))); qeqb = (fun a b -> Z.equal (zi a) (zi b));
  q_modulus = q; q_int = zi; q_of = (fun z -> o (md q z));
  q_sqrt = (fun a -> match sqrt (zi a) with Some x -> Some (o x) | None -> None);
  q_is_qr = (fun a -> Z.equal (legendre (zi a)) Z.one);
  coeff_a = o ca; coeff_d = o cd; q_order = 0 }
let frint : frInt = zi
let el (g : Obj.t) : element = Obj.obj g
let ok = function Ok x -> x | Panic -> failwith "panic"
let rec alg : alg = {
  fzero = o Z.zero; fone = o Z.one; fadd = m2 r Z.add; fmul = m2 r Z.mul; fsub = m2 r Z.sub;
  fopp = (fun a -> o (md r (Z.neg (zi a)))); fdiv = (fun a b -> o (md r (Z.mul (zi a) (inv r (zi b)))));
  finv = (fun a -> o (inv r (zi a))); feqb = (fun a b -> Z.equal (zi a) (zi b));
  of_Z = (fun z -> o (md r z));
  gzero = o (element_zero base); gadd = (fun a b -> o (element_add base (el a) (el b)));
  gopp = (fun a -> o (element_neg base (el a)));
  smul = (fun s e -> o (element_mul base alg frint (el e) s));
  geqb = (fun a b -> element_eqb base (el a) (el b)) }
let hex b = String.concat "" (List.map (fun x -> Printf.sprintf "%02x" (Z.to_int x)) b)
let unhex s = List.init (String.length s / 2) (fun i -> Z.of_int (int_of_string ("0x" ^ String.sub s (2*i) 2)))
let zle n z = List.init n (fun i -> Z.logand (Z.shift_right z (8*i)) (Z.of_int 255))
let lez b = List.fold_right (fun x a -> Z.add x (Z.shift_left a 8)) b Z.zero
let ec : eCodec = {
  el_ser = (fun g -> ok (to_bytes base (el g)));
  el_de = (fun b -> match from_bytes base b with Ok (Some e) -> Some (o e) | _ -> None);
  eu_ser = (fun g -> ok (to_bytes_uncompressed base (el g)));
  eu_de = (fun b -> match from_bytes_unchecked_uncompressed base b with Ok e -> Some (o e) | _ -> None);
  sc_ser = (fun x -> zle 32 (zi x));
  sc_de = (fun b -> let z = lez b in if Z.lt z r then Some (o z) else None) }
let codec : codec = {
  pt_ser = (fun g -> ok (serialize_uncompressed base (el g)));
  pt_de = (fun b -> match from_bytes_unchecked_uncompressed base b with Ok e -> Some (o e) | _ -> None);
  fr_ser = (fun x -> zle 32 (zi x));
  fr_de = (fun b -> let z = lez b in if Z.lt z r then Some (o z) else None) }
let lines = let ic = open_in "crs.txt" in let rec go a = try go (input_line ic :: a) with End_of_file -> List.rev a in go []
let (gs, qq) = ok (crs_from_bytes base (List.map unhex lines))
let ga = Array.of_list gs
let par : par = { hash = (fun g -> ok (map_to_scalar_field base alg (el g))); crs = (fun i -> o ga.(Z.to_int i)); crsQ = o qq }
let sha : bytes -> bytes = sha2_256
let str s = List.init (String.length s) (fun i -> Z.of_int (Char.code s.[i]))
let by l = List.map Z.of_int l
let check name got exp = Printf.printf "%s %s\n   %s\n%!" (if got = exp then "ok  " else "FAIL") name got
let fin x = hex (zle 32 (zi x))
let mem = memory_db_ops alg
let rng a b = List.init (b-a+1) (fun i -> a+i)
let () =
  check "sha abc" (hex (sha (str "abc"))) "ba7816bf8f01cfea414140de5dae2223b00361a396177a9cb410ff61f20015ad";
  (* transcript.rs *)
  let fr n = o (md r (Z.of_int n)) in
  let chal tr = fin (fst (challenge_scalar alg ec sha tr (str "simple_challenge"))) in
  let t0 = tr_new (str "simple_protocol") in
  check "transcript 1" (chal t0) "c2aa02607cbdf5595f00ee0dd94a2bbff0bed6a2bf8452ada9011eadb538d003";
  check "transcript 2" (chal (append_scalar alg ec (append_scalar alg ec t0 (str "five") (fr 5)) (str "five again") (fr 5))) "498732b694a8ae1622d4a9347535be589e4aee6999ffc0181d13fe9e4d037b0b";
  let t = append_scalar alg ec t0 (str "-1") (fr (-1)) in let t = domain_sep t (str "separate me") in
  let t = append_scalar alg ec t (str "-1 again") (fr (-1)) in let t = domain_sep t (str "separate me again") in
  let t = append_scalar alg ec t (str "now 1") (fr 1) in
  check "transcript 3" (chal t) "14f59938e9e9b1389e74311a464f45d3d88d8ac96adf1c1129ac466de088d618";
  (* generator: Q of the CRS *)
  check "transcript 4" (chal (append_point alg ec t0 (str "generator") (o qq))) "8c2dafe7c0aabfa9ed542bb2cbf0568399ae794fc44fdfd7dff6cc0e6144921c";
  (* crs.rs: new = default *)
  (match crs_new base sha 2000 256 (str "eth_verkle_oct_2021") with
   | Ok (Some l) -> check "crs new = default" (string_of_bool (List.for_all2 (fun a b -> ok (to_bytes_uncompressed base a) = ok (to_bytes_uncompressed base b)) l gs)) "true"
   | _ -> print_endline "FAIL crs_new");
  (* multiproof.rs *)
  let n = 256 in
  let crs = { crs_n = n; crs_G = List.map o gs; crs_Q = o qq } in
  let pw = ok (precomputed_weights alg n) in
  let poly = List.init n (fun i -> fr (i mod 32 + 1)) in
  let lb = lb_new alg poly in
  let comm = ok (commit_lagrange_poly alg crs lb) in
  check "ipa commitment" (hex (ec.el_ser comm)) "1b9dff8f5ebbac250d291dfe90e36283a227c64b113c37f1bfb9e7a743cdb128";
  let (pf, tr) = ok (open_point_outside_of_domain alg ec sha crs pw (tr_new (str "test")) lb comm (fr 2101)) in
  check "ipa state" (fin (fst (challenge_scalar alg ec sha tr (str "state")))) "0a81881cbfd7d7197a54ebd67ed6a68b5867f3c783706675b34ece43e85e7306";
  let b = ok (evaluate_lagrange_coefficients alg pw n (fr 2101)) in
  let out = inner_product alg poly b in
  check "ipa output" (fin out) "4a353e70b03c89f161de002e8713beec0d740a5e20722fd5bd68b30540a33208";
  ignore (pf);
  check "ipa proof bytes" (hex (ipa_to_bytes alg ec pf)) Vectors.ipa;
  let polyb = List.rev poly in
  let lbb = lb_new alg polyb in
  let commb = ok (commit_lagrange_poly alg crs lbb) in
  let (mp, tr) = ok (mp_open alg ec sha (fun l -> l) crs pw (tr_new (str "test"))
    [ { pq_comm = comm; pq_poly = poly; pq_point = Z.zero; pq_result = fr 1 };
      { pq_comm = commb; pq_poly = polyb; pq_point = Z.zero; pq_result = fr 32 } ]) in
  check "multiproof state" (fin (fst (challenge_scalar alg ec sha tr (str "state")))) "eee8a80357ff74b766eba39db90797d022e8d6dee426ded71234241be504d519";
  check "multiproof bytes" (hex (mp_to_bytes alg ec mp)) Vectors.mp;
  (* trie.rs *)
  let ka = by (rng 1 32) in
  let root h = let db = ok (run_mem alg par h) in fin (ok (root_hash alg mem db)) in
  check "simple_insert" (root [(ka,ka)]) "029b6c4c8af9001f0ac76472766c6579f41eec84a73898da06eb97ebdab80a09";
  check "simple_update" (root [(ka,by (List.init 32 (fun _ -> 0)));(ka,ka)]) "029b6c4c8af9001f0ac76472766c6579f41eec84a73898da06eb97ebdab80a09";
  (* golang_interop.rs *)
  let stem = [245; 110; 100; 66; 36; 244; 87; 100; 144; 207; 224; 222; 20; 36; 164; 83; 34; 18; 82; 155; 254; 55; 71; 19; 216; 78; 125; 126; 142; 146; 114] in
  let z32 = List.init 32 (fun _ -> 0) in
  let vs = [z32; [0; 0; 100; 167; 179; 182; 224; 13] @ List.init 24 (fun _ -> 0); z32;
    [197; 210; 70; 1; 134; 247; 35; 60; 146; 126; 125; 178; 220; 199; 3; 192; 229; 0; 182; 83; 202; 130; 39; 59; 123; 250; 216; 4; 93; 133; 164; 112]; z32] in
  let h = List.mapi (fun i v -> (by (stem @ [i]), by v)) vs in
  let db = ok (run_mem alg par h) in
  check "golang_interop" (hex (ec.el_ser (ok (root_commitment alg mem db)))) "10ed89d89047bb168baa4e69b8607e260049e928ddbcb2fdd23ea0f4182b1f8a";
  (* proof.rs: created proofs are accepted *)
  let keys = List.init 4 (fun i -> by (i :: List.init 31 (fun _ -> 0))) in
  let db = ok (run_mem alg par (List.map (fun k -> (k,k)) keys)) in
  let p = (match ok (create_verkle_proof alg ec sha par mem (fun l -> l) db keys) with Some p -> p | None -> failwith "no proof") in
  let rc = ok (root_commitment alg mem db) in
  check "basic_proof_true" (string_of_bool (fst (ok (proof_check alg ec sha par p keys (List.map (fun k -> Some k) keys) rc)))) "true"

let time n f = let t=Sys.time() in let r=f() in Printf.printf "  [%s %.1fs]\n%!" n (Sys.time()-.t); r
let wn : wnaf = { wn_table = (fun _ p -> [p]); wn_mul = (fun _ t s -> match t with [p] -> Some (alg.smul s p) | _ -> None) }
let fok = function Ok (FOk x) -> x | _ -> failwith "ferr"
let fr n = o (md r (Z.of_int n))
let id l = l
let k0 f = by (List.init 32 f)
let root db = fin (ok (root_hash alg mem db))
let stateless name ins keys values upd after =
  let db = ok (run_mem alg par ins) in
  let rc = ok (root_commitment alg mem db) in
  let p = (match ok (create_verkle_proof alg ec sha par mem id db keys) with Some p -> p | None -> failwith "np") in
  let pb = proof_write alg ec p in
  let p = (match ok (proof_read alg ec pb) with Some p -> p | None -> failwith "read") in
  check (name ^ " write(read)") (string_of_bool (proof_write alg ec p = pb)) "true";
  (match ok (verify_and_update alg par id sha ec p rc keys values upd) with
   | VOk g -> check name (fin (par.hash g)) (root (ok (run_mem alg par (ins @ after))))
   | _ -> print_endline ("FAIL " ^ name))
let () =
  let keys = [k0 (fun _ -> 0); k0 (fun i -> if i = 0 then 1 else 0)] in
  let sk = List.map (fun k -> Some k) keys and kk = List.map (fun k -> (k,k)) in
  stateless "basic_update" (kk keys) keys sk [Some (k0 (fun _ -> 0)); None] [List.hd keys, k0 (fun _ -> 0)];
  let a = k0 (fun _ -> 0) and b = k0 (fun _ -> 1) and c = k0 (fun i -> if i = 3 then 1 else 0) in
  stateless "basic_update_using_subtree" (kk [a;b]) [a;b;c] [Some a; Some b; None] [None;None;Some c] (kk [c]);
  let more = List.init 30 (fun j -> k0 (fun i -> if i = j+1 then 1 else 0)) in
  stateless "basic_update3" (kk [a;b]) (a::b::more) (Some a::Some b::List.map (fun _ -> None) more) (None::None::List.map (fun k -> Some k) more) (kk more);
  let js : json = (fun _ -> Some Data2.ew) in
  check "exec_witness_works" (string_of_bool (ok (verify_execution_witness alg ec par sha js Data2.root []))) "true";
  check "add_commitment_fixed" (hex (ok (add_commitment alg ec (unhex "0ff070a99e9f38e4f1ec1db91795ef4942fcd188152562c2773d9125236a50444687ab68507977d6276428d7d570a3c95efa406427f6641ba1e247133d17e030") (unhex "333e05d05e6533e993f519c23dbce6205fb9e0b78f38b3336d9c4296f144cb0204c389bb5e6925157ce16eda2ebf45640956be98e2be2df77a86f0bca135da21")))) "8b5feb2eb0cc73a8ca2f24ae7b2c61e88ff0b019dea9b881d1b5f7815280b6393834cb80ab2c09984c5b9f70be680206a6e12c8bbb169fe5ab672f45c5d51e20";
  let cx = time "context" (fun () -> ok (context_new alg par wn)) in
  let cm = cx.cx_committer in
  let h64 b = hash64 alg ec par frint wn Whole cm b in
  check "hash64 zeroes" (hex (ok (h64 (by (List.init 64 (fun _ -> 0)))))) "1a100684fd68185060405f3f160e4bb6e034194336b547bdae323f888d533207";
  check "hash64 ones" (hex (ok (h64 (by (List.init 64 (fun _ -> 1)))))) "3afb8486ed3053ac55f62864da803c074844509d253260d870337c20fd73eb11";
  let addr = by (List.init 32 (fun i -> i+1)) and ti = by (List.rev (List.init 32 (fun i -> i+33))) in
  let exph = "ff7e3916badeb510dfcdad458726273319280742e553d8d229bd676428147300" in
  check "get_tree_key" (hex (ok (get_tree_key alg ec par frint wn Whole cx addr ti Z.zero))) exph;
  (match List.map (zle 32) (chunk64 (addr @ ti)) with
   | [m;l;h;tl;th] ->
     let z = by (List.init 32 (fun _ -> 0)) in
     let p1 = fok (commit_to_scalars alg ec frint wn Whole cx (List.concat [m;l;h])) in
     let p2 = fok (commit_to_scalars alg ec frint wn Whole cx (List.concat [z;z;z;tl;th])) in
     let h = ok (hash_commitment_ alg ec par (ok (add_commitment alg ec p1 p2))) in
     check "add_commitment_equivalence" (String.sub (hex h) 0 62 ^ "00") exph
   | _ -> print_endline "FAIL chunk64");
  let fb x = zle 32 (zi x) in
  let cl v = ok (commit_lagrange alg frint wn Whole cm v) in
  check "commitment_update" (hex (fok (update_commitment alg ec frint wn cx (ec.eu_ser (cl [fr 123; fr 123])) Z.zero (fb (fr 123)) (fb (fr 456))))) (hex (ec.eu_ser (cl [fr 456; fr 123])));
  let c0 = ok (committer_scalar_mul alg frint wn cm (fr 123) 0) in
  check "sparse_update" (hex (fok (update_commitment_sparse alg ec frint wn cx (ec.eu_ser c0) [1;2] [fb (fr 0); fb (fr 0)] [fb (fr 123); fb (fr 246)]))) (hex (ec.eu_ser (cl [fr 123; fr 123; fr 246])));
  let vals = List.init 256 (fun i -> fr [|123;123;456;789|].(i mod 4)) in
  let cb = ec.el_ser (cl vals) in
  let pq = cb @ List.concat_map fb vals @ [Z.of_int 2] @ fb (fr 456) and vq = cb @ [Z.of_int 2] @ fb (fr 456) in
  let rep n l = List.concat (List.init n (fun _ -> l)) in
  List.iter (fun n ->
    let pf = fok (ffi_create_proof alg ec sha id cx (rep n pq)) in
    check (Printf.sprintf "ffi create/verify %d" n) (match ffi_verify_proof alg ec sha cx (pf @ rep n vq) with Ok (FOk _) -> "true" | _ -> "false") "true";
    check (Printf.sprintf "ffi create/verify %d false" n) (match ffi_verify_proof alg ec sha cx (pf @ rep n (cb @ [Z.of_int 2] @ fb (fr 457))) with Ok (FOk _) -> "true" | _ -> "false") "false") [1; 100];
  (* devnet6 genesis *)
  let kvs = List.concat_map (fun (a,bal,nonce,code,kec,st) ->
    let a = addr20_to_addr32 (unhex a) in
    let h = ok (header_new h64 a) in
    let v s = zle 32 (Z.of_string s) in
    [h.hd_version, v "0"; h.hd_balance, v bal; h.hd_nonce, v nonce; h.hd_code_keccak, unhex kec] @
    (match code with None -> [] | Some c ->
      let c = unhex c in
      (h.hd_code_size, zle 32 (Z.of_int (List.length c))) ::
      List.mapi (fun i ch -> (ok (code_chunk_key h64 a (Z.of_int i)), ch)) (ok (chunkify_code true c))) @
    List.map (fun (k,x) -> (ok (storage_slot_key h64 a (Z.of_string k)), unhex x)) st) Data2.accounts in
  let db = time "genesis" (fun () -> ok (run_mem alg par kvs)) in
  Printf.printf "  %d pairs\n" (List.length kvs);
  check "devnet6 genesis" (hex (ec.el_ser (ok (root_commitment alg mem db)))) "1fbf85345a3cbba9a6d44f991b721e55620a22397c2a93ee8d5011136ac300ee"
let () =
  let k n = k0 (fun i -> if i = n then 1 else 0) in
  let r l = root (ok (run_mem alg par (List.map (fun k -> (k,k)) l))) in
  check "insert_longest_path" (r [k 99; k 30]) "fe2e17833b90719eddcad493c352ccd491730643ecee39060c7c1fff5fcc621a";
  check "insert_and_traverse_longest_path" (r [k 99; k 30; k 29]) "74ff8821eca20188de49340124f249dac94404efdb3838bb6b4d298e483cc20e";
  let rnd = List.init 5000 (fun i -> sha (zle 8 (Z.of_int i) @ by (List.init 32 (fun _ -> 0)))) in
  let rec take n l = if n = 0 then [] else List.hd l :: take (n-1) (List.tl l) in
  List.iter (fun (n,e) -> time "run" (fun () -> check (Printf.sprintf "trie_fuzzer %d" n) (r (take n rnd)) e))
   [100,"afb01df826bd42ddea9001551980f7cfa74f0ca7e0ba36a9079dea4062848600";200,"4cd6573f3602df0a1438c894e2f0f465e16537c4474e3ab35ee74d5b3afe180f";
    300,"1da1675938ba4ad2545fd163dc2053212cd75b54fc44e70f11fd20b05363650b";400,"bdad99347763dc06765e329da53ae85333a9d89fa9e06ef3fccf30c8c89cb804";
    500,"cf0b7ea967a755f6c09762aa4a650899bb79d21ef56f1fe6672621149e639905";1000,"c94ef4103861b4788602e503f70ad1f47779d6b8b367532d7b4748c401f7391c";
    2000,"4284fb75185662925ae4b45143184147db4fd297db1912a6ca17ee3040d21104";3000,"447fa30818141f6034b99a2ece305de601e4af3b635ad216e2a0248a7039240c";
    4000,"9647ad8f43a64a08fd1d56af5765d9d9e265eb9be703eeb80c2117242c358305";5000,"26ed4b641a6a974f09b1b012784580d96cfbbd99f0eed9db541a89f9f2883201"];
  check "generator hash" (fin (par.hash (o qq))) "d1e7de2aaea9603d5bc6c208d319596376556ecd8336671ba7670c2139772d14";
  let exp = ["4a2c7486fd924882bf02c6908de395122843e3e05264d7991e18e7985dad51e9";"43aa74ef706605705989e8fd38df46873b7eae5921fbed115ac9d937399ce4d5";"5e5f550494159f38aa54d2ed7f11a7e93e4968617990445cc93ac8e59808c126";"0e7e3748db7c5c999a7bcd93d71d671f1f40090423792266f94cb27ca43fce5c";"14ddaa48820cb6523b9ae5fe9fe257cbbd1f3d598a28e670a40da5d1159d864a";"6989d1c82b2d05c74b62fb0fbdf8843adae62ff720d370e209a7b84e14548a7d"] in
  ignore (List.fold_left (fun p e -> check "element vector" (hex (ec.el_ser p)) e; alg.gadd p p) (o qq) exp);
  (match crs_new base sha 2000 256 (str "eth_verkle_oct_2021") with
   | Ok (Some l) -> check "crs_consistency" (hex (sha (List.concat_map (fun e -> ok (to_bytes base e)) l))) "1fcaea10bf24f750200e06fa473c76ff0468007291fa548e2d99f09ba9256fdb"
   | _ -> print_endline "FAIL crs_new")
