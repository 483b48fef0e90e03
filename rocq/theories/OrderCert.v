(** The point (1, y) of the curve has prime order; generated certificate for [CurveOrder]. *)
From Coq Require Import Znumtheory.
From Verif Require Import Base CurveOrder.
Local Open Scope Z_scope.
Local Notation q := 52435875175126190479447740508185965837690552500527637822603658699938581184513 (only parsing).
Local Notation d := 45022363124591815672509500913686876175488063829319466900776701791074614335719 (only parsing).
Local Notation gy := 29444372158152439327021315519158409074387678020310801243647405691648150455777 (only parsing).
Local Notation run := (chain q (-5) d 1 gy).

Lemma chain_0 : run (1, 1, 29444372158152439327021315519158409074387678020310801243647405691648150455777) [
  Dbl 0xa3747650adc353678d5cdbe95e2c7eb7ea514b1eafe88fe0b8807c203e7997a 0x41b32344ff6e0c56889b9e35beddacec24efeeaf8cc8521da696c86f991e9e7f 0x248ddf51bd0fc0ff819a656de15e9fedc8c803f5c4ede62c89437ea96945c637 0x3210240c8721629dccd8843a67304f595f41008335ede6616d37a11721afaa0 (-0x38ad3ed73cacf12afa4fc6ab1505754d8cc7281d8a38c3faa71269b8fb2361c3);
  Dbl 0x451eed986fd26f41b47e9fc01970af5be22f695b2c44559e294a11886df6542 0x301d4c6081935f9984fddc1965aed63f5353f7b965adf4daffbb067927c70d32 0x20bb894e050567b6cbca5483828d7947de76b1a9f0ed34052528f15a019882e6 (-0x9f10260f5bcd3e784be265e706f98440fed5430d8863db3e5562c8a3c656f7e) (-0x3bfa08b761f58f3b990ccf9558b66c575b5f4c46a848ccd02703811ab63aa06f);
  Dbl 0x46044ce111bde15b55efbc0f042349d15a9e24cdb2312d564a6a7e62af78f738 0x51a5fe69fb74f84182b540dab8e4162cb87807f66727ac4c1e0904f6a1c109b 0x132a0fcb10e4a2b6ff4e2683bbc9afa37416bdfda2cca96adfffa10abf9ddf2f 0x1669248e552ef0db9b6cc03c47c9b3c35f8cc1ea18bee2ce4a7b1f9c18cc6970 (-0x16ab3b6d4cc94eb2a90de60eaddf0d018e3f09d2f67449b4eed74714e6ce9abd);
  Minus 0x4d06764fc117709acd81410c970a4ee5e16cc4066bcea1fbbafd12ba3ac458b5 0x169bc5ae239e3845360c9eddc0b1a0c548b3aa2ac7741b40ec5b74071f7b0c9 0x0 0x27510d1c39f36f34624235f1b4640c8dc7894e4b44d5ee8b725fe2ae1074e272 (-0x5efe338b1cfd0cd49ec3a9ace6452ae10c4e3f824f1c24c7e54ed5b180fad9) 0x21c4fedacf3a4538b7b7ed7c871a6cf645d8d6d4c22fa35e6ad51b3e900b49b6 0x2e698a38f563ce138bf6c4eb77cb2ff6af3c26992dccf0f56046273e5eae7bf1 (-0x3b7897fcf7d1f3faa666991efaa4bfd43b7c1e966b45e92d3c3938ba4a5de1d);
  Dbl 0x3f5778c6572745246d6f47128e0c0fc381669ab6848f253f57bae40406c72b17 0x55da2378db7600fd9b2c45c74892829b855d67baf99c0c30624c8aa58dac6b8a (-0xffde697cc82d1fe2e6c250a65d5bcc26a03160c8361406b6d29f1232a4a33f11) 0x33f88b5ccc77f70e05079ab4a8c3740c48e136f0c3dc5312752f8a4f57a85639 (-0x148e378bc5d38e338ff185c13d50acd64a0e6c00cecee157c6b759d9ed84df24c);
  Dbl 0x4ab787e1602355ba0c4c95c93f98600fbd56a61a613c2e0806a4ae2963519238 0x1c87d4ec607add201e515b239f8a5cbf688c2c448c1356be35e917976353ec61 (-0x6d7768ea99257ffd5b3360f3e2dc8c726f3716759756bec1982e55811b535d80) (-0x39d1b08763ee74eb456239d87042a2d34f235141b0f789bb4271616140f5f984) (-0xfa5ea82f0bb20999a37891313282f29b2718777508884ea69b7ead7467da7b26);
  Plus 0xda15bad6512a87e878695daf8c89cf585da551b78b59c9fba99cc68f872f104 0x3a50308c6267ee902e470e9d6ea977ffc716f9ddaf691fd05c7bdecefd46602d 0x0 0x29f4b3d61a1491fe0e16a64c885148fb34ac8ceb6de6a0787111b0ac789dcb3c 0x11eb898854cc6927ea4e2c130bc703e92d68053adf1affff3f854c447d6a6951 0x33f9edf9ae7bf012e802d1c91d3383a505fb24606501554b37d61fcc2ffd5094 0x3dd7a916d641fbf89762f67fdc8421a18fef7f3457ecd133ac44f21fe46a28b (-0x208e857f6cbfc4fba3f07dfeed98ab729c98d919b44176261ce94f71bb30a831);
  Dbl 0x4bd03cc4824d8c3908b29177f7a9163756a5cf6b8dd02c6f2aa1963e2c087165 0x5eb3b670346b5921a1a2765ef5ba16df847c37cbeefcc7147d2d5908fbbd71d6 0x1551bbf5eedeb03058d5b74782e7f84660c489f89694747d87286025ce208efe 0x3b0d96ab205b468193d034543e9e0c52bc622d68dad58719e1242909fd93bcbf (-0x803d63ba9d9c58cc24c8b0a68c018d4191e696418d3774673a9cfe81c885d91f);
  Dbl 0x4b194f743f8dc37951ccdcb08ac4719611daa9b1ff8900bde59d53aacce6af66 0x24f32170fb5dff2c1885480f35cd5318ef01676e69eeebcb2580d4c414dd849d (-0xaa891ddf08c4ba5c296bdf66934aa5f1cecd4dbf1317dcdc55b7bcae52612af9) (-0x5d40bac136c0eda0f57522ef88403a1e83bd398cd5f4db562185dc8c0199ff1c) (-0x1545239c544ef2b0a84479bcc9b76a5a0412d4afcec51ea31c9d1307a710b8107);
  Dbl 0x2a9fc6043ca707fa72487349aff69214e37aaec768f3a29a0dcdb658e30568e8 0x6262a2d79144d59638548c7944d74cc4953220a2db1799aae1f3d7846871a99f (-0xe7784a2c97bd04500f608978713dba1b499639a53ec9fe7f662f07e36ac0c4cb) (-0xc16c2afec0be92d6ca4c621c17c0713a3132f5965c1c70af45e4e8e393f401c) (-0x1519e957bcae4cd5dfadef9a1ca987084ad1c3c9b6185d4c99d65cb8e0a21925f);
  Dbl 0x3cc68e89e7dfe26d5a7f0856e298cb7a9d2e753a68d0ea671de31f31fda3bd3f 0x40e940b19b9e13ee9b10c87cc9faeb4b860872b2184e5073c04856ac0895ab6d 0x523383b3d08615d4251c37afe565f2c1bc1c69298e24d421613144be165f7fb (-0x146f325767c5d1fcc38fac9517ec57bf62654a94bc4f5b149b308caa96b60e36) (-0xd94d6d480d62eca4033ee001e71676ddcbd3351a846d899538cf2ff7e6f7c935);
  Dbl 0x3a5e30967a4611598483df530c692acfd21fd7c407a2074f3f716e8c64e04d19 0x5783d7799c148e96ab754788cc1c56c47cc7e6c0c00a9cfed2941638c148448c (-0x7af694301288508394a23cc29dd733e42ba73c8c32a09a84c478fabfb3b45efb) (-0x407d641e637e9cec2f9f6e689c0fbe114e4d8a418c49bfa2150fd9ff09ee81df) (-0xc90199871a4ec54a1ac6240f722d5d8682cb1ff2fede5ec57cf1fc93a7d4d8ca);
  Dbl 0x4185dbf3c21a9f685481de624b1bec6382a3563de4ac62f4cea86dbd182271f8 0x6c54fb1630d8876f6aabadd0c11dc50d8609a9fb6141c1f15f612e9d73881ced (-0x50dee29e661e46775b01dcbf53f38be443c2ecf343582a2525326c7c0db1eff4) (-0x467952ab9f024726aaaff88ee53743d7cdcc9f4175727b13164374bf4d7f5fd0) (-0xf22f3f54d2a27cbc051b1d92372066ee9ba3c32bca78102b04aa6c6a9f66a40e);
  Minus 0x592e8e6ac3bbb805cacba5e7fcb2aa1fde05a799b0b0f8e595b06eeff1687cc2 0x2d46a7b97f54fd068678c8da9ee32d5ebd9e07aa013076520abd29fd2fdac7a6 0x0 0x24cb0af4dc5d2e261ede4455d839d735edb356d8c493f8eba7a6e7f7f2abafb8 (-0x667977f56fff6096a701225900eba1c53e7ff75eaa7f847301e6d7b535960560) 0x4b2724fbe672b09b3819809fc4bba3a6dd9278522897e5b81b7e207bf4a078fd 0x3f71753490ff50b2437238f8975614f58309fe578f6263cd658e973fc68cb675 (-0x5d0a6ba4bb4b34b3fea4dc8cab5ea13de6f3f38a16e629ced2eee927b4ff4401);
  Dbl 0x9b65a21a51138bcc8856dbd61f5435865c51cd3345493690330bbbcaadf7105 0x515cea64a7aab97a38eda48bf86777142271c7f755ad77a56cb31f17f1c116e2 (-0x1455934df8eb1b439eb96f316ff1cf5e9788ef5062ef91641277496824c775719) (-0x3eac1ea32a8367fd7676ca247a982bdd9d2df670232ba070249c467e3c31684b) (-0x1a340dd2529f384c3a57c1a538678025f7ad8504cfbbdbb53ecbaacd689e0aa26);
  Dbl 0x3d7f941c0b5a76fac0fb0db297805c8211850f8c9c95dd2a1999fa4c90862e4f 0x61e4b9f0c4264e5f4b78fda648e9421778c9eb51ca6c5bfaf8a2a61ee3ca2e35 0x350904372106358577f032e8ef82b8f3484564db2e5ea24a7fd98d3d30e762c1 0x1f0ec1610aec6e1aa1b74002bd1a664fef8a37ac2bb0d2fee1ef30aaaba036c6 (-0x844f915c89a0735f7194990035b6663a25c87cc310146f2d5b9c5f34814caa15);
  Dbl 0x66e458185dfe8bb08a054a97e3f64f934de8e03e10621fafcb425a368d9cb264 0x288d61328abaa40fd061b7bb1b07f9cb1b196c2e4cbaaa379b3b300ee809a986 (-0x5074afb6dab1d5dc67f58bb46ea54f65a06f78cf1413f5fd28e24c2738cea222) (-0x1c9497736c4c87356f5441538a32ae7bff42ed4021b1a89211b3ca7e6ee2a39e) (-0x1137469589cd04ff650f5461d5f9f93da202b180f4b1ef35cf18c557a48d43616);
  Minus 0x6ca52a54ab4643fa7c2d70dba8c533b8ccdc7beb9224d79bc2473e9aba1c92c5 0x4d0dd023f5cd9f8babdf74c2dffa2892621bb2b8ecc06e9e4832d3ba603f6ef9 0x0 0x39c6ebd06c80aa2b2cb7a014996aea34c855a95dcecc6039ca06f6c9070c5c83 (-0x26e40fb635a64ab11db847fa9427289dadcfddd28cb76cfc59b5a3a3e78e6cb2) 0x55144316c5103b8257450759666eaaa6b71ed2f3043fd77e73d4c836fd848825 0x5f59a03fb7a428a55913e87c1069558279f7cbce259e6c7f60567a5952a56235 (-0x5a6566ff3c396803c8dc3cfedfcedbd4340f29582e960ad4d08f0ed7d0db6f30);
  Dbl 0x4b3fb004024a8e3186f228b6bf0cc0c344433db396037cd67555448b0f1cb8cb 0x6a2ef4c3f7663ca2c5159054eb4f4ae9a665e967356fc64a57fedb7fff2f7e4f (-0x1c9e1ee2cc3f9418ade47629092770785a7cd44264545d9a837234547379649a2) (-0x7e751d1b5238bf4bece353af617dc6077ab3373e7d7cc462e04cfbd594b87688) (-0x249ab382d013f517af443a6619497670d1925fdee2702027def1015c8f824549a);
  Dbl 0x4a279c6bf0fbfb1c15b0da818ca26816e6601334e99af7e9a590cbf049f2364d 0x6149022eddf042b48fc7dae3a61d2ef03a08552fc883c8fbb2429d8c37082b3b (-0x92f6159b753e9a8355a17702e483037140b9fc61d048f2fd50c0df6f498185ea) (-0x4e7945bded164019b81d08fa96bc2740edfb1cef165acd3a3daf7aab16e20334) (-0x1a35e8f6291201b362d8da707d2d3b84fecf282e8ba94bd9c1b8b55fa46eaad22)] = Some (59356, 33541137413211071370714480097420156401872401985608774348397481134490247116365, 44003341215328755921834165872909974038844525251861443232077350843390691388219).
Proof. vm_compute. reflexivity. Qed.
Lemma chain_1 : run (59356, 33541137413211071370714480097420156401872401985608774348397481134490247116365, 44003341215328755921834165872909974038844525251861443232077350843390691388219) [
  Minus 0x718b697ea2051e3401f787a8648c462e7e6df8fe93a982a3db95956154399870 0x5510fae686478168f2f91ab812d4c6e280cc020905923cafba9c7c2233f64804 0x0 0x29a3e31716c1cc48e464fda35fe95900341d4333f4367ea2f8027fd7c93d41bf (-0x9f043e848dfea65c0829034c0e946f8fc8f66524794b9d58946e4544b53a29e) 0x61cbbb473edf4ae8db3cf7d427ebcb4478615157c1211a5548025914b9f79bd6 0x585808f7e225969535b8afdbeaf0c2e935d46133ca0b708562966841798d5d5d (-0x78d09dbdc761957ae01d960f559385b52532f53aa989de0093d8c96a79840e6e);
  Dbl 0x61cc66c668cc44fadc220f8d283468994277855eb8c5cbef3af562322e0d70ec 0x7850e9d19825ac1ef2a501d7ffaad1d7f08276b2a09ccebef6d5ee53d7d8646 (-0x1eda0ffa0a9cf928f6bc699f08458a4d458ff83567a2552c8020ab81814c405f6) (-0x6cdddc44de04f6bac549ab42b7808b6909e0a0bca67347e010f1c24f0b7071f8) (-0x26ee94821f76bc3711a12c743191fe8070204f0d14817570ab7a64c4f90867428);
  Dbl 0x69fee058c89473d978a29dc1ee1f8c4772619c7241a993403deecddd2208b623 0x2fc8cfc570acb13bbf3527c2aa84130dc30c10b1bea573726dc8487ebb71c32c (-0x19c08135abeeabf64b3f6843fd382a84213d66250ea8a45b084a39bbf1ce87bca) 0xee9ac61bacfe4562a831e4709d5ffd22321b9c553fe3395cdfa1b42d960ac0a (-0x1a97320944591faddadeb8e48fbac39c09e6fbd47ff6d5b894ded1569cee467c4);
  Plus 0x2706ffd2d7cd7e5f73d23a684cebc2f9c98c7e185e4cd8f66ff7700c3db858e5 0xf0248b91e384eea25d8b0c11134be8bf25d152409476ee980bb842b42a60367 0x0 0x3b85135f1819ca88ab9d4086bb0fe4f1fee541c60af42c13e5db41452ab813b3 0xbc495025a8932fca2dd3afe3f199cefbe3f5afc9e68a021140be03b8c4954e8 0x4e142524cf50448840004ad5e0efbc25d8784469937435d52833cd995bb46829 0x20127175246f69e8ba4e7e9980db42cedf866f84215a38b6f6f5e340c0013184 (-0x272aa18e4bcab43581ac2fd64971c5000c8768c593b9948b7a9ebbc82469bdcd);
  Dbl 0x2f71b7ecbd6d0f512f7ab0709b7efcf3e86acc6dae942dadf63d026afb9201c 0x5f0d055834436ec317bc1115cf89cbed39a2e9f63af7e968470f1a8f252079a2 (-0x3fbfedbb8a14aed8112aff00f000a0ef1e9fc51848fdba7070fc34bbef0e40cc) (-0x932c04f849a70902d0c215fa9b2f9c4be6dc89bc4c64084ca409bb4bdaef646) (-0x60b7f8b700f5352b86374900f043572b8846794a5161b03a526508a1761d986a);
  Dbl 0x4e5fb0ac352ad3279b6798c3073cc6922aceb05d2e19b2b27cb70754d61f7a95 0x3b09c01a1c5d3b262c1215ca34b2ffb9532a958cd555eb3270d90fad65f3d1bb 0x4d8dd0fcd30b0bb4a1f9c4625e19ac9cbf7ddbf27ee5d59d89133ae372074d53 0x9165a2e3dceda14020a7f209f0e251af904240d37c2c8888e2101fdb9f7d285 (-0x58d217c0e1a7837df3bb1dd131c6b835d17db5317055fc6d4009e966d11f2ab9);
  Plus 0x67602206702a37fba0b1b8f6ca68d0b6bb08c0d08db98c9358dab116c62c62f9 0x3ce426e4cf82120611ebc30ccf8e0e248fef6621a2ee7a054421ffe909b028e 0x0 0x2c0262912c36f4721d51f4ddd345f344699f9f24469124e1b3d94afef736b858 0x20492715916a3afb8806205f843f6641354b944680e5d7a38667b5b4e864c5d3 0x5de962619ee67e7da61c78645f51c720bf8c060c66d90f72cace383cf644dcda 0x53fb06fb4f7795ec238d1b894f7374883d7bf7acd9cf8d1864c34da41d025fb (-0x21584ea40009c10cfb2804fe3b4d09b8b636316802c507a549327f30826abf02);
  Dbl 0x67727c66a4c284e3f82ee1fec2ee1e3af223bb86c4749b51cb9146ef13a5d4cc 0x379fba559765f6b741e1e48e391e52deca32e639c0593e00e9467ec5decfa576 (-0x1ccc8e42c9eb38039f02b5a46fa072e93dafdc1166dc2ccf848d1c0f4dadd0057) 0x3f714ed0bb7b1986fb6f28e43e47d8a120fb807ffda9656d0a1694ad1503060c (-0x1f2cc24e1a59dae0c7f398b79647ccb6fd71ee86f308be65135b11ec902b3ca51);
  Dbl 0x20b81388fb29c7053da5470fb440249ab21e8f4970042e39dfb4d4d6f9269c73 0x35e64f53a948383bc4373605138df94d9acb69ed1c3e580b8409651c953d9cc6 (-0x1b2dc2e20db9cda54d8a37c8ea7742170fbed39329ade3f9bf3fba3ff869919ed) (-0x526d91db39129e4db4879d31050f6445c75f7ec986d903c02bd647cff81f211d) (-0x203fbe5c78853f9b6e7e7ed65a28c3ceeb426aee6a67d33a0283c8413fd811f6e);
  Dbl 0x62a00c0f12b95bf51465c0ef11291c009c1791d3ed67ef81faad096dc818fa3f 0x54dab9cef0e03bb57e5a431d288e5ef9431b97953517f7fb647b94505c7c0f83 (-0x151cbcb47ee6e952b71158d5cf6b29d8b2ba75aa834d46c6b2e73c794ecf6402) 0xd074324dbc70d7c63fc07fed22fbdabee0671754947fadc0d5ddc34760f383 (-0x621c0de7d8a746d656d59925e71805e4c877463b8759afe24d4c15670ef24076);
  Minus 0x58909ee13c010252e4c3ba60dbdd4c2b844c277161458da8f2a4d12098370a3c 0x40e97a9b698139baf53014f59d586ffe7cf0bd3d04b571ddf1da45fbc1670014 0x0 0x37618ffd1c714457a075f6cfcb6ac68d804c120354add6c715e3a0881e108079 (-0x468b46eee0ed8d27a938b6aef3bc8d2f643eb803f1e6cebc16edb4bf7f780480) 0x58c291f9b6ccf1aeea143d9bf22e5d0d2ccfa487e21c31ae4d6dd844dc144e52 0x20ee6b088a0b5f8c7a70dc1494daf0935e279762d613c8a6d253649983e16f99 (-0x47c8e78b640bf8d2a2938082ae64e231a6aaa14b58590f26cf2482ba4a4d1914);
  Dbl 0x6f8580c1ee34e888446ac4cc42794cc5d5fab1d815b73359453dfd2714806234 0x44803152a87b4b932dd43935211300bde278ff7a5659817034e62aa2c9b5e71e (-0x12df484d61578dd85a71b33facd8634f1e260e3b1975e45342e7f00077909b879) 0xba054a0fc39e95e77e0e22db917b83f8ff156ca158329cc5fff67bba263fa34 (-0x1bab5b19739ca4745db6a76963b9309ebf6cbd84d278967b863c16c52ad2d4852);
  Dbl 0x4b27ec8e7fad9d4ae26a5455fac145798a88b2d8339e3e1f32486978d45aaae1 0x44f1fa837d0692d22690baa309905e52f0cd60ffb65f3e7e056e3681fe59f823 (-0x1efef3f1f92bbf8587ed7996f4ed9039e7a5d48c783823cd52fdf0a2eaacb4f57) (-0x6e6baa2574d19f08842cf7c94497f1463f247c52b845899ecd47098097709285) (-0x2547e787a66d1e3b36709ee5bd0ed787d5222c2a06687c90792ac11268ff7fb8f);
  Plus 0x4231d37854fd867e87fc9ceb140e9c3f945888e1bfa127e2a0ca890aa06aede 0x530b82a0cce0b2bfbac693292f0603c1a8d5df6f80d2a4bdb5bd4e85ee632c77 0x0 0x2a33d09667198650a0f4961c1450db847111cafff5ca719d3f0aeb74c0e4fc0a 0x118406e27b7d7dbc602926c42b85527d9a1ef3f6607f1fad3c8a4511baf8363c 0x98300b8b339ff82969c911f9380017cec077f7dcae67f6bee147aed78bf2089 0xeccb7ea78ff2691b9f8d38409166b2ab3f74f816964d0e8f4405491680b798 (-0x39482ced7153769cd82434a71751332098aacf9a0237bd2df940c574784d412b);
  Dbl 0x4804540f9f970f90d1f46f35b50c39bd810326559959c1964abd56098cfc8cf9 0x4ef262ef400aeb86222adb19e4ea1fd43cf3467ef6245f5ba12d0b109f4187af 0x3ac035efab5ceca74faf2c0c404d2a391b1bdf0197e212f22bcdbdc5b7fdddd4 (-0x23986d4b6bae9c6789f66812b0cb6b0159b3414e38b7d69482d42d9f10adc3) (-0x42928f024c31fd74ebfdf4b1702c051ff7dd2eff2f8120eceebd66e45c29c2ce);
  Dbl 0x312db509b3426e87c0104cc12119cbca0fe5a133b610a94dc31e122f88fa73ba 0x5c2441c564e5745d63dc70dac25386885d8f5d0dbe345c669fb2b8777c819da8 (-0xa9edcc52abc4f2dcea7dc15b61971e5a239843cb20b604918e162b56100db5fd) (-0x5feacfae4b1f7be62ac502f1da51c7f9e36369aac1452830e9af533e5e01bca4) (-0x11984b971965386d1d5091bb393363e7a0369371cbc440f74be36781e597a352e);
  Plus 0x3b0bec41e38eaec0eaaeef7981b6a3b5d08e299cc9eb7a4d606084f160ae407f 0x96ef2b94f7b88bf459eee707045aed53302824063a21e8424f9e40bd5832bab 0x0 0x1b9d82f2e53bca4cee4b64a4eddd559157eeb88bb385f372b034049af256efa0 0x3e0ca457ac652774fc0265e8ab1bf8e727875d65912e31494f95e21bb4270164 0x63202895f0d7f61485d14eb827c608b234a108ebc731158f782afe5767748aa8 0x1d80caa5ecd009385a078273929396f7d26d5d3f8a6e0a6204c520cb6fd6b671 (-0x38742fd584b8d6c2ea125932e4e0045cb305a3eaf432a4fc3dba478276901423);
  Dbl 0x588f4b662d4367b8ff89c651136dd836a21d09042054774166c6429ba0a5a81 0x518bc9f04b28fca212ec0439f4849709e1710a372781c6a7cad0df46263582d6 (-0x959af90899932a85ee1cbaee0c421802175ed372f0d1b34ffda7ffad11288409) (-0x63889efe1c7bf7af14783413d5983525b47d89b8a291dda01023471f6a415ed) (-0xc910d08bab036a5c5e769e0e2d494d7c59783ec6e649e161e2927dadbfc36490);
  Dbl 0x3b27bf2ba54c0e42137fbb6b8a5a1952c3b2405c7179bb18e1ea1e7b98f4a80b 0x3c09d543dea3d348e36c6f79e32f887b9e533fb0d6e0943c927abe97eb066ce4 0x380a238a153e632bb53efe8d9a68bd24303e43e0b63f0d2eda6e7a2ee32c11a2 0x2cf1f6e807a67880bbc2c7ccdb95a10766853372fd77c9cfe7b1078f086ec6f3 (-0x70339692cd6e656c814a22fc6b47bca2b0f5bb41529a50e06829ddacf19aac75);
  Plus 0x3ca537797e4717f835cc53b47d515b912f9641730fdd7a621105d21fc29a3945 0x1386bd60c9c5e159e61994a3603340bc000ef31792e20558a15b5e4f10d9a672 0x0 0x2137af1e02b2e45b2196f41ce596f98b78e76b97796d92b1063da31f54bdb3d6 0x2c997040363b27fe0006a77e79b191fd6706e61f9168eb4277d3b00ccf966806 0x302564927b28dd37449b7e0cf7d55c68818cf85ab9bb492f0b2aa9f3da983993 0x13468394dc8503c16dc1659e6f84e2cd8b44cdaf26f85fd570dea764f759ae77 (-0x27eb6e66a74ef9c669dc1befebe01ec7a248155b87da38a9d1a2ae0990a48997)] = Some (486238677, 27430683552185631896762449883746986556289608340671081329187219841682092210501, 8832008669225962192466676738505848292766082718984846222054497669033492063858).
Proof. vm_compute. reflexivity. Qed.
Lemma chain_2 : run (486238677, 27430683552185631896762449883746986556289608340671081329187219841682092210501, 8832008669225962192466676738505848292766082718984846222054497669033492063858) [
  Dbl 0x32da684d8caebb3b32245ba5bfb341d4d1fd189ebe286ee9762f8e6b45e2ce80 0x58d3609fd13fc90fcd789bb50d8fa089dee09c6a1a5ec27d79590e4f4182b648 (-0x9b566e5e43475613a4df44cb5f60e79f1d9a5f6f52f35b407a407bc84c89e04d) (-0x44d1197ca89106ccae5976ab837597555bbd3f23a326ddf03f53f2531845b74) (-0xbe1654b7355fe02a7d9636635bf48215f95d9e97d4dcf9ad5df19cabf76a3ad1);
  Dbl 0x66cb0cf8a3238e7f103b35c8f8ef7e7487d7a493b3c44e3a8476b3b68a69fa83 0x131657234dc04868ea60f7814dae7e967026a158102933441195b351f2cb9be1 (-0x2b7a1aa6681832d89320494a5e468765fa495d04043d49847326355b9280202c) (-0x295e84885b5723ae117d05d7380138d2305f9a6966804959c2471aebe71c7cbc) (-0xba6259f02f544f18e5e3c4db3b2d308952024dc403a867e89514fc5321e9136a);
  Minus 0x925210f39b49f8db284dac3e3fb064fe5130cc95a095e5e8bd3fc535c350faa 0xa7a4621905cae048317229a2dd2e49c826da613a187cfa8fc0c353cca775cee 0x0 0x39b8b7d4bc04bc31350ed1c309e14b7d56a1923874bc34d7e9aa81bb667083ca (-0x12352d1c8c37604b307b516efa533f70b946584bd5c3885def2adc8f93edf7de) 0x532ed7e981d473bbfc1253f31012895d0f5228d079d90845c113fd5759fc9cf6 0x3456cbfcbf3fa93049f3e31e8b4b1d0844a7323c65a9d72882159b2830dfd94 (-0xe7748da451ef915c10866c93201bed5bbdd29f0f02a5b6d4bdc63b7416aba9a);
  Dbl 0x6ea35431dd936670fbba76d867a822d2c4a61b5fcdf6f12ac655c288ed44489d 0x13504fd7eab8907ce5005bf520e3d7b3ddbd92b27254cafba3e3aef36a4ad488 (-0x2a8fa6a4c1351da1eb7819097e6c784a72ef5494a28fb23976e02b0cb9dc394) 0x9ef872d4f5d177546a28440abf2a65bada1b515d6bcee0d231b919ec3646d3c (-0x693b777b6b4b91d2d64c5c6d81202faef2205facd4f18e54f6d18fbb24b19c8);
  Dbl 0x24cc481d4b423a1138fe4cb48746893355f290570f3544d66aaf0598859d8b10 0xad8ad1352eafecbcbf9bf682f7fe670e8f03e51630cb522be28017ab17538b7 (-0x20cba50caac1777daf613ce99dab4f145cabed0acf20b95ac6f9c520a1ae8fd11) (-0x21af6577296f7b340816b793f39cec4e006cb2b653ef26126c1ac6f6e1832490) (-0x21419af839e05ff8ec1747493b4efbd93a88f3b795ffd5f53108622ae8757a03b);
  Dbl 0x3ac567e1632d0a9802f1b0a03122f888e968f6bf5f5428e9fc8978c80d313308 0x664204142fdbf5ac618478820d00ebe481e52a66466521de0d5cb3610355b5af (-0x3963243410969be0a0eca6d204890a9e3dda50f39b2ac244f2e41d7d53c688ad) 0x22a63dbcb8a0457ce885b32cc1649c7630e02a249ac751bd32779cb6578efd10 (-0x83af6a84b893b588f0278e509ce91d6815345f336a02fc957af5d92af8e86295);
  Plus 0x5e35521763e62c845400ddaf822cf3944b628f8a622dfdd1738aef807fd96947 0x438e62099fa3e09fe80a30a645b49e90fe8531d968332d1d7a871f6f0f60b351 0x0 0x21007668fcbb3741808e620e33cecc9d1596cb1efb6bed92bf15addc65c4bf45 0x399a0964eea0c7820ca26c5248106d16185d3d0097d0cc5520777e52875c8cde 0x39dd5dda46d39c035217b3f8652b3c3b7ab2e18b93a253ec570cc0946ae1188b 0x1183c49ed00c248f77c1fe6117e5311c7bb68a9064d583196bebeea6315f94a7 (-0x45fb0d2b24b4d17ca823dece8f7a81377d19ad603a87a9bd15f21c617f87b7a4);
  Dbl 0x4b5a0ecfc09ec7efe106184d9090dcf02c092c0730a0d237724e835c4c47e9b 0x6e4a579eebbd9f317154f23601bf11e6380d9dca48ee40b436ee6a74a42c50c3 (-0x1576ba576f7b5af51e188c1ff9aaf0c1e74bb988277252971bf9f60d0badbc71b) (-0x69c7fb25e0c2b0d81c703d9542d120a02b7f08d57615a9e5c4c9aea59577d1f1) (-0x20439e0bca16ec0dc6900c61164ef62a407c6bf4fac2cb06c81cca981d75be6a5);
  Dbl 0x477480a0c0983eceadb0dad0896d757660de9d5f6170c9bcee4cf956588c5352 0x4f2ce839b454aadd87ee85bc6f9baeb14a5db00c2e6e09a915a6d7ed101f022a 0x67f855dacc361ca62a2f50580d41afa7ae69d24510092445b5f8bade1dc8a0b8 0x1d34f2bdcc28aef50c69876c719ac8e60ff706551d764291f4ddebe37606bf46 (-0x942cbf2ba1f0fe9e60b8adfa6bbf50a6f82ff237809ca89b80e7d90bcdbcadba);
  Plus 0x3f3cd0a6ec90561441b107455f12722dd2d9e35854b48ba260869a28c7a8aa03 0x2bc0df801ea300efb12359a3f6bde2537697bc58acdc6e869f31347eba2fd870 0x0 0x281fcee2db40fd8f274b9602d0267437e4ef297eb8010fe29e4c42921acce4ce 0x3432aa461aea17a9f34190ca548f2ffb0a0398d926fe1f43322e1c463cc1f7bf 0x2048db45e4115506ad2e965eba4089d5b01775d933ed9773f31e93e8427666f8 0x1fb64cd3b2f6eaa300b4ee3f9e38e65d2699be5f9281f1a9697b5dd21c2203ea (-0x4266969ae0ff7d3177188fd9ca90d35d54f60dc8997a4d5e94bc46b9caa98024);
  Dbl 0x23bc721e9942749da0dc5a6823c367635fafb71fb763392c2e1da551e2d53ba6 0x1d3c821f8e066fd10911f36d3257285a36ae029f1e87cfc4a68512bfc26ce764 (-0x9bf6a4d353be84a7e19240d76169e3f719d8791928fac2d1557c27af0f7d7239) (-0x1cc8375fa50ab181ea915685e3d50b3eaf92e3f68f1ccd0b853ac12d78655cd8) (-0xcc7eb422c5c7d8374fc007031872d813ff416ccd1756ded2db272a042446a315);
  Dbl 0x292afd976a7495d0361d9f663e528128444863dd394c00b34bc8abbd0390acee 0x6436237c910f9c8a22823cfcaec7b660296710eda3398003f8bcd97be74b0f1 (-0x2fb4f98e3f9d4c27ae6d53baf6a780708e5531a2f1e644ba1e8fd9f14345b36b) 0xc5cda594ec18ea2d1fc30da98a8c725a9caa02c5eb2d4f42f7320dd24a4052 (-0x41502ce69e10b827cd576eb44959691a425f826965714c133c53cb1ce40e6239);
  Plus 0x7027c8a3a777b2cbd28d89ab76af78d3e62a42cc71708b6e6bb5584d41e9a9bb 0x2616c10b6bea43362826e984727a81941b38e8f714b9be845b7102975458ad39 0x0 0x171df87117fce07ffb06adb722b26f62200dc13f64264864de7afe617f6c8342 0x4003934e9e4fe66e3461a67f0ceb19976f713d8e82cb361259e406f3d27d8a1 0x2bd6e1e6ecaff381869452747c863a374640aa4e757f0bd18398fa0f82514659 0xc39372735322f7e20be6e1141a148d549b02f8c878f1959699d1b1e8266047a (-0x7ab0e7d518b213eaab1015866f9292aa784293db5f8c09fc57aef655c54c7b2);
  Dbl 0x6028f6645453dab95dc842689f1c0e5e8b5000c6a4cf24178ff3fb95af4ec24f 0x5bd66bde14a2dd89bd79bbae7282a8a80f460fd7612c70677854f02dfea2e7ca (-0x212031444315427c9127e9ee33b2454d5d4d9e26721f1ee05602f73e912e1a53d) (-0x1218185cc4f33414a80a126ea1bd91128aa998c1a90f68390b10537d44fd58e7) (-0x26025475f40f726b276120e1211c91b6baa88b75333c72cbbedf17515f9cbd944);
  Dbl 0x59b32ba6c9a9c40a9a674faf4939aa219b2847b39024641f3318a4711da06d14 0x24d0e4249aeee35fa0233b1c67f9d4a331773bcc7ce158c386b704302e989f34 (-0x1460f5dc1057a5b5bf9d80fb659fa3f370916e2c2b84bb8b2f89bf15877b50181) (-0x62e8d9c41b4ac7337d5912c307b938fff7fb01c209522b6ec787ccce75c5aaac) (-0x1ed807877778d53aae157edaf472c1012e8f67a6c00f5c6ec7fbf58ef067e7ee1);
  Minus 0x2f694f135440239adfd7067aa43bdc873afd5375d589f78b1cd3a14a7da931ba 0x52f6ebab64b38de08a7be9f17ff39111b89e54a5c2f6f4fcb2aa55773db74941 0x0 0x325e888651f288f505de68d42f8b4c63c772168d338e87289ae8f62b8644ae5f (-0x13925dfa3906ced96d5f1be070c8c3ef458655d5714016a08c1b3793498a15be) 0x19294148d58ba140e3431e9d14de9e69a3f9b89a0e24bef4eb8eb0bae784af67 0x1d4fac4a3d0b5ad3e4834ad56bff7e60e146e148e6d5984993b50f814b359bdf (-0x47f6f32a717c39d703f22609cd36cc05a5ac6b1bd6046d6a085661cc87fc63fe);
  Dbl 0x518be8f493bdf1aad056ca1cbe12fc6a2f7a4d5919979bc03b160f17e790ccb5 0x6a195ab6390d450ba75127c4a5b438a7032f75b87c677e52fd076b447f85e66 (-0x2593584f5772181f2bf6808da05bdc37d3ce65e95f324df21b007d66fd7ba185) (-0x3f348c57f4b17c730294e5b4b69462a9d2b9ac7e909f6af93aed7e247df67a) (-0xa1d24c657c3ad7a6b95cb18fc87d39ebb28e7474117c90d5bb1c388c5d247215);
  Dbl 0x61a51f6d759d3413c42ba9c614d8bf19db2c6361f1d6b4cad2a0ae9107e39327 0x3e3f82755eb94ba0ff1b03cf34c5a7a74e04931a238223c469e7df28a1e1d76f (-0x11e6dc0bb5e22ba8993887dbeb7cd39b6cad378d0fb7c5976028a5bb732855960) 0x439d6ea4f346267468626001359e6bd9fd01b6d13c3e992138a6c0c372a89cb5 (-0x1503d198962a95c3485abc845beb80c194774f1707c24c5e5b95088a987b6598c);
  Plus 0xc3fa77cbe8a5632d3fb22200e9fa9155826c2d47f299fe99b6213ff36c7043d 0x2c328c89149f4ef7ea8b4ba68872609db433fba7219e1f905500fa33c630fd85 0x0 0x36d4a920242cbca3336ee5d003fed8ba152fddf951f22fd0cc9a6a64c48c2e5b 0x3e1a81657cb419fd3e20ede53b4045ee96f20b91489040c2357dac27d913f815 0x38e700f894e0f737f04cc8d9fd73c628a2a40090499009c214496a7d64234657 0x12bca502254695d0b687e871bec2d1d3874851a09edaef538761404d50f5edc (-0x272e0865790d01cbe2d068353ae5cb2f79cadd0febe36fa8c8931fbea697a057);
  Dbl 0x33b39bffc5d436438beb091fdc34b3bfeb566eddf4e1c02324183a8dbb717f8b 0x38dc7e64d332abb75626847549074f9b142021158db3ef1a15f7842aa88d9e5f 0xa61214094fefc77d967ef67ed547f78c7fbfe72ad7a1acdc398059487ee335e 0x285e33e6355aa916626735fbe60a0c2ddcd5954814992ad1eedd475746d80138 (-0x4dfd3cb6ab7fdd5cede343bcce037dd801be5e7446829d3f51c444fb4208613a)] = Some (7966534480538, 23385297568645889661729920430692262947229109131647182702472382648639686803339, 25719098213190262913775345098258375111912991510949171897570415393787104566879).
Proof. vm_compute. reflexivity. Qed.
Lemma chain_3 : run (7966534480538, 23385297568645889661729920430692262947229109131647182702472382648639686803339, 25719098213190262913775345098258375111912991510949171897570415393787104566879) [
  Dbl 0x4167795df2b89ef5eda2ea1acb8e437791ce14a4f2b597082cc41ad1929f90ee 0x4c89d45d59dadf244cb6b18e037a095d9ca61260f8ace77161f7b2289e421f20 (-0x57664039f245092ab96603517902dea066cbfb94cc4f74e89f810c05b533a8f4) (-0x32422ef72118baa7b011868d7fc7b89f0ddc5df264f8f7caeaa71098eece3c5a) (-0x8fb7663b6d558b3f74e3cbf912d41cd799e11740b96431b3210da2fc9247f75e);
  Dbl 0x4c1b318db195b7370b938ecff139f96ceab1fc9028ce80d5f07fc8554153a204 0x6d0d45ad6d3299d78823b978fb03618f842ab65e2e3476358438192781e0935c (-0x85f736a75b51ccae4e9362dcf7f369a87bf4b1b644e0b24e9755c0a598d489e9) (-0x562c2fca074fefbf4e5d67b2367f7846ab4554da36a0e79735ff7fe8ad09a72c) (-0xeb4d6c8dbbbf6e764dec253501f6e8d97c76eb30ecd3fc56aaa8712199bea828);
  Dbl 0x39937920ed57a7dedd8d19adaa8075011356b9ec82cf2083c9dade12175b72fb 0x158f782c8957b0e63bd93756b6a4e0e6057bc891451e9776723bd09ee01079a7 (-0x933ba9540e6fa3cb79d7be10505fc785090435fb997ce5629546d89d90cec068) (-0x6a9ebb81764daf470d2033a1d3c491a147607854ee254785627e44e0993530a8) (-0x16e176b719e44865fe25cbec2299f489b037293b604e625d5693e46dde164572a);
  Minus 0x110e82a37f6ef7721374a4ca9fba5c454452ced6766f91ab3ff72175e0008fdc 0x2d088c768648cd0cdd55dc52d82caf82d27dcc118e9b61948443b77fac2743b8 0x0 0x2054abffbecdd014438cd9be5bf8600c3acd921082d027b82ad4e2cd168ecf48 (-0x10ab70a032c6d2e1973b28455a0d1cd85bdb9b566e438520575f6a06ee45b656) 0x37336df121c63db0bec1d5d3c2d8caff8cf109a97be48a6bb3b69935f23303c 0x3e26ce1fae534b69e07112d113169699c770e84953dbc19c19dd21ce43a6fe4 (-0x165cdaf4906dcb470d07b8018d5bd3cf39f92e38095c16360ae9b8eacef9d190);
  Dbl 0x342630681a14bfe7673fd838f6dc97b940a1e4035784306764106be260a1efcd 0x17f9d294ad106cf9473bdbb52863a3b5cb5deb514245cdcee04e12f5cd549548 0x4f21de15234720e1dbca731575824b5e5f514bf83dfbbd6584423e15ecce1f7 0xf0fbe51e966ebd054a0354aa675afd85fc9c0868ee787c0f7efcbd14597c225 (-0x2b0f002935140c3b87dd6e0f0f9920dfd469291ebf59c696545da695c0943608);
  Dbl 0x4e5330a4beb9c529d3d707fb27f3fa8f5a23649af4e9b2b97f12e61eadbb99 0x4f4b428561668d7fdd02a4337be9f7d38d9706a74894277f14f1d0f6981a327a (-0x7055d422adf8a22fe9c6868c0e85ff59f1ad6ee9b3c200a6f5efe1d9d4eb3a08) (-0x155265dc4307db07d10f5b428c5aef4d2e5e8bddcf98e2b1431b0c484d86cfcd) (-0xbab741a245e01beb3f42dc6afe7d660614fcdd94f6ba43a066a3cfb6924610b7);
  Minus 0xff348a9c41a2a15a0fe9aa94d31f1182058ab7aba057b20f9d3306c75d19e4c 0x46ff6cb8cfb36d1576e02dfb751353d8f8de1ea6c76528a02beecfe1abbe867a 0x0 0x2bfb5da6be882a5a0e3ddba64dbbee97ae2516c5079f6669d819ac723e445f (-0xe4a3c5b1623d53584353ec7ede1064d19409a40ce84286094d4aa37adc87a64) 0x50eba59fec0d00da239a4c19de73c7862e24a80de0631de7e5fd0048fbde8a49 0xcabcedf97b1951f521129cdaefe8acfcdeb2a4896ddb2c7feb3e8bc916b9300 (-0x64ed6ee4b10d2da9df37a46f74a3dda4faa57500f5f0542efa56feea39cd15f9);
  Dbl 0x62946e902bc86dbb6173f70bbd9c749f7890012911f1a82f5ecbd2110569b75a 0x6e1ddf26f2c314c030710de6929e6c54236bfc2c1d5cd4baa7f5e1b40a9a7492 0x208216622705f56c0f56bc9b5166cd6cd39818ce8b4f1b228a073cadb00cd6fa 0x95eea788045afdb6fdd5121d24edc9d7dd53ff98ef663bbbefe507076362934 (-0x56be9ba8e0b5bf1aac244ae969ae07e05f008d8e13e7e49670ba63725bbf5924);
  Dbl 0x70acb5ee5c4bc86a68c54d87416db75c641eb880a7f9ec79b25b7c14ebf69c30 0x19da910ccbd1b5ec4b9c46830362520c1810150927785f289bba8609d670b7b8 (-0x13a8a7dc8f21d75233ce5c444ca6dd2d91d28a852da21a378b325a7557b5907cb) (-0xa5aab97c88cb39a74429fdfffaa317cb86023c4832ae8bee7a593430432e1598) (-0x210b12798d6c58cc9f1a6a52869953e1969fdb4ee3ee742f8f804c4e61393d870);
  Dbl 0x68800ad74bd2f68c50a771019bd7b537b1630fc3b9d249f9de1e7a6abfc5a0ec 0x4e9bc9b06f4dcf183e9aa3fc329376743845f9a473a3d6c425b853ce348ef92e (-0x21dcbafac25901ae48a398ff33abb81b16519f94ccd411d2f9dbb83916bcd4bf5) (-0x2d5e19d5faff3765c5d0c6f473b33789c062dfdb00e7ae1563b9edf156a7d024) (-0x22d0132ed99e3cc61dd4643dc78f37370869ff7565eb0055581de3f7bfafb0f6a);
  Dbl 0x61ee61e786a547149dc2b146c0e871ad2c62338195f9241b2fda250b2a495268 0x48914e81ade83e85c95438058e81263c58533e7c6e7e9391380f3f53c4e7f271 (-0x1a1b0ab5d477aefadd52bbad93e356777f37ef893cceb86cf451b2c3cdd098d4e) (-0x38c8c129911c7b38790a344e6a5dc0d445f7755b1849f48e017de72737a99200) (-0x24b3b9089e1ea8fa5bb5c044c023e6d36fe0f729511a056272c758c6ad551d9d4);
  Dbl 0x478b3d32df0e64b5ec1d6aa593cf8ef6e45ecce9128fdaa831be128e4c306d48 0x33e3d72417b437c207fbb02a7e31f60ad21d712d260aa8ad314629efcfba900b (-0x17036fac300978c8420ca0eed077199612d2438bde95a5d830f78fcaa185287b5) (-0x768287cdfd6918c110f54e516cd5f7ef5ba6ad81c0a074f8fa9d49442f72d9a0) (-0x1ce08c814aeac98ac552d7805125bd1ab9a7d40a586687aa31ae1fe452acd9abd);
  Minus 0x48b4a2e6320189e2bc5a0d54a795dfa61639c98e50db0373e655b676d163117b 0x51eccd06815401403aada8b48584c17425f0e8259cb94c3b957ab620b1f9cb74 0x0 0x282c935140864541276e0ab3728504bbcb8124c96c5a4b927fb6d8aacd6d1103 (-0x115b69e653ab53bde6900698734f03daaf121a3609de736e3984d0f2c113f920) 0x47c3189bf886906d7dde221a488c7a4bf62e7ad0dbe867ea468682cf1bc491db 0x27a76f04ea6cf898c8a8d036f1e7ab723560f459760c0372cd91d09519042d8d (-0x49d1f81d99a3e5917ba44299d69c5f4ef0a50782e700b4516fdea107546a171f);
  Dbl 0x7315cbbf38bf5b98afc6326bde84d918c91cadc4c981d800c335849d92314a5f 0x25e31187303e0ea1171d6fa6123855608e5836729318312f9e36f4c36878037e (-0xaa184de2b70a0dd7d7eaf4b2a8257770a449e72652899250b2d87866f3212bc0) (-0x3d611d33fedd6f00a3d90d221b02a1198697343a4f3142fa9dfb2124663a5f2b) (-0x12b822a1d88936ec7b78555f29bcd562fc6a06802334e72f9f18c204ee10bd7eb);
  Dbl 0x72969bb122f74e56aae8c4ef31cbb3a105981e722e27025e408507f0b189d5d2 0x62a5c12ec53fd5ea48f978ca86924f5c14e0533c231fe8c4d83706d4276e97c8 (-0x22edbc03cb448d993f8e0b408fcba0177bbc341a881cff7ddcc8e954e11dd8e28) 0x22ef7e2145877be8fbbd8bfcb969a97b1675eb8d2d9e584b80a7f32b1131d6fa (-0x2a674c7fedc4b4e574cdb09ab9dcfd2224fa6e9d3a556861109a4835df2861c31);
  Plus 0x2d17cebb0d74e9cd1bb330f643965e110ed3ed9658ddc67f34850f0d6add20af 0x30bdce3f140d0e17b1a011aa2abf9e845d7f7851a843505aa14c5ab04df9ed57 0x0 0x40584b1bb2d67582fb6be0cf0a10c6cff2199403553fd31d86bc88ed8a416c0e 0x87a0de33148e1b686e0b16620618e0a6ca556944a46a271564dbe99d230dccc 0x47887988e8aef3d2304c91e2fe70d18a7bc0b6fa8b7daf226ed56333d7842318 0x1596fdb955f213ebb564e39b328d49f9a28aafb0b5832c2b56c9a450c7318e6f (-0x4ebaf121e9f3991c7a85d152aa8c5f971271a4f74bb977b50e0285c74d94a5b7);
  Dbl 0x3a4a7daf2f69ce9adea9ca22a991a897eb5f6f153d68e309bb976459864dbc99 0xdb905aaf50f2e29e05cdaa834dabb3dfc004bf3c77a191bf9a647720fbb3b1e (-0x4334ed02a15602d26580618a01f6c297d7df99ffb7ad3be0ac5f704dca676ba4) (-0x8d32f53c90eb83a324459fed579b4b98b7faf026a4ede15987af7d818809262) (-0x730abd05eb2e2aa73270f2bc32c3ed89763a2bfd4e000b38302ade19ba1b935a);
  Dbl 0x4f1479b190a07a3321634912d6f8711f9c01405c581a8504de7d98efbf1fae79 0x669c90832a445960970db220a7ec32880e0a3b35173f30397852f98e5e8f9fa1 (-0x90ecb8aa11dab355ffb773701fcaf1e311c3d356ec10251ecd8affb48aea49e4) 0x10115f49ebca692d5cf418717d0a8178712f6b16c31325390a8e47c14d92c83f (-0xbaeddf3671f1f877af1066815f39b71a54e80adad5bb1ce1829d56540c35868a);
  Plus 0x1902e5d38c4b13b9842008421254f8dfdcdf77baf70b94c41811be755ab4c5a5 0x2777d455a784fa6b4e166c052c0ca76c8bc7a40534245ed680f7a8a295a445cd 0x0 0x2c67e6cc26260d0c64ec9c933a97d813bf503eb9225fd5454b32c020d5278b90 0x451ce1f44c2fde855cba250cb2e1dddb7826e5d6b251a15c9913811aebb10235 0x2acdcba680ba7d195c86271b1b6f54a7dc4c1fd4db9826f81552a08643e82aa2 0x891ec91b4e113daee63b3c3aee807acb96837785add90eab82a2194274865ed (-0x4724a576a618bed19676d980c00214d56e1606aae14e848e9293511ed110c953);
  Dbl 0x19955642aaacaa72fdb30fb7ffc07217589d9bd6982cf356557f5f5fdad5d65 0x86ac398a6cd6d2e54299dbb912bb86413fef79da2b588c19f88d890dcbdac1e (-0xd8b31349a2cf4e17cbe2e17ffaed53a9d5ce5f75bb78245501531f2056d1711) (-0x106667819fa8275a37dad54aff2652c8fca18d357f94ad4b4326120a2a5216f1) (-0x2bbc59ad0afba70942eb90a6316c211fd6b2faa705503f4e6560a01d9b8fa850)] = Some (261047401858264042, 723229798421878948485394328415589316274459365323923233671262289955537116517, 3807138533548505385358590284172483613339742002250290379421701036530187742238).
Proof. vm_compute. reflexivity. Qed.
Lemma chain_4 : run (261047401858264042, 723229798421878948485394328415589316274459365323923233671262289955537116517, 3807138533548505385358590284172483613339742002250290379421701036530187742238) [
  Dbl 0x4c7b534975afaa0693b6506eede629c4e1ccd5179a4575c7e264b6f57652059c 0x42546c9145b5036a7167038315c1fdb9da4f1a0eff0e7e898a2651329bddf4d 0x80380ea8a5105bb969ff24cc590893469637cb00c7822906b46030131051dd 0x117dac38e20635d34b1e7a83f480a279639131fbe62b04aba397dba20f5f76ec (-0x1ae9b35cc6aabb150cc6a2f97cee8eb81b6a6244a3265a66e06c8fd2ebecc09);
  Dbl 0x6b2919231f8ac231170bd8a3eefce7d2d0293c96b735d78d5dff49f5639a74d 0x18f444a62651e485a94b9042a6635b35cf33a12561ee2960afa6a4dfbf0ef299 (-0xfc23ad480722be7662cc2201af3127eede369717b9ba53f012e6e0e84a1f7c42) (-0x1b21a35ff7148ac11288236d4b6a9e51d971ce8df19d1fd8a426aee9128d4b9) (-0x10a7f9419904fd7398ba157295cab759091a9f344359bce1810339f1bd2b8376a);
  Plus 0x1de2b4e8fde00c6e1bd54fa1b9a85800a771c694272492e81f414ebbc1d3c378 0x3819974d2e738e26ad20f888eec9348e1e145407941a86538ed220230761e1ee 0x0 0x3c2c8957891e41d5f0e35f2e7cdfd67613ec48262ff53434383c7b5715b48d4 0x76a9f6a06f735e175cf73a4b14c3722835b8e28b904d0d10b64c1752444cc64 0x4aaf7764fb52d6f68215238eea7436e713bafc2edfb49b294d3d890b832fd31 0xa6b8801b2c879cd4e6b2d2d4f39d11756552b891a34b8d16b48726c1b60d6b6 (-0x219297336e7cb20155e13d41c76bd6c746648e982994e857a7938ab8724ff8d8);
  Dbl 0x41c82b877ba21bfadc1f1eb638b7f7bcda1f3be1f7ed3807e2fcc7beafc7fdf5 0x37a5a70fdc6bcbf998e51f4ac2be7c26fabf381f9c47b7e12cc1578d77785006 (-0xb5fa937e2d14c64481ae7c989e15110df2674a9f162a294251853ad500af26e) 0x17f0e159faf2dd300edd901b560c85c34c94ee2a677b7e8cc93a93e3a7799dfa (-0x6e63d283f8ab22ee7475d33d5e7ebda5b80f81e4ca94d7125c940fed1b357124);
  Dbl 0x3581bfaeafb8e3082ac8f87bed3f1bab1e9d0ff85797b2a3d5f7a62d69006467 0x4f007cffc65479d466d9db2a66ada5818e650e15b1e98d32f42048decbfa8dea (-0x9fec8055e1805467a83a260bafc4d5e63e1814085f4761768ce90911df58553f) (-0x23a97036daaf340982e5f25221826fcbae268d53e0085c51ba787390cab38c12) (-0xfdef84e1e922faf2394b348d022011b093aa35027de930d4d7c18b37d8b61c29);
  Dbl 0x4004ad5d53b7e799e1f04814710ce16d93cf7888305c5430362746ba185d0eb8 0x61ee88144c628238715d86c4ef799b4b17496206936bc88a868860f2fa9f4295 (-0x45a49f54040e972d8ca34ef6b2d0f7a40db2d33fcb0965b34898dcc344a68028) (-0x33d707170937923addc1a9e2e1465c744a5448a15b2eaf10ecf9b19ce79bb5c4) (-0xd19366574054e9768d959884ddb9f6579fe4cdb01c092d3094534ccf4bb80112);
  Dbl 0x7b06f3f0222befd7c1fc650396eede194576aae82de6c165ce2acc43e784f71 0x14f234831a186092776859a4d5569a3225915164feffefacc1ba0f72cc7128ca (-0x5e0864af5d43985247ebe228df09f3646329ba87fe340871ffb22249492b498f) (-0x670dbb2762893025bab71b51524889cddfad95730d6cccf6e1b9394d0c33b7a8) (-0x11166da0dd76c5b3de7754a610395039177719ad68f66cc8e055be9e095090ab5);
  Dbl 0x49657fb51c93e3fbb03101fc44e62f994aff8c666277f507c81d0abfe3a877d4 0x242c09986e7245a017198111cbcb56005bbfa3853f86a9c9c4b44403ccd3c596 0x13c0c5ad69d4870ffd8f468b2be337f1bd1a8a5ccd2239d993e088a8f251fc7 0x165d143bb3bf4eaf6c4178f5379adf34e7b1c7edbbb7db16daa9dbce5c9a480c (-0x12b9b55c424d16df72200836784ed93757148321215446a3f12b25f6d440bc6d);
  Plus 0x7020ee3c61e60aecd69a2b57ce30f0eb70f7a79ff33e6bfa305c585f526397fc 0x6e1ddddaa2284e54f0cd4543afb6b3384ea4bd4bcc6058ba18eab94abddcb159 0x0 0x2936e3168e9b12369d77735ac3c60eda1930690a3710bb1a9e1effc3ac62f7d0 0x17aef47cb3ed87d9f6b0e9314e4cc3490fffc1a71f7cdddccff0cadb696af1b7 0x38b8449d0363da70f851c82a5fb288bd1447736f4afca7cddd9f8b936f701e87 0x4b8c18414d95cb4825ef1813a6ec68f2aed9cb42ee0c9b828c85220c9e3fbde2 (-0x5e80ddc73e5573735e2a43a686a9b061564f7588c878ca57333770b389d1dc61);
  Dbl 0x3d4fe5a072b0bb3833c7322c4d9f4e5136ba5df91344abf5bb24a6b7c17814c1 0x3237e25c72836a883619dc68c439854e4b308e9074bec7b5e0c169d729609b60 (-0x1b5abc8d63330ab54a3ee03e2a37578d2a03b002684c31952a9db99734ea14636) (-0xb843c47f1330fb915d28d7c4adc175390fa18cb6b75181afc46764fc39cb0121) (-0x29e696fa371f690298d9f50a1387a9ed3da91f2ec06e649f2936e25cec88bf821);
  Dbl 0xf476dba9301136ae75b7efe0dac4e3b4175223d5dc875d87b123d06d4904f3f 0x4fed6c17811f34922c7d3a1ad3f042aa22667b9a13b062e88f470f9e2f86378 (-0x8c613674907193c1c4b0e9a9c4964bd279ec212f3743023caa046ab18dc95d38) (-0x34674cc882e4ad9533d282e436169c7625a9e7d1fca06a828049f13a318fbeb3) (-0xb81f02c0ed1a4d1c083f77dda546b0cd1bd20edf5ebb17567b0b3384818e417d);
  Minus 0x19b297386893dce952c25e5eeab0b32349cdaf781cb6de2272279707fa5265b6 0x1aebf0298ad52726ff208698efb416e437e6c59f969c21501ea17465f864cff8 0x0 0x894637d7427be082fd5aff170f01489776a4a74ca5663c3ea12662694f94f07 (-0x47f26e89c05aba0c56e0699b8e3fca812e34861a7e1d883e655c42dda8d4d47) 0x3f1798c86f846263532ad7612cbe6e3fa8a62194f77d61d7005af40a6b12ef30 0xa37db5b2e7cc4cd73dd3e33cf836452c5c392682dd479093938e2cbc927554c (-0xd828fbf1693ce9360e5481eae8a70398c5206a2869d93e1e3292e9ef84d9f3d);
  Dbl 0x2186d37b21dc6bcfbe87d1a9b81b5115582328a1d3cb45b4334f39e67fcecb11 0x3d2e7e020d82bde68efbe080e436058d177d8ec0a9cb90c9df9ffb52989476cb (-0x163ad45aeff70aad22bcb30da6e57b3d274a2e019803452a583073ce3bcc250a) (-0x4cf8da9387860ee570d4426fcb01598c58f2bb0608a6932a50b005d7b007aea) (-0x2fbc2b1282e7e338b9e7e895ae24aef0a62552d9d5ad2628a6ca26188d2253d0);
  Dbl 0x39412375317d49d26497f076d509170a15a5b1c4eb34ce85332637677f1f7821 0xae7d18d47109b3a7eb5bdfc83ea737276f49a84ae39f59021cdcc62778d8ec1 (-0x1030e5f84e270f0eb92cf23afc932ee9e3eaa9a85e6f1733e204afcf820fad6b) (-0x1fe603a968718df890b71e6966a833d47578db828bd0b9ef26b138d4319bba57) (-0x516ee97edf24056fb1234117fae19ed7e137fe8f421ac79a8116b347b29c1b1b);
  Plus 0xb149ae7c3db8011a6f039c600448679068947c88ebac07cadf45e63dcf1938f 0x326d940a4ead6e90aefeb64a837f0a9ada0508e705eca348a4825ca8c93f3a00 0x0 0x2026703b7995abcc432bac16dc49ab57a39b7bb38e2893aba3d12900812c9e22 0x8d5d210446f2be98f5cc81982dbb53d3d186f72c1980c6c12d397be85888f66 0x24335c15da99eead91fe8ec46173e29ddc7f49cc2b104e71299a21835b7c064e 0xa5069aab1880c4237f034b179ce1f00cd01008d21bf144da264f56414064ade (-0x35106300be5e9f7cae9455662abb8f8da5ab93917e028b3e6753855aefb99546);
  Dbl 0x96240bffc62f1da3d22bc692ad445286d7fea6d3bfac80e914fbee33b1c9df7 0x3a3aa47c2b6cc35ec039e4bb8add8acfe24a19ecd4447c40ce641ea8b2395181 0x10a3f557e9960183041f57c2a944f37f97936c738952a8d807fb1991493e650c (-0x51df60b1d394470fc62d2ae4cf37c631680721632b8058775b1958b1c3fc007) (-0x374bf59d797fbd5ac153d25c917f3c60b198409d2b3df9a52cccb8324e48fe72);
  Dbl 0x5208252e0679faa8e0da62d195ef7c29b70785c9f36491e72b0845ad0ab02978 0x4974acfa7a52ea3da2dc441d329c43420947a06cd066a95489c5258a76fe48e7 0x19732259d156aa5ff0fc3754ba19ef884984e8c68d6d8673fe3cde74e18e1cab 0x487d63bf663a23cab6590261e7b32721b59c125b39e4c44da7c61e5c2169428a (-0x6a65df4d5f11de745e5454ac41cdf7035acde4477a5ea9abc085e21b1967ecef);
  Minus 0xafa6bf36bc27129c7b6b1db165a2e019e4caf7349055395d565fb9fc98c99eb 0x5e19e31dc57584bd83c4c97080016c46f15c6056c613889bf6ca395c710d1088 0x0 0x2e103bd0644b5c0f2109a96d51cbeaaea584cee3ccf222b3d787117982b1cd77 (-0x354d4cbce0455285da096dc401d6c88f853ac687bfddef4ffa1ae2a1d23a51bd) 0x4812399ed38d773964aa8883539e4c9656860a4f4b5727bbf74593e7f1859de1 0x35f51b8dfa9af1f505bb0076fc658ad93cc91178958dd9cc18a579e3d251524 (-0x462775c0a5c3a93eed586c65b0ee362af1ff40c39c8b16de3ec7361a416e946f);
  Dbl 0x6c481ca9bc48f929a6477bf14b35187b16593f9266def7058a24b5cc5e7c2f21 0x277d5e35f49f78656bc6f126236e7f5e09ae58b2ff81c2ddc280aacd391f6e26 0x472f7c7db64fe6fe0b803d29012a4f3a7f9384f977649cba077035c7d00ff026 0x3e48eee51817a00693ec0a3387f0a0cfdf8ae24980099a5d7a6f1d70e4791c6d (-0x6ecbdda0f6530e06d3a64d8713534aae092755590de14760ce244417840d1b1f);
  Dbl 0x66a0374b3da9d97b2fb0e875abcca63e150fcc0d3284c5a8f6e3918bcb25197 0x32e859719e4af14ecfea373698e9d840fc592fe5d44d2d4b9e359c436f2d448d (-0x1ec3ecded69689f673d4d110e048b21237fd3b708768054330e8f684163ccaad1) (-0x4547efc65e6a08512a59165877e083e7326a71c8b31f94c9fc30e32c1f6d027c) (-0x22ac6d529916b39459522ebbd414270733ed639d787529082f7346b1825f6f33f)] = Some (8554001264091596136652, 2901186731899794278890999594974031005260027874530824156111189587812718629271, 23026168266760914016052049743564693150282297531836192201833429387984637871245).
Proof. vm_compute. reflexivity. Qed.
Lemma chain_5 : run (8554001264091596136652, 2901186731899794278890999594974031005260027874530824156111189587812718629271, 23026168266760914016052049743564693150282297531836192201833429387984637871245) [
  Plus 0x6ae9f6112f3ded03435eed92ab48b811ee55dc92701f8a54af3356e68a850451 0x1d698a94cd07ef82d269f15edad0d2225692bad583ec3900e5c7b79c4747bdfd 0x0 0x39a0aa433e093dc743970fa3614520c3c9a43285824d0e15e40f695eecd8564 0x25d05fd521327ee095d20ff5aa2ca60263090d7396c5052a3f4bbcd4be820cc 0x46bfab926c36b1c0d535a8357135f2d044c1c4045c205f5b3f9421e9415493fd 0xb4ab7221d2b67f6e1176593ad5ce4c90bb83d4c3332f3097ee3bee9d1f87281 (-0x1fb14fc045b1a38dd2c42b048d818d1635c5da66d982ff92516c81ec3712f7b3);
  Dbl 0x5dc217d7d72e78f9565bed215bc69fb5b7ee28b7e82069ef52a6f0a9634e9d6a 0x1333a07dcd4670d1e6b227c438158e5fc331a46da85f9a62ca5bd1a1643ea60c (-0x1e58a3b82a3c5b72269a0b2a4c78fdadf4973ae904763eb0d26fd9db234211e08) (-0x341241e90dbf7d1dfd8bda67e71fa01f609121511e2cce0d953d33ca4069a62) (-0x1fee88a8104634eafbcfb7b536e1690759a1a9314fdb6616d6b30b07176c88726);
  Dbl 0x522ff3bddcea0a5dec22ee4a92978c82be0b4e3d04bab3ea6c0ff1f81dc19e46 0x1a0d215498f381c41b513a2ece80a4800986486245a7ef665a6b00739d3b4fd0 (-0x177f571fde13d4da7d969403a98d9b6a7a95bbe02619c87b28a1d18e8e5facc7e) 0x106b2074d22b0eabaa32d67fd7e59b59949da68913124359bc57cf0aeed4ca2c (-0x18d5e6c4748efcd5e79b6bb78638d642540d4c3ad2bb22ecbe119fef08a067384);
  Dbl 0x21e936b00b974616694ff6dc6fb41f85f1c64130007378f8eb6035a3c6fe1b12 0x3cf52b5732deee8481309819edc1de1407827907457de30831054d5279ff0032 (-0x11d7a9e415a78f2a459317a8d41f86161348d01f10212f899873e4bb861a2355b) (-0xf9dfdc1c3e9c43c6ff521244a6103e19d5b08636f271a57801b93e6e239b102) (-0x14f83738f2e738736a615a2b9cfbeb96d6064ece5469f59f9e4cf9d44c89d5cee);
  Minus 0x6540a9941613c505ec71d5beaab98bb698fba346e0fc15e7e16c6d2308d7fbaa 0x2f8e83abf33a34a5f8653f6581f420bbdda068089b12bd89ee2e80593b799a36 0x0 0x130ac56194304a599b87e1cde4f5a053221e1098e3d20e0c0d7ec21a34ef2295 (-0x318e81c9d5d2f9f1122cd344cf8e46d5dfe5d0a1a350bcce03eb00a1f3254d8d) 0x516ba9bc66a959c53956de81b43d7a4e3dc32d9e2e8a49d3a2ef5f5dd46a08b5 0x132187c501074155677ac4d79a5da49d99329e5b993368fa7b0993b59b2db5f (-0x22ca8e279de6a2e4629a55e38b0a12910d36d700ad47aebfd7be01da9c54b6a2);
  Dbl 0x11202c6a655e13b20e042a99086cc81ea331c6860f4a88adb53eaecaae6658a5 0x1c28f086f162bb8fbb4a6120f5c7ea8107992ecd44783a917e52412f94455752 (-0x1a6aa1d8aa64425f9db014227bc4421d8c7fb35c03a67e74b3b0314388b7f4e59) (-0x51fb7348090451fb15e8b52539dfec2d6c3c94750d44e7a8e4c40fbaf0a537ab) (-0x1cf79b6632424031ff2822ec16ce342902ace3d5e726bdab9c1eb2391e98f2d96);
  Dbl 0x2523b38971bed46bc2156c91276df006a2b341b9964cb18b07f1115b16f36d73 0x4e05a8b3fe0168f82c7838cd5cb277a44f447547f774db5bf0f8d4af11f07217 (-0x5cf2ea17e83deb1b0bb08caacabaf26ca4ae2b2336753c0d85cf3a6b94ca7c3) 0x1a57bd34e3d7ecb3d79a65523aed4e92f96c881f612838933ca9bace552c18a (-0x286d518ad61071b04b3189f2927d513e7a7c33d04e14bb6abb1e037c9b576679);
  Plus 0x885cae48bfcd2058c2d7926cbccd41dc4746501be79bf3d587a27db6a82678f 0x5529c032e685cde598e9d3ec2728bbabb9499c7e71435beb36b0a1376ee3dc1f 0x0 0x14dade9919730350664e8d52cfd9711a9e1b0513345f5fb6d958a1719b99f9c9 0x9e09192c7853e10d8b04285901c5b06cfef41dec9aceee41898fc162f029d78 0x600ec830275a58dca693d7e8f4a943741059e5ee65d3e415295f31eeb09b5161 0x3c0357b6285cb16ac528239a8506cda52e888e91ade4dd8173052d36419ad9d (-0x514acce5cb1d5e58f1a03359a629c54995cf2e9d42c5b72959ec9c54a89f5656);
  Dbl 0x62de2856fa7eae04776a3d8b09ed7d1482440140d4e51b0302fba1274a7a1e55 0x87e09ff1a56000ae402cb38be0f808c9a4ab8a0f11facf683fe47f9982df15f 0x3b6dfb01e27ecf4340d642dfb1607ac6e5596eb0f60bf11c523af90aa4fc6bf1 0x15160123496a92d0f850889cb2665e2879158ecc5c4e20b07654a489dd237ee5 (-0x4494f76901526cd1aec5288c0752ab4a37b30f2f8c698c04c2cf1181d10a7f1d);
  Dbl 0x5304325376e0ceb9398f8645e464167cbab5e2ba866a4e4939d20bd09607d77 0x1a486268770287161b6e8d70004821ea53b4b187636a881f86899872185a4187 (-0x1a4f7bfd84222111587a48156db1669ac145c54af1d39b79b13a3a14e2899441e) (-0xb6adbb2536022e94426652a34d36c90785642f7146ebd31ee9c69c62f463068) (-0x1b5c06fd5f202b0a9653f76dd1da15b80315e92f3756a808cd8038f1821f2501e);
  Dbl 0x3253f80b2bd379444494d7899792d8450412ca063acd285d78de35ded753e48b 0x72d54a7876c07f0a0e577b416b600f98eba7ff3c5e4d4618e13a41ae690589c7 0x4cc304247d94d6c75cd5367c45d7f2b64a715e61380f7937876393ec08f09a0 0x2f2cd9586a6fd5996a5fe40a6e7e8e72941fc727d34063b9812189200aae6f52 (-0x78209153741dd0219ed4723b789776d309603c46b5d29dc4d38fbb7f57811c1c);
  Dbl 0x118546eba5f7985103154d3990e671451e4c23f60105fb826553f4ea37fcf76a 0x101de66b73c0edaec3465605e6cae621881dc6886f16fb8206374f24e17e0e73 0x480f840e71b7ee4e5da147fd00d0a755fde962494f4088c1e910f8a61c0f962 (-0x5d6723286f18bceb174e8e9a29403f95da99166be5ae9f35cc97af3dac9491e6) (-0xe4ca497920c7c103f111454053a2e5519da46cc605740565017934d002e3ccde);
  Minus 0x11ec4c301e66e760415112865ff8d85827e0ab35c98c4802fe81dd01970a3c1e 0x653bdbfb2e164fb5a7a0d8c7645dbf90478bd6893943128f159c19b16729b666 0x0 0x9d69f512150dd47683395dabcb27245537657f9099cdae6014d9003706edc7f (-0x55f77b7be986a70862f641eb4d329ebd23519c790d1d5af7e4f582b49f6fbcf) 0x3214ced647769834b10bce06e3f556dc48aa4a090f0a27030bafc646e1ebe3be 0x1b4bf6227220024e77ab8d4e30a226520d9968aea42253b7d8d7a8d0d0d3e7e (-0x12afae692f9b63e56d866919c23b9892fb93f23b285f19ebff5dc873c6b3acd3);
  Dbl 0x554990fd27fc5b4b57104ec2701ae20f8cc17fcb2610acb8885a2ab9693e91f1 0x51f49b36f58b903a9be1576c4f9e609d98c2df28962b54734983f80bb9c76628 0x4a8c09081f5c205400cf39da5e04682f4d8692e9e0cade9687c8631d6b419c77 (-0x1b83df281ed1ea2309da367d228fbb1ea8dbac7c53a4edbe4ee69b78ae5744df) (-0x69e56a20b2b5071d1eecf1a0cb8450965a3ca1259022e13f74ac70693028a3d0);
  Dbl 0x4bee7125e26f677f22f4d15baf0a7e9492622eb7c1a22e92d457883c90518e7d 0x3110717503c38912d64dc0a348df6693b2ac6ee5727a0d5ad77fa6995e1df468 (-0xffc97fdddcf5e0cf435bae8cd325d289ac00fc3d05c46b5b322400c54aa13d39) (-0x67703ac4afe7815b70771d65681898fb33dd889d1c7d8a7bfd968a520cb9068c) (-0x17ebec77facaf1c1a23ac19190c03325a9d07f27a1e2af25fe3cb7efd380b05f5);
  Minus 0x44fac6eca188cb8ec03603cb998ad44add5ebfe3ca8ffbd98136b5164a94d7c7 0x39621b904ce5df8a6eb836fae84dd4b907bb84bd099b1136bef7449ab6c7b339 0x0 0x2aa349ed7a08a13dc1345eff4f5eb98ed2de7ed25c942e6a3b5c028f450ac394 (-0xc5507a04e3f386df2412a3059dd49bc8a7cdcbeaa47c914fa2ed863b6ffc7b6) 0x46028f98b61ad397745bc7be6929215ae4a6f4afc0f79eb620e1cbc878154220 0x3ecf42ccb9542dc48ce46a112ecffc294379f22872a937e81fe154069580b9f4 (-0x4fcd3523cd178af9f13f5bb49979a05fc29ae6a2a036b8dc80029bcf014a5ab0);
  Dbl 0x3ab1bcd619775e1f749caa329653383a65348af72fa7d3a2f47596bdf83a8d3f 0x143e29699d6f7b533c2a6a1243397b5eb1d9df9687c36e672391217a34ee8655 (-0xb0d1209b4f08e19e757f9b6d2f9cd032cbc62163d0eb9b77f79651d226cb204a) (-0x3588422e11638fd4f80582cb8958b8520a9a64ca9b3d49205b3a5548083344a4) (-0xeeb6d328c509a403d84a8ff9d095c1ed8a44d7831cb402fd124456e23c6024fa);
  Dbl 0x479d9cd559c1df093feb8dcf31dde12356bf6ed162af6148601af3cd27d684ce 0x45e43b58ed42913aebec5bde5596df4ac0a407ca42e48d1d27e9aba47753e04 (-0x910c9fc98f9349448b9583dee7370b4ed6afc48945948b6ea7e351c301e8588c) 0x1420fb8316a7d6ef31384a56879df1569861e3a8662ec03e5243cea13d6539aa (-0x9a98c44af08a142461c60d5a4dada6289a6802b7b8d4dc969ea339f0cb7cfcb6);
  Dbl 0x10addbf804507609d7d24661c66450818cb77056bc320c7d17d0d7d56cdc1439 0x422cec89e7335a66df1cc6773a9cc412f804911643945049b7bccf44499df2d (-0xdd0a8ea7637fde569a4f798a099f247ae6295f8ac310033d0d62760e59f56646) 0x6d66fe65c512b071ab0d47cec41cf7554f396f14129fd09209ae80f0c2f3782 (-0xe0677f7d7ad35b5bcdcf48bc6c5058c9e861eeb403517eac3aa1bc9d5d0be864);
  Dbl 0x1685ca4102bceb52707d39123502e12756fa9b61914f34e96f783d6d0000642c 0xdc91e35bfb3fa9cdb3eaa3388e533b125eb65582cc2b8af933c73c182b6af7a (-0xbd9d873c99e53c1818e74fab86b731c70bc4409050de86e0b5785d7bfb3e29b) 0x597ac9f24ae4a7507555daa529116da298a416e5db5e300610deb142a85008a (-0x104c2cfd324ab131a173d32b529ee837c0f7370601c9db003dd8a9fb2a0d6890)] = Some (280297513421753422205842352, 10187269233894312164176538771109030183107542550523761769522972631580255740972, 6235411793059182131746337613013594314840225691671052876080685560935426207610).
Proof. vm_compute. reflexivity. Qed.
Lemma chain_6 : run (280297513421753422205842352, 10187269233894312164176538771109030183107542550523761769522972631580255740972, 6235411793059182131746337613013594314840225691671052876080685560935426207610) [
  Dbl 0x5306137d838672f821d52f86f1e612de39bb260cf667d01acdd280beea372358 0x3fbe6c877515f792af693ae272604155f2fd247034066eb132d0a91219dfd578 (-0x143d3d0ced7ded67543754d21b7085d52a0d17766ccc2f8172e19d15333cc9fd) 0x1835db5ba314fa288fc2c2fd0a42da69a8271c45a85d28ddb657e9decd71fce8 (-0x2e37fce4bd1c4a30b2080f7d6921d5ac74706ec632f179d13060aca2383f9bfc);
  Dbl 0x1c6c2988dbffb49be4a6331db484a36128b3a12fa29a9acb4a44e8a90d131670 0x5a7270382b013b5af92164f4771082d42a1421dc6f1ed15edf21709855cf2fb1 (-0x1063e46c477830410f6c01ed376af7fe8d3c545674a06d79f570a24ca9fde417e) (-0x5331a3dc9638c0287a774e9a35f46c09efe0ed858acd52b585cb3946b1b3a760) (-0x1662534dc554027f5f379f2cdcd11a02a7579a691deaca624b4de2868e6d68b3c);
  Dbl 0x5ec9ee240e7f78b576aa125f06badc58d38a8a99d7aa075c0ea795b82408c8d9 0x55a01cc9d7b0b9e9f62f2ebbba5a23373aa7919dab6355a113cb254e869815c4 0x23b971c332fd6c727b92b164aa75f702c9dc3efca5498b5ce5109bba8a261f39 0x3052a64cf48c36a172e386cccd615c273aea116206e991062f736b52e218bf08 (-0xbd1f83f221d02e0635163da4f58b01bc48eec3af4818f4792a8aa3b36e8c7879);
  Dbl 0x6071e1074dfd5785bde39eccb087c97d1190ae1f0ed28fd9dde1cbe1700bfbc3 0x72de669e0c3ccb71b9ea47af01c7f45a70ea9a8ee2f4943d1cd3accc04ef79b0 (-0x14446d5ca8d6fd2ded7ff38151eee933e87cdb12a17f65f8baa566371279c289e) (-0x774a04eedce492241472328eb5c692db7f2f2d4c3a2c5fdf90e15d2e7d9dcb9d) (-0x1db756e4dc694239060f0c7a2c6862290120d37d32bc0c891a906eef99377ae95);
  Plus 0x4ea5b7d6bf428ce94b4b32f4edc156d194e3303c9312642f87b01c954331648c 0x413dcb9503cd6e853ed1f7900dee8af8ee4506f4b9dd31ba876dd14810ce120c 0x0 0x3628223cf42a0032834c8059dd6a236ae73149f057667492e6fc4374bcf65393 0x3c16fed0ae7afbcc3d01f9f558b119add2744854f77601dea12736f081578112 0x14380e9622d9bc66fdb74bb5ccda94e740afe1848dc6e1896a40140da07f7210 0x13bcf7cc807a5915f530b7a2ed002270185694c9860492598666a30cdc7e8664 (-0x50e04395915430268dffbd4d2dde1ca3c17e7b9814a663cd9f54c63e5991fccb);
  Dbl 0x67b4b6382aa683421716fd8b91c334f85aff770405fda086f3af4b3f53f4d959 0x6987c65ae9cd88f0d126d1be76dca75dfd4af636bc674b6f50fcdfdc2f8d85c0 (-0xe60f98464c3690563afcb97cd90238cbdd7f9f21e18e881a719c40c452c1572b) (-0x23bc2cffd7197b04f5d73fea6d021d4186dbc60ac75f5fea88e6d1aef55306d) (-0x1874c8c3c52f446adb7db96364e64121a453473242d1932f1bdf880be5716cb20);
  Dbl 0x34ffc5873ed44ca96a9edc5977d0815ed8a374086d0cce13972be3ac1bb74e28 0x4a6c20bb981e4799f88331b47b566e402dbb6f7f1e4e19799f7e76d8e62d6c31 (-0x16fcba33e25791a94fd7d640b3ed343c748fffa354f63f4d08d5369693f878e2e) (-0x95a55a770a8ff8713347775b484b05b5725c9a9179f9f7bc1d535efd2d0ca698) (-0x266eb13c6753c98c75d2c9a434701676b620e836bee8412f556a14237198fa87c);
  Dbl 0x2c4ecd8ee95e6ddbbd73be538b582895a7155a9ec0fbe691140c2013119facfc 0x5b043ee2f900ae9789f7e6afd44d6dfa40b37707684b8529d4b0ba18f52340c1 (-0x495f1b7c53ceef5f580f51360b5f85235deb5b7203ef792789dc57b659429f61) (-0x21cabb693b999932574ee74a5f3459238d954303ad25f26fac456d1d814ad758) (-0xef4aed34ce15e4df16841220a2f5b52af83213f366051cebae78428cce0a8221);
  Dbl 0x340cf74f4ad2a1fb68c0e1fc7304dc3591f2b4788cd02050466072f3b8605468 0x5de620708f7b263c890f50dad97a21703e84b0febb4c8be39a5d71d1fea33671 (-0xd36d466927cb3f5de86a09a9ecebaf26782c822368f500e1b1010351a644022) (-0x2d2d2f653d9a6882123ca026c7bb382914b617488999384cc0a7aa3f1bad4e40) (-0xc824422dfd113460f6843831dbc603db2b774cc9802c99e76e0fb69b57b38c92);
  Dbl 0x262425b5e8490dfe28319f92416323616381da305d7ac28b4a419e59046a85e 0x5f898b55b5f058e4da16e1430bab7c3b61bbc67e4c49a216decf52e9b9fda704 (-0x28cb9e1af7e28dcf80b8092ff8c117ab21d04baba8fc69c1be703d8f658f7dc1) (-0x53d60158f1eed7661e919c98c63da50ac0fb339302113c5040d9f5fe1d557fd4) (-0xd447882e64a2dc304faf2efe4ed956acf21b6e9b2ec261e1006ac2d51743b2a1);
  Dbl 0x3abcca177ec5d13dbfbb870859d415d4855cee47e721fa846d822e472549d7ef 0x47d58a0ff4820a0ab558d54a13aeaa68c27a98807ac26a358c782e6cf632b736 0x4e7ce00db74eae1f71aebc5cdafba7a117772d6af8dbdca91a206f96d3ea599c 0x25c7f68b7fd4329ce7c88aba51c3d2ed03971d23b76787d18d2c89b8dde1a930 (-0x81fcfd458efee1d75f0ea33eecc73c79e36afa5a331642a0f4382e025d6ebb78);
  Dbl 0x349942a3346ba68cc549d268a54d90fa771bf1632ab6cc4728d0828aa5ba4e56 0x50b85cb611bc70fec96d14a7e172ad89fa38087dcd09acf31ba7571c52a899ce (-0x684a8a42ef5bba37933202c17d3d782a16c94ffbdf84c4442c34b63ff1705dd9) (-0x160e19d6ae6f2e772dcd54de2794e1040ee94705f37e67338ee00ae880d7edc4) (-0x10f2d8bb1e2c8d49875bc5eda4a286bbb29d48e5dd0af7c7e86ed4ff19b8b95bd);
  Dbl 0x4bde856a5577f5a2220195bd5809abf7b5e42298c774ab21663591fb7320faa9 0x1cfeb3c2d91e253267b938b8509603c837cbf01b0f32b5ac941fa815748dac5f (-0x3f1ea209d3fe27e3d66de5fad3e6e2700b1eef8b84b48a41498d0e53dc2948e8) (-0x23ca96f510c3e9ebec2d2246eec929545e7806ad292fcce89eb9c04e2d3fa770) (-0xbdd82c7b854f91875104cf46b882d3a9c843cc85f1f3da40f022d4a1dead0442);
  Plus 0x482dd04c3142a9681dabbd01c5f84d8dc1674b36ffd04ef61453e95ac06c3473 0x1ef6b900381f99becf213d3cb5daa762489daa1b509f27915f558c2f56ca829f 0x0 0x2a9a5946f7b2460ae6b1b0ca16cab51ebedf6e9bdb55e98c0591230241392deb 0x15f0f61c7abac43008096da4abf5c8342af7f65bcef5f0d97592ad58e63c5731 0x61cbfb9562c2b16d05aab060cba3fa5c0a43b7552f46d1ab6b0f709b293fad20 0x1b4eeca702c10f980905a7b5363b6aa6da86da0a91f51586074c027caf2f4d0b (-0x1bff1611a7fc24151ef9af42e50ef77dcce0eb49b5f850b058cf0f6d65a3eeb6);
  Dbl 0x42cbb5e780135907ee45991be293dc59fa666edd41e91f1ed7e051d909aaf01 0x3588eeadd72640b9c43fc33301f6306a8a465e1dfdc6780511ce8ae8e55d8b3f (-0xd86dd4b3c559c3b25ca500417723d90a9303991d8d6c98d4f1c0c9abf10409e9) (-0x25023f705b3fa916154ab2ff0aef1dd74d221b2e17832582ed0fb807bef3117d) (-0xfcd328e93954b17d83cf6c5655028ce202cd7e39d43a33cdc0e615852b2f2a73);
  Dbl 0x5b30b91ffbdc86c21a190f1fd6870db5674d367abfe03806907528d506b1799 0x420e632b3b513ef5f1345b22553a6a3b5c932cd31fb25d7cb0f0a1ab21529d0b 0x17f868cad59193f983c1bafe20a68ee2d0840ead50f31f7f75b4249f981a30d2 0x12944dab5e42d4315e508001eb293cccde5b372d6c3c1b6a67a71ce56c9951c (-0x539ec2d45b0e58df6e9c697219d616c07c691a8c7c7fff4ff81fc24e044c44be);
  Plus 0x4ae0165f4c55bf6a4f46aac5dacd254c4aa780147cd373639cecc00e744b9e5b 0x1c2af684deb35dd6e392b61d0ce8b6a7f2f94438bda83efc66fe0b5b75b39e34 0x0 0x3334c975885100c75d8a45c9a68033272abb94d614792cffa0c2aa487cd04ee 0x15d71b760f31e21de1269c6608a65503e2b43f12d3b1fd00eff5b4fd57ff0d57 0x76ff4e742e45818f2e2c7217d090a7140f465cc5e9a6c65e49a2d97739986d7 0x54f57a1178c1abd6ad435ec640e3e5b644260cac18d2807a3b82da00758dbb2 (-0x2717164d78b8350bb51924b10c17c803566cf60db45acf64f57969b92fcc3d20);
  Dbl 0x3e5d444bddfdb4852e2b81d1c620c6e5ce9eccd227d233a795b0c54862ab2814 0x3f7d0ad1cd0a3d635beb2ffbcb06fadf2ea1a2ecce431051aa840b9228b6ae02 (-0xeaf4f4c327420879ecb11e885b943110a76128a78dc60ee1c15ad6b30e856449) (-0x14e5f2c660c0ad96ce25d3455a36aaea7efc4933cbdee019b66b8284673752c8) (-0x108696fa2567c4715ef130aececd32096752aab18878985dd6e0845bf732ade81);
  Dbl 0x4514715c5b430d8175b6fd6b2601818f0627a8207e04c5dadf5fec0c4b6e6668 0xd9c3509726b967aded4083aeb6f5047a870b2e2f71fd2e76739fc6fa848d471 (-0x84fa059b924ff1adab8253bcb60f3904550687d50be0a12cc63c16187c06f42e) (-0x3cd32e32be9c3d33359c2bba9daf3c594b26d4cae153f04fdbec517d4aa3fc80) (-0xcbfd7c7dd85cf4f386761691782899a85632d2bd33a05b0df20e7febb8afce34);
  Minus 0x73bdc2ace028c16d839a0f62a4df6a3b7e7d0afb7c6570e8470cc4af80db9818 0xfc941612326347053d1028bd8afeb5c295b2e41caf145b83e0556f5c514f810 0x0 0x26ca5d20c202350e57854b10b2d2cc3f218c6010a884bd6edd8abe73c909c84f (-0x2f7cececfecf900d076d3067f31bae5a8a2bbbe25197b874f2c2a337e2f1ff2) 0x550a01b680180ef81bde8f266a9ee15c10c8bf1e8045f7ec08c148ead25840b0 0x7180f69ef90f1427f5a9e5a9e40cbb4ccbade1bab500643984e7eb2d9a87d0d8 (-0x171f9f0095803153be56a5d579f0667ea6e82f562f9484b3dbd1b93c2e756529)] = Some (18369577839608032277682084384787, 52351255281827572626311848377472822008737359838093043526906913365837550950424, 7140280221098465943667270618910914197003250405243014594354796589093928368144).
Proof. vm_compute. reflexivity. Qed.
Lemma chain_7 : run (18369577839608032277682084384787, 52351255281827572626311848377472822008737359838093043526906913365837550950424, 7140280221098465943667270618910914197003250405243014594354796589093928368144) [
  Dbl 0xfc9f08359ac391ba98470521e621e41f7625a2ab3b84b361c869dbcbb6a3c76 0x3f7892fbdbc9c58fe5a78b180b1e40a398f7f85f8c6b3e1087faff518a26d920 (-0x23f9f6b1df7a4c8340c59ec1bcd8f80c31c958f0a0a89c5c8adeb3628af3f1979) (-0x19fcf7643ff688af126347127294a1e6d5557e64fc7ccc1e174ba31939ea22ba) (-0x25a2a5a7f831ac6938ccfcc9978c70a948ae2aaf74fc9e6738f0343a2dc7f1220);
  Dbl 0x17b1a4c475711c406767f36cce8d035fc3f921422b291d96508409658e4d295b 0x5d7650ad1e29364a0bb627efa4efd499cbdd4754c28cb599f3f33c99d84c999 0x17ffac2f75e80dffb33cbbdfe54be94ffbfcb6451eb4b2bb06c646b700539cf7 0x5472d15f50f71476eb61597f86b3c1526fda0c8ab8cb12ffe296f446ff0b7f7 (-0x3310d7cb1acaadc30e0529cd6ba8d527459f97e11a6cfaf6d17e503f3e69094f);
  Plus 0x82e8c13468223b053aba93b6aeca2e5ebd80090afd6e3c7abbc3c4b4023fae3 0x686259c60b5a3bd8ff9b7cd3fc5626f1e1261e699237cf6a5041932170b2b6c5 0x0 0xd4e0c18482294e47e0b71b8d213b6efa7d84bb45d6e8459c353565fa8133cc7 0x134f036db1ad8a20594d8d63721226685ed9b1d5068c08f2957a4c9a75ccb8c 0x43d330bf58bea617a79a093add65aa9ee1d048a9e3057fbe413fd721fb821c61 0x6e8866c7c05044a7d5fae302780ce9a107ca34fcdd63513492edde54a5de53b (-0x5b6aa73a735b44d7ca23de60e583f76a748f5e5f60731e3a8f03de1f5223ed6e);
  Dbl 0x1a66be49234670f868f627e6aaaffeb7a7ddacf295d53fa2af754b36c9883382 0xe88738bd54c93010658264772e89cd76eec5587f4a8834c190b88016be2a8ee 0x5b1a350a948fdd0573cccd865250a31a2cda9589761798bd689dacf789464580 0x1cfabbbde569b74411218fc184b2a81c588fe923b720d8115080597b1d9bfa (-0x690cbdf58acd76df0362e0adfe73268e3c144e5a08ca55f103922e0726000612);
  Dbl 0x5251b54e902c7cd9e42b496a0f1f54240ca6691b99adb4aa51915cf242eaefad 0x5728cdfc19b0c51c5466d7c905a9c6fd95cf99c9e152db40200555b24d3754ac (-0x1c3db9cbafdf0a1cc3a9662d92643d52075f376c3699d061a7cdfb57f2ebb012) 0x25f276d4eb760dcbe9ff72f209af8f899e2e410d3cb55bc39c6a53577a983fe2 (-0x4f12686c3a6747fb807b740e993888614c42bad64f60abb34751025a9117e258);
  Dbl 0x6e8292bae4c5d197590e9de9d9ddc784aacad256c5e80fc4b8a13e6acea44ed7 0x58ef83a818da8fa0ef9930de86b5810b806e133be8d8396a59c4fbf885b6f9ad (-0xe2bd2d2ffc4ec797ae827994cee71c3fea462ea040157d98c59f0babc6ca5a6e) (-0xff2e5cb35c0c78495149d2e48d70f04e2dd083be9346e82b5b2acf99dbe2a91) (-0x1bc9456c2134880ad2ae1052a2e94e3e8f61707d8c2c0c2b97ea108eb8fbdf720);
  Dbl 0x40d4ec806cd7e41cbabcc64f2b7eadaa694976ae8d0c2f4884c9e42acf784c90 0x514c5fb10dd343dd3ce4770dbdc8816a040f6e7f712417f98464435391031c4e (-0x1ca7f4807c82c691c82898ac37bba9a7367bbb40b7e956d11cd65230da1707d99) (-0x695978ae6cb003db3a4c18e9d494d09d81ae44b87a8368bc04cefc1acd1e7f46) (-0x2a3783057f1d94e1961d56688c817a756bc138c5d9a265031abddb3e1cd830fd8);
  Plus 0x631f5ea62fbdd0d892f7e45445486badce5bd1dc38976dbc40232aeb130251bd 0x335cd004ffb1884fe97ce3cef850b971bc9cb872d4ddec8b54f9f141cc7554c 0x0 0x2467b0278d3e9821a2421ad9f14dddc213a334fcf8316e94a4265f4bbe315883 0x27cb6169c5bf8e3cf1676f40f8f1893c1af9567defa9355d9a68c64316f6a4e5 0x2be3a12544fb8006549e349536516096abec6c3054f1b83511f6b028e4ee3afe 0x10a966562c02bcdc1d186774f5cf355e681dee875fa594516051371a53784717 (-0x2e30eeb158c13f848c8bd21a29841398a29e1ee8ae602e29d3d2c28e273e537e);
  Dbl 0x506e016ee24f840516fb6ebf1471ea00012a3b54b0e68e49739d9e84e0ed8c57 0xf2cd6d2cc090d4d3d46b87f70f567443d6ff41f386518c22fa33f92c0d68b00 (-0x1a7ad1f09376881952c379e10282f310b085a93294472e3d09e0a78192b24b812) 0x337e5ddcd2950f3b9fafa40b122c87ddc44d3f79cc4579d65a491161a99a2b0b (-0x1b29afb7e8d829b2dd79862036d2c2c13cb934d03b294df76753ad3a348693b3d);
  Dbl 0x6ca9f3f703d7470eff7c7d3eac0bc7a0ccf67f8b8b483a152ac1fa437814a956 0x3b3dda01d7bda6fc2ec149e74f8f559e061350e8ef050e9c07a39f604cd2a1c6 (-0x11504fbd3915364d0aeeb54eebcd2e924599cf99a587e724215b16db2f44faf86) 0x3f4c715ba4f59bfe54ae64f93e1dc771081563e093eb5f8faea6a59727c97c76 (-0x146fb3a218175572a99a8b505161552f944d2250368f7893365b9617e0e97242f);
  Dbl 0x6c4f4437ab3c482bee527390381748a8f8f3e3b7ff34b0661a0ba7c95ebc1b23 0x1565c419c4e7540c64c4b691768b8a85d751949a1d823a43fdc967e30ae18e39 (-0x1deffe52ec35dface74a24a1e3136cc572d5043506d0b3c7a60fa36c914018452) (-0x3f71173f69909f8f0c05c4440514335eb1ed99068a9f25f2136a57ca68e4afc2) (-0x224f434cf2a157363478e697d9e269de479e771923bb9e87f5630b40874bd2698);
  Dbl 0xa9e4808fd5b9c48c286aab10b6126a204229299593d52800c1a9f234ad48dd6 0x44438099b5fd60984b324bf4d57ed120335636002959845e483c4fa4c9646f80 (-0x1f602393922e4b29b9ffc4724ac043f811a6f7c5a01fbf778db1bb00cf1b37801) (-0x21a974bb45823e7638ea5d16695469f0171da7ac59b40e9e04b1f530c13aefe8) (-0x2268ad7fc7dc8693cfd6b4a59cf383e85eda6aacdd622cf19a5d99205f1e1391e);
  Minus 0x184aefc9fdff5cc359be2d484f7c6cf9c03c654e1040e103c3f6e3a88066d3da 0x18b4de31527699ae8ae7b81e8cee4a2947686e6d18323886692cd89891809436 0x0 0x5f6663f906dc5f53e087d8589d5d3ef2d1a99bf07f30273825747e81453e10a (-0x3ac2e35c01736cf344b57829748c714d39d95db3339df36c9134f9cd3ade1aa4) 0x26b479b72fe610baa1dec22e2cdf83e1cc22a73ceb810abc0b68e7f5104f9a9e 0x12f9aa719b5831cc56d8707e32e93dc173142a756d01db0dd44d5289fed6a15a (-0x39a17264dbf68d52a1889f90d89210b26176a7436c7ebe211d1f07a6775817f0);
  Dbl 0x23ac4ab313d1be9ea6e3a1ac6301a502b923bca24257deb3fec18b18d35d63b2 0x7126bf3ed41b4214af757255a6e4a549ef61e82d50a6f707d926faf6d306d2a3 (-0x142fed02a7fef5ee24d793e521e4d8e091c493a207eef34fa3ff0d8e3460c962) 0xdc59ded8a34b66ba575516fac97777c3f4e9967c04a00e4b91706077abd9b8c (-0x6b3ea5d9f45b2d679d14731e5b68ead6dac54b3d60086f278f114c121a2eeb48);
  Dbl 0x242dd93663e792098717750d08c4bf5c0ba5926cc0a3c4553aea9303966da2be 0x6c89b779abb458d7fb6c14d08338b8566b6bef4316f0f4908599b6466c03e5db 0x378e1a8cf864fde56b3be0cf921f4c6abbffef1e05d6407b691cc60394144ff2 (-0x44bfdfb8d869265efdd832ed98430ad30c6e13523cace170fea4279bda5bce72) (-0xa7fd3981adb7530399f7ddb50c57fa123cb2cab1ada7728153203b4bb4872f78);
  Minus 0x66b814b9d6181c0b66eaa7ba83c68d652b187307029352a705c96f85262cc2ca 0x26e71d6efc546ed367f1ad4dbd8ee57c535f7954d425116ee1714a8adf6bd9f1 0x0 0x1450d0c64607ced157ba42d723b44501c04c1fef8bf0533b96e565961cccf0a8 (-0x1d6dd01ac69e974b9102e3e675866855fa976c9bb3400e27796e4cf630563daf) 0x4cc70775a14871d5575d4d4e6755b886bd3ec5f6a948e215cb374a6e7a8126bd 0x49c2c41bd96e0e307b7c433684b7182161e5177fe817770a2c8b4ccca63b431b (-0x58e2034c8e0ae147b14b8d376db6ba3254afc1484092dad8849f0f68c976b962);
  Dbl 0x3f702ed92780c361dbc568beda0ac430123be89d755a3fcb04e94b4138b9aa4d 0x59233a93752c513d95f3ce7f1d5dcc995a470b5d0edb7fdf7862ce909b7de446 (-0x1ba0509e8348e169032cbda856a8eeedcff81a7cecf7fffe16c9f2b741153ce61) (-0x12506c778b253e38946c39919ee31a5235933baa6ade1733f618ba1a04d90ade) (-0x21b43b229729f0086a1de4433af91fcae7d6f167d680514f71f76031c9f5fd29d);
  Dbl 0x5da9eac518bccf8cd4f908bbb4958f6a225454a08f93b52d71c850668d2a4d40 0x283e7713fe70a67ffb22bcff897aec092e6fa97188f1996ea729a1e706d46fbd (-0x6908ef81ace7cead38cbc1f158fa30c63725a1211ed36212239b42a363b76f84) (-0x10fc829cb278207f9d4a7da32070b02d1a89dc01fc0c3bd3c0323046e267b45c) (-0x114ba9e98916644b47a934f83d4ba564e7b56c54152e269708756883e2a778426);
  Dbl 0x2fbea3da862189519982b27463e86d645663dbbf2619ad35452def946f4814ce 0x4c83fa1c4766fd1f482d79932fce8455603b438f2a3bedbb064e543eb06b6c56 (-0x16c67c1dd3dcdfd5ba57484cb743b238fc8be160c8d93db2efa5fdba7d696d852) (-0x2448fae6d0a78ad898945af7bab8d7826bc86fdefa9892027e4a28e14cc06646) (-0x1b669a9878fa5f50d2f2be42798bd930960bb2491e620dc37e7b0d511dc82bc6f);
  Dbl 0x1c6093cd91dc8003efb34048ce5ee970a0623580ffe7e6b3829a9429824749b9 0x1c1d1430170a12033ade36c75a7e259b8e2150046450238cf54fc83a0bdf28b (-0x2fd0b7f645ca4db9a610e07bb1b20247b5335d44479b51b70eeae9eef51901ac) (-0x3d7f6444eb200b393bf6bde70247d3ca3f2ae24171209987d4745f4a7cf66d8c) (-0x94ea05ab03219e98c1653f04f83589cd9a7feb3e4b22255b66adc2e0e2561db6)] = Some (1203868653296552003350173082241418160, 12835397177413219504222844415462065390194127762470351101290787102556582005177, 794758603540045829340444428864400005090117929806413805979511064420666962571).
Proof. vm_compute. reflexivity. Qed.
Lemma chain_8 : run (1203868653296552003350173082241418160, 12835397177413219504222844415462065390194127762470351101290787102556582005177, 794758603540045829340444428864400005090117929806413805979511064420666962571) [
  Dbl 0x44cebb8529e159f27441ce4f931df592d6b5b17fc4c9cd4f914e4074b14e9b76 0x256a92e953733cb1d031ec3766259a7cf0ba3c4bed1c01845abfb817978b1882 (-0x22b465e058682ee0d93a3a49f5a0ca8903b3128d4c3e8d04a47bb47bf56e5a14) 0x1eed5d7e78a1661024c8047de91d9562efe213e9a2df7b5eacb83eadfdb0522a (-0x340b1a597f957d116292189680a59a5782e4f402df2404e3b47bd4e9bddc6f1a);
  Dbl 0x28eb32257f2ede606d37210efcd899722f383b222f489139776cc5b7b228656a 0x551b9249a147ffd78b2601110795e5db71e24f644684e1f255c70b42aa218dd2 (-0xc01f4cb00e8e37a68fddbb1a48b9610f71e2084e9c049ca187c86d4efa58dde8) (-0x1d7dfc52c49998d7f5f9c4ee30d9989d29391193212e23e1d7b6a7006d16d728) (-0xf75095ac5115fe2dd60dfde935e81f73443f48eb96b8d499d6f1ef6be3b853c4);
  Dbl 0xeb6ac351b0304d47423dae7a96ed302783c59910a5f4ac35c17c664c0b2a430 0x6d787fd13d6b9985a7b82e0b44e82cfe84cb172ded09df7b9875e2bedb3e0aa5 (-0x9bbc9548bae7644ef971bcdb4dc5084a50671cfb60d7cdd9bdb0a539ec9ee59) (-0x2e0fda98c31087bc2183d18eeee98ddbf02383e5f8347e9905895e90b60f0a38) (-0xeefe481ceb359b5569d1eac92e3ee8d8adea8ae7ce9bd4ff1753b9af64a469db);
  Dbl 0x1031bf1838351a8a3c6b9570bf596f1758cf1c8d9b7a640ed6af6aeb7d644992 0x4bd30a678293691422f05376fb1596d89fae4ed3c4728a027b9a08175065d196 0x5e091c5f84a0aa569200aa31d873ea264535504800b874b70e6fbef470d6bd2d (-0x10b68566d853aa7569bdd81c708e1e1209f137ce2860e601c8a61b7269f4b8c8) (-0xa4908ea1ee3babc3aca2d187430517578ff221d7614f306ad82725ff30aaf5f5);
  Dbl 0x4f08a4c36ff2b53324b6f82372d457d7fda1a8aaf2f2243866241e2f59e8c52a 0x43a86f384e1992b01300fa665d6148947f7a8318dfff5718ce12fd8c24b48a6b 0x2648628cbc478c2e8e3a3137c91ac2fc15eb223f5b55c1f2652c70604a2dc64e 0x267914499215453e993d85941b99ebc40a3820f114926e324c8be5579aadb3bc (-0x6ff9b0acaabe6c793c1e947ccbd9186b141a4e2a4309192ed67f1505d32e15f8);
  Plus 0x33258ea334d783da005df600e4e85ce7546b0a3e984abafdf5588b520a82ed59 0x16b84675133d6217e0d3ac7632367a744e93b6438586f5fd583b2c4dc077c2ed 0x0 0x2c6141f587c20c0efa283e6184ab5d5ac3825faf675a368628d7eeb074f9e7a9 0x25f08bbd0184d02c7a7513db9fc33340f9305f9ee0dde776500ab9135bee8cfb 0x5bf0c1350c614662e4466e4b6602838f5bb94e9751da0009acdfa0c47f499426 0x22f1cbc338cb4dae88cbf4b4ce1c0f95293e3af4ca8bc2c6dac2f58fb3c50a47 (-0x3583c3ad69aab541088f1c3dac3f117a12bea75869444be8e2e99af14e01b7d2);
  Dbl 0x5bb407998e1393bb18c30e6c49e33566307664d32ca4f74b7859e72bad23207b 0xc9613e7f1b8dc5ebcdce1f84229d20945d1e83e18719fbd8d8dfd18c9cfe901 (-0x6c6002bf682b16744a5632f4eb20ecd0a070d89485ec9a633061d0a198e6709e) 0x196c751fae9be5cb65169229d4def88dc8cbe3fdbf941d29b01e334c720acd9c (-0x7b8573e9ca0ec79e4148d86d44a9db96962deb6320be36d052bd8664bb8e5f6e);
  Dbl 0x3ba982ba247611836df1bde55b28ec7d783f0aafc99ec3c851224fece3fbe97b 0x3c0b13ef3e41db7de4a050fc7b15b1ebac38be61cd93ba7cc47970616a45c516 (-0x16955db5645aee09ed383e1b7e6abc4a94047e308e9cee73953b8a6a7f2479aa2) 0x1397e638b83971922f7f9a1f5f351676d0591b7d537a00bdcaff8e2679e2684c (-0x193d38aedea76cc697c3268173dbfd1cc94144468576cc9afa155462f6b0bde96);
  Dbl 0x2a94f4ebbf73906e5f0d19acc4f56f709727467da1fc90ea3179b05466a006a3 0x272cff8575de5e4b14400a099b37d0a66757f6a344cf985fb592e7c6e1db4027 (-0x7a6d1c2263e81a3d2ee55ef6ecc531ab5846314000f2c636ce4188710ddb1af5) (-0x27d582a96a2df5c4557da04151ba5aab793a59ea7cf98e468cc1a39b15c23390) (-0xccd586c03c7d823ff6ab7e7aad4d4c61f9425b638b87e625e3d954d83ab5b617);
  Dbl 0x2b0669bc9892dbaee160eb738b26dfe693ed7e085a14f7dbbb76c696e2b76e75 0x546e7b10c75ea985f3d254aeb5a6d20b07851816ba7c97d97bdcbd4c7d6a5d46 (-0x40f7262f05ea0c3e373b38e29d9ce2b923c7f53215b8e834a4510021c4290d4d) 0x7beafdbd01df631b0be510b00807548248290155b86e57ae341ac76af2ea55b (-0xa31e15474ebb334fbac1eaea8fce1d61c04e0e54b9b809a7159cc4fbdce89978);
  Dbl 0x880811538b29fcb96ce9e4f224b010d72ebb1799217fb69f3213f6062033034 0x365872f27a0668138d35b3bc5bd9433484c811f97b88e3bfc6fb7d8fc270669e (-0x125929075d641b9d05a2ae74e92f5169300bb62d5ab684e13643038df1f445c6) (-0x3d95cddd050779f3e3a732e11650f7c4f1ff3110cd614366a6d3d1325d95b958) (-0x9445ffa6eed1cdf75ea98b2b8262968a11a72bbc23ca5944cd4444b9c99ab44b);
  Dbl 0x6779fa8dd5d91ea39956b7cc830ab70155b2959f61136205062446571a7e7355 0x2a2dfda96f0ba5f16bdc1a53951a9cc4c43fcbdc40eb249b38fdd783df38bc06 0x165bd9239f253eca6dafb58cb84be46098ca8d5713b3e35e09c0a99bdd02cfd2 0x592ea6128993d8138aea3699648398991f1ea1acdaf5421090d1f36c4d1ef4da (-0x443238e2f076943bdf352a679ceedff14a31a8a6ec2cd47f7ee0e0e03dd31b94);
  Dbl 0x4aa2050de30b994c26a48711d1bac88c5d03aad219eebd16a935c245099cd9c3 0xe9dd03322fa910cf25d15f422ec4d55fd4f7f972cbbb44bee935db1cec68879 (-0x1be76b0f890948fac0ccc77779102c922fc5f132fcff2f379a1ed09722413855c) (-0x13176cfb7f8f22e572f8ee6acba9e62908aff0ce0575e0dcfe615125213b393) (-0x1ebab938fed75b9eaf13ff7ebc0d47ad9b7fabf4c5f789e6699dc2b98e8a04b1a);
  Dbl 0x1c38154a03556aa7832086d27f222b877d9ee5c6bf682f70cec05eb7f8858fb6 0x627a0970f2947cf6ea36830599998590496836ac79743a9df40e6a813e5a02e5 (-0xee650ae56a667f991237c9ba5efea547fd28a8fd508ca9cfb021d55b5bd25fd7) 0x31321ba6ede2b70e379b9513af9f7a06d87b893cdfb7903240cce304bf4c35c (-0x13e7c6587e6efca4f5dbaea6a70f9027bbc1194b10279c5de81ea4c3493d1c37b);
  Dbl 0x71acb8c06f2982cac5acb51473589fbf632fc87d2f1fff8e4bf26f39607da4fd 0x21cdfbd553087e9d5fa85a6b25ac86b757a9b29acd8cc1e1e281671d862d0827 0x314e98ec175fc99de083857759d82bc2b749227b7c134f962fe98cb95ba0eeb4 (-0x14cb21583a0fad96c91798923f14dc97bda1e0c1ef903e0dbd96068790d8342f) (-0x7e1223f16856cfe3b8da05d58d03c7156792938b163f6ded3ff420181cd8dbf6);
  Minus 0x34a7bc2fa8097e86a28d4362bc2c5e99f553954f3716eefe193cda58371d041c 0x69840b56a1b0222d31dede174ebfe365e52cb653019a01b71092e03dff7002ca 0x0 0x3fd4f578523617c5b6439c73c05ea1cb2b9ea7011c4a65bbdeda524e4ab10cdc (-0xac4f58e100405b4603ebee02a52de2a5b90d358df445dd0c84565e7f8752b61) 0x27e751b6a1492e7b936d523a10a1516e06c01a132bfd2d27c48b2c8423268479 0xc9e13037c3864947700a8d235a4e4482213581e0a5dd1aa5c77e304f734bee (-0x149006f9ab47a3759be03f465a603c68041d7976872711a112c029472434d0ee);
  Dbl 0x3016f63f81291008a3920a714f27c71977158ab2e2675b69fb821e4afc2542e3 0x6e266feb98884ea54574be615df0f178212d8a391c5a451864b9067d13134157 (-0x178af36167b7ec6ce77db64248253d2e59777a810442686707f26d3247c702e0) (-0x5f98b1bcef1dfad060cc44576b75c15252fcbdcfa855b4087f2e8613ee0d5dd4) (-0xd8344223b2e3da2b22026f402e17691f794bfcd93aba58d8b298422c342e90f2);
  Dbl 0x2aaa5eeb74b2fb28dfe414abaa5ae33e4b70421fff515c68335805b172a2c5ec 0xe4f563b40678877712bd969badcf138a33befde8bdbd1e92b073518d58ec979 0x4ea9f345ef68569114336fe485589b9c68ab759c6f8ec741048296c83adb365 (-0x3c30bd5fa0a6e1272e4f0e4b86b0d9388b93e7c122c28c1bfdd208f04c2d9536) (-0xd6ddbf62b70d66a0fb1e6c3a89acddab5bc9b91bcc94372e4154473c1523b953);
  Dbl 0x13a12e37f7f833c932e797e6d7651f2aa09ac0c22aeeb711c55e780adaecfa76 0x5fbcfc81764e5aef4045c7ed41b91c12f0e4e3c62dcfc0225484f5eb087feb0f (-0x4cbecc6a85a993150df2b4aa893dbc16e2f56b7544eadc94abb37f41f9ca13ae) (-0x1b04c8d05bebeba4d1694214b38992b4fd11580ecde77bee5cb8bd991df2a2e) (-0x7b6a09756bf9cedee212d6b36ef01e2311655469db95efc4768a5c61a743fbc4);
  Plus 0x6ef6a9b74745b6dfe64747e28a83b31574587cb589930589568afcb64d2d4885 0x61cc620f4519824567147ece7a710e8d1de843f52ce851e63611b2a5e49aa138 0x0 0xb05cb7faa91555aee465c9701b5d052f0e0474c2cee276c396d8b73603d6d11 0x25e465af3c8ddd4cd41a61818ca6ebcce6aa25ed1c2fcc7d83c25160eb3ebb4b 0x1848391eb07d8dc71743621e7d89fc202e30954ab0d38ba20e014e4ba06b16e9 0x6ed800cddad12c42d746a8bb67f261eba623c361a2432b23f5944297951a95e4 (-0x9773eaf049e398ebb54dd5f446745235b5a366ce1f9b614cea24ce2e1fd7054d)] = Some (157793472124885664183113886235547161071609, 50190229058403484490235811825840112527148589309908580252507752819366908741765, 44235459896609857424165194299754279404608952307048734197123839836901252702520).
Proof. vm_compute. reflexivity. Qed.
Lemma chain_9 : run (157793472124885664183113886235547161071609, 50190229058403484490235811825840112527148589309908580252507752819366908741765, 44235459896609857424165194299754279404608952307048734197123839836901252702520) [
  Dbl 0x4fde8b2062a261b0b76a48b9a8647c8a0d1b118e6fea5207ca01f48bd8550f5a 0x4f51b59a74ec79278fa75e05b3033a7d173841750994531c09ad71c65b028786 (-0x1c08d9061a11533ce6d8abd5b1552418b894f8013010f2d6a024d22292ce3b8ef) (-0xac4136ee3936ed2437831580c42844f42f7870e5f76284716f1f62413c0ff99c) (-0x2746c336833b8627215baa4d03171d25383c7da5e17dbf3b368b462f6f9d353dd);
  Dbl 0x43350cf37fcc8b286d7fca2c2aad20889f998e51069a10c03e6bef6cf8743c71 0x44e18be67a0c026b38613b58b8a3ba277bba5b56195d2a0f6399c4693fda084c (-0xdcdc50789e268713b9876712c359b55775f06b03343829df815b6461dcf1705b) (-0x62efad49af25babe9a1b9e3ebbd838c213e8e5ed8c1d0b4eaf640c5498c0991d) (-0x15404c5dd76b7d97ab6da683e0a2a778d158f897534113e3b11765ffd30919204);
  Dbl 0x49fcbf759810b9b77aeaa4a9797cb3584fbd8ecc9f93e296377ef90b2c87285f 0xa506bf2e62d4ee9af919613ab080f626defe8e4bee967d4f829db1200f7d1dd (-0x99e22e6ab8cca09949b7b723e721580725577c699e585d8ac9e1d4deb5d27107) (-0x4a49a28d9b20c47c43b7ea3b1f91b07ef2ff026ebe5da871cb184c1eea82468a) (-0xec83d6fb95338afc2c5af83dfac42c2a5e5cefc3aa5a086f6c971648e73adf65);
  Dbl 0x37d012a4534d95bda9c0985d3240708672172a26f1538020f0110a2fc347e7d 0x3de92ab8f2a64022c8ffb568817e571d637a78ef7b3063375404b92df9ccc391 (-0xeb2e81801de5ea493e77fcf9c23dfd62584af2f7953db848419eae7e38571207) (-0xa00761a467822aa50a4e79779c61cbcf0634c00c6098563c086d56af800c227) (-0x12529c8eb949faf2cfddde2bdd80ea8db095d4fd18b6471552ed8feddadd88ba7);
  Dbl 0x21c75232e9bf785f9a4291dc609173c75c0cd93832962f65b57b56ac0f79a84a 0x67b88b5a948855a90f5df1352bc782b76ba822ef93d7b7ccc9528f7d073e2daf 0x2089cbd1909aad175079f402aae777fb450b659b68678e14b38c1ff75073ebbc 0x98c7732eb046e41a5eb236d9af397254a68b9b4f4c6ea315c185be32c858e96 (-0x4a594526c6ae6039b301c6631b6d4cdfeb2a58c0450b63a32e3599e08096b938);
  Minus 0x6786aedcb3855cae0695325010d6d5c527e280366ac4c1a04f9dbcef14be4144 0x479363a7c75a62032f83360b949d772a5eacf07f568a403dd4b8b70caab09e2a 0x0 0x12f7bd4366914aa2aa27a1ff668472ad456fd6a44933dfb0cb86846a0540b916 (-0x4d8141fa95cd45212ddedb5f8d9def692e0d69781e4343078a3878f7bb89c9b9) 0x56270b944411116687dc6e3b98a7b724527e7c722f178cd22baee660c03db7f7 0xa673a423d189557b96c671ab79181d088ee421f5834618c637e0b52e6f6e58f (-0x416f6079a05aa0bb73b5cfe198f68aa2940527d5057ec54e631643071ee1739b);
  Dbl 0x720e5d8490657d8631bcb71f0972a8efaf72ceb18b9c20656fcb4cc23561b3dd 0xb04c18f8217695a16919eb7682ca44821326dab8fd79ab3370d2821b9e60dff (-0x1a20fc5c7c54dd09ea489b7d084c4673bf1d8288ad31bed2e8d1efed62c6e6601) (-0x11ad7c7e91a42fc01c7db42df89362c51da8fb96ac83aac1839ea2738accb0af) (-0x205165ffaf3fcb18219fdb8181ae42254b716e584ea8ea3adee01ffdaca0ba8a1);
  Dbl 0x129ea507fd54512c147bb0b918e368e5d59e7609a78ad9395b38dee78b841535 0x1d689ac7a780e5cbbb06fff6ff5c1b0753c1dcfad8351041c2e6ba3373daa8d3 (-0x23005fbf0a994f0fdb15cbb6c09082f1c8a15fa09099d189d38aea5850311fb6e) (-0x157458e049417f843aefaf649b415216853daddb281c39037d11538ea307d45c) (-0x23279e2980abadfd6c4917b363865ebf0ba1956038a94097288c8a898078f1a6e);
  Dbl 0x412710d38cba8447473a20302042b050cf4fff74ee3aa37066a02f95f23e4ce2 0x18509b96f5dca89936d7e060b1e98613b51bac24041f24b13d8948a6341b3a90 (-0x77e18d62831e48223fb4722ff8611daafb829c8b70116d4dd3bb8e3e5914674) 0x2dc281665d2336e8a88e6bef87d0c05bc76a60f76c4512469ddafe8544c6f1a2 (-0x2b042e66a651291c0b1f30bd27cd4515c739db6f5c60541959fd5fee92f3d1a6);
  Dbl 0x72a025c925506c604ccf148893297a302ddd00a8b835d71477eb39c102d98d6d 0x2451438643bf337d1e0ed6196edcc6f7abeabbff848771df46e12eab206f7a76 (-0xb1fb40a5698eace4c6bc2a4bc2874d44fd4868ff99dfb629643fc660f5fb32fe) 0x159251c828b9a4fbdeb9675f172d98f3605a3cf54faa6b2d83ebf013b647fee2 (-0xcbacc795e685ae1789fdebefa274d4a81f6f9c8ecf0d36b527748bf0eea1da84);
  Plus 0x40cb6599491747a012a440731a1ea54bc52cbf80456e217f08e3c2bb0ec30f23 0x5cdbba062ca1e7cee2e99765d8bc60def8da00a3833f6b99d76bb2e4ea3563b4 0x0 0x405da66b70d869b807f301ab0b8e543112fa5ab72d8ca42a066ac70f6f8645ab 0x1429e2fcf6e046a9065f0b25004c9ac14b285437ff499b55d3df6a2bb36310ee 0x45702e1ee1fbbb3939c18351a0b0fe97b3d1cb53e3edb16c8be27d9f0b072c5e 0x18a0017514c437f189b2815e6194a310e5d5ff9a9886d3c988a7f1d37682f247 (-0x37af18fc1388316cad94115cead1e94cfac5b93fc3f8c2cc2b40547cb2be7d33);
  Dbl 0x40c1a01440064af3af2572cbed6cf5c68f7383cd8315314c5051d1376ff09349 0x5af22988dbab06ed07ffb36dac106b67b3c56d7288824e62c1be6830a385162a (-0x6ab1f0f3f92db77456a8550eeb29e460ebecedd9c2c0eaaa8375af804cccd62d) (-0x3ac51498d4f90f1f60391d3fee6e3b3b24b94734f257d6e2d9df7db09dd0ade8) (-0x13eb23751208baacd3991680643738ad9754e0917a9c16eaa38d48d866fedda49);
  Dbl 0x2d393693f3b9111b7263add466e2c1797d7390fdbe42cc786c9876863376828f 0x19043ef02fea9c37071b17d1344e69a0bfea16260f81ac93206d3188383771bd (-0x6d838bcc6deab96b6c2e0b251998d09335b2f7526ab88fe45823c305659fb6f9) (-0x4245aa5871943863f3cff6019c29505d4c0be91019d84a2af54d878ef94fcf3c) (-0x10fc0a1aa042b2ca6f165aa025a3f9afb4088e303373fe3b748a09767cedcf027);
  Dbl 0x33aea08a7e14e63451f3aa58e672a0c2f3f8dfe11d734622a322277443bfaf18 0x51ae85bd7f18b175340f0b133d31476309aebf4e593855b5bb316f3badcca8d3 (-0x52cf484fbb108111d46328512435e0beb0a1f0352c9d68d02add1dadc242a879) 0x1208fd3763ca71a34a2ba45f21694299cd356999c9f15da9ef4148e15a8b0c92 (-0x98f528e3c5a673df300d8ed5dec2fbda078bf56c8e7fe9864c86e1285e6eeeaf);
  Minus 0x3ba9147d5fb5d8e712c673c6ed4ed64b838c70ab861c4a39a541e27bf6f55b46 0x5afef6e83bceaa1c10a4ae997f5dfe4f2e797be4dcf86b03d968950089cf3828 0x0 0x1d0568704e76af05c3bdbdbbde85bb96a5e8015254c88f24071316c077f6c1b2 (-0x3b142e8591c96e306a8b53e3e35a5de0bb27764593f838b63cd4d8122da3d763) 0x3e3f486c4155e3e558dcc5a71e0e725c6f467c0b241f4ee5bedfd81be974eb9c 0x3a2860b664f65333521b462ae766b2223418c6d005d306fa3d215f638b29d455 (-0x86921cd37a115de343d3e7a266032ed312ef2edf2666eebc9bf302eb1387d80b);
  Dbl 0xa6e01c9e1b709c157733b57d226bc93cbcbc018ea44a52533eb2a3f33e2fde6 0x68e9ba9ef2a239bbc6b66be00f43c86d4af6f8282a5a13be9ae3457327cb2805 (-0x52171f204818273d209b47961786261f0b469735e05a13af68c44a9f03892105) (-0x56c1862421e86c3f2054e5f2ebd4b4961c3ae410e486418e545a1d6471bf049a) (-0x1266107ee36e95e1d1a2c86a020e657bf31c1afb42699ceb186f00681a2a153bf);
  Dbl 0x1f5c13a4c4b06b32d689c79acbfef2070165685017b0106b8210fcaa8ac1b106 0x6f2d6522c7ce06350a7c93d203621f11969a8e3d9de0a596e396511d98a54110 0x5a40b0104e6da7b2aacde4bd69445eca5faac4fcd60cbbe0004a8015f963b77b (-0x6a862eebaf78d2ff2085c5b177b6abc7f054e1d25ee361555e85450ee68ec80) (-0x8ef51a8fd27139b0169092fe9ec21e3a09cc80c2cb348addc7ad0ec58e7b43cd);
  Dbl 0x67e906fcb4a55520dd419239861ddef4366ac2d9c2beecf4679a40b2e5efdc37 0x8d6854582e5f1211d5a890aef3d0da90f31bef5b2bc89528b2305547a479106 0x4034a403c0d6b0c726697b42074018bb43381250c79460cb2d047e6233024b22 0x13341de87f557e1b50768108cd23c321e14a4023dee913ee6d1dc941ae561346 (-0x9bc920e2ed5beef524b85ecedab991c398df51ffde5ef8e7a90c7eed50355ca4);
  Dbl 0xcbfe20e47e6b998e5c91a7ac5151579359932f399881ff46657ee0a9acb7392 0x72f9d9efc81883042a4a5fb686f5010aed9753439ddc464bfdaa6795fb08907a (-0x1d1044227b02bf9d4231bdc7779311c3966c163ac941dd1ff7df49a41d09cd915) (-0x498127d860bbca142a747a5e03b62ccf38eb9fa383048001a21faa35b4bbc0c) (-0x237d000f057cc769040cd62046257a93335101aa2d895f70df852dc054c80536d);
  Dbl 0x480fa64780a3aa2991344fbfd38b6109f6fead1dae1ec9d992b27e29ed1df65c 0x4c06779ee776e66dc7cc189e939f9857d21301811f6bbb22bd4c2ef7269c9227 0x6b05474b55b9cbffee511f503ca6b0baf756297d12c1003e2b3539bc410c8337 0x2504252eedb430697ef58880ca85081e4f42a0589d675dfbce5da7166bf9add4 (-0xbac68c01ba16659fcc58bd403cdc571ea0d7295812705daadcc7de9dee92c179)] = Some (20682305978353013775809103296665637495977930976, 32594175421563937413782482912868210724683691756933124076319732889404317759068, 34387203166579809353972897014658018165416748290978971343035362582880747033127).
Proof. vm_compute. reflexivity. Qed.
Lemma chain_10 : run (20682305978353013775809103296665637495977930976, 32594175421563937413782482912868210724683691756933124076319732889404317759068, 34387203166579809353972897014658018165416748290978971343035362582880747033127) [
  Dbl 0x3d7c26767c77fb47fd369350ad6ab554869bc00215458b1503f1b4d981efd1f2 0x1551bab557e1977b173892714b76038e7d2af5912fe7cc91fe39bd4d0c6cd0e (-0xae1bf62329116268163b17e94f0912aaea45abc89c4ab26c67ea9151439bc6e1) (-0x55ea765361d2e555ce1735f4e5a7089a698b8bae6da3d47844a2d7710a356d24) (-0x11202751de67a5ee724bc425c12feabba932e4ae35bdc6366159ec982ac08c841);
  Dbl 0x2f7fd639a9f5cf72378162734ae35f3438a3bf99b1dffaa2dbfd5a65bfebf321 0x5e9236235c120e01f7bba323246e68d1b0bc52fa11811c40294eead3def6251a (-0xa308a1ad1627c80a0d6e57b3dfdda87826bfdd09d15ad0cc8c7b7b8641182def) 0xc3b47f3a13d238ce1ff188f5420c2cab4d9e4d86f33bb5c8c850cd92f426d47 (-0xbe3b3ea60489e51dbaf5c64f744509cc02e7d5faa77b3b86d3f1a05bb5d7cc0a);
  Dbl 0x21d776b7bb902997432c8791e4f686195cc3403ae5ad8ef793e4813b1efe6b94 0x262e259ffc3a6546cf4a07f373417fbc36404edcd444895f3b230da4c8b9d0f8 (-0x1429403d11b320e2cf83470fe02d1ab0e2d9982cf853afe83ee8ff53ad6aade8) (-0x2dac460c57a75cba15b958d25ac68b622ed9afd51244f35c550f06d4a76c02a8) (-0xd25cd1b35b845640dc6782fbebf0c5b347b85f3beec7919a89a7df8adb1c24c1);
  Dbl 0x131349d41698a4509bf6d48ae4810078de734eca321714b905cd3a7f196a156c 0x405356cdce75881dd48c5815324383bf1109bca4b5c66d6242ff9ca7e8bcb74 (-0x24d215a240196f4bc696ce19ef580e734c6b17dd65303c59d8580774fcda56f6) (-0x608a3a7213269d68a86cb49ac532d62c7f561bce3ad7d63aae5e55a818821b8) (-0x41655a84ff6c007a91cb25c35aa9c3968743502dfb959f3c208705c9f63f0960);
  Plus 0x1f276844d3e4227614e4d584d82d887f920d0c581fce42ae5fdb973757ad8fb3 0x6ba38cd42f89d8e4377548442c311516941d5532d491a52d8d9750332be96671 0x0 0xab61e39c5a3fb9fd3c573031778d6c3abffe0f559aa415380fafdf24ebd9559 0x26e6edd22e7399cf256b4e9ea2cbfd06955de4d2f40bb07be057db0ead1320e 0x371a0f738cde0c50d00d6fe333bec40066eb15413d218d2af5b63be4566e29b 0x1b88c082a47549f235edeaf573df000f65d8f66dc861817cc7e495f98abbf511 (-0x6163d41836a5903248d9f9f270773b4f90aac26defecdf5b295d6d23c7338b36);
  Dbl 0x41a15c56eeac4ab95f2116ac539904e2cf3f4d55035adba96598f32f58d0e143 0x45bf48d6c7f76577c5335327adfbc0f4bb3bf138972c42c4f95ccce42ec539e9 0x3a14daedd470b3da7a20c27bd11408b189ecdf8c2cbebe0e6a85bc9bb945591b (-0xdf6924bfdf44a44f1b23307a6cdfdcfa94ffb220f131068b14e8b697011b5db) (-0xbc71ff000b52be05bc5b6b6993636f2786abfeffceb5114d14dab74dd000817d);
  Dbl 0x2bd570724436490ce7b9c07e8c00b38d6df89cc93f71ad6cb1064330c2028fac 0x22ef12b40d0bddd5e7cc7f5dffc79af0a83bb9f31a46a3ad8ff7ffe60199552a (-0x8fd02a7e3971c09a26d817a82e466d3246db4d1a08b7717912fb078bc26cee84) (-0x419c579617bf00e3ada724f1a7f51864b9aa40ac7308427cd1f060cee4a74616) (-0xee630c86d4b5560807eeace2f0721974826cb49348d915a522d8520c3b671b7a);
  Dbl 0x4b43dbfac0d3205e30ecf5e658943456b413fde9bb7a97bf1f12461dc7546cc3 0x1d1fbaae72220f9a31abf1ca3f829d6239e59c0ad614aac1193007a959a1ea01 (-0x4857d31532807fcfe1dfe0d54de58b4af3e8dbc38276cb3f08eb1b3fd67b7acb) 0x3d4340676efa59424c98c740fae100d86d9279837065eefa860bc8819a0b26d (-0x6919dd492119057a904dced44fbfb0c987dec084b119b02bc922aaf1f6825291);
  Minus 0x354040ddc42719b92a5bd24b8c68c9291036d1aceff36dc8761d90371caa466f 0x31fcff8de6ab493845001864573be0e38f07dd80ddf661cf36bb148d0f08575f 0x0 0x2a438055617ce86175d743f267d091242c9f38ab1707c352fa5de2fc308ade85 (-0x13e498bce37c607b3b4c5936fb9378d0f55432120affe1c9ea7a3a5315126f94) 0x8e37200d3ecdb8553feb778d7ed9c20d23d27ef66aa8d4ba3a0dc9b1543ad9e 0x201c4cdb9b5e7909ddc235a816618cc2352fd2288dce21a03b9ec5d28eb6136 (-0x123ce9d2542abd3d5c61b188f32017ffb05b580d5e283f86c7e6da8581721397);
  Dbl 0x1f3a47bee592176d3ef0df83e1b6731f70e4ad0fb40e8991c68cfbf63c00976f 0x1f62e2a5aabbf92a2fc892160c5f4968f6795a55e6565202cf2e1294d22b5362 (-0x64bf68a87d26dbf105f4c6ce8ff06d66f15c75288c2171c6356b9fddd21ab7b3) (-0x16dc85a5d724c6503307ee357082051da40a01718b469604f4240e239d587521) (-0xa709734a4e1fc3f8d0f5571a2792728711393bef1d39d8e0cea6dd72a6672e60);
  Dbl 0x14d1bc568594ec1e52f0a0543058bc6b6238b411aff6ec994adcb1fc04f84b57 0x23984ee7ae889f8202e62a985c24cfbb2eb8795cd641d076420da9516dd76dce (-0x218fc1e89166e278c570aa63b71e31dde2c90359f2544a05fd57447fe83c0745) (-0x40ffd231ec26d8dbf47f988b0cf26daeec292b4f54b618e95ce952f143290c0) (-0x48853e805fde5752bc0eaaf08587dbb7c51e9ba184b85fcc52c4c3d0937f3585);
  Plus 0x4c7f8e38c56dba1568c2d8bc172ca42448e08769e06159aaed1a27ac35bed5e5 0x51ac71c883cc0562319ca4445f32f8d1af0dc0b781293af10ddb49a490975def 0x0 0xbb0cfe54e5f1eff7476d6e32d511b68a2b53154c7d5f9932705a3fc9afbc0ce 0x1658fb810dbc71b3f1ba580b0374145e2335f7a6cae56dcca6da13418bb7e261 0x2eb89d213f256db24f9e437b13ee5f63026b2fca1da497a83b7a73636067b102 0x896ce4fb77e6741481305dbf7fb11f293f55953395400ede985a3e3c9dc1e9b (-0x1d2867f2270113f31b081d2fd461b747b3d2f7cf8374c65d48eeabae96b9e999);
  Dbl 0x613c1e33240ee5307cd6ce58c66b1ba86d3b34a32c4ae4fa9dde6a215e5a4ba0 0x1a46735e8f574a8a21d862e81e758f97f374886f87d77629371796ba24501505 (-0xc2db295db1f32e80a48f7ac5fddf43561332616d82e46a7a3e1b58b26a4afa1f) (-0x44cdb5ac44bf176e537205d210beb125ef008be159c99e61d76a1da01824c0b6) (-0x14078d0dfa0884967fab9fe4af95be21b5e673fd8e459f866904557b25a8fad63);
  Dbl 0x6a27acfb5c77b646472b8f68665f5939041cb11dda2f6377c556c9b2563674ce 0x240af3051a2fd6c054c47af43a97428a8d95258fa34e58a35eb7c3aa93c22c78 (-0x191d2b566d660f54f5fab838fd66ee67d5c1cb14d8b71373846c2d6f6b854e038) (-0x127cb3ab50f94c2f1352a07bb7042cd2f40f1b7a6a43247ad84cc4b86fa3db12) (-0x1a66c0aff4543c479055cd5719688a7a2083e9dd328e286180cd6160e59484f21);
  Dbl 0x2da38865569bcd2f30b3ee91418030bb8503e8e688a4a7e009b48af0fc06dd08 0x6a1a3a393a52915690658695710cb5e197f4a0fb0299cfeba87f1c5f7258f3df (-0x1dad26d20cc6038ccfadf19421f32978f7bb8c32fe818d91b4d3c466239694bc1) (-0x32e1207ba25ed2275b0ae73d4a9ecb15295e4c2ca7dda12aaef74070724bbeb8) (-0x21467f20dee09eb6f3fe9c9ef51284022de79b4ec1b7d9801a74b7abe8b322489);
  Dbl 0x455c1715c423ea552628386c6f9ab8ad598c1466700de629ca93ebb11163f6bf 0x5b7cc038312c882050901855a1644c6efc9b8b41a0dcbbfdb016964f8bc1d722 0x746123efc060d8d6d00f7d24187c6705728afce9781f1c75ef373224f30b50f (-0x501c34d07aa2512528c3a16e933472485d14c5b0c4533967166c51570b839862) (-0xbf7872c504e3deaf71b42fdd521d4c81411db9db27586c74b59db373c2572761);
  Dbl 0x3fb67e52873acc956fd67a06cbcd4cd522b43b7e44adca44a0b5cce0790b49b0 0x4aaa96a457fc01c5315e6bd697c0ce5e8b00d8060486786dbf8969bb768519e5 (-0x874a360c58a6aefcc467d4efa6fb7557e04ee77408fc731dad21729d613ed2c0) (-0x5304e80f86741b6bf34d16d925b0eb7c2e0c80abe7582feeb7edd07f1d16426c) (-0x136b0c06ad41fa279aaa6e1f88ad2be73b1a482e976cf6876426492cb3cc5891a);
  Plus 0x2d5c5dd1350f4c1d00c8d8f1ab472862dd1bba852196912697050d4406cf17de 0x62df67c7b6f492015ebdf3745751569752d061bb83eefdb40661f431b90731ad 0x0 0x23c6d93a57441c3ca1abb134afdcdc5a6af72acdb20fb432e19b722f24a2b99a 0x397d6120d0bbd6f61a3cda8b46f50ba1578f1736490be6e9dfe5b9c6cd76e087 0x290f0a5087a3ea30765c712909053f4706b2e006fb95bd76474713e3736c187e 0x8effd6842877497acb9d4b54753a14f5fb22959e0b612f179f81991f6ef761d (-0x3d688d7fc15805c29781408a684afce79741de9ab60c43512708e4097376f8ff);
  Dbl 0x6cc7dfab553af053760babdbab54dde9a20b1b3f4b0dfd21524b90e5660b09d7 0x2cccb9b02ccfe5d3c6619dd99d5976c25e2e1500af3f8e1e2dd402c25376c7b5 (-0x46b167bc0045ed1e1b4226443df32c550825b36ce935a476c930b2f41433f02) 0x16e117e2498e71cec0eeecee51ca00f1e2229011f3ffee54a92560c31a33cb05 (-0xd65bde4a8ecf4a8c526a510cb9f7081406e5508e74104ee2837653eadac89796);
  Dbl 0x229efc12ca48433091a0ba4ae9c7fd9fceade30e16e5e1b090caf32cdc6cb698 0x31a1be2ce41f90ce4db704a27fb9d0766c20f643ed5db95939810d68563db423 (-0x1ed0e891c40f796589857dc95093e5f420640de5bc53c70d53b4874d731e94f90) (-0x3b73fe3cf4b7f1b1302237064f30eb9598131b5345fb690b2bad256d6b9d8926) (-0x232fab95d769a6a6b2eaf264d7f66e0d89ed4abec0df71a1e351297aeb8d58b24)] = Some (1355435604597343110811425393650279218936409684446852, 15659538434727283128354098697279938419415611734034655361522129579418265106072, 22449104500077104323920731172274759100218189384561562108830476797650478674979).
Proof. vm_compute. reflexivity. Qed.
Lemma chain_11 : run (1355435604597343110811425393650279218936409684446852, 15659538434727283128354098697279938419415611734034655361522129579418265106072, 22449104500077104323920731172274759100218189384561562108830476797650478674979) [
  Minus 0x365e7144b5cf03776dbaa2402f7e0d0c23ba6bc818713a5a5790223a14fd06aa 0x51c5bf80bd334e22a29fe2a8618a26fd79eb074089f46faf1db24cdce301ae42 0x0 0x1370d7527c8846298fcbacc0a53252d1bbb2e130c7014865cfd39b54b56ffec1 (-0xde41004c59836f94d78ec6e1575971b3a7896c3e45af8324e68f86ca50bdf63) 0x5296fddd2b5d6533be38caf5257b5340922dad0d42d43d3009fdaeb9270963c 0x355b483e4af21fd4d75aa1730b392a73572762e822f8481fa0d4e24d05234f52 (-0x6c1ea1ef110115452c7ff0be7e705c5ade0e3538dd92bcb4400b46d24a3fcff5);
  Dbl 0x1f6c17ed40be6649b39fcbdc2e1e2a78e1a0d606ce2172ff04a673396013fcd2 0x159061533d1ea7211fdadfbd653a481bd7a661133ce2d4f72532ad2f5f61457a (-0x45cfcf6c9b1aa2161184eac6aa239c3e83ae0e314fff23bae7604811bca97ab4) (-0x3f6c5de3f58ef1be3913414d3651051321008eb45f2675125d6df6cdf63841e0) (-0xc248806fa9f518aae444968cbe27d5d65c69954cbc32a8b5bf4cff25597ef4ec);
  Dbl 0x5d17a5d49949a4230982db3644dd41770652826f4055532d28efaea28fe8082a 0x321f37948269d289add5123dd2ba013f31d716602e1c05e9b5a5d682080f96ea (-0x2692db8683c8598c6d47dc176eb0842e9094bc64b6e96eac41662286de0546ef) 0x1cc9129955a0a2fe026ce52f1dd88480e4eb6a2cb87cbbd4fe7ab78e1043f12e (-0x446364974217aa113f906db2d7d326039f66c8a2873b94c6881aa605bd7f3c3a);
  Dbl 0x492e6583da18db552695b1cbd0c5d01c650a8ddb07e7a9be5c5f420dc2b2436f 0x16b2dfedfb80f97a0d760533302a5ed59c770b6d558a10586e3aaae7170ddca8 (-0x1601a6d96f92d48b00ddad13fdfb5a70419561f2a30f0dafeb925ee3271276fe9) (-0x35bc9a4a38eaa88ca71fdd979805fba5639db0cef40896003e5cb3b661151e31) (-0x193be9023d0aa3402a14bddb5bdff07253ee488b54b1d96c4809cd626f4e90570);
  Plus 0x37f438266fbfab3aacb6816880dd8eed923ef79b7203dacb0fd4c373aee2fc7c 0x19840e1bb83e542de2389276b5fe07df17de73bd1c9b930459ac8d1a6d41dcd7 0x0 0x2917f205e60c5da8ed8e28302da7d71e832101a1da44e509f03042a4cd876334 0xbdb26747966d0e396d814c3603c0c849662224f1cdc334ff7dfc3c8c09fc9e5 0x1d99ac330772d3e17b831322bdb1a303df7273b5210b729514fbf5cec90699a5 0x343d3768e98c5e195b940e03b0a41df84513082b06ff1634dc7cae1833bdf479 (-0x24915ed0ebcb68aa3045cec8098279c4b43f6d97567645877e9125b87460463c);
  Dbl 0x3bb8b03ebc5f1adf99d8c52e8ae6e42ed32ff55c90911af879b985afd45e3419 0x5399539668ae4ffd11c88892c0a80b2391e795787075e1d6e136bb7767f74026 (-0x816af0940d3ef46129954c1d470dcefad0524e1d52efb0d0692a0310da46e610) 0x3d02a6a28f2364ca44829a39c334608a09988e2bc84e2c2ababf300cde6a9a1 (-0xb4775e05353f989323167f72c4ac754b8be9ac0a7929d6295a3a1ee72995989b);
  Dbl 0x16d6138d51d55be4260b49c10469427c937e8e1ec803f803341879b56687b1e6 0x701cb9f1d4deb58ff29adc46e5b7fff9706e2a5f5cbf96cc97eb0acbc9efa7b3 (-0x5d8b6b3013e5e34dbd83c176abbe4ad2df6552a15df775c2d41e7d847c16b09c) (-0x4f9b9e6e4477dd78d0fb89da4c696d13fe6007879e6b8ea4fe32e7846f0c468a) (-0xf626c7e85e0ef767d33bec4669a86d952fd93d3604ea82f61c95490fbd58c524);
  Dbl 0x6b931101503bc2268e63c9cacf4b9262505305bd74fd0d384a57112745118f41 0x3dd07ede4cbacbdc48ed3168132e4343b57319cfb7ac804e7870f860db663c88 0x55edfcc11056d8772201ed6d368edb9d02cd9a0a5e14aa3239cf97af7a7022a8 0x6d667320723037f3ae56a61af89f0e015f2d290c3113f73aa69ce4136d199e9 (-0xa039208e9b3faa6d18ae273eedac6cb57ae816e5511cc36aa2d3db13112c8035);
  Dbl 0x2b79123cb553b2f42fa50e84bc490b345e03dc50c8b527db7ba63d6124ccb28f 0x59ac4e10e2abdb2b6d94c84f42dfbaf8b8f7b2f0df180a88a05512db6d6fd99a (-0x1d2271db51db82f29c6fe07576bda343c45a5d6ac0bf54a1ea0170d7bea4c08d6) (-0x6db938100aaf381e652c10131e687bdd2dfa7fab300495bdfee59f188cecb211) (-0x21e61418d57a93f69ee81d2e4ccd8ed3f264ad36bec859a2612cafaf9da8c0dcb);
  Dbl 0x1f5239b321565e12ca6453e29191302c4d4835cfa45e01a7669707dbf127d80a 0xb044697496e577a8febd13781b6813a6c77432d56efd7807b154ac8bc71208a (-0xc25b85994108d77b1dfb8e0eee3452dc5f336e13fa288e2b507219a73426e63) (-0x3a5bfb85a05bdd1ed30fe58a727d725a95b082198c0c0f7f7f2e02d6a10e6db8) (-0x9a0111f81f54f2d78cf1940d52412b0312ee0afdc8ec2dac81d078b0768a4049);
  Dbl 0x2b04175eb6d7dad23ef711b0d85d9af2c2969542db7990aa25784cd44e84a5d5 0x63a56d77927ef34437014a4b2f0e8b2d1f0568d0fce28997c32e7adc78c418d5 (-0x2943b2665afd29cb802a22ccf31f6e43965a185110a0c619ff7bca695d74572a) 0x9418680d28db20f9de94671040c272153ec407b4c8b95b908c1def9efdc425a (-0x4e96ec5820f29029aa2293f9546cd888170dde0a2481289bdf2721028bded5d0);
  Plus 0x46cd18469311d679acc72789c9afa3c5891c87578ffad478e05c8ccefa5bed50 0x578b3bad5c6a524c63664cc8e276c64c821a7c1ad238f913c43eda1c83ad232b 0x0 0x1827a196d91693ce9d2850bf3e12ecdbbd5714b53c5ecdf385c751b541968f0f 0x5ec145fa60d84b4c5f35d0a15639c3d50daac6c60a5e40a649cc5a5309ac28ec 0x4a8460b13f8913a05ef625ce3f810462c2465872a21127a584428743c997bf89 0x354066093189e21f3e91c099071619c180e5a2566b98024f3026ec5f258f01e5 (-0x79cc75ec292f64e0667eb72ffa39cecb5d8815ece91229ac3d77a23bb7609bba);
  Dbl 0x3ac62dc6082bb2569e0a838ea2c69ccad0585b549d8eec1c01c370f13745ce78 0xfb5f4063b7530b47907aadb94c1351155991d506c98eb03538ea25c6f512529 (-0x9617ecda590ffe744e3945b7eab9ef63ccdd4b78115d6ba9fff96796ea0928c7) (-0x5ba947d0ce69d3bee187e45be42ca08fcad87e6a472e298bfc79b2d349e3c0e0) (-0x11e64cf26dc5a763c1491db02755600ce08da59f167b650e67b9e103b449eb8e7);
  Dbl 0x2bd02124279d2d2b1bf912d0138885d4fae6fdbd2a9f18b729f7093b7ea01a7e 0x27ebc7db7e5a8b864ede2972c4ae34ffae437c8c9819783ec531a2788466f2d3 (-0x92dc02ac66b7da52197314fef597d6b9cf35aad9f3585af85667664416ab40e9) (-0x716e23b529fb654234974b33d0b5f35325bc04d384fb3704f2b869a095fa1e4) (-0x9f2c59e6d737692c0cbb5399a5332ef117b8ac47246bda1a5eabb1d221216ff9);
  Dbl 0x54656d1db18a0e10ef47fb3a0a832385708b675317992489a9265aaebd207055 0x3a9ee92fb9b071d925c3e2dd16cf4d7c2950b396ab483e9db0da26057f465124 (-0x450b61f2f3ca1c6dd975449b6c4aa0fc96c0ec4c30a2943f99c5c8f6b3e8226d) 0x1ab8250ff500509040d36831c5a0a36c5739630cc347cdf2c396ff5111343836 (-0x880e9333bfffa0f1d39820cd0585730acd04b9da0caa400aeff3bcb2ae2b08fd);
  Plus 0x23079abffd8c0522afb355bdc52d07348bd75e83fbbdbab81d1d1cb6673c637b 0x11b3225a745ca01ad55e57da98851b629882379ae06913daab50a59ad89e884f 0x0 0x2f641e2346f74838a1cd0501973e292b8fe26bc7567a2a3f79bf66ddac8cc770 0x5dd84fb42ac8b0008f78319ff2f8f9b5964d06311ed21ef5245bb8e5e53d398 0xb051eb4208eb802d94c2fc9e09b7eb848e2a601e5d11b0db46bc4177910f0bf 0x9b0d4080f589af3475e95639875b648bb5bcd64dc880c1d0dd26ab642c28bf9 (-0x25d05aca70a8af5249f563f381e3651bcef72c7bc497e3713aa5659edef8ca09);
  Dbl 0x3805d5efa89549197349450e5bef31937c4d1d05481375b63cd701f4f9e62be3 0x3789c2c8d7e8a574af5473d75aeb8b617380430aa11ca0700672eabd140114f6 (-0x3238c299b9d58f8acccde774dd2d6a8fb95faa5ede3f6fd4f32ef68e062b84c9) 0x21758896dfc9547ef1f947b7b1db047512dc787bd7704d0c5e2d1a38d9c1637d (-0x63666e3fc767fb8b042cf6155a0f718ec6b28a864cae7e1b3c732ce082c88c30);
  Dbl 0x37b3ff36452e7f3cd76e207f7a038add1d2ce2c5ec00673103fcb578652618cf 0x4fc894c230e875676ca42bb1e36435e7b21408f0e09c383ff63aaaa677b6c2b3 (-0x6cc261758f754c5317e437cfd922a170a8525268581d98ef2a7ee03dae97604d) (-0x32b7d06ff4975b9ce8cecc75f3a31420173780a4ab9af78f3d057c2ca4bc7d48) (-0xa636676e7ac6c770d962fc744547432220ecc621adf68265f0cfbda9d13012f7);
  Dbl 0x1d4ee1f914e19c183e43124a1175ca8e3d66f8efdfb604c9c638f29f46b3a0a4 0x56ee774065a4e913232b8544e6e7bcf7f7fd650c2a95b18656e3c8741c360bcb (-0x4eeae10dd9316887cf75c67bb848095cc9456bab2a9e695b85257b0df6e175ae) (-0x4a807452d354fda434377d11354f2c6cd2d54b95e0756c57c2d8226860154e72) (-0xc32b42ccf9de7208ddd0db68b85ec871957f83771cf50644f58f3668598cef5e);
  Minus 0x14baa0f524fa80212aa4940ee061e853135fa047f7bb090a805aaa7ac97b4000 0x18c850da92161a4ed23039f9880653f1a7ab2ef1738decb4c169486a491b0f5d 0x0 0x10751a03d0094e7f9d267b0aeedb4474e36a420ebadfc433141b381cb40c3368 (-0x360c10d712e129a27eea2bb651f48738ebf4a16a1fb198bbd6caa97ed3f9e6a8) 0x2ef900ab81f4a3ea2c1c94bf5dcf371c0db52b2db42998aadc427ea8d4633d38 0x13fec80cdf604d42a06e40cc39f5ce7bbc294ebe1401ca738a7bfe4bc7c1b0f (-0x324f0e9e3ae7d4a18431174414794efc256954de43351244843848c5ff71435e)] = Some (44414913891445739055068787299132349446108272539954417735, 9376001414210819626041972788445863569879087393098498948291067671096027987968, 11209435811314874004650415542481841959694381356609691389805436645759161929565).
Proof. vm_compute. reflexivity. Qed.
Lemma chain_12 : run (44414913891445739055068787299132349446108272539954417735, 9376001414210819626041972788445863569879087393098498948291067671096027987968, 11209435811314874004650415542481841959694381356609691389805436645759161929565) [
  Dbl 0xa44c5ac39616ed166971d0fcd5b3c5fb958ca7e03e8eefd92d7b5ec14cc5d75 0x1fd829b10d14e9a46fb8afd6be2fbb2048ce4d6b9ccb9001d76f0cd2a68e8716 (-0xd3c1c8b59b99c2eb57d61458b334c1b750a3a173da5b296ce4466ec78f0fc4a) (-0x8a3af498f81fe62ec7f4f4d80e600816b98e3b6c8a47510e09f3f7a8c34bc51) (-0x1885dc362c30a0264b6e2473e3b9810d3a556b923ec8494371f24608ffaf583f);
  Dbl 0x1c2dc3c61b1b49533ab7ef012f646014140f1a7002f38c0b1619ef17768fe3a 0x6b5e0ea33b641f53576a3dcbec057bb8b02bc773b5e5dd913e8be17acd85f16d 0x43311d2ef5c742a0836ada0872d1eb5df15c1343f4de13ccd1c82f8e4d03904 (-0x4bfef4df81293c40361c9d9c4365b4ef683b1bc657e1e4f29c498d862fd086e) (-0x43a7358065d4b33c1e9c7d19f68f271958031d2f3c9b11a213852a7569274e2e);
  Dbl 0x34575e2877803f3d9d282254234a1603807d18921bd0b821a8d3ef6475767f25 0xbe6290240fea70d7fd9d15b99ec68bf76b5c904c24a4fc309448ccab9af640e 0x634e0e448682958e937a5d4e2888bf3e3d04777df72a5d66af5186328b146ff3 0x26f2e3cc6266d56b221461c31bd46d3c6bf250d615af12e2b0e3900790c99ea6 (-0x6d2b261fa4037772c547ec78f184aa24aafdd9c66f06aece55952eee235a909d);
  Plus 0x2d746ea70a2606779ca5ecd0a3774997354f825b2b076b1d748009454daba800 0x678ce80a5865eff1f0d2742926d2ab657efbe2dd3bf4553037e1f5c1d6063604 0x0 0x1d64293df85ee6c11b4a8d2cc502b053b7fc1d4c93418658c204e3ba61412226 0x5ded507f69a9c9bf48f061fcf2356b89fd5938a4d0b3fe167465954557b803 0x5eedeeed89b51987db6cb5de57a76e8c739d898264c87002f6b8682bc8f83f 0xe231fcc67a36d886432ecc9d82e77bed3a21b355f379d3c1bf7cea18a48bd93 (-0x26e33992c1f7369d03aaf9f1a1474648596700fbb512a33d13b5d91e5a54ecab);
  Dbl 0x442d40d08ad4937b670d007959885aeb795568632c53853ab823baeca8f77a70 0x2d11299494f1f9440669053cbf4e8e97804324ea0900397da3d76a8f742b7e54 0x3619cc1de82cd57a8e5ab6feb25bb91eac938bf8ef04193b0ccbe4e450cd96d (-0x2d07f75fe65ec38902a30e09a43b7a1a8e805e879cb5f9afa46e35c2c2d0aab0) (-0xcd8488f5395f2d5a52be13e63ce5d7107fe55b4943dd70559cc73f73596a5ae4);
  Dbl 0x51afc66fca5924820c04c5d6fb81a805ae79ecc0f1e73897b162db143c84a2af 0x6471bf12b4d7799f3d25ec31b1076ac8d86fe070bdb8d42976058634c801fef9 (-0xb6f3b6f4036b9ba836ad139d6efcdda17c67cb117be759fd6906bc61b41ae3d0) 0x102a89845f593051dc2208f1b1bcf400eabe6765d353b3fd37f2ef85a56f4e20 (-0x12f0ca215216ae1b6af58deafa4b064e3f583083f1bf28f2530e1876d2d0249fe);
  Minus 0x5c3c71a3c69fe42e6a3ce3a3195fedf0d931e6c8ab895559c8836f4ac8107097 0x117e5b77d54ddbc326edb58a4e5aea2a72b3d55ebe71abda519883559a58d9b 0x0 0x2dde9c70f88047adf950439ee2cae1de02f2f2597976841b10b255ae3fb71978 (-0x42fda72d653d92849dee60c12abe37648342d86ce34b29216fcb1edc2934f518) 0x2d4d177014f84c8ed4880a405e0d10ad446bc9c35d1d635c8083f621967f23e6 0x972f6bbf1db26deb5d8586483fecdb76992e3a25a6f0b516cfa34bd585c1d48 (-0x3883bdb1565d828a686758500e322318893aec28c04434bde0edbe39e26cfc06);
  Dbl 0x116d8ed3a9ec1d4eddd0e58289ad8def231e4d8739b4698e5f333175ebfd0f44 0x8eedb96b28bbd0e6aa4f2809878d822957e70de24af563818b33448b064302f (-0x16eeb40cc3473a2713fb5b9a9cb86f32b2dded532140834cf9dca5d2c435e1827) 0xc60be59d80c96f5201f0e001986dba435fd945f1598c79284734cc039b5d92 (-0x1703a569b5eb22ed35a14b498ecaeed8eda07460d48e116ef6785c6e4d4aa9235);
  Dbl 0x207eaace751b2b8ae87c0e322d9fb1f25e7925e0e473cf6443510b5eb15e037a 0x1f4e9987dd0418d669ccfb3c6c784fa91273eb7efd109dfa2aafb795610d0b0e (-0xc696666d930fba20c1ff19eeaa469fab22bc2c88ff15d8617aff425bccd37b4) 0x1830672006df23c3102f08d9dde33195eed2034e4f32fcbe79aa893ec6e7e26a (-0x27ae5788fae23ba9910d34352b0487e1ed7ac3506dfc57aeeb45580e9417801b);
  Dbl 0x3e833494a50d6389c0452da73d251f0e15a5ae260a06246c2a91e6c3bd7f13b9 0x5152a47102d25a3843c57c9876460824e26eaf4b750ce9b48939b91df1edc4da (-0x25164226a20ffdf46229ec1ff758977092c0d682b184d4eb124d1d89f72860fe) (-0x5c199f044361be195bd931a0213b5809879d4ce8796e27dafb801d22a7a9a3a) (-0x4556f7ed848ebad48aa379611dd7a0773aca21e5401389d3be30bf6779e113b0);
  Minus 0x4d7c915365e5ad92f900100b95ab422acfe5bd820255b9b03bfe2a9eadb3752f 0x2e1860d62dbb753727a38ecdfb66075ea53c686d1d5b98b4191052a17e273aae 0x0 0x231a4bf89e975492677f25f4af45b752d65f4a794693c25f4c4caa643703e820 (-0x2cdbc517072d3d1e4bf73544cb158d4ba748c5a370a34c4bbffd7c0a30947d0f) 0x4cd346f423b11394e6637243868f206a493184ed2678fe6fac71da3100f80d48 0x4a58de279fcf763b7d71a23bd3feab96c46a307d7602d47088bfb7bf06acb065 (-0x59e4965ef8476c5f424fae69197b7e0cdd4040a441ae1245ef47229788b77c69);
  Dbl 0x36a3fd66474a3ffc524008aabedee303b66f69ec221cae79d0cf66d0fa31c380 0x6589f2848b7471c62fbe3168058d6c7fa2879a9b28f3725dbd1a414e77c00327 (-0xf0a1d7d0486269786a64cf436ee8babf9e6a8cd243e7450b0d87e4e10950dc46) (-0xee564a2dfd53def30d9234e8e52d78919a9afbdcd7c580e3df96f555e50f664) (-0x16c1dcf1a5a4528de4c0776786f0f7d208a6751ce54cc4c2fbcdabc4e8406f67e);
  Dbl 0x279b493846784fa798007a8304cdd4a6558f976311254a45d277d91c96c0e211 0x4bbbb8cfc02cfd9f3b45845564a98195eb3d277340c61d134883e7b048473a18 (-0x27d55e9a4fd1bfb6ce534dd28a1f8bfb6d00ded7f2a287adfcd3ca09931a5837) (-0x3e87c9888bc1628def1c943caa229871988edbe2ed3c57b21a23a43f0df3b658) (-0x119294a3102a5d81b4173d69e4a16f90fc875d25dd0a3225f4b5760a198128f81);
  Plus 0x3fb136a7401ef47e9f8df10d653d38c7cdc0b38dd027862179a0ce6d8e44deb1 0x368c8637b24ac9f8a5be31c8de75834378c3d83d0ae295b37c6849412340ae87 0x0 0x163d86213423114a270bf9ac95e3105e0ce74104914209c723098ab9f202f1ac 0x344b3d6d15bb2a93716b6f6fed752827910bc12d18595abe336214077c52c7fb 0x109cf24c89c9ae7cc1bf945440bf6f51c201f1f8aa328a343383847f54c18229 0x1e40a6452766fed8b9060471adf4be3ea4227f5758288eba2668b4b8a4160256 (-0x446fad4bfaa5adaaa80b451c4aa0a54498e3dff783169dd2c0d15e945783be54);
  Dbl 0x5e909133f11faa9c12dbb9a1adbf7cb43b830e56fc1e016e64db06f398ef63b0 0x4f457a9560ba98171b94c36798c730dc799e1e0a0bbb1a6bd86f941d55352da5 (-0x954c6828da9b07e8d85e6e87a317b04f5f883e7e8dcc3f6490717de5914cf063) (-0x13ef4a6abfd55af4e6fd1836e921524f2f4a81265b0b02f9dbce1fa6f6fbc55e) (-0xea2b1ea8a2d0e2532c5a0de5366d85417f84b3dc5793072f614f8817eb53ea97);
  Dbl 0x35bfc4ace144f7ceb6ecddea7617b8cc46f87c2dcb6cfa7a3e45995df927f0d6 0x177a887f19f67f1f4a9239878912e380fd461e8f473c29a899e77aa8c1c97548 (-0x14b7c16f205122ddaa4daf029a6255881cbe4427c9943b36215f3907ab16473b2) (-0x596538b7af2d8b68096120233a41202cbbd3732a8c23b01b63928b3eb2a745ae) (-0x1c9569730edd2413854aa9c07c47aeea77f36b2e49fd5f9a789c55d83b50960e1);
  Plus 0x73b5b0cb681d80d76cc475b4061d38e4336a7b0c552634442f917d5de5b7a0ea 0x2237bd472046da1c84305cff1bf3d594e9d03f968d2de29956f09e15fddf9f86 0x0 0x1e2e8982acf18edd74777e3237585c60c2530e1d35dfda3b84d0fa81a7f2c5cc 0xcd73a8d5f8d9c9d2502286f28cf4d962834e1cb672c9f889fb22f9a4a66b277 0x1c3bf586497e59e2f65d74c26d1710c0ce8032745aa16630c214ee790dbb0189 0x3ca4874e4adde94af0179b487723646c899a6409272b1501e7bdbb06c853c054 (-0x1f1e057c693e43d26a2195581dcb71a98725a32020c8192d682997908ba21e94);
  Dbl 0x1121cb570df15aab2166deea784f8c73dbb84b653d4600743a6e9f89fa361820 0x20db0ff853792135a3626c7ba74aa0c8918a76ea575d2ca50a6608ca2f0184c7 (-0x2375b9dcd364cac51684f10b309b259e75c7d71d33f695e9362576b49946ef0ce) (-0x3e92955ab90bc4259067b6e301f66289d5498dc179eac1e23a694ecbf2f3a138) (-0x2568dc51f1c6ac5f8f390ccfbaf1a977a0acc5404f719ee0f91c41c214e4c62fc);
  Dbl 0x5675f1a37b9bdcdfc19336a353fa3359cb676c27c5cbf8d06505a6935a9e7ce8 0x2b41626768992ed42d578c9ee7d15b14ca9a9125ecad3e10b2f8c35e46e54c3f (-0x358df8dafbb3bbf5a871899d3db5fd726786b6c1f068d40365da9390b3b4448) 0x1626f5e4dfad1a97fd5fe7510a1c3e6df989691f0ef0d0d350e3a1021a0ecbe8 (-0x25e95676a8e93c4c10a5d31f1aee70b360fec00b7e954f19f2994e23e295f57a);
  Dbl 0x5e99844646df187d52b025e78f8dbce4100a6075c723c70659e0d30d11d4a5c2 0x41991504b9244f24f10c20fcff4bef62f739f2ad4a9c4158224e61053f40008c (-0x132470ef5e58ebb57a390300e97dfc573a7daf70ac63c8e08033955aa8d40836f) 0xad77062484429690711396fc4c8c1ea326a740301e47dc5b3c083787a313930 (-0x186d0a07936ea72179b34da6ed64f55e845d4d16a223354a0464f3e53d484a5e9)] = Some (1455387898394893977356494022217968826650075874589226360343464, 42788648292915813013531387817097748834251811546803725103874142464923514742210, 29670807822834187996825004085775332491700116500126454864264976185174718939276).
Proof. vm_compute. reflexivity. Qed.
Lemma chain_13 : run (1455387898394893977356494022217968826650075874589226360343464, 42788648292915813013531387817097748834251811546803725103874142464923514742210, 29670807822834187996825004085775332491700116500126454864264976185174718939276) [
  Dbl 0x8bf815efe0adcb7e316a0e898a5e429ac1f553cc26e4355ac063fff40f149a0 0x5b98f959c0afd0fc285ff396f9eee21b76a12afc53bfafcb2c8f7cd5b592eddb (-0x15cdb5ccab9f8b5db9511aede108051a67ae2b9e6f2d285da866319c53dd9bc6d) (-0x62626bc9c021df5937dab401bd680335262f9673beb40d73b619a3730cf12990) (-0x201ea2f3bd8d5d46f00e30a03aebcb29fc5095ee1154da75692264e04cbadb741);
  Dbl 0x36aafe038788ad4257f3d16dd30dc6fe74404b2b142b18ab61d4ab8862c19b0a 0x6da2d221afdbc3d0d5b0f5ad280947173a2b73e4895e4609c7ffd3ec03d7e037 0x4512944915c8547cf6e6101250bc18d03240db99809f3b57d9745a2ea2e77b38 0x1ab0de8870f8a6336133f6fd7d38ad63c8786a7f98593a430f67c935888a288a (-0x9ced25a1de11435c192ee1195fa5aaef3d2749d41fea60de56dda64278083a02);
  Dbl 0x5857e51c78bbe949ce0582ca8c34d96331b59050ec270a2cce0cdb7e730f5fe3 0x6fa254dbc5c2b4f456c267b1fe48f1c1e39b2d5feefa87ff3868666e51c570ab (-0x19367068d91b5a4f322252b912e12f239aae7542dabea0d3e4c9cbcef8f66774) (-0x36a945c0556b116ccd0eaa6debe7a435a643b6d7364c1f19a6cb9677b963f879) (-0x1262c509a9a9f45ae30ef867b8e4ac28ac21d478c0d67afec49f5008aad1f558a);
  Minus 0x6bf3ead729c9324dfb4c93ea60bc3b3fe40436d9971124a94d52aeace1008abd 0x5cabd3795c6cee8a58a24a5ad8da84cf82d068fa13614a011cfba05265aba7c5 0x0 0x319b86fcd9911f25371e30b2c468741b38ce5978600f41ecfaa2f00d3fd6150e (-0x1b5efb360dcb00f9d3bb24ec7473c56a86973ff4967cbaf594898ecd53065257) 0x63796cde7a2f40f4a3442fee28d809c5400700685fc1e35f95c9d9477c9a853a 0x4af7580586c60a7e9f647df5b15c5cb35248f80e9d20522702cb6c415f8d5131 (-0x7f0a459b47d71b8e260703e4a623dad0b4f12ce655a14a645d9bec07a5a65b05);
  Dbl 0x3c066f53172be95826da86100bd65cb684d27980e7dd04901a5249a69aa8d044 0x3eb7acc54caf407adac7dbf9e04627c9aff7b6593c1c9b021fbd9073c19fbf18 (-0x1ac8ccc5d7575286570acb999a95af6bcb3e254e8a060c958954e225572a5ca94) (-0x9fbe005136d9eca13893c242b844ff1dbd50051579fab36ee355565e484412e2) (-0x24e22995e6f7fa88596c233505ed2b4ebf5a97356596de99612ff7b18884ca916);
  Dbl 0x63d6945133e684083094454eac37dfc8d9fd1f41a170a5690878094a80d80199 0x345f8e1cad0fdf18c383dbb02f8eed63feae77c3315acecbd678d6b0158a3cf7 (-0x7977d9f361c1cc0fd005f8aa5a82e25be605014e0583fd8b30ebc2515a09a8bf) (-0x134b5a04c35a0a29a16f970563d75354ab91261280d50854ed28193089aecd29) (-0xd5470c25a4162065503a4e182020733a70cd590c3e93ec8b0ca3e0a6fda63f7b);
  Plus 0x71f20b81a66f0432a9f456718f55ab3e2579d489a7ef7b7a6fddf19b3b969933 0x21ad2ec93e4f276a673b941e0cc08f139904d8cd3d086892142c46756e3cd559 0x0 0x380fef9b35f30169de930ecc3f8d8d546092f801639db1978d15a7d495f5017d 0x2a8d232ab60543d79368f1eddbfe6521eacea921b75e0db0eaf5004226a3df18 0x4cb40b1fa726bcef8503831a65c2f355856cb1a9744a21ae73aa3541ff1bab47 0x39058dc63808c606b2b90326c7655b3c1d9d7e01d9abe073de5fd9209a157 (-0x1d69cfd427bc89b69594c7cb4311862e01ae5bd74446e7e4e34bce7fd9f931c0);
  Dbl 0x709ea2fab7089970bcb9245ac237dddd267a2310ae39cef30b02672804a9be81 0x1aceadbfd8e946b684f0a41c5e4e402e693ae45da11437e8274a4f0c728109f6 (-0x2263330904feead0f41713d5efd2082e20d890f2d60728b478b1d5ef1f986515f) (-0x2bcb1e253c02013d66890c34dbea6db5efccb4528c0801ce0f5020f93f6cde73) (-0x23f19704544a249cba00e56730e94b8dc55d944f15daddb3e058752644befe4b4);
  Dbl 0x70eed50114beda62d710fe6a0e84b506ef6fcd05cf61d0bf7f64b77d0c11d36 0x72e04653a7917b20b1de2194371535adda164076c75dc27d3c46fe543e32e120 (-0x21cd40a3edba4a5148e2c66d75888a9a67c2e8637460a9758703fee8f6206d65c) (-0x2eb75bd9bd62d6f537e05fea43e478a2422107be4033982d5361196372ce3d7a) (-0x280988a3bb476e209ff8bb6f9be0eb81170fa78b1beb4905634f60576e3693989);
  Dbl 0x562b05da8681ec781a96041bdacbe2ee59cbcf97e3fb45f2625896b3aee36bed 0x43d9b0bd9a650728f26ed9a694157fb57062979ee72f19fcd0d4766823b9300d 0x6faf4428000a7766c526c045199be40749361650836a6b581e482feb124db51f 0x14f72f1be6d4d81c5cc5ecee87fa04842e1b7877bf185ba8f9811026c49ca5e9 (-0x8f816cd0d7d75c55731f1327d90359842cbd86ff1429421a2b0e2d29fb11d9e3);
  Dbl 0x1ef881cb68becbdd59aa257dcfea5ef2254ec3825c6da957530d27a54ebf05fe 0x19c43536a1c352abee7234ba49d88fa3ae8069d96d0400ad94709e87904f1ae2 (-0x11886da229b0cf3df25e7c7c73255421309446a309c1fa03a11188165534372e8) (-0x4aa39822b732769d1b0bdda4a11cd2bd4c179cc569b4a808635854afa0fda71a) (-0x17dc4a2ef25bddf3bf6a1417b6383c3e7b257c00ce704e261739b1039a7c6ce7a);
  Dbl 0x18d05cc74e8a7f7975120c1ddfc0938175b95fa5f11ba4c83c474f12a6a6defb 0x1ff02c9a756a788b2adadf469c845db4842989066513c6b4123eedd19df26068 (-0x23a494c67ef38b0765897b27b1bad416794ed185d14189adf60ff6de0d3544e7) (-0xa6986ac3f681d21e56ed0f5a1d7995068496087eda2a3385b59a988ed26812b) (-0x336a397111460184b056f48ae1acc5b575d09d5baa0912af7c20a8ab9e9c1a20);
  Plus 0x16db90d19343dfe445a970ca172a20ecd2b23c2a0bf80bcfe37164faedd9b9f2 0x16962087cbcecd4b2db593b443b285d64dbfd5d4ca4604c6962cfff3e6031550 0x0 0xdef0c7af6ae5671379106bd9788d21ed4d113935217e2aca74021b1eb39d8e9 0x8022633895495195da56a6726e6616abb8a7b4357b11a3b8d0bd31b726c600d 0x2bf530a541e8145d8d93b50a2624c772b856f4d5899bd5ce662a95a44524baa5 0x3f80a50bb095b132f8e9671f69d68c7493f2dba6b6ac917cada86f2ab03d778 (-0x15db28b3d350957fd6f6493475c4ca16fa1cbfc484ea7064918a37e1f0aaa9ff);
  Dbl 0x4c0abc88d05a985d5b002bb4a78a907cef5bd96ec5daeeee826f8f1dc54cfe32 0x47ddaa94cecc0694b44f131cb411661bbc953833de39d3fbae126e5524aea2db (-0x122240365e7f9bfe3f755ff30210ab9fe72480fc36845bb629cc9a2cc211f71d) (-0x2dd7de424002399b8dc42645c6831cd31e9017ef61852b0b93e943876cee6fe) (-0x20a50770871904cc5004446827998a27edb9a8b24afb5ff040126e199cb9bb91);
  Dbl 0x29f7198168af5163435d2b6c79caa8a78ddc0209b461b9ac0568262daf8cd9cb 0xc8978cbce3e8c71237c92346ea2ff6d6fa934f1feb680e8ba24eda2b469f2fb (-0xccd7f62bd6b34090d0b58e6abcb10402a4e654e4e9c4ae677929b6987b1c1ee5) (-0x5018a31374c8828c2ed3b9a702096210426f88124e02c2c919097d2e0c06247e) (-0x12a2eb48b1bc31ce46a91911be1abcb29ae8a94d141b0b0e05e861e502c673525);
  Dbl 0x6f051b869ae844d4b2da69374999b6629318b7302569aa56898d11da4d51c6a2 0x4191cbf50618019e3f4a08090dcf936364cbfa29f5c79d8b6fc9243cc39fd647 (-0x4a998ac5e95c7bb4aee2649e21c643c3391af314386d78125e78cd04aa987dbb) 0x2834a677bdc164768b995c32eec6a07c634f6f2af92b08e0aff13ea58b4d7e3c (-0x6a6b02234919615893488b65cb0eb5f7f56ad11a03eeaa4e87b31b6df9693ae9);
  Minus 0xa5d02695e1ecfc4c15bc21304a26b9b6dc8964719bf0ff5fffbe47c33d61cdd 0x60ed2544122f8aff20c728ece993e3ebc9d396dfff1843dd88e307b9aed2e43e 0x0 0x3e57559bf2a30b4783e4b2c92a807e210ab10b8be2cff791826eaeaaf65c1d57 (-0x35232eed8f27c56ee680f67d554669f3e69d55934769ffd4f45282ab98c06b1d) 0x2bb55bf3b40d93bc1243c69e7f2d73115f0606945e68b4796577fe40aff27ad3 0x375c4503dadca86c7f9c94f85dee5916542e27e2f8b306736a4a5bf376531a2 (-0x452e2c34472a60f2695a6d3b1c73e4d137f80a3d0a639c68320cd3502048f405);
  Dbl 0x4078715228682166804e09a2e4debd88c8eaa801fcf64b9f81481b4b385f3232 0x5075880a56a7f0cea97d894efae7d74c83c5995e8f3c2fc80f8ebcaea0a66f0a 0x4c682b12ed5bee61aaf157ea782400d584f298eceec9dc3d4d84909a6d1ec4ef 0x6d80dc8b966225e719ee736148e9d92b7618e93d78b4f0445c69519eb3644c4 (-0x73d6dde16f44853ec3ce6c96432df2a21964085da99ef8854e5a552bf8d33c6d);
  Dbl 0x72ff0fd55413b37195bd02cac42658aff4f18d5ee44eb941ffcb83df0cc87470 0x3624b5ba30d6fd76c2644ab4200723388b03b6f65136c54880f87222546409a3 (-0x7b6d0023eed0c02ec5e3d071d65747b8158b07d896b951055717008cc2e1bd31) (-0x46269dcd23b6c6ae2c113898d685765f83b4397a9593ce7a60c1eaeee8c07f78) (-0xf437207d3f0329efde2db6f0652be8175ab89b182d3b9dd674530bfc2d5565d5);
  Minus 0x4c157f25451f5e2399d56fa76d07aaa027af31e3dfbe4761d62a2d5ad60c9842 0x2cfd2cbafa1dd4a5ef0cfde91f5ab00426847f0e1f8cb065952428a5023b3fac 0x0 0x4092f28725ab1c1aefb326d9010491d3d3a238af216f543bee9534674cd169d5 (-0x3c97b6c520cf529bfd36f0db9f807c7c3fe37bdf067f78fa9d526645f092601) 0x3ab09804ff5a54e8a0f2bbd187f7fd0e2298d118f5eaaa73e6297bd76db971e7 0x24c068fdabd675ff0bab3dcd0cfafcfd26656dbac11c19777ac9ecd80dfbe41c (-0x342279a3ec6020da8179f9ecf08b43cf6d77684d76dcf779249a152610ea8173)] = Some (47690150654603885850017596120038402511669686258539769375734625307, 34413757807272112734564960556897887797467054170790499545359276287123885168706, 20349086362782335736265038235578547969081058024883950912311050453057594408876).
Proof. vm_compute. reflexivity. Qed.
Lemma chain_14 : run (47690150654603885850017596120038402511669686258539769375734625307, 34413757807272112734564960556897887797467054170790499545359276287123885168706, 20349086362782335736265038235578547969081058024883950912311050453057594408876) [
  Dbl 0x4143bd1bbfdc86ad16b7dd8f70a772bebfb1eb22093d22b05288ad00fd531c8f 0x6cf66b29bc57a6e4c3716d785115e305ead326dd830c9af61c9660a2838599f3 (-0xe8360af6423ce8ff9d16a9cf51f591c6db427f2331898f60961a783d4e7d55a1) (-0x280103204609180c1387deba5e79f1fec944df6fac2ba58d178de99e560547d) (-0x1698be72d24cb5d8c90973fb4c9bd140c2482ebfd9826022540ab1300977b8145);
  Dbl 0x67ea6a502ea27ceee058710ea8cc77149a7ea73f0590703d0de5cca2dfb8cb76 0x2ad2b4cca461f8348156d355e434baed88e92d310a14c8b958e6a77fd3cdc709 (-0x514bc16f036800dab3020b7b8d48ab181b3635775c6b013e0cd41beaca3a608c) (-0x332e4017a95c1cdbd4a156127d00718d0456d6bb5e9ba3a3548a93657f22079a) (-0x13b97f8f8ca428abe2e80ec979b2b3513891cfbd6f8b4dfa762e158c90ffe6a4c);
  Minus 0x17d8fca1971fe2e54fdee4ebf41232261951b298c6188632bb65d1af0b62b4d0 0x5221ffe96f844b25ddc2cd21770f5d00946a9f230eefb3b3942949d0ec63d6af 0x0 0x3a5a150e0c3e7ed11c9da95128caaae6861af26cf675be284860826de353c76d (-0x1527504b097feaff15770479b5ef388913e7799cd6825847eb69d54f12921d1b) 0x1819260ee8bc395e8feeca8417e1409696826dc5959f0d30c548cc5aafb5ec60 0xd2ee0d30c4a58f006668e759410da7eb41dea332f8f37610717ac9603a65970 (-0x4573372aa4f699b5b45df017c5ba5c977e74a789c93397291617388f572733e6);
  Dbl 0x5d2c1a63e56db148445ea52d65cad2e4d446adfb98b2087d84696e4503177d8d 0x580eec12c49b5902be9446b680ff424a19f9eed439efa899ad7c88a166c9d3cb 0x21a933bebb1e92f6a60a7478d49173b2fdcf9bc43d1e346d1ecad9b56d2e2023 (-0x1f273e9b45e03c27667aacd2b0415187a152799fb4b84ced7d221d188ce9a2fa) (-0x5535f7b8b730771333710f233dcb8eb3d28b07d56b5bd507ec373d33ed9a38f5);
  Dbl 0x17a7a4e29b98a363df86c9813b5105877cf9dc17a3448389628d611bf7cac8e 0xbb0855ce120bd86d3b63c357890cf94b6893b16fb9bf11d50491cc0ba3b8ce8 (-0x13386efe4ad7117fba4189192ffde15fa784b6d0b97fa5f36d52c60eaed9ef882) (-0x8d2da9b5dee1b0c7b6a760a3d7aa96a21864df45073e1a4cdb4a4387ab3cb41a) (-0x1bc35c55f4ed2eb0c20bac09169ce4a950e6038d9b3b2ea900b4527b127dac126);
  Plus 0x3a424592a6163158e15d0f64a8d9f0889294486ca9d663db89b8c1ed50144c96 0x40bf05d5b2ea0ad9f3026168f8f2089dd35a76a9ed80d33dec3375d0eb75cbea 0x0 0xd486ea438970e90047d92b5932a73ac1d2edecb82186d78f0783c801bae506 0x3fd55ded7ab945b22b1d71208fdf2c1889dbdf80be480753d0270898325e166 0x5d15fa43738e7a5d6bea2b14a82e1924c6ce346111bb0ac2502c306073af1ff3 0x2221239fa07919308279f79150b8e0bd9a7f93deb9f0a1b53dd04b8816f2c228 (-0x2c7e70c3dfbfed0a807bb7aaa98c662d35730ad63a5abbdcc153b483ac461002);
  Dbl 0x6097f3667e07dc99dcf01f502ca6dac451c95bbce9c75c774b4f884e37271a74 0x3af58045830718b204b8a7529cfd8b45ab8e057aad0a372fda8b12f220642a76 (-0x6e3a12214bc72dd453a9610981423bdf6a08a5521059619a59d940476d819e5f) (-0x58e8f1491d756954ec1e6012409ae6e2968a3a6333516abe3bfd19a0665e26c) (-0xdae0a9d1040238b088f31b935ff21f65e88a6d732279dff3653df13ca796a9d6);
  Dbl 0xcd74665c54dca50d11bcf310a640eb8178d364cd7f88cdeeab161e3c65ef64f 0x3b30767718acfb8d24949c386c178bc64d194c88772f2a544ab4b70b8650b82f (-0x1746e93b7717ff6735a85e0926e7ae46c8c71ab36e440e322b93112afb8221ce6) (-0x5e5c881a6c01e66199cc03981fcb025d4176203d98f711008bcc670d52eb054a) (-0x1c2554601821a60014021a14cb0fb33441089a602f2a378a38bb1c31326c3a73c);
  Plus 0x445bf8e096ae2150b9b45e05ca3bf9f9baafefa4159e71b0255deac102b1e3fb 0x199dac95a9b7453d7cd6113158a78c8fe6a3deee00c34577d9773178ad3f1904 0x0 0x735e8301c403df48f599d3948296c738a04c5813610677f874bce872a531988 0x2a71b69e146e5669e2e42df4cd5af60b6679c5ae4787ab30349e123f621999e1 0x8cab3df493a00db28147b7228cb7c3bbbec8c859e23cceace0d76a9d5625611 0x115b151a6833bee07514f1c77f216af421021cea42104d49bfc8bfa039723fa2 (-0x27bd82fd5cf14d64388ec5852c8f010c65cec29254adfcc470ddf5a0343a7472);
  Dbl 0x453cddd2958ea895db96fd7da5ef8d87f3910e182d3f1a532b2ec7b3bda702fb 0x2b5a2f0d69b6f8b73713ab65a11b332ee6f993b3b4d58a49a6b004269a8d2eff (-0xc3e2e3ebd9d1582463043e7a72860fddd2bfac6933997518c8bfee1b0093fead) 0x16297309fc922ec60c67886c35d50362ef192d149415c508ff913661dced12e8 (-0xefff9bf4bfdc022a3be8d7f5cbfe49afbbe7f25f5baf61124c8b71bcf712544f);
  Dbl 0x2cffb9df297af849c2f4c899a78eb82b61e1f92289eca402453a4a321977a920 0x9fc87301cd270da4ef089aad5ea1a9d091e90b65335e21b08d26558a91a9c8e (-0xbe8c4c34a2f4ed5f56c5cd7f6870e42b4529265651eefd254ed7538cdb589779) (-0x31af0ba2ea2945007625db8ddaf367c49dec523727852a77abde44602cee3f6a) (-0xdf701ddc67137bb0896b17151b271a9af733a6952b489b438fbfb362ba86cfb8);
  Dbl 0x5d01f9d99ce4fb2e7bb5f369e33fc72651d92e5f35378e96ed51eb106fd321e8 0x4d94d50773ed6a545b91eb93668430d95103e35ed37217ad4a86ade0ebeccaae (-0x5679599d3660023053ff2a043268031c90d628fa2f690808d4ec23524bbc0efa) 0x4406a01ec064940ac1843f51be735eea64a9e5e07859fe52d1d2ddf357cc32b0 (-0x976788db2ce7d7b23a7ae24ea23dd56eddd6adfdf6db9b85c159d4a9480b888c);
  Plus 0x9513a42fa99ca8a22e43262982a34340bc700268c16e884edbf143561b87261 0x2bd3fdc95e10d6007d763a303552d043495faf28f27a0727815a99f51a952860 0x0 0x343a0a75f1dc2f6d97ac95f6dcf6a156ced08e7e4f41fb4c2ee6ecb0f42b82e2 0x35d53fed1b25b9979e8530c5cb353e355320d5f16c2163861277bdeb539a0176 0x52fef30178cdb194edbf92ec99c90472b9bf3b82e2fcc8ec9f13bee19089411e 0x6f83e0676cc627363d5c65c2d67c778f8a41f357787d2f16fe4d4d3cb407ca1 (-0x4c5975e463b9f454f164cdc36b501c29286daa011ce01ac3fb44a563cf77f596);
  Dbl 0x2800786e3affe1e0c2d21fa58d401e24b2bc6b6665360eb56723bdbd04a323f5 0x69d9b2d27e89b5bf2e82bb42d8f56a97b20dd3d25f9ffb0b516a2f72a097f102 0xcd3558929053e8d4fda4fdfcf5dd992f23d2d6e1d0f94d97a00fd512e2e73df 0xdd72b901e6064c41ad6ee022b015996c88f59377e71474057c6e90ff2a9a74c (-0x4b947838104d2f5db80187300208c595c887fb0b315c133a5eff56b2f3779279);
  Dbl 0x6f32e42b0e37d5a5f770dec4ec6ad4c9f6fac329caa7f42ebb38b017a96d3bef 0x5d12630059c6544b6b1c08aa8197b8fc1cc3bca92c629a8db79a2930577c2350 0x1ba250d41cb2bcc77e2b7d24cca28286c3885ca0e9873e5f63293a71936009ce 0xc2ad11b54c63aed440b4d34b5292bd465f7b3271798136ffbb903f50508d4c3 (-0xecfcd4c8cefd220b82c84155ac128bc4ba56c50d222ad715e0bf9c607d54a691);
  Plus 0xc17298e072f2e5c72666486a010df40917e00b083b4e0502372ac782106c448 0x151da3e378c8ac6bb4630939badcb7c978898fc8a8a3eede8a2e00ac4596fde6 0x0 0x3e710b1d23644d93ba12e14f86f9974c5bbc5110f8c4b1b8b39da01e5bc463b6 0x559badb3150669cecf7794c008a21a66f3b0dd35242c7da4193c33ccdcd582a9 0x3bf17c2bad9ce388fd005e14778c66b76d3642aa54650f6d69ccfae972f55dfa 0xca47539db12753b864f86421752c60bf2cc650ee36a9b3a268ac4cbcbc2017 (-0x35a48819a9d27082ce6ea21428457b6ed1cbf6d60518644757c0620b4a86e97f);
  Dbl 0x3ea71067310c33ee64412fb570e0172b307289e0e1f9e37e8d5e6b3016ec96a4 0x6161e46924b380e24f7fe8941fef684d0b2ac4f073fba159506505309ccba6e3 (-0x2756728b8b103a518dc3220cb6413c80a87cc410e7772a1526d0edbd0d141fc) 0x30c7eb59dae5d0815a6e0d3ed7b264a4606b6e769953f58871362f0156dff820 (-0x5cd172ac6b21260a509dfb04274b4dede5ef12b7980d8e66618bc0cbfd3d8c3e);
  Dbl 0x6c0edfa80d5163761c9a0f6d77003f4743b008c38aa9a33e4175c99fae7dfe19 0x565f2e1def739a25edc437e381b8dad98ae3dd5ec58ad306f9e5bb8dca639ca9 (-0x577f4a1d9b171ec4b329d1008234f6942b0d552e1afcffa43673a9a12fd59104) (-0x7cc3c64150c12740066d48e736419ecea558fc3e626c961edeaf6fa955df823) (-0x1490177333aebea560e895aaff6c1925ca4d184e3b12de74b35deb8a56dd0844c);
  Dbl 0x6a734f03f7d397720abf13c3bfa6b97a27cef82ec9caa619aa621b36b32e06be 0x2f39bfb0e03834739259295274902598f674274bbf0b88c467ba9e24ede06c39 (-0x1b7428df9b64ffa14982bdd967900ff9167f8ef3c3f801137af204c9949305fea) (-0x775842158294013aadd5894401d25afec289f0afe51fafe3bca6095c06f83b0e) (-0x24a72e40095949d89bda1a46838c8a90d031456758c6bc8ea1232acd7cc4035ea);
  Dbl 0x2af07d54b6b1aeec3c70e0f32f2a8cab9e344840bd24d32b376fc13789e3c27a 0x5d9e104675d35d54243e0b9d3ebf4d981e3470ceada4ea30d60d5f1790fa4986 (-0x1d57fae777424a51b1eaa6a9e9dff867bbbf1e3617432192fb9580b93fc7a2379) (-0x30200a074d367068af4636a27bd186dcaa45257eacf54ef413ee9d908f791420) (-0x25023f6de12ee89f5d1dd2bc78312c04195423559dc99ddae600174e797a9a63d)] = Some (1562710856650060131533376589661418373502392279319831162904072202054224, 19422047938212801162343367538410630207597324242596975091178670629775164555898, 42344369082025062656381899003708729818201110889162055583684626544098251786630).
Proof. vm_compute. reflexivity. Qed.
Lemma chain_15 : run (1562710856650060131533376589661418373502392279319831162904072202054224, 19422047938212801162343367538410630207597324242596975091178670629775164555898, 42344369082025062656381899003708729818201110889162055583684626544098251786630) [
  Plus 0x336f8d84642ec0944cd1ebffe81317dfa801485b18c857f9609af587a76a759e 0x2859470008404114e38586ad86afb61952c43dbb8199c4b2a92663a4f95acf2f 0x0 0x181c9fcdf35468fd410f330700dafdc5d7b2c094c94100c73ffe65a6a9c49e31 0x1fcb84a9bfb1d30fa5bd89a1d639d5a57b8b314ee5cbe2833eb0881681917b8d 0x55e712dcd5ffe89fd995eab33541202210df52007e531553cd2d51319ad72952 0x192634d8ee1741bcc25d81a1088f9d49533364e8586474a28577b6ed624cb0d5 (-0x484c22a3d92ddb2c9980a0f98f1de7884d2d2c1eb6e0f13c6ff7f4d92dfcf9bc);
  Dbl 0xa91667cf8da8a4555dae711657e118e15a9335038604633cf41dd39f125fb5d 0x334b4e2c98671d164435466932eb77a224b892c0163e375c83997f166c6cf889 (-0x64102f580392e68607d5bdfa4671b12d4634c8c32740ff9b88d4319db2011c4a) (-0x1ca29c716c8e5c1267ffd8c83ccb96f8231d91d1c3cc39ccf0c6613314b19069) (-0xa2f26b652e706463336ed7cdfa3d34461fd8593e09090f535fde8e4240a44eb2);
  Dbl 0x3b316f9f21e03391ef4dad5b4de22d292aacf52a590f2698808e6588e001b4dc 0x38fced3237bdc6ade7d3ceee9feb56febada86010bc2509e61c3b0071abd8d89 0x11e10537eacefd29cbe2e1f1d4475db5250f941222f4d164d391f103b119360c 0x30495a38ac544e5aa0222c4521d0bcc35e78f5b31ac70f340f8b9b72f4e26216 (-0x5301019ae37449ed6dceeeccd687e0f08857c9f4bb06b46e795b0c4c5a95e844);
  Dbl 0x637e0e106fcbd654c2ac17f230844cb578afc8b1e10a7f72c4fee7188c855478 0x12d284450199d9d4972fc2eba1ea9d29a7d2f7f7bbb587e0019abc2737b27914 (-0x7b1b2bdcdec40a07ec55d179f9fce757ce87b8ac5678db7e152259176b4461a7) 0x188988f26a6f410fd559173abfae8b849bd0706f5d8fe84e33048130a0d6eb48 (-0xc2c94592d885a20e69b9f8ce66641fdcbacd1ecdddc4f8f777cab6410a068399);
  Dbl 0x3ff6dbdbf3f680f5f0cf5fe48d47c6a465ccc5b0fa391ad0db6e492ea2df66ca 0x574f76ea9c8dd0b6dad0fdcfffcddc984e385c9022fe15afa5aabb6c6afa67a2 (-0x1a7e0a285d95fd17a4fec13dd4c7b778f7d7554333a37da11034d0b297bbe1860) 0x340fae021f7a1ad6869136cf71a27ef32e4c751dbabf40097ae93b18f9d9820 (-0x1de87c275df89334e7bc54f714716dfea617cdf393feecbfd2cf31fc8d3b082ec);
  Minus 0x27ac721bef4c0ebb9c24e141182e99861f506dd8d2886425aa14f8abf524f085 0x60e9042a79481b5964541e096cbad5ca4c1a38653db30432c22bd2b1fec81736 0x0 0x23eafde060ee9b50eaee69029bfe60a8a2daf6e3bc88405ca1f9f4258f329153 (-0x3ca9d10721f5473e8259b480a87c723fa4a3ff55e11ff77350a5231df5ac173f) 0x3cccbf542c4861d89a5dd387b4e8110346d488a7b24b67771e617b74f589bde3 0x11e5988e713d03996b1dd285aed12e8875de57ba30287f8f772bf467cda59354 (-0x5cbe72073c64ce09a6371e8992a878b75d0a2a1b420d3b0fd132087b283d6472);
  Dbl 0x3b409b4c3aec869b34d262e75010d7b2466ce345d3979e61af1fd728dada9ac1 0x1586c81a0b946a854830dfb5e851e68d146352482d641740b1e05dc605427c0a 0xd201d84d7efd8f45a8e7775da8c926667af8e6e15f70ab1cf978ffdfcc6e6b6 (-0xaec234fa9f7f770a85928f7e865da093193bab466413dd875c55998f79ce02b) (-0xa9074529889cf5f07e670439ad447d5acf725a4f68c53d988bb547beff8ff4b7);
  Dbl 0x426c407004789d585c0c9be72915860d5a0cab3c7eff8d437e858e79b5840a89 0x223caf7e96a3bc1ba98b06085ac3c0f8f1df1b932de1506acf784e1937a50df6 (-0x936d00d4e511867462a5d5193cdb69b6b0f272b1b388592e6e3f8120164bb7fa) 0x1e58e6273bb45fd5a6bca925046d62c7c171be58dea27dbf7b2d80365f3dcb0d (-0xb6679754667d4abeef868d560cadd474f35f36cecd1963928a7822b0baeccd83);
  Dbl 0x4966907c0ffc721f9b84478c72f70a765052afe3edeb4051eb687a0f95530422 0x2c75a074e7b0367bff89dc8a269b03a7d6f186105f69497a1531562b4b6a0149 (-0xb42db88f50ebf2b1233f3ed756b3414f716eb05c8385bb3d04407898400d75d6) (-0x126e44ff56a62d36dbf3cfce5376f05dd464b54c8c60185d42d39c1bba624962) (-0xd500555a63536d7bf8fb9a80dd9430683ab09e1c1cc57e2fff93cf7094db2f74);
  Minus 0x5eb2076278aa6f69fe38a88f930b842ddb18bfeb9f9fae68ba10ad18ab083cc7 0x2b97c09d1a72462379dfecd20e519e76422dee0603deb2dcafb288aa1d3e848c 0x0 0x29377c42cde91631afd710fda4dc2da6ebe429f04e9a45709aef0bcc10cffd02 (-0x7d9e512b4612bd03df7bceee316f2bb533edd03224cc14c68dff32c2aba45f) 0xb7417a8d43756e7aab93a84d4ec03901ee678b9d0eedab87700c0b108ebb3fa 0x1ea769509d38589f1769d8146194b72876a5c73037a892f1c0c1560d18fa9ec9 (-0x2713abe525c1da9288fc64270b5db13ab132d1a2028b7b0cb6684b393108c7e7);
  Dbl 0x4635952b63fb6aa26d40bdb6e08ee0684fe82d6ec3446b09daf16494a5943314 0x6f327db551dc5fc343cf5cc20aaef4ad14266488674ecfb83f2006c10ae2ddb5 (-0x1725d6aae647e29534eaaec6241917d01477e48e000e2646c0c297df4f8312f37) (-0x3d273454bf4c0c2761d1a23de264b7b97e66408603a2c03478508eb7b4b8bd40) (-0x1a316b2e9c348cb8b91acdddd9a6ade922f4c64e4465f524d23b2181a8cab2895);
  Dbl 0x44c0465ef3f5b7503709336ce8d2c7a60cea52d5821d87b2251f9646f3522b53 0x3f5b7fb667829b66ebc71b216689d5ab5780b9c2aa1160209036b00605475460 (-0x69f1a93990bb74e71310511b43ee4d13065235d4beeeb40cb0e0d6d4b20ca950) (-0x8531405875f1fbb2de8177688c3aabd639d7969af42f8684c7d801598ca8770d) (-0x140a4066e8675ea36278986a5ffa0c82727757ad2a33f7fff14094d142b1b3a69);
  Dbl 0x2ed26f1963185cb41c6f9e404d79e63e8056ae5de566acb7f6b63d69a3ed7c6 0x862b461d4bd518d0217d285848d1e6f00c9d83b91bc5aed8ccf59fa406ef01 (-0xa93cba135d92bd0e33486b214a37c13620bf1fb090b9ebd820e282f213d0563c) (-0x487240d3c8b309a6bcfbc01526bee8b983216bcae8ad4af97e9c28b4f20e7fe6) (-0xeef93aae9847909269976219ae0bd5514854cc110ea1e8035b746ee8fa85213a);
  Minus 0xcac1eed047852be887ca93560a86996a041ae9e473715cf43c7aa73d7dea917 0x6ed3bff19771219ae3e241f2c532ad6392f8ba1883cda50048f48ea7174c529c 0x0 0x1a4ac140265b289ae65e8c1faffbd5f48e88ae2914c2bc720f4c2be4b7aae4b (-0x268158a9e30944945d76f9939ce70a75794fc7295b60869ca02b4f246a3b32) 0x3f105a668260d9d9a133c0d833b10d8cd72d83790c2cd7c05a9aac9afb0ecf94 0x39d747ca0edd5dd7e914e21f2b32e7b2611715d32b2b0df6aaaf366914d80c8 (-0x1fe8fd78121c398a463fdb307e2390dcd5b68479410804273f902f3486b64a53);
  Dbl 0x482ab340d51f80914d568a3f43a10ef42b4f0137959d6fede01bec31774067b2 0x5a574fb5ce9fa1f479780d4320ca4c60d9eb3ea714553d19250b8ad8e03c8475 0x63063456b9f3080f6d3e5eda7dc7bac2ab9b35b3ee6b521d4bb9f255fc96fd68 0xd356da19a1906241efb5a95fe500e474f1f290d72dcb18649a9720640ee60ae (-0x9fbe3ae19ced244250b0846eabd129c0d1ce6551900b43fdbbdc2dac61d6bd6a);
  Dbl 0x62f766aa2196c411e77939aac9a92cde2416ccc2c425c8db268cc2bc96993763 0x6109ec10bf65dd89cc5a0b3d70107bb9db78790e7f8e1700a19f04ccd687742f (-0x9a38e4195b03eab70a135c572b331dbee4f27dc7f9b2cc87c55cdc0c727f1382) (-0x6089a34b8f224b79f69416b8ba8954af04536fc4a2be28e28b8fb193295a1a9f) (-0x136a75032c800db1a2695d538be20adfa5789cfbe77c856c1537ea0225d34c518);
  Plus 0x3649f13d632abf38c5e20c751b40657fdd0eb53de1c3f19790d935cf9d5bd71 0x4badd6be3913ff2e169d64a7058d82d0ea63a5c8dd90f7f06158df34f340ec37 0x0 0x37929d4945c070d4643bc7367ae95e43f9f0700ffcf6e7cec9dffd3166095573 0x56c9e07edde5b4c42b58eb97f78668a1773d19b40067850cb3668e6ec756e00 0x2f5bd432b5a2b5a14efddda5085402a9b9b84139e8ba48080074140a2ced9269 0x1a3e8c35c83496d8164868061e055ec8706e8e7e4317192cdc42e3b2aaa2b69 (-0x5b1337ce1e59cb001d681246f61ba9934417a017e5c16c61d8379a2c7ec4fbe8);
  Dbl 0x58106c95baf85879f4b2295f1de36db95757cd0fdc37ad802e7836b6b7635a73 0x33f0f9203633a68a69562e0342f4e4a3caca0bcd525f4c8dfcc13578d33c227a 0x30e84cb4ffecd708a37f6fbc71dcb8ec973f4bc35cee5722c590be48f046b9a8 0x28c6397b000b34a68a42832088f310ba9aef6a1e22f545a2dee233fe45a1b7e (-0x360437c7df93a11fbaeab614195a08380a7329e9f6790005ba87602c6ad9dbaa);
  Dbl 0x61c23793ab232ed5d5ff158c1a9d3404739e236dc35a62ea3d5de4e5c2e5768f 0x1383fce3731481d623f45bed7c7bca63ce24c815a90246282d404fe3d4af7a57 (-0x13736ea27c8bb3049dbfc11bd5f8028f5df7b2468d0f57aa9202d2411691ac3b3) (-0x20b3e336c40ae682b23e5c69d76d0b89c9d37400ab8d298929b478662cf3ff86) (-0x16efbdf336d5afae141aba5eece6674e70d7f9ee28735ab75217d19cd2a42bfa9);
  Dbl 0x1a20ad5d3c232cc352711ce3953b53de7aeda9515164982244d4aebc189e6035 0x4b9caddc25748a07eb26aeeb5116ff478206c59322a554be40ef47c09966902b (-0x198e603608b2fa8c7ba41dceb6570e4f18692899dab28f63d72942612ddf1e0bb) (-0x1b5ad97dac6933ae85cc36a39c477e2482f11181183c2cbf90a5e1735e50e35f) (-0x1af8e5a4f11daff8bf44de3207cf6d81536232b70ccd52813c71f8d95f8d3c56d)] = Some (51206909350709170390085684090025357262926390208752227546040637916912842472, 11817869684964076805118066560514008746862412539298341961304979160194548129845, 34200291723101164855144926590907732871052693018309307232609319763575210151979).
Proof. vm_compute. reflexivity. Qed.
Lemma chain_16 : run (51206909350709170390085684090025357262926390208752227546040637916912842472, 11817869684964076805118066560514008746862412539298341961304979160194548129845, 34200291723101164855144926590907732871052693018309307232609319763575210151979) [
  Dbl 0x2e251da6a46c256000e5ae94a75554b0f628b1d2da21b6e652feaa75a9de372a 0xe7488f24b029f8b4c61880c726036df4947f75effc4ab093f9db88c1f18ed48 0x13dfa2149e58f09a765853498cf83515784be4c7d980e839a1ea00403c4d87d2 (-0x186ea4c1c27a912b644356b5ed95adcea5198271b4b517a25ea1ec7207e6252a) (-0x51c84ddc786fa4c065c7ce88f8395822869559997582adbdb61ed580c376ac56);
  Dbl 0x36996857d83e3545d16e59019563d02cdef7476b8d1ca3d595577d233a9ac8f6 0x73b688433092e9f010ba4478179cd2d2124d6d9fae31dd9a25ba32e25949a0f7 (-0x5a097b9d22bc5a5fa367b4f8c138358f51d50ff205bbee32d5aa3045aaef716d) 0xc07bccfbb4546b7434588dce820313cc196a4d3c212372a97df7e9b93c24d26 (-0x8f86b7efb5c15d57fc7a019a738fd667eb4b2f430904b4f31fed74424d5428c5);
  Dbl 0x5316db087ce21f6c84db297478bfb36b81aa6143d36bfe4fb5ff092718d7e8d1 0x4d444acaf09d0e3c7ec71ec5b8209052539d7df7d243bef278f54536521a5c65 (-0xd137989bce16e91d51e8d485aa6fd6977a6618003963b4df9ede6bf7e69d2b0) (-0x25340285bc720f8a1d7f3b7a68192e7cc10537bd9a379ce32a138373386f0517) (-0x136d57a558520e7eb983d172e5b599158338fbf21e0d98d8072c9304973e4539c);
  Minus 0x9f1faa9b0058a190082ae67562088644c841c413fa60c3f5eb7d8c39ecd54d3 0x2cb937711e0d296189e7358f0d3b4cee1c972db491d13e2f53247df1cdb66987 0x0 0x2ea83ef4e84ccdd3ad0c90b7ce4808b8f5d6d32e1cc4f3ea7cbf09bafd6b8deb (-0x41b23a3d39cb0b8edb2c767385f99f5cdfa2c1628ee3f6e0eb0d2331c22e213b) 0x3fb338f63cfeccf5bff13b5dd77b7b4ba3edeb5ab6aaa322b999752026ffeae5 0x8785e3dbfc5c30e50f798a36f49fef77d0626c06003029f57bcceb48ab9a224 (-0x517a5b118956a81a72305f3913c7d1623c0436270c6cb1b0ed3d6b771518e113);
  Dbl 0x545a89edff258f40295b93eb2108a724debeadd9de08ba1cbdf9c114e18487ac 0x45f1a01d1c5fee165e286966ba7e32ef9ab5e8013e6cc56e06ad81e64d84d965 0xcfce0313f275092ddd354d380961a332c1b78bd6728010ce550876b3983824d 0x3160d410a54b3fc354dabfc073604f3aa303d0574aa647c42855544326a0eaea (-0x44d34a6adb5b173775075c7c964c1798e3d3d1a3ac80363eb353104b3b92aa47);
  Dbl 0x6e78a2d431fbec90d400d94f26ed3e1c806b56b451ed4c82d43f5505a2a34f10 0x457e8067ba5f200eac73770a4e1d1e090a722682a0b2900effd35fcf8e070897 (-0x108b1ba7ad1c3034b3732d76223ff6651176e9b18ebf41d79e034c26832fdbc6d) 0x380e2452385ca2256e8695894fa263c54258264be49a0eef466322879bb0ba8 (-0x19f5437cf00b66d03a95b525a1d28c54e6e14fce7cf4279d738903689707c9c15);
  Dbl 0x2d5ca908fe76310857b9eba259a867e9a6f28becb940b5b287a0e100fdd414bb 0x48e996e7e24b484f8cf76b4d2ad7f5d0464298c71abc85075d9129f90e458171 (-0x1e4b23f1940f1c3768741e495c408ce0a535a7327b811a3e9342854c5216b8510) (-0x7372a1e66582256c5060f38b118eb801b97291db014d94c0ffaa3037514365c5) (-0x25355e04a32ea78b405517a3e08589ff4d1d3d7c8b5bdbfe181b012cb57bcb3c0);
  Dbl 0x2f15148d5a68a5835b96f1806aff9b1305ba04afac645e27950f3355932d6555 0x68ef73f2614934ca6a331f0a527924848c72a4d7eb552bb94994e6e482d26160 (-0x2ae4270fb2eca355293b3e25f90e597b32ddafa0309f41c777d90ac7535d7508) (-0x170883c901df27cafd9dc2ab2b489f79b121aee4c4a0352d45ef7ec7aa57efba) (-0xd271f291c2fa1e297b853b72f6a1a31cef9e63b54f0643f859d8f5f50c75b89e);
  Dbl 0x73eda753299d7d483339d80809a1d80553bda402fffe5bfeffffffff00000000 0x4118ec8f1f19a2b17b9f57e361e79e0016b7da893f3c2726ac5aab84a0f5c5e1 (-0x9fab6a39f06369b0c01d3d771b6bdb2fa3ee46b798f8439637c344c220d639) (-0x4ee31e2c6be22b9a00fff81179e8529658bc186eecaa0b765864635f5c4a69c0) (-0xc228782ba61afbc005288a816ee8e405c9e10fa7154e6e5e2976f26895e256f7);
  Plus 0x0 0x1 0x0 0x4118ec8f1f19a2b17b9f57e361e79e0016b7da893f3c2726ac5aab84a0f5c5e0 0x1c8b0d3d6209e1b1fa04f2758088fe124defd6937a4e40fa23172cdb37afffa9 0x450d30f1bb270d04bbdbd13b43412add43ddbc396235b6dc9b746f9fdef1d6e4 (-0x1) (-0x248ddf51bd0fc0ff819a656de15e9fedc8c803f5c4ede62c89437ea96945c63d)] = Some (13108968793781547619861935127046491459309155893440570251786403306729687672801, 0, 1).
Proof. vm_compute. reflexivity. Qed.
