(** 2^128 times the generator 0, and the quotient of its coordinates; generated certificate for [CurveOrder]. *)
From Verif Require Import Base CurveOrder.
Local Open Scope Z_scope.
Local Notation q := 0x73eda753299d7d483339d80809a1d80553bda402fffe5bfeffffffff00000001 (only parsing).
Local Notation d := 0x6389c12633c267cbc66e3bf86be3b6d8cb66677177e54f92b369f2f5188d58e7 (only parsing).
Local Notation gx := 0x1587ad1336675eb912550ec2a28eb8923b824b490dd2ba82e48f14590a298a0 (only parsing).
Local Notation gy := 0x4c5c0482ac202cf6740bba9148fc310f8cce6e00de71efd9cf67ea4e2f3fc483 (only parsing).
Local Notation run := (chain q (-5) d gx gy).

Lemma half_0 : run (0x1, 0x1587ad1336675eb912550ec2a28eb8923b824b490dd2ba82e48f14590a298a0, 0x4c5c0482ac202cf6740bba9148fc310f8cce6e00de71efd9cf67ea4e2f3fc483) [
  Dbl 0x2042bc3bb129502abf2cb920ef59c691422ee4b3e3241d1acf18b6f64ceea792 0x30d903002b25f51349aa6c2e067a982d0a7989d164b7d3249fe6e0d258896c1a 0x3237db4f1ca959a24260d305bae7f6df329e7e4550a99ab9c484a076754ad76b 0x16ebba01be07130ae97c9a5ee306f6e053075f9413c79eca67d8ff930a5fc65c (-0x57c39f19238200dc90b5f9854a7a0e063553d5959c2132dc5402c8e0c47e34e1);
  Dbl 0x5df397de5110c237e6221ca0cefcd1b237295c8f6a3709d747efc29706b9be5a 0x3a4f58a71605052da9dfeb2127cc9beaa931a247946b868633b9229394c34327 (-0x184e21540262ba663f7518507a3fb8e607f01564eb04bb9f714dcd5ce13d0c22) 0x1f39a6dfeba3fef075b35c656fdd2f2e7388647bc3c380e27dc204e40a8c9e6c (-0x65b915f1bd678c3ad1cae026bd23d5749c0419b0a4b5fa385de063f047923e08);
  Dbl 0xa06c137342515d808a49bbfab7df777b09ee7ffc679e9b6dbb9462fc3bc7e00 0x4ae8bfabffd8cd7a33b03b8acd5f57422b0acac580a76a61fbe72f74f9c424c8 (-0x15f603158ab12f212c40db59dc05a3aee2261304d69b1265018783801fa2129b0) (-0x55e614ace49524dff18130e8c89bdf0edef23010d288411543cb1383ee9b756c) (-0x1da6283ee714cc40cf96b1c19190a5f51fb1c6439c7e31f0633221b6bb225bdbd);
  Dbl 0x506508670b0ad1a46d0b4106ae35997fe0cc488f7483492c34d95e0960c47a33 0xb4976635479573426e6d3730fbe235bf2846203c35390d76d7d938a50e25e50 0x2c116f8baf727b3d95f22607a2521521c0f05c827297cdb9cbde67c4aac5cf75 0x371e84e55b4665ddefd55a9a26cdd7063c223366de39d17978c919dd726f6a71 (-0x3e4c1b76a111b09f0ec7635cf1710422ca52a2e891dc0cc8c68d13cf6474a910);
  Dbl 0x42154980950dc08074b06d931eb996b97a677da12d9ed22d39ab3afe065f1f94 0x5523066d2d0097212a6b79223b36c6b36eb72a8e566d427d2d463687e988bbef (-0x115a9f3dc886a6ba431f1f0d01a0b8492d4057be98b6e048f1c2ad17e8491ebb0) 0x26973913ee8328e988e808694c489e05c478016c945ccce9df884dc6837f105c (-0x15dbf647b5e5473bbbb1ad6cc2c1b052ac8e31dc49235f42b170565e18f6d6fdc);
  Dbl 0x72b17de8fc44b2a3360d63670166c2453590a385f54292a3ecffb5953928b9a8 0x1c43b357655b7b70a12e3add922c7466d8c29fef18cd6786d80f93a66aa25b5e (-0x7dd319db1c6a6d31a0f717e343e3da6a0361aab8040e806e728b3e2b63788428) 0x8f8717cba2c340ee08ba8f67d80914f66112da9352247dc1b508fdafa587a10 (-0x1150093b4b4617c74132e44d5bb68a7068f9d0c489cd469716d8bbc6a8ae873a3);
  Dbl 0x30441e0132520a7de49e6478ac9195dd7bef9d52e772b7e4c459fa4b29829f02 0x1fc057a7820d96c36514b4cc1be78ef76099c9d45f70ff72ff24787e8c8265fb (-0x230775b577a5837baec7545883724c292898621bbacfb038a336a8b4fe3143521) (-0x2bbb8268adb206d2b64b3cfc8946b5c57e0c613b205014ad62053df56a8b2396) (-0x2464538231855e8794d83a85674d4408e1b154eac7f4deca004bad2e5dc2fd9d5);
  Dbl 0x711e870776d86c4b6abc9ba74d58803537408bc2cee1f61a0b6ceb37123b6ef 0x6704212e60a8c90630dc426a828dd9c5836b3a2d7e1ca5fed761907dae57e4c0 (-0x5bc7bb8810644ac9388f235dbace0220bcffe756400ae46fe84f8fb6e90e7091) (-0x16140d476ee50b30fefe4d68e2336441ba36e117c034447fd340eee984afb9e2) (-0xacb62a17643787555a81fbaa0c2284c564c4a4db7e3e03e7a21f755b423baf2d);
  Dbl 0x307b9ff0c62cb7d099a939bced7f8f991613f693f18e6719123c6829b00f7bf1 0x4658ee3a3d0a52d0386d07d3d9413b508c044b850e6f7b107c2d56dcca55d899 0x5962e300fc5cc7f6cd59767bc852aaf70737857f678f72533dea598d5d7bba7c (-0x95ba406d0443947ba12d4c41a6b9c2ecc06f81fbfb2add4e395945325fd2291) (-0x6259e9c2230b72efe3017b9c4eaea8309dc1302b0a49ff3d60dde176e50fd8ba);
  Dbl 0x5237f60bdb290899d32c1d896145fe9e1b09ad7c3bfec2cf47b6eeac2c031107 0x576e03e3bee14fae8edf5612cbb89b45c51f089e58bbc70ab749add444b082b1 (-0x3ab1773804f634575996746f018144891a4d4c38c0d0b9fdbf8a0ada26bca836) (-0x296685a0ed0685e6c6128d4b0641ecdc5a1c1a0593e1cd5ae0669867d81e9144) (-0xa29d651d90aca789398247bceeabf30bf40533408115288cbd5d601d46e83b16);
  Dbl 0xfaf861a1d6871e0b16db9749556a4f96cf905f454043e5afba5993bda63d3d0 0x180c8322c27283e06b2868aa985e6bf75b52c54b1bb5d60fad18e194b5337fcb (-0xe19e3ac8a78b9c119b565b6e03bd65c53ab24179834f3bdd6a21cf061243423d) (-0x74dbb5154756767235204667907a035ade8c778f177eae4df7b4086e5e86835e) (-0x170766cc328d91ec41276774607c562cedc1c71ef6d41df8a536d0b06995455c3);
  Dbl 0x5437bdaa3342592c77ad4d018f2ed8c040fd50b019298a6bfd782ecc26896180 0x673859ff5acb10f9524b9ca7f8f855f0deb1cfc727ce2f0edd24c5ac510a8829 (-0x59f735857d44143390a891ca2c55df4bf6b519e6e65d1b646d881dfe8317995) 0x265795de852bef7370e136af4415c75aa63088502e8e232b61a7833f4e3c4920 (-0x4691f8c3cd390080ac3f83971d725f34772c24014008d03385e700a154df9d65);
  Dbl 0x3745589901d7889fde706db2d9ea85b0f0390a5a72f805ce1bb2d940ff692ea3 0x3a3625eece44c50e84da141d29ed08ebcc5b20392da9fdf5399722c711c02d11 (-0xd6002ce205eda8cfa00d1c531a3442e9339a0b325e7eb3610208329a0eecd2e7) (-0x6824e80566cd9a09f471fb56c6395d3059f03a00ffa7816ee1b8feaf3d904398) (-0x1be137a007a524ce836aaa49a8914e38bdbd984900290fca2fb5d65730b085567);
  Dbl 0x223284fbd46d4b6487096b418bdf3b85cde7e1d46d8df72926cfc06f84fe1457 0xb89d358b9113a0eb3bb293be87e665fd23938200887334c4645088fb7c082f1 (-0x6686e27c793a3982b025585e0edfe00f75fc7b4b3053d67015b0c1a95563f43d) (-0x1bffe0fbe5d505c9cc8bcded8806c48b42eddd2d10626853ef3d2285e2bf293f) (-0xaa44958fed82d8e93aec0ea09afa3c50fa5227c3190216ad5c3886b2ec26708d);
  Dbl 0x3aec2080cdcf97b0fe636d6463693f20014d975212a5b62f3874798fc11d8616 0x5da1999814f269bf7a8f2fb103756842d42bafb998eb259ae216b60b5b8b8acc (-0x314a592a3b58a697707cec50126865778ee6c98378aeb40e43ec17a3ed6922e1) 0x1ea009964b10e13b68b17a318cc926e154bc669c986161ab40587372f2f9b890 (-0x6f11dcb3728855cccd9e919d86b7c2057283a03745628a9d3fcab1e711a537fa);
  Dbl 0x19b117be033eef75dce3146af8043b97d117ba84588236da1edff84dc85ae759 0x14d45bad6049d499a33c938be1db05d1f5eaaeb0246cbefb867ef217c79738a5 (-0x4a1e4cd90cc0a596bd1f90e4ea622a6881e57f1236b9a4b58c5db05ea39ef978) (-0x593489affb750871579f7a5609891de314d64cf6d1302b7b0cdf88ce186a619c) (-0xe634fd028006354889662703dd32f43537abdbe75b10ba41dc2197a09128141e)] = Some (0x10000, 0x19b117be033eef75dce3146af8043b97d117ba84588236da1edff84dc85ae759, 0x14d45bad6049d499a33c938be1db05d1f5eaaeb0246cbefb867ef217c79738a5).
Proof. vm_compute. reflexivity. Qed.
Lemma half_1 : run (0x10000, 0x19b117be033eef75dce3146af8043b97d117ba84588236da1edff84dc85ae759, 0x14d45bad6049d499a33c938be1db05d1f5eaaeb0246cbefb867ef217c79738a5) [
  Dbl 0xc962e038203f7152e8fd09630c10af93b9c5fb30d6c5f463a71cfaf41f91f89 0x62ae2d614aaec0d317a710f379dccdc4cb9ad99b5daf09638e851098cbbc2729 (-0x18b9e77404f1340b4e3838802862556b755f5fa6b9e60aa04b0ef383e4981752) 0xc9219e274b8facd22273c21098550199d038a3e08cef437fc15d8f98db24ec (-0x6ec0f43f59099430d3702eecd79710834168a56c02f83b4f8724bbdf51da9e22);
  Dbl 0x6ef345d81fa4e2f2c60dce5b527950622d1151e9ba62e3ed305796a297720e51 0x6a94311bbc712c66962457d3d8e71e5f3ce302d5cc4612d47b976b575a9dde81 0x4d2a704e1156e48752aa35316b30551771790306843bdf0f7d43261677521c97 0x4ce2b6566b41f362f237c21bec3956dcfc0c3c007ec9a7e3a1d23fdf476cd113 (-0xb9457dfde9e75c22e426a709b897478176fd51136eb8d124e363a53368297809);
  Dbl 0x283468be00646a5f0109d270805eb72f302104075375660f98be96efa7286a85 0x29642da03af14d43686d1ed88fc85ebd7833c86bb2eda98dfd123b8b7828aa53 (-0x1b0f250ad3603225267e1d86abd4e263edd93f27aefda0579822065dabaac0656) (-0xb790d771769e194dec526c947e0f594e331bf115d07859a8033157f655f088a8) (-0x289f4985f0638515d6d51b51d456fe4a7837c21c8e42fe414c2130fa3add98db6);
  Dbl 0x884f23c7f90bc254d1dd95464efe73d37533a4b894643b1f3bca4c3b2e57a3a 0x67fa22c7de0190b6670b35fdf9e72d1d434887c548ddf49c00d769036530714f (-0x36f01929a24a78723716243008339b4abf667451122661b3d6a00231e5123135) (-0x14bfc4e1993bc8ac260aa27093fa6f908cc12d4180c888a106c3fdf8201c33c4) (-0xb5a6b9cb70b5bb78334073dcd4d5c3358d0dadbffc5fca425f33c607d15c6a77);
  Dbl 0x33d3133866fba1a974e7635ac7057f1401da135ff0d2441fefe8f6252576d5e0 0x105f914e2817b7da30068c2937224af39972917220db697f8dda25a10cff33bd 0x5a20a9ef361e0026b08c678c7ff7c8eb9a860d979b090bc674c2bfa7f40281cc 0xdbcab9095d1a0bfe5b1f4ea2c8706604b253e945a6da104c514860b73501614 (-0x698e756c4dfdcdad85dc45fa1c26a8baddb818dda3fd0e88260bb492d7d813b8);
  Dbl 0x73ab0922b8edbd49f59d46e2c9cd506e0af175ce0fd221371b23e6b8d9c4174 0x1fe711cd7f196ed2dc0a95e272ff6987798bff9d1a64f058c246d989c48f78d9 (-0x718683183952952af68ea6be8273f7ae67cf196fcbd9890eb9ab3f2b46dbb9c8) (-0xd99665915dbe205fb859fea36016dc9d430429e311771044a34ff919ee7cb0c) (-0x7abd3622c12032d040438426e32d208551ad45e2e3f51cc6fbe323bbfa6edf80);
  Dbl 0x10183e146b5f1d9419e6bb5c954223bbaed93983c8dc932e71507927775bb39e 0x2a005f9702b47779ff793ed0058a5a0f4467b5b728ca2ef9b39d73a133451ba4 0x686797678dc86b37c9756731f6f31dfc831e638721dcf879e4a47dd83f18747 0xef30444a58154f1811ea1a38d75aab3f8a63994e4ccdf54521a8ff6ab0bbe4 (-0x17daebc9c4c9ba2f24c4c4fd6b12295d3fe7239e4bb3f90b2f819f8a489bed21);
  Dbl 0x20208b666a496989286bbfcad7066a84b02081d86ae9c55d63fa9d5d7117bdf1 0x217a7028d4269898a82b374ed6c522b4e4d443e96900c2eefc2598164fce8542 0x40b82dd67223b6e264442c57ab2acbf3f74e593e1fb20444a9b4f7899d8b0f2 0x105da4d9060553aef8d7fb4b2ad00499bee0e85890593459b752b86af744517a (-0x3798c0b9e06876533cbcd8b59c645464fabfe8486b1cd8f7a370f777b28abfb4);
  Dbl 0x18a9bc9c1e2942a05431b8ef9ac68c7ad6365ceb77f0c7bf7169638a395a7b47 0xdf016c26aa7f606091b523f67029c4afacf1d2ca5a21b585d523ee295fa666d (-0x22d94cd3541e8801b68d68dbe76b5d3bc6afd46db8a713fb684808528f766155) (-0xafa1c858b03007249a91df4ccdb591e84bc0a5e9ba2e12cb499868347e34798) (-0x3a77bd7f11bf2afd619a31f8eb4c3ebf292aaf43e1a63de048d6ca1d4a445973);
  Dbl 0x72f036793b7e6f4d7c57a10e0e36e487d27b3c2403e670f409e701572b31d9f2 0x3afc559c2ac69d7967666253ce5c637071157ff57adffb4196c16a31de0ac0fb (-0x188f0e997d5ba9283463bde5c8b3429f70f661625f9982917ad8e84ded267970) 0x9d695511b7a2bd1007b99813fa88d3522f888b2e4f5c004b9c7ed2b9d67a212 (-0x2400ab224cb7ef66de0ccceb66b8614ab2aae736f21406e22da279daa5b773f4);
  Dbl 0x4ad549cb5c42e839dd8a3b3525f48fe77331b9e99d4470db360f3175fbdc86b3 0x204b8f57a4a1104840733b662164fab5ed4146896d049105dfced852faa31d4b (-0x21bc574c655884c363e4b2731ddc0c94fd8b069d2f526d027d31cf22ba902f1f5) (-0x48cec11f37fbbb5e262f2a49b009c6b0df9274bf449249bf6d66df183b43c7fe) (-0x26ada49bf59b9ad05b0dd3dc3a7a279ba6cbff72d8400d22c822557bf2cfb5e55);
  Dbl 0xf15d42f6e5d66eb1c63846d61d7b7110681038dbdf3b5379e1a8863074779f9 0x721488a6c8b4992f2e51262254b692adb746264bbff22c7565fe6ebb846f536f (-0xe888274c56ecffe456be65b17c2b373315b3e9aa8041dcae4da196d0e6c8237a) (-0x23ef42a53aae34409aa1436cc1a4226bb4a1ca3fcef60501a472575875a41a6c) (-0x1261422d494473f827a66e9f9ff89f336fd7fd12b8f87e9a111d11113b3368be2);
  Dbl 0x5b83e1f751dab7ebd4f535d2c614a37ffe7be761d4d3ff8d2488008e4f29c802 0x57516fd5adfdc2669dbd2d6f7eeef11ff532095084b92a432d3e92b8c4c5b695 0x6672569b7bec1163164cc5027a03fef29a3e196c86da80ff1996e0407dd270b3 0x3546ca51071b4b4e89d59853a0eba636cc0f8bdb2b2f25d7d3201fd9144e7504 (-0xc93cd17156652c0399a683c09eb7a534de580e48b1614880a47ff521749f5259);
  Dbl 0x55072ea1105ce113800bf0168b0db494fec9aad6259e50888551fb8e64552ea2 0x222539b5a62f0724a47c7e12f14d06912c599c1fafedc8d5bf3e9482e47a6194 (-0x127726d0c6a4347df4f2eccd1217419d4d255680e421cf6ae7073d2c30715d27d) (-0x6785391cd7b43e598dbac91ad67b1024bfc53176b7f092296201fd505dab8ed0) (-0x1b8c6386d0175dcdf6d6085b7c2142419fedd31fd94efe67793ad4441b409694d);
  Dbl 0x4a526a2e9ea322c71f52c82f0956ab0811f6e2c7a76613dd6167383590e37084 0x2976725abba9a565f27cb00fe83b757dccbc14823453ce55bcaa9734215f44f1 (-0x12dc375c2075adef961162a2634c9417759c23ccd85cbf05fcd2bb07a8c84f8c0) (-0x159184a89aa7f6ec5b822d7642715f406acd0ef8bd89ed3e90100de85d321a60) (-0x151c9d4082bdd27a74ba831a33be22abf4f3c4ba313968aae8ea7202f1abb3a3e);
  Dbl 0x1cf4745443cb186e6b3b511e2732e8a4a6f05c564fe29516997b5a2a8e58a638 0x23e2335d6fcc42b3dad3306bbe097739453a2e7653a9df9708562c9e3ae7f254 (-0xdf690f4d6924dbb023407eee3f629433ada0a033b28497b3214371646a8c1ac6) (-0x1cefb344026e3f2cb6a6d0ec304e13b095a47802c4cde04c913545714406c380) (-0x11b18131f12ea99649743889f0d3a2531b99da79b742de139dfc44852928f4915)] = Some (0x100000000, 0x1cf4745443cb186e6b3b511e2732e8a4a6f05c564fe29516997b5a2a8e58a638, 0x23e2335d6fcc42b3dad3306bbe097739453a2e7653a9df9708562c9e3ae7f254).
Proof. vm_compute. reflexivity. Qed.
Lemma half_2 : run (0x100000000, 0x1cf4745443cb186e6b3b511e2732e8a4a6f05c564fe29516997b5a2a8e58a638, 0x23e2335d6fcc42b3dad3306bbe097739453a2e7653a9df9708562c9e3ae7f254) [
  Dbl 0x5f0cb11691b81e53a777f2f38a6c1d70de31b70d608288bcada309b009815b47 0x5d7cc92ffd69c85747c6442195b0fb3a55c4b522a09846fb2c8d8b44ab2b3770 (-0x190d72f5a020cdc0f42d70fb4cbebb6cffbe95fc711da2855d5fe22f920eb445) (-0x91a762a79c4aecb5f30043673b210259b2645bd921b73e35c60dedd5ac6866d) (-0x37f1855f3eb76ff87da076a07997901f4d2f2df9bba7ff260beaf1a69f95fe20);
  Dbl 0x5a4f77e31d9fc79aa832aa6f081449d99d96eeb235a3f0e65407e8a852fa4e08 0x715cb3d438e5482611ed193c58b700ef4446038394b7bed774eab4c39c5e08f8 (-0x13a43d1822e6a95aa9f7a87c3df59d0bc1c93592c6f8f3ef5211e8137362528bd) (-0x6f3b207b85adb48252f965add4f2f3a4b8347ee15a0d76fb18f7239a1c80c5e0) (-0x205da9c02c8a4f4981361fa353f6f83ac1c111731fb3088e0330c9c1fe1fee145);
  Dbl 0x3cab55b2c87b93a5fd36665a04f23ee7f30c57952586b11aafcb9039f3b2ed6c 0x13c9906cbed66264cd48c9b6abb58f3013d8a1e7021d644440af34b5007cc254 (-0xf0ea478c6ef46176f4e9b6f4d6aa2e3475a1fa288e940981493f69e8729b4f32) (-0x771e72adb90f92b4f0601c23ec4a85679d57e92fb23fb728cb823dd68903a868) (-0x1e1601e1c6eaa1b4c50c3fc47058c26a09027e45198fee1536757eadc87e81940);
  Dbl 0x1be4da1dbd40cd6449753e709753c5edb06702ba318f99421836fa12029641b8 0x496d418a687542a140284da33e4b79f98b13971e5669dff679dd6e419f045b1e (-0x9b5fc7fd08c5db6e64fdcf880ab7921a9fea1dc9477519b57e35b27ffd47c8c1) 0x312ee8cae8ae5adefc8ceac431d7b29d82c15b26569ed22842e52158539ded8 (-0xe0bd2ab93449e1692223fb09daaf43250d46853f335b71efd5b262f1c5be6b42);
  Dbl 0x5a1264dccc273f875ec6634ca77663d3e054104741dc8fb2f237cdca7f35806d 0xda7610580b97586051035f953d1f6101e73b0acac3bb6bdb2956358a6d08a78 0xcf2e273974cae6a86305f9ffac6147788cbf4c7b8d41c8d5265b4d381748a40 0x15ada8bf957b93e64be72084d362aa82b2d4b5633f8c0dc2e1e466889d6c3294 (-0x58b53fe1f00a967b67d1c9d633030b3ba85645381ee662e96d1011f2b7d5f1b4);
  Dbl 0x29bb5cc56c64910dbeb9b2ca691e79f53ec496385818aa21504cf9202427e82e 0x673532dbced4617f36e2a49147320ac982831ed614251202aeac61132a6ea264 (-0x15c4dbdda378ba537e6c4165a0c6269f5e974c15167621420c4fc1918bc6910ce) 0x6adbd5dd35177301d06099786cd4b1642bed76ce2d17933f86f217113d0abfe (-0x1a4825713cce7a76f7d3a4e3bb53cfd55068d7005d26328403e2c3ec5a47841e9);
  Dbl 0x70be83e8043945cdc252443e42c0563b06890a6f4de1e85c16dbd3fdfc6c33e7 0x2eab2dd38a5a6dcd86e50a4a51575ef2d78ac3990963bda7ca821fcf273c348b 0x10c514cf729fc163d7dec42a0765473af5c10c6ac49a7a49ba98ad5dc31d285a (-0x4042529a44c27e35bf62919a5be809e91d26c4860ad95acbe8670a806c0cba82) (-0xab27a46aec8ce7d2d00d97463f191750149d5e43c62acee4129d74a6a967ab84);
  Dbl 0xc970c66ee7ff35d18b0acbdebaa0ab8b94bbc5f4e202e770e4cf25d8d61840a 0x49eb626c304ea8fcf3c26bc20fbb50204b31412290e33d70cf919d5c7d2e1284 (-0x2117350b4b75d5110a8cac7728d3d07c825056b124696d76d7919e54be976c24f) (-0x59f9c8e384bb6ba92858ad20662ef5f8cfec00fb25d3bb2aa444ce0c34c4d91c) (-0x23bb5bbb40eeceaab89c2967564e6729809b6380a8df2074bce3afb97e8ea0872);
  Dbl 0x7371be25c04776134feec5e178f85993f275df19bb0340ee6a542632b0110280 0x5409122c0fbcf3d6abcb6fafa3df0c37d509c88ec1bcee5f646cc76b85d0a471 0x284bfc894e004aad6415404c93e04a073ce7b7ed036b4ce07ecdff583478f21f 0x2682470019bd2b5db6d7b3aa5f7f2461f09cff1036c66e61c7736ef944db6630 (-0x5db06123215be8b3512e15a3ef0474e019f3a388483f9bcc55b505bc70047fcf);
  Dbl 0x15a766c9931b305ea1235944e85c03d1c577a0d5ee46f10d7ed37fba40bba43e 0x531232a35ef7534803cd16b4f02aa0a070a97fb5184aebb347e80f4abb098c19 (-0x201e51c189dd9337969239e4cb01823ff740c54497c6f3a1ac94511b9370eddba) (-0x97714b24bc8327b3a81f164f8a05982ab028dc9f78cada63a35a8c0a911b3176) (-0x2b8d3cc26376a000c4150970c61f2c7e6cef993d127ba7c528f9ed9b85467b3d2);
  Dbl 0x4969a23f69b2b7ae43a9c570a2bc372f24fa9d04d19451b31ea2ba181b6b866e 0x66421634a533fe2eb55315693a69ff5aa424600f28a7d9d4fd1a27e9046b4314 0x274d997eb370ac8c7c0b9686fd0b60ec3ccb8b2a925dc560e0d5ef256e79550c (-0x1d143c0f5fe3fa0d9c05a74f156d94eb914ca589eb639fc82e39e5721fad0f4e) (-0x5278c9db943e664a5142e9c21974695b92a0b1e9922a26aece22eb8aa95950b1);
  Dbl 0x5fa7ae6377c65fcfdf38c29f22906304070fe79459422af5ec556d1cf5d62376 0x33755a73a235901370cbe6b7b2fbebaec9df370db263d92ef0ce40b1b32d19e4 (-0x8e3efa944d1440e0a12ea4c97af2a45fd59eda886e9fded9fee036558f3d8df5) (-0x8003eaaa4130872eabc59468f4594e5ac2ec9194234edfabb53a61e1a1c2899a) (-0x143736fce0761e87d563fc1f1b060f459072485416ad708083d218bd90ef0dac0);
  Dbl 0x62efbcf0673c866f0aa99042c6ec27508876872143182768fa3d7952b592b31f 0x86686968c9445c259a95e517b7aaefd410ff33b368a12a4c9376e41216510b5 (-0x173cb33f44aeefbc2b2dcda79fbc389c8ed395c311a7c34f84e707dfe274b54c1) (-0x3787b19546c23a62bb5d6957ab51c6d9fdc92b76ef9a3df3496747cc072c776d) (-0x1a3f8d20ce0a13b401afc6ac103fc86b43d79afba693d0eaaeaaa8cf21bf460db);
  Dbl 0xf6e5db177e7d735220fff27cf5d775fb2d5e92ba043b203690a2154d9856820 0xd6a38d4a313041a892e92a9d66d21fcb1dc60a2c644d22287b42e7c606f0ae2 (-0x1a5912905503692bf852910c0ed6f438986c131cf5dfbaab49bb0bc9ec57dfe5e) (-0xd49a631103ec92a63830f0368b3959c180de6149cce5cca610dc11c8ce4a796) (-0x1a7b2ab5d161c8be0f1d6f8db1a9265793be91dd605f5e16c3dfb58731c3585de);
  Dbl 0x686c2cb7e66ad745afd8b91f8fba8a113a36f01b29dc31e8c04219e99612b58f 0x54a9701a0c7ee6b81eab6593c972f6207074a6f76651db5a106d50a36f25da7b (-0x8b7bfc4908d45ea6112990e8ea5a8407430ab79e825214a6ff0d5591e38a50e) 0x21ba212d77414e4bb935ae1f6d0f6d6ba5f7b23237ae111aff13e459e6a4330e (-0x2a1003f5c8c28c90a74a06ef02d36bae7b6c0848153c2b6d139a015ea6f268b4);
  Dbl 0x11254f8a7224a6631997e608dc3d51b3afa54aca9ec0b932d164f1fb0ed6f71c 0x375f184d878d9ee640686d2cdb0be8b84e453080a8ab84ab43b78b2f704b6656 (-0x19877288b75478555642ec9e70644a07837f5ba42725d9ae54513dc02a27c2e2d) (-0x8f6c1e02adaa49d515b1ec4437ea1d1318969f1e2682deab47ffa3cccd580fce) (-0x2317f58de2684b5f618aaefd32631bd7e8f55d19ecc9d97158aee55a702dd5368)] = Some (0x1000000000000, 0x11254f8a7224a6631997e608dc3d51b3afa54aca9ec0b932d164f1fb0ed6f71c, 0x375f184d878d9ee640686d2cdb0be8b84e453080a8ab84ab43b78b2f704b6656).
Proof. vm_compute. reflexivity. Qed.
Lemma half_3 : run (0x1000000000000, 0x11254f8a7224a6631997e608dc3d51b3afa54aca9ec0b932d164f1fb0ed6f71c, 0x375f184d878d9ee640686d2cdb0be8b84e453080a8ab84ab43b78b2f704b6656) [
  Dbl 0x5bca3507ea3c9098c807bfb6f7dd15995c14736219fa4086e6ddb0e417bfe5a8 0x188925ff057c99d2d7a7836035663b23b85abd61d398c49718cf7790f9a6f6e8 0xdc4a416f7d494738338d7accf963cde08dc5549ca173892df4970fc0a3bcb05 0x2f472066e3981fc6414134013e400e16a60c785cddb71e02dd4938e8c1cd4208 (-0x382469d50a728c262e190fad4d71b2bdf71ea93a3956aa167a2daf2c917ca9fc);
  Dbl 0x302a5d572fe688fe7733fa4dd47547d3aef28d5e0d5e2271423f9a2d8253f456 0x64d3c7625c0b4fed226a9110c42e7bf31b4bb11664d88b54439f3845b178c2be (-0x16631cf9c58b2a75c9c5462e310541eb650bc6b8a1014c7e3170ac4917fb51873) (-0x1c9ea286c380f90cb086bf0d19bf73e61a1de7fa11c449d505df5779992f7bde) (-0x186010d7a2dc011b91bcb82985fd4bc989e723bce336729f9e92f773499cf395e);
  Dbl 0x43432f616a72eb9bf7b5b86cc2cf72eba50703bdbadf7cc9c94faa257e07e640 0x690f30070849dff1a032561139cfc62cf5321f7bba4d7ac4844ffe1b4409840e (-0xc5d65695a9aa606b250efedf22c09c4b14fda139797ff9750f9dde06b9b0fb1) (-0x53c3da42f499aca032e10b13173c775b328a59e1ded374f4bc12c1a98c429168) (-0xbbc76a02e6d69fe4bf2400866ecd7f63def1a64cc281e7e51a421509af2adcea);
  Dbl 0x38a618113964cde9f02c491d93a1525f73f182a2a83be0201503102cbfa3c478 0x178f6743bbd692ba0ea349d0c7655efa4946058a515aed51c4c89843f4402436 (-0x63ebdf08a827bae87240fc200ec56137f90194dd8f58fd5ac80f2764697f1e8c) (-0x62d9892162893665845f63de628d7e5301a30d94f0439d7c1ca27b3030784180) (-0x12bee897dfb82419b717a2b38b4b6c68647b113e54a8c31cc678324dbfb861338);
  Dbl 0x13c5bb7610cb87bdfc82f722690d0b51f1fc86316ed5993ae1bda0e6b5d6cb1e 0x20bae42546eb8d088e1f95574b8fff0ae915e645b6111957ec59e1911025c5af (-0x859ebdd689a33319c66e44baba3cef87a1d0acdb34fee1d0c48159564d8be166) (-0x883ce010ae68fefb78f1355cdfd14bbbe0eb926e7fa3c5b6710b7c10f6c4a74) (-0xa7376a3613799955771934113fac125e897250c6424ad8851b7275619f41e69c);
  Dbl 0x220f59f540cf7b8d6d2ead8c46317c354e4a45dadd34d76e3836dee88cd63fe0 0x3580e75b9398a218bb0871f1c9bfabf1d084381bba5351799a08c2da0102552a (-0x79ef5335b024ba73089f4de45217237471b4688be87738e0aa45c9dc2465f21) 0xe487c6c330fab257c9d962ec1b84716ce3b6534e5c943ea0eba91ddd146bb3c (-0x4213cae07ef436b9b0554f04079870472bb35346e80bd0f63d079aabdde26c6d);
  Dbl 0x3f93f4c48b35347a3992158fa2d47d4416a777dd16a0bae50ddab6bb26acf550 0xc66e47dd4c5e56bccc34797f22bf487aba3979735834244798b54589662d8a8 (-0x195761c22a78e6c1893a08c2b0c98c812ad3d4e2b90cff7fbbd1e0af103678ae) 0x1ad3e8f74748596eb8f052ae9ef471d81242765e6c44f4488ab8e7a7620fe220 (-0x5617e6c27bf62b9ecf2f99002f247c9dcd5965f4fda44e8888a5569bd39ab564);
  Dbl 0x306b61dcecf0921aeff5ba3d0546e7a6b65d83320e68633aa271ea1b09cebc0d 0x18479600d105c07cb714f88e8683b6a5690599c0286f635799d3890ec789245e (-0xad03073ec45fd396e2eb68f080b895af8e52ce0b6dc26b08a261864b768101a6) 0x11174fecf872f4d58a6e7c22ca9875c85261211261b233be97f2e6f698f3a4ae (-0xbf0e833f30cd74eeb6241a6f7bd846b422a4357a8804ed5f004f10c62bee8af8);
  Dbl 0x6fb4d0bc2f876dd2e1dcaec843c7e5c2edbe57f650e7f402aae9b98a357ca8cb 0x5d95ad7431908e8ed2783b9f73dc240b32fdd40616df47f25e01cb4ac603245c (-0x6007f39cafe2c5f05a0839313293273a5afc3fb873abc0009e0906b116813964) (-0x364b74abc8866fd243b27b4f18c20fcabd78bf848b25f9df1b4194c5b921ea3) (-0x785981efe7da7a17d02fc383ecf9b85b3669a5260e7d2a43aab6727938df88cd);
  Dbl 0x6f02b9e3b63b857c7b3677d2282df0281d064675ee6d16334b51ff9e2894b7b 0x60a0b1be43e73d7732784fd6381a1c01cbefa51b26d56c73e7ad636a30d69120 (-0x1cea48d08d0a81d522489218b4fdcbcc97753a79f66cf5010e713185b2036de56) (-0xb1c78b1ca971ab9ce29d6d9dc5ec842281114f71b6138cd1dd025278d117b715) (-0x2899387a134a592e505353ec7fac2d6cb59f96767b7da7e021022799236931dcd);
  Dbl 0x5de7a860fe75628d0babea0ce53f8271fec77e52afcd2e99cef41d91d2fa35f4 0x3fde4c5459ec31e53b1d52486d7dceefbcfca94b03ead17747d7003a5e87239e 0x4e76d5d40397122169bdab5e7a1f2bf0812f16ddd44fc59acc0759911ad37b79 0x14f988d3a9f429f982a6fdcf6cde984fecdca4f39dc85561fa8d6d64c42892c8 (-0x68bfb6e9eb089ef6cecf459e3792c1a50bac57795641add07adbd38baea9b46d);
  Dbl 0x722a3b1bbd3f3947da8a0de93dbf71b6ae2e9365034413feec963f46f4865134 0x1ef418944ee897cedfcc2c6d05d7a9907a358791f38dd0a4d45e3a53fc2fecc9 (-0x15923d2561962eba47cb448dfb7055ee23000f7320477fb0aeb2bf75cd28ac814) (-0x134e4bc0cef8070488167cfe57908a86c676df67aa9cdad7c03b01cad3b75890) (-0x1b655500fb6ec21ee3dd7797d4b06a7357b7a30a64a5ec73fd4660fdd0bc9e5ca);
  Dbl 0x536c4377f5f381e814fbc4880b8d7b8cf54d3bad4f38da8c9773920050d88e58 0x45e51e7018c064356c85566cb907ec5fca102c42bc225955c356f987aa9680cd (-0x229e098b2d576f43379f576b602ef1e516b433859d8d78803504f3c31551a4da2) (-0x2aa707182d41ede5da01352902ecbd79afe8ab05594e2ed10ae4352fb8e8b1a0) (-0x249c0066bc3ff94fdf9b369897f736057e4f6508f92f3110f307ac2bd5f0d818e);
  Dbl 0x5198ca0c2c23971661060b5a6ca264d2971688af10b3a8590781c3d76440c44f 0x152d442467907c22122a5fa3d8337f817d51a5917c67914292e5785a935cab82 (-0x102049a43a2fc03f5fc63bed1955d25ac4e63abbffd597db75d981cb6c9d05791) (-0x3b2c5103a7c50ee48f0a3f878f231f75fe0b58c0e20f8e430f79393444d66f4a) (-0x1610caad98fc81477c39012e14a530820bfc6335f8c513b741f49734c3eff4859);
  Dbl 0x3608c9195a1f708ab02db8c0e5739597cb1b506c29155784a1d044ae00ba86e3 0x56083c3c86b6423d3f0a6a0684fc51a9e980ae55463261ad0f1a3922fe161cfd (-0x11b4b2af814819046ea747741964b3007a5267cb7f3b7781518ff72729b8cbd22) (-0x1f5fda08d5f572df3c976f8cd4e0b236e7feb05b278986ef99b31ff6a2dbf99) (-0x14f5f5ac254d66b97a5e97900bf3cf492a67b9316de969ffabf27f42d32e7572c);
  Dbl 0x10d18412fc4e519f078d3cfd84335a36ac5b832dc1717db0662fb50812f95181 0x6faa6714a79ed5ed7a9460645e84c76f4eb17ffe62cdbf5cf816afbd84ce0adf (-0x3e14dc8c2a232a61865b627ab3758c2628f69710595221ce9c4a97bf9ed07b49) (-0x43e792e9b10c572fafccb96078b354974fc9ae0d88f50e5df8f7c5f4f922b249) (-0x10f676fda7ca13964b7c80ce99ea9bee3071a800333182807d33ae4d356ec2e33)] = Some (0x10000000000000000, 0x10d18412fc4e519f078d3cfd84335a36ac5b832dc1717db0662fb50812f95181, 0x6faa6714a79ed5ed7a9460645e84c76f4eb17ffe62cdbf5cf816afbd84ce0adf).
Proof. vm_compute. reflexivity. Qed.
Lemma half_4 : run (0x10000000000000000, 0x10d18412fc4e519f078d3cfd84335a36ac5b832dc1717db0662fb50812f95181, 0x6faa6714a79ed5ed7a9460645e84c76f4eb17ffe62cdbf5cf816afbd84ce0adf) [
  Dbl 0x47ab69f49e74597454d3853b6e722589254dddd29e51333a30d697fc186ed05a 0x15a0d7722a1a679da9d27c5107be77523208f486414bf911b16516306ff6cd11 0x5f5c243bdb3c50f626a22df4815cf38919dfc7f93a7d529f53970857e1b9bc6f (-0x31b87854d46330053b1310e79f53c7112520f9e2d222d82bde3877d9e886ac) (-0x817a7980b13545942f2915e73a3c631bdba3aa55fc3ed39282d19c60bdc95bc1);
  Dbl 0x15875f505debcbadc6ca3aeacba0d3868751004484c5e7698b975d62dcd0da 0x4d33037c131e55d8f77995ed114e703513a57daf68026937e3f09bd87acdeaae (-0xd980ff73bf0103db8340b6158185f9e887a123ba04fa88c201ded9dcb5c517d1) (-0x1aab98ed18e1beed762da6d798830db0d02976397307cfc8b891a8b8a2c00628) (-0x123976528adf3f8c4e99e3e78f8f4aa5c1dc8b58dc06347646185c99f0b81491d);
  Dbl 0x31c9a914d589bdc6fd752091f3131f8619fbd09680da579d5e9255c27ad18cf8 0x6c01756354fa39edfaab5e743ca6dfdc2db435e68ae93382647eb1f48033bdfb 0x33688e0db94fbcd9888d95f3faaf05eff9a2ba61a8145efc0e6a7817bd76a363 0x176705bd00bec4f104a7650a4c94948b9651fa120205d2102f3a631c05378340 (-0x666b60745ee48a521b3d9e8820ddf6af005eb173e757e66d0e6537a2124c2321);
  Dbl 0x6b8607f7ef4b9f96b9c494dfaaf5de75af2afeaa18a91756b23d89b8ecdea486 0x6384238724fdf8b61385f3d3382b2545b098c3497eec334b5db4afc68af7a21b (-0x64984dba80c3ed2f8dd7625c48c65098ca7b9f47a3a275bd415e41d0f98ed1c) (-0x8f6f9f591ca99664b6d10a55d52a7df9d446b8812ea493f07645a3367425012) (-0x11d19ca2364b4258a84b72543ad67a32bbe90f0166cf1ae63d9d69058144d79fa);
  Dbl 0x15ceb784ba206640ee3dd4fcc49543cf40b9448ea1916c97bd3a31a6830c3380 0xe7ee74b4345d93e7e46c3ceae10d83ced547435beb1f048c99d1562bea751f0 (-0x19d36907455b2c6aab3d5f3c9bef710d9170ea73dc417e3cb436120fd0708c737) (-0xaa713a0dd656798f4accdd27fdc68e96dc73197f48b7b007002f495f04094a44) (-0x2517b0ae7605d19be6d226b8e3dac6466bbf233eac40e77c78f5942d2ba725bed);
  Dbl 0x96482d2aaa12b2f511e95eeba05c79775402c59cca95ccb1ce10e69fb435281 0x4b73f87f029e4c274d1bff674c26ef856cafb77d21fbeb13ea0463298f3ab112 (-0x12b2dcae8d6039f6503551a4903e171824933c72fac22553aaaba8d8ca5ad478) 0x1300ddbe0326b67a861d99f6833791e475c90d5c53e5244deb126ad26e2f178 (-0x4bacd6e86eb79aafbe2f7ac94a628fb387a6031b553277e36a9600fb783d994c);
  Dbl 0x5c62810c5c43d0bb5cd7cfbd449e00c2bc259cf881299d5a8878e7d4a891a970 0x472e0144e9ceff854750f43339f018055fb5f05990ff719f7038e4b5560c49c3 0x2d4de586050965dc4e7aabced4995744214eacdcbe9e77edf834de151bc0ffd2 0x1d5b57eae450795a2c2e73d103beacfd5acef36087c5872112445b49de7e688c (-0x54f3f7f9e3d687cf0ae190969205f2ff72ee8e872d02b4a3371bd441286376ca);
  Dbl 0xa56d2115d9635f712a07ef7243e0c1abcc1ac0c839cff73a9ebe72f5d5c6446 0x41d33dbe364618046563ef78af93b47d821358a54532d958275da1d27a335474 (-0x14468b0a44f676466d4963a17db231338b5e769c59f9fb590ef08603e55e4f977) (-0x6ed3545cdb3393bfc2e8177e067c221f7d8fa3a659f1a12f79a969215497a6a0) (-0x1ac8391ca3a196f44e88cc210503e4124cdbae0cce5a758ea8cee97527be9c2a1);
  Dbl 0x13afadfb5688129bdf0ff5b8b5c83de15b7270e3564513aa6b106444b659e43b 0x24d618721c70b02a2507ec723787c7fd2f1dd895c5167e5a81bb8517369d54f5 0x20c3feec2498b19e12b14550226cbc5d5ebe0d62eb009b65fd9728144add5419 (-0x696c3931512e3399c3cb2714e9f4ed6c51bf585342dd05f8c78c37aeb41e67f) (-0x33a0ad8504ab0d3c1c3cc1774387d971ec253850a62f422e8c8d218da79a20f9);
  Dbl 0x5b33a304c5f86e22968b07c01a48be8b2fad904c0ea5fbe21d305b5369101597 0x420fc35d3ddec678ce4e5949a9f745a48afde0c9b524b4f026d81c2a32b84c (-0x5029eb89a5a9f2b57757f7c2ff765a20d24685e11296c4465965092c4c6dc91) 0x1103ac88f81c2ff16e39d37f181322118181f0d56da7604c67ca8f69eb3afcbd (-0x1c80d86a61dfc3418c84fe846b3eaa44a5d80b3bfa44eb04056487c930abfdba);
  Dbl 0x6bc71982dbfface4f5a16efe19e0f740930f912ea283748d9f3a144245b90895 0x280c94b557aa5376fbc41056d7b00232cfe583234d9ca24583e958d01d66e0e0 (-0x166beac89f304d936a6ad80c44e3978f25056b87a4dc9fb310f262ceee33a54a3) 0x2a27be2ea5ace131379b2814700020bcd8f7d362d160db0e6839e4b8a3454a8e (-0x1768fb2881e6be7e4f29a8c1bc3ecc2d504845aefe42eede1f6201eda14ce5265);
  Dbl 0x23985e6d9923a4a91ba8998d79799f0901ac7e89d33d4130ca3b096067d09c1b 0x75dc625f3f3ffa9291c2025a9e36a8285aec7a243c106a2bd26c51c7664fb47 (-0x1e72a52bf32b728b784f8849a147ff0314c006fd08bfee586d2a7ef68c11bb3e3) (-0x43ac0267dbb866bb9ed04080d116af0cbe53a3331340fbb019eeac06ae11635e) (-0x2043e1d319b5453caab66d53b50b0a58c13304cea61d178018dac0c5f892cbe79);
  Dbl 0xb0a9be2fb1fed7b1172bed399dcd2ccc1fedf711546561fc86b2a27b7afc8b 0x41ab7eaa664f363db49bc20e304d7fba63b0ea38b8feb18c7123300fdc6cffc5 (-0x362db38101d4326e8e30699a8866887f5f4b868c70ef8b1eb2933c5c28258f72) (-0x459bd7c7f05765fd1e4684b644ac3f357480bb90d443e4187df3b7acaafa218) (-0x47946d83cfa04e60f7f430b41e2a57aab53ef6a87df5c55429342ba6a3d58d62);
  Dbl 0x3c2030be186ab9ebda1e5c1904c00e477147d1b84be298b96a39f7488630d1f5 0x66158e0704f9a7bb5ae12bcaea6109a83748ea2fd58e5ee7002208e3f0676a4c 0x252df234632cd8241057a3d038e439dac802eaa46d12ec4815ae538c699b84d5 0x24bafec2a165cfd93b318a168ac7fb613b8c3ba1a614d5460334164dda7c54a5 (-0x64e91cde0682218761ce6dc28162d93206a6ad97ddfb0464b219765ced05d2f2);
  Dbl 0x41ee1ef9e0598f77e56d0228f21a12f6b7dc0cb24d9ce829e8976cbe68e6541a 0x59a6cf9390ff46d7eeed3e7c3c217e37e873169c30bc9e8ffaa4bef52e903db0 (-0x4206c875f39e50570cbb33e4797c7428782a45d7eb5ba4f7352b425c1bad457a) (-0x5ae17fea233e8436cb8724a2b1e8a772548e2d48b578be85edcbfe5fa09d35e6) (-0x10a3957f8b1236f96354816e063c59da94dc6f435052a5027082c6e0606aa717d);
  Dbl 0x5220db672f8d13323e1cb6ca7efb681277a5b793db1e92aa9d1628b134a4961f 0x3f60615b0f6aec10522a97b6e5bb4f5328efa5488625684cc89ecd51805df3a8 (-0x76257cfedc988e20e0d3fdb4b177eb82dd2418eee28a093424e930afdabc44a3) (-0x1e53cd6f80fed11271e21e7f070630bb3b19802d4fc982a7f1464bf1657f304f) (-0x138184be48e39f30267ae63dc53dc53d961fb9b2f46e96acc6315100d39e574bc)] = Some (0x100000000000000000000, 0x5220db672f8d13323e1cb6ca7efb681277a5b793db1e92aa9d1628b134a4961f, 0x3f60615b0f6aec10522a97b6e5bb4f5328efa5488625684cc89ecd51805df3a8).
Proof. vm_compute. reflexivity. Qed.
Lemma half_5 : run (0x100000000000000000000, 0x5220db672f8d13323e1cb6ca7efb681277a5b793db1e92aa9d1628b134a4961f, 0x3f60615b0f6aec10522a97b6e5bb4f5328efa5488625684cc89ecd51805df3a8) [
  Dbl 0x2ebf32a2bd10c90bb5867493bec4d770ad6480703a37cc41eda87573c99527dd 0x50fd65ac9491693bac32d5895d91a9cd16c8e77f81700549469f11afcfc4344b (-0x10044aa7df47cdf66a891489be62bd69922dbe9ae04c49876ab52424a8ab84262) (-0x4342e51f0bf547244a16a3864a1ca494ab4023c40704488325e4de19620853e7) (-0x16c9b187b4c3eaf41e318e4769e935a79e260f37383823f7967dc6fa4d5e5142e);
  Dbl 0x2a0aee08399e2f0a359508f13eb559911d78eaccb13c0cece3b89c65afce78c9 0x1aeabd89c0955a04204a616d9b2f095120579966056771c284ea563c56bbc03 (-0x25ab768d86cf9f7b6ea536aa0bd0d79ba64e9e2eb003ba889539e33397e9f0a3) (-0x3e3acaf016fb6e872257192008b892cd64e5a7539776bf1d981a9f8310b44c17) (-0x96f49be884bbf8a6052b561c1b3c3384e2d1ea96658870370f321a6bb32745ed);
  Dbl 0x328a492d030cafdb0d448e3b0f8e4d0ffc95a7d50dec36b75be9d72c26cb10a9 0x351322e467b0c7d22f36606173efcc2acaa600ec0f611b4c24ae159afdfc280 (-0x4c363a9473241d7d64be248f2137840710cc0e78a789fada8c2216e944614b35) 0x177651b9a49597210c25d6284b195295148b2935162f83c1c4c646d09d143c5b (-0x4de173a5f2af3428c1740623685f730dfc8ed1e9f6dccd02a2867290589d4e9e);
  Dbl 0x482b68b73ca7a6202a8b472862399ca6656de04195d477f2999db6e2f79a9e28 0x50544bc56458e542ae86b8554e3f364c2017a68f95190ab1d96bc9be724c3da0 (-0x6e129c85cbb6210901ef6cb7aa35baddbb972fa2abcefe644bfb716a01e98416) 0x43c315e39d5d607b47336b30b71bd15289f28802f52a8e1be100e1f1a145cb28 (-0xbce7c1de93f7de3b5bdba883a814edb0f35d9aa8ec6011c7f5e1660f986af835);
  Dbl 0x64c2610d412451cb6f872ca53ec04881dbf4886c323ac1cf541746b4a4b5e6e8 0xee6bd29b7d925ae3155b6cfd4ee9eb58d9d09e7e76403c513fe2cabf4e02838 (-0xa8fa96d9e31b63826d2d0d945d0cfc12d15ae2cb56f8b8b6dd28cc6dc7eacbd8) (-0x9509b8b122e362607d9cc62e0ac9e1c50105e403cb9fea58df90a8212562840) (-0x125b76b457fcaaf145ef2b2423b9b0de9fab54a6068ff5598cf573782fc88b410);
  Dbl 0x17f324ca613e401d4e1fe70e08f4267b5e9cb02293eafbef2bbc5e84f99810ef 0x2c2f242352bfd2a6415bb23fe442c79fdb59b5a1c611a9f4ad1a80b46df33a96 (-0x1b3f5c827651fbd96baf39e9759a46f4b1b8ae7565c73a813ffe917640c71da8f) (-0x19571af4382e1b3417c3abc2b0fe80bb99280ec3f260b17e9cac937304b6aaff) (-0x1b8d440c6ba61b1a6fb202483d02d67c1a573d979ec79c534f38f904d36a0fe1e);
  Dbl 0x70ff18ef79a24267db2b908a21b4402275a87f7be50962be2993561921806c78 0x3c55405db8b2d2ecaaafea5b393a70b6b148fc55b2722ba3cc2e259f58ba4c06 (-0x7e626b2831fdc907126f32fd9cb7092ca2f9af75c90b638afbd3096a208a660) 0x28e45b59c77f8ae60e0058d8eb5089d5d8dbda4a459536b2bf93f367d2e46a74 (-0x4929171d909732a2900858f6a5b26e50d53cb0b1572309c55ae0b2d3ad920737);
  Dbl 0xd7f63773fca3bfba3bd3d66ac474c2c3dbef246c5bea8d4ba3d9e88fefc9049 0x421278ad07286dfec3837c8e2d08998a9ffe13abec8bc38b10ae6255c40023e (-0x2074b62a52b91523ca2df5040a41de9f0cb99711b48876132661614ecdf31b8d7) (-0x6d98d9d012e0c4f22261a7757ed44aa927148fce32e41ec98f34d0038121c94d) (-0x2488bc52c02dc87ccb71f7730847d5bb4ee3f6faaf9f0f98457f0036a564e6a32);
  Dbl 0x413d9e52e9e18d1d59082bebf30d0462b029d32591b9f6acbf6452c1557b0e9d 0x5b72b1d01aade812312ac7b93d9f772f98366f4ebb9307e00fa5c4128a3704c2 (-0x7b5e896b507577c910c31cf31eeb4741e99fa7245f7937bd588da6ee373af8c) 0x2866ee013ae2cf47c51b211768fed86cdc040bfdce4a866d4b51db191248b413 (-0x41fbfcba9255d4d90b9fb773352962258da8ad98468dc39a0d9cf1c163bf2acb);
  Dbl 0x47e9176283691db526247e85ab419da87e73c6a433f82aed1da69d4decb01514 0x7043f12202c36b43b8e107e471ab9a78db9f8be78625c51c7789bfbc0b0f7b79 (-0x6f708652397d99bf2639332ad86a55e43768eec1cf1835388ae68769f529d288) (-0x3a815c3e8a4529a8a912664a2da510cd11020bbf049dc5ab70a47001c5ec2088) (-0x14510d1c2c9636925eca6238e2f4f412d6cd5031e62ffcd1070c0465427be5526);
  Dbl 0x3a56a395c0638dc910bfded0b5e5f286ba0463ae40d64f57fbee0ebeae7049f2 0x4b064394e6e43a8d8d5f590512bea494411b87592955cb7032fe0b22e5264417 (-0x72501225fd77e5d0dd7040fe7e428d8aba236bc321fc534480cd3edb0141060b) (-0x555621936990fb8019a1aff8923921356e003329bc1efe701b1dc2f77aef18d0) (-0x1911e19e9f4712faf5a8cd049c1c487d78d6b179f9e45b685a978381c77f00387);
  Dbl 0x2195aa7c74223257fbdc91d06ed0046eabd4f6e19c27c3a0e1413b2df993445e 0x4e851051171ae163fc2f12d5539f0bba1cf926d2d0b9f7afa444ae42eaad829 (-0x623c19e3b74ce1f9c2c7d57d8b7141c873e152f8dcebd1fd620b21940e28e895) (-0x2d2a1a5f8bd8080a8a11b5d5ab48105c8266a5f9bf3eece44fb70b0708aab060) (-0xc7c65b4bcfab9a5807a0772537495e93d112153a1da71a0326713a3297886d35);
  Dbl 0x5fe9aff2e183a04e6a701a773ed4b54a1ba684aa119f76679a3bd6e366b032cf 0x2ff9411b12489564685683f351f6b05057ec36b836c7e13702f78d1915b15705 (-0x30709bd213b7e9dfae4e337d87d70943ea1e98281c0529f6022fb94e05d95d91) 0x494c7d7a1a8e26fe1b7b7e1423d0ad8c641549999d970d53a606c112cac021b6 (-0x56f0ad5bbaf201ee0e5fa0cb15767706fa75c6df4bf7fb1c69d4ca1cf9893ce1);
  Dbl 0x3551026b38a6a5a681742587a1e082c47f72ae7ef5188e38aec9b5d0ec6123f6 0x413dff09ba031549a4cfd2c25cdbb05aa8b17ec0415b2673104e911bad642765 (-0x178e9b939f88036537e4d762821e976668cc65a3ef7c0605a56ee5249f1ffeef0) (-0x2d87dfae6c6a9c9fc02a32e28c48a9d776a92a902053443a014e7e0dc1eb477e) (-0x1ca0a6507a14e9abe0cc67d1de980e94f579d9765d5a747b8578b64ab2cfa8668);
  Dbl 0x6ed748590d197c6e91aed34ab8b5fbdab28fb48d641965746ff2faa893505f0c 0x63769f4b96914e17ce7ab7866cfce36926f91bea0e2fb75da26a3c832906597b (-0x55e2ef257456f6ebaa81a6cd9f3cd213669b44a7466ca4a3861ed177a43fcc3c) 0xa3fd87e75b17518a7dc1f5af74e5c72d316f1448d962532784f60bdfafe4c70 (-0xde5e61f8f84dc7cccc7aa907ede8a7ce4e8a065c95662115a988d564de45cdb2);
  Dbl 0x72b9c5d77f5634001d248ee41be85861eb8550f1fee5737940c803b4db2f974a 0x402c046de263c433c39b99e6da3ed41ee65d6193bd95ad3fbd6761ef6b12e49 (-0x1bc8c157f728acb393a70c0a84ac3b636e9aee29758a53c694fa8ae293b059359) (-0x97d56f511bc70d934c30eaa45fefc5b2f57cb826fc0a5518d941bfdca94ed6b4) (-0x2688fe67cbdbfd2a082f30e22a018e509552286f0cfbb223b5a1e0317019e8a89)] = Some (0x1000000000000000000000000, 0x72b9c5d77f5634001d248ee41be85861eb8550f1fee5737940c803b4db2f974a, 0x402c046de263c433c39b99e6da3ed41ee65d6193bd95ad3fbd6761ef6b12e49).
Proof. vm_compute. reflexivity. Qed.
Lemma half_6 : run (0x1000000000000000000000000, 0x72b9c5d77f5634001d248ee41be85861eb8550f1fee5737940c803b4db2f974a, 0x402c046de263c433c39b99e6da3ed41ee65d6193bd95ad3fbd6761ef6b12e49) [
  Dbl 0x8861d2dfce69e2671c05ae762731f198b5bb87fed0c2e1ad122a2bbafa38a34 0x637319b918ebb7020eeda7e7e1e3c133b6b02c3d75d8e61fba035b30a48e9ade (-0x23789e86afaf7812abec1e0bcfe1e75dca0c18b098b8ef702332001a4c0b81017) (-0x14cad7c4c4eb21c0a916bb9015b688708cf03a0e4409099567e1eb5a4bc92a4) (-0x285458f061a9f8e5d552f285c058f3f682621a7bb62b3df4195b269e037b38ba1);
  Dbl 0x3d6811242e2b675f4bae9780cfa50a5a81d595ea1b662c5d50e0cac21c9d6d13 0x65d5bda98b171c1fd04418cf5a17ee7f922c013689a33be89e140302724072cd 0x522df936fdd736eda40558eb9c53a26176b4effc59b351c38c31c3101dabf59d 0x1fd3fc28b2717d7e2b096fff27e2e6fc43b9d2460775b041d6265984187c8485 (-0xa57b8efb1d2435acd1b14f4efd768ebc16730082f123bb0581bfa99658c80e25);
  Dbl 0x46cbbbef1244923d3204c45da7156017b6efd3c90c375d6afd8bdfa4e7b9c008 0x22df50b058cc7245507cb7e2097a347997a1e0c410bcc9472150f78e3ab674f3 (-0x492da9844f2bf3741b50c493ad7511bafa33d197f27928b08cbcd2026fcdb6a4) (-0x29c57b169a4b63370f5780b4c37b7234d4ba8b2d12d73c787625a0fd428d8e6e) (-0x11ca722bfabf8b3b8109a317a522b18b4afc8fbee70c2cb258c39d85bce1de490);
  Dbl 0x3409b2334c376fd316772ef4144e36123f663fad36f3100614fb34625927dff4 0x4115ace0d13c0970990a3ed2fae58986773883161a38daa5a3f1a3bff9d05e62 (-0xcdae2759b162efc2817915cbc981c5faad49207ef459d2855c085b928169257a) (-0x1af809d98d5a31be6508ae879a7bb33216b28f529560944e0b24743df19951d4) (-0xf63348e4717d04a32d20b2a4bef55d3410bc3e5b9cb06f8ea4ec8d45e351580b);
  Dbl 0x541c624260557d44c7beb70ea0ecf03e54b730725153e993f7aa57ce07937e9e 0xd57f286b9731a5c48efe5c4bb3a694cdaeab9a7b27d8ffe092276610bd04fd0 (-0x5040f861b1368a2aff8926ad97000cf301d6cae78de7d21fcc36e374bc8bd746) 0xba24fca61d3e0352f8720731ec44b9c97f43180709c7434345bef132b2dbd7c (-0xa472e78d25475c5e5d5632d085e6cf1dd413f8131896b8d54630f784becb41d4);
  Dbl 0x4480ccef8dbcea6b260ce5656f71e529aeb9803507985597c8e345b4b946e495 0xf588d2765a4609823105ba3afd5b0cfa00e4feb3500b37a33bc2324736acad5 (-0x12f980fcae3c1f656c3dee958720c354fb2dfccc6ee2d928a9c8315a08dd6382b) (-0x4ff88600c0259f32f38732f0c2bd6cce2dcba2473f6988245e90cff2d36bdd) (-0x136eeeceda8b81df7573caad8479fee3e211f1bdec046d1f505e55ff8248eeb8d);
  Dbl 0x38d28caa968c32ab249b51bb259260e15796bf1a232d3776f930fc3fe66ea637 0x4b11924183cb1426ca8017f044c7642bbab370501a52fb57137478bd12091292 (-0xc85d405ce2eae55b2a9ae02d933927d84b745d0bc3cd6d0f9e88ecdd5bd59a11) 0x7265b4956e1536fa03e4d601108f91bc1faf66b383eed8b215e65758b6ab239 (-0xedd51ddff33d858fb587e5ff26301671ec2c1effc45eaffb4523d184afc8305c);
  Dbl 0x46c0c39ff79474e6c2d142d22d057fea60158891a0c734c3f6ed0898e5258ad1 0x557cfc2283085e7b58c848a3edfb2c03f5129f15515a66a9e65c78ba2e697c5e (-0x5aa5dc0b4e39e7adacbd4602fad420782f7d06d42b4e553612fc527bfc8aeed6) (-0x3a453d201e3269778113ceae32bbffd6dce36e0892c6faa2a5aca5910defc1a7) (-0xce60dc9d1608ca99651ff9764b3a4708a4115e041259f37a76400569193c7973);
  Dbl 0x3ea8bd6d6dc1cf8302ae7c75dece8a7f7a7e90d68bf9ab17bfcfc2a5e6214487 0x1daf5bf08b25922e82a4930b51492fac3d599d1684e3b4299cf8e0243a0b9e6b (-0x98de1c2e26ca9725fa9cbe91fe819a992049a520e94a5bcb6866aceb203b4cd4) (-0x6653d16e5ac0127eaa1b216f907ccd9a007b4aacd056c54efc09b6c580c11897) (-0x117e85d7f38909f6ead64b2555714d1132e4f99d86f1fcabbc57506f6e4628024);
  Dbl 0x4f0bed5f48db729c97f0a64818a057f561249f50616c6d517a2c444ae3d70e85 0x4d137a843cb0940ff6082e28d095d5d0bab82d869da4634890531805dd4f98f8 (-0xa1bc18aea79e3ef5e81adab8cbbae1671a066dadb5986e583ccb864e84e1e9aa) 0x66b303aad2deaef8a8124582e36de2c05d8dd3fbe21316a35ba7f7371da364c (-0xd67c43b5682066ab23c6cf00ac0e8649eee2d51f93c4c60aac2911d49719554e);
  Dbl 0x430c459d42e331ffee345ca7050ff9900cc63efde1c84534f33fb0bf3d7eea2a 0x3b8627929ead4b5bfb2c475c5997e5cf82c2ef285a19666ad5d41298aaa7bf28 (-0xda3f6a4d3b4208815548bb5e6b5be265964e7a4dacaeac11eaae905034b6765c) (-0x57dddb85fc0075d4573a9d7041e0dcef10d7f6c98ca2e11851ef6ce461ab6c9a) (-0x1500ba5b823c8726f16c1e2a2dfce0d2bf8e54f06f36426b163c8de61e94bd545);
  Dbl 0x180ea2da5e2d0dc0c582ebe5136899f5aa02e2b5d3fd94983f65bb4953278778 0x6e6f6af070ab6a910c2accb53b0da34fd5626003747f6d67636311f39904037e (-0xa353400ae5e15679108798cccd47b3a25ed19121ab59327ea2c7260e0e4924e0) (-0x44cb0ec9768035567dac330b65f4786080fd9d7fe8ea116b9c075e4fb0075480) (-0xe0b8e59d20abb10896da73bc9e7f24f4394c4c32bf728856b76314726a877260);
  Dbl 0x3df7aaf357bfffdc11f1ea26719634622c974572e3228b2af3750c6b116bc961 0x70b30fd238dd287bde2d36a34ed03f3fc9443dba7e1ae1f22adc909990026455 0x503dafd0801853af0ab687e97de2b1731c3c59068c8b9a1a27535fd03614476d (-0x247f7a016a45dfe77f900aec654255d10b8e150fe1643fe49cf0ea6bc1625929) (-0x9324e4ea099d9ced2cfacfec558e9b2ee0856e6a32b0dbc6a5a1f2901087c07d);
  Dbl 0x36073aa4ab91845afbfd70d1e2bc573b315cfb307aa7d25c086bf7ba39c059b1 0x1e6acb46564b44d458b2b491c6fbdf33d3855aae7fedc0597daa550009f3edb7 (-0x380ebb033a3dd0b3927704bd01871c326f05d1057c64e83ed153728169fcef9f) (-0x5e0db3e4b39d6528c4a9c0c4f7ec91f0c0b1f691c8a98dde186adc1a69f55847) (-0x1220edadb1c7bf9d634b30b40489a08e0fbc2e161706b9c485813cca5b112ed25);
  Dbl 0x38679de036ea995cdc14f54b2c5c1b128c7edec9e6f547adbd2263fa35493ae0 0x3cb14fc706aea16cd41213abf3d5b2de153428253d6d3cd008b22ce48df47ae0 (-0x75eb089aeff5115221e80533c743705e87e2e96483e40407a141706b7317c3ea) 0x8079ddb8c5bfbad02ba081a464cada9940abeaca5811a76111a8cef90dd8232 (-0xad06e76ecd7c2d9922460530c8b7d5e66ca9dc0984ebc129036a5e1f0f791836);
  Dbl 0x287a1ad43a9725d95996d9b0dc74730ed60fd976dcf0d3bd65fcabe4be3f5e04 0x613fd0433f6c7a785bc0bb583d600eedda6165cce3e800d4681a7c48b63dc87 (-0x69718764a367ca2a85ce35ffc31acc2fe07bf7cfd7bf7f541beca96a81054d1f) (-0x320600751a49ffff3e94c89afe1bce6f073067d958d69b98ed0d548f3a013184) (-0xaa5992dc6c7e57b6367786af435c60399c4137207fa803baf3f609fefc1dbe4b)] = Some (0x10000000000000000000000000000, 0x287a1ad43a9725d95996d9b0dc74730ed60fd976dcf0d3bd65fcabe4be3f5e04, 0x613fd0433f6c7a785bc0bb583d600eedda6165cce3e800d4681a7c48b63dc87).
Proof. vm_compute. reflexivity. Qed.
Lemma half_7 : run (0x10000000000000000000000000000, 0x287a1ad43a9725d95996d9b0dc74730ed60fd976dcf0d3bd65fcabe4be3f5e04, 0x613fd0433f6c7a785bc0bb583d600eedda6165cce3e800d4681a7c48b63dc87) [
  Dbl 0x1d55eae8e01242566ff7e078b81ce7933c1bc9f8d8e2f71ade6d8cdd3a6e5410 0x51f0af2019677d1e15175e7738cb4bbd066ede1667a96fd4a7f913a1dc8dbe3f (-0x4658547aabb4476fbc3a2013bb0a4f7bdb691487d8a6a2e60a7b5e63dc085d3e) 0x1856598f8adc3fdcad9247afe53bb5dc1ba3e837ab8d4cfb1839c2231987e5b8 (-0x96d11281c367f7451f99c960441e8c90a41ba280b7ac6df9fc3e7c19fa0290a4);
  Dbl 0x22f75cf87576c0fea3b1d4b68be699f45585f9cce1b85a2348126765c161c4e9 0x3b09469b797df94fba85c9db27dd1e0c27b15dc7aa380bc7f2b7cdf21c53fe73 0x14ccc78e9c60d1ca0d21070438ee5d11b3bfca6d4eb688a74b1b88249e771f32 (-0x27149e71f10ba6a284038af4d5a677418233058dc4d93827f5298a29d130d4f9) (-0x63114fd805f3c1a0d970942f8102720566568e35e08a09abb575d117c8cdfe18);
  Dbl 0x49bcdbcd2ed7a59653a9118e982cae11b3d671c2025c7c6247f8e23e4baaf046 0x411594204084cf973bbd25c624a430e7f2cc8a4d5a5675bc4442f7198ee9ec43 (-0x16ab225b9a34aac0565dca5a9ff42f34b74350d650491332732c8d5b6007bb0c) 0xc76ecfe032f2c00f19fa93687cd73ad242415e3acd8c9cccceb7b16583cd8ea (-0x7d3b676803b6b9addcb28cea70b14d92c1648af9e5f2de1b0ce0b4a314e6f698);
  Dbl 0x15895a3cb1db23bdc7294134fb7dbc1161fd1051aeed536a41fc14edbc9e7492 0x5e19ef04d139c24efcfe0f35363c092ba0a17ec05d7310e8dae61d4332528335 (-0xc5f83eacddcf3ebef421174b6e836aa9627c712e7feaac08cedd01600edbe48d) (-0x49c546443c848648d4d80bd8f11696d0ca2dee71cc5ac109a1807dffb9ff98c0) (-0x1367b4ad0d39ed9432647cd1bc2627798ad6e97f8629851bfe10a4925d727631d);
  Dbl 0x707b5d4e85a0434dfe844e197be0e2d3f0dd3d3f4f03974bf495472767e99a09 0x1193dea2065dfb878922d785f493e3d8972b8d0d63ff64531218907ef00ae357 0x386111b18b0c4fbf2254f229e609e80d979ee016b1619452fba1fd065761790a 0x281d0c1bc3d8a7e7ac2e82a0c2998e83cda3e4edd33208ad0839aa3e548c29ff (-0x6c1ef08aa66c97ba31731940bdf67a45330fa77220c8539ab7aa2fb76845614c);
  Dbl 0x3754ea3b141fb708253e4298182e431629b2b57e13c5648ad9454f2cb4e26cd6 0x491432e4d159f303a276f2537d7c68185e05437ca4528f7e6a9e3ee693d1a1 (-0x21f063b9dcf460fafb325c47123722269327bb2357c33a4064a48f94ac7f8a99b) (-0x495d40392023f6c4ece5382d0ee5d6461dfaff740641b93efaebd18d5ce03e4) (-0x22481cfc88adf54e14040b3eca5992e3eb61e13f16b359c4b450c6d4d9dae5adb);
  Dbl 0x6de713631ed84e7cb36b9330c1f89818355627f8274b5c24a598c44e89b5fe6f 0x4b6422cb286e9d690ae45ab7a6a19d8a49bf331f6ed5670dbc1e10c0da14c11c (-0x840bd7c5a04ce96aba9a3e6aaef0d7ac94d15cc0fbaed17fb50fe18d5c7feed0) 0x596b5b5465750dd77516408c2c2f29a7f1b8a9cee55810949b14cfeae241e1e7 (-0xc193197bfec95ee3e1210fc2fb121e8ab7f4398b49c8edd4d91905ad4465c5a9);
  Dbl 0x6dd495ef28e65aa91c0d019253d1f28dd9227cc79ea18ad1e93a6711315efa1 0x4a6aaa021352649d3bfe00ef7d65c0830c2435b6b86bffe2b3f66898d584b408 (-0x1d7ec044a9fe1cb2e703562668a7932a9b9cdf02599e1ed0f99e22547621665c7) (-0x8c8cab980d94b3afb90699ac45c0050c9ebe60060fd7f759ecdbddb5b7d35cd6) (-0x253f2ee4649c6a2e884b9af8b349038ff3e4381cf915c8f57eca3fa82e6582135);
  Dbl 0x2c5bae260d61777a28fdef36f53c19104d814268096a664ed3851bd99963a5fc 0x4c80425185b63b402d81bf5c2092039c0368cd8f9d738c59a60d43f7e161f938 0x2dbcb9ea5bdc8a8d9a4def729cbf4f08a57d1fe5e35a20731ee8c2a7527004f1 0x16d4c93db42a42cc992c1fbba15233c4e99b871c05bb97254c3e4021af186dc8 (-0x68602e43f7f7396ca8f6305978e5c85a3b90a6b8879759e7d4f29879c1878245);
  Dbl 0x3644dc716e59dcbb4d2605e12147ccd91187a24710430f495afd2e2da59bc27f 0x69fc2e37d9cb56bcd79739665173a49dba9e544258de22ba9882f8f983016789 (-0x2261b65995eb24254c70215ac9bb6ac19017acbd785252aef67493ca2d92ce94) (-0x32ffae8d7ff829ec65734ecdc91be571322bf7296e19a6ba0352a8bc00d246c4) (-0x96152ce45f5fb21b0e2b4c5e20d06c815114553899c5e238f3ca19a7188e2a22);
  Dbl 0x1dea7b1cf5ae3d21a91ea3a4d08b4ae5881f37a8bde42069028702fb0fe2a410 0x3ff04f2effafe7ecaab140dbf2ce3195f1b5ccfa16f924626756a5d600ac8acd (-0x1e20f73f70b46b91a1e13ed5597fd437bbb0dcdabfad152bbd3eacb807f9a5e2) (-0x55bc2f9a8d1b6376e9e550f829341b510b1c5803e8d504e626b68c74e38c830e) (-0xfcc1e9b38944a2e5b786dbb29c31dd78a3e1df92cf1e06735ff9da0f64775792);
  Dbl 0xb04cc9bed38b4e2293a6896037b27fa0af267fdfa0d70e6ec8f59685144b78 0x5470d8618b1f326e773481d0a826449301b8629b240b931a3114e66ba48f9f3a (-0x355d82d5dedb748c57669a0fca24a28da824a8e888940cf28979f3ed474ee7f) (-0x20e3b3410963fb9e77510bf7f1c9ceee22b6b45816a4fa18a97f1ad8cec782e0) (-0x575a81d30dead69fdbc22b13f45573a048aa888161a1460e0d9777e59d1446c5);
  Dbl 0x686e13cdfb1fba382c1f84da28070329d021061e5d9dae20a9a5b3e1835e2768 0x6968c86ff8d258683444f02016db1c0dbbd8132f739411dafe329d6d642755c6 0x3d7c36883f3a431927ab211394d2edeb97d35f9fdf5493d53805ac057a75b3a0 0x530bbd88d3d0b3c64e94224cd4824dff58bd6f557662c11dadb30a59d5599540 (-0x925d0878df1d7ba19e7a13032633e3950702582871b1479ea60135a0c3fa4770);
  Dbl 0x1525bb4f7eec5a6baba5f3622352cdaf476e6ba71f07c447905d649038cee34 0x36eed08b7544dd76d42a3e82f1c4c80b22526be20708cc0fa6374c56fad36120 (-0x176840aa26aa813d761a954f6a5a646afce60de439e792190c17b53e4cec891db) (-0xbd23488457345f79aa62df710c5942eea976b65db403373b24a7bfc5ebb83014) (-0x2563d530672a4555fb8350010ec12cd7d1a7e03a9b9865e02ca9082b215836d04);
  Dbl 0x50d6feb24ec4e3f5d7fe72726a329d26c87f9097902bbbc8527bc877faa3d220 0xa918a2fd5c517b8bc6431a40b4004555b292b31cb63f0c7b6f99a3b88100d78 0x19f467741c14d180716dea89cbf27009293a4b92b8ea75d099239133c6bb8141 0x6b481ec063f53a010a378938371084b64c299b3f9cd5ac2b2a804df1907d6e0 (-0x1b254ee989cfa7a594c3d29ca6a211102a49107f2d4c4ad33b98f99c4f63f8e8);
  Dbl 0x3afa99316206362f2fc7f86e21164f9f1aff5fa5bb05624993583f9c15cd66bd 0x2d98da6a95ab1206bc281a64bcd1d5aa4d213375de721a799ba32bc9e40767b7 (-0x118e520315c8659d385f8317c8c7e40d195895a08c4da14a97f4a57dc18fdacf2) 0x1133ddd5a1c06be8c508220a9ed8c3a708903c69964d0a6753022537dc2f0fea (-0x133843f5f3a5a959cf20f39d33a02a35b4a4cd76c89046e670aa2104ef51ea590)] = Some (0x100000000000000000000000000000000, 0x3afa99316206362f2fc7f86e21164f9f1aff5fa5bb05624993583f9c15cd66bd, 0x2d98da6a95ab1206bc281a64bcd1d5aa4d213375de721a799ba32bc9e40767b7).
Proof. vm_compute. reflexivity. Qed.

Definition half_x : Z := 0x3afa99316206362f2fc7f86e21164f9f1aff5fa5bb05624993583f9c15cd66bd.
Definition half_y : Z := 0x2d98da6a95ab1206bc281a64bcd1d5aa4d213375de721a799ba32bc9e40767b7.
Definition half_w : Z := 0xb111baa54e4cbfa8a02fbe8454c510dd22e7eaee599c95cf1115677aab09bb7.
Lemma half_quotient : (half_w * half_y - half_x) mod q = 0 /\ (half_y mod q =? 0) = false /\ Z.odd (half_w mod 0x1cfb69d4ca675f520cce760202687600ff8f87007419047174fd06b52876e7e1) = true /\
  0 <= half_w < q.
Proof. split; [vm_compute; reflexivity|]. split; [vm_compute; reflexivity|]. split; [vm_compute; reflexivity|]. split; [apply Z.leb_le|apply Z.ltb_lt]; vm_compute; reflexivity. Qed.
