(** Each of the default generators is a point of the subgroup, and 126 of the 257 are not of prime order;
    generated certificates. *)
From Verif Require Import Base CrsCheck.
Local Open Scope Z_scope.

Definition certs_0 : list Cert := [
  mkCert 0x1587ad1336675eb912550ec2a28eb8923b824b490dd2ba82e48f14590a298a0 0x4c5c0482ac202cf6740bba9148fc310f8cce6e00de71efd9cf67ea4e2f3fc483 true 0x365e483637925b69b4cc396abbbeee463095ba18ee429dcb9e4c97d7b916f3bc 0x34b5ba1169fb7a51ee416ce36bad38ea3aac8cdb5c54ad13c154255450f27b26 0x3ff9e2528504fab693c6f397b9798c8f12ce81c29552914b189886fc6ae2a 0x324bd965d672eb309b6f0131da51ecdb1f545ecddd7844872bfc5020a42c3e40 0x172036027fa83354787fcf14e67e22197816e2e4cbfb512e4b228d08f598a041 (-0x4ce67801e438678ebf03b409a6eeb4489c2a92fd576264b40f5b53262c74ae29) 0x196b6e00aa651295c9291595345ace82ca0bccdc3442b7354cc79c0be8e67e0f (-0x4808a50396317523ed6ce0c47f9f27ee2c07be62b1a369117e347dd85a613c8);
  mkCert 0x6c6e607df0723edfff382fa914bfc38136f3300ab2e06fb97007b559fd323b82 0x6bc6fbea1966b0fda8d9460234eec6cafe934ee038c7e82767617743e2df2de5 false 0x292cd6743e77cfaf0de2240fef3957ef07870268db706c3abd57e8016e536572 0x2c12908fc6ba5c2671958130f589e8168e5d82f311f8edfb48d177e512c28254 0x656b38a922e7d319e58d0c2e30de53907509fe9321944f1b02790d6cd3cda05c 0x643307d40b23b22c3592462cb1e575859e6f9ff62a79fda5d2d2cca3421d056b 0x4b75c4742a55f25123bef6e4ce7f492d7e2d68640091d42cfa345e9922619a68 (-0x47af8ce6ed030050cdf9fd0386f276dcd9e2ac093d3d8e2375a6fffd05bcbc53) (-0x1ec783cbbbba96d381888d2dc015499ff0f1e4657f5368c82326f356b5af2bf51) (-0x7240f0dd3e352082c45236ba6efc6927e93a98d1e2918c8386903f96b93c995c);
  mkCert 0x326be3bebfd97ed9d0d4ca1b8bc47e036a24b129f1488110b71c2cae1463db8f 0x55fcf7aa180c4b35aaf97376dc5f819e8b280836bec7028bfe98af1e939b7e16 true 0x145cac6297d5ed3ba5f0a9e6a861fcc956c34072cd8ba29421a8c0b640fb645a 0x2844b879918a74c349ac68c3cd69c4d41baf1b35e251db6aaaef3f48b2019cb 0x15ee1c2f0e01a8209459ab8944f59c1b321c45be2465a00f507d05c537b1c878 0x3fc7cc4e887ce9a6c165bc19c82c36291abe9047eb9b8f098716f77c012d61d2 0x660bdc1e390af9245af3490a3f62e43dc459aadc8858e02a2ea0005260ad7d42 (-0x62e2a2dc57d78cff3c3c912dcebd6b00e60427c7c2bed6ab3a4984e54dc1e7dc) (-0x6a12fb0c06cc6e196e321897c3dd94e2ea123c2111bd36a4b0b9f6fc88b571c2) (-0x2725252226c7080ccf139798c2e00ec3e7e291cfd0ce53f8a5a6fc99bf6c5d84);
  mkCert 0x6bd241cc12dc9b2c0ad6fc85e016605c49c1a92939c7faeea0a555d2a1c3ddf8 0x655bd60d3f38eee3d1313b3aa636b1e78c8e1a83adf542ae46ef657e8d818431 true 0x102aac58366f7e116458e9347e826013d2c6f34b856f169be7baba77cfadf3f 0x106b9a008abffcc5f0b10943b9233812ff6a0effdc065cb5093f66bfd72b8177 0x6447fededabf2c57a3cdd8a8c1f672602c80101f1d357c4614a111de8d8653ad 0x589ec5f8a07418d2fa4aedb6e95740c0299e30c129d201439145fab96ac8af0d 0xf1344aeb3d96c75a576abf224a3bc8df5aa6a88997c8ba5c50dfea7e1a32d4a (-0x20bdb89ab3b367e12c95504e0370cf214c9bc7c7c2ecadc9da8b51e347312eea) (-0x1f565b93281e1a6298f8bd7e0c27406c55e5b92eb1929d723e3ca691567a3cfc0) (-0x3951df753d8f7cc38e2c0a9e51a0311ddfc590eea0ba2c0cf00af671bd72556f);
  mkCert 0xd4bb940478cca48a5b822533d2b3215857ae7c6643c5954c96a0084ebffb2c 0x4603ba1ca63a18d4f5649033c1ec1a58430daeb0d8d777db85be1dd43b1d24df true 0x68067a15542340a6be765f9dd93d3b961b9d0f17d1e7ff0f26c93550c932a7c7 0x4d4a1b0b2bae7425e1a41ff1fd6c562a833236513db7f4f98804a9df1fa6e8dd 0x1865f5098386325a6b7f04ea3fdceb7dffb20197959e44b9d99e1b05d5700 0x2a48fabb320ad981b92c8cbd2c925f825615f43b0f3904672ce8fb6ebe51ffa0 0x2a0f6e1f1be4961d9d961b38eec9aeb82b705eb39a8f4b5494a36351215a927 (-0xf919af9de91e1b8e482c28fd73902a8661fdeb7306d6f049aad7f024b0db5ef) 0x5d508c0845ae7cbdeb4f45beceb0fa349e3cfa5f9f515001303b47d69b3caee0 0x1d422275247bf3e5142900b198c7eb97cc3cae9feb7d8664aba35855fbf0522d;
  mkCert 0x1c817b76e1c869c4a74f9ce5b8bc04dc810dae7a61ee05616a29eca128e60d3b 0x6b7ec29bfa9754bb1e4bf01df1816b11a1a660dc3e438bf263fc94fb8cb78315 false 0x6f9465979247f6e9fe693781ec24a66d593a0617059288629742202efb26dd2a 0x38861c37eeab887f4c99ff3ff482db36ba52cb1dd46ca388ac9357b44403dd54 0x7026384e504d25e9e374e69a569ce2748a3d5aa002ae376389b964379479e56 0x63acea38cd807156bf3e04b560b6659d2090247a297298161c61c41fb8d7e689 0x384e5e453c76e16aa7ada73077a46920cd011b4dced0314a0a87de7182269c98 (-0x772a54bbc3533ddade688077e9afa74f6ade161a9136b1c83846c737a7fcee8) 0x4858f4d6e1d1129c64a58c7457bbe0a55ff6b3a7bb8446819968ec2fb20a50e6 (-0x66d832c11fe5310aaa8fe29c21e208e259d5250bbbd79a6002e7d77dd7d9d6dc);
  mkCert 0x3ef64cbed1a63b043942bd0b114537227a116ffadd92a47749460b8facc7af9 0x509110c224f84bfac3760e687277a40154f439432bb24b538a6d63abddaaf033 false 0x60cdc89063844a9a5821265452685b768e2e5c5ee9963faf905cdf923c4cd92d 0x3a9a1bc9c529d6901841e41b94e9452fb308467de406ac2e25a2c31da2312352 0x22320c25dd8b20f135269979afaad243277253c35ca7975f0414d3d4b1896b 0x37fdcad9ad678b3197d59b263373d2936f3107990d8b3ef791206e03ce621d93 0xae6ca064fa1a3fa0ee72d9c32894b1acfd26c2098d2e3ccaff71a4ecf179bd1 (-0x38bc2b1d0fc1a8ebc08427ef03835dc5b39d7c9bfc545a8dfd62dacd33bad14e) 0x502a994f5ee0077ae7d1d675222fba90768a3ed533cfbbc4090c7de90761f2f3 (-0x31661dc6f67272fd47db62a4a613502ec3053568538fb0911460cf876d75dfbc);
  mkCert 0x1436bda962957699c4d084acd6964db917c46b6c9a42465f9f656c58def17e84 0x6685f11a27828f2302edf456decc21ff9288e98bdd0257a9a152c86be6ea66a5 true 0x71c6667213047702fe918bc9cbe9548234806190bbe522b466ce7d19979a9170 0xae29de9cf0dc436c312bd6ce2efd3ecd3daf9a48f462707b8e761ae0db1df57 0x3864b0ab2fd532fc649ac6190baea20ea64ebffeb8370c079885611b0ed5bb5 0x5aab0c730f58c1bd73984884576ae417ec3fce04178a4717c0410576d4b0a50c 0x27ca1808f407432d5f733d8f05e04443e7a1749d770073d8579d237b93354935 (-0x60003959d2945ac65a847493968b74e947621ed6ab29922070aa2be38f453161) 0x5e09eba28fe74e7e70db837f9c97fbbfeaaa71d6284e41c6c2ea1b867e190caf (-0x3c56af61823aeec7a715131f24a511cad53ffc3ab9c5d3264122d7caa2bed4cf);
  mkCert 0x2fccde8e9b11a8d34bc1cddb50aca2d9158d8d3a8ced807020f934931ac6095 0x50851f9758c6997703b3e6d0bda11a83fb5c6b8a5798a53c3c88d08e79864c7d true 0x1dc5bfcf2b86749ffb799a7a41bd73931aca109930d18a3894eb4bb3d6356fd0 0x1e2d6c82b76313b08f050cc087b828faad694d7626240621e5cfa90111bb08b4 0x13b59472b7d57ed52456a047bf408a7678ec962f6ba9546aeddd7516b25277 0x37ed32cde740c571a0b78829b64b9592ca8280cf21a2e79f67453b1e39a06e56 0x4f8083e8f0563761397c4970551592c13f591329aa994fb285a30f6371b46fe (-0x28fc319c9824247966bb6bbe2f06fdd42b999add93458ada906d059e26b54bb0) 0x742dab1e58a41f54fc047646098b01588d3da5151bc9ab5e16702406bad9762 (-0x190dae4fb2ccb884c9566c1a954fac5a9e7febb31a149f8ca33216a1ca87a4b0);
  mkCert 0x45097b0216b48412d811c2c0e7c5f58aba24abdda30b6aa54eae160e10943df0 0x5cf7450c32b3316aff9e28f53e2af3024fae44d15096231f055ba1fb66dca022 false 0x22cf3651768996d456ddd4d82d40a4f2fabd294b9992dfe7da990f62b6c84964 0x12c7deb5327ebeb53f07b99ca608b8ccedd4ddcf7081b4e59cc88170d28606b2 0x291cd17eac96a317a7fd73c1aa5309e737e0ebf66dbd6ca969f8bd6f183c2ec4 0x4a8d3e4761e6071121a8e88b3ef00210e961b3304c812adbb792ef904d3ade14 0x1f06998378843de97f8cc75aeb116cd0c34f8356836008319f75b55a0855782 (-0x1399a08b341451a9cdb45cbc62b26e32d893ac8bbca2c26a6d8f3a0739c4362f) (-0xc31c59e1c2073653efe976c66fb49600141fac61d04526602e123b806d2315f1) (-0x6215a79fd8d2e676d7033c8c40d06299ffecbe4d44bcf5f3af951ec1129d2869);
  mkCert 0x30d1cb4f9ef18bcb750f5cbb930fd4898159e92bd885064b928cd30aaa54ce5 0x436a1c6fba09765f97d94d9476a90fda9ce66d888c121fa383c61a886089e413 true 0x6779c51165ea5ad4dad83d7d41b1d18bcd2809ea286c007a685eba3614e5a87e 0x4b993e45f31eb27b2f8b9320853ec1b5d41ff63a49d325892bbf76f8faa1a236 0x148f0bcdfdab1fd10cc4b665eeb205f170d360dd70f2397ead413615ca7c3d 0x2733ea251e9b44f945e18e30ebe6e69cc0d18a662406009a5ae3e56f2d0c37df 0x13f44bd294763cf9484e9c12131a4f587c2999ad5c04cb56a7c9a91f0d347dbb (-0x1b425b58f4bd87d26bca1e133b5a9376369c4095d3dcb570624920a3deae236e) 0x5bf586633dd56d467545f2cad6a67ff71ef7be08c32299908c90e39accdbc5c6 0x1d5e0f44bd44efdd207071186553dfc7802f255571d5ab8d0fb837af6c70d578;
  mkCert 0x6e1f15bfd5f168bf7ec2b7387c32cd01f71ebd25e71bc4fc1cba1b44f4ad9151 0x59009af177fb043689bb6ca4330a7a26107f49d66acbf01bb0f5ee1d69db5729 true 0x3f2b9c86ff89fb693d4e2b658aa6a0777ce058085e8ad262f63347c6250d7d19 0x54b0fd60ff5321f1cdc704641f58f7d3cd24a2406853279be38426fa1fb83486 0x689afab2014aa9c9fe5347b71b84ac994b4d868d599578d22381ce1173862770 0x4454903881be9c520c8e16ce3b63da87c6329b182b931b7cd4a2c48172df00a9 0xb365679585e1eeb5ed87ad7a243dfda9c563ea22784edd5f88cca5e5a85f3a7 (-0x213fab754370a9859df79c6a6b1073135a183ef5fe07d7ecbd24e44652bfd435) (-0x1e89ad84146ec80d476ea7e4cdb166e7c98a1439cfb79bde6beaca0c27e26ddb5) 0x12fbb75f3c22813f07410a6dc0c16e068aa479aeaa7b7f8d0229733e9ed6b7c4;
  mkCert 0x6d1e84c32bbbabaf2217ab4bdd8646b03aae580665ac8c6a769bcb3d92a721bb 0x5726e9f847be7c3d929878b7e635c6bab63e9f0165d6f5f23367d0cf2b7a227d false 0x21abc462cef9a0aa0be77f21617a0a7a151bdfea75c6c4ed04848fdbc49d2062 0x5dc92ddcf6db93fca4de81e94c4129301921c3121ac41b9ae997f0f28ad5705e 0x66b5c487212c99df6f4992e232fdffc7bd4dd3e79c6e0cecbf898c592f810951 0x4184c8c482b1a79c4af9b5b341452556a222199e7a4f3bc73f81e338010b825f 0x513066bdbd39fa72ab8e953d32e35b9619927cedc930e75e3b00f791dabfa19 (-0x7bcf6deb5fd219e9c856aa417f8b3f1ee4d1a4142b61fea2276c7f1cb1fa9e0) (-0x1f7c5421cdd69c0d5f917620338d25a8799793f239d36329e66babd4ccfce137a) (-0xe8f3ad6050c7d6a837cc0da77718a28fd23bdfee93b7f7e0110752f30c132e8);
  mkCert 0x12de72bbaa1bfa8746da284896e33a4a7923ec63190a91e4c5bfa8c61333e82b 0x3c4dad89fd6ac4b51a874ff61ec4ac4659535a3dce9768a55cf03a385e9abc8c false 0x43376189acee1b42bd7c6fce3907efc0ae3c8ea1c249693b19e537e165aea651 0x3cc75ed8d72838546b3e2e017e1ca98bb2b4945145dfeb27abec40f5fda9c5e1 0x31238e0ec25f280ef44d88a4f47e5150260e0fc0a2c9c9bcecd7334e03c6c2d 0x1f5e593179e722055b6616995233c9e50b676dec78c4aa9edcc7c79c7b7d3e2d 0x1c3a7182f8572edd5aedad396f651151c4b5012ef3180b3b9bcc6b445c040daf (-0x49f9a55360d29bbe6aee9ee76b6574f25c82d00b26add41c9d41dca4b1c56ed) 0x179de3b3bcad23a9bcb68602da93b45c6dbabb78463f498ce86628c3dfb95183 (-0x10bdf05ecc3f2531296168c9cb9a06a4c0d87a974ca3333b899209433e86f2c4);
  mkCert 0x58ff79a3f9de08fb1143897387e37f63549ea5f75b9219d7baf450ef30d5d112 0x69ce1b7c99e984b5cd1dc1669e9bcdb9a9cdcffcc1efb5886e24487393b99751 true 0x2135ad7df2ee8d3cde264244162091f622e28c8f28a5a51ba5aa6c47751b9182 0x640ac05b4becd5385d6560e3f0c8d3b284fe2b8b0171ccaca20020f49a4971f1 0x4452d403f7ca2fbca0caaa03202d1de456624a93e975528dd30152e67731ce79 0x6090dcf4f0cc67ae5ea831d0ae35a3ef19c1f47d630759b94e33423f04e154e5 0x331296892b1f3faf51e16360c66ca52ac714decab1dac4f480aa831b95509 (-0x3e0ee7d298a4ac7c763b7e7116bc30849d70168e4e639db8e70a72c1cd42b329) (-0x14c1ab02af3f0b93948ad085d2feb868fc65ce8be9d643d5746bb5b35c55b7451) 0x14032dfccdb29335b759c6a31a89bf8aa7ecf0f6025ecd123d9e75b4b095c7a1;
  mkCert 0x10a86f813de1dd939baf1dac5cccefe84a6999971ba8128bf343730d3baada33 0x623f3e9f71480e76b2d59c41fbc1be4cebf0326cdcc842cb4b61cef13c3ea63a true 0x521f5b892a631f8922612c76c676846cb2f4a0307ec42d8c32f47d0f7209f4b9 0x2cf051befe533a453efe51e122ef0f44fedb7a52d4653431578f3434eb7dc559 0x264c3b21da4ee204058dccfd04d65d4b1f30671bbacb135bbbf91aee6e8b5c1 0x5343330f2359eef80669abae0c3bb582deef687fda44cb34e04cd6d22b70a12b 0xb54ef1ace93fb7393a0468a315d18635d10cf3fdab2c0d707ad44ded46d7d82 (-0x18eba1738620f2de55ddef9dde74d06f45e8566f40f09fcf4d522fe3d801bcda) 0x2e34ead2f58076df8d43b025f4f0bfa1d18dcbb8154a2d648c060000bc60aee3 (-0x25c1db8baaa18e4dce2468f02a7ed6efee75d281f8fa1f1f7dc0bfdf5c2b4fd4);
  mkCert 0x2cdd950bb4f7517907136dfd2b11d284b3716f825407e606a6ad10cd704496f6 0x52cb7ea19518d363307666d3c27f75e37e00746176cc1e941020e67289ed3f87 true 0x642db1c114779e24ed0f42bdcfe77fb14a0677afba51c0bf00514553ff0bf2ca 0x48ee09d166ed8ca85c11c43f64830ab0bc2b6426382ae71352dd77db2a78df46 0x115d0c5242cf085a9c25a3a9c94b0cbc96e22ed7dcacc31bf07550f1a7992880 0x3b219e4b77b39d9bb952fea19a709bc9c2872fea03c3af80d8abda55f46b1d86 0x3192db6b8774058e9a4642069eeeb36040989d08c7537429cd3cacc557f3825f (-0x1f9d0e2e343a9c6d0cf97c398841dbed73a7b157f3cee8ea828ec3cfe53c03a5) (-0x3fbadc75f353e4733fcc15684dece896de7b54c4d056af82916b9acaeb7e91) 0xa6a932ef0967e8e04decff750780e20a813b0e1081a9aee037e43b1eb54c2c8;
  mkCert 0x96b25c16436a6cae0471eb90a9040ff7398623c908b632d279590baabd9dcf0 0x611e5abbd0165e0701acdd9d956e38daf1744bd7670a7bf822d01d5e56c7b6b7 true 0x11a495641abdbd5f4b97fd75b7b7a1a5a62a6631a28d8e182604b57f3e81fa21 0x5d30406d9515d6f376e523bcbf195d556c5ad806d1ca1347896254d6b1d82510 0xc3e4803997ce5376f77b5ea935c2dc4f72f4c7eed17a8628947b23ed7880a6 0x515c5a8eeca67c3319a002aa6de892aa6e7328b8ad038611edac5dfdd1c02987 0x1b14e50f008f9da37872c1708e9582a17ee073fc899486c87ba7e7e5a866264a (-0x4b1aa01f6337bdcc4d075ecd248d36ca5169456f40a5879269e3fcc1d5aeaf4f) (-0x12417cc9adcf39ab2f240aa71cfce775b28ff23ad88ffca04877f709e1c6cc0) 0x154f95f76cd3c69051c70a0733169b0ae823cb8fd3a215e1114bf26d94dc7fa4;
  mkCert 0xd0718d3144eb6e464cb451654456abc8a53ed60c4a08c5b89f159cb89b9196e 0x4588dd9e0183ef9d0b0b52cdd962019915df9638328a4fdfe34a5ecf163125db false 0x5e899c0793ad3a89b442cc80f76aee47fb489868db4677f06a1079ddb95eaf22 0x5f48d7a12b2e27791d8ee194c65cc0cdffa6847834f3672c3c96b2636fc9077d 0x176ca1a1fb10a9175dc7ce024b2f90cc58c988512954f7fdfa5a009003a1c8a 0x29b515aaa49cfcac52ee0947d698349bdc9ebd11dbfeb9a07b2940047fa43917 0x21093a0d158e39caa5291184e7922c5deb4eb9ccb828581e7d2e43966ace21ba (-0x1b3d29ba51d776ce433f2e47a78662678b2992cf96c7beabfad9351f381363b7) 0x45c60b29abcf75cd1123939e6e3d51a6ab1d76355ab3bffdbc8a677fbb3a282f 0x10bb7222fba47470ca25742cf859ceabd33bb4a9dbba8f90c25d0780be691ca9;
  mkCert 0x1b15d8ce0e81d8239fd9e7e879c425151ad4f9385c27461c8cafe256b11b17ed 0x70b5b510e9ba5cb027583a01eaa624541095506c0a8be19410be82ebbf6a241e true 0x2e74d2a58d664e426e14538e7e3eb584d99b2a2745574a3b73b87643f986a242 0x3096c16800a631cdf2bdeea116f86e2a72b2365a3a9e45637d80734d470c80da 0x65403be29ab4ac938acaecb7722cc55407b4d9fa72a4c4ffedc3718d36f41b1 0x6d94a2e76f38cd40fb107f9309bc851feea0871dd0c73eea30a8f4c1c32da105 0x1dd801a0d96567e2803de37e94c14a6f2888d3f7338f2d80c0c36b07f35bddcc (-0x40ee0b311377f461cfa2faf668e0a6829d4ec0283afc2a043f808c419e2a9dfe) (-0xd0639342d87ce17c00863a1a1abaa460a6b8d8c011f56c53a0aaefa41349e0a) (-0x38ff069f2ed9d01dde8a55fd620707510c4bb3d58822474dcf31c117fde5a609);
  mkCert 0x315986fdd301d938d645c9260b8b82b52bfdc9af2bd74d0c32af15ee40440648 0x6c0df3ae98a8b977f5c658db200e20cd011e889e45590b44592d0e7a90ba8c6c false 0x140f5ec12acca9982717ed8bdfcba188d680a3cd6874350c1c2744aee788f06e 0x147817b82bc22e651da2256e655928e8637666b901b9a32bf934414f0efb1e0 0x1501fc79367961a4efb2a8bb1f4b32270dd67a469458d03396978f37091c57aa 0x64b72803d81a9b075bf3fed4f54a42e155ca899166fdd905d4d24cd40bf09259 0x1f647461feb8ef945fac6e8ff9cc14d3d3d0a4449a2b1f935b5eceb19f2abac2 (-0x4f1f3e6f6819212aac5ca44e1c605bceeed013ee9431d1dea99f5c432c6efd00) (-0x659150c51acec36c63903b53d47b81c234803a7a6df96a075af504c2d556d5fd) (-0x839709495e606b9cb0751a7a2587b0ebc04bf5d0477d54be4726ab9edce155c5);
  mkCert 0x601ad2cc66d1f6284d7f5aa45108f4b65fbd3e51af4f42551c0b8da5b6a966cc 0x53331eab647f1d40322fa8ca1f84bea845dbe4e457e5776798d04d1f45b66941 false 0x4822453fa74a20cae6f4570d927bf1a9f40bd7606a8e2afccbc956b1728914e7 0x3bc3baa42ea4ba1d3d2ca6e98b845151719ca3fc92f88341814b1efec08b8d4a 0x4fabc7e9410816d9f16d39f121492bfb2715ee01aad1ab81dcacc81e0668b1de 0x3bb5ff0fd8b9f1aec29114ac8ff9258dca34809d71870d69a8cf705aa1583361 0x83b08c46c81090c18ebea32823ab5de3c535ed4e498822aec2ff4cb4cb95dd5 (-0x1f5f2c21ce30053310711877b3440107e6ca812f4d7ea27239031e51ee386e8) (-0x16178abfb71023de3c22f17e34b554d349a58a238fabec949f3ed4713a0291460) (-0x34af2063498d04e886f10acfd1c307fa0be9aa96d41792b59a0031cb1d687938);
  mkCert 0x7287651bc7e91729679d51880d4b1716260f6e5206c5809b2826fba169adfb10 0x5e721a7f0347168b60370e628b5d23db97ae4ebbb36a4292f18e4d4dab10eefb true 0x1adfea3713fa7918d992cbcdb1c7bea6cde3457e24133f5d101969d47bd4f458 0x5330c943b6fd69531381b4330119f56a9ca75d5cd4e5d1afa3db61de6bebe683 0x712576090e26edab4d12cb490f27505a8391686cd0ad83ee922dc4ea7520277f 0x4cf1ac0d40571f9da570664a586550cf09b0783be006a91feb737eafafaba1d9 0x407e22fa3a6a9a987a630bbb4928f2ac4b2ee1f4eec6096bce5752cb0031f858 (-0x39296ac7f38fbdcf528a8ba9d158985887c96183ccd1532ffaba4f2ce71dd19e) (-0x22f8064d98f2b6f22f25aca530a4e2762e0a575613776f9cd21ab8aa0e64206c1) 0x9c091ea044694ccb8f55ca7d5dcfd08eae1d05cecfd10e0ee634b3a74c2331d;
  mkCert 0x11069b14788323d1cf8aa8f0ae5dadb59d169798e8cb2f32085ecf7fcdfca032 0x490dbd58e5372bfb88a110d570534e50b0b9588c8d98413ab2e4859728157938 false 0x356c67766d196254d694b0abfeda8ae11c6bc82f75b79a460229e2f9ff563872 0x400d8450718008c8ee83e3af80c7350b2d40c73e9f1a15b8911506011ea18a39 0x28020503d6f8a562d8324db18a3e0e78110012e83d459e83189887a6af9d6e5 0x2e0921cb316b0979327c5d08d47d760022ec0c7512d1454c51cd5ab53f08362c 0x330b43b7c5e789cda60f6f23f9c82317ae4d15843f11910b68de03a7b80129cc (-0x36fa30f1e67b454377b26acf32914fc58237a59a5f57d340c36c5fa50ca327a8) 0xc1de3c4d5776f3565ffb2b0ccafe85a9f34ef467e5ed7a3ed4d7bd8cfa161ef (-0x1f8746fa0f60ab641cb4fda651636eef21d8e7f3b6ab6169a5054fec3f83a1ec);
  mkCert 0x36ddf8420b56471d32a6515c41d7a2183095c2ec16f4af3a049a3704f4337ed8 0x6ee3bd2768a250cf16b0a1295b16906318c3c6f0c7a770fec1165e03250fe4ea false 0x3ad51214b76e1ea4180b151ad9e404564b53cb414786d4a126728a9187669bb4 0x488b40b773f3f343241e5d220ef5c0231c67f3781e1b3231768a091a620d6762 0x19f7bcef41299aa761c7b853ba73c6d11c556ea24d74985fa13e4fff5e50f6b2 0x6a11e3a4b585387f89511b7c0c94c68979ff9b694586694a6996674ff8a9286b 0x13933b8db2f2c0473f1738ccc9acd684ffcfac94a2b3f73a905db11818718dec (-0x37ddda587f15dc5ce1e475dd014a7a262ee17520e0c4ed01addaf0e199d01b6c) (-0x63fb5e5d3a9abbbd5ebf0d89a7c1ceb501e47f3d47e252081f0e4bf6626b38b1) (-0x5c5f9bb0afa6c0d75efb30fa1396ca4b09088c3c2ad4c75cc43b6be29c16c8f9);
  mkCert 0x2a09bdf48e7536bb89a2bfd8e6cbe0591b36492a91463f7926f8cd46323a413c 0x61ee5ab94f6a19de13728d6ac5895c652040d16402a650ea3004f2d3f052defb false 0x2151dc7f1baef1695fe00dea46b55fbf7f2888e228d2db56a2556b659da73f28 0x344dda28cd032210bb4d5e8262d0a0976c0ed8127ff8dcfe87ae45935c08aef4 0xf3e6f295109213085e03df03c7693a967ada3f4c81468bb9b5d7a5150916d18 0x52ba5067472e558849373d0e7ba50ae2b45889edf565ccdb1a67d6ff1a965217 0x666cde082fcca2a641e5ed1f9bf04d053c838c16ffccab77f9deccf631bb657 (-0x5c8dc8623362f51dd36ff1b49e3a927a9832ec96d354c1e4341698ba0f4b63e6) (-0x42a48b51cd268f3b312c3b777338bb9fdd7b598dc87ff2d3af11f387c948e811) (-0x571fc9539420b30b4b3ad90509ecc751a00bd94a45e88b1eb6119d8c4e38e650);
  mkCert 0x80db970eeb2731b8b63bef3241b6f260336a8616aa87adaf49fd36936a6cd58 0x48c4368df4c17ddc94ea9301ef4cef8804e56d9c0e63d24e9bed9184019cc970 false 0x5e4ea9f4e6cbbdd3e3f272743ff5f46f7c0064de5388c48d7f78df2c4a33ce95 0x7cc97568e8419426f744192737b1a23ecc0e5d4720f02dfbfb7471396e51e9b 0x8f3aaeb045cd9df30a98750315ec17b64f12174dd74e8a454e303c77cc134c 0x2daca598d993746b5c5d1da5820845f6f7ebf0b4ad164dd2593eb186b9c0fcb7 0x16645d030d905758ba1dc0b0304cb370af56ef72f99ddd2aa6b1487dba246b5a (-0x4cb6adc0831a88148db1c1b73e45ec598189bdcb6080fa266f5cf1b8534fe2d2) 0x49ebd2d98909164adb36a40baa388af72bff0296e4ce3bf6c344ef19bbe3db78 (-0x41f36b07654580899148d4475dd69cc555f188dc3cb107bc452710aa661a3e94);
  mkCert 0x71d838cf0c0676403c4d88821453374d6d3846b7b9d9b324ec7b449c53a82569 0x431e03eb4faa7371f91f8bd89750bd563941b661005b69640c3336502169eeaf false 0x54f8357f685017407e2c2a69f357676729b9cc048835fa7e6dbf6e77141564fc 0x65e41302b6e4830bea6e090eda1f4effae2f555371d63086d2b013885fb53c7a 0x6fcc60d22fb46f9f82b887b02576e9891f7ba705f119b53771f8913edeb9c209 0x26db9b86116904332c49e222595f438fadcf1422ac6918f6bdbebf2bce2acc31 0x1470203761caaaa1d5b5b419843fd19fb1e0ad1b7088b6e5aac1656354b3a4e1 (-0x2547d2efe76a662986a879d929e3eb72d67cf787828e6c148747f9dbff054132) (-0x1f0b6a12286c8a552d301c9a416e0e7933681a6a789ab5b5a442126c4f137c146) 0x1f82579c56e8b7bedf3c24d7370b528e052b470d6cb909a062e8f12580b884e4;
  mkCert 0x3d2b693c5f53a9fdec6c24f453612d64f5ad9829e3f3e59a6d7876863ed59935 0x4eb31402a8ea96c5ac76cdd36c4c4961fc1d72960bebdf9ab67d598168454b54 true 0x2399f587985a5f9406a773d5bb7395b62a96738c2a1b5669805139737578e051 0x6c4ec3749de0d2e447141602d5f6154616cd7797355675c9ebc3a5ef2081280c 0x2046afcee225c9d3e05dec9f843e4d3b004e91fd994372802c06d619d895a5b2 0x356d1e1b28e513d54a0701f39c923abba87b554c137b5e4c4d2c6c4c749ea228 0x1315bd7fd22631da9c80bb3fe885dac9dda84f2bd7bc841d3479b900d5ca4ab2 (-0x9e2cf864d1c40fbf79246bb793d722f5163f4454afd77cd29e19c4be78ba446) (-0x96728d3fb41e912f228b51c0b0111908c1f6b0311a8dab88d311d5ebc6ee1f3d) 0x4642475408878131511624ce66722f74a7e9c61ff57465da2b690fb04406dd4b;
  mkCert 0x2cd4b950eff95da8bfd3a99f9a641fddd4fe9eee566e677060de372ce94fb668 0x56e58a693cc8af52cd3e40f56c456e18858c65bbed8125034f676a4d431099d9 false 0x54683c908b916d14c8c0cacc60521850b990f25eabcf4605715606d9a1ee27c 0x4ae77402e3622006ab3acc427ada17aae235c19ae92af06436bb7b8d04514a91 0x115631b99d472df7980ef1271e394412f82b4976759521eaaaa0d1fe6b4a4c7d 0x4122a2e338ccbb5a5b81fbb292bb32f871dea13d55d76a827f211c1a8496de3d 0x4adb3464b22e961caa74e03be7d52f56e030aac8457bf53b9a5a130b8d24118b (-0x3f45cfa5483172ca81116c7bf37552abe4f19d2b0deaf9f99393d877964767f3) (-0x567183b6cfbb9fc11541c22f098a21dbdbce2af96e6aba04f3fdee6af1590731) (-0x29940f30b7f125da518ac9d307e910d1bafc93b87f715672a0bb86f2e2705a3b);
  mkCert 0x159c2e8a84619f89fdc69b50bc72adaab4dffc8bb3bab2063f934f8433910967 0x52ee85766d7a3447c3c4bddc7a0a66d6d86f418a8e6ec33999a9fbbc1e9c8be2 true 0x16bc9656d85ccfebc82c22b1c2913f7ca685486d738c83bcfb8082d3adf79e2f 0x3cc90ae0e481016841e3ed2ff69a6940a2e58cb624baa8dc44aa10c5e938580a 0x4073f9d0d933e49e25a28fcb1ef189af15e077b9e261de79e781ccffec2e593 0x3b53b0ed5fa387623b633125e3e7603b26c2c071bc8f55559a573d67b4883661 0x1ed3e139c7e5086d6abb22b02b211c38c1cd00b21781e1a91f924326f4f5d1a (-0x34099201d96c28fc55d3106ec8219efa2ebe234c55f6e88d5d4746685c780bf4) (-0xfaeab23461531b900ea89ef9db7c33458d121c87ff93f185edec07a4eaff895) (-0x3bf7e18876ea1678e49062fb0f9583a2cfc0af293680e4f356ec16e6954a591);
  mkCert 0x1b010d7e6d5bb2a62b33441adc5502235473abeeca79d2f51e19fa59c36d94a0 0x431ac26d658dba255028e14f3412004d5f1a7f1c61757502151f860adf54b8b1 true 0x24abd0393702e70e92eeb3128aa9792fd3bdf67203bb97a40243d923c468730 0x7195069b0242c0c4df6a52ac283060f450e9f3d2bf81dc7a9267d6ff9652d5e0 0x64a5002a28ad80a99603218c69a9b128ce1fc527b67caef8551b22fc8ff16c1 0x26d7d681d711c496dde33402e9dccc79df26a73e80f12c412cfe0d9a74e9a89b 0xb5871b91b4a2ae1bf9c439f1cf8f0421b4432a640bb4b20466986b56b78f2d (-0xdc91369901c685e2e60fbb89d96f77d18d353e77adccfcfcf9428758069b9b1) (-0x1f67f6712954fc9184f6d49cc0741047c66cb936bb4dbc2f330ce6568b0b4b01) 0x5b9f77564ac53750e2e534c8d23ce269729effa10df0cd4d718fc65308e42f40].
Lemma certs_0_ok : forallb cert_ok certs_0 = true.
Proof. vm_compute. reflexivity. Qed.
Definition certs_1 : list Cert := [
  mkCert 0x630250699a98b71daf58beb402855b7e8435e2b4f6b8d536f853097968a8a3ac 0x44dcc5cc39d0016e75854b5e1cb37fca1b4c9cead3877699b04342cc951447f2 true 0x29c17b9150bbe60530ea9acb3d1ed0bfb314e6ffcf41296834634e3c711a8b8b 0x52c09c2b7b2c81ab422ea5b570dd56b1f7cf2a54b832639d807c27117ebdcb24 0x548f1df17d2dedb24351352a5915ece6296c02f08b755edeb747c9ae0e614871 0x28e7a32737cb8450722edc1b19eff30fdca02e08b7a2f5cecfdc2f899cf63372 0x1747e6a0d15575cd30b35c930d2e27828e4e7adbec2ac6810e7258341c5d751b (-0x7e086f20da212e7db7ee0d1b5222cb40c96c4e16414147f4e60fb68f9f103af) (-0x197c1615328cb22ae73a7eba9a13cdb07b4cd90b5f2ec9d6874ecf49589aa2c58) 0x25d9d45ce67fb071fbc305b24193ad66db44abb30f61574c5938b4c104e3e6bb;
  mkCert 0x14d67ec31da79b11b0a7e889df43d78635470762f6ea887d4d291853946c72f6 0x40443a075c3c8665b628f6763e8b1753d150910d966cc1be581f3ea760697aee false 0x1930f2a720e84fac0e92e965201394dfca99f6d6620379ca44d5cd5ef1dbe3c4 0x5570b56fbea6fa870e90362bfa4a5a3c734cac4a47edfde5717de2a98c942a35 0x3bedd3a2a32c5536b86003304de030d23054615e426cd4684016d33556f029d 0x23a0863c18cd6f95690b645385ac5dae96dab7e79aceff03fb28365927c54e50 0x18ad84acde53003e51635e4ed5394705079be6e4501597e3316cbdfbca88b7a8 (-0xa6377f7f48b4ed6b4b14239bb0074ff1ffa43aee28303521930fd72ac25618c) (-0xd40f740f9f5da553c46ced1b491ae3e4a8be52bd99f9b7b76ab3426abf2e7e5) 0x8f8cdf2bf3a5c9be94c5e86cf3e5b09e518eac819c32162b3a5b720188b23e4;
  mkCert 0x5a9f7c3efdc3fe1232e173c9a89b59d671fde577df65a0a53a41ab382990cfb2 0x3f0a16f9598590011b2c88c2193ea187c49c8ce89f5a498728222292dfb38671 false 0x8366c2442229237bf36673d4e4a0d9064622d3bfe6f388e82127669d8d270de 0x12dc35df7c1f95da11fee310eff2185a8c8d475968baf75ac9236db7a437a69a 0x46d7666794fc4b852935087e4abe9571d5e6d9ec00d733b967f1d0eee91861dd 0x22478e96b96187c062a86451a9dd6e4031735f8aa3c8ce9764feacb8d85bec4d 0x1ab37fbb66dbb852e725fb6f9e0f746e5a2de0381229faae8acd325f541cf14f (-0x5b4b6fbd93ccd8d8b20b03fd35277a40e845904775a857e51293072885bef3fb) (-0x161a00f7768173fdf410be6de7f16e176d379067262d3fd44ba128457a9cbb651) (-0x313b53646a908c03257d9aef76f20df6bdfa84605863c7d31b4aa8626453cdf8);
  mkCert 0x60de5069e491197ccfd36f61bb08933b843632b101dbdf89bcb3b1a6582c65bb 0x60a55a8f9eaceef45be4bc94d7425cf05db20acf625b9069c8a69226a229f783 false 0x5a0cc5f0b56470a144464b46a4f8eafe5f6bae9dc42392aab783c26f5536006 0x4db9a446eb53c5b97dcbfb50d3c27d9abd52df1c453639df2b032e703fcd74ef 0x50f1315cb8a42b6641e0ac225aa6ffe0cd7ca34d2456fe93962a221f976dec2e 0x50921c7c098fbd90356418d82f84f1495bf94cd5da76bc0e726ac40a728154dc 0x72eba28dd89b1f594c31be730fbbfc673f4fde7ff92eddfb01e450f5f17bc26 (-0x629b2c2ff1d823ac01c3db5e1659b1ee03c0805ee91b75a922b6768791cc2c6a) (-0x19470040f5c1bcacb7d9c4b8fe92112dad444d52d9b7a32be99ca48e58fa0f0da) (-0x38162bb0ead32737adc25f71b1c4d8e94ff8df75846ef7d6e7d9210ee25a3c1f);
  mkCert 0xffc1b01ed4abebe9cdcff6d54ef4a50b3024e5300d9d04d60565e26dfe84a84 0x5a5152d6ef4c93c075619e7fee5a9447d0e9bf493fa4594a24b9467bf4cf6967 true 0x31db8bda7add1f029788e7dde48951d7510113847b768545049008142e62276 0x2dfe42aad940d83b52af9f2c66a11eaf8df99493bb184c630ecbff50b819d1a7 0x2343d8299dea8a335e964c7fb7d1ca80b45bf1310c53a73aa3fc44ca29d1b1c 0x465d67c5a87383040cec6ee9e28e191d1ac2b4f18141ece8d7070b80851d093e 0x1f32e0597b450fa7b82803508e96ab9f4d81f08117a07eb217c0ee2ac62bd4c1 (-0x5d3da97d5afc40d6ad0acd6d89f3342640c36bf341bdca062c2671928d94692f) (-0xaefc24c89d5341f4923556b07c4b8a79c0f4dbdb2853835585d0547c80755ed) (-0x1a4c9a8c35448b9522f254f158538b2a6c399c18cd0fa789d4cd4a05de33356b);
  mkCert 0x36e472f20c57e33884a92932eeb0cccf11e7dd0f5d3ec586cc92cf4d879d22de 0x3f21f0bea97da63beb7ec929405a92bcb65da805d68851f7005c6c0f9d703bed false 0x3722c1b95a6d3a431bd73b2394ae25a25e2d0df3a72d6ed949ddf1532c8fe150 0x366aea94e688d467e6c6f6fc7f436ff89c9d95668a21c0ac8129b926e7b25a61 0x19fddf5bc598dc2972e86ba37a91354157f4723f04e7eb91c106915b8ed99afc 0x226183e0a8a35ba8847dbc129b96b8c87e1a544ba40c9e26a8e48f56c7432dcd 0x31566237435df7a86b3af152684b02beb474c71db6ffc694a6c7595c5c43d196 (-0x1d9c74fec68ca8b1a035460ac8cc90fe6b036c29638b2be727930e95e804ddd3) (-0x67bc5a78e5e499e0bae75bb717179be6954a54125a229961fc03dd41a38ce195) (-0x1ae251565c5574b4bce14c85459c00dfe6e58f27ac7817e9122a87abcb6c352b);
  mkCert 0x60ece62788e2959caf2e3ab998368626f7e40b16b30f01201b901ecffe75cc21 0x449a93f3209729c0549773cd45b70a987e64d1808da09c55b76695cd97ca0ece false 0x34616706686f207bf5cf9f5dd9f3488024f58a9f3e91b410ef00aa31ce820e8e 0x3e17e436c3d85a58e2069502e491641ce7c58a82e6136fa04e9c644a02f2f6d2 0x510992f0dd2b5a1a6d9d453686d8a93492fdf31d1406f5de4918490071a1dfa5 0x2899250055fe7383963f2f229f6812dfb454af01569fc7e6c24064c98ab77f9f 0xa315e2b143c518c076e59f30050da004eaa893d22a8b1e3540e10c099c3e55b (-0x94eed793924a4a4e1f0b7e6652da98eada197f9a6660976fc3cc79d194281f) (-0x17d85085ce5543a83531d1af08812674b850b84f2b80f95c533e68dd9379d3682) (-0x1af37c2f912f69cdfcd08fd5472b9b8af98d4436d9ff0f20e28d4c899e9cad91);
  mkCert 0x1985f6b39cfe5f8bf82cfd1a5eab5d64e88519f7fb70bee403bc3f57887f2c4c 0x5ab320883e046e07d892c214baed38323ae1f3c3e342fa6e417868de4ddcb152 false 0x35edef95daba137ae9ac5a2d06aa0ed666ece8a2d3e5e5875f072f9c27294f56 0x1f602c04e8875f36bfd2caba2ff9c71b842a85925a5d8963f65a5f0f83d60eca 0x59e8bdff2f57c91dd3a08499d04e2f8e31514fdfe4b6c966a2202e4ff72f481 0x46f61f1cb47449fd23ba6ba120ce17f74150be92f350326600cdb68584edc43e 0x382ec48be1bc679ff6ba0125c8ec5a8753ea1e57d2c2dc30688a2437328c4ba6 (-0x462aa00a05870bea082154cf2c3917622cbdc4583d810d5d53ccadf67dd25cb2) (-0x30242d57066a88bae0e1f389da0a0d1eb4d9bdf5c20f1c4544567c2f138dfed) (-0x5865b29832f56a121d85ca0b90a44baa2a394ed5648284c4e6dd49f418a84b29);
  mkCert 0x24e47c2cf038bfd163119ac42af80db88ec4b4b565a186e8fdaad21a11e14962 0x69b994eda74bab095aff8c57ed52c0a828041c7db3d9b2fedcd3877548eae009 true 0x3667ccac1749dda88a189d8f64e797089232a6a5f21d26ea648c26bfa3f2adfe 0x2d5c0321c562fde81771d1de77779c1dd37d6a7201e9d85971056d7d924c0ff8 0xbbd9233b7073f17d11edba0786c25078bb822404baa0c0d924565c3de2291c3 0x606b6929d27347cc638e69c871f97fe0bd19b0fef18068fd6cabaefd054c67ff 0x1f352b7e9be01e95e67d202be09df0962d7bedf36c7cf44eae4e90d33f59fb19 (-0x4eb33f97bde2a3822e488ea8e386a32e69ec8d6d82d9f35302fbb93005af4563) (-0x212b80d35fd2e468800259c477bef1172dbbd1857adfe58dcf3ed87b9607e791) (-0x3072f31e70d4efaa587913a0629912b5a0af4659052a6a31ca1b12fb82bd05a0);
  mkCert 0x4fbf63649d94501aba5b5d61a98315cc9c8f9f423d02d470e0e5112e12a8150a 0x4568d71a502388640f8a28237d4dfb0df2538e0bd62d61dbfdf1e109e274dec9 false 0x7319a80096c9710ea3d3e39a158c6602c72443ff1dda2c5bc27ab7e79d3b744f 0x30953827ad6a24bd29534d3e6ce77e6d16a1ffe137bbe91ba21dc8c1eb8cf356 0x36dbd5d21a42c68bad931632c13983aadb96f61b175accb26e07a53704b6f8fa 0x298eb375d3cca328ae753c80b44a6a7b65a7e93456b17210568abda4abfd0eaf 0x5d21bd5b2e9912554799217a9b807a079d241fcca85caa641902a3ab26b4afed (-0x5b8d5869f33b123ab244cd4ba75ade01e42c55a95f414bbdb16f1db12ef0a722) (-0xa00400bee680a447e639c708b06936ca30c43f64938544738fcf7b176b038594) (-0x2909fb3f99c1365438cc1f4e4808d8cb4af913b50417ef7ec19981cd7e4b5078);
  mkCert 0x7088db054ee2fc59a2c46ad206424f52ce1f948b8c1e0b13be9f0008b83c2684 0x406948e1429d34ba4741fc898425bd9f0d2b2e324f7a8ac1d003f3cf2bc7c0f0 true 0x7235605072754d7635c40830c8aa44bfc7a50b036ad04f30bbed913df652171a 0x3b39e25b66add2b5517e36abdd55ec131e851db317636935852ae7bc535461 0x6d3d7db8f987d63fce822361d68edbe4002e81eec8a8f2247f11e5548af54c8a 0x23c9a86bbd47e5038cd92b3a1ff712f333799e8ff971833db215728258ab7af7 0x1c818ade82ed57d644ce7ba4e8bae6cd0bd61158ea3ced4fb8b840e001a51379 (-0x790428ee3312946fe82878ada97c2db6badb82485d73955a0f8d9d2674afaa1) (-0x1b1afd334a426fc9907cf20520307eedaaf5f13629f0b5a5c5cbfe54f5b9b95ad) (-0x115fe2426cd80add0995b6ee83aee2f3c8e60f1be36c04dd79d461ed24512a6c);
  mkCert 0x475b3363f1995805b2863e39aab9274aabd0c363baff86eab63f45da7d317b50 0x6819fca82a443fac611cf43ec67c1bf8ca4c361616d5ef4a99fc73f0d8201026 false 0x94bcbe2ab0b6bc5dadca7f902cfb053f9a78912a21e477e3d7a6030bfd2febb 0x5010964c95023f9c9f63ed5576279a6dde94bf8876810b8e4089e0f228bab58f 0x2bebd59c2590ef4026157ec124c84733c98baf5830f611fa0bc3659c83967ffd 0x5d7b32ae4ddbd6cfbdda20f757e18c34542e9084c60c030c5f36ae563bb5b3d9 0x41c7c0f9194445e2fa129e86e159b40fb19e2c1a3ceb3cbf7dc8be5451a27b0 (-0x4f5db20c87ee4fe36ac2a7f61ff28781c9c9d537f6488f6b61f3b779963fc2fc) (-0xdadc572fd0369a4713e89896e71ad6d8ba90dc6c3ec831a318707574ddda4068) (-0x43f1a37753228cb87d6b56f518a51f50761a15efee4420defb88dff3080494a4);
  mkCert 0x3c5d09f29829fbd824b6b3207a25e9b9bb0c3df9a729b7a69ab7488665c8a27e 0x55365f5eea528dcd4b2ceaefc93a01d85b53eb4dffcbc981cf70958f5a0cc76b true 0x47f3915feb25c29f8ba5bb00d53f314f99a00d14136043a295e5cefd009ceded 0x525a7b4bd5d6b3c80ea7bd14b91f0a11f1684a6c1bbdf050d81c32163dfea188 0x1f6e56566ec01001a57138f0d4a08fa760e561b7ec5c7e66be931b1d14c29db5 0x3ea2846bd81b7ad8310e4e6db1d9bc46c831724f102c3e8d10a70512b56e67a8 0xb6bf91e7d9d47d835d351b5d64924beb1ab8d70e53e6dfab82dda0b7a712f53 (-0x1f758d556792afc826dc40966f3abd8f6005f32507594592e548f742330e816f) (-0x707f7fdca8008aec4a81d2d58ef4d54b9a7caa76c47398a2d3405cdbc219e0ac) 0x143a002933df6f1d318e75bb67137440d74395cd47c1bd38da5925b274c189d4;
  mkCert 0x17f893a8a9a37ae6e87eecfcea499744171065e13ca31758678c1cc4bc4cd118 0x3ec196bfd2242b232a6deaaaa5b372ac6b627c078bf3d88ee5c2654e28df87f4 true 0xdd0a9630e5459e50f93ffc560c5579d69f03b7edc666c9758c4833177e21cda 0x5fe1c0cab7cb0157b9b7b4b8ec96a90bd1dfafd0af0d5b79ee65a93c62a30566 0x4f4e2f339e56ecfb92d666ddc438472770cae95efd3c210e5ac9fb42cccaba6 0x21f8e29a733a0677863678a3d47b00190918545a4a3201b3a836f51118618ee1 0x256fbc5ceec9198078a07ba679130033bcbd928c5d632ed79bce8d0d3885cef8 (-0x1d60128044a0e2c1c89ef22cd0652c7aeb2777ff461b19f46dd5a75c60e107b6) (-0x1722f8b737007a917ee2cfaad7a99b4eab0ce823fda6e40c918e1e27b500919d) 0x3f44eb8c9f0550c761f57c068547537735831f72150d16799387eb10b5ab2d1f;
  mkCert 0x2008e6fe70a032b2ba7b424713d9b0499234f0c5e432532f4aaac1bdfebfa0c4 0x654f81c9ce69209374c3bbf0184c373f5a9ae46177d3376ae4a83f7d6095c8d4 true 0x12d8e304e6f205832a69527efe59750503ae1e881311633bc7d95fa0e2fa8e53 0x61ee60ed91e072955cefc55c037c59a69781bf40ea29dcc4aa2d1a4774bc7046 0x8da2d29f4e36a2a19011c6108e6931d9022acc122df6542f3de85dd310c78c2 0x5889381959a991e310bb28fd1ae9e8a4c4b44dc2ea0ff9418ab75fdb5aa6837d 0x3133d3372f3751efddd25317732306d143a2eed62ce3dfb3d5e5aad9712c8010 (-0x1259ff1deeab2f48898aa0c182c5e9b496f1d9b393a994c2eb65938aacad4a4a) (-0x29327821ddb6f61be467c27311ec5b981aafe953c80360b50cf9907a49e7bf68) 0x17271afec8d3a7ef3f1ac81ebfa4f2f54187a7c6b3a16306075ad1aba38790df;
  mkCert 0x22896e61b3c70126c77b933a118fc3a542313aeb56237e0eaec854690a5287b1 0x6750029bcdac386781ccac304dce406134e31c86803d9918fe56d5e281d5d869 false 0x410002349b8e1590445f459c75ff6f0bad4d3014c9c50ce86dd894f9635bf7fb 0x6cd73746e1446a56132980c0a610697bf53e0203d974f2c8d3e841c06b740fd2 0xa49ffb42df324208af8c39ed5a4b4b919594be2f19f072a2be4fba404cd4727 0x5c11d46a6f6d08b5b72424f6c0d59bbe824f34755dcef9556e1a1519baf80228 0x1e93f166620db24b4c306e5b9c2a9cd2d9410e8b3218843fa7537e3babef002d (-0x38f11c5da7a1d0cdaaf5fd57b6824d09ad21514006474398ed9f11b2f0d76de5) (-0xf001521d5babda4d1c6dd5d64a1094fa745aaa8a10eac931cc7aeb3cfe879cd) (-0x136a9840114ed74c6547c8a44d25b7ac7f32e0b90966166822b7361e52d7f918);
  mkCert 0x5331aaca6128b13f1dbee4451d8dc0d7c2bfcd070464860ad9f3d91f852f239a 0x544afdbc2251a5d33ae78f1f849797b62ff69c100da849820aea3557726ea6ac false 0x335304262fb5aad4a7a6e857d01e40057a2098fc1ad5538d0cae62f8613f5e56 0x3844a9623053e13ab4fd76703fae1e678bb89859523befad29f40e5432c0256c 0x3bb3e94c6300b7e426abf296c5e3024e89c200b6365bdd9412b339c1bad93eab 0x3d4a5a5938088b7f27283c9b0b88ec345c81ecba24c8353c2404ebee3e1e82e1 0x27d0c3ef0c390af8f088e3ff0aec2a1e5cd23a0900a6dd3a4ff8240c8d5f8fb (-0x123eb52d9b9927438063adb5d4164cc7abb7e452e742f8659212d47c80ea8f53) (-0x113ca9888b3961321a9ee6d7b64a88e9ce8e28e6e41c70e40f4a6f55ccc661651) (-0x3a135c8598823877d1e5951c39d32727ad3bb33977ea7f7155942a89637f69b5);
  mkCert 0xd0bdf6c928de23d8c77bb26ec7092e2cf027c4c47c29929f9ca1ac0c78a8d65 0x6f1919115469f1f6b8b92ee055f5ef6c5c3da92467256b20897f853cf8860310 false 0x144bf157c72e398d7f77353c12b65e983a8cc527cc507e2bd528c8f27a843d29 0x5c0f2870700870858d23da93ee71b9e8d475a2e31fcffbabf4a550b2801df598 0x177dd15783a6e045749f1e6c8905454526063f9f757f2189e29fadf3301c915 0x6a781098d6c88f752aa2da2e3b9754160b813b63f902368a7b0a41fc726de830 0x2eac5942e067ab29c6ec7b16413f0c7e96a4dbb3f661fb0af601206d5f0e9263 (-0x676cbda552ac0706b8dd67b1e404919d296541b45a26c8df92262118e615e70) (-0x3c99db4b3e383c529964e071cd03eb59437ac8f203733a33462081da40980ad) (-0x411f8046e4b8437b625094a9a000317a1855a894ea3246ae54dcf6497ee8e4ed);
  mkCert 0x2865e040f90f5cbdb5ef1bfa760720510100d007601353b9a95b1ddf17e8055f 0x67a15144c9b4d9756d830b86c42f1ac661111c4e325ad242b700ac750ebb8f52 true 0xacd5fd02a273ddb22ddb613d3649aa33e46c92e46cbc243af4820d18f0e54e0 0x30f7abf9cfdb853f85d9fb5df3dbe14a1e4eaed15a9600b35b54c6a63e9af0da 0xe13dea9f55925e6978a1536c2b33dc0658b467d6cc991651256575cd02f1026 0x5ca2f87d278e4a5833fe6ffec60ad1df041af8d11edf67365b1bec6501c403c9 0x3461bb3a5b44b870c6492b8e54d645975a0c090d069f2c967616d86e75259a4a (-0x375fb6bfb9c1e8bab74a556819946eb3fa11ce52962294dd74829f77a6552df6) (-0x4561ab9c1c6594050df047084e114c04d7c2b256f7ae243a485cd8b462dc7a46) (-0x2a5441cea079825f2fdeda9f5b424c6590c27d34829ac214ca2b64ce5e3af2f1);
  mkCert 0xeb8c32b10a519e5d2817d27e6190fcf345cad20ec050d146394b60b5b4b85f 0x5347ff3228a3e0ef3f483d33b07146571a27c213d395b2cbb3e8801c5717b356 true 0x586c709ca4a48691fc861eb9e529ba66dd31e6e77477c63ef3f1947603682603 0x34e8273718f5a94d80ba7d7586a3d5e16f254787857a31bd7099346a79bdd85 0x1de9842efdbc908b4a03e687cc61c533ff41b496cc7c4bc8e6761099d9c88 0x3bd3fa29c242653968f5a6cb3d83fb405232606ae790b04dad4c7bbd8d7d8a4c 0x4f29c89de19038a65b90e23d13a1a8fbd4bd77907a0ee0de850f575ae6a84643 (-0x179c31ed87293df2981d5d5f9054213f899cd1c1d96c8ec252ab87a4f901c479) 0x436873a57679766bb7695fb01d969a705500f415f50bd8c7859c8e17583163c3 (-0x23ed4294424842eab3fee958df8bf30e728b5b6a5dd20e5e341ac0ba3e517ae4);
  mkCert 0x5ab06cac8838b69af2f070703a64c1ba235fa72bac23a6ad55daf52776fdc41c 0x5a5bfa5ecb05a6f76f8ccbc4a0ee2fb4bd080dca329cdb96170f20ca64b2019d true 0x7c68ce07ac53dee0a131519970e3277c6d35c0299052a7130337c6558ad2567 0xd67eeb07e784503aad88ccde0ccab1f4b2642085342c912a880ebafc6d9c7a8 0x46f1e49628322ff6634d729e8747e429ed3c1939f32277f50346a7f19ae3224c 0x466e02b0e84e9535ca767eb54ef74a69033a3e25114d00c780934ffaf8c66a7b 0x20b66d2e3576bfe7d9156eb1a4fbe8f88abc0e74e0ba8921340e2d6dc18bc5c (-0x5dc34a8be2558b439def049d133428ab389a98db5a1b51141ef1538a08be720b) (-0x16233f423e1984e6e66858646d2ae0b23bc64b881e69126954efc0e22b9317fe0) (-0x2b0c97cfecb3c94cd77a59c44d9d1a55d81afee1ad38cc753d0b49ed533ada80);
  mkCert 0x18ad62b530caf917f3711e4382c0bf042572b730f98e090956694d6753d038fb 0x3aedf9085e47a9f9d66ece8f15ba082ce51aea53f9a3e667306d6ee48d1ea676 false 0x14692c3086ab5cf4c417524b7b4e78c32ec8efbfa9a058bd8a26538819f2b207 0x3e5d11cdd23bef4526ca784b019301c2c9d94c2be6b4f3f1185b037792c4db98 0x540c2e59d05154365cfb4a3208f6c477c230c2475d725b294b473f8cfdbda57 0x1df49e16a7615409a61aba4b96e6f63fafaae7d574e0e651806e97fb146a329a 0x22a0e6156eb5b759c7704dab76112eabe8efeb8dc68d6869d431c3e75971f05f (-0x517471d34cd03204f731ba256520ca27923851d5584c49d6af841f59dc99de54) (-0x16abd737d9153843470655d51567c10124fabafc885cca8f2d96c37191c0224d) (-0xd40b95c572dfebb3b1d5a28092604dd57072bf4759e4a6bb2b9c41344dda565);
  mkCert 0x7ba09d58d1bfe0c68a1ae56144a2ddc0ea45e45b92362864bb4e66ee803a35 0x42017b64d4d508d260fa8d776b693f021e0661535505b570cd35c0e3fddd0f3a false 0x312559db111b891c9ca9ed3a2e35450a474980b4a83118071ac5976945762a62 0xde5f4348fdfcfb9f008049c4b448b74a8caf353abbb16030febbd7793e838fa 0x83d678c1678367db832df10081f5825b4fcff9be42adfe388c31ab9b42c3 0x2594df28aa16d0b2cec87775666a6e853fab1f9fb73cd79fa952cc0ef6f13d19 0x12a298e5978f4e2883b78afd5501d3d7ddc4775af223b3b4eb1c51563ad738f (-0x3efcad3f5aa3a0ca598a43e9e3bf74f7bd360c8d6fadebd7fcb7e6e7f06ef9) 0x14d314ba2e6c7013a5beb44224f60929d2128bfe738d9a3af66686f9e63002a6 (-0x36c8aa1b43c75127df493e67d3a3078adf36460f85ab1f7ea72a829eac0e3df9);
  mkCert 0x12eb3324b9eb3ee5b8f6f325ab1960aeeab38756b16fba938f03bcbb452c4dd3 0x61cc51c786c8aaad8869d119948060c16d98d6f746c34a990f25eee1123ed20e false 0x6fc60915bc3dd15deb4b7b32c7f6dc6f912ce10f0b93b3cc86c0e45de0b8c230 0x44005e0d7bb4433a37e352c3919dd93fec490c4a1f620534c867375dacdcdc57 0x31660efe037dfdac643f6ace647c2acf2382866cf97f1859176130182fb3b7a 0x5280d9c8b6f39fa59defa2d9294c497625205d5a4df67ff689d36b2ef5940311 0x8cd105244376c4e9b0a9658012646b17db66d7f042fe9d3f9c2710c0043cec0 (-0x2af9b678f9f02e9d122f12897c0f5baf3b8c786ea02040921bba206dad037ae4) 0x5c54a4a200e91bb26e46e4cc71ddc489b0b6e22aadbf62b8b36b9a1ac959bd72 (-0x4692590e1c54b0b57714c01b3870acfc1c46b5ca438cf9fb0d21fd55b5fb54c4);
  mkCert 0x1ef567bba47dce5409605c3327dd7f40048fbdc96fa1d3ca8185f0948b9b32e6 0x3c539652d52f1dbc51d21b0fb51a7e36eb21d9e550761463c3d43468523c33dc true 0x327a2a07ea904fa0792312a603d878948744a16401f1b1260f641beb3e2b32e2 0x5546147c8f4959f83d279053143101a34460a082fedfd4e5f64777c22e625c66 0x84479e893b856f76943e295d4e92dfb31577adfddf8600a3c2a561c793d847c 0x1f647f549daa9ceb7948c3e1212d67e7754e5952cb5e112482833404c2334843 0x308fb208f91692926bf97e4ec9abe396cef386293a40f9beb540d472709f6eeb (-0x41264f7d60fd89cd92b476a2966862aa61edf0a84f3d6636d5bc572e58794d27) (-0x135bd8d6779a1a07444dd4057f7bcb73b50a1163d59304570b702d53992431b1) 0x3093d9bc279ac2cb22eed27c9319fed81b42444f754d3cce7694a802210f554f;
  mkCert 0x137b4c3f7291c7e645b1eed6cea3d41f0a2591cc19a69ab160581b30687ec914 0x518e21e8aa87799095edf5a1a80f3fd5f1f6970e51be62165c15e7526200d65a true 0xf4dc572eb231d432b5fe378aa444b3fb114152ac86cca2d1f964077aa5bedd1 0x1245edf08b8b1da6d02f1767c46313eb3743667b9914af23f65240ebf097058e 0x3461c2c498eb1f9bec225230e83c6e55058bbd9fcd0e304b9266fa8b7f74bda 0x395fb2b2e76fbcd7b6fd8e120d4487448e00b0a5e6d31c0c3092875d05089321 0x15d7ebb9f69bddb790d668e2f24acffe3f8abc95ae50fdc367c61b687fe4a1c6 (-0x5197eb9ce9afcb33fc5299f766c572fc761db211270746b29b2cf7cda28f2910) (-0xe595cb078e41c05c0909d59d41ed0b8887da1dcfd283fc117c6025b809f6b30) (-0x1f2e14dceb06f348a51f9176eafa7e3f1efb5a28866f4ad419ede537f9af56c1);
  mkCert 0x506a4fce2594d31c091af8205e802a63194f94336743331d0b0bd85283560839 0x60ce5497f5f2244f41c2745e81916d0485a19afdf0c2d0077d297ee147fc3b46 true 0x3cfcebd4bad20c2e6a247af976b4c6aaeaed9fd5754a7f21bc07053f28a262c 0x2ff1413d9972c5a3c3d4b7799d6dd62bc91705ec6695ae6600143b157fbab2d 0x37c7fa48e401fbe2808e049b34837725615eaa24f11ff55a012d11d6531619f9 0x50d67d687e5196554beaa00567cadd4bfe5609d41031dc5e71359d4b533b9939 0x4dee36b77102d6f95ca35384706227a5a38c335b94a224d9ca36952ca6095b2 (-0x504e66ffb33cddbaea1097b02ac83ccf7e8ff8b0317b18a761d6d3a20d113768) (-0x116c7cdb98d4a59cccc2335960c04ce027c3a41f0dc4689be473f51dcf1acf7e6) (-0x351657bb4c9c21e29b41d4984a6568664d3e9d93fb63007cd9041b9b75e4b734);
  mkCert 0x2b0a11fe0214ca8f89b0893719b2d3c80637da15ab9d0816a7650ad55ff89707 0x5552ebeee6fcca035cdf29b0d99026c01fb05a556673904bdbb995e3a3496b72 true 0x3c446a821249ffc427f057d0cbc3f38625297ef418d9b68450f564d878548b6a 0x29f3a5b48a24cdf1bf2d1ff6a7e732b10de6f0760c390c9c211b208d42ab1000 0xffa8c57392962463843a4ae3ccd83a388225bc677b90e2bc0ef7f369c608daa 0x3ecc83ad75b49469f0a6ba874cbe04e1d52712d5a151b2b04e1998f636554568 0x7da2992fc19e163330362494c4f7e66af55ae7af596475de419902119b44350 (-0x16b686fea9b662f8a7b4bdb34551c96b55be1f8c02e29b07b0574989dd1e9034) (-0x3090067d33ea21a772fd9fe0cd832257942e63a90c0b45b609a21d3da1d20312) (-0x173a08238f30f21d6d0e46a71fce1274167674780dafe19c12fea3020d354355);
  mkCert 0x16030ee7cf67a9f4f7f4680d2933db53d4da4f61f9b9d286a28d732e0fc4acc1 0x72c819ec864e1fa42bcffa9444edf75d4f071252fe3c17ecdfb8a443e8c7f8d3 true 0x3087c4679728d4ae9a62de76aa8b44cfd5e0ba2e094262c5b5a4ff736f523fde 0x17ae997e91249ce07ea417f3fb4404ae0c89c28d47d9497a6b8c216129d13590 0x42df5940b60265ea26a581c65b618dd87d4e059626b06216d3bae64dec665d1 0x71a573da4df27f6e3ec4463a36958dd65cc2bdb67f60566772cfee5e5ff4a999 0xd121b945f7487de0f1ae750927c2a5fe1bdb43f47ad833701fa1ccfbe0b662d (-0x3311e8aa11d48273eb82fd12c489cd5e79ed50f4a04cb2b699c093e78ecd8486) (-0x94e9f3b33b991769232a9ae0b44bd06000f74ee5e97e0861b9114084648b02) (-0x4bff2f1b99700a4f62fa029163c18c09a1302187dc232d21cddda352c880aeec);
  mkCert 0x2c924cc062c25084fcb7f9f3f6a430532543d55ec34c65ef7243ac769b02d055 0x72ee3844ace0ef67310958b18de4a14d696799c5dfe6cdbdbccbadb5b2c5e4fc false 0x67bd3e609f62781109de53c59e374e37dcbaa34f452ad8666024075c8317c220 0x1a43a177d96294cf2f34672d93a16298533fd42a2b5a69f6aa0c4d540e3f7314 0x1122f8062bffd23d0fd8b9468d9cdcdcc151425ad4e346d0c55beb116a1df702 0x71f0fc0754fdd53924b328a299ba7b36a62df902ef8050c746193462942a969d 0xd05edb35b140c84d40e5ed0dde0c945e13e4a0fc5608c1ae38a8d4bcb308807 (-0x48ad9b7c884b7b9dd4af6c1117e381a8341d163b238acb276b215959f9e36fa3) 0x726147ec1727754fe12187a1724030d90b010836485b7ce59f8876cf89d56e2 (-0x8cd865c1f448861de1840b9cbfb8bc38696146b044e43d5dfc15f520219cd695);
  mkCert 0x3b246e3b2d6adb4c44066e337be5c619a5db7deed74e616c872ac3446157373d 0x44ff5678fe337fc95685e13cd8191109e49d1cdcea262849a727ed6582321641 false 0x152bf2811474d2f03bf59106494df8ee40fc48a41f3650e1c81e2d22eea4bca2 0x20e8ff749b7ff84b92d14a2676e51e8b8f5990e46d33f3d03f72d901ed8cc8c4 0x1e2c15107c4f5ac18ba044573d244205f0d15db751451b2374fdebec5b76f3c6 0x2910bdd4f0e7366cb5e9e89eca639d90228ec36846f176050c01aeac66345023 0x38a2142b0d7e7196c336bf87575f9b298c1e4a39085b8c8b34f1de2470fd54f (-0x1136f0d788c08db97a79b72b1cac47f51651ecf2224f20a376463c0adf060d1f) (-0x92fe94dee96bac7ca822ecdf8f28d9a52c5145bb387f1a2f0f67a448a458002a) (-0x33724bc15b25d3661a4562e87d76d14f37635afb730c0306c5db077ccdbecc8c);
  mkCert 0x15b8603963502ee41063f8ac0c4bf8abcafdf32a76b6ee4a10bbb2f059d5cb78 0x6d74d1e679be342b0c34739764fc3f92cc66a0d10420e759c9e2983705963090 true 0x39bb2d516aa3d2351e0f72bf6be748e7399ad69a8d0a5a2a386bc082d17daafb 0x221569feca613e0df079c45622b3d02ec1f64ab9db1a703cf91718eb6d24eee 0x411c95a41ef3429f5e371985c8c2c28d9e4eccb5fd2bd30983ab94249570f7f 0x67587bbde6adea88d0d7243e49b209f50e1e1ba8967be159d8300300ff4873af 0x34fc50b11d612eb4075b17ef49a00ea702a6165b50f65a0cdc581e246140844 (-0x44f0f000c80d887b6519044430b67f3170fefd5d677a4077a519f1f99f9d0e70) 0x866f36a8b20605b10c605b8f2818e9799b97f45749296fe06639785fc4aa8d8 (-0x480461bc40fb57e282dff8cfad819ebe110a26f23e5c3e53988dc042b64a1f29)].
Lemma certs_1_ok : forallb cert_ok certs_1 = true.
Proof. vm_compute. reflexivity. Qed.
Definition certs_2 : list Cert := [
  mkCert 0xf35c60bf844d11a9b59c41bffd2cddbad6bf3bdb9a98d5361a6e565cccff210 0x3febaab9ebba81d5b42a672b07bc6099b7d0409915c88bb390f8fb9f59c39287 false 0x56e44beb5627a54435413a1bdd5ad2a97cbaa77792654325510ea888cdd65d9e 0xe5b851d9d37b840434d59e8799f9a766e299834a26a37f476de765a82d74a68 0x1fedf26f657f240218519e6d5bf9be8f83b1936e65eb5b1b8e5420ea36e3ef6 0x233e9992c668da5f16a16daf924acdfc3851ff0f75408024fd68777cea69be5b 0x2edbe560640230e4e331ca46e77fe5e0ef04957cb95c23c1f247377252ebd934 (-0x5cdb2ec112776da38ccff070104f7b77c379446fd2bc30c3f1a8a6f6771e75) 0x372669acc1a3e52c64086d03ea9088c331861d470418835db73c45346c98e883 (-0x33bd23f1d8e7151cf76174dfb89f87905bb7905fe570c04cc36fb455b26b9660);
  mkCert 0x5041f34b1f0315ee5444371c7359d8b9d2603862317522cc1a3104bf1d344598 0x6afcc6ba9e779efe0d4f48f0f94315053b8e91d7c3a7595e5fd26fab8ca94842 true 0x2244568eada86fe728aeaf3452f22d5c499a9fc1340650d87e2c09266e300d66 0x16d005b1d478e445edd14efc73f627487beb49648b487655441ac0a107f3e15b 0x379009c2752514b7ff1c8dc8105729390e8ea35d4dc57ecaaa04a6a9179b1931 0x62bc6d7ef46eaf80bb9740d94b989779a82035fdfcee9c179e40828893b90f63 0x2e34247f1268bea5efe5ac1ecf625c64f590889becaa55a35bf22808a2f6afee (-0x1187d58a1613bcdd9907c0a223d6bb64f04b235ed2259840cff5842730262f12) (-0x10baf32dde0076f4e779375cb17746af23502f037cc59313ea729dc103c64ee9d) (-0x3fa9d05d17facb331e8d240eddae811431a3f7bdc26362fce145bcb7c30367dc);
  mkCert 0x2a03f98965860d41b57ff653a79d1cca5ad175e0d663162fac8c9c686f0a9524 0x71fd89e7c16fbaba042961b7660d7f2a2619286210e309e25c1596ec8f93c5d4 false 0x2a3b4778ee5424461daa447f5edc2a3be42262e6597a697f280f5b60c6ea0430 0x260be9fa39cd80bedbf5b53437e07370da4643319611237f3243bda6bc166009 0xf3a40aff7c41aa032a435d1d60c7e4b28d41e1543985e173dfdb588835b5768 0x7015b79b9e1f2059ab0f62c8e19711fdd84a504008896f88c485ab0478581198 0x2bf20d15a1c4296b084090a87f5d6ff62f7d8b2c2aea12c05f5e17103b63a05c (-0x3f70269acb23ba12d3ee62f262a728ac9a76c4817155ea8b219ce1089a62ee8d) (-0x3cc0d1f009c192197a1d2c2441d3ea55c65c12db68658ea88385270524ad1851) (-0x842f0f24ade638208285a3e4a2270efb7284e180d193b07e56ee6328f8df5924);
  mkCert 0x3d657e87e76c1451f4de5d3adc358d0f02a16c22eb7325bf532a8f94b0c3fc77 0x5800936d4382b4bb78762f324352ba2eb866714c89182af32497c0034e6b8ab9 true 0x947a215a06df9247739a5eddf2307672102a6bad35ef53107814b5812128b99 0x2453ce796944f19750f64f17bd14cb1e2ad7085e723ff40d5b2e520e952512aa 0x208418793b8bf372338b931d30627a676460984dc0b55e14ae1882b8a3413a3e 0x42cda56bdc699d20d58503be436038b43f7cf702a393df1d1d8bba027e972b6f 0x58b7f13df927f67d574e0cc7360b818a5c484e22ae795038db555a0a71ec058 (-0x550c9b4b51fa1e51a9a44fee04d906a9da264cb771b4290e1749c142ed904340) (-0xa1d65048d9ba7b5ec8c6a34b5c164c90e59a6d76750b1f5c5c7d5eda9db2fb25) (-0x1e43652c959fed9123ac94b217b20698207bb2c91b4bfa44f75b9d5c875b94bc);
  mkCert 0x4e6a29a68db24b64ea7a88557b014cc13ad7ea587cc275ab459f3003ffb14fe5 0x6b5df2623fbce54593f009d7927a8e29c60c213b0c119e6e9b0ccf3cb9125e5d true 0x66dee455981ba49b284c6b4419917daa4eeb8bf0f62ca4ce3edc800e9d7ad3bd 0x26d2e721dd5aa19d02aa4edfd50be490e05feddf80fcc08be0f0a8f8a267bb4 0x350a4c24e3a6e74466cf9124668d0b9d4fe7d9181360d63079abd29f20c73a32 0x6370193406c5400b248777ffeb83d4d65c3835a9788b993ccc4f1337e8d52564 0x7a28345258c7f1f32b22421a81046b5f082448b0c23ee372cceef84c96a9e6d (-0x1de12939345243eb390336a3cc48e52a8ecc97d3ff7681f3ac268fb72d6ad259) (-0xadead7c2fe50944a02cabcb9ea242fabb0e683ccece878a893a4de1b9eb894b5) (-0x44b1ea5f4ff683b65131d3c78a82801122f25305a1df4eb031a82230889d5330);
  mkCert 0x4346c2572310deb3bae7423ac8cba8880870074d9ceab22d9d12aca673e3f125 0x467f74dfb5b8bb256064cba1cecc054e5e636ffab820af6c75365e31ca5cfc0d false 0x1f3baf7c3ea23a642ce96d9872e7b49533304f7562999c3c84099caf244ff12f 0x281f374f4d35a98980bbb8570528b451416134cceb049268ad63ebe771ba9a8 0x270ad7532f3273868c64c3c52f27328e78458716f197418d634d3b781a841ac5 0x2adef289266b05e5d35b1cec6f9fa817aa1291e4fd2c4e08f1d362f42e78a585 0x99d46b1b6db057408439f3e1e66a7e41fe50bf4162da3867ac8d31e9e7e7185 (-0x21766297b0494d3695345069227f12514c0419a615d147fa4a2cb03fff94a86e) (-0xbacc06bab934a384be1f13145e0d0d277da43535afeebcb0e47f7b0af59be61d) (-0x3ef8239d057eb957fd037dead952eab6cde84101d7613a0aa59d217b073438ac);
  mkCert 0x135c5e1f68e4e8dd428479f7af24c4bb3b05797ef2422d065acc528d8f3edae4 0x464ad83a01bd7949fe425484ad6638ad8432e8d4f7c3ca0e8b46939dcc639628 true 0x47df72d5465c1ea7302759241fd50bd45ac3550cc0e2e2062a7d194b5bc4daae 0x694bef9e3cd45b1d7c94a51d70ecf978e0581b744f2aaf350cda564144f4fe76 0x33bbf2912194f3843dae700937df90f67f9f342bed882f316772982392cf9ad 0x2a9f0d69910320ad9acc90abcc55df4a3b2f153c58bb46dd60e7cdadf5b556e4 0x53ff995f01387a2246a5dd1051a798b5d2da4096b59c2d5336dcddc8fca96404 (-0x5318b4af1460db61a420e7aedea013f1908470642f1483d935eb1253e25b7184) 0x1c647e1a440c31065f7ba3c2d01d71fbae90f002997c893931269c16e93f46f3 0x491ccf8f6a0ab97bb7ae656c80fae5808f4ca7c2d64219f45d2d5337f797a107;
  mkCert 0x55a10117b0f6fb62365740a28436154d3fcb8d808271485779ecb7a53a6810a1 0x700f9f7ab819d7d25a09d6dc9c62e1648c7a4e986945473b8e64e6d89c5f4fe0 false 0x2b23b3717ecca9c4615d54260a588626bb843b32665c2291510041c4b1604100 0x1b3f9701361184282eb83d95ad58c041a460f86fd30adbc706a3809463e7c1a5 0x3f3fa88a05f3bf33d3b33bd7a2272e375afbd71a50e611a48257a0a29211faca 0x6c529e84b6e031f34994f73833391699e2c1430214f882348f916b432b777820 0x2661ccd52d63e76944a1364cca51950084ca65030d619bb8adc980c87ad1c391 (-0x52b165f1f3c5873b008f79e11139043ddb80b2fcbd5c90fec69d00265243b87d) (-0x12c30b0b443c514175b74b84fdf99ba4b1a728f05d3c8c4d8721c811586f59a46) (-0x85f3bc0f664744de409cc2527859bb9f59d3239065091edeecd265c847233534);
  mkCert 0xbb7a17eecf2f3b6e3fbef4aba8ec0ec4c8d7fba5e36b5df21ec7c202e56a421 0x55b5efa88adbbd9dc0f5ea85cb66cb8bf98a4c65ab1997053aeb4c44dfc4d7b4 true 0x164e87a05edc81ba38d51ab94292e7057eadfc1f986d4e0c6c122651565d0d49 0xbf1b29ba09904d2aadbf41ac43b870f615e6074db41f3e9530b6126e9457353 0x12f2f1099eb3917ea014018a993f469ce75af38a3cc562c746a224dfe9670a0 0x3f5e9862a99646977998e9a38c8fb5d827277c69efdd8beb5f55aa7aa24f5277 0x2dae350d746144674a4d38ad586e2abd9cc58657cfcf026be3db1099e1b1b1f1 (-0x5a0186cf5a735dcfb8c75c4ad64ef91314a9da83ab07cebc03052e435dbc1685) (-0x1a11b8d039ca6ef03473891b5716dabb2b48901744fb291867f864c0544fe75) (-0x25a3330776e7932fea111baaa01201240b0c5c9daf3c744bd4a479b84ae6541c);
  mkCert 0x433c8740ae66d63da8260680c238baa45fe78673f75d6e378db418c36845ebec 0x550ba4bc620739a8820abb5aba35c18e59112128c7653bc311af8ca7e9a59f62 true 0xcbea3e796398a0715433620f43f4019940213b6b836f4d2df2e621feef50c6f 0x2229f2ca96d538dd58bc86c6db0c974500323baa83632f5e76749ba0acdb32e 0x26fef85ed63cc9b8aa7af94b401646de2c8a9e795c2f720a8ec7ae02ad84b0cc 0x3e63c36bc0b5e57455e92760ae1737bda8f17e9f633dfa826373e2525a46013c 0x3e9c3fcd3732267bcf9664b1366d93e608071624cb8cb2a11d71df8e8721993 (-0x442d495943a13f66e0059e60c0f91f4022578a899235b777343214a4d27a75c8) (-0xc1942b6c019a6521a4aa7ac1db03beae57357fad6b47213bcbd540b2b01f0fb0) (-0x260a03dd87c2fbc11125d6a0ee00a18b567625d19cef84044e91ffdebd9d66b1);
  mkCert 0x6ebb41f882b5b63a463bd30ce539de07a407185cbea61b536f790439aa007782 0x3c53f3667c2d71b29768b020b48ea81980965593a39ba20347ddbe2d7ae82491 false 0x1eea2ad27bcc43f7bd664895ba9606459f8732822c9a26a9c9fda4b373061e6f 0x4c90920b2f91d90ca0458773a55c5c20231cdae3fa4fe195902c32f7e0ab66f6 0x69c4804460d9d9ce01fdf8791e66bf8344cdb492ee2b88c2e0307ee6767fa9aa 0x1f64e033a99b1500eec20df39ae0804bda7c6a2e2da12d447f7c37426e026d3e 0x3a19f622193b50aa9c9c4a4fc20cb680ffa3c881b7fc3b65a03f626747d10696 (-0x2710bf437b8947ac92c94b948205109f991c8e876098e62b9553572519c2b668) (-0x2089806e4af82f802087a7172d1ddfc0b4080c236c19030072e209c4d342061f4) 0x1ed76617ff0142947fcded8daaa4a347d363a392ec644d58861d1b714d067c8;
  mkCert 0x58755fa8ad0c3622a5b21f4a8af98fb56a810155418a3b8ecc2927bb338f1d98 0x5a38bce76764e0fd78328a8b442ba6878444190e5fa5d9e7704712ac8685431d false 0x70f1d522863cfc750c30ded69e4de1579223988fdd868cfc48e51b7f409ee8a 0x4e7cd8bbef336d11bcbfd62e9607a7305ff66c570951bc8ef39da8912dc14653 0x437f6e2b656dd1be456d7d2dd1ece003d753cc379fd25f5bc4382b175feb3816 0x46371e00ca0149d4ebd327ff174dc0ee34d26e9abb179717496f2a97a821861b 0x29407fcee3b7988c09213694d6f0374149c12398d00c1fc7aa18bb54f99885a3 (-0x564c284377f43bf997d15d5bc5fe09f9aba73731af06ddf731efa42f01e446e4) (-0x1510f1d2d6bf9d9c36357ace007f673a5dcafb1ffeb5f6dbcf32c2dc67c3210dd) (-0x2ade0196044eec7f76c99d0b570f63fb2a34d8f39aa1e1e896e553a59d122783);
  mkCert 0x49f4ce81f67c70a39d61bdf0a7f5e234ba051a22425f240928aa1fa0bb2da37c 0x4a0fcf11b952c09c729072ff5539321ac42eaaa4b7355a8309407390986cefd8 true 0x596d4d98055bd4528a92d09926bf8219aea6c9711056b4856ae0a8638d92afd0 0x2c6cdf88b11a21764afb9a88da5f7e74b7a66b878469368b619658ebb7c8a640 0x2f2e268ab5e415bf8de9ef7b87c906193811cbd34112b0eb52df21ad908c0b63 0x2f50a08b49e50512cdc81c140114370c5fda206ced1be4afae4b851d189a58b0 0x1df15d3374e41cf6726a618feee1b932950476ff45afbc92a69e55b55dbca0 (-0x3ce209633465fcd41af3d2ea1b607176823413df08b1a487df48422243cea7a2) (-0xa6eae385f09b77b7629382e8daeec36ca0ab83e0c7535452006e3e9b0ffdab51) (-0x91e818906c443f4cf0ade4f5b81a6ec4bd968b7c126260567560352d4cd29bd);
  mkCert 0x704073de3a913284db276a2d6e7684d5f354f544a4cb010aaac22de250a2b0da 0x577e90fdc8c761058c34b62f95a2ff15a7d11c5632a16c71d62348b336c367f9 true 0x4c2c7445cdd36517e0dd181cc9fa04acb77e334a7b06697d4ed146f2235a6dc4 0xec7be009384f0ba8be64cf1c11df3a9b3dd58a08d84fb8b2ddbbfc40874252a 0x6cb119d9c0075cd74e04730056d54056546cd1a5c552541b10c48ff0cc16f2ac 0x4208d539b728a6ddf7f6c77c8c22460f0144ccf4809f24c8b31f62db6838930d 0xd958efb6b06c3b634ce59c29a25872a15015dce976e3b3fdb2d2c8f4d7ec2a5 (-0x4ea51bcc93cb244d76eb9be027d5161e5e39c6980cb04f7cea63e02710ea92f2) (-0x1ed683cc7d678c7d84d8436d953550b77a7ad233f62f6722b09c437c6d185e225) (-0x27238851a263c6ef939291ba16e53f552e68cf532dda47255acc3dcfe150efbc);
  mkCert 0x82b13ea0d8ee7b81bdf4652ea5075ecf0df43946ab4f20746a6429cdb23b8d2 0x4a01e8ad83c8f22e65b14b682eb48cb15ce900d2e62ee0219a559a001b314134 false 0xa762536b8017f98fde21aad635f45d47f8fb5c620cb3d14784934ec07f33f14 0x6c1ad2c920773a295f57004d05f575b0de77a17988f3138845b6b822ad904e90 0x93562f45669633f6c8d801179e9072b00b2b4b9a3d3d1ee1d1b501eb296cf7 0x2f3edf98b180347816aa8c15021f0354c602128030cab3e9420fcb2c0b65d79b 0x60f78d1cb822c2e70af44036ef2bc91e1ae180ee869bdda5be09a764a8059a3a (-0x2a8f6f41ff1b38f3ed0f2d077890733d0512b18904ea5caa04d31ace89cd88ee) (-0x1ef012022ba77c7bb6a0e427822299e57e63b5292e99de078d09a01dec1e3c5) 0x20685f49d5d294a01413fc19eb4c7efcb85e66d91310dadcfb5f05bd4794454b;
  mkCert 0x59f757e82c95b58e8a2fe4a785833ff56d9e31018d1f30d693fdfadc99f3c0f4 0x565d2b9d5c3f65ab8d5433be16dc3ee9dbbec95c52b0a0614901c1ff08969a15 true 0x1b465f47d061493d3a8cb7ec7c85a0b5b9e5c9e83f8aa01716ecc81dbe36cfab 0x5ce0ad386805f80e7b90d77b8e4cceee24d662b11522a6da47ce2677bc4807c0 0x45d17969a2636390c96a5bb57866c51599954ef8edd6a767d9b16ce8faa39460 0x4056d2fcd4701d6aeb997f4d73d7c3a7359fba457e80c96bcea4cd20c83551ee 0x1d6f30b8fbeb5cb5e48d2af9f22a486fe59c198a23ade0a4240fe1e6a742fde (-0xd7705069823f664c99033bf816489a966880b37b1ab8ee1a5f642ac8dd5bc44) (-0x156ac9a448d8ffead076ea46267b7ec8df4cae5743b9429684288426592a88e98) 0x22c25ddbfe55b5975be0a9ee8c89f8c55000a779ee259ce896f27ae4aba66860;
  mkCert 0x42de618b236c4c21f07c16925ca48e8e87bc3a865523314e6f1634d494ab5764 0x700faed36810e5d714d5c87d15f53ece7e6521f7d333a3247c85bc50879fb854 false 0x48322042c88013da53df9afdaebb7e8fae72e705f2cc9f05be035136cc3df60d 0x15d693413500cd9194e6ed8d9bc20a573d440e075c8f66fa12e8e791d99151ff 0x26920fad0ee126957ba2376d2f68b54b7ac6017bb1751b03d13f0618680ac57a 0x6c52bc2ffaad1eebd14779d02749cb337677212a6108d9bae7a5a76e1c327460 0x10d290cb1fc547a5e4d431ced6036dbe13632f674b10afab39458cc8f9c4ea00 (-0x26b6834cf2de57eb085e0b1f59acc4bebf5371a2610e446cef8d678219bb999f) (-0x93e4555ff78e4cfcea6fbdc5b3179e4b8455cde7710508bc0f696ac78c729ea8) (-0x883e5021d47629f62a89e084a6ee4731352e8bd26d819f79ae2041a13a130474);
  mkCert 0xd9bd9c659fd684267dce3a3c610a38668de6499d0dd63329ea9358981c4cd40 0x3bfc977fba97ea39fc73786a82f4feaa10d3a90214e264a31c2821edcf31d13b true 0x681e50ca3ccdfbef22ed68b1aa2d4c0fd1d69b4d0e7d244835d181c3a4273c4d 0x6ea2323a0b24577765880c3c81790b50e0d84a54d07b986c9ec5055681635431 0x198f7d9c0771ce56815fc7deb860f1d48bf8032b89911f292831bbd2bb9febb 0x1f0a3622c8ea79027472965584ef3d207dc425b32356f9a780f538744da00a3b 0x25d83b58ce269230cbc7633878b00a5c17093926b467ccdfb6c7803a0925617 (-0x2b45fa3591a0122baf535f26c28fbfa4d6d00e9039d95f3de07f014407268fd5) 0x558621c17c43c8ca0cf0ce23e94b320c3f8d6f21b3f95c0422db9280ecdc5f28 0x5bb04c0553f64a3cb1df9d8fcf5892154cfa0b7c2dd16925a5035e7ecce5b375;
  mkCert 0x1a2cd1578aa271af75dcc5c6e3ba9f9689a53a337966aacc80fdb0627611b00d 0x4b2e61f8656748562b875d43700ea4728e0b77887e373e5ac45fe5fb68d37fad false 0x1808451b4b369f792a281a642d6ef084d3a852832c3c06c1762a9c797de281e5 0x69f7375e5fff5741f73212dbbcc6838b37c6c2072760ec6de9e0588b2f4a47c1 0x5e8f483b1083463a9509d0d70d10f627208e938bbffc2be65a8e03c6cdfc2d5 0x30c18deaa876327855c966df409828efa886fc29b06921bcfadb7dae22d7982d 0x7bc797d32689290019781801913a22575824c6c1f19475d79240513f2e8e056 (-0x2d0c8f9847f55c2c18c83b0c688132748a10eb18ce0f35c1e568f2660b223c9f) (-0x1891641667ac5cd8e201350b79085bc680677826c4a4bdd27514ce13f5becc75) 0x1a9c9968756567155ad6a3e6edbaf56c023cfaf7aa4e0a1549f718c558052b95;
  mkCert 0x44f1df3e8f6b83456028cd92869b0ea08f88933583adec4f039e31d7c370b0e8 0x43d2cbac74ff10f5752b6d742e4b9aacee15ce2a2598c6d9cf55519febb848a3 false 0x14674d16c553a8fc5928cdf4843fea46867b0b00cb71f22fcd3f7d1832f4eb5f 0x42d7c7a09d37afc25d105ccd51a4bf63ea7bd9b5206418f2eaa163390102384a 0x2900b8006b9c815ea9e0fea10d8b3323ba574d6f7f2d090a89cdd2c817203083 0x27ae09314001b6d8d51feca792cbc6ebc9f055adc868aa037e8dcb74bffd201d 0x6c356c1c929e68ce6a35c0945cdebf439bb5b61bff5be1e86c1e558ec02e014 (-0x566f16fbd2143083a86a0a262b46089def0b9a5d9c98f5e43efb1450888255e) (-0xc96c496a9ceafb5ca914d3bc34b9d27b8e09d14158cd69022d0437ece8bf8e00) (-0x1486f2a0b1227d3989f6463c757798b5bbb8ef32edaf982188d0a3619902e05c);
  mkCert 0x19c775e0a3b031512de26fd92f39f2a63d47ca3fff1a060585e0bc1b7ffea14f 0x43196c1994e7204250ee14a19de9a021b868c54d68d5d7e01dc63e96dfcfc8ae false 0x15c593dd1fe0b8f57bdf792d0ba7b841f0e26e0c61ad6fa7dd3fe7305d48104d 0x292e4f2e32de67fc36afc7eab4e22dc04b692d8b4e2445d30afafb0fe5ab44d0 0x5bb87f34b52301945a56d80f33df9e297f07b7f92d2da4f3376e8fe2855c2e2 0x26d64a36b1865b3bed071be1b7ed760a9a8693e98a407b17a15ac1acd4f28b00 0x1a35be4d37ceec40840dfec2bb45c7895efb9a477d5539c66b27c2029c43cfb (-0x5e55420a7f54cf08841a7644098f697de9bd3966b5c4fcc2a41a0a5eeefd1f5f) (-0x1892ea7be7f52db0b440a734af37d7710fcb2c546ea05f0a31bf85a243b098bd) (-0x2b63be3f0ea6d13ac1bef3e78abeae2fcba14d1fc6473c10003b386ad505b395);
  mkCert 0x64997ad62e83800f29e86a15edbebe433e371315089be903af5165dc531ba638 0x5f09d7d9f19e4edee8a8a85c84bbc64744995fdf8aa9af6936f6d70129d6e7db true 0x61992fb3f177ad3257e02701bb3713ffdef1651bcf4cf58e368e8214593e6756 0x5e6b9c326fc019c678f04d126bc935a161ba6ed6a2af096fc6d648abe5ed0772 0x574c2f9e9883ba987c2fb6aeb1a0efdbbe2ac1ee0e06fa8f250ba15b65844b0f 0x4de9b08d38558051768d92c02884556d4fc2e212a196e32396de0b83cd9f0bf4 0x3f7252daf0af7ca96fd81576b48f10502e6bfe5cae2a2c2440b8e7b1ecdd11a1 (-0x45587e626eb119611d236b6cc69d8aab3a616fb87b00acb2aa8c1e53033cb7fd) (-0x16252438ef00c24b77349209ecfb544dbe3bdb01691d2a722299530f4f7510c5d) 0x1a286018e5bbd32c8039c3e08416660afa2817a72fdb7bf7a0ae01cd84bda3d8;
  mkCert 0x11f9d0075c0d68028efa5d4ee44931902aae502993f87dc33b795a6951334f81 0x48ba229c516f7d44f1f299c00625dce7f66b2e401e155faed229629bf3490498 true 0x25067d9684ad40ac4d33938b771496d0c2114f38190da741dcaf92058962382d 0x2551834d2f5300a86bc7a5a42d565d57b11d99b2acf5a08e21b78d6c4065c15b 0x2c98e6f7312b2f4f1ea58dc9c70a1a11d25c12cd9d8cfc0e3fa83b964aaf408 0x2d9fffb099b8662eaaf00021cc79dbd5297a3ec7eca053b5ada4db60c027b64d 0x3d744cdfc931a8276ca4065ca2822ebbd0c1030944af27068463e731287ae93e (-0x17ae7e1839a5b44f9c63b4f66c39983ce7c4295661c8e1605776f28a53bab916) (-0x21c87418af5882a71af7915f3432e948c38b4858ed4a6b400f7ff9fcfaaa31d) (-0xcd26bd78cacb0eeda15fb2ebc136b5dcecc0810de0e834867eea2357ece64e4);
  mkCert 0xa3595d5c1768c6b9ebf58d0812486a7a2b6ee3ba09a7451c2640d870f0fdd44 0x5cc3f39a02667c4f0b058198011007b1b591b44d2599d2c34fe2eac58a4cce0f false 0xac610757d76ca28bdd7adb5133fcc5d15281260dda8fd13939fd387808b1c17 0x25c748325c8fb2606c8e60f77ba535a65b39ef899b668ccbb3e46da588a8632d 0xe62ada17cb330ca1a7db1c6c85f9d997138ebc2fa49a55332ba70f8dbe2b81 0x4a3b067cda71e033b9b070d10871b6b4104f5ff3938eef6e7aed2f50315e86bc 0x5a4ce1601c2b582c9b1d6992f5fff8878c1300c9e26ad3ac3bba83b9f22156c (-0x1fc9709b51da9b6bdde10dcd41cd8b0a60e6f18c962ea3640ca25f8151b69c80) (-0x37e84d5fcfd904e138335e9afd60efc5c46b43794cef77265f21377b6015840) (-0x587000a1ea50ea6833570fda8282b34f64260a4298f069e74499a77fdab007d7);
  mkCert 0x514533b154241b9a8aa569dcdaf0ea0c47a202e84379f0f96f0ed2b0737ab974 0x68dcf668573bb9b8f17ba79f1ed182c339c8e6aa8ed6fbeccc31abf376bd4da6 false 0x36099f0442c0722c283e8e1d09133842b7d7134b0a050b7344e1451b1b1450dd 0x6f6fae9d183f2a46ee19d3073f00c4d97f11142b83124693377f4a24d4ac8b85 0x38f943b509da97d3333d0851fbe45a44441d9372f194d41d6e36cfe3e620a946 0x5edaa5dcdd499ad27d1019edb8d167454629a6fb9feb52c00fa98b4d3b4efbb0 0x29dae0ed9eeb876cf1a2635d85f9e1ed58cd663f415a119380101a3d6f784ff2 (-0xab75e3c15b25881bf76b0da9bd89d49ed455bf49973a5461c483095c0ef8bd9) (-0x103ae114a322274e10949567757598792b4afee008ab949befe2df5802a797008) (-0x11b65355cb12b1c87df88ff07314e1e90d9708b8b3b30fef8c49c46c194a266c);
  mkCert 0x40311eddca1cf52fffcb576facdd6782c14177b84f4c1fa2cd5153651cf3eb58 0x66d3a4ba08cf091e3bbfddb4d8459ece8b49912fe69926f8e0f2e64aaab08a58 false 0x4d0d7129a512f10c03f6ca9982fd6dd63016ea6b30857e1ad9d09fe52ee45abf 0x17c4752c9afe544e10798e3e52a9bcb1b50c4b260b0f09ec8d69d4b98630ef8e 0x238b5a69e4a341182fdf799ead1da937b67d6e7379128000a4afc558f4901168 0x5b34af8721c2d52ca3fefbdf61e114ae6e54898f36cc0e352344344b1bef7db2 0xe14121015b20a334a1493f4d97f5c6cdd7a6f5851052734fa26165f82dc8451 (-0x9192c3157dcadcacb4f4284a3ef0af931710123cb3415ffc4271a1d5afda744) (-0x7e821ff592b658263568287211ca1186cf1ca0c975b2d3c698a5395efeb28cc0) (-0x73ba2f2f7a77ef5444128522a20b0180f386004a709e25d0e2a553ef5115c999);
  mkCert 0x11047e6ebd4657d9d97bf6310bcfdf0f16bcdfa71a9a8423e274954ca3b2ecd7 0x6612f7346e968a84bff3dc4af5ec4a7be4577a563e89c9b0b97c9884839ba5cc true 0x35eef602e8a0bea326e601b3936d86cb5138b4938603d94084832b9eabba2835 0x1738e862700c8ae84e2364d570d02dd0e9eedcd6606dae296a4abbc828e5ad7 0x27f818c332dfa758b7962dae41172b27cb2e1808b2d5fe36b28471f10aa4783 0x59e021bcda59a2f08026460d275a7b25d82c15b57d8fe29c282c4c43766d53a0 0x2bab25474fc3c87d9f88f8ca2de950df3895ac715c74366c87340cfb139e197 (-0x4acdb17c4c3e027af064f6df70e2678eede57dc2a7e4a02054f5b137f0185ef6) 0xc99e4f863730e291bc2959ed14cad4e101563f0557b1eaf5e4d871440d70c23 (-0x3cada2e29a168eb027e6f1912472e90acb667d305a8b444dbee1b13d2595b124);
  mkCert 0xe54bd8008eb33ffb2d6a9aa3a1f217d08df20808af35d151f5747b5b661c8ad 0x66f9bfb17bf9f07c2e82d9ad832ea72985352152e1b7a0209576a92c13a7dbfd true 0x179b1f5e708cbe529ef3790260337bece080a6f847eb792949b937a475a1a8c3 0x677bcc95b7261a2d43e1d2854b02b919eb002b7dd3cfebba82b0245a3a54c4fd 0x1c5873cb9e22f430c2a318d6ef27adbecf332dd67269c5d4c646945dbac7539 0x5b785513dbffcca8cb4fe1992e9aaf8513cecc0c8f09982644eb8156c55cf8b7 0x1f805e87a0e4f54d5c0d721283f2fd62e4546d463bfc466b1cd1ab938aea1fc5 (-0x4585973ab4652eff72183fd6298d60941d6cf9d358537901a7594dd212b9bcfc) (-0x40d1bc1b7d4f2f9ce32d798131387be0df89efd6ce45bdc9d84b46d6b855405) 0x1e576cd847497006f97313f71d0500813c162786f86be66e0ee2b1a29a98d4c9;
  mkCert 0x186ff1f38c263535fd7940840b201dba030244c365673265207fca9dfb28e70a 0x3ab859305e9641d09d359e14ad04867e25bf360dc192ba5fb3a465e123f75f98 false 0xf68e0497596927179599d69b8e4c58131165ae3f186c2b36150c683927f4bd1 0x5693ad351544e88eb06f674708c96c5350512aeb6c71caf26e88e8db9da20cc1 0x526bb337c99f049321b423d981a52010f6e4242368966fe0d43d80acb020ab0 0x1dbe3268486e45ae90216d9735f8c819e89a3c2c1a221ca5937f31b026c64c31 0x501468679c90cfcc0b8fefca823c1e4399f8867c96c4ce0832aae827ce4ce30 (-0x1fe490ff090e83467bea38f613ff1a90d4e5ac36219b3b34de8b9cab2696727a) (-0x17b5497d435c463426388b2e9aea312c6daab050bdd7bb2a05e6c4ec6a5d1d54) 0x1220c400832d508a0fa0fdb9c345fdc4b0868e2abee9d5b55d91d675bbfb87a4;
  mkCert 0x1c63798cac808e95eaab13c948ff9467f157e05c61d676f98c4628d4010e4f43 0x3ffec87cc9175bf978ff0dd8d46c3a4338d6d34cd43084f4f7ad8f032cd6765d false 0x4cc91ca445b044b854ec0d1089f0fa40efe515d46a6dfd14a25b1bd1425e6130 0x1e14341dc9d4dd2c5f192f35cfbf6340b2fcad404d9ea91c57a1ddafb824e46d 0x6f3a973966ab14b5e12812637da7431f413c60f7d8e18c40c2d96d275b0ee78 0x2353b15ed1caa5ad4471e3a876dd7e1f507e2f319c1c545add93e67a08b9bef3 0x4e60303c16a62166ce7317bb1c823fa8a6a41c1c2fb8640e4a3e9cfad047494 (-0x51dc2bcd808d48847a6dd18b4b82f75270ae4181c5b664b30d435c9f3aae87ae) 0x1019a818411c47c767fa528d32eb3a0864fdd632a6f904dec52a46a9d2cd4f52 (-0x2dd0ffb968ee97122f33cf17027098b8679623e019587ac01aa2148f35a15a03);
  mkCert 0x50ef869e219a20f9a9d240200dbaa9aa711d2872863d953d03ee5f5200a8ca23 0x4b6fa2a366fdbf14f13083b878d8d74d8f355e29e3b95db4202708fa3e1367d7 false 0x568970a5321e561216b6e6af5fc1dab095d17309ca77019f9eb610e206d577ca 0x4c5c40269e0876c4d86398574d4de27aa2052ad6f5529c801f2e7789fdb21e2e 0x388163213d2a70350da953ac232fc1fb0c05b4bef2cd2b8883d90bc093da119a 0x31165513d4228d6006301ef24d57ff2ba8dfda1fe6c2c1cb7a43e291e3bbc4e3 0x53cf1995ae63347b248ae7b21537e7772e68973eac694854ee6e62de453394f2 (-0x5839cf8bdbff1a46038182dc4839e00dbf9621da5b237576d70b58ee4f819e3e) (-0xd9ee160facecb2bb49f7f2801a5d451b61daf9d1de5ea2b7046aead19d86d88a) (-0x145aa25a886a0c16d6d0a54544344275a09be40a4f7f56255e312829064e321c);
  mkCert 0x2f6f129bea8c428c916349ef17a1dc45f57e7b676d47064c1cb523f861bc74b8 0x6fef31625dc855c9fd2229e0fa8a52b8c1de7157716e59d30f3157538efb879c true 0x27b5ce1735ec878a3d77b93018a2d37573286e925fe8a0f92138d9588027ea0 0x7052ac2dbffcfd3d4b992bd057ed43ea9311305ce50b619aea0ae5588ae1fb5d 0x136886d5dde9636280d0e30f8d352a512113f362cec1b53669472427761438b3 0x6c13f54e9f8afa729099135e03e5503a08fb56b39474f9a15808387c2b0acc52 0x1a96f99072dbe967bc292215029427b0be7d78502cba1d1a0e41cab0a9b5cc1a (-0x5c48c1be476f47086911ab1401264373424dcf41c827cf5502fde80129ce6558) (-0x60fd07f98efd7756b68be79010f5c8e774f265dca40eec53328c32dc28327141) 0x20bfdca953b4b0343d48d3b16fbc94479a8a85edccb8fd7b52aa21d726c69ef4].
Lemma certs_2_ok : forallb cert_ok certs_2 = true.
Proof. vm_compute. reflexivity. Qed.
Definition certs_3 : list Cert := [
  mkCert 0x3709e17535d5dd41f041229b56e7fdc9c2e46ce702ee0892b18ba76ee6a176a3 0x4d5614dd99411a3bdb3bf834393a8451db2efb7ce1134e51c131f6cd303894e8 false 0x653204fa8c24f46e5b8e71b8aeb90338738fdc3edb697a02309b03fa22817643 0x49ec214c2750493549e3bc5ba627decf1c6d4f89d760735bda48a17181670c37 0x1a215e22b2d53b92ae5701ea21a53a190aa96bdc574c375618d13873905c4a78 0x339761212ad755e8aedacfdf61a61444d54a10ec1d4d68d9086e4788dd509e4e 0x22f9a867ed0ad424de8b0641eb4b0061f78f02c42b63e2f7e938580694314388 (-0x4aa09489ff5b4a5e6695fdfda1d5d7c8c5655690af8f138e0294e8d10cd3fdaa) (-0x2a5120fe0095133e2fb1810c908258f94cf31b4d0cc6f8692a120d1b71db8565) (-0x1a8fcfa4e494be484bbde8607b9f2de9588dfd14cab8cee30f54a6c0b3f2c46c);
  mkCert 0x2dad0ccbbe224037d85bb2e50b5b247d004d5871d6cfb5ff483cce0e0eff434d 0x53b0e3253fabfd9541dcff2a2c47f005e795c59a4abbfd35e0b8fbcd5160043a true 0x2ff4d9bab589600108e57009daad4e6f79e32e4bafb9248b0136c2074f04e73e 0x271b5f965df4dae59abca37d2d414c9a15451b391f848c0b347cc432781a0081 0x11ff1549650c3ea5f1f7f4105e85fca3712c0a3a1bf74a9a79f8b11721bb9396 0x3c6b0d2ba81751539dbb73b004ce51bc12d28cfe0ee82fe4fba2a6fa857ef4ca 0x48b52682c8211b3fc9f2ba0b4ab7b204934a4b8212f84f32854f8611ef2e2552 (-0x8e0b5a12c190af8af1d2d84d0a4c82377e48afeaebd19b4b5045c129c35628a) (-0x4624cfbd9c1c08523ceb92f77f82c50c8cfa1ce0f3edced7395e5e2386a406ca) (-0x174d49b7762e3c7a725b8c83bf6bffe6cd06cbd1a875a394a6a6354f25a11bc4);
  mkCert 0x428b6a319e20a7f027e899214b0f2489104bfb9d83be70f69dc21f1e870ff9e3 0x593c7ef3512951842ded3b05292aca3b64e307677b990308f63818bdf02650f5 true 0x58b0264ce9e278c9ce7c8ad43a78860bc8ebf80b278af6c9df7cfbfafc2f3fbb 0x5df39e480e17d5be75df4f8c855f4155bf488d1be165f096a03ea2746c74aae7 0x263294e4e719ae56022c5c8a198f22be00ad51822a4931ccce69bc7776698b32 0x44b0a508067ea4286a59683c77f0525cf982569b7127449656f39aee436d74f6 0x2c105be0de97909a4c9a9765558cb8c150af7162b26c3c66e81ef250427afe39 (-0xde991ab88a87222718f3d7bdc243f57639ffebc50e464bdaeec8467f1d12145) (-0x7b23a9fbf3640605ad57ceffa0f7fc4aeff9078051967e9fc5140d2ba21349d5) 0x20f5d772de14d263d4c582c8e30fe46237452e20f97e2d1330e8bb82ba220851;
  mkCert 0x50c8d9c558e9acdbb229eca58537e60f1d9844a7b0259b55015dfca8b9f8dfa 0x6b16e10de5aa5e59a0cbb4289bbc0d3e275de486fcbde6937957c0a66a88abb5 false 0x3fc63a18cd4323f533a52d0aea16030acc4e42fcecf4ab17695cad55380700d0 0x1da8f40f401b484f81e5b53fadf3ebf7a25fd7571e7d9b15aff990e050215444 0x384b6f6e940b59fddd36138a9e9adb4e038354506ff7afba9a9348869e56d5 0x62eca147d0a55426ee020a142565ba2a3a83011fe5ac04e905320cdf7d9c9347 0x16dfee620f2fba359edb33a10e10d626168739706c398f8bd8825d036b5a39 (-0x3412f262a6182b786c5c1a01c8dd4baf005add725f4e9a4a71b10c2f23b4532d) 0x21fbe2f0ed601cbb54ac637cd9fb6b121c6da2898b9c18026ae3603346f1f04b (-0x79f2db7d560f9c95798340e33b1b0699c07dac1c01c6dc09302a9e3ea925d75c);
  mkCert 0x64ee46fee1b11aacba3b5721d0e38f14d5bcf9c86532b0cf768427e6da0ff6ce 0x65ecca8dc7a016122c16900a0eff4172521651bb585fcd0e792dea717ae2daf9 false 0x4d550489721a39de22cdaeb8c62272fca926c6b809af3abb41553895f890db6 0x1aa0ada7255e1a29290b2bffb49be299b3eba2837bd4ae3a0ab5d3adb09ccae6 0x57df992c83625c51da84c8ba0195b1e01874cc20e5bedd3e9395969ae5a3c45c 0x599cf4ce9fb6daec9e358ebf2576dfe2195db377fa759d0c7503eed6e3f61515 0x1af320f7e60778094d70caa57d715772796cadbde72b89fe51701a4e405a9e8 (-0x46a21237ef2be2e3a5cc18f032240c9e5d91876ecf546474779383d8a86ded35) (-0x1b72a67e8c51aa786eaa3fb0a6d15b53cb67d65eb1eba72207e1e428cb8dec771) (-0x70a2290faf730338751a16298119bab70400b9770a0a15da48449c2eca435db8);
  mkCert 0x1d11c158db20f0b7644dd6a763d0e3d87e14d12ed0e55f14f9e2d42076d482d9 0x40692f5d10548348c848a07bfa947abf2e376493685feb11504197a7b2c72a7d true 0x1d7306f5fee361fef3e2f833e963590ce37b258cec7c2c23c23b012e3da822aa 0x55a285d27701a747c90d41a9f9637c99b5f9675c89ae0ded48b30c944b14107d 0x74a0a8580ba3518dade8ff25b3131662f759d3883bbbc6b1700cf0f6a24df64 0x23c98c110468c5ccb5a506cd5a55ae833f63ecc7ca918ff8f87308b58716499a 0x2a7426e0a691604a8c87268e7acad897cc09d85ad4d41b1a1a513722f6b6fe0d (-0x2f274bd5109c3c1de8d60636c320e5b8d7349719af02148ac294daad30b53d2d) (-0x1cf7102b1d485198e94888d94d5bc410875de9aec70e939eb46c2f34979bf2d2) 0x2de1fb5ca5f3c4091233f94e3925262c47c9f8463a7ba675b8ea4f44e02551c9;
  mkCert 0x23ceda31ed151ec91f00e95ed850f2df286cc3c27b3fe21cdacecf7250f6a154 0x6e626f5cdc72dd26b30c41f763845f946a2ef9c6d9b34c217f74f8423150e073 false 0x47c40d6b73986c82265c8a8bf32156def4872b6b01febffe5c9404462eea1afd 0x2a78a904c7b188edf4d7b21071da6714fc5811fee32b4a47395b94e61100371e 0xb0f768eafa4b5e7b9feffa7b94998542d6acb11d8e8f5a5535af6f6b6374a9e 0x691b15c489f30808d92083b0393fb90d0e9b9b93ffc8180a321f637a0f03bdc2 0x150abfb04629cb3865a3a8cb718579c4b1ee5b07ee8be4472f347e0e8bd70457 (-0x16264043587eb587a2fb23040b2ec9703c45ae42aa1f17e0725566a50a739d25) (-0xae008b60cd664a4539260aad9a297554cc4a616d7be9d0132e4cfde7a2973c8) (-0x7919ccaf085e6063ffe0713e772ad1634e70feb9068dec18105317b8d5c43b7c);
  mkCert 0x48ee49b3077c39d7e04a06865e2bc8bbf101a52dd1f8a2ebf8681e046f685c30 0x7135168d1c57898bf4b08cf6ee8709a97bb2b8c55af20c12c793ceaaac8199f9 false 0x1051248c8ec91c1d8814a3dce2e1325628a1349ca6f8e843c8521eb5eeefd602 0x7283447af57fc4a19ba18ca3c2024d5cf7a6c89138df1880fb4aa79f17ba665d 0x2de186a2d840763e3c10ccdd669c0faa3b9d5ef9c901e5d48610f2efb2c64973 0x6e8cdf2700408027e3371dabe2221455480f8fb22506d1590861b2cec74031f7 0x2c3edc44f87a4f3afa98b2aac854ee487e44afad19b49567575b278957f2a5d5 (-0x48eb965936b53cd5553677af75ed46661fb73263b630a63b42ccc01c219ac3b3) (-0xe31bb1e72b921bffc83780fbc1350358230e7b8d24a8feb04282677b465954fd) (-0x1dcc2668071eaf59e3b951a91bc8eefa772ebe98420cd105e516f0f5c09ca693);
  mkCert 0x4ca1e6d31c2a710748b5ad3ae23d84b3ecd5c27d1f3bdcbe696c87327b0dffde 0x6eb3a1e9734ab6f1c6e00e0979348df4130248b0cf2c9d690f85c2458ee88bf4 true 0x3a5e1f001e54973a11392447309b5303a43f66e9347ea1ed0a9cd5f195469eae 0x3132186bcfbe854a06ca9585b12919474c2a8fabbc15ea0f33d5044530ea6c1c 0x32a813703138c67f50754c1d5e1cc983d332e735bee35aa3a37862daad727a8e 0x69b5efaa637c29e4a05bae8073220fc2bea969a1dce001e163148610a7010d2d 0x12b58bdb117bbb358f37003e711950e1cdae08a9afe66d8a6c8c6a99161e2660 (-0x3a55f1e3933b08921623c807b288a48bda94571ec71e04fd0b3e2188a1e3507a) (-0xdfe54ffc2165f4fc7e8960c53b4abc18aff23ece16147b7544b9f94bdbe4d851) (-0x3530408cc7bee5bdfdc8a2cf9ad69be06fda5d8c01a0b68c5e4076b64b7abc75);
  mkCert 0xa27d824c94b8fb319463a65039e5d52088de414854a509b87f0b605160c18aa 0x5987e667cfeab703ae0d0ee64cfa320905228ee68197a9e52df3e1b2e5f8b7b0 true 0x1e7c646d6a7f6d8ea12a028d969d96ee01e49162927c06df8659f9612f109f40 0x4efb11199bfc6c3878c57431aa03dfa3fabdb6573719d672e241e2733885310 0xe3c0e77f84e2f1a251ca4dab7115456e14fd70de8764ed70b7489a422dfb89 0x4524ebe7a23e36fd8f0bfed9fc492c9b9ba61f5f6f56595317264a8cb2099d9b 0xb51aa6fd50ea90b927d86c8bdf1ba03e443b700ea4b7beddbb782176db2b378 (-0xde350d7ea32ed891e4d9cb542d53c24e43050182f4988dc35f6e69c71b6598c) 0x39191af9708bb32e700ac4aa9cba4fe34730427c9b40617ce157457177efb8b (-0x2b57309e517d7c4034fc28cdd48db47d34923536adcd2b8e411bcaaa448f5fad);
  mkCert 0x4fd708c31872b8ff22e1dfcf84859686142baa987a9864ca4ac490cfaee69c29 0x521f37e9d24212f8104a01a5f80f03f4ae9b2a59223f63d567bfa7fd380bf29b false 0x373a1bf0f91ceb8656933fe162fac66377b624984707be2dc7aef8bbfec7c6de 0x709e831a67e49d155fe852b4eedbf9d7becc52eed38ece3196d24fe2a1c88087 0x36fc62ec1022447b6227840cdd3b98f9dc8ec5603835a5ac5e184f31324cc12c 0x3a2c8ad5793157062e6b497fef190c5d3305e2a8def023d7b7c7ae4b53eb9f3d 0x39a50b4b756de52e21cfb3249df1edccf3e53f8c8ce0a607d91425a2286760a4 (-0x25ad072cd9679f1ef490e797ea442e6145c38a6c85b4e71a7bbc57a7e200cfb6) (-0xf89eb1147e73bb3ca23f93f780f05495acc87800c331abae56faed143905d052) 0x1bc1468fd48fd6847132595288ea901e03bc1efe69fc25b557bcb76f1e404dd1;
  mkCert 0x23b3d10cc68896d54e2f33c445b1c798480e09a2cd37c9b28c4c91a056c141d2 0x62a2b53b7249e72713f51ee5d792792fa0fd6a5883291a5d581ce657640d3232 false 0x70002b66a5ec3eff4deb97bc776ddd6231fd9a4d5ba6e01066dfe3639c1e052e 0x71ade8929de87bd3b04822b883146b2228c0995c5d56397b164ce1d6e203cba 0xafec93f3fbcb0cccde48dbadf93bb67cb8dc7de3abdf33210749ce0807bdece 0x53ec1e8bd4836c02889c600d615bca43ae0c0ff2f2e127d59a89b2ddc0bf895b 0x37ba38dc8b0fe5282a2ca6e4dda0a57c2aacd102dfbae1a11923115fcd8b77af (-0x2d0e836fcfb543c49fc6ca24f3ce03d948ff5c430347bece8f8b1af5b6b0e307) 0x353ad221ae2ddc3fbc55ad5c33216c6695943ab8f6a2baa809b68b45411142ef (-0x6faedb691fd201ec2a88930a54468c20c9047a93f2c92167577f73ade354c329);
  mkCert 0x508d5d7f2bc5c1c6a4c627da8611d49266a8a13cca901b5428c8ed0804dfa02f 0x48fed08acc6ec9ced60326541dc040f0818ef9c07193e6fe52bb4b8d0e0978a5 false 0x4152c8b8d3e659945f4c3297962b1dee3c6a42e176bfa43a2f82bea0ce7140e 0x11d71395514ad818a0efe5fd3ffc2628b752789074f32d953672a2db118d735e 0x37f8a6551bffa24042e09ed3e398f2a7c7bcca15d514a5dab19c50f548ee7b36 0x2df65442a3317e9dc66560451519757fe8d78fc843cb7378784b338f37beb460 0x50e5aa9a7347317a41d54032bda6b6ad965339e0022e9523689257453f49e5ab (-0x3153041d120fa84765817ec0ff5add173cd1e45eb9ab5476e13e1c54b17fccf7) (-0x117b670b25ee4fde3c39d7945adbec48cc4a75f3d8c4c785e0741d0c523b9ba62) (-0x4015599f6bf381d2f4a1f842a975a9106244f5c9a2590ec7401ec8a946cd4068);
  mkCert 0x3bda5ab1eee6c1914509576639c70debfe0b89c77fd8aadc2479f8759d04dd2d 0x6625842022eb26367a97c041b67ab383b00f5a6eb460ac99fd1c2dd31b237c32 false 0x30b988dd0d02b269531ce8d9ce68e9c2cc6596aecbc6dd98afb57f16daea88af 0x499bae01f9a6163ec9a62ade2e8d4672563c7c3cbe4c6fadd46c175bdb4e98ff 0x1ee6d19de8a16fcbeda65bc9bbef5a1ee4851eb157757d17d773f914fa6e2ff2 0x5a00cf7d21de573dfc351ccde24baea845abbc1aae3a05751ab5e78ffb5b6155 0x5d0faad39850a25cc3aeb82da076082341820977a3556eee23e7d896193c483 (-0x17631955573b27fd2cb8b908f99edce1b8ccdfce7e7ff3365e35b3e05a3d83bf) (-0x860775dd896d64681a8095ed63b39522f570fc22db701f20c6176ebf0f9339ed) (-0x48774171bc0614308e32c729639746a256b641b73e1b84a7d12b91573e4a204c);
  mkCert 0x48496d7c5c81cdc1ce5e72ad208eaf43742448ad5f956f2505f2c51b1554c28d 0x478ca26fa03e742aec5c1e3e354942d7d63e5635612617ee103e892fc088c4f8 true 0x3cf6928911bacfe7ea8f32f63f9278c99a14655281dddc722e68f1a49fce1244 0x5231fdb0043355492d04e8cb038ea223cc5df9e18017ed1bae4304744f255d16 0x2d13038629d2ed571445b47aa05a4187e75bbbcfbab9eeff0346d2a074430e22 0x2c28c591012a3147376d56ec94ef03a22b7c2d89d8683bcfd4157eee91033cb7 0x12ad7075b9c024daf1a5093cb6040703c553796cb45b34c8494e85f18029b6fa (-0x10d13832833bbb6af689186bab93a2029b85c8618440bf4f09203f35f0a9eb5e) (-0xc1500c74105ee2b2058fbd3e9d9d9072950328277512939d140ca52b0d2c663e) 0x2292677762fe52e817601cf1ce8090d0a20883f9df9a6c678aab6033ab0ce9e7;
  mkCert 0x115f36176d4893d4fd8f7fd1095315c8e4568920abf58d879348e18b85f6c745 0x4d485ab82fbf785c50d60381260ab9cd9e63475e98fc33d77235715e54023f1d true 0x41393d25ff13c8cb2d3acbe2bff060fe436e78321ff044ad15f21d41201a23a2 0x63d7512dcdcb63358c960457315d950be4dd07cc0c8b234efc84209e1b600287 0x29a6ab662cb2c89b160e554031dbe517204c49d341d63afbc3ef2634220a754 0x33851227309af3fb566f18c564ab1a0e35c94a2fe6087110d28b4bfced81a845 0x1443031c71591ee9d1e279fd232d89048542ead1dac86c476c7710bfa461f5d8 (-0x59b4a5bfe73475d35d8ba19df23ab50b4a44ee71c8df08f974b563615896977a) 0x17ae1d65782f07644ef3caabea7f0f6d3e4db59a6da487c9390528016543f786 0x388eff45896897b8f555ea117d0477659dd5637ac1643fb29b0ee7861ab57871;
  mkCert 0xc03cd6a6e128a847da5fedbfe3a702198bbf6b2f0dedd9923bc27648dbf819 0x59c8ad6337416374de6b87d50055b40cc0b7d783e39d4b1b4cfe9a226ac657a3 true 0x1d6663c80164ecae338fbe8b7443f0dbd42481d6e0ec0636bebdeaaeb0025dbf 0x654c48e0fa67489aac460da2b0028360e1dc6e93d76ecd029a1a27cc34b60d8 0x13ec6f90a867a2717480193e180a0d4e64ad96314a9c71264fd8762b9ff1c 0x45891e013893d44c71a4b80a26c57c39be7a476339cbf07436d412c637b96b0a 0x3df6cee8bae92a084e130a4129d24cbaf71dda5e00af505d5b15e47b2da1b633 (-0x60407b5f53b15f7e689e3d6dda849c7ae3d491194f6410f9e2562e809572f873) 0x76e804327074f7efc4c395fc9516b7509610c99c9b51a14418c92ccd140184b (-0x2b8629b941ae728dc5011bd3b4d824f14d528341eb0f49301f16933c92be8a2c);
  mkCert 0x44d7af44835986af758e004c7d280a2a2dec80060f5f4491a60741fcd2e5d5d3 0x53cce3848a746aec63a985bb16d35b941af3c151759bec7a381387b5fa45d42c false 0x718f0ff561e1098c1a7e34b727404f7c05b52fb5985197ee0a93a4bcdf82dbee 0x589d5751a99d9bd3568c868b9b9159c9453528b1de5a9512d00698570c295cdd 0x28e197f2f71f669cef30a9695c76e56996b73dd4e0240ceeb0c244e7dc08299e 0x3c9381ea1ade5214866c0004a0e48ce3560a8c7879791f9c771c8f3e4d7fe9f2 0x1ffaf3246adac127a7c08c877b3e0458175b085dd24e7df03d1652efce11ea44 (-0x430d1299020d08180d46dad093005f864f6b0d8cb5bf1eb6462ea04cf48bfc44) (-0x5d2b192f155daacc3be1f8c08e63b1349cfadfd7dffe426d1b15af7553c8ea4a) (-0x10cb97036028b2e248bcadf9f655ee06b035b4e1b5933b69b99466824fc5f97c);
  mkCert 0x73309c645303c93b14bb6563427e112654f5bac892731d390fed370b6484eba8 0x6f156f53b4f4e465f4ed7492140304c3f6a3e6dc459c2bd39af689947d36a150 true 0x37dd39014b10c2592495264a602232f6186a654f850efe0edee213cf8da07f80 0x6416c906fb605d2051b2dc8dab7f0f1e92524a486069eff79a703d07c2527746 0x7274c5ba6c6c82d95093c9c2549e0942ebc877a59779faec4b1300260c493c8b 0x6a710b60252471df325369e34aeec9b29066647e334402e0a5f87279595a39eb 0x814970849ab5faf7e54bdbb696d12305ef1f700ce6f0ec76fe3d59870cfa5bd (-0x1eb05b27987592baa41b749cf450957b1c44133296df50d802376e976acf21b9) (-0x2215c50640aeb3e2581aaa3aa4b85202963ed3207df20579c50a078f9f7651741) 0xbba10ce05f079200849388a1f326cfbd1473d266cd110cdf0305d2941885537;
  mkCert 0x6dd88ef4f7f07f0561d4f42800496c66cbf459a3b16a54631fbc2e587f8ed1d 0x6fe5a36d04ee223e535a9eb6c4c808e86f6836b1d7c5069661910ecd10679013 false 0x2175ffe75c2dc01b547bf642523f3ebfefa4cd975b9803461fd22a1e2a7bced8 0x4f4eace2e5e82f7c536799a5b79918a20ed09b678c3f3b22aff153725f0a19d7 0x681528c37609e897edcf7cb7bfa095bc01af18b971bd7a8d88fa7e2f826106 0x6c0182b713acce04fb6f9303e6d0d7605a177b32fac9f8cf4cd40a0926e41842 0x1aedcfcdb5f10c66036e20b4b92e31e1b2cdc674575ddaac127b1aad5c35d295 (-0x53df36a5b2bb37ad7b8b910232df7862ce39a7067a4c90629a58a8d9ddd9fe89) 0x7a007fac367ce5134ea316ac52444b5f67a755b5c428997dcedc42309a6cbd2 (-0x55bd02de2a33c39a7324c7cedaa328797802c641f1be19dae73b7f97871040ef);
  mkCert 0x3cfafdbaf2a2674e1f69fddf5f2069855659d429acb2fd7f37de727c15a64d69 0x60b2550e8da4dc4306b33bd639217214b581411f74768ce42902ae2b3242adb1 false 0x1148f6b66fb09e43c31cc495a5e92a5c95ae6a253c75fdae385f552c6388c924 0x6c1f4acbdef3510a1a13c1a42e936579d4ccd3fd8baa6a57b74c3cec5468a0b7 0x2013ab0e9f7503493901075b4e75377bd8f39fbc89a426fafdd28fa3a2f75578 0x50a7c1aa07c179b3d7adb6d2ec834f2b39d34159089d320a30c4baed76d87f54 0x3757e37a53189f7792416b7aca3d41332bf329c247fa512d95298a2ad9864e7e (-0x1c1754295202998b81969d4a0de50cd24ec31dbee557187b66caf7dc16cfc002) (-0x9dce9336e55f74643b392a38c8cfd85080be1489dcf8b0047b8c0b805f9c1c46) (-0x77494f4ec8a250d41d0ed1cfbe163141fec11f62c2f3d0c0b11042de1958bcb);
  mkCert 0x34d9814dfd7829279445a2190b76bacf3ab2d5c76d5df95a56b6e4f744c73043 0x3c6d54a0559544230117d3d40e2763a0affb3e4ada4b421165554f0806d1c754 false 0x7033c8d051d3994366e995a7d73441c75f77d008aef96a645ffdffc0eaa77ec8 0x28ed7f2cc0aab1d2e0305e9ee5a02839c3456bf8d9768df43fcb1883f3e7de45 0x1817db42483f23ae28aa69a0c399071a11175fc730deca88c36029ac3f0c1dc9 0x1f7f4ff0820e6b39fa58c8643eb413c7d78e6d51c70394bf50eb66831ee97b1d 0x3c13418428832c9f873018206199c09d59fdda68c115ffa3fe6630645f78d0c2 (-0x122ef74e64ab749c2886f7922a3837ba715244ad73c4ba0327196a4325d08e00) (-0xbdeb5778eded96ecdba7e6a01c7889ca0746ea1a3fc5d4faac7bba206967b6e) (-0x22526468a60ad2c69c6783bd4222e7d4ce7c183f71e272f660d913a0d63f0bdc);
  mkCert 0x251bea277699d5cd2de85d9c8d85662a0a300bf27375d296e9d2f8821828788b 0x4bb0ca4fb38c24a7a64127bdc91b92c8b60734f304c86c84eef28196d8d5b146 true 0x15b5886bdd337924ed6ee9c151f6ddde577a00f88d931e25ccba2aa15a937f6b 0x8c22d512d46147c3c2c33f02f3f8308e9dd798cda4bcdc184ed89c1231e80c2 0xbe0f43783cc971d078d41c14057be27c00f578aa7be66bf5c4753227bdbdd3a 0x316b450e8f373c27f393e799ce6f030d9bcd10118bdbcde1186adc7defef32a5 0x379ee6ae797ff561141f67cf63c101a92c4e7f479a89ad5f0495a5407bc302a4 (-0x43dad99d7139b20000ec3d1029b7cb850732ef134f693b2b80987c491bc22e68) (-0x37540c6200bd78fec39e3410f0a46893c0523affddac23648cbb0a57f4afb2a5) (-0x1b1ec9a6a7f1187dd069fd210ac0395774223dd4eba7dbf77ec0ac9210a5de19);
  mkCert 0x3b5d9d6b866f2a902c9072c6df6a276c3c3ba26888df4abbdea906e636fe36d1 0x6da53f3be0cf2232d372c7bb7626c35c1fc9a0b8d5692842688a9adf7e953c23 true 0x303e4e8f6db3db73d63d13d33e8ba45b7ed800b85fbaa8f579edaef69d241fe0 0x22ae08f0f8a23569603a4a7d9039b36b1b8a52cd5eec7ad7df3b78259e5055cc 0x1e668a01bf921164e7297981c1e361cf9efb9ddd14668b745dc4ffd4211da5da 0x67b402691b0a75a663af34c9f12735cbb756edf72787498bdcfb3d5b1fac0e3c 0xd8052f35bdf35d46b98c00dde7f05f8c9719b75fabd9aa806a21a93297f14dd (-0x1ee627273337fe074b6076668fa07e04956c80889a89005811869377419946c9) (-0x83ed22afd379d4239a87241c4a01f963fd221272c0da127d2b05ba053d642d26) (-0x3dfc3b46beab3f7ce44aab35a393c11f0f37b485323a3e00558ee0960d0d41dc);
  mkCert 0x26a0a9722f85d2491eb8b5659e7fe47ddfff184de9b25106b99a9f6b318317d7 0x535be3ee9518c29643861cdc48dca9d0a3a50d632ef299ec1ea31b68a6e91cf1 true 0x14e5addd53949e5a39c77375ec1d3485830bdfb86ed4f768ab9e27e3258fba57 0x72c9c28b48fd527567f0fde90c69e2c33961f9e58d8377e5b9a905dacde920f4 0xcdeecb99ed93474cb29168775259e9a6a2a7793620098fdda0d256c8b8a9a68 0x3bf092ac2fa85c29bc9a793bf4a2bae189785a800856010e355a63c52489a733 0x4bb1bfeac701dd3530823bcdbe27c57b4c9ac6da24c697b2eba6eec1d1b614a1 (-0x1286e654ad6df78b424048bf705fbd793055b2f4931c4df7d2cc05dd50abbe2b) (-0x3c964b033ceb2de27389c202a3eb94c6d2b9f6134ae1f4cb81218c56b4772745) 0x4d8c6c3a299d0d3518b7a24e638e0703485526e22b22a649c8481e382bd92ed0;
  mkCert 0x54d18a073d1512d6c7cd656862852e5a3d86570f19c9be9e499bb8445f6e14ad 0x4976fdd5416dcfbc65eacaa559b54a93d8f0c4fad41b733ec5193f863213db39 true 0x167cae7e60698921e24570f6ab5a4119a510d26fe281a28a9470ef1f695f4656 0x263810a45da76cdfa714e5085f4906812b77606d61864189b05e50d8fcb10540 0x3e0ea04157d7ce0572b19f642a9d351f1790fb283b4a585f72bf6962a57569c1 0x2e8e28272052fadba015a0892b65f58dbf45a50cae7fae44f66979b5a786ef6e 0x10799281c74ced8e2b4e0311f3fafb391509005fc0073a8fbcab38de497f5c62 (-0x455ffc0acc61d7eaaa742fa7c901350e41b53aaafa0d0083f79e8b555d45960) (-0x131ec7c54ce4ac3cdca824e39e17abe8b043f627807ebc0ab5dde2c9d0a8e4baa) (-0xcf45e22bbd8167ba87dbe1c2bf63cdfcd23d55b16dd82210df9fecb0e2eefa0);
  mkCert 0x17fd16c6a125a0cfd30a614273426d653fe685aafe8eb4302dc47e96adcaa786 0x551c85af7486feecef078e43614557075f7e6bec4630775964f3f83a202394b2 false 0x4c089c1b0475264821de8f3fb95b71e8fc80a393d582c17412b42c34d334f305 0x22fbe9e75311b1f24c4cd7b6d3f1828db86253ffdee2c74620caacdfbc3805e2 0x4f6c0d2a4affb180f074283b9051d4c7cc99f39f9072d2aedfd745366ce01ba 0x3e7c899c087f76067a57cdd306d4ecdc7d1609ca7a353ef084eeb04c19a7a8c6 0x13a1bdc879647f2ce64748fbc0f1f655b493aff0c64e6d9a1b6a6c5c6d767448 (-0x2e93d85280eeeab758a2e8b872c8ecc6b7f28047ac5692f653e0bb5ac301ecd1) 0x190c70932c162819e78f810710d22fbcdc3b4e5b0152038b3fc8019a5141fb64 (-0x4c4263dc1ae48befc2f8ca80ed181d5bfda80002695011bc9767ee75d7201bc9);
  mkCert 0xc58929d68c96b280fa07ab69c9f5c3b32d0dcb1df1036cc9fa6bd988879ad10 0x6708477c9fb71899f2cb15f124a6e0a90f08a02510b2cb45eb8a289e018411e7 false 0x5f226e4d3f2579bb5fa1c586dc18a3073e46b21d493063962f4079e2fe5eb9c9 0x5dcab6438308129a3b875dd1a3baf3f07cfb49789c005a32d6d2e0dc952c9f2f 0x1509732fd64c06d92c43244567c94cbbc42004316c88d67d943bc41dc9bce84 0x5b922741711a4c9f5ac527317a43f884e8bc6640a61a4c839b3bfc6fbefed349 0x115bfb55669025379de9e6bf24941fbd17db7c3912351b052c9132c463768530 (-0x482e1a70a2a8677355fa4710987faafc083291ed46e1bc628db7f39ed95b3a95) 0x477f1231f27964788961595cb7eb94904b6ff99d6d2b3a2c444be7dd8bd6fad0 (-0x2d24404fb104407098a76027a06b3e21aab9a7893a0387d382bf53b5b6da207f);
  mkCert 0x41368b7919d13d794b2708a4d8e269ac9b5e1be808c4fabcc33e1cff60229262 0x488be5f03608a3637c21df99886c27631a079e1d6ae88bfbd678e69107c3cf9c false 0x5ab5341b843de4052aa916a95fc6c9ce10ee545b42a19e5754bc6d2eaab1d0d 0x133eb379f7a0e65a57d743d3efc83ffeaf70cfe790fd458624cf938f5b34f87e 0x24af2af89386e08223f9b6ec27178c8ab83302b15af180278ffe7fe8e3c9e0da 0x2d660ec549865224837c9cfc172f040fa611c05e74ab9f8bb802238448b04e07 0x1cf8cb85253862582ac15fa1ebe11c959985f5f4003ef97094ec833b68dabd5d (-0x4c213420e0dcd871e437f0d22dd7ffbfc4a6c2c6f4bc1828b3959d6c91e4df5) (-0xb724dd7bf26fc5c27e643bc004a8f2eab831930fec87b1fca3edb08ff601b0ec) (-0x3ef12f8fdc8427aa6e2ffa8740aa04c076c5fc73fb35080be58aec383fd01de1);
  mkCert 0x63b77d63949c456dc7e267811990968482935580b6ea1232f1f3bba6fb9939db 0x65d29ac9773d39302fea8a7223f229e08727b37201d39344d03fee2fc8cf7339 true 0x4008e49340b728fbdf192655bc5313ed86cff6db732ba20607aabbde5dc76e8a 0x51c4719b92639d576dddcab4c706fb3e92b4de8a1ed316794b82ce33f73629e7 0x55c5b0caa43080891b6e1229c36ec00551c1b756067af6d16812e50d971e5393 0x596eeebaa98a178f6255c9c14b34bd1b73d632477d9de5535686f98e009bbb46 0x445928b1032358aa4071edaa49145c682f0abc1e899edd3f6d642b11adfc412c (-0x1be2a699d01dc0bbd2f637b33235c14f0a5d0921d1b8d6971340518025babace) (-0x1897d9854e601223de9e4071744d7e57c365be6d966114550de4b9138f3f7645a) (-0x2a74628551f6c642d4008b807f12c7d3a8a3f40f73f8afea420b8126a44112f);
  mkCert 0x4e3a70add9ef5995f4308f6ac84a1b116dc691353339cd73a68a540a0ff671af 0x4da63e8afd1317185bb3dd7f0466e75c4baef959e2a6ff447850c41952bdb564 false 0x369d7bf69940426ce253d128b57d88f67b9c55d797ae00d17f3a07f22540af25 0x190cb593846cfd56a3e09cb319f81ac5cb6ab49c998f2319cf26cd8af5346a46 0x34c9d081e975c6e982fd6ad2d991e5024afda448da535833cac96f497e6e90b1 0x34028cbf44201f0b3257c4949e72edb25552330eaca0d2588c00e8138ea9adef 0xc14882385c7d565666d4d4b40e8e8ba46d025f4ba410484a42127c36c3f7ad (-0x2a72d95d3132d2d54b8020d6981c9728c3ab1d0f96ca052a1cd9f48a2c4ad905) (-0xee363bf7e7133c1d23b86f9c4a845a0b3286a9a2f307716fa54def1237bc30cd) (-0x44cb54627fe82d733fa32d0b3f3af75f6ef7853d769e5d7e7c8a0f2063c913b1);
  mkCert 0x1ba2e7164638d8c52a62f057a042ed36c721c2d3d48024e7b88f9bc46f10aa0f 0x6c5209ebfb02146651a64010640da90da0843b88db1410ac82fc1739873ed1e4 true 0x41a9071755fffafe3ea32a54c9ccad81ca0c2809a7bc082332a890d9e7ce4bd0 0x1ea013322d043a3efbcfe5bc5ab9f047576fe4c712f2d20a358cc5b33c910624 0x69698e3326300310e2013b6b04b74242b316957cd06811a2e1e0548c9a794bb 0x65363cc3c945a9059a3e8c7809638b82462b7ebd258bf579556864c15d6a6d28 0x34467edd9946cedc14bc45f5ee2bb73684d832b41a6fb089417a0528d12092a0 (-0x905df1393b3ba3c3d0f0ba9808c77b258e9ab10ed6b8b25c570f28c51464987) 0x43f6c5dfd212c5bcac057d85c0ca305a3ccde027ac031efa6f446a7f0fbe89a (-0x3e28220f476d0dffc03b0913109573383b241973c2811d17d0b6b852ab337dd5)].
Lemma certs_3_ok : forallb cert_ok certs_3 = true.
Proof. vm_compute. reflexivity. Qed.
Definition certs_4 : list Cert := [
  mkCert 0x3d9fd3f8d73e9828515789cd6fada61bd1412b9c5df04846b27cea5e71a88cbc 0x3fca6e1907ee4cf70e17ceaab72b54037ed1149ec6eb1da69680fac0c89cdd69 false 0x58271124601e09f8403f3a63896cf30266a22fb8d7c30316f2d0fb60b40372ab 0x118971c33d0518e4439406b1d4f34306320a6a1a0db8c6cadac9c9ac93e03df1 0x20c1ff899b91c612f89f5fe522f7a5d1b34b911782c0f1e247d50d30dd2b2b22 0x2319fc203efed1d5f02837d4dccaa8512bafe7c59d12f91505100b6be4078736 0x2510d7f8ec832d7f03f79641a558fbf820e9feb900be101e36d28158eb9e187 (-0x4a2901c03b7f7df8ad38587eb8dfac9c0074db48600a2096a87b49d3b02e2bf1) (-0x60c1db65ab1bda7668a838effecdc807314ecdb1256431da838c42ee91381418) (-0x32af1895c487998b1b819f0707f2cd0c0f4f895c8d68bfb18de079349b7f247b);
  mkCert 0x3035cc3ec4132673e2cb122ebc106ac594565621297060d1ecdca09a4c4fe9fd 0x4a10145f3bc7571279b6de786d13a7c1544c8b515b369a8b89eeba54543af322 false 0x47bf09bd9028bcf4e29ac80462dd49c90ade5ceb1f69bac3e938da050b0da2ed 0x26e514aa34641871cb0a6b24f3042dda3f6e0e5ae606126afd9fcd22d9cb6997 0x140c7af7a63de55b5366c5f56865a39e13b75dcad8987e1465719f4053b9dcb5 0x2f50f91810666f43dd13a747a26596491f2d00a2a04f3bf9ed775e76128dd020 0x76e1cafe8fdd0bd0b46d69a3970aeb3d1d815699438bfa4b739289452be7ad4 (-0x439704ef125b56e3c774079e8ec88386198162c46af7e7764e44242cda9b0ea5) (-0x37d753e05681afe274fd9e67b02138a6ebbd8a81768205aad344281f0653c4c5) (-0x377041f281cecded20f751964c08b902af3c13b4f6f4c623bf9cede13a0c1b1c);
  mkCert 0x2046c451b27632cc70f472db63965af4958f92566cf4feffafb3be2c2a4a25ea 0x6fd1a2e7506197820c6d1204cd31d381cac894558f5973c2e7cf7967d35c5b70 true 0x171ab549f9ad17150ab87d357b709f503e82cd1f27e89a552a8895c665698abf 0x4ad8f1db75c268ceab1e6de0c69dcd75b8812fd20642b8ec03e697ec62403a66 0x8fc7eea4915ac4f9d702c95d2962095136265bab75c9719d9d53e45dfe8dee3 0x6bdae93ecd5e369b70e590331bac79ed1cea7871cf6f80eb2374720cd670df00 0x2f64a800bdcadf77cf869ed7d79871f1713eebcb37fa36d147faa5f698432224 (-0x51b5ead929b971ef0bfce7ae2570122c0bc28d06a5e3d5358187c0bb1728448a) (-0x2853afe4ab05892403172985ce054d0d48a7a0e7e69baf63aaa97247ca9ae6f4) (-0x1b90f39a62bc0501ec2ef8d84fb8e7342adb62e6450c68290ebd959b0ccff389);
  mkCert 0x41a88014d1dbf54ac2794f466890e76fbbde569d59d5cf2a81ef7c6d2e7fb4f8 0x6f11dd7d726c913ac975c424c714071c193c9dfaabfa6c47451f519286748b1c false 0x628e9522dc7da89cde394314c9761c91c3d3d1a3a8b496123b49b9e6a008693 0x27765854b1094ece62bcb962428454538b164c1ce2f019e8e04ed3bbc2649f50 0x252fcfdf16ea615ae3305fab64f45c85ec6c8090c75936bba95dfffd753f47f7 0x6a6a34307e8c39484deb06d1fda8cb94a64582310a04657b514fc320f7edc8f8 0xb2ed07549b12d4f3ef008ba4f314dba31616a283fe2f914ffe1335c8413cba (-0x8e893c0d792c2cd04ab5c3a7c95daba0973c4d26b8651bba30e919f68b97668) (-0xb99b45788c2d8dea0249a2c436779719a9b1271d7a742038b8da2998e33638d8) (-0x7cbb7eedf49dbde7edac20a7a0f89612372d685dc4348f143be6732c176767e5);
  mkCert 0x219c516b84fc36a6f72c9676c0519d0e69327feaf0bd9bf936ba84c67ea13a7b 0x4d3f6b76703e77712a535bf9c8d1270e306f87466588f1ceccc0b70390379f15 true 0x3a2071c5272558c6626c77ea4b46b38fad6f9a59830878bec5070b83c6419800 0x5396e78b6e94b98eacd8fd6a7c38ba0c40d0d715abfde77131ce38589eed3499 0x9be9d2c976c19e4bd758d51f3182a2e104e005142948f8dcfb99ef072a160ab 0x33792947fd1b64d7c8afe25ca2e4f6552b7c1e537dd1ca976b46896298a1b867 0x5afe065c2381487fe24232fd924f33b74a483a187fcd788911ed44ce80cd3c4b (-0x3a1fb90652b4627f2c067c5ee14c704d88f0126502eb98a17f4386d6ae461e4c) (-0x1393fafdd4df9a3a254ceb1eda2feed760f3375bc81d7f25c1c4ca6de619d37e) 0x1ee16f23c5b5b72f581129b4d5d13246abbe5efd06c38cc27590154261b58fd1;
  mkCert 0x604ae691b325846d0a22052567465e45a77372df7d4f7958cb6f354d05bd4f0b 0x5388fd154ee61bdfa101032ea622e8153e6f9402042d5487380324451f690c5f false 0x34d5216cb9598afbf378c4f8d478be0c267dda655b0fe1a9f69c7af0931031f 0x2c83b081d9bb2a9d73a8b065e130ae83ca43d4e790cc80cf06d15d92f9de6d1a 0x4ffb922c71f3aaade1f0507d9074ffae2cdcfdd5b578bb0b66b94bbae7756388 0x3c317f6f073b95901977b7202c600820a2fc58d26c7e7cb87e3f894180b54df0 0x1c1e014ff2b2f2bb6a88bd78f0312d483d229db974a1edbdef302c02dad6f801 (-0x53d26dc36a71b998d061b8fb9c87526fcc054cb279e6e5a47bbf3dd894ae5025) (-0x18fd1c6ffde1cdd4647b773d1e99ad14cd4841ed51fc2c88e1f197f1bcf55369d) (-0x42fae8201b35e068f246f9bc9734d817290bf06ab777e1e9392dd8745b3f49dc);
  mkCert 0x46aaa44fd28c2931cadf19cd42b935a4defb64ee458554cce060297fd971fd61 0x4fa10dfbe13092d4fbf4768997b5ba88f2bd2e02d22fe0532ad692eeb26550e5 true 0x42e341de1fa6bb9affef6b3585c6f99a7a808df08bd8daac09088a6056250544 0x3080684064d198dcb23b704b29dd5e3e3dbb3455b801f2b45f75be2bcda477e3 0x2b138899ce8a70b31215e5f286de3e1f3d2aee2340d2b161b868a0cf3e0abd4f 0x36b2220a28c21dbd88b9c06588a35dfcdb45bf804abf99b9ec3d0d67f1bac4f0 0x283eb1c0d432072279c3647941233c95dbdd3f7fe63153cd68bd5533fdd0b154 (-0x3c60fe0f466b91e0cfb81a722ced803a8cb528168c8ceb3e7100e7a1ade3dd94) (-0xb0c9fb07b1a6250ea01996521006f035419cf993219a9e1d6c2d0c9858529fb6) (-0xba41a69ae3ffbde3fe1b985f9b1b59027daf247df0656191c1db80c8db99817);
  mkCert 0x195ea63d4029fa63f7d0bdecd800e8089f51bcf4b4ae3fa3f01548d106d970b2 0x53bf112ef212957050d50d3414c9c44d358d09c4c9cda339855ef95d9dbc1456 false 0x727268d9799b9242c64f0f4f220a53f97529dd2586868f12f1fccdd0ca55395 0x683dcff7a270c3cbd3382af0ca5d8ae8c21c34d13e8c7f56dbd8ac52a6bd23d0 0x58d4988b93a71f33bde662f0a316bc2cf6ea1b606bcdd8a2f3e7dea2dca7144 0x3c7f881906c44aa05d09db0fe0145debc978f3e65c097242e65847d2e9b3e6ab 0xb368880f4f283d95ff69457e553130834aeeaa0582cdcce2eb7eaab11bd00d2 (-0xa4362b28b6a1839f230916bf897f16530c48bcb2082776ff1c24887ff84ae4a) (-0x1b5173a898eea3a6b53ae354da97409833fd857f540f9bfe873cc34e2385361c) 0x94b70fdc010579b02739a04d2b9478e76ef4349b089736b05f802e779d3909b;
  mkCert 0x47d46db8f08d392710eb81268afaf3a7c76643933541ab0bc7b8d7d896c233ce 0x6bd7232766c68984965e3be1fa861f5b2d37667ca6f693ecd52eee63a3e380da true 0x492ae855de902dd7ddbef51a7ce0d77e05139a9d6ccf49c2efbde893eaa865cd 0x5bd69e3a29436dbcb78479d1a0cb00055978a2ed2e99bbeb8be3d98a40f57e4 0x2c8190e8522c8f6865195b4f96903bfe4530ec7d74fb0e7e4ba98785522a5df7 0x6451130d1c6a17e3e9c2bcbf091114b98f1a81035bfd7ffba10ae3a5728e12e4 0x518acf23e069c96b3a289272956a079ed4824effc5fe1a99f4750ac4333a346 (-0x57e0508d1c038bf09c0a14b322fd3e8caa8ff71299a04d85a8668ca54f82fe58) (-0xb059e89358d8310ff462ba7f2e8cf33e96df6ae2d7265a8212766ea547f73aac) (-0x45347ed1b115263c8870f3dda079ec9d152b166408c2ad0a4d7d25261f2c1d75);
  mkCert 0x2f0f0b868d0fe2273d2a6cc001668433488a300d72e05b8fa96c9617cdd862a9 0x51647a5c35734b70082b11fc85258275570e503b24eae73521a52858974cedff false 0x634f42ff628fc62f828d93a5ffba557bcbc8d427162c045ed941fd00c26f24e5 0x49a26aa350f97e9b8fcdb9d192d3f51ee2a3ba5ccf813f67c4cfdce2bd079c92 0x131a4147378a78ecac19a99335961b8d1a61c4702885f84c7758a8a7f11880cf 0x3925261f59506fcbe71b8671f102ac97add500d846e693986fc7738fd6c4f158 0x2cc4251144032f43212c7e34cf4d5b40a2a9c69b3059d317ff9f4c1347d5588 (-0x52fb85719cf3785c537b9e35c1788b200c173a7c312ebd2feef540a13b48a7a8) (-0xa708611a9455dd2ac8d3f076d75b3f0620421ffab363a20224edf356a25ecfd) (-0x21a43e39c85cc22199ad3f9b42bd0764d3b0d5d802bbe6ce03980a2d128e64bc);
  mkCert 0x75fbd6d06102b9db5a28346ac5497479380e2e14f824ae1179b1431385ffa75 0x46b7728988fe61a096b96a8028e58e234b9e53cfcb635b64d5b8ee2117bbc733 false 0x3e04698b334dea470ffc10f3cca53db20e4792f14504d512befa19455f47fb93 0x4c5390706ee72dd74379d2edf0150970b0d0d6907f3f460a37812cf33e8630eb 0x78135a996362bd096167d34a620f136af74dccb7613233fe51f543dde1451d 0x2b2326a382e7f702b477e49d7c79611ffd6ca6b381809ca11700ef5bd5e64fa8 0x109c945d3600802b2a2838e0f1093bf8292693223bfcc3bbbbcc348285526182 (-0x59062c9f4cafc56c6b15721009fb980ef8923e6dcf2d3fa9c35e976975fdc602) 0x1ed4e592d7bb307d609c52272dfb29a4abb9249a7d433ad3e41357807569f70b (-0xd1984cad6cb958e5dcfb6990e1dec0fa27f2d605891b47aced44d6a029d9a47);
  mkCert 0x3ecd49d5efe96264919ed91e67b93b140421068d5867a4381b76a428b1faf1bd 0x5407ff2dd7289027f7842aea57ebff49c62ca893578038db93e73cb14cd0eb18 false 0x4289480d971344c9c63be747d2e49bdf291b0e5d77b4cb90013c12029f8c30eb 0x4ddc5e24731740a5659a795ef8956db800e87a94e9daf40df4cba597391539a 0x22058e7b46a2dd28795b1f339df29254b0f6bb9c011a53bc00285ea246939357 0x3ce9144c9626b6a1835d650c512ce2816c44d5d31d92a6b308b3ef23ec7910ec 0x51df6a4f8e2a9ab01fdfe5eb72435fe01ab80c8c60a0a4a873cc42508c250f6 (-0x546f4d79c8f7f1693718b9c6b93d41eedf3ccdcacbce8546ef5a5f69513e7f85) (-0x83eba675cb9f09ea1661bec9d38c42dfa2f7bd6829e98e0ad89e1b657cae03f5) (-0x54ba3e2ee8b638a70ce743e247bdf23508ddf8573da088da6dbf30ca4191d239);
  mkCert 0x36d75eab0a84b56f3676ef31df9e773b62d133f6a333a876e932fc9a3c8c5902 0x5c57a342c3bd9995c1653bf1dc870cec64a94f59d66d09a8aa2f1fc8bfcc5a53 true 0x272802ddc18334b35b184387ee14140563bee60bdd50fa1886818a6fee0c5cdd 0xfc393d1a7bb1a85a4f911a601d1ff61f68fdeab60f00f495c584f818378bd85 0x19f17dff53d399da75b7dfa103f42810c817d28c248194d1e00f32801c88c584 0x498e137342463c3f370b9438863ee5f3bcd08d2c411fab90a95914f8bed321e7 0xf26dff7038cc97ddb9032d4a96ca65418f0fe21e9607067020889bce0c63e19 (-0x43194a833a6147c9765a6425bda34f38f770cbb330b4a3ea8143abb0ab34adf0) (-0x747db8b4cea9035522d51e0932095241e8c3c6001b898c6fd44e25be4b445d4c) (-0x2d03a60009ccadf7aa182046d051f518f38d7b7a7b44e1dec7e83aad24bebcd3);
  mkCert 0x17d27cfbe6948c998cf2ccce631d0b757fdc582a19b369ab59cd13e70b673dad 0x61dee6f94172047418a5cca3b6f848483400c8264da9d76d4ba688c6d1fd3499 false 0x6558f6d9a9b87d39f9344c60f5bec86c98afc0a71de1aad4ade74b19e195f6e9 0x313393fca779a1307041e65b2dba0b3e102420cbd0cf8bc20eb072ca9c6834d 0x4e52f15f6279a6a879a9f4a7d7b1d19e982e7505dc087d2e0b54bb4cd178421 0x52a0372e6cf0e6edee618d51b8d914e321e17fb6bd6742c8806d930c7061ff25 0x35450927744e07fa0934dc2f11f1ac0869cbb653da5dd1796344538cfa189cb1 (-0x314106a34f4071c97033c9e8161074236594b3c4fd5f7092e3f389cf0f1b4986) 0x401fd501d6f1b28dc39705172f5ea041f1643f20c82dc9e97f01b72825051d83 (-0x6e8592790e5d16c3c0816fa84d09346df5728279f2d2c00614b274d2852a6b33);
  mkCert 0x3555faf0ef948b04e81f8a4ae83b0e91294f1ec77e6ea25dc25d3eac4f2e223 0x540b5ddf481831eb9689dd67b748348c092459592b45ead637689aa839a41317 false 0x45a8b692368eba2428caab244d34e63dc9ad532b7ef92351e8bd46e4b47fbcd9 0x58f1b847be260610e94037b2dbf1fdf59bb6c9a60ae8dae9a3fa89762396108f 0x1889ded84294f9b47bab5df66a4c65e44852608c1c505aa770c5d3f177abe3 0x3cedf70d532e0340db200d44207dec80496b6383fa9c6247e0780351fac01a53 0xbe47048c6a2dfbd5cba7abd6e7ebf82d77b5e8a5374be38e05e48f5339f028c (-0xffda60c977dc78bf82d86dfdb6ffb9239740239b2c08ca7306db2ab2a6594d9) 0x2960a1762a1e14f73e1f16c0f665917d3ce92bf0cad4d6dbd34fb65f80f85c03 (-0x10b6abbc1835847ca7ab7c20ebeb8f486b239c02453bdd8b65ceeeb4f27f757f);
  mkCert 0x149926c2c6b43aec4823e802502b6d869b2ed41cfd5b7bedfafbfe8248916505 0x5e4abb0fa056db46342144894aacda2d4592afa30dcee9bcfd77472784e23f15 true 0x439ef05a3353e9c8669ce9d2208e499bd32891c0eed50a433f8da8a9d4dc020c 0x2e673a97ca5eab79a551207c040ba16c4d2033aa884633e2d891d639e339f3da 0x3a8f02a69963a70d0fb93ceaf330f596aee2b444c5d6c62d559ca78a8ecd947 0x4cb1922ee6bb3474aa5380ba95dce63ce1d4e0faeec5dd9d0b6747a4cb6cb483 0x23679b584b705ccd6e89e3800c7491147c309b87697cc0c7e86fdc2117560630 (-0x1d7902bef3cd8055c01165b76090401dba965879e56b0a58d6557aedf79e8629) 0x1524c235dd036afc24fdd8f6c5119da309a001309e7871dc3bdde7fd5f017612 (-0x1f2a45332152aa7508972210490400e1eb65a908827ca1bd0f15b8fa7068ddfc);
  mkCert 0x231e5e8c2bf748e8ddb4f69930e28cd34d5a27a71cd56fd23a10da005ae36631 0x69f5ff958eeb16e86061c982018fa6c582e15ff1fcea4dfed351cb05f0d1bb30 false 0x22355e558519e8792ed61842b05ecddb65267c3781f0d5c22614ac128f99f00b 0x57803f44a97fdb9374f4058a26d866e86f1d24b6710eea0fa17dc5803eaff194 0xaa37cfd56c9038e2ad8d1ac9e1d4e3841a76bf5c296d20e0672ea815cda7cad 0x60d9bb5f8b7617b0e1b63cad04c40854cae8bb6aff346f1cbf262083a64e0f96 0x4eb319361046a9461f03a3575b24a38062c04db4704172eb7a5fc6e5189191fa (-0x25c981ddd07defd146802d9679c76c11269e9b3220426e04867624d03b2e563d) (-0x2b194a98d17729dcae7feb59dc804231de60138eca3bc514f1f193601e3aca6d) (-0x3d18a5bbc8e5f941798ae4f60ebcc778962e11399d62e2668d1bd6dc4e52f35d);
  mkCert 0x2d124e88703b6930e8d9b4774e3960819fe5a5741d98b9b77fbe4fa9be2935ca 0x6bd2c26cdae295d9959763547586d595b861225db4816e26eea3b7aaeea8a588 false 0x6bcb68f88f629dc5b6f6b2d842274a30718159eebaabe5d0dd93b460bce6b065 0x1339a3cd9e23bb667f425559a3d409a15515acfcee4fed0a82a8928f3465ace0 0x1185f3a7f953673c65e1603f9452e5bd54fa4e2abe3bf6050996dd86da0b80b2 0x6448ee237869b4ba2ed85c2aa7fb04a24174028039e86dcd1ab5df705ca55274 0x22c99dc20c01bd0922e6ed0d6a2664ad6d569eabb898793b34c72effbb672e09 (-0x5904c571c4130e866727eebf7300630516fa12e1652858353cb42a787d3ee178) 0xc9d807f1c8632180cb0f693004052dc08af968e1ee4b22529ec3db33100b6e4 (-0x7feb50d2c71cfa9ed0ead5ddf1b6e50d3b7d3939217900bb21ef5be0f8a22afd);
  mkCert 0x6a34e3d7cb26ae25ee613f2bec202316e245d7c683f3dc1d07500d291ce284db 0x6619eb2467abe65dcda166bd2811e69af326c7a5d96d5ebf200305402f953458 false 0x18a2e3b0322f8397c89554168e1dfbc24b5914d056ff4938ca8984d257ce6425 0x1e4deff7e77ebd3799b13f1ec5692b38813984b031011286877d004a9d3dc3f5 0x614cd570ec5b8b6fd411b89cea7cd48ab7a669a8e54ead6e148091e977ebd4c9 0x59ec609976c97b6a88412eebeb231502478785c4624f07dc4aacab10a32ff604 0x3930b084606735c3a3e01ac4dd34bcaf8bdf43abd6d025eed535860f86c11594 (-0x5476929799e5408405a725ee9428ab5e05a346298348b9cf437b3c8686b12449) (-0x1e143df4ffef277d214db542a24075e377d2ecc9c6a876b4c16b13872455ff365) (-0x6f303b5a6396447090b4be1e3330e0c813628f74d2a36800cea7232fd581bfe4);
  mkCert 0x6627f0726e74c4a5bfa87d29faf50aaadf0b5db1fd7d749a8df4c305beb496b1 0x4545360d406337e48e80bbd4ed82f5398e1243ed509c7bf4d99454bc826533f4 true 0x69a437ea803edfc4648cd710bdb343469375c941f474d53ab853939d19c565e7 0x5db1cfe463a31f2577099d4a82a07b7dc5c3ef5584781c6381e64651b2da3277 0x5a0514b13bce15c9956eed5f2c92408b98dff52435498107676bc95faf1c4895 0x2964145ab62a0565e5c6f26f2301b5d773abadcc42bc23f4f8081fc508aaeb6d 0x1eecdcb3f570b957c1cffd64074571dbeea233fc2d9809c187ee7f8b28b6a79b (-0x13595fad43ced84ecb7b7904938c0cc8e6c5977fb0ff56338adbb70db8006ab9) (-0x161d4f1ada43f1fdceec4dfe70fcd5169c3944124cae1958224e573f2d7f56975) 0x3622c4f4b617b217517300f7daf6fdbde9a652909c982a732751a58d4acf43cc;
  mkCert 0x646d5c4eef0094ba762917d2f97561772309a29f9ea4756992b852b42808c3d1 0x676af0357426eaa9abfacc4869dcf0d5efaa0fe4897289b989415cd41fe6c94c true 0x560a268e68e62807da4325712fda036594f139ceb09826e2fb961c6a56a9c946 0x2d11e1cbd67d69b85b9550a37fb05a7ee21fc1201edd8a1daa474a2986c96dde 0x56ffae39ffa113aedffe1a009251490e1a6579b8a1146ed4834c958948047dc4 0x5c41d97ddd37c3a9935dd298d82b4357c3df1e992115574a836aecbc64a354ba 0x10504d1e026bbdb0a1f4157d417c324bae4f99a500febeb14efe1b4b784fcf86 (-0x165bf3df0d63fc06b47d5b7adecb3d1afcc66b66b5834e138f4ea010c2a7bd04) (-0x173230ac5e6fc1c50ee5c2aab7203b9bbfd3dd57be17cf3f733e4cf32498d5402) (-0x2d2c0e433697ce0b4d0b3c84485625960e1e3cee661db696cb97c2090cf94831);
  mkCert 0x601bca297fa3ae04e8f1985a7167c13c8484eb4325a7e38c3070d4ee522e15d0 0x4f0850ac78c2060af2b1fa9e1d104e24e8de507bf0666e6da50899ed74cd8b3c false 0xacfd0b26bdaf6dd1f16ffde2d960f413e96e9fd2a8cb033b92f1dc0e74dc916 0x1d246af000bdf6ea4149e23c870ee01f2d699270d659c6d53696e5f0a065f929 0x4fad620c88ad725bc72d849d4b272c7678eb025872c3138db5dd3d93983562fb 0x35e11748c71414c610c2f67e22ad5acaa30a4e7532cec08a5d9e5ce698cbb1ab 0x2ab579f3d6ac16169a99936c44b239c43d67325fbe7e9092a5f35ebde8de06e0 (-0xcb30f6c091b2c9e506db0f130f0bd2e84e16a4b0cb049fbd2527beb83b82344) (-0x18d60c807a92977fa5c1c5ff96bc0509ae7f9726eb9e5d7f5c58a5aae31db5f1d) (-0x452552ec40e94bd9a570b795e74e9cf3ef943205479051786be9353b3287cd14);
  mkCert 0xdaf2172ba56968161420862195ed970d5216b6ab8f7e7cb2dd67bf44dfe6981 0x6e8574a95f6c5906b6d039d11689bb74f953c5d0daa8ce7e78ffb5d708d4e71e false 0x5bc87363f91d6e80a7ef98b980766f0025c0749a4e08464ac19381f1bcad0147 0x27da8d8dad5522d9ef19642c2bad1e0603e31dc81108207b3f8dd04c83036b8b 0x19d81d9f59a9ba775117b1d1bea8705725f7536aadf021d019c087b1fa02cd8 0x695dd17bcd8f477072e847470d41856292fe80aef549547a9f6a6bd70fa32314 0x1453ba875ad5bfbd06ef1aee291b4ef820fdcf9d48ae4ab71a0ee58e6a4e8f32 (-0x57afd2320f07ce49501d6a9d39a7ca41db9614bb7c211f08bdb21abf1ad71fd0) 0x40971ed252f1a5f248a9b3d0364bfa71e9acb868e510794819503a1a5aa442ab (-0x7b426983c35d6c48666a69f6c409228f13655ec0274926df3edc99b0e2f2067c);
  mkCert 0x3204413ac07f912680eb3546429d299df3aae72964611be4ecaf298e7c726fb5 0x49dd579642f4e12acad898de132c75b32fb988e03b18898261b56d46f697bea5 false 0x148f4677c1bcb33a092b1ed75bdc9b663dca080e05229bb55681cd64e085a0a3 0x58cbe52a14d514d08a798b6ee3fc32b9135449e8fbd54665a22b02b7040a2ca9 0x159452a8a6f35e16227981a426891ed021df6da8a77fd47b244e82de0d33adb2 0x2f103b1510fccbc018480a7ddc96f19b05d7b52d1d80beca06dd754af206a6ac 0x495da4110934b27598553948328bdf06205c095bd8ee5117b952e4331e9b1dab (-0x15eb78ff3cf78481ceb41eeaa5bfa159533a25a53272a1cf6be2f836372f6e7) (-0x68402ebede4332e8bd10f27027a134bb961838db9bf9ca50ee2c48b68f922615) (-0x29f7665a7717e60da8b5912c1822f6d45cafd77a57c1a27a37631f5a35df5b);
  mkCert 0x375f07c94d8ef0b2874db19894dc1496be108ab7e57a7c826c6a1a9cb721a1ed 0x6ee03a7cc1a0f3f33c0de8ed09800586072aa662cfd5f5a7aee7101738272731 true 0x5bea6179920a5db3da26deec5a9d2f53562ecd9bb91396f17c4508457cfe7885 0x16980f64bdcc9bcb5dc6be57b62f4b56b4b4a9b1e37c658d60e954a0d56f64cf 0x1a7276ccdf7a534f5e44cc6c44f993e5d8e9d339cacb963225eeff11f378cb83 0x6a0b2c893c5fd682a329bf30f95c97b45d8862ffa6a6d479a446ae3f0b05e5e3 0xfdbae1e56f7a967a784f911d817d2d5270ac1d4557d42ff8d146683834d6bb (-0x23b123875f4b1ef86fd4ad197c635087cbbbc2b2dda54d6654a682364bb76730) (-0x3b5be61075ba85ff2bcab6d41f08451113d6bebb423c24e65946fe62b0f4d5f5) (-0x45f1eae7144e9093a31260a9013d9ad53b2abb06ca4a475781d426cbd555d75f);
  mkCert 0x6fb3b108da52da27cf9db5e90ccd7b8c2d99cb0a5abdab2c2ce59432b70f1e6b 0x68a2d8626a5200bd1b9680660e2824bb684a0988ed865cc39898df58b35e5109 false 0x2740944bd9598c8f3b02df469a9abc06b908c7bb88a97e8447441f82e686c1e3 0x1ce10a8d3438bd8bebcf30faf5dc11a27be487515097cf353e245d8f87f7e32e 0x6ba12cb93fe739587a402d94733f944c5e07f7982b14d09c04d2b0c081d20a5e 0x5e719f201afcdee6ae9312ee8aecf78483c0057c61011bd34374daa555c5f0f3 0x104d6434f56beaa97edf2c3531e740d2e36d769bc500277b2666341016b3a032 (-0x4b4a81d596536b6b49cb4d0b598e53d4a07bf259724123bf24ee722af16d50f2) (-0x20cdb84755702a0277fcf219fa408295e94f3a0ed1b02f9a95950fd5956483455) (-0x752943f85e16860db4fa9d8ca58324edb203f97cf0888dfbe334f67b48cd1d18);
  mkCert 0x1261cc658e4029987ad630576e839859b7c2c7a3345df433e5092073ef885df8 0x6861553702f501730ff8974155639a3c87ce84184b5e42142d6ae3ca5aa67272 false 0x677fa07a93aeb3db35c212317c30752aec71617127039dc482f2002c838d51b3 0x4cc94fbd9d5da1b83a276e4e55d2069cdb45ede7d7acace5b62d20cb6a4f205 0x2ea2b35a8f51aadf7e1204f5f1cec06e96c5d5340bbd5a76c035ce4e794b960 0x5dfb8110416ec699ef338bf7f34659b375ecc900daea4897a2adcff9a25117f9 0xc9c1a33146a78fedc805635d304aba91d082cdae9bff8e9b33f8f6d33742fef (-0xd1c91599be9bff92c7593eb6d02b19fd229693df53510dac00bfb1dad966c4d) 0x4dd3ee903dbd27214d1b6f85d6797af38ca79f975d3f39e382087e83194a21e8 (-0x7b9f40424c038472e79df5478853472d11b502ac0258adc93feb7fb0614a82b4);
  mkCert 0x35da898a770f0455c5e1fb8f6a774f0238a1117031aef161333107e48abb8a95 0x6768482de734fc3ed3f5f9fdd154a8bf27b9ee8f5722dcc83a589d306e91c839 false 0x45e11acd11dd99ffab5c7d0e939ade8505c679f2a83262cf0418c866870f9779 0x433d50a500f0c40dbbf17aad568120225849dc19fc1002bc2425491b607a2f49 0x19046f6a3220731f25bcbef98aba67e3e2d5df5438bdd8e2640964f40545a818 0x5c3d1c444358881c40fc4c059b7714993e45c8eb213a5ff3eb1459d1bf984f91 0x13cf9bad204a615b72cc651e8652beba63122be3d17eab7084fd86d275f54eb1 (-0x56a7b64828d49d9c08bffc11c57d9833ed1341896d995d4d94130bd47b9aba2f) (-0x52f6f9f0ef568d7551ba69a85bf6314a16e68582bf06c50339f05a523fb0ee6d) (-0x52cca402dc9ef9431aef558b400b67cd3348140b65d80eabe49ee0816a98618b);
  mkCert 0x542e7218fd06387d31dcea617467cc6d2b05f8f25ab73845271bb08c0d518f0f 0x6d2798e1f0707f6fc778bd2ef9916ff5f0f961cb4ac8002d4955c92f1f97fae3 true 0x381483246f9eb4dba5a94a12ac62540890e941f7358afa0ee7a191528060ddf2 0x4072dbfc77384345a12adef44230a6be6d4c52bec5518732fb9bb25efdb591d8 0x3d20de6dece5e1b997e4a6fc49cc33a6b2277d00f654ed3f8990136c5039935d 0x66c6dc7643af5bfc732cd9499c1e5c995043b61070e7db3d1d5bcd594b83a9fb 0x75f557d667554ad58e16883410b78043584cb094471f0b953eaed63813c0ff (-0x4e05cd80d36dc91ee28719bd1fde90951808b317cc2838020c25779a64d7a0b6) (-0x11683683035e6d16be7a954f538467ce2a880c71f5e6e486ac9da26999d4315a2) (-0x23be8e0b2f938d9cfbbfb5e0dbad4c22bd05f897716071e581d190f17128502c);
  mkCert 0x131d5e225d83d93a5ef5f50201cc0ad2a1057b905b1c5bf8025b554a6d93827d 0x4a14196951eba9b38e3b494791b17cf6d0ff58097f56bde32a96220074dfd209 false 0x459525e4dbfa1c7aa6a1da0199721d2680136501f3413d302515e7f16d8c5c93 0x37e4eed8d7674b6bf06bfc5b4622785cbe3737f46049c98ebe876468dec34d88 0x326d66e9b97ab3fd7fdde5f76d8097dc7af5537a5820d9be2cab402f6582c29 0x2f561c128a918fdc64017a97bdf0b267b0491c367e348f58c5b0f99bb110ef7b 0x362700284d9d146c50895e652dd2a80642230410c56b37c878c58fe36cd3093c (-0x2e308a7d98b6589b05590a1f980b3dfb811367401d586a7a3bab078514cf2d27) 0x1a01a2b9ec4f7a19ab80042d9551fa17c3324264599731ea21c17be3bfec073b (-0x29903d524b34ead622b9f9f8f6c08ae7c7151e783346f3ece49dbc492923011c);
  mkCert 0x3b884e6f3b1fe3e20bc4e9cde558561ee9ef3ae9791bade9c26f1cc7aae1a631 0x61d590a8ef056f5ba41c987a67ace80fa9f790db44da43ecddb1fbdfdfd7ea1f false 0x11f8864ef92d9408f14f7f47f122717a405238bc76d6fee2ecc69d502facd1dc 0x48869ea4308025cfbd523b66a8193048093e6e92cf6e2bfdd6a96adf819d21a4 0x1e9252fed7e5c65ac21aeaf0464ccee36165d21f37272aba1aae71fb7498b158 0x529073f65279f4254768f25b15c133460b3e3b25c04bdf2cccaf41ba8fa4692d 0x19bd83faee067f726b5b08a2e747d9cfe5f74b6c0d94fc7e01f097d48d41cc7c (-0x2c4e155c594b4330c24c3513dde6aca168f02f5035df2f0d32a4f584c179c5a2) (-0x961276c7ced86739a389a9aea154fb32bb0bd6dfefa81081f276d99bb672f5d6) (-0x412891eaf1b01f2ac241ce87111bc71de686d85a52a6c250fdc442b8af383470);
  mkCert 0x4635d7803290a04e077a77bfabba5fc1c210ee73ac82c0dfa6991f60b8d430c4 0x59474c0928250fa07074f5128a3655f64498883e3746d3cede5123a648ff003d true 0x1fbc0aaf4691e15ef34cd7d79e79e7385ce5cf74abb2a3d847dd1ba83893b0ce 0x2b1d9a780f9d6c0d7d874ad31c8cef56e919b9d6002b6932d45f6ab74c0fad80 0x2a8598ef4d0b382155458aed0ba9237d64aa3ba76e5ec4f0f9923c845503c1b2 0x44c146e8c6140cea6040dea22b132cc39956724bb3a179198795e8f4432fa46f 0x1823d182e33d0202dc84723dc9d362b5b3a9ab49a122da7b898a7be286adb0a4 (-0x10222768c23bd7c8bde48346790ec1639152b3a19812939c3cc4c85e1188e115) (-0xcbec16f6287892cee7fa4ed020a0da0a515d06fd0771b2282ef6d8831ee2888d) (-0x1b32c1c6b4851baf31430281b7e26abab99584eee0c289f9b9deb8dd1cedb840)].
Lemma certs_4_ok : forallb cert_ok certs_4 = true.
Proof. vm_compute. reflexivity. Qed.
Definition certs_5 : list Cert := [
  mkCert 0x6e66740437747f4c2a860d0ea9dd4f2f22e23040d19d9514c98e5868eaa0278c 0x3cab9f363573982739fc011f094ac2a4d4ec6a6231c00b6e3eed59368ff425d8 false 0x15a96721868ec4e374a6fc221e8238313c79ee2261030e53ebeb41ed1c94b75d 0x5987551ed05243273a9a4e7e51a64a54e17e7966e967d2806f4591be5b253e62 0x6922bcd4ebd473c097d3f95445f67d037888e8a6aade8f20d338cc0a8497b27b 0x1fc061917bd246edce7bfab3e482a71c7dde16e107ce8eb5e2def990ddd28ee1 0x32404d0f3a763e6c153268ec55472c560a7a36a87ba2cb7e75cd3a6d04151fcf (-0x3af720179c5743ff321a6492df7eb95f7af46748b406c86bb54f5e5ff895ae6f) (-0x209a1813387a64bffa7fedc8cbf5f9ea49b3f2dad81abf433be95db881aadaf08) 0x140bc45fe9946929104236cc0cc8f641aadca04bec21251a7d6232e19bac5827;
  mkCert 0x3d22771ea26538838d100e461be75afef7be0a0114cea0cb2925fe2fea90ee2d 0x72f86efbb0bcbd2ff6698d650f82fc3b9f6853aa511286d2cbccb1ac242e3603 true 0x39f9ad6915de78da4f9a45a235bd57561b74340f1f4fac54c8074a2d87b40e5d 0x31c49efe1742beb6776743b4c9df4ed037492c4a49ae3c4f34f58f3084cf4cf2 0x203d3fbd42ec47926d1760d12467d8065524962c9c3ef895c4f71824d621ffd1 0x72053d5952dc3b99f29f4e0f4f0fde04517e9cd2102d556b51f63e8a9a4bf502 0x92c8e555f1cf8275aacb9a008bf06fd525df9332add6f78b013f75717e59b58 (-0x31b4dbcd3c5b67e51222e5dc53552f5104ba82bc55dda4d82435f8ca174eca2) (-0x8433fb0c118438be135a9aef9ab7e6220a5ee39c7770a9100fc81d3a1b8035c5) (-0x3bca14ff25a3c47f1f508a8f3864bb641ed9f7125b5167163ba09c593dc85ca8);
  mkCert 0x66c5efb89ad3e45f45a55db5222bb1a4b211fb068fe356412426e2014ed10fef 0x53eb9b5616fec6fd08fe8f85bcf9f280e7f643778d0d9f77b48fb73719453e33 false 0x3f16f5569a9ebeddf3e8b685b682c96779a42092eeaa34bab5c2aac418769e7c 0x14e7ce2366f7a692244c1f910174f824627d0176a24221674eb576d54c380a42 0x5b1c60468be7844c28196b5c01dc32f53f7b8fb67c500ddf65bc8ec18e1440a8 0x3cbff2fc9b41631290b65ed1b0953066e701901896aa3e10891d69f3e4cf00f2 0x262b1f177cf2397a7194362580a898f72829175529c20fd4d65697a5b67e20a (-0x459097f48dd41f06005ead9463f783f25bceb23579812be10f50172bb5066e3a) (-0x1a538528c1bc208f183b75f7daf66ec26ec0393e906d8b4c8f045249191be1996) (-0x50f8318d744097826f0c3756fd484b967f82275a68364fb0283028424fc504fc);
  mkCert 0x3bd0683c1a7194a6e4ced18638440678d46552fb35c383abf56bd586963a5c8e 0x55101f29937f8382b5ad90a03703e9dfab2930b61fbdef0a21b18c7dcd5b7209 true 0xa5b474cb9de6d37d442fb6c1346afe847e392e711b43fb5f269e6681cd9d73d 0xd468e018284d5af631efb9db8da4e19f48fe1c276a8a6c379550b1b0da716fb 0x1edc8d086d03ea529c1699c590ae6dbe5e239ddeb211b70e0805986207bf1f19 0x3e6a55a3d2ff92b78dc44f68e5e760ae011151c09a499bbf40a16240fa1a6b7d 0x6a3684665eb7f623fb50e211639bdc4d0b9036c50de51c54941a8f2ee7b267b (-0x560dec8f56fbe83ebffe0d9ce1d5b4e3f8cd7af7734dbc10f387649664fd784b) (-0x9961e67b62a1072e3cc629834274715db96466901ed70493257ba3666ea6554c) (-0x24942fc26b7bcd752d17c03b5eff4b18ca53524a593dd40e85bde5bbe785b3c7);
  mkCert 0x5afd6c161bf3d724e39f803a9c5d81c23d26759a11dab77989b552d173206c53 0x511ee09894de5e63e801c05dee022ee5840a4f12f2f4f15898a751aeb6bfbe4f true 0x4981336551f45b0ad892751c920fe717475f9025ca86b73b67af82068e1fc0be 0x6b2c158bfff7fb7af7cf6bb8c3d42ec653f0c976fb8eb80d0af7181d67223321 0x476a8faa9e6609981ca71e73d7c0d728b1f7c4eb86b544411e7c46aea9361c1f 0x38c39472aa0790102d0e0113126da5d954447815d82773483c163578a5af30c0 0x2cc300f9cd27f7f0b2a712205d9c6427fe6ae5f3cdecf350f5a1ca73456d7c8 (-0x2e154e87ee01bbaeb2a041e4beb2d2367d56eff62b94465a6f62b57b937dfee0) (-0x13679b4ce094118ac690e242305c458c2761688bd9ef86f685546d7a21fcd218a) 0x4180b2a53322f1edf3c1bfb5c0b6aa79ab08afe581b3afd25c3c62c0c1219ba5;
  mkCert 0x5dbb14e4f27e63b6b5a1522e8bead57504be14882c666c41757d1101554a742b 0x615fb9ce0bc09758926ae14e1b3118e53ea280d4b7730d28a0ec6d6631f98da9 false 0x6b0f6783b932d6d1a6f229872ec18b6cbef7073a67d7b176c83f27f0c7a5dcb6 0x26798ee2c584cfbc99222a5ce5e147ee139ae59073f8c738da02684a5350da79 0x4bc896a02fc4b733bfa4786fd11969caf582e45b399456cfed2268a24b0634fd 0x51ca06eb8883b8e4932ff91e665b3965342946554eab65ffe86f596b84f40ef6 0x1227aa5fa5cacc9870a5ba17ee5286b08a151158acf2011c7e54a0c3feedd365 (-0x1e87ca9ccaabc20b181bdf6f4f3b76f66ec74f264482ee1dc7c4b41fb7a2623b) (-0x1180c1ea65545a25f91bea7a6b434e2f7d8845e84128ad203fb8cd28a64f9aaba) (-0x60dafe41622579b52efdc832bf1f715c9243a392dec2dba1e2ae6268bf222c2b);
  mkCert 0x15141ec4b230539ec96f4e714f8ed73bad901f6d6727fd3d54c5eb27a4fd3cdd 0x6a17479a7440ecb4432c6cf941cde2c88ad44cd1dc518d0f78ff65337c858f2c false 0x68f596d608a13168295b52ba2cff5bc1131ffb327c574b7ecc2aafcd2864c148 0x217efa8490e790843bb4954788aa0eca6b8ae9aca1568a8487a20729f7d54003 0x3d525649616e090e91dd94fa7eb632003884336a7d335bf279bc7ff0ea3463f 0x61169be1657a0a962f785abc9269edf202bdf54d75e0b6f53760f5b9bdbb7440 0x33fd74526bebee97d45b2cb077bf765185ba78a54f108785ad0d388b919d613c (-0x508e15d7afecf8e3b5eb10897cc8b684c175df3f334ea7f7e455ea7b2a10061f) 0x4bdd7d7d14fb358be43b630419639ffa400934158b8116368e82f29381b9f252 (-0x75bcc721c6d7ff3b3ace3dc5ebf1086f28c98f8921fa5bb32eee7e8faa79523c);
  mkCert 0x34623c495135e4e17db5b161a4961e1c330f429584ceead4c6afd23b8ac13f37 0x462acac41e993f21082e43cc543f5289f03e097219d5a44a86dea4f394154b3a false 0x730c101299ac66dfd8ef1c4501f84ba13c24156249c8b2e20b4a2ed91cb30b5f 0x60143061c500d4c0f1523fcd351c84d1236519f58834221650ac19b903ca2829 0x17ab9710bcc5b80fea79b92ab9680f68baec8fe69c7156f733792df7d232f6e5 0x2a78379f9b4adfd74c9b4ab7b979de9c61d2493bd7d3d6fba1c469e0c0dab1d6 0x406e08fe9e856d7c11ea2680835530c8ac7dc1091391d4471e18c7fe2fc523f8 (-0x3072b5cba92e11ae6ef158227fca886ee6bf659bcef0d143871c508073acd0df) (-0x42dc3848e7f87be8fe525137141ce9ace8c5eb535f39006f185a3f9af5747d5) 0x1119b09dc578f28e9a827f6430738e50923a7b009d8936a2d664d7dc576acc74;
  mkCert 0x20fc3086ecdffaaed0c96d06898e8187dc17c85b29d38c27a3af5cc4f76aff94 0x58be5970f1cb200f953feadc8c757c0f9d3fcea74ec277e97ca262e2c70b54fd true 0x11eb516233ab033b4522b91d7c4d39b0e51580321e77598d480659a5e12478a 0x68087c3577293bee1fca0ca84bfe34c0862c48ca07761f0ef4f5ef60f1a973e3 0x962a08f14cf006393c2de6c22a4306229c3b6982e91f9961d7312d55e77732e 0x43eefa2c721dfb99df5f7cac2eddf1960e9e5d0951479b42eb3e1ffc7f674196 0x4453149dcdd1668c680afe3023a1a0fbeb5889beb0bd1d7294259ee72b440cbe (-0x42ef2fb1eee1a587d8d8fea7012e13af94b167be6dbf0d05606e17466bc7f70) (-0x2eea5db9e7281215cffdacc7fd80ed83e8cc65af5a3cf8cad5378c36b9330d6d) 0x32cb1b1587bbd56ae5d94ce140f70ecc98c3315f33323003195a2921d499e209;
  mkCert 0x737b6dcc3ec92db01c53b86e441ea8a4b7874bcc1fbffa11ffb779bf82736376 0x6f6611816ce37b754102b85198fb6f30b4dd3b85f87455dd077f61ecd6939751 true 0x357f5f9ba825cb00cf128b79edf23d9f5f3ad8fc0f1b27bb20fb3c6b74b95ccd 0x1db64b5a84149269ff41300af14d4217ebb6d4aef1b83a2e00e4d6140e339c1c 0x7309a4d12330b73e5a0d7da343d94fc950b93f47f28b14f97bc165f548e38451 0x6b0bca8ee9f1004031a3e00573b10170a3cdfc56ee45584f209e28344841cdc6 0x10c298b6947cc566f2f46e282949fee11577c47b39e2d915afe8bb05fb7ed9cb (-0x4556fe983fbb84f21f044c38da30876e0d5348f22d8e2eac9e6c84b03a79e3ff) (-0x2268033e9ba79c71580481c8cba4680f396881b1701ff8e45309901a0bb5c67cc) (-0x439618743fbd4f2dab98e041585fb15016b5e22f3a4e412c5b7de02364c0ba30);
  mkCert 0xd3c1364c75217240ec411f2ae953222028fabaf482d6cf53241662fc557e9b9 0x69aa3ef0a4e4b2bb27137e9b5d9f758cbe8b8135ed2064898624060581a4db61 true 0x4e551c22047890f84f4e6a0d8ab883de6085b5621660c854434b87c0f4a4467e 0x32d840cb2b3ce4c8c12e9a10b20a0984c2d42f73aaacc4ec5e14b931c796f2ce 0x182ca90abe94d2801fe49379111044fa91cf6aa6db32e7a9c18b2d61857c43b 0x604f724e2eb60689759100680d068952d04cb2387839784cba546eb4b0126144 0x46825a568fb417da1cc3b78cccd94f236bde77bd508d1f07d74cdf30ff3b9f (-0x2a9da903972798b3ccf03237b588fe117c4ea526a6647a494ee23940acbbeb) 0x2d5fe0215b787091232b664918b981dfc98f478bda6354f48e979f2d7d37bf8e (-0x2bce0c2bb9157ac0b3bfd6baebec6820981fc3b544c6963dad85c925a5cb85bc);
  mkCert 0xf58a25ceb34fbd33860ac2ae0f0ccc5529ae264fe57f2ef5e3e60623a71bc53 0x5c6c34651abf5f19df575058bd85ce1caaf630c31e7a860ef8dd11f5d87c3c27 false 0x5c871ad3132add88d2eefe4e3823fd59ea69db7b1698d566cc230703c5268666 0x61196780d6fe27804c7c08f9149054830f0ea23f70276791a4b3f1b7a89c13b8 0x2080f6a3e78228f0343a21b54799a9c44517b6d317e65520eacf726e95476a7 0x49aedaf320a997a4180a90874e2d1efb6dbcea05a5e68e984dc82b13dd7800ee 0x93234ea9563dc13f279adbbf86e567bb5a61adf2d25633141118cdd598d127f (-0x360df43052c2dd034a56a3a2afa56eecf9c6f819551ed685bba4ce51bbdb8c59) 0x3fb178631a8d504682293c93be6d110217700ff6f5ec598a6669141021c6e216 (-0x12c6579d4d4fad9d26d122ea8e86aa5d674b4637015678f7a587b434063925e0);
  mkCert 0x66525b282e33b46abe509d2873e29b6467040d23b756d344331a73f2bef51fdc 0x45e6003855490a1c2216653fc2bf25bd03d0787ece485e09e4166cdc21b8fa70 true 0x36ce0345ad65036909202a3b524abd34c502b0c126e6aeff24cd2ae9ea988dc 0x411e6b1e7172962dc340e1052f9ef509bbc4d30f040e83c28f91ece07085955 0x5a4fe5988d31c94874c4f17568c3077135ef2863e0893a15dc9861035ad8fd56 0x2a251a698d1152ccb473226f2b0dd3fc4f63d7070f14d4251df9ff3808c6a047 0x6ef1cdd73aedbb77868f3cf1808c3cd4dce7b77ce59b068561b8350a4c438b8 (-0x22d9fd6fa103bd655303f998cc9ecca4ec0fb5d2959181565c4d52b74db48a88) (-0x1c375935658bccbca1f6e9081e3560ae29aeb2429f9fb37d58da73dae3fa89c41) (-0x1605507aa8d0217c081efe0585d4b639d2ec4cd27fc33e3002eb7af2a8d2cbf4);
  mkCert 0x652b5522405067e6f63cbae0fed41b809052d2a56535059f3ac8b36d2c4e585 0x496252b50fe4f6838709f54770fe71b6cfeba70afb90f0336d7af2f4cfc355b9 true 0x26de392fa51c080086fdda6ec1e7dbbfb52c4c9b935dcf3df81edd9944728714 0x7235b657b803060c04cc8f1251e9f7a6d9d3e21b9aa819914a6c05b3d91426b8 0x584a097c9b1365971bf980e038c0dec41918b8471fb768650546f3692a1b98 0x2e73f9c579548305cc39dff97106ddb74a60025c7ce4adfb3d4e2618fc3cb5e1 0xdd09cb30dee4de2a43047b69c6c2b28dd936499916e78afc07634ea5340de5a (-0x205656fdff31062cb8137822de87862a205b2ec8aaccb87cb457a2258583ef30) 0xb4ea197f1279a92def5b89a070af846f70a951991814984563aa474e9ea0612 0x570a9bb6c534a48c2f4483de5baee0fcef97fc929e84ead65596dfa1894baaa0;
  mkCert 0x657c4a8cc8cb80ef24fc4b2834041eff4dcaa4cc40aefbe2f5bef0e87eb5a4e1 0x4f01a9f09754d1260a6ab5c3f065eb562302a390cdc943a22b551e52dafd00f7 true 0x2fe5707ac6970844b0308c322572d93d4947acd5e09527e5d9578c0aaff36e98 0x5c31b4694300387aab5c26e54563e26c8a398a886a70cc32451987eab8c2fca9 0x58d78fab332c776bf3aecef552311fd28290303a3fa3d5dc974a4568eff0a520 0x35d806097984eac5cb1f1117ce8f38f5541d1fda81599dd59d52438e4b547672 0x69a40829d680d9b159e4fdfbb9495957c962ed39d1b81277fc4218503beeb5 (-0xa436eff9a8866017d73ea09d16310954f217cd268e8c6e40bda7cf480e453cd) (-0x1a86bf1b0c6eee1487da345766ebd02b31cc871fad92f01c36e9ad0f749704a86) 0x2a0f69f0dae5dfda1122e3cc5849dd67a9e751e44454ada2a828e90cf3c22e35;
  mkCert 0x11ba12dcc5f5396889dc4be56ab1f25b1a0d76e430d901f22f0ba9c25678c650 0x69678d85693cd0b83a12328bbd7372ab29aff02bfebdb6c823206bf025d5cc95 false 0xc00858eb17f72386130f83ffc8c53d8f69b56b709776e4f78bc873061a8ba14 0x68d575eacdba411c8e28fe4e50dc8872fc9ad43da47bdeb67586f0c89da0a757 0x2b5ed347c1479174bcf33f4af4d2288bfcb313f9c4ef4a5b404749479eca3a4 0x5fd604e8422cf8572640094d59d59c3ac9a15e4964f22bdd88db4f6c604e8fc3 0x27e1b696b2922812331d728f9c325b5473f6969625f93f8ad8a7131c0d451613 (-0x2512cfe0fa0f6a7cd2b76a4b76c66750d9a37404d5c17ba2f124a2d66101988a) (-0xc4f890bbd6830658f2e64c82b7cb68de800080f0d39267be84bcd126d9e2b71) (-0x1f2a81c3dd80abc0276fde9bd258d070fe9410750b08b02da7dd81961e2d8edb);
  mkCert 0x57a5dc711949cf924f38a734c07a8a8643b1430b488e7cd78ebca551adfbf2dd 0x4a766a57cedcd391b633bc15600da1e3cce65749b7954ecebc8cde573a4d413e false 0x6edb4c0eaaa0e1535d59961b665d669100be9f175472492488f191900e9d68e2 0xb176eea5872a5e05a02cdc8e158d7d70aca7344ff19d1b188f7c7c002967b7c 0x424432d974b721928926d54ef65d6aabc1921f79c4d6c6d6de566f952ec0d7e0 0x2fd4157adf873d5040cfeea84252aca3b3fdb8768fc7f57706982a7100c205b1 0xba327d69de0672b64f2c65db8d0f57eea8af477311f81e1a1e7389ab89b1014 (-0x20bdde10301361b2717f726c30645c22b83a011b2de4f17b69c1a0d6c15cce9c) (-0xe15340526197457c33228eb58fc4859bf8bb9313181034bc5d1e2c31a4aa766a) (-0x440da267a1ca5da585c73714704485dbe2e8dcad4bc8357bf3b793421225d925);
  mkCert 0x59fccd2e8d157dd85aa7eaa310b75c963a0e351027dd0b9b6460954d1f46d09 0x5f1486ef0306c7d57a51973c58c2ee5f63262368450549afe728b8af521282fb false 0x46de7823743639c2d26dbd534dd37ca748a5c1d9a4ca90bbbf0fe0b96071f887 0x43505a1ad26d771483cef930e74e82c63e3ae7f7cc7863eb817790e284a0620a 0x45d9f26149748ee9fc3f8f8df6433ef86187c7f3c9f22e2a7a4540eb60a4ca 0x4dfb35ff02d9e684103462f9c18f7a41b34a24dde4a0fa17dd80f9a723306fff 0x1bfec09505a452610dbf742856bd464df0c0a9f6901f03d784d54ea799a934a7 (-0x251af7f348bfaa2029e6c728eeddaef088c13809220506a2227d6d585a600e13) 0x29f58d67f89cf73cf4b58bcede8889c22f340be20a4b74713059a347f878839b (-0x421342308e530f0eb79ccba7239b79956c4ee9c32b13a5e1a92a3966acc9667c);
  mkCert 0x5ac4d9f59294968d6edcfcba69b7d15e678a952b8ba999432bdc8ec2843577b8 0x4437be53fda324017f91831931958ce520a1b1752ba414ceb96f84b3dc4f3cfd true 0x57680bfbc8e7d0001028a596cb55a2f783717f48084f3f2091f45eb8c24fd2ea 0x56c83dd63394d5d380d2238046cdb6af94c1962d9607e8cef951402eb16094e9 0x4711ddc885936346275fdfad934d0a809ee7c501ab7e6b109742cf358e34eeae 0x28247f625676dd883c5aac8de95ba9d84a78c576aa14b0bcbcb3c50cf7805a95 0x55ce8fe69760f42497c61b19085a0b6af10eedfda161170ea7e12c88406e03f4 (-0x5cf80881a8a4b2e74f8c39cff66f7860e4e1174490160e64e30b1a876a38b353) (-0x121727958980fe26f130b01e5da273e2e5380549d92f874283d61d1f130ae275d) 0x2c5275db7590e0a0cf883821065b3b34f2fde7d406ab95677567b435155c82d1;
  mkCert 0xdd31b7b868dc5d934da5fda8cfd991eb4aa664ba6e751e28cc7f6691b3f0c13 0x5f6e1b09a56aa45cda63c459a2a43180b1cf29a6fd1838973ab8f20fb3f6690d false 0x582fd2903b0afd6d5232c1631e71426820cb24d82675c1af1c373fec7b77dba7 0x5f8dc6f4e588fe7ed78639c3b8594012f0d784ecfb07c6427af10cdde4fab6d7 0x1a60b4f1be065dbf68333b00cbebe4059721c6e91495472870c96a404494a9d 0x4e8e6b5c936e39277589a56279605b8924a75c76c563928083c5d57a25ea5511 0x1b6f45fadca5ff6d7c718cb08d480702015a2b72f409a5b3c019936a6e68f809 (-0x394788d0a519e0c0a802e603e3511f07254603b387a8ce23163ea499476ddc26) 0x3ad73b2ff0ddb959c59d6a4b1d6d956e6d614b8c55a2043705b5e4aea81e37e3 (-0x1b1374c87ae3c88d9a268c6f36c821cd9c9cc5d8623cc322753edb0caea9565b);
  mkCert 0x3aba75fc6860f3240ffc97b8912fc8d384f96ef0dee347e28271781661715a7 0x3f4480b1e41d2b229ea3d196f798f6f99d7763fe92d8981cb38e3ac34f0effcb false 0x2d6bad970364906f95958db4faa8a119c30e3f7268fb40ca46f189188afd558d 0x73472320916fd3f2a1bec6f6eb4b59f0979b18953a92c135b80d5681e67137e 0x1dc0564bb40b726a717ceff63b78298b2947dbb41499e836a57b9bc78fe064 0x22873310ac099de3ef24e89c009422839881ed784925ac6c91dd10585e1107f1 0x1c8124e3777693cad678f333151e47707c34ddc84ed654da293dcd23c453f552 (-0x4efe2661298ee4da15d0b933a80fddd4863934099b105eefc54bffc0557e8794) 0x1136f50f880c1e67c6f33c16d0cc9cac984761f392514cc12256b61d5816d0f3 (-0x342a87734e216b0413c4f09cb94ca0889f4bd3daa4146ae4f12c039fd6037d1c);
  mkCert 0x5b45366b3a0a22016e6b690590ff9c9fa816cee3fbaded5348b93d892c4326b1 0x6b6346cfd46f8df41547f8e9a45a24592414a7289beb1a6c1a204c520913b810 true 0x64c8f3433324e1950abe435b093a97559e4c6c88cd3bb6f482623e275286ee9f 0x1ac112db11b25a872d0828324f9d9a8e4bd78163f2b2560baae0d4835783d2b7 0x47db6db9f97323db51f03882561399d49a463f72bf4aa851e5dbb4519e768660 0x6379f8c6f8aa3ebb966d0c15388e87fcf35433728c93b2ad676126b74bf7caae 0x1eef03aae810b04fc282f1424ade05c7464124b969719c6890264d4d98de0db1 (-0xcd1a0177c6639292bba0803b352e9d5b289f422bba6132f9afec94c902a4afb) (-0x10faa7e78373c6efec7a52287a0d27eb205d4ee80b554e3d3b97f3c830f9b1925) (-0x3e9a9f7e57cc3b1bedcf3e7cf0cd22fae0eb719484af2e37e109c97ebe5e2c9c);
  mkCert 0x2da06dff2de37f57204ca55cc8a367fcead1c6718243a39935dda23936497014 0x427ee6e8966b40a120c776dcaf645a3db955de508c4f03b344c0258a81e2f4a3 true 0x700e0f649c6b23f060633323db87ecd522c5d3dae7247bdc61af494f7267e4a8 0x119cb2de9a88a7a34398b8df7d9e1fc708a083ac0d143f067148421e6ab6c9a1 0x11f524c77010cf88720d74ba33b9d9450b75ce855dbed2e3926f71b988e0df44 0x262438c7249b0e8bb3d7e0a4d76711b252c3654ab8f21ff80779a6eaed82947c 0x21ccf71c7328b97e9d5d9ec460f2979a1caad3d6f6cea37d9341f84ef3c0dba (-0x4a68702292128deed5a6b87d0d1d5b682d924c555fdd2b1e8822f3106c72bfde) 0x1285e12a32446474025c60069997b555965888e526366f0ce36a59a6ad0c266f (-0x10750d954f6b98092891f01066058b9584026b30fd563492708a72ffe45b212b);
  mkCert 0x56f9004588581db153e4eecc057cdc988d3dec2d5337bbe4da7feb4c919f1885 0x539ed07389b8d60acfb14e24bdf34ccaabb9c30563ed37c10b9bac53215c7b81 true 0x1c71a94255cb4b9c5bd070f35b2ba19808d1ea5a3d199d8e4c59c55a33af3202 0x6a91aa8defaf41dd60d6d760a20932dcf6b8a82de8b0f1f659768810876388fb 0x413fd2ae7524ea5b271df226c515913ffdedf83d6b1db9232da22fb7c2031107 0x3c50f7c8887af3013ba6f222a995f6ef98a49c647117a7d05f6eaf0063954c02 0x1b4970412d0fb7a741be858145248521a405acf87b13d67789f3cc55aab8c774 (-0x13c2b5d08b848c69dee34d1028c11470a0398da4a79666f9849ece4cae2f1d72) (-0x13f447f8d123c3060b28ff1d8b52b7e34a325e22d34d8829f12b17e56734b417a) 0x3d8d8994e0abe227e2294ae107cc2e608afb088e00b00bbda1e8d3655f9a9019;
  mkCert 0x2edfe2f0fe0cb4c784473faec57c1d9fd2ee23fcf2488d8f2c18db168d0709fe 0x4330fd5305a07448d58df12b1181f14a466744903536d87c46b7681a19e76142 false 0x27df802e9b5a2178bb072ed4625fdd4d1401d70b0202a8778d1ec8f8a4f4d50a 0x15ca1905bfcb50c4885fe473839adaf1a5e5b6e6d81600159f7be2423c9d1dc0 0x12f40b37b4d8d7ee700308513777e732244591f225b1c997cafe0dc1db89fa88 0x26f19710512136febfb552efb8d03f45b268dc05325e5b1be9913531c87c61ac 0xa94d4d57a8ed4be8aca6c5816f3b224e6b76e75392f5435a14e0a9e69e63326 (-0xe791ccbf7b754d305c9e338649cda8d2d7582f377d1645a95c07b61d35f132b) (-0x510d64b19820b0eb1c5b292e8f7b84fe3d3376cb9941df907549d57e1d0d93b1) (-0x360e41e18dcf6d72272bc308fdffb9adc323f787690efbb14c21c9388075346d);
  mkCert 0x290f8d0473233dad9322c3c563bdfbafe730432726427592ebb2ba2aefceb678 0x51bfda38d1353557d1c90b0a4175216951b4b8acac2ece634888b878da4aa448 false 0x383b16754a7bfeda7aa9dbdd51086f1c4f2c32aff410827a2be5975c3fd628cd 0x59d29401ed2240746b87e1eca5ca9011fc25b4587707363ed373ba498ec4485b 0xe8b18202ef0d495eb4028c6bb0f01830c2850beb5187bdcea113b20d376ed94 0x39a5bcad2bd1250e4576eccc32c3dc1b2a63558e467cec6ad355c5dc4f8b44c9 0x1e21790b2c3e92bf369c5356832f6d5cfa0f4126851da0442b70c5237dfd2ce9 (-0x221fbab82af8f6f23d0107490b20e2dea764fba9b55d7d5477cf7dc7bbf9a2d3) (-0x2d712980354b958fca0e596d055eec5abb978cad195274d194669b7a04ad8518) (-0xb6bc0cf4b2adb67ffe6ac93f5ad9db44fda5bb0e0ebe42c6482b1116f893924);
  mkCert 0x2ab9e68d55978174cc3cd7b175002102973a3a28955c033d1e1e7fbe37f08c8 0x661b765cc5c95da4f780c064130d1b188e35aeded63162e2ce18efc34fa06d13 false 0x81f6dbb1b7342cd3feef09282c82269d731ab856a93bc249901cd4bb3e8f39c 0x5dc8d4d37169a758d3f7338e1698db02941353df9da04cbf705566528c647c15 0xfbf3ccb252e1e9515f6f9d54eefe7f5b6086549a4520978106968031cd6db 0x59ef18c84c0fd1c62ef0915acac7e35cbb0f076031eeddba1233962c36c90eff 0x467e9c5fac632f57d0bff77c866980a33a0e3c723f90e29bd2547ef1fd9331df (-0x1d9bb08dfdf45cec616a63159aa26ae8845d84a982aad36de14102e46be39cd5) 0x42f6eba70c202cb5965c0e096fe49c91a7b4decdf9486f35c4b3df98dff9cf (-0x2b408a6aeef3a2c47e49b24f505bed88a8eafe7ff4a45c751c705b1b276bbdc7);
  mkCert 0x43d4ba1dbc9d4ac73417a8ed5485bcd314343d2840411eb654ab55a6ca26e8e3 0x4eea7496573bf0b6c6eedf7ba1c444101af31807369bcc5a5da8c15ea50b2216 true 0x40c9a478efba267646298b841b1670b6215f26e501d1d51a1cc510d71d7b6fb5 0x73dc1602a608b936c91d67ae53f4d2de5bf433d80d5049a9c461ebd41226fbeb 0x27b04bc49383313081a04f853a3086a09addd59ac7f525ababdcb6219eaf4049 0x35b8687b81492f8ada6666b29e6da46b2d97749d8707ba08aa165355bce4b072 0x333c6975f3048a52f961ecc1de94bae3015ea5cb392c29b316d3241424158646 (-0x5046ed3fe77588ecb2c80912c41fa81ad2a348387b769061b3eb469b76ce6865) (-0xa23c6f1101de05cd54756cfcc41c2da78883e6b049bf860592522cc07594a875) 0x54a13ae063e9aa34ed89e6b22dca81f1a42dd59947f2b040863dbf0b3b54cd3c;
  mkCert 0x31b87ed495992a21509fe3c2b4501be0ae04b47810951743aa147a71119dbefb 0x733024733b9c0b5330c1e4021f9dd5c5174ceac4ffa593ab51f9744d199059c4 true 0xf9f6b12f5b33ecbbda4d88d0e623b67d5acf921b52a7325e0493734c0622a75 0x6001c1356b2ac14e799b9097b3db780290e16ce86cd7f5ec75324a0e3a718c22 0x155324f61da0cc44c5df013127b231c22ce582c1b95f1840a400f7527c499583 0x7273d75fe66e26b614d8df89a17c213ca3724fee59157c34e35094509766483a 0x4d41ae00e4184abe2113070f466b0048273ca69b575cdf64b28722ca3b28351 (-0x254736daa15cb157dbb9cd8c46905efda2215dbc80b741d01e94c903bcfc8a3e) (-0x6884c0a5a792a7f5a17b72d5600cecbe6a852735d04a26565a4300ecad171905) (-0x2041231dc5d4d8e0650c2cec3dd165b2392ff6346eca235714b39ee436a4321);
  mkCert 0x6fb064be3b0c67be3e351b4035c38fee6f42d2797b87c1a78b13015760939bf5 0x3d13d2b11dd2ea77dba646ded22ab0e41038dbc33fa4596b1d3faa631200018d true 0x645b8b83a8231a4e600a4624f13faf4de83ba1878af96ea0894726a12956d843 0x32077e90834444204493a4f6a6be49c3c90ad130f7f0f11c6b7562a69581f134 0x6b9ad1cb9ca78595484d80a39c29ca85ff49abd1e4e9663303328ecb301f9eaa 0x202dd0222262966ab8c00cd9df510bfdaf3b264965a06235b34b44dcd7fdb472 0x657fa2aa9b077aac2e4845f55137b17ca113f8f21d0d345e639a4c25fad6d036 (-0x105512386eb74903317aaed4d954de951d69b54f08da707db0b329ea8b719a4a) (-0x1c32545ec8e9dc42dbd71cfb9da4814a347bb52e4744ba608e6a3c8d6aa2dd8d5) 0x6defd4c4990c83511b690d12e29b539a55afc63bb94774ece911ba75c52b790;
  mkCert 0x32c8f52dff607635a3c3d324fd415c270ac3cce641a9c5711ca192d863cef886 0x437e1b57f847632f720d679d0b5c2854b3708d9c923a12ff7059397ab1d2d9a2 false 0x122963610eb2a68a6a85492d74aa5a50685780c79978d6e74742d743f9dd5f36 0x27a2cb917d3383e54b7c1e65fddaaeba58edfc73b977b8e514a3912bab85c8ee 0x163f5bfe5666e1c524d9c1656ef7ec818c472bdbd597a5dc06edd49a62fbd351 0x274b2f131b68e6e401d2fb9cde39f69f3150b58c70388b9e783407bd8d4a4615 0x99b3c795d993546d65ec7ff1bc42ca34950ab6228d4d1cff212e1212041f126 (-0x3592a6b3fe98f2a6e0e8f3b1de3b2f1c0a2d3602999bb149a9b38b653806ac32) (-0x6c6468f37fd33b7815be7108b4e70019f0476d4a7da970a95f6b3ec72df65f51) (-0x2d0924888c861ad91f7878c8e2abb9af739b2eab5f5ed184758644828606c9e9);
  mkCert 0x712a32517f7efcfef5e4d097fabf3072374a354e1878ad05b287b4b392a4ba68 0x67fee59d65f09661454cb6d7e40ac3b1c9274e9600309a34a2e192566af15736 true 0x2234a78f4f769b0d0cfcef1ecbb5b1e0bdde4d6a744fef88bbb9f1b02cdd1497 0x5d7c87ac7e50dcda232877b99ffbfd477ff361c7dcb6a9fc56215a49dfaa9390 0x6e779a9869bdeefeb0fe28f3b5fb9dede676ca2fb76e55c8bca99f9d172982fb 0x5d4a91ee4e4371a9e47aaa55799de98d731ee1ad49792ccd52f853f45b52f6b0 0x3a4a238f6ca510c25eb587275a51a0b5877d11ecca15ec8da55c5a88728ab7f9 (-0x4a626c04cf51e58ba69db524e89b89823bb48502041e53edd01b25dbdcecf513) (-0x21e3e4a7d0ba77e8bddb582657c6a148b4c36114dc192bf43849b52d57a8a8230) 0xbd378237a35515db5b70a19c4e88c8e4e4a73d9cb7cc33a454c03f75801fec3].
Lemma certs_5_ok : forallb cert_ok certs_5 = true.
Proof. vm_compute. reflexivity. Qed.
Definition certs_6 : list Cert := [
  mkCert 0x5077ea4ff2219cece8d0d3d18c51fdac326a5eaef4934b960bda12598b904273 0x6bd769b2719b07c9c14f1573b136e88ec8d1bdd047bbdcfb7d53a2e9f3667e29 true 0x3efdcddf3b5c181bd5f4f21e1e8fdff01d5179dbed16ece10665c753f69e8cce 0x1bfbf3a257eac6b2a9b52625f4985639e0f5470c58eb3e4b37d1233e9eebe258 0x37dadb4234e26c61a70045e7b307069596658999ad9ae17504594e3390961cdb 0x6451964b84b7f6e7acf99aa1ec1ce266b70f732cfb43abd2c8c67f22fb0a09f2 0x59fb19bb60d50309035de357f3f4c3ba5a4f868d9d4466b9a55161281e7e5400 (-0x34264522c1be601645adabc3b37796fc1e0431b9d09d177d0dd17cdae1ca6ec6) (-0xf50c14e25ff1d981cb1a1bb151fc1143aa78f0d2238fda91cd849d388363888a) (-0x3ebc5cb1d382daa77f959bd3f438049498a4c97287ab64fb7aed8d2620171c20);
  mkCert 0x61ca77d59149d5948c94ac39fac0be0cfcd6b237021b4844ef07684647832023 0x4785f488c498047042669c4831e7b912d7b53b87d10cc24b663863c3a12fbc7c false 0x1cf6d944d45191533bcd00800b7ce062c52a924acbb02765d827fd02e61c68a2 0x4c563f6961c054522b4f339ba71f9ff72a45a631f0cc1b5c92ffd08574b2c6b4 0x527dba2a535373b9233d937d0b0d8ade66ab021a937442d991093fab826a8f65 0x2c20874bce18c1dcede48847372cabca35af2d4adee00a7241dd68a4d2fe5ea6 0x1be91fe30315993181f09f107c1576675d400adfc0ecfde5800bb367d994ba6e (-0x4c385e757031108377d4f17943a998576b7420960b39ca87977aa8a30f5fcb21) (-0x19538107865ea5301ace3a82e21803c03006012bd5b5367b4d02af65e7311d16a) (-0xe4e65288dd132384a991a758fc8daa2441da3b41b467a6bffb81e7f23b98e95);
  mkCert 0x46d39a2fbe121eba80b2430b95bb28e66c1c0999dda68a81d76e978ed5511233 0x4ab8fc8483bb47fd19b8ee8d2daee9ebd7c890a58b9e79c064c993b5406e869b false 0x67eb301c5e60fbc1f380f3bdecc6b04aba5bf30c22398af05484e677a60383d3 0x21076755a47ab0d4a83594d4f99836552970c00ad1904398c5c00c5cfdc7591c 0x2b4586d8cb29ac656d6499ef36c90e3aea8b9c02334612fa37b398b46e5f23a4 0x3029c09caaaf6fbdb02148bab21b37305b210433d6d18520323237ac23ddeb61 0x306573e8e9a2f9029c38c3f570383798f9bdedd8a02964a2774b88d5ab0fb957 (-0x976da985aac2a708e19f85e373a8f5b36e14091f99feb4e6dc7e48056e23409) (-0x7b346947f3075b901ab52592d8c75e41865937aeca39e433e28bfc67f3026ee5) (-0x3c1cfc305cd12ba85460aa2fbcd7a6c40a1ff820774dffa6b82e675f459ece50);
  mkCert 0xfef1ec614a2c5aee320c7cd9a7c59902ba04e97b3421716b78a299254723fd1 0x72974a45d8af26a87498e0245ffc35d387af36ffeb8a8af16b75cbd609891414 true 0x49ef4b2b889bcdafc8f542388ee415c38d7a79fdec0583677c3a5294b4076071 0x6a7867cdb4e956f4deb000a78c21b8503aee2da82779c2f5c1f121cd04ce4f6e 0x230aa3d7e8e8034060d286aad7a8c161772eced18335bf9c4ee96419e2accc0 0x7144e04cddf2ac54f44f3565d33a2b6359c34d8beb102b9ea30822606efbd9ac 0x1a57c0bdb4a2d797c5b77df56a48e2465e9b2263d9c53147e1b409330f41a516 (-0xb6c37385d2c3256baf88caf91c54faf1d3060ac07ab8b12a24d0eff96ba53e4) 0x2433cae1dd047f39a0db3f29eda1620f023c3a4a3be51df06eadfeee0c4446bb 0x1145a7eede47ab5c31678fbc5add91e3500de564f5cc15637d6d4357a861cc7f;
  mkCert 0x3bf9a2632f7546e2e6d879ddf104fa1323b0c84a192090e32bb9fc17c59c1b30 0x66f75bc64cd0ff9b62bd81d7815b4e2bc938147d84f445f9cb77cd1517206a22 true 0x3472c3bcedaca9200b107db984b6de371e06d8639211db4bf3cad43079e8b76f 0x20c910a43f7b535211a9609b917141f8a60efe3045fc0baad038a7af1df7587f 0x1f0726aea82758964c160448eda5cf2391485060a83aaa115bfa70a3a1481be2 0x5b741607994a8ccc17d9652f8b70f53de9009e0e0c84b7b18470dc73ee021775 0x36469e4aa7b6829a76fa6a214dba13ec84664d12df99f9e34467aead5c7ee962 (-0x25003870605ef69cb39f348a5836f6ced8db6be10aa5b6ce149ecb1625ed9a28) (-0x836937ea70ca6c8a93ce98b9301fc928a5136c0dca6f6d82e3728a99304feae0) (-0x34bf54cd5d14ecef3d39c3a52ed9255b0573f6a5564d341ca78b26ec8fc77874);
  mkCert 0x70aecdc2b11b46ca68799cb2782e23d601e109181f7dd8d762335cfcc80e9acb 0x67f863f904b200d7f2e11efc8e52a18925b83023fbc3eb11b1121cc8f045d1d0 false 0x3491e34664ea42ec2efaa229a779457f5b70c74edfd7c5eaf395a6b29dd71883 0x240170708e8e22168ec6393744601bc72d14c0a5847af1ddfdcb2b1d2dce24f3 0x6d8736d60c1715bf6d0d5c7b6fb9bce3a0796edd9b9f29b69f24c5a65167b313 0x5d3ee5e7a9d6eae61f31b4039f669d6af1d82f72eadd81833522b5b8f2d1fdbc 0x17d7145a67c2d927d9e05f4ffde39f2d34ec2bb435584d63bc1dae74506a6fec (-0x19e94d1239ae2d108cdd8b43e14b6c011922fffa8538f04fadea4911675f2ef) (-0x20bcd56fba959df4e52600dcc79fe6b2594467da7d8424641d60f5ea28e9d7dd5) (-0x6fc8b4cb6ffb5d8316c9eb6d8abeb8e800dfe607b13f6847ed7ff70f53ce1704);
  mkCert 0x301204f5ed9dfea82142f3b575ec4a755700bba42ac1c98817a0bff67ee503d0 0x5cd6fce68f6a28bc86b02a39cf2909eae7b443938fd4689f33ee748fb15b4dde true 0x64de7e53a26f4fa2092b701da327a9a5957dbcfc0388b28144b7179120ddb2ef 0x506e461adf17cc5075639e0de9fefc646c377653ba56258dc23eb43eaa74bfbe 0x13eec404efbb1e43c9adb9440cb878595172d405b40f477dce62ee36b0634bdb 0x4a5980ce68fe0745ec36ac3098445e4938f63f23e5657673380b517f4e669de1 0x106de0d18a0ca12ad24a7912f87b447e2faff716a1515632e306c54faa126652 (-0x5fdc61f805f4d76c3420c8c106394e14debd2391c8fa0e4959690a92a86b422) (-0xbe5b4a2782b06908ccca7036c84abe1c1485bbeeb585c57c79d524aad3171e0) 0x7fe0b708d7d1fbe48d65fdedf37cfeac71f1e27555a22b157a020fe19fed0d7;
  mkCert 0x5bca90afb2c8354ca33131f2acddab3cbb3f8b68718c729eeb977ea32702c6c1 0x43564c20fcc2cc5e187bad136270d728edab5c37014afb59f071ba5f2d9345d9 false 0x5a20a6202667fb652011b368d09c53a1b12f80e504712ddd801fd49f2ae5cd11 0x435404cc8438ac8c6fcc37adcdddcc104b8913f8db150d1a3167c7a138c7aabd 0x48ae013a8e44641e8e5bbdd1c6499d0044d32202905038df82eed35a0ae2d88b 0x271ce23f71a89a3daf3bc58269e6f26015a0f6a962eb2f6011acb70b880b10f3 0x308e0c381b81a677205337f31e642288b559d107d6d930c063cc4d1dd8008f02 (-0x4a82082186709cc138041bb9d5cab667cd1e4a3fc9fb7766d49737594ee2a30f) (-0x1255461c4cec66a899019fe3be2295e32541806b293fe7dc61194e78377f15865) (-0x13426ab843a058a43149a492f5ee029fc6ba3896bf8cef7c31022bfe6d48f0d3);
  mkCert 0x6b116041162022b3ded925d5c7187c9c140e6193d3ddf241ccd9c760ebf78f55 0x5b7dc24504f571cea461ae342a19874aec02140f8c17e0854350fb553236135e true 0x165914d8ae2c073a44ffd10428a460db13202b69dc423dc04e3397f9ba06298b 0x5f194dddc0bbad19daf3cc1e65b5fa6a433c7ebb3cb024851636788b060d380e 0x62e276c50f66fb32942b84f9b485aa398b170316d83c228ba3360d328f831d57 0x483492fa8508c4f799b8b1c1cc5657cc7fe6b4aaf898f29ac36fa6eae0b3023f 0x22cb6c8e736850c3da0cc42ea118595ff2696cad314d9f459f5a554c5f5ef452 (-0x1f0f08bfcc2a56c2afd4ad2460a96c3d8f039bb137c3c7d0c29891862c9be94e) (-0x1ea1d7195ea4ec8a47a2f51d889e27ef5cf363105acdefebbb51b3a36d01c89a5) 0x1ff5dbd01edb01c160d95f2edaed82ef2c8980153a4229f164f3916d0e52c397;
  mkCert 0x6ddbf329a4506bba4d864590639fadabba005bffb46387f63afa6042c79d7450 0x6b143cf1bc4cb79ec806fff5911b7a899b393a0ea30b186922fac4e8e780a60f false 0x72711d26a8bded34139c7b32cc7f70a8f3ca57942d64b74036a043c018a9bcce 0x17fbc2d7dfd639db348735ff0177ecf74bba0bb60f191404de87923ce66f9fd6 0x681b962b8a054303788b9d2080d8a56b5815207bc89a6937d18529bf7c584d18 0x62e7c038850341dceb4caef76b00b01e6460b90e3643c0740a479542faf30f82 0xa90e315f5a926bce43a16c9f8e1c5b3ed4576e119ca42643cdc5e126460ec5 (-0x6a17f3456f4e23ce09fb448c8a878eb4f13b1bc377dc88c17fd0a314c9ce50f) (-0x197907abc323fb827a639fdb4ce54d5ea735d23964d6203d641eb32e8c79fc73d) (-0x7c8da85aa1f1084796b85802c4f67e0ed743e4692bea5ee6659ee864933376dc);
  mkCert 0xb44b2ec95a379363b23023bf00fd38347ac764ffb706ab8be99bc8ec3fd4c0f 0x494bf35da4671ac5508fc3a96f66084ef4f19b58df8e3ee8b3be43530a81c02a false 0x736e34ca0836187c25b51dc43f33b85b633d49799693c84303719e72a72653d2 0x6bdd330d4a78d5ee5d882c4fd3e8fb4b7d058227a3dafbd858a8f6b9068a544d 0x118654fb7eb4ad5ec958ceea19a831be06e7c410d95001eb2efe01cbf868926 0x2e57ab21e78491abc08c892c954624b3a2e31a41d83730a6ebb94d9737eb7ef5 0x2379be89096d0dd25ed153620f108dde6e12d6121a0ada55a0b4700e0413a43d (-0x39acd0f8803fce9ae105d61af20c8ccb57af53a490c3f08aaae1fd59b2024e21) 0x6d7553cebd31150f51df6e8e011b8bfd53823185de487e0d053ed8539a8f4bde 0x2110ca250c105faa9c4fae925ac8dc63804e465aa718a7fe549269aa25a4e62c;
  mkCert 0x6fbec9c662e7d37dad71162fcc7285fb44149d3e1a0c5ab1fbed43433c1f1e2f 0x6fab5dba92a0e1f7c9715009a4fa8a148ea1aef34afd4b29ec628cda8b46ea7f false 0x3645762b8344150dbdf5390a164e7554883d4e9ef808177adf1b08ddcbb9d6a1 0x72c0e165d02280eaed7d3432ad064ebd4229c313ad651718be36cec8ef5ce842 0x6bb69022d42dd7304a2bcec996d29a71d5d9c0a3c2d70130bb10d229dedf24d8 0x6b91221ccf97723ae469523a9f1342b1580b0b335fd19e5a8c1e8e779c4fd9e0 0x47634f116871580de62eeed45ae85a0e53aec6966899931238b01448dea02e4 (-0x187d4097ce9a182856ad3f1219710546f31939bfae5092fcf91cd38ca7e3d350) (-0x20128a722c69c8a9fb2f63ea6d5ccf428b200daf3a907445617dbcd498811ade5) (-0x19e6032bbb8c91c6b16421ca875f3c3028c179bc68eb0e68c5d7451555a1acfc);
  mkCert 0x31a499dc077fd762a935582445f6bfc3f3beb14c3dd9844714541472fcef5d92 0x47f58bb1b87fc5468339dfedcbe2003624305127c7d24d201b872ccbd1270fdb false 0x133a06f4f6e136051aa2044ad3bfda0a73a164e9bdf11a4bc5bc0009e6f9f57 0x5b584040cd4a28cd9e4e140ef5c6501c7318f32b19a8807bf151fc98fe26c4a7 0x154217b5fc7db56c4d59198f5017f81b61bc4948f099bf37611caa72bf26b821 0x2caaa45be08d84aad04f82435c1a283162cfaa8aa6a4b3bf103565a563b55af4 0x1a231c9e24a0cfb0cd4051bf2e0e7ad8ffd8dada50786e0839a11e22090f4e59 (-0x309d1ab05335413f4db3d29813aad6896a81bca16c631a6696a5a6d4a70973c5) (-0x6a47463cf759ad3ad6a4039961ce899bce1ba80190bb0341ea22b9b5776dd4c4) 0x6bcc2e4358405fbf6bcb3ac21f76bb5d476902898b52031dab5deb3dde18691;
  mkCert 0x47c05ea8a4c9f7585d16e994ee1c7151bb7473913d5d67424cf21e2bf997d1ce 0x4feb11ac0c50974ab41634d605e9f90ff45202e2fa05b89db8593dedc8d1944a false 0x7a77903f4321cc8f6124d5c2139d281f084d87de45de001c0b4d80c7082614 0x68f95228db36f52a28b22becf35bcc42e1f1fa82c16b46307f35200c4ce525b9 0x2c68b8f4343dcf7b919cea41e94ef3658ecfdbd1c1fb3d5a03152c402e968bcb 0x3717fef4fb2e872f7b222fde920673532b35a1d136ffdb04356bcffda0cece0f 0xa894346b12301ee1073b7292ed31db8e434293cac69c4556a25bce3acc9a675 (-0x236a1baefe686a976ed8ac6fd84bc941e899fe0bc9897ae46351d4ee62be511) (-0xde0b1b652227d46c4579e14f8f40cb3f7cc02ba5d6de1fcba55390af0de41745) 0x111d8456b6454e454df99f05ea75715c185a048ce6a4271c9db6135d2aa42674;
  mkCert 0x69b2c739a0af1616ec3f3145b40e847f12ef9d4d36f88ef05997982a8e6cf4c8 0x5b1e447ff29936a624cf8c2e477a10d7be34483be020d48d7b4b75d94cc16698 false 0x1b33c1f51bb752d616c0f796ce514c91c516ee88d1c4e82dd3434def049c0ec2 0x50a518ea02871e45d52d8dc45e5e6f2f34e1921d33f323411009891537a117bc 0x605f00bf56975bb2c1669d9b83032bd16cecd5727990e8fafccf011c737c8b4d 0x479e282d88ea09b7aa579d078fdfcdc14b98406851d56b64c55ea06e46dd66bb 0xe6bf79b9b60b0f512e0875c583853e521b0efbc5f8580d60fc429280d6e939c (-0x16883c020b1cea8d150be640014e0f0b665f9c7fa0a01e1f2535e454ba525150) (-0x1db78fe436e98eb670320fcc430188e420a6cd7605d4bb7f2d6dc5e2b90bb823d) (-0x299098854cda962825c959f999dd2a271a1262c721ddf0d270caf26c6da241cd);
  mkCert 0x45599d7cfbe59ddd5dd9e6d5455e4892d8c3d9ed937de67a32f537b74faac83 0x3c2c35af1da74c9ecfb1a37989cbb760df281229e4da519318eb70b76f7ce000 true 0x34cc29b9c4d4bf572bf895724149f4d4233cfad8543ee0f0282e25484d67d093 0x4ae0a64afa5a774933d489f7cc6943883ceb92288dfcff525c3e89a8b7486125 0x297c7a3d04fda8678a9d76137c2846bc04f6033fc713912f418f54b50f3908 0x1f3b913a2b211ea12498d0a4999aadf4ee7c377c43938a3e1c95a3ad4ae3c7da 0x9f946d10f674c60297498477c40f73be61181afc63a62be8bc0cba49c1b944 (-0x28229cd2aee29788479c78499192329bdd1e8cb4f02afe377cb901782dc083ce) 0x173c4434a928a6ff41c38836e0961d145683cc99540ea0904516eb1661abbd3b 0x2254d7d0dd8f4f16d1ce382203a6bccdf997157cb1f86a1cefe1d86a4ffe600c;
  mkCert 0x4180ecb4a6d7a2c379cd362d11d1c81b27d098c4cf175557c68c9dfb6073e171 0x3e2c10049e13da62ab5c3f6baff45d113b0e91203b60781d0e00cfd56f5f1b73 false 0x6c13feaae6e5c2b690c2f7b1a55b3c5fd32d71e7007b7989bd41428cf8b68416 0x206ebb688ee9f1a192c9923ce475efe5a1864942e372932a4b88e2a538bc6781 0x250309307fa8dfef38038670bd936462baccea5c9a772782b1d93d1d596db1fb 0x2157c02328f4786ea24e8d637aeb0d266a0abace0fbdbd950eb04d81a4a6e2be 0x2ff2b9ec2a77bfaf71c53564902c69202b32f0738c5a2d08e221b53fd386e28 (-0x46c79705af7117e01e194eba0bb420dd448b678f2374870ec137b5ad657852a) (-0x544cc1c9c3a2dec3028b551336d864aa08528b81a85ec87cf2bb7702a6d67182) (-0x2a0abd955bc319875ab318585e39d51f278d90855cf331a576eedd59b75e0fff);
  mkCert 0x6a9e2a7629c54cfc90442b97a7173dbdf02236ef57184c2cdc783f3aeaaaec25 0x428e7f626783fe65bed1f2e24c906ef59324d718da65250c96bf68ce2680d629 true 0x4d97ca3e50320623342629ad4b047b2c71d7aae5df7b70fb1531f74e8afcde5f 0xe44c81517e5d3d041e10a9fc358fb7e05ff1b62f09ffc2da21f7c6ca039b14d 0x620e1a2180ed73992b4db5d3a3e6a6956902af0a0eca137674b9dfdece1857ae 0x26361efd8a87609213906522cdd0c4988461bef2c83f60afcdaec82cadb24cf4 0x4f464c4319b30944aac78b34b0da53ba2246772ed586102e8cf18b88596fc4d5 (-0x176f5accfa3c7f7c3dc2e6de2cee3547e2750befee952b3c3c9e7e5041c563c1) (-0x1b65751106b7b67a4e6a0157985eabdacaaefa315867830155f048102a2a84b7d) (-0x116ddffe2f51049afa28c4d37613e9f283d988bf684ebe178e1ad5d0b7d26937);
  mkCert 0x81eebae03b871b8547c3a4186aa429d743dab8afbda78e04be148e2c5400b06 0x52d709c1fab091f96ac8783c96bb34fa6299f0def4d5eca91a0f8113b9ec8a34 true 0x27e9ca0f4c5cd321bcdf69cdcff58311ef758c683776184b7868491cedb08bac 0x21ff1207c73225e60b3c7f55e82f9668576a7c08cf272fb1f8b1fd3985bb07f 0x91a0e2af90e756d147661cbe3ce70cd0348602670485c894d877df7f257a81 0x3b321c7d789c50f629ed0883aec72f1a688151e9af68f8ff5f70333895424aee 0x7859bd7ca5985554096fa0b2236f5efa3928d8f5e272aa6c6aa69db0d7c7610 (-0x5e888ccc84dd41598c7cefe85e7e17b29d8dc1576519022351792a314061468) 0xae5c3b39f03165e9eebd434b8aec966433beaa6d79ff0f4730352f01354a6db (-0x2379dc4f915173e0c7564ba8b73ea915f8a391386d630be8d907dcbd1bfd8304);
  mkCert 0x70cf891b57d7df67da6b3247dd0d31c17884bbfe547fb53893f83db4b8635d74 0x6d0107db1c5e89c75a799949680aaadd0ce0da00f4d160e455743d4816c2177c true 0x4d718fa248e691c6b9966232e8fa54aa1f64c63c7750f71d85ca7d372276e1be 0x2e1ba8102a23ad65c3295c3741005fb055a5e0bb0f4ebca63debf7f49f5b29e9 0x6dc6e198e653f7699d7bc17d5a224e1b0fe8d484587139f496263fb63ed3e5ba 0x667e48fea741bdef467dbbed785a5cbda7d0fbffb679e76ff00a228c2e9e2ba7 0x19db0876ce2e07623935e123e5183a0c530b96f7f9d598f0e8427604770e6370 (-0x2e6eb3e51b51ecbb101abf3d564409f015a9bc9bd81ee3447883f09b5cab7d60) (-0x1f126567fb435d9409103ec1083b96864bf46e84698232a6d2211ff2676f3e5cd) (-0x34fea67da061fdecb8d89d8963894fedfd345c2aa62fb12e5e79e7f60fc81184);
  mkCert 0x4f83acee4f631dc30ad98ca4f2403c2af56601ad37cfe50e00afba45f33b3718 0x6ee83adf6b0f15d546d05c38bb2146ce76773ff697232a6422e33158ce3a8f3d false 0x11bcd0809abc66387aef08d69d64c97f9a564c8bc8c22390e73cfcd94695ceb2 0x58563c980eee7c8a7f858075c41afae3ec1fe11b20901c571dd2e740df1ae636 0x3689cd5431963f7127bf12131b1cbf559d6cb4e632ac84f30ec6e4f94dd3011e 0x6a1a7b4fd1f504785ff29f357bfcab13e9533150c60c3fa1a319e77d7a6ed4a8 0x8ccf997438913db777122adee48cb460f138319e84567c574ef61ad8a9781b5 (-0x573d16be243bdc39f4a36f499e8c7649904b25b8c147020b75b56471c2216365) (-0x10dfa3ecbc9c5ab4c6eddccdcb3a29ffd1006dc8d14ca7e7c9228c1276a81a77d) (-0x467eca07a6cc25c683c0e9f4cdab19182306e50e53e6e1cb0b2e88216a2aa808);
  mkCert 0x3421455f8cda28666b09e1507aea62c1135137f17faeb3089e6b2b33e835622f 0x6c2c6298c9ff553abe624428259b6e95f46aa9f83fa7f13793ae6589cc71b061 true 0x48bc823581d70de20f29d3c55731401f4c7f5d13fc2b2788b2363d9556a1f022 0x34792a4ed6e1fe7bdc7bc998ad326253c66972498ed19dead5006574042826bb 0x177105ae0551de50f44800718efa72a2f382630de8b13f369f1756ceb255ca29 0x64efeb84b70dfd7fb91752b94ddb705b7f70c61616f59b619ab9f8839c6d44ee 0x3b24e0431371b0b83ecaab9085e21246960a6f10e12f353799c23a8042d45374 (-0x15c6217cfbed043462aab431331cb1b2a83b192e2462598145813f66e1df5032) (-0x4792224ffdb4e41bd992f40a305900af5374f0b23f4008aa4bd1f05c2d9252a2) (-0x2e4365670ac347f9ca76fb69240c5ea0eb76b137859abbb7d79ef8752ece1ae7);
  mkCert 0x2936d12fd34a1c8dd6112bd9f7bdcd68f6e22ebb86b1caad0970c1e7bd5c304 0x4a0cc3f0aad8727a63ad5cf6dfbc119256521005d08cd858ddb80ca6e2b1cad8 false 0x5b249564c139d7d31f188c9e100d148acdbb4fba8867bd96d467b4217696aa6e 0x1296add3629650ff100012f78b22aceedde26a56358dd6c201e386a88d823561 0xea6f6326437271fef88216778e66b86e6b64e9d99dd1809005f02dfb657ee 0x2f4cbd1e3cedd53135406f849d11514a74a6d98066d1da5607ec818b4fc6e068 0x3292c740c029b932c3487c069f6de23e17940802f3dab4fa501a6590e3704234 (-0x261c38d7cd7e5a8c44289fdfeda0ee5b215e911f65cbfb9333adb6468ac0d6b7) 0x475ed36e2b45e02a6d644cd12a64f87b6fc3e3e5517f6157933ab8f4dc4acef3 (-0x417cb857cf11f0b4b51af0c9c2e5487995477d977bd129e428fc77c5d71aac9c);
  mkCert 0x6c5d23048131c8f509b2aba413a3cec711142cb5b46b3913c8855d6badffe12b 0x5b94348e7334c504a592d1cebf1b8989f71c0c90ab4ad4f254059a0521058150 true 0x6d4d4f8c95bb2270c1f28ba5d40d91f30f36dac341e91ef0da6d2da2757460e9 0x10553f03dff7052e84d83ef357231d39b44565de3029c4ea74502c2b18646b22 0x654afb1f1362467a1eebbd9f8e9b911a2d497df02a49d26f8a1da149e8d9b1ca 0x48580552e2d49c5a7a0d613a425f0eb7b617e41775beb58277702c06f981b388 0x55ef5829daef13cd601bba70bc536673af98eab40dabb6cf49ba81cd289723fd (-0x41cba4891f2461b13ffc40c6506fd1414598fd75bf2569646ef513253234baa1) (-0x19368f9c80f1e2e0e70a00c827e353a7c50f3f341ab7897742745ddd664b97e0d) (-0x2bdd20f5fb8fe24aabe7cb2120a1141d3dbfa409379a63195c759434c6602169);
  mkCert 0x39d6ee7ea4bc212e3aa9ef79083ca6b3896ac035b492b900834b19222045ec60 0x3be9ae43071977ca6ab3a41c8b465eb6ee4c788da01cf2f4f8212b9a433f7015 false 0x1979275f4f88b6c0f4deeaf45d564688470cfff5adad647039a48285dff27388 0x5ff796913402a2d134aafbd4196b7b4177478fcea3b14208e2a929cc745c1a69 0x1cdb8d7052b2c60c6ceb01970d72a95b5b1cc1b01939ee432ca199809a1b1eab 0x1ef6a70f7753a333c59a8d8b42106ac3fbde0a03611a65589ed96280f637d66a 0x1d54695f61919c2c360e65fdc18840fd9728c9a19139202bed58b892ae75d8cc (-0x5bd60e19e44accad5994093329729b4e2d7eb36d558164d2daf7632ed1306084) (-0x8ab0d9e309fd799c9140f99401c6708bbe088207368e27e87ea33c01ccc23bc1) 0x1f5a4b2a1e78124ae71b02bf09ecb71d10671e3da640c7eec3fa30cfb3146ca5;
  mkCert 0x72039a185a577483f54f3fad2c7ad121297dcee9785190a27ff1ef4bef1265b0 0x4210ecf735b361b0c3c07df7d03e61fe7253c668d66285d719177f069a951592 false 0x6bc1c45e023284e5892ee71a72d372ede2d59817c9e659430c96a8c27a63c9f8 0x29970cb2a4af79e91f8954675f1148877b8adccc38ea0035596fb4d50d2919bc 0x7021a468cfd79937a490307a56ede68185f1b5005dba8cd2ce3c5523b679cfcd 0x25a67748c55e0a056c5d60f9add488de2e63d4ea4c417f13febd8aa833c12f41 0xc8fde565e8e89e481024d6bd2caa45683f75c07dc2eb45319b8f4de05a2f521 (-0x4cbb48ec96058649ab28c564bf0e2f4259b3698a3003d17d6ad10dc6a4488445) (-0x1cc7ee14553aef8a48bba158f604321676c6994befbe94bbc83874f10348e5cc1) (-0x299d86e175b5cd52c83be390536c17b5958381f2ca65b5cb022564054cb5d4fd);
  mkCert 0x4536a90acf9e343fcf48f161acb51b4b63d79267ad48d4711d84c065b7fee6f7 0x50a0599cfc49653a8d3e35da4269b901e8ba2ddef6b3ae256e17eaf1a8146fc7 false 0x6f7eb7838d6be17a5a5f3a4c7542ef116bfaac62172e403ca938c81993a7f644 0x3f646b47863feb0e1514e96ed5e2efa7bc67a68651fabc35bddd30d994bec090 0x2952b29716b21917c005f1ea1030ffeaeca8090d4c256e735fd0060d5b616d2f 0x38130b7ed3a6889eedc5e8d30ccdb8ee0400dfaf1d348e0c9462de8cf7b4e63a 0xb434cb1c88237e845f9b1ecb701fa8ab4ab7671110f6d09359aa31707e38e46 (-0x53e49b5b49cd21d9aa0e487a501277dc5240e563ef00ee3f1ab89905325ccdec) (-0x63624e3baec31df7f83afae3477bb40522f9fc5493596fd9df2e33cc04f90986) (-0x2c7542e3c3aa7cce8d84905d20dbde331b559f68169199ae66c3b844ac33a2a0);
  mkCert 0x268db31b30762b3264962d0147125c18149701c92083c3244a7a412b96de3e6c 0x5c572b27b637310e459a8a989d775c9c22251d2978930bc7d24754792a3ffb68 true 0x1ff153fc1660d25c51636df986707700be6b6d2f09eff18326fb0709d0e00755 0x144a4ee1143abdbb337011eba1c41257fa1c657cf52ce02d800d43dbfc6277c5 0xcd24cdf5c44bce151dd4c43f581c6588da95800cccaa5beb25b25d95413b861 0x498d541cd10c04d18e7144568f392e67c78302f7faaeb85cd30d3f520a149575 0x1a57088dd62c1515241cd0904995bd5760c53de78609e032ffdd9ed1f77aa0a (-0x5622747112267186c0db4f18697dec73df7d27f131ca11fde9ad10cc9595945e) (-0x374e55be73ba635d6855e47da024091c88f56204acc250715b7bc38177b4b198) (-0x2b9aaa23ede365d81453a6ee77579eb2a1bcdd6462c4e549f223b071084e9a44);
  mkCert 0x4099a33a009565a1a7180c2369d60a32b6ac86b2cee78cce406cf06ebfbc7d37 0x6e5d9a353d7e3c11211a2d03e4323a8cde2f9c940298e14312febf1bebf4aeba true 0x6bcc46b9a6c87fea9e48349a62f1d7fbdea16276820ad1d8e0ad73b88e566c7d 0x4efa5837132e751646d46cc8d78c88ce5fc610338156b8f7ede480163f789a53 0x23ff77b97f4cf5b62f77ebef25c1d76a39ed300d7a97d93901b9cf9b99d897d8 0x6911e1fbe0b270247baed49d93755836859209761814557805c01725bb88482b 0xa050391067710bc71a44ebc6c16ab81091d28b18aa15902a915504cf84668c9 (-0x3b286854583488a17f5b0e042377730e98833bd82de6dfd828c0781c886988bd) (-0x4fc07772bb4c2ea78bcc0ddfeab297169014332aff2678b2ea3d814a5a2c140d) (-0x13b735928c7aae2bf06dbea8fe3fc49319f8c45a55cca0052a6c8f4c5bc374dc);
  mkCert 0x2f152693330f62c1c4562551ae2dd293487beb8f1dbbc03c5c351ab4c6876483 0x65080737d9bb4f322a77a2ee41ea3f9b499153e76da8e7f25cd4efc2a739cfbd true 0x4438a14ce401b3dd0aceefc720ab990cdeb922ed9c16a683e79f28edb362c400 0x5edfb9afda13b80b6863ad8bdbdac46ee199486c74916b6d16d27d3396290974 0x131f369397e90823bb05515f970972681955e01f296a1262742d807afd023ae6 0x580c75ad4b911cb0f5132b635e14b0f60803b32603759c9222cabbe27a26d334 0x41016fd5a4a758b5bdefaceda018d5875f8b4200ef68991efe2d18316c3e3a3 (-0x2410bcdcd264bca2e57e3f8523c27d8f94f76da87ee9fbd9f3f440d300280cbf) (-0x3776865e849265cc4a0c09deb35467618cc808066e18a3f7b15333805e13072e) 0x1279c50336f6be9624effd1b1cd9749d24ccd10dee1fe8fc3ef8a58c6969fa50;
  mkCert 0x6a7f637e0c44acadaec2f175310656884556d070bf1156b0663b4de73983e142 0x5067c0b92c9dfab910f75ae3e6e5d6288bebad0e5a72b547fcf2f945b0269948 true 0x3ba8926eaee343a21f6a4a0a4382b90d1949d1b2c9e15a3d32f26f1337bb54cd 0x69eff43d0a388dbd9afc8a3bb6c7c719cf6165a3690332d97289d1fe615b2d2f 0x61d585ec6561bb559a8693845f63cfb31bdb2ce04f53c20acef300773d32dd9a 0x37c46d87302360a3274df5d15a798e734ae3372a77189946e3a3bd95bc772f04 0xe062d6f0002ef2a7e95ee928cf9cc20c9683d5e969d1ec29e82feca35bf6f38 (-0x15628de4eab57aa95dbf2b4ce8c6245e78098b73acf3988189d48d3f9d21c937) (-0x1ca781e292b81039b080b5489810fb2bc5ba02690a3ce865a4664edc36d303cec) 0x40065d1ff35333bd3f189f3b93bab8836dc75ca533219466af54a8277b8e6704;
  mkCert 0x699e0d3cb2f63eea8295ce7a86e9f1cff901e9e1c442037c2c1b35962b62a538 0x55c1e0a3810f25ba1eafc4450d4950296f740e7d7f8a40196128d120047b65e9 true 0x36a94c2e64ef4bd7e9eba4559633e1273d6cb2ebb62b3e8fa5dcf67de53f4e8 0x21b08f779e5141fbb092928f8a94216a7a28e6432dd444d52fee6aaff32f9590 0x603938eba260531fbd443fd404b2ee1872123b0d59624a41935d25d0b21f481f 0x3f7041ec63b967422adef9766a873cf711b4f70dfd18bb6adf18cfdd96bceacd 0x31dc7eb965a5cffb7e10276d18ca99aa575e0f3b4120dbac38cd22a6183e402f (-0x68e34018d055b7135d688f399ec664198965ea15dff87404a181e8c29b77cd5) (-0x1e10456a0e92dcf9cd4c353ac05c5a4f18b07fefe13121abb1d6893b886cb1b01) (-0x1d221e42970b540d43dd11300a201cc42f13a3ab572421821e731adb22ea1860)].
Lemma certs_6_ok : forallb cert_ok certs_6 = true.
Proof. vm_compute. reflexivity. Qed.
Definition certs_7 : list Cert := [
  mkCert 0x11d6ae790e3a80d32d3940f7fb689274f0ca3918009135d8bfe20567bc238161 0x5e3906cf31f8715a71eb79f54b4c178fdc269f52a474f8826ec01c6ae03bb73b true 0x66a22ea99a4f5471fe8c468183e1af11763e91c4d35aa1d2a281785aae5a01bd 0x58794755396b7efaa7e0c7c1c26c03337045f66cdd0ef50b723de4666080f990 0x2beb400ab1eedf73838ee02a05f68495786684307e55dbda425486e34cdc0f0 0x4c94c825c3be148bf45f804ffbc9ae0322c883aa5ab7dce411f8cb7db1564a01 0x26dc5d9894a5ef533a55fd82ec360ea593bd45d8d79d235cecc930b5ac2f1ccb (-0x37e1fd0ad6639ec02a64da3022ef4e6f7aaeddbfc953ed99f8ffcf64be8cf8f9) 0x4d23827cb58abdc8a3c7aa0a5324ece9b7b76ec295b87fdf8bb511a3a35a83c3 0x11dfe32c6dd502aecdc96a208b346dea60b724d4c34048e9e934e671f4970314;
  mkCert 0x3925f6bb6e3bc8a20ffca4c4474e668c5dcdef27e28154e26e2e78b1f11d1c0 0x6f30810bb0c217427b393157f883d18857233e604571d1b46ac00c9f75dc8c5e true 0x643f58e757ad36a071abfafed36450fb65fbddafc8f23128ed54c1d531b9bc07 0x2b91b4e7f7d193c65c4151bc904452ec636d1fc91740c59992b380f683450dee 0x1c2c053345cd09295e74c37cf9764afea63c483be137c94c5c1641ede12386 0x6aa4f1f3dad8723fd2c96b4bf736520f5a7ad03e73add08a6021714fb12a464a 0x45ff796085d25290c67248b75e8d60570ba7fb87361f0fc09fc34e54cce35f66 (-0x48a98f1bd1a595a39bf5326b9d7186d650bf2790402e9eea5885fd886d022e1b) 0x56232bb3ae8682af53f2b764ef067d0f136e9988cfdac0c4c3010fdfd570f830 (-0x3a7c26d4a16935064814dc4ef5797f051842391de92dd549bdcb09c2c40951e9);
  mkCert 0xa935093b701ecf1ef625719557818b0cc80ea653d1d2a64bb9653d71b122e0c 0x46f926ccb0774f2d4398e9bdbac989cf3d3a1c84ccdcd664e7f05cbfd65524d1 true 0x1ed8c7f910dbbbc21b43af6eb7c1a16339039b549f3b53e7a3f1300e8c97b185 0x471be15dea5167ad74e06cc33138274f1cc0e90532edfe6bbd00a66b8a5ba979 0xf6f8dd2ea86e1d0d796f66083c27bd9b4f931ae6ae10a498a877deae7a37be 0x2b7374afd1a95ff573cda674023c307ae4142d8a5dc5ffa7b0b671d4a0c14970 0x41a1364dababf184434d2b468f7a70e6ebdde5cb47e0002ecca337cdac5baf19 (-0x5ce5b93028dbc6b7e36a663ab3857eb64fdc7aaf55db1de74e43d42badb18679) 0x3625ae7d05f403a5b266d2f6bd3186f29f359732cee1b5a865557132c259c48 0x14746de4f9123f0c46fc9dc37fe86e554778ec04a86b05f494bcba1d2090eff1;
  mkCert 0x1bbb0ef6f9fac7e39cf154878296d8109ac12db357464bb716bc607704a8e5e5 0x683205b282eb6934cbf3580404e35c055147b30bc26e4baf23332de15f4c2b40 true 0xb4e07d0fb553c553a188ae2c5f18b8a5b55a2f49c8d4dde64dd646918177dba 0x5a3fa8525d4291e771f08aff4e027562af36e783459af65acb31f9106ef26037 0x6a2224a1eb2566c37f6388f299abdd3cc0593c9c2b093c452e4d3026325936a 0x5da6624c5bd116b03e34d54e2f0cb748837e9d3c90d1a0ea6c3b36fbc00e6449 0x33e99124b8fa8ff5ca9e675a21df408d35110cabe4828364cfb35ea46ddb6df0 (-0x45adc796c74fb040e77fa5289e7546ee8a5a34efb23b351b68076c2eab21934) (-0x201074fabf48d1dd1e29bfb9d0a812a7edaf3be1b3f3432b645b6a5dc9e64f1a) 0x664968c6a97792dc3222bc7d2fdb01cd6183062bc329148a0f1c30a2c11ba04;
  mkCert 0x489b413a64c9c4764cecf15a8461125f75ae9e83a3efc0f24aabdcc1892c6b13 0x6838fc6404b664e33ab08af703ed960d1c682b6c7c01716f7e0867e6b2bbf804 false 0x516ea144568dc6732b475661cadf83f319b69295c61ca5ddbdd08381e312268b 0x55d0819869f7bcaeb2452481957410d30b69ac20b05e600dd3d4b3567d42c4dd 0x2d79491b6fca06fda8e1b06affce0c93f99d42e0c722cbe26bd03a41cc51e33a 0x5db2e7417e34487480d194b424f401a7474ed5fc3572ca9ae005230da97cd464 0x2a9974b831bf1194321ced4d4322a0872c5cfdd79f8b972a0ccf8158aea2768 (-0x349ef08bc754aff9f5cb97a99c7dac1e2ebe9ad45f91bcc48a5e3b0c3b9a87f4) (-0xaa2b052cce0f464f40bfae9825679618f3487815d11701c203abf6a5a33ae195) (-0x3bf811ace9dcbd04d31eeb37956746751640dd0cc72ba967897a133298dcd5cc);
  mkCert 0x19d49758d5b83b38ef9496725ffafb71bb1bd92f613d6e0a5cf9f86b3fabeeba 0x59b832ac90f543f8517777677b90695f2a1462c63b133a587381ae2b2955c96e true 0x111d2454eefdff3b256bc6322cd4eb9771668cf699f51792f563381969375fc6 0x335131c26f8eb67424140d365e391d0ab05450f61fa618f93fc24aa0c94c9f76 0x5c1606d420a6e7ca27c2c27e22e0a5a9a57fcd81c49c3a0b13445abb1f43081 0x456f99bfd4a57998fe1696887bd4ab81ddb9225bfbcb24ecca0caa95c4a1d7e3 0xc4ac2aafe773fc07b0471a34e4970208b72d79352bc1b9c123b37e4fb9b5c14 (-0x9fb3976901500a773f040c011f524535fc1ecfb247b5dfdb71101f57d9a73b8) (-0x1a401ed69b4c5cdc2ad76f66890830a824ee6c04d95cf203711d8d9ffc9b4e91) (-0x1512860082c6d9f8649d88d18e3159681ebd921dc8116241da881b584223fea9);
  mkCert 0x4c9d29f650681f95a8c965619df087161c378f1c5ad30f655ca676a822f704d 0x706397bcde95f84405cddcbcae723dcea70737cf59c9fa1865f1cd35ce755852 true 0x2dfc6b3a1f6891ff437f82045a2fd50082b91a06714fc030a80678d0791f7df 0x4af75e53a77457c822b0a7ec4cf8b71b4ec008d821e10f972dcffa57b9cccd3 0x32a1d025ee83b46948b880399184910ea6013a23a3865d467b45d5a4cb5576 0x6cf531a633e734c88e9663206943a9e9d0fd69d7e671f753198d3b7774e6eeb0 0x1c00daebfe5bbccdb4385d15b9113231f656ce2a21c8ec6ba564946615d9345d (-0x5147bdc0e7eeb6ec850d4bb383ce906c9e7b26099ef61cee305a11768fe628e5) (-0xeaeb3a1deeb7c4a765f637a7e8fcb15bbd8f511257f5db2273522d3b113f8d) (-0x4ca404a7ee7e94398a6a64a67e70f5e342d67aec3c41a48c33bf2b96b834fcac);
  mkCert 0xf7bf1e46f87e22fdf3adeb685cba9a2c8bd718aa9ac958983b8fdf5af764cbf 0x57cd6fa41683ac161d18e0b00ea83252174d19c0683070d5d504eb0ed5ae85e9 true 0xe7c1f0cae118059b108a3be2238bd0d70d255f57d83bb5d6fe7ac854f1fc156 0x2fec8fe5764e17aa9ed0d054a8353e49b4bb2794fcaeaf859b444ec7755d5ff3 0x211736b4aa36f27c5eb132677ad33f5d706980c3fa98fa9daa6275de9814365 0x428017cb4d44ed15a2a604a526f5ed55d0eb84537c3f9bb35ec0d122bf06f807 0x554adf9867d9e4f727225af69502a8472c02e7aabaa35be3b8fed8aab3d63df (-0x60434723fb7f2e20acaf0fb70d092d1ed590f3119b79d6e6bc996448a01f89f2) (-0x887efed096279b72620eea0bfe4e83e767f85fb377a577da0e4d2e8649707a2) (-0x1596e786ae845837ddfef3c782b066faf8309c593843437f614c7d12be8348b7);
  mkCert 0x4b6d51f64330f22364f0426d8e87e8ce19352b9aefa0882e3cc229e73182aa3a 0x663745e0a4af406ce1dfef19eadf9c1eb649757050b57ba1b056bb223e7f5f27 true 0x35290c2b93b18a7ce7313f687906fca0ea1040290c0c1f20a515df4323ef24db 0x29450be73cfe4b2b0ed6b7751c4c15b0fa192a8243d0b6722d9a5f9cfc9fb9e5 0x311351cc9eaeac63f82868b60f15fa65a0928fc8cb9e8823b1a0b683b52ac126 0x5a201ce595fae68a7d1842e618d34c93affad8e7a478f977bdcf11d708e1c5d5 0xa44c1a1bae49d9e0eaed087dc7dea6e83d5e64274138992d9b52b21f34ba3f8 (-0x453a91a150253253597cef3e803e9c18e7bcdaa645fad8a20a6fc19df373de8b) (-0xdd0001097dcdb79859b5fdc2789c17894209e0c7ca9eac2e44fe50e5f045165c) (-0x2e36cde5a09c6829e7d5754750467c38cbd25c4e2dde4bc90f736bdabb9db983);
  mkCert 0x50e14fa1e82e7d0d2b1967a996368824ce9f9402c0ba12cc452862fe972338e5 0x6f02fcd738216812d1aa0ff3bd15e030fd4c29aaa8715062295a8ddb6bc3011e true 0x3dd94820c7a30b617310b02287228c05352347a78ebb60b2a85c9e671d70deb2 0x2c3da3269fad5f147fbe8d1bd18376bfe93d56955026c905622cd4fade7055e 0x386d8bbd744d3902e171f8d6acbd22f220de24d7764df63c094767d11632114f 0x6a4db40a603c86bc614691a265dce6838a227330f3591dccb315f493a439dd35 0x332729e077d69cf945628345c9cf56a3214f1ebdcf58e47567555322d45425a7 (-0x5a49cf922d4e93b0a385bc30a48f9df2fa00d18bf7ab2a98bf45c9cf406220d) (-0xf92489c86a0749ff59dc7a271be298695c0f68368b5b085a63060af3d4d5bc7a) (-0x4a80eb17d2fabfa896dec750bb03b44bd13d40542414a4bc91318fa2edce0729);
  mkCert 0x6793c61c3a11403265cba801a46a7b896b2029de6455d6e085bc9ed50973c3b5 0x62e84a7622d46d8ea0c522cb49f7fa8595abb5c305b4930469b57b719eab8374 false 0x1f387cc2c07c51302618a9ea13a2cdee73dab86f4ba05639c1ce68ccd04572bb 0x4c54bc3b5dd6f655b77d25997c01a75dec528942a59c64315714de70f4108fce 0x5c8ac3608b5417c750c0af19ad04813cf55536f9eb4fbe0ed37a646225899009 0x5462b0748502ac6ba269031273eee0ea91549db8764b210e51556c538bdb6c22 0xafd8a6a728b4aa867399ae31cd67468b6c3169a49cb37019d5e025887cb00b8 (-0x56e386e24419f45e79eedfe127683b2764910b410573f9f1ae4847ae7054a71b) (-0x1c64d5c0f559f8646a1cacbc68cb6af2a7f3b0238581ade0ddead967cc8ef2145) (-0x3e6688d62dc3d352669a608e8a10172b3246e403ff84f7a5c8aea067878e6b71);
  mkCert 0x5d978fa74d73f45750b5336c30ac748212eb2468927194df860b0c18ad3a1d72 0x44f02bbf9a85f5c5e9088749d0e18c6775c013b99512e99353d53dda666c5caf true 0x2d38d47d10f6d9f665eeb0752bb3b537e8576c2d7e82806b12aea961c41144d3 0x28e4d69b28a69eb53e3f9487b746c20e093c741d1616407215ea68a82e1845c2 0x4b8f314f897040d67c41ebc5b047426a96519d0b1794f17d6414bab3a5cb2fe1 0x28feb207ee6b4924cb1899e9835153d5f7d84a521080adebcb2526b58be0007f 0x14b51b19ad876a7a6221884de9c191878d98030289d0e2ee89f758359ff18ee6 (-0x44ee0803d255b9c98d339d06bd0ea94ddda8b99ee106a1db0e685bb59376150e) (-0x1682801ae8c37a15992e963a24d2323e9c8c15bc5685bd4b6f718334bdcb05bec) (-0x6dcdc0037469a18dc05713b7d45bc57a200a7c6a128b7dd470364a1ee1d6998);
  mkCert 0x47808fb3f3ecf3cae77f91f87a16753779af6416a208ed49ce511ebe31fbbb7 0x47cd7dac8bbfede02bb4b3f41f5849aaf061d77eadd4cfe9bc0e37aaa50ca5d0 false 0x2abe2ea2a1897caf3c17a7a20bb1891e573558fe7eb9c5b8ddfc2d591ff3bc10 0x92f0acf66659c89a4cbb027b77641eb1f8fdfa47f9e1bbae0ce8dca0e294e75 0x2c19dfb57b5c5fe4a8e72a15a410987e0f32a9d5f5fee3f20df2e24455fcb3 0x2c78f86ccd82b8c72dcfefc8f7cf242753b073fb6ea59a66d273c528ffdeed04 0x31eadb4fb5e9f1cff7d0a9513fe79ffa669621014367f3973736c5eb2979448a (-0x102b37c22d9726de7c6f721c34fb1b5ab6c789e17e7c58e55fd88a10222487cd) 0xee5e385283cb58782d0a7d9c00b296fcc3f19760cb30f80474f5d96beb530ea (-0x404549ae473af98554553ed4fc0a7a10b1e74c3c9ebfb6b736ebe18fc602ec34);
  mkCert 0x227c7463a365b0ed8a91862ffccb63bb2fba8d5b5f8082d31b08107b19346397 0x6e7fb83f5af70c0550a630ddb483dd30ebc49c790382dd7ccb5e1057db8edee8 false 0x9e51d4a182a78f5a3bdda19e713def593c7fb9f86adb8cf60e4ee25423fe89d 0x5b9f7912b57eca4ce2079a726b2e5d5f9e1a3226283db35d811ea3b6754772e0 0xa4245cf8a0b258acb8fb62f724c3acd00e1a4b6d6bc7b712b5fa74ee695eb7a 0x6952e1ea7f4881712ce018fae66c980281c170c4528c24e7f6913cabf8e3fbb1 0x3266df70218e9bc9ed36c32318d63de61fe14dc209a3ac560c2b61aaaff89359 (-0x155b291e7bfa76aa4d2b231cf76b62e221db96850f04bf8f0c1c2d00010cab65) (-0x327326bfb737853587e86df56ea0c852fa957c3d3429a4155f8ed0243dcbbf0d) (-0x407f6ec0b8baf434fc925fe1dec028486386865018360303bb5c691d91b8603d);
  mkCert 0x361a0b9b999ba608a2ddb20255dc42dc10405e5fb4bef80fa8c54a08c590ce86 0x44f6e2b867d636e27a2edf5b326cee09f810d0f2e2cefbe41254a5abead5f3fa false 0x4c6163c64e4a6c234b03beb60782af994311ba00784aff6e2d56c73d29b5ba4a 0x25a7321e88340d2fbe6f9377b6011582deecc12a7a62988d42ebebceb03e4a89 0x193f9356a6b2b05f511b9dcc3db47c94aeabdc2fb2caabb7267e117355bf153e 0x2906aed58df21a6ec79e2c32dd189e5a408c3ec694ccf66deed62fa0ed83ce8b 0x467a28d791cbe2afa307e60276cff5b40080d38eb7b7cdc1cb77db0dc991cd79 (-0xa262332cde69515950aca59ed62ae6e771501e5a09c7cc18c3d8827ff66c631) (-0x4beaf35546da5bacbeb38024d97484a01cb1589703bdc97cc99b501076980951) (-0x3082c362e30a1c69ad22c5d3b21ca0357c52a755242dab7c1c0a2b73e62ebe4c);
  mkCert 0x3520b1da68b86701ada0c85b0c716a3871f27cd418b2cabfa629353cb8ac5ee 0x5bbbea36731b362afc0e25db730b5ccee135b06b8c32b3e6639b46297f7abcb1 false 0x61fc110fcd4b49000a3b22b79c1134b8fd8a32c5bb442d3ff9da167f44f68136 0x541a7e413959af9d3bf6b04feff3d9dbbe8e269a874f96c856f2ca9d36e70809 0x1858ef7577b440a6665190a85838b019cf16336ebb7cf1f3884c1e1d5103c7 0x4896cfe18268ba99e650cc0a7318cc02e097a65ff723069f025bf85eed9ee43a 0x44558487908fd92cf315061c3356333125a1972c8b7b22ebbda7aa808709b41b (-0x4bae7df18da22105cc4c13aa091d5ec79f54844e9f0d1cc1e976b6d2fb4f06db) 0x5257c019eb735f077479f27a44884f3f7ac1a2047e2d73762976c3590cdea90f (-0x25cc0f59557d35b91dbedea87a27d1c7a978c69e91bfecdcd08a7160226d8e4b);
  mkCert 0x11657fe0f1cf5bddcb22228e11ba2de19e56887f45c7204fbb8b0e0e3597f0fe 0x6c27780861c203736255e923bca5ba4c5a8a40e911c6b6df7ed23bfe417b7b8e false 0x4f0ce5fe0139a6f8cf6f2a6f841554353c136fd70609d7017a9f422fcc0296c3 0x5e0f712df46959cc1179e760903ee0018602a8b213c289db6e01fba9bcffc121 0x29c4d822461d8add47b1c347f226366057f417471e57d49848fc748873f4bc4 0x64e6befb005327d56ac818cc3ac2db908457029c6adcc7ce67556b3d987a5432 0x93f38d6dccf76aff8eca2ccc233c5d978b984698085fc6bccfc3719f81cd80c (-0x3472a75f44f01af508f1cb863cb8866e1ed9e61b27f860d457de1655cca4bf5b) 0x28d9d3b5b4a986a7e766cbb45ad7c1ccc07331438abd982d34aced9eb74eec74 (-0x37804a9aa1257389b275a7116f7e7d1bb5194ed374ec0cccd1e0000754652314);
  mkCert 0x5a28adf756b711daf394cca2ae24632f3d55b829f75673ba3394738fd3ccb5e4 0x438ad617b0f359364b20b37ad8cf80118138046c65c502b109f8faccaea60496 true 0x3625f0adf6b7c19fb5d18440fe82b2caa20f8412fed0288b093b81d95a4b3e95 0x209757043c670a6085cacde5a77985f818565323fc9988dd7ec4ff2c4f863da5 0x461e2186289e435db6142ac735dad5c27350edc2ccf121cb644de3fdc3a95937 0x275a02e91ef81c3b0b1b51a2fb754a5833a9b0116e7b79d10a9516cd081e1755 0xe31431b0a4353042a99bc07aed69ff210f985a5afda3072999972e48dfc7ac7 (-0x2ce4b24fc66df3bc5ebe9ad884b067ed7a5d518bd36296728cfeb4d23ccf18bf) (-0x1454bf8e5ae3915075c55c80c3f2b87e13c5f444865df552c3a26f120b0727c98) (-0xae1a4679948064ebfa840785147637e453d098154e1ba7ae3b324fb494a7b24);
  mkCert 0x69cb76bed52b87856fc4b8cae25310b3ef80de6a96ca60b999ca82ea9bcb67f2 0x6ab7621ecd384b6b647dae1824cbf57a33e2a88977c654d40dfd77b2156e75b8 true 0x17d2018b28bbbe899f445d3234a2cd555f04146a28540563b6b744ce0ccfdf1e 0x65de1761295beaeb2dc5edf2e57ca6f272f3d45a8483ed80e3ad0bb0cf42e5fd 0x608c09b9917ddbb39612f210404b5f6d14f5d9eaa45512ce1ee1633018d984c7 0x623c81fe3bbfd99976c186369094eed9f85328e64eaf9f596af80111cc572a73 0x10e0dc639ea6ff3ff4bb951a14afc8eaca19db8bfea03645f5ebc10112534679 (-0x65f26a36dbc8560b917e44d32a4d2bfe83115855027b2d2ba7bac669b14d705) (-0x1ddd73444b2832221d16ae2666c36c12496481cc9b179af0e932171cceb09dc51) 0x15c82c94f2f429789ed13a86c921226adc2a69aa43b2fccae6f2d186b8349e8c;
  mkCert 0x19583a4fd4daaf4b94fc08e2c5f653404e1af5a803e91f3780325f041f857c2d 0x55d2593721698e164a2f30d0e26156961701962c8053765917e38878082d1cc5 true 0x3f777f866932bf3ddb6ff66bdf681f9929456b8a07f6ddc2283ac690d3f673c5 0x44446372cde9d8ae684142bd13161fb034e4e5ba392398d63ab68f9d6816db5a 0x58a7a606619edce1c8343eed9791f7fd87cb5db364a430f7ee1fa606218baf0 0x3f88a2a430f76e1808cfb308902bfca72975272a1508e108737ad47c295512b4 0x3990e7420ce8bf7420021c98dae743d14e93ab5e652dc026a1bb267568cdcd70 (-0x32e2f4673e3f589e57baddfa8f566be690ae7121271e215dc024ebb2fb47c074) 0x70a8ee4e96d26712204f3f0463e2da9d167294dfd042d1026273a5aa402760b 0x1333b5e0642cb7df8f93435f97989210683a96f072f4115f72b0e30d96f2bc4;
  mkCert 0x12d354299b367fea7089e38db282a9ba257cb32ac7afe0481f81e8b21cbedf3c 0x641cc68dc9b8074ff49c07c1ce899c3f3733079310e1f0a198ff02f72b6ab7ec true 0x2ca90324abe24b560f2332ee524755f652169779ebcbf09de5b10ccb472c9c6b 0x560b432cab8669f42f6a4b2f876064a47deedac54c08f0d4b1fd1f1b7dd97922 0x30e9b4ec9abceefeb8a5e28970ee475f7bf3f4b59e0336a1d0f54ddab0511f1 0x567447ac8d077baf30aa15267c035140f062bce60286e91c782a4166d456198d 0x7623b8e3b3b175c482e3b681e7717823c08d5cb9b06c802f4d7fa12342764c8 (-0x1098accd0d4dce15861ace2df81e9c0f44e57aa13af1995df5b12b161067440c) 0x1eb6ae7c21cbaccbae7eb2536006a7ebc8121da5f8555fbda310db93fbaa668 0x60704975c3d35fbc98808fa55be1ea66766e37b8f76d051098c43f71fb8558f;
  mkCert 0x139aaeb1a235525a3e7297dc3391812f6fb31b8649ab3fb42f7569da1b694d02 0x6f258f18db22167a478dda9240c57833cdce751274478abdc7c284d9e910a418 true 0x63766960efddf552038562ec629bbcb5a5907d6c6e33c17626e74a9b128b3370 0x557e5a15214edc968cf099407107830f6dc48a1bfecd3feeb6ca9fdb28d7509e 0x350b10794b46d76a32e708d118c0119ef834b4204d334044ceefdd61674a760 0x6a8ff4298d450c34704a30b9a911400fac5d69ce65d10783f029ceb4d26004f2 0x11d7bd49afd6b2979ca4fc87a2907f25354074e85c56cbcc00efb170755be55b (-0x512f0b0db301d6323cd8446ed379843018b79cab737f27ba1ae65b8d0f3dbf92) 0x44c26bac437ac2ca4ae45cef2bcb8741f4005c14b9d215b63f54d4a63beecceb (-0xbbda9625edb773e110f02d8ce701a296673f3c8d48a3a3b633476d0998e28b9);
  mkCert 0x329239fa012a2c7931e575bb963cc21003f9760a4b3d0c1e757fa029b0c8ec9a 0x5fd6e85424c3c9da29259856773b744b62c2b492603823cbb0eb3f43ad378dc2 true 0x6d65e8a5227dd07cd99011873fd3bf8a8bb8b8416579e7bc64e30e2c3b31fca 0x5ddf3961611d4a2dd65564a200ec579fba0b3ee410781bfaac9e3eabdea348f 0x160f81fe3e3d058df052aa2b9428b51beaa05e71a6bc88c5096e6654ec282ba5 0x4f3b54e01eced241d8b9b20023bd001e9c3b2034dcfb4998fd8514bfd3263b62 0x16afb1f7a69c3980b16bc538c2955d40abe5f5533a11f7e4438451e23013d05 (-0x1bd119b3d6f7a3de182c17c4b1d808d3ad9b1d5896b77deb538bb7f7be1c90a9) (-0x6de64da1d97c1a98ec9502b0f4cfbaac3f4f62881667d1b9061e9129440ef3d1) (-0x3389ba4fc297f5cec99d8b615424076bd3a32d2153c176867e1929aee3067f54);
  mkCert 0x12e168afc44477ff5483d54babe1021c26b90f812ba9cf5486a979117eb23c73 0x56b65d7034778d1e5eae73ca4093672fdaa78f0556c92283c5e33bf8736b0c72 false 0x3bb22b3c112ce50827a1b357288f8247d2acda5ef73dc012c38d819b5bcaf342 0x301ebd5117c8a7a28ea59b2db5f6da8a9ed28eb104f619b4232fd3678c5600d8 0x3132fb064b6eeaf32079ab38721f4571ed2dc49142f97aeae3dd61d92b6f22c 0x40dbfcf63c37e7a50c87e6e278c5fca3dd2e5aa624b2d62e807b8d3744cc9581 0x4bcb21c4a9b491d923661415dd2a1f11878716d4da80f29b344c70d1190ff9f5 (-0x84bab56e9fed857413c647c9b87ac980c5c10c7f0f35beb8d19c1e04430f73d) 0xf5d726bd4d67daae12973f3b46a4bba7b8cafe07fd603d4a017721b1c53d2b6 (-0x45ac54e42b0236fa2c4bbff1cf1e5a9eb7e11ee2201e711d3f06a725eff1548d);
  mkCert 0x9e9ca5756de544e672472b1da03dade66f9bf0d217cb3313dece380ca413ee5 0x64e1890a9e6a91d42cf569a41a645747c4913b91fc84977b5ee37e5ca9e31276 false 0x43cdd8dfc59875cc0518b4122d050d84a8776fe0806d88d051708a9942bea46 0x6b39749e3852b61514f0ece1272e6902bbe2793cf1b7812f09e75a2ef46fadd4 0xd902d71543ee5878db204b34ce9c40d63779ccd36c5fcae592f4f3b5618d75 0x57c96aa8c930b5b26f45302c1ce3e02ee9052300f3ed5b453ed877c1e9d6228e 0x2448c4faaa91aa57f352a2cc0734a86d41f83edbb0e70962891af2287c236f46 (-0x40acd8f6fcc2801d2564dd0185f5cac080a9f6bddc32fcb12bf5849272c6d51d) (-0x41565f448b5126248ca453240c45ddd7dc6880ddf1dcf1c57d248b078cc911a) (-0x117366214040c54a31109190c4e0b30a2437a03d853252c8f68f05a1897b5015);
  mkCert 0x110116855dee47e4eac6e61c05f760a7239cacdf7b1578377dcb913787f6a1bd 0x4896883ae7108c6b952b87a52bed4eb7cf891facf3fc2794bdb77b1c5ff4b963 true 0x5f380aff0cfa50e4a176457f51689bff2e456d992dfb8c19e041abb1a6cb5e64 0x9ee4e3739ff5410f6dfcda0f7a1375a98891a75e830f510bcc70761ccb2024a 0x27e81aa565cc1b9ec3a7c105a220b95017ea7feb0bac613860aee71ddf50f6c 0x2d735ee5b0346fee5a5b8446665991ae0f25c764bda032c56032062bf84f7023 0x3cc8c910d3623a6c6464a92d58d472ec1a53227610507b86dad8621ca3b5da1d (-0x54327324c71999975aff499bb276648cf5eb41e22459616df00825e394b20ca3) 0x41bcfa8149c193159e6c4145a0287f7345b90968643722457d577ea1a44d3b62 (-0x17d98d2bad5a4359d5d64790c39519215d4f5ed264111cc08d6b6154e2f40508);
  mkCert 0x652cda305738a933c143446fa7b4785d7fed02876054a9fc05a6d0240e6d3314 0x47ad9a9852d751995b38a02b6b2e598bbf7b13dc5516fa10ba588a888f9049d4 false 0x3d82e7f7b346610bf9867e98d469c21aaa18c143e29ccd2ef73504493f72b87c 0x49f3eda649c4626716038911dea5a5e5beba993f9715ff44f3d4c7d153effbb6 0x584cb08dd2d6d2e80951251d7cc1a538ea48505868a5d9077dc0b2676791f116 0x2c51813d697f0ad457602a56058ff645470cdd8085e54686d114c5a286865012 0x2c3d49c6637cc1edb6980a047cc2be13d52609a0fce79f713ab80a9a95d230e (-0x8be284578a798d844da5697ce10e3d70c54890ba09b2ba2213f0de8114b6a17) (-0x198dc2b8c8f6dcdf09d55725520c6ab5ffd0a64128f0b7a15ecca97c8c2ba63c1) (-0x11a1ecc897dafb9af35b1110d9673a3182601508ec77bbc5df2db9735cbe8c11);
  mkCert 0x499cbb1d794257e8b53b52e370e02f38fc88533658a37434faf904634ca551a 0x439aa87ff64b81a1abc823910770752518113e92d92f184d3ad87028fad59dcd false 0x9c822b889834c5aaaf91d8fc94b04fafb9b1f087c843f8957f281664653ca65 0x86614adc34055d389696ef172d25576513ffe9f3c4a736287b2aa026cd0087c 0x2ebe09517f1e5971592ad1d3af7c14c073d36edb6ce5bbdd8475fdffb1ed3d 0x276c74c72bb91cce9056111f61256b44b9a8f1592b13c931d8c83d4c263c4303 0x44ba3c824344512f8b3480038c8db7297ec9449b8f921ced82189f69b94cc91c (-0x54739152f064e126773aeb0b1ca7004df067b4cff32ed460b2bc99441ae66c60) (-0x166b0be7bad6ba9ee12d2a2fc095e18bfb5a86e9394ed99231e44cc519d55c) (-0x3a23ffce251bbfdcd8ba1e2a2953ded648fde4ac0948fd48330e383cdf7480dc);
  mkCert 0xbd6cb1c4143f7ac22060ee9b1d469c948c384512473e4068b3af9637a707f5a 0x4e359dfae469f472888c308f73bd088d8cecd8880b466af1f1a39161c6299301 false 0x1e142233a851413ca9fb8d2fb08cd70537df38508c6ee60e027a9ae4a1fa59b6 0x72230fd975c621b6039b69d1a72dfe6a40bc7b3b53e68b191992129aa81fc742 0x135841891dfdb81364bc51dcff795e3245a358e5528667a329b026ac1e0933d 0x34c34e5c94c9953994c9719ccae67b37f7a8bc61c9086a939cb24e0bd27e3d4f 0x91e4ca1b97ac0957b14497903457d3021ed77d319d18d9507245caf336ab8e7 (-0x35ffa5d8302d1d7bc7003b2814b75bac47d7f4ce4430a9517be8ad9810bb873) 0x1c249ed310682898da3c6c83585f5ed7cdc16e96c77b16e5fc498e5f463f32f 0x2540d5f9c6d26e9dd60c09721c86a9900db690a805d8d50fc7161b9255b9de68;
  mkCert 0x1610b8e9138aee6dbf4fdadecc70f83da279050176eb62c164907774cc473cbb 0x47be726c5917b14eab4f11aa365f37e30def001da12cd05beaa6ed490fe7e3a3 false 0x5648841f616a7f917f3c05e8ed06d47febdb1ca28355506966283843a660c9a6 0x13a62ae5d04b395ffdb83607139983ec1aca3e1f3f7d443f878dbedfea6578d3 0x433278f388535fc6d86d38b1a485607d495c5d2685bc6427b73ebca9cdce731 0x2c6657aaf60c84d08cb559f053c57da7d788627ff960e10d78983ef6edf85feb 0x1032905c668cd718b677d8f308e791590b64e87e750dd208f614926238a63b87 (-0x43762b2dfd3e9d072f64de6c8facc8374f8afe9751246f1737ced420460991aa) 0x2b384abff33f6997710e0471cc4895cc16849f42424be7e7618e7b3d44ab24a6 (-0x3d9406de6be64b2830fe9f478f26750a983fadcd36adb8d963cb071738e573d7);
  mkCert 0x3102a5884d3dce8d94a8cf6d5ab2d3a4c76ec8b00f4554caa68c028aedf5970f 0x6b7b5cd09e0900c3df7d5efaa87759ea2ac8feb8acc89eaf99e8848385dfcd46 true 0x14639b84cea93a18e37e4767367d2a4cd3f30c45954c93722c13daad7e540698 0x419969328440835d6a48c25888ce9fd1c311fe419190fddd7159fa6182f4e177 0x14b84594c2ce3b50e20876ffb39e907242d2f0bccdcb4c4f0dd96c619d71763d 0x63a69d475569883c65dbe23ef731f51fecf784ff42ac27ef41687aa0ccf27763 0x158d6c9689b73e3be27e562b335854315b7a52ef7abc9e1a460ed2f349a0f127 (-0x2af0bbbf4e049eaceaabcd28044d23b721a6f3fcca071c3d5514dbff5ef2ae3f) (-0x64035a09f6d2a725b32c91721c0745c36303f57dc3a1c9d0a3481bfd55500426) (-0x1fce4c1348d2ca3d505f57de7e1c42427285efcecdb609c512872199838cd3cc);
  mkCert 0x3de2be346b539395b0c0de56a5ccca54a317f1b5c80107b0802af9a62276a4d8 0x5ff0a535ceef8e029b2bf655a299ef0a726221039e988d81a5c4ce49883cce48 true 0x73d732a4075d1808c58298044f86753cecd669abf43bb25acbcfd3e802cec667 0x49127c3ed0020f7f505f5c958d7d1409162d4810caa7c259c75d18c666c25d41 0x21094a1639490d605f1893dcb5ea92749914642fc847e1fc0e57e55c8c1f5a4b 0x4f65e8d1f0381fbacb3cc9fdbe0e98096229c1687a430cdc94fcb745ee3ef0cf 0x17186bc4660b0316027486353885abf3e11766643debaf18c740cc9cb99e7dfe (-0x275688bbc2cc97dc389a74227810709d3c3dc7d0f652e4ca763e22c394001b8a) (-0x316db020ae15e9035add51bf3e89d3332a80f36e9339c5191ea9097f42d3d1d0) (-0x5e9d8ab5effbb564b59e9fe13c7dbadc01127257e5866fd45cf1ef54bea871c)].
Lemma certs_7_ok : forallb cert_ok certs_7 = true.
Proof. vm_compute. reflexivity. Qed.
Definition certs_8 : list Cert := [
  mkCert 0x29c132cc2c0b34c5743711777bbe42f32b79c022ad998465e1e71866a252ae18 0x2a6c669eda123e0f157d8b50badcd586358cad81eee464605e3167b6cc974166 false 0x1732705589c4a9a3eee44e278800bc3e3448412f7ec633a9cc031374aa9a316f 0x53f3189deda1ef5de983dd892b1bf0f5364802a8ad1c2f82ac85cce70b655434 0xf09fff88aa2a669803920b87db0f969f975a7d8329d603e41492df1c1e332d2 0xf8650520760da962c4c35c345647efe0f6c8388699a002e4ac24f2f22c20ccb 0xe1870daac23c2386fcf34cf7db46de7eb32092ec7c57a8f0db3d80a797529e7 (-0x4522109b73eba31fa911943c22626c89a5ab4b87b67c58723be5ac529355cfcf) (-0x468dbad21a9408afc446bac648b3caa1c10deea0f5dc314b0834f2d4e5bf7d20) 0x2123e83a832968ae58fc68229c88a97cc165d63d2765550366355f1ca7d61f8b].
Lemma certs_8_ok : forallb cert_ok certs_8 = true.
Proof. vm_compute. reflexivity. Qed.
Definition certs : list Cert := certs_0 ++ certs_1 ++ certs_2 ++ certs_3 ++ certs_4 ++ certs_5 ++ certs_6 ++ certs_7 ++ certs_8.
Lemma certs_ok : forallb cert_ok certs = true.
Proof. unfold certs. rewrite !forallb_app, certs_0_ok, certs_1_ok, certs_2_ok, certs_3_ok, certs_4_ok, certs_5_ok, certs_6_ok, certs_7_ok, certs_8_ok. reflexivity. Qed.
