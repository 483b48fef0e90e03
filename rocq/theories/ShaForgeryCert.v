(** A multiple of the first default generator, for the forged proof of [ShaForgery]; generated certificate for
    [CurveOrder]. *)
From Coq Require Import Znumtheory.
From Verif Require Import Base CurveOrder Bander.
Local Open Scope Z_scope.
Definition first_x : Z := 0x1587ad1336675eb912550ec2a28eb8923b824b490dd2ba82e48f14590a298a0.
Definition first_y : Z := 0x4c5c0482ac202cf6740bba9148fc310f8cce6e00de71efd9cf67ea4e2f3fc483.
(** The challenges, the scalar 1/t, and the multiple of the generator. *)
Definition sha_r : Z := 0x14b5da2d3e06c78d2f3b1d6c9f6cdb4f866206016d4e3d9699e03bd6b256893b.
Definition sha_t : Z := 0x9e9ac8eab74c05bb57145cafb93695aaaccb532d119b1eb3fc52473437d8015.
Definition sha_s : Z := 0x63cf8d419e087549d8aa9ef0bd4e9fc79e10f5074c535146558de11c867e864.
Definition sha_E : Z * Z := (0x1e9aa6dafcb92f4baebc85acbb52218afa4c2c2bb9f205dde0da27d66894e7a6, 0x24b5a5767b6d1b63dfdfc94e7645afe0c903614c5058de479a783e64a1bafa4c).
(** The first point of the forged proof. *)
Definition sha_h : Z := 1.
Definition sha_y : Z := 0x3858406d34b8a0cb898a80e521f53ea25c27f726f1b11455a1d1737cac24cfea.
Local Notation run := (chain bander_q bander_a bander_d first_x first_y).

Lemma forge_0 : run (0x1, 0x1587ad1336675eb912550ec2a28eb8923b824b490dd2ba82e48f14590a298a0, 0x4c5c0482ac202cf6740bba9148fc310f8cce6e00de71efd9cf67ea4e2f3fc483) [
  Dbl 0x2042bc3bb129502abf2cb920ef59c691422ee4b3e3241d1acf18b6f64ceea792 0x30d903002b25f51349aa6c2e067a982d0a7989d164b7d3249fe6e0d258896c1a 0x3237db4f1ca959a24260d305bae7f6df329e7e4550a99ab9c484a076754ad76b 0x16ebba01be07130ae97c9a5ee306f6e053075f9413c79eca67d8ff930a5fc65c (-0x57c39f19238200dc90b5f9854a7a0e063553d5959c2132dc5402c8e0c47e34e1);
  Dbl 0x5df397de5110c237e6221ca0cefcd1b237295c8f6a3709d747efc29706b9be5a 0x3a4f58a71605052da9dfeb2127cc9beaa931a247946b868633b9229394c34327 (-0x184e21540262ba663f7518507a3fb8e607f01564eb04bb9f714dcd5ce13d0c22) 0x1f39a6dfeba3fef075b35c656fdd2f2e7388647bc3c380e27dc204e40a8c9e6c (-0x65b915f1bd678c3ad1cae026bd23d5749c0419b0a4b5fa385de063f047923e08);
  Minus 0x213844fecd8c539b1cc305fbf5f654e5d261e8dee4eaeec4b53356b7d14a5b14 0x3d7ed97463c792c0b405ab47c00c51a4e1b4f3244e8eac78f605916daf1c1104 (-0xad44717b057aaf93b9d93c5d46d03d30093f60ed3f0dcaaa1fa78f89fbe83e) 0x3de24162317c3817e0a758b81c3640166088e9322b89aeba8382376d5645d5a2 0x65aef8330d63d26493f8ba8511747e65bf8be0c8e8e51caf5a50ce5bbd4a0f53 0x37549498acb2b7af294170906dc3fe40f3cb114f12755cf41d27564451b2896f 0x565b9d1afe589616993061cd96acdd163872fa64c876b30aa122e6eed178e1a (-0x2af23e9939407555f95381cc1a7622f2087d7503c71452c603f9026814a417c1);
  Dbl 0x44ba1358a5b351a4b651200d91a29a5e0118a6db33d18ce697ebafa4a3f9b8de 0x4058814249d4de4e70fb1ef70f58be03d469e155bb12c7539868344059d3e456 (-0xef9b742f3e1a67b3606d257d4677e3528161394006e37ea114a179f8c85644a) (-0x195deefa100b731857847112be3d03daf870543289d0b4c5da560eb49c80f0f4) (-0x5976ec33a0a1496172110b080557f74ee9201925e4304eba5a791d9f6c277d90);
  Dbl 0x73522fb91956421afe8206aa6ba68c57b023187d18882aa58dfe0d531649c90a 0x62b9ea411ebe1a7fedda2c7d840e435f8c4bd7c48f677de6f1e6311b84fc4e33 (-0xa80143beb96ac5509e3c104d796287c27fbfc8e349cc85c990c110c364f9753a) (-0x1730a185009e309ce8e1a6df716153f9d7ff1cec096c6de86b4866379a988fc4) (-0x11ce583286f96454ccbf63e62aeb9b92dfdcd5a386e50446b0f253ce9d5282790);
  Dbl 0x8d490a2cf5af2b9d3e12d71aaa57325ea378fd0fffcb0bc07891f46d82c2c40 0x51885ed24195893e28f990279f97fc16a56cc38cbc50ca3ec0eedba6533bc7c6 (-0x1e9820a3e316514842ad8c5514cb2510f6141498f98bfbd6db608d6cd86654b66) (-0xc0805d7d91bee0801918a243bd8b7ea388da4702c6fd80740e0842b1d39ca73c) (-0x2b5d330feb1d73211f4e65f695a7507e138002dffbace5173dc6f0f432fc19b73);
  Plus 0x395216610e881bed8497d0e611bef071a6c3249b6878538dcece1e1fa627d7de 0x1f873da72a107f5331283c924a7ff0bd8ac4c5ff855332bf9d01fa0742c90ed4 0xf246042417070cf8a26fc547b7e07abea75e19a714ce0eafa80e217d649b72 0x5d0fc0396e47fe1cbc9fcfaf12057080cef52de097f8afd09dc2de88a5c04e4 0x1369fbaa367cd919742524a45c7d7aa1a4668f9a476ebbe7425cb60fdc50049f 0x1dc05249b1a6f8bc5018218684214ec068297227c9b000fb9f79e1e180aa8d8b 0x67892994a4328727f8f1b5965fc9738913689bb884728bbe9cc11cfd3212ecc (-0x39c689ba9d732e1542fed7e3b15d590a8516b0015908e522d27bcfa847ef428e);
  Dbl 0xcbf101b865d72dae4c4fa4fd62e5b5b3dae817d976306853a7dfddd789b7f9b 0x5708770dcd154178a891f00980ebed7cffea50ea9700e8da76a92a710f427a05 (-0x8522dbddfb1b38b1097952202830981eb254f47e259f098da42e8b52d78ba3b8) (-0x1300b0c93c1ca903b4bc88ab24cbd08653772810fdc075cce9dc0b8221a012b4) (-0xe96bc770a7c0fcbe8f3b79ca96790ab961fac108c3eb6a42f416083d836d699e);
  Dbl 0x60d0be633a8fdaf8cd0665a78d887fb0afa0fa9e90ced4a9c0e6a84c1a0e0030 0x25f030375842c7b0d69f0cd02994d6863314ad5759ef35dfa2ebffb0a2a74f04 0x3a55299ba2424e8629d147596695e25dbb9995cdd60efdccefdcad51573df698 0x491a9e38e2b7223bcb0995668e76d46296d740c8e575b50ae39137f70d8a74b2 (-0x6c7e5d122f2208f835824682fe28059d4211d075ac9dc1fe6cf6dd15f72f025e);
  Dbl 0x5850b8b027b239f6ad39493b3981589b6fb8311d226d840521676725aa62a584 0x65e98293932ff028473fb9cb85390f8c05e93247a6b179f64b0cbfbd73e809f9 (-0x187da3b213fb8d222858d087eca1ff14ea11305a333ef359376cc73c134e1248c) 0x8291af1c727559720e956eb0b8e7471b0a0b4a6fe416bc0c1896a2259a376f0 (-0x1f3391c6d34e08b6805db9388d28b0c5bc0a24e4f49cfa3b167699c1490209bda);
  Dbl 0x689278b3b2c7c4a1619e34d4967cc40c1f727be3a9700074a5f8cb8079b6556 0x1297dbe58ea5001f92456aa9cd70dfe4e8cb0ef046a2552ced06ad0c990d8026 (-0xf6ce84a99347f6e2d7307bd328587c0ed89d14f442801e28a67cbecaaaa5c17e) (-0x9b0a972cf0a0be15ecf86e44258967cd084d9ce3404f892ef7be9ed505e941de) (-0x1aaa7438f665af8af6390eb86d2be485f9c223975b06fe0c28ffabfbe184fd44f);
  Minus 0x4b184b45bb757b2d975743950eb780f037c5c7bc5d58ecf52599d3cb76240778 0x5fdb9ebb5e31d68308f683a6bf3e30b4e99861b91b1f035c246092d26bbd74da (-0x373fde3039eb3158c181e22295232057ad0e903914cdc2765ed7cb3e96b01b) 0x44e11ee684683281b99d3c599e0a879ac60ffa02257e27ab7af86ac7ddc1aa1 0x1703e80d41ff5196f26df38d29b336074406f0d1ec762f681fbc3add2e0c6dc0 0x4d3a6f01820f5ee774fa36d9727df808f94fd1ffdafdb1646a4099509bd0a852 0x18313b100a1a2619ba62991d91343304e29c01c84bc2857e982be141651365e4 (-0x2abfb5047405c26483b5996aeb592ff007948fadb78678e7aa8172de92a0b8f6);
  Dbl 0x4a672344a27148c28add8ce2db83c42810fc31889591b92416f10c0bf72dc296 0x4cd0d13aaa0730b9c0dc707acc294c9baa84d5160063c780623230f93d3bc25a (-0xa3f57b561cba48a6f72e52da3e9b56822261de27263ef87a06349ae664f3060c) (-0x53f24f7860cd20c92923d99f534cf8750b036c792ec22569510c28f0216092c0) (-0x16c078e0a41d2d3f6efa4a23af50de37b4baa434aa9eebf014512212fd26a9190);
  Dbl 0x6f346704ed3d2e155c98c50e74b967c5a2b684deb166574acc53f55f8b624531 0x4967f565b713d73fa77867e60b3342d05cf31675356202fc0e4ac4b3a3b1735d (-0xbbdc270fc7b2755b4ada50c7c8f5301827168cabf80418ebdb1178b2a2c58f4c) (-0x626757d8b9eca2c53c34f216a64ae55f12b4d0233c9647f7b2c2b01f14d4aebc) (-0x121c9cd0580b34aaa7acfdf8b60d08404551ec17d5158890c56f56e76ea5c9c6a);
  Plus 0x68068b42439f299e98f33844e57e3479e78e14136abef0fcb21b2f8fb55fdb44 0x7269513e3408794a0abc2379c2db719f1e1340f4fd1d8cc3265d04865f41970a 0xda20187c2860ad37727a2a6ded79fc9cff040b6eba383e9fc5d5eb61889152 0x493f82ad548c5b9e8a824ae3c629713ca5afe7b03bcb56c8e773e3cedd7bc200 0x985412dba1a4b43388433d308240f490ebab4ea529912f3037e6bdcea17d4d6 0x3ff252ffd14460762131c29c1394a2293d45f9e54ecd47b75b3eea3ec9184381 0x57ce664c50755c8c4887b61b205879d36194ce09d66629ebe0845625e6a840cf (-0x9760b180a3486dd901416881ac26bef9fab0b03399175859785d28f932638b5b);
  Dbl 0x3a3946b0cc63d2f931e2a89ee5a1bc969395a9b9b488e23ba7e5399e16b5f73 0x7cef9db005dd8216c8e61ff3aba983b5f9c746fbaa0819754cc9fda2c616898 (-0x161cf6594ebe68e9d908d3c4e5967427a9cdaf51fbdbee02e8e5e29327fa536ce) (-0xcc81408f5e2418a653f02e64bd0b7b77d8a7730c572e5dce02dc8ac7c79b45ca) (-0x245681592b25900c0948087f3818becd0061a71b3619ad417e50cde55a945e3b4);
  Dbl 0x73d6a8c1279ef172e4658db851cce113e2b70928f2fd005e197514b2e20f6366 0x2b370597f63b354f8e0dd558e92eae1685b84531d72d643b38e7ce1764ec953d (-0xb914e284ab8b16ba773c09cea011bf166144d278321169cbc00e1458d859d) 0x4b9de2d69a744e109d4105ec344653d185941c2080b3e4cdd33fe7214215e2d0 (-0x1d7d5c69544f1c95696d49f1d3e0bde543ab914dc4196542e4737fcd05035563);
  Dbl 0x42aed75d1a70cf5ad85a48928c69439d9110e4e1fd6b51bf6262dda4b97aaeba 0x196c05757d399609dbeb37211bd0f84d706a002555cf5707455f3a3ce5606c5a (-0x232a26b5fa0522181c2f394684721bb47c2c11da6216121fb523caef915da6153) (-0x184f94413e758080e14b253262758777f2a83dba6af7478bb6ab1666ad7b1c8c) (-0x26a8276fd569eb86e78490a1447c0b184d184f20b36b7bd264e857c8548a02619);
  Dbl 0x2279315b55550bce75cb91e355e21d63ef53b146a1fccc399f336b214ea41fff 0x5c75a9385d737ada42469324a3a146736b4aaa4a3975732662f645b889bbdcb1 (-0xba3553a2c0451e413312d1b0b06d390ea9093c37f6be1cd34c89f6c4933b2181) (-0x8ca59d3501a81033b9ed646c2edc177c6441c86a4beede6ca6c8146a060039) (-0x11252c9516307dd4aa9c8a9f987b195e3443a96561420597f56c8a7e5462e6117);
  Dbl 0x4244ce11d39830e2b1d61f90484aaf16495ebac9ca36408ef0c8175de7ba8933 0x716a0ab2ee6bf151bfdcd26e2bc9692f1680b86d0365ae256d1f5ee69bda94dd 0x167c463446ca9d186a1436f3ac17093431f68850e52f68f0931f71016bc0e9c9 (-0x702412764f22dee6aca4ed6628a26f8be1d18950ae492078da81bb696c92655) (-0xcf1cff21179df4cc1a7f2ec708f1cbb34e64ca6fca87602f4b9d7a716a85ab93)] = Some (0xc7a0, 0x4244ce11d39830e2b1d61f90484aaf16495ebac9ca36408ef0c8175de7ba8933, 0x716a0ab2ee6bf151bfdcd26e2bc9692f1680b86d0365ae256d1f5ee69bda94dd).
Proof. vm_compute. reflexivity. Qed.
Lemma forge_1 : run (0xc7a0, 0x4244ce11d39830e2b1d61f90484aaf16495ebac9ca36408ef0c8175de7ba8933, 0x716a0ab2ee6bf151bfdcd26e2bc9692f1680b86d0365ae256d1f5ee69bda94dd) [
  Minus 0x4f686f8f80ec840289e43f7ac3c7883f080779573eca3219c5303fd4be7ce048 0xfc3b3ac14d64ab657d19640c6d1dc1e88420fab2a29fd449fd1d045188cebd5 (-0x1510254f32c209c89144b96196b1fcd471ac741a67e9818c473b472ecabefdb) 0x2ba65806d1a508f60676cecd020b235c5350d644cca8b18d7b5a242d2e4e222b 0x3353fd4f24117f6071793630604816d2fe5bc0f95d26c761b44fdcc161e58f39 0x4c607d881334e05edffc41bb2b527fdfdb5d8f50ebbaa02f22ad1647e8dcddcc 0x37466c47b4cb1357114d190b8d433fe9b0d6b89c071ac51ab5006b1a28eefe37 (-0x51d4b65500be6fc5780c41a15b3b9f32d15f59594692951f94bf133aea6dfe39);
  Dbl 0x5f2ce50537f380b04c9bbc45e8a372915fb86456dbc6dcc3919d5a13f394a69b 0x45bdad5b2006f4a6d45d849b420af690b6f2a79df9fa93eaf41da501dd880882 (-0x10dd181d18744d3e90fa50db2c67f40f09605421d3cb7d403f6c0c820704cb497) 0x3b44286577dad8d37a7c43a243f76236373da394c843be38775c464ded3dc960 (-0x14d5be802d7eaa02a09766c7fb5f44f650aa3c9f4ac0b50a57cc50bb9ed78f895);
  Dbl 0x1a22952ca6afc0319deca8951cd6d1d046d6dac417e514294df267b5b6f7bb5e 0x2e6fa879b2a2558277cdfcebda54b6834f354c65a1499b3a21a731fb8eff4695 (-0x15cbb79e784699db870b65d0a31c955f9257bdc9baf8aa69647091a5bf4c7b498) (-0x714a74b48cdb6505e7faa18bc640322d8c52fe26a83d0738c723bdb4813ed78a) (-0x1b2d030c834fdb1f372faf1d8abc950deeb03667015b36a54d97c67a757612062);
  Dbl 0x5ff617efb0543fb0f709055e0ef2b5dd8fcabba8098b06e2aa0a6eb0d7dff390 0x4304c029b1f2b765ea9be6ea94c4900aa2d4d85a54fee11bd0cd3be1006b3093 (-0xadbf9099e6d54dbced37cf4abd0308652a09b44cfc303485bc191edb01a972d) 0x3d1ebdfe3cf48497f5132c8ea3c08d27a9956ae8fe335e7ed74dd1d471c990b4 (-0x695e4a2cc5be93b3c227eb24865a66d5564d4eed87b30fd6ab7c7940b4dbac3d);
  Plus 0x3efae6da93f015b7d2ebeb8abe0a04b26a62f9d723e49d6eb7366ae42280c86f 0x3b49424917023171f3000f656221ff4910084ab70f39b6ab1f105f4acdf2ce6f 0xc72517ebc04bb8f2d44fcf1866059e184d1a16acad561b221fb9951164a69d 0x3f352539b49edac06ed9113d978267135e8735e50f82911d0b4e53205529857c 0x6a7c2a97697ce64fff9901af18a8731481d5b2ed937a918498f24b5b53a162b0 0x4f48612b00c271dcb5949d4f63edd037bc8712b279adb9412e7cd1fb312dfefb 0x2ca7a6e6c60a9655391badd802fff5976ecfb89ec8a91f8c2801cf56ffdac9ef (-0x5bbfacca3068e67db990f37c71125170bdfecea7c08d4ffdfd39359aa0746cc1);
  Dbl 0x7ab690f7f17d106c966ce7d5d88c2f8e7b4ef7f964430ef5c1883d72b9deee8 0x46da316cbdde54ebe3b1ad855df9919725487d9c808e75b719485c6e777a9ac3 (-0x8cc187a89bf21a57e99a35a8f9253ce9349155f5b1140f71e1246034e421c30c) (-0x39f81ddc9454f18227576879635dd14fd69d7f61e4a05ae54d6604d481969902) (-0x104f476ff8495daca400bdfde9409e3c804e7d4352ced0637548971007fe9d8d8);
  Dbl 0x2675a5fe50fdcfe1c2a694f3d729faeedf1a6e1ac82513c49d78d4c278a73663 0x1aababea7e47941b5cc90a15a202868e949378d5ff88a7ece2bee653ea603758 0x28c41b320c229bd65c4934ed4a740c712cc7b37825248ee32f8666fd826e9ca6 0xe845b84136dd88d3ec5f3a097e852159c94f01bf6d87a5613d56c40d46e5399 (-0x3e688d275e93a05373fa5fc3b1bea8888e3223cda27de8c3e763541e02c73a21);
  Minus 0x5085074a12c34d3c49ebe4261b34b6a40d4abe00ef62a363d6b39a2d80c2fa3a 0x57efdc23a206dc83828830bf3833def539c0f09c288e0a6c12e2aef2b89d5b72 (-0x4f4059971797e085ead4140cd5a923fa19dd35a378818d4401345576da88ab) 0x19551cae589c89c416407dea7906e6331f2e919c58fafcbf0e1d9cb4c43ae49b 0x7b1e2f4a901379696d130d5632bfddb7204048eac93aad3ed6d8ca380f7e461 0x181edf1a275f82506583bc75f0a655f067b33bc2341080b8f2a916b67d19e417 0x290aad33827842f67604c8c58d490de94d9e77c7548dee0d5facf3e84420eaf1 (-0x3c285b69579aa1648a84dc1cdde844f577a89a3c0efda73672dbe680cd0320e6);
  Dbl 0x2df71940e39725bf6175fcd6e13baf10286ad2c4f36132eb8d98adbe7f233a46 0x42d60f9e836f16793b66ab1d56932a121ee058495aaedfc6cfdea1c318344848 (-0xd4ed0e4a2848e6608b47ec1bbcde0b10b2b9df565d4971080057ccb96e8d1c1e) (-0x57e8698c8e156920165afc780a04ff88f4a92c7f1a0054e5b673f0c8dd813914) (-0x18c21fd6d5e7e103a00d3e8dfe1cd53d56bf85aeae679c60b3a41d5b47aa71cd8);
  Dbl 0x4b1e6d978b88f9544456df8d547ea03080f076d0ca8e582bbb4a90a4a9d6ada8 0x170af0e7fc00d97d80dc990e28919d3b628a03013fa90d8f9007d4c49689ac32 (-0x3497a0914b7174e806d9772dc3da0e21a751f48b8ed33a4c89cd7d44ced79541) 0x6b38e32db87497840b6382a9f2537102a641435116d3c73974e9a953b861028 (-0x93f8d8ff05d092d99d220370d3d6259fcb606e870df8d1806bc6ed2efc72a99a);
  Plus 0x1e98d1206318bac1a668dca2104801600d04468c38044d3e91024fa18efb705a 0x6f84d23f0d8dd4358c25a2a810d6bdfc0a0d09c976b3b4f45e9ce4f8c668be53 0x4478a339f908997e624179af26fe5bc0472a637bdaed22a13348303e820b0f 0x317aa8f42d93bf11f4463f1456cb5e2cf05b0c1fbe7ff291608038569e54febb 0xe78201878d1b1ad614d93118f935011ea3524510aae55f3176a5112e78e84c8 0x18a93cf5746a356086840589d7e7a3be36ea39b726a99b22bc935232fbd5f383 0x73c438fba7234ebd2afd8dd9ab014f8f34d7f3b5923389ae178fbac0e44f72c (-0x2de8a7768e9ea57a1f4f7f397caca80f7d571faa0c7bc1ebde9ed6f12b22bfa3);
  Dbl 0xe895425c9915476e90c285c86e8a53a34e1b187c29ec95d1a07c62f0a91bbe7 0x22469347d108e1a6914011fd32c3458b66c8c5c97cf6864363d0cb9d02ea74df 0x42e65b69ddcdfa684e80aab86fef833b07b00a55a8f05bf6c26cf6434eb38134 (-0x33f5fce3ece60ead74243ebc052c0772036f323ec55ddb03b6c3cf5446c499f5) (-0xa3efc55b75ba7fb8a043328dcb4fca1f008381e55ca08a88c03a01c4cbfd58be);
  Dbl 0x3a4e70112137bd14c290d5561800839e73c3df85794bc49b96cb4a3b506a1341 0x4d1a90e07d4bffbd8904879d99899e86027c3c43cea9d479edda86a60a105767 0x105329db41df40fd67e95c7e8f2d621e7663e009020ea844824591e5f9fd15d 0x2d0a9dcdc77a67e3d8c244142c199a5e3d5c40e0af2a131ab60bc6a9849208fd (-0x5a2d56a64ea567b33af6d43a2097514ef7b2a1e83b37b4db1c43d369f96feb11);
  Plus 0x72b667883dd67a540ad7a31ef9d71c627392c680607e20588bc0e3b36009b00 0x647956f12d1a932f6570282c5dec25018ef4f06b433e5ecf546e93ccb89b9557 0xe51cedc71a17116b655db391d64bcab796347a1c2c5094fd4ccd2d984d0d3f 0x2667b75a16180277285c6f3fbebe25527f6507c175926bfe0011fc0239959c50 0x131d5da2577975f11ee5da2a12413317e79f11900e94911e3bde0dcba9edc7e 0x414ad40390114bde3d8078d772c817a8378abdc2cf8cc13749bf2b5881ab5641 0x35fa48bbbfa519053135fb7f1d0ad70f817a8f6817535c923812a89a57663ec (-0x6572c07171d755210c05feef9b6c3f701c8124bc9cb6c0aede3dccf040d2eabc);
  Dbl 0x686166bd14d9b7316c75a531ac91a571df17ae28d2b10aab7be41642622b2052 0x2d2b77a3f174be427fe6753ba705aecc18b58ed351cbb96c0fb7b5c085808326 0x54dce48925388da0817c9bff924022cc7f2a62fee17628ab8a167c9af4e066ad 0x4bd0c13567c7fa0bc4a714cb03c4c978979a3ace5c3d81507ef5819f4c362708 (-0x7f7bb652296475fe0d902c070aea0209e475af8e57c4b195768626cbc39e931d);
  Dbl 0x33d31193b7eae2476aaddafa3953191b1f51249612c1211d3368f5137292007e 0x3b30b599a146818ea53bda47ddbb7307ad258bd5cfe38a79e8c280366719b82d (-0x1c4509988f8e2c800be03111cc8baa7774add9db5f55083a3f1b52846eaa7c833) (-0x4d846efae500e98df30658155c4dabc8eb8df1747ae136c0cd643d502a3d9fde) (-0x1ebe1913c85ad7ffdaff4aea27f8c97a27fdcd74db3ef300b3022e6212f1b51a5);
  Dbl 0x1a517c7096133f7e43714f5178aa55e57bcd4863c019aa1877ea635d01e63e68 0x651b05ddc99afc27081f6c5349eec3e6faa882968621179aa98b3f61deb2b26b (-0x559ddeb60dec5e40249270924ab2d7e6579c11f72b139783583e0bb949719b35) (-0x23f704aa9ed12b9d1bb2cbdbc09d2bcf77614c4e5425eaee2b4f8ff5045d143c) (-0xd33278adc47e58183cb4dc2d8b29f776f035d7a5d37dc01165b5bd1d6450a055);
  Dbl 0x6dc975ebf6508df4c515337cfaf5a057c4e8ac433acc9520f7bd89dde1f672fb 0x1baf6ff152822ce1ab46c712bd58b72a17505d878c2745498efa2fb6e3cae01e 0x3a4dc8fe44522f5b69abf4d93405483d5d5cbd2205edb80e03bf30acb962732d (-0x1fce6115501049efb52d89725c7ee455b2fa42e2115553482356364759f9c26c) (-0x799ba21a1c9aa5e4c3ed3a7af9a1994f694158156bbe8085f4edd007b39110a5);
  Dbl 0x608f5dbdd81171a85a7d48dc07585549ad3ae8fad9831cd769f99d333aaefe26 0x3243ea18d0cc43080ce9b8b77edad883244b5304167f527033be66c11753d56 (-0x2013e32fdafe6a61666e0d3c2a6228e5ecfa2b18909e39f2f3086907a9d7223f0) 0x2451d0fe3cc52e1e6d81ee9f3e27129cac472d4b8a10b766c660ae5a45052bd6 (-0x2115a9c0b948afebe5bcf20f45720a68c7d86f2d6e5ed9171a4ea8df7ced8294f);
  Plus 0x3ac1f4ff4cd3ca4cdd0bf273728e4a007e3921e6a26fddb5b37fe999e523c359 0x70864ad92466d586dbe3396900aca05fff843969b64f412ff9fdd1f451daac08 0x955cdd4cbbd2aea349f60ee859e0f68b99e27f923aaac409692c36aba1dc2 0x3f9a1a4dfd8c0e61f20cd5a968f659eee3ecd3d77112cb59edb96399eb9d3b6c 0x42ab8e55a321df12287347b51840395a39996c198d142b3b0c95dc6d00ecc894 0x21de24780c53e740990437e1d42829c6a3cc068f2c274f7049477e7b5328a754 0x2b64cf7939cd89645a4ab400d1d544cf39ecd1d7f555c4ee1a547678b58443c1 (-0x5ac6716fae781dfec85fd987aa12be5c81b866cece14ae0be0761b7352ac481a)] = Some (0x31e7c6a1, 0x3ac1f4ff4cd3ca4cdd0bf273728e4a007e3921e6a26fddb5b37fe999e523c359, 0x70864ad92466d586dbe3396900aca05fff843969b64f412ff9fdd1f451daac08).
Proof. vm_compute. reflexivity. Qed.
Lemma forge_2 : run (0x31e7c6a1, 0x3ac1f4ff4cd3ca4cdd0bf273728e4a007e3921e6a26fddb5b37fe999e523c359, 0x70864ad92466d586dbe3396900aca05fff843969b64f412ff9fdd1f451daac08) [
  Dbl 0x59b93b2c90158bb38179d968a8ad47e91a406904e425ebc4689daa2e0f5873dc 0x664434de4df7a0c318250d7ef6d2a520054a06eba13ea000a99c23d2a0f9d057 (-0x27af279b5736cdb7ca6fde4fbb242504294f672d8fb1dc0ac49ec2f248c3cedf) (-0x679f1e588d9ca72952419f7fd82a1c33944b6e71fb54687ad283e42c608cac78) (-0x10e076ec859c6b3a0a7076b101eb0cdc966d0393a8062fadfae0a6f2c8c95f64d);
  Dbl 0x3eaa1360ca2473e5a7b0d7fdf69469a628762c68880cc9d09d5c7a2c8e8e4a05 0x4b73db56e8cd4362cfb4d84e902805003e5c770d49149bf07485aff78d1e799b (-0x100ff12c486c2129a075ae30a6560a6daf193c599ebd1f1c35ce990dfa203fa23) (-0x70346e41ba96f58da86d356678ef803dc66ff3084ee9decdeba07d75d46edf94) (-0x1eced58f9233784cab0c6f3629410e88177659b54c2427bcfc7cf4b210e134e37);
  Minus 0x722c9c349860e4b4658a6aaa1e6295614ebc398d09f8d0bbfec2047d704a93c5 0x5772b5d9de8ea4e32fd0164d4ad891f19d7016d3101130b3ea7c90ef4e86ec36 (-0xe034da74dadf2cc899ecb982b3d07d19d00f386708aabef1bf455e0d962191) 0x29468ff878593e12340ca1f78b70119332fb6a4e09bf8ede6af250946b5433bd 0x63dc1a13f1d3acac221f9be03810361ba7e8c204703c5eab23e31b3e16e90317 0x1450e826c9da0c3a94f78a074e38a2bc667f4643e153cd6b9943add4c25faf5d 0x192dc458ef2b0d8d30ef3d0053b0f4bba384df8dac9308f97e00f657fc7ee942 (-0x4158d32c645ff5ee56257b9528d4247606782fc5b66a5ad950ee19587a5e347b);
  Dbl 0x314a469b8a241aa8f3a0524b071fb75854f2fb4d8904e79d188ade5d6bc1430e 0x6be1293eb1280eee7546710f4cfc8cd2531b38dbc1e8e588c6ca267de002d317 (-0x1f044dd2857be691988f1f2dc83f16be2526ccfe09827a9fcffc712d6a77a1688) (-0x8bb7d5bfb79ac6fde591817328d47de7a8d0d871c0fdd5695d973c90ee8daf0a) (-0x2bb663a76fba598ddef52f8c216dfe52956c3528237e770061ffa1eb7b53d26ac);
  Dbl 0x4871b1cb1362958935d870dd70eaae24a0dedd9848e4836d837570cd8df35405 0x5cf366ba61b844d0dcf1e0adf4b0a5f0e2098dc606c54b64418028f35591310a (-0x46551b8f137f9978f2917cde61e992c64a0482981e471f9daaee34c5f77ebc6) (-0x5522393269fe5855dd447e284c9e455568d0c04f824394924cc438bd7f473475) (-0xd5a562f03ae1cf2aeefd7b0ffc29fb7f178ae2528c8b03fbaeced23bc2bda4ef);
  Plus 0x59ef5b9470f94fdd8fb8ad0c0a0c33cdb9464d8671922fd0bc0e81596772058 0x44f555e868d10ca841abbbd8b0ad897835e84f84b02a69353defdfdb790738d9 0x11433c5181690741a30b5fbdf1885dcf4299aafff860447f975ff4adbcf4ebf 0x2fb7a41a1511221b56b1c81156b5c5d171386ab8f202152ab5e07d8b23b90494 0x157585452b3d149ea067fa7a36a8bec83c0ecc6c4a8505f2eee0059648f5efa6 0x2ebec63dfc21526bace6ca7609a62698347d62be9ca85f8ef4886391c60e3eb7 0x2c8496812aa9450f3229050a2eb90069abce019f3f22124acba59e2a980d7c (-0x438ffe40988715a224da2f14802eb2e10484996d7ca54d35429db18681515101);
  Dbl 0xa50cf5053bf290131eea76c2c6a8182a445fd2b29a2e2b3c3bd2daf4ce32518 0x5e625b1f3c5579ca22ec26326e572246c796dafb63e84184dcf52311f455fa17 0x27a7fd53ced55d86dd7dc88632f9a1f51dfb43abf2f8213b245bddec38e7fa88 (-0xe9e7cf3ffe08c72b55d6ce8df98c2fa77b58fe7e421587486156e09e325458) (-0x5f34a8591d1051c954c8f6eca02e9b47423638b5e4c71805cfc63111c8a452b2);
  Dbl 0x3ef8f754e00a00ff8b18e8ccb1683a97c102b3ac2517feaa456401ba8c57d933 0x16a34eab70fffe73feab130b559d5099faf7330e78fefe311318468a069dc3a0 0x4841159841e22b7e06ff8248945f7e34edcdc4dcc27018372b2e4ad7b1dac8ca (-0xbf3104337006d2dbd869b8bf41c5cdbe156034245ffe8cbc0b150e63a797beb) (-0x532d17742e01fef2523fca5d3364154f1cbf70fb274c97afafef29ddc4dbbb71);
  Dbl 0x223ee7946fe9e207f63f5000dabdfec44b56a8b5bc1c039677e6868e6ae340ff 0x44a6171cdfc31f66131483450a56736b94c50b0f90d5c7339f81657921e8e0e2 (-0xa69d0a59d531945f0b8ba63e501e89b5a38bd85ef445aa16987358a31b4287d6) (-0x56a28d5d19c56ca2d060e0b117ec23d7e5a9c3f6345f9684ab97b6f57a113c9) (-0xd5e6bbce38b12798a16054541807f57b25957b5c2d3c736f524527de3328c0fb);
  Dbl 0x100d7d6835c2fa6b5710ba0e8a24fa670fbfd776f148aa7fb405c5f28679b22e 0x69f717d318be29396c870ac891b038bd33e9418e4782b9658bd19e7a48b6ce17 (-0x9ee2119bada127d1ec13522dd9adf84e9244290a7a39be3a7d31fc31d982ed7) (-0x1eda1c8eb5a06c16b29d36706eae11a6cbf494139d5e542f02f6f0ed8e8b26c8) (-0x9b4e1ece3aee82e48f9e54796e02a6acaa5cc435558df1833b2b6bd940ac5d15);
  Minus 0x4999f71f81ccfd33f64e0ead3a1c3103a351f40b363791955949b9cdedb27f01 0x718c96808649effff4e2294f33fc5a32894176d735f0c020b742bd02d3aa5b60 (-0x13adfdadc91259913dfd5ab6c5cf9a428124808b97785e7763f136c2b5948c5) 0xa92d4a10ae42cbf6fa29c0cebc94b5093293fcef556d6fc608c47f0ed282902 0x151f25381eee4a3d4cc54f6a8293560a5eeef7cd1a03a8ea48e666406d014416 0x376e18a9d0393d2ae65a732110f7876f949ffe4fb947e1acbbe8e75ddd11901f 0x3b24780dd8847f712f1661966a9682e5ba642acc3d03b5b96d77b4cb9ef80fb3 (-0xa01b97db989025910bcb570e7cf8702b14805eaf7d993303c65248c2af625745);
  Dbl 0x588c3f87fa724f72a6bffb931625bb4bef04c4939a98c5564f8a138c89a09212 0x73cff80b0ff4d7d63e9c297d02d1a404b44976e5b2b9adf00910dc07e23c7848 (-0x7a6c99b6c8593f9501cb7c5e728286a482879cf567ebff14ff9198fd354edbe7) (-0x7a47fa65b64772d14aeba5f3df20c6271cf0a05bfc499076ef4f41efa059e0dc) (-0x1758186d7c1386b0ea0f0404f583a4ce673fa89645ac43f8f8d21d71c76412105);
  Dbl 0x26884c4596a28e516eef368a2c4d9914e1a3bdad70ad8c32ec1bce4a8ce275e6 0x24922bc981dea96f0b5d414b86b2ef51a72629ad0e05a637fe48073dcdda49c4 (-0xde7977f86447ecabc47d3f2eaae03d335a75cfee085ecdca76c11cbe2013ca47) (-0xa27fa3b4e0906eb13d8a4c7eab581af2537e4e313f924857b96013106e5f6d4e) (-0x1d38db209e593bbd4670331fab2feddc116a9a4c3cad02e1910a0edd5be6d2118);
  Dbl 0x1b2d6272ff366520a5042533a1f1f612668253a6471b81cd810b17aca86e16d7 0x57e1b73d31b8b2fe1324f8484162fcaf03d108b4ff30b88a6f5146649bef9f6b (-0x34802223b387e6634d26a1220dbbc169e182e1e078eee70454cb553fc5ed5ed4) (-0xf074aa4f0eb1cfce5c1eab5e4e7dd8650fcdeb3c54507734104d3f5f6989f60) (-0x69972919687ed3ef294c44f0213b06a930b280d92630fb97163fc00fb6235afe);
  Dbl 0x120dded7d3ed8eb09ce9b1e19831bd80b893c6428c696d809f85a831bc494103 0x20a15153bfda1e72e14070e679c178b94d4a1adb1639c3f7f728e6eef0d393f0 0x22c3aa95bd05b45e2cfc8562a216d016e495d0223d3e957e142ba449e3a880ff (-0x18154389d6b49bed7857bba618435c6229ac2d8bab78f9bb229b2923f65d240b) (-0x816bc08e73a83c7e8f4e8b63ecd0c4b79906b0c13dfc0bcc61e58656d743ef5e);
  Dbl 0x4ffac657615454cc9e6061e709f0ef9fdfb760f7b981d5e603782ad03715cf11 0x456e4faea800aeb48dbe01ad831ebbe0bf6e5dacccac3ccd05251febddbf769d (-0x4dfc1f10785846387d2b52c882b68837726d7c329444a2932e9c1e8a30f4535) 0xbcc1c6d09a9c7120e154c6959e3f5fd4e372cf382175d20795f7dc66445c8e8 (-0x2a4e964c46dfc7a99a5d91d36fc86872e065c4f94f723c84e5cc7ae5b9476edb);
  Dbl 0x38b03580865f943171f80bf8903d8d58b8cf41f4cfca700114215d877c3044e7 0x8d5d28f34354c949570b54441502d287b528ee01d167a173f0520c5d2c3ab20 (-0xea4f0a1c876d37cb5819c14971496b952c83302b3b2e6b6d8787f266261f14f4) (-0x2a588f11c7a38a662fbe1f09c1952985d09c91d8c99d2c3a42fc93ad5bf26ab2) (-0x145ce628bc31f5bff0f261f819c8d1a357b3bd55b246d2d7069d7f8a0d75f7cae);
  Plus 0x63c574ceeac5975df68fe202a5c6beec71f811432386d08f3fccb856b80529b9 0x37ad1ae1c86ba7fdf29f05e67320eee48e0108fe26e19c3358da3fb908cc1b10 0x1a40faf8fd7bc552a26fa9815e82a70d00ac72261d46a229ce1f2fa7505b8f 0x2556df7270910e6a5f7916a3cf0fb4146fdb3fb19fef4e1aafe7c252ab51e984 0x39de31c782cda7ce3195114009745f257f7cab5976ad7dccf1fed497e24377cc 0x3d899c7165241e47e06d97092632bfdfee23ab65a7e1c149c712873b83493d40 0x5a077cbacaa55f06765003ef0fddccda02161bdd7b8f98d5a4fc521acf1667b2 (-0x3b596e7a5d5ffe60cb7ecea164ff37b6988a9a0c5d84c5b58d020cc41d1e8860);
  Dbl 0x2f21366817ba12642f1eaa0ac7c1ea6b5ab2b3bab8247c949a7c35c9342e7201 0x6159d7ee71dc100a934af6d0d87dedf07f2e1c6fa00ef3af8ea38596e71a04f3 (-0x192975e44e29b085e2de1ddb733b82071050e4291f75bec5b33d98f6103decda8) (-0x58fbdba5f07dd8f04148a25f094bd1fa30691717c5a555c7f5009dbf5ee03eed) (-0x1d637b9ea9a9d0c9cc6e7d183015f0ad35f53e0cccca5f953b5f8fac6b59891f8);
  Dbl 0x222a1250f05efefda0fd09514d389ed06fe34cd9dafe822a0c96e081d89c4 0x4a5555c9f2f27356b863dbdabb622e8bcd2e48f528918cab73def81ec4e40ca5 (-0xe0cee6fb41e5fa1df499cd5462ec895c8384037919f09f8686ec1bee65b252d) (-0x4f26e4fe27a705c09ce662d6d59f5961a23a12e9636a1e9f46e4a44f819c00e2) (-0xc8707f1e057ed575ab29b3f96178d92b14329d66cffe1f1608f49b30b7887719)] = Some (0x31e7c6a0cf04, 0x222a1250f05efefda0fd09514d389ed06fe34cd9dafe822a0c96e081d89c4, 0x4a5555c9f2f27356b863dbdabb622e8bcd2e48f528918cab73def81ec4e40ca5).
Proof. vm_compute. reflexivity. Qed.
Lemma forge_3 : run (0x31e7c6a0cf04, 0x222a1250f05efefda0fd09514d389ed06fe34cd9dafe822a0c96e081d89c4, 0x4a5555c9f2f27356b863dbdabb622e8bcd2e48f528918cab73def81ec4e40ca5) [
  Dbl 0x4d8cf7b0d9b6dcedd68a04474200dc2f442669f41df893a7569944703e64a556 0xe43c1dc92a45f8c8e1909c6a4420d1764bc8dd232abe10b4cb4ab71e7dfc735 0x2fa99fc1ab80f68ab59a28f793ca6295f1d3e0de3c46a2c31ac515d23c909289 0x1345a2e6224b4363b7a1310207168ab199aa941d68b838299f6589a8d92e5a58 (-0x33359f786d4ce8d6abbb1a526b00a244bf0bdf74e77f591bb2792d59d062d1bf);
  Dbl 0x539024d71a5d739c88c03c3af927c55cd662bfd3c551ce4a792e775237c0d162 0x433003d62007dd82246ce974585958e6d4b65388e036d0d105781647ae38669 (-0x101a236600d8a05352760e0bf460ee12999e3df00217df573c0a20991204b6c69) (-0x768e5541eae24f393e38243e7a007e1235c4676578ea079dc8c17913bcf8080) (-0x105bb15c3b2259c6a3521492a459563d491123a480ef0fc85cf322dd2d2063639);
  Plus 0xe4b31f65223be7f9d7ece27d00033cabde137ddeb5eb118efd6b841f93bc153 0x497bf7c5b65bcf1090c4d791660e869e3b370b932b1f95f3b87021cd5d3beb95 0xc7a5a729597418ecb7e80c8fa338c0fdd332381e14f2f3759241f4289bce4 0x370a88dd980798c4e30b68013ed1299a6455a8da860f25c5b679accbdfbbcc07 0xd944392397ebc1a7786ce5b9c14d640128637110ba170c44b578664b0be02d4 0x55c475e74e21965b609647e5ea81727369662f7a4ffba50cb91862392867e315 0x7d471a14b012e24d0801ebd5d3671929d566802b2c0bda2f9a8dca6eae53459 (-0x2fde7bded9ab6fc8ff757e1cba822dc0ad42fe3199bfc73544f851a4abdcb4fd);
  Dbl 0x297b510d7fce4e6f750e229de5291e6da9ef4e70f498ede867aa284bc3195136 0x54f8e6a0508b72e015cc9ae927d78e5a25e0389831ac2fb7911befc08b9add6 0x25c49b8e6dab03dc88f05d9a4167c3baa6e5c4f7b1dbad4461108ace7204473e (-0x4cfbf598c80339ef169091a5481442000b5487b656178a1f98a4418df895c6a) (-0x3918891d73a5f9accf6771defde5eec234f82f88509aaebd0554e4b64349fa8e);
  Dbl 0x66dc925bdba15287e0006e4d8af7449c608afcc5bbfd5d839f6ef7eda405dd9b 0x491641d41f2bd528d87d4b760a11fc89ca87f648c0f018a0092ba4a454c80759 (-0x49f8d784109374707d8ede2b89efc90a59813360c268c3e44c0c9bd4f6d49bd1) 0x11e97f2bd289c8087e532370b0e90af527e320e7a2d8a08036d5c8ff4bd62693 (-0x59e2e479ac77ce848db7636c21030f0a698619b964288145ece04efe1dc32c3f);
  Dbl 0x2d290a67320026e84b4faafb551c9317c9763bb32f66ffcbdf2fa8390dccb028 0x117accd373fdee8504288e1b5816d897fcc6bcc4ce18ff1d49886b3ebd52afb (-0x19a42c3c3daebee5d5be0cbabb3899a62e3168508ecc60e54717ac49e99e43d07) (-0x72fddc7786cbb43072b89e0256e5fe6f8f8929157b6b4e3b5e98a9b8b0f9b28e) (-0x1f6c594465a79034de4bfed622a1c30d89b657467594505f069c32d5b37327191);
  Minus 0x5a260f45e43e609e4c83be58159af5414be6ed4d805c55430c8707b612c85890 0x2e057436d6466472e8c5e6f81277d19818268700217541a56c3bf199006001bc (-0x33f0d19416384059deab4790f9b553826c05427cca746afe1bcfdecdcb137) 0x1dbf00cf265c131f1b7721e7f9ca65bd8e9b0a3e42ce6a8a5e45f00571f4728b 0x19b526b2286f99eec194e798e596b0e408407ab5bc443de26fc3d6b35d0ce390 0x4d447f82e7d33067f0ba0a12243d653ed083d42d03a77dfe8e6bc71510764daf 0x391dc442658b97619d9c492e756522c7c64a115b1651d493ddd07acf901d4e2c (-0x1b41ba1c0d61c21f37b5c7a31d67a8663356a46334f18421a94ae593b5c07cfd);
  Dbl 0x7084f0f85772959c22cfc87e5c3ead93ef520969bf5f96df7c102bb2242e3045 0x2056f624e253ea1041a79cc1a1d2de8f70577d549c7a9616fb8f42d174f7c7f9 (-0x14c3d4582aa9562cd1aecb5f1f2a9daf2a5133cc641b2bf4e82552c5dd270b3f2) (-0x40c6bf4cb3232f450399007737c089f21904d07fbb118e95f41880e38f4eedf6) (-0x172bb7d1428424a1693389d4edcad31512480f264e941efcfd13fd448ab25b010);
  Dbl 0x364bbf39cd7cf5ef402cbe04be4f2bc0879ffb75b65583cd756f5d18cfcf8ee3 0xe6dda01da149e6515de8e9438ff5480f8bfc169a1c18842a5b949a9645e03d1 (-0x21907f065c247f95ec8a596ad74ddebd93b92a9940ae0f5877d02ed03aaf2cab2) (-0x150f33480730fc3ab176686f6eb0fce8d49fad75dbdb744d8bf91871b2e91548) (-0x2362923ba81110eb704e1a10ebe1325067a827e3f758e571fd0f32d249b02e052);
  Plus 0x4f8a1db681eda2173328340ecabb21e1d00079ecb3c8e0d4ff3553841fd99386 0x1c32575a908ff4046c296125cfdf3b5ff8a36c482684832c3818299605d567dd 0x2ae03d2629940391b52e254468a8bcbe3d2db59bc84d0d2c0e7ff262e14dba 0x23c3752415a8ba8bcf517efe131411cab0c002b6d863035790b75e4a6959ab5a 0x1586733d8460c5351a72f1f4d41ad7bb50e3cf78a457cd92e04c26037ec0a9f2 0x3f0aaa2406b3283cfea53cf8b68cc54c96c4289bed9364a9d24a1bcfaef23fcc 0x4a6b88e070f4c3b9f1f129b65bdf38d11ffc6b2811047f4b074ce85103bd7e59 (-0x27097fb6f540865e4d47a7c7f750c3079d0ece84779b4800d3e7a3e20e5c21b2);
  Dbl 0x19f40c87b523947692ab3c21cf2b7c537e8f265cb690ce82c19a8f4ac9f9e44 0x5baf0f6d64d4379e3916b4bf15a1b352e02f5721ed4bb42c11a7b650a0be7d9d (-0x10a01835580577dac5d446f1411b5ea6292e86cc5289495dd0cd652d837770130) (-0x2571231189d39cbe8407109a8231a3249448d96808cc27cac18ea1f039071508) (-0x15e6059eab62643da5cffce6d88581f898a6792caedae5c0c3629392ca30ade94);
  Dbl 0xf2531e550a2553c11c0e0cde46898aff96a791777926b13714224d5baa49e57 0x519d8cf0e3da3d1d15ca38e4265470e152ebc93ac3c0ae5060704d2d72371e45 0x48656c2b79dcfd787f00f2fedc4ee4e35a516980ee4b2675f2931f06488684bc 0x885f617dbed3aa8872d32ef1352ed106ee70c55b6883f15cf3b92a89f411853 (-0x84613c8e56b93155badc47844511af94bb5a16148b7e2f4863030741890e2580);
  Plus 0x5463639a394733bc84b6beac3c6587a9029599c077ab626582a85cd3ee080fb2 0x7e7fb8dd1bc7c430ed10a31d7a1d6ec764974fa2af77b8d88effa6b9950de9b 0xf284f3e8bf64fc3ae02e69f6a3c9b1d3fe92507bbfb375acb5d354ee74011b 0x9f9d2affe3ce3369ecc2f1060e002ccf6b32331e61cfbda0eccf78f196904e5 0x2d8721c414073cdfe6153243aeb8f0548ef2ad7a6ddbacf8421c837615b8a4e0 0x30a698ab2490bdf22089ad428a2402e4461a5456b49755f6d70a52ddacbaba10 0x5230fb4ce25f1642296cd9d5ea382ae7e702b9a5447c21474072727dd003aa6d (-0x3e566f270728190b77a9119b6ad7513a2af5d3fef2c8634dc5db936555e98d24);
  Dbl 0x6e04200513b8cbcfd9f1ec136b7fa5c5fd1382e0249794bee1e0d95145000fa7 0x1e7b50780cd69665c0c8613be5f96620098cebe3a54ddb955a2e4bb09fc8ae5b (-0x1329b3b5c4e4d42f5a1ee1fd2f1e9b99967a4cee705ecbfa32bb61c7ce32e32f3) 0x28c2b9155f38b26b6086cfc1932296c62c7f53c55aca977034415f9847104b3c (-0x1422ad1d6c90d2ea3456c1afeaaf3614c3039a934f160af974b005eb05540f31f);
  Dbl 0x3a2802e6ec8adf666c24af69a547b580ed01caa58a46b44a21a83b840cf22e6a 0x7622ef2828412a4e3a35f5de34f72a882ea5d0c5c16f549648337978c4a2a1c (-0x20203278ff79964249247243f26b2bc33b7c757d4d10a0756c8b82588a8af66be) (-0x327e629fb9b53d683f63c17beb4cefc3d50efe394f4770fd90601b9ab555e026) (-0x212f9ed8d159d5bc1ac88605c9a31633e448acc7064b75440c5e2e87d1b77998e);
  Plus 0x69b6e2e918cd104950d11875cc83113cfa1648e9a325c5ae9683c70d082ecfe8 0x2565d8073c805431fa6efa6b2740ba732aa384d97ad83af30e88e42059fad379 0x15f0a8acc464cdc5f864b7ab01a0de2f2013e0dcb54fe6c0f2f15a38cfbbed 0x264e67d3e9fd75c2a045db24e5efb3341429b1c5293ebc51ae6961a8d754cbe5 0x128d801383b9337513f0a62e0c82677d2893785402b0a21d43db0849e454cfba 0xadb206c02d659e2b1faa3e9a208f37db376ba17930e304c48482f4b303fb7a8 0x5f8b3e2231eab7f24bdbbca1b78241dc72d1c6e5c442271239c8e201a259d114 (-0x2a09d8fad6636c345d9bbfbb1b2c79b8235f6a5a8631237b7e6c86a63445b582);
  Dbl 0x44d395485c008c243be9cffe4599d6147531dddca895e7db2eff7152a410e15f 0x1af14d909dd06fc78340ea9ef4552a55bfcf24b14eae3f17a6d0ed4e76b1ef86 (-0x1d5f001701af0ed3b728e9ecad15c3211b30de6b1a4cf80733b51238234a78b8b) (-0x1aad9c9f287e0a2312a138d135e6d193f46aacefcb4491864cb12ea4fe7a5e4c) (-0x1fe528a3c0ab0e4a935529cd47c8ebffa51593df264fceeb43d3f247e49c17a4d);
  Dbl 0x182843bef26ab5567d32994fb21654550115ee912595e26d1c2e75c8f7a1b654 0x57e53ac36401d2b7ed562850af529a524dfcce0043ddb50c4f5479d427e578a2 (-0xc60ca1807dfd680e69f06342331485f1c2b1aa0b26570f0cbec3b90e9e861571) (-0x823443841621bf6a938f4a024cd08da76038ba7e4cde9c0c3ce1da4230de334) (-0x1295d25c6c65b5104790a7ebe12bb319719fbf5801b7da60876ac74d13d0e53c5);
  Dbl 0x21e28719ba5bb74b7b8a98d9a43933934ea4aa6fef552f880068dd299891d043 0x3fd220bd44a5fdef689cf0a95f87c1ad23886caa58ee2faea487719ef995d05a 0x2978bb506d9853e777da0194380effd1f666a19ec815df96750ba0c3a754ee1b (-0x411dfe793bc3e41a57585bd65bc7e571e42450748c9a76a596511b8e9a3b045) (-0x9923b4e3beea12d4e559a00efd48cd8d1fe3daaf4dcfa65e3ba4c8361175716a);
  Plus 0x71f35b3be13e72b4f889e0251e9a9eb6f5baf06aee853f9bee3e605f7a351f2a 0x6d63906162a5441e296cad4046f4b66b9f1598d7b9beb437d9a7db2c2ac76c76 0xbda490a7e22ef3d867b752fa7cf9b4b16404c697f7731485954d81587ffe9b 0x1651b879b98780d007c04f36012fb8969e7571e873c2d1d67a8fb63ca931cb6b 0x2e288ff89f0df07b54d9af7565918a8a7247115718a8e2e46e5f27d9e60f0da 0x2f2368eb675fb637f34fa651c6b5bed15702989607d41b0506f4ae7f7f80b84e 0x3dd501063c8045691a69dea5b0e14d941ef3e1c96c1f969fb48e968788e115c3 (-0x675c57c60ffcf752e6e0a745c28e504867cd50dcccc09029d94950c67b6f379c)] = Some (0xc79f1a833c10ea9, 0x71f35b3be13e72b4f889e0251e9a9eb6f5baf06aee853f9bee3e605f7a351f2a, 0x6d63906162a5441e296cad4046f4b66b9f1598d7b9beb437d9a7db2c2ac76c76).
Proof. vm_compute. reflexivity. Qed.
Lemma forge_4 : run (0xc79f1a833c10ea9, 0x71f35b3be13e72b4f889e0251e9a9eb6f5baf06aee853f9bee3e605f7a351f2a, 0x6d63906162a5441e296cad4046f4b66b9f1598d7b9beb437d9a7db2c2ac76c76) [
  Dbl 0x38e959c57b026be1fdc4bd1f65259f4749a6f488280101484987de1f0217cd62 0x1c7ed6becf6a59011ed2014f5604890122af2101cada71c8254d80105a12262 (-0x1c8d09309eac682d634194dbc1289812791bf62f8fb36453e096fbf44723f1c5b) (-0xc9ba77b97a7927c68431cd7636b48dfc07156ef63b09505ab7df4bad9f77b702) (-0x297ab1397fa62a84349f6f7f139ed79a91b07c372f0529f7fbc77a8e46c19daca);
  Dbl 0x5df6f4aead40ff490840992880d8305603ed88f26eea0385042314929c7b456e 0x1ce8c2b923641dffad38931b51b50a04fa49290f6a1e454ef0b4eb44a3cb1723 (-0x8baaea9b56f25ddb3d2f769b480b3cb5f2291e7e00d67e4fc904fccf66f5404e) 0x29679859ae020b5896b99391b352e8b72e76c8bd0e3d894f9be494a6bbc3cd9c (-0x98ffb9c14fd28664768f212f5abaeec8177dd30391981b38d3cde4414d2ca34c);
  Plus 0x610116c170db527edb3263c676341cdc1e210ef79aa84ec7944876f869e03ec2 0x53389f0b9c2cb60638f8b57b9f71b6780ea2ad20d8f3aa04bcfbf483b4e6b669 0x55e7471eb1f4281e6c95c4cd97eead3458b1b1f3cdc23e5b96449f28f53810 0x3de47861fc14ac0de3836354d966db793acf15f4958b70313d507016d5169b02 0x1e1e97ed71176414f373395ec3dde25d6fbed32e1044e2b495d7491dcd619303 0x493be0898affa863927cf1dfc5500d80a29347f86ae9fcf0ad0192ec71cc1f5 0x5918e538fbb36f98104d39dc42bca05faa1a5bbbef76f491a2b456d4ec71a8d6 (-0x64eed54a2b8004b8a7ee8d7610b8aeedefbcc7e9a1a8e31b693f6f15541af706);
  Dbl 0x6546700b113f614ba72894068f0d695243937b38120a14c5e66f927f1b82a448 0x5b6609ca7367738e2739632ff00e79c2de7502b55261d2c83aac0c3b48858f4d (-0x15a1ad91516540b3af116bf127eb45ff0e12336ceddffeaccc14d43279d30f927) (-0x48a350685a680212e441adc090e5c4e8aaa3f4f999d005e4e33c345317283104) (-0x20db97b5b49437f12ab5d0bbb25c2650d0efa4c68d1ce629341636bed92f2db5f);
  Dbl 0x262ef4d11494843c275bf9787139b5632c45abaaee74f0d9f86991ce47213ca2 0x268068cc5aae0e3919c2c7f223e6059f501d30c3d24a33b7053c295a27053363 (-0x1724fb32eef0603c7ee00f463a7a3522c180b7bc2ae65e40b53c4b469cbb5ebae) (-0x7f92661823cd6e539a9a670b3480b552d216f848aca7599cc35790f9fedfd9c2) (-0x222d13d1d6184e8d115de2e84b1d7c8616c44836b06251aa4fbe2232670cff408);
  Dbl 0x51155e91dfc34b21bd3e83830a39945c78ce6d0632ff87726311230fef6eee2 0x4942dd77e1f4d384024f976724ae0d4266db71527f29655ecbc87101393ac0fc (-0x321877348ca86a30b6803b7fa5088a7f2c0562399ab9396ccdf9ef99f0c49a9a) (-0x14715d141de334fa20ddc20591f2c215828c67af30d780f2384cf4a6bf2cf58e) (-0x92cacd27444e7461334a4dc6164d8c9ff107c65b010e8504250c032267384ca9);
  Dbl 0x21ef9f44958b47e618c1b4d72e7d3918ee743e7e46a3b85423e6ffef2edc83e7 0x3016999f6945a05fbbdc4f084ed40e62dca40ef081e5d9c90117bbf1b35344da 0x2d309f52f870b5bd10ef2a9ae99c95cc73d075ae7232aded5c829fce85a027ea 0x83d9d5316b5ed029f5cb165229672c9af1ec9a9c98de847454f67ba78d86ace (-0x4428a312c756d6daeef1bead5e7d547326689eb88921e0841244924fc1038444);
  Minus 0x3bbfc8b1a3011f9d7d0db2efcc08a881eb74f88687280f66202e883ab610ba91 0x490de84501fdd1d3c2d817ae7b127a14d698577cbf3ae7eec4c0bf52982d4ee8 (-0x8ee4cfa1a957fe7b7a8954a8b40168e94435ca353fbf7300c4dc67ef656528) 0x165a587973a72d5c3b6ab362f9006ca4af9c0fe1e5eacacd82424c86909454e1 0x253485237b3b78153a9c6b5bebbdc01b422144fd77d06e45298fd202cdd89e4 0x1035f7dae865e14cff0662a11761afd0554f11782534669f43d14a4e4cb9edef 0x391410a0bf34debb1d0299bbb400c36c5892452a93f4ce4b3c67daffb06ddd5a (-0x637e743c302c1a71966f22a031fc8066db3ec88f4616437be74a6ae262bd20ce);
  Dbl 0x51eda2b9ee359f149eb679e3b50a1997b51d1031e0c6382a7af247117b3ca6d6 0x40639035150399b97fb8d82a5af5cec2f3be0924befb8e9f689e37bb2eb1ed15 (-0x6befb06958e957126a16ca1015072c46de445816483965ffba097a2d2b5c6a2a) (-0x10a9943a93ea9c8784c79fd140d63135a1455b0adf7b5829b60bd0634c27a222) (-0xf618c6869ffa9c802f09d3da488721edfee784ec551611082353dfe5f04728e4);
  Dbl 0x5e44462b091211a566a17694dd28fc3f64a6d7ecd9e1be3eeed777edc632461c 0x5023cd54e7c305a083de51d91351884b0a2233c163debb4443fa95e71e559d42 (-0xfdbc96639487750d416c37cf99fe34365155f80a4932b35d48ea8b7d85a52f63) (-0x5a1a72bbc74721b3255eb0191a946eafd9b6b179d5538141602be568fff3c8bc) (-0x1460857ca993a235d4cff7c71e9c6996ef8863fbdd598653a3d2d1a7e881fdaf9);
  Minus 0x12bf57d2468694f8013cacd1533fbda143b9f644e9bdb050265e895726121765 0x42cd6bd3406130c80a5d25499ca8a791b08376c99e9350b6f80ce2e43be75cfa (-0xee227a36091e3986083f8900d3eeed4294ac5ade1eb10d8205247eabdea8aa) 0x3e1765ea9bb557aa6868ad455d6f2f9339b653e5567e2dc76a92e4df3a136fac 0x9d5b00b6c094376853dd0ad6bb2d3618c6aaa9a245b49fdee83e98d5b947bc4 0x61b2534647a98c018b0388812ec165266a7ba978eae621b5c95eb4261bb096e4 0x760e5d88328ba555b9cd6ade56d4e346e4d209afab85b3449d584d444105243 (-0x499b6ca298b93812dfe5e759cb31d2a327190da9406eea110d78c557b3032b2c);
  Dbl 0x70527d362c87f83c7b57fc1f523d48759124e71a90ed2ba0766e27278d6003dc 0x237aad7a8beb162a476e947d74a765d80ba4056a487b39b4612f9d48558e4a01 0x1755dc1391ecce73eba8ff62428488fb8e6bf94573776a07a6c06e324ba372c2 (-0x4c79836cfb067449c402b53ae1463e36ea5a75cd1712e65990589ac1253ea78) (-0x3af7c6590f33e96af1b3d3ddcd81feaa6fa29042862933a4a14726b54269f384);
  Dbl 0x103085daa4ec1f4c7ba26d1cf9d50f370151b46995c88253be302c141cb31ed7 0x44227cc2d02f5f9eb28aecf524045f0738c6ae9dc0efd23dcbe178870b08dd28 (-0x2154880a7aa81665ee78b5d2e49495dbee98056790c41788a0ad7b21ea1d6943f) (-0x3b4bc7f785da38c0e0623e08351196673a6fdb9c730c7308810a867b95142c28) (-0x252caccdb6b97b5167937bb5a0fc5c3afc76cce2d948144030844f61b1839d881);
  Dbl 0x440ec2dc5a21d50eb0e7f2fe40c90ebae8a0d54ea1ec0e77edd782f47540ec24 0x4826327ce7f94b919ffe566f479e1dccd090b13eebd3cf1b035690458d2b0d37 0x1cbd8e7c99072294b2f67c86af26e06501e3380b6524708263bdebe53fec885b 0x1e5e9e5c868f2891b4c70f7e118e4d0da44692d715a7ec75775d8dbfd95c9510 (-0x67b8122f6a1a9b57256628cc3801d6ff8fd4b9d9dc93483f2efe6447432d5f17);
  Dbl 0x3482110df6bd3261ffc8bef91f25d87545bb8656e3b5e1a331cc02d3ce8c8614 0x2c2998020e0b52f8446caca5ce393719f467253e64ab8d2d7a4323bc1682aadb (-0x9ade7de4246dc844e48ed689b2930fe2987eabae3829a50e94e1903acae05e5c) (-0x2dd0fae41de0faef0763f564eac35328369a625341152c26c531aeffa300e834) (-0x11563969ee11c6450a9c464cb8f716ebe876b3c68a9ed5d2067411bdd82cce67a);
  Plus 0x1b786f5ee7017e6c183d3cae63ded26e4d14e3888520b6fc24295bde0dce9aa0 0xe7a1620e1ae30b85c670a1ed0a3f02c9d7be900462d8b8f4794b05c44af6f36 0x833a722dc7d311dbea01a5919711a98ba27d72998defa88cc9b81131fc0465 0x2295fe5c7aa2acbdd239057b32b5a8edf04fe654ef8dcef083f5efe27a55cff9 0x16eb73b1556b83271a18dcdb718ec4f405fa1587d1f7e4264f69479cd0f3514a 0x1bdcfdbdf451ca6e6aed09ecded2a1f8b76c6b947750ef268b4717c1a14deb83 0x4452f6cc71fc7eaf234198504675b93adc8e72f3db906ac95ec42d0874f32a2 (-0x2262fd40cb81335b52dab564e4bbb963ac7fd5daae8bc0bc0ab026a73e11118f);
  Dbl 0x282ad8775f41832e34819827d864506de8d788407bff819d7f6a6231a490955d 0x666c41be278f86bc23ea8be92b1eb25a5208740171cdfe53ec829ee26236b253 (-0x1ebd3def914afab256287a86d0984423971e09fe7e446be64f9d55276eec6009) 0xc7bd57aeee0626d454dbad0849129fd047731c58acea5dc6c2a43bb55db5c19 (-0x53ae8e888901c8511425ab153e1cf7673b01a43ddc3bdbe4d62a395f71d5ad15);
  Dbl 0x14073eb14a4ed09c76090aea94fa9dbebf85fd921259a96312254fe4c5b34c03 0x304975adcefab66b86e0dc449fb36cf943798e4ba246343efe74b85e6b70a1d8 0x14e7690ac409e4dba08fa2d2cfe04fd1398ef89de76a66235e00fc18db9943cb (-0x40e1b29f3f08fc8c4bb9c91b601fa072c878b7df5b1b5f4ec30eee77c74ab1bb) (-0xaec53ba4bc718fd42f8cae16276c55ad32d4063f8eed2ce8e5fde739a53fb07e);
  Plus 0xa15629f8e655f7c5e7487f7cec7075dfed89e1ec5a9bb1f29c430061042d6c8 0x2bff623bb3dcc7a7d47dbcda87d4c7951bf0312794f32b096c6d06dfbc0eee50 0x8f7bf09566e8b2dc561c04bb935e2fbb7b42c042e3c19a437153101f20f003 0xd313413d2516ae4b8664158d1b75da26ff18bcb6ae8ebf9b8d5b9afc9973018 0x3dbfda0f0cf1b87865098483ce440eeea70b5aedd825d8b39ce90cb1afe7c75d 0x1be5cdfbc63876a1112cb238a0dbb208deeb3eb3910cfdaf3460aa8e2d3fe360 0x7d3272b85a82976b018ea28abe8d4e1f9cc2dff1d9c843b7b7aefd957a8a8da (-0x431c2b10c5e894a28a0cf00f9bbf40d25131442fe427bd2791f8bde3ca2ba598);
  Dbl 0x6d7b8a8134d7c5119eadc847fbf6d2cc03e4b295f53ac71a3b9d70451ffc5c8d 0x15fcefcaae7b89935c59d6d477c847ff32096316e3629679e42dcc258aea4282 0xc50121cc8ae3a3fdf7a7dccb3411ef9b44cd7558cccf6202a17b7b5692a73e6 0x197d077bd75b43016beec57ce02f96964eaae8562fa53f578141239aa6ed3e12 (-0x1bbd5b55812d982f4552729c7204185ab8967d8df7a084774fe2095618e851f0)] = Some (0x63cf8d419e087549d8a, 0x6d7b8a8134d7c5119eadc847fbf6d2cc03e4b295f53ac71a3b9d70451ffc5c8d, 0x15fcefcaae7b89935c59d6d477c847ff32096316e3629679e42dcc258aea4282).
Proof. vm_compute. reflexivity. Qed.
Lemma forge_5 : run (0x63cf8d419e087549d8a, 0x6d7b8a8134d7c5119eadc847fbf6d2cc03e4b295f53ac71a3b9d70451ffc5c8d, 0x15fcefcaae7b89935c59d6d477c847ff32096316e3629679e42dcc258aea4282) [
  Dbl 0x30f15b07decdb38726570f32baf602b05bcf4b144d0961123b4ebfbc9ab69b96 0x6d5ef462dd6f7452b0f47a48a3d9422dac5606cea283987a494a69290e53967f (-0x200ce3f57003f717495041f21dded735ca738fbf1d3b7e29457be6b617c5c1bc5) (-0x23575ec031ef182bd4996aa8e5ab90a55d581b4af62960766c0e4815a552508c) (-0x216fa77c7e982840b2b456beb0470a37dae3d2a449b73ab2af1272a01ba9c95d7);
  Plus 0x3142bcd34fbb20c24581ae33e8fe0e5128325e9d8b2b2bcf5d64057b2c067cc4 0x3558789e81f2e47bf6390cb6fa0d809cb29c012b895cf21f06e1456d0dee27aa 0x144fe94f568efac3d24b4f3b4be5a5e3ff41296f4d63b750506d0035f8beb1d 0x203ccf986de6ef1456c9d340301f955f2771b366903b90b77a54d52525ed1a12 0x222ad2b5edcc04c3b0cef755234b03ccc4d707e17a1f6ceebb3ed2f0b137a 0xb89d507115543a82224d1d5806c60bcdea1bc131fa8ce4cbf8dd84eeb51f63 0xbb3ca8e465f43ea973e538d5f1f34c5dd8d0fafa1f348ec1cf203aefa205ed (-0x4bac3949dc2e48e4520af0629da900591ea45789c02f294eb85e65fc37de0919);
  Dbl 0x4698e4984fb7c71098770c26b0587bae185bd7a9cbfb45ad8396f58c3c64b4a4 0x1fdd54c99bf228ceda7ed0b2cae68d7a77bfa9c9ba94fab95912dde9bcc2551f (-0x501cd78e13423dffc732aac6d9195ab66a80adaf134bf40e5bf3ffdb8c907c92) (-0x2a70a52117e5e77fcea8534fad71afb2bd77f48e2f8a7f6a1b7eb8f8dc2a0ff8) (-0x8283bed2c3a338c480ea09a61202735248e8b9416b7673281f1da382a7e87890);
  Dbl 0x349db016b5daa92e59853fb8418f6ee52b56986091583cf6dc12e56e539f80fb 0x2e7ef8a7b261b9326714568157eba6d2683eacd9b2f98411e2797567cadfeb10 (-0xce335e679181e5b87acc64b0e48dcb78ada7f57b7cf7970a6827397de81b6811) (-0x2fe06d515029c87dd76e8b1917b058e3e7f86a7ce57a72b5ceec3e4014e4c42) (-0xff5e59436af256b4e2fc6e7b4debece1812d46d0d0c83ce40ff82dc7d5eb8f11);
  Plus 0x6013d798ee92d6df1b270c4e0d5cf73021d15cd82d8533b0457c7d6aa018d7e3 0xab35ec36d5bd4c099e04561f11fd4a924ae3babc5fe85f9975d6bc86b4b21f2 0x8a298bf3499dd0e8709338886b8926b3925b6f52a5a2613c112d38cefbba75 0x22a82fe55a69bbf73123e1e3c22e7eb9c2d03c553606e1df20757df25e15225f 0x194f0f6018c629c9f68ab7dce8557e440cae374cc4cd0d4577c723a32bb9ce8e 0x3a3e02e12a8f54e54c7f722173cc67e7e33f74743eceeec22ecaf2dc8fbf91b1 0xacaf6b456212c77f727699dc7499063ec44f2a56261b99662fa66a3dae090eb (-0x22e1b0b0c1ba71994caad38ff2d7d6ee44c835ef412f1ae04324433b01ad93dc);
  Dbl 0x3c8f3b3954be67f4b332cc34beaee85483ea4fd1128e051c73cdf2494db1ee8c 0xf75904f80e2ffa6520413289112f94500b44f7595ac9ba18aad1d48ce40d14 (-0x18d242ecd36150e0d261f478e288ec4e8432c87a5577c43ff4e74896cce6d272d) 0x291719a16e12413c34347121f716fdbf231e694bef5b7fd877986e98937e8504 (-0x1900e2a1ddd11d9f0e575f310a819f7d46c5ca421956f1153ccde60c50e527959);
  Dbl 0x3e0c44c25f1b75020b7e3b2094c7f8c801677caca69669ecfdc0977c0072d314 0x55f008accf0e71c37c93b261e3522be8dc4da8475458a0bd6d78f1b3547e4525 (-0x9e2b6647a04ead19c78a27ed65eae1f0918c0932d555a534f9d24a1493a1d4ed) 0x34ca7cfb90906d123bb63d870c5d88997dd9a81dfd2e55faab7849158c9252a4 (-0xe8b348814a38c9602c6ffb1497db4cfb492a0489cb50283214513cc6e6bc3317);
  Plus 0x599800697eab84f8b91682cd55cd2484b2ed3ca8fc968be19f8dc327e5fdd1c9 0x5928502befc41fbc96f4614deb32ad82f3411119bda8a413b808ba5bf22b35af 0xff5cdb0de4308ecaaeae66f6f27a989185bd46a8934007d459be8790a11df2 0x28de9e49fcbd22b1aead5f425a91479541a7fd49cb5b43d6d160c30b8d18f133 0x723e4020c90c442edad576699c2561cd56e5cfe0d087015bf82c42c072de91d 0x19abffa834ad064391e6118c7ffa48583d8c0dd4fd7235b551b2f8731b593157 0x2a17b90f40074d8ab60831deaeabfc61a1e1787761168506634d50037125c122 (-0x66180fcda8b8737a2399770b7d4a51bb7cece6454886908b1061924ac626e3b0);
  Dbl 0x5e319808a12e27d104ae427b9d996b4badeced4e7fa78b4fd06dfb516c2c1a12 0xc317b1e80f3d64916ddb225be9ccf8e6aeb52d071b183d55e3b1f54337eb69d (-0x115a36a815af37b789cb8043605aba383a0559ccdbb6544d96dcb933a03620e2b) (-0x3bfdb05a772b5d30a0847b5ca036ff2c2b9da047d7758f6b6806120c8e64cff0) (-0x1a8d96131056d4de0d49d19dcbcc838532285d08c74137fd7d17d21a21500d5b7);
  Dbl 0x2967e4a08e0633071888c98818d750a5a8f974e5558ac9162c109f56b7e03ce8 0x635c9a769fe0817cae0c642ef0ca77d6481d2311b8f7cb74fc78ed3147afec29 (-0x17d633121b538b699d276622e47663484af673e33c330dcb2ad45fb77c4aa4f77) (-0x115f03a99ac4402c66c23d97ad4548ee00b27750ed20a0169958463838359834) (-0x185d0d509422fa345d709e7d3b311e1d15992f10c1bba15fcea245fba836dd897);
  Plus 0x5f95a980027ae097b375dad1ca8b249f8605a174d5c8f3751455e9e97ae627b2 0xb9bdc548c5f9208d25185be09c5c5f105f6e88310506f2939dae3ba9c896098 0x12740956911d734447bcd88a15281f21f2ba416b4c5267fab50c7e636d66653 0x1b45ea99712b9c612408802719df5fb8afbd15e1803f7b1ebabe053b085ce99a 0xad95090cdf788ef0b7b3e9e5567df6da093b44bac90ad025fa16713a4442a90 0x52f7f4d17f949712371af013bc89a417af1685d48f804325042510bf8f7b94af 0x2d689d19527ea357ad46eec3dc593e3723459d5588d59da6383522330375e56d (-0x495d88ee99ce105658ba68d39c007b503cd4671c23d3887784fc96e8f8cbc9eb);
  Dbl 0x15ed6dfb0e4f31eaa137342fd0a009ee39836793fd5f16c5446303ed5159d38c 0x49a562780d5c86755393c421d8287da1915cde91c79de6cdee1ab7a5dcee7df (-0x188e462e0648ab7f9a408787e8f4ab85d8d3f63886575ea3d0921290a6b179a8d) 0x17685ff940f90d46b40de66b5141f57009b6fd681b72c27f8903ea967e3fbcc (-0x18f8aeafe3fa54ff23dba4a0fc5d39646bd15e03b84fcc6a9c5fac4c0c663ac3d);
  Dbl 0x58ba75f4e561f77e3f7755ffec57913075705f35064c42347aee140321be4680 0x7243b5841a5afc2bbb5d61120c4837c085df1624b7467560c4e29272c1bb0b92 (-0x148e05c6f35c995894e45a7a3d3c8fa2aa9593d163697aebcaea9aa1e2053ce5) 0x2095288a35df45874f352af2d319327b110c23e3746868fe2eb944d9f1977918 (-0x411f648e51d0db594894799d13bd090acc722f3ecb31aafe4e618827619e1af9);
  Dbl 0x6994fb0a901a7e34ab6bf6bca2dd457fa1e658e21c8268d246b803dabd76ddc9 0x3e97aa1c4116a6d45c802827c628fe9b300bff231fd1a3a522909119a4d0eab8 (-0xe2ed3e55d6689f38a5636f19deff53848b543ba2d349b3e384f9e403d5666c21) (-0x7dca1089c979835e7bb999ba080f050c3a453f22323fdb442de55cf11a9d46b3) (-0x1e14bc749f1ef94477a52a3881ef62a95ebf04093f8c3e5d7b9c61d95be5dcc6c);
  Dbl 0x315d9d81ed85b38831d1af2163b622d55f9fadec6d1b2347d1658a1f686803aa 0x3880870052d23bcc7958e31238a788972828f0d05ca231fd1cdfbaa0f5743962 (-0x1beffedc6f0d40277da6e460dc3fd6de3b0b90c3874d531f2b73972c0fa805186) (-0x6bc2634e264dd0f5059caf0bf86f279f75eb4407c1285ef005963a8784f5b066) (-0x209bf3a1ddac3c4ee787695e7c3aa25920e451a1f32e5f9b7c4fe40b85f968153);
  Dbl 0x26b2ab4b11f2f7be7a33b2169a292e54db3b337f186ce3b4b53fc16da1a40c49 0x3861f98c0a5534de9e54fb755e8ed4e6cfd5bfe7456d65b68b8f48343668f6f (-0x4d918057c32ab897e3aea0c1ed0f3627342bcfdf6d21636fc17abd0169f6a200) (-0x228e495e1f47a3b8ec12af6df62dc98e9bff8c9b1b25ab82b3a4946eceba5a98) (-0x85e1639f07ff843e78206d5e5b60d2ef5b1b6ee0b292dfc6e4b1e5df6b71470a);
  Minus 0x60e3dcc22e130325af358e56794998350bf21fea5209a871900f3357e6ca8c59 0x47a9de8a7c33e8b421c73c5f2ce331b4b0339c5e604ca4ce0f28d7fc0a32602a (-0xa78a65357129d82cd5c8a8cbbf408c1601b5bfc97fa9f434c657c2d202a9d) 0x197d4e166da7eaa099e49588b287adcd3181e8f4992af2b775d6f76830353bfc 0x499f544ea0dbdb4711f4917ccda6169aae9f59cabaed65bbd8c702e888e01a6 0xc3bca3406a82a66696c01c5ad9ae010c46becec542e7b5ebe96dee8d30039d0 0x11d81c1d974e22cbeb526e07ba3ceb9a83027344f8a4247208a7ca3672bb3a80 (-0xd46009bc8b57feb49fc985ed46dbff8a025ca48542d212594f54c047bb6c5b1);
  Dbl 0xf4a6917949f440d31d1427ac6a2dd616490cc9ad72fef89888fe8160c1f5aa8 0x1ce3513274964d223b6ed39f998f782c7d7001513cc1e276b36111f0e2f0af95 (-0x16897714578f2da60f38b52584786908f25bd0b4e358af60f9eef075caaf6cca6) (-0x68c8e0845cf7b51e0765db69e1809b3fc8f33318be97d6c9d654d613906e5f6c) (-0x1dd8a32525c05aaf00eb98d68aa128fff0b320b5b74deba82ed323aa5b9229168);
  Dbl 0x616e57be6c8fa32c3ede922a5e12bd4185a0c83e9ab1b94a1f82df9e26f3a0a7 0x7265477abb3e609add7ae303f69eb20974a7c104b9e733033816c0fe1565be0c (-0x2e2ae73bbae11f8a1ec97b4d278684082ab1eac4688f1dd208d0724c83aa662) 0x55a568684d15b68c70aa0a66640f02981327e99b4061443267b466cfe930844d (-0x7ec9e5f585b0b89a57eb4aa9851f12bfce33bb4c0ba5c2cd49b5a6a8814cf025);
  Dbl 0x31c0d2caa22da5673769e8f806506ec9c7320b72d1544ad98d7a3db6bfeae019 0x6add165a93a6e498cbf56c084262b6cb5a26b439cb4a0ee58adae876a8eeb921 (-0x1288ada881330e8932894f4cef4e7b629dfaeb36cf5253aa2dbb382947a175e1a) (-0xa985c7a61960a27f4cb1dce9c19a33fdd6e64503e7abaf02028fa08de9cff6bb) (-0x23b337e2747772c841ca338cd9d78bebe85b217f190ed5f26a0bfad4cb81b5898)] = Some (0x31e7c6a0cf043aa4ec554f8, 0x31c0d2caa22da5673769e8f806506ec9c7320b72d1544ad98d7a3db6bfeae019, 0x6add165a93a6e498cbf56c084262b6cb5a26b439cb4a0ee58adae876a8eeb921).
Proof. vm_compute. reflexivity. Qed.
Lemma forge_6 : run (0x31e7c6a0cf043aa4ec554f8, 0x31c0d2caa22da5673769e8f806506ec9c7320b72d1544ad98d7a3db6bfeae019, 0x6add165a93a6e498cbf56c084262b6cb5a26b439cb4a0ee58adae876a8eeb921) [
  Dbl 0x9322fbe88be21139b47c2d22c14023103dc2eae9af7caeb110465045dfb73d1 0x6c2da11c845fbac72c9446e61685ddfcbe49bca0067e70404e2f7fb0357c4744 (-0x8417add54132f112f625c426545571a831d39ad18b6b6d2fb50c468142b3b62) (-0x560dc6d801f4b2f36a28d597f860923f6cf6c974e29bd20c3f70d4b300cbefa4) (-0x10ffe6aa461f09dc40cf6ae94b2a55e54f0c2c6da88056cff745546cb66ba6726);
  Minus 0x1b4741004caa3a9376bdaa6a06a3b1d7880572b73af2806e94cb2d6603d45c02 0x5106f61e84cabcf332babdffb748761b18a6bc311ec0125e29ed8f1ec72bad4c (-0x141734fa877cd5bde07ad3686449ea37cfd5c05495fa19e065ffe7d3756b652) 0x60ea69efd78af4b698d6c712e922bab1fa59e2ebb00e15502e78cd907810758 0x3ba8827b034be9f08f47dfeffaf5ddce270ac670b7a992b13a5cfd1b59180ede 0x25ac2823ded4c2faef807795855b8d8526fe6a40135c11df93f3492704e70c4e 0xe2bf85b6007c7b4d3e8d9cbdefd166d7ad0c106e99ae1d802b314819484eee9 (-0x70d1070668c55f9d79f7d54fda2678586bcab09397a4f40f3733370944a66dd8);
  Dbl 0x3534e4476de5b1396f5f237bc87f5380ac5654d9139982bc1ab1cb2425cb49e0 0x51f176c4b7fbb7da7f4eea33f0d8b34f362a21b8e9e7020fb6b414e6f75ef0d1 0x188a35edbefac431f103a7e29c2de3884a7694132f28696bf53aaf72c803084b (-0x15663a4187b79966dc94435b4197ab11f1dcac93e88647f00dd28588d18af150) (-0x727f1fcada4912f8f320e2f00d365c28c7d32546add51093a9a32b97fdc4ab03);
  Dbl 0xfd0e5af27ceea45d8b05042db4cfe8f6ae17076e73b4be1740978e419262e98 0x5bf364af2c72af123f31043b6bb796182a658d4c2040d09c1a7c57716567ce17 (-0x402d83e6927cece7cc939c058a836dbbe7e2e14dbd8b276eafc4846b724c67d3) (-0x3ed50f19734fee198c1f71ed147a0e154ec0c19b6d6092e7dfaa52a028b1b2e0) (-0xfc06689a637298c74264934f93bc3c9ce8cd5b2e66e5278e5eea2b6276a156df);
  Dbl 0x396ac146b0d360216baa00f0cd4ad9339472bd71407ab66ba4d798dc9ab20ac0 0x1470f1e1f6659be769874a87970f1d1e5daf7c8d0b888ff9ba8ebc40650204ef 0x3e24c7176090dd71950e049cfe1f6d084a976a8ca51b77a68849ede3c1e67f4e 0x1ffb90a480d5c98959e7ed585f57b7633b5898ae8e68f8c0a919e04b5f8ac0f0 (-0x680a2c587645cccf83d367d635d76eeb556ce3275cee49181f4040d3224d92c0);
  Dbl 0x69fa825c1e1f2812b3f7aed9bdad0de073a2f4cbf010c450e28ab16d1780930e 0x6b339c85030f11b838848a617250678a1ec2c0f389b0374fd7acb44fae52b75f (-0x8a954f06e8591f18dcfd41bdb13f0de9f170ef969fd9b8571af5350d004e2be4) 0x3f0d895379ba43b45984c62b4087de1ca51ee862833804cfb5ef2efba4cf96c6 (-0xe60de82fda2752bbe5e2e939991e414406ec3cb58eb6cf9d1bc5faaad765ba3e);
  Plus 0x22ea4274aa142269acbe077f130fba226740d6a80faa03049dfc70ff6954cdeb 0x2a289928698b134e69897ce1bfa921bba45db9b1408d828d796e7162afcc700f 0x13e8c62b9ef9945af300b6832c88adfb1f9915364408904a69514f8e037e562 0x45ce4506d36ed68ffcd6a130510fa680febbd8a2542f4d0e33da3e0e6eb90e6f 0x16540e78793c9b2cd6e4689407e0f50cebf9a391dd6f3cc5d9a54fccfd38ce89 0x211245b1568883be8890f14eda20e2462789db47147e8fe8a07056ed5ca7e0a2 0xd0fbb864ffa31bfb337826753a02874803677d08aa9d04b79a9a2b6324d1689 (-0x5c887fe5eb5d038f4f27aeafcce0a3ba7bddd5160d4071d5d8b0ba4e79a90159);
  Dbl 0x262df3b973f5d287e9cca72335e37529d4661ade8e4bd6d12f9867afda478bb5 0x66dc03c0ba37f5cddd446787f3435e8c2ab59e9934f26ea3f73eed1deef6fee9 (-0x253f322fc66696f681e024c951c378d040ed5c76737348380f65bf7e35218321) 0x571593ae064a81d589e151a6e5c6ad5f01fb0e435e5aaf577a5a6aaf52b1fdf (-0x96fd070d0a969781d2c21a4a0f48d6d696b229885a7314ccc0ab82948e233099);
  Dbl 0x48b1c50c489a3e15cb26eca9c9805fe51a8f5a3e21b90c0294b1598afd8747f 0x5af0e50371f053652383cdcc87dc49684a46ffd6731206cb9e967093bde43ae0 0x1c64e9e7f20ff1290b57eead2f7610acd0ecaa26cbbfd6e9ed866f3998ad6830 (-0x4059734264693f265d45d225bf45a7b582a4a1a7cca60e3dce0b4f6d6e062b7e) (-0xde3781d136a26500e8046836848bb6ea6c8de6db3138e38880ff886b63e1abae);
  Minus 0x11b56b695821c9ed8ff12f3c9f0b1e34ea6d1a3718031f2385563c89abf6b9dd 0x7311f1dbf1fce078fc26661a8dba7aaa70c9d8a8cf31a9be9780d31eae0a094e (-0x10e3aeb4210910a9b03a90678d39adae9dd16216bc9f1844700d7ba1075d35b) 0x2fe1d890a054ccce9d9c20c36cff54be5479395829d5acf382853c5ade037d6 0x134df2b5d5913cbda1fa197347571a083bb4d4f7e542ba1d8c89f0bf4d429bf9 0x1ae4ac8e2fe54e97858cd25e8a950b7c5c372e428a90190c9fb89c2ef6a6eae4 0x8b3fe3915ea298ca6041cece44a55addd201aa068310d99a529a706c5e0dcd3 (-0x743080b3e769eeb1f05f03ebc6b615985ddf2aee2c35d69323063f5df979d242);
  Dbl 0x69bafed0ba0cb2f295fbaaa7ef1006786e37266a51dafb909d4191671ca1e2f 0x364efe15c9cdf10cb6d1b023e9e8ae9cc7dce66c52136851e86edeef854addd 0x64b157b3c82ef124a3a9b9f6b7f5fc51c32d35366f86ed722c5aaff3930a7da4 (-0x1e0125731efee57e17594a20c02fdc4633f7ce6c5426aa50aaaa3c023f53334f) (-0x8263aac12fe470e4330831875fce056ea876c4278aae15502851f6f2340188fe);
  Dbl 0x8bf0667c3f8a2888b1dc96a53182cc2480b8bde89d6aa5223b470cfc3ce0b9b 0x665b990ef9a578884ec618568eb4d4266719a4460e4c1d7c6f24509414ea0df9 (-0x1c8b4db75d1742df7040b4c0d4280a2c4d5818e455a0a7b66f429f1fc9c8324) 0x9c166806430b25c729c8f85cbb23b525d355365b6ebeaee5934de58ed169f2 (-0xda5a46c1bc693ce4228ae38ae96318db78581f338e3847cce335d74df269284);
  Dbl 0x40145efd4720f6c45a971b1b7461d0676365dd4886dac635dbd997a1f2188082 0x65f4cf7b99c96430df6f46415cbf654f772913d06fee907f054c96d48ebdd56 0x5713998b7efe43417a012c21995c5f9cec41a66c0800967d27758ee343373dea 0x222cd7b67581f19bef24ae39713919355f1e2775d0130f923774e2299015518e (-0x629c05c8eefd2434e276c42b0a52a8e336248f0bd89a060322de3e3dc71aa01e);
  Dbl 0x41a0491620cfc3dd261f478bfd5444e2529771500ec8c04c53019d1e95bedfb1 0x13979981e9e82b65ecec35d4fceb6c772d8086aaa823998aa1995b0ebdda394c (-0xb0c00b85599f50bf48a2d364b29f36359e3388e7ba7b0b98d5356e89d7a8dea5) 0x351a16bd1ef84a10c73a7f8e95db124a2cbaaaea037401d0b7a23c53f5a8d8d (-0xb48b6d2092e598bf47b8e8429210b788290c176a0815a104ad7307fdd97afc1c);
  Minus 0x3ff7f1d75f3d09960f685a0e2e1eb999bb8de83acce3c33e2b45b341bab9f40f 0x5b7760305533efc3e70c651f3fbf91b9fa3e2193032f12c4b84aad37ea97cdda (-0x3a37cc685b7336ef7887d8651e254393cb20ac38d4d1a2d26038ef0b0561a1) 0x2b39fa7f0a0a4323d8d533c80b0188dc17febe6547cca8802e12b900ee1b028a 0x2f33dd262a56d4ca3a2ea36ddd775c0267c7bccd46fb48ed1b06f59d47f897e7 0x133d592b04ff40e384d4723d7c76a097ff1a76e9be8d422e6fc019f07c1ea371 0x200a83d0600c2d6d7ac40b4b3d24fcfe492007a9496d80eb3f8cf548fcb30a98 (-0x36e91c4c9e8ef91cc672e8eeb2b918f6e189092734254a8eff5c07c85b08ac9c);
  Dbl 0x6a83760ae901ffc085726ebcd06df5042761651ac0342cb8138568744f1919b2 0x6519feaabb7ece71cb21626478a38fdcdc6c87af3fce0518dd7edddef571dac3 (-0x685238cc6d608ff900cfb1abff2c11d475045d9226edb117fa3ef8440d574b47) (-0xb9bb24cec53f52b2bdf56c2465a9de75b1f3d95f0c8ac08c4fc51b4babda460) (-0x14d7273e81a988b31ec17614911e4057b4ae116a1edd9a4e323828f2a59552a95);
  Dbl 0x59d9131b8d760e491fc9b4b171e8b9f597f054606d80bfe3eaadc31971535bb2 0x5d7267c8a810669e55f636985d679746f62e57964f479816783ca76b1a971aa6 (-0x191253e703ece3b0651457bd6bf85caf91478d6713991464ef49a2c572fc18f8b) (-0xb4f7d0e980022a4336b49c0f18ba55409a3611fae02415dc757b8b9ab063aeac) (-0x2467e798727c136499968d38bba0b3ba1efefd5157e9d2e71872e4b89db9d0991);
  Plus 0x108784b50a949c7a2bbcfd41118c2cef097d26115b2b59307f4c87913e8e4aa4 0x2fb18444767d9d48f9d26830162ba3054a973c9bf3496388fed18e04e7593e29 0x115ad2946f5f128548f103ad077d5be3c7f8e93be03fffdae02e293c83c8bb8 0x3b2e4d4a2a93fbb088db2b9d19763cc4f666f4149929c8423c6109f692e466cf 0x1cdbada084cc2b67f1fd8134adabe4882f29a980cb2c5385e071a5875df36d44 0x29e5966c8f797738587e874c68f070a185502466d3e7de37c626428475d39757 0xf31738ca2b3bbbdc13325e4caf5675c1afb920440f5f7bc33ba84975a9a3bc9 (-0x6e9a99233c2b331364718fb30793c028377775bbf210b1d3f878169859fc4526);
  Dbl 0x1bb6ecdadc50c627590529acada63fb3d982556e872fbb7cf3508397ea353e5e 0x35fad2e497589d75a54429bfe18570dc2b59628fdf3dcfddacc612e39dcfae8f 0x7d657dac9ad6dd688939a963fbd7c85c8f0ba1974ee6cd3b5ac281cea34682f 0x76dd43560a632fac625bbc72162c6aa20757feb76a5374cab48f02d55b93014 (-0x485d57658379dc80dd09ca9bf77db0a68a15c9995e2dd649812c470b2569dbd1);
  Dbl 0x3657a4b7fe6195d6318af36e1fde41498f44a22c649ffe22b4e84ae486c2c539 0x5bfe5d7d29d8c58630665c9e5ee7e795298ec2751d99534b18126dbe51e0f20 (-0x7fe5180b48473f248d2e34e6453513ce77f892c417b1967938026300b647af4) (-0x15b579370200899d18bf2825e0d1072c24c012db45eca4ee38b520225688d78b) (-0x3ab2520c37bae571c4804bfe198b570ef8e3be5c012981ae7900c7e751240155)] = Some (0x18f3e35067821d52762aa7bc2f4, 0x3657a4b7fe6195d6318af36e1fde41498f44a22c649ffe22b4e84ae486c2c539, 0x5bfe5d7d29d8c58630665c9e5ee7e795298ec2751d99534b18126dbe51e0f20).
Proof. vm_compute. reflexivity. Qed.
Lemma forge_7 : run (0x18f3e35067821d52762aa7bc2f4, 0x3657a4b7fe6195d6318af36e1fde41498f44a22c649ffe22b4e84ae486c2c539, 0x5bfe5d7d29d8c58630665c9e5ee7e795298ec2751d99534b18126dbe51e0f20) [
  Plus 0xc42b602c33a1b5bc5993af3190e1b26ff2080807cced2de78f948b80103c7a5 0x47aa75ad380a91a368d005a56eb2e0595a1590705a7f13f69ab4b25627195a27 0x1115ba5dbceb52ba1b9797744b51a025df00039982c2d14dd12cf6ed81f94c 0x23cb4b23e17dd2c8d1e8de88f5c922c432088485a09aece5f2d63c6c9bbddc10 0x283c943d686b21affa64a7de332e5f6aa4e4630e0de7df4bb72c8c437f189b39 0x133fa822aa9ee4e5e19ac432649534d12c18d1507816cc3ac091835094061c12 0x9890c3b9a4ef6e6eff0540a8b34fa06e0c90357f63fc5fa7887b07150dc9625 (-0x3ead5bfb56b7e4dfde56169328dd9f85d43f49f283fc5be0d2815ffce029cfee);
  Dbl 0x33cd97a6ddab6325bf0fae8b530b4463f88e87452d7588ebc2a9c00f09f30022 0x3d7faea49932570d47d65c3be53d62f455e1c534e643cc53ca4c500c0a6828f3 0x25d1dd8eef59cf7b98835239b3e82c3834e5050be5107a1af86ab62d735ea030 0x464a94709778958b6d485b5bbd4af9ca33bebe1f76bd59d43101a28e24d6842 (-0x49ff7cf9c4d722c074d5a87616b00391453e8bdbae61ec86bff2348675b8d594);
  Dbl 0x299e076b8b035c0dd69d8d63fb9846d01ff7994668512b5e7bbd377f1b3ba8bd 0x690b3389061acb93b27da9266ec694c37f1a31cac1e2cb0c6bace57837341051 (-0x531e26ff296dceeba68e7489899d8ec06a789f8fb0c77db83e13feb42d441e51) (-0xd9bae7b4e5138ab6065f7325cf65bd23e0fbc43a3fbe24326acb151396fbf3e) (-0xfcbed852ee2320efcee6e900265d66e37c504a753d0897e65e2e6f6d3cf98ae1);
  Plus 0x2b8f94cd4b1783e27016ff9d20258addb347daba34f0ab4cf5593e91823a1969 0x35fb924328f4f5c243045fb26be78c112bf6110eaca14e746ace14a39c188571 0x13822e7bb7a918a632b61c4e5e0f7a3e265669760ef324e1d24e6bbc6938ed6 0x1b699314d8abc51118be5a43a1f7d35a125824dca1acacab4b25ed0f48abede0 0x57a428d450713c46a86f0d158c36953eb661f2a9e74e88e5a4c863c3190bf1b 0x1c800f41ca0b9442c571b705a5fc108b50320d1cda0a8ba7f3b7a080d2c86bc5 0x2737b0df8ca5e0eab6ba40f4c32f51fb042846fa15ffe0f6cc098fe5a43f89b0 (-0x7834a21fec9aec011f145dabca12b8643853768d82c2672e012c6a34b6e6deca);
  Dbl 0x46440e0a270dfc7a3c16e3f189e7c07a7c3593d41604e7ec6ab630a0338e07c7 0x2233056726957cee65aa6804007a872bd9aedeb9a3c0f52d625592c5def28fb4 (-0x38b4404597a0d2ef8434255c31cd62b6b6d99c52ffc3666cee6eeae7d49f01a1) (-0xe2b2c01a4047a4e7908528a274ba51a717b31280bcc6fa8d2f6293e4cc86b7) (-0x7e4b0be94352424d8f6ce9a176567e28a49334afaaede60884f5e4d2000f5072);
  Dbl 0x3774344dc7768a22ccc8295a38445bad84bb30f95e8fdc6c996a687e7fbc7519 0x5b8ca38413c82d00a4b8facb5705c01f7cbb3a28ebd0007408020dde6b09623 (-0xcadb55ebf1b1ad57996a2fa93f9162d796de3ce385a3f6e9db96ac1bd64782d8) (-0x2446f500cb6cba04f4a962013593078ad5890f898612388825b737579a4f9a1d) (-0xdf91b29b1c9dce7f3455418fef67ee5a725c789ec01f021c486416bcc9f477f8);
  Dbl 0x4494ab4777d9b1533ea3834da0b9d8bcdd957d9c9624482d6e22e7ed308672cc 0x367eee458c0bda3895e927ddcb39e4a9359b03168b6ba0739c6a647ca1c2f697 (-0x84593b74fd221d4ae877b28b66b2a58f57a0d894bcfaff084781cddf06833a9b) 0x2c145c30c68c74f30d2dce5bff4101fbe02bb524e2b17c4c828617e34cafe9e (-0x8b73ccf0bfad97a74d8c377bf106a55819c0cb289158aadc3dd23ff774503289);
  Minus 0x69272f8afaa658075b293bf707ee65e1ed6e6deab6d69967e9c6d5c53ba05e87 0x59778d52b15462a5d1ecf1f37c19bd5ff6c223f1ed9765ef0077ac60c9cdd7aa (-0xa1ef090c98a302e7df98e812b5a236354223eaf7be5e8d813f4d55f43622fd) 0x2d2c311464228982b846e945065b02a47662a107d3ef36dbf94867049d322fed 0x2691894a8ed6421af7c37db4be345a77457fdf137b4466a1362ae231a4aed5 0x3baf056f998a48bb2d5ce85ec0fe4f097d9c4436052ad19ac9b115ca1cf41aca 0x19b614b6816cacc262011f77377e607911cb78a8dda10a8e48513d6bd875cbf3 (-0x35ca71c838fb2e0f44053b702df5c57c8e55d40482f716283bd6ef9d4623891b);
  Dbl 0xc89333b3e267cdbd20446e85d99465e63a4b5d7e19bd00425ceb7958bdd5bab 0x4a8c0119ca39d8b2b733c2206119e03c7d257ef6e095793a479ff18211eb6146 (-0x197d9dffa5d470f61aa71dc92a65215df470e949cba9f06a447ac263f07d475bb) (-0x9fdb802ebf766365af5cc0daa841dcd92dafcc5b83ec1c0cfcfccc6488eb4fbe) (-0x2307b7d5264d74ffd4a01798b536a8ff2a057aa65ee5628ac5bfc8214366e86c9);
  Dbl 0x170d8a4dbbeded43651cc5313da62685b0e6f9076f24226129b92e4e728244b4 0x186a5316354bc9cf06a57987f2a2e40def646a96142e8364975515f094854227 0x2928b1fe625c0e3c09a9183e089ac82c230e299dc63dbbe8f329ac8b2383aaba (-0x8c8c01fe0f924e7f7083e70640d05740178c08bbc89ac45162f6dca04964160) (-0x3e7c8d2670edc3feb4899e9c785950228b2ae60b66deef5712af47585ded0eae);
  Plus 0x1e0343fe7c56584b8c8c8ad0a16a31b00c20c56c33cb6c41ebe42cbf1b2e89bb 0x13a62f496ac225df7162bfa7aceece8fd2f1aa2fb38802ca29fedb4460b4227a 0x488cc5127a2f651f130856c9c478f7b9c2e4dccafcb0f8eed6af5500f17d52 0xf2f36f99d05f92c6666e90e44952abfcceb83a2fe6c02c1762a6701a2d37176 0x22d971f7a0eaca658c3d85a7b8cea7ce5f8dc80eff72ec8c394a9549dcb692a9 0x4500c9d0b2c64d4b1bc9ebe0639010002cd1424952d48014213e77a34798a545 0x82f9acee4002789b180416a9f4e389840cb9add4c63ac7a371bd9c0cbfb399f (-0x16c76ff44e94543721205a8f43c90cf80fb12984ffcaf067aec7c635c824ee4b);
  Dbl 0x10b046c582d1907c45ac2263fbfd7c5e175571a2a9cb119c729136fdd79160dc 0x3997888f79d02334280b4b5d65845212dcd3a3dc67b972ae79e90a3a22e789f8 (-0x23850a4198f1a6aae545bc16972f9d0db3744f31ad7358858df74dc6f6857347) 0xa5925675020367c2e413f792002f45d8ded534c1fe253f5df447062f2e7c4c (-0x4f85ca6f6b9d31946b8e33ac3a7ab78434bbc1c89d2c939d70a7d1969371dfc1);
  Dbl 0x607cd8cdd743ecb69e5343725cb700b810c1be8fd3cf4160a20bfc01f308a479 0x20e9d0e5ae7ecdfa7ee8cde018ca397a0422be5580ec5d4bf3ab8d3210a921e9 0x109953a709787a4b06400c07d1fde2ebb9e3963a2364bcd52d5ccbb718d49f02 0x3d2a8abf169be06f7625270e1b9b1fbb2b8e0fb0bf8c39a0a72b232a9ffedd3e (-0x4324db53c355b781fb3e43f63d5ee1c261316aa61d75edd46ebdc3fc95b9fb5c);
  Plus 0x6bd760cd0cbb68d8aadc586052bfec8f05567c75e540935f9881493395b18801 0x4a844a3ffe9e143005f071b80f4f971fc85858e3fd59a2f3dc0a9886cd421b91 0x61cd37ea59dbe0c8775692fdcc53ec4cdce97f427f4b839d6469fc30a6c2a0 0x3f8de78dab66129108246f09c636d9c6b340ffcf7a84c40292e733e225a6ce02 0x37f15f7bf44a18e2291beb01ef128b73e66a362fbb5231b6c9eb8d60ede1173 0x2063669599290bf742f913a650f982fe6bdfa663a2bbee6717777f8f65292920 0x121ccbcd13cbb3dda8db79e320790da3bcc87ff17a46a4d7b84429cd0099a233 (-0x27cb6ae64fdf755eee25096d5661f6c2b6262a41f708978b66032d2177165615);
  Dbl 0x30603d00a24e3698ac76a112922300640d179601dd8a62741c140090449b7ba1 0xd5fe7b84f2f45120a2afcc5f183680baed6695ac3e833db9e4bcd61d99e5bd5 (-0x1c5b1b2b0a506589a61324baf18c565cf206e994173e13332c38aa6fe9b10843e) (-0x8a852c042ab83659b6cb4504a1925f7cbae94453658b85a03a928a1ed2643488) (-0x22585cd493429cd2e4259549bf35e425e8a51281f839c0bf923a67f08a407155e);
  Dbl 0x372a84ae44baca86ccfc608441de5fcb5ecfdaaad0a1fe256c42423c0bb77828 0x7308c71a531d1e78c8e3ac40838eb134c6f49e74c262b093b9496e7b8c07310b (-0x63642ef867a406f17c27eb1d0051b2f174c68a2563574b88b72e78e8b79b09c9) 0x21e6382b21049b47bc42e6d249ac099aeb93c74b964e201aaffb49d93df8859e (-0xc470fa73896317dd332471914a2bea8d223df0807d44c6456e2033e335ae5a87);
  Dbl 0x318d7798cc7b46288a76a48e47e5a8f99ed6d2a8bb481beb560faf88ce943520 0x2ebe35f0f0f6696e58bc437bcc5185537491366f4f1fa0feaa206e76f7f5b63b (-0x111c4d75f84688906757ada0dcc1f519f30abe6560b379fb8ff28f06e750249c) (-0x4a94d4c6d5f2442a0ab9d51af8b8d45c88683f60d1216494d303570600750fd0) (-0x116537126795115b01f5383dabdf66ad208ee203005c894e219a5ee43e15e215a);
  Dbl 0x2398599981e7a7b6268824fc7b13ff5d2c45f57de4fcc9a8eb448758b2034c8c 0x1a418770aae7c392968a6aaed25b9bcbf1604a3e34e74f1db89c34f34d066b6 (-0x570ea3e54f4ea238699414eac6a2d507aff1bf958d45e606928af3d876a5082f) (-0x23e9b567331590c102ea2183259c2a348a40e3037e9f593e01d0e26580abf360) (-0x7cf0199d98b84f2e056cd6a56ac82a162cb8885380dc47b88cf9b993e6ba045d);
  Dbl 0x302ff261ee2c52ff4419d41ad6b792d03cfe4c6b388831eeea4276c704336307 0x4e8371e82c5f7c9a6826fb9a6c3ff598996d6bf1c51814327c94a026800ea402 (-0x369f85b7de4af444702664ed9acb946adcc882ae27ea318b35fe7d2289c76a20) 0x16ec260680850edc104901d73972604f8ab082c9bc0e20b294660cc8192805dc (-0x5da8f39a7fbb3217dbf4f2904dfa64d5548c2b3398d85d487c58d0f0d1945998);
  Dbl 0x5b6fba41abf033ff512b197c4f0d91a0b3dca44e9c973992d1461fbe10467cd8 0xca15ede4d65497975d431de662b6af5e2e3a1af3c9e2d88bbf10fe97f4bb581 (-0x2ef98ddd651e35451d5fc695951bd0e736f94e9d8febe55b3b3122c289a862a5) 0x3e13d447f05002c01e708cc26a97444054edec52568048a6d2bcfe8291d6bc4 (-0xa2dfe3413621b593c7b36177cfa023b43dcb849c3036be5824f6bc2445fc35ab)] = Some (0xc79f1a833c10ea93b1553de17a9d40, 0x5b6fba41abf033ff512b197c4f0d91a0b3dca44e9c973992d1461fbe10467cd8, 0xca15ede4d65497975d431de662b6af5e2e3a1af3c9e2d88bbf10fe97f4bb581).
Proof. vm_compute. reflexivity. Qed.
Lemma forge_8 : run (0xc79f1a833c10ea93b1553de17a9d40, 0x5b6fba41abf033ff512b197c4f0d91a0b3dca44e9c973992d1461fbe10467cd8, 0xca15ede4d65497975d431de662b6af5e2e3a1af3c9e2d88bbf10fe97f4bb581) [
  Dbl 0x35a1f7806f2693b42af4e3442ba5767022769d8d22702105947a49318d531585 0xb29a74bd2bedc461f92b050a9d2381ac21aaccb153e7c7ded04242f69af6859 (-0x16737e4b79d8a981ce05bf8b8ca45cddd6411bb89699472233c16801119a5b24c) (-0x88480fbdeebbbdeaa9e879647604fa99cfd6beb97119bd6123c7dd4731663ef) (-0x16c5831ec1c9d4f4723bbcd25d6878742a95fd8e3eb87b68a4d4388de05f35414);
  Minus 0x719e0e27abd98b3903a7ebc0a6908d353f0e9426ad7367d859d4d79dc0bb1f97 0x23ce3cb8aed8ac76b82310c8aed9de619265a7306cdd4346ce0d032bc282c890 (-0x212b7c4d1e7e22b83a7d55f7441e7f340c31e74b013b7f8a9a6f57d9b113fc) 0x2353a08abde3715b2ed6d70e3562af76e96a116e45ad66a3463655e7d6f57984 0x17e065971e3310ae3ba721f51e8244b162a923f4cb83cf30d706671c967460e 0x4b16ef7ffd2cff2b0243706ffefc357e022ccd1b57d81e239a97b909ab4cec26 0x4c60f75ec23b9cab2051a203b9368be003684d7efcd4ba5ff647a4189016acac (-0x1c4f63b6b8779f082326f378e27c89f1fc04ac919abc6a448115cf968d1f819b);
  Dbl 0x6bd4bb804e31bdbf538f559cf309239617895a5703dbf5f7522cefaca2c172cb 0x4005091b8b6c7a71706ccc389d26e3f098f23b64efb0b50ee91ea5d4be15d16e (-0x221b42aaf9c90d42be284fec36258858e6e5eef7fc9e22863d535ac82a3b79890) 0x103e4263dd04e653bc174e3fa3e3cd1727f37cdfc4956120dec53ee3f97200e9 (-0x26b22341e9e8159549fce8785f074e2d5df9d8361d8fcd1f1f353b068c28fc5d3);
  Dbl 0x4e5c204801a0b5e0d592add831ce4f9a7a1507aeb7e72935dfbf51b73ed0ed87 0x72daf74796baea06f1df3043285f3f296e888f6adee0ff8a21606e5f8a4b34b5 (-0x1d22467a14c8e7d516029536de91e0f11fccfd94e778799b997de655642824a02) (-0x603205d811c3ad45fd18cf8193b78795bfb24189705e15d88554c575d8d30415) (-0x23a6a9ccdc90304a96b9b69fe6866794ae172658f617dca4406b5b63cbe85a4f4);
  Dbl 0x63ea72e28150886841701cbc9787f9f2353c71230897cbb2638ecac366d82be4 0x6806d4ba0a02dced57c1cc8bfd25e44ef3a706aab0ed9dd95126352e73ee6b4b (-0x9709c1551bae17c77d2647f9ac4dca230e4e19c153f54d7db4980146a9b53577) (-0x8ef921c6040ddc3f5d73dbd22f138cf0437ac3826cccefa9a2e7de8f37b4d65a) (-0x1876caf83983521b458f6d0869c481f57a3e2bf1f5c88d96db61303cf16142961);
  Plus 0x34b02e125be25a306bee708d14b14eca78ede76996ff71b4da746cbd258f114b 0x4343f7f37b91c8fb77419aef56a6d86bcb999fbde9530897e5188a6dc399a80c 0x1351d37b60b8831b3d24d241627a52aa6f7ed3cc6c32a575cbbecdf325f7334 0x41cff628a805ec247cab4d6ae6786b70b5c41be54553b7a58c383cdefbc65bd6 0x193593257a336ade76e0c0d9e213a2645bb25d0c14abf69986892796b86e4cbf 0x4307d7d02cc804b4b6a563923667107bd0dff50f8ca6406682872f3d3a736f91 0x22ce111fd73664ec9f0e3c47465a36327c158f0c18ca7835fda0e2b31a2e863 (-0x4d1896762d25cb93c86684ab8bc017c2173c4cc7859b08244ed0a92ec2033e7d);
  Dbl 0x690720cb43d661a10e7491b2b1e22442ce6301aad2c2e59f61abf265680915f0 0x65005bc26d882754fb646321e786778933b5f5b2915ec1ef452e500a2ba3e2a0 (-0x50b392e8f9b35b099e9b4390148c440bd0a306d0db3f4e2fb2b1fcbd82d7aeea) 0xff30de29cf3452543e3ded09008ee9ef62752855dc070ee762e7ff2dbcf3528 (-0xe8e5d11c4f5a01aa7f805caa11bba9d6ff77ecbe170468d3d1a4c0480991134d);
  Dbl 0x452b88f79c57a55dcdcf7e4ed39df416fa321ea2bc17a7eba9dfec2db39b5178 0x65c18d25b915bb567a62dc8e95d4837717621b691d775823810faefdd5d7ad62 (-0x183c3dae2b2c7610fbad90af8e9d6f5af6065d1308714d762dae086fe0dfa5b33) (-0x9ec32da20911a59f58d542717b4e0b057f984b220e72720a21f2267c29c6c118) (-0x2576d4f92656733bf101565857318d0fffcbb9eeda59815fa4bacf76b6ba30cc2);
  Dbl 0x3491c1c6130e0af29ebee80eed1b944840e0de4068c9cb7cb9dc403232e8a816 0x28428570df976d2d1a8e638c9728a6a07705fa29e26ea2a7480d9fa2ece01244 (-0x750a19e1c361e9d1b983f493e094075408e4288cf4b4c9bd8c0f1f2b06e956ca) (-0x4ea37c6593d60c7fd1579f97e98da6fa563107c6e13169a5764e61be0bac04ac) (-0x148712c28aa02ecf3302c7a9d575f7113edb4ebe0c8043a24f07907696cc899f4);
  Dbl 0x33552f6dbdfadabda2e4e1015b4177b7d286d9cc6a43caf3d5124fb93950c62c 0x6be4f011f1a553ff26899d11c22b2916c367ffbd7389b0e5149ad18707d84387 (-0x6935ca8fd031294b9f685e9310fd89bf6a0aa90ccb0e3aae1ea2cbad765a555b) 0xabbbe9044899fd6ddf3079ae187e585fa5ced1a47940d527b9f800d22cd0cc4 (-0xe87a62e3d39421fb8cf76c74d453d422f69a0ea6604468e3013975cd136906b7);
  Minus 0x3b008f277b0f50a562d18385bb62fcb5f126059c1529f75e11544ec30c89e22a 0x36fa99e5ba25cb3882d76de5540e66764c2b7dc4fe81e45953b2c233b1d08259 (-0x1409b4f195e970368b639c63901fa2d3512d609f4c3205a8abddf50451f7d32) 0x21cfcf469b993bd0d1e42db70a5a7175bbafc6a841f70be1609bd34b3484f68f 0x96e208c574e734cda48bd5db86f32f7afc410803080ddfca870e2785782a2c0 0x2f21837bd563a3e629196de211bc99441f4a36f1298ddedd29b2b9ee2b729271 0x37aa4bebaa949decc7e1f69107cb8488d260c315d1c7c97efbeecf67b0e9c8f5 (-0x77f538554f2e59ce5acf5a78e85dcf93a1903452f08254d0254d86cc164928d9);
  Dbl 0x37ff837dd3d61bc87115d8e0b8284d23765e1adb3539f850382e9ee2f164ed59 0x24c05d19aeec5bcdd38256369f6950dc2972018093bc98dc626fefd1d7cbcac (-0x7c12c22d62644a6f8c4ff2e3caa48aff3928a84ac5e5ab5930037ba9c79ec23b) (-0x35058a39a8f1ec5b914dff61ed4db2306198d76e15a1f073e38dc96daad4073c) (-0xb05762694bedab2a7f225373ff9af986889add4b7f0459d26e3728b8a6e407ad);
  Dbl 0x1e3b1d4b0e0f5e81694aa88b7396ba03c4b05300999a2305b9a2b577d5e2cb94 0x25da8fb17775635279f9a9087f291223a4acdf2393d3ac5f869c9c5b01f58370 (-0x87338792277b26eb6c69cce9f6efe3e084e5c3eb7de58bf4486d42c5476059fa) 0xe5d0ee2274e22fd0e89d2d69c75d4dcdc8fcba299a794cdc60e29e5664f3a8c (-0x9c0e64ef6fcef8d2468cabbd731927731e98118448bcf473ef02c86afe87f595);
  Plus 0xcbe46f836166e2507615bad78d7b1e893804a03b427f9cdf89e6246af51c065 0x66d6d186d0acf7b6780612d748d1dee8a8260ef0cdfc6930f7e0e99a5c2e5d 0x707b651db0a9447fd06aea357335f86b6d3364f02ffc65b2d3ab7e658030c5 0x13e9959d9f11a5038c00f8d59a40e2a14de1badcbce5654780bdae81a2676f42 0x1584233d7439e23439e15a340dbaec8845a73b3078a1879568029ab559d34137 0x1d385d0e12e36af382f683cf18e692ebacbb297f59fb7e33d8b00925d16cf55a 0xca5528eedeae98dff2662ef5681c49dc2865a7146bcc742be051f6c3ee426c3 (-0x1b162a8af520f6886d552e2b7e5db7271a6baaf83a19ec9296d9d57157592cce);
  Dbl 0x19b6894b667459635da841f8a556acc681f6392ccb2a46d7488853643d208833 0x366749156f6bcf05e18a3af0507613e9851a3a90cbad93f4fb97d244482ac8ec (-0x700a6c2c23b377964bfdb340b1c494febfb27d79d623218b8360bb5ec8d457c) 0xc880c4fb9c6372ef54b7eec9218e6e528b1335aae32069b82eaff78d2841036 (-0x21b4c426b1e5bcbf9f1015d865644248c9cb1dc38312cd7d9b1f26d8c77f9a8e);
  Dbl 0x6cde8a317213ddaa741247f146b767fe3a6443bfcbf211c8430eab96953653b1 0x53b0df9e1e52b430b0e650bfea508804a9bd31612aa5da7309dd4eff846cfa9a (-0x2fc33012071a108c79dfdf8771c261ba9b53ca888182430bc9a6e5f79a1520c) (-0x13bc119960421bc79e3079f12a2bf94ed214d83c41f02fb9b88093c8f873d9e9) (-0x396d9bbc73d51776746ff3373e8507233e63e2eb4de1b67b2ddc48c7ebebb9af);
  Dbl 0x6dc7340d829f4dee599a73dd87d53aa285f2bed41b7d453e1b9e9fccff3d3f15 0x4d8d4cd4bacf0e93a0027910fa1ccf58d635ce08dfca9db4a4d32ab6c6f8547f (-0x1c2c8497742faac6663e75ce6330ff670c72b9de7d071de94be8424dc61c40290) (-0x97e529bbc0270482b07754ebf6aafa57d076eb6ca105bf44cd1358035ddf2479) (-0x23f5bdd51051919902caf2a82cfe97485894538a116a577e2db792b4a6c566bbc);
  Dbl 0x27abf5a556d2f395fa147a74a4fc0d072f4ba4d96b3f001a2b52418d90da4919 0xc7302e997c9260968c2c9e84becaca8c8d9d836eef397724a11ea496878c1d9 (-0x1d3e43f12a8db26a3c3e1848153c9c83c8a656a5024c8650157363b16ab9dbdc0) (-0x89104b568aa0360d882c095e34ba83678c8c0a2494d45284299c431f9deca952) (-0x23ebac73e66b2c064af011af9906f717bfcc17739950fb10a4887f3a9d301fa70);
  Minus 0x24b119f63be3a977726965a88fb063c9634a77bcf1be8ce7d92b396fce539758 0x18a7ef3b0911408509f60907cb1b736c66a658de948623a47a64358aa191888d (-0x24fe2b374d59bdbd6a3fd83561ec89bfe8ec3fcd8f82b890a93a8a2daa441d) 0x1a2181d52a07113efbe7179101e8b5a6e07f305b795cf42130458f44e21375bf 0x15b1c1d99161d49a740ffdd65c5f307a58d6caf51bcca82456c3b29cb4542448 0x2dbe99e9da0a3356b841d7c07dea8728a355e4988a7e8563082a3bad2d30d9e 0x1872f0c5a5c127cab8631f00304a470e402fa3f892ea6e3c9ea12aba7b70f09f (-0x1653a6226e30ccd2a6fecf87311bb465fb33e7bddddad4ee5467f33faa68ba74);
  Dbl 0x17c6ca26e6c84c983a2f5d8ed1aa942cedfbe10a69d598f80ced8772c02eba3 0x64270295a57ffb8ac3742128334df25bb04f8491bdad5ab25a7de3a411fbaea6 (-0x34d25672516838ec8530b9f37843ebbec69e791c8ac9c22abb6e8b43501e11ef) (-0xe1fc1432495143633fa7a5fae8c5fe923961515bf9fe460196bfc17e4bf9ee8) (-0xa348f129994b98f5b8bb7b749e75163e6e9931f8f0e39c631e3193944737a0ad)] = Some (0x63cf8d419e087549d8aa9ef0bd4e9fc79e, 0x17c6ca26e6c84c983a2f5d8ed1aa942cedfbe10a69d598f80ced8772c02eba3, 0x64270295a57ffb8ac3742128334df25bb04f8491bdad5ab25a7de3a411fbaea6).
Proof. vm_compute. reflexivity. Qed.
Lemma forge_9 : run (0x63cf8d419e087549d8aa9ef0bd4e9fc79e, 0x17c6ca26e6c84c983a2f5d8ed1aa942cedfbe10a69d598f80ced8772c02eba3, 0x64270295a57ffb8ac3742128334df25bb04f8491bdad5ab25a7de3a411fbaea6) [
  Dbl 0xc0cec6ee34647a0edfe2bb31d53818e5288fae1df20b373acc7eba3fccf5cac 0x6ebf61f1ab3dbb17d41bcaa9396be0f204066905ec8801a73a9866a5311df9c9 0x566d93d78bb6c8b902c062931c93f2420029ac40e46a2d9ecafb5e543d4011af 0x8771f06a6e705a830fb058e63d69ea3e9ddc6dbed01c4028a580b14a618a5fc (-0xbc03b7bfe32f0ab2655a3131a631671711b64e08d7327ee39fdf28445cab3847);
  Dbl 0x430d7119cc56c8248b8529c93f35bbc01d47a594982eaeb85de71d7dba6401bf 0x5cb85d5eab2b0d8c2641345bf66488ebf1dc88fe60540d6f970e34cae413a83b 0x638907368eb3b1ddb0c3c2402178747a35ffade5774a1aa1940127ca03612c44 (-0x4343d503f17a5048ba2c1a2094412135a70bc02982043bc19513266f882515) (-0x8f891c0457cb6c3f6560e0325143c9661c74635d083e62b90fbfb4479abdcfba);
  Dbl 0x6290f49ef445920cea0f2b19baf5b63af897abc809027a915e56ea0cb1aaad93 0x738580ef5cc0799779f87cd9198cd87aff1c30c5061d028b6de2a2de1e5c1a14 (-0x77c1a4f62e4a15111796d551a2cbf2e8d1f3bae2b09e8eb38f809bbf5ba28ca8) (-0x1154cb801ecb88b2311386b20bdc910da334be477fd49cd9cef741d63bc47516) (-0x17577f5ff8bbc9135508610f7d7585e74f2d623d4eaa48bc64b844ff9a8d78aa6);
  Dbl 0x2bd9de7d36bbff694c15550b33f45f17f87778e6a196fe398f14bff3e43155b8 0xc24c387d9f2b4ffb106ac4b0c5aaf95d8e0f59501fb5692e1ea055ff1b751d7 (-0x12fe7e32fc3d2855204c67a2e3e248dbd3c4965f00950aab625b38bbe53b91b03) (-0xbcade47aacd1242e8c9d59b82616d5771c5b5bd5cad0c913e090f9fdd3731ca8) (-0x218498f2f7db2862a4db1cff85162e87fd4874530341d4d5de8aed4f03a783079);
  Plus 0x1a24dda0d9711252af98d68882f78fb38d2aa907d8100700be45efbdd5ec787f 0x2e51c814623224defa3a6f2759c170a21e1b86b6e1134ff6caf818685316be0 0x2415a83026641551267102e57e5f05e9038196160c1f83412e28fb2c5fdb50 0x1ce23ba8905108e5f2354984636b7d494c735a168e09072d4f4fa1b06ee16867 0x154ee95b2a272983968568f5e50c25847dadd3986e3ef26f3d7a1de9e13e6e8e 0x381398018d86eaed9adc29ac7826a1b52752ca048605aa7382ca67431532a8c2 0x6cd284f45e175938174b9cc2e4b495c86fa00fa6be7690f16fcca26ae342a22 (-0xb4bfd6bf9034ec01a849a3b92299b319c42db7304be3d666c6bfc17f27eaea5);
  Dbl 0x24084cff2fc1f615842052ab78548ad2ce324de891df76f89d716669fd9dade 0x266b91805cfee345dfeccd0709eb27251cb846d53a6290dc3d5893b84511eef9 (-0x1d68531f9270d83be51b981ee9ab1f05b6cab613e8f5d4a4ac0204a332057981) 0x32a3416c458eadba70ceb62a0f1f7027f614abc92ae9d4922e6839d2e6d748 (-0x3733f393126b30bacb4e57d2930514beac8ed9e6b1745724f174e5965ef9d3af);
  Dbl 0x546e6e1fd3ebcafea85d794bada1fea474fcc147a7eedad987d8aa447ca975e2 0x3e4856c0683a827154af62d684136c4b3339e9e0324d5bbc434aa3897b0e6c4f 0xc83a3fd102d5551621629a251b5b179e989d0b126e61cbe7e5f870399af9767 0x2617acc73246c8984c5f5972be2f613b5417c873c558b880f9c6ef8128709d0 (-0xfcf1e520022c6a0cdcf268ce363627726f61b852bcb5757d1f45c615442ccd1);
  Dbl 0x4ab4ae1fdb664ceb2904b7300d34ece2c6ca7be3633711401c33b7b8ad030099 0x8c810c078cbcfd268dd7a3efdd409416c1a923b6adc3a95e90669a85966a1ad (-0x111ff8d1d203197a81c59f1be2384dd33a5f46575084541e0dd4897b3b82759c8) (-0x511d3410548a51fd5ba3361059d5695ea1aa2b659cbad429902a52603896486f) (-0x1560ce0764b2b60e2146806a4620aebb89ab52760e012878564098252b089704c);
  Dbl 0xe5ec7c3942fb9efee98ded9debfe91b4fbbe8b701fad67af7283c71cd57f95e 0x1e82ff94ece165bc7dd6bb28b7abfe9a0edd41c26fd9fdaf385cf6baf2771205 (-0xf00ab8218abc03465f75ec829ae506048663bfe686de2c2e6db18ac4b874eef5) (-0x9d0b1da04c676ce967d391eb83081771a544e9b86cdd6e2f9a7a2aff57889bc) (-0xf4900ec6b04bd5776bb009a9c8cd09790fafd3bfd7f8917fbb2b3185c1a89d61);
  Plus 0x67eb5955f9bc2a52a3b3964ad088214126a371222473513ce195e131153f2e0f 0x47ab2d3525a059327945ef02e3efc2347c70fae24fde28d0b8e349a988faa9a 0x5aaa4b6e736475f256055c553de4b813bcaeada8f200db66cb14f03b1455c3 0x97721b5ce6a959bbbdcf92dab34439b21963ddb0ea4d89f40f2b95df2e54d99 0x9a6c91ecef3ec1bf42e1944548180f8a6d7c341756b4d41e73f66c6ca907e67 0x628762457b04cc409d8b912d57a133d7499c35a08246d492997ff9e5d22d05d1 0x313dd6bdbeac4fae28a783d23c1ac8648a9a73accf11bdd9744f9a3c14980d18 (-0x170dcb48329ada1774daadee67f0648709f8cfa9998ae3765bf9ca9dff22a35f);
  Dbl 0xf246ad430d229ed79f56cfb31039633ae28cf9d9f16045dec904f772e49544d 0x45e404714f222fea35a4975370fa594987296b9b755f4e61f90f33be0ba35e33 (-0x1d1993fce85205c316dd7a0355313eb818dd870fa55c29d8a0f74506a823dc009) 0x1dc422e69e4261b3f9021c85081bee8d5c6e1a8bc3ebd30c9751df92ebf1b9c (-0x1ff98f6025647e2895a8f76d50d7c29063eae6c9bdfb61e414568f4cfcb1ee2fb);
  Dbl 0xefa9ed949acb5557a5dd26fa609a924a18f49010631540dd35f10439e6373df 0x4984c78f548353b431d3de674ab228992bc636ed0f2d2b3a16f0a6df3ce2d902 0x203f12f7f2c572f64fb94c3b2f6d13315bf0e4f6e5d675414cd4b22587088af3 (-0xaeff77bb17462bfafa738e8621e7494dcf37dea0210671d080c2fed58a65337) (-0x57f4698947b68b9af97bf35c131e9d61d38ff4e5d453fa01949194a652e697c4);
  Dbl 0x599c96c83fbac8ff4f4e3104054334977afe8bec72f94cfea496f223229c783d 0x6ed78e1139778637e73932ada6b0a5dfb3c36fe242cdce33010f3554963a6a1a 0x24f24cf6b0a1bdb9d6325e4be50736e897a417b282cde3878140e4153a3886f6 0x2eccf535b788d41510b871c0ba31d83c87dfdeda3fe932076688ace065d69 (-0x4fd07d2cafd6788a0521f04d7bfda44837391169f93079df34d4dcbdbb35717f);
  Dbl 0x546278ac2e7be9c8f3fe7df6102174b2fedfb7c109461125e76ae506fbbe7d55 0x284d3220066f2fd93f131c733f442094ef6c1d1e27482e6892aebf42f50ed13f (-0xf05ddfbe6cfbfa5145b22de47a0c653d710fe163b47b2b9c06ceae89afd68887) (-0x6242659730d105b059ef7363f7b1686d4834756c9713ab11af695398d3adde8e) (-0x1e73c9c3f9712098c1e3a2d0259c9ee58d6f66354c9711309622aa3baf6f3c3d5);
  Minus 0x36495d05fd6291bd78470e59507773bbeb88c0c426c5534ebc41c0ab6756b034 0x628adb39ea485ec026ca2d80d85b2642197e08da8733af0854c87f94c89e7adc (-0x77c16eb31f6bd7a98f53b69cdf70c1ce9e44542c3b81e316bf4e09e5038a7a) 0x3795129d12a7d1c92bbae6ee74f495b9092d3fe596be1e0f270517abd5a04fca 0x1e3313ba26309db28e6feda50f4a239e2709d27a5f43290710451570b87ebd26 0x37233cb63183368a6ca20c7995a11f2e2ff5124f8e4d848114e84bc24f25822d 0x334ae7eccaf6d7dc1e526bf6536875a35623d893802e5da6c0032fef6497ac91 (-0x72c18851e9711db72a3132b34ad87b0c8859d30d94c46599e863294a0aebd105);
  Dbl 0xf0cd35d2e6466f98c818c306224adbd91849481d34fa639e1453f5b77c3404b 0xc193c825d2c9cfd682d46080077eef5ce3a109fda2126db166c4f276f350d0b (-0x2b5787634eaf9abdc3066abf07392ebb158c3ff4700b5db2b803ee791381eea3) (-0x4e69e13ad3af5fa7fa669bcd1c29e7653e2c31ae9ae28cc5386874075867c4df) (-0xde0663166727ec4186ac12c9bf05f3fab9ddc0a92a88763fe7f49fe9b017ba8b);
  Dbl 0x6677e11ed4355acd1ee5c86e1c4dbfd57df23d53d118916c69c123b9f57cae67 0x4be16d4d023033923b897c3f9ee068d8a1a5cac5e745d2f2b4fd4facf4545f66 (-0x881ae4372595da51a7a2bdae27dc803c3694a8e568449238391fd4d3d44d11e) 0x7ded06a68ed83ea790e553597cf352d1c0742b56e56fb715beb5503a2c8f964 (-0x132fb2124a05927b6713f966d7d1caa786546d7e07d412b9e86086a0e8ac03a6);
  Plus 0x6dd110e70d88669fa7cf8f9a56ea3c69a66cc5a338bbd765d8a2fcb61b6bafb6 0x19da29f7f0471e80558b3023a132690b210c80c118580abac5303956332f7963 0xe17a709aa98b3b676dde62e445f202d342e3b45914fa146473e3411c699b99 0x437e5ca72d01ca06e85ea6b578f1eb572c890e385d13eda5ade4a8eb06c82ea6 0x1160d0af04dd4ca132a1d9b5ab562a68c005e848043724d69cd03b1f9e2f89e 0x5981348cac75566b2c33f8e5ee7289613b55c1b97fe5c713ff8b336167a8b7c9 0x5adc7b663e8adacf358e33fa116288dda77598a8e9801ba021ae8d495508ef58 (-0x4d5152e12d00cdc888c10aee5efe88fedc185bc8af9432f031e88a7cf8baabbb);
  Dbl 0x4515de76ea98207fb02ba4a21b62737cbde444f5e6847fb8926d061bd6518092 0x114e46709dd14b0cd556a3c030f29cfe0d43f0ad1ebc7c7ec41be9f2b2d121c (-0x2025ef39a47eaa9f5b10d6c26e7790bbf9048a8193b8227bc891f3560d800332d) (-0x2a8144a23300584d1f050f12bca04b9b94d76a02344d48bb92e143d57abbe0a0) (-0x20e009ead254a3376af94734c1b60201f70f9c2026d7d9892ec5e84880e54e53d);
  Dbl 0x56171248b7c6a6a432a20c9c1a804376678512983c0db87d47ad6eb724f6d8df 0x25cb6d22577500afc05eb6da7d56a342e07911fe9ca60b63a60f76031ed99eea (-0xcdd74f3bb2b7e448a870d0657512d9d604ba3c54ad1949867855a8d205de7009) 0x3c429af928b6ef22886ac0a51890d3760fa3ad5dd4e605131d59690d1f2339ab (-0xe8e1d46dafb78e7399589791d08bc83453a9157128c1d35603ed5bee702cf3a2)] = Some (0x63cf8d419e087549d8aa9ef0bd4e9fc79e10f4, 0x56171248b7c6a6a432a20c9c1a804376678512983c0db87d47ad6eb724f6d8df, 0x25cb6d22577500afc05eb6da7d56a342e07911fe9ca60b63a60f76031ed99eea).
Proof. vm_compute. reflexivity. Qed.
Lemma forge_10 : run (0x63cf8d419e087549d8aa9ef0bd4e9fc79e10f4, 0x56171248b7c6a6a432a20c9c1a804376678512983c0db87d47ad6eb724f6d8df, 0x25cb6d22577500afc05eb6da7d56a342e07911fe9ca60b63a60f76031ed99eea) [
  Plus 0x13a64e0b84a3ec460b62e9ff10a6adffc5f6c30bb096baac7bd2d2a0cab4271c 0x65af868c283bfc24e76f937f4dddef3f972afcf00450e56226a93d016b509cc 0x704e6be8250f0c20e948a768b19c676a9d52eed89bbeb6349b3ec0f7e0d1bb 0x38b4a6cc4d8e00e3927d3eed93be99649ed02e5ff9608e805e981ebf83746437 0x20d4ad6f6f970fb5619aacda5a98dd2dd3095bc5eeba03bc58e1801c586854f 0xff489f6452304b4464432fa8ce7baf4b0d63cd520b1be7d8b250c97fb51779d 0xf7cc1dedd9ddb28793e6b85e1ac0bcceacec5a85ed3b86f0f9dba9c89bdc301 (-0x22e667ef27e15f8c7cafa85724b7303723fff759f8baee7018d6e51cadc7c362);
  Dbl 0x687b674b0a6f03b158878163101fd94947d3a2c63e9cc8fb03f900675ef40670 0x5ed3a77d58d14d23938c318edd0ca74e9578efe3f67e04ea13d08ea482141b40 (-0x104df121d2e6fd7b380074d2c8c8aade1a23b6572881fda88aa4b2d6a323868a) 0x37a44731f4051b511bd05be2dc9ed486ec07372d984edb76db05cd8b79f4b7c0 (-0x4574d958f88906fce2d87214335b15f603ac3c942a149dbf0e09ad4d66723be0);
  Dbl 0x5196f61879e395c793e3f597451229458ca0aa8bcb2cf4c215cd37f2ccccfe09 0x305f44da4beacb88c29569f63dd208cb0502ecea08e1775ae256179ec8605714 (-0x189436e699172b7ed15e544cee1bc66cc877cd39091c84d6dcfcca188b5690ab2) (-0xa06530ced59d2e673bb3967a7c7ab02b4196a1ff93229cb4570252ba201ca8be) (-0x22aa3e79786aeb8d255f067d29419788e049e6f0723e3b1b4a2475a0efdcc86c0);
  Dbl 0x10b041f62ce95ba0e9dad9f692ec52708a4188646714afd50edb6bc5cded9c9a 0x5e15091554824ab5adb8eb8ea7b3b3a7c4d307852936b4936f6a957f7181f859 (-0x10aed95504901cc45b17e0f9a13d91f3b025d4e0a89e0c4641099e782cbd11d8b) (-0x4241acec0639983c77fbf0d24d4761831339e6c4602deae39deabba7cf52accc) (-0x13d9eecc66e5f177c0483ca0cdd180c5811c4fedea868e568e512204b645e7609);
  Dbl 0x7172c68b3adf4203c2c5c46fcc428cc5201ba6af4bec96809a174efa28540d55 0x16bc28a93a61b7017f7b703f3c227cbeeab1808cfc4017527e11460e165fc882 0x40573f9b531fd6afc164b19e5df2ea7147ca002e100c86af21b7c74636140621 0x47e9ba108284af98c244e6b5b32b6fa175c662347f2588855b4b7a5fc9219b8 (-0x5eb19ce0a54450abdd6d8cb026967baf19726643b1f9f466e96c09a31fce7e59);
  Dbl 0x46e6210aee1f8921ef46d1c6c8bf0459bccd16c59ecc73b5f6915bb3c369ba4f 0x302e65073103d0636c3fd4a7be41492d4a190c91f3078048e84cab59c6a2041c (-0x226a5fd5ba5615d32907caad60ed25ce3d8aa6b8206c48afde3dbb19ba08489a5) 0xf81df1901d4c3746c38df698f435a410d073bfbf2e40c8c3af5634c1c2694e0 (-0x25857e38c413e41cb2f6828f87771f4a172117b80d3d7e26ae8a15c6426c80039);
  Plus 0x26e16acffc4805d7bb62be35b28ec37886234557eff31208d06ad1eb46c36c03 0x63ae778831125e4404854a9645c5cca0deec975ec48f63ec19d3084b01c364fd 0x8f2b842cbdd2031df17b9f83743e75c0a53800a18e4652b5d880590346bd6c 0x2eb3173cfa37c1072b7c53b2c1b2420aac780b430aa93096c68077565dd43925 0x60190c4c5d4a74329380388ac229b48a3b7ca779983d493a8ed05fb3cd21e7f 0x1d3efb1ded851de7b72d34969eba50f2d836ecdfe77a74ddbd9c73dbad95e99e 0x249b7683a9db2275d13bbfa2fde6f96097370933acd23a83b97cb78eb9da4622 (-0x81b43ae8dfdbfa772aa50efeae5bb931672119fa0c173a1765299c5b717e75bc);
  Dbl 0x1f42f972538da4c24bfba53cd606922de249182b57473997b388f0764dc4835d 0x21c124d90a77a1962b8185118fd5b3c962915eb02b8d5bb0d950a3c1901b18ce 0x14831329be967ab14e639f402c0d31915ae56eeca1f2a5475a50f487b9c3870b (-0x31610288c7cf63c50d83d234a05036e74d3a886c9831e7deb9e27b0df3e72d01) (-0xa9ca2962a8428cf78d1fa71a3c3f941a2a5d71dad06a205786b608f2477c14c8);
  Dbl 0x71dc55962fabe9faf5b4f8499f904bcb07a4188cb55ed409b4cb1d3c387e9e25 0x2350db6f6a5202069fb366d25a9c52246cde9e236cb1bc7355cd3f258ce4157b (-0x2052879dc2a58819f9274ccb9b03bf61ce6165bce46f65749bbc0facafcd1578) 0x412dba152838d4b581daa3f8af9680b6e157803c21664e916d07e71752436fbf (-0x4dd76c997c17ee09bc1f245d36a8271aacb302f0b155e948b82d150616b74eb0);
  Dbl 0x63c66b6cacae4f76151106a4c84371f89d2f07d0064e4efedf1f49681f45ea68 0xd6ffee12d02cae53f3cfbeb2bbbe9dd6232e49ec93c7bae0c2e1319c0ffa87f (-0x224641da1fa5ac06f0a8b451801ccbe71d2918fc0dc425fa9ba494a7da0388bfc) (-0xa3a8c89feb51f6e8ee5083bf8277d5ae6cbaf1c8626d37139921f21ae7645ce) (-0x241df8d8a7f40e4ce441a527285ebdcf64287efe11b03b18544624911a441fc80);
  Minus 0x950d12832088b0b9064bb5c6ce37f300a783a62f08f426b3cdd3686537c5aa5 0x50f55bcea2a961887984e91270265399fe9b45f6e84a8874c176debf01b31408 (-0x27ede89f8011a5969b0dfa436ba96cc1e199b7fc70f1404a64d3a44c93f602) 0x41b83ade509c583d76a53c80f88493161f212784b9975208a570b076f42b0693 0x137e399c5637e71f2c5518bd7a76364f0d6c792920e25392d82e78576a1924f 0x454a1a27a7c21621ee5fb5d10a0baaae0b3975cfcdc8e9c01c9f751b072f708f 0x709718f124d521d98ed71ee6109753a39c87a531b538931486a25d61c1f3724 (-0x4036f8fdc75144d5f0cd5535ed9f7ea753f499ddec63ca804e691646a3709265);
  Dbl 0xe5063f4eb45d4857e051639702417ca6e0a8f20c6fc2c21d90c94444c32a75 0x68e48cfb8f16c35ae6dfaaa4124d79e271aac2fd53525051d29703c252a204f1 0x34cb5855578dd3efdfeb1749cb64a47901a42643f787d6a9816f290192059a50 (-0xce1acc072d1e2c83a0f135389fd0b963913b7d564b363c7df9bfc2a71c96701) (-0x4b7ba7e8bf68198143568b9d18be152cbfd6a1c61369ec7cf503adb9835df81e);
  Dbl 0x321a99340a8a7b18af3e2e115ad258c4944f4613f1032ded09bafaf813562a1f 0x2b95090829ecc5b0513de856fd8033ad4a13dd5a8e6a04b0c8ddc068613b1c05 0x5edf8a68f61f04193910f386143dbb64f0eeadf1a5c3600be10e20b31e21c62b 0xd7da01b65c201266e2ec1423d4f75a7256dc4338a4fe6254d8ea6d8d48e077d (-0x6c15cd3aa67d7e364319b253724eb34666af1e70d9e7d7d830e6d3f7c67828f1);
  Plus 0x632637a5fa240b509b2cde7b331ef4ce10bd939715b6ad3989bee8919da6b10e 0xec90a39e22ddc61c0e8667f811d263200b25925229d96b58d9e473cf73f0ca3 0x8181018e89c108128e002f1fb8f328a426103039d8c7ea44125a0b048eb252 0x210099272e09e55383e6c0eef48955a01fd9f5a8d9bec4be64c84dac59f88135 0xd5454ee8769a736be5a9c0c7cade25a8e1e03e8288fe4e6888593273c74c8ff 0x4398af8e135bcaa974a50677a8a3143c9caeb222bbea0566676944c71a453d07 0x37620e3f842bf07d82ef67ea7f92bd0fb6be3ccf69b517980488b3b72b1cd038 (-0x27df90d11f35184d45f0f35f944e134bd87b6772c169c2252facba3620c4605c);
  Dbl 0x70d98d1e8f6768f3d55dc3a7ab92698c67dde0efad8c9436522376c4fca33fb 0x62039e221d5dd188d0d2384a2c6985268ebbde2bb77f71fd2b42948308956437 (-0x1a61bb2853b8fc0b2a051e962e644ef7bb903420569c42ca0ba3b9ee5e9f2f16a) (-0x141afc555855294764415bf0998ec57cf866457b4698f7d60d04ed51efff92af) (-0x1f1efe1d777ef6f871d59cc27c8e399cf074b88751d5d29952097e593d2cfce98);
  Dbl 0x3c11d752c0239a7fa308c7cac575be9de3625d1cf92914a457d9e02384c6ae99 0x25aadb5d4c4f6170c5e38c18aecf6b6d93caffc55689c5fa6759ebacedfbf96a 0x50b8fd1d5fffb160674e03e80cb6e57bdf059c2d91e6df075085b35584a10909 0x2f56205b10852c3c80a4b254e2377df1f62f03d1f669df4d372ee2145b570af9 (-0x7a2cdadcc909f7e4c7c5b86a186b846e4eaa3b4bacb3974b38599ad08ed90f88);
  Plus 0x17957baf046521b6753bc412494c961ff8000c1c472913290d006b1e84514f78 0x541c9181b3d154945d8aac0e689fc6aabf3fe0458d9219fefafc82de14c97dd1 0x6feda4512746df8cf02a08b67d22a369c6944aa0f3984119067e7daf8bd8dd 0x27910bb12d9695ef87635e291dbccd2f5e530cd718514d0c5923c57806bf1356 0x24bf1f1129c0ca5d5e9ab1ff089daacc32fa96ead6551845771bb102140eb74b 0x2a59f6e03b2e8db1249f9fda15e2267246e84384beba82d9504ca073d2f2c1fd 0x8e4a50f2ef8370c6e34fba0953922e2f573115a692d5d498c69369a97147028 (-0x3c03a14258c700bf8999691513c323c2afd9e57536355ec87678ad0de7d17d6c);
  Dbl 0x5ab41060da01dcf0d01f85d69fc04e8cef6d1d70517e43c78c17eab3d46a3b03 0x24008a1784e391afdce536297aa6e7dc556290e83446da40f695dfb66d6ee4e4 0x2509bac9dbec06ab9b7487eebcfc1f29c7212d6b6eef720f48d037a35b10eca1 0xae5ba69afa523aef69017ec79fb8f7465b2b4115f9c0d87964f452820029a50 (-0x66ecd27296fff39b82fae631977dfd39ea9732a2455c175ea5f8494eabb00719);
  Dbl 0x27296846860de6ad86e185db3ea7271b1989c022a9c0cbfa7aa79282ad34e7df 0x4871f727b5d9bf716df0e984442faa67852fe9487c1c719627f28ed36d0c4f62 (-0x157a7b2634139fd870c796b2f3ef6d366e34bcd52377bdfd348b13645123c4ae0) (-0x34e748ede2a3544990f2fc27e02db597e8355e5f8475beea2ed60fe9c672817b) (-0x1745e1821e6a4475d61dd98f7e653016a3ea826f51cf379b73e112aef6d76641f);
  Minus 0x264879d5ba2aa212c4d2b9627a3deaedd0cd3e48e3e3a17561bcc87361623132 0x4ea250b0de11c6841e207a2739b95187f47a26d3722481bbbcc28560e8dfb751 (-0xd7452139c223a523828ccd7352d860c285de97ca938315d9c44fdd763ba050) 0x19cb83e942ad9330cdae1ffd31bdf446641f577d40b8db63fe5d812c647c5cc1 0x352ddeb1b83b33e116f1302f590b8cd2762d3634bf8ffcdcd813228fff92f104 0x15e167cdcfea88dc6158e07c136217ca14a55cce400691ee6b07f7e45415489e 0xb588d5e3d20c15efa0ff2a148d012ca338a63565fd333c3fb04bb7e09b920f2 (-0x44bff791953c04f52cfb9298f41b8edc43cdc9cf075ef5244fb1964c9f9663db)] = Some (0x18f3e35067821d52762aa7bc2f53a7f1e7843d41d3, 0x264879d5ba2aa212c4d2b9627a3deaedd0cd3e48e3e3a17561bcc87361623132, 0x4ea250b0de11c6841e207a2739b95187f47a26d3722481bbbcc28560e8dfb751).
Proof. vm_compute. reflexivity. Qed.
Lemma forge_11 : run (0x18f3e35067821d52762aa7bc2f53a7f1e7843d41d3, 0x264879d5ba2aa212c4d2b9627a3deaedd0cd3e48e3e3a17561bcc87361623132, 0x4ea250b0de11c6841e207a2739b95187f47a26d3722481bbbcc28560e8dfb751) [
  Dbl 0x7193353437264e0b930d6eb7b2f34730f5690ff55967ef8bc040fb93fb6df51d 0x12dbb45d7a43649fc321a9becda1755ba0c69444c9d12c98f2b1ae629c8f9312 (-0x9dfba7f666dd69ceae97bde333bca87442709c3fa347a287099ca0440ca52b6) (-0x1c35d9c7c0a2e09d090e5e6949b74ebb11811d78e8c8e0ad9e0bb226116d8ecd) (-0x787ce9435bd324a7c1156f8b5d69d0584cd3ee4783793fde38ee64647a3de287);
  Dbl 0x4c06837b73ee92833d2289e8616faeb806687d017dbec255a8d2f2c08e4ef408 0x5d7ed94566fc000810c601ec8b4c4e57d3ed11a054c4e1103ffd7e8acdab3dc (-0x22947a0c9cdd71f45d5498b55f49df63a92648ca359dc9e2b8b75dfdc30cdebd1) 0x202392a06bf1edc8c59f42ea1823d365258b6f0d48fba49ae1a777f6c4644f2c (-0x234b9be626bbe2182c8402d592e210dc2cb086258015c509d110311c9e6a33059);
  Dbl 0x113956b347337fa1dcbeb5bddcd82afda8639d0e7d073a0773a6b4e6bd6fadbf 0x576399687db13baedbf05510830230c0a0a8ae72473183198153cebb702c1fee (-0xf8fde0c90dbfd88a0734b7df3077575737826eb0ea8af8688a683ec547d4999d) 0x80cfac6a8d32e286e138f0f6c393124a366c95787b50c043ad25625c4975f93 (-0x149504600f75022bf00674b61983cd2b1ed6c89e7d50b30d5bcea3c551973b4ca);
  Dbl 0x681b73b46d0a1ea0e8dc29082737bedcb7262788401d44ea82d1a580d8c8430b 0x435354fb7612110fc567bfb94a441f2b0046d4503d54bcfbf723f657d99d0e98 0x35149401805eb20b461a58cd62805616384f473cd13b97e5abc0b4612c145a7f 0xbce4f533fbf43af2b798692fb9b9d17d9f9c658cb5d1c6ad1a28910d3fa519c (-0x671941cc42a79a5e8eede582f9da54fe6b276707b06e9c3435dd5b9834689099);
  Plus 0x653b32bf46809b27a0d3a52ebff760f4b9c7a8515dab60191f0cf8a6cc5d3916 0x5f9ca7cb72bb43349f33e17748516aa70c750b5b60fe2600ea5925e7ad857547 0xc80e98d36175c4e64cb6f342d2258893f2f078301f9448e963022deef5edf9 0x4492b9a46aae87430565e767ded9cf2e7cfea24dbd994a563e494776de9633c5 0x67a31233e122b1169015307d2ebcffb0af9faab7d31aa29be0eaa7abd6c50da 0x186387c6dd0f5d35ebb69cf53108f0f1e1883c99df17a05571f3d4ae91d89ba6 0x816b61ce2e8f97c5367ab71702724e3a9e1014ce87b22914e18f19206bac0b3 (-0x3a07118635216938840da4362cc893462f97ce158c82f3c8869d14a38d915fa1);
  Dbl 0x29d804637441e19ba67e087f87b3c5f0c807ea4ae4c0824707ea6980ab252449 0x56699b7090e1255bd434f270bf9bed4cd7f193f8d7ed33d2ac5cd990407958a1 (-0x16b218e225888222fba66af544a3fc2724c1cb1eba554aa58b41990c06a38bdc4) (-0x91757dafb2adb1df656899f9461fa6f8f857b3b4faaedcfa77a5cbef3d89dfeb) (-0x23549e6cce7adaaf16525ed2acf2f046f859ab3a18a2e6203498059e5c01e9884);
  Dbl 0x1ce6af44df37685e836c50dc438557b38c8fa62cdc9fa45a27a9dec2a93a8e2 0x11e8b7e761b72fbc2371d3f93844e7a81870cc5d0f5f4af2fae949ec6c2c5e54 (-0xb1aea48e2a3ee73834fc94fbe03a4fe0f12384d54dfa2387df0917f7f7849cd) (-0x3db8b33191274af7d3426629577b122bd9586166dbdf0cca72c0d7233d57b400) (-0x927627c081837ae8bba5d49a5300240dbad848a0c0eb7852bb0af3224226c062);
  Plus 0x27a25c7944ae5836c7f434e31b606b3bf04ae10ee7ea626eb90489db9cab36cf 0x62de87d47a04e11203a8c90cc14d69b3cb1394c0c2d12428bebea0cf6e25bab2 0x35377088ef28f2bc574e7f4e38dd372a9e38cc2a0ca5b02035b2b8e702203c 0x130959cfd3f56811c54b844efa9ee10705103a0f888963160a881b3b54fe03b 0x5821b48325783c66167fc75b0efdc752eb592a8efd3d69c4b8ba19bc74456e02 0x5d46b98f8ec9198b85b2d9f17dd6066214a938c917a0ac629cd423a59fe00e6d 0x253705893bc4162b938deb7d6ee547919c32246fcd5decef5e6d76ab88c85837 (-0x68bc4082443c013f4c1fceb9c35740111050d07dcab71a8a97407f3fa478242c);
  Dbl 0x1d1209b898ffd1df2dfb7a5b42e1d9815223228c00b8e8619531c87af56b9a71 0x721daa5e4840649709bb28136cbce6bab6395795fa9d791f7d5e04cdd0c68b82 0x109190e88a941109706f05863b1b2437daa8a83a610527b9495647b0f38530f4 (-0x3d1497a68d2bf1797f81609415b0ce509c32f61f6a86de37cd1791baec264521) (-0xb1ae26b84c62db45f16e06b19a6b4db46ec7b5b3ef3b97a6563854ff060597fb);
  Dbl 0x24c3f6944eaea53eac8cad81e958cc26754599eff486dcd74d1efcc4a3e11ceb 0x3420dabbee7458273cadae6ad240b03f04dbb7259a4badf6a16e9d20607b0bf8 0x4be2045f884829c73a07144b2aefb111c3055a21d066d078389e707909bc85eb (-0x1aa8c1323f7b9f008db360c057613cf1e41680287c79839b35fdcb985547ad88) (-0xc020e767eb91244eaa4083ebc047722954a7467993f0cdf8bcb98e90c1162dd9);
  Plus 0x355b3971c8c6781e9f2e9c851538d8f63de7ba90bf929529356dd84a00f0b42b 0x243bd7e01ae398adde3c743630139c24289f52645bc67ce041af997a37109739 0x9ae61618e91a195ffc35d452b191327425037a812983e92cb848f0f8db11d1 0x18377400166c7daae6cbcb2887bee9509291e4d70462e2767ce7b877f9cace4d 0x2c61b26e8584c2d76fe0fdf7b44a55a04b1b811bb33eb5ea45928a860b83369 0x342554635d461d33f789c3a121f837c5efb34377e186fb6bc4135dd6462d4c1c 0xe5fa26697d8e4dc584c878ea39fc688af5a6a76136871b6ba055ee2d5eb899b (-0x2e3b0197c0a6b47568271b471d15a5f64a808980940c914fb0a766c2212ab3c0);
  Dbl 0x34c15b6316ad293131eab006da45de8c3891ad506eb92f393cbd5200b9fa126a 0x521858c2e74ee7e0b5fa42116a96e0481f07e13af1b497163cfd191815551eec (-0x6f764a5816a0ed4536757ad802c72018b6d26b6e589f1cc24d445f3822b674a5) 0x4f279b4298768d73b16db8a63ffc10a55c77788ac61d94ee621fbe2215ce274 (-0xc1b6a0ab47d35c531d0724801bdcb9401f2fd8d4af12be3568c11bac0b042f82);
  Dbl 0x63dfecbed3a308e2d0874ee85309f6a87762ab70dc88c161e60d61868ee9215f 0x27106a2ffe54bdeb0914d8cb96aed4e354319e27de9576478129c33f3a942eb8 (-0x3de67c46aa243b97bfa2f45f30655abd7efae4135dcd7557fa12e4db474be1b2) (-0x132fe3a27831cb33c7f8915ae88f7855ad481199e62bc308723c7ca98460f7fe) (-0xc7e45defda9a21a2dc5d07e2925248fd069c0981f8e4b2f6be08413f150acfa4);
  Minus 0x4e6df7280570c687c619372175618dd6c0c3909f160f5cc6f0aba35a1666e12c 0x53d87a9fdcaf7c7ddeb943581dd6272481039591fb879442c197b664d5354e78 (-0x74141f0632e113b652f8703f8aa8f8abbce114e8687bfaf391b8c008111af8) 0x41c90796a63f1e4c83726a9f21084033211f20fd0477b7e645354e4126e595a4 0x265201edaee4cf1ec8b01976418cda6c322dba6653616a5d0e3480e1230b3d7f 0x2d5793b0ad6fe42de8fb8faeb20d011aa035e9e0524cf6a91c46b0c7d045a044 0x130d9f705132a6fd7984a7f06a39df9c59a2059e6abb2122c2400bb8b80cd79f (-0x284d9fe6aa59a0fbaec14887e2e0b0855cee59e9e676b8b12bcdc0114cb1f2f8);
  Dbl 0x1a0064efaec8f9b97f76375883527bfb9f333546af6aed0ebce4433289bffd35 0x285dda3e9e7ceb1216abf23202f70e699a1fdd5624bea445f8d3bfba011cf8d8 (-0xcca8f180c9ca8f7d95386248459b186d30570d3d09cb62311a178087ed6327e2) (-0x621d62fc1fe7fa95b13f1cc4b437faca338a764b447ad8ad6bded06496ff4446) (-0x15dbfc64f1f150d5670dc385c891a21fdc605a459d0bbad7131206864189ba990);
  Dbl 0xa6760d1bd26ab6b359aa3db7219c05cf65f646c4d24e3125a2f8c5211c2994c 0x4d24c7b335fd19c45900ea46708dfe22b017cb91aa10a7282b09c1a5712a4f2d (-0xf1a86a16009fee2fed2140fc8dbbf5b09ac4cdc510cbf83decdd62912b43220) (-0xc413aa8d07f2abef7ee526d20c3484cb4da437fb8980ee72d3869a2aba7f38c) (-0x569d1393a7b1759ff12ba5cbd2ce10fbea990cb492cfa13ad2851a16096737ca);
  Plus 0x3d9ee7c3409c59842038e2c8d630aba9ab2ce51ab29c0dc26e072ec962726b91 0x56817bb33f7f7a6e73895e92cb841198ab15fe03983578bb24e2bc7477b29b3b 0xe53b47b20fc9a3f9a1dd348a4333eeda790cf110bd923766ba2ff64aac8a46 0x6da4f02accaeb52dec49079d8e27bafe2dcaf7750db5ad5b3e94b809599d68e 0x24bc3ab2645193695acdcd8b5ba0b9175ef1721b8462ec3800aafc2645c9597 0x51a7483455091a6895b7c25a98432e6f62ed2ecbd0d5ef7a62da7c9015ef17fa 0x271ccf3f56d6d98a83dda196f3d8b37ff369275288969de1f7b1048aad9c625a (-0x6a5311baa00b21a16586293998218d985ecb1c44bf04cc0bab828c1cc6b309ff);
  Dbl 0x1b159e723e000e42d0cb8d917502cc37a56f75ade68ab7a0842c0249748ec5dc 0x6eb5fbd0ff1306ae8c357917bbf0b8dcb7e3f725dd899f60362a84231365aa1b (-0x63381cff6dd36841bbe961c59395476e97019137e92bbbccdd97a4931cc14347) (-0x5933ee141f3e38e5f6176fbaad7ce7d89fd18d55a7a51aa6a533c5bf1c373922) (-0xef9a32b68e7bece4081cab9e7a0930ef1e98afe78c44682f2e00fea47435c641);
  Dbl 0x971dcc93cabda2f62b90963cd370d252e19b471e43acaf2ae3e8a69532b9715 0x29c123ab56be2b207732c047b973e492d7cd610b94d0ba1366a367396ab3f954 0x4a16e2e15d4167ffb03ba59160aca0fe5737f3f266129ffd50f285dd29d5ea4d (-0x2ff74412ffa54113a31652223e3538850437bc55b804006a753a8f5b86095c7c) (-0x9a031e7a9bcd69e20c8d51373d22145986d4d47dccec40b2c8673e9a45fda131);
  Plus 0x29b985671426f80769b362f796d1c7155157eb5514f2ab6156e15fbe96c28b96 0x2802f01d9299ea4ba2e4b198f603b03a2d9b4b719faeb9024dabb12cd290a0c4 0x7c12a89263c22eaba12a10c7f7c03ea695264e5c31d3adf0a0e6c50cbc567b 0x63897c23b9b5ba11b80cfe5e42df17a8e018f4a5d06f0eb8539e6a1edaef1f5 0xb62757abffcd9e1528edddc7656980b48bb34eec4954f7cc03c4adf93e92926 0x34bb6d8830f0030688b2dbbab74e6e151308d71aa3510740dc8a50e0f8228d10 0x233f55eb42da7e18b200b4762f58a8efd98aecc7dbe0b784115947a26d149a1f (-0x3dd9dd1cc6e38847fc02a7eb957e032abe52c68682570c87072c07c5e92361e8)] = Some (0x63cf8d419e087549d8aa9ef0bd4e9fc79e10f5074c535, 0x29b985671426f80769b362f796d1c7155157eb5514f2ab6156e15fbe96c28b96, 0x2802f01d9299ea4ba2e4b198f603b03a2d9b4b719faeb9024dabb12cd290a0c4).
Proof. vm_compute. reflexivity. Qed.
Lemma forge_12 : run (0x63cf8d419e087549d8aa9ef0bd4e9fc79e10f5074c535, 0x29b985671426f80769b362f796d1c7155157eb5514f2ab6156e15fbe96c28b96, 0x2802f01d9299ea4ba2e4b198f603b03a2d9b4b719faeb9024dabb12cd290a0c4) [
  Dbl 0x22af7d4a9c9e0706e6fbfa1ce1b5028573bc8f67bc92429c42235a97f8a4be5c 0xf144a85e45e488218805dd118ec2166368874b9d58fb62f8a7be05e11cd621d (-0x3d471cc56a3c0fa702cb8d2960849a75be9d71df883308f4b47ab683a2c5c1ff) 0x33537d463fa2ebe9b0e4ac18f396333460831a4c92b803bb6cb6be957bdd404 (-0x66d01447bbfcfccf15efa1a97b0af136f7a6dd5ddf0ef0c7d0f77636b53560d9);
  Dbl 0x409bfea488c4ff359ba5a4ee1533ff1afd916f5504452f9fd6289c114c48884d 0x6e33db2a6c414d77ba6dffcea002febe022eb25e4201bb97f91e1eea75350c9d (-0x31ed7f01666b3de472f848414fcca35bb340d02995c0143ce924fab1157ab6fc) (-0x767516df28cadb970c01e6c0d8208480e8e3727824821a13afbc98df8200727) (-0x389d06251876b7270ce1b24a7741f13f46116bf910d51135810137a2739b3da0);
  Dbl 0x595c7f78a83780aca7164d58e7f5edcdd015ecbd748dd83eec2ea299667ea810 0x73bb1004ba26dc993d610ca885a8e3982a342cd292c4fe82e36381769a3b87fb (-0x4b4804ce47f89ba77be29b731667c0cdace6d60269e897182a8b777274321cf0) (-0x67b5fbaa627eb7f39ecec876fcb22170a78c0b7a92037b74ff1ae97e316e6fb2) (-0x13591e41a20a2a09120d62c1919110ff25fbff8d633638b3c80203446bea87504);
  Dbl 0x557c67f9f58c8565f88944e38958e5bd5a3ba21fd0a7d13e10b710bd7444c24c 0x387abf98de0838605c1a6fa718b90fa8d8169adf0b6999174b3e896ae7644de8 (-0xe4e12ccdc5722c288a757c996a01a3c6436c5cd7a09f94433bace4bc8f100c44) (-0x68c2fec30493920d10ba870bd5cdf4ba704ca7c87d0c04c89c614705db7b85c4) (-0x1fc9c36b8bbea9e60b90c0472040224e00c8370af30446eb3b4e33b83c8e63e91);
  Plus 0x47c34c3830a8e8c3989750e76e7bbf044a9a31f0fe5a4bda12c9850eb9932acd 0x912637afb75ff0f55fb86e379273a98cb351e84d901690b8855f543c325751e 0xa7d4028a3e63b308b1ed0236a3e3fbeb9346d099f90c26863bc633f716df7d 0x384ec6e60803f2e1feb55d2bfd4d2adfd99ebf0e1b646622423a3c9aa5e52170 0xe5fe6e7a056797b55c1272264f33f4d5f3b8ca14c49fddd84b9778502c33aec 0x3771871fe1339427c7b17d75a526ee42be2eb6b4da2c8c5357b403ee5d1ab712 0x41aa600b99d1dab4d4a3e296a537460abc25f08b9b158a6c83160af25059653c (-0x3276d421c0a305894522d88429ee95a2e779ad366de54442b8041b7a1e26e9de);
  Dbl 0x4912adb2ce587db572d7ee2e008ae1f6636a4a1f7782af79d0f38f7a72dc7129 0x69f3262d72f37d267a4bad2ba680e746f574f8265bf6f99be70ba7feb5bfcbf6 (-0xdd68000dec5345a44a5f935e3dd12132b11289c549762376278f8bd1d16f2e3d) 0x2e726c0e6b4ba93817b0e54ea914183ac8892815d8c007a0d364ef820d25a508 (-0x132747afb5d4fa9c2f3d6c1f5ec6e941ed14091723940a2092f080bcf36d7fedd);
  Dbl 0x1d60b47180ad1e60dd71186eb2d405aeebb932041185c9e6dcc5d12bb1dfb18b 0x5b0572f197e5b701c1a9355d380ab9cdcd547faa99d4c81a60fb569290ef457e (-0x8578436dbab8d821efda0e570fae5e8b7fe07e1944dcdb15670d2ab18d639140) (-0x72034f8a9a46b8b184ea738d24e5df4a0c290eee0fe8477cda0743bafe482f67) (-0x183b679d99f3c56afe58a891b203b6a96b0ac338ed806addc77609fcb8a76c51f);
  Plus 0x37bc877f73d928074933592f8c2c01636723a9420d60630c4315403b8057fb3b 0x64d505293bb1a74810d59e700c3ed579a4d4d0160ef9a766afd11bf9e42fee49 0x10e77ff0676d537232eb8a0daa5f944bfce99de710892132b22c49aced0ad5f 0x1359b90d2b7754e32c6d9342b9e99040d422b46c9d4fd9d70df79bc64972de61 0x303fa83b7b1a2ce9e6b207afc18b08608d478de26bdc681777588720d28b1aeb 0x16e43c1923e0eb98ba455ec9fef0a80ba7ae694776e9e627ac81ee350f5e6184 0x63d06fce676b2b2400fecfa05e85f269c5344334cc791976329f527ae10756f (-0x48f1cae77390aaa058c5f8b601af6a44f9502f242317480860c103c34f4cc978);
  Dbl 0x59d4955e4ff3022cc712edac222bc7db9ed3fd00b3caed4b5b7c950bc5dfa804 0x5f2a29135d7abce7459689a979ad77a4c615a55803a06ef037e6b0d72e31d267 (-0x2e48bbf71108a9482ed7431fbd5cdac107bf9da6d8006638aff15038f4b28fa9) (-0x556a671ce36ab79c4eb7b07570a8168990683e82fd7c829247ca7ac3724969b2) (-0xe9ea0338b6e95c206327bc31277220f48ff7db8dc7ca9fc1fa491ef662f6d44b);
  Dbl 0x2af66cf08b60a6ac78509ade1c6aee123332e03928bbf9e967109a92eff98116 0x4f75bba801b5a40d2b364a1988044d0adae592837a626504a0e2504988d7587a (-0x10deb1bab65764336a81805e1e3cc0a096605d1fb5dd3cc16942196cc6950525f) (-0x79562524aa5ab40393a3ead7dc6d34585abb9384455dadf7dc95ef4b4e457e38) (-0x1da83df743279b02fbaca4ba28e73a7c0a0cd4c706ee178541c330526dc3727cd);
  Dbl 0x1e4cc90bfb4ed5bf1ff202954127190b1a3754c82087b9ad421fe578040b2176 0x9ba72737c6443e6e133ce8bd607d9becd5ba966c5884db3a8d48ca7c2475e80 (-0x192530da1a5604097c9cdcda5a50a41c626797a768699093d01dcc34c610e6b6) (-0x1fcdea783b800b42e619efc4fba82ffaab4d81051b3757875377b7456c5561f4) (-0x8ec539e42e118b91318e8286c031f37ce8483f7d6a4b7b4c753102a92e486998);
  Plus 0x49d7f3537af0a8d5b2f3ea9e6d2b17c0adff95fb8846a19f036c10f227d2cad7 0x28177cdc7355bf85c10c624a26a2d5dacd8fcd6024b1bc2f3455f29699eb1da2 0x1ce855f378942415ca9ae88f81c533e4af2e604ab5c6e1ca759a51c3e4f186 0x13f539500dbbb83a372c24bc8c076a35b7e76e4474ccd301565bd2173399e556 0x983a432669173e5e01de70af424a6b79bb5828c73d5f6dd42ecab23d79f358d 0x5a37373150edd03c24966b5502763bd184fe483eb6763ee4bc4634f660259e5a 0x1db6b2115a0c665bcb2c6c360cd8893fe6dc8131645123e9aa76b280485834e6 (-0x184c78d01ad378ce5862f2794b07b36c83efb2b894e041e1f1e855bd7cdab664);
  Dbl 0x604321a2814a2d94547dd770b10bc9ffb2a20b258b1ca906cec1db18e4587010 0x518cf5b5f993f158af8f25db38573724799cac059a25d664a8486d740d55592 (-0xdd515c782b9bb728dc88a9f7ab08ee31ac7a9b40dd2211b4bfbd4cacd4a88309) 0x1f52fc2c11e57591eaf424824feb5e0b6617bfff3c6a6a0307fc748b8962bd64 (-0xfd692621eb9e2210c3e33bb600525bfa56cd772b8297c0f481aaf02e029ec725);
  Dbl 0x298ab03fa984ee34b9328dfbe0a15dd21e9b96990d96a4dfbc2cd03b3c6759f5 0x632e6a5ef5f6b66944015c5d954ef11dfdc49dfe39d0b74957a67a0034f7220b (-0x18f6ff6e79252583cc776e0a9a00a6675b844cdb3871841525450de8eaf0baf0d) (-0x8458be892d254452006dda26c6ac47ca225bd46a592b9f0fc4fdcb3c31856bb) (-0x19058966327f5ff3a9dcdd04b988057d20e909996b22d0c42ebdfb23fe2b528a9);
  Minus 0x1620e9049f7b7dd2491625425cc34c6fe72ba5220300582598f298d3420931c 0x5693f8f079583b48002404e915508a97cb8a644df3aa22f468defbb5eab1b282 (-0x126b756405e446d428c8199dd857f1d52ed669fce01642ecca4efc3f72e0ba7) 0x1b5cd5da8e4ff791793e0be54a0916d11fb6c65d71f62e4cb08cd12ffb5afcaf 0x2334a96e16fb896a032315fb574beed359a4e8137ecab43d156e4755767c4c7d 0xc3ce72ba3d85a2915b82c02db6043419d9ee8dce1f5e43a1a98ad95b5b9009 0xd5cde92f875a2dfbd8f7105781036e1592e87774a66505afd2ad4de794eeb5 (-0x73330ff33edcf0bcd3e71cb43284eca9beb97a0324a7f65bb8950e0d0c5a0137);
  Dbl 0x1803669a2f940db8e7b6438dbb1a1b661bbb25e238b0e367b4dc93ef25eb339f 0x201e48d238d78388de493a6031966200032706eb0ce4f923bb167cd290c99acf 0x40937550a24700156a501e4da2589d05029310b90d906f0025e2400e5758d86b 0xc82daa6d6c2f288e618e8f365b24be06a650a8ddb874ce18a1214db2e6145e7 (-0x543cea69f6f0344df729bf419e967f2538fb2f2b5ceb3dfe30a5a326caeb96bd);
  Dbl 0x2f8468d2fbec529d866985f62fd30745e017ff07ad391b4442a65cd2108acc98 0x5e002b281b7c65a84b28308ca0e374982ee56a93141fa302906f4a71c2c4b48a (-0xff8d31a1cc9ab440eab11536c17183f6ad3925cc724f4cb7178530f5a1efabc) (-0xced93d189eca51c681d36332b997c8ec3bce27921520f79888f259b9351a2e2) (-0x2284352ef9670379b74ae7a9758f6ba61248c2b60f69d9b5f4af47688136f582);
  Plus 0x3146d0739e8ccdb791d1e18bf5a582279e681140a68daf03bab5fb225435c7ad 0x4f702fba29cb6457d67817e93b1856ef2aac087d05ebe53b074db902a3fca33b 0x1175268affcdeca27da4380e31ede6eb72b0ebf35ed9159905e9aeacb2637a9 0x1f4c6dcee85fa00457969643ed275d368988173079062bfc7c268eedb7971b63 0xf9cd04b751ee130b98d3d2f344936308b1fabc99906f7f42a9e73492f0d2295 0x5c407754950a41ceebd08bc190c8b43ce5717b93ddb5d35871db2fd89d17e6af 0x7f1c0dc57f27c91255ce7d412aa2c73fe8c61ddcee1f1277efaeea725b00e38 (-0x4d7b1c9a26fd693830aab1f1554240710b1fcacd254a8fc9801496b97c09db94);
  Dbl 0x59a5ab382cac023b88ba9da2ba28589d068e2400603c059e43b9b7478a4e2ae1 0x26b8d744a17e32d0bf1a58e4fb991bb3c1b7ed77e0decdc8242f0e54db9df440 (-0x324b400dc3071b1495ec495dd5fe7499da299d13b896bd4f044a0cc67cb51578) 0x13d7ca70eafe0f9baf3d24e2ec1277b742443d62396c05be19a8825ff3893246 (-0xc4e70518530fb4e55accee1082aaabd00e73e58dca406c8387d7118434f7cea6);
  Dbl 0x2fc47dc3372a253dbf8c17cb674f386631f377fb31eeffc7293563ad5c34e77d 0x5538a5f75d80c2b8dc965c6952fbb257ba7d1e9291760f370ab5204ab9a4e6e3 (-0x14daf9a35172a2f3a9f846d2b0b7d9924b17dbcf25e0565338dd0b33700ce846e) (-0x15f8aa414185175b9c860717f37c8c4d696deb1da5794704c9deabbd291bbffb) (-0x1ab32e9865982efe79e57a7065fc2b701ecd5d207627432badd4a52e2e96f07da)] = Some (0x31e7c6a0cf043aa4ec554f785ea74fe3cf087a83a629a8a34, 0x2fc47dc3372a253dbf8c17cb674f386631f377fb31eeffc7293563ad5c34e77d, 0x5538a5f75d80c2b8dc965c6952fbb257ba7d1e9291760f370ab5204ab9a4e6e3).
Proof. vm_compute. reflexivity. Qed.
Lemma forge_13 : run (0x31e7c6a0cf043aa4ec554f785ea74fe3cf087a83a629a8a34, 0x2fc47dc3372a253dbf8c17cb674f386631f377fb31eeffc7293563ad5c34e77d, 0x5538a5f75d80c2b8dc965c6952fbb257ba7d1e9291760f370ab5204ab9a4e6e3) [
  Minus 0x5b52fb130dc1f783f43a53d4954e7537e9a82e939eca08cf5e08296bc92b6364 0x3e06acabe24ea51220107b03337f825a5a6f942ea7bbe5b5fa3b39b0adabe830 (-0xfd3bed6e9898cbb42f825d97ad46fa8749236ab23b4252e85f7b7a335bd4d1) 0x1f76a3615b807f1fba9acfa7dc634b0d1fab7259ab3360d2ba871a5b2e0dbd44 0x65e2efee5e7d4abd3b672be93e95566630472cf674a6656c3cfd4637c3007d5 0x7db5ab8c1361db04b5bd19a44ef77bf2043ac4e3535c99171d666aac7287001 0x24f154782bebc753e34f8410d659858ce4677b4d1130e799608ce897ef65dc24 (-0x4e73ba60e8d12c3ea3eab1a7be33cf3226488d1e124ae5953ba01efec41b7389);
  Dbl 0x299c1afb502c232f653c3a02e7d617177827cc27c9d498d9db6ec6ee72a3430f 0x2edcfef6f37afc084baaa2dc525a415476f5bf8cf1609b9fc22b74128bedce3a (-0x14685e0682e0eb5d9fd9c30aff731ddab974503edd285e7d8b086a3a772a75fee) (-0x45524505d6a87f14174604ccd4acd24aa3f145d6dc4172dc8e975633524f3f3e) (-0x1a8e24bbf2605812968f0583ba4a11c68e1ef3b4258f1e10f5ae029200ef6e1a8);
  Dbl 0x13c6e3ddb079738adc167f5f56eecb41d2d876d0158a9f2fc2ab49b6250a7632 0x65130286cbbc1d597108c458bbbdb0aea0ec007c43b6adf2ac4f75572db38b01 (-0x37baec996f93a49c0c4f793632c549f1a946451a30ca541aa4b6067465a8d477) (-0x180063d77467042b05fc5cb7f21cc91d440137133652c81ddf4ccd2171482240) (-0x8ee20b0d85109bbf745267f564a8a527e4d7fd8aeb39008f5cbe526acb1cdabd);
  Minus 0x5c47ada54a780ce2ffc1cbabb791230433f28a1ba2a0c66fbcee3d9d0e550955 0x4e411bb0d2a4e62b69aa0a1206413f0839fd0d03ec9929175a312339a66252a0 (-0x12c574dbc782f9cbe9df1b5f096d2124122f5a0b3cafa042fdd13e86c5efee2) 0xd06d078b865888f1a73d1ac45cc6dfdff80e37809487791c7a70c586135d385 0x805086e29a0f4445c4cf6d31198782cd9ce652fa3897365fefd3680c2229f90 0x4f10136ec817f2dcb0f7956928c915a3d9e263bfc9a7fba492473ff900c367a0 0x3f990dcd7941ef25b8e8fa04a9231c8409979ea9d28a4ef3aa7510ac037731b8 (-0x775bf4fa756716f84684e3553756a37ccb1041ed1844f3235e802f9f1cac4d63);
  Dbl 0x169aadd4528d29937609f9affaae5d5a448288a46de7e67a4c01998b64182a9f 0x54222bf97620ee4d4a02d50b409192ef7c96156870636e40f15ed7ecab78fc09 (-0x13a747bbbdf415c11bd5982493d7f86f46f46cdd450b0f49111419d1bf53b48d9) (-0x669df02d966681d694c4185c390ad694a2c7988141d876af50fce47ac99b6e7c) (-0x1f5db8c66007f98f6b09fe070b535a0224ab355f0a9cd9549d07cd98d7b4a16a7);
  Dbl 0x39d47e9afdc74283c21a9958603903b9c09c6b8257562c4490ab3ff7b3284378 0x4a385009d9c50c763567b0a7dcc22a50f0d9aad733a7c1d8922d56e23d8c8286 0x27057cfff36ee271601c904e74cdb4df29fe5bd52102398f11e70b2dd99db336 (-0xffe69555e9aa85bc1f9a028ff6f6a1863325720835596da29349cf6b960b4de) (-0x68ad753eaf0f63037132d627baa3749ca3c40fcfd4ec58e12e9f201efc42380e);
  Minus 0x35767bd6abccdc34ace263cf70e6f1b1e1df8626c984b7de7c01fc12fea1a8d5 0x5e0d3fe4f4a304828fb490b58c1cb6f768433ff83b5f40c40aa9db734e9fe5c1 (-0xdc8b37a9c42c127261706c4aa38dcb7734a19b435e492e96aa511284c127eb) 0x26176518c207814aa3bb521cf19f78739c098941170ac1ea75a8c3d7d82340ee 0x6545a9182558c0ee0ad95a82ab7eb984af9e2b02a29e0f3691cc4be56f75fbf 0x5641f5f4899cae77494053f385ed2fa82476108faca54ed94b0e0be04f3339bd 0x1aa61a17770ac423183a4cfc0302190df37403dd59b34bebdd089a3347fe0bfc (-0x5c695109d18e1b24985cb7f9cb32444b649443760f011d8a0454a2247462266d);
  Dbl 0x680fe2650bce045aa6cebae3daa9e83ff406f14b8502e3d1e771aab764143f02 0x303a58750f0460f0248811855fb27fabbc96718ec3163433bf168d90db45f8f4 (-0x2ef962cd8290e994d967ba28f1a3612d38eac81b85dff1d050315a02ee844540) (-0x2ee4163a88d4a487c3bce38d53b5fd62d9744efe354110c24f7046aa667191e2) (-0xda0d8d5726fb03e0a39cf2cc9c10c566ce62878ec0f93a4d13f982b963977406);
  Dbl 0x2e8f4dc7b5931090d10d5a22f22b472743f1ded4fba24b8f7e826c84309eaf8f 0x430c7d4680704b794d37ad644ffe7d6f0660b62ed2a1a8290e5dd7f458416fb1 (-0x1befd06331cc873c7591d139c056c0e9bb772d74b7d7cbe900109b1f6bb862401) (-0x4b2768d3425a674294f48251939023b75a90f00f90c9d8b6b8d8f367c46422fd) (-0x1f792d360e6d98cdff6a0ba7a393b4b6ce1315e83f0c1b9524c0e4d79abe41eaf);
  Minus 0x2b9a7c4454444d8fcce20568e80ad176bc4ec47d11e822f4914aa19b5d687b8d 0x6d2357bd41ef9df0ec111ecefe668a2982e96a3e5c6f45af90e01f06a7ae22f1 (-0xc73c16c653607ac2119807635c6e4d60187f88df1881c8687318ab57b0673d) 0x1eaafbb5e761cc33dfb6b7a4c47ecfc356544dc4eefcdd8ff73a47845ba24c30 0x2acc43683ff7d359c73f7193dfbe436cbe90e49602ac1b5289ff5c2665666613 0xb1b436da85985c410aaf7cf87a9e52e0d096ff7e79e67be95b8a1894a57032e 0x2768bd616c1274005026b9cd379c5765008f8948688f22f8dbadc2360211b9af (-0x8c19e7707597dff9cf19120285e6fc69ecd48a2fa22fc15cf0223534222d85ae);
  Dbl 0x5cb9ab7e7d2592b33334ca7302b5ccdb7fe28db68573880b1cc67f2c04ad79dc 0x19434202a390e5fb0ae78b8e60036bb8ab5f5f1d71c9c3e1cb82712bf6c2ee2d 0x14be713e431bf9f1d3b91cff4ab46bca44249dde7857ab77044c76eefb437e56 (-0x50abfb5f514ed6573b69457c501cf563a1853d48cd7e31579edb34e8b09a0832) (-0xb922cba2bfdfaec65b17e993d40544ebce779ba7404b136934ac02972e9109ba);
  Dbl 0x7383e24fa0db09ae6a4db3db93e2662e5c15d056c98c7c660cbd92347c198529 0x468f2b0951fe0eaabb8d729f381978ff11595030f8723525996c27cf24fbe197 (-0x16d538c121d8d729449c6807084138d32ee8f54102e4d41e6746476ca32526f88) 0x30399fb03ece1e2ddb0e1e3d692733d42c061cee859bbfb6f8ef42985147ecf1 (-0x1ae7a8bac93cf7f60e7419eba4da9453bfe82c8fce2fb30642b71e9c9bf9c6482);
  Dbl 0x9719809f4c6d917b85fef153fba0232c4cc7bdf189a4c206babbbae9eadf1df 0xd10ffdc1943c98fb4258b84a4708c209cf111ab5fc4df510d4d7c95e9313037 (-0x21492647181b253811523f8c2a36e905f478eedfb134aba38a22fae805209ead9) (-0x8c0f1657ac7f729dac66a26ffae87cf3dcd3070431c533472cafee3ffb04c013) (-0x26b3bae4fde88a358620163701283213c42a348825d43506c6687f656df3436fb);
  Plus 0x6c82030e0eec539b13dad4c1d7e556b439492c2d8d18e33a2602646e0a4bf6fe 0xe1f1160acd704ea6cb26b8b7e1fa5af0444c134a1defbd85132a89bc8a0d8b7 0x26d3a0ed2c39ce0102b351ded46304b3d0d765f62f5138dcfd5881a3c6e374 0x6386a79f94320f606c63a547822f84409c4613134a265002e1d241950ac608f 0x54b57254d1de2db88ce4431d476845d041e9f89a14e729bbcca25ba4be3f52c 0x24621b93fa942ed09e013cd12c757d9492f8c998c058cc4db3cff77c5f88d9c1 0x1130a1fab7854635434a14de882f5d07c1e231bfc78992e1ed4a3018867886be (-0xb644a9d7b04f3eb52ef94b70588c7339ff7364fb08de560cf31248c837a1493);
  Dbl 0x6c424739ea36ebf1f665d097954020f25760ffbe52e7d9a3b4be7d2aa8c658d5 0x33bd9593f312c1fb90f0a22245f2e5dda4ba7623466995b6293bf25ae1639c30 (-0x1fa1777daf571aad6e7d272fe8f5fe93e41720821cb61504775fef068553c3da2) 0x39ff9a18a5f3ddc047a4f33a5272af429e4440f7acef33133c2d1b4b08f143e7 (-0x225e2afa32b8b70bc3d87bd9f8ae427aa9e0711cb99a368f1b21f4f764d540455);
  Dbl 0x5a1d728d0fd207fee2afa514e178eea34f2fb5f6f0db69de51f77733d3deac69 0x27b65e8ac1c72d420a6a22b1684ba6965b6dc2f8a2983244447ef5b35fc9625b (-0x1e2644327deed0c444a147b5aa45ee980eb832502fccec59b6f43f74df79ee9f7) (-0x3ca7bbc8176c242247f58db562f90612a38541109b1974e21c6fd8b3ff1b6a76) (-0x2206ec3e095180037bbe6e39bc47d2b3e2f7eab8a59c7cbfd6bb2ada2e6b0afe5);
  Dbl 0x3a7f435de5948df62ee367d39d12191050aedc1e3841bfe45340fe72330ef899 0x11333430b29c0f346e7a61f5032b107ad34cef069b112de20ca224085786aae0 (-0x150a4bbdc9cffda0a9cab9353aa6e6bace20d79e8da0b1e4188bea0935b342119) (-0xaf5eb2e930a2810789cb1cfe6cd44ff4b1456069393671b88ad5625a7535f51) (-0x17ac826c30ca21f61a48e620b3ba2f864b9a831a84f69c54cdff8c6b64ad8614e);
  Minus 0x2ca58349ba8ecce9a68ebc8e5fffa5a77bf96f895a1adf1e1c88671d9762c42e 0x367c420ffb3e86ea64f495dc40a1074d06931604c83c27a189ec683e7461f6a8 (-0x331c123dcda664179fd7753050c88fddca0c9f87cc62aa56235c0be678b82a) 0x2687e05da3b4f5da856fdc688f36fb46355473ec10513329d523d6dfc7fca999 0x3f743caaf76146245b848b7fca5580cfade3455e6a9616275373448db8ba9975 0x292b42f989c8758bd01fbf12940a666655459f9bb3a9c698c9a60d17d16cfe82 0x1f5179269ae362bdf8161531ea7b888d2f5ca49706aaa2009348b658e1c8a5f4 (-0x2e2779e0f93c7a3066bc94380045498b33e2898ed020837d0b0efcabecc1daf0);
  Dbl 0x65f5c0ed5ae180b59890268c2321cd8ab18d9237b2a2913a08fe83325abe8e2d 0x11a07860cf470dc82051a94cba7961e0dd194d367759f2e32a0ef100fa4df728 (-0x3c5d34ebffdd7c09c85cf4f4fce737cfa0f2d7ca4a47a0fb83910f7a1911aef2) 0x2ee01b3d9fcf049499731b5a62eb32438b20d08240aee797f6e4af5d89800da6 (-0x7ef044b41b5b0e13514caba0d4dd57d2171eaf3c3a67b579f714ba16161e85f4);
  Dbl 0xc13f300e619efd52866c19b4f95db69b26e9c41f04bed1676dd0ddca5fa2ff2 0x2b4b3031f069b995f17b7403f283941712de9ccf780f164de44ab8b30c1bde5a (-0x1bdb17971c6fdd857f44d2631b4172cefbbd52328a0388b2f6f0090aef2060258) (-0x1923282e66f370538ddf3dd8b0f1e323646e842ae376e2432b4c82674e1b9aaa) (-0x1d816f4687e968257409aa1b2b82a1d0badfc2b199ca79306624abb1b2355ecf7)] = Some (0xc79f1a833c10ea93b1553de17a9d3f8f3c21ea0e98a6a28cab1c, 0xc13f300e619efd52866c19b4f95db69b26e9c41f04bed1676dd0ddca5fa2ff2, 0x2b4b3031f069b995f17b7403f283941712de9ccf780f164de44ab8b30c1bde5a).
Proof. vm_compute. reflexivity. Qed.
Lemma forge_14 : run (0xc79f1a833c10ea93b1553de17a9d3f8f3c21ea0e98a6a28cab1c, 0xc13f300e619efd52866c19b4f95db69b26e9c41f04bed1676dd0ddca5fa2ff2, 0x2b4b3031f069b995f17b7403f283941712de9ccf780f164de44ab8b30c1bde5a) [
  Dbl 0x53ee22e4b8ee9352ef0f686bffaef346c9218befa592b7658e8384c2afe58018 0x4b6d423f230dd0a108d48e1a64d3f4df292240461abcb59a1aed1ce2b90c033a 0x9e060a41cbc7eccb27ac296e18246be63cb4179e9eeb2e5fb919393e5801a33 0x2e32054e767df50dcd393189d4b6e2e8e849814f987e1cb8531606d7377a7890 (-0x4814fbb89c20ea52db33c424295083abfe40792b9520d359288dc4421e9b1996);
  Dbl 0x52e4f197051354cbe578a4af0f78f771daaa7013034f046a17130ad195b35b21 0x13b0b4974c0e5b4ea748f1c2256043db45b9d9fdab508d8da7115b1d3d57cafa (-0xfebed1842ebba7159fa5adc46a36c6edcd2f9b112969f5f1e9ce25919bcccb1c) (-0x22ab44746a736e5d0ba918a8327b4fddb164a1dcb6f703a7313181ebaea751e0) (-0x1729a62334ea71945e2382bc72cf189dab5a84596fe984545bbffd954edbae870);
  Minus 0x43ee6a4cdb46159bdc65072e29e4a102dd05c7ab075b509d832ef74aff83c2e 0x17b38ee755280a80b0c7ee75ce72d806c997bc33ad93bd56921f570a551d564a (-0x3a82666a2e9303bf04541652e0a52d0818f5910fdf5d4680ed58d94d69ee0b) 0x3699c4d1e35124771d495628e4771da487eaabaec4a24d9cf61e31eab54dfddf 0x15d17be80ab00d6b449e3225cfd769ea4c8ffc0b1838be61f8aa8248284d13bd 0x477e6106fbe03426873f2b2542d903535df7672b0f80b7ef6e24245b004c579 0x7ce132fd9447ab262332e7cc185a4522044d8df0cd7469fd9803440941fbff (-0xae1bcc5807edec72dd38f8b7bc02856ba9b759f1c86cb570e5deebc6e1b8164);
  Dbl 0x35a1ee62d6c6e159174bf7c6bc8f85f9bf4819ef6dd6497277849ab370eeb191 0x60d4f72a57efa46c276bdab739e0ecefcd8f8373bb216bc6a0c4fd1694b0dc36 0x411794153437bd475321c662ffd0ac5eeecc5d4147c5bda5f4a1b7dfba215b7 0x2fe718a287d9086dfef64c5640d39a8261d30987584a46ab089062f1c872a6d1 (-0x5f3e95083ed4cc13b3d092b49c5674cec0eb8591c08d621c6a1631c8f9f2b112);
  Dbl 0x31893eaf10807282d962f3b1654f15b4deae14c636f470f3da4b42a543a281a4 0x1c1bf361de81c323c9d00c09d62c70deb0ac37f693a979609075110ec7f1edfd (-0x2b2e2f1950d23f2c81ec182b41e2959e1dd6467666db937566380dfb561b914d) (-0x4b1a59c6ef77cc26fa7864c224d2f1b4c2a8f0256a89974ea5b418d6dfa3ed7c) (-0xd52aa602a451993d4357a13636afcc653d4eccc3f96e08f3af908ee5c22b73eb);
  Dbl 0x696c63a327134f1fa50ddd0ac5392aeceddedcadcb00ece2e67d62a1d5a8f2dc 0x2f5219496d026be3009dcd669d742d79eca87d2cb3eacd8599fb069c412a905d (-0x6304a3c4bf40b2a88cbc2a0d11c92cc8c3d82faf7249fccffd40f56ec2b06703) 0x1604493fb8e8ffb4d7bbecfc7ef3d60ed344e3bf65cea6a89898d0bbeb8a5f68 (-0x8550863bef482e5660e7ad4cf0b8b0687ea4d3adebdfaae6274d360941038deb);
  Dbl 0x67a4fdd93b77659195406dd5a73fade7e6dd468ad7e63cbc4cfb59ff0144cc2f 0x3b3bfd7c95fc16047810294ec993ced9686481b99fd848661089ce5ad611cb12 (-0x1cc093a822fb9723069e7c09c68451ddfab0679b5b5e77bb32692c1cf2959183a) (-0x132eb64de7bee6a537a166d1c35d926f77dc769beccd12cbae82371d584526fb) (-0x218e467db9846c2421cacd2590e984196f64cd67169894932dc54fe1cc11dfa8b);
  Dbl 0x5ecf7f1165cb99923cc69b0871487114e3bdbb136a24b22a247e1852abc509b8 0x1c2de810a4c67c6954998da4a927a0c43c72b2739476f920fbb7466c79df2c20 (-0x1b10b8f525fc5d1aed4b42bacee81edad9a54968844495e8f64a1816101dc6199) (-0x46b6733a77a6de4d5fa9486c699655d97085a75a5dc8015bbb86095d1658dc5c) (-0x1f80a591e83647e96b60dcc930694f802d419b660f05ca95b67282a8ee14cff29);
  Plus 0x3c5aed51a45195eefd941ae5cfed24b28483390e2c4975d6da5a92aeac643c6d 0x61f118144393719ed5575421ca21e2d7497f39b19eba52febacc9cb3bee9e8a 0x53bc0af741e0879ca8f92c3d49b9fcfe82566211a9ef63fbf3d11fb67061fa 0x3e7319cb0e0358955f35cf19bc95220540bbdc308d592540df57be7e1c0e5850 0x3bef5a6dac23ae48e442281b2ca5cbc3d46cf5173c05ff79b60972cb09d8b56 0x2bb323b18726380045d2b64b075c93b8b0985113f600e3a6b31d804069db4d0f 0x24363845b30a4b890bf0eb87f65fd13a7407175a6563c573ebfe19968040174a (-0x1bbc7d9b256316f48701d3cfcab2f9e50a8925cf4951d10f17ee77399de5ac1c);
  Dbl 0x717b7b1262c2d61f87c4483d502db0155137957f79367a85d9959a6791d6d66e 0x95324105a92cdfbb48156450d9275f5b82e2684c2e7cc925e8248683840106f (-0x9cc9f1e79c677e09b2efaf3152a20d1a8601fea1fdca0ad8c4723b91d150d430) (-0xbd3a07269cac358bc71d5f2b4e32f8ac8b689be356db98f4173675f5092982) (-0x9de5f6eda14573447e39a589380d1a11f3ccdead725964b31a889806bb22161c);
  Dbl 0x4d21ba6d7876286de675afae7a39a13b00efc23cc7a174da8a7307d8dfa1ad74 0x3a2583326f5e9aab705ed92bce88cb3ae723f58042a8871feaa44beebd9d2e2f (-0x22ab09636d103e8f67d53b3a1478e6c90e8357a7fcd0f7c9fed150355bf73529d) 0x1c501d9c7b318c885547b86a3131ade6985f103074ff7a4f95299d18b307f6a4 (-0x24f4bdfa3fac5efdcd13080c6a5a29a5971ac70905b47f6080fbe9f79e0c0f98d);
  Dbl 0x62b56c7c9e2ebc891b14dc1d711475107c87a4ebf7d81ffee04c7800e85df1fb 0x4128fc38194f8937a19f0eb8efb650955b58099e1a8b9a3141fcd93cb6673d7e (-0xe36def7e9dd8b6d257a5d350d3aa203296787011fb4de6986a29b5d720fce8fe) (-0x27a03d007a4057dcb11e743ff2af87db91a4085a2d2c987bef7da43e4fb234a3) (-0x136ad79e5699d8c73c961e6d409e8fa95c74d357cb9e71717751c94510eea4d57);
  Plus 0x58e473ec72794063029cf60c40e7fd7dc7b0888f4d35229cdfaa5c45e3c552ef 0x248600894d0b139e186649e49152d1d8dc0228a221a5da8e22587c8b9046d068 0xc19f5ca16a9f7fdcebfe6cabc63851464285fe3c6a5001e6e4977ba2e40ba0 0x410469e13ce03faa680ed4e2eed37f5e6595f6e619d33090380f31f3351f4ac6 0x479a6767681a3b36811ddaae93158695892dc59eea2584718c6608894905d5f 0x54caa23a45c486f53ca78fb1efcecb9513466439facc3a0f57de31174bca5384 0x13923837630f0bee3398517c2e0c7a1ff4b7e60667a6cbd91e608947dd5e5991 (-0x38b084c474911248d6676fb3f559df282e837ff71a0f0e7c964c97ca2bceafaa);
  Dbl 0x22e3e38885120ea475396eede7b63fb39be48f011ae6e5335eb386aa3629b76e 0xd4f6aa28a6509ba70ada7859d3360f2300a98f39047e89575b474d22edd4b5d (-0x1494d13ecce4b5d4c06e6492ae6cd7b8c793c6fb138a7c2925e58de078f753ddd) (-0x35277b2b032bdd3f237af7190586d5b5787d31e19f89bbd4b2a9e71b141ac6a0) (-0x1616796e7261da01b2ea8ec17da092997ba42e405ceebfc2a265ff88c660e4ec3);
  Dbl 0x2753ce97d37bd0eb25b15ab4fda6ccf9a1bace3b556e227c9e2cbe9efe0a22d1 0x38cff5b5bcddb2be1e070b17bc426b7b091359cbe96e70719b43eaafb0b473e4 (-0x32f9a3e1546592cd43cf009fe87d88eb5fbb7ef2a55040149b10c46b8186c774) 0x1ae223d5b2ea240fcefe9db416c072b4da1c285aff3b9d47b40f239b41e2fc4d (-0x6870ebef232b32389c02de24a3f93c3c92fa4010be336d5812ddbaab796e4ad9);
  Dbl 0x47094a0ccf4ec985870b863fab21211a418127ff1b47cba79ddc40d537a0c373 0x6ec5bfb8f6b2727c6878b3ba5c5f75b1c357ecec60668c514af6264dcb00278b (-0x26dd784e2304ef89a3f1977011ba203015c0c35bce6e9cabefb3a77000ffefd1) 0x1c3b1aa024ccc065d798a9bc961ccdb53218894ecb7e3f27a01e1d405f57a92c (-0xc6adc3a45a03ae7061301a51b51b914a939fc25f6416ff2e3bf2f48580960a33);
  Minus 0x31d94a46b1dbe2ebedc2002c83ee3412da4a5a98b679b8469537c8bd9f9f7765 0x639989dd8502b35746a526f288cc414a5979285db7c83713cdcc7091ac07f13c (-0x14928bc2e7b4fd1be24a87b8f0e25ee2061976a74a20c0143f1d0b352f3d3ad) 0x2eca4000f4cc18cbe45a095532e4d592a43a5fb3bf4f05c87374f8a875b2f02a 0x1a2d5dcf7ab8f95bb7632a4ef1031087de24b53b0e13249128e0e93a84e58517 0x2146b17598526c2c7c6ca88ab2002eb86bb23d45e0ed505810d2a6e449b60441 0x112cee972ea7ea9426c8b15b2c76e74bc53188432faafd960c2d8e18e8e721e8 (-0x6728718d2a21d521fad6eef4f7345ea2302c68bf6998587719ccdca68e02ccf9);
  Dbl 0xa034c600782394613888ef9bb78f03745cb17cdbbdb9dbb383050586c5a2eb3 0x13900166c3de3df07792e202416f188f63473249f96c91bd3802ea10ff50ba2d (-0x159a5c9876e92a649cbffb454974a0c99dee1cbd9a157a9e8c62499bd0bc6905) (-0x4fdf89cc99314d5dacb32e839c6cfdd480b20523f6e77e85e78859f106b90f50) (-0xcc0a9d5aaa5e9e325e190e12801f37f30cbf68159a635c16fc8e6f08063921eb);
  Dbl 0x5068a0f576f7424ffbea824f5a0bbde7e6e1b55ca2e9cc8bc09822b12bff36a9 0x4faf8b0289f0aa593a1058c584701afc9bebad6ad849c5b270447bed7bae318c (-0x105e4a30510b165fb022008952c0ea043170ca1e677ef042874f747fb229092) 0xefe75dfc0fe8583fe88c5e104ad18097a11dc700433f13bec0576a28bdd75f0 (-0x19d55394b9c055d5911c61f5c8026a889f33616458cc244b84495dcb909a93c6);
  Dbl 0x687d3add27eda169d37d295a8862f9ffd93d7e50959d783b684e0627998cccee 0x54961b25a5f569b9777d0770f6e81e6a6456baa1d0cf1e572538f4cb9c953f25 (-0xe0162bbdd7e67ef3975daf4424c16f49e723218660bdc72d0930e2cc26a40c9b) (-0x2ccf5ffefd6d5e42407909a9af7893dbed70e25f792146689f8eeede53dda0e4) (-0x182d838e544a44306acb00b6bc2fbe4d566b6fee9c4598af9ddf18496de558989)] = Some (0xc79f1a833c10ea93b1553de17a9d3f8f3c21ea0e98a6a28cab1bc238, 0x687d3add27eda169d37d295a8862f9ffd93d7e50959d783b684e0627998cccee, 0x54961b25a5f569b9777d0770f6e81e6a6456baa1d0cf1e572538f4cb9c953f25).
Proof. vm_compute. reflexivity. Qed.
Lemma forge_15 : run (0xc79f1a833c10ea93b1553de17a9d3f8f3c21ea0e98a6a28cab1bc238, 0x687d3add27eda169d37d295a8862f9ffd93d7e50959d783b684e0627998cccee, 0x54961b25a5f569b9777d0770f6e81e6a6456baa1d0cf1e572538f4cb9c953f25) [
  Plus 0x66034231319a066792581ed36a6e8b0776004bdc50822613a2a2f5f861f508bf 0x545341ddb45317c9fcbf72b645f8d4f192cff88e22a842569154abf75da58262 0xfb58ef589e0dbf0cede2290b2a250cc58e87634785396a53553ab4fe41e387 0x44d3211dbbb9bba0ac1d755fce99aee0994a1501d416ef6d63d2a5eef8204a06 0x1717e54b61f0db0f72e2e5a29b2ae616f4983e22dd86010a1220e53b1572dd97 0x4e35584e8f85dfe5f3025eb9b2ed48f13b8316686fa4f6049923a150549a0af2 0x29afe5089954c4b1c8138ee11c4fc85a1ed9f190f3acf61d4311ac4294b29d9 (-0x3feedf4029c22b53c1279565ddbeadeca80a83427004741d0b42810fee43933f);
  Dbl 0x4c15633286a5d14f7788b0eaa0500ed01cfb0dd0b378976faa68aa7deb683b5e 0x43053f5d60b5971a3f18fb973ba9fbbd5b75e3fadfc6c708b27edbbcd82eb053 (-0x183800653a46d121707adba49c1f0fbfdaf3a129b05218f61d9cab81441f16684) (-0x937b5052238fe5f02d5c1c3bcca6a7c5a6dcfefebabe659be00c6c8d9cea6322) (-0x1fefd465e1279a9a186fea37d68677cdb8bb5cdeee5906d240a587e0d0a3140dc);
  Dbl 0x61152b114f013b0b5b1a80f4a986ebc15e29075ff6a1de4d803d52f958ab8141 0x5cf35224f016c2adaecae413dff5cc97020045eaeb2553bfeb7ddbe1d2498580 (-0xd2ebe97cf64d0bd9c9a66a342af4d3de512618159a93fd7c20d0be4364e37a72) (-0x25be257361b486f03fdfd47a34bbab345efc93c61dc9fe8801905a1fbbfde16d) (-0x15080e6272eb031965075b1c92c6d0bde28d96cc0bea841d674620cd1413646fd);
  Dbl 0x1e90e290617ab23f3bb738466636acd3b9e63f01625109823a11b3432106e56e 0x15768b726db40083a4e5d5d674e385d4da5994074542e722417efe358159d634 (-0x14bf9ea5a6d66e4dbcbb4e8908c973cf8a970a205d582caef12ea6e79819ad6d2) (-0x8e113c5a67f7cbb91b419c99aefc4eee804745ed2547532e961d8cd6ca2edcea) (-0x1ea96d110a0484bd5802054c449d7a473b924fbc3fb5196afb5fe08bc958aa5c1);
  Dbl 0x616d98f8c74cede475e53d2805a8172b1ea71530240579aa45579715c419099b 0x6124ccb81e3c7cd217bbef70dbd5f391329909b773ca85a1876416b342c00b72 (-0x24526152f861fb61c382edabab6c9367fa72a55db701d7730f37803843837621) 0x491274d1c8b6fa0ecadcbe8c19eed6aff441df46b06be6a8779ad09c852db89f (-0x8069b872623381fae55c2714425c1c735ecd1737b88354af3d97b5071f29846a);
  Plus 0x58d84e747fa2ed0bef8d616595a44b3a926da71c0b7e9284dca1a27438fc359 0x1e33866bcd944126d0981f0c4766a74566d2b144b3dde9b19de71628549df739 0x120a95c7e13a71947a2b06e8e33860ee8d7a6a870ef8e73c6aaf4c4d50a2d95 0x402c7b4e7ad46a1415743a36e6445edfecabb85ce9adb6cda6e058d6a7762861 0x2825e64c1ccb0c067abceaf7f83dd6533eccea61d2c7118b770ad179bec21d30 0xa233a64b8e4054d4843b69e73d7a194cab5ee8564c2b3c4734b41226444544a 0x2969006d539c55dca83540dfa5d4b6ddb82afadb60bab0ea394ff715f9287e4 (-0x53b7aff37c8f622b8f4adc1e868b87e1190c48fd06496b8ec93686a1db21d9e3);
  Dbl 0x2b172528f5fb77ca34e2ddd57b16ff2348e0700d75fa2d2ec7c229c4245d6a55 0x5946e6df301effdefcbef2c17c14fce2f562765282141f7cbbd5c9ebc5f8e976 0x689bf57d132810130f2536a79555814a89aede86915cdf96aa49c96e598b46a 0x183248a6390034eaacd0c9814a267ae1bd134066d90735a91cf3ff5f1f15f9d8 (-0x4152cfda71ee58e1f47f7f815749550f63c1069d4c7abaf882d7c8bbc33d63c6);
  Dbl 0x6b44221d9679709b69f4c18c7ce4f1677b402b720210ceabc78a1920cc730c50 0x2fb303eadb47a878c4430102832575d65c3dc0cdf8a44882ab69252a2476cf91 (-0xb54a49d79e68b8abf90a2defe4d450e48015b3754d285a1735f3164628f2b19) 0x7f67f98ecf1d138402d901b19e3abb2ef18ed9a617de1dcbe2ea3748d9da4 (-0xb25cc85b359747a0e27c7e7efad3b9e68e6522b862d439397cf797d1103426bf);
  Minus 0xd757a1c450dde039287fb9c210103f10573d052f5b7f128bc09ad6b73ebe2f5 0x47acec54832edc86e174611d64f91a6f029c206daf4d1ffbb12dcb406d4b679 (-0x8dbce55ec1714b6438b3b3018772b368cdabf0e04141d9f80c5e8aa9dc0d78) 0x46a762c019b19a1485a7813201c83f66635131c9928142223ad0bc7eb103da1a 0x14060734a3d64d143c0eb737689e2ab6a6f4fb9611369b5e95baf08a2f52fee7 0xc0bc0564e73e48cd3c441d8327dff3528217dd9b04c74d912d085cd930f0ee5 0x6688df76af9ebf8d76dcc29ef5db0733b40ac5c9438fceb63eee25ff6f1c4a9 (-0x1b5379cc74e5f99266a40325ae62cd5b4855880730d9530683dc37b652423784);
  Dbl 0xd2e4ee30f1387afaf001ae24e94ab8bb67d6f424f7845adb4fbe4107cfe4f4b 0x2f70d231c97ff7ed9ac4cc315df57a0eadcdf7d97a4beef43cfc90cba17ee019 (-0x7a3ba218f5289b8b12bfec7cf7316b2bf6963aa0d381ae1c6b6f39c2d064ab2) 0xaaa8215a6801ee7ee2b63a17281c53969488fc76a2fa65751ee2b6a79b356a8 (-0x321e693f20aa19477dbf39a85bcd7be87a46c18f64185c8a84f7b2a3ffbc8972);
  Dbl 0x28fe0d9b363455937288fcda61d86152e4615737a58e96c55cc2d4fc7148c7b8 0x46ffa12320aba5283eaaf037b1d93630bc1d48acc8b373bf1cf6237fe0062ad7 0xbebafccbe03ccd33f995e9cc63174b859388a26dd0ae8192848a9c9f126846a 0x3ede73c40fca25d5750e23b3b035917bb071cdc42040655a4d202925583978a (-0x3465b08d10162cee2f52af108c6c35cb53866f4f26e793ad5d61bed0f83a45e6);
  Plus 0x5c675dfed812f885aad72c45909f5ba09ecc7f8de4664584b5072e275d67ff39 0x4784627696d000f01e0965445575103e4cddda64cbee46f2a4825f8bdd2f42ae 0xd2f8ae3303e4583a378471903164adec9751793b9e727fa73d3206025f7349 0x1b0033b48420bdf1c392855321579bf315a2654956ce57ef13651ddafedab716 0xbd1a4dadff5675fb13210757aea3f7fc3cfdac005d88558f43be0c48a33f399 0xabb9a2e2bde70beb2eb806fb2ff71161b28220c1ce9b237070c74e93a8508d6 0x91e25dc5c22db1d45f10eafebdfb64f1d748caa7c39c8576c39f8de6cd28495 (-0x383379653d71cf85cea2eb1709aadfa3508e02406d958c7d0816bacd33124ded);
  Dbl 0xa6d8f43ae39690502f41bf2872d6d78d7536f45cf2983f7dfa6e98d93e17b99 0x6a5d81f9ac99c0bca9c5a7b45ee4b1b625c9a10ff3bbb227e23eb85cb9b9d794 (-0x144251f8d60a2bc084bea66b776a420476cfa43029951be8664a398d42002a0fd) (-0x696a7e0a26cfb8d6126cb6f3983b141dc5892c9b2f537984b06fc2184c63b690) (-0x1f4091ade88621262b38534b47f150b0560e671717869a8572ea89f0293108281);
  Dbl 0x28990377af832c075d3c17521e81ab7ef4d9e3e9efd8e231097843d88819994a 0x5feb9dd93382a013a9b27c0d81197e301715924c97f0dc0dc4719db6709e4c38 0x5ce6a740800eefa5d64330945296196665b58ad428c04190093e279951c2f273 0x674958280bc3ba8f41d8f1a4830515182793a84a551b99a2fb77fdb98c58228 (-0xa2beb0ea7636cbdf7dedde685b9fa5f117a25fd609f777b51a24a6dc5b727715);
  Dbl 0x27059b4595c4f7daccbaf5d2a6274d62be25fe654e912943701eb3288232ad5b 0x66a5346d8dd43ea0d9e5b6efb2b5e6b090a3f58970f05a16052e07b63f8ebb07 0x84798baaeced912b8fd3bd4b563f56926c4712bf02dc6ac1eaa628c2d31317d (-0x3a057282cd9f8ffdbdf8f323132977349fa1c61c93f9d37ad7dc74e0a2bbcacb) (-0xae8c5c556fde5142f19aed954fb9400ade6cf354f6c2eb1c698f126fe470accf);
  Dbl 0x1d873341365a4f165d1d25c5a6c8d4cc8067a122012706e836ee7559956001fc 0x1b61b0dea31aa42b65ed53b19db2d5f4b7a4e2b024c27c642968b9362267acff 0x1935aff87edc3be5c721b9698926d339fc0212880c8a8448009793a042fe6dc7 (-0x2f8644ac1a66bb2ea8588c5858f6852b845fe155778f3cb1334296003b93e5ae) (-0xb091432223cda4b2e163ec98cd020c6885aa73aae37d6810e9cd839a9ec42c43);
  Dbl 0x418fdddfb1b3bc965aab51f0c5eb35d83dac590b5318c75239870b43cca91080 0x36aefaf41f6e33f3d8e844b091c70bbede5fcbf8432cca38f110e852dffc1b68 (-0x1f2360938f2a9608fdaef8e3858feb949c24a8f897163dc9a5e47ea13199afb5) 0x2293c6edcf2390d7d8eda9abae7fcb7f002f325f99cd26793a0d27b3a1c87ef8 (-0x548c158e9d12ffa15f626995a0d4b8399d8465b171c20924ad93b5da40ea12f1);
  Dbl 0x2b24a8b4d96794c90e7619549ccd64dbfb9afaec1833594192ae631d46511baa 0x31eb21f0ee10cb453f6114b75348b967dcbe10bfdc682c57e6c1c22380db06df (-0x9f984fb6902a53bd86eae6afa4064db38021a29ce2623f8b56f1e8207a3a5c7e) (-0x1b45716c0c2707fa9cf394160449869ef78773e259bea991ace33b127fe003d4) (-0xfb31aea8ac4e36ce3dc16739c4e29dd75006e8b143b96659d917eebd73b47004);
  Minus 0x63c6c1bf2e30d75c3a9db8f0ad247f4e187bf2e6352e59fb18814337a088423a 0x64e1760b00f7b5bcd7e3797570da6db9b01fb8c1784d46b017c1444699d3f207 (-0x94550cd6803d27a035a0758b1822e90b6c7e286d0e674a6b2ab2712cffe8cc) 0x1c6adfbaa20c4c3eb18f598dc95a8d2da7f6ad0b9be625121d1bb08dd7f36c62 0x3826be34f307dcd7fdba607c112ffac0e683e081f4b9d5307ab46dd7c7ecc8cf 0x4b5b7e9fcdc5f8c1db8f788296dab5f87c754a4bec77df2d1f635297d6e10e22 0x3ef1075cbb6d026c33fe12f63b8b9b016196c244c04da0890f63154f9bf0e9d4 (-0x5e03b3a5e876c2c8fec72a302cfd8b5cca6266f482f4e23a1c6d4ab9b3ddc939);
  Dbl 0x556668523a13223fa2af211dc804e7c6d3fc021c8f26e2eb1f0af10ddd4faec3 0x1d700896f7af7644b8e77947a2b9f81bcbfe48ff94fd692d5cb7ef7a700282ce (-0x15596867e471eb908d62f5775b4dd47eba4cfcdd0f833af67bebda17397196f76) (-0xa3073877c4400f0c8c003bf396e48a17142c33eef4879e15247a0498068b0113) (-0x208d27699440fcb16662724e26bf74acbbc64b17883f03dee33444e00ca4537d3)] = Some (0x63cf8d419e087549d8aa9ef0bd4e9fc79e10f5074c535146558de11c867e, 0x556668523a13223fa2af211dc804e7c6d3fc021c8f26e2eb1f0af10ddd4faec3, 0x1d700896f7af7644b8e77947a2b9f81bcbfe48ff94fd692d5cb7ef7a700282ce).
Proof. vm_compute. reflexivity. Qed.
Lemma forge_16 : run (0x63cf8d419e087549d8aa9ef0bd4e9fc79e10f5074c535146558de11c867e, 0x556668523a13223fa2af211dc804e7c6d3fc021c8f26e2eb1f0af10ddd4faec3, 0x1d700896f7af7644b8e77947a2b9f81bcbfe48ff94fd692d5cb7ef7a700282ce) [
  Dbl 0x3b77ad78bb5147b77c5930111db6c2349eb63298c9b4bc25f82b6e2a35c8a1e1 0x58c9aea648ab141ababe93a3d8f8efc5dc2dfa914d7a7312214da6c3fa73b106 (-0x133146e6e1ce6b9c58837863d8236f36b2469a5d20542fc313286ead4d8a1faee) (-0x6fa8e2d01502e638709af13049ad239974add997e8c910784c393451ac8566f) (-0x1785d9bd4bcd3cf43b18bfb66bec1052e56954afb184fb465ac0e06bf81568f83);
  Plus 0x25ecde82f2191a533b0797e14a86cd18cb04049956f698ecb2a0ba196537f994 0x624149f5c279812789a79d93471a784c9607f03e5a46c9f2162008a852c04520 0x107d4ff621c894e87a0aba9d9cd7d89a90fa86d80bd3395a4630c2e9ce056c5 0x272b80675c797c99c843de0a81896a28e9e123151981b280d3bf93e40e495a52 0x4b16d8c565e3321317bdc2c225acf6de509fe5c54f910ee58f0b9949cac11cf 0xbf4ca72210e51118bd0b9a1148554cd6385f5e4ff60ea460265dd8e0bcbb476 0x16a6386bd57a53628b9bf972e64c972db9f9c1835f50fe737db61dfb3a3fd1e0 (-0x789cd670c539f11027872d6481a079d2bd8b5a16f1796191be19b59283e65fd2);
  Dbl 0x382dea6fb2ee7d6019eaafc703f79cc1426f5125aa4dec2b1fd37a4d0e08f299 0x2a14066e45b0075960ab8b4cf27489330c36480767344a858c0820c885c64628 0x153dab1a9c72250c8e75c51d3ee6e6de96b305992ac2c3245229b26ce9160d1f (-0x1f9d532f0167baa774a2932e4d36ef4896c0fbaa3e87575b33dc30193a8245d7) (-0xa9c86919a7260e52a416cf391d8ab653b4fcb574fd0110c1ba0b452475990c28);
  Dbl 0x3bd994eb134b3c4e5e6b2e811223f6d2020bc2d49c315e400e5c88384567c632 0x35f94b88132ca5beb9967cdfd171d54fbdaabe509f297641bd68fbf082f5e7b1 (-0x78d9c9f0c40687c7e2e2034a37f0348cb7341a722508532b739cc87b2f16c23f) (-0x1d6d460b63cd7929d71e58a4e7095e692a016058d0ef868d8eab90a93cff0b5c) (-0xa1a339badb2b3566eb552554a4fe5dd9f5a9e9eb8d5b9869360d0bfad400483d);
  Dbl 0x20fed38b0fc8f83b34eb19ce381c9193c1ec556e7ae9c07557768297aa087630 0x43bbc5375bebeaefeb584cdeca8443cb4eb995b1ea8985126895a8975d5683ae (-0x815d0fd158fb28753bb7486be4fcefee17ee7d1ed7dd9c39c65bda3f4337a3de) (-0x37510c722eb7e6b61561425904d95c444af2dab2e0670daa11e525b147485714) (-0xb478453ed158c48bb975f8d7b6afd8796b07c3ee1b140a0fe42b1cf3ade39d93);
  Dbl 0x127b738342cb126dce7ef9f874170d60ff7803a7e612cdf8f63b132400cf7e69 0xf3978e10dca0e3006585591bd5a3c428cf9df028145289770d0e1e59d6e6456 (-0x76187033709f0000c4ce41ec22d97b495fea0de40672bde7745384aadb7022b) (-0x1f75646b72629faef914dd89b28a14d3aa89b394fc5480027a4b6e09ee3e42b9) (-0x5c6089737f8ca2d0c12ada4bc5ef35e483b562775aa3e633ddbbdd9364a219e2);
  Plus 0x11bc6d95c46e56066fc6267f8095ab08ce5b48be4ea39aacd54c5a89bbd7bad9 0x5409ea5fda65860608cc8000bd141cc0b1b2cda078c3e84e1a15e1022e57ce1 0x2d3d4b917e6c6f5b9bf4947bfff093687769f9de055ed071eaa504499e7330 0xc2c80ba49a2fe4ebf10646d2b750ffe0de1a38b8095cf742d70b7c8c369e109 0x37830dd746d08328eff472e4f77771ebf7478ec800aa8e94783449aa4a740903 0x603b03cc8547d74a64762ba78dd280c01bc69f5ff8b7fc3eae714295d7ae4395 0x4572ef46cbcf1fd6e0e88f56e5deae82aed071e8a1ca7d1844453f8d18dffbd (-0xc62d917fb0f24b4de95a84523ad6e05c813dab697407155630d4de25d3a2617);
  Dbl 0x4270443693c9f1d6f25eae0cad4915f6ecbf14e7e84449b924f10c98c04ea6a3 0x3e0b450d299f9d2bbcbc06096de7dad50330721a8dcdec82724639f5706d1ba1 (-0xd54500a0c7a00437822baf1a58b503e1163b289f4b49d02ba4994f258f42826) 0x242b9c02bf5428a68ab4d40b183128357ec4b1d53b929e3c0ec301ed082064 (-0xf702673dc7b21e5129dad9e49d49616ebee61297c43a40abeda63c3e9eb11a6);
  Dbl 0x439ca8b43226023384ec10d9a6262f522f5bead2a113c9f151f39690f3687efe 0x21b7d7e4ba1d89807184927e0d0edc12afce5bc6b9e599bac97bb16b6421abcf (-0x9d2c9553faa34d3b464b631ed6b5a1a8fb84c76ad202811d07210885dba464a2) (-0x2578c920e37abaa843cd324ccd35900f9481b1f517e20184211eedcab4b97af2) (-0xf05cee89d8925aef03346f3eafb99378f2bfa07d1f4d118b91a27ec4ee54937a);
  Minus 0x4b1dd89261ffa4393f66375f712771cb0ef211398d6b82a25c84599c81fd4f86 0x1404e666c27bb1433ac302de051d3034af9742ba6c0add79cc593b1994735dd (-0x64316d2436665ed4f3a4a339487a1b2b295b955ad9c28d0cc3f83de286aef9) 0x2c88d53bfbad91361cf47e5ba4966678cab83913704b2603f727524d3670187b 0x50387b05435e2276fafd9577ceeecea757ee753ec5a225f344023aa9751b9b03 0x3c289bbcccffa47a764097f677e0fdf81d014bed98a4f6fa3a628a6223656506 0x6ea1cfe1e627c12f3133f518b1aa2fd91794af7705c70a660eccee73fe0d3b2 (-0x12668c815db8e499b859dee854af6a3e238138b47e980da8593150a633de746e);
  Dbl 0xfadc7ae5e146eedfa6e97175cff4ac02cfc26d26d7a9bd86f3c350a8b26cf7b 0x64efbd561fdb81388c31f507ffa98e98687f99748067600cf0f3a3f8c8972849 (-0xf3591e2ff38cbc4d21a34917fce8719bcee66db7f7bf8087f46b4252ce52d76d) 0x404ac62f8304e32c78bf0ad416bd19c8f2da9396c571538cee798bef4e70a1a (-0x117aea02fbd60ae7fa70fb1c57e96c5bed6d5f3d37abd8f8ee47d09fa700464fd);
  Dbl 0x1fc601b955e03dc5b65b6a2f54c7fde7fb07c6ad72bafc66b7d706974cb96970 0x5687ccb69a0228f3f7b4811ee42db0535d7f6c0bee32ba2a912fe39bbba06a17 0x4d47e8a7b5a1d98294d7de3c9b9fc29fa45fe00cd8e5ce0c3aafb7ad5e1c7ca8 (-0xd2de95172040d6ddfdc0718ad7011e07fe0a888de260eb574f0df687d05cce6) (-0x88f2be19dc49844844676de08f3862b967c1d2db5ee03edfdb0293603f00b394);
  Dbl 0x48c46dc38c1e2ce22a8f6fd0409ed88ca63a55e7e0b400c8c721a87e7c597e9 0x411c14fce9cbc5bf8a5a5447ea25955152afdbf9a2ab700d7dc2441ec75ebe37 0x150b9e8cd87d5326e2f6b86baf522a896b63aa439c06eeeea1ad58f9c85e402e (-0x2d1b9e6d8a575a795adce886d619581ec4f89440409bd598aacbfc04f387c685) (-0x8d67ffe5e5af5f0ce89cde064313f0d8238405a13a5a848b8c3b1fc69dd85968);
  Plus 0x4740b92db9df537bff004cf26346452902b30e4ae85704bcf867ae058a25f947 0x28a6334459258bdf9b96a70e6dc987e360fd8a99406791125be92328aa149baf 0xc179051da6f7501de83d675b7a80cdb292310788671d76cd7404bc0fc3482f 0x2fee22e1f35eceb97318867f9fba00d043e416a89910df77ec617a666e4d03d 0x43bb13b5e540bba5b5acd24a4d7737aa2e7a1b7bba6e8e815bfc4177b2d43fd3 0x1af2b9da03f8e2f63c3e6c68e97753805b8506fe5d50c8af469aa89c9d42375b 0x2f5087cc2d2ebdc1d2cdf84ef5739e06692006f0e32080c7a8ae9424ba1dcf56 (-0x462494a66acb4865d02a654546f485791976fea953ccd4216f82f80e2c840824);
  Dbl 0x14a40fa14f1c6588c71b0697a2313d1e2657cb2b9b4bab2eaf4a708881c26149 0x34e719ce26f4549f6646fa47cd2717162f3be25fe9f645ab4e14aba71cc6a8b0 (-0xccb77a053495437afedda387c9b3cc04c14c4a98971cd798958bc35f175c0069) (-0x1f267125682b141f73df5d8c18b6b492bb8197f72131fa94db77443acd223895) (-0x1197451dc284e264485fb47cd35968f06f9b25d12cb34ab5808f8300bbc1e6726);
  Dbl 0x1e9aa6dafcb92f4baebc85acbb52218afa4c2c2bb9f205dde0da27d66894e7a6 0x24b5a5767b6d1b63dfdfc94e7645afe0c903614c5058de479a783e64a1bafa4c 0x5c429e4414774fc03f5060cfccbefd37b79ef0cab8007cfea1ccac2ed1f9dcc (-0x197d2b2985cea07ee07cfafb5a31cd7a232cef9bab5456a2c816dfd7d87d146) (-0x3f33efd322f99386df3c344108933b1cb47d3368fe982292860615aa52ba41b1)] = Some (0x63cf8d419e087549d8aa9ef0bd4e9fc79e10f5074c535146558de11c867e864, 0x1e9aa6dafcb92f4baebc85acbb52218afa4c2c2bb9f205dde0da27d66894e7a6, 0x24b5a5767b6d1b63dfdfc94e7645afe0c903614c5058de479a783e64a1bafa4c).
Proof. vm_compute. reflexivity. Qed.
