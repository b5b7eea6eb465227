(** P-256 (FIPS 186-4 D.1.2.3) is a good curve: both numbers are prime, and the order of the generator is the second.
    The certificates (elements of prime order, slopes) are computed outside; what they prove is checked here. *)
From Verif Require Export EcdsaPrime.
From Verif Require Import StrFacts.
Local Open Scope Z_scope.

Definition p256_small : list Z := [3; 5; 7; 17; 43; 151; 181; 197; 313; 337].
Definition p256_steps_p : list (Z * list (Z * Z * Z)) := [
  (0xabefb, [(313, 0x244d1, 0x7d07f);
    (5, 0x8c557, 0x4ad94)]);
  (0x43f, [(181, 64, 0x3fa)]);
  (0x10fd, [(0x43f, 16, 290)]);
  (0x131cb, [(0x10fd, 0x6a9f, 0xb0fc)]);
  (0xa3b2bf8c32ceaf, [(0xabefb, 0x3505c3c9f91b61, 0x3382d1c86f8bb8);
    (0x131cb, 0x5e0ec2c5d65225, 0x93a72f8843276b)]);
  (919, [(17, 416, 888);
    (3, 52, 901)]);
  (0xe5d, [(919, 16, 0x6b4)]);
  (0xf76c8ffcb, [(0xe5d, 0xf6b013cde, 0xb8335656d);
    (197, 0x812e0a1b9, 0xbecb15555)]);
  (0xa44e179dccf, [(0xf76c8ffcb, 0xa027eda446c, 0x3dcf4686688)]);
  (0x22b559b5c816ae00f2378e18df38c5410ed597, [(0xa3b2bf8c32ceaf, 0xac1f69987a98cd70795a5538e728fc5b374b2, 0x1c57608cca63bd0dec0bb61f90d77cc342f96e);
    (0xa44e179dccf, 0x2cbe55ea53ac8f31a83a9d88b34f81060f414, 0xe62dfc289b94889baf37a7ecd87a1cba8a4a8)]);
  (0x926d1276e41fae13fdda5f78edb7802a76951509, [(0x22b559b5c816ae00f2378e18df38c5410ed597, 0x84f6174410b13b7c641bfb1c0429a24ea8e8db82, 0x915a3c97e1f064769fa3c1c13714e947fde75b95)]);
  (0xffffffff00000001000000000000000000000000ffffffffffffffffffffffff, [(0x926d1276e41fae13fdda5f78edb7802a76951509, 0x6e2de1e253b630ab90fb6c14c9913e3f79353ced1be9c68ed42e7ee18b96074e, 0x4f5b418eca523fb75369a24772ba6e620c00261d7f768df08143595c559af3ce)])].
Definition p256_steps_n : list (Z * list (Z * Z * Z)) := [
  (0x25eb5, [(43, 0x5c50, 0x2426a);
    (7, 0x3f5f, 450);
    (3, 0xcf21, 0x14f6d)]);
  (0xb6309a7, [(0x25eb5, 0x48b6081, 0x424d3b6)]);
  (0x5e7, [(151, 0x400, 418)]);
  (0xbcf, [(0x5e7, 4, 0x3f0)]);
  (0x2e3802c35c7ed3b, [(0xb6309a7, 0x13eb608199212c2, 0x1db8cf470f45437);
    (0xbcf, 0x278744e714d9d32, 0xf8b5a170b33cbe)]);
  (0x87b23e9d09d3e637b2aa341, [(0x2e3802c35c7ed3b, 0x7abdbdcd50b580e230e79, 0x693de961c10a589c336a85a)]);
  (0x19817, [(337, 0xa30b, 0x6c80)]);
  (0x3c936b, [(0x19817, 0x200bd8, 0x223c42)]);
  (0xe95f681f97, [(0x3c936b, 0x33a6dcaeab, 0xa75f7d650b)]);
  (0xffffffff00000000ffffffffffffffffbce6faada7179e84f3b9cac2fc632551, [(0x87b23e9d09d3e637b2aa341, 0xc0915601e1a4a1534a1b5bb0f18a5be8c8606856c8892723c90c7158d2e5baaf, 0x72ca5f0d48545c9059c0d962203775545c6248bf5ec7809bba828ec3264e8033);
    (0xe95f681f97, 0xa7a419086c4d06e3581581fc8cea9fd97004e8cbd03ae8c54ff7837cceee9919, 0x154af5d0cc57479fbc9811f668d2d15a1df4a0b040822adf2503fef7b3e6719e)])].
Definition p256_chain : list (nat * nat * Z) := [
  (0%nat, 0%nat, 0xa249bcb3191802d3cb56fc75a8731f848e7b2caf080f3477a4e4d904a671af9d);
  (0%nat, 1%nat, 0x28cdb0fe6681d140c59fb73f85f16459ca4cee083742bada762de4ca226a8086);
  (0%nat, 1%nat, 0x63fed8962c05ae08af71e0370a29504a31d75d0224fb0135dedbf2b49db4ec5a);
  (0%nat, 2%nat, 0x18c1a34f6673f28e46938ebf9b6006dfa555d9d25d6b2f629017ff18d0bdd6d4);
  (0%nat, 3%nat, 0xf99e2b967d8e0afc87caadb0694609415bcaba785f9c110a24a12fadca6231b6);
  (0%nat, 4%nat, 0x16dd88585b31ab7ff112ecd9f4f7021e8f490327404d0833e208ccc3b94e18ef);
  (0%nat, 5%nat, 0xf26e7352f2ca442ca443dc72bb30806740769a5076e020a6932f7e4ecf8e5cf1);
  (0%nat, 6%nat, 0x5d8068eeb9acd3d7640cc5e58c57a5869561fafb50e6d2a788471eb709ee40cd);
  (0%nat, 0%nat, 0xee94ed8ec4ec9cf7d5783b311431460ded97acc17a52f66463d4c9bb3700a939);
  (0%nat, 0%nat, 0x954e1702bb6eacff2c16dfddcdd735d0932c9a47d74139dc2bcc33fa893fd030);
  (0%nat, 0%nat, 0xfcddb146265238f1a5c316525b94355a9bdadf49dd30f861bebb35d3b372c4e8);
  (0%nat, 0%nat, 0x3da1c91591f903163cef5a2cb9119bb8842a308bca34afaf06df38cd194692a);
  (0%nat, 4%nat, 0x59166c418e543be3a56be00316f9d268c759b59a178db9bcba696982a62dad6c);
  (0%nat, 0%nat, 0x654834a2e2af3b79968f41d26da517933bafd978d26f4115a21f5830d872938);
  (0%nat, 0%nat, 0xa5320bd40141e5864483defcc981c8b7e48dc9d06522da5e027ee255f28cf7a9);
  (0%nat, 0%nat, 0x1649266fdfb03bf5789e5212b00976b4628558e7412e33711568b247b993bc31);
  (0%nat, 0%nat, 0xd6227a028c575b59048e7f2094a09fa6094899a85b243c69ff3bc94304b63349);
  (0%nat, 0%nat, 0x5b87882a964eda17e7fd863532e4eb448b8f2ae1c8b08ec4736ed2f66d5bce21);
  (0%nat, 0%nat, 0x18f2ff2947e31e29d8dbeb28ac1e9c3bb4b1e19b0790172057524297ec7bad6a);
  (0%nat, 0%nat, 0x26da79f9502e7c53483e6ba6e14e04c08511f93087c68afeeafe9ac738c59ff7);
  (0%nat, 0%nat, 0xd75d8ac8b00065bf0e2fd8dc29cae6d9b6bae0b37de7a32df0031eb6581baed5);
  (0%nat, 8%nat, 0x34bacc63973d4f0ddb0a8daa899a9a80a0870d91af96236fe37e60b4f5c5c1a8);
  (0%nat, 0%nat, 0x284437f876000545dea5703645ee881b3a8d7b04aab299eb6c09b5054a254e6b);
  (0%nat, 0%nat, 0xe70ec84d152e30078f2c9d14cedf0285caced12a663a4c8549acdf6c958cd073);
  (0%nat, 0%nat, 0x43a9c2d3eb10b269343fc01b197a463e93dbd94077dd2eddba6e2760f9dfc92c);
  (0%nat, 0%nat, 0xa5bc43aa0bf6b131aaa992fbc635e855bd261e5c51ed1f1e32af974d7687b1c3);
  (0%nat, 0%nat, 0x60aa80860d0251c804ef1c02324f45a10b6ccb40f2bc0d05b98aa45437926ce1);
  (0%nat, 0%nat, 0x9842621b1bfaea43984615a9e88570e30c5506155467df9f226c8e78f08b851a);
  (0%nat, 0%nat, 0x359cac187ed65f63943191177fdc8bb6ff9ebd1250fb9ac208eb24a2c6b7e62f);
  (0%nat, 0%nat, 0xee6392d7e2820cc8a13c4d744db47e6fec3b62d143e15a7787b369c449c123bf);
  (0%nat, 0%nat, 0xade2bb9d3d8aa9ce75a9964a461cbcfeb1594ec67f52d6ef756b9c9374ca17ec);
  (0%nat, 0%nat, 0x67dd8497e454be740cc067c46e3244fc930a24181d4400f258e9cfbe6d7b29e6);
  (0%nat, 0%nat, 0x47ceb23224f364cf02800d492f504d2b68d77c941ffd212788e66334fd75bcc1);
  (0%nat, 0%nat, 0xab24f8737fcaf513fe36017bba273284185c7f9c947a7859742c8668148eee0);
  (0%nat, 0%nat, 0x3d7cc84ad699c6201bd7ca3b3eaeceb9836a42d9e2d2a12a7fbbd0f35b32c4d0);
  (0%nat, 0%nat, 0xc99ce8827a7dfaa60382808ad42a6e8200a3a800e51c19e21657ccb6ca5c2cd6);
  (0%nat, 0%nat, 0xbd79b363797ce6b85d87d1e3b92141bc2c1faccee717b9e000371fecb856c30f);
  (0%nat, 0%nat, 0x8f0a91050c341711e7398fadb0d22cb62c2c3e830236945830e7cadf8e7794bc);
  (0%nat, 16%nat, 0xc5a66507c92c8c8733a32efd4ed6150bcc0aead797788403203bbc6fadd29ad);
  (0%nat, 0%nat, 0xe7289190fbb5a7d7d62b51d40f3571670d41439c83a980a6ebf0c77129c5ea30);
  (0%nat, 0%nat, 0xc0c0f69007425dc498074987e7b1b2cc32e5edf753f84c8d1e31e83a7f4c1fef);
  (0%nat, 0%nat, 0xe2266a64fc9e96910bfcc391499f69e6e3862cdee724bf5f53e52619a78d636b);
  (0%nat, 0%nat, 0xf7be988964ec4116f418581f98955a9ca415e34883c7a464aefb4b965b9e49f7);
  (0%nat, 0%nat, 0x4eb34c79827117c2632524e9f4d02fecf1eede4cdbedd17bc9b364e5ee04dd99);
  (0%nat, 0%nat, 0x53b963e0e2a551f86b7527b4da6ce25b70cc5b23592b9b7b4a6768e1eb9eab20);
  (0%nat, 0%nat, 0xb8f8d77f98b07b91a739fe888ef94517d1e11ec5ae46114d5d9fcc91b1494e2f);
  (0%nat, 0%nat, 0x856480bf6645295b7cc166fcbf9ccb4213ca02b689e6a51515b002a54653b436);
  (0%nat, 0%nat, 0xe5bd602b7c75efe5dd4bfee34f6d5f15c12502dc3d6a454e8416bf7262efd14d);
  (0%nat, 0%nat, 0x901938d044075d035fec1e3dcc28585a76a2c4f101473d40d33faf2d07a666ef);
  (0%nat, 0%nat, 0x225568746c8026c61a929d9ee21cc8b663b8b70852d3eab403172b36db27773a);
  (0%nat, 0%nat, 0x730e7f0e730508b34af19c004afc304711f461a3ad85aa214506bbb2d38216bc);
  (0%nat, 0%nat, 0x61bcdb4b66643b59a748a3260de0d150ba66d53835998a7618465429d353b8bc);
  (0%nat, 0%nat, 0xc9651e62d6774d6d434978a729e20c44dbdf244c051785d459e9d397faf72d77);
  (0%nat, 0%nat, 0xd5c0e76343a81b2fccebfe410ee5f059d6813035f76b381d8a4c32004e356535);
  (0%nat, 0%nat, 0x33ca08f7f6caf3b2bc2dd0597e53765ce9a3a459a2d6ec8c14fd62b9829c8036);
  (0%nat, 0%nat, 0xe3d88474bf049aa8c92e117118d8ae2192be22c3afc88bbb6d45984b246b29a7);
  (0%nat, 0%nat, 0x48e767de0f22738d95a0cde900e2811f059cc9b0b4d8f7c6662c971f6dd8540e);
  (0%nat, 0%nat, 0x40ce2d624ccbdda2181d7203eceba6f86c74ffecf1099f60709afd4e366ad7fc);
  (0%nat, 0%nat, 0x7ca5a95dbd0f238188c92bc10fe3120ca5cdc8c94f5543f619e7b4a285fac63);
  (0%nat, 0%nat, 0x1695cb9add979f9b44bba53cddc3af6ec9a9ada1fcecce7cc21c53ebfe9bf13f);
  (0%nat, 0%nat, 0xb52ef301be713cd3721fb2eb26e9651c62dbd5611dbf05a2a082290ba0205c5b);
  (0%nat, 0%nat, 0x477a8d7b28feffaee439432c1cb34e620d2b28f77d7a02dd8f8b7b25da055f0a);
  (0%nat, 0%nat, 0x3df23d02be64203da86b3586f55929b44d3b721a7d42d1f74c2790f568dedb19);
  (0%nat, 0%nat, 0xc4edab784cc66e9dc3ddc0a1bb35098abbebb6da1bd0379f4f35495b1810da1b);
  (0%nat, 0%nat, 0x88fd5e6ed410c082c3ce11a91fb70b3f67e4a7765d05e18d7f947b38ca97f419);
  (0%nat, 0%nat, 0xf20a57ee70df07d6ce91f0bd0a46160e3a6c07e71c958c66141e21069158d350);
  (0%nat, 0%nat, 0xf1fbc80729ab01a5ccb119d4f3c345cb8f969116d59a28f5bc535098ecc8e08c);
  (0%nat, 0%nat, 0xb6f56f88616f73e59cd055fedf26a4e7e9b7d3805a7210f8280ce5f968813bdb);
  (0%nat, 0%nat, 0x95293b8c9d1b7cbee1c6a40dddbfa08124cd4c445226188841a5ce723091ed70);
  (0%nat, 0%nat, 0x5fc30199770d63f9306b8eb5b70c590e7a78844d7f32b7599bffe25242913afc);
  (0%nat, 0%nat, 0xe6f5915845524817c9b060c18d8b717cac8fca080e26cbcd288bf75a7faab605);
  (0%nat, 0%nat, 0x5964c5233f7fd444ac5e95e0039f0cab6fa80871add7e1b32f0a722a6608889c);
  (0%nat, 0%nat, 0x748605f98a44ffdb3930cea42bf820c24251d42f4514668204d50214f20ec435);
  (0%nat, 0%nat, 0xbfa7581ba17e7011a35037f5554ec574466581d61ebf651be54010d1b3462128);
  (0%nat, 0%nat, 0x15ccf0c1cbb1265789c91d1e08af146542fc69685d2f29bbf2b57c8be05b29dc);
  (0%nat, 0%nat, 0x132e377c356dc604ce9009f2fe476dc8bce83718d159bb94bb3881b71a9cd6c);
  (0%nat, 0%nat, 0x10d1a977f9e36431971a8912741876bccbe9607e868c6c2d087999d483393764);
  (0%nat, 0%nat, 0x1a1e60204cb24b6cf07e7ef26b311c8ae19e1fb468cfbb0376b0f1f06726556b);
  (0%nat, 0%nat, 0xe071868ac00bfe0328bb9e9bdfc84218abd265f4f0c26e5e8a422bf9b8474f7a);
  (0%nat, 0%nat, 0x254c920e29f647d75b90a68add2d1aa6d572bc42eb1a0c689289b7b6f8f924c0);
  (0%nat, 0%nat, 0x52cc77d77a790d260c5ec4ab5e43bab3fb0494b31d2c7cf7a3c80b87a580ed1f);
  (0%nat, 0%nat, 0xdd253971ff4f370fd7dcdbe46e8ae8032c9879364d66c99e192b0f3287bc0b53);
  (0%nat, 0%nat, 0xedddfdbd0a84dfb7f7f5fa366ebed05594fbf805ed249956968ccd8083cd3374);
  (0%nat, 0%nat, 0xbf823f6bf24aef6081f1e3f108e981f357242d34b6311601c3b45b9ae0112b65);
  (0%nat, 0%nat, 0x8bde950e45f61e9e42f9cd262f4c319028ce9c97ac77633d1d5a12da8a1798bc);
  (0%nat, 0%nat, 0x48e990f8ca2a4ff88d53f18d4ae0d03635a3cd626854543f28f55cd02022b4a5);
  (0%nat, 0%nat, 0xfe189b18522d6fe1b04b38062c250cd07514c90fe6dc37716d2b5e8493f357e0);
  (0%nat, 0%nat, 0x7e8fe9bb9e707cd872bbd28cda2256d5688ba9a4ae09c17ea1b04eb9283670ef);
  (0%nat, 0%nat, 0x7e538d01ceee43459ca01eec09944424ec5de5378258ed78564a373e4ee53b18);
  (0%nat, 0%nat, 0xfae62f8c4843292901276fb6e71231a5f07590a93671e5e265574033128cd213);
  (0%nat, 0%nat, 0x97efbafbf382c18a7e82c94cf13f3f4ca2158e7d4b8213e14adbe6c61fedded6);
  (0%nat, 0%nat, 0x9857183c4acd138c11bbd9ed9d40ea48a4ff2004e9febbcc3eb4a8c642a240ad);
  (0%nat, 0%nat, 0x64488d9175a463225d8162a4b6d9275a3fb8b54d9b895857f0d7ede8d1e1c268);
  (0%nat, 0%nat, 0x1ce01033d3f5a2a032d987ba907215ac14d10cf4584191e3c3f263b72a44334c);
  (0%nat, 0%nat, 0xb069aae63092ac7fd78100b1e55e7b6aa901678e040fe71a2e697e18739c77d);
  (0%nat, 0%nat, 0x90d3a4702eccff3e37da7ac0cfd6a420e0440edb43e375481d9ede78402e4563);
  (0%nat, 0%nat, 0xe08b3ebeabbf2d6ee95009601503e146b4ef0fe251a7bd20125d79d61d48d203);
  (0%nat, 0%nat, 0xc58638a1dd9670bc6b85764fc21ba1318c5038224b97eb4159548302ed0f79c2);
  (0%nat, 0%nat, 0x2281d19bf1a0689e1d6457da51286ca1ba9d5b42bb467326fbc54bc15d83c618);
  (0%nat, 0%nat, 0x7eb2ba6cc261b469fc66eecee573ea1bdcffddc1ab7bfefcfad7e60e4cb1c4fc);
  (0%nat, 0%nat, 0x40c42881280bd1f66e6f791f9f930a92b81e68278962d16ef078362488e54428);
  (0%nat, 0%nat, 0x69c306629cef4a4ac90d387bc256a8cad1a84cd487c0bcf4382d93c9bbecbc45);
  (0%nat, 0%nat, 0x84063339235ee83099f686e2684e2015e86a9c517279ea036c803a6d0d5b87b7);
  (0%nat, 64%nat, 0xcb993d45deef7a169ea5fcca9924e0285740da25f48430ff961d4196cb8abb7c);
  (0%nat, 0%nat, 0x2b533d0d75373494ab6e521e47c78b73ec0da04ed717f1dd6289e1ccfb6547e7);
  (0%nat, 0%nat, 0x3befa847ff61fdd6e18d9c74828d6b81e4a67132f69487ecd9de0b41a2c1a54);
  (0%nat, 0%nat, 0x6275c6e3ab21875eac97d9db4210b0230e22f3fc2585f92774dd7da0d884c580);
  (0%nat, 0%nat, 0xd9389a2e9be97a11907ea996b368ffd6f5b13e64747259f93d8cf9ce1343d0bf);
  (0%nat, 0%nat, 0x6d2b2db140a44662dbb0d2b928059438937b3a997c32b1e9d2a32de34c966e93);
  (0%nat, 0%nat, 0xeed006c163fc93fd183a319243175adf56dbe54d8ba546ff4abaa2c20d94165e);
  (0%nat, 0%nat, 0x51fe0b59b06c2784710da320afd77705e6a637f71d95a0b9b9977e3edc6862dc);
  (0%nat, 0%nat, 0x9a5be2bd4b0eefef974daf36cf337feab13d8ef573309cf5db7f5f5eed2c39b0);
  (0%nat, 0%nat, 0x4385985de48bcd9ced1c5539dc3b8243a028a197f290d54c929be944a496e46d);
  (0%nat, 0%nat, 0xe7e3a16f180935443c48030b0f3463af79df183d1f0eff933baf17ea2e70d877);
  (0%nat, 0%nat, 0x10f293ca565515a23cf4767749bacee2574c7dcc90279ee5a7a633def58b1a62);
  (0%nat, 0%nat, 0xf475e468f374711a7faadca054f40297058d68c5c7040b5727b8b81f02e2fa5b);
  (0%nat, 0%nat, 0xeba9594b0edc39b7326b68735ae36551456313c10c7f43482759d72937617aac);
  (0%nat, 0%nat, 0x3e0d64b9245143b7844fae049f513663d2c107cdda373abe5af783aaf3c16c8d);
  (0%nat, 0%nat, 0x89ce98d405ea331251a62c5605990f0ccd4014a3dbbcc06ecc8e641c543f67b1);
  (0%nat, 0%nat, 0x74c318957d59feafd656bdc1209f9e8b4aeea426991fe2ba4e8fa26a491f2c7);
  (0%nat, 0%nat, 0xe3646bac638d354e623c6083101cda5e6636350d6a47910f8144234beea1604e);
  (0%nat, 0%nat, 0x766b55516956bbc5e44ea941b22e2271819570dc2ea949c715eac223ce0815c3);
  (0%nat, 0%nat, 0x574ea46e74b7210c9367b4d6ffa430a0643932246e1b381385efc1bb87d7f469);
  (0%nat, 0%nat, 0x9247ecdcfa235ea60a8f607cffd365a0ee12708c3d05ddd9bec5e856b4aea763);
  (0%nat, 0%nat, 0xecc148f099c5b07d965e6c8dfa29d83bde413659d6de7d34bb4cf541ef7e6e77);
  (0%nat, 0%nat, 0xc2c512db09996d20facb085f93abb248642e3fafbcdacc28b2e9f25d70f61199);
  (0%nat, 0%nat, 0x48a29cb460ea2d0c3b68947f8099896cd8eef7d0eb01b615055b0dbf2d55bd13);
  (0%nat, 0%nat, 0xe5299495b4d1ff37b77d18d71f0296af7ca3de4a393d5fb77cf5ad629763f819);
  (0%nat, 0%nat, 0xacab46b4727a33897e8938024a1ee2923686b350f5ea25fe0a35efe8b90f888d);
  (0%nat, 0%nat, 0x775e7c437dbca5821071aabe4c867edea4b2d0f99697ba86ccf392b1f8f523f8);
  (0%nat, 0%nat, 0x144f50e14100a377c3fa8cd47e26a4392419c429bf2e6c150507a583171d5edf);
  (0%nat, 0%nat, 0x207bec157a964153d703a61469ae7f9dde7f66226de1e61d2cc1f4081c254c01);
  (0%nat, 0%nat, 0x669bbe7356fb65c103540612ff1ba57690f9bad10355cd27ab6200b6082a075a);
  (0%nat, 0%nat, 0x83233cb9cbe5891e91aa4b3fbb02796f2788c144e66fda36df8da460b6ca13b8);
  (0%nat, 0%nat, 0x4748d91c04602565fcceda28ab2acc13813f3ec672ee684e7a1d3134ec0b57ce);
  (0%nat, 0%nat, 0xfd1dc0f1a19995ee63bdd49e12c701f872956ccc020314c0f725edef1f5093ba);
  (0%nat, 97%nat, 0x298c6eafaf03deb3c6d277a71650c550c8a87644e794770945c8a4a4f7b828b1);
  (0%nat, 0%nat, 0x7bbd682ca56c620e51834596d63c8a983bd853d89d0ae8eeb7a9f016e8db674e);
  (0%nat, 0%nat, 0x273d1d57d84d64783d0b1759cc9ae412da7c982eae81947618e6d74856e416ea);
  (0%nat, 0%nat, 0xe6a5a90758bf835ecfa748ee848f56960ca416ce44bb2bffd4283c59db2b2704);
  (0%nat, 0%nat, 0x7807828583c92f8f0a183a3770ff79e3404c083ebe87edc35faacdb22bd3db13);
  (0%nat, 135%nat, 0xf858be3efa21f88d048f14d6b3c99ed05ef432be8bd5f68aa394d93736f721c3);
  (0%nat, 0%nat, 0xc5b005dc9624a5e46ffdbd3d9759ec611fb2fe356615359d8356d5fff090beaa);
  (0%nat, 0%nat, 0x8caa2f7ece2703143018c8da2e07c0b1f1cafd6841adf37482b3261d38b9e9a4);
  (0%nat, 142%nat, 0x3ec5b2afc01de892b3a3f4190eddc8d30ad7cc5764e1ea066ad5eb262a8b727a);
  (0%nat, 0%nat, 0x674be996a79b1ffa91230f8457289247595753941f964900da839dfeaa64d097);
  (0%nat, 0%nat, 0xee5e7e6600de627f082365e48c6f6688ca2c9ead6d077753c293089bd937b41e);
  (0%nat, 0%nat, 0xcd91cc334db87c39c7ce70cfb2f30b7c6860531fb6369667b92df117f1189eff);
  (0%nat, 0%nat, 0x6a87849d55621a0d54421c8bc664857f96ad67b0e6dda85183cdc7fa9657308d);
  (0%nat, 0%nat, 0x23dd65f27fb8322ef0afe44464cf5745f641339de1ab69269d1bb29305dc990b);
  (0%nat, 146%nat, 0x93e27c95e470adc6b307f50ff2df73d45fe5d3422493aed9b1a59a50ff3ffb3c);
  (0%nat, 0%nat, 0xaf4aebf985cfa16ba0a6d619d9a6e023514f5bb08c62d76b0420577c88407f52);
  (0%nat, 0%nat, 0xad5555a05bce9b2281eabcab4e0aaaf83beca658b0c6b730bf3e204f948e8da0);
  (0%nat, 0%nat, 0x483de7956274d82c64f1a4dc18fccd7e45b35343f872e56a8a8bee2d07c8d126);
  (0%nat, 0%nat, 0xae3e2903620c37d55d0ea6b3e1fc67d79e179eaa446f69c274092307b5504d8a);
  (0%nat, 0%nat, 0x57f70416236071624d21878e8af0182cd0d4c71067dd9430dcdacf3a52c7f258);
  (0%nat, 0%nat, 0xdfe0b4214974e9710e5d25ca2ad23f73b45b5e6c55154dc395f6352cb7110447);
  (0%nat, 150%nat, 0x5458b5ca9a63f1dc4d89eb154f1c63a2f1c664d7381c8374794c960eb2990141);
  (0%nat, 0%nat, 0x63d5a27d4896b73103d1f9742ee5aa39c4da5924885965e0b8ec8f06163c238a);
  (0%nat, 0%nat, 0x3f974baaf4c2973ccb20975d94f9f837f4dc1c32a7c8352b003ab6eceddc74);
  (0%nat, 0%nat, 0xc6dc45490fffdb39977914c7f9c6c2505db3b6ad5af3b70d1b99bba62a75d591);
  (0%nat, 0%nat, 0x5ef2b28e44e0411f40c283970043bfdf1cda0d5116b44cf5553b3f754a6a3c08);
  (0%nat, 154%nat, 0x86c5464009b7ae58183099e5238fda859187941b1b72afe626647288cfe9fa5e);
  (0%nat, 0%nat, 0xf2e52cb7a0dbf5b7ef55f9954fdc0b324a0f39211cd3744d0693b7cb2962402a);
  (0%nat, 0%nat, 0x913748f5f4ebd40ee833087d5f049a3160d91a7e477ef3d255ff1d5003941e44);
  (0%nat, 0%nat, 0x67cd271077eadff61d760b28c71cb39dd0643c50cf45455fe93906276c75ebd1);
  (0%nat, 0%nat, 0xc39cd865a45b2ea35158cef71b74603dd89f0f459b9f5a8be4fe8371419211d1);
  (0%nat, 164%nat, 0x26b3225f315bd414a1d6193962b3f71becde70f3148f1e361b4ff457ffa12f9b);
  (0%nat, 0%nat, 0x64d0d38d31f6655d7305cdaa081f8b3588f2ee7037fa56584ed2c138efa37b6e);
  (0%nat, 0%nat, 0x34c0b6e689e3ebaa4a2cece3b57c7a923ef24ecb819a1795b6aa6193fa78ebcf);
  (0%nat, 0%nat, 0x4c5ca3872a730e7756b42eda7c1f57adc499839bd7b913b70013b2686405c3a6);
  (0%nat, 0%nat, 0xd1cfe17be47f81023ea9182bad5d60eb41f0f4b06ec8059794bc7c5dfb986d92);
  (0%nat, 0%nat, 0xcb7b5666a620a0b8ab8c367f77e6a0258b54580d219d4454fcbdcf60b56f463b);
  (0%nat, 167%nat, 0xf7c31be79f5db46ef596741bcd16138186c4465b7c7a27f2903331f75b4e9b3);
  (0%nat, 0%nat, 0xe49459c373c5dba80edde36f7347197dd8ca4cb493790182f5e3d808c610246a);
  (0%nat, 0%nat, 0xedcb40b3507486f3f28953bfccc450a88bd60d32f3732f1f0ce7246d95bf2b27);
  (0%nat, 0%nat, 0x95a16d6b5ced6ecb415d706a506328de77b3cf0ae1c65c6677ccaeec3ba1466c);
  (0%nat, 0%nat, 0x8bd712d997fb4900c0dd77cc654eca64ff73b31dd603d4f3bad0a04cfa8023ec);
  (0%nat, 0%nat, 0xad308154074aa9e2d7ea40c01a4341b7858dd67d1861225bb956b691667787cb);
  (0%nat, 172%nat, 0x74bbb8ab255da8fded5f5b7eb3362437a8e98ef48e014039c57733918383c818);
  (0%nat, 0%nat, 0x1687868d0c3c942a86f6a2f6bc2b0b0014da5b25d28de6968dd58ec932777ea8);
  (0%nat, 0%nat, 0x2e1d6d99905ca613107ae06ad50b69ee23145b1a91e4afb8a2ca74b9207129a5);
  (0%nat, 0%nat, 0x4cc2cb0832313f941fe6fa205e66482b5c95e94b784f8cad768d71554e8dd58c);
  (0%nat, 0%nat, 0xff4ce11b3ed7035ce9a63e20e84cb5be9bf80dad1aad2075a1c8e6947fd04344);
  (0%nat, 0%nat, 0x6efe928cf319e8487f1de3b99b0e3f100002adbc41e054326a05c304c633153a);
  (0%nat, 181%nat, 0xd8864cb40606407df152356203494b884f5c90f238523ef437945acd9e6318c8);
  (0%nat, 0%nat, 0x328311006166da0e2d955527c15989dcadf4e3fd67e2fa1041c595d4d5bb5318);
  (0%nat, 0%nat, 0x7e087002e55cae077c9697c99e58a03e348c2cf038320cdadba6fdbdc2abda18);
  (0%nat, 0%nat, 0x874749fef062abebe4fcd8d6de89523c51b44716b020f206d464b45cebd0227d);
  (0%nat, 0%nat, 0x54f55f77ccd03ea178b1a9b03bc1897cea9b8351be047214c7608b24e0da4759);
  (0%nat, 0%nat, 0x4885c3c7bc7c14360fd64185e560f8c26050045a0f0610027e65651b1bfe0ff);
  (0%nat, 0%nat, 0x8634cdcea3ab83d91f73201f7c040538893b241096a2d8dc4f6be8bcf976d5f);
  (0%nat, 0%nat, 0xd4b8a440112a7eaff2cc76448dc0a63235d74f68381153ef7d69722da83e3cc6);
  (0%nat, 187%nat, 0xcca7c04a3847f61bee093ed868848270dd9ab02cd202cc3636ffaf0cb51666ba);
  (0%nat, 0%nat, 0xe02cf3e22f37777a9f0a291795186edf86f76a830e192ee15156aab6c19d43f6);
  (0%nat, 0%nat, 0x853d6c45639ccb14baf6f540083b6107e567c4c52849c7fe2cacbd06939a0848);
  (0%nat, 194%nat, 0x41c6dd21bd24e859532b0b27f97e97aca986f6c398f7d713b6304c99449fdf0e);
  (0%nat, 0%nat, 0x3050f99b1337c62004e120e368b9c0f76b837cba50537ff5e210843b7f72c84);
  (0%nat, 0%nat, 0x359cb63dd575fe116d4334b14409ac9b98abc4fbae71c5208e980e73c5464763);
  (0%nat, 0%nat, 0x741d59dd266cf529f4c4d32cb6c774d98385e15d27764acc6c6e572e4e80178c);
  (0%nat, 0%nat, 0x838c798bacfd36910554a1a9028aa094d8bd9b94695d0ee71ae95cdb81e6d87d);
  (0%nat, 0%nat, 0xa07bedfc7b9eb7a05dbd8ad413513112744ea93a2df8955faa36e51bedbb579e);
  (0%nat, 0%nat, 0x1d467ff2995a6f6e5a2ed712b05270245749299052686a56e16badff8933357);
  (0%nat, 195%nat, 0xee8ad5282f286ef901a803e423a9d26f5ab7859bce204f3ffed8bb0348ceb903);
  (0%nat, 0%nat, 0xa062b7b604d46e0eec641b05bea0471db15e82688f5826c1c34637bbd3edec1a);
  (0%nat, 0%nat, 0x9fabde1ceaeb992e80017b12d617ae37f2035299330091887021ceb827ccbb36);
  (0%nat, 206%nat, 0x230d7a4a3dcda864775eb4ffe8f319d14834441848fc304ad231797811c1302b);
  (0%nat, 0%nat, 0x5470a5c84b32e321637d2e208201a340a01ffeca339bd0aa80979c4f1170ec87);
  (0%nat, 0%nat, 0x7e0a3376d947900a7a41aa6d2f81b1952d4c5c95a3d6fbf1603466442e7f0620);
  (0%nat, 0%nat, 0xe05d1f4553924fe6c8c2d7e3065b67bde5d0c944415fef1de4ee9e5bb461835);
  (0%nat, 0%nat, 0xd6be9e6daef03da7f6225309237433fd6749d3ba48e55744d1086a32681a48b5);
  (0%nat, 0%nat, 0x232359521f0e0a6d5ebdb8edfec99aa6083f85ee92d280a53cf82f10076328a7);
  (0%nat, 0%nat, 0x92aa12e4ac71e4699357ef1f0e55c574a6608ced8c4ea4c0682e47cab3e69345);
  (0%nat, 0%nat, 0x6f7cfad88c4dc7d942b881e354b9ec0a64eccdc2bac97fcd94dfa9ac38c9a7e8);
  (0%nat, 0%nat, 0x81a10f28cfe03783a0dabc05e41e344ebd12670d02fbb9d29cb081631ca537ce);
  (0%nat, 210%nat, 0x802f452c4a4a0b0c992923ac9f0f96f47d15158d568665350bdd4b6f9adcf499);
  (0%nat, 0%nat, 0xaa3974036dfdaaf916da0c1878bdbaf4f0c5d807fdef7cbb0941a7906a25ae06);
  (0%nat, 0%nat, 0x6dc11886394407bdb2ef635e777e9ed8ed91b622c027ea996bfae627142c8aa0);
  (0%nat, 0%nat, 0xef2e267948d7d644b102ebbc70b1956d200f527e38572a59cc3d931e9978a42d);
  (0%nat, 215%nat, 0xb04c0dfdcefc8907ae2538988af5f906d1be2fba368d71e37d3f415d035f88e9);
  (0%nat, 0%nat, 0xd8833940fe6bd86636ea00d04162f80381a184a21c5014203d4cf7987edfe17b);
  (0%nat, 0%nat, 0x34e0318ef4cceb053031caf723efabaa1bc24c69e63a9d8f8719e91cde261341);
  (0%nat, 0%nat, 0x3a2cd2afbd4549342122c9254195397712e1af3e5627b560e348ddaa5e7d72fc);
  (0%nat, 0%nat, 0x3a6b2691a24ae678755d189ef36bb58dfdb026e30bd19f13797dfd7179a3b256);
  (0%nat, 0%nat, 0x3558599714db370696ea7bc059f970a5de7e0324f9ea6e80e255bb38278fb845);
  (0%nat, 221%nat, 0x9ea6599f41d1c8a9fccf2d88c3c52ff2e8ea9b922c6b84ffcdc8ec3330df258e);
  (0%nat, 0%nat, 0x6ad3ef0cc2adb4848acee7f765112db3320d3015d9fdd461d525103004f36882);
  (0%nat, 0%nat, 0xb8117ba4cabcbf56c5077417a86c3c354d303a799c2df5fbf25209e098c918e0);
  (0%nat, 0%nat, 0xacbb7b07fcbff86cdde842b6b037754d56133796b4bc79076d291f552991ff54);
  (0%nat, 0%nat, 0x6569738accefdeb7160996e63a592206eaa0a2fa33bd2b561950f524421a906);
  (0%nat, 226%nat, 0xb3aac044555b8dd72ad6c3061a55e5f3e68cf32383fa3d46833c44f6878a1dce);
  (0%nat, 0%nat, 0x1e24e23be43ebbe98edbe61394c3a6ed01a7f4444ac3d5e4cce9f95f1f1b30db);
  (0%nat, 0%nat, 0xaf7b1bedf0c2915b1da8d0b4b2c1a7744f9b9aea67bf3dcd991f35c737a3050b);
  (0%nat, 0%nat, 0xead75cf07542905a364f01948be976aef4a71f8ffd4aea0c6334a6b6a53b30de);
  (0%nat, 0%nat, 0x978cb8e07dd87c56cc89fe8d74bcc0fa1a1f46c755cda9d4569a19a28ff87862);
  (0%nat, 0%nat, 0x1c9935001242e2ad61b239ed72dc2d076f2fa950d1f28b2213af8e2be74bb31);
  (0%nat, 232%nat, 0x83a30d9650f6258d14eb617429dcf3df59a5c928376aa4424d673ad1d1f967e8);
  (0%nat, 0%nat, 0xf99a98c677df5fa909f310e9c1e4d2e4d7661c86650dd382f74d78255dbb4d17);
  (0%nat, 0%nat, 0x1f7bfca8004798e8724c6e51d327af0c8b9dcfced075624ea910059c69819217);
  (0%nat, 0%nat, 0xfbe3f876cad27ea18b7ed7d9a18e7277f5ece4c2b3a80b2926ec17398dbd740);
  (0%nat, 0%nat, 0xea3bd5815214ac62bdd641c3c5ee11d4ff41787f86b8dcc7c880b123e93da3de);
  (0%nat, 0%nat, 0x9f3a8f3f362a9495837039eaab7f0190e4339bd6662d086ff4ef8a06a53792fd);
  (0%nat, 239%nat, 0x9ecc36b24158c0aee2bfea02460f53789e1443c6404892c3417afa8dbdee388c);
  (0%nat, 0%nat, 0x97a3ec5a23b71974a2f8008a754e8ad427b671bcafeb52e4ae600b263a1ee532);
  (0%nat, 0%nat, 0xb069de89a4981947b55927be9b4aecceec0662f6fb4fe3ed1955d75938caf41e);
  (0%nat, 0%nat, 0x1e8b253cfaf950f1825d9a1be4a3c1e12311491ebcb87a7e1f467f3b00a286ea);
  (0%nat, 244%nat, 0x457437d699bd0319386f311d3466d83f747b228fccebb41271859bccc11c6347);
  (0%nat, 0%nat, 0xd179f413ae3bfd5ab16b4fa72c59c7cff3de907e09f0fe2e6784aa84fdd8df5b);
  (0%nat, 0%nat, 0xf3651f1948b6da881c2419f75d7cf4b68afc8df485801ac4b19c7755233c6f0c);
  (0%nat, 0%nat, 0xbe23251d063af957b0c233d8caaad3245a71d35cee8041a4da77eb003fc49840);
  (0%nat, 0%nat, 0xd6773521eb6e218ad74d5d85cc0a9a6f3f123dbe6a34ec9433b8a7639848538d);
  (0%nat, 0%nat, 0xc226bfbf1244da56d3dea59525961a1c5d7418bd2bf0657a343a360c1befd5f);
  (0%nat, 0%nat, 0xea30a681eb3db7191830e6b024dfecb258084f4748962ce8872c056b725175ba);
  (0%nat, 0%nat, 0x1fa23c12f7f489104fd28394d71dfd3e52e79c226f047a8e036050030f87100c);
  (0%nat, 0%nat, 0x3e65babdf742db1543fd1d74953b20323e296a4e9382d73bc6727da54e17d646);
  (0%nat, 249%nat, 0x1312cac5f28b33e2985bc82b0b56e1a5aa162421c2600013b3fd0ab46de86a69);
  (0%nat, 0%nat, 0x5a9f1ba5969ef050801ccb05b8cac7546bca3397533e42c3a50b5fb7d02df229);
  (0%nat, 0%nat, 0xcdc19dc82eb10b2155835c8235fe531821923f97c8fc43a964ba8609194a54ae);
  (0%nat, 0%nat, 0xb033ce6598ab83a88dc9760121a06e42dd68ee9f47134a9901dae0f2177874eb);
  (0%nat, 0%nat, 0xd42903aaed3848ef172b085c3f14709f205f0971bdef7ddb72664202390a4dab);
  (0%nat, 252%nat, 0xb7ab0f2a35236db144b494c2faadd556301529c2d38bce2d3c87178e1c359116);
  (0%nat, 0%nat, 0xe04398830685690df5e208459a98defd8832b5196e2be0b8df82c16c77f7f5);
  (0%nat, 0%nat, 0xfcd96ffebeb7a47ee4590684b7c9a2e0b8fa03beabd83654d7d76cdbbcd60335);
  (0%nat, 0%nat, 0xa740a7573695f572d3c174ed4560cbd69eee3a8e77be3734bca252c05a6933a0);
  (0%nat, 0%nat, 0x4c10a29d61779fcc20538fe766b7ba167322dbfe669dcbe6fed8df39242193b6);
  (0%nat, 0%nat, 0x600f9edbd10d66828a7b5b61845900b2176abcaf2446c42ae814cd26313db489);
  (0%nat, 264%nat, 0x4d7c500039a977386ff5124974d9441977a535400d027d3d012aa0043ae909d0);
  (0%nat, 0%nat, 0x9c82adc5593be14823416d07f9f833db891a9f58ca31315a0dca08778edd591c);
  (0%nat, 0%nat, 0xff5fa2b8eaa15963bcf8f4d08ad28483801b21e4ab054838b84b2c1b7eec2911);
  (0%nat, 0%nat, 0x32057cfec2c8b40d8810f0fd0f1bc108f4d4bf6fbc21b9a5e7e521a26d065898);
  (0%nat, 0%nat, 0xab2d3277a3919fb090c5b011b0174c465bd9e87f95553f4ad7734df531758636);
  (0%nat, 0%nat, 0xd299815f73c67c9dbe0d852cc95c113c9bdec24feee4972ab046c6be0409c1a5);
  (0%nat, 270%nat, 0xafb2a11bb61caaa91c68b19924a6f77a22545c4a917c2e50e853864410fabfda);
  (0%nat, 0%nat, 0x4439830783f364ff8326337036fd5b26868085c15009f456a82a1b0880ff7d67);
  (0%nat, 0%nat, 0x2f41d190d91e77680712007969891e3ca1deeeaa9415496a1d4e302a4df1e551);
  (0%nat, 0%nat, 0xe60a0cb18c966612d38cc039609f7ff3a2de07efeaf428b0a465c13b23621739);
  (0%nat, 0%nat, 0x35ca18cd2cf4b17e8e2936c8dacad42209864d0c3605453612e1750a4cb88ecb);
  (0%nat, 0%nat, 0xe02c83a19b5d26d223a51e3ca9c74e4b934c8fa28e0aeeafe54504ffee2bbac7);
  (0%nat, 0%nat, 0xa1d3525f61eb1730002a03eb42fe6da8a75ffa55e7920e5f18fd5b1018aaf33f);
  (0%nat, 274%nat, 0x10863973a1a3a9a3d9bf6fc09aacc296f575c42b33b6dee10c95ffa0c0e71e05);
  (0%nat, 0%nat, 0x3d46e9ef5aed4aa9fea6810de4d5e822316732bcbdfbff222b7ea641d0f4c236);
  (0%nat, 0%nat, 0x2d45701fda7e3d7f4ecb15fd4fefebe30788a1a6861a4f6ca1431cd8c329e135);
  (0%nat, 0%nat, 0xf1deca311239017a17be9a516e9bd72380eea972043730d8b8d551ea4553ba94);
  (0%nat, 0%nat, 0x25e292e0b60e5d1807335b8e243d630ec2dedbb7fbf1d12d5e899d0edac66e4c);
  (0%nat, 281%nat, 0xabc3f2e03f292c35379e52c49d99daeb242d7440e356cb59fa759ea05008b452);
  (0%nat, 0%nat, 0x13e1aace41718a701cfc777d12d8d44229a07d9deb4b28c637ee82e18b6b8866);
  (0%nat, 0%nat, 0x56436ab347a1162845d4c6b9cbe939adea2c4f90c169d40a97e58c7fbaec7a9b);
  (0%nat, 287%nat, 0x9b77ec69617f51069699bec6f62797e61fda164d9ad2f53842780fb17e45fa62);
  (0%nat, 0%nat, 0x510d851c47baf8984835e68c845e2bb545d52977fc75a523d9580f6237793779);
  (0%nat, 0%nat, 0xb9fded35e510eaf5658921bfe5042746076d1426453aa249dcb6bd3495e18ec8);
  (0%nat, 0%nat, 0x755d14d98ff4cbf80f733a8570b5b20dd2d2e8c0fecc7ebe2d31bba5e4b33192);
  (0%nat, 0%nat, 0x83362c631c75685e3615425a3bf2d24ad3517a0496f1d94b79cc3fdabf3fe22a);
  (0%nat, 292%nat, 0)].

Lemma p256_p : prime (cv_p p256).
Proof. apply (certified p256_small p256_steps_p); vm_cast_no_check (eq_refl true). Qed.
Lemma p256_n : prime (cv_n p256).
Proof. apply (certified p256_small p256_steps_n); vm_cast_no_check (eq_refl true). Qed.
Lemma p256_bounds : 3 < cv_p p256 < 2 ^ 256 /\ 2 < cv_n p256 < 2 ^ 256.
Proof. repeat split; vm_compute; reflexivity. Qed.
Lemma p256_smooth : ~ same (cv_p p256) (4 * cv_a p256 * cv_a p256 * cv_a p256 + 27 * cv_b p256 * cv_b p256) 0.
Proof. intro S. apply same_iff in S; [|discriminate]. vm_compute in S. discriminate. Qed.
Lemma p256_on : on_curve p256 (Some (cv_gx p256, cv_gy p256)).
Proof. split; [split; [discriminate|vm_compute; reflexivity]|]. split; [split; [discriminate|vm_compute; reflexivity]|]. apply Z.mod_divide; [discriminate|vm_compute; reflexivity]. Qed.
Lemma p256_order : multiple p256 (Some (cv_gx p256, cv_gy p256)) (Z.to_nat (cv_n p256)) None.
Proof. apply (order_chain_multiple p256 p256_chain p256_p (proj1 (proj1 p256_bounds)) p256_smooth p256_on). vm_cast_no_check (eq_refl true). Qed.
Lemma p256_good : good_curve p256.
Proof.
  split; [exact p256_p|]. split; [exact (proj1 p256_bounds)|]. split; [exact p256_n|]. split; [exact (proj2 p256_bounds)|]. split; [exact p256_smooth|].
  split; [exact p256_on|]. exact p256_order.
Qed.
