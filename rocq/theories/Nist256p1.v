(** The curve secp256r1, also NIST P-256 (SEC 2, version 2.0, section 2.4.2) as an [ECLib], with a proof of
    all its laws.  The slopes in the lists are generated; they are checked here. *)
From Coq Require Import ZArith Znumtheory.
From Verif Require Import Base Curve32 Primes PrimeCerts Weierstrass Fp ShortCurve CurveCert.
Open Scope Z_scope.

Local Notation p := nist256p1_p.
Local Notation n := nist256p1_n.
Local Notation Hp := nist256p1_p_prime.
Local Notation Hn := nist256p1_n_prime.
Local Notation mul := nist256p1_mul.
Local Notation Hmul := nist256p1_mul_ok.
Definition nist256p1_a : Z := -3.
Definition nist256p1_b : Z := 0x5ac635d8aa3a93e7b3ebbd55769886bc651d06b0cc53b0f63bce3c3e27d2604b.
Definition nist256p1_G : Z * Z :=
  (0x6b17d1f2e12c4247f8bce6e563a440f277037d812deb33a0f4a13945d898c296,
   0x4fe342e2fe1a7f9b8ee7eb4a7c0f9e162bce33576b315ececbb6406837bf51f5).
Local Notation fa := (of_Z p Hp nist256p1_a).
Local Notation fb := (of_Z p Hp nist256p1_b).
Local Notation f1 := (fone p Hp).
Local Notation f0 := (fzero p Hp).
Local Notation fadd := (Fp.fadd p Hp).
Local Notation fmul := (Fp.fmul p Hp mul).

Lemma nist256p1_two_nz : fadd f1 f1 <> f0.
Proof. intros E. apply (f_equal val) in E. vm_compute in E. discriminate E. Qed.
Lemma nist256p1_disc_nz : fadd (fmul (fmul (fadd f1 f1) (fadd f1 f1)) (fmul (fmul fa fa) fa))
  (fmul (fmul (fadd f1 (fadd f1 f1)) (fmul (fadd f1 (fadd f1 f1)) (fadd f1 (fadd f1 f1)))) (fmul fb fb)) <> f0.
Proof. intros E. apply (f_equal val) in E. vm_compute in E. discriminate E. Qed.
Definition nist256p1_gen : cpoint p Hp mul fa fb.
Proof.
  refine (mkpt p Hp mul fa fb (rep p Hp nist256p1_G) _). vm_cast_no_check (eq_refl true).
Defined.

(** ** The doubles of the generator *)
Definition nist256p1_double_slopes : list Z :=
 [0xa249bcb3191802d3cb56fc75a8731f848e7b2caf080f3477a4e4d904a671af9d;
  0xc2489a9eef61dfa06d3741ff3b405300988bd0db42a937859069b9cefb576e35;
  0x3d3f7094389059fb29d62c12aea203c23c53ca0f84ba9265d34346d498d0ce10;
  0x6fa44fab12ab52ac931dd31283af3f747d8609c5f053383c43a73240f7256e8a;
  0xe9a817f547273aa32a7361a18e9620f2b838a409be826cf083fed49b3c858688;
  0xcbf7b81fbdea68d4221b26a8e5a24b1cb5e9aaad01ecd82899cd638e1942f764;
  0xfc4b4bd92566c2ad98242459501cf92d7207904e764ab66789942b0325b9a3e8;
  0x93fe002b120dc226d15b0f98b056d3392bfd56b35499e60a5f7ad1ff70675535;
  0x59faa582c6b4f84cf05a7f0a2f866f67a3845d45e19ba871c83298597acc6389;
  0xd2b8741587a7b2e52655fc308e92e0b0e32ee6e6b41d84eb93aab4a3a4141961;
  0x1c063129ba7b4a48b2e70f43844011c46be00e0e9073b990aa60efa9cee08d40;
  0xa2e3cb03c0248e9badcbbcc1c7028566de6e61b104009831a5104754ca52749d;
  0x960ff72703b0a682d458e8c237f82e7c160c43f0388887300239f5caf2144511;
  0x928ac84a888eeece1f740cddb2fe2c3ad23b782d364f2f64e69fb00ff124a44a;
  0x2f62106edd7774f71f1f577bb87c80a69291fa99d469a7d590bb7efe497f0e98;
  0xdff9619f1fed418640882fc607fbef4ab0b4bb2ee9eb5ea61d7f347eaadfeb72;
  0x2bb34155d1c3e85258cd7587c389773ca8761dc07d32d1bc095f476c05a7c13e;
  0xedfc2e37fb69a62e021b6261a99df3018dc9eee2e4229d1cbff1ba56b4f8e3d6;
  0xb79e006a59b12e979226f397f11da4e07f4c0c6e00d804571e0be779c48ea25c;
  0x45fc98da6728684cf421d291dbdaa5438a2bbde9eedf856c54e1d2577a0d15a;
  0x3f71d35f5943c9d82c6297d4739ca141ce18dd97535b82f9b6cbf6a3a3bc338f;
  0xb063b021ea8c4d521a86be70cefe8cfca350e9ba8c166c8838fe6446dfaba3e7;
  0xc96ce208d5d84115b06c8101fbdfc996fc19127fb826057aa9a56a342393343f;
  0x58cc0685f3b5bd459e0a56513cc139f2ef4c79222658880c7b9e910437232a37;
  0xc714a5ff1e67f35e138db56e27766a8f370df7a9aac6afe2a684adb2f9318a34;
  0x244464508464873517783cc6e016573c75cc1d40a0821ca2006ccaba14e5ae68;
  0x19942949a63311386dd5eb50ae3bd81d89fda56a29528618285086a145bbc75c;
  0x89fcec8c449f2a8727481510ba958d286a3ed95b2b77e593d4a8e3bc100d5f1f;
  0xf6c406113ca7142ab7578bbd87c1fcac561785320d44621ae23c0bec57db9931;
  0x1c544e23cefcf6bdc7e2661841017cf1352b6cdad766837a00109b5b701a002a;
  0xe7af93b02913d49f7ff08817eb8b2a9186ce83f590aacc4a439598e38234c827;
  0xe353b7ead6b8630cc720fc9e590a4b3bfde6404ec154ad7d5f0e3fc795fe64a8;
  0xf2d190fa895945fdbce834e76fc615314f8d12fd6ab74e11a875fdfc3ccd5a36;
  0x6f2111875b10a1209c249e454abeae22f7965e57dba5f3791ea5b985b656d33e;
  0x5dfcaeb945eed013f0dc90070b1796fc1836e63f83e756c35d1d0c0d796c7d4c;
  0xbe3d2e335ff7468d6bd8fb93fe862c8e0e6a23e82b010d3065ee7d872d83ac05;
  0xdcdf4ad2644a2a52ace81d4008703d620b99ddaa19a8e43afe378ed8f316169f;
  0xd541d97c1e7434ca4879279fc56ab5beea2eea4739c34965dbfd94fc16ffd007;
  0x528674b2e6ac31b598ad18e8d07fc41d1b9cf19cc5b0b1a36e4bee972e1793ca;
  0xbe3eb98c294b97f8ef31e7fb4ea068b560b0394730a372737b1664be3b94f07b;
  0x1a4fe06c68f0b4432fccfa2556384fa002a2562842b472c92467450bbae7e75f;
  0x62fa001767cd781a9d2fd3e7ec992c971b637a1677ac44bb25b8332f1f328a1d;
  0xa61d0186d8bf3158c94229adbbd5c4f18d62deb67d2a553c60bf4b70fa43ae1a;
  0xa358ae4d1d2d1559cf903bb807955ed8242bdfd114b140dfab90d867071eea1c;
  0x44a9e887ace2e81779b6d576792b60e61bc31655486153ad4735e7464767e021;
  0x3d2ba9c25242b9c848025e13f8e099197cfd9e127322e91d526031e6ace4351a;
  0xec023d3a9661ac96c6dbc95cba3f761ad0a6e2e73eeb9637678a0ddd09e0adc6;
  0xe62135dfb5ca7a34ae42eefbd686412a45a2994c887c07eef7d68b30d6cb931e;
  0xd619ba80f511570a3e3ed4d04647ae2b6eb9264ad8aac5fa6d32ab6bdf78697f;
  0xffba15c48dae93bb6b7b3fcd35fd12dd25cd8fcdf93f1637105ff77b76307fa5;
  0x4771f4203b36744f55f580ef5d06095e26d9707e0b0758533cee034caba468d1;
  0xd789f8898ebd00255511f6639f2a8eea2a15e29c1b6ff8fcedf3e8269f86fcb5;
  0xfe73522c164abdfb06af1c83a0695ea24c334e788d8251561706989665d6f816;
  0x1cebd9c97cd5d590c6b74870095510a5178ded2a80f7e9ac7823793acf59a7aa;
  0x78dcfe4e3af4fa9d145e4091dd5fea89aa125b4033372535c8abe3358fb6e9cb;
  0xe022f3ccc925f51b2e88befaa3bbd50ec11bfdac0ed8e16681963206ae9f07aa;
  0xad76aeab07632ba0897563291c07533a53904c8917d4cce1df331c0fea875697;
  0x8d208cba001b885a9d1cd9bf54e51d2637ac63861474a0fba0cf6a9ae7ffc87;
  0x96791e6e5c53bddc2e330cdff59b2760a5d1e82daae727ccebf22ba376b64789;
  0xeeb3323449c404260d45d0c90e1b08bc54f7142b776ce23e8f1eac75e7a54b77;
  0xc2bf87d6b97bd496e25685665a1b00bf3f668e0d1d0ede73a3ceb3f0f4fd4a0e;
  0xd980c91e98419256b33ca70642e8086bf8045da5fc4da6a69f1a9b3081a24d28;
  0x3f00b53d7b742f827adf650878828da4901e79f385673c8ac0efa2ea3783308;
  0xd10a30165e44a72575956d5eda085e58a090d0349a5b7ec05bab13ee18158af5;
  0x29324dd7745424c70017bf17b618e2f391ed41979e1c82dcb50a3c2fb80bc258;
  0xdba0e74da82774f5d0740b49ac31b538d6f8336356feef5f2c4879ed5cabc501;
  0x3fba9142cf9b09f82a69707ca2d04b2c28ed80f3b48196ca23f69ed53b8c1abb;
  0x753104d2fc9c3c75b4ef6a5abba9162535cf4ddd8a5fd009d2e8386cab58a6f9;
  0x3dabc691917a2ea5620f8c27a2799e637b8d554a0bd646d4af7650150eec6760;
  0xa2c62e1c76621ddd9e90dab925ebdf8caf145b2e46a7e58e91d6292942092618;
  0xedad044c65261d5af330654524135fbcbf9390aae52cd419885d1b5e0f8b9b19;
  0x429efa4b1ff1915e962e01b19f4c61cc73d045853c64e8175e7f002437d62505;
  0x84f13e9eead977e5ecaa6a33b553777d9fc91dedd22924ee4b72d6c6dee592ee;
  0xbb6aad7061c969e4a76a865e39f1180ed95b0f4970c4d641edb138d52921280f;
  0x939a30e72a652164becdc44bbcc70ba1bd0abcb08ac9874f81024082a6c29a32;
  0x74076d2d468e60d0e0f299cfbb8d00eecb0d07a011d521cfa279f96f16b445ec;
  0xd6011b593a3fa7cf0134011b23ab04ef786b369c800195a19d7be1dd416fce75;
  0x524efb3f3a34cd13260690a846fa7b4fc7554d8cc78d07cbf445d22431a5451f;
  0x7b39eb93c9d76ec892fc312340d90ce59e8416bb8b11f7282dbd30f5884300b8;
  0x4b8a6e723533e7d3d8612077e43af208fcc6193b3ce83e99345da4a80725b05;
  0xe7dab0f8fcc0ae3e5c394ae291922949b7c5a1f54ecb2aeac075237d21871d65;
  0xefdf4a31f9cae53c9ad6188f15dab087c937ec1355a56737682e9b533ba614ec;
  0x79836e79fee4a540a9f84fd1c56da539d7aa05f06ee8dc07f050bc7f4b3813c8;
  0xa3dd7cd24e9aa562c028da0ecbe9bf7b1f237d0b100445d69f51a8c8e9504e0b;
  0xee60bda620cddeeffda566bf8827f5ec78e87dbab807b60366aee635c1865883;
  0x76e9bdb98b0531e25004cdb7856270d30bc0d94a955bfb20e0e76452d1903806;
  0x4603a1c4e11a2d2b7add077dd09f55a84150118f53ddade3918edb8fccb88328;
  0xd8e5e0ff655697c13b3cd835bd4c448bdb221a734ee9e30a83fe18fc466ea614;
  0x87d31f0f3334bc4e9d888d7f0a92a977b8b42f082e30677ea40e0fc53853aca8;
  0xd9486ea131e9deb91764e2eef47a6705d1a8f870f1c953b801581685c538aec5;
  0xff96fde5e45d6d4aeb53be3abfd9e88fafb24648712d8c09f882d32e476517cd;
  0x561b900375d1f12fbc43817d3b1b6ec08e24a4dca93957e6d11e37d55ad82a30;
  0x1f8c174e9b2c1a8e970cf284b20774c34967aa64c2e0dc8bd93b8e7abe8a7f57;
  0x2fd440ecc71c28fe10f61da3480411b80cb9376f63ff222b2a2ddc3a6a4e33d;
  0xe506afbffec23eb1d1eda46bc1a47f39ad9e7a88a616523424b3cf25dc4d9df3;
  0xff2ca1583f1a35de8b26a39f61ef7b330ac3d5d89557063f7a336c86fa946b5e;
  0x83cd584275b774459901c763b674c8ef7e681d397f33ab009fc63e628a4240df;
  0x2afff269aa3c2d6f8e4dbf20d491b5279a99e2d2819310bd60bded08c4ee63e8;
  0xee2d9657220818c3b91736103e17884fdada03fd2604b20df6c8f927da3bc8fb;
  0x10a7bdf60fc7a31a8b3fb42f776a4b05d3646917d4a0931b2bbfd132a5a926b2;
  0x38d2b631c04e00f91ef32f55963a230646c512bd81d0a25de987edb96d284c5e;
  0x61d5fec6a5fba22816b5b808623c7fe559ae4dac7dbe66723fc25a2336884f1a;
  0xca831e8e9847bd1e1fb03c68dfda133d25b2dfa512396511e10a6cf15a3d70ac;
  0x7ed58e109a5779007f144cd1ec6bc382ee1a6accc9547d475a7413d53779aebe;
  0xa73d3dacbdb7a692790dc1af3c9f0f014e2061b0bfc6face899384549908b31f;
  0xdea2f4a1c5ccc5e5856f2b3bb3c4b9a98cd11a940c4e5e3ac3545ff714a80470;
  0xe02f7f2832e406672922adbf40400fdbe0a73bf43d2bf2a29572259c2c257d88;
  0x6b8cbcbd6ea41e144a5f9ee91f4013a07b5c6db728814cb6c503423abdd3eb91;
  0xd9392ce2837cddf6341cacd0d31e2a8cfde54f090d312892adf3bb6a5572fac7;
  0x5e6c9a0f45f0b4f7a6cdd869db2cad66e0836dd7cc4a2c3d439798e5655a1f70;
  0xbeef0951e81fc2bfdcf83cf6b7f2e0649f0b2f79374803aaab9916e52b114dad;
  0x985452175e7b133371e382a137a936a0d1965a0ed0cbaf618841965fa3204c60;
  0xa45affba2808882a40c0a65b07ac92ea34a612da87944158e651251b6ead6046;
  0x7f90096f549fef2356ce34b939d2bd454aec6c7a1dd5c9eb304f118091a497da;
  0xc77d2546657cf94c022d48cdbe20751f455fa5881bb05fc40fba9c417fcd890;
  0x86137b79fd460d9ee30ffd72e14c0b4168aad29a9032a362177851f18be53afd;
  0x4b4f844d0143a25296621b2df080380ab2386020e7e1f94e05508c3889de979e;
  0xb365fa38e25b3fc5b284cb3d24386781b7ddb57526257713fac6e05284aabdff;
  0xc56e236cb8e7a661d0adee1089a2c97d350d26433db369b1c7e2350d34412957;
  0xc0323c3ff0b59f4e337ae5aa41da4bc064f209265d442f72bfdfd4747ebafba;
  0x335a827590f28af19ea4dea8ebda096a6622e98b9612da0ceb247a2faf30d6a0;
  0x5d4a7b8292d0281bb6ece7f76b5c03c75449103e913581c224fd46969d60ed3d;
  0x8402d15488a2480e9a2fc71a562f9ac1b56f65d30b4258c19e6d7b24e3c5467;
  0xbcec95630e11053fd18643c46f0d90db12da63a1e42973a63ecc9466b5f2dd32;
  0x189cadb9c3e6eb55225446aae811598f9c679441df3defb1e35ce2ca7d463adb;
  0x9213e703f312aeac61e4acafda19ef8e5f1381eec13e78203644a292b1f3e545;
  0x421ba08db1d328fd8d1e2b0cf284f264e5a201063430c014b77d12a00ff09317;
  0x542b952fc288536206f1249660b042005354ac1a34d2a317162b49c4b677b4b1;
  0xedc9c1dccc9c3028c4e2ba2fa2d17542f568dd145f50f77b28e4a9b163f31637;
  0x187ec219d8f10ef2c5dfd4ed5a16e35fde54cb0ddd79d6699a2a9ef6d91eb7a7;
  0xc671f9e210c1412e46fec8b5171a80eec01d94d4d5a9296e68a5c6a3b74e8296;
  0x688f1e5d18840881da851fa505c17fbc49f913ec5fc369d2f1727164ace2b165;
  0xd21ecf9b7d7162c7df440032f0fbe6d2c6e094282974d2bc869935d4d20d32bc;
  0x1e71a885315e859a7ec86a1838bf9a9f5fda7f8edaf4d3a16b9d0ca545e2534;
  0xdb4dd8140120fc49f927051c70cad79f7c6dc805939c85f07cd07ab6ad68e195;
  0x79d68e1f51dd20edf90c6e1cb37960e840093a6d484f07e28c4b2cea11b5a6e;
  0x51bb280751d6112dfa1284a5b15fb28746bf79a8c89baee6ecba7ac1b95aae26;
  0xb884fbb29bb51bff545529ed396dc9731341937ec607986d86273f859bbebe21;
  0xf1826fcfb66067e7fdc1dd614592fbd8d4993e9eef803ec581799a3cf00f2e70;
  0xd555015037bb7c9d327c8bf8f3b8a26f702923731f2614012ca37d9cd5a3bff1;
  0xfe659a56c00e3fd1c500adb7d4f65d198964ded633b97908c4d985365042be15;
  0x8158c1718a474b191e504867adc02c685a2ba52a05d4f98d36000e44fb4683be;
  0xd45b7ab81f0f83a103de4fcf9fbfee6ab63382bea0a5b0b978d0f6e6963fe847;
  0xf19b1758472c9ea63182b65fde4125c273719b2f880e5987aa085acdc733be01;
  0x1e64c6f99ca4a21bcacf3a5d4a497432b29e3d7f00a83b0d010ada65fe91c9f0;
  0xfa3aa86d30db23ba052b6438191f10f2195e002605204ee00e6cdb11aac3ef3c;
  0xd46ddb4ab2f0299b2c9e7eddc5996d803ae869349f6db130d79200e82e417b81;
  0x20a6022815bae731183b32a6ea666a48277ead8fa81ef841eea1859403e0bfa3;
  0xb83644d02dbcf9cb5edc43a48807c76a754a71eccc90430d400c2d1b60cb3865;
  0x3d08860575e43ee1f27528f715604e38453a9f8e323cae51866b0c0736eef4a9;
  0x897ab3601a533d4234c0435ea0add15315e8c903ee555597af847bc9d01b1436;
  0x40484e52b74c0c08e56c754d0181221060e8a5e9985f4cacdc689b0a529b807b;
  0x95b278f457d982f66428d3fb1c1ccb580222fe0d7f59796d4d6f0fed8ad96461;
  0xce2d7a8ea55c573c89eb97198aff82fc2974702fd12f5776d93c9673c775dc8f;
  0xeb3f05b3f694ce40135333500a2f97b60a7c3d70a329d4715cd3975591e792fa;
  0xd9c8693b805141095e5caa30ae30acb61b74fb72671ea7f6fcf180d2b6d48c2c;
  0xf84af0663d7a3bbd78165cd013aa09d1cba704dc3954de2c6d7e3c94237f4ab3;
  0x452b9d929f8e62dfd6c7c746ba40ba106038ed5410fcbca88269b978507bd960;
  0xd8c76bb063a89e7f3fdbb2da85bb04be0edbb69a4d606fa54490b8e737468fc7;
  0x50e6a30a0bec6ba71d881741e2f52fa3ca4567bf450354e5500856ad43315338;
  0x802f39f19fa37fda5f0e7f35677cbcdc147ed45dd60db73cd2fa1232b57ea362;
  0x644063d783acf2895ee48406263675e60472375900489ec1d76471b192ba77bc;
  0x3d343e5001c1648153b3ff5c2d1c32fa43934d42619d65e7e78139ac1d012eb;
  0x579db08d73af3821b876d20f4285c616f5ae2babf14c9930689c90ec3ef5167b;
  0x8390b6f7da6e0b61b2ff69f8c2a0821a48e642599d95ce7f4639e44840b1bbe2;
  0x23788111088d98bca0fa9614b12095f692e2b46cb600146f553cc74a03bcd574;
  0x44f6e4e4f7cfee9c51c47cffb1bdce2745be1a1800679c3926b5f97e49c4fba8;
  0x3f83fd12833d44f0d567074833c35475633a1c4a2ba002d62a048d551cf92263;
  0x8f5fbcd1e7e0736db266adcc49139d5269bfb2ef6694b3b5185fec29de628438;
  0xb07de4f0e535ba356ccb0d61e83caae152d2a5b7a264131c2bfd64135cd7a620;
  0xa607402a83caf83e505fccabfb97ca583cd6ad4665156f954c05943c5fbcf2b7;
  0x39fb2702b5fe5b53249a08339ea7959a1cf53be57fc533fb4abba6c2fec4b866;
  0xda4a6bec8eebc6ba58bd866653e79a260170639285735caaa9e1685fcbebd4b6;
  0x3862bf9599ab8ba66e3f2686179a9f7ae383ef67d6c09339b75171c12f9f9f58;
  0x452563836074385d50f62b06e9c8cd4b8249f7e5395d164e6c1297f906b6a63a;
  0xf0ca17296ed80271eb343429e26ceec597ee8d0c669fd578b1fee98d491c4be2;
  0xfc0d607372d2f4d11b89f9ad5ffd0539ef51cfd49cc40cbee3f7cd0199bfc1f7;
  0x6e650d5cfd29581fb98a138815e31607a43d3462f5e14383356325ad977f66fb;
  0x77a1a3d126b9f88075b5f67c07b9c568fb7f54604f03b4d342ffa934b034163e;
  0xa2f4f19154e53398febc797af2d04c9da1ec41ddb4e0ca8c23a8e0255f140257;
  0x18f7aa6b3dc3a00933742be417e35df4735e2f6d3ac79db14aea143884eb2417;
  0x236af9e75e55c824a4ac8d78a82f5f220a4c28a3eccce94063ef42fb5e549998;
  0xeb9d1dd88798835e36684209d149f36a658b2a2543c7dad4047b03047cbaff95;
  0x1ab41b2238fd148b31802644e95d5b1f148c7371a31e11e3055d92126c2c8a2a;
  0x17f395ec8bcae6fb1f942427ad235a51c0480a62a6f0a142abbb650ed4b3df1f;
  0xcc9f6e8935835507eae61b26266b1b78ff240bc520dc4649465f8d42b522de;
  0x15b3a6001a02f06e6892bba476ff857147349a0fd28844934687812dbb7a6564;
  0x8519e369450a5feaec70fccfd73d29ed8d1e44001144ecd4d4b7835024719ad6;
  0x3059b465485b77d4c243f987b5b0f25cf27575a8684cfcd4eb2d4a18401d21b4;
  0x88b155ad3cfcf2b31efa16b8973b10e0c4c17e39f8aef64aab321415487a23e0;
  0x57108fff714057bdfa5981395d5b47677c72789648ca2ebb1628af75d580dfa1;
  0x66c0742f9f4125548c61f263ba9244d4f16692fa29e5e0a620d39bc9810f901;
  0xd85bb1aa5db1427283a00d9dcdb6a5012cfd96195e6427abe01bfbcb03f55d46;
  0xeedaad9e9f12cebbfd8e54114006e13eaa4ae14c143e7235126a4501179ce4f5;
  0x361a6ae61ce718ed263e6a9b1853971703ba9809072a41c3e3763bc2ed6f3cf9;
  0x5b2c65076da1f36fbb3d2ee497e9f7413302bc6cc93b9a6ac853186f33543af2;
  0xcbe44174be4629b2fcc87a8126ee32b5c5b50d23aeebb783ad5c02ca9578c329;
  0x1d4caf106ac42c7a425fc3159924cf2b08989016019fa200be1a5e427c3d5ef7;
  0x3b64a0fada3c548581e69a352e54611b8bbc1df0e1ea0cf9d2f7a8bfb6d6c71f;
  0x2578b17af2230a95b9afad191f9001ffedbe02357f929855a1eb8708311d8a1;
  0x841a25f768da73ba64f60e0c064199c0edcc6f799e68114adf08f14ddee4308f;
  0x588fe0db8a3643f7a2a727e25a01edf60fed78079be7a25fc0dc30a5f5207e8;
  0x686734db8bd3dba5c57503c8383e0a2e9e2117921863e750aecf77a67a796ff5;
  0x21a65d75381e6a2602f2072d8e3a3ccc31c632facc77c087f7042bca91248cde;
  0x49eae1ff96d1cd7fa2e389bbfba4f0d302e682c659a3e40cfdae85465e8440c1;
  0xd6146596f2ee79137611e17d1ea396e756164cec359e33e3c1928d4d8535eb67;
  0xc819eb8218f019e4b66875ab119a7ced44952e267ed06bd9842915ae1c2662b5;
  0x562aed95a88976eb58a0eaedbbb352fa3cbb48047e678a18f27123f184affaea;
  0x6ccc8d2186ae7e49d66ff6b8f29f2ef7d0787fd4a0cd6d6cbb0151b93f8c4185;
  0xa5dc14339dbba5eb6348153a2a2ffc8e4900f2a8e4b4fb6dd824bcf0561420a6;
  0x2584ba8fa4a53169391714867d8337132b16f6d96475908e1615c722700c4063;
  0x2be8ba2e4bef2ab0902018709a4a5b8c022d5e6a378d7dc64408a8cae7b5c7a7;
  0x2f15b2b220b5ad40e5dbdea89e4c1aa4986ceec607da86e43170033722a1cb3f;
  0x12bdecd1047a88adcf126175871cc8f6dc524ab9ec13aa30e786eca5bbdffe86;
  0xc5abfad6aff7ebddb3c86d4be9bb27f3094cb9cdb529ddcb7a4af2154297dcc6;
  0xd73b64264df98ac0737a9f56dcb96baca5cff1d399c512934134bc0c1b590f5f;
  0xce4077a5bf5d472fb3457e45409b5a2393d012a3df71cd17d1566ac21c62260a;
  0x76fb5871ddcee4c42bf5a5d5188048300eb19e4b1e113b7c1fdcf08847429cfa;
  0xe3b79fce6050a68b90ee8e724a0f9a2a74940e209417871d1d999cb483a08b3a;
  0x2696e903b7f800bbb5e2fc779b05fdd16b03ff93416f00354914e79773dad614;
  0x8a95f48f04dd1bc859395581bb7ff7c3176e09937f40f36c99b8703530e3bf2;
  0xb395d61903804162db1172c006f68e42d06e03786bfc9e4e7965c02cd3db4b6a;
  0x80899b05c798fede016890c1b03b093ddd96712f36d54f6522dc451c2c827af9;
  0xf3bbc4bff6110eef4b37b9935be7a9d0cf64b50b1fd329c332086367828f8d0c;
  0x62f29d0e45749148a95c7958e857a399cec5141a63412a80e5e965884712bb3a;
  0x8fccf43eebe9a7d01488efbad513b401347805f39d02e93db124bc1180ed6934;
  0x18d61cad397c103f96dc404e579a6c6c97baaad9b92fc79fa7d5b01380078694;
  0x52a59ef3c3672d8d46b4317118e2f22e25580ad6f6bbd1633b7bbe0df59d4d1c;
  0x3a373f724af6987d59ce56bd59925e4c2f94a708f41ec2acf06fedff9919c446;
  0x5b219aa98f1126779fd6f9a666c70b7d33da4505094f44029f38d4ded0c630dd;
  0xc52512614d86a714e3e1fa8e1ec80adcbe40a9021d01abe67373338dca1fd7f2;
  0x67575e46da0705a99efb9c081f7e407f9261a88af3a6ce1c604d477d6f027db2;
  0x86426ca4a5f1f2bc4bf7bb25cadfc0201a83a5facd68bccc71fadb9210bbc305;
  0x29a7fad8a0d2b6baa49849df07e4f77e6363205e5c7c2189ffb4f83655b4b636;
  0xc614eab8caab8b08f985475ed01cb88e238346bc0cbeaa036f166b42dfb45792;
  0x5c76f6e051af305fcc125c67b00278a739e773f98021c131fb43d9ce3385d00e;
  0x157f0f31a073708d2038213b7c76206599996094e636ff81bda0c60310ac4780;
  0x3f54787fd9439d059027bc17c5f944f5a39491debf61b2b72c60044d6b249a44;
  0xbbcc1529aec8d2edd74f8b1f5aa7f8953b7b2d2e04cd428274bbaea5372fe475;
  0x151bd893fe7c6de3fc92d8bd1f184e2d6f0e4c89fd01f072f4727cc53fc7bd61;
  0x7b193d6fe98bcd2275b824015c075880617c3f9dbc1b79c438ce945ea0bcbd36;
  0x8a1d978fdcc6f034efe2e0648dba3f3f24ce9ebc23d58a93e3e444238af40e70;
  0x7f5594e6b30e86a5eb78bd8c322f8db95b1afa5454002ee646ceb26e96aa2257;
  0xeac042e2c5e481571f1eaac376de518c4433d5fd007da78198768a389db9dc88;
  0x8d94fc5d2ebd4b17e7585fd666f2a1680883abfe8ef46fc729fa17babf790dda;
  0xa6bb53ffca7f5f1f5a16112059525edbe41b29b1994ab64c3f3facfd68c2695;
  0xc2138b72713b6a4df974572f04358546ba8d1f9f52cabb2d65e4174e6e4e82e4;
  0xcd79c7043811a751c1e592ea9da7d571ee6d355fdd2ac7c6e11a6a7ba66f5891;
  0x70fe08de7b200ece1206b577ea43ba04f13abe0024ba7087aa72f7342192fba6;
  0x4534e39c9d03692fc0037c8f338b1c0215f25e6470517bb138f4353e1eec1c2c;
  0x6d53aaf6a8cede2d1071d391bc475494e2a23620090db57964cb04a52fd02b0a;
  0xe817b1192283c9445fdf19af8e73896e751c28ef4692d2b7ae9ce1ee6d7a0a69;
  0x3130eb87dc64d1b27399cb6506109a944c84a5b33e3ed2a46e73f68d6adc1efd;
  0x94f571cbdd2f660048bf99d9e6b8f719f24d650cf0d2dcc91ed22394a1b71d26;
  0x974e5dbe7404fae4c6f09c7779bebcf381522934ff03631882fffecc9e73eb8b;
  0xfc21c8a3ca342f1227fb3266864650867b71c48c43e750fbc3ad214d0ebe2c07].
Definition nist256p1_table : list (Z * Z) :=
 [(0x6b17d1f2e12c4247f8bce6e563a440f277037d812deb33a0f4a13945d898c296,
   0x4fe342e2fe1a7f9b8ee7eb4a7c0f9e162bce33576b315ececbb6406837bf51f5);
  (0x7cf27b188d034f7e8a52380304b51ac3c08969e277f21b35a60b48fc47669978,
   0x7775510db8ed040293d9ac69f7430dbba7dade63ce982299e04b79d227873d1);
  (0xe2534a3532d08fbba02dde659ee62bd0031fe2db785596ef509302446b030852,
   0xe0f1575a4c633cc719dfee5fda862d764efc96c3f30ee0055c42c23f184ed8c6);
  (0x62d9779dbee9b0534042742d3ab54cadc1d238980fce97dbb4dd9dc1db6fb393,
   0xad5accbd91e9d8244ff15d771167cee0a2ed51f6bbe76a78da540a6a0f09957e);
  (0x76a94d138a6b41858b821c629836315fcd28392eff6ca038a5eb4787e1277c6e,
   0xa985fe61341f260e6cb0a1b5e11e87208599a0040fc78baa0e9ddd724b8c5110);
  (0x2377c7d690a242ca6c45074e8ea5beefaa557fd5b68371d9d1475bd52a7ed0e1,
   0x47a13fb98413a4393f8d90e9bf901b7e6658a6cdecf46716e7c067b1ddb8d2b2);
  (0xa0643fb8fcc14def67a6a5eb1bf8e9125b35edc7338d816aa4110a6b90ee785,
   0x553438324a9e7955c520dacda2920e700da10d00e7012ed7bac0d100861f9cc2);
  (0xae3f7dba0bde8b6ad7ce2f8eede4b762c556dea678f859626a9e6235a674c4f6,
   0x1c0549fc0a69995a24b8c213249db9a97940500d085f8a5c1ee0553e711f4b53);
  (0x34a2d4a3b009165987ffd1528603ed61190d0b710d6a564c2db2e35f12d0441b,
   0xbeaaed6a53a1e3c22bca71046e777fc0e7d766b9deddd81db424e7845e93b146);
  (0x4c490528be759e4e8897bbd818d459aa416b9ae0b3c5dfc3469cea39f3f98de,
   0x30e50b46405cc74fade84c66242a8107471d9d7b4a4605eeebd949434e8d6e96);
  (0x16949b7287d4f481897299b9eb6fe80ccdc5849ae1d527e280e76bb98e61ca07,
   0xe7a4146d770ededebdf997b75b6012094d2d6ac6fedf983aa09c2be7a0420427);
  (0xb01a67f716475f72886a8f4749b86176281b195ff46f925ae1404a861abe45c0,
   0x7c521bbf5a3956e2acd56b13164ef99472fc676341b62c7fc72f0dbe0090106c);
  (0xe716aed2cf069e4d997789672e6d6bd2508676f2f4fd0a64f077e8daa245573f,
   0x353663e694fc72ab5912b06687b9a851d13d0df2fa07c9b3505fc26b469218d1);
  (0x5a57c3e3548207ef2f4541cf25b5e81b6b2e5d2fcec451f4b5113c2b357174b3,
   0x77c7b303e69224601b1165729f3443328886700134bb92888cf5959383437e3);
  (0x5ce96505eef7208cd10920adecfb86ad1a87a974797e4fc58937f00facb006ff,
   0xd16b6ebd381f5ad5ec56d1f22fde7bc3669d20bebd955c2b818dcda107152613);
  (0x71a5bd27c625ca1b4b2a3a4635b1043363a5b8311d31a91915261b05d0b79fbc,
   0xc5bf524d066741ffb39452ca1a02f2efc76b6051ebaa32d0c2e37ccc8f277f6b);
  (0xa018366f4e91e90d8e5c643340e586b4714ab749c9052a0503e8465c6eade3c4,
   0xe2bbec1714110b167c6ce578349d8369d5f7284e44614f37f45c42026b26e8d0);
  (0xcd7ce65d707da2a69ea25487ea254c45eb7d5adffe1ce3eefebccee647a9112d,
   0x85e04a4b4c966f9789b9016aa5ee6708a190aa498bee60a5ffbabe0d3a92b3af);
  (0xf5f0aea099634718e67d4c73705ae59e8af0bc36c998bef6c88ad96c3212f1a,
   0xf8a8b2b7c8593c955886aadd4ba16b784f5ed40dde29af7c755d7b1e7712b09a);
  (0x471ad0a8d57f5939f15f0d870ae25c9091428bf4e1e6e9172435158cfc4471bb,
   0x2234ca62778e8e392a367ab48094d138b0d7e9ff7f23982c454318fa49693a0c);
  (0xec73885141fe54ffef6a0b570cd98d530e431c1aad5fcfe8f7dcecb7d96dff1,
   0xd6224f4e87ae875d91acc4ef580652511d5264ce87ed78aa9ec841ac7c7b552c);
  (0x477778364e6e1cde059a0e2532c8f0c69ba12b3112fb6dcfb183b5399660b7c9,
   0x2dd89d00b8389e317373efb6a7c89e8a5e0604c1f142ebcf5c205fa39918c3df);
  (0x353d458d3491b5a8c73d989017e14dd22ec38faf35f45d260fd8013b26d69d8e,
   0x9c7d37bf4f5bde243130fde40c040a8a825dfc12fb71a9a8842b9d0020f32b82);
  (0xddad6bf0172e2240d57180ff0b1ba76e28e6bf035dc617ccaf0d4e79e330c098,
   0xb1371e6935a21897530a4736125addafa333bad2db9d1403e5a994d63b67b58);
  (0xf8f5dccf4c6a93d7a4a54daafaa3449aa87a8069875405d43725c5dce392d805,
   0xe58176cf66d63054389d3e336461327351f3da64a52143ba026619516cda02fa);
  (0xa118b0f24bc45d9c9b317fe248af581ffd42d88478182a90aca7f0b2ac51d8a6,
   0x698b53fd0f7e1798df7b25ae09464d6a81922408e376967d8621b55d5c87b030);
  (0xfcc8ca2e4e502d2ede9ec29566d715ea7bd24be788828675fa42e8729cf5250e,
   0x30b57bcceef8bd04f6b9880a8b34da5c9046bc05c03b2120602e0fbf730fd4a2);
  (0x24bbe05bfa35ddc0ee9a4b43cf2e4e3af349f675d2af3c3d2318aa0489a95e03,
   0xd49405ee090a22cf17182d4dd2760faad40aa52e375aa14987df45ed8d793c4d);
  (0x6d28b6bffd4daf313f85eaad8e4d71b91ca631161f99218f984a23176f922dbd,
   0xaf39d905141dd2fa40fbe1a61ccb4a1c4c24e9f0b84da29944abff02a0ef3cff);
  (0xd131e661dd93d815e613947f2d302f2f50ea585cafb752509789404fc4fb240a,
   0x34342c8461a95da2e79b4c37f48f4fd47423d4ebcdeacdf422f60e1402501a57);
  (0xafff5af92c807615712e02810be246a2d0434584477fe2e867e5fdd7b8087dde,
   0x659f6ea22cd060c2099a747ee10a2a22aacf175292ddabe7178346acd44eb3a2);
  (0x8437a7cab8f3e67c05b8000a73853a82e89dfdb368bc666999fb69a100371f53,
   0x968fd75882812a40735483f43819bb8e10e124fedbfbe259248872d7879cbbab);
  (0x7fe36b40af22af8921656b32262c71da1ab919365c65dfb63a5a9e22185a5943,
   0xe697d45825b636249f09f40407dca6f174b3d5867b8af212d50d152c699ca101);
  (0x61779471478643436554caa343adfa5aa1dd10b8a60e47c0336dd1e7c68278c2,
   0x4ecee7d5a568791f03bff005c8986473327969992317a1a69d03ecb2efabd2cf);
  (0x521cf0cd89729d1a193d8758abf96019f7221aba0101b56baeab93965a7d9344,
   0xd60220dacbf9e9bac583fe0ed386371b7a1341ca5a95fba14529f28196b7064a);
  (0x176c11c1328ed07b562fc9efce42700bbd4bbdec1543d1a70b3184a32b3fce8c,
   0xd17f8dae934b8a3589592180b7de3b7e5c5d842a5bb51ab16ea68436a3c9f19f);
  (0x6965b6384d7061e685371fe7ff26519e76bba9dda2aea7817aff4fe1fdde3445,
   0xd1bcdae39c482511325e496638732dbef47ce6051a5f99d97cc4389e18855113);
  (0x9ba1e12f974ac9f39ba834fcb184097148526336679189f10375c0c6edee30ee,
   0x3d2f132311bea6c277c3eea86a877be62067ebb8c7d4f388a96b83b67b43c5e);
  (0xc90ea1fbe9020055485b544d9567e8635a1658f6d17c5b108afbc67f51c57125,
   0x5aca66c710ede6b19667af636e660b1b6a3d07d6de19a69c669a504defb8d94);
  (0xa88b8f77c8962303d3a1bb4a48c105b9cf25089f822df8fc1bf1f2dab3cd7fe,
   0x15b63b6905525ac21d4d29d246caa9900c491c0994d7154c6a3bd234f1661fd1);
  (0xfbc341c8c669d7632ca9f0d41bc43dc1efe47b273b95775258fca6c4d9aefbd,
   0xbd8022632f360e3fe4014b1d4957d3d3950b069e200a9ff1ed3b6ea9d3e71ca0);
  (0x829019319d8f776a2dcb6c352620546c54dbeefa7c1e27f7f3a6db8a73e44b54,
   0xe6a26e713ea8fa1d65888d6eac1dd9a09f47a0a1011354846803f5e4fe5fe6ac);
  (0xc48dbfa12299cf2a444cd57db517ac92b41ca518e198a281a5e743ceea394a20,
   0xbc83cba00e1380ba64ff2e411bdbd6cd9440b125991bb5e24a0580dbea77a75b);
  (0x987f256d58cff9373be71969fc3a9301e8f9257ae57fdc00cd013f88b049e7cd,
   0x8e92695694ec505ce860ebd60007e39e47b4605207aaffdbb7254bbc6efa35d6);
  (0x6608c243773c85dcbc666b9ba97323b234a8bfe70a2e3338c6e3197aa3fe67b2,
   0xa1a916bec521c168846f640da746e03fc22b159f40c543081923fe5ce5b47a28);
  (0x70c1fd6918000aa99979bc856e976e5358bc6e018be062865fc1209b0378bc7f,
   0xf7daabc20d5bc522aaedf6f122428543f5a9f32f61e1cb0d6d68171ca6aeb856);
  (0x30ac8e52250d76b2c0733fdeacec50aafe32c900bfb0192cbc63b9f4e77e03c2,
   0xd694b530c099785e69aa6584002e77a06704ba32cd8786dca11914fed1dc3f83);
  (0x5bb99589230a0df5ef5a97ae7339621236bba6c05ecdb6af2d86a63c3e689186,
   0x189e83e977ed31595724d461a33c413e92643ed05bc1dcc4edfb310d1be3a018);
  (0xd8de765227b7873763de93c34d8b561cf73a835fbb8e9c71c2ebaf8017e55104,
   0x2fd29465be13f2d15c4c628ad1dcf924c2f73fce1940db1b2a02ef80e52e08cd);
  (0xd03eb26a9a38b79b6020f71756a0a320e9227bab9467b68f06eb9409f722a81b,
   0x50c5fcb02c21a3e76ce057045262d4129dff1a286df208f595e25f86d8a85767);
  (0xfe4091010eb8cda72d3ad94e07c7976fff6986d6f1790dd7e834110d03f61c13,
   0x81759c1da40403239486faf093b0b79f986fbdb99e1d973c3d3cecdbda0b3ae);
  (0xc90e300839dd58951e80957063154403cb4e6644c774364813d00c248fa8ee41,
   0x62f504176d19e73c9c0710c6538403625045534717accd6e47a63667c3d7c1ae);
  (0x54ccc9415026d73f20a845b72a58e5b18bd27f198542a0beeea6bc92071e5c83,
   0x1c433f45b45145323a8f8715dad2bf22929e0bcc5d8ee496cfd08ef7140916a1);
  (0x29e34b1bed8aa8149d841014dcfbe83383fd5b1e946f64b2831bb80c01287c25,
   0xea4397df95eeb3a3c1417cdfccd96b25cf3a198b6e15a4391d23ad1d75a7e46e);
  (0xd2a076367c5ba19eea5b5f1d3c001919876f31533ab62409f3d5be3a53a3a383,
   0x79aa09b893b7fcc06643a0f5bb9dce305981aeff3f598bce65f2abb22e7e0640);
  (0xc56dd686b0fd846a66dceb631977d5bad505671ae1abb34a7748532d4fa43529,
   0xf2acaa85f3f1b263555d2c60a76b8c11619e467816fb7eee59ededacf9a521f6);
  (0xc5440c597814a47d9f6cc7d1513d7f38e40cd02e32847f01c30fb77122d32936,
   0xd27ee9ba383e1fa72edc1e1d23ecf4acd8a6d28631e41e5d9a42fa3747cabfd4);
  (0xd07e95892daa15afff3e42d52f5bab12f165803dfbd492c0cbe1a18d2c2e32b9,
   0x774e4d6506724528731f0769f893ef4e23ed98f15228e81e5e78ad6a2c1a4f5c);
  (0x437f6e07b86fd8fc3a06ae0295829d324275a149e19d957c7601aeeef79f7b91,
   0x5fe8d37ca889f13abf38b8289b15d63c589a77119139683364b6ace375270033);
  (0xcecdff7a5cab844f79ca1e2a6483ee28b80a7c8a3447db8fa969ecfec51cd9c7,
   0x9323e54d2286800892af68819c7d0f6b0d09d06b645e5a3feb76eac729389632);
  (0x241c567a4227f1c506c79b97a6badca61c37101cb8971583bf9f4172b066fd48,
   0x40a62d93d4302d4b9363817c043203a48ea87138aea366057f7d2c6792857b08);
  (0x4ea220c78bed1c8d609077a9243b173ca518b52ea200446642ae5b50783dfb7c,
   0xc644dd2f1ec88d3a27417d9d954c829828c2a2b452324480e5d9e6e88415e13e);
  (0x9c8651ced75ae94eeb27e145f21c1935558dd9397551ce0d0f02e89487d70d2e,
   0x9532e363ad04e53e3bb36e293a2454c8f3ed01a82d75cf129cd3da9320f35d28);
  (0x298a401a6ee92414a708fbc0a52e5a71e93e7ca26bc0ec3617a4f678c5d62af3,
   0x18f9a3aa04fe0466e40985ffc80c90df4866e6b9604ed6ef94763ef0af0a3d96);
  (0xfa822bc2811aaa58492592e326e25de29493baaad651f7e90e75cb48e14db63,
   0xbff44ae8f5dba80d6f4ad4bcb3df188b34b1a65050fe82f5e41124545f462ee7);
  (0x31a8747df8dc746e4c13d030696080153fe448a57324591794a16baa05f57b5,
   0x883a2c64fda8d58660e8aa6c1e387a321431c18c42b8def21827ee579c0343fd);
  (0xa7163c2b9b973c17f9571975c0d5934a4eccac6096513cca015e2e65580b2322,
   0x308a9a797af31fa563389991545a6b7ab841a4f4e09952d73933b2232197ffe9);
  (0x1bffab8c03ab8279811b3923ef4b991f02a50c382db2670c6cb04a6a5c42a280,
   0x2982b620ceb1d098332ac758529f1aaa982a369aa9d24fb6c9c742364ddb9261);
  (0x54bc18d7a99899547ddc6988d7ee1b3f2b481ab443da43ff68f41305b76a6987,
   0x4b2c8c1211e6eaf37391b851ba73e2fd52eb8ed4bb73b119fe457cd05b9aae49);
  (0x1f380071781dff16f33d8173a6fb4d96ba770f18355cca4cb2a64c6196260250,
   0xb1521ec4ba6c681da33705176ca2cf621b8567660590d693b1519b2e6b011955);
  (0x99eba192aadb019f41e0be2b789273a058e6ea55222034f3ea6d95d177ae84da,
   0xfc4dc4cde1efbfd9f4f806644530184db630d866d7108d108da39dbe02155cac);
  (0x6d50856433968435fc5945ce21621e089d4e993b7604a5fa896bf7c7f7f96003,
   0xccf57357e968c6e7c6bc5d8aa2c7eef9d6c0d6dc8263a0d90271ccaaac7e969c);
  (0x1d35c9699761e3f285f248239267756f5194b85279f96b7c60aafad170aae231,
   0xc7226cb62df608231d660ab622ebf810edf58aa4729a66f15867063accd6ac71);
  (0x6f2b065a7800cdd89910e1c2a6397ab4d9c9823c2b473903501a327426432d92,
   0xacfeb77e5e7a2e4eb1472cf700826c5093bf02de33dbecb6d2d1c4963e17c9f);
  (0x870ac12ba3dd777468991da7fdadd0af2f3352569662876be3065e088a6edbf5,
   0x7543728b999a76998de7efd769d05a67d03c64022e5f297e1906d2dcf02f8ce3);
  (0xdbec13e6da0d5592a0bf5fef8034db346a9e8c749fdbf0f07aa6e46350c06af3,
   0xf859978fd619e5f8c0e57348b745e4d442243a3264edb6647caf0f7cb6d243ed);
  (0x55d9a959844b5aef388ff0f7aa02f29acbf5ca9aa567e0e65572aea8750e4f5f,
   0x69cb7f9aa5dad203766d574fbcc8ec524c9810c633ad1b15c858eb76bca97db0);
  (0x8c76689ba78a166138f9434c2f72e662f517323e3f09b5d30758cb4d57c6f8fb,
   0xcd3172990a409d3a288489b0c63d6dcdf0b11fc3136bc05f7dc5b39a9bcf2306);
  (0x3fb5909a93dfe46af0c6a4169281bf8746543768ce5e12441ee45f92ed69f1d5,
   0x549991ac0be8809f704a4e3a3bdf775425d35688fd0562b013d4fefe99a56cc5);
  (0xc34ace1ce5dd90408ae227e16feaf2537feabb0cbeed3e03506f1270bde7bc7f,
   0xe1ef3b3a009857e2e623b8be80166f12d6554299bd55a442aeb63980697806c4);
  (0x6e29f959be28c47fae5abca185755c08346924376f5412c1d4d3d2de4351964c,
   0x34565d9f500f32f65052ec6cc184246def640c527a0bfb63118824bd563fd88f);
  (0x8efa0f79b5909a0b10cfa381496e68943b09f0776ed90cad61e0f0efe5e84da4,
   0x242418e7934cd6139fa46f1c5daafd1479957c4897816035fde19f42596969d3);
  (0xd0d4af73cb8fdb30b9d6d6d0f360db2f1f8973e31eb3f3974acaf2c0023ac4ce,
   0xed90f8c8f15d7ddcbbe9ccee3e52953061850b1c863aae77e3df0360a47dd6b9);
  (0x829b8dd0ed5452e8a6d6f71b65b85f9038d1d60251256eace399da6192397d42,
   0xd300ec543fccf46d99e73c8a896241af5c5adc4263ad1a5d91b71631e3df5612);
  (0xff046a9eb2bfeed9c00f2ef0796f458ec141c259a845631128a7d4110cb71280,
   0x432f55acc0953a170a01eddbdd4cfcc9012b6e6ebd28487a7ec3271f5ec33919);
  (0x5890c0f334ddc2b08fabbccc41287df4011745f856de35acb2bd41c7b0b3da07,
   0xcc9eac788b1d9c045e4604fa4f79272655a279ce3e2a8166623d0ae88d3813e0);
  (0x6eec95670d54650cc14b66dd02436893ffdc67942d666817fdc73e83bf780c2c,
   0x14bb5350997732c2fc281de065ea010579ab66153a07ff89089ec1a1edbfcd32);
  (0xa0e2410cd09c01a1b79470f6ad3da82908f69591eeb51bd853d6d6e9019fc555,
   0x1e29648c71bfded42ac3b57ba5b2fe898bbaf19f6b667930cf340818c1ac6d8d);
  (0xe486c7dffeabb058c1f9aa2349ee7eff8b2c7e63cf570cc5c7d0b24cc5852e50,
   0x51fd75ed5606a12e9ee88a5c9f51e05a694463d63392ebd866ba3cadaecf107d);
  (0x69a16e245a5fcb8821ff1441906276e963ad9e86c339d0ea74502ca378692e20,
   0xa7c968cd891afc0106f01e9a4cddba10113d28620f7da894996e69a9b3116c8f);
  (0xdcad8b2a7eefb2c721190e12fa0e745a7a39f95bc79b0d1747bde79706bc8d71,
   0x8bf1287ab91faf9b2211993ce07c0fa32726c4077b717b56470cfe2ea297fcf2);
  (0xd9f8b3771d318bc54dca9848228c57c413fea55aad0e2f87d7273629aa99ad56,
   0x7aad641f0d22377c6551557fb70a4a3995de59a31f63cb4d4e919385f5c61b9);
  (0xf41d7f4bb5e50430cfe08cf8b5e2ee0ab63b9998a43d1fc584b6b8ec2b519178,
   0xe6a669bebd9af8d6f1046de3faa82347ab49acc36919e1f9a7a1665dca6a3551);
  (0x3b2369ff19ddd591f85bc3da3881ec450d80e91bd6616f3d2a937e108f089b4b,
   0x5df102ecb29a762c2d22213dd27d78763970e7b02723e7c1f065556f67f00f4f);
  (0xeca3eef00455b406c7661093249bff8f997cd06e999c1020bb180bc7b8352aa1,
   0x9e6bc281e78c25b8f6b863f37ca79007a8359b399b78ed2385f3ad39ecc12ea3);
  (0x5c97699d44b7daffcba214b7fb45ea98468f41ce1b0dad7bfd94a8b61a93d03f,
   0x4737a353a4cb0fb1238ff9a6ca28f2ec20680f327453615967499ca90e6f2ba7);
  (0x4a5b506612a677a657880b3a18a2e902e9a521b074ca0141a84aa9397512218e,
   0xeb13461ceac089f1c42604fbe1627d40626db15419e26d9d0beada7a4c4f3840);
  (0xcc8fe9ecccdaf543521473143eb337c5da74be4d8455b67c1b68edccbf8d5842,
   0xc2a5d01cd9f2fc3f75cec6140b91fb775df1592d458677c8567e1ac9487100c7);
  (0x11c881390823d8ce8006b50f37e8626171b0b96cbc1184de23f389be0c37da54,
   0x82f5ca516726bda3a42aaf13caf61ae4b3e32b21384d2adf567c651408ee3df5);
  (0x9c7a4efa52a32680676e37e7fc8b8d71cb4cb3a72a5c98ea355c95a1fd698f73,
   0xa2c4a71ab2150c7b16c424c1d0ade69b94b07cd5ea879e7c122443bd120cf142);
  (0x2eb3910bde2ab995012c29df8bbe0f5032c3b2574328e5f76628d837008e2df0,
   0x3f29c02337474b3a77d37d348da4999f9540d120ecf65f490910cc4ed274eaae);
  (0xd32e851a25c965c2fba2f5bdf8f0482610ec719690525db1fe39d9aca1dc428e,
   0x6bec05a1fcc5d64e45cc6d22a98a834031f58d904694f768b551d5b501cfe158);
  (0xe644041c2ed2cff4f54d0746449c0331c681312779800dbf71fc28e6e42f662d,
   0xbc79ffb9de665acf4ba0050d00c7b4d052e1678f917fd7c06711c11d66e6d591);
  (0xa626c3f311cb5315b59f52272ca6064b4c287dfb6f6e6aaddd030872b7314c65,
   0xbb882a6b990ec04cd949b781e9efc624ee365bd68035523ab6607db5a63f1919);
  (0x7ef2ee3c5c792a0c0fef6335224d9428a7d2c98f6743333ec739a5ea3ecca7e0,
   0xafb6862730acc011a4f67f51d5e609db81b21450dfbd3d20302b22dd552ac094);
  (0x646472486e68db193539def6986c76b5e880be50c09223c6db02c92ab896d0f,
   0xf1f4ee22fe7063bbf2b3f5cef9047cfedb1b895dc63b4f9090d74508a4f528ea);
  (0xd42e1f15292fc712ea713544ff03fd17beb467e384d570b699c584da8d5825e,
   0xadda2b0a21f69acb2c1f17a55a85ca7e0c4cb2ec4b4340cbed1808977a8946b3);
  (0x44dc4d9e945c7db20e19d0c28f9ae7518c3b0da6f68440e7f9c18a469ad780b2,
   0xdbeb918745c2f9c9f8fd19dc683f5f95b47775e1c2cec39d91437413ab93b11e);
  (0xe51416421640aeb57802554eb5fa77aa9cb53529975e04a6701f090ec49e853,
   0xcf331cea65905469278eb4a53a91030df568394190c9ee36336e3d1376405cb2);
  (0x8525d0b3ef76314283d8640f8db563d543e17e0a2710f1a2bf7fbadb5ab7aa65,
   0xe63a7e111f91fd606cc431c1e676976d0dfccc1923f092af9be830fdde8648c);
  (0x1b3e00b320971112b39e7d7665bc22d4d8432893c3d8180f29dd16ed044c1b21,
   0x9b442543faf3e2d2f11325d9c0df76844fff41a9f0b6a9e98de24014b7f594c7);
  (0x778468f5252b48e4899db93959f2e87626ddc475bbfa75b7c828bbee5ab90065,
   0x43341ab10eb39ca06f65136a7f01e2e927bbcaef00acdaafc8f76aa2f2d79ff1);
  (0x224a02299eecc99a0634a786f116445779c3bb5b5501d267f0699bf9e2f2b734,
   0xfa41a8d29b6d22b4149a08ad871d7fff07b704b673c7afd0840f585491ec7fdf);
  (0xafd35b35bea5bda1760f78b8af6b2261e310d10e196e11dea8df3dae1991e607,
   0x3555f48e204e99496d8ee266b81ec93bab7d9872155af415e0b73bc4308126f);
  (0xe5ceac4035eb4955a0c7cc97b56175d505174da42f93e68f7e16cc51f0b9a00a,
   0x660cb9301fcd56b9854a459c3396d1e48ceddb7586fe794f157ff80e67984a57);
  (0xe415c462be679028ec64fd2a2b75f9c944995a27d329c764f556db22343750b,
   0xc3056e7177f984e227bca21077f8cddc6ef691a45ff7ec06a6097c15becd56cc);
  (0x4a89a61457374b4ccdb5d111b56493fe167d5ee4d1041ce2ea6065ad7789b84d,
   0x45b04e87ed480d5c08c2ea979fe677e6a72e280634711999ef9b7d7f018e3ea8);
  (0x55b66e6dc586296f8aa4bba0ae54ddc73bdbbc488e7cdb0820049d0364e11f7e,
   0x9043a91f1dd1419bc386cc04cca223ebccfe610621b594f904bddc671c77d076);
  (0xdb3ebc91cdcb79a8ab1d0013a1821a0b06614d6a97448f012046400ecc4bb506,
   0xa95a64538a676683af1a685e85539258b21826f5e8f7d202cbdd181f49b3e60a);
  (0xded37dd152738517b92174e3aa64a3bfddfa9e91c66ab7024f5c2279ade5d1b1,
   0xb14e3c5a84e78c402b3caab3824544b8f43b076d5912844881cc777712c778bb);
  (0xe5e892363a31885cedc2f995f36d1f90ba82337d0b1fc80d3438c84a72bd05a0,
   0x77439de4da1b87d21301eb01e79b5c3eca73995b9cd099aec936de2be1a69f5d);
  (0xc827ed763ffec8d144d95fecd3177c78fe6784fa0f696a510c665cf973b4df41,
   0x1e4c4475f2da5ed560e17d7b66ef3cd3bfe9a6106c0047b32e5b6a2380f91f4a);
  (0xb511001491b7465725ed93eeb3c1587d8998961b956e7dc2405904b346340d60,
   0x9c3981f431fe4c4672ab899ef769f9788fb582b11859479168cd6178653ecaa6);
  (0x60aacaeec40e84091cb2f03148e4774ec12883ed0e4c688fc193d479678e27d3,
   0x9677dffcc5def66dda54f7c803de04ee46d400783a680f4bff7c610228c4d2de);
  (0xe4107e431e221f5071e7474104fa90a45312f0c21fb084de21579992fab5c2cf,
   0x1e5f11e6cf701c9a3948c668741c2b323c7892dcff7b2410d028403f2b955c2b);
  (0x2d5295db41e6f839a757f11164d63319a0654d2666872435510f99b4549e7a36,
   0xf98acf28068072323af16cac763b38c6ea7b44f99730ba3bddb68195ce32eb67);
  (0x3877152e0bbff37eff26ec4601bffcda32242bc07eb98697cfed817743a29747,
   0xcc70a7f9014bc61abe16116cb99d37309fbd1f6ecffee641ba573e25f24d4637);
  (0x437a6a6e40d04569a67834270a8e16495e3bffbd135ea79f59469a0606bba654,
   0xc2911e15587f2492ab24825ff34dc5a014a7c3761938d4103755406037a7c0f3);
  (0x447d739beedb5e67fb982fd588c6766efc35ff7dc297eac357c84fc9d789bd85,
   0x2d4825ab834131eee12e9d953a4aaff73d349b95a7fae5000c7e33c972e25b32);
  (0xa263919b4945a1d447501f2a3c0804c3802f779ea7f6803aeb0421211a6b665e,
   0x873200bd2aed20fc2e9d3c9de60d60c5ac3f83df4c00efe29ee4040030bcdcfb);
  (0x2890d721e57e196118e63add579547f0acad16e63be0aea8f6f1d3ac4d771f0c,
   0x69b5b8159ddc032aaf77e1d1416752ec7dc0e7f77ef540690a5728ecb5890d78);
  (0x7b8b8867dd4d9c6f81690628033de305d4e3ff5e71da17814f5822efac7e9e44,
   0x8bc6273e511680b42246073c7dd5adb564057e6dbbd723650767022aa8cd12c3);
  (0x9022e314949ccf3e8937542b8cdec18ea2f8d5618688ce241ebd8bac137de736,
   0x2fae5e4f2904a39466d0bb045226ce087f49366c44ea7657f4ef5c0844c42ecc);
  (0xa77663f5fcdf189cc2731f7801b1133ee130a96964396297872e52cf757a603c,
   0x4e139cbdaddafc58dae982fa5476a35a8ab86c568cbace48d91745804ca8e468);
  (0x1a7098d2db889a1112911d2965f2870ea93d696bf79b5582e83e2130461dffe4,
   0x39d474f5ee8b69fae5a42c936f76f32768682783de26b553f3ba5eed161315da);
  (0xffd92260ea330bb7ac43ff1f15417fe91a078f4b263234f284100f6f2472c9ae,
   0xcf4b93b0ba2111475999633225711e5f263d2e9c868b8a34a0cec1d866d03ae4);
  (0x73baff0419eda72389386cf2b5156deddc34c10619515eb5741145c144cd3397,
   0x1e97de634977ac5f6a00d1e8c18f825e779ef92cf826134941ef2a139adcb8e4);
  (0x6fb5456391ba430536ca35ada0f4871e140b55dc318d93bcacc1fd7cdfd83618,
   0xf663d87766c6b8a3ed3b68c52109daba2f1e6499aae5d33e3f39f5cb02430626);
  (0xd554ded0b2862113a145c7ebdf98e4b942d91e70b46ef479357bdb041cbd9a71,
   0x74b8f94b6c36708eff0f7ad45ac393145f29fea9a7a61c99a43a4a8b3c8cc32e);
  (0xb889d78bcf05f1c763c4e454296251719f61776622130485de82817f3be28c8a,
   0xbabb0b07fa511b9b182be4a975c700eadff631e5782fb8c33037fe51eafdf89e);
  (0x9cf646b91a4c25bbc974446c2976fb982683bec78b098cb30e2e5fb31fa4e33c,
   0x37b0624dc1f65a891e408e258b821f319e205827ebc1603219c45e060e0d4563);
  (0xfe251903a452329835917f8d5547844f6cae5469245e15f58c496939c224ef48,
   0x4fac9cac97ca9be0d836b9405a1b36a0455aaaa1c321e408ae6960a05136dfa7);
  (0xcc411e541368f9f2e2c3b6c3f6131016cec29f6bbdd3e7a5bccf5cb64d405a74,
   0xfecb812fac774584571527fc350186d0be4fc2009f16fb0d645be6b618d1bddb);
  (0x8c6c923cf1a4351cca356ef3efc35de10898022a45c4a1b196282910aee1337b,
   0xa1256fc84d40ff6a5efbb2319eaa8e84845362c1c6ddfa2acb451d5cd9c84abe);
  (0xf81f5be38b8ca534e8a5c7938d18df9e0d238966f74e1a6b826fadc0523b716d,
   0xdc7f49329c1f06df1d56d29d380e0328660758503a878330464002f512632401);
  (0x7459e772c29c4c3f158ea76280d631820e4e1a713bd0572546e0c52790789539,
   0x892bc7f5183444eaec7e8e858a2ec1a9383af5e04f7db3913cdf5a471439d97f);
  (0x2e1c7c383d7f8492c604c9f87d2efd3f345e4fd95b8881c4f4727e8c8ef2dfe7,
   0xc629dc2b09f0be266d9f4529ff7ea8f1c2d747d667b0c5bd3f85cca2c55e5f2a);
  (0x8c86799b36e7d519e63138a90228dc28022fc19d8429b019acebe833f2f21873,
   0x5c0c2c12a5a3e85d61ce9fe475a272d15dbf4306e861f0ec8905b7d7e5159140);
  (0x85685474d77e08482397f463e53cde1d022eca56c3915c978ed9c7e787354b7a,
   0x20b50eb50bf587b6eebc913b2a6f728706a891dc1fd6fdbd8954402bd16e04c6);
  (0x80ecab9f02b4cc6c691ec77b5af1694c45faf0843c5344c1186c5ae0464345e7,
   0xf424148aca6d55c6fb5fc8f83e19fc8432e500ca5bccdbb497a3de52e042e3ef);
  (0xe15d0f2321cecf4433f1c0b1843eff4f5d139a212f6bc03d2540306574362bd4,
   0x9a84cbe2707ec22ec1bfe039308be32623ed4bf8a4468269be6accdaafb46fb8);
  (0xe7a38889ddb5553d58f94187dc6d34dc5b4273b92840cc66d376b93b369f9c65,
   0x5437b5bab121917208e37b26192145bd58a22b94187d1ab73b1be4e0aca7ee5c);
  (0x1136b759c12b3b11b319e52d6bf9597d9e3607554615622addc6dc1b12378c16,
   0x7dec0fcf45168fdd09f0abc60fe9ecb29614aa28e751cce379f59bd0b3488127);
  (0x11f1f5738159984d086f8c11b6445072d95c410a18d0145fd0e6dafff34d3977,
   0xab98c1b579c0b985cb829f87d3a748c7937e953f3dc6820614bc90ea00154b71);
  (0x934c89b9aa1cdc489b8018b75e7d2586953b9a779a2e613fbe840ca84d6a6a96,
   0x856af4ffbccaf40a4516d6d6b31b2e9d107d2df0e2e4ca9febef148533d838ed);
  (0x4d00885c9a9df2158f5832665cda09c3a8030f018d3a3511febf5ea4acc506c8,
   0x3f853c3a9671c7f214c0474409fe88a145d17acaa56ce133d4fa660e1835aa2c);
  (0xd2bf28ba7c2a51a90f573a82589f18e07e50ab01786df709c762ef1943e832a,
   0xcac3f4313bd00ac7087a10a94b4e7ed27ec9db96055144648263af15b20d37c);
  (0x84feedc3620ebad8fbe9218bf89db7610b63f06c8f9b6856fe43bd70a38305bd,
   0xf199bbd5a9c7c1654a3f5b5c17da39482568e12ddb32c53bfff41ff86073bba9);
  (0x5d890886cb475bd421501871dfd7fdeb3c399f34f03e03f0582554a2a1faaf83,
   0x970938bd84a2f69a46b14def6cb0616d755b7179214633d2498413ff2ce31fba);
  (0xa6e1c5814699e69cf5d74845410e16291bc3cafc1640d35e0604c5b8bdff8874,
   0xc25ae34dfa827e624b1e0a9ef5a2efdb789999f3812b2141885d8ef93076daf);
  (0x8a535f566ec73617f5622df4373713269e4c35874afdf43aaee9c75df7f82f2a,
   0x455c08468b08bd737e02819085a92bfcde533864c8c7669c5f9a0ac223094b7);
  (0x4eafa17a88814d84d36e2c6048bdfa175799c8f19419149be8b043c401cd7f36,
   0xa47974d851ec201fee45531527efc47b5036a58cad4543d2c778c64a0b2d1c43);
  (0xc6122fc44fbfdb25cda9e496cdf1c58971dc987a8febc765cc319d54b96214fb,
   0xea205bec8343ac419031c9868877f91f08a6e48c1e271f8a3702bd8fb7adfff7);
  (0xb6d94022c181213724b4042c13019fda6f4fffddee86b987e97be9ed0e9d6b84,
   0x93ff3f41629287238634478884d77ad3c23273eaec4f382ae1bcaa0fbca7cb21);
  (0xad6090dfdcb41a019af7cd273da8a366b7a3030e99e53d5e9c837f4fe476c81d,
   0x77b5d1dd48f4c91eaccd75c2cc5bd8a8393fdc364f3048df818abc84ee6705dd);
  (0x7e4573da81bc84dc2626f6ca66f6a11f227f1d7586bd4cb5ad180dc0caed764b,
   0x8cbbeffd96069f25f1bb9fc93651b20b2fedf3c7d11e7fb49c83115f17c2f2f7);
  (0xaf13583cbf65021f7977aac8fc30c25f1a9c655f50187a3db5252b56c3f0e03e,
   0xf8fe31f81a9b57b3dbf60be46d83d6f8ca20edffa3e1dc84bb2f5bfc575ccb22);
  (0xda2535f6cda744d628e91651abe7add0b2a3a6939881b969142fbc118fc3fcb9,
   0xe756083c27486df224454c68510dcdd3ed8df5246a0960d978086193902a869f);
  (0xb6e06c516305bbc4e466557075b929fcde1adf89f510a848a52f2c3693c4a205,
   0xbdb4277c21b323f5c5e1f126e79ed73b63f99419a82a9f87537f4d865db36d05);
  (0xa61727a4f5f8ddbfe55703a07bee1e8daf3674c6d797eb1329f315f9fcdcfc44,
   0x3fd9e4f9b02696ade692d5a2bbae158c1b9010462f080f393b82a7f0ef3d60e);
  (0x27708f23e8bdb74f8c89f34b7cbf6a9e324a7181c96b10c893fa154a553faea4,
   0x575f186149caa4a4300225d66cc2c973fc6d68b3d1965bd1b21ade75d0802d2f);
  (0x7cee417faa66dc6109bfe97cab77ae6cb0844aecb2da65107fb5bf4597445fb2,
   0x3040efebe1e5b9f596d871e7f9cf0bb3a667e8569ed0e31f4fffcd61a8223a26);
  (0x45a511c97f608bf76dbc4189d991ece618c452b1b42a627f3cd5f4e4a9aa52df,
   0x73be0ec773ea9b6d3fe3337fcb625ad25a919b27d22955ce7b52bd12125ec16c);
  (0x4cd2a0bab6ace28a2bf7ca0444ab1b75020688b6b3a0e5f213cc521bf003e44a,
   0x6adf08c371d224056d1310756218d126bde2e7d1c97ea5d64993eca97b19c38d);
  (0x7451fe377b24776b323357a021c84544edc4e459a0829db27ad039a2f521ba40,
   0x16396435fcc70940d69002198464eade36b09eb9985d5439d0a61cd3e518dcf9);
  (0x58fdc0dfe5dcaa324a33a3bb84ef35ee9d08bab256a19046c47a8cbab3f4576,
   0x90ee3b9e9ea9e0e7c3df9b4606b8871e1e801392607577593a45e3e1a0110e9e);
  (0x20e118564880c79cb927e3501cf2a53f030b86e3cecac60728cf1ab99076f57b,
   0xff67b352ac437ef731bdc3e3fb6de9979fe0dc9b40e1b71e8583bedbada7afe6);
  (0x4eed0b4dfbb5c3073fefe10d9289d72b62df6c0f0ba0405b9e849544d4c20855,
   0xace0fb288a56693a1941d3287fc115c81136ccd32d34fe3f4c087a3f8bdffd1f);
  (0x42e0437c7aca84f70a45b1168ed12d20feb99f12e6a12de783d637e60524722b,
   0x2de1da0901d920eebafd84ccc9b4ea3edbea2a6daf54265a766939c81fea76c6);
  (0x70d96ccc51afb00c499ea8fc2ef48c949a7cbf2445cc228c6f24fc37bcec904,
   0x9b915ef5ff0abc21fc61582d55f0e97753bdec7b34681bacf62f4db2a3ab316f);
  (0x5c9cc4f8723a027b0318ec7fdfd7dac93fdd478e694fd54add1452e899273a8f,
   0x84efe07a1dfed259a827589d3708af964f003675a11acab5addaca695ce80d6e);
  (0xe3ea757deb82767a824a072e4c20a4b8bd467275c0f80d40f2e4327bcfc91de,
   0x13f2bf92ffae215623f2abf6056aaab3bfaf0850149c5383145e8c5df582f54c);
  (0x9a6cabe1f8c78b4f154a04034f63c34af6bada2932f50e57c5f483aaa556ed7a,
   0xed9f5029fad500451de544fb7d555740feb87eafd12207162521483ea054a72e);
  (0xed19a56a1b59cf5cd880f08099a2e4dcf318de811d6a8871bcc2887a735a8087,
   0xcfbe683e6c3b56b630254512ab54afe1a98cfd5aae96da46e56ca0873a9fe557);
  (0xbaffd4ebf8a8b5ab46ac18444f3dcde3351a3a75556c6c4ae7dd9ab328523eb3,
   0xfa93dc5dbc95e83003a8eb3795ac09c24511ccfbf48b6ee1978300cd5acf387);
  (0xcafb6c8657874a09751a418ae4eb8eeee9817b137d07f1eeae03ad0f9d2157ff,
   0x2adafb1ed5c5c67a01a1cbb99ab4e2e09c6ab445913b9e0e16cec08173ce8988);
  (0x894890b2fad37ccb9a879a27cf8ea9a337d28a48a4bf795c4700eb8ce51b2cf9,
   0xd46800ff7c5b301188a0abfdfd48e438498e7116a3bc2ecb0d187ac835979d3b);
  (0x463d8e29e481aacda1697678f8b8c55ba26e2a1e94139936bcff60267e460d62,
   0x400f734b7ae2a66ef1fd6c6724f852968f9eac14da469b0a226650888c11217f);
  (0x6ad2a098fced766ed22a34d257e4c96479f0b1a76db3c5f835208d8ba111101,
   0x2d5b8b1c58f85e3559a4c01bb9eb62a0de429d82b70e89aec1a7ba9d5fb37ef4);
  (0xf657e9015f9855a5eb9acb6ebfe5941a08fe3cda3b36a5dc2b1f0bd0f65bb830,
   0x8077a8bb3bcaac496dc83cd25da0e7ffc2abba9cf2c8e35ac3b9a74d87b193fb);
  (0xe46eabc9f8e2f20cf0ef002c94979625855719520ec5a6e7db47ffceeb3fa150,
   0x2532cfc894c18963adb002810c09fc3a50f68cc24c227e4bb934894c4a0b139f);
  (0x107a4485aa07fe2e14bb5af4516750f0e06a970759acdc147724967e5833c4be,
   0x6ea22142b8e4d7cd813794ec48e680074d3a4fc91d760c4a6566ec48c87c80dc);
  (0xa6d39677a78492762736ff8344315fc596439591a3c6b94a6cf20ffb313728be,
   0x674f84749b0b881666b8babd2d27ecdf824a920c2284059bf2bab833c357f5f4);
  (0x3f06dcd2ce62e80d4a661caa2d2a108675f3b0caaeeadd251583948c5974bb08,
   0x8bc2550ce1922db985807be931d9b2e831606905e88f53e89655da995083c99);
  (0xec61ff29918a1d05e0c05b31527e97b7eb3228b94bdc794c1c101b8fd5c7c27c,
   0x2fa1d3dc1b257a1d0960f82c7759298fe3c46c47690233dadf01167d9ddfe51);
  (0x9a79bfbfe71e347f4d6c6698316797e2f5ac2a3900f5abf0c409332de46e2050,
   0xe98b4de6d316e200b6f671f3b224efa9ca94faccb6dfde317a3f4781926250d2);
  (0xac25da80089cf4e033d4db5710ff5936fd683b4d0dab013e6eef62ff4514c6fd,
   0xebc69d985cb44c7b883da9312a1b338c810983e8243bf37a60b5397705830541);
  (0xb467cd65660c13b84aec42b5296bc037c1e6b5ea71a0d289b456511069962f3c,
   0xdc91b9bc4d36ffeabb3f5d2a011664ac3cb212df6cbda472f75584cb22877596);
  (0x92f9a6f93fa37761979280de26da6cde08533abeef2160f4919b1597b43c7e8d,
   0xbf618d715147afe8ed41d3a6f5e542df7309284ecea312897746055552bf1285);
  (0x5ce4fd836044baf3a1623065bce83b11fd7516a5b209d887d79a7081afaefc6a,
   0x61042108aa50f3681e31bc1ea832c7144abfbd4ab9e4acce38606dfbbf9db9a6);
  (0x285250edc3bcfcd9027bba12176d343a26035672d5b4a81155d4e37a2fd20bae,
   0x7866c086f4ad7ea83f7284ad1046c1716e9b1a2cf1eff323f9de455a54e0ab97);
  (0xdbc091d89944b44eb651d0cc325161c03840e563817c6662f0f2efdb220ca9a7,
   0x92d80eaae8567952d57926d1e4aa5fc6367309fe96192c84d20588316c8e76b);
  (0x9018baa11e938f23b322489c6ee06d88ad3a6dd5f518e8d7d6be4fd07ef7d72d,
   0xc9c382d871f9c6c9e8c147f743bf00b74eb56d8002736aeb1267044fc036ce68);
  (0xedd513bbfef3fb2463336038135004a3dd2f1e9bff60a8a607596c1f536ba602,
   0x257b598c3bb3f7a97c592ca290f0188b61854d442da5dcac3b8086f945dbf993);
  (0xc472c1062ed0366f818debc07ef8890e1fc5147dd0dc267c171f3a2a3e07e4f1,
   0x41820e01945f70e96432ab5a84d667d885f3b7b1e22b5d8a571c683d86b0daa9);
  (0x454e27cbfa01cbe542cddf6fba29971ef8c49096987f88efc0512999fa863437,
   0x134a4b214cf01e9e9e7e5f8f2f81017c6b8d88d5c651b986179b00e551a6bbe6);
  (0xecfef25fbc3698c06226d5629c51fffb94130623c2c03173828179c8084a599,
   0x8132b98bf295f2c0b2471c839f9a7982ee9d57df992f62b23dcb4c13d520e922);
  (0xf11f5d1ddcbbe3469ec2c0fecc2f9b18075969944b3b7edb644630ba41330c21,
   0xd20045d6570278c2b3e3750f788716610caf2cbd5792771554e06c7749ee7ae0);
  (0x55d5398d1666432b557582c99ad534580101fb06a050e62c320f09c3839bb85f,
   0x576e229049ff8e2d059c6a9e8ebaa72ad90d6a7f1833d9e1f7f631184fed936f);
  (0x419a4f03ae7617ccfd23639585d56f8d28b1eb93fff3c118f642e95b4f491155,
   0x237c2d343a6e835b2e334b1484804545c7ab4a22074c68894b91ba6ad489bbc7);
  (0xa2157eb3dadf2828372304ad31abf75ec3e61dae0b35d0fcc0841ba9e49e8f34,
   0x817697da70df31d0fb42577ccfbe5a2064bbba35b187f4e1a8e983289eebef3);
  (0xdc386db7f409d9e0fb28652a88c376d227fce62d1df14515d4eb281c2d5c502e,
   0x526c6376cf20188ae7e69c459d7ad72b372c3db3cc760b7b23b47a257bfc1e4f);
  (0x884286463ca0872694febab24bfc3383cc268940efec85ecc62dbc9c32513926,
   0xf778429c01c2dd5a69660db365d81207ce0eb122ebdbc15a0ee4282aafb8a54d);
  (0x789bbeb0199b2c38b48c9ad4808a2e9f0f3d27b94cd4417f005791ea7c2ae635,
   0x14357e6199189bc68680b79f62f1217a7fef5a9c2ca1550fb781dfecbfe96db6);
  (0x87c1d99c5ead72de2cbc4a513a0a9bbd5156b3fd89b84639b1f11f16f529b1cc,
   0x7e1654c6985d0bcdb8617a6ca55ef683bb0d0eb2c5b275e3cf26978dd5a94d6c);
  (0x2800043ada0982e22ddb6c3ddc7f43d53719a8b66bb19be6f0f679f10b79847d,
   0xf99174667e82909b6c0796584a4dc3ba87058dbb8513ae9fe5b0083908d9eda);
  (0xb4958c4e21de21d47fb60c55edb925559eaa8520a5ed115e3e0b5d5ad4441fbb,
   0xfcd6e7bf996640efe5c041fbc38cb7e12db9f6132d4638414c7e3c9f4add7118);
  (0xa41e9e9ed5876481e77ceb19f84df2582cdd704dbc1a71c7fc4da1176bd00b59,
   0x50dc31723b30f2b6da4e1ed1efc739b85cd253563dd4359fe8dd28cdcf2e6f15);
  (0xc02a0f2e94cc35ac2c5f09a87d6886df32a6d94ebf58e793ab0c96ef401403f9,
   0x8ebaa8a18e491aae0f716d457c5cd473abb913066000adb521f59639a7ed80b0);
  (0xb8d550a10d9265571a765de14913e26b9a6c22e3eca47658a69173875f7a8d33,
   0xded908e0ed161c307d1790c97073e188541c3aaf586f670d1777b77bfec3abee);
  (0xd0e0919688e932b64134bf13b346027cd8a7fd0b7d761d04ac24e6436e12e1df,
   0x69c9a59fe7d1452b4eb60b691dbf867544cc4bd9846b8df6a6544db9fd28fbe);
  (0x49c696ad84a3a2cc66d8c6be3c064abe8f7137ddf287be11e27b29cc18dac2d8,
   0xfb7cbedae854b6df578962c7088dde4b4d0fec2acfc3e019ba5cf21de3a6aee8);
  (0xe7fe1a77506aebc71c42027371d3ac4795f5bbf94bf153888eb8b6730050f080,
   0x6a87c46d10e65daf1de51e7893cb5838f8edfb37676496a848c989da99e9e32b);
  (0x9e02fb86b5061741069f16f419b123085a47fd7bfa47b09505ec3921fa72672f,
   0xd622305feea9f183265ab8ce550b0c1e11741a026ed5c3deb24f5d49f4b7502d);
  (0x68f6b8542783dfeeeb5b06e70ce08ffefd75f3fa01876bd86a703f10e895df07,
   0xcbe1feba92e40ce6fbc8044dfda45028cf5293d2f310bf7f90c76f8a78712655);
  (0xe1b40c548c1c0d5ff3cf09cd0e55e541666623f172e992589d10531d80c15fc7,
   0x1ea8aaac3f384ff9f47d811207f4708f00924520de9bb62417ca84682a318024);
  (0x963e315dba2a02df4201bba7bc72a37ef1e49c2570989e56a25b597e831eba7e,
   0x5c02ba13c84a3935a2a3cb7c52167e11869d0ae5c0d5f13c3dfa4b328e7c79c0);
  (0x6fa2d990059943937be369478640da20b3e960fd626f217c6c38ba21348560a9,
   0x9eba0cc3915ac7e83754a352a6985c3afe39cdabc551c5eeb9609377bae52757);
  (0x7f9460a23d474b66c3b41d1793b353d6646bd35404739e0dd34dab1767ea1f34,
   0xd0d516778fb0618769f1f2bf8f076661c6ff815124e34ffc58bec2cacd9063ec);
  (0x2292b0887db3c979f796a57e0321efc800d59722771bc762e45a0052b8c5bdb,
   0x10b668847507e38270cf0501cf4185f634c8f01116662d894bcfe7b5207256f2);
  (0xf6a16b6054bf7ac1e01efce48208425eeaf7deb95dae05a07bcffb0d1840a484,
   0x716c92116b36d29159cf3e324c399409acdc817c6fe7ae3587dc4e6e638f9111);
  (0x948f395d3e8454456a3efdd5ad2652c1bc7c0ed17ff78b361617acdcdbc10ba4,
   0x98ba0006d11ae9b572a41300a1b5a9ef5a63d297ffd0987c1a6b40ca6da2be0f);
  (0x9c39cb60a33d563d2958f49f1b6ee94582f2d7a846967f0dcec9b4d78e6d8483,
   0xf097bf1ee493e51003d196b7bca16546bbade52f3dbe436894b3356f6b2c50fb);
  (0xcbc809ae94d7802f33e8a4eb3b323ed141067a6336fe96a71363784b6c7f27bf,
   0xbd9cbb0e18115c85d7aaceb5dfdcdb0507ad4dd8903daa9aecc69d63caa30fa6);
  (0x8bfbee24c6e5261837151ef349506cf4822c3c1cb43b223bbe5cc18760a81cad,
   0xd75127caa3409b590cfd289fe71be1518d9fc8ecacfd23766986b9515ff0013e);
  (0xb8181bc6badbe124c07879421041e8f176b07b2bd63afc5cc21115782fb33b93,
   0xbb012f5118cce7cadeef104be967dd75f9acc5b14bf627dc911a5e167a54ead6);
  (0x3d9285261122993897566e7430181e25e2fd65f1b1b173747dda97c55c38d4e4,
   0xd32ca0a5d468eab53ff057035c2869eacc0ab138197abc7f6faaef00c0ccf0d3);
  (0x5551c1b53b0878eae3fedcfbd314c30f0d23b7fe32845dc2d9de4a8bd4904297,
   0x2faaf850def03ffa2dc6f85e00e65a5cf2be7383db6967a6ddbdec1a85153809);
  (0x6a9cb41f4e7d95cd6bf7491e6ef96a09274b136a6beb56c9b1488fe58e2058c2,
   0xedd93d45ec97a96602b907a608a21208050886aa9aa7f367ea95ab2bc86b1495);
  (0xdab5fc7fe5706d90b6ac29ed3f203add378c76b944d45159245cdfd17a53cbf5,
   0x97f6cc216d0557b45039598fd8b4919787b15173c166c997bf8c1d4b3052fb1a);
  (0xf50b99b7468810b73a5a7dcf08bd17915c08966a2ecc1e07606304b1a44e8de3,
   0xe2b5061e55f18f0c8789973a2dedcebbe975f18d21721e854a3f3ba6db7f3588);
  (0x2a148954227198c9b09c743020a46e97d83321fba27ad800a9103a2d60dc749c,
   0xaa215a188974e422ea3c2440a37608c4bef92dcdc39b6f01f2e1f28ff0fa3cf2);
  (0xa5a4878f4cc4453cc7a3ec58a642c871ebb7d208e87bdcc1e0cc372dd962abc,
   0xf7148b2288b0dc574d72b14df29030175832a64c8e50a9fae85daabc9e2cc3fa);
  (0xf5e3efcb5a92f1b320feb9fbdd6c93fcceceaf38ed9768e793925b40128aa5cd,
   0x76cfa2899bf3de054e51e2dfeb07bd2b84e0a6f4b110cec9ab2799c7ceaa0fb4);
  (0x42531823ff5ed0b0d77f4880da0b0e07400f246c3cdaa859e1994056037cfb4,
   0xc90e8bccfae00f7e628ca4d0c8661faceea3e4f534ec5dd400b7325ed8775d23);
  (0xb0d7a6dbed426d40dbaa6c128d47df6637385a1378241662fd6e1483e66b5a8b,
   0xf652634815abf316fd1c0d687ef4a316239b77371572068bf6c4fb12cc550ae3);
  (0x40bf36bdea2de0a4542cb5c539a534c68723275964aa5eb9c1a74b282375988,
   0xe8b5b2b681dad75337d16867767ee3c5977abe33ae04f7f080d2a3d4793301cb);
  (0x3754e99f0786e2e13d70139bfcd5ce698be44e3392eb68e10e789e3ff0cdb59d,
   0x24c2f87496addcbe012f3c27206480db61019b6f632734f04239c0ffeb6a8499);
  (0x9bbf06dad9ab5905e05471ce16d5222c89c2caa39f26267ac0747129885fbd44,
   0x1bcc7fa84de120a36755daf30a6f47e8c0d4bddc15036ed2a3447dfa7a1d3e88);
  (0xf8ef49b4bbedf4164adaab192fbfb78c90599d29a4c5181f3ce59840d8490005,
   0x979e67a7ee97216402bbd77665a4b73a58f2128837deee671a462e83bd62afde);
  (0xbe63ab41d2c743f01b3a9b22d66d9101fe44d4fc2e04eba7eddeea19f87b338b,
   0x1f125f145e22f4758d3021bbb90b353b7053cb7e45930daf9d212f2591b00a85);
  (0xfc1d6f42b05d00e6aeda82df286eb6e2578042f6caebe72144342466113bd81e,
   0x6d2cdf43ac02382a93d74bd97fd76ce63976b531546dc8dc41e3d4415d7ee1ea);
  (0xb12fadf52943dfa54943fccb3b7893e796357686c10319e31ead3233444c0448,
   0x2e2459599b0f4ace96f8f6677b2a6a71d05e70332fc4df296575e76b369de57);
  (0x6054b2225e75b6a4be2df29f6cea3b793bf2d82d8d98b36858627e5e8b47e27b,
   0x6e7106f3b190d8edb0760cd1f574e0f81d789cf5afad1987001829e764ae4b62);
  (0x1ee7fc202708cfeb0c2bf930bf33a68ad086d4ce99a11e38d93ca698eb99805,
   0x9655cef01b024882124be02ef3455711811836ea35be799b09fd5f4e10eeccaf);
  (0x77b20a912e6b23135066e911891524bc4efe3560e3e92350b52dec8f375f2b54,
   0xa3dc291825cea3f7f7b10bfcdd038a72df623da1e850e0f1caa801fcd6cc67ff);
  (0xb197a2e1e67a44b5afb62de48adde6400b60867487cab5739912513c420924a,
   0xa4a03b30f39453e2566f385d67c641fc0f5f54efb8bfb340b9e53b38d1045a5f)].
Lemma nist256p1_doubles : doubles p mul nist256p1_a nist256p1_G nist256p1_double_slopes = Some nist256p1_table.
Proof. apply points_eqb_eq. vm_cast_no_check (eq_refl true). Qed.
Local Notation cmul := (cmul p Hp mul Hmul fa fb nist256p1_two_nz).
Lemma nist256p1_table_ok i T : nth_error nist256p1_table i = Some T ->
  exists S0, raw_of p Hp mul fa fb S0 = rep p Hp T /\ S0 = cmul (2 ^ N.of_nat i)%N nist256p1_gen.
Proof.
  exact (doubles_ok p Hp mul Hmul nist256p1_a fb nist256p1_two_nz nist256p1_disc_nz nist256p1_double_slopes nist256p1_G nist256p1_gen
    nist256p1_table eq_refl nist256p1_doubles i T).
Qed.
(** Multiples of the generator from digits and slopes. *)
Definition nist256p1_run (start : nat) (digits ls : list Z) : option (Z * Z) :=
  match nth_error nist256p1_table start with
  | Some T => combine_digits p mul T (skipn (S start) nist256p1_table) digits ls
  | None => None
  end.
Theorem nist256p1_multiple start digits ls k R : nist256p1_run start digits ls = Some R ->
  2 ^ Z.of_nat start + weigh (2 ^ Z.of_nat (S start)) digits = Z.of_N k ->
  raw_of p Hp mul fa fb (cmul k nist256p1_gen) = rep p Hp R.
Proof.
  exact (multiple_ok p Hp mul Hmul nist256p1_a fb nist256p1_two_nz nist256p1_disc_nz nist256p1_gen nist256p1_G nist256p1_table
    start digits ls k R eq_refl nist256p1_table_ok).
Qed.

(** ** The order of the generator *)
Definition nist256p1_order_digits : list Z := [0; 1; 0; 1; 0; 1; 0; 0; 1; 0; 0; -1; 0; 1; 0; 0; -1; 0; 1; 0; 0; -1; 0; 0; 0; 0; 0; -1; 0; 1; 0; 0; 0; -1; 0; -1; 0; -1; 0; 1; 0; -1; 0; 0; 1; 0; -1; 0; 0; -1; 0; 0; 0; 1; 0; -1; 0; 0; 0; 1; 0; 1; 0; 0; 0; 0; 1; 0; -1; 0; 0; 0; 1; 0; -1; 0; 0; 0; -1; 0; 1; 0; 0; -1; 0; 0; 1; 0; 1; 0; -1; 0; -1; 0; 0; -1; 0; -1; 0; -1; 0; -1; 0; 0; 0; 0; 0; -1; 0; 0; 1; 0; -1; 0; 0; 1; 0; -1; 0; 0; 0; -1; 0; 0; 0; 0; 0; 0; 0; 0; 0; 0; 0; 0; 0; 0; 0; 0; 0; 0; 0; 0; 0; 0; 0; 0; 0; 0; 0; 0; 0; 0; 0; 0; 0; 0; 0; 0; 0; 0; 0; 0; 0; 0; 0; 0; 0; 0; 0; 0; 0; 0; 0; 0; 0; 0; 0; 0; 0; 0; 0; 0; 0; 0; 0; 0; 0; 1; 0; 0; 0; 0; 0; 0; 0; 0; 0; 0; 0; 0; 0; 0; 0; 0; 0; 0; 0; 0; 0; 0; 0; 0; 0; 0; 0; 0; 0; 0; 0; -1; 0; 0; 0; 0; 0; 0; 0; 0; 0; 0; 0; 0; 0; 0; 0; 0; 0; 0; 0; 0; 0; 0; 0; 0; 0; 0; 0; 0; 0; 0; 0; 1].
Definition nist256p1_order_slopes : list Z :=
 [0xedf513cdd372d8befd2a966caf4d4b58ccb2e356ee38b4d01f7b348d3ef46e7f;
  0xd46dbf5ba3fa590f3605a5504739c11a94867b68904714ce403c9315a0842878;
  0xf937cc4d9569ca7b7cdcb3d0b4a940887fe1547f05008b486fba485b984fd5f0;
  0xc01e9619bdc9a7eed9300753413b5532a256f9239979a6dc2d6e4e4d58169afa;
  0x9bc1dfb6a62a214a035b3084b81d8b044c0bf264cb5b09e5123feadbedb235;
  0xe5ef3f9cb5a98da54c52bc83357013dd2b65df13e625372742285ab707ddb7be;
  0xf8f931d473bc562bef76a921eec382ea1123bf1d720ea93318c5d4508170cb74;
  0xc4d63a759d8416503884ff5a3e024e247584ac675f649879639ecaa3d1046af8;
  0xce15d07f55f2d287f9be8b000ce4145aae056133054b0a092189401d2f975883;
  0x4419dc63a89ffc51b197f2f4e05ceef15b977ad264810a91ae31434afca27560;
  0xe7c18812dade98d58722ddcd60bd668e80fe4004f7ce5ba8581900bd3af74d75;
  0x1787b00fa15a8d17eef14c53ca59daeb372afe56cdecb54c65a55f86e0419196;
  0xf0e00243a3f5b7b8bd06b64cf64faa0e656ced97f50767ead1446aa8376ec6d9;
  0xa46bf7e66ca0d6e2a43c2d8349e9990b0b6ee3bb1fb399551ee024b422a7a847;
  0x8c51397657a040e0fc9e620c5935240eef245e5571aaff39665a44a51312d03a;
  0x776678f3833d676cea68d7ec123e3a44a471a469418bad70369e099862fc3540;
  0x8cccbb5ed81e98430312fd3d1afe9dde12d1e280df5f5a99cc155ea39de30cd1;
  0xc77d830ce80a044ad4eb617d8c38b5ff9aec2c9b8845fec7be74441b36f12ae0;
  0xb0b08861b0bb1a0398179e1909d9e8c454671f6d3ae2728444c5cd7383455bce;
  0xac6db3a1ebecd7ea81d6073807c55c78aa61265c9d8f9e29cfcaecdbadd06a3d;
  0x7b8f37edc177d19c92fb1d01bf3075c47b21bf8551e208defdc762e6c16e3b5;
  0xed435adae3c608948217aad3eb59220cd6b8f6ddfe11e1079bb5cb017073a9ec;
  0x4f4609a0dfdf6a9819f4d377b999e76707a834d183c8c02237c3a9c525801b44;
  0x248bb36d0d3bb18985cbf39afd0872bff467fcdf96880ce52edb12fc8bc96a57;
  0x51742aaa75c7be2d5ce70629b63777bc29ae80e143a62f54a3d0218cf3b12d18;
  0x6603e79f685ec10844692ebe432900044ccd7db1e68b2b8fa3270ab057695b9c;
  0xf93991a261ef6cf5bf9757f735cf4f17adf316efe4b83dbfe84ec12fd0897edd;
  0xa65ef1e278202de2fad29a5f2c771d6cafe34c75e9f6878e9b855ce67187d747;
  0x2e099bab577744277af21f12dc71d56a1f3798384d3ad2232f3d9e18cb489f2b;
  0xc64bf4f7545c29f3a59814d05ea8d1b83bb531667a0d664bb485bbdf39c19379;
  0x8e5a0ce75c7da85225261cb743bbe0517163256e74a45daf4d47498d70b9bac;
  0xe7ea10aeeca952b5745e2f64167e410201c8180b3e1bfe998792522a3a537f46;
  0x7e19e4f3a4cec297efcb676f1a97c9a716b7abb19cada015c2bf7a6980f9c9fa;
  0x1028011dbca10adc45777a7de0554d950b39489404f694acc9160cb1e3213e59;
  0xf0e2475e706d830639fbcbdc703521c1fb25a0dcf137f5857a88fe5f433dd931;
  0x723cc1adfdd93086247654f1f3d3fb9ab2fe1fcfb97c027c6b64001469069e11;
  0xf49d11d86ae6dc88b92af9533feb2fbc79fc9c88e64e835d0b00582a4dd77190;
  0x2d841dad6c7394a6c18419c8092164ba99d369f4d96d093611bcc5e47398caa2;
  0x1e136735c2a3d720d15b8c156fb9f238855b20abb0ef673fbe396823aadfc930;
  0x5a3c29922cb664085caf00a3b07a03b7eaee9f23aa0d553ca15f5d897fec9d6f;
  0xbce450f97b94409932a41d0b8a3a4df60f5d21dd39137cd241a79d6999e86272;
  0x59a6d9b54b5eb374c7d8de1c4cb1e24c06ecf524e296ff5abb1c4e69d3058326;
  0x8a7a1e6a10a8d11341c80f808b90f83798b0034b20c3a23007db86916425de26;
  0xa1fa425d52ba414c38648c67710f43f90c80f83c68c83d07b4a496218591538;
  0xe9bbe70ba24b1d8b49ae867aa5c4504de5494f1466f6e5af5bf7ca1947736d59;
  0x6bf4f47fb1b13138c4052505623a95c48195bff7cd1c9e9c880a8edbe5323645;
  0xfb6b879b84db47cc90526207281cbfbb5495ae3bdaee60f7aeaaa3c944fa201b].
Lemma nist256p1_order_run : nist256p1_run 4 nist256p1_order_digits nist256p1_order_slopes = Some (fst nist256p1_G, p - snd nist256p1_G).
Proof. apply point_eqb_eq. vm_cast_no_check (eq_refl true). Qed.
Lemma nist256p1_nG : cmul (Z.to_N n) nist256p1_gen = cinf p Hp mul fa fb.
Proof.
  assert (K : 2 ^ Z.of_nat 4 + weigh (2 ^ Z.of_nat (S 4)) nist256p1_order_digits = Z.of_N (Z.to_N (n - 1))).
  { apply Z.eqb_eq. vm_cast_no_check (eq_refl true). }
  pose proof (nist256p1_multiple 4 nist256p1_order_digits nist256p1_order_slopes (Z.to_N (n - 1)) _ nist256p1_order_run K) as M.
  change (Z.to_N n) with (N.succ (Z.to_N (n - 1))).
  rewrite (cmul_succ p Hp mul Hmul fa fb nist256p1_two_nz nist256p1_disc_nz).
  apply cpoint_ext. cbn [cadd raw_of cinf].
  assert (E : rep p Hp (fst nist256p1_G, p - snd nist256p1_G) = neg _ (Fp.fopp p Hp) (rep p Hp nist256p1_G)).
  { unfold rep. cbn [neg fst snd]. f_equal. apply fp_ext. apply Z.eqb_eq. vm_cast_no_check (eq_refl true). }
  rewrite M, E. apply (add_neg_r _ f0 f1 fadd fmul (Fp.fsub p Hp) (Fp.fopp p Hp) (Fp.fdiv p Hp mul) (Fp.finv p Hp mul) (field_laws p Hp mul Hmul)).
Qed.

Definition nist256p1_point : Type := cpoint p Hp mul fa fb.
Definition Nist256p1 (decode_compact : list byte -> option nist256p1_point) : ECLib :=
  short_curve p Hp mul Hmul fa fb nist256p1_two_nz nist256p1_gen n decode_compact.
Theorem nist256p1_laws decode_compact : ec_laws (Nist256p1 decode_compact).
Proof.
  refine (short_curve_laws p Hp mul Hmul _ _ fa fb nist256p1_two_nz nist256p1_disc_nz nist256p1_gen n Hn _ nist256p1_nG _ decode_compact).
  - reflexivity.
  - reflexivity.
  - reflexivity.
  - intros E. apply cis_inf_spec in E. discriminate E.
Qed.
