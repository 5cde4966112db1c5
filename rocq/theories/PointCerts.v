(** Multiples of the generators in the test vectors of bip0032/tests, in the SEC1
    encoding.  The digits and slopes are generated; they are checked here. *)
From Coq Require Import ZArith.
From Verif Require Import Base Sha2 Curve32 PrimeCerts Fp ShortCurve CurveCert Secp256k1 Nist256p1.
Open Scope Z_scope.

Lemma secp256k1_encode dc start digits ls k R bytes :
  secp256k1_run start digits ls = Some R ->
  2 ^ Z.of_nat start + weigh (2 ^ Z.of_nat (S start)) digits = Z.of_N k ->
  bytes_eqb ((if Z.odd (snd R mod secp256k1_p) then x03 else x02) :: be_bytes 32 (Z.to_N (fst R mod secp256k1_p))) bytes = true ->
  compress (Secp256k1 dc) (pmul (Secp256k1 dc) k (gen (Secp256k1 dc))) = bytes.
Proof.
  intros HR HK HB. apply bytes_eqb_eq in HB. rewrite <- HB.
  cbn [Secp256k1 short_curve compress pmul gen]. unfold ccompress.
  rewrite (secp256k1_multiple start digits ls k R HR HK). unfold rep, coord. rewrite !val_of_Z. reflexivity.
Qed.
Lemma nist256p1_encode dc start digits ls k R bytes :
  nist256p1_run start digits ls = Some R ->
  2 ^ Z.of_nat start + weigh (2 ^ Z.of_nat (S start)) digits = Z.of_N k ->
  bytes_eqb ((if Z.odd (snd R mod nist256p1_p) then x03 else x02) :: be_bytes 32 (Z.to_N (fst R mod nist256p1_p))) bytes = true ->
  compress (Nist256p1 dc) (pmul (Nist256p1 dc) k (gen (Nist256p1 dc))) = bytes.
Proof.
  intros HR HK HB. apply bytes_eqb_eq in HB. rewrite <- HB.
  cbn [Nist256p1 short_curve compress pmul gen]. unfold ccompress.
  rewrite (nist256p1_multiple start digits ls k R HR HK). unfold rep, coord. rewrite !val_of_Z. reflexivity.
Qed.

Definition secp256k1_k0_digits : list Z := [0; 1; 0; -1; 0; 1; 0; -1; 0; -1; 0; -1; 0; 0; -1; 0; 0; 1; 0; 0; 0; 1; 0; 0; 0; 0; 1; 0; 0; -1; 0; 0; 0; 0; -1; 0; 1; 0; 0; 1; 0; 0; -1; 0; 0; -1; 0; 1; 0; 1; 0; 1; 0; 0; 1; 0; 0; 1; 0; 1; 0; 0; 0; 0; 1; 0; -1; 0; 1; 0; 0; 0; 0; 0; 0; -1; 0; -1; 0; 0; -1; 0; 0; 1; 0; -1; 0; 0; 0; 0; -1; 0; 1; 0; 0; 0; 0; 0; -1; 0; 0; 1; 0; 1; 0; 0; 0; -1; 0; 1; 0; 0; 0; 1; 0; 1; 0; 0; 0; 0; 1; 0; 0; -1; 0; -1; 0; 0; -1; 0; 1; 0; 0; -1; 0; 0; 1; 0; 1; 0; 0; -1; 0; 0; 0; 1; 0; 1; 0; 0; 1; 0; 0; -1; 0; -1; 0; 1; 0; 0; -1; 0; 0; 1; 0; 0; 1; 0; 0; -1; 0; -1; 0; -1; 0; 0; 0; 0; 0; -1; 0; 0; 0; -1; 0; -1; 0; 0; 1; 0; 0; 1; 0; 1; 0; 0; 0; 0; 0; 0; 0; 1; 0; -1; 0; 0; 0; 1; 0; -1; 0; -1; 0; 0; 0; 0; -1; 0; 0; 0; 0; 1; 0; 0; 1; 0; 0; -1; 0; 0; 1; 0; -1; 0; 0; -1; 0; 1; 0; -1; 0; 1; 0; -1; 0; 0; 0; 1; 0; 0; 1; 0; -1; 0; 0; 1].
Definition secp256k1_k0_slopes : list Z :=
 [0x82b5a391701db61f5678809054594a583cc8b36b2a608ad9d28e6dc6eb6b1b61;
  0x61a68249cd0669a727a76cb5557ea1cf372bc8c4249ebcac6072d3ef3acb88ba;
  0x4e3aaca1f1f8cf3de5504e39bebbaff9b9dd7bdfc44ac85b0e03b7cfa0b215e3;
  0xbb2f8e1794979f898ee5126bb676ceb7a7ae427c01581a24dd2526c04ddfd049;
  0x9fcf05f69c0da40d83bbc8c409a9246ab0678ab4b44cf4ff60134e370c854b82;
  0x5f18bc5a1827324e32ea25b2821b0944fcb21d6f6473b7d4a6bbee3a15402607;
  0xfec93b6b6ea487570aa1d17de55556f28033a276cbd319e4c3816835f6cf4fdd;
  0x4649d8da491a6c6ab00c4882a7effa858391d9c98e5b3a2c1e6dbce293707214;
  0xbaa9b94bfa98facdac24027a433a1ae7a382b2420bbe94f87410f4a9bfbfdd77;
  0x4bda44fda6cd4ee42b1989be6151d1372532e682952e2354be9595e9954e60b9;
  0xe5d18746d5c6dfbe7322067b2e22e0e38672b5614d482232042da3af56cef9b6;
  0x562ca5e371b8c0acdc479863698a4d162c6dee9ff52f503b871daf3e12879e10;
  0x94ecc7ee4badc8c79354714e8e68fc1e1427617ecede16438bbf654cc8341451;
  0xd4a00d55f7c6fe1b227bf17a34506feb2c1b6e4d03877e846e9b01fd6fcedcf4;
  0xe2b5de26d053673597479754b86dd6ec93eb94675f5994364c844145425be751;
  0x7609b1227391d8ccb7d73722213db06e9e61dc69cc87f1e2a88a4ddaf1e7aa68;
  0xd22ba8cd6fdab8b31caab6bd85917c92eac7735655c7bfc8769acfc46db0d51a;
  0xc3f9d15f4b532a47e7a998d54b28c459b965a8645ba164da3b169ed4cbf2f84c;
  0x6a687e5fab285f3b3666fa58ee05509b2a9ce7ffa023bd3f8b65fe46fa0d5d57;
  0xdc9e0666f1ea82edf08b201354e84ac2367d682ab55e269092903fe171b2d361;
  0x400862b80a62d56a542ce74180b4d17d7588826a4b375078b0fb5a27ae287e8a;
  0xf9db53c87b2962b164f748bf68c23ba05f061ab6ad03eb391116fe3d8b8bc3bb;
  0x53df80f1607c826e4465c6b5aae05a1c2d94e9520f4cc1f0a9df4beef8feb5c2;
  0x4c69521eb545e2b276554e3ffee842d18d7aee2e6272576308badd885c3b608b;
  0xf400b9d5d0c2dbdeebeb128fb37d57ebff5ab170adc598a8cbf92e9031e75e7f;
  0x933e45a9818dcbd4daa25d815132b56afe6bccb7e003321de1847fd11ce3ac25;
  0x712434c7783ca1eea9d8608a9ba38f30b3851707b9332535331709b50e7d788c;
  0x7cd681ea3735067a69b971adcbfa6ca83d20c69164700d1fd21b18563c13ba8a;
  0x8d8950b70a7228a39648cd9c043238f95b671b247fa1f0601d9997c76812e95;
  0x4dd114eadc8aff00e754f3507f6c87a600fa78937ee52b9e259ff1d6d09806e6;
  0x9467c92cae45b7a85b253efdcdadc75f095de820e1be72288b3221a7ec0742d2;
  0x84702de8672f7d371e4420d576e10e5fd4b077bef708057c16351c49f67417b3;
  0x563784b0a24bce86934383279854c9f0a2c03684f2d7ae213e79f4d7bcb30390;
  0x785fe0b5a3872649ba56d686708077cd677f6bf64ae12a69084107a2e508c77b;
  0xbe75eaf34c0d8173b33e345e015e8acb31f3a6143ddbe158e432b47db2e8a905;
  0x138409cc3b3e582a5d389907a79a94be63c2c39063145d4edb1274b1d8b7e9d0;
  0x8beabe07ec340b5d2924e47ebaf326d2994cfc10d79ae2ebf017ab1ec288348f;
  0x56d41e1c3f2b59832795047166549483d4d171d9c8a5ee0755a1835f1bab358a;
  0x372612ca53d24d3b60603de8c7bf0020b1d8c31394c9b363bcc0aeed6c8073e8;
  0xa877b34944a38247c5276e518db4f5c188af3892d02357cc97df49a56f89bce3;
  0x60bda1754ac3cd65c10e3ff1b852b0890e9e2d86edbe4a70d3415b12c0c45f7f;
  0xa3cafab03fee76141394ec823175d8808f23d5ccef2cbd708d18c4b0512b3567;
  0x8d4b505e8accee74f0fca1d39986bbfc8353d052e439c1b5895ce1491c165642;
  0x66571ad3263d9dab7345851db798dd66c1df567d0ad3f3bc2858ddf87dfdfbe3;
  0x5386e0bb317896756a28550d0eefdc40dc887f93593fea10f916943ebdabd4b7;
  0x495fe40f6bde58cc291be2df6936b53b5de72e22945f8255e6a3b61ce636e706;
  0xd1915d93eb8e7f084d7175255e5e1e80e1ddb608c03e1f8fb2363baf7e66c55c;
  0x76ef576cdb41d09a8016af79b26ecb68f8df3b18110ef87988cf7f56bcc4bbc5;
  0x942f0dbaf5fb674e8f23bcdfdb9ef0858b4295eb31956ca1e21018016cc3fe6b;
  0xed227824bf97ca19f01d6512e12fbbc2ff6e7597fd3ea01edcbc87e74ebc966a;
  0xe222b538455259cfe6a0c4ac7ea1037774264ea0550537ad156f35a4f9bc8d42;
  0xcb48a98cee033346290551b5dc29c92de442e9bee3ac42a6bc4639bca601c350;
  0x2a229590d48b67ddcd90b1fde0715445de61360b4757b2d6fe1a36e828171f73;
  0x2a28b2d8c1eff147bf83418a02d9007638e3c44d5d27ce2ee45d48ce8b84e427;
  0xa13d467f431411e94ecf23cb88ea973345f8cb9517712f518701ae9088ea0f16;
  0xe160457ecabb16a9ad2f37532b63f6b2e76674b37092da382a6f782d97daea58;
  0xb472efdc5c7122233edcde862f4e90b64a84d5e31d4f7d16dee1bcc594f4caac;
  0x725797f97fe285847ffd30aca334356e7cc9b998a8796c61c1e44a92316db8fe;
  0x85161e8657264019f8fdb9e8cc1518e10aa68b201cf6f0230f261076dfad13f;
  0x135cf311b6f2d6211fb2c3b221ccd6910bcbe8016e9ac7672271a97ba2df9109;
  0xb934e671598110055144448a5195a5709b8174e9fb4264ac34efe883f77862e5;
  0xa46822861b25d00c047040b761072f689cc38b262971261b41b5358355e246e;
  0xaf18174a057dc043dd183776c3c457f9fe790d6d8a00589b37d73fac7fdc34ad;
  0x507468e6f97fe96279eda6ca66cef1b8e36ae4af79630bd8bdf5dc9eaecd6a57;
  0x7e2b58014d23cddc0a691894461396501d05b4db84cc9c37df457271cf48412c;
  0x76f08330cba010cecdc547c2caf292d8d7ed88830d656b191a6ee994e00c0958;
  0x3d3be054acd8c447b6c4537499e53c4d7953f92c4b416c5b2b37c3f16fc13ed7;
  0x22d23111ea7a6582946d92d7d37fc8ccc21b7a144da1fa82aec5540a012fbc9d;
  0x60e396f8a1d80d00a410b5d66d20a129ef0a73d9bc8da6fda2320a2973d71d8f;
  0x3247740db4a3b172840e2a116843de860a504374d314d75e50e44071edd57723;
  0x199c97c4fcda2c3791a233142b78edbdc63f3133ef70b69280ce05d3feabf3f5;
  0x4995a1809ea4efe9bfdbcd416bfbe31df391073a44c9573178d4c8645d38f12a;
  0xfe5a0748b64bcf71b2914b820f664c170fdd64af5e99e3fa632e662c43dc3670;
  0xaeb9eb35df0d03d9202dd4cf6baee2464482a02f05f669e45f140ed5f9c5eb7d;
  0x3509e3bc4343faab9d568b6e110ae4b1448e29c14122fc482cdd60533762dc2f;
  0xe4fae5ab2a819fb13f088fd5a2c042a55aa20f6623205bee74e852bcc09984bb;
  0x687ea907096d94a6db3392a1481291add7f8045866a210e18e904bf55ae7a99;
  0x52193a2805408a95cc8ac80c56ca835f1668cf887d09b9fc598de98d86da1c6e;
  0xef75e0ed633ee9dc90c2b04f7d22d749a2b21e7b4a13c233d85244114c55ec4f;
  0xcd8bc2609d7d044d7db1ed8fcca94c10f7aa2dc91f43d460a0d306cbb523e589;
  0x82d6285026bab64baaeacdda836fbeed9bd4c1ff94740ba09d16e8566629a7a8;
  0x2614cc9c6292c2de7ba41b0e04e0a1842faaa8fd296c8326ae91033e97c5bf8f;
  0x3ba2146e0f7aab14ef49f01162325a2365e53e952b01fd217e9dfc3c33ac8630;
  0xb2e666665ad8312e9b2500503e97f8039d608b93a6cd6e8b70d905ab59f8114a;
  0x6db5a8aa96f80f1b0bd71099de75e6633bd2d6c0cbaf85b9fa116ecc566df222;
  0x1707fe5baf218a661ddd769f4240c02314546da21712c8aa394b99d8c847c239].
Definition secp256k1_k0_bytes : list byte := unhex "0339a36013301597daef41fbe593a02cc513d0b55527ec2df1050e2e8ff49c85c2".
Lemma secp256k1_k0 dc : compress (Secp256k1 dc) (pmul (Secp256k1 dc) 0xe8f32e723decf4051aefac8e2c93c9c5b214313817cdb01a1494b917c8436b35 (gen (Secp256k1 dc))) = secp256k1_k0_bytes.
Proof.
  apply (secp256k1_encode dc 0 secp256k1_k0_digits secp256k1_k0_slopes _
    (0x39a36013301597daef41fbe593a02cc513d0b55527ec2df1050e2e8ff49c85c2,
     0x3cbe7ded0e7ce6a594896b8f62888fdbc5c8821305e2ea42bf01e37300116281)).
  - apply point_eqb_eq. vm_cast_no_check (eq_refl true).
  - apply Z.eqb_eq. vm_cast_no_check (eq_refl true).
  - vm_cast_no_check (eq_refl true).
Qed.

Definition secp256k1_k1_digits : list Z := [0; 1; 0; -1; 0; 0; 0; 0; 0; 0; -1; 0; -1; 0; 1; 0; 0; 0; 0; 1; 0; -1; 0; 1; 0; 0; 1; 0; 0; 0; 1; 0; 0; -1; 0; -1; 0; 0; -1; 0; 1; 0; 0; 1; 0; -1; 0; -1; 0; -1; 0; 1; 0; 0; -1; 0; 0; 1; 0; 0; 0; 0; -1; 0; -1; 0; 1; 0; 0; 0; 0; 0; 0; -1; 0; -1; 0; 0; 1; 0; -1; 0; -1; 0; 0; -1; 0; 0; -1; 0; 0; 1; 0; 1; 0; 0; 1; 0; 1; 0; 0; 0; 0; -1; 0; 0; 1; 0; -1; 0; 1; 0; 0; 1; 0; 0; 0; 0; 0; 0; 1; 0; 1; 0; -1; 0; -1; 0; 0; 0; -1; 0; 0; -1; 0; 1; 0; 0; 1; 0; -1; 0; 1; 0; 0; 1; 0; -1; 0; 0; 0; -1; 0; 0; -1; 0; 0; 0; 1; 0; -1; 0; -1; 0; 0; 0; 1; 0; 1; 0; -1; 0; -1; 0; 0; 0; 1; 0; 1; 0; 0; -1; 0; -1; 0; 0; 0; -1; 0; 0; -1; 0; 0; 1; 0; 1; 0; 0; 1; 0; -1; 0; 0; 0; 0; -1; 0; 0; 0; 1; 0; -1; 0; 0; -1; 0; 0; 0; 0; 1; 0; -1; 0; 0; 0; 0; 1; 0; 1; 0; 1; 0; 0; 0; 0; -1; 0; 0; -1; 0; 1; 0; -1; 0; -1; 0; 0; -1; 0; 0; -1; 0; 0; 0; 1].
Definition secp256k1_k1_slopes : list Z :=
 [0x23aa6835d549297e73edf855c6737308d92f7926b4f99a55add77577b876f8aa;
  0xc4ae11abc97b8bc48588cbe76c5d94e0df14c56739506362df0290088f981182;
  0x7c78974aa304687dd243cff0d98e76ea47fc667d6c5e2709e90144a81db681b8;
  0x5f2d8be155e54048861980f147247a8b8d7147e21745f2b3f2117ba29d6b6c81;
  0xcf5757c336df02a56b7b355aa7f4b5fdb985b57c2a945ef23c51b71ea2b5df3;
  0x5a9d578f6467e242487f962759c538ef827acaefc71d7c3a4db54fee635a224b;
  0x2a12c682709af4b4b69ab7518d5988b711f503588af76234b033902e9a148ebc;
  0x265604efae5b0b44822d2bb0ef59ced2449f8516cc7b8639a70c9d4e1a096cdb;
  0x2fee6bfae9abd4d28aafecf8c5fc37f9f17d3df0c357584faaf8c1517544fc54;
  0x8c6150641be7c4a7f66d02c3541535c1d77a503277d7f0031ec3bcf4147f0bd2;
  0x9386edc8a585d5cb8fae5edd409dac5247663085007cd6e18eef82f32054dd2b;
  0x8215665fd2feb4be69fff6ff0b859ecf54c43bac202c9b7e5058553d803dcd1f;
  0x7088a9253f73fa25bc0c4987bb5d8d4f9a42961f238c81147eae75e7538d272d;
  0xc0ba826253416fc076ea81f4439fd17c058366992a9f983a813663a888540c8;
  0x780f18fedbb783e4383dcdf3d95b2ae25de443b44c2e30bf799ebf6056477a3f;
  0xdf466ee78b85fa8621edee72ff8c44034d6cf9796d5e8b75be5712c86f541fbb;
  0xbe36e9651e9c286a5c902e9f2800ee01b827b83e886b51b09ccb45be681172;
  0x6e10a2725954888c62e7229ff0dc5077ec4f2f1514c1acae2a48a423e49d01b8;
  0x7aab26d7d4c9bbef656e4bdfc8349269f7c43b98bcb9b7bd08ad0566bc6df6af;
  0x308fbcfb5a657a1ce067199ccb07959b5423095bab2fefa83c20dc939f1f1e67;
  0xe011afccb056b67b91f2f40aee1e852b4b2b42bdc877c8540ea6f68c21e550bc;
  0xb43d55330ee9b685877585493199560f555fb9a69e5cf38f2d93f07d55d54941;
  0xc69d719fb7d6aed97c63b67007a43c832fd883d98bc08e860f8bd97189b41591;
  0xc12a08f78868a1b1d059e48129dbb327762325d316b31a72b9f64a81a3924e5c;
  0x7e7e56eb9c11f9bbb6a636db88dde795243d9ce3c5d8913bbcc95a63c620c030;
  0x8bfb12a1310c68b5091310f8954ac79ddd460b9fd64368d622835fe7bd12e8da;
  0xf17dad7acda7e647e53c3ebd12e33957242555d8f93ec1bc4e9f64a8c9359cfd;
  0x33dc22973a9e7f63309f5786aebcfe105a8fab86b223f1cf4dfb3bcc319f743a;
  0x630f4f05ed5b1ffbe88285d578cfe76542c6bde36408a379cec2ec71a9ac94e5;
  0xae6c5af60ef10efa9f233507e68d73e1bf074e7c30ea74aa8d192e2cdb41ebe3;
  0xfc88ed7160e756668fa4d980ab6c1afbdc0cefc9a79536698bc961d6733034c0;
  0xdcef31142bc0bd387b23b0556bef366d0c44d333ba3c69c488b16619811e4e59;
  0xb41ed045e6bc070469ff1f5c609b048ad3d632976bd1f0a7c88fd3849446fab;
  0x4c40e5e421ff9bdc7ff9c18da1b43a788670d8e2bc35cbb853f9ac72e2bccb74;
  0x60f8dd660d4b5f6f5ea44d74455e9c4dbf954ab07fc63083257a19b0dd1a6419;
  0x4d7ee555c442ea6ea08f6d5a9ed352674ac997ec4c569751a1c4573bbcf20f15;
  0x8901c39fd5f3183558e7504ba42dcfe888d460f475883163c64f77f23e771adc;
  0xee3e274242c12074fcb78905c77fddeecc3dfa11840ebe0760674a85d03f6aa4;
  0xce5bb74484b3a132ccae670cdeb67c4880a4aa5af76c57752d3218de7511462c;
  0x7eca3cd1e15a32cc631903590d32cb9d63fdb99ace1b316cd8fb1825dda1d72e;
  0x63d85fe407f8f46f02fce2e2d8b2fdba606be5c44e22e36d2f8230f466f09322;
  0x90f5c921e80985b54e91e6451469dd58ac4758a52032159bd7887d815945fc68;
  0x5fafcc731e37269a22ce4d3927a6ca0f93080cdfdbd6ecd4883e8280640860ca;
  0xe8744609f779e7c8b7ac18ac5e84293e71a431bb3c530b9fc6769284394bd266;
  0x2f04f4ee982b8d781855d08e5139ec7f4ac5e4440de1393d990d39dba2dd5e50;
  0x46a2d3b06f16b0b94df7f00eb2f1e0b7fd445169c4f7b6c5a19c844bc07202ec;
  0xaee0f8d4761fc474584c1b8faab094a880debd53eeb3c3719d9e22f4a38b7c8c;
  0x2219c4a4b8981e3e0fba1382d6270a7cbcb8162dcc99d94907bba695739d70d3;
  0xdba6df78ed7692ff9b6f25da2a6394946d98832d11206ea2e3397651ea5a475d;
  0x9561a75f5e93a77d80bf896225e3548b939c1e5223bf9ad48e148714261a8828;
  0x332d3df7e46f8ee5dea98b7ecde9743c880e2fc8fc281188d18cd372753d4317;
  0xa5fc2b9a922b796322b3f6579c94bf683da1c584557d893f9845d5f3e3beadeb;
  0x5a42a09e32eb06385430c590847127f4d0c076d8e8b5c40c1730771aaa98c5cd;
  0x6779ffac257c53ef26cde206ca4d7316de6fe8adf11b852eb77f0758f1da67db;
  0xc4f5f9a0c981c944b947b1531c05867649ce36217083563dec1088b561a894;
  0x6087c1f07755a81b9b9b16863813938d21c0428007f2803a8cd635211a9b429d;
  0xa0be278cde9177ffdec968c8ee7dc4d13c898c1a389c678d3ba562cd59eee0;
  0x2f675b7e22ca7de75542148772a4bb3beda888c664e0a6220728101ad3fd9722;
  0x1e4c820034e03a31d7db3e73b94d682368ce0134a88c08df2d70c0a4df51464a;
  0x8401db3e7edfe514b655e071790a83b816da94af5e9c577106ca49e4e20a7ecb;
  0x14adc5e7d75e9aec06762f316596b35f9947d605f62d5ef35e2fbfe379ae71b9;
  0xc12078c13d33bfce885f915dcdab5f8518adda854321bcbd5eb5ab4c23cc01a9;
  0xc9d0c756c903fa34d311cc511328784985c2a5d1a3b464b8dd4b09066ac02c06;
  0x784a7ac724934416db8c3b5d9d26f0ae6f01d1527d8abac259d15ed336ca334d;
  0x814b6c1e8e203e9e6147c6c20614729446f1b5a0f19db4506336d65d025c2029;
  0x7aa5e0888331a7b961a353b84a5b2553d872c6cccef741d5d2da0d6a9ecf324d;
  0xc718f2113bba3bca949577aa774d0b37ef2c065f7e11b0935f38002e73f8da09;
  0xe1de2c9acbbf4e9d7cc50f49a7b8a506989735a5e1f1059905c454529e5db76;
  0xbd528c5295c926bd5d489b85f9c191733993464449ed88d44d7c5a90af7d9f75;
  0x60b1469ae95ee78e31d82c0fbf36963fa5d3e28ec09edddb983a120ee99c49a0;
  0x67039bf759617ce4b7015ea4b3124f6cc7f9451b10a9e14dddcd8306bb41a679;
  0xfe9ca43bd3e165d03284a0d4e8649b1811e5754a3c11793d2fd0b08e5fda8620;
  0xeb706c904df530f29b190c8347b58eacf8e8314e71a87029c9a345db6be0550a;
  0x2d12885ec0b685c62da576aaf7d929d91815e68549d4ef9f946bccc64d6c4136;
  0xa1453855553ce9ced2650f067c6b262c7cfc5cfb42dce2b77e9bc16394ee6b57;
  0x228195db02c94c3aa9b05de9575e35d17ead6d032b0a44ea4067e2b196cab8d6;
  0xf544f602078bf1e7742a8ed2c5bbe40ba9ad59ab65e9e3810ac460de28a29f8d;
  0xb1c08fe0ef5710ff20fcbbe7b123cd95653ce416630d04ac7ec21e24ad89f5ed;
  0x6c0629f4eed64ba74dbd444a4c8b172c2225dcbd216034a2bdaad473b0952989;
  0x6fc5f512ca47ddbdff33aebf2b65c93c7b154a72fd0e2699537a9167da492793;
  0x83146470f86df2021a2ff85d0a2cf9016d2e6ed739846d9511b76579ecc92c1e;
  0xa57ac31831ab9ec33c2ef4eace0a1d3dc471ff925bd2eebfcc304992fff8dd90;
  0xd8507fd407b23360bb50b817393235b66b4a70208cb811a263b8cfcb5f4b091e;
  0x2a93a3822d4fd26113e234e89fb7b2f0ae83bfc511b2391768e6bd6263d63840;
  0x64a5875ff1a8ad5070b395665a0979a10af1a9c0da478ce6871cfe24e0215777;
  0x456b5f437045fe29517551d85f77610844f94922363288859472978a5e61a53f;
  0x668a39bd3a32f49a18c98dee53892a8ea65b73e81b353485b67cac473a6fe628;
  0xc736b334208f67e4ad0fa48b2414373a05894133dd0fb1b2bf865736606a4062].
Definition secp256k1_k1_bytes : list byte := unhex "035a784662a4a20a65bf6aab9ae98a6c068a81c52e4b032c0fb5400c706cfccc56".
Lemma secp256k1_k1 dc : compress (Secp256k1 dc) (pmul (Secp256k1 dc) 0xedb2e14f9ee77d26dd93b4ecede8d16ed408ce149b6cd80b0715a2d911a0afea (gen (Secp256k1 dc))) = secp256k1_k1_bytes.
Proof.
  apply (secp256k1_encode dc 1 secp256k1_k1_digits secp256k1_k1_slopes _
    (0x5a784662a4a20a65bf6aab9ae98a6c068a81c52e4b032c0fb5400c706cfccc56,
     0x7f717885be239daadce76b568958305183ad616ff74ed4dc219a74c26d35f839)).
  - apply point_eqb_eq. vm_cast_no_check (eq_refl true).
  - apply Z.eqb_eq. vm_cast_no_check (eq_refl true).
  - vm_cast_no_check (eq_refl true).
Qed.

Definition secp256k1_k2_digits : list Z := [0; -1; 0; -1; 0; 0; 1; 0; -1; 0; 1; 0; 1; 0; 0; 1; 0; 0; -1; 0; 0; -1; 0; 0; 0; 1; 0; -1; 0; 1; 0; 0; -1; 0; 1; 0; 1; 0; 0; 1; 0; -1; 0; 0; 0; -1; 0; 0; -1; 0; 1; 0; 1; 0; 0; 0; 0; 1; 0; -1; 0; 1; 0; 0; 0; 1; 0; 0; 0; 0; 1; 0; -1; 0; 0; 1; 0; 0; 0; -1; 0; 0; 1; 0; 0; 1; 0; 1; 0; 0; 0; 0; -1; 0; 0; 0; 1; 0; 0; 0; 0; 1; 0; 0; 0; 0; 0; 0; -1; 0; -1; 0; 1; 0; 0; -1; 0; 0; 1; 0; 1; 0; 1; 0; 0; -1; 0; 0; 1; 0; 0; 1; 0; 1; 0; 1; 0; 1; 0; -1; 0; -1; 0; 0; -1; 0; -1; 0; 0; 0; 0; 0; 1; 0; 0; 0; -1; 0; 1; 0; 0; 0; 0; 0; 1; 0; 1; 0; -1; 0; -1; 0; 1; 0; 0; 1; 0; 1; 0; 1; 0; -1; 0; 0; 0; 1; 0; 0; 1; 0; 0; 1; 0; 0; -1; 0; 1; 0; 1; 0; 0; -1; 0; 1; 0; 1; 0; 0; 0; 1; 0; 1; 0; -1; 0; -1; 0; 0; 0; 0; 1; 0; 0; 0; 1; 0; -1; 0; 1; 0; 0; -1; 0; 0; -1; 0; 1; 0; -1; 0; -1; 0; 0; 1; 0; 0; -1; 0; 0; 0; 1].
Definition secp256k1_k2_slopes : list Z :=
 [0xa891e7d2f48fb31e1e966e9ba0bd9390e381dd0fa90fe7c24daa0f48b4c28089;
  0x8025678c6bbe2152f269fb00f85dd0258a90dee00a4e163aab9bb5e95709296b;
  0xa2824964d89386fa4ff9e25961fa48b62ed623715e83c4f96ded3c0292a75ed1;
  0x50320e91031183ea5f2840ac338fed3a8231ba4c73ca9b3dc8a503dfaacee88a;
  0xcbda45d8c932518d48488f3e4b0256fb632c5f90178dcef83ace2d642249570d;
  0xcaf89db2091b2bfd6ddf9cc8cd2f0081fe78ba766f00a04b4babc2845d60b0d8;
  0x6d643edf8d8ccbd93ac4470035083b506755c2a3a8a3cba49ce6cc1dfffe2090;
  0x5c1f81bca21844c21f59be4278d85d1937ba6fdf809502ea52ad71f84407906c;
  0x6facbd9e338c9b534c5925bfb6116fa84398a248554d23e637c0ef9c7d10992a;
  0xc6e2c58941173a5f3d12a020818fbe4fb8b028c012ac1c6e0031e6b7843a3a42;
  0x89f548759fdca7d0b992b6154f7199df2959f0b9faaf63f36f10ac1f690f9449;
  0xf2284a65c6cf23a2d6cd71ba72d5997a4ada613c4c75a1ed7c89c016eac23c6;
  0xd04c0e3d1dcb4a62866f49664e2c32159d973de6b43232d63bb74bae4c74c274;
  0xc02938e756f5be19f1e3da0690bb5c0beb8f8e2efa2b0872b7e2e3657895a837;
  0x41cf0950497e449ed77f5fc0eb690aefaa79a04b069e2f85603135e2cc46d8dc;
  0x27c632a3e99776a5ded2d7103c9338a6cea88359f295baae242497ced59fb983;
  0x670842ab0c84f89c657b4c4bf8b50f93e292d63d2455e6d70a387d00e6c5bf71;
  0x951b4ba6080afb7e14d55cd08be09930a0421b49f3b3134d587d9e1caf619f1c;
  0x48f600660a25fa6d92daa26aa89c78e4c9d0b86338170060bb38e98f3511817d;
  0x771de0bddbc56a248f1410f35ce439a86fe307dfff9cfba99f04c208a9b0a65d;
  0x19ab48cd2fdb0cd6ea0edee32a4dfc1aac16e98b65b4fe1a6519cdf88a97250;
  0xc0c92092833440adccfd1ce4bb29ec2d14e137e2e24f03d60feb2314e52c5e64;
  0x1b2815503d3028f5f08e5f3c264d0a73350a702d6038302bdf4fd4272c22ad8b;
  0x336e61ef58cc51d9082b8de7d91b2d08a2b0ea2c72bad76810452a4c672a00a0;
  0x5f54a07121d2cd2946bb0b9e3ea8150878ac89c86033675dd0ea82f054c27687;
  0x93768323eb4df487fccfb6336a9953b2a8adb9be383e2aaf29c861c0b97daccb;
  0x2c04e2aea9eb8b5a666fa30c0fff1a28eddb6054dc345db4533a05dd0d18e4ed;
  0x2f26bfe06221e0963a5060147d8c99a9b1bff3c15d27319ab5106d3298a278c0;
  0xf7c8e6ce602f094d6b023aeb0f303d4e968081101bf54507127a23bef86eefc1;
  0xc1647330acede5f49a16d097eb4fcc8d6a481a8fc40ad9775beb5de235063a7d;
  0x11dd9a1f6ee6be5162b58cd8ff8cfb525365869066edb76982984b1222de2c09;
  0x53ef03d4226cedb9dec245de3c809e115e524070f21fdd5fdca6afd24baf42da;
  0xba22b6417d914d8fb86aac805b02701603f4bd08012097b65035e95c7d2e7fb6;
  0x7711cd40991d764a9c2e3424824b5c8797a55912f9f017972f3c62d0a7e6af8;
  0xa7a5f47da2bdd997a3f7252f296ba1e80ab59d91cd7421c5ba2c863f34d3bd58;
  0x6ba829b4a52ee456c1b83b9e62c4524179ef23bcc0e5eb5efd4b0b0adfdf50f0;
  0x9f155ecf8f52f1c463ab90398cbd6450c88eec1d1765efe1b23629260ecf3293;
  0x74cd4be1c457acc1fb0d32d80544a47f243b3fdc1104e19ec4bb6af99ae6ef02;
  0xc513837028f5bb7fec72c20df13f427307ea703145ad5991c5994cda64c3d200;
  0xcd17ec75151366d9e2e10f4b7644d0072fd354ddd380fdb8774f77940e320b14;
  0x8d942d520568e9c510a5fb34ed4735ccda1f81f39b029263651e6b8b16aae605;
  0x49b40549cfc4ea7e5f118cf1bd4cbbf227cce06184018cf4b6d6d2266f01c5a8;
  0x2772fe7bbccb03832bfe5288a139057f9e1c4edf77d4ef2060aced8f71439141;
  0x9dcf793eb7612cde69619b8a41a5c35fd8f10f405fc906a0b9aa2535c945b5e8;
  0xc785bb9694db9f39e4c4e3776d23af0ec9933ad05b20926ca4e97ff3c327c71f;
  0x1f76557619d40f1e1743f8101520f4a307e27f6cea892fb978ab658ce62d9028;
  0x364d1517508f822bfcb7d4f56c5df59ea3b8422b425873f7b4de58f17e71804;
  0xbc98f9110d910c2f566ae4a1bd1a45323706c5be54f5e8a4e8f41d478402fbe0;
  0xd026b195d20510a8067ef60ba57609e1e21966e60334282e943d495343e5d256;
  0xad564ec47f260c376a191617027a3391c66fc56c356b60f257cca4164c8c7e7f;
  0x93771a2be0eb0adadc8afaadfe238213f37804bebbfbc72066093852dad42ec3;
  0xf5b4d78950e1c1193b4e8a4fdc2838512f8a72285f97062dec24c4dc74e1fafa;
  0xee5fa39fde1cc0c94598aacb3f62acc8f4551841bbb083212ec5fa082bc5c3c7;
  0x834a20a03103368e68c6e03ff4be3b2a02a89fb5e63b527516cc97e2e921d4f7;
  0x5336ce4e80f73bfbbf2ccb386dcf5360ffebd8622285fabe6385e18d5e6a83b7;
  0x61ee1b2731227c154212a7d4075532841d0564f3ffa8aa9b61ae3cee4e809346;
  0x8764adf64a4d5f98f34626610ae76de2fd5949082ee5046707c12878cd4d8188;
  0x63bfbf8ccf17caec8053ef70d8675fcd672e8814af73f498cd12262ac0c73303;
  0x69ce2027176e3cf312a5b11bfeeba585c4d2cbc21802570ab17fd3d93dc2fec9;
  0xa68316bae26c91713bb3bad1b3b3287d2d2dcb1c2aa3a503145ee0ceeb9f708c;
  0xc9c191381fdfe39b171b8c95d9cf1e3cfb90b2cb7e5ebb648250c9e8806b3d91;
  0x564e367dc43c3831ebf6ca019532511747e3a96b8d578757cf1532afdd6521b1;
  0x13cb4f3d7c6e2ded92c04d008052248c24d1c085920d16c3d76351c077695b38;
  0x3a1f6919ab1c7034c897abeec828727955234dc8747c8bfd76f6d7f455fe68fb;
  0xaefc96dfa5a39d1b0b8e1c7348e26d309b4b0d6543bdb42e920c5ea0159a638a;
  0xf9b07490dfcc7ef54f95726ea9a67cf2b73012eb5a3634729c0965a5847b3553;
  0xb3528ddcb792e686abe65ef075d44005d829b7ff3d2b51e86a6b2f80fcecc40b;
  0xf64e6fdf5a5fe8cf06cdf5739c04bdd9f880b9cb23fbdc2694fba55a0264e543;
  0xf6c313e0e52cc72be2f55fabc4ca84eccdbb5ac13126552699eb1a7e168dfd01;
  0x956059bf514b0de92af9f24d58aad6eadba90629ad074f9b76db72aa48e0d687;
  0x3a7b515eadd783f943f63da9bb1cf40fe35bab272fb9934094f39a2141631522;
  0xe391e2e99c0433b754cac701858cc443ce80b588bbb25a9c974797d71c134ef3;
  0x2fd13b7b1e1f127e3b2cd32c94d291ea13c6a80739317e4cd8baf3a993faec72;
  0x7f1ac7f1265aebabcce91da5e6830fd70831ba24b2dbf7e53358be50bdaba3b0;
  0xec521810cef14ebe02814b72269cc9917555db5b18891f53deb745a950facc98;
  0x5c0e901c36d9644a96eed8af3d4ef9aca1a35adac8a43c27f28952ac94e49a15;
  0xf6df3854c7805d487af145a415b0cb3cbf1a7a624a2a52a6b284dedf92044be;
  0x66505e69f977929f30a4c1a39d56e2785f6612b8109839a3c919726015e071d8;
  0x6017010178e9fbe4eef05cc5a41c376f12d059cd846bd2e65cecffffb781365;
  0x86646c99ffe365075065f263952783cf16d55d44f1d49e2d645c5b61cb3786c7;
  0xc0881dbbc480e8bb310c8845885e2090e118155e0b61f8546d594599da15da4f;
  0xf79a15f3b6393261e1e7baf7e66d01123b17b67aa5dc2e48ff204326f76b9bb7;
  0x1101ea923d1f1fdf590c25e7af0f70698316882aacdf625e0459236054c2a52c;
  0x1ecad2d8ef315d1ad179e8a166324a77d25defa44babe8cf3fb97c1e87b1e66e;
  0xc9432511ba24bac8d54453521dacf61a24366339d606951613426bc27120f76c;
  0x59be18410fbe0a92fd5fbe6705578473c47cd1cb4047dda92482f1f60bf561e0;
  0x60edba6e8c2b9f1089a7c1c1f378b841440b91b40d76d0649d3d6b65c1f5ef22;
  0x52a2589cc55fa43703107b59104f47483e878bcfd4bfa3d48ac1d447b904e532;
  0x3808d2554592b9107eedf105bf1891aceba8d3553a889ef3e293e833a78e9661].
Definition secp256k1_k2_bytes : list byte := unhex "03501e454bf00751f24b1b489aa925215d66af2234e3891c3b21a52bedb3cd711c".
Lemma secp256k1_k2 dc : compress (Secp256k1 dc) (pmul (Secp256k1 dc) 0x3c6cb8d0f6a264c91ea8b5030fadaa8e538b020f0a387421a12de9319dc93368 (gen (Secp256k1 dc))) = secp256k1_k2_bytes.
Proof.
  apply (secp256k1_encode dc 3 secp256k1_k2_digits secp256k1_k2_slopes _
    (0x501e454bf00751f24b1b489aa925215d66af2234e3891c3b21a52bedb3cd711c,
     0x008794c1df8131b9ad1e1359965b3f3ee2feef0866be693729772be14be881ab)).
  - apply point_eqb_eq. vm_cast_no_check (eq_refl true).
  - apply Z.eqb_eq. vm_cast_no_check (eq_refl true).
  - vm_cast_no_check (eq_refl true).
Qed.

Definition secp256k1_k3_digits : list Z := [0; 1; 0; 0; -1; 0; 0; -1; 0; 0; 1; 0; 1; 0; 0; 1; 0; 0; 0; 0; 1; 0; 0; 1; 0; -1; 0; 0; 0; 0; 0; 1; 0; -1; 0; -1; 0; -1; 0; 0; 0; 0; 0; 0; 0; 0; -1; 0; 1; 0; -1; 0; 0; 0; 0; -1; 0; 0; 0; 1; 0; 0; -1; 0; -1; 0; -1; 0; 1; 0; 0; 0; 1; 0; 0; 0; 0; 0; 0; 0; -1; 0; 1; 0; 0; 0; 0; -1; 0; -1; 0; 0; 0; 0; -1; 0; -1; 0; -1; 0; 1; 0; 1; 0; 0; 1; 0; 0; 0; 0; 1; 0; 1; 0; -1; 0; 1; 0; 0; -1; 0; 0; -1; 0; 1; 0; 0; 0; 0; 0; 0; -1; 0; 0; 0; 0; 1; 0; 0; 0; 0; 1; 0; 0; 1; 0; 1; 0; 0; 0; 0; 1; 0; -1; 0; 0; 0; 0; 0; 1; 0; 1; 0; 0; 0; 1; 0; 1; 0; 1; 0; -1; 0; 1; 0; -1; 0; 0; 1; 0; 0; 1; 0; 0; 0; -1; 0; -1; 0; 0; 0; 1; 0; 0; -1; 0; 1; 0; 0; 0; 1; 0; -1; 0; 0; -1; 0; 0; 0; 0; 1; 0; -1; 0; -1; 0; 0; 0; 0; 1; 0; -1; 0; 1; 0; 0; -1; 0; 0; -1; 0; -1; 0; 0; 1; 0; 0; 0; 0; -1; 0; 0; 1; 0; -1; 0; 0; 0; -1; 0; 1; 0; -1; 0; 1].
Definition secp256k1_k3_slopes : list Z :=
 [0x23aa6835d549297e73edf855c6737308d92f7926b4f99a55add77577b876f8aa;
  0x503f27d6e8f3de5c5e6921eace81d837bf679119f4a2a334cb8b1835c4ca205b;
  0x2036144f23aa2d7184efaa4f93e011252f4c1cf42cf0b9175815019b4341f7ab;
  0x8ae337f73b31fe257ab1709d4213e9ad2206f83cb6c058e8137d75c03d91ce0b;
  0xefd7b5d14388e39ad97804515a71a9ee8b593f07fce035745d58d9c3f280c4ac;
  0x64bdc6c74cf59a8e027c4fd675b5687c8ddafb3a284ae1466ce3457ce1a9815d;
  0x5e86bca1e80e70d6073c78a3db6331b34fd190750983cfa5fde3e17f190a47ef;
  0xbfeddfca3ee3cbba2ee6637f539d4662ba9f33cc0f35b66a2d668f1ab2ae3f4d;
  0x64635223c6cb30a6fe988e27df5fdfe0bce7b76e810ea0cce8cd6162a003041e;
  0x5bd47fd94f275c6d89d9b7b96fee1660dc75a3f14f197148778ed545af065b3a;
  0x2f074ffbb08b93af6b10a9fb127b50ef46e8f010e637e6a2ae4ab0d6eda34625;
  0xff57c0dbd18549ae371e022d1bf3086ea08be8d57b067db20f070a4b9226d4a6;
  0xa43f2085d3515a20b4850c09aeb2bf8b7768cbd10578f09d7d9942ef6342a56f;
  0x1499ae0c56bf2d06ae0655f15daa6aa00c1475977634f593d763dad89437c9ae;
  0x3cc62f5a40bd709537abfb6fb94321920a03f434ae4f9d54508300938b40a281;
  0xfddb8e65e350cadbb74fbfc5401320e26d570715b01dcf2d5cc4a69927bc29c5;
  0x7214ff07686ab1cc2bdd8b8c76085d5cf69ac383b99bd76bfa8ef1438e58d023;
  0x99b8473204d36e1f5a7ee3edfc5bc72989201861f512c73337eb7c0a6d9a118f;
  0x5de507b1b85f122526e14dbf34a13e476e3cdba26810b7ea366bddb6a65183c0;
  0xc69e2588e902966d384edee217baaaaf398bef321c2e6f9853010593d676275e;
  0xfc09123757959c2fa9a6d2a170219fab9bdc682b0f56290f2ad7741820d84c29;
  0x5bd8788b17f11012476adeaca0604661ef0ddb1519a59cf7aaa2ffc38664a85d;
  0xd38314b7092308e2233c54aaac8f860b3f091c40528bed66ec8f7ec3ada64cd8;
  0x6fd318c16eb356a3769f76c38277400abe647630dac03f088bd25d897ccd3148;
  0xb1b3d6df984c0fbd52c448c4624f7fdb261dd50158c05d606111c926c7c3235a;
  0x9b59b37b7d1af6d257a0b9e9cb532bf73577e569af19e7a07cd9ba6f40cdb;
  0x82b6d6744a769a7c9735f17589a728204427ec15dfa7a1dbca2a02ea6200f7ba;
  0x6430571677a7b3cf95f1a9e3bbe731c9fe68f943459aef8ecca11af99740f117;
  0x6687a2913006a687b66b078913cc12f3b5109417b70447936838feae0efcb1b8;
  0x308ab1a71d4be30c91638848d0ba8b3b35264d5691107dc07f097b8c36c505ae;
  0xf151cc73ccf16ac7fa2b7121bb0d56d3751f716598f3ba925defac2101f9c8a0;
  0x6223d95854ef21fba7a1a0e89db6ffcc27bc0716d9a660d2b760e8acbc61338a;
  0x841004e640d0e94c0e8c759a8a0051c5d38d41bdfbb182c77fa5365f8e3780d8;
  0x9e654a56bcd297b2590d3a7e6ff4591dc2697cc0baf51c6356f4e3a637eed1f8;
  0xf3230d9c8804621d85a127e94e5dbaf641d595bf3bc733cf494423a13f59100a;
  0xdb79f3131da6f837dec0a5a9d0fe58a48b11945f411a9bc4b29241ba2cca9e1;
  0x3cfeceecb13be03ee083cd786c3b0382efa47ba22d748e3518b4f9dc9265c7d2;
  0xb6bc8e0121d5e9d71000a4c3ee24443ebfa98a135cd70650857174d3386e47db;
  0x2b06bf13fb748bf77f99a851451dede35d778779ee7e99ff04a30d14d6093f89;
  0xd59f01e21f17fd815114eaee953e8768676f1db828e33baa2a57908d7f6db52;
  0x50e6915b6f857859b87cbd0d7bfe4b177f1895d171c3e95565045cc5899e915d;
  0xfc83c61fa2e636815722190d5d5f06c8c31ff2b7beb03a2fc78a0ffdb2f3fbe9;
  0x28ea2d1624cdd7aa9ade9012fcbad1834d1a2e1292fd69ded9ff8f1cc1e8e56e;
  0x415687cda51f72e0522805a2821b9d6a2b8cbcc24ef2c34e649eb5b1e8c7a0cd;
  0xd71d309a42bcbad84817fdab9673f2681341da92724a127fc922166d1e206f92;
  0x16404f3bf5a500eb9b72cb2739d266da79e2edc1089e37b38bfc2973647165e9;
  0x9f9fdeb303472bb32020709635b17d58ed0311de24b0a51f0412d747d63e6b3;
  0x6a6149b300da357a91c93167c77db3f85f421e3c6775aa29531198014377eb91;
  0x7a9bf847f16849feb904d2b47fa4082ee05c5e2d965629c0095c91b8ef89a1d7;
  0xca6295a8e4733aef49f930086eb7d14469be4d204afb7a487f00df116e412d47;
  0xc852fc192dc7f913d6e411650629af3b95eb910744115d5b1ed6fd81075aaf6c;
  0xd701c592fa8525ed8b280c5d6ea21873e858cddc7d47bb94ad9b2128ddae5414;
  0xa2a11303752fd3d9eab75c0a4ffe4cd502d7c01533a93b8e25a374d4942ddcf;
  0x4588ace08bf2aa289e77c0bdb47c14dfbb0810c439f97c05f19fc439f7c8d65;
  0x7f8819cfb6b370deacd4b9e0274f16f278d4173d5c6d37f3c574ee7b1b671e7c;
  0x49b7aaca69b253f83191c49c08f1833a91d9bd2569d04945b9ebc288370a6dd0;
  0x911bd569d498c48f478d749858b60261da39ad4dde29573f9e53934991ac053c;
  0xa3c4113a21dc94b7f4c76b8ae0f3b6a0ccd787a4c6fe0c2a0100625e318e0fa9;
  0x7a256d0ed85350e55f5c71774649e1b8a21a233fdf0a32cc459fba7fcbe2b120;
  0xb337a1f7e99734e960e576df57403c1fe2328ebfd7dec2207b8fc7c07b98c510;
  0xd606fba97a512b96635b525c1880b704c7e0efb4b68982b5ad1ed0572c366838;
  0x108a555a69b81b54411d2631c80ed1bd85f8735d3479fb3f366e492eb2558dfd;
  0x9264ab67c3d15975a917e42eda80834fff323c45ecedb859ca13915623369153;
  0xf648ab201c2296c50ed133f161559180b0bd0ac59cf67e8e2b1a6bb5121f2e84;
  0xb2cdd126f88e943a108c52af1fcf5792c5be0e703ccfd19ae9f9673922f6e8c6;
  0xc8497a55cb15ad5fd9a16c9abb06626cfb0a210b8380270b4c6aee50e9b70c2f;
  0x2f5436ff0357ab0f40dd8ad161623e4ec3492ac9c215ba77b963149f5cc32b6b;
  0xb7948752ffc561e9a8d1daa02eaeaef42f21bee45bd3cb782d8468ee77a94914;
  0xc89fff1074ef6592cf7371db01a58ee21a4b136f1b8130f59d6121b5c008a57b;
  0x6343b63eb067e542f5e5df0f2e5e3b7702bed44599a8af1c3142ec6335b7a83e;
  0x9ea986ebb1c224c320a06b4eb56234aab8b0b4715f9a4758dae8f625736dfa93;
  0xd812e5dbe422cf59d9639be733839c2d9aff7489240c8954b0b9e2c1d6a0dfd6;
  0x98331b96f43fce91912459bdf14b9d6cf07d56e95025d9b9e62acc2a3349cdb6;
  0xa12f43a8c08d3eef955904534398fae135268deae123a48ea60b501796ac3171;
  0xe5cf416f10430a04f8a3f1eda6c0790384afa868e43c0518b3b9c2f8aa36df5c;
  0x4acbc09a94c2150c74b1f85cf96f27536406797a52a6634856c6271b36b13ea5;
  0x2823eaf559082f003f3a8f1a15a7a24eaf362202dccc4709f9cb7542d2f8b1aa;
  0xd4d01df29e070e554e279c13565d7fd8ca5f00168137d7ac8039e3fe33d2e368;
  0x500e50be4f990044a2c6c9c0fc66d7e1ea45940b734a3fbad4b472ecd4b7d3c;
  0x8de4a1d2809704a221dc8ea8a9035f3017b7ef0e295fe657aaa388611cfaef97;
  0x9bbea9476b13f433abc6ee5206516f05f17e6dbd7d8943501122315e0d67a55b;
  0x337acc6adf7cff45ff7bf8c0043b053c07d47edc4a5f38e488172a4f095972f7].
Definition secp256k1_k3_bytes : list byte := unhex "0357bfe1e341d01c69fe5654309956cbea516822fba8a601743a012a7896ee8dc2".
Lemma secp256k1_k3 dc : compress (Secp256k1 dc) (pmul (Secp256k1 dc) 0xcbce0d719ecf7431d88e6a89fa1483e02e35092af60c042b1df2ff59fa424dca (gen (Secp256k1 dc))) = secp256k1_k3_bytes.
Proof.
  apply (secp256k1_encode dc 1 secp256k1_k3_digits secp256k1_k3_slopes _
    (0x57bfe1e341d01c69fe5654309956cbea516822fba8a601743a012a7896ee8dc2,
     0x4310ef3676384179e713be3115e93f34ac9a3933f6367aeb3081527ea74027b7)).
  - apply point_eqb_eq. vm_cast_no_check (eq_refl true).
  - apply Z.eqb_eq. vm_cast_no_check (eq_refl true).
  - vm_cast_no_check (eq_refl true).
Qed.

Definition secp256k1_k4_digits : list Z := [0; -1; 0; 0; 0; -1; 0; 0; 0; 1; 0; 1; 0; 0; -1; 0; -1; 0; 0; 0; 1; 0; 1; 0; 1; 0; 1; 0; 0; 0; 1; 0; -1; 0; 1; 0; 0; -1; 0; -1; 0; 1; 0; 1; 0; 0; 1; 0; 1; 0; -1; 0; 1; 0; 1; 0; 1; 0; 0; 0; 1; 0; 1; 0; 0; -1; 0; 0; 0; -1; 0; 0; 0; 0; 0; 1; 0; 0; -1; 0; -1; 0; -1; 0; -1; 0; 0; 0; -1; 0; 1; 0; 0; 0; 1; 0; 1; 0; -1; 0; -1; 0; 1; 0; -1; 0; -1; 0; 0; 0; 0; 0; 0; 0; -1; 0; 0; 0; 0; -1; 0; 0; 1; 0; -1; 0; 0; 0; 0; -1; 0; 1; 0; -1; 0; -1; 0; -1; 0; -1; 0; 0; 0; -1; 0; -1; 0; 0; 0; 1; 0; 0; 0; 0; 0; -1; 0; 0; 0; 0; 1; 0; 0; -1; 0; 0; -1; 0; 1; 0; 0; -1; 0; 1; 0; 1; 0; 1; 0; 1; 0; 1; 0; 0; -1; 0; 1; 0; 0; 0; 1; 0; 1; 0; 0; 0; -1; 0; 0; 1; 0; 0; 1; 0; -1; 0; 1; 0; -1; 0; 1; 0; 0; -1; 0; -1; 0; 0; 0; 0; 0; 0; -1; 0; 1; 0; 0; 1; 0; 0; 1; 0; 0; 1; 0; 0; -1; 0; 0; 0; 1; 0; 0; 1; 0; -1; 0; 0; 0; 1].
Definition secp256k1_k4_slopes : list Z :=
 [0x43bb2b136116d26f34281ce0f0a7f9a9287e4324542c4ce0cdfda29e39d5f959;
  0xf7178ab0bc672303131a1b7959ff4e00a32742f025c1da9e4a4ee4f87e94d56c;
  0xb8fa62f2c98ddb8f4270299b331579253d639ea528a1754b5194bbcf218c0916;
  0x3c1f8b5cd35172aa2581d14ecc6c887bb491a6f41b4e28e255bd7ce79883cafd;
  0xe628ed04e6de3e93c6e862f23380e85364198ce099fe7ef7f23deffcdfe45f79;
  0xaa5075e9555d05782d46605c7c7f0a291912d32ce06108e52f2a3a4092f7409e;
  0x50993ffd343f88f8954366fd4e37f6c0111a23989be9b856ee7ac37f688e5700;
  0x735154bcbdde95d523becabc9071745e9431d69289d178f324e62c34e6b2988a;
  0x9c7e129e71d971a6387ebfeb2bb5c627bb83de182193227fc8f3ae53f440193c;
  0x4139b2d34d057d8fd82b328ac5133736958b38983c9d4c9feb2f21ea36f7fa1e;
  0xa904f25dd74538d29b5581b34f9f1372587021edcbea7df5b77f385174d1c327;
  0x9704d16f20e9a8808678716726ccd7defdef4627cd8e4df5a9a5848cdb6bd32e;
  0x336a8bc3e52270d3752f30386c37b8246423210bef5d15439429fa00744f00c0;
  0xe59a6dd312056ce7d46b5884b9e6b4857a750e970213657969d6361efe69cc92;
  0x98b6dc756204ebd56b12976343060c4a5871077aea6d22e80403f6240a859a13;
  0x40c0006d4ff7386d57ef87ef2a1ef0a5436fa168269c616d41710c737aa151fd;
  0x50049309fc784462a87675f365f9fb7cb9192120184cc95661d909e00ebd7604;
  0x707438f058400c6f997bac1c0637cb295f0abdf8a063be53f95314271a58a656;
  0xc9dad4e30720501e5ed8c35b05f40c5a4663a6fd81a7d33957ec4db97ee3f19;
  0xe0eff1a342604de03ebef2dce47287dd21fd133bd85190d9657d1eb1d62bfaf3;
  0xa3bb6923c2bd727e4be9c920ccce221c7d907e2d7293bbaa5e374d9114bb4bec;
  0x1409dcbea555110d75939f6873faf844df980548900b485dafcce3ff44bddbac;
  0xdeaec0daff3e253d9f72a2398c5aa4788b280866262fa9bdb2db64b4a3b07cdc;
  0x8e53806865ca8fa70943a52b9a3ef0cd6c5a2586af8ea80b0dcb5fd66089b433;
  0xcbaefaa94fb9b7271cd1d69e65b7fd031cb362f8cebf2a9f133035a296d78536;
  0x7960cdd2fc811384e3a9a6376f3dfb280168baf1c98ef2dfd4b3ea241d4f3720;
  0xb74eed5d8d32015a50b2c5702e2cd3b7f34a5d9d68b9fa6fbc7c06a673cc66e4;
  0x8eeb820ebc51e68d4de24706aae5711e46a5539c6746f4e13c6f11741cc9925a;
  0x6d4492a13bd420f0d59feb6e365ea6b8cba3ce1a06729188f7eddf40c7b4b5c7;
  0x9b5fccdbfee8f1d3941c797a0c3a729c08dc70f94355ee904b7efe953f8b3f79;
  0xc3fb237c6da0318873904d60544cebbfe894d2a3d7b19d40809780a1a0159a11;
  0x227ca4e1889742b2adacd2512315d0e2e1ce57c1eb6da599941d3f75ab321b39;
  0xa62ccc3b30d2fce10a68d0483f905a890266da261368983a931b7df4121ca190;
  0x8d42e201cafa386288d344fac9ad04e5043859eb822623225d4335fc452af3a1;
  0x1dc749002988bf831f7c50e357e2160be77bbc2185b5d74dfc32133e6344d91f;
  0x5d91a1d4f694c973478b641a372a8d51e2ee218b8263d98165a252cafbfff300;
  0x3593d75a2ef6550fbcf7a496bda7252ff4998d15966048279e4e92a058d7d764;
  0xe150695633fe01fccca1a4e3da284f782890aad6ad1118dacb5fc3c3e7e8bcb;
  0xdc58cd6a44c1c32c75b0577602aecfff9f15c0d05e797942c5677fb57202002;
  0x7bee55da28f959ae0458e97142ec17b1e014aa09a5cd244c8a634199c3acb33c;
  0x1ac04a21fda00af11387a600f371fa0139dfcfd305f788e64ea3538defe76f01;
  0xa49a5aa533ae43bdedf0719d48f01af280cb69df1260b8cb7b7a96b36c6a567a;
  0x6419bf33792411de86283b88d572ab647e7cf076411fa1af60b8a9a7c9759f0d;
  0x652b734104ee2a753c3771992994fe12ccf273c93e462e5925aac9457afa7b85;
  0xbf623f5d35441a6f54cfddfa56333264341c4036b79b60c47baab0fb923407c4;
  0x24b7a5e2da0a212b709486e0c8400141eea1be8225d2723ee09cdb7ccd73f77b;
  0xb1814e85ce5c9078c683b2389e7673e16e61b1d2f9d6d01957846268a5276a79;
  0xca1e3053048a35df146c4cbd1fce57d08f28c8eef96e79b2fab4ec634c6737d5;
  0x8d5ef3574a9b06c50f57a48485757b53b6a2732084f1f4edbd656528ac96b415;
  0x3588bac10cecf8ec5a81257693047a2a24a0c8f1bf671538992b721b8eaa2d9a;
  0x95d7595b952e4e0327abe9ed52f824f48a4b0b8a3b01a7201a7649487166a0fb;
  0x2710023e85107cadccd515c8766e39dfe3c9a5c7b3b39185111a443b7ee8a6a0;
  0x1f36bccb9171bd6b566bee15037e96d3fbd3bfefbb63d1743387ce315c63fe7;
  0x9f83d892579248cf21f636291cd17bc17ed56cd9ad8f26bfe65abc53c6bf7462;
  0xecd94f5f70aac15c19f33d3dcaa16c6bc10e0df1cb168e5d02c977ebdb0500b0;
  0x242f6bfa8bed533ebeb6373575580b2b20e0aef1b3127398c03316d3fd72a6f4;
  0x503dc0de08afd719b85956a68b1eb99a26d8c3451c0317623205723ffaeae76e;
  0x519b24d1820f8d05b41064eb3f1e9ccd87f88c930d2d5f364e8bb9470a26750d;
  0x15337026e888172a0c972b19f6656889f22aa5bd5b435f2764af62ae3390a5c;
  0x223c3b794a86f2c9329aead850245ed5cc31c5435809243094a1970de49bf3e5;
  0xd9bc70b9a492a4cf07d251dd85478ebda4e03aa594532cbffd9b00f93a6b4980;
  0x55ec19bb066bc059f7b543c4c305cf63bc0fe3c81481f373ea096c300d67d66e;
  0xe575d3534a3ce04a373d2b8bf5b72e0e2ef93fbf87e02d5466ecb95012a92d60;
  0xa2c016c6c93e7c28e76d88e0e64415e7eb1b16031553252e16e758685d8fad65;
  0x8fed1a7f28e9525cbf326149292fc31e55fb6376068fa5e66aa81fe8b7942c34;
  0x8e72b95e39074df1185f2612bda8b2460b54fd0cf971ed02bc1ab955682a982b;
  0x19f3cc7e364417aa2cc5f3edfde89774229c572020ae39cbe1d95df1aa0ec748;
  0xe0195146a7fb38d3e57d954287dde87e324b80391a427368383725da972afbd4;
  0x9e8c1d1f2c4dfe5213fe418d555e08cbd0c36b9ca8d115ea125984408b767404;
  0xb560ffc4133f5427494572caef7a6fd337ce13af4a7655b1c5f87f651f737d98;
  0x9e0791347cc78cc300083aa5b25140f704048665cbf8431f095abee1eab82965;
  0xd838a4f2392dee1b7339d156d767a3b529ea9a85013c747a4399836e6980fddf;
  0xe4633d86fb44d2848d91e335cad8280b710e2dfe30d5e7aa3c479b87f72b7129;
  0xeb9a287805197cc9645929ed7b2280006110bc4f6df7c7e0726929cc091d38ae;
  0x97729c64d957d2151b754f6790be65c6e8e946143d3a939e96288a4613f84b95;
  0x7284d75f739d91fac2d825360fd100806361e45357ff979342aa5c844bc974e6;
  0x2d256b9f90f1e8839328944b43ae2e69166687a0ffbd95abf0085408e6007c9a;
  0x8d4ad3b0c5f13ebd4a0a3b9700c0d2786f53a07a4e68e9460a8e578a8fc586d9;
  0xe511ec7895fe0204ccd4bc1027beb2dbc0f07bcc799ffc72c1ca8f2b64f76da3;
  0x55a82feb796456ac92bb9e3415d48a8af169270d25379205cce13bfc3d39b794;
  0x47af221a00f2be3b3404dadeaabb9822bf967a4aaf53fa1818c88782127b8c98;
  0x2f28696fbe9e15a136ff4f47cd1e00a32de01e471732c0ce332b47c87864e870;
  0x989c06f322c4555f6a125bbb16494c22359b3b354b55ce8ee94b3a46deef5bb3;
  0x4fe968151dbfcfaf8d550f6d2bc2cf4c75758634c4b7a3f3122498a9af5d3f8d;
  0x35b3a502cb1df2be0b5f98c6377ea1f7707971534be98aec34f65a9973bd4cd3;
  0x6852c9d08d42e1309eb3f0e921f14b3d1f91c3b98c4c84a54cbfc7b060501acf;
  0x88e463f07f0c1608ee8b92439e2ff4cec4e6b4cd5722f1befdd2f21bf932dcb1;
  0xf7c434a6b883c934906307c0341e9e47b1f3ac5351255defbf1db2c7051b3cd4].
Definition secp256k1_k4_bytes : list byte := unhex "02e8445082a72f29b75ca48748a914df60622a609cacfce8ed0e35804560741d29".
Lemma secp256k1_k4 dc : compress (Secp256k1 dc) (pmul (Secp256k1 dc) 0x0f479245fb19a38a1954c5c7c0ebab2f9bdfd96a17563ef28a6a4b1a2a764ef4 (gen (Secp256k1 dc))) = secp256k1_k4_bytes.
Proof.
  apply (secp256k1_encode dc 2 secp256k1_k4_digits secp256k1_k4_slopes _
    (0xe8445082a72f29b75ca48748a914df60622a609cacfce8ed0e35804560741d29,
     0x2728ad8d58a140050c1016e21f285636a580f4d2711b7fac3957a594ddf416a0)).
  - apply point_eqb_eq. vm_cast_no_check (eq_refl true).
  - apply Z.eqb_eq. vm_cast_no_check (eq_refl true).
  - vm_cast_no_check (eq_refl true).
Qed.

Definition secp256k1_k5_digits : list Z := [0; 0; -1; 0; 0; 0; 0; 1; 0; -1; 0; 0; -1; 0; 0; 1; 0; -1; 0; 0; 0; 0; 1; 0; 0; 0; -1; 0; -1; 0; 0; 1; 0; 1; 0; 1; 0; 1; 0; 0; -1; 0; 0; -1; 0; 0; 1; 0; 0; 0; 0; -1; 0; -1; 0; 1; 0; -1; 0; 0; 1; 0; 0; 0; 1; 0; 1; 0; 0; 0; 0; 1; 0; 0; 0; 0; 0; -1; 0; 1; 0; -1; 0; 1; 0; -1; 0; -1; 0; -1; 0; 0; -1; 0; -1; 0; 1; 0; -1; 0; 0; 1; 0; 0; 1; 0; 1; 0; 0; 0; 0; 0; 1; 0; 1; 0; 1; 0; 1; 0; 0; 0; 1; 0; 1; 0; 1; 0; 0; 0; -1; 0; -1; 0; 1; 0; 1; 0; 0; 0; 0; 0; 0; 0; 0; -1; 0; 0; 0; 0; 0; -1; 0; -1; 0; 1; 0; 0; 0; 1; 0; -1; 0; -1; 0; 1; 0; 0; 0; 0; 0; -1; 0; -1; 0; 0; -1; 0; 0; 1; 0; -1; 0; 0; 0; -1; 0; 0; -1; 0; 0; -1; 0; -1; 0; 0; 1; 0; 0; 1; 0; 1; 0; 0; 1; 0; 1; 0; 0; -1; 0; 0; 0; 1; 0; 1; 0; 0; 0; -1; 0; 0; 1; 0; 0; -1; 0; 0; -1; 0; 0; -1; 0; 0; 0; -1; 0; 0; -1; 0; 0; 1; 0; 0; -1; 0; 0; 1; 0; 0; 1].
Definition secp256k1_k5_slopes : list Z :=
 [0x65fc94e1be3bfeac4dc8ea63944c2d5a4dfe9bfb0b78cc8623d3556498f63c72;
  0x16f871c7ee83d6bb67fa61256520783b29d27cd6aa3ab24b7dc5db6ff523e23d;
  0xf12149314309e46153c7a3a68cbaf411a34240216b94668bb7f6c975647ee37d;
  0x19226a88ad1825819f58b3faae8b88b55bb299ce68410b0f073f7fd90593c41;
  0x378f41df012e789c645ed9bd4949d34d7deba5d4a8c8bdbb40874388bc08d92b;
  0xde9e4abbc0281329095436a4d26bc9f82338fc49e8c147de3a3d79d274d49918;
  0xe430712a7fcd9c3693e6f35d801b350278bda097117f33bdcc9cc2c7f4a6ffba;
  0x346b69316a59ce4af7dcd47e93b54178e9422c0f2759e685f643f2d2978b5284;
  0xf12aef2646022c01e51873f7481c72e8a4daefaaa1c304ce62b4b8faa2d5cb86;
  0x9da09bac9f1cf0c884d798259f380c151a082e04c52a9f7417486f852a22c083;
  0x2791d8b05e782d886a17f31df89e3fd60d2ea1e5ee6a12ffe46294225d0b986d;
  0x8b8cc9cc684dc338e18b7a9f8ba5061581c009c37fdba40eae52fc046e97050;
  0xca555c0bd67a2239063a6aef7c4654fd9ef8984106f69ea6b70075a75b44058d;
  0x987c6fa9be6f1352816cac38a04f65f9f03dd505b5933a70e3b1651bb94a69f5;
  0xb109a61fa191453ac3e9fce9ba2afe634ecdf2a1cb753ae70f0324869c032ce5;
  0xd4360c70f3dbe9b38a18c8b8857bc9d6d3f8a85416e6cdeeec0c3fde01b6f890;
  0xe8e30b1145b2ed4f368a71ded02c710d319de105e7c04712d4e8608ce50f39a5;
  0x936fd0995c7911e2239edd8c1509a1ddae8c92c6bcd4504b5aeedad4dd6a8ac4;
  0xa0c62c9d85d9a08e97daddd21659fbd8b8d54246c5a34d4ea34d4f83f3547b57;
  0x381162c79a034db095ca28b324b9454de708b159ac0402185ae4abeaff582b24;
  0x57ba020c62f21c465ad09013ff1227698fa521e4185f107ca5c54f81a33e2cd;
  0xb2c670293116c6a30fc5819686c8a89130d09295f10895e4b01f97bc03fcebdb;
  0xcc433de8e9beaeae66fc2a56adb7adb65dcea4139e3d7f3af3fd18afb859245b;
  0x9d7b4cd7757f11c89897328a09b176e8b3da36b7cdf81bec5c7dca116cefeb74;
  0x4a24b2883ec78c44a405dba3cfd9e46757766f887463a46b9515bbf0ae579b58;
  0x49d28adefb00b8d9bd88d9280698a60710388bc3755c5a09362149ebddb8ba9d;
  0x36ea1d572e93a0859248b07b012f26e6fd7e94fe29d5964abb6dbc8c7b74513b;
  0x1a7e4653b6a3654645a387da23cbb55488870544659448d818b9efabde098;
  0xbc43b7ecbf82675e81acc6f75534e1ffdbed245f2d9c01f95122464c0dd9e128;
  0x5688d4f83286af0fb338271d7a458998caf96fadc4ec77fbc60508764cdcfa3f;
  0xcdbaacb9b50e6bd42ceb7ba9489e60818eecc06596602954ddeabf601ffe22a;
  0x9206ce17b08c46f1d3ed0c8fcd3a3e9a24e241a37dd282d54c15070bac2b9dfb;
  0x4af1f8efa9af5a03b6415a7529a00919e2dfb2949161afbf66002a1939adc209;
  0xd083a5f9e8fd90169940894d711d6d89db969a9b19f5b54231ae8b69959acbc3;
  0xed0f2d94d7bc908c1641fbc1ad8536ec33e38f004e661e0e90ccc3a74777b0c0;
  0xec3b4d687d22eb50f064cb22cd964f8ea0abdb5cc7f205eef187ef5e891278f6;
  0x3d30623e6a1c7ce30974fb83338b91ef1ff99220b60c1172e1e04b61efae5921;
  0xd7be04f7e16564eb48e49c40f63a344176c821e9b447a1eb3c3893ac63969cfa;
  0x32ce5e5ee4ae5be49698bd7e21b73f08d2b6c8c3075a462bac20521ea5a35209;
  0xbde28034d48c440cfbe83b47281f75c43ca573364dec761ef983878cd8f6670f;
  0x154e11782fea650d586151eca972c277d8a4f7fdee5d29babe7ac5b6fc458191;
  0xedd1156ee32d05e04d2b8684332fff6450698326dd03559f91f04c59375c7b1e;
  0xf48b6a7114c16f23c9ada66a5d953541f7c4d21ffde8df518cc66afa82010fa7;
  0x7f07b960e749c85bde28c2020d385d46005a0d925d94138fa754c7cb25601ef6;
  0x94f7eb71211ef9c6f6a22657dc82a689b536745e0ead6e61cf7b8fe28114a16;
  0x497f9598fa83d4f6b0c6603a94350e60774287d8c6cea87fbb3c0898410be4a9;
  0xa39669e2e89bf5aca8cb27e299e015e8eba4f4b4855d311c27b4b3ea3b28bcbe;
  0xdc6dbc7eaae60058822b04b73e45b68e6aeb41c152fd2d265a5b8fb874e7fd3a;
  0xe202ad45c1c0bcf312734d8be8fe81655e03daccf127b6b6c2a654ee294627a0;
  0x7c27dacc180f2c5720e5ea6a76a88d8a87663c929b9b27d3311898da365232d0;
  0x66d15166cb07eec78990846c5b620fbc6c3c4d7ccb80ece4acb25e81329d39a0;
  0xfbb97e5dabc7e3e80b49c6fdae651ce7c735b093d58d883321f143a8ceb40f07;
  0x64c5c6e9de750b7ba0a0977d0fd9572fc319b9766f714df7cceab40e42809acd;
  0x2d51560347d4e056c4208aa0fced9997dc373bcb5a074486619844174a41bdc4;
  0x27e669f96702fea734014fea03f4666a2e9985c0c95f69faeac75e1b7cbc2014;
  0xbf3f385c73aa453feb3d6f3844086d2ac43db1ff53f185159c60ce1bbc6a3ec1;
  0x578c3f0a00a6621a18c3d2f8f57b32452b05f8d69ca80c8939a3d551a1529d8f;
  0x39b81fb95cf3a4b48ce79ac7260caf713952de259b7689d6de0285d71ce91b6c;
  0x567231324f0341fdb80ab313d5010857b014666bb3d8271333ddf8c31cae9fb7;
  0x56ab1221cbf738d6db16c47692c1b557861e1d2eefecd79272bb5ac1e5c7afcf;
  0x8b5aacc1c03157a50441a35b04e362d64e54b0dc27d8e70a513d7e5b641fc3bd;
  0x253de8619c0ea09655d06ecde6b9da7bbcfd197d03216a41d306ade85c80a651;
  0x93c08de22e5659762fb375267af92206ced8ebd393e56489009af2c7777430e5;
  0x465a9d7e9ea1cb7c2f78aab28936e4bcc0a5e20b28b3d142f7e9cd3ce9ff7605;
  0xe05a84880ff15ed2f745fb4c9bc1bb5e11daaf59f803de790b3a47df9e9c4deb;
  0xea93dfa9b5b57f625ef7fb409e73451f0118fd268a7a01953c1b133787665e03;
  0x3728d2129f03cccdcf93131ace55e50b96d36ede1da4e8681599f66eae6c5f91;
  0x51de130a545ace428c4d3e2adf629213f7f72b63f726e30bc81894fa830c36e;
  0xb48927c05f85e7c0bfa3731a2ba112f561a0f91416b09dfd3edd5c1ec214fd3a;
  0x9c6e21b0dda3db83d737f12d74cce33adcb1195f1be7ce620be20254ba5e1c38;
  0xa9473c2b41f65161bedb7107d33a396a8d2e749675cccc042d3d435a580d30e2;
  0x37cf997fb67d6629b7b5565771823fc9b7fd9cb1cfeefed34a027b724887d613;
  0x73ea3490cbe4c810bff55e814b3377a9e6b65e79e5efc23ccadad0279dd294dc;
  0x8aa355b9b41717a530e82366491b36c67c9019e58dc19d729e6e72561c19ca33;
  0x80c454fa709ae632e5fe4884dafa79e176bed928f65f71a9a678fdc896423773;
  0xa52ba4d94c30c7386d5f250ab11c4e47d6f8c12eef853e3171f0518a6d965148;
  0xd3efe5c2f5ff3ca21b321fda53932cf7b0b1163852ffb060930c82a0138c19a6;
  0x77a65b93b779e52d7245a0b83a81da4687b892a9408bae120a2685930d1d4f2a;
  0xeb712f08d347b45c86eb05259b33f51b69248b608582ef568d3a32f90e65bf72;
  0x87e1d28f0c69957bb89072445fd48cf73e9bdac3ca70ef6b89f01f0116ea3b0a;
  0xea4794703473df03e77237a8f23f2236523afa694e28ea761ab6b5b122123b04;
  0xc2344032264aa111b1d835fe9cb840394e88b5169534fa6e5474114b30a8bbe1;
  0xe238ea8928d772b91e6e994742612354a0886e177d417a8b2c90744c6364c062;
  0x49c325d030b57e9b3aabf36b7bd4cfa1339be12be94f623727cb10cd0c7eb7bd;
  0x1968aa31dd44b549b4574ab6733987c1216204b04aefcc447db25b3a2e293a3a].
Definition secp256k1_k5_bytes : list byte := unhex "022a471424da5e657499d1ff51cb43c47481a03b1e77f951fe64cec9f5a48f7011".
Lemma secp256k1_k5 dc : compress (Secp256k1 dc) (pmul (Secp256k1 dc) 0x471b76e389e528d6de6d816857e012c5455051cad6660850e58372a6c3e6e7c8 (gen (Secp256k1 dc))) = secp256k1_k5_bytes.
Proof.
  apply (secp256k1_encode dc 3 secp256k1_k5_digits secp256k1_k5_slopes _
    (0x2a471424da5e657499d1ff51cb43c47481a03b1e77f951fe64cec9f5a48f7011,
     0xcf31cb47de7ccf6196d3a580d055837de7aa374e28c6c8a263e7b4512ceee362)).
  - apply point_eqb_eq. vm_cast_no_check (eq_refl true).
  - apply Z.eqb_eq. vm_cast_no_check (eq_refl true).
  - vm_cast_no_check (eq_refl true).
Qed.

Definition secp256k1_k6_digits : list Z := [0; 0; -1; 0; 1; 0; 0; -1; 0; 0; -1; 0; -1; 0; -1; 0; -1; 0; 0; 1; 0; 0; 0; 0; 0; 1; 0; 0; -1; 0; 0; 1; 0; 1; 0; 1; 0; 0; 0; -1; 0; 1; 0; 0; -1; 0; 1; 0; 0; 0; -1; 0; 0; 0; -1; 0; 0; -1; 0; -1; 0; -1; 0; -1; 0; 0; -1; 0; 1; 0; 0; 0; 0; 0; 0; -1; 0; -1; 0; 0; 0; 1; 0; 0; 1; 0; 0; 0; 0; -1; 0; 1; 0; 1; 0; 0; 0; -1; 0; -1; 0; 1; 0; 0; 1; 0; 0; 0; 0; -1; 0; 0; 1; 0; 0; 1; 0; 1; 0; 0; 1; 0; 0; 0; 1; 0; 0; 0; 0; 1; 0; 1; 0; -1; 0; 0; 0; -1; 0; -1; 0; 1; 0; -1; 0; 1; 0; 1; 0; 0; -1; 0; 0; 0; 1; 0; 0; 0; 1; 0; 0; 0; 0; -1; 0; 0; 0; 0; 0; 0; 0; 0; 0; -1; 0; 1; 0; -1; 0; 1; 0; 0; -1; 0; 1; 0; 1; 0; 0; -1; 0; 1; 0; 1; 0; 0; 1; 0; 1; 0; -1; 0; 1; 0; 0; 0; 0; -1; 0; 0; 0; 0; 0; 1; 0; -1; 0; 1; 0; 0; 0; 0; -1; 0; -1; 0; 1; 0; 0; 0; 0; 0; 0; -1; 0; 0; -1; 0; 0; -1; 0; 0; 0; -1; 0; 0; 1].
Definition secp256k1_k6_slopes : list Z :=
 [0x18a4342eb20e108ddbd9fad12b4cab0de4a7e05636401c2d1b0c4792945d273e;
  0xb2c88da6d351fc1a2b124f952d2b38ead325b21205754728cb57f8b3679e5f40;
  0x637e55e34f7aacad3720b1063587ac45de162c98da91d0b4cd5e5978f7fb92f0;
  0x7bbaa0c37d43236e2837ad624328837632f26bdba1d867b206c278ffc1cf5bb6;
  0x4b24f675317fd143b9d4a1e2111a6122cd40694a5cc952240117aa8982b1d624;
  0xc659a71baf44c2f07e6b32093ebe2a7f3223c3ec605b51f290c2ea682a9a3dd6;
  0x472133a722c9f263132d02c61c4ab2974df77e991d28e47e883a5ecc7a0b87d4;
  0xae75773a578e04d40c5a4e39d8b7b82d6b8911423c4c9a42c559865b459c348c;
  0xe2025cc2f08f2dc8f973c69b0f8455775a831111e31b833e6efc867fbc21a074;
  0xcc3062adfa5ec448d633ff98063ad5faa3eb38498145824f7043388c9f2eca53;
  0xfae05b0dd8acdfc45b6fe99dce43d6db4aa764b6bac21b307fbba4a4eaa42420;
  0x781e64d0c725803ed4238aabe031f4d40bef74e25756a0ef482c07db8df0513f;
  0xd38445f9a3e58052f5851cf0db99be41cc7c58ccca6870e4f4d3cd9a88a125f3;
  0xf2021a24c2fd0424a34067d64a38414a080cd5c31d3ed03ca14cc422b65d28b4;
  0x25ab2d879a12f82f763dce4b8e7c304129d7a34844bd60fd3fd5a7731dd7fd53;
  0x2b1b43a6ce76d33de60514c674b7d2d9ee3ba97c03744acb28879b8e6513bcd2;
  0x83ec71469651a6a39b897b8ec3c2441964626a9094fdf05747bd99d51dc87733;
  0x978c7361aa2883ed1650d97174eda28fb35002e6ec3cc442b55d21c1c9e7f998;
  0xe812ac812aa6db4f7aa45364fa663a6d83caea28ebb1da604ea08bfb44470aae;
  0x1f7be6f810041b2b83e3bf47c123eb21de8db75623584832222cd4e547bfd440;
  0x3e9ff03fb8fce73de981c0ba0e7b660f9a6ee83e985c09083931d9fc9b119e8b;
  0x9c2d06d73bcd750f867b558488bd8cbb2251f5d9d76520f259477024268de600;
  0xaeff39ac093dcc607ff005efcb718f3f03d50985fd0f8f627509094e5f929fd1;
  0xdb3747ea936940a1abaf501870a95c0ba0d4226c476cf58398c94bcc39c15eed;
  0xd23298639d8d91ad274218d431f9aff268a8f480cca3ee4411c338f5bb3b74b5;
  0xc27819795fecdd0821e0cd5034cfe73566786ccb509b2f575e3a6b90c628de7a;
  0x1064f7159680af23cb342baa605db885e99351f0c026972da486b1d5dec5b4dd;
  0x69b508e583c448e1fe103a48ad4817d39581338e2871e6c05d882e5497bbb57c;
  0xcd2bc460f1d3e2031fc6aa14d07b9422e44cd435e21f36d6cbb7dde5c7617eb4;
  0x704cc68a134a7aa0e6c8ce038f0e833f94bc9e49dba137292192f5340cad9624;
  0xf6f6128d4409391f50e143d380b14848cc030df32976376c73d43de4b822598f;
  0x4b5195e723a9f780a5617ad53f8b124d7ddba817c0dc543c694b7a22c8cd90a4;
  0xfd36c21c3ebe0f79d2b8843b4768a366acecaf3cc8f72380aba18033f15a9116;
  0xce3b51c3c92b624c0e40cf83f53f8bb6c5169b4e8fff1dda94fa277dd7ad22bb;
  0xbe89ba22f3e42ea46e2958e88dad02180da4a6ec613491472ae21bdfc17b83d9;
  0xc1fa7a22b7613837a7b0557f6b0d81a4fab0556f90b093bd629f70665f9d809e;
  0xab0603b9dee5a646ccb334d95a1245510d38d9c3a40a0b66566e2b6d5f30cac5;
  0xf58389a9230b2462280b2147f210dc172e5130070cf2db539650ef123a24b0cc;
  0x95559fea55bc34f23cd474265471910f48e2192db144850c7cca1d1d86a1de30;
  0x4d38dce3bfab8e7269cf95a48102173f09611ad409abf49c2ff0199769b66af4;
  0x137d9a6f319aee1ae25c1a519afbeffd947b2a7f9be9d980be8fa66d1e64dcf7;
  0xd59105425fa6459affdc94dccbd7900eee08a822534ee9dcc3bc5e919332a724;
  0xcc42f09a48d3289e36cfe82783d9e122281568c8ee805d4757f44674bb714db3;
  0xdb553a2090f539d6dbb044d47b391d317e62136089145938421707e600e46f46;
  0x88e27ac1ed22cd893b37ba3e380bc34386e5e0e744c7f382acd9fc36ac2ca9cf;
  0x84bb888f7898e0006964612f4d67836ecda02e70da88262326642dc4db542a5a;
  0x7ca8fe203d0ecb47fca6eac96b5633fb45052265a58e1035e5a198078e76571b;
  0xe7c8c7e58e30d6e5de47793a03814d3c27181ca6f4503f5b0b7946651d1c8f48;
  0xb9c01e4eab703fae29f014c2b2f01a2441b7521b40bb54e006f346bb9df92cd6;
  0x9a402522ee56255a5a872f6c9fe3679fd47a29161e3cf2e6350ce1edde35b575;
  0xe8a30292f0b6bd14a8b1f384bbf17e10171cff73d6c577f0fe075ac58323cde0;
  0xc38e5ca5479baafbd965c61e1935f38291af5c05034244ac19192f124d45bbd9;
  0x56bdf1a8b18070aa5ce2ef9b8ac9365ef62c1b1300b54a7ac2410df89d65861c;
  0x8028a04bec38c4b0e2b4234abc6f1a4adfb4d6d367c76d6b706032ca9766a20;
  0xd7d7a409ed239788f3a94114b61962004ab1fb62be4b11522e2a1f270c687542;
  0xce95dc7a479e98418f93ee2ae5dab36f53e7b0c18e35b247ac5dd6455b25647;
  0xfa293ea73ac014d1d3b4df5ba0aba47ef35b366922aa7889f8bc202b6c96612d;
  0x3e6a91dcdc014637ca31aa455ccba6c4f6f6df0097ae3bd3fd6864b1bf0557b1;
  0x450261bd1b7d897c8617e07d30c903a15a486a1f1335fe2c493b61c3f67e2e48;
  0xc2ba099bb0418a83e41769a234e8ba387e326a9b680883faa72ad3b9d619b8cc;
  0xb713b27a8e29bce81296c2c1892a676f35143e1e802ed6a711d56debae835000;
  0x576fbbcd725304c9d52038d366d3f82d5b75de8adb6c026bd678953f7adb269c;
  0x9eea47109ddabe2a4b770ee2eb9fc436b8b5f4f40e91e5eba420478cbc1e919a;
  0x8472f1ecd408535b2da4101b49a73136fa6239e1a1e995e95ace0e9042fe55e5;
  0x732b7e0b3f3ccb93ba01d0829219b1edcaeca151bf51a7e4b3e902599dadb5;
  0x16a4271b4905e97ceba483c2caab590c6e73e1813f0546734919a3861c877c69;
  0xdcbbde3681aa03775d5b496f2e72869b12c78b6bcce7a1af28cf51486068df1c;
  0x93c3682f59b2a1abbff70b05144d727ad12b87ac4ab056544c310f46f2f200aa;
  0xb3a2346038bf446f7367eba24506989f647078c4ff7485fa1fe5403ac98f9ea7;
  0x91aaad5cac7f0314d6c121ae2339680b764904104db7f84af18b11f6002bc9b7;
  0xb15ca0750f24291ada3117096b4f7c158bde589d91358b1e883f855b1a57917d;
  0x7145009ae9419439d92d500503058d47ffce6a4b370a0537fe43be93bea9bb0e;
  0x523217d67cb985ff36a6f007806b8d4b60cfd0528b52d5333846809a24fdda75;
  0x84ec73fa40d425d64241634ed399ad41e143c74f5415e26f08daa68b6a73aa2a;
  0x6ecaefee936e617ff62088023b7beef32658d83cd51d006cfc5ff2fed3de0c94;
  0xd582f33bf3cf3e5f7a52fba2cb414c1dc5f51e9e638e8a3a1e40c2bcd75823b4;
  0x55b28b0c48394e8f7c61162e9b439cfd504dfb36134c851c8876e5055bc8aa20;
  0xfbb0288bc1337b974c86fa5f12f043c280aa1bd8a70db8b235b8377558e95056;
  0x61599bcedc0bce20f4a743ceae8271251d1076e7087375c45151e4205368f36c;
  0x2f61c739d3c65f5f50db752e4c2bb11d87161975d0e6c809ce7d22a2d9730d7c;
  0xbd4d982cfea1a515ed9c2e539600bed3f166e27a6e974bb737d74d5941414561].
Definition secp256k1_k6_bytes : list byte := unhex "03683af1ba5743bdfc798cf814efeeab2735ec52d95eced528e692b8e34c4e5669".
Lemma secp256k1_k6 dc : compress (Secp256k1 dc) (pmul (Secp256k1 dc) 0x00ddb80b067e0d4993197fe10f2657a844a384589847602d56f0c629c81aae32 (gen (Secp256k1 dc))) = secp256k1_k6_bytes.
Proof.
  apply (secp256k1_encode dc 1 secp256k1_k6_digits secp256k1_k6_slopes _
    (0x683af1ba5743bdfc798cf814efeeab2735ec52d95eced528e692b8e34c4e5669,
     0xd2f2686ced96d375a75298f07ed30751e2a3f45e2d184b268d02c8d5dd6fbdb5)).
  - apply point_eqb_eq. vm_cast_no_check (eq_refl true).
  - apply Z.eqb_eq. vm_cast_no_check (eq_refl true).
  - vm_cast_no_check (eq_refl true).
Qed.

Definition secp256k1_k7_digits : list Z := [-1; 0; 0; -1; 0; 0; 0; -1; 0; -1; 0; 0; -1; 0; 0; 0; 1; 0; 0; 0; -1; 0; 0; 1; 0; 1; 0; 0; 0; 1; 0; 0; 1; 0; 1; 0; -1; 0; 0; -1; 0; 1; 0; 0; -1; 0; 0; 0; 1; 0; 0; 0; 0; 1; 0; 0; 0; -1; 0; 1; 0; 0; 1; 0; 0; 0; 1; 0; 1; 0; 0; -1; 0; -1; 0; 0; 0; 0; 0; 1; 0; 0; 1; 0; 0; 1; 0; 0; 0; -1; 0; 0; 0; 1; 0; 0; 0; 0; 0; -1; 0; -1; 0; 0; 0; 1; 0; -1; 0; 1; 0; 0; 0; -1; 0; 0; -1; 0; -1; 0; 0; 0; 1; 0; -1; 0; 0; -1; 0; 1; 0; 0; 0; 0; 0; 0; 1; 0; -1; 0; -1; 0; 0; 1; 0; -1; 0; -1; 0; -1; 0; 1; 0; 0; 0; 0; 1; 0; 1; 0; 1; 0; -1; 0; 0; 0; 0; 0; 0; 1; 0; 1; 0; -1; 0; 1; 0; 0; 0; 0; -1; 0; 0; 1; 0; 0; 1; 0; 1; 0; 0; 0; 0; 0; 0; -1; 0; 0; -1; 0; -1; 0; -1; 0; 0; -1; 0; 0; 0; 0; 1; 0; 0; -1; 0; 0; 0; -1; 0; -1; 0; 0; 0; -1; 0; 0; 0; -1; 0; 1; 0; 0; 1; 0; -1; 0; 0; 0; -1; 0; 0; 0; 0; 0; 1; 0; 0; 1; 0; 0; 1; 0; 0; 1].
Definition secp256k1_k7_slopes : list Z :=
 [0xcb35b28428101a303eb9d1235992ac63f58857c2f631ee6936d3aebbeddcd1b1;
  0x44a2a365ad59e09e57d4c653553404cb5bba8fe34433bdca7ef4b14fd96e88c6;
  0xe32613eab68aa9d7b84eb750e1531cb98933d2847d41c8999203f378454f7e93;
  0x12c876f948b6c48cadb4dcc2ba637e15c36017963575b53544aaa8a58f552dd9;
  0xfc2ea33b7a253a1de35f86a6f367c4aceccf2997e6edb2f6d4af285daea2f8a4;
  0x81c5fbb5cf183998d0a25f45e48f01f02ddd87c72ecb9874e75acf89e26076d0;
  0x3f1c6f5bb7474a0f5f06d520371b29be80dd11c7cac1f2d198fbc61752abe91a;
  0x1544419311d5ba96c14e3b7b4d28d2401d32a0f476beb2fa03900730de92c56f;
  0x58578af465019a1c88a5d41c82f5dbf0e1b0705d47674d35715e8500d1af4395;
  0x7f8d9a016dfaf3f1f96d71680f1d68924be83108349c46bb461b57bbb849636e;
  0x52d3c0ad4b54497d44a118ee3171b58463808843a71327d01f6371e198d8ddb;
  0xaf149791658270d316197187ff1ffd789cdf843119f8575c5611c8b395a5237;
  0xf5e4fca2e8b96d951bc1be5c500bbaceef977babd253b7699852b35ca7797352;
  0x8eec86af978863f90d7be165305695affabf08805b0820698b441f880b4142ce;
  0x70b3e71ca3b2fd5ce04c4def050c3c7ace589f07b24fc79f59c6de772eb235e6;
  0xec0f62289aeb77e63bc59fe4fab4683743ea68b032858ab73e2d06fcdfdd7239;
  0xca43af142f18021fd06c3755b200d972ecce1a878813a43e9db49e677794b3a8;
  0x9c513be3eb967add158750ffb0b17dbd8dc160881e7850e024087c4e044adb43;
  0x696d9a2ce38ab7045e8a02f324375c204cd9855c8d4384de4c88a64f6c68949d;
  0x22a2cce2aeecd59afaa8b67cc093f2dc2f4c1d9cd71f8f63dcf5e6c5d2ea44e7;
  0x79c9850b58ce5471c24f3917296e14934d78378c9c064fa2f2012d8aed27d261;
  0x9b76066d76b5d51bea7311f86a17602893279a00b2d964803bbb6526bc338c0e;
  0x7e8f61ee388caf61ec1d496d904bc5f7e8013f7a0ba538211b44936bee2f9df6;
  0x55c8fa29e025e636a55ad0b1e95081adc399d7bb189c449ad63d9b1134c2983a;
  0xacf99e553f6b0dd7b3474a564f05e31fa6cc3f3795963c97890a4d038c84aece;
  0xbbc222e15d6f170f3c18d1740222fd69c19cb344dc614df7f02c0e15360b1aea;
  0xbbe8a421f08cb9dffd6bc7fa2ba8e04960ecc3e57d379e5f1c5b513f4942c0a3;
  0xc8118f5bb4f59490f4b805f885c999b284881d2af82bbef6ea2b0d115ac4c5b6;
  0x173393ae4abfedf520add643c90c2a883f28cc86357c66b8dd203b2443209d27;
  0xf9fbcabccbb28f178c6e79847b00c9a10385d88bd900113a4dffed65428fe16e;
  0xf282387cf176ec05464e5ad45bf0f949fc2765e1e67a0c4f948f1a7132999fe7;
  0xc47a75e8d30cf47e78dd5a6430be28bd2439cc0b323f8d38477018dbece48a;
  0xb7b8ca7d019fa5870f640f25463be4f942f32b3848077a9bb40e3f855732a6b4;
  0xf1de13a5dc33fc07c7fc73ed2a4e6c5eadecc090cb16616030fd70d9d2e04de5;
  0x94146199a96bd38475bd106e5a7af199e21c07afb327e686bf512b1b7081883e;
  0xa52a4aee859465f7bcfed000a807a57b4d1695112ecd45d232be86b142f6ec14;
  0x5e7532893d03b1cfe6a0fe11cca7080aa7c2671c441faa5bc7f3b97f73db25c6;
  0x389382f06fcce773f23a2a34ee9c4307c448473b1d3b6129c0493b8d3c1e1c5;
  0xc8220f77bb62cf53043fddd1507e12abebc515c6b55b5d8befcd24648698d2ec;
  0x9ee20b6b9c5459e5f2e000d6f6d7e29ff03067a5b4be1bdbb2128384637c0c4e;
  0xabd46c2a456a129270611d14a725ebd14ec444cbc233041816261f3f65316184;
  0x7ec7e0a935a21e39791bf29a02d3f21968e873c85c6a0ef9895af02a58bf83d6;
  0xe276825e140eb1cdd1190c5d4f6327f8e21552de4bf5fd298af8e13be0f15bb4;
  0x6b9674c259f21b758de6580c1a88bd3648f9ce8cf1e26af0e8a349e17b823094;
  0x9880dd9e2894017ba7863d9250ac74e883d9cff2fb430be54add70d74000282d;
  0xeedf7c09616b0311a4027b0829617b7077cf20167ff53615370b8d40e686f0dc;
  0xbe631585032ac2fef01854696d5185e14101a8b9dfe26108d88ca4af3ca0804e;
  0x1e6d1ddf77da8ff24774f06b97e51a19eb17fa44ac1f8f2f89096a638e054179;
  0x43406afe15e24e156b684379a18271cb68cea405097707fdbeb76c0ad518c829;
  0xa07c760380b732cf2d9b29797f8a1fe7c97f974d67e7411100731abdaebd87a;
  0x777c985c16895aad1bf63b5a8c146f2c761caa6fcee4bce18e6bd0103028dace;
  0x7c9b5779208aa70200b96fe969cb35299ec8ffdb67ca6928ed9fb5822662f5ff;
  0x9cfae55d7ec172ae755c20ce38d93e606d7cb222f38f7fd8eb7d937a14d25068;
  0xa193b3c90eee7feb86c2fcf821aa00d253df9efc94e06b4466d92e79ff662cbf;
  0xa5ed9214635e550bb15b4b3af769757ee6726c21736de67f5f724f2b931f118b;
  0x3c4e7c4e4b9a3f4f230add44b721cf59ab3fd229fee58acdd5279ac2e43eb8cc;
  0x7d4151836f72196a47b83cf199d692df82744b2ce9f9316750a88614e774428;
  0x33f34bd568ab560afb8808be11ff5597c966fd45958128a31fb9159f74fbcacd;
  0x3dd2d23489c12b3f608e80027450b10568bca064edf0542140d99110f073d58;
  0x218e1207c9a26a9aeaf83c58a2e3e964279ce511f23d99648b25853013444d2e;
  0xbad28e804cc3b907e07051c727f0e0a4d06138d1174ee0891feafb4747b3653e;
  0x1ca065fc707c2ad63cc7999080de90af4f2a920793ea7425f7299d060743cc6c;
  0xad2711f2af775634768cf7674edc579def336b3f88b722e63c6c21628ff32473;
  0xe8595a16dd807493d650d6228a3eb1c1076a4502bd22515ade44e68f020b7635;
  0x43dcf8d20974f539f35f7d59578beeafe012de282cec6d3df92e4febf5d2edd9;
  0xc9f002a5556f165148fa9e9d7c1088eb87d379fa1d56681173e1fe709a4eb4c2;
  0x4c0bb7d970a302d63fe9d70c74e07cfb42e63451fc45089ba4f0903768c08c8c;
  0xbe949a9a92bb366837574cd85645ba0dc009ec4f3cd7d9a4d39ee93ffa2e35a4;
  0xd274720138fa231a2f5d8921e15562107bf336f34ccca5364f31d8b6c727bdc5;
  0x4c10176494dce6d6ac5e46c496ee7f3ce812fa2d930f46affdeff0eb18f36c6f;
  0x54a0f5363c6089a9d070588e5a9b63c1ee82a6f027eaa3613801f391671025f5;
  0x4fa96de4f999a1c8ff49e2f2d97be6915f472da2181a39d17cac36cd1ea96700;
  0x2154caf505e90c1b828984f16ec9982403146e1b182680a26518aeb54aafc3f4;
  0x3e20bdc7bed777dc5d8bdb8f1ada852519396489b163a8e94080f095c213580f;
  0x5859a6bc2ba3dfc6f88fd42eeb74a73f0a0e34b300c9e120301bfa9a2260e77a;
  0x5beaf8c2a11fe2b226c67dcd7e61c35e8ea9580091d3d8f1ad4fd2473dc3abbc;
  0xd8905928f705c65b6c68368d2c482f0a638e1207c59a9215d450b9477d40715e;
  0xddcbfc050b88f8f384f94ae36a1fdc250435b1369e2dbe783943a556668f65c9;
  0x72026cd87888fac79e65083e620da3be7f94a8c699f9b08f7c4117dd495d054d;
  0x5592f755b8866388b2e9965d54a5305d71330f84e42c3d7cda9367706b400f74;
  0x1d65611fb053999faa6d8f2631f5e7047d1bb309190a3b08def6eb97e2f187dd].
Definition secp256k1_k7_bytes : list byte := unhex "026557fdda1d5d43d79611f784780471f086d58e8126b8c40acb82272a7712e7f2".
Lemma secp256k1_k7 dc : compress (Secp256k1 dc) (pmul (Secp256k1 dc) 0x491f7a2eebc7b57028e0d3faa0acda02e75c33b03c48fb288c41e2ea44e1daef (gen (Secp256k1 dc))) = secp256k1_k7_bytes.
Proof.
  apply (secp256k1_encode dc 0 secp256k1_k7_digits secp256k1_k7_slopes _
    (0x6557fdda1d5d43d79611f784780471f086d58e8126b8c40acb82272a7712e7f2,
     0x59a34ffdc4c82e5cb68a96ccc6cb53e8765527148d1a85b52dfb8953d8d001fc)).
  - apply point_eqb_eq. vm_cast_no_check (eq_refl true).
  - apply Z.eqb_eq. vm_cast_no_check (eq_refl true).
  - vm_cast_no_check (eq_refl true).
Qed.

Definition nist256p1_k8_digits : list Z := [0; 0; 0; 0; -1; 0; 0; 0; -1; 0; 1; 0; 0; 1; 0; -1; 0; 1; 0; 1; 0; 0; 0; 0; -1; 0; 0; -1; 0; -1; 0; 1; 0; 0; 1; 0; 0; 1; 0; 0; 1; 0; 0; 1; 0; 0; 0; 0; 1; 0; 0; 0; 0; 0; 1; 0; 0; 0; 1; 0; 0; 0; 0; 0; 0; -1; 0; 0; 0; 0; -1; 0; 0; 0; 0; 0; 0; -1; 0; 0; -1; 0; 0; 1; 0; 0; 0; 0; 1; 0; 0; 0; 1; 0; -1; 0; 0; -1; 0; -1; 0; 0; -1; 0; -1; 0; 0; 1; 0; -1; 0; 1; 0; 1; 0; -1; 0; 0; -1; 0; -1; 0; 1; 0; -1; 0; -1; 0; 1; 0; 0; 0; 0; 1; 0; 1; 0; -1; 0; 1; 0; 0; 0; 0; 0; 0; 0; 1; 0; 1; 0; 0; 0; -1; 0; 0; 0; 0; 1; 0; 1; 0; 0; -1; 0; 1; 0; -1; 0; -1; 0; 0; 0; 0; -1; 0; 0; 0; 0; 0; -1; 0; -1; 0; -1; 0; -1; 0; 1; 0; 1; 0; -1; 0; 0; -1; 0; 0; -1; 0; 1; 0; 0; 1; 0; 0; 0; -1; 0; 0; -1; 0; 1; 0; 1; 0; 0; 0; 0; 1; 0; 1; 0; 1; 0; 1; 0; 1; 0; -1; 0; 1; 0; 0; 1; 0; 0; 1; 0; 0; 0; 0; 0; 1; 0; 0; 1; 0; 0; 0; 0; -1; 0; 1].
Definition nist256p1_k8_slopes : list Z :=
 [0xfc965f4c4e7879851262986f18423b710c678bd69523f7555abab277ad2e0206;
  0x56dce78296484e45f7555e124a293a276c91d3f6cf4f019bec50e9639dc74ba7;
  0xeafe8c1b0378eaebab2a5f7173fdf6905f79ccf09aab0c9d4f360a0946d3fce8;
  0x7fb1202090ed59247bedb493984bfdf530a743cef5dace1a3239150a6a366266;
  0x4354da0afe889e5a561db39cad2ac1e7c01e892e8c225c30a0b32220a32c2feb;
  0xe06051f15cefeb5c3880be0abd3000185c09ac0f671f1d080dcf07f370dfdef0;
  0x2bd0b81dcae1f285551dce6c7b4d14dc9870f80d01f0ea193daf9cac2ee378c0;
  0xa55873d881f32864e438c816f4ef5bb0dc731843c9351c5aea32a2b29c9b215d;
  0xf77095d0f1ee6dbc5cb54afaa84b6ddba08a8bafe3db6e77dda9c30f63b4e021;
  0x9448bb6e3119fb3d85eb807397cce689f28d2dd0db9875cd48af9c689e23d55c;
  0x561d2cc0184bfc17a92e26bc713ae929ff19367a8f3ac16bbc8932540a70ee58;
  0x62237359f97b8239bf792f702cadadd8dfd21a073ddb0ce30ffdc70bae46d444;
  0x31005d36c94772095e687ee646e8919962166588f95a83726661ed1dfe8d9514;
  0x9bf3a6f7fd09c1959a4570c995663fb40f08f22c7b3dacc3fa2cfe0ca803fd40;
  0x96e9ec2116e0fa0ff62771afd4ac7472c2ed2a8a01780bad9df8fd0810b423bd;
  0x2715c07216bc9a12690f76e1dcbbfecd313e0b9b06bd3d63734ce703933b3501;
  0x7c4d7aedaa14339067ac9ce8a0b69edf9ef68afaa0ce3e0790d867709ae4f6bf;
  0x4fd1ef3308812127cec06983b718c43d0af51ee29f146f1108639b45f9a42420;
  0xf7f3a8ea149d8b86e8c4fc55c5c90a5e5c2878cefe6d8d4b1985918ea816eeae;
  0x6bd060d12f9b9338c4696d8c8df400578f42eb74428fd4803e559c51b1e9ed99;
  0x135baafb281b528d3909ffb67e721384a0f31f075ac1a9e1fe496b91f465e2ea;
  0x5ea1df7dfe7948687f8c17897f746fbbb2ca756f05ff84d76334e8a244478d1a;
  0x4a9a7006077fcf5e7f8acb72cc64b0ed987609bc287e2df67a257d380fe3c450;
  0x8998d1fcd0e187e212e88ad46191571fb9de0332b3bbd7c6d593c18c36bf0183;
  0x4bbd8e9c29016de0c2a3fe9470ad4085a15102ff4be6aac3211ab3e144efa7bc;
  0xccdd201a534581594941b42adb2d0fd85f8e3a76b089f019411357330f1de31e;
  0x9c0120afa032437b014469aee262d4f627c8d32a57f5c5490d154f60757d9baf;
  0x351abd270600154a0aa67e6762df0c0288a2a630fab8a7f40e85997ba6ed3d09;
  0x2f3f408fec285952be20c96deefb91c28da1e0708eead3b0a452484913c5fb15;
  0x3f32c4710b855118dd0da33562093109b7fcbc9202853fa704a7ef65e7f57acf;
  0xcb4c8304afb087c5b9b70c3bb1b09d0fd1b81ad5466d526c090b57333912b4dc;
  0xce85ba209b7eca2ca48b1e2bec10a92f107084d2b80aa041f911dae45f2e6f3b;
  0x75e456fe3a1bcce3ad77b56ce4f890b497e8e959639982a9040da42263655959;
  0x3e54c81f4f044203d245c7119c1d5d4fd5d671f5ef7f12c0152f7bbd0c7323e9;
  0x751997c009c2c47928bedaa1d0ff9f97aca3cd45c6bc5da687fca840d764eee2;
  0x5d7e16307e5bb07507d5fd5fd39c07577089e13ce58206bf3409fdd5cbf3270a;
  0xcd326836fad4f79c336ada4bfc7c6caac71d2fc0b8924aea56516ffb8b96b9a4;
  0xd98368bcdfad5c57e40595975e0b410409b00c53c581f246b8373d619069a052;
  0xbcdbcd3ccc261944b4190a40d4049c56dc629d570c703e42ac78816facf5e519;
  0xdb350c20b4b66f26c42e6cae018663a03a70a830e580d71dfddc8f9b7fef9719;
  0xca7e5dba22f156e181bc70aca0a50432112a0695d48b71566542e9528c70d7bc;
  0x1dbcbcc0ffb2b8f50c42185053769013e6eb18dc38f06acc4dd1aee6e3dba536;
  0x66766668dfa2a3d2fdaaaf96fc4c287d9cf34c6af41979d6fcb9f52199658be8;
  0xd61850057073f0d7ffbd5f60e8296a4efc852598683151a21ce5c4b372bd8a3f;
  0x83119b5a9b8a1c74135d3a4a5a2f44ee3dc2865fd5200bb9f0bf20a6dabd2328;
  0x61648191e08fe30281a14427e48af9b116e9d91a494a6c1c06147141e151cfb4;
  0x41ebb722d1e64d2b61b37f12e5abd3eac59f4363280c5053042da79a690adc8c;
  0x8033e32e0ecf504161c94f4802f23d654a8069537dd746a5d7f42a970fe7f795;
  0xfd3d2cad3da1e3d75de9324f1a38ea4100293361451801ad69422ec1c7e45738;
  0x772906a942cdd643a1260a11f75ba2c4d06ffdda1231442951fff599c2b82d77;
  0x3e604e2c22569b80c56e0e2f49464cee36be254aabdfdc0346cb5aff5c821d1a;
  0x54a47f36255d2b1501f31e7232ca2e1628ea33a2408a15a981eb534e9e8d54ca;
  0xfa42e3dd456472b8fdf026fe868093641878e4be782c662862fdc400d8219774;
  0x84792d7e5e5fe2775201a2b8310100cec0420db6889abbb928c00768358fe6af;
  0x578492d0099d08019cfc1f0f6dcd61bcc1965c3fb17fb70c9d75042ba02f4d66;
  0xb3f9ea01e64e8135228a2c67a2d7e7e239818b4fef55e3fad1a25525ca74afc6;
  0x12be5dfab4ca6f7b6309580701641d7044b2eb70ba79001ac060f0b7cba78a8b;
  0xdec323da9e60eb1ad08f73bae6b14a2349fd98ff199a97ba159d3746d8c2165a;
  0x2309d292ba4d3ea109edb773e75d58854adcd36d815e625fbd0a8feb7d5851af;
  0x430858dcec1ebd11fd1ae2024941232d6278d6b3df2f5399d66fd5432db9977a;
  0xad45906fea3f2a753ebcf33854546c7f69b88c1405cb633b723820629a09e555;
  0x934ac3633d82c36042716593a23538604522f23f42b8af6fbdf8825c05d38975;
  0x4193aefef82f2b345cf8d5d4afc33ceaf5f5d2c979f4fe739b2770dff5acd5a0;
  0xbadb2aee39683ceb408f31b4d3561f8b09f8b0b3679ab90ac226cc333fd94159;
  0xc6f21739a4cc84029c6b97d095c3633ef1dbca13c893eb7ac92d97d8ffd6432e;
  0x2dd1120c745ee56dd6b8c9fea1e4404c3c6a43a73a9d45adea14256135b7cb5c;
  0xa45c99fd221380673200174888fa94e8d1caf61fe943ed9880f29f4340251b0d;
  0xf79203b2ca51749ce79b571846f5320b47c42ad4f5d955404a26ba7584db1d69;
  0x785934504c984f10548a22dc61dfc06974b0442bcbad87bb475528867d50804f;
  0xe100d16a5a663d3cda2b6aa4bc71d0c53c164c8f025e2ae9298ac7180db019a2;
  0x92804fedbb7c968353ac2a44055977acde3c2280388a0ad4b3ac69e0baee1725;
  0xeaed9bff26e144989a6d0f2e1f6b38ea489af98eebd43ecc340635e71f6a8e43;
  0x8a1e6a5d66a5cef2a0aa128b4515d29d5a69092d4bc17715e50324e2d695b787;
  0x73c3b732e7844702ffe2955fa09d6df95d0a8881174f2b20a1e964d4578849fc;
  0xb06631114d65691c6e20e1cba7a2c1944d3168714f20b42e23280fb8d9c144d4;
  0xf206a863cd841511b8beaa68dcdb633b831015533af1ae5a3d078ab24768e08;
  0xb6ab3dd826c969416f4f677139add1ea6a42c59a90105296e9a98b09742cf69f;
  0x31025d8e9caf91839af6650c06447bed231bf74e0bea11c9f1dcf4b19a14de76;
  0x58da8643631ba2fc81e2986d8841e285918d368334ba48d987a8c379a23de6c1;
  0x650a15cc1156793b0c77bb6fc4ddace64cb6925df0854b763c97c990fdb4024e;
  0xde37e77356dcbff998af68843dcb3021076cea08bab74b9a3c2895bae6464329;
  0x414b80d28517febc68780bfcbf9c8fe249a2a0e2b37902d3c83a0f837b5886ec;
  0x7668402153a341035d2f5dd99def59adf956e10af30a0c24b25020b319cd7f89].
Definition nist256p1_k8_bytes : list byte := unhex "0266874dc6ade47b3ecd096745ca09bcd29638dd52c2c12117b11ed3e458cfa9e8".
Lemma nist256p1_k8 dc : compress (Nist256p1 dc) (pmul (Nist256p1 dc) 0x612091aaa12e22dd2abef664f8a01a82cae99ad7441b7ef8110424915c268bc2 (gen (Nist256p1 dc))) = nist256p1_k8_bytes.
Proof.
  apply (nist256p1_encode dc 1 nist256p1_k8_digits nist256p1_k8_slopes _
    (0x66874dc6ade47b3ecd096745ca09bcd29638dd52c2c12117b11ed3e458cfa9e8,
     0xdff9156d67bc270c23f87544f21e76b491007dbde1adf378c6b09ecc35131b6a)).
  - apply point_eqb_eq. vm_cast_no_check (eq_refl true).
  - apply Z.eqb_eq. vm_cast_no_check (eq_refl true).
  - vm_cast_no_check (eq_refl true).
Qed.

Definition nist256p1_k9_digits : list Z := [0; 0; 1; 0; -1; 0; 1; 0; -1; 0; 1; 0; 1; 0; 1; 0; 1; 0; -1; 0; 0; 1; 0; 1; 0; 1; 0; -1; 0; 0; 0; 0; 0; 1; 0; 0; -1; 0; -1; 0; -1; 0; 0; 0; 1; 0; -1; 0; -1; 0; -1; 0; 1; 0; 0; 0; -1; 0; -1; 0; 0; -1; 0; 1; 0; 1; 0; 1; 0; 0; 0; 0; -1; 0; 0; 0; 0; 1; 0; 0; -1; 0; 0; 1; 0; 1; 0; 0; 1; 0; 0; 0; 0; 0; 0; 1; 0; -1; 0; 1; 0; 0; -1; 0; -1; 0; 0; 0; -1; 0; 0; 1; 0; 0; 0; 1; 0; 0; 0; 0; 1; 0; 0; 1; 0; 1; 0; 0; 1; 0; 1; 0; 0; 0; -1; 0; 1; 0; 0; -1; 0; 0; -1; 0; 1; 0; 0; 1; 0; 0; -1; 0; -1; 0; 1; 0; 0; 1; 0; 1; 0; -1; 0; -1; 0; 0; 1; 0; 0; 0; -1; 0; -1; 0; 0; 1; 0; 0; -1; 0; 0; -1; 0; 1; 0; 0; 0; 1; 0; -1; 0; 0; -1; 0; -1; 0; -1; 0; -1; 0; 0; 0; -1; 0; 0; 1; 0; 0; 1; 0; 0; 0; 0; 0; 0; -1; 0; 0; 0; -1; 0; 0; 1; 0; 1; 0; 0; 1; 0; 0; 0; -1; 0; -1; 0; 0; -1; 0; 0; 1; 0; 0; 0; -1; 0; 0; 0; -1; 0; 0; 1].
Definition nist256p1_k9_slopes : list Z :=
 [0xdd5bb2a75f3563993f2b23d56f9e1b018fd973900f37fb0c15ac4bd2cbbfcaef;
  0xe70075c9707335b35bde3219cb6cfd4c3f8f7c701f077c3138f2c40e5a0dfc8e;
  0x79504c814603df32ba7969e5829cc0e9eae7bafe875ce8cf28ca18bf734153e0;
  0x2c1b0ad812bee8a89ecb7d6024b2cc8e86eee132c26210f3cec3b5aa8a48e7d;
  0x1426a63f3f3458411e693cb025322a6ff362049e64e72e340e795f1f33db4c8b;
  0xbfbfd50354ab86430f2e3c87af7625fbca843f0db2d7803bc74a9e85bd3310d8;
  0x530c2d801f7d28b1d1023efa89600efde832e6f43f1e9172926a43e95eef0973;
  0x2bc1c8dbb309ee008181faf4f921d851fd1b68c832bc279783112d496b043dd0;
  0xd50c941bd6442ca6592fe63f8294c6c7291507699c8177f12d9ae92786323da;
  0x670f2fbebe49de6c65d85a1f7fe071ad4767a246c1cdb9b987d46634f0f8e8f0;
  0xd720882228b5e8f3f417bda6de48943c5498d110c687e2de357517140cc6ba3e;
  0x3aacb1f951e039423a651bf6e9df276f2b5a5ab698d3f9515d798624b03ab496;
  0xa20e2e33b11d4712bd320ec3e315a128c96df292f2b876acd970366ed3baa596;
  0x1cc9ad4136b62574e27dda6dd42784d9eac92edeb9b131f6d587841ee9789580;
  0x15e276fce79e8308de4f2bcb3d1e47d5b80c741fd6544ab581572d7d3f406ce6;
  0xa109219a5085d21f5d78573acb51730a2c8f6844fc6e5bc3376f8aac0b65fd31;
  0x459a633d7a70359cf8e2c2996c068e1f29d2bb6bd7fff3af531910b5ac80aea3;
  0xbba564d26b746d7508454b8c210b095b617ed8e8eb808ca39d675715c232a003;
  0xd15ecb65c49d997337a74a9f5b0077f87b8b4c3f1bc56e50c15e060bb4b04571;
  0xdd631924dc60f2b57ce889eea04667d901a537b6aa9c2cec760a70b0717e0907;
  0x74dc01a31243d7a4f5eca966060b1b62510918af838ea063b8609061473f7ca9;
  0xc0567f82d06f7820b956332f77c13adb20043bf98824d88825f7ba83b64aad86;
  0x9b8db117d756c20ba874a3ef18b722d755cef4fa4056a675ce9ae6e3534920bb;
  0xf8dbcb6c86b2c93e70a0ab7f60ac6297d963878d88f8bcf9a4cfcaefd7bc8ba9;
  0x46273eace3948ff7dec97af33fbcc4234b53c887018f7b16875a847564dfeb9b;
  0x3a593d2127cde2ff252e5b21dabf05275481b8307b9c0853506db3fd87a68187;
  0x44809bec1ccd76965a51d1bd22873a46545ea8f32fa587cd3d91be47a744e9e0;
  0x3ecefc972e84b154c490dec26cccfde523fcb5bde45c7cf063d2028fb1a17843;
  0x2c26e33bff29a8703a633649196e5309ce8a3a6f695f6dd3cbd46c84b0b88056;
  0x3f7a1c7391e3165ce304bbcb8c39cea6f5331c6c99d170513a3202e2fc3a16a2;
  0x82758a5323881f4a98941b0fdc1e8ed39b7a9a1c97b4e2ac83bae4b931fc4855;
  0x786465c6ad02675f75ee91a69ad98afb1bcf4eac28c4459a3d38bd3c008de019;
  0xfdc5e6172edeb5c7294c83165d5240619e6a4b8024a317d3bfabe2ea13a1a0c7;
  0x60d647b4d2e11f7b95bfb4b1f9ae7453fe707c85ea1fa88894149afb8ea2f987;
  0x761b1e8b70a6dffd39490f53d7e0643776383e61aac423e90198732dd173d224;
  0x41e4e7b1babf8c52e61ace01aece188910bee3f3667610395dfad5255ea6976c;
  0x474fe03f50ec68ef96d16927e95019428458dbcd58fd0b250ff1a547b068fe5;
  0xb21640d02b42c5f1b8bb7a41939be624f42d7bdfa0130969e82f8799a8ebc0fd;
  0x6c0010c5462818c755f501b0a39a1fdc732c3978a3739cfd91fecec513628dd5;
  0xfe95d7d824e4ae1c180900991f8e8fed66dfa31185a46fb2a7ad49cac6c84f69;
  0xea6acee4bd717ed7b718be7f735c15b47a470a8a6720534cdf486004144ee169;
  0x18b3ffcc3e23de7c73671888120f08b479bf59c05d6193fcb72525bef91d54c1;
  0x6828cab87c8e189c642ba2652d06f8e7a574c34cdb7b76bf7cab82d7eacf7844;
  0xbf289823f9334bbb6d183465067efe7b5fea6df32b18d4937bd845302aa149e7;
  0x6225ab1932845d9b7eb0d6f96d0dbc59cd67ad71b6496e6fccfbb074f3938340;
  0xf0c184cef11e478dbdc8e1df813000882b60c947931c3f6e3515f87dacdacc7;
  0x92bad56e2c08356c542a89a4c52922a65b3dd28aa3273a810d1ed0023ec5b1c6;
  0xbd7d655893bcdc7d9c2ee52f16869806ae2c1eeb357719553d6dd05550831ada;
  0x4a3802aa8d1a333e1e54dccc8c08ca8be487b4c9c88a7363b724e1228e9a6f1e;
  0xbc32cfa99def5e2580d7d9983a3071bceb37eeb47c91888ec0d2d841b130661e;
  0xe9f2c6029b81fa46c41987a4354e6d07d1efd7dac24192d0ef3c777779417a71;
  0xc2c4c75f0517a3b2df1982a09c58359c540f20b51843b6e10b82e42617e0cde4;
  0xd19715258eff94ecb5f51229a8d971c9b82b2b82a182466d6b94d9d49cc36fe2;
  0xfb2146ec0b1d730372576823aadee50423c4c8cd006074bae43eb136b393aa6d;
  0xaf93aa3a564a0f8d57eee0882f0441b5ae9f841e10fc929996008b19d1de6a3b;
  0x7bd882307628d4b93a382237e219633700a296b72717b4c7deb730e1001186ed;
  0x38809e0393ef895a2a3d5ada9ae0534d76a956e1c1b32250e22635a1e874316a;
  0x8a752683668f3117e95324bc053f7196f70dae11b555af368e626302e1b21dde;
  0x86ddabefa18df4824ff0b4d78c75aab540b0e3efb97eafabb231ce6ade68281f;
  0x7f9b18e5c7cf47eb86f981faead9f13cf2cbd68ebb7c175d8768fde504b66f92;
  0xf6bc8d4f91f18d4c35883cae57ca58ba9891ca3a933a2c522b75dc248ad5e72b;
  0x381d51ac27e0eb12a31681331a4116e689491fa6e99b795397a37df54c99f649;
  0xc237213ce69ca5a0cf1653bfb09531321ed79e3f1da4d3f227b359bc3017d034;
  0x27645601a13733f251385191940dec7b84e6cbdc8f7955b3dc79ba69747ce457;
  0x5dd29d740807a002792e91762629063e2b30c4cd39c387f223fab44dc5905cbd;
  0xfc6acb58f33b66c200c65137fbdd3d06ff54615955277c64f30521414c26d21f;
  0xdfa5b5c153d0b525fe986c05930df56476c0794f804f151ddcecbbb12333a0d;
  0x43fa7dd78f35af4fac9a8cde2163b0f8cae3a7c5a3e88146ab82719bc981eb54;
  0x31ee54fe7828170eaf1c2ea06f7d6aa263d63500f1be6eec97b7ee7ca5711dae;
  0xdfafda64044a4f7f5726a0de0cf8ed6ed32b35787e8c61f0bee1dc346bd7f1e9;
  0x7d4b82c0388851e7e12a6de30e601c46700952d0879df8c236182732491b8e3a;
  0x2173281be834e85949f3cd8cb534360577f91d033d7ef9c4ef153fbe8b58139a;
  0x3786dd4a1f9935dcca391dc8b10fe9169b1eb659391d734e80b84da1eb22a312;
  0x7d9d6e0b7f192572a1c6356fabd831e812773b95c02995a2930d34aa6058c81f;
  0xb57f0222266c90f00c3b75bcb40aaa6b843324c2493d5f43d62ddbbbaaeec2a7;
  0xf41c98388213a36d13d5aeef8d15e35c54e3f45c3ba70167919e433e6343c98f;
  0xe597fac1d4e9e4170bfa5596be50a680dac867972e17c68ded231c208eb4bcb1;
  0x8f86c1eb458990b78619c64be80dadb449a198908cd2d91f1758de49f3a973e1;
  0x746c988dab505264315ac7bbe15edf11a766cca62c72f59a920bea2a32b20433;
  0x774d2dcc5edfbd885fea80a96b2ea1476a675100b8873299d887afefc1ee5210;
  0xdb41c37d75ece54fb89f9a6e93d604cdab941043e95be7195a0ef07bc8793cf2;
  0xb1bb5ca0606d3417bd2e31c6f2158de06a4c6c7355705efaea30c6600f837443;
  0xd8f09afab520aa1ec5e604ee926d81b8e05f638b59abdf49d6c95f9f3b43c440;
  0x909109d02886e9abf049946a98031d65a136435bbb51f5f191c252ce9156dc3a;
  0x65b8f2b3b5d964a2869940f3e72ef19693d7ea2c5ea6794679817cd499c963ff;
  0xee81635ab2b5d29401fa5651e9a453eb202e675c82ec21fce5dd0cff52f1063;
  0x8d8c01e2c7b56788c7fa803b52f42cb3b637603d2609a35e12fa18fe292ac179;
  0x699b3fad8647bebd3ae978f3f5f89c10cd52676d3192dd285b27279c3fe4937f].
Definition nist256p1_k9_bytes : list byte := unhex "02519b5554a4872e8c9c1c847115363051ec43e93400e030ba3c36b52a3e70a5b7".
Lemma nist256p1_k9 dc : compress (Nist256p1 dc) (pmul (Nist256p1 dc) 0x06f0db126f023755d0b8d86d4591718a5210dd8d024e3e14b6159d63f53aa669 (gen (Nist256p1 dc))) = nist256p1_k9_bytes.
Proof.
  apply (nist256p1_encode dc 0 nist256p1_k9_digits nist256p1_k9_slopes _
    (0x519b5554a4872e8c9c1c847115363051ec43e93400e030ba3c36b52a3e70a5b7,
     0xfa0b4272bd7d6bcf8dd711a4f4868062a9dc98e9cac333386c645eb40e9a5af8)).
  - apply point_eqb_eq. vm_cast_no_check (eq_refl true).
  - apply Z.eqb_eq. vm_cast_no_check (eq_refl true).
  - vm_cast_no_check (eq_refl true).
Qed.

Definition nist256p1_k10_digits : list Z := [0; -1; 0; 0; 1; 0; -1; 0; 0; 0; 0; -1; 0; -1; 0; 0; 1; 0; -1; 0; 1; 0; 0; 0; 0; 1; 0; 0; 0; 1; 0; 0; 0; -1; 0; 0; 1; 0; -1; 0; 1; 0; 0; 0; -1; 0; -1; 0; 0; 1; 0; -1; 0; -1; 0; 0; 0; 0; 0; 0; 1; 0; 0; 0; -1; 0; -1; 0; 1; 0; 0; -1; 0; -1; 0; 0; 0; 0; 1; 0; 0; 0; -1; 0; 0; 1; 0; 1; 0; 0; 1; 0; 0; 0; -1; 0; 1; 0; 0; -1; 0; 0; 0; 1; 0; 1; 0; -1; 0; -1; 0; 0; 0; -1; 0; -1; 0; 1; 0; -1; 0; 0; 0; 0; 0; 0; -1; 0; 0; 0; -1; 0; -1; 0; 0; -1; 0; -1; 0; 1; 0; 0; 0; 0; 0; 0; 0; 1; 0; 0; 0; 1; 0; 0; -1; 0; 1; 0; 0; 0; 1; 0; 0; 0; 0; -1; 0; 0; -1; 0; 0; 1; 0; -1; 0; 0; 0; 0; 0; 0; 0; 0; 1; 0; 0; -1; 0; 0; 0; 1; 0; 0; 0; 0; 0; -1; 0; 0; 0; 0; 1; 0; 0; 0; 0; -1; 0; 0; 0; 0; -1; 0; -1; 0; 1; 0; 1; 0; 1; 0; -1; 0; -1; 0; 0; 0; -1; 0; 0; 0; 1; 0; 1; 0; 1; 0; 1; 0; 1; 0; 0; 0; 0; 1; 0; 0; 1; 0; 0; 1].
Definition nist256p1_k10_slopes : list Z :=
 [0x42814d0dc6ba992d68ea9ebcea78000cda80fd103e11e3966df72128561b5712;
  0x1fa006b21c4c824cd75e8049e3ab85059f62d330f904a628a187cc975af8c24a;
  0x6cfcd0aaca9870cf0f68e551bdb08825e2527f1702f455082ab8bcde46453ebc;
  0x62a2503e9e9a982ddf9c723b52ed700ffb9fcbe89684346178fbcc11afc4b1b5;
  0x4c9374224363de4768f39ad95e03d408c6e56a1fbe0d71d74067c0ba1f8c6aeb;
  0x9a28d64e9f59a3ba2e36fecfcc1b5efcdba2cceab8fa00b1a0c2e5047801c5e0;
  0xe669c02aba5753d1fb5a5b04cb73e492cbb4176cd84d3cd20b4d3833ff7000ed;
  0x93d80900656077fc35cc8e8a5e7d436da3975964610f78eb6e855568fee978ea;
  0xd0f218f50f9038e8f780120c9335a681957cce6ec0a43ce05d0e1969d4cfa277;
  0x6380028693a128ffec27eed11609f0266341b411ed7cb59ed8c04bdf50cb67f0;
  0xaedb899db806329c94852d140b9ba1442512c2d929cb733c6655150e40c77840;
  0x1d8e621b83b7bca2741722892abd114e7ac138a46c124206ac6b95d79a99072c;
  0x3939046706f7c3d5c40f46ace58e32d146a8b5ba913a2001fe8e4f86bd7fbb00;
  0x74c10d6db201fe7ff837595c311012ca42b2e3cae57670933a6d284c925f9b2a;
  0xeb437431deae85f3e5c0e7ae45ced34ba30598f2b0b7d3e220115d6f96082371;
  0x4bfd5c0c8bedd6a322498423e32beaf82513e27ac042137e87184ce4084f08b7;
  0xd045d02a7d88811f51f6b0ad708c72946cdddc4959a04dad1c44cb3627b09959;
  0x42530a6998467250650c60ae3bc921a5bab6254ffe12469f52f2bfd3b8bfe874;
  0xde7a027809583a869f56b5795c463e9b0a183a905e8c1c6a9a055d5eddfa216b;
  0x4b00d0689bfa4417a62d898d4d39142d5ceb955d6b82b6fbd00ab6d6415b829a;
  0xd1aa50f62046d35c7abcad42f45d5abb05842318d70b617fb42a439cc0d77633;
  0x173cefdd395e3f781a7baca5b65b64a90d2755cb805643346a37e13696b86519;
  0xc77f1129792e76c419b2af92572ece7dc6163a308281f39f0090575c29c2fd8e;
  0xb428daee44538717a380e52a9cc4d3c8b8a73488f0315d506c724e228bc4196c;
  0x5b88842fedd75f96994fd0c97dc1f650d291e4938aa4b672f054ea3f82ae521e;
  0x1c8ea934f20460490d30dc6b77ce7bd7b331de6481db1e49b48168434f83197b;
  0x816957cd0e5f1930521c3c2b4d24e1f2bd3aa5812469661185b6fde27a1614ac;
  0xde5fbb1b98d82143cc18d1df88d3e44d63c9f07cdef4c98bdfb6fe71b84791f1;
  0xcb026d5dad7ee4a3700ef6318a033db3ed1f8a19c5e0bf9980c9fdfbab537b12;
  0x84f32664e54cb38f751eff3ce8140732a23d7fbac0bc71dcec8252c88d5d09a0;
  0x924dd93701984849a64c88b6af446e48487f4f1705eb18320e1ffae555ac4f52;
  0xe447ec3de0b66e1f84070bffe3921da91717d018031aedb5f76574425b78afbf;
  0xba8656b60887040226aa08102a43f70022fae8ef66b3c6e81db6de293c4389d0;
  0x808c38bad93d0c335dbfe569cc59aa8e6ec44f4283813824a3d78663b003caf4;
  0x3893bb2f25ca6ab6e841cdbc93fde4bdfe3b9efed3894269f2357264d246ec44;
  0x756bfa5ccaf380c0daa2571ff8be25e5c157c027c387bf67ed04149e72f1283c;
  0xd136d50a5799031fbfb0642671744db67936db1513768284d400bb50ebeb084e;
  0xf371c67a685d2466557e7b5f4dee83cd0ca9b6b29b331029d1c9580ac313099a;
  0x536cf54856006749a723411440b45b503f8156cdd2b96ee7e724149d1cab804d;
  0x2e9742cf6496f5e5d184d9d52eab4e484a3b29d471180b60f975f3060e3b54be;
  0x4c125ab07098efc41719d79ba102a5563115d58ec52a0b4a20426b790561b0;
  0x322e39b90e91808f5acecbd58a91e027798968a4fdaabefbf2b5eb292190ff67;
  0xc2951a96a449ad6e27f4383cd22eba8b4fa9f91a92986df77b87b255eeb8ce7b;
  0x8f4eb2b547b9de02fe213128974bce6a4258858a71d15b05c29c6357023f0355;
  0x3a5537be879cafb1183d84ee618301af3bd52db803ce4d2147c348c63675cc0c;
  0x7d865def5f23b186664723f26471791ffc4ffed5169538cbc66c086b0df3c208;
  0xb4dc9b3e448f0167e793be831cd68901a77716cd355ba15c354d45f90c53b41e;
  0x17bc4b8e66181b6e5a8bdb362b636f32d3321f3c9c61a3c8ee858baf243aa64e;
  0xc662b2cd04806d2834192386c6962951df629d8749a1f0031ac2b553dd19c9b1;
  0xfe882c4a1d58ce5d831efd81a45e013ffcf9a1520dc2ebac61dd8c64faac430b;
  0xe8d9a01d54efcd14bb61e6aa735d8b33c8bcb4e1faffd2ad20adbd8b255b9a02;
  0x9e27d43538950cd5a584779de280321466afafba7d8f103055fe311ccae6fbd9;
  0x2f28550b1efc9c1281c77fc67c3b8ddcd7a45c6eb1fed4064beec32f33390289;
  0xdb1033112a67697a5f03b6e6c61d5be52dd2cd1b61d9e8ef7b011a35a46469c6;
  0xae75717d5a939b01bc94b473d3c75c25eada5a0765a611ef612875d2b2efc46b;
  0xcb0b0d430ed76871ff4bec966792c43b49e37a6c999461af6b0a60d87caa2c69;
  0x41c6c59e09d3cc1696d2b2a5cb8593ac4c466ddc6518881e4620be286737ee8a;
  0xf1e9281959f43a2376fdaef33bf49c8440f3c1e79018e44ab7f15fd4cbb606ea;
  0x419f2e898f7b7cee8ddec2399d95b48327fb51657ddba4faba0c121962282dc2;
  0xde36a2372c6038cbc4cf1fdf9cc00f5518dd1c8483e2135e31f771147b9f7ff5;
  0xca62b1d9844aa3a4ad8bc2c5e1d4b37b92f97456df85009b93707405d699adf;
  0x156f856b1ef5eb1362c83e3a34dc132d8e0dfe6ebcf37af0fafbaba4ecfb842e;
  0x663f057555c0064025412fa7911ed1c0bdd2a5b53728ae7ddc1ddb2e6410df4b;
  0x54cbc89a6b1c9af1d9fd8013ddeb498e64c84fdc2a8ef97499578ca80c9ae70e;
  0xa6e0ef992273b657a263a9248a623a59a3b8eaa35bc8cb2164cf63fc3f3b9d8f;
  0x94ab920104dd42cccb9046cfa3168750a165857be9671f8e9e31da9c08616e60;
  0xe62a2ef6c809a404cb0e5582ae7c524963fd711768fc782e11e580679110cda7;
  0x890b3abd3b81eaa5a4b978ff2aebca1ddb6f7c41e2a718bf8e7a2b33d7f8e212;
  0xaaa136ec25efcad7cc77c2aebf52ba7463134a89b10366bc45ab9de36b38c158;
  0x8c02fbe825083227d68e79f8b7266c5755478702f71da71e7ee6ec1a12c72659;
  0x998ba56bed5fef45dec67dd72e8d6b24e4fc730b7f8ea85705b77b580f6d84fd;
  0xf3fe05b8965d85c0b38fe16a38528f1248ed92bbba8292bc470f0aa98cc6fca0;
  0x410b0a0a447feabab387096d1b61ad1b4426ee0b97796a0c647e91b418faae2b;
  0x3912f27689e269759987b6e48da313a7184fac4644d527178b0e6465dc305f7d;
  0x2bf6cc39098af77464eb72c8dc6968740056e286f89b00d921405b64017567f1;
  0x84269ae6917da1342b5c9ebc95f825163b389e2d6c33f8305a1a41673de0f74b;
  0x65cd48d6b5fbc1bfb0c5bdea8e34ec01c46d3be405d4f2a77729b98522763d8c;
  0xeb8bf007f9574f5d66e57e8b2a82e493246f653463ac1728e082bcc8d4e56408].
Definition nist256p1_k10_bytes : list byte := unhex "0235bfee614c0d5b2cae260000bb1d0d84b270099ad790022c1ae0b2e782efe120".
Lemma nist256p1_k10 dc : compress (Nist256p1 dc) (pmul (Nist256p1 dc) 0x092154eed4af83e078ff9b84322015aefe5769e31270f62c3f66c33888335f3a (gen (Nist256p1 dc))) = nist256p1_k10_bytes.
Proof.
  apply (nist256p1_encode dc 1 nist256p1_k10_digits nist256p1_k10_slopes _
    (0x35bfee614c0d5b2cae260000bb1d0d84b270099ad790022c1ae0b2e782efe120,
     0x82710b1d964864aa7f30dbf0b4cc631dc182f18a5c0532b94a5c4d0f7f7000d6)).
  - apply point_eqb_eq. vm_cast_no_check (eq_refl true).
  - apply Z.eqb_eq. vm_cast_no_check (eq_refl true).
  - vm_cast_no_check (eq_refl true).
Qed.

Definition nist256p1_k11_digits : list Z := [-1; 0; 0; 1; 0; 0; 1; 0; 0; 0; -1; 0; -1; 0; 0; 0; 0; 0; 1; 0; 0; 1; 0; 1; 0; -1; 0; 0; -1; 0; -1; 0; -1; 0; 1; 0; -1; 0; 0; 0; 0; -1; 0; -1; 0; 0; 1; 0; 0; 1; 0; 0; 0; 0; -1; 0; -1; 0; 1; 0; 0; -1; 0; 0; 0; 1; 0; 0; 0; 1; 0; -1; 0; 0; -1; 0; 1; 0; 0; 0; 1; 0; 1; 0; 0; 0; 0; 0; 0; 1; 0; 1; 0; 1; 0; 1; 0; 1; 0; 0; 0; 1; 0; -1; 0; -1; 0; 0; 1; 0; 0; 1; 0; 0; 1; 0; 0; 0; 0; 0; 1; 0; 0; 0; -1; 0; 1; 0; 0; -1; 0; -1; 0; 0; 1; 0; -1; 0; 0; 1; 0; 0; -1; 0; 0; 0; 0; 1; 0; 0; 1; 0; 0; 1; 0; 0; 0; 1; 0; 1; 0; 1; 0; 0; -1; 0; -1; 0; 0; -1; 0; 1; 0; 0; 0; 1; 0; -1; 0; -1; 0; 0; -1; 0; -1; 0; 0; 0; 0; 0; -1; 0; 1; 0; 0; 1; 0; 1; 0; 0; 0; 1; 0; -1; 0; 1; 0; 0; -1; 0; 1; 0; 0; 1; 0; 0; 1; 0; -1; 0; 1; 0; 1; 0; -1; 0; 1; 0; 0; 1; 0; 0; 0; 0; -1; 0; 1; 0; 0; 0; 0; -1; 0; 1; 0; 0; -1; 0; 0; -1; 0; 0; 0; 1].
Definition nist256p1_k11_slopes : list Z :=
 [0xa249bcb3191802d3cb56fc75a8731f848e7b2caf080f3477a4e4d904a671af9d;
  0x7069651023c6b861d5d5336e5ad83a517b8e69c914dc88693688efe43173b8fa;
  0x467596cb3a31ce9ab9f5050e09bc80a55e9dc4662a2cf0f66dfeee162a5d67b6;
  0xa5a396b3811ce0549cc3ad2e330de1c0644cad1e44cd397c29dd41429351693d;
  0x22cff8b1f4af7ed71d1d1714f203ca6b3612c735adf6dcb6dee30bd66970fe81;
  0x93129e0c710cee67761f3736b26b0e844063b7772233677027ba3f36fd0f4702;
  0x79387505a07076198b0d44dfac135bc9049e2428b58c733f335a81571263f44f;
  0x305bedffc4c489c13a5b7f1068382adcf288e439fafa3701e2a3af5f192a86c2;
  0xed29770f9e7782bef95fa71afb8ca150fa4fdf51c1dec5da6ec9fab62fd7d44;
  0xda73376e3c8218d7676648ff27f9618f24e7bd51e3da813397a531f07010daef;
  0x419a4cbc7b4e6a17d352eafdea11a71a61f2e390497c737753afec25fad28c40;
  0x9f22e2721be165ec016a41709d9f3706289ba59267c62e15b271674c9880bd41;
  0xef8832189dd1fa720944a1470f4623d2fff995ed5ff6b3e95428533bb5a2a51e;
  0xadea04ffd2193cdf3cb8c9fa690b98b0a1d973c6d19dc72bed1f88b9f848eb45;
  0x82e8c5305cbf76c59b1d8a27c2744cc95fe1ca9c71c9786a0b77c2baca6b6541;
  0xb505d455e0259a5e70eb3d689ac37e33249cc27c944d4af88a929a794b446ce;
  0x23f62cbb0fc0cdc11858969b50a9276deebb7130a30b9340750049975c497375;
  0x448d30e30a24cc7ab32ba66c4a0dad1b7bbe80e68fc6e4876b943d2fdf69ad55;
  0x67cf9525a8a033b476ac33b5afdea589873da2c630a503301bde76957a673855;
  0xb7902fbfaee5667e4d019e18bdeef569cd47fe12226c8148394066b51b5365b8;
  0x6f67c093fd1c5d8e73b118eae4d5238bf438dddad65e70ec25b788aec241be49;
  0x31e37f90515c0c23ead9f3ab5e630f434b6e12c07e41c77033bf40c862c6495f;
  0x3781c5bfa4839b2c4d9c54ce828df3f6b3f48f7936b1be7a3c6ce8133c7dcc33;
  0x65844d8ca2cc08fac60d05d580d8ab3378553a93ad3e04f106dc2d6be5b41b08;
  0x7f821b12738cd7bdba42d983f374d8588a4177727ac29f9e230d76ba7a8393a1;
  0x340cc1b3a00a979c9b8b423e97b6fc9c197a7f54f35027520395dcf40ecd81;
  0x9b9f44088356fc3273aa4a13871f37457b1c13c5b584a26f7e5d5827ce93256f;
  0x23cecb5c900aab87cd1249cf87e7ad0c1f28e0d6892489b394fbeebdbe71defe;
  0xe5d83ccd7cf46f5c0c086cb0ef1e7067980332196cd2d1d5e298662b8f5023ed;
  0x3272ae2c14f97068f9e74b9b9adfb440206b82d3aaeed8fbf03920896cd0065a;
  0x30c15fc3010fded3dbabc60cd0ef8e7a8662107915acb5b3e4353c688cebb8c2;
  0xaf28288eb890ed988a7e8e462cd82580c56fa0a04ecaa286db06a66540349dad;
  0x3cd5d90e279e0c9c6203e6d48ddafe397477fceb00f8f59c89d2872489e64bce;
  0xbdd98eea6fdda9073303679e3f4fdf4b8346dfcdada4dc17dbc8750f6a5575fd;
  0x1aa6deaa1938463e1df103ce392ebe935644e4d40a5c9695634046e9c62aada9;
  0x64adc45c19106791485ab191545b63740e295f60ec7f0de92c83afba4bc549e7;
  0x91dfbfc6b2ee5f27f6358903f8ecac96e841d7257b57e496df08ffaa0a166bd;
  0xf28b885ae05c76b4c8c33ba6fc172a8a5031e140a422bc32d91e78d9cd078053;
  0x3b563d7d13491c5df2ace6fa526a54b5995a29f0691c7d108d7f2411d7a5dbd;
  0x32d581b443b4e0697d41be72ad61c41f284199eda3743559274c91b536c1ac02;
  0xee429849908e28a9d60e3e813b2e02c5b663fc817ec4ac3181359e3e2befbde9;
  0x8dc5d74fc02e6c2a9bc9ffa33998123636be6977b14e9d4400236e69cfc99f40;
  0xd0063041db13aa3daa8f7fed87fdd9287824b40f6baa7b85762bf3b316935a8e;
  0x12237247f50b3b64b056d84898b968b4e5f9b601613dea540d27880358cd0d39;
  0xa4fd240362ded882597e610c2551952363ac2eb3a5ebdeee000313b80876a390;
  0x9cd29cfb95500fa66a38debd0ca26302a3fe2e3fb5bb8382641d1dc1541698b9;
  0x4d91547eb0275fbb0fbc6352a8f57f85c2d76106b63e87a4c7966df92ca78fe;
  0xf0201b5896047e743a61cdeeb94e0be454f9379d48c37c0f3fb371a3254ddaef;
  0x77a4b2376f0c2ce566f93342725b5180b5fdaf5bf3e47a91c19fd0c6f6a461f3;
  0xe9df9783e2950ef28bf0205f4ad85975c64e794b4ff0fd34b84739b20ef44e36;
  0xa871f9ea7d8894596c070d663526af6bbd25d0b3460face9d9411af1f3d02470;
  0xd40803aea7b257c80038625aaaec3c79ab6859053d193f984796dcd612be03f3;
  0xc7daeeb5c7c26dee83c6b595bda08b66746d48503937c57f63c4ccfc31981297;
  0x22a6b3ed9062addd09a1ec99abb388dd9338d6cb79c0a5f20d65de42c012bb4a;
  0x267128c0737b96139c635e9217098c2d78af32be1d378910ec5dc8da1ad95cd4;
  0x5043795ddec203beb0dcfb0a072c46dc429fa6835eca19043ba20532511297b4;
  0xf96906b832e3598f78dedc9ec9b146797e3f59f457c7259405642c4a2efa72ad;
  0xc6cd7040d1f604265adc7985a7456b20041a06dd4fd01699f85c112a4589b468;
  0x75e1723f1814c1e4fc39e530fe7d9f01e0aec2a5cf9b1568f99d6d959626fa98;
  0x1f2336ac77be54eb8065df3c6cf52a7e3479a4efba5cb607b5aa0d7bc8fdfc55;
  0xa1cf4cc9b04d37e6027d9bee0a321727afe74ad4b4437a495701aac3fc51d846;
  0x7aa00bdd054e7fdbd9a3abaf67016319e69bb73d20e2202255f4997cb16f6cbe;
  0x52a596d9e288647af70f197650b1fcf708b602749c916f1360f7f6788b077d54;
  0x98bae23f931374444e9109fbd3a3036733db1721931a8d1fa8a6c5aca92b35ff;
  0x9bf2059641606d72ed46e64c8abf27c42b98fc166e5d48c3dae6b43ca039226c;
  0x6791e05a252c258c3ca4c5ee0b197596f52ccafef1953d73266cc9ed2086fa3a;
  0x74698630bc19085fee16402362a1e0fe598f485246e6ad5b81ec8015c596d57a;
  0x55beee639a6f4035923fc6d8d4d50790a122c6841985cb3274928c3667dca654;
  0x80d72112c0a0ddb92222ee1458f9b7104086aa71de0cb6acfc730b9ea05f2593;
  0x6e2027315e3e243c912165c5e90fe7f320df23834bdce6a1999c06b2adb54bba;
  0x7a85a98af5bf9d5c3e54a80127606c1449e7dc2e8d6a6e0d2c41a99d7a0d144d;
  0xeb5c7f0497067d23b5ec06ca60d3e3aec7aba2b45fbc7689cc4a396cb77b4a50;
  0xc212ee848c27f07762d0b14dde6231880a276917e537533486600bdd14390f3d;
  0xd92afbcabe430561c585b05469d8938134cf107c8837421e871a48b5b6c8d4bb;
  0x37dcbe165894be977f61d2e03502ae9a430c32c92c3049a7f958402af8e1d873;
  0xcdabfea4b334ed21849633469284703bb3e72528b7b84934f222d11620c8fc77;
  0x62f05d370713740bc1a2880ad4b0d685dbd33fb2fd2cacc9d3ec548af3a4a24;
  0x34e47be613a6d83788027523d3c34d39637e64c8b55577cbefa58e99e5810f94;
  0xa5b2ad13a42652c72d2cc351ea4be4828f70a4e7584d9396370c70ae8654a790;
  0xbea5cf7646e3293b59e730f59c4c851c9f5221adb4a80e9472dd1db408fbd3e6;
  0xbf561134fcce4b065ed89f02ae2841af67c8f90ddd70aa3da22919e7cb4917fe;
  0x7dfa31fb19b7a90a87ce1be4fb850484c75e734019f98636773b028384631a08;
  0x25c25f7556a58682d661e6dc0b25c50f5df3361be8b275622fa321c01692ab7e;
  0x29fbfee641cd2f425ae87468d44db1d7248af586eff5093f67c2cb5dc4c0553a;
  0x4436556174b605341bb6eda7bb670134ccbc37557cbb449e716df14a3add283d;
  0xc22534cd78d943312f75fc02f78d8a7562814d8700b54a0748119d7f904c961a;
  0xc335c5ed1f393b9b9d0b95340f6e0bce1584dae432a84f39098d82f64d3c5ae;
  0x2a40a91228157236dedae181c3f1f1ffc478925adcaacec3af86e5ddd3f20a7b].
Definition nist256p1_k11_bytes : list byte := unhex "0383619fadcde31063d8c5cb00dbfe1713f3e6fa169d8541a798752a1c1ca0cb20".
Lemma nist256p1_k11 dc : compress (Nist256p1 dc) (pmul (Nist256p1 dc) 0x3b8c18469a4634517d6d0b65448f8e6c62091b45540a1743c5846be55d47d88f (gen (Nist256p1 dc))) = nist256p1_k11_bytes.
Proof.
  apply (nist256p1_encode dc 0 nist256p1_k11_digits nist256p1_k11_slopes _
    (0x83619fadcde31063d8c5cb00dbfe1713f3e6fa169d8541a798752a1c1ca0cb20,
     0xb2d69e53aba575f06b0b1e296e5c06992d75578ec57a8023ebbf9d54d7707419)).
  - apply point_eqb_eq. vm_cast_no_check (eq_refl true).
  - apply Z.eqb_eq. vm_cast_no_check (eq_refl true).
  - vm_cast_no_check (eq_refl true).
Qed.
