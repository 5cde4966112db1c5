(** The curve edwards25519 (RFC 8032, 5.1) and the keys of ed25519-dalek on it, as an
    [EdLib], with a proof of its laws.  The table is generated; it is checked here. *)
From Coq Require Import ZArith Znumtheory.
From Verif Require Import Base Sha2 Curve32 Primes PrimeCertsEd Fp Edwards EdCurve CurveCert EdCert.
Open Scope Z_scope.

Local Notation p := ed25519_p.
Local Notation l := ed25519_l.
Local Notation Hp := ed25519_p_prime.
Local Notation Hl := ed25519_l_prime.
Local Notation mul := ed25519_mul.
Local Notation Hmul := ed25519_mul_ok.
Definition ed25519_d : Z := 0x52036cee2b6ffe738cc740797779e89800700a4d4141d8ab75eb4dca135978a3.
(** A square root of -1. *)
Definition ed25519_i : Z := 0x2b8324804fc1df0b2b4d00993dfbd7a72f431806ad2fe478c4ee1b274a0ea0b0.
Definition ed25519_B : Z * Z :=
  (0x216936d3cd6e53fec0a4e231fdd6dc5c692cc7609525a7b2c9562d608f25d51a,
   0x6666666666666666666666666666666666666666666666666666666666666658).
Local Notation fd := (of_Z p Hp ed25519_d).
Local Notation fi := (of_Z p Hp ed25519_i).
Local Notation f1 := (fone p Hp).
Local Notation f0 := (fzero p Hp).
Local Notation fadd := (Fp.fadd p Hp).
Local Notation fmul := (Fp.fmul p Hp mul).
Local Notation fopp := (Fp.fopp p Hp).

Lemma ed25519_two_nz : fadd f1 f1 <> f0.
Proof. intros E. apply (f_equal val) in E. vm_compute in E. discriminate E. Qed.
Lemma ed25519_i_sq : fmul fi fi = fopp f1.
Proof. apply fp_ext. apply Z.eqb_eq. vm_cast_no_check (eq_refl true). Qed.
Lemma ed25519_d_power : val (fpow p Hp mul fd ((p - 1) / 2)) = p - 1.
Proof. apply Z.eqb_eq. vm_cast_no_check (eq_refl true). Qed.
Lemma ed25519_d_nonsq : forall r, fmul r r <> fd.
Proof.
  intros r E. pose proof ed25519_d_power as D. rewrite <- E in D.
  destruct (fp_eq r f0) as [-> | N].
  - revert D. replace (fmul f0 f0) with f0 by (apply fp_ext; reflexivity). intros D.
    apply Z.eqb_eq in D. vm_compute in D. discriminate D.
  - rewrite fpow_mul, <- fpow_add in D by (exact Hmul || discriminate).
    change ((p - 1) / 2 + (p - 1) / 2) with (p - 1) in D. rewrite fermat_fp in D by (exact Hmul || exact N).
    discriminate D.
Qed.
Local Notation i_sq := ed25519_i_sq.
Local Notation two_nz := ed25519_two_nz.
Local Notation d_nonsq := ed25519_d_nonsq.
Notation ed25519_point := (epoint p Hp mul fd).
Definition ed25519_base : ed25519_point.
Proof.
  refine (mkept p Hp mul fd (of_Z p Hp (fst ed25519_B), of_Z p Hp (snd ed25519_B)) _). vm_cast_no_check (eq_refl true).
Defined.
Notation ed25519_zero := (ezero p Hp mul Hmul fd).
Notation ed25519_add := (eadd p Hp mul Hmul fd fi two_nz i_sq d_nonsq).
Notation ed25519_times := (emul p Hp mul Hmul fd fi two_nz i_sq d_nonsq).

(** ** The doubles of the base point *)
Definition ed25519_first : entry := (0x216936d3cd6e53fec0a4e231fdd6dc5c692cc7609525a7b2c9562d608f25d51a, 0x6666666666666666666666666666666666666666666666666666666666666658, 0x6f117b689f0c65a85a1b7dcbdd43598c26d9e823ccaac49eabc91205877aaa68).
Definition ed25519_table : list entry :=
 [(0x36ab384c9f5a046c3d043b7d1833e7ac080d8e4515d7a45f83c5a14e2843ce0e, 0x2260cdf3092329c21da25ee8c9a21f5697390f51643851560e5f46ae6af8a3c9, 0x701af5b13ea50b73500fa0840b3d6a3136c16bdd5d9acf7843faa8b3a59b7a5f);
  (0x203da8db56cff1468325d4b87a3520f91a739ec193ce1547493aa657c4c9f870, 0x47d0e827cb1595e1470eb88580d5716c4cf22832ea2f0ff0df38ab61ca32112f, 0x7f9d0cbf63553e2b5ddbdcf9102b44946e9e39457b5cc1725a13fbe9c476ff09);
  (0x6742e15f97d771b642862d5cf84ecf93eb3ac67b80698b993b87fdbc08a584c8, 0x21d30600c9e573796ead6f09668af38f81783cfc621ee4931e2f5ba9fc37b9b4, 0x26907c5c2ecc4e95636412190eb62a32b8a371788bcca7d7e7c1f5d9c9a2911a);
  (0x23a4860627e53aeeb8e22b1508249c9109578d33e7bf237459b2596d6c28f9f8, 0x709696f2827fc3729f980f2e3aad6e78b06a11ff8e079c27d87aab37c16727eb, 0x21b546a3374126e1d0a7d34bea1809755f54258e270927299f867c7d968acaab);
  (0x39cf6c6917421af98582561d0b39567de6033190f97852fc4fdd40f6977e4f26, 0x4434a90ee12cce6b7ade93ecc0f88b78b41205e74c8c4038f92d394f3a06d269, 0x566943650813acb2503cec294a592cd0ff5492d8bd56979666b2a496ce5b67f3);
  (0x5fa64200bf829139cf290f9871d79a8b8e846fd6ad9d678f1517a0fb03ca40b, 0x3d199eeaf926002872f486796fa8aa4c99f1125e6e0d196afbd695af17da0926, 0x4c3a5ae1ce7b6670201f9033d084e6a08eb70f2ed1870c5ed560005efbf0bcad);
  (0x379dbeb1a97b5f082402eabf1ad28bb78a837aa426237a405da2495bf0cfdd87, 0x28eb9fe001ce99d063f7995348559bfc233261c134094521fda0e7ee084b86fc, 0x73e2e62fd96dc26bbc9da09804b96be7b46d06120735dfd4e9ecf2ed0cf86c18);
  (0x5e7e07ed4e1decbfe6e9cbc126905449d4b578fbb561576d20b8bcdd0cc2a556, 0xf55755c51f102796bf5ebaa81d3260e7d1b3d9ac127d9a80e142031566cf6c7, 0x10c697112e864bb0b4739ea4694d3f26fb53d680928d7f696c4444172106e4c7);
  (0x2eecbf81b3d084733331f9eefa70d42621effd9b303961d25409333c82cd340a, 0x54d2dc2da137827c4132d9b740a119b6484d4d4849e6e074b89cf764008b93e8, 0x566d78634586e22ca0b63dedcc1268f56f5873ecb459747e3f13e128cc586604);
  (0x6b113a52f9f3fd0590ac7cb6c8cbb37abcf147c44b2ae11d9151c7d55b4a2b68, 0x1aeb017159697e792eb8da1805519c06296595f4f57996c590954359f327c13d, 0x373767475c651f0433a4bc83a9be81953495638ced3b30cf24b8b3ae52afdedd);
  (0x3c1ae7527612d38bb541f511fcc6283d8482afe93115b345ecd2bcfbbd1317f7, 0x51c91c3f9d7e57eb786116c8545f90fa67f5e8b62c32ac4512015a20711364e, 0x41bb887b726d1213f760b0f91e06d939ce0f7a7c246299b408b1b7548c1af8f0);
  (0x7d13c0248b891b47eb524f2692008e2f97b199bac426cb5902b9003a29ded6ea, 0x59a976ab2c01a81a91f1a56c75ccc77a9e1e9e878e9fe9c3952080a6805b20d5, 0xdea6db1879be094e6af8382a9f87a5aeaf474b494b5fa902ac519c10d14a954);
  (0x17d5a9ff7f338d8ee53c26531f9a5d4ad2718234b5d46a1435aa161031b1c9de, 0x73022287d3b73f6c43c3f9071cf0a87aac83dabd44efad1de010d564a4f6af89, 0x93a7fa775003c78a833b2fa883d9466eb0f170319963d9452151362793408cf);
  (0x7a8bc68bf5f3ed3bed79c11bf2d6b20cb84442dfe4ae185b0c2dabc38e74b8a, 0x7249d7c47afd427018b32d20a2a81307bddc3e039574c80329aa786a22288901, 0x7d90ab1bbc6a7da509b44f87ef4eb4e4251ba7eaacf2016997da2f25b6c88de9);
  (0x5b4fd9f4a9a79b1f34a4c426c1a467d36560338b1a5457e83254935c2b32ff02, 0x40ebd1230468fbf85a49aa47278ec1375a3cf9c2ecc5bbdf685b265433b08d46, 0x9f2606b131a299052744750504a58d57d65d37407bbc3cc1c9ab216c7cab7b0);
  (0x5de7faa2ee4e70132f541f79ca07cd54a39fe1347a6844d19e9d678a8411a565, 0x2c9f23641e1c2e0aab8ea9926b432d92c0e8bc08901d6ff6df85e4cef854ec36, 0x3ee7300f2685d4640d61ade219d59e3c736bae3a5bdd42603301b5994bbc8989);
  (0x74e337a01c13b537323663602811d1d532d8747e81489415271411b172d04f27, 0x8648f02b3a4daf96ecffabdbaf3599fb2ee85dae253b2c21ce66796114e25f1, 0x148cf58d34c9ec8071ec621026bb81579d3e749a91546f3c3fdad0148ef0d6e0);
  (0x6a6fbd51efa6a855e82cb0142325ba473fd7554aba208a400737475464f29434, 0x16f5f8529f55fc2b7cf811161d7870ade1d1617e52c3c4f579ea06b27616d671, 0x591b67d9bffec8b8695e290658aa2b8f12eff984cd2f7cc0f190a474a0846a76);
  (0x243eb188de73a5549b32c39d2ef1b29623709a9ead4c0e240314e0c5f69a9634, 0x3779298951f452d801eb7a0b7eb224cca2dbef041081cfa582afb25b1f4ce2f6, 0x740dca6d58f0e0d2182360779bd5477004ec21d6211952ee0961f467c6ca62be);
  (0x6b349eebfed4dad4a805b63a6ed2231a565cda752d9477ff427dd9a8c9ab5ed, 0x7a09289ff3e1f9aab68aa374c48df65f550c2323607b97744dee990608b64f8, 0x27632d9a5a4a4af54d05c52e182768935e4444636d17e631b90829bf7971877a);
  (0x482a4cdf57d9eadaab1c92b8edd4d15f66a39c16b2ebaaf9ec314ac0199c4f7d, 0x7391de4381c2f7a80b3c5fc6145192983f115fa525e4fd6abd513b116e4eb04b, 0x43a0eeb6ab54d60e9b0da7d7bcdf3c0c653ff9b80fe4c6f3b917c952583c0a58);
  (0x3bad86defe0d244dcc4b246c137dcc68bf6b733d1fff688f33431f2a339f8f3c, 0x2de3cdf2fa86ba8c2b899f9fc04b8d5384145c3f68ea9b6ee05373dc01815179, 0x73975a617d39dbed22f0c8a3345fee8ecccb842d0236daa5315d5c75b4b27526);
  (0x45afc85dc571ed1bd5e8115a9622d44627cf19fc4a8626e7b754b005cb75be54, 0x6c0c8abfa60bfc771e39a18f57b8142f7adbcf220b81ee2339809e4957777b40, 0x2a14edcc6a1a125e3df7d42035aad6d87a4fb8d1221a22a7df3d134da980f971);
  (0xaf367956af630266b1cc760154256ed79da960dddca9d72a1e8cf27d8d43a77, 0x21108d900134d3b3708dd28ace96b0b23dda9100e4b6a62a8131bd2f2ba408c5, 0x699468bdbd96bbaf31903d77257ef7f9307b0130cf0c5879790f18757b53a47d);
  (0x2b760154fc5ceb5a64141345f55b1b57e5b0b1d6c5a07dea8ddf074fbae70d33, 0x7dc81af96fed42e0373411203fa2ced7629fb2eb6a2054e24afe3696afc20c02, 0x5b605c447f032823b04589af461c3111703778b5dca15da0376e134b925112e1);
  (0x67dbc33418bbcd3878489398639484b6d6fa42f875b8c5af23bc92c69c5bdb6b, 0x38436fdf8589a33059fc92e7ca7aa2250cc9ea48391b1e517c6fb056093af396, 0x397cba8862460375d5220eb02e25a4a818b14964017c0006fd527f6b08039d51);
  (0x29ea44a50a4b47b8b3dffa01dc5f2271d5439ba8a82a6ec0c454e9bd19448479, 0x6c775ac8ab2eda8cbbdb4bd1196ab24630ac6c1f97389de19e9d5f63af509005, 0x1d81592d60bd38c6deb8de4643d1bc7da82219c376a5caac084f4a4401a308fd);
  (0x1e45a60140a3b2dee9b8dc6ff307154a1b410bcd38e0e38fb10b2f6da1afbe2b, 0xe730da473dffd60d2f3241a85e68acb47d26e5043ad047d893f072c8dda0a76, 0x24141dc0e6a8020d3f510808885bc60733b3ddaa7f11794e36e417cbcb1b90a1);
  (0x61708161cb4660ff22c3c1eaafb1414244579864b07e73fb9bcd90aabec9935d, 0x38d6936d12e8157c0621bd2d8fdf95a1f84987ee724e0c98f5c4cd21feb9820d, 0x4f3875ad489ca5f1a92b51c099f02d89b732c3b677511fa1db20ba0fb8b6b7ff);
  (0x48f451397792915909604c632c838021641749a67fb8e91301427defd951f791, 0x315385d3bd5a22b69068de89e52a3126525be7da886d693e99ff2f088322d560, 0x11ded9020e01fdc0a17aa1752ff8f5ed775c66ca3677bea960a0c4cbcc43a4f5);
  (0x7956a04df862178ee4c705ffbd30f9dcbccdfc7abe362f2c1da24b3cf9dcced8, 0x5eeac17f2e772f551e761978b395b6ddea37a16aa33cff34a30a8453baf6e782, 0x2eebd0b3029b589e98dbbcee262b81ebf393c59fbdec704bbf2b1a072d27ca2);
  (0x4d1e116d136158c5ddabd4276832800f2c081c1072de6f2d931797a46abc0cbb, 0x6d415be49d4e35b65cc51354b5008f8c43e84b7b5e8a4b84f44e1efb10c9b91a, 0x7cd682353cffe366f62a4a20b3e41170071c34f9d51ed16076d20db67178b252);
  (0x4b5bae5a77a867ddbee3944524f8e2ec8c2a6172c14bd432cd42148248127d15, 0x739476e0b38471219875a4580e6742ecb6aecba57b8c0fa0d923b8de209a77cb, 0x21dcb8a606a8281282cfae8af4ab419dfa496b4115c577abd16bb0cf4a465030);
  (0x33bfa90cc1b9df13e106ffcf6ca898d06b22d51df337243bf85b3f232869fcdf, 0x53b120db6327cae59fa5fff109017d2df4acef01d2f10981439d824fb2da81d9, 0x39f264fd41500b1ee7300919303e3e89860984e91b3a7924cf61d99a45b5b5fd);
  (0x444929347c2ded029bc19558b0f69a4492017a9c35b370711e08222bc0b9efc6, 0x77785ec5cbbdabd645a3251e7da57c8ffc39158c0d7b25a4211c2aff2e1d6245, 0x450d81ce906fba03d77832b53a660188998ab7cb6c46d1256d470115ea86c20c);
  (0x2b6b892ae94b454b2c2d92bb947fc4d506d173d281779c2c153c001ded42d3d0, 0x7f1cf64e0e180fc4d6e12c1b5c5285f376e979616a52c94a0dea4d48c5880cd2, 0xba7250b864403f52fb63273675d70ca0c974651cae1f2ea2a23b9e75c012d4f);
  (0x1b9175b7fc19a618d5848c5761c2b760529e3eaaac087b51112b1fcb422e04b4, 0x1730a59fff4717e258cc853dece7c5f70ecb52cc35320a53cc3838c844ca68e8, 0x12c49d417238c3714854fb129a0ab3f7efc4cfc1897775c5d87823cd319e0780);
  (0x1371cf67fe47f8ef91246ae0485874d601e31984d854224569ac29e56a6ee87, 0x71cad7d8350661ce798e332a98ee5b62f8431fd9ac5a4a48856ce9c4c5b64c73, 0x390167d24ebacb23bc0a24eb3c21e569a674e1cf72bf729b6409e759d6722c41);
  (0x63bd671eca1e6accd0f980845b163ca4e927d2a74d198e78cccd8fcaa6aed372, 0x460cc32f5d27a15f4294faa20a99112392cdbdc8515e9caa1ff4887d22a6e7b, 0x539ef98e45d5472b69249495ba6550e42f8b71f21fa20efb8b64b59d83034f45);
  (0xf6c3a96e0032a9394337a02ffb2c83ba70efb8f566feab530fc90fa3b4710e5, 0x3d4e97e286378675038a4b58e84224ee515e1d6697ac79389f78479be167635a, 0x7d7fbcefe2007233b1a3974b5f3a6419c525c20afb288af880d19024a0d71fcd);
  (0x3b13c71c2a90bd24c51df6bd138c5d16208a9ceaaa8eb34a69469fade6abb440, 0x14890a7ab24817b2bba826792e8fd342a6f705af800252616435be180d16dc54, 0x7ccdd084387a0307ba029cad5c1c0c17d0d058241ad17a63199297d86a7b3768);
  (0x184b48cb455000542259174da9a6eb83a928b2835182278abb6ec091e388a820, 0x3ee0e07a03dc33a9dd60c2682380ef736679a5e383faf453fe324dba26e77c33, 0x7f985498c05bca80a22c8830aa5dda0ce4dfe8d3e3baaefbc77fc745d6cd30be);
  (0x5a04ae1195edf508262196e9d23c259c937f81769b2258542b78e3c0fb135c34, 0x676667092118acccece87e75f0a6825c5952f92dd499943efe831f9712c5e8b9, 0x191a2af74277e8d2afe62fda1b57e0abbd07e5cd58e44b2056a8d7efe9c136b0);
  (0x52ee53b981dfbc41ddaa5ddc2754c4175f4811aa45f8e2b19a425657c238a83e, 0x7eb0a1be3400dec87b388cad51613957643cdf0595b891cc6f925fb36da7f1c3, 0x62337a6e8ab8fae52bcd7309857031f57ac08145b88a708e1863d7d91124cca9);
  (0x501fe138924e05cc1a05129d241e6b5e9d46cd8b0bed38eb42ee20678a1d2425, 0x2f8022ecede0189c215882ca856dae0f7b4daf6675181a558ebd11e6911cee4e, 0x7e9de97bb6c3e99830fface8ef8c8ddd80317d69db0d75fe7d531574028c2705);
  (0x2d8294fd94996032b73b4f09a0ff645ce8db39db5463f0fc57156a1d390a3b68, 0x3a8a6faa67c6dd905a4fdeb95ac127c9fde3ac017c847ceadb2c55f1445af624, 0x210e8cd30c3954e37c6c23987f93963edaa42c4c05a68f21f9c2414a695aa3eb);
  (0x56857d02674276af0099d63b04a39544a23b841cb2ef18688ba9500361e4da1d, 0xb543a6720e318d2647915bcd619efcdedcf7fed0657be45d27db284290e72ce, 0x69d45e6f2c70812f0416fbd277484834a3f3d15823eb9446a6c5a71349b7d94b);
  (0x52a837bc7a7bc9459bcc2ecf80f74d9ed99def0342e18cfbe8e799fbc504fd52, 0x50d6460185d8924e5485f23f36a98c86053514d163547adab6fe91478a411196, 0x71afa699b11155e375320f1583e47f22231094e69f0bfd10013575ed6701b430);
  (0x3f30ee695b236bc74620afb10469324b45c8201a45cbd6954239e64086f3cd53, 0x414231531dd52e5555640faeae608c4a0c205a04f56d187ba80855dbc0478370, 0x4c4d6f3347e15808b6dae0836bba15e3bf960c225ecec119e430c71848f81880);
  (0xebc38c54fd6aa12dcc60ca5c72ed865b7c35a6bfcf98778c235307d306de6e4, 0x4b3a1d9f2ef40fdb3e31ddd56a08526dbda15a4f58d78162c7bf23886763ce2, 0x22183510be8dcba2a87d8a5c3bb588a0f364b9d9ff82c08f94cdfb1a305bdd1);
  (0x3b75696730dc8d8cfb7ddb23241cc7ce78a13e6a377db5da527a1058e60e49db, 0x34d031744cd2d9cfef9f9ea654000016fb3e8b4a8c44198760f46016166deaa9, 0x5fe162848ce21fd39fdf9ee51f8c78dc572696234b02dcca1b91db4991b42bb3);
  (0x6b2bd5d00fab38ceca21a27d6aaec82626b14b555d859527718f8ca404eba4, 0x727340c27a15f6ab3d80547f0827c56ab1ba33bc30d1ef3909ea9a3af10c67e5, 0x394d27645be618b92bb7403adff5139050a50a9806d6e1bae9ab553bf6aa310);
  (0x1f4e8938dcf3a6d5907d88572bfb36a8191aa9d05bae8f68d3f120ea165b2bd8, 0x5a8b0c6f649f8e191aeeca653774a6ddfc8cf8ae3d4d232e2148433b9bda19cc, 0x60dd16a379c86a8a540dca81a35879b6a504d8a81dd9a82fcd8a8ea61195dd75);
  (0x8fe8df51b345989553484e20f600c2e46f4ed256f3c8dcc1615b872f0c2b925, 0x2738e06810f4cec5d894c91432edeab5ba632e54d06f494b751bba44bc93abf8, 0x53daacec4cb4c128565f7a934acd65906bdc1cd93f0713f3d2918da78159a59c);
  (0x1a2403cc5ef2ad62b4f09afac79a48a5ba8ef74f3321b65a716164d49b141c74, 0x7779fbcd8be50c9b021180ac97a544ad0c21cd1f3bd263ce5903b9afe4fd76f5, 0x329293b3dd4a0ac8feee68c5060d3b17c6503f741114889243eadfcbf4b31d4d);
  (0x71dd75fe35761c01a48597ec730bc33237902fd4ad8612cbed1031eebdf40de4, 0x39674a4532078e34378667beae5cb55f814ead9bbaf7e01b3b69533e9f88a411, 0x60c52eef2bb9a4e43eacbbcd484f9067fac6d18e99daf4671a1c87ab074eb78e);
  (0x300d6b0bd6734e6170b814d2f28c82de4a2debb1c5589bc8b2671e0320587090, 0x40ca073d0343190c7f042b83c7bcabd3fa997de98f4bf0e2bdc4a7bf5c55fc81, 0x63755bd3a976f413794513e4708e85d198699ef4ed1781e0aa8ae84b3ec2a05b);
  (0x42545a6a59885c28266ae07652d24503c2fb5830c85817f6963981168cbec8f9, 0x706406cdbd1ce0bdbd9ea269bab2e060b129d6da0f1e6983fb9b15672c2eb507, 0x4179215c735a4f41f89fd4d9a0e4db2e6ac83a67087886d079e7f7bee448cd64);
  (0x6c1262e3f8a43b517673a0ce209f76cb22d7cd7e54fce6ac235711e441703a02, 0x193841cf1e0f528b9a8d508a276202a84f1fb096c5ed013a7f486f0d269c007f, 0x134610a6ab7da7602aeb1d2a666eec170b28789c66e54dafdfc8468d19267cb8);
  (0x57426aefc21be9ccf162e23d25ac3002ba8534351e65613f870f690f2fd46cf5, 0x6b45b002fb4e8a6f59a6ffb006ed71f75434217333b266325204c7d1ac2e1f34, 0xad6d64415677a18685dd14bfb37d6a2c23e8cd34cb2cfad7bfec69aab5cad3d);
  (0x205aa3463e7e41af60f5cff4853fbd6f748aa1b132fe5308807d22c5030b48f5, 0x320b08e8ec6153e2be9955058bd26993bf50353e040c556ef8976663448735aa, 0x43e4dc3ae14c080994c01df05f65aaaed9723d4428e63f54405fdd309afcb346);
  (0x592c8b8843ca1f7d9ee692d5e29bc1612b0a98bea402c5c2e1e8253b65feea37, 0x42a352d8dc52fef9017cbe617cdbee3aaefed1935aa62f8679af6f2a1d00b5e0, 0x69e87308d30f8ed6d9437c670d2371fad63ebddee87fdd904a4a5490246a59a2);
  (0x41c030fbca90151ce0d0064a815e03825ed77a4ac634604ac7137bd3713af22, 0x72467625ee43fb7ac67dc71c655e5c16e4e97c2a3d4445e7e9b33fcf0780f989, 0x588d851cf6c86114477f41e68f4c5299c8db753e3096f00656a8ac24d6d59a9f);
  (0x6222bd88bf2df9d5d44b60cfb4a08a960078db7ed51a35eb3e0b6b8ff4eda202, 0x325bb42ea4ed025dd6bdaed261b7c4f5410b608ba902b068f1efa5782e45313, 0xad725db29ecb2ba3a1af517aa7da41536bca7681251ad29969ee405055ce6a1);
  (0x23bc7abc84cb4c4ae5fa62b25a0a8114e8406d9bb93f2091142aa2d8bdba597, 0x4d2b97a739eceb14c95020371d7206e904f94b8f2c620dceed8511df0f29c9ee, 0xbccbb72a2a86561870a6eadd0945110cd2bef118998483bc32d36360415171e);
  (0x6d5066cf7137b4a5980aa453b672c84797fc6856f0ef5cf0c4be33fbbd39d169, 0x54bb8cd82a0a87c883abe35abeb81857f95200b4222ea95b5cb347115219a417, 0x745d2ffa9c0cf1e07bff0cb1bc3135b08671b6ec311b1b808138ba651c5b2b47);
  (0x6b66159ac8702d4e34073b76629deab2d3aa50942db5b00e4a73e8be859362a9, 0x19dd4bef38efd504e49b3a5d584432b9ce630883226031e75fee1a22c8ca96c5, 0x4b1443362d07960d04202cb8a29aba2caa6f0a259dce46930deabdf4974c23c1);
  (0x71ac99647b61b9eca6f0c23432a518f738aee708d5932d4ef0f172240250a226, 0x3a96c2c028ebe5f48913be30147e41bc5e1cab9595d5404138a9aa1b5574cf25, 0x7bcb4792a0def80e54f7450b161ebb6f0e851578ca25ec5b0607c97c80f8833f);
  (0x221b138a1bbb6548d2ef719bbaee436114e7cb6b3225dfb94c327667ec45772b, 0x7951b295fab7fbffa46c08f6979bb32060974fb037bf5998d0ba5a38180cad84, 0x63fa6e6843ade311849471334c9ba488353dd1beeeaa60d3f1a9990175638698);
  (0x1c1b0d95db6a057eb34f28beeda9f6bbb5315285de2804d15c3b186bdb3f5c28, 0x57bd5de4e0056cbb4d98abef9d1e0ed6cab1628ac08e36073e31d00a9ac3c5d5, 0x6813b8f37973e5db30a9520d9b04a635a9134f0fbbb1edab0b52b5606dba5ab6);
  (0x4f846fad2eefb8c948a8bd3a87d8b4dfa0a0ab643e724ebb1c91437c567c9f47, 0xa2640ccde505da1aa9227bacaca13d49a67a199f0e16aa9f86c2a7e1bf02d2d, 0x1865e78ec8e6aa465b374337fea9f451184871846013773877bcec4c925eac25);
  (0x1f6a1fd8cc0e05b2742ba0fc0369b5247670543637dd033e64dbce90b2f23e9f, 0x779964401ee869a9b31c0ef874a86440ba85d25c2ce932bd31a0865869605e19, 0xc2a1c4bcda28dc9b21ef18b4e5a1364a81042e8a4488bc4c6317bd320324ce4);
  (0x6f0a87af6e0f4a05fa7067cfecd4f98dada3791f714a66648dbb5cbbfd4f326c, 0x6b6013813505927dcbcb6a42e887cc1d5fca175e4cd226be6009248c6c6e36c6, 0x404a5ca0afbafc3a50c3a791cbc5fa412bb628ac35a24f0d0ec1524d396463d);
  (0x1f90c7ef4610dd083b3d64bac47574d9da326b536b9a6eb0f6c3134a847a0564, 0x63344ccbe4169ab97a13c3ccb097c0f4fdffbcf6284412303c79a1c8ce3a2f7b, 0x1160920961548059313916d7a9b0d253fb8bd37ef6b54b53684bd5da8bf1b645);
  (0x47ac42e7c59481a928348d7aaaade88b00b7aae4e73ebe0dd20e33092dd34e07, 0x28a6c1d1356c10ebea15cbfd161ae974f3b2a4f51ed06403c2f09bb58f7a8924, 0x21398e0ca16353fd670b958cb4bd42ecf3c3053e5fad31d8b63d1d354d296ec6);
  (0x22e2c039067920c42980dcb3a905fc91601c2b34e819ce1532ada4a5fc39d5cc, 0x631cf9945a09bf26d7e595b3f8e3390696870512820df63c5418577089e1a8bb, 0x7a2932856f5ea192d7a8beefb3448aa460f2b5e513e66cb6a617fa9ff53f6139);
  (0x1a62e85ba4a14a3f24f9dca8529ca842f5c7f18a3f429886d6b13673649ad53d, 0x1f6d17d9a1e5c5d8cbb98100757e5183551d00091183e6a5e1eb0dd514c8bdc5, 0x2b5b7eec372ba6cefe99402d2db7d3186bafe81dbac52bb2437c3b33a650db77);
  (0x36b566a2c0f8e36e760992eb83d509238731939dd9dd0d19513f52e1e9e4f9ea, 0x1bde4ad0433ee4e19e734c558978dd945ed244e38414387a43e70232ed39bb3a, 0x40a44df0c021f9788b61796c59541e5b92c745cd8196fb9323d0e0814bccf226);
  (0xfc8f365bb4b04e275d358bd3c277745c565eedff84179ee72cbc5a3e38fe7b2, 0x16f91c8191db1e7817455b6a395de2b0f4396697920ba0cd4874e2b534937b24, 0x49d271acedaf8b4947d3ed21652439d166bc561928dd577c648d1d9fe9cc22f5);
  (0x608de273a9f6a534219d7aaede3cf65a81e4dc03d7a2765eced1d2b7be4610f4, 0x3b31d0113f98d81ab1312fb2837aa9c8dcc7960f84eb371358c6d841f67144fa, 0x4a07e14e5e8957cc65053299d9506eeecb2b125472c78036656777e9c7d96561);
  (0x8d1e75a33bf363f2ef64faa0ab5f9582d1181b793ec9452ea93a3011634d581, 0x47dd939350f06a41ea9c3d889d127155d0275926d05b5bc43977b5ccae42cf1a, 0x1921a316baebd006780205810badd6d929982621216109b26e4fde0115f65be5);
  (0xb2fcb60a19e6a0a29bcc1e5224ee0acfd648e6ee2143f90a5f5aa1c6d51c96f, 0x6301b568e9c613866d76b4c693de25e83435344795fb78c3c5e944a1f33239dc, 0x363e999ddd97bd18f7b4de82b2216130a4c1596d93a88baaee7ab6e7a128b071);
  (0xb216ceec26c5cc827ebff75a3b41630d8925bcf8ae53c7dea348f4c0dd3ae27, 0x563053b0dec5518f24c57a3f9138916ec287602e8a557819ad77aa2a5312bac3, 0x1fef24fa800f030b11b2bb8712171709dd262ee02ab4ee7a3af55c0dfdf05d96);
  (0x3f748617ca63ab3e44c6e34f63e7328ea56a2a146da34368a57dca181254fe02, 0xfed89e6420fc47b3938a2891ba9acee4cbb2899ee4e9ca15a13dc527dc1641e, 0x25d448044a256c8499c86ef9c6164510cf28c592b9fa5fad62f90d65dfde3e34);
  (0x8f050e6e4bbb5e43b756c82a0ffd60723f78c3fdfb49c50378a1083808c3cf3, 0x38900048f0768542b4b9354736b6880632a94601a17a15adf4f233924875ee62, 0x15e087e55939d2fb9f7ce1af47d5b65dba6a3806bd95403ba4ff3e698a48a5db);
  (0x2583374456f20c85e78e820263e1507524897a5232050bd0ebfc357d04b900bd, 0x62d1c4fffd5ac72c7e7dd52c2bc9ea4077ebb7032a39291e0212da60cbcea18f, 0x678f82b898a47e8d3b77042883baa5f824b533fef0a83de661eba0c555edad19);
  (0x5b4079d8c7a5a10bb68984233b2726bd95196ae2b50e6052441fc4e5b98881d, 0x2329432253e9aa57901c1369e57e54e4a363d2cfe69069108c833fa8d79f612f, 0x4c498bf78a0c892e7a3034862d0457c418a3e1ace3925dbf7dc0b64c44cb9f44);
  (0x69d98b5ecc35d56c97c0bf312955d199befe116b417d70f5f57e2dfd0af81ce5, 0x3e26d487fbfe36ab44e0ca3b248fe94bce92a69b8154d50e2d5481f8259f4e8e, 0x72e472930f316dfaf75bbbcd66d94b365c1bff9425107da16aefba9f34528688);
  (0x62a8a839f45660759f741c7892703326e4ad11bd9e102c0770af6ad49dd4b6d9, 0x3d45d6c61b8a03c29d11cb1e9660112995fd3bc8c1553ae897448b613555bf3b, 0xf94051ee0405437b4ad5cdd24a88eca4daf2491434cdbd765305da03dbf7e5);
  (0x4e1c036204e123f311e8da4e3fa212fcf0acafbded425b71a66b0dccb2500e7e, 0x6a5908d961f00a62a2ac904fd824f6932f0e735f257a7d0d273d61736f1bb1c8, 0x621e2c7d330487c21014fe7744ce029cbc0c73c2b5df671692ef1409422e51a);
  (0x7fe8906b455e9f3a49464810d3e6b8e5fef5d17226ddea3b18f08e2ff8552d6f, 0x1300ff9d28f135030203b137ea4a3ec18d5dd0dd6b29a6ee7040b97b336976d3, 0x77b2e3f05d3e99afdf1136c43a5b983f9f9a935e121ceaf9f10c96b37fdfbb2e);
  (0x1e34443347f9e627b3531157faab6eaca1bc3114df4a1423cc12bf8417b5d622, 0x295955a5ed061eca7f87b9485666ba9489ec20a9c484224dc920350bb4a6fc79, 0x4dc923343b524805a26a22894ef2170250e208b10ec251151d5ad94890bb02c0);
  (0x4cab819c06b2f861b4be5b06a918bc314bf29f56cff389ae2ba8abd5f1f5e156, 0x1f10fb18bd5ecfe633b53936f70ce8e58b6a864e679297770f2b38160176681f, 0x375883b332acfb6ff9bf483580972eb6244077c6feab7e3c6f9cd1d4a50d56);
  (0x7c686b90cf6ff6a3a59cc7d8a5e00a2c9b2204decf83f96bb56b53ef630df083, 0xf1deab1d3a4a3d2528d9103d118fafda873ccf0a518c45821d51a7fd71533, 0x2a381bf01c6146e79fa438f17bd932b15a9f5d8e15fca420f1c1b5e2de331cb5);
  (0xaecf4e5a0c4c4da709921a44dca45965f89a3215bb5445cf72dddf4ade53a2c, 0x19304020c00e6169712d6050734bf5c51bd0af80b5ba4a6a0ba008e965216807, 0x1d8dfd966645d6942aec170ed25db42bae46233bb1a791f56be4404d0ebc52c7);
  (0x51f4ff8c599b1c96da82941520a9f5abf4a31eb8b84fc95056145ceb3b5775d0, 0x35ac9588d46e41f3f6f99aee3852eeb4b12e807807d4bd1b7f8406b0d7863ac1, 0x3e8fe83d032f0137afa1fd5dc541264390433b02cf8de43ba8368f02389e5fc8);
  (0x568de690133ca63f63c08161d852682fa5696c0ee66bf8f3ec729b6a71bf9741, 0x4c48220992e8e64741dcdc433a0e65b43a5bae7f4d743e3d1bfdb123773039e8, 0x904d07b87779e5eb38847bceb40126060fe8a8b6c7d8a9a6239dbc070cdd196);
  (0x3342c4717d55221def46b89fdd237cf4e9528170f9b524bc6e730cc4663403da, 0x50676cdf00c935368d54ccf1fa7dd2671cd7ea46686e61fca49dc6a85b6937c5, 0x43b261dc9aeb485988d225821d09357ce045eaf054ac8c1cf4ec7648ffd4ce1f);
  (0x3396978bfc50b33d58eb8dccc52201ef36dfd27b914d8aa86f6ba45d29424d9a, 0x5ccf1359113c127dcb9d35bf9107cccb453eac7ca7ddbdabb1d0ca4ac8073393, 0x69a198e64f1ce7160a07e7b1e18340305c3b2dd6bfca674a1c2c4525df200d57);
  (0x3faa2a093a19a02424f65a10955101f4dc015c43b2dfce8e001507abd741b845, 0x7a1de10dacfda389ca663b15574bdc8ae8c5b6e7cee647e77b11ddbfc6eb8edc, 0xcf0ea5877da72826113167023b7436cf71ff0e24960e3db0f196e0d1b826c68);
  (0x30f9cd3076c51c96a9baeda10ec893105d920f022947716064e32717aee8e3c5, 0x2caedfaa420120c6711921684f9f5a2b8079045fbf3a4efd7e4fa7bc8cbdb095, 0x6cd0ff50979feceda5614c39a4096c1376194f0f0a904e14c4b6664a3a70159f);
  (0x6070951e96e618be7d750fa819593ecbfe9c26972471ebed72c093714b7e6e90, 0x7bb8b8086b2c8f273841de642871dc22c7adb51944d64304c0fe5f4c1d3e6689, 0x222d9625d976fe2ac75d05276114b4e32512228a480f7958ab360a7f25563781);
  (0x1ec0eb040164dd81f57ebc3a26c3e8606154303a1e5de3af27b1afd99d27703d, 0x3df62c38b3077c694268ed7aae9a3329999e190eb81f07326e5cc3a1d1a42cda, 0x7cacdb0f7f1b09c616e6c210e18d876ff41cd9279ba6b7b94a89e68b82b7abf0);
  (0x1924416956ea2c1269062588569b18178011ea7cba1a3266284f48aa01d5a90f, 0xc8e28127b7dcdd206fb6fee96eb88cfc7db7319826ac8cdb8b1fb8adaf021de, 0x1420683db54e4cd2e04ecc3bdf273b5e3ca5fbd9415dc7b89d673ffb13986864);
  (0x2898ffaab663ed49ec57038cecd898fb84076bf49bf6f5c4403aff28ce974493, 0x94f3b96ab6c9477e759d6bcb9934557e613a0f4fa4fb6c6f4b3bc46f335163d, 0x55cf1eb62d5503175bece14b6f18683f49e48f4f29320ad897e8c7129e062b4f);
  (0x34e2ddf5115701105d5d590f6617ccd7716c01b247948470c1514f12016bf75a, 0x1bdaea88b78eb71777558f7452cd868e6d7fc33a0f85c3d2038bac585c1fd926, 0x1dd56444725fd5ae64b03ac325b73b9632353e15f011abd9606d37836edfe111);
  (0x4cb56bd83d7bb25558c34ece98dd878ca5fe850aa79f4bf656269fedfe165cc8, 0x5d1f6fb463251914535bd81a9f9a8aea4d5ea5309b86c4eb8fb4a7fa15a03865, 0x4ab38a51052cbefa3c57658ac888f7f038669da5acd309e5d9ad0aaf333353d0);
  (0x49761c57ce3c8c4f1435d495903e2f536f3be3712e76af8d0b5a8b7d1ebc8fac, 0x3225035e1065094ef32d7f3e7a6f8ff2748025f96e0c0b44eb35576b61e150a8, 0x2d13d55a28bd85fb27776093d3e46b5f95242e37579082bbf01cc8f17471cc0c);
  (0x654b39f4650804bfb7c76a3d254377050002240e2f794f8de21de5640fdc60a9, 0x50ce7be2f1011218849a34ce62654414a8dcaea8b4db9b45dce3b76a6b121996, 0x6a927b6b7173a8d7b7cded7b28c8c7c064d592f24fafefae3579f26b0282c4b2);
  (0x91605b338ea1bd98bdfae06ba25bd540525a3b02efa65df30de5c6e8c637d0f, 0x1df405521e9a2232baf654aa3d2f66bdd6d57fd5bac96f5aa5f8ad2864bf8cc7, 0x19a4bde1945ae8739047830455d12abb81cac09a5f11abfe61ff0640a7862bcc);
  (0x4606fdec56d46970938a8f9fa5f24624f5b9c6f488b72cb1fc87e4feebbb1faa, 0xf00d9e6656d8243e0350fa5b89beefa58e9af955ed650a6d90cce344ecf664e, 0x5784481964a831e791bfa43411cce67b7c8ccaa29502d0ee1ceb2903299572fc);
  (0x4339fa86a23242851a16afc3ab05b352a7b4bf53599a49dd7e29d364fc3a757b, 0x6d07cc3462bae9160bbebb997510817040767faa9dbd13f158a5fe8a63a34b0e, 0x104bbd6814049a7b1a4698bb5f6c025cade797759f356b2e0ff2f2f9d956e148);
  (0x62332ee4f8ee5e56398dd304eca6ffbcde556467ba2c0d5fabb64e9736c701eb, 0x3e1bfb3c0218cf9f7e6a2f47f179f29b0ad68235929b4921fda74bc89fb8ef65, 0x2570fb17c279161f653c3c318f6d5c317589155abd652e30c8143b3d30ebb079);
  (0x7b9e0081b2e20f4f3d3f6d57f7bf977b2f192142a2a9e40b1aacd15140c88b2f, 0x93854716ef9794d2057036ff3f97da686fa3a1784c42279e8abf1fcc42b858c, 0x4a7a4f2618991ad71cb608173334a2922954deb68da5dd2d5e7dc116ddbdb5d5);
  (0x7ecfa6b215265291f32d21771e88699aac3133fdb93ef3a479f95e2fa8742940, 0x10958b5cdaf36afe557b7e60184207ce6d81883edf035bea63cb7da46c4720c6, 0x4cabc7bdec33072a59a8af0dfaf2939a4f3fe6e3163b5181d486d1b1cafde0c6);
  (0x6bda13918dcbaf8529d6326ae7a9c278b72417c2188c5ea4f062fc50639295fb, 0x2c3fa803b162ee887d0d97a6734866f992f846625f314117075da54bb6c20a36, 0x36ba82e7212005248bfb0ba427fe62957d0dd89a7698b714498fbb795e042e84);
  (0x19af956d2b5b4ac28b0c67889f19ad66a40f4bca1625e2007963e8a98a70b14a, 0x5e228bb5fbae687754307287833c3245a1ab34684a5a69174f72b460ccb69d8b, 0x2c63bec3662d358c8ca8ed0545c141f4a5b5c8fd9af62263498a6d7064ad94d8);
  (0x45bf322997c4469aac6d1e4251fb3490e60e7c0cd5cdd6f5cfb9bbc53587b9f1, 0x529d884884075753fd9a2f9ba021ff427fea7b9773f0d4885da5edc024c69e66, 0x3ec91a769eec6eed026204fcd0463b83bf0392f540f7977e93869da3f4e3cb41);
  (0x39632228d7d1471800e549128f91a680c9a64e37ae27d919a2609ce21522c607, 0x6f59557cabbd86e8e4d546e2aae6ac26b27b671ebd049539991e9ef27e00e2e8, 0x3a31abfa36b5752448d82f20288ce53263651e009433349063ba78a8e25d8036);
  (0x4da4821314574d4fed4dcf692c8b15b99b73f13633210333ce7871359b6e6424, 0x314016034673d2d20529bc93a2dab6e462bcb5f66e1f4a6bf2170759a40a6e65, 0xedf493c85b602a6e7d2aec2ae72fd192b2b90d4809074897bd508e39111a1c3);
  (0x22423cb8e82129da6655d94354181feb5b1c789806240b135c4da1bd156d734c, 0x627dcf9be9be798eb639f6b776ce9ef34573c7a7f1d1ed220b1a23156f08cdb4, 0x355bb12ab26176f4aee8bfad04c7d65771a0f35a1480eff84dc22f818b465cf8);
  (0x4230253b946f9c176ea49e7fe2b913a35738999750b1e21555104dcab320bb4, 0x4db9dd92f8d939e6e4d0b0245ef57a62d793b173e977b8fa69558741d1e5afc, 0x473829a74f75d537b514cfcd5d89d665c86445204b685d23824ddd7668deead0);
  (0x63b06e648bf7aa8e8bbf75c0f3e0bc5d438683b063be9f4f09de91589756d7c0, 0x1b17d88ed99541bf1b2cfd50b7d4d87ffd627bb708d0c2445c68249be08bae16, 0x6daaf723399b9dd5214c8fcfa2989fb8130f1d776c01cd139b5e8f3f1da22ec7);
  (0xb2cea0029ee963c0034b61bf19e384435f14554a7d297b5144838c38e375586, 0x47ea95da28d39aaade5edb8ed941c687603cfdd1508776e96d6683199e99daea, 0x79d739835a6199dc02652e68d36ae38c3d12a7fbc301b59ba7bc970650b9de79);
  (0x6e3d157d1cd96bb4ed4cb069497e6041334d698b1640a59a44a45cde613aabd, 0x72f5ce3c9ce0c93d9339b91978f1d9c688b56b3a3850627c7d7f93c427456c7a, 0x31741195b745a59961b471fd56ffe386387deae83caad96cf17b483568673205);
  (0x1f13202c95083f854583ff4cda13ef4b1e745a880460850e59e22c567d23ea24, 0x66336d356c381b7ef21109e7fdfd7ffa0085087eb55c4778ad42025c90275f48, 0x4599ee919b633352a215e2dcf318e28ececfd78dc0d58e8a00f565a9f93267de);
  (0x1d4e70e7fa35c13ec61efe8d7b8ae9e621144c1eb2454c350920e4ac81360393, 0x7b2807a91ce09ff20a518d85be729e118ae448b51763e880abd15795ddc22e61, 0x59ad4b7a6e28dc7410792e9a70dd003f819bc842b93c33bf925b5ef0670c507c);
  (0x4c27afff3c45f32c952d3984e14e29a098e685c9c2e723e5fc8047ae60b7e824, 0x5f2c99e6526dc87d95f11eb626c29c3a90d0be1e51a4c49e5bbabd114bf5a66b, 0x4468de2d7c2dd693da0fe1fff979c60a3c1bab3f8b48dd0b789814d26adc9cfe);
  (0x786be30733efdaf7a08157f7907d6ee4f6952c728fbfa269fcefd1b43224e085, 0x653a5f772f34985b34270ecdd4fd08472a7c08beb39d69be4eab0712c63e2736, 0x58f29abfe79f2ca888ad8c388d59580fb9066ef7bbae1ff81a94c688deac22ca);
  (0x21fee4804968a933df8957815bc8dd9cc6a4d06beb4d19b36cb822f04c2eaa13, 0x500b7740072cb51d416c5da150858339bda5367a8972c2313060d3e930901700, 0xe9b9cbb144ef0ec691417f35c229346e84e8b376242abfc0c3f09439b805a35);
  (0x77fe8a5d490afb6ae4a198065e9488f8c358adacf1dd564e28b7136e1146b3df, 0x3c530f01e039f3168ac0033395218d9122acc9fe0a3545ba6d75c5afa5f50246, 0x10b89ca6042893b7258e9aaa47285c404a816c94b0935cf69152fcd09fea7d7c);
  (0x53e2a4ed1bbb48bd016c524a02f797654cfc969849f867681da94e341f377534, 0x5a2334fdda642732a3c9520ce06581aa7f0f082882554c37b8d390a25a9bd559, 0x293c778cefe07f2624685482b7ca6827661f19bce5dc880ac447901ad61beb59);
  (0x2618676f8fb18ef8c0ff9e057c9cca37104cbae666398a1fc8237bb34d0cb0b5, 0x2aa05b60a232ec56c8f2f51b1eb6cb7ebb2415fc4b1e8ba94ea41a235413414b, 0x4b0553b53cdba58b17af4f4aaf6fc8dd6ffdd05351092c9a48350c08068a4962);
  (0x566dcd766740cb27bccff752ad6b8fd3c2f7bf3849c1131a4ae7323ebc4f6c0a, 0x51e9f19fc00f3d398f7539196f459ef37e0ab795233ade63b5f29bbead27b0e5, 0x510df84b485a00d4a122ee5f3deb0f1bd779dfd3bf8610059f21903f0101689e);
  (0x2151b330947c9f7b22fb8d7258ba6d9cd59ce0bbccb51a3e121194862414aa88, 0x2a01507ee46f38350a3dfc49fba49adc907025fcc96b237c031ed0aff23d74f6, 0xdcf2d679b624eb76fa9d4e8c7bfdf7a4f0fca4adc3a8e8972f8a6c3bebcbde8);
  (0x7b8d2c823baafe0d878a55e8af1db150dec85b1424a4901f9beffd3a6196e3d6, 0x1c45a557b3624f9b89ed15b3c3e1a065f1b453d948f7cf45d9494483f8af0c85, 0x72214f63cc65c6a722e3b72c3ca60022fd3fe519d752106927f2af18073f3e6a);
  (0x5fa2b1dfec51bcf38de2510adedcc695952f36b9900f13efb45d1c3cd099c188, 0x3f81faa56dc388bd64de21b25252d72f40d64b90bf427b8569409b7d23a1682e, 0xba739e2ae395e6c7ffe45c06fb25a24748c1d10c1420ee24d608328e9505aa);
  (0x1f878c9bb777a0586a03dd7c310986d8f6ec21f7ef82642e799e668a7b47fdfb, 0x59479937cae12df41a31892ac4bf58b9c5dbeaf4e0ae1dab3421553da8e44755, 0x6b52076b3ff832c9a75a97f04efa05aa851cab9c2bf08715ae6b8e31489d68);
  (0x8e60479f7f51f3ab2119b5875deac32f750073264da7e554535a949c163cac7, 0x1b2b6c48c2eeadcdb2115bf4ee5f90861be7c49767ba67fc96fee1fa4b22fa46, 0x3f8612966c87000d4ae75060ebc6c4aff0911dee0113e4353ff9ab860ac473b4);
  (0x78877b5d8777410997dacaeea59400fc9db4421fac02c4282301c67d35fb7ffe, 0x341b46c328333e4484ce8607619014d41775c408c88856d2f9e19812d90fbf5, 0x2672b37dd3fb8e0e906b3ffbd596b5083697d5479afda3a9f97ef2e801ad9f9);
  (0x1787c129a60520114b3687d43367dab6a3ba1d1c7bca7edfd2f46e4f09c210ff, 0xba4e0f55131c2b6deb4a1fa4b5d6a2b47e28908fe7dcafc1ba738da2fca96f6, 0x400f3a049e3414bf18602df9851c7af08803ceafa39eb14bf61423d253fcb17);
  (0x1f54318884a9a29932eb2d5aa126ed3a94fbeb7cb238538be572b8e04c6e55c, 0xb704f0aa8dd40ec8405ef01634d0dc797d01a872fae337ebd8d2159a2dbfc50, 0x7fc90fea93eb3a67625c6c1cc6cb4305a6c2eaead61abb25c48bab1521a9d733);
  (0x2fcd57c067c348aee6eabd76e66d27de79846089d1e0916906ad03e940e9263f, 0x1a3da7acfabf171a0b078f4d602a67bcf8c74dfb7a284b553d86bcc7b9dcc17f, 0x681109bee0dcfe37bf09e2f5fa66190bc102df9402a092f8e917fb9e61095301);
  (0x2b556bbc070b5c4bae9e575836d1d68ee9fbe800448c0d2c233f78185eed3f91, 0x7ba01332807ebd892e00ddb368c0fa1b3f19b5b32efd90b178d984e1d7174d6f, 0x4041943d9dba306985c15a344f5a24675180d162247af17b0cab2cd55687efb1);
  (0x3f5c47b490be4e04f8915cc5f3c1fe8e5d190bc41ed00d8f43b04444af406f1a, 0x537ce98e07428214d28bf2b41039cb54ea8da86045baaa3f077132fef32c3bb0, 0x1b4f92314359a01244182854e35ff3955e3c5140b23aa47b00c67799d337594f);
  (0x614118e22068c64a823b4a570572d49131b2f8d1d8cad3a538ccdd30a8b4f85d, 0x63ebe5283599fec22b8d9733a9548505faa5a3cbb5477811b0651229478dd419, 0x4cfb7d7b304b877bab17ea25f1fb11c9bbc464270e607c9f86a0f7a0647877df);
  (0x13aea1849989ffcc18795ff824240b157052292b065060a0b3fcf4d8ef3f3fb1, 0x884949c8ca12b70fbddbff21b25e570672d6ca4106005551930c101c2b81f44, 0x4aebcc4547e9d98cda6d0892e3ac623b398b7c752b298c37a86fe55467d9ca81);
  (0xf72556998b0044799f0fd03210ded3d984e3843bbaf3c1d5d692bc94d43c4e7, 0x16c19c5037c103d447caef4efe6bd81a490e7c668f6870f1b080863b5315df5e, 0x5ecb72e6f1a3407ad661f3e74354c6ffa6ea20dc6c0fe140c1fb4177018b9910);
  (0x25aea0bc0827815b535d8c110e694b9247811ff43682e72a2cea9ef5e347371b, 0x5ddcc7dccc9e41754112bbfd9b9da05d50e2138b624dac59d200421105a13269, 0x21aeba8b59250ea8db4d5a1a7f24ca803142d0b9ae2d2948f391c51d8ace50a6);
  (0x4eecfca39170c07de4669bae23b0068d294ed225ff7949285e8270460638e3d9, 0x5e9e7c4381074bea73e24638aaac0508e76a81b70e0d5c14fb1ef6306a371262, 0x9ae23717b2b1a6dc38ae640e10120b9773a215289e8072879d5c62eafc3902b);
  (0x2884187fa61140983062669218c62a3017be9d32437760281f9b762e4f21f9fc, 0x3200426867df5f3d9f57fd086cc32a17850b08eac3492dca3ca1768af4d3ab3f, 0xa1249fff7e587c3c43eced4a169d09738d0a4388c709c484ce97dbe5deb94ca);
  (0x1cd96ef237b213cd446f13b3ec40d32ecc593bc6ea71e77efc284341a5f3da1a, 0x7a626aeb91efcb5f9777264f5e17ced8b411f68c713673ef0f184a5ccd60dbe3, 0x6e1cd13b19ea319e6ed278ec9673ae058d6582ed43918c12b500f1efe5872df);
  (0x275d04f2b3510c56664a8098fafb5b4c950dec7e83f0ccc4832d810897a24a18, 0x57dd6527da326ebca62ddead9b4863daa69c1f11a39c3782c3fe2e5a06b8b93b, 0x30d0fded2e51307e68cd7830592c633995a8d555c901edf6f7e644395d3d800b);
  (0x3c3b6a92efb1b73a190aabdea635754eeb5ffc376b2a0787adbc2e7d31374f84, 0x126d49709e40cb07b122e980b9452a94055c87763b1a81e7eeac60396d94b23b, 0x24ce0930542ca4639121774549f11a5f46305305a48cee832aed460af1cad202);
  (0x3cde77866cc73b07a52a9ece4832e2a02c9a85a6709f5b9d4c711de45b556055, 0x79f2b3d77f3f44c771f685b6d3d352d7e4f20072b64efc55a957437e967a18f7, 0x2ef517885ba8285936bdb6e8df179bacd5e48f5cfc783a0a126d279179154557);
  (0x31a75b21cb532622a7caf9e29e652ac4e47b1450edf6655acaf3797b55a7ca46, 0x77006e7cf104982f8865081a2ff8a6911546755e31c3586353b0bd0826c5d790, 0x37f33226d7fb44c4b2b948d747c742a3908191cb962423ffb8fd9399e8d19e9d);
  (0x507fddb828993775917eb8d147c94b420e54c787736163ee92f14ef609612181, 0x5ffa5d8998f8df1974f1133fc878d7bb58987b3ace819df0a09fd65dbec08f89, 0x556c7045827baf52be81830fdcb6c6e82fc536bfaa0d925a8eeb5d076eb55ce0);
  (0x247ab53368a2d4aff8eb158b291ea4796942c0ae4364ba270e1259e237612aa3, 0x33cbed49442e2eed384d45782a002d3dea88062b42f823b001ecab1bdd33192c, 0xd414bed8708b8b244093b5e237afa9967e8b29590f2e9bc4ff5cdac1eb08717);
  (0x7300f956c862bb5c5bcedbef880061a0adef30aba72e901311f8918f41e868a0, 0x116d410aa365e041a43c071511113f1a4e09cc70e39f9e245828a32d82c1603f, 0x7cfb7e3faf6b861c68ccdfec8dc230c74a019d54e362be2a14e65442f03906be);
  (0x543d84cb04fb2bf787b7aa382eaab5cd8d050ad8ee52aa8a285b945652014031, 0x358fdc5b63ed49e693d838f182b275846f42dd49a42ec2e6e932ba4de59ef20, 0x7dc43e35dc2aa3e1cf7509a86ee2eed1f393658d24f0ec47f71ab8430a20e101);
  (0x2ac4c0386a424b4a4272506180181c6363395b4094f551f6a70e1fb4f605ea1, 0x1a36c19fc30e5e46b07b2ff0721fb77ff4330e554ffa874f0074860d7de3877, 0x7f79823f9c30dd2eca704534b201bb4957b3371dce4c6359c1df18c5a907e3d9);
  (0x2816f8430d466b9b65d0990c2fd6f455861fb600a505f7297c8283d3ac2cc513, 0x5452c4b45430ea383524c90ef0c66ae08745df0664ab5a184f89b17e74b47f1e, 0x6f5a9a7322aca51de951a9a3171798d710db18252f50f37d07f0d7eb04e8295f);
  (0xcc495fe64bc4816637f94251df4cdee3ca74aff90c1e427744489c13fdc9fe9, 0x42138e7b6cab977efec0d3e669437ab9e0f228d3e38c1a6f6a5e06036e75198b, 0x302d92d20539236d8808ac30a9f6653c50352efceb41b0b8fee3b52260c5d975);
  (0xa2818f5f5d8937800c30ac6b847db2cdef655b864126302249144a5a15b205a, 0x187c76a49af10851bb049ba97c0fbbb14b2621522a4e8d9670ea46e56c9a1bd6, 0x4159f47f048d9136542f7d1bf400d3055497cd6ce6e42bfd6b7dc0dc8d3fac58);
  (0x389973be3632bbbdac59f537aa63f28abf7a33b915d53682a9ebd7d040f794fa, 0x4d6bb19304a47533a460358e9f3eaef4b7984f8e99daf4d2ca993dd87adab32c, 0x71ab966fa32301c3fa694084214dd24c6d7982bb89a1b024f2398e098aa27f82);
  (0x68c0bfb003eeb945d29ec91ba57d6462c36b42a8fdefa5e7b99d7b97cda89d97, 0x4b0ad6be2fccb3042e2189c9f3edac9f6279599756876d246ba1d3f62c84b7ed, 0x721627aefbac438470417dbde6217387828ac41c1e564467597028047f116909);
  (0x3710538d7cd7971d68f19272dcfe0d7a577b7e889977526e62704dfcbe6b8c22, 0x7d10827db74ae0dc09323717542a2deaca18ab2a48a8e245e5a827ca02778853, 0x5aea8e567a87d395441c0a1e2f16440378261ed45be0764cfaa23adeaffe65f7);
  (0x7efb45d3a2851109d7a8d50ddb08fe308bbf674c019b965cdad4570a141e648a, 0xfe1198b11a1bf56867091c69d71f8b7792257dda321d43652e818acd0c28cda, 0x45b46c51361cba72bf87263b03578a23e9dc1eec24a9f6415453bfd653da8e67);
  (0x5d5225a5e2235c5216cebd1847b2ed69e45db93cf3ea8cf012ae918f2c983218, 0x7ec9e5494feecd8d348a92636b5babeec6b5ab1982778140bbeebc4e5de7b1b9, 0x4ae619387d8ab5bb087a76659c8324876048811ec25f59b337081bbcfa79db8f);
  (0x6fde98f557e3360932b5622351886a898e4639488c2433586e6b1d729a2e5760, 0x6994510fbdad700ab9e84413c29ce02525e5b1d15be55269875bf94a48002c8b, 0x4f7e9c95905f3bdbc01b2d64b33604349a9ad294ac4d4fa80fd4ac20dc8f7811);
  (0x705bd9027e77d82d951c8205d33a5b3c3695fe7ee70833035fac2d25a9abdca2, 0x1417fa0628ebc3a194ca46d423ad4a41cff08879e02c8e51e0d6cd670c1bfec2, 0x102f73bfde04341a02a1ef74e601a94f2b4b421246dcc492caee792603589e05);
  (0x472e960dd122a534f52377235350549df4a1dd7a08cfc580bff5fb4b0a70aa7b, 0x10585d04fc529fef4c0c0776154fc7ebbaedbae8a99937e47598d0578932b7cc, 0x4c817b4bf23447838b14071f231bccadf3921028447f1ee3337788ffca14032c);
  (0x3734c7d50aa73403b92723a944d6c90cec86c737774dbc4418a1a6693dccc58b, 0x416c8b45805ea84fa8247cfc6a0b0d0fcdc566e2d811adff2899f9ee663e7ef9, 0x72ad82a42e5ec56fdaebd303fd8424e78ecf4830c92521a36cbdf1703ad0562b);
  (0x3c3c51d3a301c63868a041b4210b71c3675effc0210360dbeaf2778df7ec1eef, 0x6c161ec4de54d51b1a839d13f50e0274bd11c93f722ec44ab21342ef4bd6f892, 0x6551afd77b0901d62dbd23f43b24f87ed2c7b013542c8f5407bd475b47f796b8);
  (0x2a4ebd1072842b788ea22727c676cce2bdb6faac56c69c28c3e694aa63e45227, 0x49b857654a0e51927bcbbd26fd2dd718c3c8d1d196a56ec950806104ef23a7ea, 0x2f9a2c4476bd29661bd0653ed3274fde296537d2cb045a31e77292f373e7ea8a);
  (0x4892cfff7f94ff7f07c1241e3ac4945bc46ea9d6a3c1c3adbce109a9afceb6a, 0x3ae2aa25e2555135a7a3251c11a3f8eebe81758bc1c3e2cbc6e6ca461a543130, 0x7b7ecc19da60d6d06466f8f99202932dd940579e6fc6905f734d8d7b106058ac);
  (0x60c497780d40c8b1ba4f5dc4a2262b84528083f770b07af0fa76098a9f1048b4, 0x22fa44ee0eb502084f6ca208ed0757572fa5b25d76f30b5f733840c7086cb1d4, 0xe7ce2b0cdf066a1a0cab423e2e36ee4492942549189f2986258cb0d078975f5);
  (0x480d816072eb67bfb2aaa781fa5316978947e10deb8b7f3165561904a63f000f, 0x552d0f1d6bda43b57e73875b499952c016af17ac436baf671e5684a8cd33137e, 0x11b44a31bfde30128013c030321cb29329fad851b3480ba1693313ed081dc);
  (0x378e98824a6bc4f1f82d26f746906680086caba8f7e0902b97c482ac0bf80638, 0x114214780d621d31b86d6e60fe7b92c48ea22834753d0ae01bb23fd4b8eeb48e, 0x16234191336d3bdb4208ce7ee9960394f1d1a197622f3a37b60f26e47dabe671);
  (0x2401d311a3abfd2583f1c6aa519c1f18ff730a0abf730ddcc9c9739b04d8a85e, 0x653224f3488cae1ae19a414a9932035a2bf2c46803b5532bbb645e62387ee34d, 0x7fd47065e45351aa5dc12ef7b5394728121aadefcb5abc8a7ab69798d496476);
  (0x72964d278e0326e84801f12bfb0c0cb1edbf8bedf273e5b2b3f4ea8c3aaddde8, 0xeb4ace1c6b7220c4211bb023c76443304c2263ba1d49cf27c4d26c9603b09c8, 0x291884363d4ed364293711991a88233c330060524bffecb9cb3197001bb3666c);
  (0x5aa06a8b5ddb350d8c58306257ecbf219d0070caa4f986c78fdf8e42fa9b8ed2, 0x7920277cec6d1e37a5f267d8fce232dfe38bf858973b895f2611dd200d7c58c1, 0x3e955cd82aa495f60b7d7656e2a55c98231d2db6716174e5d2d41481f1cbafbf);
  (0xebb89efa79e3b56b75663d950362c441440ce1425792cf196234595fac0e9d0, 0xe5f7b80005248f80da7d738df4c11a70f30018d74e871780a1c82cc0adc7fce, 0x566256628442d8e44d58c57e0540168dd379ab106e5382a31bc64631e56bf61f);
  (0xea2c846a535a115972161612a192588d92d68a3c9050eae91b2817b94e68325, 0x3b82a8337b05f11bbac176a113be183a50a0331f3d3116f24b971b5a8b0d031b, 0x5721896d248e49fc4000144c3ae20161304242581dd170a12ab7668a53f6ed6a);
  (0x561d2c1d673a0e91876dad49d7c6a6c6ddc4068445226d2a0e777dbcd25c5f3d, 0x2dac09925d76226bdc776a3309ccecec6de6692370dbd0de19e5d2d4cf747afe, 0x3ec2ab590288c7a2dcd29b84dd623a3c47ccc2c4dfe205fc997276c6492b0c3d);
  (0x140b6f1e4bad46896617dbbc2d4b1bedacce412cab91f0015e12dbd3eb171523, 0x444eb3598ccaff53dc272b0ed8d7543e1270b04a5da34f1822482d77b6bfce11, 0x7656278950ef981fa78e6fa5373e41ff6698c4b5ec78257fa18a5f8233d48962);
  (0xa9fcf41f6ef7ccb545e615e1335443229a1822845ecc07e3921b2660f617607, 0x732fb4faed1673a8d23b79b5ab9356c18c586f395d96d2249f8ae6c384daf9dd, 0x6739687e7327191bb3be28c3915dc6e1d52143fdca5632996c90d6484a4732c0);
  (0xfb3f87c2c6c89c65b74299b77f3736546a8b9e41b19197476bff27354e1c128, 0x1034d42c15a2bfe3e682fad49dbc2812caadf0c584bc30b51625b85d74e9d5f7, 0x42418a103429d715004e228ce55414038c560c2877c9e5472a1848f3c0cc82a);
  (0x7b6a55657786383d359c5b5f2f6cc814790f8527d9d67f6c67a5310eba46b161, 0xcb7acea0eac739a61d526f6eddb857114a32d8f09995826f1431b60663ab0d3, 0x1ad4548d9d479ea3910d281097b6e4eb55393f6dc6eb1375b301bb7c6b1beca3);
  (0x5ad25870b2c161c671b014f548bfd24114e54bac5c675f43e79f100e17e5f45e, 0x65c775edcb82b0b26040f9f5ed43f8ed61ba00427fc92b50bddc94920716ba2d, 0x667282652c4a2fb58320aa0dd6430df97dae9544dbfa2fe01ac98e4f8a5121e9);
  (0x3f18362ff22f583b16d40da2f5e67645ef65016e5183a44475b3ae5c3056b6d0, 0x5cfc7a0f0d2fec43237b88efc4fb7e9f0a95b6352bd4caa918c58c1e9be02ffd, 0x5ef43e586a5714936329db440f9d6dfa57b76cb21034d3af19647bd114a85291);
  (0x1bc7af1e38185e7c2d8d04371c7e177d7a9ddee1b81d7d26db7ad644c7dad28d, 0x61d909d855661f2f7a5eef87795dc0491d027e12631b270fcaf2f65900314833, 0x5a5f887e83674b4b03cc6021feb259601dac6f7321119e9bd40f1953c3b5da76);
  (0x6bce245f8c2596bd228355a6bb8a3d9f2fa8975d8daa7d00799938218028354, 0x3d26989cdd0f6da0c92acd2f10754858c2c9418b0de8789496fc955188a3c065, 0x6a21e6cd4fd5e9bebd5ad8f83626381167301d5199a13ac0387e3f06eda6e133);
  (0xa09b36eb5a04aa90834f3f33ba4e630e5345cfe522b910f5d9d954e6c16d4f7, 0x3aa47fd60fa3110a24b6eb2baeed533d06ce9ee4d4373b20f3a2eb0fa35ed926, 0x62d5221b7f94678f1d82e5c64f9360aaf3760e9d5ac971429cf289b9bba543ee);
  (0x79e9d5b60917d60f87ab5434677906d2b72862d87067a522e1eb2d6fc2c9fdb, 0x16512951d2240a453126ca9450bfa225640064fca385c7583901381c04c78797, 0x467d201bf8dd28672991f7fb7ae5da2e148c1277917b15edaf5bbe1aef5195a7);
  (0x469d0960dbd0ef9c91c4597ccf7c209549b187ff63bd378b7dac577198d74a4d, 0xb5f21c7f86832241f2157c288bdc9394f83f8d57457f6d9f6b345e4909478cb, 0x6e6b9de84c4f4ac65b30e7107424b5721c4e5ee12b6b62911b8fd11795e2a98c);
  (0x5911ade9998930a4ceb0b66eb93d7e9e4d94ca0a3ae3f095c5c4ffa156776792, 0x63ad2432a173e9df4056a370db21b2625d68ad21c0030bba5b75f6fa19548f6, 0x66ed5dd5bec10d48c3b514f05b62f9e3881ce338c77ee8009b65c8f17d0752da);
  (0x10b304ff67577ecb1c73a3e405d39a64b2d4f9dd4cb4bd16a9f3729ad1939932, 0x13b7faa0f91cc1419bb0e7cccd85e369d9ec65aaa934afb423616dd0ada44bb9, 0x25a83cac5753d3254e9b13ef894a0d3586097548c0d7503237d88e68fbe45321);
  (0x1b795d9be8dec6dd3617f3f9bc33c580debbc3cc19064f515209d00c3c88fd04, 0x6c87f61b675c50c01e862a53cfba384baefb8f95079b71087950ad5751be0a65, 0x23be8d554fe7372ac817ad58bdaa4ee63d386ef1cd60a722dda69d930a3ed3e3);
  (0x5e9ac4ab2f4a3c3526e1317f913d69e3826fe862efd0c80d9310319170c5cbeb, 0x505f00fa8aee03ccbd2f33529ae1e4e4bcf2644fe673d0b0290ec32be5b51bab, 0x5a758ca390c5f2938255b3d0f1ef990ef18278bce4af267ab6fd6df6fa9e74cd);
  (0x2e5c4ef1a12730a9788953b5079a1184a9a237b9e281f0317514b53d220ddbf6, 0x5c1731365512a3965c5d5474a84e994ee44afe8cb7ff403517cbdc4dfb54008b, 0x2698ca635126a69c105c3f4a49fb15fd00670d0de1839843980f4a2f57ffe1cc);
  (0x4c6c9a0e8a4ef16e4b55b6eb2e728cf2afef2d38877d5ce8770ff2867bef24ce, 0x26d5711ee5a1e88273be70d6d8b9054cc5ed2581668d5ca83eb74fd1c286ea25, 0x3db5632fea34bc9eda8ab89699fbf3738f593913c62238c4af2cf6cb9e851e06);
  (0x599ba21b65ffb36cf3151c6e8662aa6c8b35948435819669d60cd77227507e92, 0x7f59b350f668c2b6797e53f3fcdf6ddd497ca01445f6e3bbbfa50c48865a9e2, 0x3ddbc2a131c05d5c02d801513f9594cefa475832942002700dc62d361a3231da);
  (0x11cd80e1fdcbc565efed81d17f3f54643ffeed1cff38f3825e115adbd82759f1, 0x43f11943f7ef3fa68b980fee45e98134f1df22263b2d14419d61ffe62822dbe0, 0x770eadb16508fbcd4892d66c6f88ebeb0111b37c80ac35e20d005acd33db3dbf);
  (0x68c33d8f33219a980ef7a4a10edcd58b0d2314d3c8ce301b6c0de50a100f3ee, 0x1032a93593881da4de11eedf679416b57135344cf9061c393b12d830ff4f7dcb, 0x6c1b840f07566c033e008bc4ec43df343b79e0c2dccb7035ecccc4f2c2737b5);
  (0x1eac17c83ec7972fe82321bf2c4e6aa73565be5cef720aa9930c6fa3f0b1c087, 0x419a160079a825b1b3c51e57c6e5a257a86757c7a97bdd6dc1ecc40e521ef7b, 0xc626616cd7fc10679ca955309fbbe5a89a0cb2e6a8d7e50cb58c8fe433d8939);
  (0x4ee45ad6672f7b5dce99d4f64c57742640feb26ae734fef8493ae38faba68896, 0x7041a7fe4facb6c6904101f856fbff5b2bb15c7dc602a4936af62555bdb3825c, 0x13f098a3cec8e03989a180bbd5ece2e249779dc3b1b2c652c8b247b65bcaf19c);
  (0x3328bc121616a9477165ed282053d203c24f4826076c638a2c6723d42c9bfadb, 0x2bbf3f26c21b5cb273e5f4f0114c6718c5eb7291939b7697c74333cdfafac039, 0x61d0633c9bca0d0946af908d263c8c78a5acfda9434937f9538dfdcb41446a8e);
  (0x3646a62ad82bd1f37a32412d71c1de8314637eea177267a0a5176fc37c90a733, 0x24dd06031fdaa9e8e94d73adc700ca86da20ea738f7dd05c088bb8f97c6bccac, 0x79b9bbb9dd95dedc0e711704150e82cfe88f19aafade6d8d9ad2b953ee80527b);
  (0x3c0c1e7beb87a53457a69c0f5985dcbee21e0acb65aca9eed7a52a980a61b29c, 0x74e826b2f1347631922c45546e2f1973ff349a34c6939e4bf0a0b50d6384bd2f, 0x632d9a1a593f24698844fc73c0ea4e71fa134569f99cbecc856d2782c5759740);
  (0x53b1cdfe23ed553c0443b14bbba2119b58cd8c555ea7bde6c0cc4c0c6d90670a, 0x5ca6df45ad9630e4b8d5732bd06e5008a2677a342904fc587238af01f575fb05, 0x26549fa4efe3dc99bdc78abdac994f9a05c3df38a22ea610323c0ffde57663d0);
  (0xba774bb605dd804cae6887e81f6bd2c59e024fac8bf5f5c48a841a037c28398, 0x54ba013ad2d04dcdfb5a151b7347ee9a10067ddd0a3907e9bc337a77bf911321, 0x6a39e6356944f2354634aacd5b06b8070910d6f5a1f1d0a54021370ef540e7dd);
  (0x6e6b14df76458c45466bef23b9377cf147c97c495e8207a0436a200b4a39d548, 0x30f3b35dc952ba9d6b5fde2d131ab9b5b403f2583a7c2d8ada37764c29cac942, 0x241e246b06bf9f5120fbdadc5dfae796af42a207dd876ee98efb23c3328ccb75);
  (0x496490af4080feeb8e38f78e769308b124edc07985b1ef7148d7620c6bfe6f4c, 0x7f6410727b65cafa07e53ab1e775ef0408cd5f12b94bdb4e533c4498c1da884a, 0x42d7a91274429fab6035c9c905fbb912d224b2d7c128b615fc415a7c59646445);
  (0x75bf0ea1fb606d05dd67e0f313809ac9792dc903159d032b05c96db7be967e0, 0x43ba373488c317aad659043f9bca4c85d9b081903e7767143522416bdec79f81, 0x6183c565f6ff484a0cb68893383f6409dee60f1176ee6828d1c101d50b813381);
  (0x1074ff0267662dc2b4ce65aaa0229c375a3d0d843ce9349233949581c869b64c, 0x299be0decb680ec28923da4d049770107d42c180b460da13a7b1efc7e6d5b022, 0x1fa1d01d861e5d15175322fd31f2c0f12fd515463a1fc1fde07f4e8aea17cea0);
  (0x3e63c4ae42121958f28e78e557e827a108156a81cc8b5c64362e2b362a42fe33, 0x3599286aac87e88c8c857059a5edbac1265bc15c047cb18502ae80caa79c9678, 0x1f426b701b864f448d77cec8ad638932a493da67c5a03ecd06b1e90863139cb3);
  (0x31ddffcb76711dd76c6b48540967ab52ceb13e466fc3b2a44fc17508ad074a91, 0x221c9b9a258e4d271a0176119764072e484a3895d0508874076f36f0fdfa8836, 0x398d93e5c4c61f50181bb73ebcd65af1843a5d6665aed4e56c14c8e994885455);
  (0x6b265507695b3cb34c25cc44a95dd559ec0245102bad71a3765eac0f0ebd57be, 0x3f7f093597acebfdca9d151e67d5802b991dd62f822a757af9e32951a7d46b30, 0x13e9004a8a768664352b4c82fdb5c86442c54e2d74421d10ed5192e60c07444f);
  (0x25ed76d78c87c3bd64b4331902c5a853734283e25f19f320295667b80a340d35, 0x179b5f92f545c7b326b3a63fb0b32a0f52b4159988436d5af50c1d0d76373947, 0x343062158ff05fb3771febcc6dce4887762fcacb9fa0ae2a8b767a93204ed789);
  (0x71880463417e760ecb72e31789bdb017139aaf83eaf20fc20e423bafa442b92c, 0x7be598f9de5bd5dc434f938efd89e30d39e02cf1bf657054ee9fdd5786387875, 0x33384cbabb7f335ea9812376850a0517fd95d071c15c388b22b1a58ae9b08183);
  (0x76db1d03f26fe3e7dd73951d7a58abd8b6c1779e5c6f129463f2b2df11653be7, 0x24b91ba65c06f1df0b18d1030726681714e1ebbd27bea55a5abc1b522c4e06ae, 0x6df9b575cc7409051925c9a6010fbd76067b39f10fb7a3288a50777e166f031a);
  (0x3d09f11b74381d32b6407d2f5f3305c5b6ecc5ed60b48431878c480e138066c5, 0x45f4a22ff69fc1dacbf100959bab8026af793c58551855753634f88dbc8269d4, 0x30408c048a146a55d4ce0c54cef285e222897633a1cb42acef5cf100cfb7ea74);
  (0x75d942c04210dcde5d1bd4fabfc732d3f95568e399382c0423c83c41cb05dc3f, 0x696cc14856cdc13c8fd7e2c5771731cbf38e3fad47a424679765c4874e35ab2d, 0x2cf8a4e891d5e835e19715574696bdc6a9d13b22d4f06834b9037116297bf48d);
  (0x6d12e0dd1cd8bd76ad5a191a61920fd4a3c317245e8bb210df90a57b885fae14, 0xd5c9e4b74fde7802a0b836724057a5b810f20f7dac4675a4d24a3028f70bd8e, 0x6011aadfc545941d4c21b52c519ebfd4f0ee60be5b3db90b7d09fd8d6a9aef49);
  (0x16c1556c9a2bc1af0b11cf369581a12d063081ad20f83407e1ebfba21f5fd594, 0x23e38cd5158b0f891e19adebe973b5b805b393deb8cf11d7281335745ef14f36, 0x32fcaa6e4687a36c083ab1a25549d2eb48583f8fa2e926c32cc138bf2a3305f5);
  (0x66e632db15cc9b7695e73e2b94033b8d25fca89b99ef5e24436b804bb683be22, 0x534e3c9c194cccc190ffea06f048e7a6f65e6d5c7ef6074693fad6a6134af084, 0x5911b9f6ef7c5d0960746dd8ec67262e9bd0331b1e851edd2d55112e2da6ac8);
  (0x5d9324f56975477d5945599eeeccec67708c996cd3f3f2818bf2591507e3502a, 0x10985a3cfd573205281aec24e2c8b41f5cd8cdfc9d7be34675cf306bbe1b4f6a, 0x44e2017a6fbeba62abb7229cb5b813609de9ba8219974cb3cc802468f7c3568f);
  (0x3c08b09976fa5b99270e861a71c0ab1fe4d91e80e522ced3e19ac2d830f7dba3, 0x30a2ba28dfd74083de7aa9ecb4443a3773366abd33d1d1eea65d6a1b85d2932a, 0x6a882014cd7b86062c0c32f1073abeeb032665ff51c5575bdcdfe0a02cc1de60);
  (0x27d83b61339890b9c8fbd00cb8657e01e08fe7e02cf1cc0c991f3e184647ebb2, 0x2aa089af71e21dc6264ed78eebeecab46c08c7e4c593c801ab744b503a72bea0, 0x588657668190d165f06fecc58dae8366f55d46b8df18ffb6a54dd074294c0b94);
  (0x4676d3812cc6b66e1f8c510f446ac562ff8a52086d52067482faa8dbdee40b98, 0x7d89e2b7744c57b1051450a0457fa0eb2a95c1bf8ed6bdf68f1aa7802e7429f4, 0x6aab9875accbec7520a885783ca15b131e00ab0ed3272303a01b76496ed19c3);
  (0x7511066c0e12105a7b937c7ecef367d5afe6e621e5cabf4e490b09b7ada7ee07, 0x604df365b8391cbca8848f88daa700b770da5bb136f70bfb0a3ea33ba386fcd5, 0x675f4de13381749d5737ff98b40946f2624aef08a3afbf0c36a770ba3b73bd08);
  (0x668d5960c0b43b91185fc90d18ad46a4515235c7185bd5254981d26ae8619807, 0x7a66f757c21900b1e93c86e682114de2b5d3a248850958d957ae246e53791b03, 0x1c06de9e55edac804e5f1c18750023a04fcb69c9d719bfa2014b5ec321e5c0ca);
  (0x5089c58085e74644f85e2d03ef0759218dff976d9e8db4ca9f9522d70389e30f, 0x50cab959cb2b604196fa7ab73094347badcb954ec320fa01522986248653d88b, 0x63550a334a254df4b72ba407bb3119b9f4272c89510a380cdefde939fd5986d3);
  (0x761affb1e0d408002cc427dc6fff611536e2b989b0a5f94883a1b23789b5bc2, 0x3a6d110e6070153b7c42102c6dac97695b4a45872cc47c04392ea170812fe6b0, 0x26b44cd91f28777d73d7c36cdba1df27bb1fd49e1d9e156df79619d7a26d808a);
  (0x2596e5b3cf5494e60d2a750d03c66abc2e0183af53620b893f9cf9fc3b76dc26, 0x68a0a7ac9a0cc093884a6b84f45a2cde595194e0f48dbd566fa78a3174b182fe, 0x78fc54975fd38777829ad2cd63def0e4bdb5ad26b009fdcd9fa917183075a55);
  (0x249651cc143249f875c53d5aac9cd3b818989387875c08c7ad104723c7d60d25, 0x28fdf17c15bb6b0c4dd06abd210155b2bdeca64a5f02a6934f00437f05d9c65, 0x4325e4aa73a719ae26725fbc3758b89bf001459b12043599f3678fd0ecc90b54);
  (0x555439a0891500e49a25ccc1dc98fb600ad0f84600494322c44315cbf3d59bd, 0x5835c99533f44bcefffd61bc8926af99af9d0f669e428593ec19129bdf55935d, 0x524b42b55eacd026843bcfdc97af7fdd72465eb001b26e7124079eaa54cf2ba);
  (0xdec3676055d5dafe7544edd68b7a80cda0443b311638b16a8aad05972aeb417, 0x48fa8dc3a82049989f4cdca7c6545513f02906fbc4c37d5b7457553832827c6d, 0x822b5378f08ebc1e95db3f35652fad85e21ade2b2de1f79c704ff4942bdbae6);
  (0x28bd38d44030dd9ca028b2a2f31a795f4c7a5e85a785df7847e3d525e99d4787, 0x552dd7405c4183733ad3c4e7ccb999b4fed81b7a4444aab499d41d6d78d5bbfc, 0x8e68e9ff62ce2ea588001380f0be4b566cbec045553cd0ecb62af6a8766ee7a);
  (0xec8fe27a51e6f75d4197b4711b5f17d8fc023224426a7a17d3fdce55f7be126, 0x3de83daf93d8aa7f7675b8df61c07b3c1cf8fe6b81327c3db1ed2cefab3d11d3, 0x19a1e353c0ae2ee8c20d313f3f751b50a59501badb4a9038f7848c75e515b64a);
  (0x393fb3d0b216d7a5f48da1dbe2fae37c1863636e599d725b0a4ddb6c768a89e5, 0x4e2107bc674405da517bd3ef9605b5ef6bf72e94c7963a80241776f56c0960ce, 0x6b34be9bc33ac5f22cbf268f46caccb157156da9ed69a084413e1a17cde6818a);
  (0x1edff13d99073e0e6441de58438feb37c6e1eaa3103197eb7d22deb9216f73e9, 0x2e42eb00cbc19262a6caf1a51809d26674c878d718cd86a9e4e20617c243adf8, 0x1c0fa01a36371436febac2d2953afa055cae6a3f57cbcf61fcb46589d63b5f39);
  (0x59233a3346f61135f431f96cf0197e24ad38240b222c010a6ce538cf4c24347b, 0x3cce55908611d2b93f221613f09cfc4dbcd2e2b609233eea5439ad1908a10b20, 0x8706c9b865f508dd53bd812c3495b5806020740556a065f32750763b028f48c);
  (0x4b82eba78af08da395d2b48bf17f55f984d7991277777e29ec8e3c4afdbfea1a, 0x1437579645925f5d241c94c1c64c55c39f64033ff8234441e00adef63af4282c, 0xecfedf8e8e710b341c3fed066663e5cb9734ade74498f849c49e355c9941ad0);
  (0x1a2cd99d3d94ed5a186f69c4ebb16fb282a589f9237585a55ba076b96690cdc1, 0x4044babe0b4de497049f1a9e995ac6e6ef0bedd2e822b0f8e037b70673e6b035, 0x77de29fc11ffeb6a9c347230ac2a8846327ec60410b245096f203dd5405b4b42);
  (0x24497c51a639670f653076aa14ee826a4241d6b20a89886f54bb1f5f919656c1, 0x3b80f82901f17808a3d7a986367410548092cb5120db4670d3750f11d178a335, 0x4a8933cab76862b3dad8d0d2e44216686f23a2c6bcb0cf1232a03c35c258ea5);
  (0x5830f025f1078d408948f73096af97de1e9e70b3be85890acb21132c34ff961f, 0x67d451752c2433ffe66e47242e301e56db2b2f8203553cab9de717e25793d41e, 0x1fba218aef40ab42f8499f911954fa8e2089c1af3a44ac90a003febdb9be82f0);
  (0x19929124ab5779c9a99e2d1716d8c07813132b29c69a3c1ed1f4e15da1d9062b, 0x52c0cbef541fe80c1e9b999483041e79950a13c4424073607d4975a69ca1fb69, 0x25e17fe4d50ac13b19319c76f29ab0ab2e0781445887e8164cbd34e93e8a35af);
  (0x849c9e6da66d17bbf08dfdd339cf0c074ed671a2ed91dcf7a6a8737a1738914, 0x9f4dcbc5ae50392c92faf402cc4f17a92573a80d42e5a4c21de0ab0555edde9, 0x4a3961e2c918a1541eab4271d83245d9b9ede3c2d8315848118d189041e32d96);
  (0x3dec05fa937adb1796e9d70e892ae0f4636b0b2f1e35444525f946d7c7220e7, 0x15949f784d8472f5691129fee55afc39462588c4a4ca4f146d1c271cc6375515, 0xfef911191df895f2503a1d065a497b9eb848e0f7f19547ee3ab90d042c84266);
  (0x6a0c8b194571e874b82d904da36d43096bbe36d512e24ff8dcb2b00b57ffd3ec, 0x5f85adb7749cc735ec838bcccfe7d4b52902c6132998d7ac8e032cad031c42b8, 0x6345fa78f03a30d57af1c6a65f706fef15a08c478bd1647becf46e527aba8b57);
  (0x3491b2f25603bb1a9841e6e62596cbb7310333ff29b1b84f5a68694556e18478, 0x988beda393eb3e3e57bf5875980dcbeaa11f81cd365bab3396b62a466f76c2c, 0x2c5fc0231ec31fa1c88038ccd37900c480ede3670291c833c83ca3e390babd62);
  (0x55f070d6c15fb0d96c033b175f5e2c810ede0fb19fb128f251037f7cf4e861d, 0x511144a03a99b8559991e1b02adb476f022f82391bad83787c52af2c97473e69, 0x2b7a29c010a58a7e4c35ac83a3c8cd585e665f6cd86770c8af6c4aa752f912b9);
  (0x11f540171499d7d1ddade06b6b7b5664e1a039172961513beeebb3837cfadf6c, 0x418b827fe0251682fd2c6901eb4b82a2ee53e97009ae688e8cbda81ca4944b6e, 0x7761455e7b1c669cd09ef36267daba453d0987990aff3f7a9d4f270466898d0a)].
Lemma ed25519_table_ok : doubles_check p mul ed25519_d ed25519_first ed25519_table = true.
Proof. vm_cast_no_check (eq_refl true). Qed.
Lemma ed25519_first_ok : listed p Hp mul ed25519_d ed25519_first ed25519_base.
Proof.
  split; [reflexivity|]. apply fp_ext. apply Z.eqb_eq. vm_cast_no_check (eq_refl true).
Qed.
Definition ed25519_run (start : nat) (digits : list Z) : option ext :=
  ext_run p mul (ed25519_first :: ed25519_table) start digits.
Lemma ed25519_multiple start digits k x y :
  ext_is p mul (ed25519_run start digits) x y = true ->
  2 ^ Z.of_nat start + weigh (2 ^ Z.of_nat (S start)) digits = Z.of_N k ->
  coords p Hp mul fd (ed25519_times k ed25519_base) = (of_Z p Hp x, of_Z p Hp y).
Proof.
  exact (ext_run_ok p Hp mul Hmul ed25519_d fi two_nz i_sq d_nonsq ed25519_base ed25519_first ed25519_table
    start digits k x y ed25519_first_ok ed25519_table_ok).
Qed.

(** ** The order of the base point *)
Definition ed25519_order_digits : list Z := [0; -1; 0; -1; 0; 0; 0; 0; 0; 1; 0; 1; 0; -1; 0; 0; -1; 0; -1; 0; 0; 0; 0; 1; 0; -1; 0; 0; -1; 0; 1; 0; 1; 0; -1; 0; 1; 0; 0; -1; 0; 1; 0; 0; -1; 0; 1; 0; 1; 0; 0; 1; 0; 0; 0; 0; 0; 0; -1; 0; -1; 0; 1; 0; -1; 0; -1; 0; -1; 0; 0; 1; 0; -1; 0; 0; 1; 0; -1; 0; 0; 0; -1; 0; 0; 0; 0; -1; 0; 1; 0; 0; 1; 0; 1; 0; -1; 0; 0; 0; -1; 0; 0; 0; 1; 0; -1; 0; 0; 0; 0; -1; 0; 0; 0; 0; -1; 0; 0; 1; 0; 1; 0; 1; 0; 0; 0; 0; 0; 0; 0; 0; 0; 0; 0; 0; 0; 0; 0; 0; 0; 0; 0; 0; 0; 0; 0; 0; 0; 0; 0; 0; 0; 0; 0; 0; 0; 0; 0; 0; 0; 0; 0; 0; 0; 0; 0; 0; 0; 0; 0; 0; 0; 0; 0; 0; 0; 0; 0; 0; 0; 0; 0; 0; 0; 0; 0; 0; 0; 0; 0; 0; 0; 0; 0; 0; 0; 0; 0; 0; 0; 0; 0; 0; 0; 0; 0; 0; 0; 0; 0; 0; 0; 0; 0; 0; 0; 0; 0; 0; 0; 0; 0; 0; 0; 0; 0; 0; 0; 0; 0; 0; 0; 0; 0; 0; 0; 0; 0; 0; 0; 0; 0; 0; 0; 0; 0; 0; 0; 0; 0; 1].
Lemma ed25519_order_run : ext_is p mul (ed25519_run 0 ed25519_order_digits) 0 1 = true.
Proof. vm_cast_no_check (eq_refl true). Qed.
Lemma ed25519_order : ed25519_times (Z.to_N l) ed25519_base = ed25519_zero.
Proof.
  apply epoint_ext. refine (ed25519_multiple 0 ed25519_order_digits (Z.to_N l) 0 1 ed25519_order_run _).
  apply Z.eqb_eq. vm_cast_no_check (eq_refl true).
Qed.
Lemma ed25519_base_nz : ed25519_base <> ed25519_zero.
Proof. intros E. apply (f_equal (fun P => val (fst (coords p Hp mul fd P)))) in E. vm_compute in E. discriminate E. Qed.
Theorem ed25519_order_spec k : ed25519_times k ed25519_base = ed25519_zero <-> (k mod Z.to_N l = 0)%N.
Proof. exact (order_spec p Hp mul Hmul fd fi two_nz i_sq d_nonsq l ed25519_base Hl ed25519_order ed25519_base_nz k). Qed.
Theorem ed25519_times_mod k : ed25519_times (k mod Z.to_N l) ed25519_base = ed25519_times k ed25519_base.
Proof.
  refine (emul_mod p Hp mul Hmul fd fi two_nz i_sq d_nonsq (Z.to_N l) ed25519_base _ ed25519_order k). discriminate.
Qed.
