(** The constants of edwards25519: the curve of RFC 8032 meets S_Ed.ed_ok.
    Generated certificates, checked by L_EdOrder.erun and L_Pock.pw.  No part of /repo is modelled. *)
Require Import Verif.Base Verif.L_Mont Verif.L_Pock Verif.L_Primes25519 Verif.S_Curve Verif.L_Fp Verif.S_Ed Verif.L_Ed Verif.L_EdOrder.
Require Import Znumtheory.

(** The steps to (l-1) B: the points and the quotients.  Spec only. *)
Definition chain25519 : list estep :=
[(0, 0x36ab384c9f5a046c3d043b7d1833e7ac080d8e4515d7a45f83c5a14e2843ce0e,
  0x2260cdf3092329c21da25ee8c9a21f5697390f51643851560e5f46ae6af8a3c9,
  0x8b896c140e6001ed198b5b7b564c5e7c4cea7656ac92ed1492ba58553286991,
  0x51eb851eb851eb851eb851eb851eb851eb851eb851eb851eb851eb851eb851e0, 0, 0,
  -0x2b32889752bec2e0a8a2e751d76a7a91823ea8b28c85eefbcf574056192fb00a,
  -0x673b9f0e7cdd2dfc5a15b445c384a987fb62dc1e0f911511473881cea5891ce); (0,
  0x203da8db56cff1468325d4b87a3520f91a739ec193ce1547493aa657c4c9f870,
  0x47d0e827cb1595e1470eb88580d5716c4cf22832ea2f0ff0df38ab61ca32112f,
  0x17595c892bf0f18be9d471b7c7b000f816c7d1982a212ff41f6c7e38d8ac28cd,
  0x93bb69f54c6a9a716d60576d4c1211065abc3bd8827b6883f835589d512f6fd, 0, 0,
  -0x26edac523d26c6451e1eeefe7dfd6ed32d6cdafc27676bf1a6e2440626de8cfc,
  0x154cef065dd826ae9b713da6ee76d6916696a50fc45749c045230969123b28d8); (0,
  0x6742e15f97d771b642862d5cf84ecf93eb3ac67b80698b993b87fdbc08a584c8,
  0x21d30600c9e573796ead6f09668af38f81783cfc621ee4931e2f5ba9fc37b9b4,
  0x81ef2217b37f2925c8f5dfdf7dde413f4ab381d3099d5b14f65e32c83d531cb,
  0x284b16804bb044fa49a9b672e179ebeb3fcd9203eebbef9625be0316e820bfef, 0, 0,
  -0x128a443e2dba4dea0968091995bf2419f7ab13027edd4a28c53639d30a842dd8,
  -0x5c70f266bb08b2bfedcf79d5bafe1fb5f6f7dd05dc62cb1dd1f53ce5a99a577); (0,
  0x23a4860627e53aeeb8e22b1508249c9109578d33e7bf237459b2596d6c28f9f8,
  0x709696f2827fc3729f980f2e3aad6e78b06a11ff8e079c27d87aab37c16727eb,
  0x534dc5a7cfc5aa641ab5d2b54865f50fbc457f55c464433081f22ddea70ac397,
  0x8f02afe32fc02f212b1ed64248bf4ac19836dfae2d09f62c8b475b04e2c5fcf, 0, 0,
  -0x1aebd4985fb65e4a841ed2ccb218d818d4438a934c4da685228276728fdcc100,
  -0x575998cd451683e8010956ffd58a4804d94b51ac30d5e62c22b18c52a8b58004); (0,
  0x39cf6c6917421af98582561d0b39567de6033190f97852fc4fdd40f6977e4f26,
  0x4434a90ee12cce6b7ade93ecc0f88b78b41205e74c8c4038f92d394f3a06d269,
  0x9ecccc359ec7b754e26170737ba66be7360ae371e76e6be7c96483c4cd36cae,
  0x63083952dec39ecc162bdaf42ba7fd9edd50c5f54b7e5ea3f8be2d3f941c2498, 0, 0,
  -0xba8fe3d3bb690ef053453dc9f21e34be70da0d99e27c14c23f38b5afc517b3e,
  -0x3c3876856028b4239f1f1998da346801de669acc743eac1e9c912f4a027203a8); (0,
  0x5fa64200bf829139cf290f9871d79a8b8e846fd6ad9d678f1517a0fb03ca40b,
  0x3d199eeaf926002872f486796fa8aa4c99f1125e6e0d196afbd695af17da0926,
  0x1a1c0cae986fc75d34271cc0e21173153765889d16ef042a5147b5a93aed8ae9,
  0x2458094a0a9fdc0f08e0df5b6f6fae4a6f7051fd7d56ca9d924d18de7bcb8ba9, 0, 0,
  -0x40293f1ed45c263da67802e3cf13fe95e120273c01ae70cf1c15447a51323211,
  0x1a1514339a7f1b260ae363a1df23248cecb4c87d285b68ea90f16bc95b5acbff); (0,
  0x379dbeb1a97b5f082402eabf1ad28bb78a837aa426237a405da2495bf0cfdd87,
  0x28eb9fe001ce99d063f7995348559bfc233261c134094521fda0e7ee084b86fc,
  0x4779a1ec703f4fba41be11e13ce8ef6dd17af8f6a8989d35d6a53ac6f1f7f0,
  0x1d2a7098ce8f516d45a84b45b7278104bc599d11a5845c257679cd9ecdae2933, 0, 0,
  0x2e223b03712a36eea6627f152664388378925799eca4f26cda69d0cc8c600098,
  -0x2624884f8e1c3d3a1eca78c00744fef95eeb54b6262b32eea178abfa1c495c26); (0,
  0x5e7e07ed4e1decbfe6e9cbc126905449d4b578fbb561576d20b8bcdd0cc2a556,
  0xf55755c51f102796bf5ebaa81d3260e7d1b3d9ac127d9a80e142031566cf6c7,
  0x182a524795922e0dfaa6142ac21e4c2c5f6a4024e6f4f4ef228987a5ee596a97,
  0xd14f5a9d357cf42a0ec6a931fadcca4217b85b9195bb0d167fcd99df5136e3b, 0, 0,
  0x79c9e36e36e7806137bbc0f7ef9997f3c86fcbfd290bf203b79a25489889752,
  -0x70177b58207725d9650e17131cf4d645ffed956b1c8ad213c6eb14316838a6e); (0,
  0x2eecbf81b3d084733331f9eefa70d42621effd9b303961d25409333c82cd340a,
  0x54d2dc2da137827c4132d9b740a119b6484d4d4849e6e074b89cf764008b93e8,
  0x45c197bc266b6b22b15832fa5f3de4e395a115ae178fd4849f2ec10e880aab24,
  0x1d6408fed6c590e55ff5aaeb7226aa7f367b854578a4b1ec73a53e5b385f0d5, 0, 0,
  -0x155df382c6a3657eda30e85c3cb3d64ea7ef71a97bc85f3ae9d098ff87e2af24,
  -0x24cdd18fcade6b6f908bda9301b0eafc9ac4e4da84b883bac316c9e52dfffc0); (0,
  0x6b113a52f9f3fd0590ac7cb6c8cbb37abcf147c44b2ae11d9151c7d55b4a2b68,
  0x1aeb017159697e792eb8da1805519c06296595f4f57996c590954359f327c13d,
  0x1133df88860a882aedc5ff0aee81bc5d0c74720fe535ee679855ffbbcb62d7e9,
  0x38361c57d40ec3da33e9486ac61755d0acb3f68fc8377f5f0a482b5eac37e3e5, 0, 0,
  -0x3814e127c7edbee7909d8528c239408804a0f27326756069b86677622d959620,
  -0x189529371a1e0377a61dfc32b189e892b44ced54e533529e4901dda87062254); (0,
  0x3c1ae7527612d38bb541f511fcc6283d8482afe93115b345ecd2bcfbbd1317f7,
  0x51c91c3f9d7e57eb786116c8545f90fa67f5e8b62c32ac4512015a20711364e,
  0x598ecfd45281b823c95d1e0eb26fba9f395f015ed311f88a970d0e9a635bfe7f,
  0x5a9280d588b548362a4e4de74e6decf9cb097e9d2836dcb197e8574785b333e, 0, 0,
  -0x5caadd5730eceafc6fabc98afee350f69c20f2b4b366eb38df40486da3f827ce,
  0x40d17918c9b0bd481be434f6fbc5a46e3cabb665f5a7b0056ad85fdc3ec3938); (0,
  0x7d13c0248b891b47eb524f2692008e2f97b199bac426cb5902b9003a29ded6ea,
  0x59a976ab2c01a81a91f1a56c75ccc77a9e1e9e878e9fe9c3952080a6805b20d5,
  0x1c393e84ea3d754493457e952c732a19535aa08a3223c9a230445722bea23fcf,
  0x3441c3bb415a7c97347eee9908c2f595d590d93eedd586d529defe7861f20a, 0, 0,
  -0x4b2277f54d256cbc26fc28bc8fe8853094323bacbc8421caf2692df35bdb962c,
  0x326b53e70cf99fe59c4fc58e655a2fe067df559fad0744e2bc357b94bf1f76ae); (0,
  0x17d5a9ff7f338d8ee53c26531f9a5d4ad2718234b5d46a1435aa161031b1c9de,
  0x73022287d3b73f6c43c3f9071cf0a87aac83dabd44efad1de010d564a4f6af89,
  0x7a3896538bcee306f80a138ebf37a95ba244ecc5b60bcbafcfa7f42203cf7310,
  0x3ece8961d337002f8a9cb3cee263fb40fc18f9125cf075859717c44087218480, 0, 0,
  -0xb9b0acf53cb03728b9cee747e4f928987a48fd8be9d71d4a5f95c1074d37f0c6,
  0x327a2978b9f71cfe4d981260d91742eb65a146c348fcdaf54460839eb3f3abd8); (0,
  0x7a8bc68bf5f3ed3bed79c11bf2d6b20cb84442dfe4ae185b0c2dabc38e74b8a,
  0x7249d7c47afd427018b32d20a2a81307bddc3e039574c80329aa786a22288901,
  0x4702dc079d08853eb92464c962c5275236b75f8ec97c4f8e50d872e39cf0b25,
  0x6755d6152dfc9c4bd390b968064f3449826e9c66e411a00d761b72ddab0216bc, 0, 0,
  -0x2ace3899743cc74858d3ddd8966685e23e1f6ba09329e71b47ebd91fd613cfa8,
  -0x6103fe904047a2287056a89f979ba5247d4efd31dbee3b7dbee897c66ca7a8); (0,
  0x5b4fd9f4a9a79b1f34a4c426c1a467d36560338b1a5457e83254935c2b32ff02,
  0x40ebd1230468fbf85a49aa47278ec1375a3cf9c2ecc5bbdf685b265433b08d46,
  0x75530b1d38ccc3f6272a1a6701ca56ac4baf2226cbbb1b38cd216ca1a56cb5,
  0x660bb2ef82e6a1fb5cd41ac59ffbedf2e19d587aeb970ca398cadb637e92ee7f, 0, 0,
  0x129126d31a52cdcb6a761548527499337cad28dcd4cfaa9fce4601fe284b916a,
  -0x16ecd6bdbfd52a8a4c04363c6fe975f1679c4fa2b9cf2b8cae19745e86bc7993); (0,
  0x5de7faa2ee4e70132f541f79ca07cd54a39fe1347a6844d19e9d678a8411a565,
  0x2c9f23641e1c2e0aab8ea9926b432d92c0e8bc08901d6ff6df85e4cef854ec36,
  0x4123bbb85e5d1e57d331e8d680da15e53ce584167e4dee2a5a53b1d2ee45d0a0,
  0x20ed839646b19170ce9ce9493e66b3cccd9297603f538bfeab8fb7cc8c4f1c5c, 0, 0,
  -0x58964c1ddc35547ae5c9c8a919d72bd5d13a27617862237536cef7ce3c050184,
  -0x1eb54c13b9fcff883bf133c7f2fdd818fb4db6853892a4ae6882fc813d68b48); (0,
  0x74e337a01c13b537323663602811d1d532d8747e81489415271411b172d04f27,
  0x8648f02b3a4daf96ecffabdbaf3599fb2ee85dae253b2c21ce66796114e25f1,
  0x44e4bca15123603fbe0793a74e900d44925efae938ebc1e8c4e7e09f5cabb189,
  0xf8e2e2ecb373c7034bf4d493acb4bc3838cad13d4d19f64858d7e9f7100641b, 0, 0,
  -0x15ebf930bb2d3c621974c772b08a0762b1edf36d8dad6dd613173f8364be9189,
  -0x320869d3231a23ecf6ee3c2bfba292bab5ee3a07274a49867c4aefc5362d738); (0,
  0x6a6fbd51efa6a855e82cb0142325ba473fd7554aba208a400737475464f29434,
  0x16f5f8529f55fc2b7cf811161d7870ade1d1617e52c3c4f579ea06b27616d671,
  0x6abd682996f3aec1f1f1c87bf9f663c8c6c8155f4825e09e439f141d746d992e,
  0x8ce0e06a75566846233877e24778d8b0014c54a4bcceb394a3e7c6e56a2329, 0, 0,
  0x171450c6bff0c6266a596a2e97624bc6f94e1d246171b63e13728e1d0efebf5e,
  -0x849124ec6a5b9be1ea808ee1bb18f4ac50e23c0eae084f7b4b80d41102e1b3e); (0,
  0x243eb188de73a5549b32c39d2ef1b29623709a9ead4c0e240314e0c5f69a9634,
  0x3779298951f452d801eb7a0b7eb224cca2dbef041081cfa582afb25b1f4ce2f6,
  0x5881731b270bd8057644a51ed8e893ce31565bd2580dcde8ed5724e9887127f3,
  0x41e6606e4cfe29a671b1fb947db5d146cc2058a0fb672a62b0c919628ccd597, 0, 0,
  -0x147e4e1d1e87415e367a8f72f4416742d8ef224a4be7066da6a3910a2317d814,
  -0x1b13f48942e4a9badcedb3122f48c0a7744828328ca504ad0fb7c1d30c792b45); (0,
  0x6b349eebfed4dad4a805b63a6ed2231a565cda752d9477ff427dd9a8c9ab5ed,
  0x7a09289ff3e1f9aab68aa374c48df65f550c2323607b97744dee990608b64f8,
  0xa436291eff5a699ced9c6317f77203db14a241adfe5869667670ff1bf2f5a1b,
  0x180a9262978774f06a96c0e90470c566cb114592cd0490b351253d592f10b239, 0, 0,
  -0x224a57c47a9f426ce89195b1310d71615e4e9e8c884aac68fceb6b5cd94475a2,
  0x345a434332fb5506872764ccbb50df6e55dbff32389cf3e03ba2fd8c32061f0); (0,
  0x482a4cdf57d9eadaab1c92b8edd4d15f66a39c16b2ebaaf9ec314ac0199c4f7d,
  0x7391de4381c2f7a80b3c5fc6145192983f115fa525e4fd6abd513b116e4eb04b,
  0x59ca0f54731b3b0682d8bb6720fbb956ad9e0fa21037ce6b77adee849a68db,
  0x74597618ac49d0037a1a782f89ec8874b3881b171e2c5054444ccd42f707f0, 0, 0,
  0x2799b600040a80de412d8a232c1ab4496d3be9c8d78e7c40da5ccf68e2d9bc56,
  -0x40b284b4b21ecbdfdc7494e6d90adc2540bf6f1d348d5b885da8506c44f82c5e); (0,
  0x3bad86defe0d244dcc4b246c137dcc68bf6b733d1fff688f33431f2a339f8f3c,
  0x2de3cdf2fa86ba8c2b899f9fc04b8d5384145c3f68ea9b6ee05373dc01815179,
  0x28afa475e3918d3f3e7e1b2fb7a651833918395aa9955bfa0975c4f2acc16b05,
  0x6858c19c600ea071b3a03fed63e71e19fea20b6f3d932d5ae3429e726141925e, 0, 0,
  -0xa9c155666f01d2eab4930d66ab4c449f46e361f5ba89c8db407616440cb2e312,
  0x1e5411d9960fd549967352f102c9edbb71d6dab6c707bb9df9d7f038ecdceff4); (0,
  0x45afc85dc571ed1bd5e8115a9622d44627cf19fc4a8626e7b754b005cb75be54,
  0x6c0c8abfa60bfc771e39a18f57b8142f7adbcf220b81ee2339809e4957777b40,
  0x1bd2e394b317416494767bba3be8f233c4385ed17b2ccfe23bdaa69c2dfeb1f7,
  0x1073c23c9d5568bcfd18645b20ef2b0e9cdaedb6942b008d96693b009d8bf963, 0, 0,
  -0x380210e83b954112775ec42ffac7543ec7c01ce98196c84c91a623583411ac64,
  0x147e5179b7b86b4e11a29f5f415fdf23cba90dbf20679f427e6d3d3cb652ae75); (0,
  0xaf367956af630266b1cc760154256ed79da960dddca9d72a1e8cf27d8d43a77,
  0x21108d900134d3b3708dd28ace96b0b23dda9100e4b6a62a8131bd2f2ba408c5,
  0x25f0756c32ec04dc79cfb56d33d17e3d926ee43f8dee2ba5f27b5f7031c34b03,
  0x5b352b5e0289b94494e4500ef416745353b50af551b45a4dfaf2e9222b941062, 0, 0,
  -0x72c5327ef50ad8ea6053bda1e9b226619bc5861cdf52e51c19b758361bb6a0d9,
  -0x8b19082ecc6bb84b4fc7ed0eb2c27fdc1205c343cc5ced09e5790f3cf756cce); (0,
  0x2b760154fc5ceb5a64141345f55b1b57e5b0b1d6c5a07dea8ddf074fbae70d33,
  0x7dc81af96fed42e0373411203fa2ced7629fb2eb6a2054e24afe3696afc20c02,
  0xefd70af7dbbcd466a2b7807b3220126fd58e224906d0d36d91366e2afc6d6a,
  0x88a8b22412f6f088c2bd4d615dd1d62e28fead47cd5fd224b04fe81c84a6ee1, 0, 0,
  0x5d45b3d296db07da21180264056824fb7a5059a6ed29427435822b3764c0405,
  -0x213ec059d2b6134eb6263e6cffbb94d497c6d16de23da74aaff999570f804b55); (0,
  0x67dbc33418bbcd3878489398639484b6d6fa42f875b8c5af23bc92c69c5bdb6b,
  0x38436fdf8589a33059fc92e7ca7aa2250cc9ea48391b1e517c6fb056093af396,
  0xec1b5af8e4345d14916745221390a0ed84a4368bade08fe0bc589f1268d7504,
  0x7b9a0d837fc8679d24a0b2b31794104720a6669747ed022a58f0305bd886725b, 0, 0,
  -0x337b7e16433159c01b8cca82686d0022485b645caed80a65ce30e3161a36424c,
  -0x1261f4ace957922174dcefd84aa503d75667d3765ff96be1eb28f6aafc9517e6); (0,
  0x29ea44a50a4b47b8b3dffa01dc5f2271d5439ba8a82a6ec0c454e9bd19448479,
  0x6c775ac8ab2eda8cbbdb4bd1196ab24630ac6c1f97389de19e9d5f63af509005,
  0x54452776f7c3b1797176b2c14185a6a0609379a1d94aa1f994ae61ec7d1b60eb,
  0x18bb256b149f6ccfb34848a0d53be27b8a4b4754ed2243104b25a4a1d7261192, 0, 0,
  -0x7fde597b50e10ee1770e8f54be7903528a7025cdfde6b62259b5773d2e783524,
  0x5e9f09b96a1ca0c44a73f8efd02fa54967512afb5056022737bd3595bda858ee); (0,
  0x1e45a60140a3b2dee9b8dc6ff307154a1b410bcd38e0e38fb10b2f6da1afbe2b,
  0xe730da473dffd60d2f3241a85e68acb47d26e5043ad047d893f072c8dda0a76,
  0xdb9c0bcdad60ced15aa3ddc0fcaf073f55cb8d451a98bace92d972492b720e8,
  0x5be9d87dae60c73d955f7cbfd3d7373790a2f114349edc978f220b317600e5d4, 0, 0,
  -0x2dfae41a8f714de4ed14d9d072e9d3754a9855f57c64f2ceaa018ef822c0ca2e,
  -0xbf5cfcbb4c05e0db7b9e952c847bc135225cf8db9728f12dc16853c5c654f42); (0,
  0x61708161cb4660ff22c3c1eaafb1414244579864b07e73fb9bcd90aabec9935d,
  0x38d6936d12e8157c0621bd2d8fdf95a1f84987ee724e0c98f5c4cd21feb9820d,
  0x728cbb666f1ac011108208eb8acc337c53e8497e593556044d58f89fac580b2,
  0x1a192667e4d70bb4e7733016d51e700380b77ddcec26726e82b7ed568021df1, 0, 0,
  -0x1f842234f8522a87f687e9597f80bdd89dff9072bc6dece4e987d22df1ef6e5c,
  0xe65ae550560c8741b1ff43cb8ecd2a8a6d3d0e21efa31c411e8bdff2de1bb9c); (0,
  0x48f451397792915909604c632c838021641749a67fb8e91301427defd951f791,
  0x315385d3bd5a22b69068de89e52a3126525be7da886d693e99ff2f088322d560,
  0x4a2ce6fb2601ce9da42c2f99f35eb0d0e1fd10559333560455b05aa3ea1c815c,
  0x193d28b50f0f2f33a37a66812522704a2cae85a3ea9d3b1f4f8e3b2c26b1aabd, 0, 0,
  -0x420c12c0a1843dd7c1c81ace422a77cb6507cfc607bb6d1e8de76594e2022b8b,
  -0xdda509bab9d29abd12f314a7f90758a45f86cb580d907313cb02e6b0a72d4c1); (0,
  0x7956a04df862178ee4c705ffbd30f9dcbccdfc7abe362f2c1da24b3cf9dcced8,
  0x5eeac17f2e772f551e761978b395b6ddea37a16aa33cff34a30a8453baf6e782,
  0x2994adb685279770bc316652cc379b0c03dcf83da478155b455044caed071563,
  0x130228f6377df73b78bdd65c331884f778081b304e7ccfbe9bea54757e1caec7, 0, 0,
  -0x13a33059509211f65e2a9e26e5b7774dedbc05d5670c1e03779d547703bf2458,
  -0x1c9f6646a8a96ab23818b69958fcdbdb45f9b1a0136f9a6e948436861e2f1c75); (0,
  0x4d1e116d136158c5ddabd4276832800f2c081c1072de6f2d931797a46abc0cbb,
  0x6d415be49d4e35b65cc51354b5008f8c43e84b7b5e8a4b84f44e1efb10c9b91a,
  0x730601b39b2254cdc371ad1a2d70e49c0a82892c812064be4c7b9cc24fd73238,
  0x46627abf69c2f7c7c4118afa41e949edb83dee0ee0b485a459a5aba9e99cf4a7, 0, 0,
  -0xc1e6eab4cd918b8e714edc8e78b6e6ac1592c60e98287c404a6f5f539e9ef099,
  0x13c29eb7cf49e2cf870034d1d7f128bde876cd28f0bff95755ee93d96ce8dc4d); (0,
  0x4b5bae5a77a867ddbee3944524f8e2ec8c2a6172c14bd432cd42148248127d15,
  0x739476e0b38471219875a4580e6742ecb6aecba57b8c0fa0d923b8de209a77cb,
  0x2e76340768d18a888bc1940d9019a29c7f48e97d27812ed76da80299d24591bb,
  0x5d4171e0f2119ee57f868e33843ca46cef26ff8c7f0a2c42e93721d32314ad3b, 0, 0,
  -0xbb73d830630d360679e3af9212bbba0e5d44432a0178bbc6ac0d6799ea5be349,
  0x5596db2785bcda1e73073b1dfd2a1c7c6b49d5f11a0886ad7d9eb7aca90f9c96); (0,
  0x33bfa90cc1b9df13e106ffcf6ca898d06b22d51df337243bf85b3f232869fcdf,
  0x53b120db6327cae59fa5fff109017d2df4acef01d2f10981439d824fb2da81d9,
  0x2c5db1fcda59b26e1a0f0ad84e155602d2f37e82ef2dd1893307eacc866c8230,
  0x685d71cf1898f2ff778acf7c77f53e172ec9c4e430b2d2da736bf0eba30dfc70, 0, 0,
  -0x9a59565f24527528f9dc12c2ed803c19e3820211eef924c638f21fcb4280d6c6,
  0x1d86cd9078e628b86bed9a00f078bd72151545abe47903d4cb1e0a2a1a9b15a0); (0,
  0x444929347c2ded029bc19558b0f69a4492017a9c35b370711e08222bc0b9efc6,
  0x77785ec5cbbdabd645a3251e7da57c8ffc39158c0d7b25a4211c2aff2e1d6245,
  0x14ebd9b18bb5f54ddfc3094db3452d936aca4fd91d3bd1f34672901e03e027d4,
  0x36b8abb96bc4fec86c8582cfd2cb94a421cfe0620c575f0cc6a3e7d12e208771, 0, 0,
  -0x574039460c878d1453faf1cdb1c132d7a90c9d1e5c174e2ff36471a377281254,
  0x224194159928f0bbeeaf184f4869fccc3727934f6f05144a81f358ef6ea67f1e); (0,
  0x2b6b892ae94b454b2c2d92bb947fc4d506d173d281779c2c153c001ded42d3d0,
  0x7f1cf64e0e180fc4d6e12c1b5c5285f376e979616a52c94a0dea4d48c5880cd2,
  0x246de598d1122547e616a112909e44ede664ae0d4f5b7d9b9e021771fe83a8b9,
  0x6f824169bfde640997c246da43d55c925272322d524b7bbd6803a9262f9f4b7e, 0, 0,
  -0x98ee06a90eaed292e632c16ec64615c8ff7f09713e9b8839b39d4c2f331b36ec,
  0x4a884bfc3dc0dc679bd76747e22fe550ab789397205edf4c220e77887c915dd2); (0,
  0x1b9175b7fc19a618d5848c5761c2b760529e3eaaac087b51112b1fcb422e04b4,
  0x1730a59fff4717e258cc853dece7c5f70ecb52cc35320a53cc3838c844ca68e8,
  0xeba9a80bb7a862e3e4b1336ebd4da38fd3a11bcaee78b1c86385d6124fb23a3,
  0x7e3b7f5080121f972c01efd9f5e63946390b0612ee3b75fb78e6fed5c4f319ee, 0, 0,
  -0x4ba548743d9cca81f1723283960a33d3a2b8e266fb1939d5c0965a6b0f1445ec,
  -0x8e918ad63cf48b2a86c616ec46a136dd5a35642db124b936e528e826622f95b); (0,
  0x1371cf67fe47f8ef91246ae0485874d601e31984d854224569ac29e56a6ee87,
  0x71cad7d8350661ce798e332a98ee5b62f8431fd9ac5a4a48856ce9c4c5b64c73,
  0x5f002f6bf755d8277d904012cbe6a17be0a3430fd578e22d8a7fe2234d26d01,
  0x4338e028e0c4808bcfc67307091f389391e79deaf51102bb8085bfc1e6c02c9, 0, 0,
  -0xa5e925bb3149d6dff7b89326af401b95274aeb7bccc28231a069f29896574a8,
  0x239a91447f66e8109dda945b0a4e498705c0458ebff5ec54afa31268fd5ecc00); (0,
  0x63bd671eca1e6accd0f980845b163ca4e927d2a74d198e78cccd8fcaa6aed372,
  0x460cc32f5d27a15f4294faa20a99112392cdbdc8515e9caa1ff4887d22a6e7b,
  0x2f42ec4632d03e8a4345b757fb3092ed1530b4a8e14c33271b807e8419cc2,
  0x6529668c6c006029be61bdad1b08b82f5b7f71c269931ef47b238629d8b4c1ea, 0, 0,
  -0x25416c77f90335321acb54e3916c6f2306dd19bb3feaae6c1772709d5a935bd2,
  0x18a5e0b59e2ba3cf4b69349c53880d789a1202177b9f45241ac83909afd80a8); (0,
  0xf6c3a96e0032a9394337a02ffb2c83ba70efb8f566feab530fc90fa3b4710e5,
  0x3d4e97e286378675038a4b58e84224ee515e1d6697ac79389f78479be167635a,
  0x4db813c67aa783b92966cc40a03e988b568a7e97078c885d4bbe6a6c5a638717,
  0x2655f6c190673149df43d1a69946281c384864cce59ff18ec1ba2d7db90116, 0, 0,
  -0x12a53084e8af77da380d6a8e44f18d73df6c63dfbdbfda1d4dcd824a0bb1ac4a,
  0x2efea0a18b9e156d089a95014aed15903e4a69eef9e5a5580148a9625bd343fc); (0,
  0x3b13c71c2a90bd24c51df6bd138c5d16208a9ceaaa8eb34a69469fade6abb440,
  0x14890a7ab24817b2bba826792e8fd342a6f705af800252616435be180d16dc54,
  0x1dbb93e55ec302bddd2c4c12bfeb43e4147d630a4c5d2f5dceed76da9672ab3,
  0x1d5d1905b83a8560e8075b86750ff4bd4e149c339baaeca36cc07d9849bb972f, 0, 0,
  -0x16fe9af3f791cff529a1381cbf646e04c1a6ee9b0851b8595983138fe8ec6fd4,
  0x2db87a9ab1b2a9a51e4076cb7ffe483f447bb2cdb20e2b80e5279692b572a7d); (0,
  0x184b48cb455000542259174da9a6eb83a928b2835182278abb6ec091e388a820,
  0x3ee0e07a03dc33a9dd60c2682380ef736679a5e383faf453fe324dba26e77c33,
  0x1b443e9c4953abe2c63ad925c20cdd00d2ba7c2b49eb289c69d67847bf8198f4,
  0x34b65fec737cb32aab00483ffe2e15c0878dc273c76418b9cbbf53f9ec9dd88, 0, 0,
  -0x1d273ac3cfcdaa575e009b263d97fe6aa76988d18c25309cfa29e772b0286a80,
  0x1a64ace1ec10be770c04e52b8559e6db2b04fa7e4762b80143dda7b758072af6); (0,
  0x5a04ae1195edf508262196e9d23c259c937f81769b2258542b78e3c0fb135c34,
  0x676667092118acccece87e75f0a6825c5952f92dd499943efe831f9712c5e8b9,
  0x49c6793b1992aa7ef21cd00b9a1e4e93e42d16f76c5690a7ee654c9d71710d7,
  0x1ee364896876569371af5edb9ae4019327f9b34b838247991f9ca782cf80fd1c, 0, 0,
  0x3925c427ef86d972c74608e925e57529ff9ac4d686f048ac8c36633ba82c1960,
  -0x5d0f30122d74dfae8a63cf2e97f0987ece7d93d175c02194b519059088403ae8); (0,
  0x52ee53b981dfbc41ddaa5ddc2754c4175f4811aa45f8e2b19a425657c238a83e,
  0x7eb0a1be3400dec87b388cad51613957643cdf0595b891cc6f925fb36da7f1c3,
  0x3f4e94f488a7d17c3b2294fde17e1c8e8408b3606573caa2a052cfedd27f6251,
  0x53871fbf3ac127579a00960237c3d8381fe1faf5dd89c4b81cc65f86a6ae5323, 0, 0,
  -0x9bdb1332f3648b35065866c045f21a17f4fb5968a026eb6c66e3f9a5c3b3676e,
  0xfeb09aa4b8cbb1990acad7f91491531bc4c5a99cc61b724607ccb84cdfcd7d4); (0,
  0x501fe138924e05cc1a05129d241e6b5e9d46cd8b0bed38eb42ee20678a1d2425,
  0x2f8022ecede0189c215882ca856dae0f7b4daf6675181a558ebd11e6911cee4e,
  0x35bb17053f0542808f9ab2349c7511b2a750ea5ddb1c9f60d677b43b6fd76adb,
  0x7d64b22c0dd24e7402109ea48e7b6f3e6bfc27ea5eb525ce23249997afd131d4, 0, 0,
  -0x89bdf30757d8712073380606bf54766030aab9e633e3f177dac79c1d17c3cdc4,
  -0xfaa0236efe6ff77e509e65448a998427a12f4ad1c05896e3319bed861667be6); (0,
  0x2d8294fd94996032b73b4f09a0ff645ce8db39db5463f0fc57156a1d390a3b68,
  0x3a8a6faa67c6dd905a4fdeb95ac127c9fde3ac017c847ceadb2c55f1445af624,
  0x3227e1775a916064e743bc92b782c18d5756586b67edf3c6a600e519a32aee8a,
  0x11a099ebe213e731d23ec5fc9d910df002d5838baedf10faddd8a66be518ac27, 0, 0,
  -0x50cbc5ee00845dfe1cef509980bb181136a159ef88db5810cc1ebc92609d12ac,
  0x1b6f428e903e4413bb6fae8360957f9b46a1635eb7017a19b7924d72b8553780); (0,
  0x56857d02674276af0099d63b04a39544a23b841cb2ef18688ba9500361e4da1d,
  0xb543a6720e318d2647915bcd619efcdedcf7fed0657be45d27db284290e72ce,
  0x102e55f99cfe0d2fd922da7e5740a73494a618e171f79442c979f7aba67653f3,
  0x1ac60aeb96e66c7175c143adebd0de7f87bb1ec3f49a94c273e48099440088b7, 0, 0,
  -0x20b1f78ceaf47a0243d7bcdcc9919cb2e4020c74a006bb2884077907966a6a4,
  -0x52ee3aea6ff38bb4ea79d72768648c6b27fe32526dd6bceca1081c079940c82); (0,
  0x52a837bc7a7bc9459bcc2ecf80f74d9ed99def0342e18cfbe8e799fbc504fd52,
  0x50d6460185d8924e5485f23f36a98c86053514d163547adab6fe91478a411196,
  0x3a7beb317dd6975329aa93b973973739413f33f4a5ffa29da620280cefbc6d71,
  0x100b1767ba7fb3981d66ba3ac80bd091f607d9359a5c477d012f37e0f2d1171, 0, 0,
  -0x1c635186d70b99788ab558a320f196dc13c98f6952f8a4e15796989004827c9e,
  0xcc8d15eced87a9b7ab256a05903ef107623bda03024596a3818b6702f581683); (0,
  0x3f30ee695b236bc74620afb10469324b45c8201a45cbd6954239e64086f3cd53,
  0x414231531dd52e5555640faeae608c4a0c205a04f56d187ba80855dbc0478370,
  0x3560647be3f52d9c282211b49d34a1cc2261558618fbcaf8d90b02b02e64f9ca,
  0x330d3e3422afed74a2ef82d611fe2399719d2b69d7d33c47e7fe96fe199d3cf8, 0, 0,
  -0x94db08b430b3673e119b719d85596c5fc684813b7dee6e997daa887f633fd902,
  0x2de85840f39f9af32a8e6e09769c0f3af143c23e23f5304e2db902a9878e577a); (0,
  0xebc38c54fd6aa12dcc60ca5c72ed865b7c35a6bfcf98778c235307d306de6e4,
  0x4b3a1d9f2ef40fdb3e31ddd56a08526dbda15a4f58d78162c7bf23886763ce2,
  0x1f323d6440cb5a4c7e4b0c3b43869664e1a1c8072a2c910c31a71ff5db2eabd4,
  0x21455c535b051fb6619f1733de7b0c7ad6cdab6050b38fa90a84fe7a0d2d7bb9, 0, 0,
  -0x3e2c965234904c51becf601a51b371d33e91f67833bb5baea1d7dbc7b15fa628,
  -0xb893447260a6ec2c38d3c8a57bde3f9fb2a1098f9110954f19b4cbd68ae228); (0,
  0x3b75696730dc8d8cfb7ddb23241cc7ce78a13e6a377db5da527a1058e60e49db,
  0x34d031744cd2d9cfef9f9ea654000016fb3e8b4a8c44198760f46016166deaa9,
  0x1b24132063f51cb7f143db720cc209096cf60e466be56c845fbb250c0a7e2b4,
  0x2c3635196a2377009a52c6c648997a0c42672b0d0ed9ac88d12d01dc4434d0, 0, 0,
  0x129c8a4f21ea28c48ff10e4d7ef39befdf4719e88ca999e378e1a2b2512f3be8,
  -0x117e2e888ccfe1b32aa1806d5dcadc2825cdfbcbf401e067331346757b760a6e); (0,
  0x6b2bd5d00fab38ceca21a27d6aaec82626b14b555d859527718f8ca404eba4,
  0x727340c27a15f6ab3d80547f0827c56ab1ba33bc30d1ef3909ea9a3af10c67e5,
  0x1b9ea8de287c450b4b69c9c92962faf1eee40ee814094afedec9b84902c3865b,
  0x15ca7acf4b8072b9b18631fe591410454b30b0d9d9ddc541ba2ab1e6d58966c6, 0, 0,
  -0x312a0d09ae134befa618bc8ab137b1c6e51f77715937e26ecdd5ad0749ab912a,
  0x1af29ce797bc7f6e16a46be86eb97e779196f7c5b094619f6cdbbb107ebdb2c0); (0,
  0x1f4e8938dcf3a6d5907d88572bfb36a8191aa9d05bae8f68d3f120ea165b2bd8,
  0x5a8b0c6f649f8e191aeeca653774a6ddfc8cf8ae3d4d232e2148433b9bda19cc,
  0x59bb587ae724905cac53e96611d3959b8238d2779d02429864341dfe6673,
  0x6655b320e7ae2068beefefa8151090fedcb57d3639c6f70694416a341eb84df4, 0, 0,
  0x17862ca5aefb03a2f71bd008bc45b20a1ef7dcbf7224bad55f5962e23e541818,
  -0x46332bd4c45abcc6c4e272a26bb56508d2b57f0fe931bdc600842ac90fc5c99e); (0,
  0x8fe8df51b345989553484e20f600c2e46f4ed256f3c8dcc1615b872f0c2b925,
  0x2738e06810f4cec5d894c91432edeab5ba632e54d06f494b751bba44bc93abf8,
  0x7a83aa75b6f1fff29ff687df640a376b6887f5b3e0060c5cb27f7fe82dc9298,
  0x400c2089a8a42e2aaadf88c0441e3c1ff900350e80a0653411c336d4d28289e9, 0, 0,
  -0x2e8f32eb3e705ba6805f1c09c50672da534f6991230ac4771d32501d8753c525,
  0x9e47668bc86883ab505b075c4075d589665613415f9877c829afca3c582ba19); (0,
  0x1a2403cc5ef2ad62b4f09afac79a48a5ba8ef74f3321b65a716164d49b141c74,
  0x7779fbcd8be50c9b021180ac97a544ad0c21cd1f3bd263ce5903b9afe4fd76f5,
  0xa1cbfaa59a583e032235ac7310b289932479adbaaa9c603a54a1adad17a593,
  0xc04c2054ed09429e0dbac2808b7eab83e196a1b764753e06db21a50408bc005, 0, 0,
  -0xecf28a8a0d832baa4aee68ce8f932e2204a8538e6d72d2c161100a27485883c,
  0x2a7e0c5bc51176091112b089090ac6be4054ef40ae8d1cc658b0a588bffee128); (0,
  0x71dd75fe35761c01a48597ec730bc33237902fd4ad8612cbed1031eebdf40de4,
  0x39674a4532078e34378667beae5cb55f814ead9bbaf7e01b3b69533e9f88a411,
  0x556abad29a4d9b3ed1f0c2a963363a674c15fb0ab5ce44a29db2bf60946264e,
  0x6f8544723013cb350ce9d237395a41eb0de68887359ef3e10e7d82ee9d47d787, 0, 0,
  -0x92381a582984dbc9587dc3c169f7996b8bbfce17e126cd303e4fca0ac96876d8,
  0x311ccdc4506ec93cecd51689fc7635a7e04a62c9aeb0b65fbdbb50366fbaadbe); (0,
  0x300d6b0bd6734e6170b814d2f28c82de4a2debb1c5589bc8b2671e0320587090,
  0x40ca073d0343190c7f042b83c7bcabd3fa997de98f4bf0e2bdc4a7bf5c55fc81,
  0x654a837eb4f9d7e3ca6e610448f3ee1c8e477d51872438d9b645b719b7478461,
  0x19be517f530366101d9ca8bf061a862bdf1511a3b51681fafb0e071476429161, 0, 0,
  -0x56362ac27f8ca1f852311ad764c74368903dda7a0dbf5db1c995c814b034e298,
  -0x15761d56311ceb9f8d5fd28341a7f9873d6325b82da65be2e687b5e97a8cf9fe); (0,
  0x42545a6a59885c28266ae07652d24503c2fb5830c85817f6963981168cbec8f9,
  0x706406cdbd1ce0bdbd9ea269bab2e060b129d6da0f1e6983fb9b15672c2eb507,
  0x120a11b0f8c3d5d60a7b4c2a6b34046a417122e5104eddb160dd146f6771a900,
  0x20cb461bdc3e2e44013b96d378570802fd6b429bdc1449b7d52e89f6b6fd4ee6, 0, 0,
  -0x8f39ff8c2543260aa736d7ddaf2bae825ade91c01adbe800aae0883d681c299,
  -0x4341eba2c5b238ef1603bf4fdc11d99882995c9a28bc7e043a11d67f28b8de72); (0,
  0x6c1262e3f8a43b517673a0ce209f76cb22d7cd7e54fce6ac235711e441703a02,
  0x193841cf1e0f528b9a8d508a276202a84f1fb096c5ed013a7f486f0d269c007f,
  0x225f34d497c80846a661edb27a77baaa8aed4b93eb7972bd411fbf21b120f80c,
  0x62af5a12acc69ad6c146dbd53cdb82482a88a677d2d4b698510fa2d301c33a7b, 0, 0,
  -0x25874436d77eb356abc58d20074e7713331975753be528b167940381e9a99934,
  -0x126cb2b4107c9b18a99c9fde2a938a3565c7e08dc305d162023ed2e831b594dc); (0,
  0x57426aefc21be9ccf162e23d25ac3002ba8534351e65613f870f690f2fd46cf5,
  0x6b45b002fb4e8a6f59a6ffb006ed71f75434217333b266325204c7d1ac2e1f34,
  0x5b3f0984d019bd0b6b20cac6089d26d5d63f0628a6795c2ae5b82528ae01de86,
  0x4f8126e9ecdf35192fa6422d5877aca1570e5fc35b4be53a3e1f3a17ed6d725, 0, 0,
  -0x3566ada29b2b6147451d905ba9765628dcb99bb27684c592ccd905dc31b1d412,
  0xd4b72e07b5645297712e0346a6abe62f81f23607a55d64faacc9b506acf0e12); (0,
  0x205aa3463e7e41af60f5cff4853fbd6f748aa1b132fe5308807d22c5030b48f5,
  0x320b08e8ec6153e2be9955058bd26993bf50353e040c556ef8976663448735aa,
  0x3b7c6bd48c74f931f55085712b76080314f17a00ed8ba6585d41965d3dea7dd2,
  0x59e6a835b16673492e7c9caa02c133915db76d71866e5a3e35b8d063c4ec79fe, 0, 0,
  -0x9551dbce2de2ece6c257448cb23b0ead299035e79fdb246bc5077a27a4d98d15,
  0x4bc556cd3c010cfe8a89c1b677d0e77368d7b1ab785b27b32a7893f6508ba81); (0,
  0x592c8b8843ca1f7d9ee692d5e29bc1612b0a98bea402c5c2e1e8253b65feea37,
  0x42a352d8dc52fef9017cbe617cdbee3aaefed1935aa62f8679af6f2a1d00b5e0,
  0x82d91d18a4c101a1700909625e38b558e77df74b6ea59c90f4bf7debf8c31b5,
  0x13909fe981536faa4fb429e2821d3afd0e53e41a8965884e9070ebf4b815776f, 0, 0,
  0x13fa3f0b4a9068d82e142075076e26f3e5b4b2b3bcfd3c9be90f88215de685e7,
  -0x21d57453033992b0f40bbf6efebf71957f37785dc2d8afba4fbf60b90f2031ad); (0,
  0x41c030fbca90151ce0d0064a815e03825ed77a4ac634604ac7137bd3713af22,
  0x72467625ee43fb7ac67dc71c655e5c16e4e97c2a3d4445e7e9b33fcf0780f989,
  0x3e20018a040e330b85247ae7c1a3306410a9d30f178f29b84bc9b8dbead9e9e4,
  0x22b13dd4d926040595c1829ee20917605873b373e52d5638e81d097818017c91, 0, 0,
  -0x5d471c2641b04bb908633aaf0930b195aeaeb62082a804081b4ffcac82480cc4,
  0xbe7f604a8eff69bb07435b002012508f604fb7d00f5186fb1eecc5b7a67ea4c); (0,
  0x6222bd88bf2df9d5d44b60cfb4a08a960078db7ed51a35eb3e0b6b8ff4eda202,
  0x325bb42ea4ed025dd6bdaed261b7c4f5410b608ba902b068f1efa5782e45313,
  0x21c65252bfd8ccea686d9126e97e0b0646a752d06c9df51f67ce82631dc9fe,
  0x6605a93d36f3acd89255d87ac831eae4fc47445aaa4fc2d6bb335fbf4aa4b955, 0, 0,
  0x19b67d666f69c6ab68e0b96aa8a558dca1eabaec4a75fc06b8386c2afb18eea0,
  -0x10f5b4ba731c4d62256c049d433c856454e2e5dd9b567061081a6eeef491cf6); (0,
  0x23bc7abc84cb4c4ae5fa62b25a0a8114e8406d9bb93f2091142aa2d8bdba597,
  0x4d2b97a739eceb14c95020371d7206e904f94b8f2c620dceed8511df0f29c9ee,
  0x4b3d3ba72e0a5da74bb5d7b8ec8e71605f8d12075a08839b0ba232276a120864,
  0x13cfe677a0ceebb2a2b4329bfd50571e9c6572755d34de0a64f7547b76f72c, 0, 0,
  -0x5dc5d410e66d7025283cd8d503fedeb86f756257878c19a068068c415a55075,
  0x23bfdc74496060a771b07fe9976429b990e21090cf1e7b388bcc3fae8d0b1c0d); (0,
  0x6d5066cf7137b4a5980aa453b672c84797fc6856f0ef5cf0c4be33fbbd39d169,
  0x54bb8cd82a0a87c883abe35abeb81857f95200b4222ea95b5cb347115219a417,
  0x9fa28a81815b5b33a2bf022f62b23ace4ad80f952ac857f3047c6611fbc71,
  0x2e86814dc9b95d272f3cd5b15d3b1cf119cb817a7c8b7925472ded362981266b, 0, 0,
  0x438868ee8350a19ff9b641a700b21382e2c92a7fbd5637a271a19214bbdc1f59,
  -0x366f2cb08fad9878702d5719294d838c616663f2c7456d8e967061b9dbbf71da); (0,
  0x6b66159ac8702d4e34073b76629deab2d3aa50942db5b00e4a73e8be859362a9,
  0x19dd4bef38efd504e49b3a5d584432b9ce630883226031e75fee1a22c8ca96c5,
  0x5d5b219a22b451ed3228d24751647b3ef71193616422afbafcf2a030cd66a7af,
  0x38173ba9d9c2f200e51223612ab4453aa25df5a1f62a75f1ffab8f4a4fd995c0, 0, 0,
  -0x5075ea600d7f14a84a0ca234d14ec8e0ced9bce33d4025b4df0980c87e2256cf,
  -0xf7a0fd5abc3dd03dc8c1f99ee52a7c1237287b4e85e75ba3f70f8efefc03b74); (0,
  0x71ac99647b61b9eca6f0c23432a518f738aee708d5932d4ef0f172240250a226,
  0x3a96c2c028ebe5f48913be30147e41bc5e1cab9595d5404138a9aa1b5574cf25,
  0x5a1cfd89397083774a48a013fdf1f020bb012a0af16c34768ba09cac97eb9d49,
  0x539f041d55a613144c6e0c0c5b297196a67dfdbe4ba435deba3efa71b656dc4, 0, 0,
  -0x2104f61be87a3e93e99017cdabdf8486ec02d8eb8c682b614f4d6704c1f32594,
  -0x55a1a68ac077e2067b043f7f95026b8f00514bc0a6281df3530da3ea0c11754); (0,
  0x221b138a1bbb6548d2ef719bbaee436114e7cb6b3225dfb94c327667ec45772b,
  0x7951b295fab7fbffa46c08f6979bb32060974fb037bf5998d0ba5a38180cad84,
  0x64f3a7925fb6a8c062dc1aba27bb58a4757a7968f4c9232cf873161e6f6bfbe6,
  0x1ad1520fbfc54dce732f6a3937b13adb30be508e7047e17b7b67a665fa0623f8, 0, 0,
  -0x51a56f757a3e5109affb87f98c45125332eeb858a42ce1493c617b130775d14f,
  -0x4fbd96c862f6840397bf8bcf2c15098f8037944533dca3328119bc11af642b27); (0,
  0x1c1b0d95db6a057eb34f28beeda9f6bbb5315285de2804d15c3b186bdb3f5c28,
  0x57bd5de4e0056cbb4d98abef9d1e0ed6cab1628ac08e36073e31d00a9ac3c5d5,
  0x916681b9ffad61cdeee56198cf31177fbf9c4e26ead2c87bf084f949d339153,
  0x72fca9c88cfefa5596b5c2f7ec8bb2d072691e5c1c576466ee56f8af9419cc02, 0, 0,
  -0x488aa01c0ba5a6f7f9ef43cbc8c2f3eda26186cffdaeef2ccaec989b1b8a3718,
  0x18a1ac6f5639abfeee86b813bce2f96835268e4265538906fa936a42fb4f00a6); (0,
  0x4f846fad2eefb8c948a8bd3a87d8b4dfa0a0ab643e724ebb1c91437c567c9f47,
  0xa2640ccde505da1aa9227bacaca13d49a67a199f0e16aa9f86c2a7e1bf02d2d,
  0x62bdba94ca8132593f5f13ce8c082630bf885e3bb6d04c55ed403009c524a38,
  0x3c2483caad4d1e9b340335662d831d99d6634a07bec66d8267311fa4a4f6b4fa, 0, 0,
  -0x1bf251d8af0ee20e44bf7c6a73a9d924fc9386fecc65feb3be0d1116e4674433,
  -0x159d98a6541992c9b7bd75cc18f1fdf5e97c51b2c92a537c02c99a719db59a8); (0,
  0x1f6a1fd8cc0e05b2742ba0fc0369b5247670543637dd033e64dbce90b2f23e9f,
  0x779964401ee869a9b31c0ef874a86440ba85d25c2ce932bd31a0865869605e19,
  0x316602e07c8ffe3e4a88cd7d5f613f9c5a6ebaff9cc8b3d0e5bcac10f7d5f6a9,
  0xce058e9d2eb48f5a8f321cb66f51d36bee613cb096dd31d435595c76dd5e96, 0, 0,
  -0x41426c7468abe84412c6823c1c3b17ea7b306c3e861ecffb4cd8de61c2f8f59,
  -0x207b07f2ff13e4425aeb4fb442ffd0c85d6d4cdb55d54399472d5ce6187542fc); (0,
  0x6f0a87af6e0f4a05fa7067cfecd4f98dada3791f714a66648dbb5cbbfd4f326c,
  0x6b6013813505927dcbcb6a42e887cc1d5fca175e4cd226be6009248c6c6e36c6,
  0x7b5bf69c9d534049f37e87bf9dba391d39fd79d346285621cf0b4f33a8b8b9c,
  0x6fbfee393146587e37b1c3ffa0aae3447f3598216e4f64ae697ee4427adfbc07, 0, 0,
  -0x5a9732795f0280cacec682f23d7d0d7e35147d18e716f46992ee3d676362516a,
  0x1ed51b1062bc16eb4a53520eb3dec2a37cfb985cd83af3d78bc50e5f99a49047); (0,
  0x1f90c7ef4610dd083b3d64bac47574d9da326b536b9a6eb0f6c3134a847a0564,
  0x63344ccbe4169ab97a13c3ccb097c0f4fdffbcf6284412303c79a1c8ce3a2f7b,
  0x605444320620b35d7fdf6348883ba4d4b2a56e6e09e992ecbebbc26579619dfe,
  0x5a12e8b9496db770aa190264b0edb545587cf6f19ea56e2c9dbf8f0b0b021f14, 0, 0,
  -0xbdd90b4abd429296b2b5ab08572bd2d5ffeef447606ed796644a1c88b1c90cd8,
  0xb2801dc745c77c3e437d2a6ef2e8a4fc24d7922267a00b9c1a4f95e60d0f8a2); (0,
  0x47ac42e7c59481a928348d7aaaade88b00b7aae4e73ebe0dd20e33092dd34e07,
  0x28a6c1d1356c10ebea15cbfd161ae974f3b2a4f51ed06403c2f09bb58f7a8924,
  0x7c8c49af8998e258bd07dd6fa6433d0464eeea59f8215081c4d2cc2d611ae5f,
  0x4ce2fc29f88fad5685695369145e13937e9e7745decffebff06d9406e4c955d7, 0, 0,
  -0x44afdb976e0944ffbed3ac34ae44632e97326dad68e96f26661a62d676ca3465,
  0xb34da671e400abc3abd77bdab7ee3c2d9302b8d173604a1655b7771c39f02fd); (0,
  0x22e2c039067920c42980dcb3a905fc91601c2b34e819ce1532ada4a5fc39d5cc,
  0x631cf9945a09bf26d7e595b3f8e3390696870512820df63c5418577089e1a8bb,
  0x2822020d110c666199ec959ca8df59b9737c258c4d31479e8c08ce80afede035,
  0xce912629d8055e9c46f51995ec943e670126665dd2e0dc6a22dc2bdb9775ec9, 0, 0,
  -0x2b37f70927b651425ff4bc8ec53a872b6b974b392ae589f9de18890e6b3611c4,
  -0x68d825e5b861861a85fb696a1543cc5efbe7832313673f0e54890e6de595256); (0,
  0x1a62e85ba4a14a3f24f9dca8529ca842f5c7f18a3f429886d6b13673649ad53d,
  0x1f6d17d9a1e5c5d8cbb98100757e5183551d00091183e6a5e1eb0dd514c8bdc5,
  0x98207ce357a61f711407d34b83d64174d6a551089757d90a5208df47cf23599,
  0x4cbed8a092d252321888775cff9df30ba5979c465e1aa8265d0bd5516d883e4d, 0, 0,
  -0x3cb0cff439549cb6d05fc815ca86e2e680dab6f84598d9884448b8b1194ddaf3,
  0x7f028af888b9ed0fa39dfc1a067a4a7bd67072d799470f3ad1fcf6699da342e); (0,
  0x36b566a2c0f8e36e760992eb83d509238731939dd9dd0d19513f52e1e9e4f9ea,
  0x1bde4ad0433ee4e19e734c558978dd945ed244e38414387a43e70232ed39bb3a,
  0x5707ad2ad021388edeeb18f57207aeff5fb18ca4607375294fbd8cd3218f113,
  0x7b734880d84af6046db30e1d70d38f4cb1cff8fbb8d2f02a64ef0890bd56eaa, 0, 0,
  -0x17bb59a3b1567bf24c0d0bcc2e1ccfe8020ba4fbec778d9db9e899ec3030bd10,
  0x57d2665890a41c4c4eeecdbdb6f4051e14418234c4feed12c165ad0b805802d); (0,
  0xfc8f365bb4b04e275d358bd3c277745c565eedff84179ee72cbc5a3e38fe7b2,
  0x16f91c8191db1e7817455b6a395de2b0f4396697920ba0cd4874e2b534937b24,
  0x17620fade967f246ab62310285f01c4e2ae36711a1a47f6b53be25c73f2c6ca6,
  0x611499b8a81eb5485d6f720ab665b73cbe326189bd861f49b14e137a492d4ca, 0, 0,
  -0x1ab1433a29db1fba10455bf81179082056158ad4ce65c4e1ae33a5d332d281b0,
  0x42d49540e3cd0035717b6b3846111f39f604f5704bc34fcf9f9cd4b2fc061c0); (0,
  0x608de273a9f6a534219d7aaede3cf65a81e4dc03d7a2765eced1d2b7be4610f4,
  0x3b31d0113f98d81ab1312fb2837aa9c8dcc7960f84eb371358c6d841f67144fa,
  0x1f2548644a3738fd24aa83f79c3194c794aa010caa8f801e0c664e3db99b4ce,
  0x41f869d7897fdf4546c3da3cbb3b26d23698977ce0c057388b664c5e69cdfb1, 0, 0,
  -0x515140509dddc33429d9f79fbe00aa1f5d9f3779cc4bceed488c7edc3fe2c7c,
  -0x5b9df1b20ace9ace0aa4d1c8cdbefd4be622736306f00465b90db28ca7ee4b); (0,
  0x8d1e75a33bf363f2ef64faa0ab5f9582d1181b793ec9452ea93a3011634d581,
  0x47dd939350f06a41ea9c3d889d127155d0275926d05b5bc43977b5ccae42cf1a,
  0x48d570f3f66543e569865eda952c8bffc9c9687148c7ac087c96eb3daedb6929,
  0x1b5fff32860da941d25253d4f4a1f084b157e791266e946c82a39eb400eb3c65, 0, 0,
  -0x5bb4c92c0e7deddf990ddecdc863d0e325edc42990844c90bfb9ac3baf4764a8,
  0x1391ba3ff23a031cc21dc19a77880c91fcbe36c6b56f57d2317dc1e64dd638fe); (0,
  0xb2fcb60a19e6a0a29bcc1e5224ee0acfd648e6ee2143f90a5f5aa1c6d51c96f,
  0x6301b568e9c613866d76b4c693de25e83435344795fb78c3c5e944a1f33239dc,
  0x9b95226b30b58c0dcff98acf855c968860057c3a42b16c13ef5793df673afe,
  0x28594f47b0a33b845b55366efada5d4ff12caf6755a0d2c081c436dff5340b96, 0, 0,
  -0xb0e0c651e694e681d22740c1fa12666648a74fb161c67e25e5fc51b690456ab,
  0xa2fc6502a5f8a92d2737d3276a7bf5a6f2ce89c414d49a1ac66a523020c164f); (0,
  0xb216ceec26c5cc827ebff75a3b41630d8925bcf8ae53c7dea348f4c0dd3ae27,
  0x563053b0dec5518f24c57a3f9138916ec287602e8a557819ad77aa2a5312bac3,
  0xfa48cd39e2b42550abaa62ca3f18c2adc604aa0ca0e7c11049ac663e769d93,
  0x4c94a4a4205d186dfb798f1d695e960b5915b1998d88f1ef638b0cae481c9e28, 0, 0,
  -0x117837e825c8b8e328e30b771d6f4c312b7af3d52efccdb60960dca737c700ae,
  0x14520fa91b91e94b1375f2f36cf994f3ec28509d1697635e7e3849bc0ce6ba2); (0,
  0x3f748617ca63ab3e44c6e34f63e7328ea56a2a146da34368a57dca181254fe02,
  0xfed89e6420fc47b3938a2891ba9acee4cbb2899ee4e9ca15a13dc527dc1641e,
  0xf7c773913b854544ecc64633878d603d76d7410539532e46aafd136d7c846c,
  0x3a0902b4a6b88ee38ce080cc1c8d87858e907d7fa2151536b67e0de35d6bb9c8, 0, 0,
  -0x110bf31d113957ebc9a44d7df7ebe6b372994fc35704c77c03b0cd145fb4fe9a,
  0x8430730363ddf46e6c9631e2f92cfda6ffb9edf6f88e3ec69bff1e71df8476); (0,
  0x8f050e6e4bbb5e43b756c82a0ffd60723f78c3fdfb49c50378a1083808c3cf3,
  0x38900048f0768542b4b9354736b6880632a94601a17a15adf4f233924875ee62,
  0x1f751e1302d2c56456ef3cb79c2331ac656a430a3870e4ed850d84cfab303a68,
  0x1fb652334b8d80fc51351b53329778fdd3ddb5f07106935b60e899a0106f54d, 0, 0,
  -0x1720ed367cbd97817725dfa45feef24e1cf37268155e47894feb58513d9ffa37,
  0x2e6c3c6a8c2f0b2b55aef8d10c25d9be26880a1fffcc61685b70a904758ad50b); (0,
  0x2583374456f20c85e78e820263e1507524897a5232050bd0ebfc357d04b900bd,
  0x62d1c4fffd5ac72c7e7dd52c2bc9ea4077ebb7032a39291e0212da60cbcea18f,
  0x9fcd4c71937510ddfe67b340c6159c52486ae5a95a1e1cdfe33dc4de7f5b00,
  0x18fea2407684e8d67d4b7bd9e3e7416e90f960b2199ee4ea6e98278414cd30b0, 0, 0,
  -0x15ff7eaf3d49ee9bd679bb045c1c9f81ff0702a0ebb8bc06801458283682b521,
  0x25237989c498606ad7f77e46f76f4a66dd9f79e8490fdd85a09722164a5f5b8c); (0,
  0x5b4079d8c7a5a10bb68984233b2726bd95196ae2b50e6052441fc4e5b98881d,
  0x2329432253e9aa57901c1369e57e54e4a363d2cfe69069108c833fa8d79f612f,
  0xafe6276ba02c5e3aaf3c6ab487b9d22881c77abe991ab378e6c489246f3c762,
  0x4c4a8d6e7f1c5549fc20b5be52088899a19f39ff160e5c375cbd2a47ddd1b662, 0, 0,
  -0x3a42ed4f500d9a37352da2906c2a054f5a9fa28ea61a9225b6b3fb9de5fdaf26,
  0x218abfad35adf6a4ebab8efda0590733422d6ddc318a39c6189805053dd7b40); (0,
  0x69d98b5ecc35d56c97c0bf312955d199befe116b417d70f5f57e2dfd0af81ce5,
  0x3e26d487fbfe36ab44e0ca3b248fe94bce92a69b8154d50e2d5481f8259f4e8e,
  0x410dcdba88a46f35de21951cb1ad0ea48213a2e4189c85fed8efde6cd0eed8,
  0x9a89e03eb1783e66c608974e4f329f2b6f1ed27f025c56f994e2de54b76559a, 0, 0,
  0x10304d9b614f70a81922696098caf649bc031c7e0badc396631a78da8372390,
  -0x26f12ec0c381a9f77db6bc32da9709ae2f17aaf39e49d009819915547c98648); (0,
  0x62a8a839f45660759f741c7892703326e4ad11bd9e102c0770af6ad49dd4b6d9,
  0x3d45d6c61b8a03c29d11cb1e9660112995fd3bc8c1553ae897448b613555bf3b,
  0x57885a62ac34e267ed8fc338b2585b0f51de1bb10b330da8b304db6d378f28bd,
  0x1e2da9ab4dbee717f1d6461807cbf9dc2fe811454c9373c3de123e38a28ec52f, 0, 0,
  -0x3740c3ab42e209abeac50c07f8206689d0701ba71527bd58cb0a3ad97f73cabf,
  -0x1d8665b14ee249236a42c12e3b388bd6f85a60a6819babfcb0f3c55fb76c0c5e); (0,
  0x4e1c036204e123f311e8da4e3fa212fcf0acafbded425b71a66b0dccb2500e7e,
  0x6a5908d961f00a62a2ac904fd824f6932f0e735f257a7d0d273d61736f1bb1c8,
  0x4c0b1fd3335de2117d7891c0818bdc792861424f17198c10415fc5959e7c107a,
  0x1d54b6cfc834db1441017a77c88ad4b12bfacb15b458c7d2e7924bd86458dc57, 0, 0,
  -0x6e9408976cf0be2e75670bbe966c2f0822e27768062b012f0d24ac79fc5b04b4,
  0x15f3da772b371f772f2028d984d30f39fb2dddfe7cb25b769197d457359cc197); (0,
  0x7fe8906b455e9f3a49464810d3e6b8e5fef5d17226ddea3b18f08e2ff8552d6f,
  0x1300ff9d28f135030203b137ea4a3ec18d5dd0dd6b29a6ee7040b97b336976d3,
  0x2faa2a40f0eb6999fec9af38d455907f561fb4cb63d675a8a76f68032fee845e,
  0x585bb496591e606e2cb723a681705ccb334d8a6670974a21dc0ef5f7a157d990, 0, 0,
  -0x2fade1a1d2a1213c12d4a0b61e863a0c4d800ccafaa3e681568c68463948cb7a,
  -0xc33349a98d51263569c40498045f0aa21173e0a5df9099ab2f00ec10acd57f6); (0,
  0x1e34443347f9e627b3531157faab6eaca1bc3114df4a1423cc12bf8417b5d622,
  0x295955a5ed061eca7f87b9485666ba9489ec20a9c484224dc920350bb4a6fc79,
  0x7fd125210574f0f3e2beb9b4bfd2a1b137480d980ef89819954a951f35f7ea6e,
  0x2d24be4a69c8bd4709fa7afd741f3b376185d29161b2f7c2e6fe048fcb6edb9, 0, 0,
  -0x32bb9fe391c5e02c7557772229563c260dbbd183f384f7dd641b23409a966ac8,
  0x1175291f77984e6f9ab1714e67454dc24652120998cf3a66c28c7132d856fb7a); (0,
  0x4cab819c06b2f861b4be5b06a918bc314bf29f56cff389ae2ba8abd5f1f5e156,
  0x1f10fb18bd5ecfe633b53936f70ce8e58b6a864e679297770f2b38160176681f,
  0x720954f97be2ff2a4775d0198d7e2cc9ad5f7f4028d777f56bb78f8b937109f,
  0xd5b79379fe4be1f76e14931d696729db0987c6132bad68c1bb39ba58cdf0a94, 0, 0,
  -0x37293fd2553f11fd4cd3ea1effc8100c39e7001a74de9ee65666ba65f646c1ac,
  0xe71a7ef77a6852cab06b34a4a645856d183ebd795d50789f6ccb0926042790c); (0,
  0x7c686b90cf6ff6a3a59cc7d8a5e00a2c9b2204decf83f96bb56b53ef630df083,
  0xf1deab1d3a4a3d2528d9103d118fafda873ccf0a518c45821d51a7fd71533,
  0x2dec8fb61813a8d4bced18b138bbeb8fc059fd985e81773443b19da8d7341804,
  0x78a3be0ae7c4fdf6dabc2518a3c55ef16a9d206dadd88470bc5afbe51603915, 0, 0,
  -0x40b7c5423ea18d2ec45a60d2ec4380a28a0b3ad1891b4a22e5f10ceff047a4c4,
  0x3577a13dc2464933fa9677897026f957184d5ef7ba8ff0922647224d0fede); (0,
  0xaecf4e5a0c4c4da709921a44dca45965f89a3215bb5445cf72dddf4ade53a2c,
  0x19304020c00e6169712d6050734bf5c51bd0af80b5ba4a6a0ba008e965216807,
  0x78eaa597b79ec271173deeb82b07a4a554247689f563d5699adba22adc191793,
  0x1c909ffb481a1de2ee645828940e5ea9f6ec4deb87d9e9eab3222dbae21, 0, 0,
  -0x27f02f2e08ea1f677577bf193013e09c486594469b9f1c736bcdfe980f975a2,
  0x57d76dec024325a06258f3394b65fc0eb1dc0bc553c3691b2d13b94c8190102); (0,
  0x51f4ff8c599b1c96da82941520a9f5abf4a31eb8b84fc95056145ceb3b5775d0,
  0x35ac9588d46e41f3f6f99aee3852eeb4b12e807807d4bd1b7f8406b0d7863ac1,
  0xeebcecc46ca5383f95676e936b53e847d278b4cefb169516a93fd221a4eded,
  0x4f4eb3d03b67145c80fe7678d1bc9c2326d9a3deba7af6c2081ae27184eaaa2, 0, 0,
  0x56d217497d9f43d4da1d31bcb976c1524d6f6052dd886caed8a05f7b1dc05f8,
  -0x65eab6d0ddf5f431e944304536cdfbb0f725610abd7522bebeaee3b19d9811c); (0,
  0x568de690133ca63f63c08161d852682fa5696c0ee66bf8f3ec729b6a71bf9741,
  0x4c48220992e8e64741dcdc433a0e65b43a5bae7f4d743e3d1bfdb123773039e8,
  0x3479e85de6afbe7633a05d969d253ad1a046be5670b75a50ce193b573389564c,
  0x1681d487de5757c4c4942df9355ec7f269eda509809ef031a6bd170a5a3227b3, 0, 0,
  -0x3678751eb0f689e06ecee007b398747817cba41f0d9426b220b872767cb229a2,
  -0xc92133e04828372da0df8376baeb800ce6c9b8611a4de90ab2dd6ab7a988b86); (0,
  0x3342c4717d55221def46b89fdd237cf4e9528170f9b524bc6e730cc4663403da,
  0x50676cdf00c935368d54ccf1fa7dd2671cd7ea46686e61fca49dc6a85b6937c5,
  0x3a874b212e924850b2806d2c4d51441e95d90e5ba40de0105e745913097706fc,
  0x2d75d111b246ee3aba139021277becb8fab99eeb45cbfb79702fc59c126bd1d6, 0, 0,
  -0x59d38e6810c1c28d1917c2eb12c6f0c86d3cbd0855596945d0826260f8a77536,
  -0x14ebbe9f495974eeb014176e414f08de4ead037f313c5dbf0111838f216b6a26); (0,
  0x3396978bfc50b33d58eb8dccc52201ef36dfd27b914d8aa86f6ba45d29424d9a,
  0x5ccf1359113c127dcb9d35bf9107cccb453eac7ca7ddbdabb1d0ca4ac8073393,
  0x1487575e32650b6f870f84f2a78bbc4e557ae0d777fcee7bfb3a12281497d0f1,
  0x32819ba8547a9c2e1b5829851151fdf660c07ec1a15dbb421d305a35c8251e44, 0, 0,
  -0x1d89fe907e72d18c14ee59bae01bb37d8a52deef03d78c4a5ad6537c09219e58,
  -0x3eb71a68008fe7b3db46e7986446a6e5303e8cd173d7c96f59f45bfd25e02c40); (0,
  0x3faa2a093a19a02424f65a10955101f4dc015c43b2dfce8e001507abd741b845,
  0x7a1de10dacfda389ca663b15574bdc8ae8c5b6e7cee647e77b11ddbfc6eb8edc,
  0x14cab1ef70948c5f522c18befcf891f8e1dd566f3910d6e22dcfc8ab7a7992ea,
  0x434afad09fc6c7f872e9ae39cd586ba104d17e1cfd2b919c4b760fe3fd599d71, 0, 0,
  -0x64029eb664a0ad40dae436ad7f440ec7e2bc0f5ceb549dab6b4bf5de4db62fd2,
  0x30563ee91790c17abae2a0941106a0b6d36504da80577dd9b746efefc388255a); (0,
  0x30f9cd3076c51c96a9baeda10ec893105d920f022947716064e32717aee8e3c5,
  0x2caedfaa420120c6711921684f9f5a2b8079045fbf3a4efd7e4fa7bc8cbdb095,
  0x1faa6398cb819c800b762aa084c001e34fdafa147d3c1936326306dd073591ee,
  0x7480fbfb97a7f84e8483d89b962790c0f5c04d8dfe3a80400c59aa8e2a5e58f0, 0, 0,
  -0x6fe9311fbef7c672b54370623e58442d9eedf4c2259878b26549dacfca05e803,
  -0x8ba42f95d02e5970bb058725de7609cfb39d88b61064311e121a671695c8182); (0,
  0x6070951e96e618be7d750fa819593ecbfe9c26972471ebed72c093714b7e6e90,
  0x7bb8b8086b2c8f273841de642871dc22c7adb51944d64304c0fe5f4c1d3e6689,
  0x12bd4165f28f3b1d1b1532672e23c3eadd7fb478ea95560b289cdedd3d8bf254,
  0xf9928aeab185a0cec806e49b59e54c8be2f0d242dc55234b438112807a6bbea, 0, 0,
  -0x2760d9e87219e47727414e4df3bfbf4b8e8b845180e1e58209f0be9838af20ba,
  0x6a6c4840c9b9632466f46905e7c7e57dfdff6babfa04a8fdaf6239db86060a4); (0,
  0x1ec0eb040164dd81f57ebc3a26c3e8606154303a1e5de3af27b1afd99d27703d,
  0x3df62c38b3077c694268ed7aae9a3329999e190eb81f07326e5cc3a1d1a42cda,
  0x48a942b3859a766828e721564aeab01a9ed0fda097477227692e801d3a5fa3ef,
  0x77960c424ec5f7e8cbbf8a44e2695608091eac1725d0f6572f511734e558e4b0, 0, 0,
  -0xb0d86703ec05a8c7d1df65686c66a00e66e5f5774fb06895991871270d0d3fbc,
  -0x1350e5778f46135bc6479e6923651effed67350d4a741a81470c79c73c92ea1a); (0,
  0x1924416956ea2c1269062588569b18178011ea7cba1a3266284f48aa01d5a90f,
  0xc8e28127b7dcdd206fb6fee96eb88cfc7db7319826ac8cdb8b1fb8adaf021de,
  0x76390ec9c2c2babe49ed0ee45ea434363ff596ca00751bc0fb3a9e23b0660ef,
  0x1dfe7b9813da5b8d4e5f6fd2773b3fc294e4c006c1f45e573f3a57350aa9e59c, 0, 0,
  -0x1f65582bdd04a3006974688ec3bc7a2207672bd25c8075d3e16723e91dce0ace,
  0xcf551e30b446fcb6a8e164fc633e5ba9814604f23bb9aa37b2b2ee8954b6aa); (0,
  0x2898ffaab663ed49ec57038cecd898fb84076bf49bf6f5c4403aff28ce974493,
  0x94f3b96ab6c9477e759d6bcb9934557e613a0f4fa4fb6c6f4b3bc46f335163d,
  0x4f033d212a1afe6a358d29eda56440cdebbdd7ed27984ac3626beb6e61c9793,
  0x13b45646cb52591de780d8120ec92dd9e395d7d7373c6128892cc1a6851c0ee, 0, 0,
  -0x7984c0440556b669b7e18952075fb3a239485bf155ababdcc44f34f8dbcf0f8,
  0x9c4fa6f9a812cd9ecbc198c7ba433330d44eb6b4a5b8c3b97e9f062d15ada6); (0,
  0x34e2ddf5115701105d5d590f6617ccd7716c01b247948470c1514f12016bf75a,
  0x1bdaea88b78eb71777558f7452cd868e6d7fc33a0f85c3d2038bac585c1fd926,
  0xce056abe61ab405660cffb3fa55c2a2690c07642b673e66af96197a44ea4b85,
  0xad556cd9d4764ae57930303c43359cd6072cf329bded8d686d131c69916b3e, 0, 0,
  -0x1b5036e56fe38efc494a81325932b1dabc108e3bebdcaa62d4457c91cdc2650,
  -0x23613b3aa5196ebbdbe91f1974f27bda9cbc49329a169f3e57b7022082ced05); (0,
  0x4cb56bd83d7bb25558c34ece98dd878ca5fe850aa79f4bf656269fedfe165cc8,
  0x5d1f6fb463251914535bd81a9f9a8aea4d5ea5309b86c4eb8fb4a7fa15a03865,
  0x15d9e670685e012de0bb76768d43f011a045e8e19bdf5cafef405bd76d9e0e16,
  0x60fd15a3cdde486723424ca7ca97052b31a6fd1fa8ec63e91e9cf94ce98d5cc, 0, 0,
  0x1911ac887dc2f085d977b0067d854f19d273733ddaa2c838a4ffd1a748927b38,
  -0x3a6070451e4b077c8453b78b41d29293a0839051d8a6a21fdce85ec1701e3a06); (0,
  0x49761c57ce3c8c4f1435d495903e2f536f3be3712e76af8d0b5a8b7d1ebc8fac,
  0x3225035e1065094ef32d7f3e7a6f8ff2748025f96e0c0b44eb35576b61e150a8,
  0x2df87134236db9b41fefe3e55dd11a905c0e3adec28a5276b97d1c3ddeb322db,
  0x43bfb60a9cedc8952b9b0dcd0f8c0f94ef2eb41a9d9f5fa9426622a3770cd3ff, 0, 0,
  -0x67806f8501b188feb789a1eb4c441fe86c6b1e59b65797a2d3ef546566b67bc4,
  -0x589aafab7427a560f59d1bbe822c6cc1053a09c91ae2c7fa19a854e98ecf55b); (0,
  0x654b39f4650804bfb7c76a3d254377050002240e2f794f8de21de5640fdc60a9,
  0x50ce7be2f1011218849a34ce62654414a8dcaea8b4db9b45dce3b76a6b121996,
  0x2a2925506f67f62308d6fe543f74aed7211c1bc70520b6a32e33e47d32d56849,
  0x13a4f5556f471793e28f13261aa030f6b2560a07cf6db153142190a89a00b82a, 0, 0,
  -0x245360f789c53bad113b8dfc100b01e006dd8d6fa99b7840ed4d90d0c60cf359,
  -0x10f00aedadbef7d988d0394730f7cfe87cf3e3af81fe3eeeb609c30d3d37990b); (0,
  0x91605b338ea1bd98bdfae06ba25bd540525a3b02efa65df30de5c6e8c637d0f,
  0x1df405521e9a2232baf654aa3d2f66bdd6d57fd5bac96f5aa5f8ad2864bf8cc7,
  0x5028e3abb4148980c13d93f26784686b412b06004a16392ee5a4b444afaca9e3,
  0x330367f2e7a0cb9bc5009fef2f981432a9cefbd68ab53d78f155b7086a7c0b81, 0, 0,
  -0x7efeadc0932f0928c11a6b75e66a9b9f6b7a1b26b150ff3b9304f769da3f734d,
  -0x2f6c01001ba87b0eff331c70c43daa8543d469578f6ec162d8d121f25ae2f66); (0,
  0x4606fdec56d46970938a8f9fa5f24624f5b9c6f488b72cb1fc87e4feebbb1faa,
  0xf00d9e6656d8243e0350fa5b89beefa58e9af955ed650a6d90cce344ecf664e,
  0xa51c9729dd77c7bcb4f149a78ae7cdde1b012f1d18f1de9ec2353a99b6c901,
  0x702639d7f2b2234a5992abcd1d4e60556b20bbdc04f4a79343410a006276195, 0, 0,
  -0x13656af043d361b1f60b3ae637cd836f9f3e4e5fc543a2b96ff8c889c5d80602,
  0x33e9a196a9132d05e26efbc6fc0d954a7c6f0667db69d27c68c4c9df676f6c0); (0,
  0x4339fa86a23242851a16afc3ab05b352a7b4bf53599a49dd7e29d364fc3a757b,
  0x6d07cc3462bae9160bbebb997510817040767faa9dbd13f158a5fe8a63a34b0e,
  0x264fa61c44da72dd1eea06a0c533453122e85b018a3e44362426e6b499f90531,
  0x1c2331372b679240825e70ffd0247fd0925ba41f602ee6ac2ace48571e4a014, 0, 0,
  -0xe251c87579012aad85d950a1210f0c54ec39ec2c5e1132b130a15c85628e4e9,
  -0x3af081cec3a3dc7c7c242b4446c16b9cb96a852b27baec94bbd54e2e30799cd); (0,
  0x62332ee4f8ee5e56398dd304eca6ffbcde556467ba2c0d5fabb64e9736c701eb,
  0x3e1bfb3c0218cf9f7e6a2f47f179f29b0ad68235929b4921fda74bc89fb8ef65,
  0x234ecc87fc0b899750757ce9a3fa3a7ad1153a3649c93b0a1a84cde7e13707b2,
  0x5cdf4842d3a8318f55650d90339af437aeec64a36b06467bfe883c7d888c2693, 0, 0,
  -0x59b7e4af7491ede2fbbf1c943df47caa608762cd8796d192b9db49d063551092,
  -0xfb0e5128f879e702b0b9d48c594bbdc9aa70ef486e31628a8a26b9738939768); (0,
  0x7b9e0081b2e20f4f3d3f6d57f7bf977b2f192142a2a9e40b1aacd15140c88b2f,
  0x93854716ef9794d2057036ff3f97da686fa3a1784c42279e8abf1fcc42b858c,
  0x4b5674460cd18aeb3df27e23e06a1009a76da1bb198725fa444fe59b09b55864,
  0x1e2321800c765ff55f512734c1cbd9dd29cdcabc728a6fadbe5477c83123f354, 0, 0,
  -0x982d27f8ed4eb0f655041582c28ec4b91aa46613915bda6d48ebbb3646f79a16,
  0x43e02d84fbe4aa47b4e626fb234b2fcec7417b916fde524058871bdf6772056); (0,
  0x7ecfa6b215265291f32d21771e88699aac3133fdb93ef3a479f95e2fa8742940,
  0x10958b5cdaf36afe557b7e60184207ce6d81883edf035bea63cb7da46c4720c6,
  0x77626c0283fc96ed9efa4044e925b0ed71b7ca6b31e5bbb87bc1cd5cb619980e,
  0xaa04aa0e917586bbee9df50104f1ead45f45c3d52e7481cb022a7a2c1d3d57, 0, 0,
  -0x5eee2193c431824436f567d96fa3173315f4a08f1356499d9d4a93a00c722788,
  0xa15f8ebee60394915a72182c05d094b271aa5bd1cd2583c109935ec8c2b2b40); (0,
  0x6bda13918dcbaf8529d6326ae7a9c278b72417c2188c5ea4f062fc50639295fb,
  0x2c3fa803b162ee887d0d97a6734866f992f846625f314117075da54bb6c20a36,
  0x7da2210c9ab6b920a30e3315456c3360587171ed762cde3c4a97ba9230ae5151,
  0x226118e42a688598e4f05b8400fc8cb3bd7180b11ae1b3ca25cf3af24ad38e2, 0, 0,
  -0x59843bbb4bb5b60d66bff78b0f1dae6280738cf30ba1cd334251a0dc844c92f,
  -0xb2faf808b8f08120a4c34919d940679676d909d7c3cd80dbff2142163691cc7); (0,
  0x19af956d2b5b4ac28b0c67889f19ad66a40f4bca1625e2007963e8a98a70b14a,
  0x5e228bb5fbae687754307287833c3245a1ab34684a5a69174f72b460ccb69d8b,
  0x5ae00c4203d962dcd631d2d5e2f225c5a1db1fc89fa7a05b3ce26e45f90f3c6a,
  0xf4be32aca20531f9cf1d075b9308349b921e1fc42bc17b7b07374afc47355b5, 0, 0,
  -0x4e1b7392068fd4f3d705683d1eac0cc2dcc76e3d547ee92b93945493e2c10ffc,
  0xcf946f98a18f219e99fb2defc843a3502cfb261f3f2c3347c1b9dd5a959e338); (0,
  0x45bf322997c4469aac6d1e4251fb3490e60e7c0cd5cdd6f5cfb9bbc53587b9f1,
  0x529d884884075753fd9a2f9ba021ff427fea7b9773f0d4885da5edc024c69e66,
  0x5278739e9e2bce0da7ce4c157979cb069b1155d2522d0663a90c4f25eed73b3,
  0x453ac6861ad41f71460d6d9f8a5d9707308c72add3f3fe5aaf23844a0453c4aa, 0, 0,
  -0x213c604482705702393e9b9db34455aa1e33779b863f716400c1436d80b5ae9a,
  -0x56206102b43b670eb4b2d355d887529be7d5116cacf709043f27f159dfcf584); (0,
  0x39632228d7d1471800e549128f91a680c9a64e37ae27d919a2609ce21522c607,
  0x6f59557cabbd86e8e4d546e2aae6ac26b27b671ebd049539991e9ef27e00e2e8,
  0x26013fac9f6915f6bc588f9ed34e19f62aebca756bef24895ce59da27bd326b5,
  0x3552987dcc278b8a80fb892a2562c8b86a1fdfd435e5a6397cad91c19032c2e5, 0, 0,
  -0x717372e6def0b04f4cb86f276b0c70cef34049a90ab8e4e442ae85e272a5ab03,
  0x2d6fc3c3a388fb7f7679d3c1d34056d65b68d1e306cc6d76c380148e73cb9c99); (0,
  0x4da4821314574d4fed4dcf692c8b15b99b73f13633210333ce7871359b6e6424,
  0x314016034673d2d20529bc93a2dab6e462bcb5f66e1f4a6bf2170759a40a6e65,
  0x19ba97334081fabad661283ae39529330c444278642ebfc62d43900b8f6a2808,
  0x60dd2e9d54539710e5904fc58c5b03989f94eb0a40e153033b727b8c9b5ebb6b, 0, 0,
  -0x8a382756c9e026fbb61f78d5704bbce8919258864943dd3845847c49e0344850,
  0x1857a47e3a3ccf226e44cea83edeaf1ccd9c9f572ea60b6fae987fe97204a3e8); (0,
  0x22423cb8e82129da6655d94354181feb5b1c789806240b135c4da1bd156d734c,
  0x627dcf9be9be798eb639f6b776ce9ef34573c7a7f1d1ed220b1a23156f08cdb4,
  0x2f18bfecc98bece3a8828662c901f23fca7e34d1271143cb715f8001ac3e4a25,
  0x12f330f089004188e2a64920155b4c6ec86ea8da0368683b04b21ee21815a890, 0, 0,
  -0x3fb26d304283ee12d9a04a73bfd716d3f1d4374017c34b3253dfdb6d33be65f0,
  0xb59c58acc03b08fa816e003b0a9d0f3002a61d9fbf85d22ea7bc3ecdfdcda68); (0,
  0x4230253b946f9c176ea49e7fe2b913a35738999750b1e21555104dcab320bb4,
  0x4db9dd92f8d939e6e4d0b0245ef57a62d793b173e977b8fa69558741d1e5afc,
  0x92b5288f6cf652b4b247819d9dea04a53608ab0956cf5388c69e47091d62c93,
  0x4bc9218f8b2b3815c71534007d23c97643acdd46e7486752c66bbb8614736eb8, 0, 0,
  -0x33c5da127f8215db4bbfe68b39f4de721c069d6a81451eacfaa52a90f8bba364,
  -0x11d43faf4ea0c11be87618cd32127c4c5af12735975d92985978cab83c6dd11); (0,
  0x63b06e648bf7aa8e8bbf75c0f3e0bc5d438683b063be9f4f09de91589756d7c0,
  0x1b17d88ed99541bf1b2cfd50b7d4d87ffd627bb708d0c2445c68249be08bae16,
  0x2239b8816896fa3944f0aac393f6aa0d35a9fafb7ab3b0dbd7fa4d214a91a3,
  0x2f32ac78cfcad9a4da011508ab6b0220eadcbbeb0a364821bb485f4e34ba06, 0, 0,
  0x22eebb3935ef957388b010b3a7ba6e5fce6b5f890ad227850cc0aafa9fc1b8e0,
  -0x99444931d217255ccff8babb5fbba8f02900c5c5697b677d8685baf46420c99); (0,
  0xb2cea0029ee963c0034b61bf19e384435f14554a7d297b5144838c38e375586,
  0x47ea95da28d39aaade5edb8ed941c687603cfdd1508776e96d6683199e99daea,
  0x4da3ddf37c3924768159bd3872545aaa585671e4334c51a34e21f7cfe7394ae2,
  0x5bc13cd8583e72433105bbc642757ea485d9a9d381ce02eaec6aadab28e1c08, 0, 0,
  -0x2d0d26d4573aad105facf3e275af204f05e0829b2b526b33b06bc1b30d8ab52c,
  0x1256fa332d67058a3d3976d44dd691a54b3a6be0d8dac1d26e15e71acf0e7e4e); (0,
  0x6e3d157d1cd96bb4ed4cb069497e6041334d698b1640a59a44a45cde613aabd,
  0x72f5ce3c9ce0c93d9339b91978f1d9c688b56b3a3850627c7d7f93c427456c7a,
  0xf9c7fa931a6f29fc5129408a2abf27c0d421a39ec0ae3adfeef040d5ca7b48,
  0x2867ec2a9a5f6022d150889af6c8363ec95090cbfc3bc6a728f80761ca468ffd, 0, 0,
  -0x83bae88cb84d68a8ac36c5204ec826ef7cdf2ef2e201ea4ebaa4cac9e6fa9b9,
  -0x482866cf2f9c592e8256dcd191169a70c703e37504960df6b91866f52b11e2dd); (0,
  0x1f13202c95083f854583ff4cda13ef4b1e745a880460850e59e22c567d23ea24,
  0x66336d356c381b7ef21109e7fdfd7ffa0085087eb55c4778ad42025c90275f48,
  0x5ef11a158870b81b56cc47f8723dfd525c6e2c2e74d4c63a1ac28983fa6ce2,
  0x673faf64c3c4289f68b6bb91719ccc215cdd9c41ad1d542e544373e470173bd7, 0, 0,
  -0xecbb4e9a61e76ba53c51f5ae008c4c0e6c828a2e4fa4f85e04122c505b47b2c,
  0x7f5467ec701771a8b608fe6fea5b0be9bd81c8dda5abae82ef7b5038cfd26b8); (0,
  0x1d4e70e7fa35c13ec61efe8d7b8ae9e621144c1eb2454c350920e4ac81360393,
  0x7b2807a91ce09ff20a518d85be729e118ae448b51763e880abd15795ddc22e61,
  0x78b46712d829742ac3015a524de11c2b3182e9ae6a87a0a2a0954be75f73c9c,
  0x519a0ab68838bb23c3bdcdc16a1e5650330c08da6a2313d6b62ee48a1f116043, 0, 0,
  -0x257bbbafaa14e98a56ff06daf19de62f738b0435568fc5ac20b519da81ef6a55,
  -0x3303c7c63a1c990801b01c2a5427012145d6414b13b93eda67cf951370d12fd0); (0,
  0x4c27afff3c45f32c952d3984e14e29a098e685c9c2e723e5fc8047ae60b7e824,
  0x5f2c99e6526dc87d95f11eb626c29c3a90d0be1e51a4c49e5bbabd114bf5a66b,
  0x6b5bb3b1bb0e75d0b94ebd80f6472686a3e9517d7222e09630b0917b426433b,
  0x767efb3dcda71e5ffc43d36423f48c176a11eb2da0a9d951857766a05d5ef162, 0, 0,
  -0x1e18db0f0be37fdccec6859ba7a1dffc3ca0a0beaa0eb64642456935b5db61da,
  -0x20dd8e59ca8a4a2ab70817fbc8b81305d9bac2a13ca2e4f9eb0a972e5fe39d22); (1,
  0x6e64e5552b88e48f8ab3c1be8cc36053b0e6ec0831ecbce6fbe2fd29680c969a,
  0x383c510fa4cb58be6a9dfc9339b85145363911589ec5521025352a647bafd09b,
  0x13e0d48ceece7a312a4be6e9f00462f8781c86690d32bba909cebe69894cb186,
  0x4c23ae51db8b06cade5a7ef81f02169540a6fe7ea7b703b1e2fbca743cc48522,
  0xbf8ad95ce5b9bbc38ac11a13a3a59143e5dd3f29b3863669c154b7533fef231,
  0x3d221ab402352c485f88607face9fd8c7700e4200909deb06e8b2ed331622c2d,
  -0x20bb897180b8b5f02f5d6a9f627827b9af49539219eacdef63fec33e377e89ec,
  -0x1b0418df06fa5114caf7d6ed1041496cdb3adc3f1fba21c5866f26c400d07d1d); (0,
  0x655bb5ca314a7e2346f7896f50f3a0f4b83647cf80e5bcd0bf7f35ce7fdec499,
  0x20f486aa7d4091f322075dc1654fb220af4386bf06e5ff04ef74d5ead3313afb,
  0x5f35b9b252ca472d891d64c55dfe62d5009f67f377fcdce818ca69ab3b36c012,
  0x18b4e359e2323ac49ff2532237eeddac0e65802e0de79f5dfbfd925e14588611, 0, 0,
  -0xb726f85965d9635920e6f584676340edba07a844ce02603276ef7cd24a07d292,
  0x1c02c07cea472a8970f0eee8845a69800e0c217b2c3ce237ed64489de67a6d72); (0,
  0x6f74b17702a52b46d272a98a0fc7ed4326826ac719d2e86d00bc54bb1079321b,
  0x5b65c7fc4d7ed02c667f72e5edd20d1ff2aa053c2b584dda59a13834dcaec477,
  0x5042fc989376b7c558fca4d47b6d3d9402cec214a0b340bcf007bf5f19f2a121,
  0x87c1677364ba87a5f9e65a96bdb2022d59690429e0a4ce161a342d2e3957d8b, 0, 0,
  -0x8fd04fabebc48f813edfe7afb52bd2bb5cc724bba5e99edd3158a963acb4af4,
  -0x236da817be6d0859c4cde63ba2cea8e04dd29db4a75e78db6a73df983938d512); (1,
  0x7ea78304507728dd99f0086fb9e090c5967f5f6a9c5d8fca0a1ec954baea07cb,
  0x754069dc0e577bbaa4e6e641df716fef040ad634ffe944b8a97b3eb227cdd25f,
  0x1d17b337ea6a759667c62718611372fe5ac9506b6b9d2181dba4a4a48864fbe0,
  0x491e3996a4657356b865f584be41a4198eee6a968913717b7ae7602a4a2569f9,
  0x267e133c173544a1aa62bbc3672a15f414606c56e6db5dbc2453f45493da3cb6,
  0x26fbb806664113dea6b8c848b1dc6dcd8e395a625308572134da2b48672c1603,
  0x3f1c2afc09097c1fd8e98e6a657b1c7a41c100470b1512d12d74112136dc7ec,
  -0x6c4850af513e3814e478461cb8a3f10e9a0828773483f8a0dd20404a25b43f29); (0,
  0x2a43c009484b1faaf8dede6f6fe34d7fa6748fc3f5026e350d124f34823d3f0b,
  0x3859dc451e6c19be1d7aa2a00dccafda2c2b74c58bf065827d8cdf29dcfe3f77,
  0x7d52a528e3c7643c0afbc5e5f3429f29b197d3661aa31760faaeb1564124232b,
  0x6b67e1f07dd2c785c56dead3d73ad86a546e68cc83a0b854ed25e05c8c947a95, 0, 0,
  -0xf318b31538dd1d7dc0c5ac0c9fabe9335a04a7d1b7ef292aa93e0911b26dd528,
  0xebe890fa42ee9a1dc0bf791311e30e31a46e2ea95aeec417f4792a4f087a2b2); (0,
  0x28e5aeef868576117d40fba6d18148a6057ad9fbe8de8d038e2742ded97176f5,
  0x5b43a4a02f8caf711a26c0bef6bb06a23c670402778b076de5637978022a0142,
  0xdf499e24144d4fb0cb4d9a914e7f87b7b69636ed26fe55fd443121873b48cf9,
  0x18cedfd245caa2c092709a801db46792d629953b849d1319074125d6b529cfe4, 0, 0,
  -0x87bf9f1bb7c55be5606de4717c911dfc60e5f78def6836f4c1147b70bc51031,
  -0x401c47509dbb2f0e9f45525c8e0e460b62f3105f578f22470acc6f5a02dd2d9b); (1,
  0x14f0a3130b63e7d407bca19545596c314e5ada1000f546c4723a3f18ff3d1c43,
  0xb27a392e023212925f640d90ee0cd8e689a7ab75c62b50e3d64a85b856cfead,
  0xaacd507d33947e7b280852337bece7343f179e875b1ff83e9a11d5a5116146a,
  0x4902ea19bfa3bf8dae8566ff2bc8d21b63859ccec608d2be511c612cce880102,
  0xc2b715ad0efbe0fcb73bbcba0b641bc501cf7582fbb1168325f8df2bbafe3e8,
  0x90a00aabb1045aad2a2582245b98426cd3092f7af29b9c88ea305e732ccd056,
  -0x316b65d42788dc53a4a1c744319c19048d4148bf68a989461b3b368c3ae2e257,
  -0x3cb04a66310b2f40fda69a9e47fe2710dbc19db86b6c2b397958d2241342a77); (0,
  0x4ed814c2625c1d7c498584c5334f25112f75f78987bd7829231382e2806c971d,
  0x4a9a3618c69708b3a0ebb4933eb7cf41ff12ad1b7c3b877733d06694ae7cee74,
  0x36cf75a4abc72ef72a44655fe2934cb8ad44c61792a984b09b24d2da2989401,
  0xf8dc63bd0f5a7d98ace576c9b65fd0ba588add8654d9e428c2a3dc687cb30f, 0, 0,
  -0x1c957444ec5449347956e447eb4c42859318d0d6f01b849892587a946185d83c,
  0x1797b94f6e46999f1c70fcb2da69e0122bb8d5a76dee9b34746c31e04e92d976); (0,
  0x1e373a295065164c990f578e283d6f23959bb3424c140f2d52cd35bb257a46a,
  0x5cf09fbd15c1e9cceb314e601d2256c269412f5528c64f593a519f237ee18d40,
  0x3090c612fb4a20c239186399c056a3523e7611520a1ba506123a6a1cf375642e,
  0x2b7b0856e81969d7be62883a3dd3b9098b17d11573e3fdeef645ef7feddbee2b, 0, 0,
  -0x5ca6356bcb67d79a652e011b6f3933058436a5b9356be2623206ab153b8258ec,
  0x2499abf6d8d7f7be6a3324b826006a52650a693d16e0247efd7f77b7d03a373c); (0,
  0x5a20eaa3c802b70a60d1a119fd2cf6e5b3ee36a23892f4a5f6786ecec3ae4cda,
  0x1aeda82bf672705db81cd6709959b00126a458144927b65a421b4831f3b98911,
  0x721fb17739df784610919b6ca4b888942c4d1e17290cbea1ca3b36d6917a2,
  0x437ba9f79bb130a357bb298114cf986aeb5997531aba420842b1934ff9449d73, 0, 0,
  -0x21d6c4e085104ca5109019ab0d29e25431f752984ef89bbcabc525a50f75f8c2,
  0x94a79e868f2b265255ad05ae01b7ed23ce7e7adb977bc921952be3d6df016a0); (-1,
  0x62288a7a7534a20812a32f2e4cf3e6365ca24fdf16486431db159cdec9b28d3c,
  0x7f30d1f97756d4fd355d922222e8719b3c3249ff45da93b17407f92df152c916,
  0x429a588a0e31a80a07748810e584955067abd99f2265b7c02ef7c7c8b556249b,
  0x158aeceff85b8d17c67d785a1447c000ebb6acdd0752f84834e2a027f62e0740,
  0x15ff1ca1c90c6328cd95bc6a502132f3b2db057d48bed40c42695019da8b84f4,
  0x59bf71c0d24a6453050ea3baaa19c70bbce98d9d8906e1aba64987c2168192c,
  0x3aa56d8d306fc488985937c7289d62673acc519d93e479128f94460e40b4d0d,
  -0x7bf69d60c6c673adf3e0d5bbec1b8b68d182e9835e8334de244bf546a7b495b5); (0,
  0x46637849cdd4169503febb4a2d918d7e95b39295c7cc5212ef5a4cfee2f06dd4,
  0x2e7cae0fee35fa4c9087add6945b041d98197b088db6521ef54365d53f26dd9f,
  0x4b4620e2a5d25ae2f69e1baafd513daa19fcb406c2dd1654e8440c8033716501,
  0x7e62f349dc5c5fb08070ee80ee05ddb2fa3780ad04727d1d947817386d6d16f1, 0, 0,
  -0xd48a6676a699393b541a633c5f46785207e96ce698f8415273b3ed6ff8196c80,
  0xb88da3207695466789a9b9ab58d1a54b3c631de324740e519ccddead7c95158); (0,
  0x3d16275fdfa6c76e6dc7c5a83c4a8ea28e78f37bd92b054247d3854983eb3b,
  0x7727289b97881177be05b3366e11e65991826f16ec5d1626c36ac731a0007a09,
  0x26b518dd3c54e941a61cac1928b37887141956a02acb2a3fc5f42fb2df5be508,
  0x10e2168d9ec7a61a4cb13045b5207e1fa7f23a3707b41176234094d76ad2d7b8, 0, 0,
  -0x3320fffa108c44cab43b868b0effc479bbf4e0f4c7ce44eee63d6cf95a9bef31,
  0xbde7c4f0b5d5f0b27512dffe000a2627ba28ceb0d73b1dfe53d4076a142f18); (0,
  0x4cd2833a234fb683f4d158f60f892ad9dbd57dde83a7912f00a1f3d52cf3acae,
  0x45248bb18a51f8865df5a257e8a8eae19aee9defcf2a1633695dd3becddfe8bc,
  0x1d27215cf63c8b82f27770143ff24387fbcd7d2f0e3149edd075191b4113,
  0x6eeadb7c1973533c06232351d4cfe543dc1dca290cd599dec1ac47e379ec20f2, 0, 0,
  0x2a4390f5782df30070edb9c56570caef2f0a74445441e964d8bdaa18ed35ebc0,
  -0x267058916eee1bb81426ccf61a91c48d7b6fa05064a217ccae4f6dda2a36b7d1); (0,
  0x33e2635d8be6ad0ae81266077ba47364cbe7f9df0cf0dddb2c591f2ea5ae4ddb,
  0x38c28d3a351d82050e0f0401d878b51f9983bb182fc3baadcaf900b49eecbddf,
  0x2e1b560c273ba0fac74532b6f2aa9b0ecde31b8a39f1ba7f7f358eb2f76df3b7,
  0x2559710a9572bcb7d0d1c93f9766aec1848402138d230148c0c9c2438b209dba, 0, 0,
  -0x61c6cd50f71b769a5ff27847a2c56ccbb878faabf185f0f1ac1ae98a0c24524d,
  0x102b8f8bf044eb5b11f213316e44f65aa467aeab86079264ecac742bad8331dc); (0,
  0xfa6cfe8e80c57243337fa468bac8c1914c19bd6aedaf1dc0ac0b91b42e9bdf0,
  0xcbf992fdc86e2303ac41b45398f6e71a485a04c46794001c65ecc6a75d00da8,
  0x1507f795baf4d13e773b1ca66aacf2c46ac0e1acd7ebb4d2bcb31004af40d930,
  0x192b6347a2bd2ab3c6db2f0d337291d7bd7fc50b516122308a321d498e9f8358, 0, 0,
  -0x28dfb97f0d180c93658386e494693c7b64337412ca9c61b5a069c052c3c9e872,
  -0x42ff80d6ea22a789b6e8abbf6f2bd1f259e779b4776e6f8cd30ff4d5e7a0caa); (-1,
  0x3cbb1e64742ad100f661d50253e9121a6fc87656561fa1614f2787b5a3c25875,
  0x1c90dd558c06558541e8c17b7a91b227e23585d7b5655a175cc79254deb549e0,
  0xb90f0c4095b2c1ea807747d495479101fa91cb8261d71f8192a9dd29215afcc,
  0xa32e0f316d24e8cfbd015d0fad92527b6d14d09d1fa999b0518a3885e400aec,
  0x311b228ba6f3161635b2ee9eefee5f2f6b6b5b0beb8f8dce66ba3e62866d029f,
  0x4d736afed8df8c81cb7f4d223c6197dcec0c111caeee23ccfe35d71fa45783e5,
  0x10127e0605806e1403ec3c4912a9a264270b7557dbfe8f8b76fd8985ed06b437,
  -0x11e1764fec490d6a37bf3d98f17883f8ede2b3bf937cf41289b18b243ab590f8); (0,
  0x36814dd7c47c9df534dcf7ff90a23b8ba2a9f19c89a0fed96beaf3514725341d,
  0x48e66f1fa1774adc81509ff2a38de9b279d80544ee21c91f5ecd575987787f0f,
  0x1cd07e0901a2f65594184bafa2a5bfd3622cabaf6d4e7c34831451caa9bcc786,
  0x66004c8ec77745d2991b8505e81bc54abb30b98dc7bb7451dd32670e85d0f05, 0, 0,
  -0x131bd66fb6183377c45770279307c5f0f8111d0a7d07aa1d70386d6d999a600c,
  -0xab28110038f81589077560be242b1973c96fb68f6e3400d75f0b7479ace6ed8); (0,
  0xa35c9e7b0aaf119aae11f59b2849fa4dacded80b3ece3bb37380987238e92d3,
  0x72c11857cee2072e1501192c150d44d553346d59f0a740a04017f99c83d4a4ed,
  0x17359c4d240834927524c30cb1c180d49589affaa992a8477499549c61c7b679,
  0x2984dbdb4fcb5cc90138a84653896fc407dbd425c2a0aa1b8353f3a338e0bef9, 0, 0,
  -0x4195edcb9d56cb650b07b6db71620646a2e94c1f1f0852f73f5037f877b92d56,
  0x2758cd69ed0bbbb65053a2abe245ff26da49f385dd37b1544d36194009e918ca); (0,
  0x22e958df92ddf7849c42078a9469c87b6ff22f4bad14ca78b6dc513bdeee3d0c,
  0x1d03e2b68c8e494536a868c33ebc09d45109eae47667549d80650eed9c6ae3f6,
  0xd07e26a5f44d7525fe7ff48d6b13fe2213c7a255a7ad7790dab3d7c85c119c,
  0x66e116a7d5efa83908b56ce9141aae3b29c830bde6e559ba1cf80835f340e9b2, 0, 0,
  -0x17bbf1111c7c209a8a7ceeac6f1dfe8cedbcfdfb96bfe82313d3f71b4b6bc0ae,
  0x482ad5d3bf99fa825f136f4d48986be92c6244970df5680eb3c75317d751b34); (0,
  0x719a95cee82484d09c469ba2d004b656a27bc6ab1d3cc61be292a7c0fe857840,
  0xd2d7d8ae740b254617c00aed803f2e91e5ec84d7e2ee7208ac6bb27f4623ad,
  0x985a09c91ad8c0b2c109ae16cd1e0361241c48942ff97c653ed798618c2685c,
  0x693c2d8e9ccb48d8db783a5a582489fbaf31f94738325d050167d1716d3ece5, 0, 0,
  -0x38f265d8b9477dd2dad94e91b61ee6dd6915bbfb178d5eacc17314c09dbd5690,
  0x4c50becc5f4dc1adde73e11d30c1aa4f3ae1c116c68810329a8f839b7ad140); (0,
  0x2c37c6fbb27a1f5df13729b9fc99865a85eb198423f19fcab965620a3f2a54bb,
  0x7456b2a19bb788f15ab135cd4eeddcf8bdedd3bcb8fb2e7f9411fde5c3df6072,
  0x64d3ab327b141549c9aa4bdcd2504fd441f215dd8bc6fdd6d0a4284b6d9e3f3d,
  0x15b4daaf7c5a01d28bab40840379c4086738d7455629c4cf70a01b5cf17e7, 0, 0,
  -0x167334ae6f061574231c868e4e9c7de49a20881ff07211465f9b9526164e6c0f,
  0x3738651b256efc937e92c76b0375e0630b56af398ce823f314815c2d62d2bcd5); (-1,
  0x146be1e7c9c842667a027ed3b759ccf6b654619648cbdad381480e7d1928b259,
  0x765b7ebd7c185fdc3a12783d1239fc08a63022ca9e2305a7629225ad977a404c,
  0x20ad0cfce1229743fb0412a3e611c7e2a426502686c67e24952f2e7d1f7cfe01,
  0x5d122881495fa0c1155a91710bf17d93cb24a963c72f5866100e64b7cfe5e6c2,
  0x13dc45bc0d7c40c0b377b3b8d893a9fb3ad5200b9a375ea29b01ab165ee081e1,
  0x189867cfb8cad3588e0c8b2f703db5e87e520b8a7a23d68f8a7783df9377b140,
  -0x664fbcc51318c1bbd6e4bb75e13ba33d87bb2abdad36b001d520afd7ea82139c,
  -0x6e51894e4b045f8f8165c101ce78b3151f99610b855123567dbae0ee7647b732); (0,
  0x488861f17a879db9dd07f3b38084e14834a9ef48b8213696c00dda61bff383d1,
  0x596fb8cb4a08a38dac0ec16c681d395a2480ed6f83024ff7cbd7ea403238585c,
  0x3421185ad4674ae9fccdc78d403ccebfeaa8fb51188f3a2edfd4fdc1ffb9c36,
  0x6d70f3140fb78837453887025698145cd8aa43fe2f9e27cfc53e93075c86b902, 0, 0,
  -0xa48f080cc1df879492da95c0436a9c9861e7446c110bfbb48b78ee9fafcda99,
  -0x21e2b329d08e7ad0c1ae9a149dc9bcb367e5a363b388994ceba5dcf22f8de779); (0,
  0x7042b73005ce8da92016b918df700d14dcfa978c423e3af01be50e020e76538,
  0x13cbe68b2e9b83e44d281aecdeda0473dc67a39263e2b3a7bceb982e8b8321b6,
  0x2919ff8015eeb6e5aaa55a4df114bbf7749f7feec91cb58e389ea12adf2c26c8,
  0x3e7dbe7e3e522222816b004b755466202708602752e44e17d570a0ba7edbda7c, 0, 0,
  -0x6506115828d2057ce4e39eca90b058b11c481130c2158befe56c10b5eb8acc10,
  -0xf33b4b0890e91fcb7c556e6f23ff55a3457ae9e69545903acb5d7836b549cf); (1,
  0x414a78dc5ec6a9c6ef90c29a86d22ccef235557a3448c3e2f760e49e5f52a230,
  0x513105651b69ca910d2fbbbf016c154e7ba21af1c09debe0d1a176a76035f793,
  0x1d4d7a0a8e51dbf58bf62ec72ddf079a077b5dcb236677c95a430f82f935888,
  0xfd65208f216031d0a867bf0b248038fe3861c751cb55c8630bc79bed602815e,
  0x19b7e0455fcdddcd41d74ee4f69f05c34947da3d08da5abe6ce0bcc0447d2ec3,
  0xe43a45ce1ef5376d7fa307ff2b517947d614033d54c8380c75ce8e64ddfc93,
  0x2088c62935beb8f328772a72d07ca071080493a1cc44fa2c6bdaec967d074584,
  -0x35dcfe6e31b7bd8fb691be68f120f61983dcbccfcb4e7d27a918782f34015277); (0,
  0x1888e320b28be7bc988e3fd13f25f824fe47980b48d277458788727ad0eeeebd,
  0x1c6058b877b3095be9270535a11fa14344b5f64b8406ca5ce0ed7016275f480,
  0x214dce14012e073ce8bd9fbf329a53f5b1f3668e498f6f02f65bcb800d0d713a,
  0x33801d9a1855176038647cfece2552c578d77f368bc82a3d06de0acf7ea5bf21, 0, 0,
  -0x3dff46653ab9090aa8b43eeed4bd720814215056556dbbc5558772f936755532,
  -0x181806bce32c2383b3f979ed58c168deeaf8d0275f81c4b5f612bb701a53b92); (0,
  0x258250c4efea2e216a45c2dd6799ee6af6ac066934f8a1067bfe6bfa2dda709d,
  0x5f01127a10ecd2717df1002aa61aeb264399912502254c930524adddc3893b80,
  0x4b3e7907b75e1d5a2ec070a5f41454a45326667732b26898a64b3c7cc8389c3,
  0x64a6f5606908f14ff67f576518c1354fe1f4ea84bddd2fb824e34d0948642, 0, 0,
  -0x1d7dea7ba774bc5476b0500c9497841fec6a205fcef59da084418efee51d8b5c,
  0x48f9d7561c13c9bdc888fd2703d2c8095a5fdbc0dc9176708e8d08e16245c278); (0,
  0x4ce2ae1625d93f3efae3386bbb8c53868ebc7b07c067fd5f642d840f0f8f58ba,
  0x7cde5a28be2896c66e1d9a52b26b304110430528f9a06dedbe9d77d9eb268a01,
  0xafddb5e1db2113e3dd56e3dfe8215ee61f94b977919ddbbe1521ac0f2e8991a,
  0x4683976f7db2953ea195b28ce6a850179729fa457775042fcc4f6fe0fc46d03a, 0, 0,
  -0x99daf7b7d126f8379a87bff77d89c7dd22d94d89b00bc53eab9924d7feb9032,
  -0x4acfd4ddc696ed03f39f9491fc8c69a7d77d9c281d4ab51af99dac62a3b2cdc2); (0,
  0x18bc37e89afa5985f49b3f3ca1b9009a4297de2445abd4b03b41096e526d4161,
  0x75d320aa99c3ee25189d3d050de17b37f453ac8b8c94ff8c92346b42454fcef9,
  0x2e2ec029f7ebdcfdd225c668247b5aa2f1194acd03a491af96f21387b199fafe,
  0x79d050efed43994c7d8d250a00964a3c116bce5b02c4c0fd028d0737e50432fc, 0, 0,
  -0x9398202d828624c9c52aa90849a2ebfa67fb506f0c73d1c24f6a8f535d72c7f1,
  -0xb80b145102373d78d857acaf5f69a9b82f28f0b6bedc962ffcf222d7704d1c0); (-1,
  0x23caf1d364e221c522e6d9e7b955924e81514ccc80af8a2cbf3ebebb022f0862,
  0x19cbf287d2e4f98f02a48d71032fa0ed6731d0f7760b5e6de96b70435585dc46,
  0x12475c8070a99ebd0a2062408badbbe6461febb33e94476b4aad60f9a4988611,
  0x5e4280887b0324ea7a1764040b1ac8f99042f06fa3aa660a0e9055ce9dd97261,
  0x34ff5d46c2949da093a9b761e7e6c0020fee464f0ad1b023c48fcbe1e6d7de52,
  0x32ac650c80d37aed4ef5c247929236493f41ff527e692b75589198cd299c1db7,
  -0x6a301ffb0c8a2f278e7128ce08b48b85c5933b8cacb61b3175f6dbb9326f74b3,
  -0x7b99dd3415ce4396fd94557e03611fe782f9ca5a6d2f3e27326fb8c1c9f5cd); (0,
  0x350a4e0f738847dc0a492314eedd6fe77b4a51156e7987dfbeff8e3562ceb7bf,
  0x69746ded4c6e329166d99845a10fd5476ef396e132a8a05943133d3b7ae6621,
  0xa023e04a7417934d580f96a29f3893e03e1401c495cc8fa320c488e775fbd91,
  0x532efb220bc855574c0c150c656c4c0d1613d34d122b23f9c5e1f99500402a6, 0, 0,
  0x78b5e8148c44ac53772ed7cdf4115ddbbd7ba37f6ab2fff981a8e00f39a513d,
  -0x2baf0e277d2d1e9d30b1566eb9d106637637279b989ead6ed1292375b95a372); (0,
  0x398fd0d05c1f7ff7ce8158b9915a9dee623660d112e311e18c1411e16f215baa,
  0x43c7857c3c0f84138713c20c9e0d2f6567db2ebed383b916c58c3f1bb1675ca1,
  0x15fa89792db1bf7906b2a2ce9b634b6bb3660b1fb4a88b66e42069f8a376a696,
  0x56e16e40ede730cb181d88bd5795c718e6e7732f513e914753a5e38b89d8a4, 0, 0,
  0xab37e87e6a5e1420139083ce0ee7a9de9b9d0406aaf8fe7eeb7e5b80caf57be,
  -0x1308530b284468fdab93d32749ca43ad8d117545d210a19d7e1dc27f3d9d5238); (0,
  0x40c17fc5e121af9b1382b3bddbb7474db5b8f9a94037e2f37f6f9ccfafc0b901,
  0x4650f7bef4b0462ea401427acb5f313eefdd6be7c3eedfbd4987bd8c9c3f3bca,
  0x19e2b78f784062ecaa2f303fbda2825ac724117cca83bc739bfaf06f49943028,
  0x23e416bfa85fa3e7d6d7b8d325b9e7a3dfd7ac617eb4bc59fc7185f4ee3e2dee, 0, 0,
  -0x241001e958d655b3f166a2ff32105cddfc280315a5cc7bece39cc05d653eaf39,
  -0x1b0951b82e3125f946837570cfcd6ee2d2e4c0ea46cbfa5834157a94678e9c0d); (0,
  0x1a6f95c3ffc6f4fe30f66f0655371ac081cbc0654c4622853ca947aedc3d0e81,
  0x4e19d703e8ec06e0c7c5e4bd89b6d41a9d1633f07849592dd31466ee28f22cc4,
  0x20c2a449b16875d8034a442dfcb834ef8b0c13e24079e3aaf56cd9ff0d69c197,
  0x26a0c23069d6be534b9bbc0820407f94967a9df6853b3aa25e35d7cfe6b5fbc7, 0, 0,
  -0x42d182a70f7b8cc335baa1e83a743bafe438c521c60dd4d645e6db55ae819385,
  -0xcc994d5103a88143dbb606eab07e177aa957314df5ff9039b4cdd59fc404d0f); (-1,
  0x695610990c75daa069c813a631a6061183549d768846962090f79dcaa5dc2be9,
  0x526e2356b1d33db3ee1e11c8091c11dc69fec730bdd5a0533e450c13a1c7af54,
  0x1389164bcb80c8868a177a1982171761a6ee5fbe31ce865c506cd381d6185f2f,
  0x3e7b1269872338b3d304b6fe07c5767bb0de8ff3936de0f175a9ebf1ba5b5703,
  0x97f8c7d2bf166cb5e5e1bf6c21b9f3a1fc340bea18d2646359476be016c9e0f,
  0x519cfc55859e1780d8dadc443de43eebcb14260b32c75a3fb917e681d9e75d67,
  -0x8c2eed033357a91585829323b0e01fbab2385544ca1640bca014d67470b626b,
  -0x36dba0f5ff3470df749cd3220c338da7978cfa93aa5e1fbb5e5f82d066f2e179); (0,
  0x23afdf0d6a7e08f389d5a51847ced4f31b415ce3fa76997252d3c8042459fb4b,
  0x719536c017cfa3c17acee83a1939f41c822b8db2c7ab21ebc87dbe019385bc0a,
  0x56af6d196841132a36b7ac872e81b5927916c4f744b37d3b0fe3fa9418da04db,
  0x35157c0bda99ee1806fcadba6f1b991aead50e8b7fc16cdce4562acd0d13ee36, 0, 0,
  -0x8520abc93b86ee94e7490ce55ab2506ac00392f8a6033f54b45e8ddf678ecac8,
  -0x817918367a123caac9aec55aebe0133daf2d161dad153f853b3c333f95e6790); (0,
  0x28673d4d20fa9c1da7a7d66b9bd72bb8aaccc5b432cb4fe440aa9ec94d5e4855,
  0x7605e384da666ce248309556829eb2a885b2150c839606128462591cbea71253,
  0x9f31fa0c39cddfccab15b221cb10fcc5ea324f09c722627ca64891d98cbc779,
  0x64ca229cb8ad40e980cbaf783be23b6afe3ec2b426dec219bd76bfb23dca6f55, 0, 0,
  -0x3ace3144d2981fd68a127ea4c5237f0bc27c47a6e2f4e56e7be8f17f9e58bf15,
  -0xd3b24203df682dbfd30c4363bc401d10ffc7c73a9e1170947bcc8c8f68c8de6); (1,
  0x9c650e9b54c7826b4cd04df52d3d23aa6117e9577163ef05d70db1da2639730,
  0x29be7d8f82a6e39497d940ec819200e8771bd3e38cbeae5fba82543443a2f1e3,
  0xa8bd3cc94a96c4b5d0cee08b647c47670c54d5ebab5d6a3d12a1d0c44b8b829,
  0x5e6b1c6a4851f0b5068d4445354bc2206af4dda39c7804db9d1b7a7d6552750f,
  0x775d7d461e958489c0588f4f95324ebd9653d092412366fddbf1390f3a9684bb,
  0x5441d39b9f12e898352da675d7819c00cf5f58fd58b80cc6d971689479ba163,
  -0x3cfcf885d3e9e1468edf2fec680494d0e5fc9a9a03ac7942d75c28af945f8c7e,
  -0x924f5e4cb8f1f767ae5e06732642a4cb920d7676af1165e22d01df7fdf72e7c); (0,
  0x525144e31ba2780a6d75ce270b192f93323f054e3a056b1ef74ed24c0ae66c78,
  0x4ef69da42f8419babf6cb6c5c20e3b913d8e6bf49649fbfb2f5d331c91d742d8,
  0xbf16a363ad72cfca8c6f5d911e1167186fd91aa8cd3c38b22c5ef76a2a3c04,
  0xd9d23ed2ce9b55339288b058fda0e0183e1275b9c03f77bb1f98030413c1e1a, 0, 0,
  -0x4d9bba59e2a5be59735e607f8a640f94ff200ededab3a57b8a4810ec978dd9d8,
  0x44548f3049b58450309511932e4560e3045cfd90ead5bb64ee1aafea273b7dd9); (0,
  0x35465809ad5def171b2bfb58124e015b3a36aaca987e41b85e8da5afd60da6ee,
  0x6bfab84c52496b9239191da5df149a62d6afdeac84cc586bd8bcdfd641fa0c30,
  0x34f053dc4fea03bdf335ab6109a9525b949cac4a43bc68e2bf7bce864ac14f2d,
  0x30b66b46cb253a48625fdffafe7f63c843e50b9ed84f6541060f925722cc8733, 0, 0,
  -0x7e35782cd1d6d75a5f3d6e385e5c85aed41a6f537a7b37da99a2b3df00e04a14,
  0x31f3c69832dd79dcce0092a4b3d8e3ef74530adfcb53cc07ffd4127da42534e0); (1,
  0xfb308074d5c933379d5a7235fb5c36717668e748ee8c9ab3485ae054b0aefce,
  0x377e44a7603f8631565afac9f1e95368f51348484c1b83367c8d662d86b90ae5,
  0xde7ed388b3c38324c800c05f6c81b2e1939f9c8f3ed759322023b90c292a5df,
  0x56622d09db6defa82dadb1517f43aeb5788cb2239d7046bcad63e6450194d68d,
  0x2d7cab3a3be34319ae9efa1664dfc64e1abe175df07c8e1b6f6b4df20d8a18b,
  0x1fe6c4c4a0f2f0bbb5de98ca77cf35f4ef7a721bce6037c6c0d1877f9d396ad9,
  -0x3edb30329468d6e9b6a7c3e1166e6477515feddc611f259fb7753e3acfb96528,
  -0x1c18cd2d3b5e315751ce02348693781ca09a843a1f0aadfb7154dadb288e066a); (0,
  0x76145e80bd944d3b04b759c1ad23a0bb149d0a3d63878e4bbf90aa12d12533b1,
  0x3a8d4a424e897751a95f74c919a41bd7198083b11858e603989d2d52c2d965e3,
  0x1ecf04a2b0efb81fbcf01a5fb7d7ec0f63dc771cb72758e426ce29a8d470bda,
  0x180eff8f250ec583840e2ff1f01e98962d5dafeba77c8119e1aaadeb355d3436, 0, 0,
  0xa05c2817e55fe73d348e58af2931a3c281c601c829807cef1317b4365e33921,
  -0xbb84b8f620248cc33289810611972aff2f3c2d5c78281208e9fe8cf8dd1fcea); (0,
  0x18c5bfe58d2c9dd2e8bd77b4d6ea13dcab3a43cffcd0ed8c608bec658d135459,
  0x51acaeb92ff3674031943f0152de2070dbe5e98e57a934c39c276e5ff2b2bb75,
  0x6ced917b2b8a44ab05f54ba4ef493f14382a1089e71622150f542c9119181b75,
  0x1ac8a741dc56682501513d3df4371d82463d08c7a8ca51e031c5e51e5ffbf29a, 0, 0,
  -0x6a75f3bc564019fdb1858ff314668dafb6ea60c41905fe534f129c9143c2c853,
  -0x52ab554a563c96391291c7e37241fa70d8a4b859b354373ed1211d86fbae1f0); (0,
  0x70dc9136f5e352f230cbdd689ae7d73d1ec8b4d6bf4d5888a180d27186a88c6a,
  0x4ce7b00ace68ed9a47f6207b7d268b851bcbd00bc04a3d7e54b9f353f4725665,
  0x4cb5977e337f581cad5f4986cc780de48a2510800aaeed142cccec610382a2a,
  0x341d7618e0e1731d2988692edbb01c45e6a1a365caeab29f9cebe4049dd1fee9, 0, 0,
  -0xdd1c8bdacecad799cd188dd75d9d62bb4035dc29dfd552e2bf19eeed9007108,
  -0xc200cc628bc9f42f593c630faaae1a6caed271af294dff6269a9163001e30fa); (1,
  0x78edc97d284397cd0eb6a59af9b9901bcde45aad8c20aa48a2a6abc03e220ff7,
  0x50b7c26e80bc90f1eab23876883a77352b035ecb16016a2fce0069ddc41b15ed,
  0x1d75a2b7187768602db8e8b58e461a715ce29008d409a08947010f520ad296f0,
  0x3d86266f0b87247b6cc4e6c930eba2d0e309733c99d4fdfeaa2e5c4329f511ea,
  0x58f3b00d3822c59fd4d473c81a5fbb95f0e2ff3a6c9b3503b009df2c6666ba40,
  0x3da051699918f3b1dd73bdce8888a4719a257a52b43e33b885c4afbdac2bae77,
  -0x2110a7b783d2c10adac5a88e6b29e153c62c41c43be61714e113be9a41dd560,
  -0x48493d11e4bb507e4154e7ab552b3fa637bb1bb02c8576ab9939c647ad058b4e); (0,
  0x5b68d752b610751c3d23c5cce115e89a5ec6f82f0d90b4e38eeffb6c750c9bed,
  0x2bec8d0d7757e3f2444acb8ddcc9f6557b728e4dd97ba2fc370e58e689553c72,
  0x723f93880c2363c3985fd427fadb82469bcddf5c21f8cc89d08d77ae8885dc2c,
  0x32e6bad93c3b25fe360a83137ad6ea9610c243809c95a0708348f28eb2981962, 0, 0,
  -0xb949504d180cd4bb7104cd5f3caeedda4ca1de0d4e47d8383feb277b1f6d43d4,
  0xfbf025dfeb93798e96e86a012bfacc9721d45b77afe0906dd57e04568faacbc); (0,
  0x2e232e3dfd29105441d416b738c2d06b86797a3812343bde09f475c26ed97608,
  0x61519474045d322ee924aa8470911ada37816faf1c312b38d6789b01c9008190,
  0x41476808eb7f52540649f0193f5d466bccd952fa5b973cfad99451d0bb802115,
  0xf12a3edc946cd97a28fc86c7d5aba67ba7eb372db6b5e907c76f302d3af9416, 0, 0,
  -0x38715ecf7f901e2934e5a67b8345c0c4f5f6d7b280464bf8eb587636c95e11b4,
  -0xd45f7e5dc64f5e3834839b5bcbc21c7c83d1cadbeb4d29ce18f103d78fc03d6); (-1,
  0x645026fc12791f1b6ccbf47211a928f7ea26710d604340570ee5adbde5dd1e03,
  0x647d80418e40c19f4f799b2f5426805c64c49f7825b6a89e8cc44a1598aa4e4a,
  0x22182fb2e37e50e0d73375a306f1e8e7a0a18eafeb6e08f4e29b0f469ce2b700,
  0x4ddadd299d175b58ba83bb9d26da7be1c6012625b02755c711fa159b07339ada,
  0x183eb918931a51014e7da7e7f6b69309c35fb64800d99005e1f5fef2d97e4e49,
  0x598a17e93e8cf50e614f004e336719eaf32f0be0022838a9500c786ca08c6ba,
  -0x40a5a7c4bddb95793276cfcd9a635c7e1a59d34f807172941ca5a23b2cd99110,
  -0x2c41d0758790b897956b3ff26013e43fa2931da019130b2c7b11b1052cdb90fa); (0,
  0x3e81d6bd98141088bcf38d0e7cc9bb4036359f9cbb82af499291f8411fd4e9f2,
  0x70501bd75aad88925a0934ca94c16bd97b3b5c42645c717d7ca6018bca1a846c,
  0x4e9d6f1aa3d3f3626653f4d5d466fc05d7b20d633dd61f9303df21291eb04959,
  0x4ee493736ed24317b2704f19365544001735964fdc6f2e14031d4f3ce58fd8a6, 0, 0,
  -0xa0dcdef462e38a13955e39251c5f6590a465a87699da72706e953fa8405bc698,
  0x60750795201884f52a23c5fe4bf2405ed2fb3b35b0f551631bb56def749d0be); (0,
  0x57d9439c3077bd75dc6918f89cea600f1182b64ca111c1c48fc3f8675c94542,
  0x16a1e092baa66a9943320552ab17e4295eccca0a8a71f870de26435bac3a8354,
  0x1e864bbbe9bd05ccb1e28194a69c307cac6f9d1c4ef28d75d3ddb1d509cc9d87,
  0x628c62dbb1ef4c7ee95224d866af37998415f1e4a800b413f85bb0e201c45574, 0, 0,
  -0x6a8f148512552c4f48038529da51b1365ad0d319b030f6ddd161f397f3fe5312,
  -0xceb72b6021f2569e49576b1decedf4440c5b45d395a3674c661be65ccd581cd); (0,
  0x55808ec1f709d0210ac361d83916a641a06e430cf473ccfc382995d898cdb244,
  0x2bbce1bc3860a8b37a61c8897b261dd428ed8a9df273faf64c8fd60f591bca0c,
  0x3c4ac8afb32d5cde2bcda26dab76e917b41bf7ec4dabc27bee2133348827e7,
  0x40071eaeb48f4c2298e52a46d1a51f5cd0f75fc3a2b9f42886e708c455fff00, 0, 0,
  0x1df06efabfbc574d75752006de3ea58af7220643ba3f15f3af849ab66fab8cbc,
  -0x104eee68c8f2de7d44fa8ee22fa65e7a5068fc17e61d0abfc2de4040383b27a9); (0,
  0xee06076dc753b6d8fc1acc77283b74bcb76deabaae2da88d7f5712b81d99c80,
  0x761434fed78a22c8d4683ba8501b1d7da5cbb1db4029a9cfbe2b3025bbb5cfad,
  0x391d3eb7bf3e9e16c089d83cef2a0d6cdfe296d1a6c5619379fc1b18f4f59798,
  0xef1fe631cdf5841ab4c980bad7d03dc726fda0cc03bb3359c1919c2ca6f883d, 0, 0,
  -0x33775fd6dcd83efa41a8c45308648c2554b3f47e26398a7217741365e34b3260,
  -0x374ae6e323a7fd316c93e95e375470424123f8a9bf98943832fc1bd69cc31fc8); (0,
  0x4aa35fc0a85b57e8f8b88070cd61363b4cc9c8ef8087ef2fa8b577956d1454c6,
  0xb6280f2806a0be7ac2936ded8690fe18c79904d7dc7e99821d4b5adf7379253,
  0x1ba9e6be8eff85fc3e6d4f3496b46e64c6de8ec05374352010764666ae7e0c5,
  0x6ced44e682fb15ce39d26a1e5a7ca1076a73c58456b396be9013b23aee2306bf, 0, 0,
  -0xb96b28c26d46df8cd474f9ff183e6908e3df09e56beeb541f7a10e0021dee0e,
  -0x26b3cafe98ca94509f9d521ebc12a457a9f08c392b2712c269f0dccae3a47b4); (-1,
  0x3e8e57035abe0d96886576e67f24917505e08b7b0e4eb74a25c8d56d9e04688,
  0x21691b4c8cac8d358f5fa7f290efe060ed70da69b6115e4a6819ad2a181856bf,
  0x3727e714036a94f96802976543c1dd4455fda16194f445193c3c2e8f89bc3312,
  0x91b9a5b99ee6fec89ba924be0540cb47061403dfe3987ace7dd5e24c5c60ea8,
  0x2bd71f8e5b34587d5285aef83d30c343fbd76bfeb9de3179571b749b3a6fe7d3,
  0x22abbf2c7e9cc167c03c05e72a9419dbab4a9ec85298a3d2a90e67c1aee4b987,
  -0x42050251d2692528f7f17d4ef55e6af5a62df01c27209fb817896623b35d5095,
  -0x11faec150caec3e3d11de1deb85df81b2caaf3d637b84a01af5dfd994b263cad); (0,
  0x4acc82cb5e92b91f82c217862682c01ec660ecf28220e922273f5889c17a7d5,
  0x29206e869ceceed15eeaa51787064050c585bc180ff42d255c916435303059ee,
  0x1e9282948a800248d5d68e13751d4ed9bf2ac30fe254abf3c114632fde538e,
  0x8b8886247f23d07bce131207e7de52d7bbad3781a9bd3305437e549b4bc5827, 0, 0,
  -0x1dcaf992c03d1895bb6aead4aedf27445aaf263502699a6b652e5f3b7969834,
  -0x1931c4730d0a3ed6a0d8f13812af28305d96000d44f26c81f8defbffb124e4c); (0,
  0x4e9a60cd9e9f8c3f0a907bb3bc7426e50a9cd7addd108fad597f690a18c15851,
  0x38902ae0463e1d7ef7ea7a68821c0860a4d56cabcad26451f8636b9072cd5901,
  0x2bb5bdfc933d74f2caec8f80bb3985b14e9ec255ada3027bbb09d5e97d26a1,
  0xd36cf05df462abe146ce5485e4b80c44d03ff5e1db5dc7f2e910e08ebba9542, 0, 0,
  0x97ecdf996c0193660a6208daa0845ba982639cd30dc4ad97d65f79bd04fb45a,
  -0x8fea324590bfbcd89c8b5ba3a4a111ff54006d2599094ef6c70652d47dfd15a); (0,
  0x6322eeaeaf468d0529d560dcca892487f20cbf6ab8cfc6dfa9b30a1591ff630,
  0x5a167b071abdc96dd330f98f082302c7e74df929242b764b39b90043c1bbc8a3,
  0x3044e02bd14ddb147a8ff54deee1d3ca1bedee00adbb3c3d38b891ec7f633d77,
  0x18fec7e4c4711ca039e9982beaf2f0e24a1c08b1d4826248c8f255878144e29e, 0, 0,
  -0x44e16d7cc34d8c4c9312c7581f82e6dea6f7e06b6af535e2c2b088f327d17c3a,
  -0x88f58ea3972af709dd8945b9a1ecf077d022ce6c4b0ea0d2206c4d3f7dfd602); (0,
  0x23b84307532a01cff4269254477608e574eed7fb3cf40c78756fc913f83e5439,
  0x7b1371642111e64e13b004a1e2c82202042cbae18ba21ddcadb0d4f6ebf3df0a,
  0x4cc812bec100c9d2bbb1f5493252bd6f6e63c7b400ad6d26c8c48e191a8560,
  0x3f67a0f4be4bbc496034c4e6d8b112be307daec485b7d09ad0b677a26f9f2ac6, 0, 0,
  0x9461e6f2e16acacbface9d84bd8bb612a612dd4a8d792bcb8d9752632376a4f,
  -0x3e01672646b0195b9d5294c058229c76642fcbdb93fb2c9a29b45e0ace857bc9); (-1,
  0x38b134fcb2edcab14185bba354a60604e140d8f943881c570611d622154c2a75,
  0x1a683ec8479e69fc479bbb93bba4d7f52469c7b35e5060e8a91040c08564705e,
  0x1a65654b9c5d7a962240b7f2be77dbffe45d61f451395c3f66b3bf89c1788c51,
  0x6275f4501a74b83e76266a1b1bd34e680356fbe7a2e817e3be2710c5898fe5a2,
  0x2a1168caac098c49d0d79183089e1254ab5d4a574dc56880cb84d4035832870a,
  0x2d7b6743f943c4f18ab279daed52b3d7dc4f9d6c8c08c00114980f6c46acf75f,
  -0x470bf97a562650ec707e79efd3a82c4af08fa267feedb3ed228093103b03a30a,
  -0x1694e5d4dc8c3623d07c1ddf685157cd7a339d14d6dc760f314090445432bf70); (0,
  0x6db79d4b001f4031c020618cf2815d977a4875e0ec42eadfd8e0d3f40b9ba4ae,
  0xc277166834fbf50c3a3f59f302695df43509a3d809155095f18812ba5d721a1,
  0x191c03b1bd5e2f4262ab6eb75869e9afa9176826ab41d87fc7506e9d046ed6d6,
  0x572ae678157fb3c24d5bca556b092512f6114054b9f272436367cfa86673942, 0, 0,
  -0x35d4fa88ff95b3eb85d274f33595d9bbffc41cd01fa12644e29456c6f83ae162,
  0x35f3da415df1e7bd441c4281afdc031988dc763c15f236a9998be921c7b7086); (0,
  0x45997974317248bb37daad58ae6012f4be854f783c828af1e0d942e976c6a6ea,
  0x79da8f28ff1410729c2c806fd139b054472c2123f5b8d92bf0ace67d5a9e660d,
  0x5e0bbf483ff3baef1791cff8c994b484fd949b5d75f360169d338a47aa16fa1d,
  0x127716ab78e4a6a557ee565671d6e4e1ed81832e2ba15eb6ae02ba57012bdd2, 0, 0,
  -0x13e3b5280f61ffc581727286236b48130402542f7138bfb74ead49be2ce7ba34,
  -0x1a8484781711eda5fc1e2bb7eb4d265b2e27904d2278e1230fa9f65687156b4); (1,
  0x7341492b8354245f542a6dc9c8913663c8575acabe4605b1e2aefab35c461a64,
  0x5bff9cf301b351c5870758a56f25c2e2abdeea48a408c19f089ed77b07c266e,
  0x122ac7057fff0afa2826d16605db8881bc24263f7af44fba8f9e0e24d484f053,
  0x617ba5ba65a9a6c2168a0059742e26a9d289b41cc493e0eff3bd8531154b84d7,
  0x32603ca4f3257b0dc019ccc9f86a3697a4226abb7940cd836952a144dc245a03,
  0x96e3ac2fcad9fd4ce0ff6a6b46c2a6ea8d5afadedda3195f1ece177bb7ac094,
  0xd8ac27475bd98619ca59a72f510db0ee1ce6a54b40b4fb1e97c6d4108816d52,
  -0x50a47a5790b824d946715a576d81ad91f17f73ea9a37021228931aa203aaaa8); (0,
  0x70d44826161013e32eef939f09b8535c38c95d1e13b5da623aa0b5bc03050506,
  0x2741cbbdf0cdd67c13d47d6c6a91e971bcd44dfb1e4fd849dbf45841a1d52ada,
  0x67c770c6aa004366f8d1562deecbc44f10637bd70b130e44e93a8f96ff1b7d7f,
  0x421f719d9f17e03c37362eed03f75442db9d6ad81d97b2119cadab42d7282e, 0, 0,
  0x44d9517cfe33b46de941c5e4d60ca9d249790fb02138178eac68e8eaad4c604e,
  -0x1b8ebd322420b217df919fab9b74c6aad5321b24eae4f60dec0cd301259cbed5); (0,
  0x372954122a05fef57cb2eaee17185832f91a14d0f5ec8ef2fe2a22e6541fd016,
  0x10bcca34f9b5a72af529b51756011bff26cbc0fdec4bb027e0891a442a933242,
  0x6374de51cd701c36a667a87bc82a719de5f848d752aff7158122ef54aa8a0522,
  0xc0a39f9eff391693b4dc4e1b79722312effd12409324776e4b77c94cdb4044b, 0, 0,
  -0x43c3f8165aa6edce88bf13f82fc98409ca275b3ee9f3aa246d44b536fd00a89e,
  -0x7014d9785929fb27b49ffa19c50e8804fc4739d7e144c55e466aaeafe290d5); (0,
  0x2137bffd5fa5cef5b73642ea41b779eb1433ed050d4713fa510f9d5f3bdb0de3,
  0x2beda1b2f29ab1bf89eed599cb03b6e1b00fab72fb0bb6745ab5f42d9e70e267,
  0x17c59197aef7ecae0a8b7cd203e58e8745df6006f4ad1d4ae1fe18ae145926ba,
  0x2304900797a3977edd7c0ab61277951e68df728925d41a41edcd16675611293, 0, 0,
  -0x7ff00afae3fb9a3d52699f8aec9e798ea02f13004ed2c2912ce8e1ae9450143,
  -0x880c9062bba24d4d23181408e2b172a2e4f296f1bb46571995b7858d2798106); (-1,
  0x30dba84f0cd132775194b4a25926320b2b0c5f120204d8e9545d70d764fbb206,
  0x1bc931a5b331adbfb5516736e78c6ee74639a8379f95208cc44233f1438ab76,
  0x188c128812ef4e5fedbbb7efe8d0b146981b22416895620268a0194f7b281904,
  0x2324815bf5488e32d4bf1147d59c924e2672ef8f2f3c91f6aef7f68ae5271b85,
  0x2ca70ee31319a1017cd20a16e933253c370ae7401d52a628212613086853d52d,
  0x27e09c35591cc47a9cb6566d32cd29d6627cc6f5be8d33c7b8d795745d8c3ca2,
  -0x2eadb72c3c7c698b8cdf77b2368ebf76cd4ec145f4154b1c3eab2e0a81a6c0cb,
  -0x707212e59923c5c4d498b05841aa713f3780c64ba563c62a8c634bf7aa88e6); (0,
  0x44987df38f8a506ca81878c40461a23415d958f4f116f1f666a9dfd0617c8290,
  0x525618acec7d466cf74856a317edd906f8a177cac55b5fed5aa1bbaecbe27d3e,
  0x12a6372e156c74292576c1202cf6c91851838b6dbdcbbfbb315dccac758f3ef8,
  0x6081d2fe74171058e8b89813cc26aeb1b5ec933976435ea7522d8d38ef261, 0, 0,
  -0x747bd5ace9403a33a1705de0a9c66a4c9bd8067951e298759755db2b7c30fb8,
  0x725b22c65bdd786df3884f972f0aef52eec088aae6331bda3002e09769dc18b); (0,
  0x567c281163625fc06276e3b75fea4870c4f3077ca5ef80dd6fdc51dcbc8afd1f,
  0x7c9fe8d294d9748be92c38f17e898ccbb2b20612851621ae12c599a70a3c6518,
  0x24c2bb7e66e761c03bde70758364d5fd63e1160ad47755e25af7363d0576cff8,
  0x34f68986bc200cde7f458816982428f2f5dc93e6c3dbf695292c57b11f319db7, 0, 0,
  -0x39fa12feda951b8348ec6e406262b60d052019fe5b8a7a0aae66588223fb1cf5,
  -0x2b9f21da209cfd7898f24490821b1dbec598d46d190dbad4a3c85cc0630d9ded); (1,
  0x73b891cf6aacfe4dc349b12dee1c922b9b46379cf7a37b7d449d413ada8cf8f4,
  0x7b6434341cb7cd466a595ed763e9d68138c2511762b27292dfbe83356bcf2b2c,
  0x16931938d641a9986463cfc25cab1d8d7e69d8682ea66a0349616608bbcaebbe,
  0x63b320a877145d3cba89c727986e0a3c8ef4d1a86a781af1a89e1485a1c9ea7a,
  0x1c901264dec8d8a90699ccd57ee14b7334ba7dcf04e75852d21c0046e5cc9bcf,
  0x47a6648625c332c8961e11b4e86be2a3f41c155c42830c9308a214be43e64b9f,
  -0x474e70b149ddb1898df418ee19aefc2a2992117783bacf75617055deab3f3924,
  -0x206d653971aa076d00595804bb5556200a5fe3f8426d6d776b63845a3df9901a); (0,
  0x4bfc09b54eafae269ba23c38d88917098399f19420521c1d738fa65d66f0d904,
  0x4419c9f6112fcfc327c7abc3e56ca5a63433fda629d0867952ead1cd3d715c67,
  0x689eb0248e1ac81a2b0fff30b958ba9c4b8d8c0d295b7b24274ded116f92ec77,
  0x76f2e2c5cde88a40c4fb5f4637507a3b08c35426ba71e61acc349a0f79aee3c4, 0, 0,
  -0xb945b64c1b168b4619b69a56efc65cfe849723a775050478b0c0839255431594,
  -0x21e932bddb331a8a63e8287c4a842d45d35f4c53d4eb36daebe9320895927724); (0,
  0x397af7e4941f3e1114556184cc4ae0008d953dc0dd47c4f4e6f22f5956a1cc75,
  0x535d909fb69460b9a8480c5626305e2e5f5caf994d2602c20072b1a96b2bd5e4,
  0x2d1b4ba6b2d833b4641bedd0e10fddc9b3424388b98c0d92b6d7e5bfe3b0a53b,
  0x243b6bc7950a2a70bd15f49af655226b9b55837427ef4ab7f4ba12d008443468, 0, 0,
  -0x674831d920b19839829a4f63cf6be2ac3c4267314369d049ee6a16ad6b24eca0,
  0x20877ca4b245dbbfb743cd8e35f0fb5d7535a13f94d7cedec3262c7b978902c6); (0,
  0x7ae9b9a9f72e8d1d2aa980e8f0031d4ac05637633e69a127b1cc5a56c741ee14,
  0x6fb8d66d1cf13775124476ef36d41ce14ca267f51157f2cefa3fb9c7b293986d,
  0x19cffae9ffbbf2ae74ea1c15cd03e49cb78882c3bdce568ebde78278162d89b4,
  0x364b9bf3ec45df23cab69fa1c27047c796f51f1c120acad19ce36a4312eb542c, 0, 0,
  -0x89177752e04ebc78771cbfd856070cdec5bc96e315b26d9d3a86b4f1e38388ec,
  0x388dc04e1b1553bf4175695076348b1a5e528ffffea809e2a77f87a179a69956); (-1,
  0x60051e4ec009063630d4adc5c6f1c217f700f727238a23bb0ede6aa1f0620199,
  0x34a1ea6c5bb7c5def25d7d83f8aa47811c9e984aa00ed7667db2bbc487bdb6b1,
  0x5ad46f6bdb27c138d65959d320679821e64049acd190739665d4b4efa7a48cdc,
  0x5960ab8a7d8dc5f741d05f25c5767d810a1b865da7798f0bfb662e395ba946be,
  0x4281b589b6398ab3897c666b48c1c9b1a10c1d86bdf7e9617d25ab5e1ab355,
  0x1ba3a08112966391bc67a9588de31d97571a7fe63827ceccc63474c082f4efa7,
  -0xb375a713dfbb4b775ff71b2ea5253b112db8130fc67c86bfdeff0687399797cc,
  -0xc8c5971cfdfbcb7f123e3250c226968d23042d8bac625829433de21897e0cf); (0,
  0x35c4fdb323d7e4248eb79d49777e83c92d23b826f2e98e5031a23b6d087b6ef4,
  0x41fe8ce1af6165da3bb0094453fba24e07b75ccba7a17997f7b1ba7b155b0cd0,
  0x4807adaa8561a47d2b7ee17ae4f0bf11e103d54e1837537a1ccc8259e52e58f2,
  0x15a45b4970709625dd130cbbc6b1f27bcd521bde85f6d5041388e90e60a5bcea, 0, 0,
  -0x488ef2c64200e4fc6838d97b26b3cdd080fa0547878e3acbe61e376140ccda3a,
  -0x7dd0796fade711367803cab10e1fdf26a750ce01bc6074b708e84c7a0fa885e); (0,
  0x5995676cc7a0c8260403a3ec98d7288bcf5f7a4d5acf447f53d5d2a9d42c80c6,
  0x23860e3a66be2dc0fbd8c1f41ee2e103276d3b10dd19c26221c5f72b4e4a1208,
  0x169651434523b280b1e137e58ac330281f30eb79d5f51e71c4dd61452f034d08,
  0x2206814cf0de338e703fbe7682a295db347e1e465cc0c287bd647943c8c04c4d, 0, 0,
  -0x43888a7f134987074df49072e7e9581f181e9ca9430ece5283824595b79dc0be,
  0x4cb24afb1b3631f08c761cb56c9995d7aff9a6994888a8c7546e2af923b887d); (-1,
  0x413f444956f853d03335648cb9aab6921484014a39b712cd574efd1531e409e0,
  0x6bb6e8b184f1294bc2611301aa68ea4bd20a184a23b3f9c45d793b956a140b68,
  0x42333fd4a13cb24cdac11b6b3bfce4a082f3326a42c739939acec537f5cca0a9,
  0x1c6b3e951efe8b00c97a34c34be8b40285f0fc0d7dae351b4e37f8ef71d4db39,
  0x4d64d96ca3891b3e708606d8c1733ae8769aad17724d17cb8b703bfd8078a24b,
  0x6b5ee8fb2a27118cec15bdce7490927ea7f3cd7f4221b65dd57c77e86d7edf8,
  -0x451d70de6833477578ec073b1317c437897a1ea619cccfc0856b7add8545a1e8,
  -0x2f8ccf9749d9764bd76e1ee5784288c5b8f50be61958b6b10dfdd48df41c7fd0); (0,
  0x551f2b301dd81a389059ce3a12490b83d8590267f39125bf376c9103c42ea852,
  0x583d79475cec36cd4906fc09f81db5c86b78da150637c882ef6e6df458cb5fa1,
  0x2142609fd8f3e7ff3c5904f5cd4bde53b88c7f0e98510b978cce0de788e46504,
  0x5aa4d2682a19b6f4832711841e857e84c91cf90ff0280b3457b6d1b7869daeb8, 0, 0,
  -0x878e185d7273b351bc391547550632526adeada08df5bab6587b509fdb87c728,
  0x1aaf433918976d2841ca35f35b040e69e56b1c925845ee7564b99d76b4be3b7a); (0,
  0x7f109f0b2785f910f68f491fcb4cc465684e11b1827c903b875667d13da95e8e,
  0x9b7e9121de628d4d0b4a08229cec966954ed5a913071825feeea21060889c08,
  0x389b6cf2e183dda36dc43587c40282b13b25638e4ff9577d7c849cafe74e4eed,
  0x3cd4a4482ab26ff6713161b56c599d55f5908497a9461f9986d73ba32a6f4df8, 0, 0,
  -0x6e4d438ed7c89ef702c8f8e1a4bf0d6681736e802b42d0f45305791ad7199060,
  -0x8a3bb6169ad37bad25b567d4f829a7a7738f6462ea4f915e4b0b58194a67f4); (-1,
  0x6a9eb9ab75e3aabd8bd21bfa246ce1e1bb598826469899de07d45d5be9e3df5e,
  0x42f6a437f88165a3c2803a64148544f81e78564c81a59c0ecb6964ad7bfde2ae,
  0x5de5e3fa8bc1fd8264ec628ebc35529e370fe3110f6d022fd5d05eb5907be54c,
  0x7c6540e7e51ba43da2a1a01bb0bd452110bde20dc05aceb325881a6b3a07cd3,
  0x70b787ae3a0413ba479955c5a8fc96d3c120f7b1b4f160e6964f4feb5d101ff,
  0x20053301a99c4aa2a32bbba78515345c66af9a344ed3482c3d5504f5c68d051d,
  -0x326d239d07fa310e545fa9f4965b023d86c57c0dcd719f2e82151b27479cdf02,
  -0x24aedfc1f8e95470f83f67e3384bbeb1c86caffa5a0b5de8209dfa4f366ac85d); (0,
  0x28dea5b653a8874341aed397c2f47f0e9f4e8db796628257f92a4a613a4dec75,
  0xb5a5f41eb97504950630df1cc279904813319781798c75b73e3269b123d4ef9,
  0x58cfa85767dea34af5f110bb4bc8b105b4c5d3749ee1b8b0ff0977d427c4d539,
  0x23083499c21827749424c0e522251f267fe9eb7477c648e3b6beaebe5fe89967, 0, 0,
  -0x695205fd311285afc576c6a06cb2702738c2af50bea1556b6dfaa487e073352e,
  -0x1bb7fb74bf4b93eca46459a5314f7e9c7146a42282699b076ec21b7ab1210d0); (0,
  0x241fd8625768d336c5b2859ece0269dc744edc4f9be6f2a152b363c938292e77,
  0x67b74adb92343107a0e770761d62e63d08d730d97f4aaab4d7a507e2d7a4fe9a,
  0xd0caad99b449883d50094952b9d30ea8767abb8f4e4d6bccd6a2825a70d1610,
  0x101c82d90154a3d1362bd26aaec29fc88e9e8f546da659585ff2c009850ef1b, 0, 0,
  -0xdd563298d598bc8d35f8996ecf1475f932cc9a355355f1673a52c5f5f4b9237,
  0x12e6f14d463cd0af6e2f7d77da3badfe3558be6b78d5be46217475d99dcb8ecb); (1,
  0x3bdd014718f452f4209c19e01ce853ef790c29e777761c32740c4bd8b8473ab0,
  0x4b8c93c1892e32b7cc609986d9457d947cb624e55764b819b246aa19a83b4461,
  0x96de76210f70d0db22deffb81b29c7fcc3791d924f0d0028f2cd0f38b6f661b,
  0x52f908afa829c0d2e71f8d2b4ab584fda0ac271465d5555d7950d31bdfb73215,
  0x22e6e48397defc24b27e1cd82828999f70189092a91dc9bd589246a9a96642e5,
  0x2627ba198d07fa31b0b7331b1c1048337afa26fd8c6c24ebb14093d5b174f51f,
  -0x31a883cc678529b60fa58a67823f201290b392c0f843b629aaeb616202ef449c,
  -0x7f7c6c817974dbea996ed0ebcba0eb9050a67cb6631cf205aec94562dc34cc2); (0,
  0x770ed36ad2ef729e9d18ad2e591e65a4dbb314bfd8cf7ab049a4b5369e294e5d,
  0x32fa706eb6b1faa9fbef15e9cecaef808c5e47e8f11d1ce23b700de6f23fd42b,
  0x1bff3ac3f486ac090645cbb296d7acf15b6ffc316532169e2cb3f1035e5279f8,
  0x2c97578aaeade434b464582a0b3bba89ad7778446b963250380966ca3f459d8f, 0, 0,
  -0x8a801f59beb3a6beb3d3d4678517a77394d20590c551b932633e2c80f050e0ca,
  0x1d0ba112802bc7f3f126e56cc5a15a9ba841d2c057a1307f2f8f096be5eec676); (0,
  0x76a6458926ca913816782f1a3f424facb74e121de492ac5d7dfa6d72bef3f3c8,
  0x164090bb3d82cf586cc84760c475d2cb5083082c203fd5f7ab5327e39fa35377,
  0x6ebd92d23cc5e61424e074107e1a92ffedba18e9c50c0ba719f2d7ed3b1ac15a,
  0x144d91d611f6d28a72264c643992b0f72b382b14a8333fac788939d624bd1a77, 0, 0,
  -0x25f10f7868737826322c6ec151867232f82db7c0f2f35c83121576b72b2bdc9e,
  -0xaab7e32d2394b349a8ef80da7cfcd658df551983ab6d6a378dd6f509865f9e8); (-1,
  0x63cac90776f618122f044b0cbab2eaba4adfdbdb34be41488a509467e30a3b65,
  0x568fcb9e2a88bf20c1baa6f4adfd2a6e9e376f41b918d853e6749c26936ae65e,
  0x57ade064466f790bb9e2cb73697a22240e89c7ebf47018a35a8701247440f75d,
  0x11cd4095cacf0c46bd6d05e70391756f739c0689b36644c622a8ecb6194f75f8,
  0x1a416648a5330cf58b73638d1d41a6283f5e8a2510477eca749d251b15ff730a,
  0x167de425686820d1835e7cacb8d118907dc08c0816acf6eea531de79b97bc6d6,
  -0x4b4b33b040ffa19f5d6fb7d1cb8c1233b3a99bc023de9df6aa91dc1de6c99224,
  -0x1f499f3be07a5e5ea35ed6b9ece608db394c76f468f7c1c50d296b846fb38e9d); (0,
  0x63afc3260d633fedf83ad71541ed8926c75eaa83c7ea70314a9e5f070e88a19b,
  0x6ce04d15e30fc7c2c0127a5b0ffcf0eebcf3f1f19b1df3f7e9ae26eaa3bf584e,
  0x4dccf03b474d98046f325cd14241aea23457e383c6c9a901018a11b3300ed972,
  0x3a89db26c2773cb9df79bc44e4ff2b5a66471f5c8efb9895c3e12ca6532571cb, 0, 0,
  -0x7433eff221d569ca5cd4816e9a6461e671c62f8061d8f87fac362917b62d9eb2,
  -0x147fb23834b81324822fdbdb17d0388eddcbe2d8fd25bb6376df2e73f0fb9b8c); (0,
  0x3ec578ba3ed413c5d621b5fade20bcbc68fe1b0438c02bfea02009390c2563b2,
  0x46d1cf2e3ad33763a435b0f2fef03baf50a37637ee89e7c396e6cc2c7e60a37b,
  0x4da2d337a2481e6145cb412904d618a3f2a2ec819c975e9e56739802b6605cac,
  0x5c9c0b22ea31b140de0d449bf59fc4d42a09a9144312de26fedf331f250a2c5b, 0, 0,
  -0x95972d53905393bc54062be26d8c23412f0b8627d4a22e648f7edfe4dc927734,
  -0x168f18d0f8a50e088c9928ddf062521d99eb7ab949bfd0ddbab447514879b4b4); (-1,
  0x66d729896eee90b4b256708d50bbe2ba54e92aca741ff1634b6715b51bf313b8,
  0x5bbe8edb8f98d5ed8031069799fc0e65d93c3d3bf4475e79ddca1cc775f905d,
  0x2e62f6ba04a7e8f08f6841ae71ff61aad031e64f5f38ae9b04ed031106104131,
  0x38a7d8f1c8a8f91c835e2728cbf362f2a6e92b5ff207ec9c78b8a356cb8082c9,
  0x1dfc5a3baee6a9ee96eee944e0df558735fb108cc4103c86665843bc29218c42,
  0x3dbda6299c41d1194cdcc7670d925559bc2c2f1a8fdf3731bec589d56a982e9,
  -0x476699f3653b9f8e20e4ac23bad4667fdbeb5e1ead3cac0bcd4c00880494a7cd,
  -0x1bca105690084b7a2d159d7490b25ae13e2a6f9cea9bd91efff13acb3201b79); (0,
  0x46ed181fa9c14c7ad6f26af9d8a6f3840369eab60751da48e07669441e427e88,
  0x3159da64986c457fdc9a558811e02f916c3c1419e2ec7a77692bb9aa03eea812,
  0x52a053e09ff77eaec6c62829ca9d71fe49d3dfa76a8eb3e48174a8be731fbca0,
  0x41c20ed0eb703d21e6157886b36e9ba87dadcd0d2848f928b3ca3dac5f5cf5, 0, 0,
  0x259ddc40fdb94cc69cf20e5f2927f4fdcbe146e7e70537682a6ff6364d8c2150,
  -0x2095c732a97dc256241bb0eab887c474531ee3ee1d6559b138ff9fd652a88934); (0,
  0x708ac5959efa659b950fd201d9d0dd1b0500720050201eaf649138e5414a076c,
  0x35ce4b8c44cf204403dbdcb41ea0e409dd8d2ae186f7e2fa34325950a3f920a9,
  0x274d098dfb77f2f3296dccad9f711183146b23041a82b3b81bed083b24b7a939,
  0x13070a482d35d206361e8ff69cd4cad03028778220b5a5c2d8ca756d78debb68, 0, 0,
  -0x56fe9376f5709deffd7514b27360c443260af18631ecadb3129cb824b0b90e04,
  0xf7198bd6d8c011ba69246af117e51949d76f9f9d715ca4fbddf9eb82e98013a); (0,
  0x4bcb5fe2d71d9b1d24270b76cd89ece9aec968750ad5286dc875bc3cf3533577,
  0x3628ed54d02e5dfb64d0327c29ed40ab476e047ce4fa7ac02586ccbc75a214db,
  0x62f3703911d439fb0180a3591cd364ab9e265797c999814854d503df50d4636f,
  0x169e230b810ffbc1920229344cedec4cf598c4770b5818bfd4f1e210c101135c, 0, 0,
  -0x61b90c729519497c736a607e9cd0f622ba342469c1facd18ca9b68ecc5deafb0,
  0x2385676e732aec0c3729659e11251d543cd1f0ee63aa0a9185c9928740557ec); (0,
  0x63f263b8a78463d91d6b36e9dbe4499ffad5687c9e7f0dc45310224b10e4ffbd,
  0x57522c241c319711600da8563792e34a86220a1f9559bbfdf41b46e0d1610bcc,
  0x2ce197803f6d4cff231ce9c81f368e2120bd4e4008958b26d35074cd249ceb23,
  0x16ea95559cb587651da7ba3c7686c70694fadff7d4eeb27c83366f1785f791e4, 0, 0,
  -0x5a4a3d1df05b80f7fe56520480bada95b5ea98fe222a6487ff7751323d94fdb7,
  0x16d886c40f5b80b81937ae2fc1036d9c2158512ad1404be905bdb51c3da1ced9); (0,
  0x15def7d3220773cf17caa0acb3cc1592a0a3b31a9ae0c32119b23f6609f59678,
  0x13eac586b39d40545275d33b9a1b989c179b72f043312898e49d2671aab0c404,
  0x4e0abd43030ae490a8c7fd88980ff3ca4a7dcf3efe26643d7557a1f27705d258,
  0x3b91e8c1b3d0667726cc5372430b5cf763e8a76516e0b47399dd3bea10fdbe4d, 0, 0,
  -0x836d1cd25d50032dad0c5b6358310214b9b08b0f833b43bd848259f041590088,
  -0x47fb9d7ea582353a0a90f5aabc03f1c00a04b7fc897f47275f9fe22f5c368c8); (0,
  0x3a7ab5d0456fd731ba66658fbe73219dd5e3049211b65cfa0f95f354b521a9e4,
  0xf8aa4214d8d1b29eb9b07bba973c12806495b5e821bbbcb3a571fac21c1970d,
  0x3bcadb6cb5aaf70a6ba081f8e448f9bbc561beddda76b78654e966c780c2c23,
  0x319613f62a494ad541548fd1e61bf33117bebee2e713ec0f4c7a4d42964d3ac, 0, 0,
  0x169b4daacdf616c2ee47f3058503f017e47758cab0825fe794ca2a6947f6407c,
  -0x7d11cde5050a7ac0c62b2f71d166cf5f9f70e58a19a85268dea85bc1740195a); (0,
  0x75ac8909bf1e224f29732dcda6c64471cfc2c0480a9332a5ab6262f3e4e74293,
  0x3cce4b3e3043fbf4dc7807940f5911dd415445864106e12c8815af37d8d2995e,
  0x1ab7aa6856320f79657719bd839ecc50919e159b3dd245e796db8fa75dbf7d84,
  0x1e314a28871aa0426f629afb5b2b5d4b7fd9b9f46ca190a1d63a591df08f898, 0, 0,
  -0xec5ec20ef914388590f7b10e20d966be28acdc49ab755a7bbc097c1cd8c585d,
  0x4bb0e2bea14a1c2ac441d89314aedd5b0c2f4e453f2ef5c72f5e3396072bfd); (1,
  0x6952a974608d177fc8f5f3d942c430bf0faa89d6987b88db8e179a51379e0e6c,
  0x14d095f1bc87afb8f11379e4cb0b560c174344bdc6f5d81364890fdafbe6c993,
  0x1eb735446e5a4f39c492caf35bdffb1aa8b8654b0f8f408773884ff7c2d4ffe0,
  0x30a508fe8d032ff716c66c7672ada7e434436ad1cd9f1a8a0677bf5fe0a87ab1,
  0x293a58eefb358dc01c043bfb3e019c1a8273e7daff1df60ab1ca3aef36e37849,
  0xdf29e19eb3190c504f74b00ea654bdd162ab627ad74ddd01a72bc29aa49a949,
  -0x177a08604bcca79a60e42a1e1d660723ee304f7b520af36fd2d9699880a473b0,
  -0x111a03671bacf31fc0550cc39f97151f8ffe19338a23fbc7f8d5887cbbcfc63c); (0,
  0x7487802e30ac2b30020f70a04150ebd6d5da18997e7841b2efeb3ff1ed6cba91,
  0x74430345ab7d848361a1ae5dd131cce5b499237b4eaaa8d6f20c24ef666f0ab3,
  0x56a9d364ebd8e8179c09443c0ce330dc84d287689e5b4b4d2ea79885f42fd707,
  0x36282c38c35b359ce20ff15aba9938bbbf9cb6ae29a5ec445b65c3f162f635b, 0, 0,
  -0x133176f409af3963937b5a5c5510144d92501f171315f4904eba30b0ff1c9d4f,
  -0xf06c75623825508b44a2a60c00f9dcb52fbaba9b23b524d4d85b99456b252a8); (0,
  0x5e917a9fdede4806681bc041b0e45569bcf7251e5c74e8139d2dcd9c6596af2,
  0x45fc91eba1ba3fe32cfe20527b179a7a994ea367f8faa02dd1ff4b68a17bbb59,
  0x6a1627c49a032b7581a16b4c85e9595271926e90168ffead7efc1b084947029b,
  0x69999903b3d8718a85ca20a9ce83d4598a52317720bfd735bc317620653d2b77, 0, 0,
  -0xd2b67048216fe657c5a5f7bcb555f0819995ec2047bba6eae57fbf13e62c5746,
  -0xb8671c907ae2705c1de6741d043050b634f4047a482dfc5a1b5598645a6b552); (0,
  0x3b8aea1b5309dd6eb30d30bf3596a4578ee6a37dd4a42fd4c7f0fdbc844dbc95,
  0x3c0c9a72fd4f9b40deb5f19f42318bb32d39b9bc09992c4c455c5fd67ed2bafe,
  0x45de51731704f1e985005377d3f397c39c378d44c505dd74735c00943955b7,
  0x26443fb14083266b17fc034a7120ec931f070cfeceac4d5720172f2769cc6f43, 0, 0,
  0x877880095bc08510289d66e70817032bf6fe8979a2f2a1b79285419f7295f85,
  -0xf0eadc676b545ba978fc40f39738ac76be8567143a006de5039d8c63356bc19); (1,
  0xd47f14c8c132ef07b48fa44bf77800c9a711992cfdcf161d5b75fe915911ae5,
  0x6b51fc6e8c2bf539b9c06d3f057263f1ee1ccaa6ddeae7f4fb3236f74bc26441,
  0xf8ac1d03723e6a4c23280f43a339445605c5269710014f6a7f5853749ea7ba1,
  0x300a1528caa615cd7ef7f47f6827a2f5bdc7c7c9a14756a36ab04cab98a89598,
  0x1ddb19861a2f58df7e30fd338f8fb6177cf3a0bddaf3e10f9797f2908c4c576a,
  0x3542e1c5d9fe146d674eae623319c55e79beb35015157322487c4d70ada23e24,
  -0x331f39c7e190bdb4645cbb25d5bee7a448cee12671275df49157ceb5b5b5b07d,
  -0x62798b25b7902c986ecd432544b585e88e0410bb7fae8f7992371a2e00e3c182); (0,
  0x432a126d4d4634439e01606c5667acbcb3ef0fd1d966149e325d9e30bc542ca4,
  0x22bc7a01c7367c8d225e31a32809a7f9b2e1c2dae1b580960039e0cb6d2a2934,
  0x160c5730441b81018a6df2ade879ac1e4fa68cc8c16f05f4c9f4c35099e1e55,
  0x59fb468c40168d057a3dcc5370aedf031fd5ae2b7b9583ba5336b6dc14c8f8f3, 0, 0,
  0x12dbbb0df2af1fd92660323ee741215b7283e4e59a874e3fca7136f29bb818b6,
  -0x15456db8fe46b29b7032cd0ec16a66c49c9ced6b8388b8a6b38433dd5303ddba); (0,
  0x2b5fb5ddd21b1cae59e1ff994944c1a4fe17256aa02c974d58b053e07647a145,
  0x79d648e277e566c254f8442a869ec17b8071e46c526184439cb0c8ebd5c615f7,
  0x233e191e87474fda9eb3c6d4c8697b4c52a33855a84e3cbc99f182a1600899b1,
  0x96d3657cb5985ff09297d40fbc6787e8ff39abe879e2a42359b3a700629f04d, 0, 0,
  -0x1d1c3d27c8fa3706c6eccd7c5e979eb67b0ad95ac3fcea32e744b0445b70f7ac,
  -0x14a0a7315c013f7f45ccaf63379f7baca31413a4f506470d0381fc50c9b6e238); (1,
  0x59c6f017317b5c92d911e80a50c3f0679abf6012f8bdc7242d69d29945022f7d,
  0x14201c0944159fce224285741be9b0f830e9cfc954e11de9e17bfa06d5d6b75e,
  0xb5253fa863d63ea333efa56c4521f8e1f8e65567926e26c497cf598b2e95d45,
  0x61783a4ec6511f01dd9369bb9ee56796005b1d23751ad03616f3d3efde381193,
  0x12aee9809e821bc0bb47d8eb85883f6dbf3fbba7c1525bf7db50d14233592bf,
  0x6ba58ee405820ab2502dce067ea27d84dc2378fd082304b6561c6c692268f1d,
  -0x3093b147aa6567476d57ae3534fc8ea3f390d7c59aefdcb9634bf17c2d23ac64,
  -0x404a59a23ef6e5a1f4dcfdc4ee369200df9fd1d6e29134a827f5166b64837fa); (0,
  0x7ba8934af60249eeb75675e7d9da7c5f80a0f5e7499478c280b95a963312a253,
  0x5b83cd21bd6ba4246912982b0d982afabf3ddb847c69561631d159acf841da8a,
  0x3ef7db10cae7a02512c952a1fc2f0fa7d7d7ecbc650b9c94fce5e3c604a274c1,
  0x32a10d0f00cdb357ef190632a11e162f041ef6405f16b917c8b7c879d7a767b, 0, 0,
  0x1d6fe9fdcf0b58dc6ca8d95126a2f9bbcc7c3fa001d101dce497d03bcd68d7b,
  -0x1641246d4494797fe0b8e551b20a8421b0f98da3b982cf1a1fec585969af0183); (0,
  0x6cee12f7db88c47df206528d7d756d6a57d3c080f228da43fcc4eddff37121d,
  0x79457595d3eb114cff1b5c55ac445b0352f1877107f1393e06c27c30b6f02cf,
  0x7776d9175f10850c684202e5b4f2b73c0b6d2418924d2dc8eafc9bf59f8604ae,
  0x416def632322e1594d830103321c7a63901145568222e3b1aa92748ab364147c, 0, 0,
  -0xab75949733f89b068f8c74edc134c726510d356d4d415c6f828cbf169219a777,
  -0x5f84df0cf57bdf492c5daedb8fb2d8b57e7066edf6bbc577b5a216d2898b178); (-1,
  0x3d38b1c0c66f51874e7fd89fe5a9c1fcfc236680c0afbf9d461a20404ca6d81f,
  0x6a557a5fecdb3472a824ed6bbd1c8e73e159e6a2b59fe9f805a5039a1b808746,
  0x507f281fb65667fe44b19ff5c99e08af4264dd7ff0c9b7fefb65d69c67401bc,
  0x61045e117655a770cc15e377bd037c02a8c13927398dc764d2353026f8c023f,
  0x1d06ba447216cef76f99c4bf8eb55205336dce9530d12fe11d2eaa74878981b7,
  0x486643176171add45cf985c0c1ec5741aa1d6947f336626c9a04445dea751f30,
  0x24813bd554c0e93f3239ea56f35c440d5ce13e09527d2abd87fb2c672e87c2e,
  -0x1726a3ef05208721331cadadb795f9ed5cd8d5085a19fb2c1e2786bdd729bf6a); (0,
  0x93fbbfa99f64dc86cb4205e79c0b3efbd7144cc369d8b740c298bb94120e7df,
  0x7db56a89ccd1a70bd28f0aaa384b91ee26baa9321128324b4a66dc432a15822c,
  0x1d4822883ca8023cac461a653ae852954f471f2d503af6fad346aa46a8376786,
  0x5855cbc3dcb0c564b66aadca19915b745aa8616e9587c83cef8f7aaf45e2425b, 0, 0,
  -0x6c1836fefdddb4640e344b33748f46742ebeccf97ffacd38aba4c0029c5eeb3e,
  0x56ad04b50cafe29d6b9992d4d316a4bec8d1fab538adf0c9ba97d5b5447df4c8); (0,
  0x249381815e4b1cba475fda1c544f5845a8f4115a73a124eac6c0f319a926fe59,
  0x3a03adcf9dacfab38be8536b09881ca3170c9220b3469476b55c08c6a289b5f1,
  0xab162b5c6655e28f2a764a61d63e24897e37defc9a292a71d4700532e8ac5d,
  0x7b755534ca6d8ac479e1a3444efbf7fdb6b99f3b3fc955375ed9b5a4381331d5, 0, 0,
  -0x132e45c5d3df7743c5af87785e92a005089e4a1718976d9587c534d57abf8f8d,
  0x19bb77aae07fe8a39c0be13d5109b80a13b63eadc440928e7bc14e9cc8d1864); (0,
  0x6ae7e7952c5dce7537db7571a53051740dfaf89d4da25b4201912dc9278615de,
  0x16f2d16d2759ca1e6937a253c1d101dbc89ef93eeb2b638a5ebe74337add37b4,
  0xa73a2d4bd36197e7ec5b87342e5fdee87b5eae75df6b34d64c4a6d6f991699b,
  0x1a4b559f38a4ae46ca988e298f5733ac15c91e537a22ac2027d44e5a7deaa51b, 0, 0,
  -0x531f5d8d95367449cbc40c66a04ba6c4ca062bc2f64a6314b76095785d1873fa,
  0xab9da5453deebecbf04d4daf833d0cf07f5888f09184dba89a7c7af4bf1f424); (1,
  0x442e2f62615a0c22c0e7d0330454971deaf757631f1df5f41c0e9b0813e2fc57,
  0x636d0a672bbb798c049b8db554b83b31b9acfa188b44ca6a60fb975eb3be8751,
  0x1be7a9bb295cd1235cca649202b019fe44be4f3762188baa7084182df11b3296,
  0x125bdabdb914a1b1edc61b7634a734afd3b260ff22891c6eb231f68f957dc629,
  0x4adba51cd27a205f8fa96424263615385dde9bdefbf18d6a5875b284a92aa0f0,
  0x132e74a4c031d009c355f112c53ddf0ed0986d19b7a9030e2c5d6297083e7165,
  -0x4c3f43b5faed36223aa77c01b82c54a57ad29f67f1e91df3c032d81a5f91867e,
  -0x1643b62f1ca2325e9bbe9dbe0b9195edfa1c550dccd19a72cbebb22a1250d1e9); (0,
  0x40a282a7b2c6d5a504dcb3b73b4f52a172170efac67558854db5cb9d65235d16,
  0x54f62c56e6b515929537cccaf3ff8404f41c29b7e3d8a2c9318b2fb90b9651b0,
  0x24512302a7b030b922c7c87337866dce56e099516a7746c9adab02c07b934249,
  0x4d3b08fb5034ed4d553efe713bfef5feecc16f4ee8ff5e36c997aa1a4b6b4ec6, 0, 0,
  -0x62b97c86e7967c7e215f1a54e1bc3c3b5c9e54b7865b625cd391daefc39b3c64,
  -0x9757117fa31196ef62c65277a7e9f92e535e037c1d1bd69cd7afab22665d5db); (0,
  0x6ebdecbbe51d0aefbecb59de5f5cc3863b4544005ea3d756b4d11f4dd2914bd7,
  0x34418d57da796627a30c5ebcc6b0df06882d3c283bf7796e9bc4e263a0fea402,
  0x20a350faf0a0dbcb290fe5e870b37d9128b3ef250203f1fbf5be97fe9143c6e8,
  0x3864f3a48c306df77144548a3a913e7d6cd62ab88005b58d372e94626a16a020, 0, 0,
  -0x34c7a62526ee312b7c41be14701f9d7d6df1eb41d81d07f583a9dd3308b3bf34,
  -0xf955577cb5539432b5cdbde571e2c71d28681440168c890de5c37adafcb7d00); (-1,
  0x3926bf21cba647fde8367602f0ff38c251405dd90cf2172dc4bf877511294a43,
  0x74df064c09cac0feaccd1f1a52e21605469caa26ce0bfa95367df75b52399425,
  0x51d5ee77e33a78df1afab0286e3313e6e1abbe6b4bc5b285664ea09d41d7f323,
  0x29ce0aacaec784ec82704bca388d7f386cf0fcecfcc5fabee303e84fb3fee99b,
  0x3b7f2ff8c9f42f6055c14fd9194c17c1fe04491d44a1d0e1ee6dfbcc1731c80d,
  0xf2f172076f9f1ac4f019d20572dd50948f8cdc71918bcb21cee4fc78de7a833,
  -0x4ab69b7e4120260a59048e8ca00cc34d67b630c5eda2a3ab5f635e35905c3daf,
  -0x6b5a08eaa02cbea990ce3028331be89806091df2ff651608ce3df62b6789e45a); (0,
  0x69636b156dfb45574cefce501c97412f1bd9a32637fe427c32aeeb0900cc4666,
  0x325b718ee3a989dc2143836aaf2aaac8045df1be322e4c7ab29aaec1ff03c3c1,
  0x19848df4b2d7e789662b85bb3444b7ae2840a87114303f5c53de2f16ea82514b,
  0x6ab5c001c300ea5cb432b6069b8e3b9ddc50fd439735556a36eb69bbe6e9007b, 0, 0,
  -0x8b4b5276e626326965fb28e6d2ebcd09d2b52c5f564f8a5f19b894b76443ddd6,
  0x10b0ae62358cab1e139b20dc67eda8cee2d646f85e39fded7db74c20c04bdf06); (0,
  0x56ac2f28cb88eb654ee053238535e1811813791d23d0c7481ff2e86f8af419d9,
  0x76200ea57cc69ae334d8625b0d22d96f140dd73f2f986350b2365b753a759060,
  0x56c568e7272c35e90a25060f856c855b42b7608ec4e4ea6d7d1ce2a86f3a548a,
  0x13cfb20b7dc7123e0b7acb569a1c563f650ea168ddbdc2c70ffbfb34bda3fbd6, 0, 0,
  -0x846fe89a6a67fd82aeeaafa7fba0ff80b522641f9c0779e3505dd49e7a5177df,
  0x437b87a70b6cb864935140cbcea107a534b68c9c94eae1bffc54042c27931427); (0,
  0x25fb7eb9993f0be9b5ef8641dd843f65354f8a61d26f2b12f016266929b12f31,
  0x490fe8962f6ebfa75dfd14b3baf430e1ae9d51b73450086c69feb60e22ce937,
  0x3ab046fda082fec1c857ccf07215e60e087926dd37f8b9175a4b0bd4b066e9c1,
  0x6d03230872799a1ff694671cc1db5665e709c3e76cf931e16548513f569a3da7, 0, 0,
  -0xa3777f25d55aa48fb49c952342ee6e48d7dac55060348e74a16eb7433ea04b4b,
  0x6b8de60583b384fc9cca4901abcf27833bd76c021ce3b5827cda51cbcd28a6); (1,
  0x929f162dcf05bd2839aba720511f9582695f78c733ddcc18cce68fad2a80665,
  0x64128e9f5f6c29a46b1a1ade069e07b46e9c078d4468f85d32e28540559f6f0,
  0x9ea0f3ec0c0af6610e7e3793cb20a1275bed40f46d4f3f402d476abb7b01dfc,
  0x3a73207825f232ec4b30dd5c9590271af2177492904006bd219891a4e8a542c,
  0x1eca9be9fcd0ec4a381f0204508c65aae9ed5160ac556b3e5af3392a87aa4f9,
  0x21d8fe91b775d2af639a1bc2af3faac3a1596424b229dc499b0d30ae15bf4353,
  -0x1c73ae5825f71aa3e359814398bb564bdd652a4b237f4e7f3c260da33c9822ab,
  -0x2223058847ce72524f81d6066553fc9aacad4b2ada34c27f817ceae00d46bb2); (0,
  0x18f66433715df6c5169f7d9f85ab6f8fea2f35af42a20417a3ad674eea062de8,
  0x55517c0bb6163ef58175f146271885be0911b1e9e7cdbfdc71857613c9fadadf,
  0xa7f3b0519deb39548b623fe074b2bf0d79b1b17906ef0eb0aa6fdb64f52be2,
  0x4e3d0189c0d639a3f1d614a4db3bca81977cdee50077a4f41c0692a1438687, 0, 0,
  -0x4e4fc9a35796d479da0fff7c4876ebac5c8ee65ae3addce00b86830953a94b0,
  0xdaaf376a11fe0e2a2a32969a803f7d0ef3ad2bc709f0e67d0aae9d7274f4240); (0,
  0x17302fa32d80e2df1730184cd0c5b7cb5ffcdf80a05b3300d9e161039742738a,
  0x195cb50aa8d4c61809735976d5b9441533512f7adc1948c59c1939ff4a5b788a,
  0x4de3fdcbeaf7385fae7893c58c0a8c21187ff047cd316b8b52b9636c157e8f0,
  0x38de6c9f04deb1a3277e41a537f7036eaf5d1319bc0b24e6f4a08f091dcc1613, 0, 0,
  -0x2aa23d1508e8ab3c142943dfa714673a303988f581e90c6777a14957b4d4e65c,
  0xa3bc5639a131eb4d7ec046d73e01b454737b8a1bfd311632f9c780b50b2b0ee); (-1,
  0x16c4caaffd215bdedfb2243cecee12a353eff2b64a1bbe9e558693b6b2757505,
  0x57d1b65ed43756b07762d5ecc68aa569d793c0bcc2b30a2a34f6925ab3a90e42,
  0x1122b3e5552bcd8c69848f747ecf10a578884d0bc76a594da20c3b2fb67f5f78,
  0x144a2a6eed7704e0078f7ac577c769aa8f7425fbe3476d6ae347619908492d3b,
  0x1c5133bac0b99dd38747326589fdbe79f7fd54612da6598e670c35a59852a4c0,
  0x19f371495ef8455fe9bc6bcfe54b09ba67b7bf5a70e4eb3a9beaaa2049af30dd,
  -0x1b3bd400f8f45f56abc6952ac74e0bde6d96254474b959202bf76e634e67bd7c,
  -0x26cc1c0309b8ce39a6b06383a16df2294df491f84642405a530a597149547b23); (0,
  0x5c06c7e88d0b85a578c4af131e5a384ae2afb95989cd94a16ddbed32aff746da,
  0x4bf6905e70d4136517cc308490826686feb00b26fb0509a2436f6799f33b6463,
  0x40cd43a7aef16a75d36dd5886aacb26cb4550a58f8319492f24a041f85e742a,
  0x3c406b7f79fe304d6a34c75626746f43a87b341914106a34cecfbb5282c77ed2, 0, 0,
  -0x4b62b9e5acac7ce8165bc23e624df8ff6e9f6c05fdc7aa941cd33711cf35a69e,
  0x247011acbbd502df3bf3309fd5f3c23567c7f5ee590c09ace3125293465140dc); (0,
  0x298018a61f967b6ff22127beaea95b04642d09c240c3302757a56d697dc528a9,
  0x12a64c93fbc71bb71dbbd637d8b4a5c2570fc3c00c91628797390688255c428,
  0x4229bfba40c486421ddc6cef50d3697639f7cd9b909a006203eb6e1a8909a8a2,
  0x2d14cc223a0ef9704b0b350d636a496ad4a30bb3b59fe62e5c2833610b2018e8, 0, 0,
  -0x6e79c064ef7b7add5bec3c3050fa49bd31083b5c071228d43acbb00d4f46ecc1,
  0x8f794470142b50d4a5319d51f8be941d75f5513d680c5ecf5765e9b983821); (1,
  0x7ea9dd8c6eec859f500b5a73dfdeaa73e360b4487e59d1eb78b60c3a2cf3936d,
  0x750f204980a75d94747bdd36a8e715dfe5a2867cda5c80b4833c4d1eceed552e,
  0xad52335c294593a926043b5a899695a3b0b7a8840b2b85b2d1f208d26ed7193,
  0xeeb70766305afc5b16311c646f6eb01df3fcfccd6dab53945c7386ceab0353,
  0x66a7fbab8edcdf1d88188b87e895b55bd9bf9f6d285ce2481b373cec87afd5f,
  0x27b130ae73da15d8657ee5126a882d19a42e44cc9df71fce2c50b7219c63834b,
  0x5657fb6a928dbe9a7a836e10a5fcca91e50abcfd7a9156333ca3129b03965ad2,
  -0x6ec2b41389755dd200e9dd3c25d479dfa7bd926893c677230d8d632cbbf31dfc); (0,
  0x66f242c7b5371371f0b7a8c2d55cbb84e7cc3914e7009c4a28419f9d2524efe5,
  0x162c584f9c65ed317ea6449da312cba2655901d568d484b005671033d587b6da,
  0x7d574d9900ae18be41345fac60700c0a37a3ca2f5f7c4f48c7ace2a0f8a88a73,
  0x6b0da8cff89108d642be4b01ee3bc406f51eb189ec3e976c85c5040aeb351ecd, 0, 0,
  -0x1462ddc5cdc2219b81300f4aaf4c3c8a86c8a0d2d2f9f27b83c4f97026131d63b,
  0x145aec46d3d96033aa90455313d92e15667d779ae68d783b41d4bfeb63b3b371); (0,
  0x4a77ee4a439242155b3fb380e6eea18191f03808aa1c35e5085938a641ec0a8f,
  0x52889d2e49c717360559c0513c6d41828180324413ab90487e40eac43f7b0a38,
  0x52cbe4f2eecc29b66256bca37b82bb57479d4539d1f33c0446af4b40333e4c10,
  0x3d74db8516c382c089dd474fe5e8782a6a68f4a39a338ea55dc297343848735, 0, 0,
  -0x2266a0ca16a62b7d9d6d7d0e5546ce32f4890411067c4c61c9df71d8f52ea0e6,
  -0x167114cba14389e70d4d098d8fac93d2ae2287d0cd33e12e25ea86e74b9fe4c); (1,
  0x369f39610f82a97c7bbe8cf156e3f3147f48979f0ca99869cf2bc6ea7ff12380,
  0x24748573f0a8b771f8e33e5cc51d5a1e159f041d424a537f97e733e500941265,
  0x137021b67015898280a45da33c6b050a346bd77047b73070116ea29b7c6ced36,
  0x4206e42507d278f80447cd0dc9f1013534668e9cdc894039fe9a5569cc626e93,
  0x3d2f2e45b4999e31263382cab6093664f1a1fd61d542e3f9169a5091239412c4,
  0x190680204e988d52200ad490a2844435d6522e0ae0c4f63841a97925b8b8fb73,
  -0x32651272da8a3451738f346a179d65d445ee2a087de79a2a6201ca2409d41c38,
  -0x148141d1998263ca974107d4261e2397a1e8a8d76e3afdcacadc225518ed45b9); (0,
  0x51c2f14c9fcf503730948bf6ebcba5289e90eee1a463896118f0d722052c3f6d,
  0x171edf5a09ae5fde88f13d1925aaeaa45cb12f483af998ac57c3ffeed67823f3,
  0x174f1e7a8bf18307fc89184d5d7ff67e27e1c048248c6a16d4158e63337cacd2,
  0xa61f523a4a6721f6b6ef746a45c67bc24e6190559675f4f413c2ae44e168038, 0, 0,
  -0x19e2f5ac0c6419170e6e425c0c19248d292522f16d3a2652c8e374893a3c7e15,
  -0x17a601b597a54838d503334a4343107fe4d748316d4648bc88c626dcd33d30a); (0,
  0x2db10d6d1540f59c652a6c10f481e4b27b36f3583db43d1a417f0ea21075ef30,
  0x721ff6c8df778ae40bddba68decf84cc78297c166e4aa7c1798d1a190070de7a,
  0x3439e24a31698598388cb2f497d3c42a8d0ec4497f596d2ab778f774b83aaa77,
  0x42d1fb6936b2d421d848c2b0988b1ace3f3e776e1ed5a15de25064721a19a08, 0, 0,
  -0x1f7fc21d23b1b4417775d0eb7bce57a73224d6472a5ca7721dbb47afa5517716,
  0x4e68190d5798bb7600a2665648b2d203747892365b81d4b26f13366f349dc43); (-1,
  0x75a250fe0aec43f6f720215b9a271b37fa8a5b909163f3bce861283931f3705d,
  0x7e29da0cba4a6893fd5e48b4a06bfadac037aacf1947bc7977d48ab2cbe3a224,
  0x21c3d927a56fae942b7f87c225b5cc77431a203fbbc3cd2a329f30c518fb1bc0,
  0x5b4cc56d7f92d5833cb161ed7f0c6a3d2cedfcdebea21fcdfad74814005a4b95,
  0x57a80995cfe3bf92f8b5ece2662e7cc2a6b5f7b79a812faf46361aad2c22be0,
  0xb439a9c1d6ae1d7ed586cf9f595d6b86d4d7f8341de695f14fca198957d3f2a,
  -0x43183f1a17361bb5d29e8730b10101605353f1f75724a79456c1c42977025727,
  -0x39b1d7c58e379af3aa7e47147b4b7b631c3c066f3dace564100cf7d79b5a4bcf); (0,
  0x2e8f8b4a7db61db9cf102284718c46325df751b0dfaab3fca2d1296879e9c07,
  0x539f3b2905c543ed18af1cbaf61313914f0685e3043135e06ddc736220de2711,
  0x6c1b89e5a243182634795616304747e29e59cfb029190dac16094afe7853cf0b,
  0x7c5a72f8325d315fcaec0d8231c85e7d6497b20586ad3f26f3a32e53deb6edd0, 0, 0,
  -0xe74da7ed34b8fbe57a6b7ee4643ae924863d09b0af9c9dad22f08d6d1c06a696,
  -0x10ee2cdcdc72f964078596c8a5039a8dd56cc7c8e9797cb173f9f3e04824a276); (0,
  0xfc6567077efc9553eaaf93142c43cc9a948e4caa5393504b4ff951877317adb,
  0x6d6cc717829408e1c22d1c39d276cd7d4e72859d9af02c2c96e821a7c433cc26,
  0x10efcd175c5fbca95696e2963ee1b07afe61219e451207941d65e5f39ffd5a,
  0x36a146ce48be08a3ca4d1c44d6106dac13c2f0512b908107a0b2c21809c8a6ce, 0, 0,
  -0x3c702f5fd0436536aac00c434e0a23a4ad3200debe24289cef957186d397892,
  -0x2c244d5ca625ade73aedc9c17b2295bf2979e7ea327c01f4ba63115bcdb51e); (0,
  0x2c302ca49aebab2742742a649fa55bb54fffbe3fd57547f7c0e3fbef57cca786,
  0x6bd243669ae05ffbbd7d93670f3179a72c8cd96b5d6275b8930149c7461514fa,
  0x1f1af96026ec50364f6704b7da4b4b05924924400b43a09a8e59930852c441b,
  0x5d8b9f8537bb974539b306574519ddbf609a2cf3cfc6321f461680dcf81b98bf, 0, 0,
  0x570e533f5260f02d747e23b80a29226dfb6e3ed1f7960f908a255968c13469e,
  -0x4f164f982b940971404681b8017c53e4acb13eff79c42f3fb00a837538a6c181); (-1,
  0x4ed6c2cba2b42b67a03ade50c551ce59f1b53bfddd02ca8c156e33d4a0141e83,
  0x7f822f1a849c0585e0a5478469d66d333fa0d9dafdca03c41782c6c42cdb518c,
  0x20a76eb01ac98d1cc3cdece8bb96146559be16ebc5bcc804bd7a38ebd48caf6a,
  0x5641cf8548b37ffc9797a91f3f5ac7b8f070adef7de85e2d42676e3904ddaa62,
  0x1d23d161b7a1b12db4f6902490d8f127d0582e5c8e0daa294bb13346a1004fe7,
  0x4688c25d1fc50878c07a40c00310acb0b2a8a3e8b6357dcca1772e4a6f56117f,
  -0x4cb1cc6ba2cede341747ca9568ae0d70d5311847d1dcfa594bd69abbae1b9603,
  -0x3dff745362db7226f0313509aa52beb6fbd033931444e49420180e2e1cb1db32); (0,
  0x2cf3886f6a491a82908fb5c7f1f70ca17af6b3c3693c68a7983ca594a46807f1,
  0x7736f811343ba794b09358937c0c4f248f81ad982f5794827b8708cd4529060e,
  0x308f25bcafa6288073a459a4eaed17335fa19eeb7ea1018306c0e7156d44653a,
  0x7f04d9e05e5876c1de8b6292408c3fb6b208f1a39bd44771200e33eed05cf573, 0, 0,
  -0x8a8cca018c2a619c0099b3299c67e3cc420c49d1ee6aea39b15cc7b253367d7e,
  -0x311f846510eb35bc429e22567f32b9b94580ccaea958f60a364870cdbe906cb0); (0,
  0x6f14406fe8b1e547c8f1c25311160d24b3626b6c500fd9bcc56fee9ac0cabc64,
  0x3f89a9583eddb8c4144ef006276d0c72854e705bf853ed8397789b9cfcf0155c,
  0xfc93d253186f2a0728059ec46e5308ec6d12727284d6e008a41ee233f5ad4cd,
  0x6f084cdb2c65aaa4fc5038b4fd67beaea7d4cb96fa04ebec6e0fdb8d2096c89b, 0, 0,
  -0x6743ab91f14c23254304a65120c6db4ef66744b40126e4101f03c6aa83ac16e8,
  0xb2c29366f6cd38b72480bffebcd6dd871f031f2cb2f9a31c79274344ebd8a0b); (1,
  0x724ea8bbff62206c1ccfe535fc6af2887c4722b36e58c9624f32a94607fb3653,
  0x6aa88d140059b0a9c18d3707edd3e645227cdc3abc1e19a04479c9bdd91c9854,
  0x1cfe86ce0ea25b2e08aa2f76bc7c3557ceac8ddc6128afbf2bba5d632153cef8,
  0x32d48779cbe493d0103f266b52bda38ed10b8d166043246945fa161730c01116,
  0x6280174dc66a84df651d804c2efe07777d4db90ffd2fd02cc64b96982c0b3107,
  0x4176e704d8612f4d366a4ef0d6320ff2b8406a88ce9153522e14831fea6f8716,
  -0x31ca8b882e6d8bf3f37b3b7e1abb577baae6602ee5d6add859fafdd32c85f2ca,
  -0x33eec252813874f2c07c323822023b1904340ea3050fc060f7671b0cc7e8b89a); (0,
  0x13207bbcc88a17aaf51f1e6e1af6e237bc2af0b809c30e0f56d3816abf48065b,
  0x150883b2757de888e3e1b01421da4092c4f1db4f9d7b29efe241fcf31b6ffd87,
  0x66144ce562749bd7dc713995dd187003a527cae2f392be792eb7fe033330d6b2,
  0x58e0079c10938bee9b6b6825cffac9d73c0fe97b7137cf6a244464f912caaa15, 0, 0,
  -0xc073fc765857398bcdbd28a43334ded63fa6391c6b139ca99eb4a50b5098b658,
  0x2269143ae4d5acac0af8d42fe33f0f21b55ca3873d56270e6973928a12fd810); (0,
  0x472f3e7aa658b85d43d710ecddc9f2c80c2d976ff2f516c512e69ccce0429859,
  0x5cef714e79179fdfffd20e06800d48970b975a901240fb775aaeb0030f812bc,
  0x2dbacfa618b2bea4b9200d10bf5e4792865abc6d4c2968194b9bf5e9b626c4c,
  0x374cbc78c5c4156e5e2221c70213ce9c6f049cb40d194a19236f7dd1bc77c93, 0, 0,
  -0x1b5e849f8042c368e43792fcbdec79c5f49620b1234f1b783d125e663febead9,
  0x1b867d6ef48bceda44d17fd78e118ef74e6cd8ca0eef8867ac17b682c682fc9); (0,
  0x676f284d823c4a1e4eb2c4577ddc8cb5779a87002e79859aa795aa29827d382f,
  0x25a26a77c833080ecb1f79b4880c0d52490d866e00bbad1992f47d459c9b76fc,
  0x27967ac0111bdc5abfa88fe9501c26a352ab06ed359bc98e232637e9539443ca,
  0x4379f2ca536ae7f4c5de4fe41cf6f586478c73556c8359d460f15dca196194, 0, 0,
  0x1c7e2f426828b196c9aeda5ef06b9cc0e4f3fc6467cc88b8a151e86e77d47aa7,
  -0xcb7bf8ab5cbf35bc268247cf7954294551d32ace801537f56b944c2da10adeb); (0,
  0x2363c357cd6f1784d721e10daca6b985cadb393a7c55a5034b2459a7a6ffe007,
  0x3ce34d4e7b50d836726b8b535a6336f56169b9ed252b1b6cfd27e45066dc8088,
  0x53954564b0b7882e3696e2a2f7481d7aed64de6f527387a3abb5117d05f96c82,
  0xb10b3a3177f1580f03b637ce6c6b7b8fc6eeb7327849ecf2250b4cf6afbc40e, 0, 0,
  -0x429e138b1fdc23b847e8467256632962f171072e6abaf655743037bef268356f,
  0x9f80e0002347b9776ca72199e2c849ce9ad24608a4762fa205f75423b9de313); (0,
  0x4dfe52eab98fde86f16f9ea14297036db790a37d2b2ad94cc6658fe4e060f896,
  0x6ba4bc28812ce71dd938c20e036722871e5ed9af94092dd71dfc7befe764e769,
  0x9c8dc955a484ade0f863f4b9725c2ce42dff10811f31b140739827af240e735,
  0x1cf6ac1df4a9c9edf1d93ead7c414148c1d9491f1baabbffb9a1a0ffb061fa29, 0, 0,
  -0x14c708d0163b29d6258c58eb6083c3d3a1b58458dbf295cb84aac3393ef88b76,
  -0x11cac87caa6e73f0b8cf1c1784ac5a3f0f9dc642cd773ac1222f6dd583dbabac); (-1,
  0x672c47a61797e935586c2bbc86ad8a4685342712998af340572e0a6a5892359e,
  0x2fc18e8822d89241a9e0a8ce1ca0cfff5d55343aa8dd2d0ed4cab6deb7c2214c,
  0x39a2a581d7c84f63b4ba75adc84743767ca4a4191a5963e611a8c2d0c818d9cd,
  0x561d63539a8a527e47609b3e691f4ed27eb247bfa9a0f178e4c9fcbfec50b921,
  0x20acb2e1b14de9ecdd8277c5cd5e28db94a5e654f235adf0ac28b04d86655072,
  0x2caecdf06527f11dad76d220cc0d124cfe0fc5813e0279e62a6160862c984d4b,
  -0x4e880c78327f2226753dc13a8a3c68d763e8b25eff37a07ee1db5dbf432f7dc9,
  -0x1d59bcc68d93785ac8c1f978897eb5564fc57f16b69d37c921c7f239e8e06548); (0,
  0x4fce5bb227bd1931b6a6769e65651897f196447542b4c741d7295ef834c00267,
  0x7e9f6014171f5fc8208911459dbe782ac61f9b5fbd198cb59bd0af29f488f28,
  0x532952a0b843cd73ec103d4fe1fa43529d782e8c262711294dd6f0d76b460398,
  0x11d1495c6ad6be9be0fa3e09057f10538b6514f97eb60a198e942093cd6aa10d, 0, 0,
  -0x77600e064c7793d787a3915a333c38b444f9866de1147eedc3b49ea0d97e527f,
  0x43414e1f38e1d899c6d44cef76eca4fa0418fa08f4b2caa0b65d381cd644c39); (0,
  0x4500c46668082ee2cc84a7a8790f78eb86c2ade91f4052fe6ae39a5bd373789a,
  0x556864f51cfb08b509a0c71a2ba0974e41d7887296374233aa169879fe1c54cc,
  0x31c205df502d9c39e79076e8b9b49aff2b637e7f8b15781b64b57230a8b720ff,
  0x7d428b98878d5c5a42e61bfc548e01f04cbf6d86dcd0248a4b05f2e65af30b, 0, 0,
  -0x1156b03b84fa466be706274c143612ce533283e1403cce9d9dba5e968058c64a,
  0x93f0641bc20b7bf4143401b44594b8db88a2e8aab3079aedb0f62725393d9f9); (-1,
  0x4380b746c20a99125f8362d3fa3d5c9f4c9d7e86640c32a7d973ed2f01a46b28,
  0x719a9003e52d3993e3496425766f752150476c80ecc32e1c09c0baebda82f7d3,
  0x32fdd994645712e64d21092795fd811b50bf0982615506912d023636374491ee,
  0x445383f74a626d5da14d6c14efb3ac3e9b12d38ede929b5c88121394cb49dd70,
  0x36fa006b5b3939359b1029f47f6165a5dba11d29d28f74c2c7381d3afad359c4,
  0x4cb6ed0f4f553017d2ea0549ce5682f4542321c4f21c74c75147b4fa0adb842d,
  -0x739e90850bccd881d8c1643e9a367b04baa87cab93aa2e07af44430971432a04,
  -0x48a1e798805da6121a7af72b330f66281ada00b936bd48216e655d0df93d4ae); (0,
  0x655591b5d298b9a74f6e84f7c6a06d55024bc4abf8ac2fbc9fa31e16a4f9d409,
  0x5819b94a245e4dbbe99b9519a10aa0507ceb6652eb0b2f4233a02fb4d7478e3d,
  0x2399414da713a765102ca8500baa0e2466e81e81890507e775b4c9dbed55f271,
  0x64d3a0ea0c0c123fc327d1bea72b8e787223abeb73e532e51fdc7248bd8c2ee8, 0, 0,
  -0x7648c482cdc1a5b50c670b147d851507b5803e8717496598ed1a13dc56148b4a,
  -0x156207330da5da2adabc10af06984cb2433dddbef5f2620cfd150bc85c05690); (0,
  0xa87a1be6eb2573ac6ecd5c9ff0877682a19a92ae140962e8906f3b12a3bf3e9,
  0x4cce80fe32a5dc424dadda1512e1c8e568c3aa178ac781183e139eb9635b8063,
  0x503943271bb3ab3b9299dd299fa02b7250308ca24df53f8059f98983c496c1c1,
  0x3ca363f15f305bcb6eaf8f8960efc9090b74a52805fcbada7502f717bbe42472, 0, 0,
  -0x8c8803a14cf55b78755b5b681a63c751c79fc35332f4cd9cb7a600c5187c7073,
  0x79189bac68b2a1878a7fdbf435c8b53c108189081efa8410d80341cba5efb7a); (0,
  0x6f81decd2d1c7a4e793dead29c42f4761fc121c8e364ea6fdf9a2afcb6523e8e,
  0x72dc916c6a909ec64fccc76b3cd948483371da42a5ed56587e22bffcbfb703a4,
  0xddc0fdbb5f879ad3aeee4cbbac714fca5bf5d9826477982f3a2ffc185bf6cf,
  0x2e168655905659888079a80e1b08b2aa2ddc2ff9a142f44bfca4ecfc4ffe07c4, 0, 0,
  0x2a380dc6b0250524c949efd33021e4a15f52bb9dd55564a691e43224f730371c,
  -0x388186f7ac6c5a01176a9bdb71296988a2bf90fe4290a7377da2d16afb054bf3); (-1,
  0x3fc42d1dc578fb470be8333c0a0c28c174578958cc0612be1e723a2955f001fa,
  0x1594a187c1f55ebe2760df470d49b1201a51badddc729d8560c7720ab121c870,
  0x5266bb103622308d527dca94d9dcae29bb6ac91460486c7c7331313710653097,
  0x5be3a789eeda189ea63d6c55ca476d068f8e4835518aab79fe823330995f361d,
  0x9771214cb919c36480633adaeb05be0f3f64e5df8c199a1db2b3085d9ee16af,
  0x105cd9f48fc355dfc9dd7d872a91d82ed5397ff404480561a7bbc3bbb1f471f,
  -0x75a3444db3f5ab296dab1b515f15a7a810483bfdeba7209b687111d04ff0840c,
  -0x131a97816214866525b71050b8cb71687acccd56bf32a6382509797dcaafc1be); (0,
  0x52ebcce638e343d8c62d073aeb28fd127cb4015ce583df5c0428850d13854ed5,
  0x5827e6a85b700fcabe143bd3367151996257355e3ef9bbc51c23a04007c7aaf,
  0x1fc449138976cfa13573b1ec6e2606d718491509270f71c89858c4e5522ba9b2,
  0x3a37196e16d1e6b0678d584cb7fe451c79bb050553675dab5e9f9da1c79efbf, 0, 0,
  -0x42adfcf247a3f270e51ba609632b565dc87be6f50d6e0ec2d1c22593484b42d5,
  0x3007a7d9f33289cbb074f6cc873ef8fcd7da4b1612fc8f4a1d9ecd7b02124c2); (0,
  0x328311710f4fb7e4374e61af0f01b4113f06478707a376344865f40d0e358428,
  0x36017a5ecfff82eb0417cb5812ea6be1b9938bfa3cbd527aea3bb5319c91a089,
  0x35b7d0ea9e3b84d3d028983238be74af12bc54b1adbab5050ffefbb7e01d6cf6,
  0x3cb6e997abf7b40b65236e7276b1417d9294111ac95da41d5f3f480a8740c3, 0, 0,
  -0x123353a1e6fd163526b29da7b13b83ef7f09e52747f8cd8bbd3f8ae6bd0b2816,
  0xbd3b3c739f84e185441dd31622293cbe918e42bc5edd37ab97b3c2223e7d13e); (1,
  0x228186ee051ff14e229513ae97e899bbbe33c3eeba62e25aa187da793bf7bc63,
  0x39af13cdc3e32d11a6c4f51df741f5696a1d8a54d741c6d47db65297ecd0e730,
  0xd2f4fa6552d035a238f69ac30fcee1d6c0f63e9c25f05a40a426172b7c52ff7,
  0x2b3461e57332cf2269aca2acdbeebcb494760994fd6441fbee962a8e16dae6d4,
  0xfaf6f8c64fc0b558240d71a8217d12d8239b6b49e36b73b767dad0947356905,
  0xd6ed7d0a45d5b59fb30c930c5ef7d5b753c518a78bf858a64f52ae2b8013744,
  -0x2f4e85992ffe712e86151d48655e3db1d6ab21b97f4d8bb3a16c6f1aab4ff4a8,
  -0xc092265f7359427540955644934471a8f5f395e147a570ee91c61cd180bbabd); (0,
  0x126ff0067107bd59d0bda2d954adcfb19be1ca45d169f90f3b24b0dffce5b635,
  0x1fdc65578c8cfef58cd7f54fc29250b0fe8c16eb55f575e4486fb632f956bb80,
  0x94d52c0f8b761e9d41660bbeba951803fe8ba6831532d7141ad7c6a8fee5042,
  0x19fedd1b6c2a564105a0c76d4866e96ed87a0778652a318d71a76b6ed10bd5c7, 0, 0,
  -0x1c1797d0e9246b6ef1c9630f6d26340d5ad1f5f3922fa7c1425ae8cf7a34cb1a,
  -0x532e4ececcc6684ab9844829a1b36306f71c9dd802df689fe7f207880962944); (0,
  0x56cef4beeb3de11659875735371548b600de8b9731d9e43dcaa87506596b7b3e,
  0x58946677980578b96c24485081813dc5717a301b171f0e2a1ddb736d45e09dd0,
  0x2a7dd65dd0e5eddad1598b0a7b32585115931ed2d95567e19dbd5055d56decf,
  0x7ee3c931543d5db88a7e2470233ec947553060f8144c36516493b495241ca12, 0, 0,
  -0x3902db8960cc7ab0ef98fc061266b95d747aef9757fc47271d580bfd1dc36500,
  0x30ceffdf9d573bcf9ef2d950049ea7eacd0c0f8c2cd27ee14301e076154d4544); (1,
  0x6702f32f39888210a4f3ea3e7106a9f120497864c6f5d0fa9ab6246c675411e3,
  0xdac231fdc87c98b65bb2bf068df003f43100ae917457f9d323654be9ca3053f,
  0x16a8b60cf0fd318b5b3bcadd5e11821a1748dadc9b8a1c38c67f834b18c7fdd1,
  0x46dd1ec6133793c789b6a040679a97d12794f348df4c0b54e4af8f8a9e4d4b0d,
  0x3b0f0be294c926ec407cd760182aa8cdd8b05f7a1e1b99a19fc0e683a31200a,
  0x31f7cca27b8fd3c3396fb34f955982f36bf1b88315703827244f4751f353a46f,
  -0x55958d1f5b674ce1e21425086a36f57a874bd842c6128baefba36dd8ddd8bd83,
  -0xed4cef00c75b848d79671c99dfa36812849f433f41caa75f872dd201e07279); (0,
  0x7e62c01adda07f2624af351e675f20702e7ac727341700d08cd6fae052acfa29,
  0x69bd849b7115f547141ad8143e87dc0bf393511dd8deb38f9fc77af8895dc1b,
  0x52e6bf716816dd7581f0908ecad0f0e09459ef7b5dd1d72592f25916ef14d0a9,
  0x175dea0e80fb666873c9bf61b2e465474c2e66de100dfa875ea16ba8359f545, 0, 0,
  -0x305f2863c7ddfaaea68347a0f6446ab3d36ef42ec5dfdc7ad71e6837476c2886,
  0x160ef2658f32436650c5cfcf7fe40552bc778129f8cac6baa0ff536355c9376); (0,
  0x468448a0c373376e835491646882a0887f67ba151f2f0a584a6938602f1a222e,
  0x17d0b1be13f62d8161dd47c786476550ab196add595967c922dd2be6faa3bda2,
  0x7ccab6642dc7f69ad10432b7ccf0d1993028e3d0670cf9b1da36370781bb10db,
  0x575a062929f3514281dcd43931e0defacef497888fa1eb4b3f451a05bae8ed, 0, 0,
  -0x207b1d744e3673580bcf1d27c68f61b1a9f1afd8ed9c2822482876ac8e79e30a,
  0x68fdfab3e1581d5a52872f7ab448d078d0d413e06a1bd132404e42893ca935e); (0,
  0x30a30be131d1087184d8cd69ec03d15ca0328370aef2c99c58a2cabb38925860,
  0x166788909e16ec61398dab2961c7eb3847ac35c94b45cdae9f8490f8afcfbc2e,
  0x26d93825ca8ec80e9c6bba13931ddcd2bbf069bf551d45414cf77f65b853d102,
  0x46e5422efbe21e67f776eb0e2b24f98a1ea421bc3428880b785b1e6c8b34280, 0, 0,
  -0x3385915b899bc658ff0d13ab90f76038a33b6d7bdadacd1b76d7c4fa32239758,
  0xba55818cad3da730862556731cb3a905a4ba944f6158b73d43e93534fb4740a); (0,
  0x3fa456c768f6e648059518150d0d76be768334d9fa66e79a0bb1d38199daa1b3,
  0x633e34bf42e6e2c37a1df31b85984367d3b63be6679cd030fa2440a5b435f5df,
  0x127b18992801e777c87983fb6542ba3d2e68048ffa563944f77df6650542a69b,
  0x3ebeab010ca417b0564638f36b778d3783f58850165d20f4370b518e583ac75, 0, 0,
  -0x639606ca4675eb822df4b0c2120f4e155c99ea7192eac67a2411e48c296c9b2,
  -0x10d846df78c3c0b048ba8cc135712f65b552902ecc4bb0c954c7da8e45eb4094); (0,
  0xb80a6075eb26dfcf5764e98d2dafea6e50dda7e8fe4c5373c448ba7f71b47e8,
  0x6c91ba8f426a755912c88b7dc8f9d7457a0ce15b18a530f3bd97e37e4e08e272,
  0x1fa4986ae5252f117944f3a7eef0972f4ecb1e8f892a594adeb1f5a656ba6e18,
  0x4cf257d30a827a977287edfcf262068aa828a9d2ca4701090362d046a337bcc0, 0, 0,
  -0x6348e3df4ce748edbfd707551d3cdbaf4bba73bb37c7e43dfcde38e5efe65f82,
  0x5a26da0ea3a8e1a8a4e31061261b9e3c51c2a147d0a18308d9193a8f8f28c5a); (0,
  0x29730489e1c13108a465119afab41c145a868b40eb7eb60bb1a1a14e59b5f2d9,
  0x25f0bcb5ba678c301599b2eba05bc9b765c58dba90f06e851a8fb83f2eb2b51b,
  0x1089dd62a5f2dcee2f670baf9438fd1f6c263ce73e5af418dc4d48ba503dda0,
  0x5c1690bb7c8f18941ae02cebbc192ec79f793efabb3aaae87c39bc3c94c39a8a, 0, 0,
  -0xbbd2ec376e440ca6051319f72740d606c74258663bede2660a8f1ec69dfcc86,
  -0x71da14bd9b6d5fbe5193ab6d3f553d2a7560e97a68093c8184e54ecd41e5d8a); (-1,
  0x6d47d364661f6e412d7cf52917118da4f22a87af1b094fc4250c15d605ab1813,
  0x55dc4e104fc060a1081adacc0b44077fc6f0c25ee6d61cb1028f6efaa4aa86e,
  0x1ea14b4380689c12be27ee95cf7e6df8ad9abd106bc955cfa9bc5396215f97d0,
  0x1e5a309161ec702677ae28bc80496e2c516ad7c873f38b9daed960328bc22a7c,
  0x189a4ad241da7422ea626ff8cd9864ae9035825c68ae3918f5656322d02d41aa,
  0x8369f834b236fa2a7517e69f940f26cf0b5d76fade8f612509ada2395bbdb4c,
  -0x1196d0b54f46ab84bc3dc52f97e3b764ff982b541cab7760883c133a752f65d8,
  -0x22430792164047d56f0cf1da07ec533df6c26a723c8f1f3550aec8463fcedb9); (0,
  0x537f3bb0b9794fa1eb06259328a3e6dd71cdb8c1561d6d44c1b89838a988c549,
  0x51a7947ecf49ae54f6dbd4c2320b083adf19f71d434256e3178c9968232cff95,
  0x5d4c7c54de6c2214d3dc8f68a76b5b973ef350622a9bfc9dbe0546fca316c370,
  0x399812da319988e89fdc8972cfc841f023e6d8afcf780970e362370b3a8cbf, 0, 0,
  -0x26bfd479e53400e452d2c29673ee646370cc4191dfcc30dd43a2588a1ee979cc,
  0x1ceefb3bce04fd5d8347c1a085dd55f3384516bb7d2c161474f41c60e4202c88); (0,
  0x60ffa6c622060170cc0a9116550f0ce828bfedf8fb3df956edfa5da5b1299624,
  0x2b030129342ad64944ad5a1adbb75799af86140c140d62b13ea94f3c0e257311,
  0x36777fe1bf0f3efaf1dfb8062f4cf9f717a70191065cab773ed295ce505039d8,
  0x3416f356a583e1e23a068b4be3a44bae5325c9ce742906b2a60298179b2ddedf, 0, 0,
  -0x87b1f82977108727660f0e0b78e2e8502e37c428c515932b5bd2d9465987717e,
  0xceec1ad7d7e6f50a0d481ccc3066cd154a6ba22c78f215ca3169f6db74bdc1e); (-1,
  0x72ae998b572929f5fd20ba2adfd10c7afbc9bbe9d0d93cf8cfa51130afe990f6,
  0x1a17d98da7bd9ac5fb755c2cf8fb2b36735a9264b9ef1043ad4d065381dc693e,
  0x47ae0283e342feba7233cd2b4e082120690e6a0d2d48b32be7713c66eef462ab,
  0x2268cdba902245076a2448157c92ac7af2d1a9a3433de88dcbbaa5c9a4eac274,
  0x79dd034f52b7ab723c322bd22aad17ac48c67408d70270accc97e6ea45fb695,
  0x2a9dafc3d95c49c93540a77335bc440af69f50d1cc5381a024cb427344563091,
  -0x6a100915e12c0c3b2f01a56ce71dd57fe128b417c131be7ba0ffd8954ef7e739,
  -0xc16f0c449fc5fe3072f9f28e00832a0707bcfe00f5b225b294c60ef78f1927); (0,
  0x306ad5575ae1e840c8d3df2438a96bd29617e302bf0cb269412f64c0b859c3e0,
  0x70bc44e7a355558547bffef8b575aa3b8b9aa81ae3c89c30c6b22103079919ac,
  0x66bfefaa5e45feb630bbb241d6cfc7b253901aee055ee9c997e4c43012d4f728,
  0x551b4d32cd0388757a0291fb85d7d7fb5d7603e5f9df1dc614a081a0e2bf00e, 0, 0,
  -0x339e6d98c48b188eec94f76d3f4d867490842c767a12cbf883a50e0b1cd53a08,
  0xb5250593c4126fa4f870b3248be51bd3d7bf5fd2b69ddc3847e7746624fb3ee); (0,
  0x5e96c92c3291ac013f5b1dce022923a396d3389f6ada584d36a9d29f70da2ad3,
  0x6666666666666666666666666666666666666666666666666666666666666658,
  0x1250792c406cea6ee682180624bbbebae9614c7ff900a37ae2c3d51a131642b2,
  0x634a8d7feb5ce10f785c9a2e70eb547a8f1b6a450320afd3faecd944f0dae47e, 0, 0,
  -0x34fa889feb29381885bc1785c0c982cc3c20271eb1501a084c844860b28607b4,
  -0x22f9d8c1362755fd286328acb1e887bc4e977e8035989b8d166335b4a01cd490)].
(** The quotients for (121665 * 121666)^((p-1)/2).  Spec only. *)
Definition hints25519 : list Z :=
[0; 0; 0xdb4efbba64c23eaa1fe4cedf47d4c7f5ceb01293b0790896fb5cdbf31e70415;
  0x702da29a6ec6a0514617b3d7c4590df5531ce065ae461dbb50ee0fbb57d6e3eb4eda39f;
  0x156e74d3ddd38f8226238c96fc8713e8d8e82c9d9ccbf019367b05b478e8027ca61e6f430;
  0x10f2d2821e1d94b96bf6964f522fad973ad5b0ef9c1e931500e6957080e8b716a002229cb;
  0xf195366fedadda1fc2c0bb9d6475ff9db5c8c016d2f11a5dd2aacda0140e5229ebd3f919;
  0xf3c0518057f9b4522fc96a11aa771ab446c6d85586e034ba9b28e9fdcec6d71abc5fd9;
  0xc598f1bd5272eb699e0a7a966adbed473981ce3aa55b6272e010508dc4eb9908537168d0;
  0x2113da01dddddb1f297f166d26ecf8940705906aff8ae91cbff25f4945c4e23082cc1b2;
  0x1337b51553a59d1a00fa0d852eee38b95d6a6bd7e1201101debcfc3ea194739fb826f596b;
  0x181f52e5badd187986116e0a5e565c2f64b44fe624984ef6403229dbd36a67ec8ee1836;
  0x2d827dbcb478c66f5db65e1b0351fd9285782399c6dd935fc932f1df83c5dc4a1a7db8da;
  0x350b28529cf64cf6b65344a9546966ed8bf98a1a9f954e449174ad9fe296b705b4ca39c9;
  0x2055d1646a5229942db8e2dc27d54655e1b363325dd53d7a4cb908e86187c1b3bedbf4cd;
  0x18b05f4c7ea460f53162569508bf644a1d202d93000230f19aba8704764887cce017d3a04;
  0xe00f70a1a5f6caa43eac61a8b880820437638c74d13dc9b6883d60438310d1688cfc55e;
  0x3785328bfa3cb8f60c1773e26321299a9b8d38f61ec18362fd7afaae58187629d7b7a451;
  0x10a16d07c9c5de9f6c128067979095362623b3b7dd01fa09b895a2b691e45a119b07ad6;
  0x4e1b9474a0342a83e7697fd20decbf67f62f3e5d550cd93131d9441b8f3774607e44a2f4;
  0x58a71ebf65ffda7bdbc7b4bc52ed614d0ee195af5075ff8c031bbb16111dc83af29f672d;
  0xa2cc9fac099d99fbd281eb8dbf79bed1baf0d20fd96eb3194d008a5d7d74a1fbf5af4045;
  0x4af1bd552895d1ca12023acb1b6919785a8b82aa33bd14958f50a3c1f1253fd7ed381546;
  0x80810b94cee604d07a4a19dcca783d000eafc8bb1f943a3e82cbaceea65d4545aa368b69;
  0x9eea2ee91da69fd41bbf52f4ea5ce1347572af563faa3041ecde4a72e9f753a22a8475d0;
  0x165e030149b0edc3754eed27acf697bc10d70aea33f8362d45e8baec8ac6438dc4b03dd7c;
  0x9bf8c6cf01d76510902acc1d9724ce1e52c20de77e67cd935e8ffba22b7d668e9dcc3f1d;
  0xc7b4e5e22a2e41bae6497740dfc8c4c34b3db7401a588d2bbccffd42b0855a20892da5a;
  0xe71c05b2d2bf04c1e76687ce040be5d2eb1723f1efcf43f0965cdf4f727b4f4b1ce564b;
  0xa8155d2eb34201ed3da49dcd495efe0e2734356be6ca737e96bd447994eed745638d0d9a;
  0x76878ec0ea9e28f4c9ad3fb44ecd26a56e515569535b4b4be30be17f1a971715720820dd;
  0x1b4f66e2163a48053eaea3f0ea12e973e968bd3b378fb5ce07739cc7893b8c8048882eb;
  0x322992cefffd216ef7e79163adcfc265439441e052ff7a2e945c52f8cde2502bf21fa865;
  0x12a9b2e78c164dd44b18b84cf20c75b1b69f253de546f6427c2a615d8f138ecf1497c668b;
  0x2dec780e2c4fcb02e2b1577a478b69e74c38e43b22ced8683f11df979294c3ceba91cb85;
  0xc9702d36ac5b672a125026831e51b30c709fb421039d74a6ef9961e5bfcbad9349eb2e99;
  0x1011f160ffbcb248f0de704c0efd02667a4b2e2784d42984c849638ad4cc34d22ae45a17b;
  0x2b4a401bc9ebde2ca8f14cf40a9e201d5ea440627ec35f2ee80629e8cce36915de17a8c9;
  0x45cc6095c3852caf1065a605797d2b67bafce759bdb95e9a6c6e4124d3f0188d1da3c4e9;
  0x466b10ebffdee4a25a43d6a92f3e31d91738d0fd88e74432fe9c5aee7220ee6c57170894;
  0x36eef089fd06092f59d27130170aff0a4c2e3f208ebc8b228dc1e469b5ae8baac2a9043e;
  0x12c20f73e89c21830e6275459824333a485b5dfe6eb97a4c5aa1f0ff016ab31cf5fbfff21;
  0x5fbb2c36dc416547bdc3576ebfbd13ee1baef5f1d4f92eda2fa436fd36ccc3193e622833;
  0x1b2f86071b0653eb455118beed187e6b42dc3a0e6f75d557e73277537d4bed8d17f16f5;
  0x255457f32bf08377bfcde01d3157645fd0924c95d9294e63f551ab2009d3ccf2ad4e0196;
  0x53ac97a3a5c279b9cdf551775b7d482b29cdae963abd969ba3406759f56728490239dd38;
  0xaf6a7186e70779c9b7668e37e8049144b6d267d87f3705b06f60214f254e54ef99c69717;
  0x8fb90a625cf4677fbaf7d033391d0653b542f4151201c15f23c48b63bb72f5e7bcfd2ce;
  0x126e8cd7f07fd5a9beb04944057eebde76aeb2805b57264a23191da64ccac811abe954fbd;
  0x171849b6932e176648b0c7467566ec1f45a59d031f72de133b93664fe105dc0a5d2817d0;
  0x1190e2db3d1907f3fc6e4a0f7b6f75f12ab806c3d67d1fae07e3cf4fc5e50b9631e5f368;
  0xc7fff4cf6c89483a12a39332e9d5794466f93a9cc779e16f4615b7bcea361e64153871b6;
  0x118622d64b346f899a49527714d766804a3cfd21afb2f4262630aae72d3aa5ac442ca12cd;
  0x4225544a8e67b49f4759365c05c305b162f2ecaf6382f81f5af66b80f4e32b378221041;
  0x774382944e27795e0118590a67028816fbc7461c08123d9b96ee7a0624950fc484c8c60;
  0x9fda774a6e06cc5662249b8662093a25f47c1ef160f221f0b507d859f5e1930283d8351d;
  0x20eff81696b9e9b50ae787090887cb79dd7f4ee71f0fcce91e6f69006b9d21f0da194802;
  0x30192e8af2136f35f9ae8555eddde6cfe2df6ca56293366878564a1580acd006df90a13;
  0x114624ded3c2c593abe2040382d0fb2148614937fd19520d5503a89f2b18ebaf0f9d50a1;
  0x196401c0157aa60ab8c135242f5ad263cbca39558563f418ceb05746bb89125a03576089;
  0x16b86b83705d0976343bc8130d33d2169981f783dce2e5b65b7d8b59daa08d5c02b86689d;
  0x61affec7239e469e5ad1b9ba7ea263f5e9ba1f886188f1c53e4f3a030b5c99ff1e15704c;
  0x1a9f1608663ebadb1358394885432720d82f5822cd55985f7b4bb9c759d339de43013d5a;
  0x22a933d9923a8429543ede07cec297f55413da4afacf78f8da767997f9ff18652476cbb0;
  0x196521a59a599e0fe151a2a1cf00e1a833ac6a45ff82321de309144dd4c5624e0466e8d71;
  0x5d03aedba8505f0df864cc514f04d466a570017fd8663da0c690a3ea27d1ede87c4dbc9;
  0x1499b2084c004eb6d60e8f58336d25543efe33b88984bf23d6aef2c02df548dafcbe4c57;
  0x7c2878296c5e11ff9372fe38ea38522d4acb022b76f472b944f43ce9ab77fac25be63039;
  0x9767e4c8e38e0302718044255699e57f2ca75ad2cd8f2a6fb461681d032a475f0226ac83;
  0x15110b6ab2d429508d80e03451f4380bb4a85e476877d1b58968614c19613b3b2923011d3;
  0x7b67bf785a5f654f4b36fad642a4199ae89103959891cab1c7786ab4b5185868feeb925c;
  0x10897d77f323d5f9c1c4b1e48e5208c91469c854dfe4bce1e99d47dd55d87e816229effe7;
  0x3003d861f2f6ff23cbf8240bc80d8551a3b763579c34262fe8e5bb6a1ccfbf589c0d82af;
  0x16057dd2890a1491894682ec01c6c31f589dfa8725db4710cf4bc5c900f683933765183f1;
  0x8756085d499a3add98b42ace872831833b09cad916a33f7ff176a60a3e0fe6fb3f423ba4;
  0x5fdf5e8fdd39f37613536d65ca3c792fd4dfda8049a9f30e63873a4c07389c0d75d4b654;
  0x179536db38a3518ece052e07aa5f1da346c7d4489cdf78cf485d61abf7b671f5b9274395e;
  0x3a56a0d395a79cfa3f550a90fb90d599a847597a10dca0142e660c09eebf078147e67294;
  0xdd96d2882213d085b1182a0932c86e0bda3ae35797ae7ca5fcc1f0bf22dab94359dfa56e;
  0x94972cb3adfc743c32c300abd8a1cee7ee9d0be32d8bbb3f8e08ce95fd5a84919f831de4;
  0x11ed5a59db952cf523b0907a8ad714568d76a0b873a34d4cc2e53ca83c7679adcb31f7ed6;
  0x2fef82c84078cda9d4773717b5208b7eef05db12a943f07f4070b6bce185ca881de8cd86;
  0xc4ef986bd64d02a4a2396817699e21cbb0981505c70837b387bfdacd690c88dae62c4fd;
  0x190b3b7b0d1653b2f336f7eed13f2a3da321a6a658c713750a8e2d7b201b72306852f418e;
  0xa1f6d3689361c3e29412965b4a4072c9221b2ac3342d90fd05373c925b162a2471167545;
  0x11a45dfad201834e8b7aa69d50569f81de32fca48d8b65f7ec106f30fbd1d4bbe09a13ed9;
  0x13aeaa42bfde6c150eed470f9038341f69d498e754b0463e4d10c193112d29a47aa404413;
  0x37232c0015ffd2c9d7f54cfe5db7486985c8ff4c62dc234e97baa2b4bc19150d4f10046e;
  0x4f6795121d29959d4572bb80fd62967e5ba43be2d4b0996f378d52243fcfb8a57bf79139;
  0x1a0cdf627cd1ece812ac5694564b16eb337eddf20e62c782ea218fe4ad31bbc3b7cb781fa;
  0x2624fcba94d04bde5aef4754f6a4b6cb3174d338c3055ed358a2bcd1b7a981fa63a7f3f0;
  0x51ec23f45b3b52216bd5f4a1863da1e3c3ec3a0702960bbfbf47d1d5ed5e20fac3e31a68;
  0x1a49dd2d0f2667cf5840159488f0720513dde359d3bce7fcd4d808717f74d907df7d4;
  0xed28711db93044571558414f00a43e0ae77eb37e8865598db55202c08958a2ea5e400bde;
  0xb5f365d6e712e14d04567d4dc5987d29ffe8ec22cdd2777a852de6df2bcd80f213bbc737;
  0x17d2b6c71ff532890e430843d480d3914d5c61862d8111618221eb9f1713d89854efc3ee;
  0x155e492187fc4fe63e878473bed3e0c627249a7ef29744f41d635a0a750fc5260bcb27b35;
  0x90d0e441a6a67f7891746c6c1c9b82d9b597fb7bb86a2cd1bfbefcb11705bbc66f3344c4;
  0xf87876caee049dd2b3bb91e13c8b528227b44f9934e4832b738da8acf051e3e09c96a907;
  0x78634fe57320ea0a707ede093ad925cc2d8a866f57d38057620c437930008ae87181c8;
  0xdeab5e1354f9b39ef0dcab4751d4d6aafc653328b0fdd091b9d4f39007ec94806a1199d1;
  0x9c7d8bab0440d6bbd4adb380c2e8abc0d6de9a5ef99696d02e30792bbd402801969e415f;
  0x2de1809220edc3d859c42c4e1c6249fdbcdac791cdf0ab6f7edc68ea2b61075791190e;
  0x1f1c8402875bc8a4f431ff1ae729da8f61ea6c58141155a68a867fefd1aca7b72b2af16;
  0x759c15b61d784e9843173fd831b50c7cbe01fbff11df91315fdfa6fc994ae8b6441d9011;
  0x29b71ddfb0e3643f749aa7d7537a6d719d4d0d236c6cbe1f4e7178df6f6f9e04f783df89;
  0x107b96003f128b9128220affde67efceebd9aad42db8a737c985abc9f98cf54cfeea944ed;
  0x414f0f1eb5a991216410d8992f3e5ed7cc3f2b9d79d5f3d929ae08bdd0cce5c7a9f3960e;
  0xd61065491fb583affcbb7000e101dbe6e4f2c0c7c916e3ed9c514fd72b9c95ab15bfc4;
  0x1ed16c1eaa1b6717b78a7d14a986bbfeee50954f8e861b4bbe1f4c1ee5b060efb6ddbf35;
  0x335c587a9f458cfe5a4d4299bc7d1636fc7b0bbfc727fabeef46df910dca452178701553;
  0xe386e1a1f8f034d791feb67dae6a62a13002c970119f6ad128b69cba93e3b8ba24248e8;
  0x12b7edfe3c51defc3710278b2876198f69506048da9172d1f044f10b1e9c554f87d0e5ec3;
  0xda354af01451f6c6552777c63d455d725c9468bc491f1a2e40b61d0dde715f7df09ac17;
  0x2086a8d65af5b85a4ac286d0ac9df277e023956ee7c6eafb07e918646086d976b857f7ac;
  0xaab9dbe78a9ab79800ab5e068493564a88d28acea28a17abd1974e5e8647b87f697b10c;
  0xae7cf5670884f0711adc0da80c2e1dbb06cc740d9b01cf32ccfcef62c2fa37745062edb2;
  0x1310ee89b4fa84e3dbb85d53027d1ce2ff2329e470adfba2f4f0e73f1ca358028e8eef918;
  0xe4239f1cf8c80bec47610a43e72aab4c61a1e45924107d5f98ea50b784e77b03e2e182b;
  0x2f0b692512ac2c351f3eab93ce5044ee369b24a4d610530570239d25b183a4c0cd810946;
  0xea97b59d279302131d93ddf385560303c5e461221fb7c7d86a2ef4dc838204621fff104;
  0x1028205f65da0a8d48846414cb972afdc48cb81be6813650f8d39536503b9e63544e2f26;
  0xbb54760e31768cccc9297d8cd87aacd47db316be8a3edfc8b73ec7a0543b8e06fa4b353f;
  0x165932be0f425714540644df8797ccc5448177468fea0ef99c5ae7629760e8ffa8ca196c2;
  0x9f2a67a28a833e7e7c37921c50c1dac6e14c76fde4b6bd0aefccf726007a699c0d3817eb;
  0x1249148edeb1078453d465b9c333957df7955833d958d3f09d9a808561d794616b46f4256;
  0x36d037d39e0427906ffee746120c8cda3f2c55490a7a61d623a1ab1403c8ba2ae46a450;
  0x79f0ed72aa0c647232dda3529511ca3e77c6e9b61a213e61e0f8ed3b16f03f913cb72d40;
  0xed34a308393edc84c0a5c1f4958cf7cbc9e081ac17e03c5a0289ede3ace18d0a17cfa8e7;
  0x1a013aeb495dad0d15645652e0b0ac22d1a69e326aef10d15fb82e703a380dc5ab6e373b;
  0x3fd1c42ca2e4e8ebb0ce1673af8dcc665f33314342796620fec1912a7ebbf102f14829ef;
  0xff4ceab470517646db462c4dc42b9a932b5eb4bf23d8fac65cd1b84fbe59bbe8806f04b3;
  0xb822a1f943e5043e3d918e28cb0d83acb461a5fee7330a93379fe534d2486027f73bfce2;
  0x226a1e6509526588ec076f204bf20e153181872c39a56ad6328ce0bcb48b070b725644ad;
  0x159432e730422eeaf2d639fc2f5111712b2955230610ad307efee2020d05c51418fdd3b08;
  0x13925bf416cdf7ebe5cd51041478bbc89c5896ca8519319b5d15846f4253670090781758b;
  0x58b3e01f982991c39314c4b44ba3fabc794ebf45278145249d88973e7c72602cfdc69a3e;
  0x131d59e02478b340f1bcd6e3bde6791dae2a9c8c28b9339097858539dff18784d78ca65bd;
  0x5203e0ffdd7c7e4ccfb742fa1e3f0b93bc2720281d46dd0ac0efec329f234673f4c72bb2;
  0x90c52b3768e3807cac5580c1d0fd1107e62a7744717b03072c838adf9cad07e6a1c815db;
  0x109889c67a3bf03c4dd4a78d71d4ad12409183e91e1f221521d4f7eec2a61f6b8a7b3d527;
  0x35c781ae2e1f0415c28f05c28650a631fa665db2e7de14a864e055d0c1ccd9b2176839bc;
  0x8b28aad639ad0dc7d3d627e5ab1c86082530d75af704c07e7bc719e1b205fd9746d940eb;
  0x1364a044e1de28a3893ef36c95ba7f15c824f4fc7fa347c13c002bd7f00f14d3c2e1b155;
  0x8171e650e72d02db8c0fd00f43ba05644a65ed50890f22f81640739025a7d56b85024a34;
  0x9f4bd0dc7158de5928a9403f87e635b93617c0f6bc2a44bf02f96d6743a59fbe0296568d;
  0x1abc3ba3e5fcab784732b2e548fcd866c0ec92da4e0b6803d3490847f7fe171f04a712e36;
  0x18e31134446437c19284ec9637d2d01a0d2b656025aa91433177d39db8ff877a828ebc0;
  0x9fb8b52d8c94110b5de3e94d433b7e8a7fa5a100e7fc166eefa33240928fa71b10e41164;
  0x8156697bbff3e6aeb388615a16d42ee86ded158e41ad824e9fa543d16f7cc3237aea5be4;
  0x30f5b0867669c9194f723a666214ea71dac9ccf4667e98bd93f777bd38c25abafb194026;
  0xa1646c94d0c4c1e71f47cfece295c629135071532f2894dad655cedf3a3247908ca79b1;
  0x731c49c5202c9bd4a9c924264b25f80c01157129738e822be2ad01df408d25c582432b44;
  0x164ec205bca99d83d896a49b723a397165cdd6140120314cc1480defc40b88228bdffebe5;
  0x14a26d61a844b73fa700774125e68fe16267a2970eba643a685c0ab9b0658a8d772e9a4b3;
  0x11c7021567c3655895cbd863eb68ee92f0e7eecf223bb8eed6c576b8d4a1ed6119511f499;
  0x65f75c1819eeddc5268c12ac61f82688e59539b5bf6028d729def61b6cf98fb7dfc9d684;
  0x1832438bc210920c065a851377a5797a9ec92b1d6b9e7423e94cafc07dea647b8bf720e0c;
  0x3cd50b5512986175b229197121dec610772fbf1c24953b5696f3dadb4b1affb59c2fb5ce;
  0x1093cb393e25261fcf7ad27c275dc520c9312cae01211f81f5fab95b134623ea7514f5f92;
  0xb9c0aedb219ff7ece7551c7430b3312c79847e8ad24890dc0e09c0a983d080b9ed464fe5;
  0xb6f22f30769eedc9301b5bfcb0000598c11b1ea799010f3095c534962f4af90b9fff4387;
  0x19872535dfad4abf5018f63caafc822655219dd0021b829b6facd00afb32291b8d4a791d;
  0x132dae0df39b740d6232a378ceabf58de28fcd1c4e5e98d464cc35977a3c926b947da3e9;
  0x23867d1d9f005bc45f856b5c33b389e3e50619b39c084a371f68c28655ce4d29ce51b876;
  0x20c94d864102897093f476eddd9fc6f41effa9d1260905e09912ecf09587f00fe48f8110;
  0x9c23804d79710f1902f08d3589fed34e52780f52845dbad4a3aa5c9fca5e079729d34cfa;
  0xa834b0d649f22bba5e9955caba4c412f7946888f9ff5e76948282ca11a8fe4f14edf5e3e;
  0x480e5e8beceaeca0c40e2ad775e96f6f8e3aa202b11a47129f5e1bc2f55a2637b54dd448;
  0x13a6b5f5e6a4d80200c92ebd1e691d72bc19fba2c4abce11e0ed6e2b540cd11962978d568;
  0x504f7ceaa825d389d0e3b732181e526db699231c8bd9ccdd96ba1cc645752b535efbd4f5;
  0x158c7c1e7fe01c911eacec5ffdf92090ed79d69cde90c486e0a5a841545d5d69430c1b08e;
  0x10c6a3fd240da669da792043e93bcfb72446223ecbe842a5e3246c519fe9c0127f35a552f;
  0x1aa40165044642e9fe69b8dd0aaa860e2437931ffe30d4340a2c6f6b8406fd17432470dea;
  0x1014011396d57e7e235199afe0003caaf6c5bce5e6318e182c1de570633804e54ec004de0;
  0x4cf51b8f58298d649ee307207a80f4e9353c1c73625116c578a24239977b1c3528c5ce84;
  0x93ab3a1c50dce8d2d93ea6ea1ecc098720064c80698abcf855aefcd86cba54c749165fbe;
  0xbb34cdaa9fe67f1112dbb8e81202cf479cd26b485c583010a02193fe382fcea347a1ca87;
  0x191716ac66d9471f987cd19c9c6ffe6c5025719a4c54a6190e03746b14472797b5411d84;
  0xfeac1bd0e9e3ae8146202c1b824ae0f66ca29f7cffd5f083ddb1ff81b4b81c1603f93683;
  0x12e0a712a335b6c77e6af93f482529433ca1e701ee434c545cd7b4db0b74b399378bc105f;
  0x11bc6d6242d942a704304139cf6a1b5a9e50f3f4b861bf7c2c590f44216f382de9822a6a;
  0x8f5ae41b2b14403d5fdf265954058091d347a3e8e7681b54756381be78a42d0c91a8a5b;
  0x6fb3dc6b05f6667c48da74906f0f7ce67b2c89de25d7bbbec16972bd6415916330f25;
  0x9e337164a1cc1606df0644eb7c886bdd1954b1a0b911beb6322e2cc15e6dd08e76cf5e3c;
  0x180d19217e18b99dff111f3ba74b64238f8ce28dec2c7a3477bc392623ae5b4518c914c54;
  0x5ba657193250df963a0ae9814a0247060802e1052df9b1ae64e5e79af913e6bd612866db;
  0x3334dffab6a560112497541825904e2c8a72198b9422f39f59dc10d8676b68f529296a7a;
  0x2ad145ac2f936dd6870ccfa3c5d82790af6ed81a63d9974632751e3569f33340b02d157e;
  0x1744e47a1dbf0a8f55ff4ca17d237d66e84ffc7f26e083898d6dc15e36fca876c6d55cf01;
  0x15c0e9a2040bf2dd4d4d3a9bf6b07fef9d6a0f14e561670541a6eb47918705e5dfa0a6e5f;
  0xf0c27eb00998e4d0481b7487007ec1f60ec50570527871476f8f35ae017d63a9f2f92c6d;
  0x2031bdef6d118623367edcdc6b63b779ab28d3869ee3656357f862b971d8d7cc17cc21e;
  0x86466e0f4dc71749bd1826b58a2c0dbf097cdacab91da8c2721c58dd7b915fc41ab80073;
  0x78723e3df1bf8c8e97f51aa16776256ffcf7659513fb6e7825ea1ea5c9b106644425da9d;
  0x8c1532b4529ab909512512119ddca4527e8509c0db81a7bfab814f7cbb493dff55b03b8d;
  0x498a500cbea2aeca57a970821558ba215bbfa51329d5ec45edb8e0b96b6683ce20f92e8c;
  0xb53efa4ec47b0696120f5a2dca2665083a04bb9c137b1639df0066dbf90865f4df64072;
  0x6f6d8d3f03d5cca3741cc4ab1d395d8822d1394e9f432f3a14623771b7cad92acc89fd24;
  0xeaa6d6e4315a312c2a50724af701b822d1615b84d4dca8644375c15c8511aa8ba27885;
  0x549218b469d080081d8fc1783aa0fab2ba06a641da0c6369857b8b6ba5ce082743d18277;
  0x1b71a6c5f72538ffffae4413a7a51d84adde3f4958810b0e90eb7bea5560df70c044389c9;
  0x107a7051a8d5da4ba51c994ebd984bd07a763b7bf5eb48e80a81179f0bffc1e7592b591;
  0xe028b26e2a1a56adc6e22fc9f716e8c052835b5980177a205ef96fda0eea16d663bfc023;
  0xcc091e0e285760538a612907d48694709a63d34444ff5518e91b8b10cfe314b3fd084ba;
  0x2ab23b28120ac1359dab4bc6e4e487ef004a31d6cf5f86cbe16e038da6bd81a3f7f82f8;
  0x28c496eedee7b04c56ca4dfeb22497b7dc7ebbfba1016d097d19d1ee0130d49b0244e5c;
  0x3d4c90e60973454235830899c5c7d78643237334415f1a0ff65f2546179bd0a5461ff849;
  0xfd4df8f5877a7f2fe16a2303b44fb126f53f14319464e1e42da003a84c4d17556db14d98;
  0xa9d38c77d18e0d67e09f565cf1009f3ac5726943fa96f7766ff6ac02df78d55528b190df;
  0x6f9e1f2fdda0fd222682581618a9332bd5ab4eaaff307569f0d42e30645d7c9747b170e;
  0x1ce3c14ad301e9a466161a001dd981010f3d9caa0380e4887c639ed6ec8c19e12f1470a6;
  0x717c3c839a83297d5b7701386143eb9ed7dde3934baf69696c8400a799ba854a611e42b6;
  0x911ae381166fe98183abb537c507a49733c9dd45c4636855ffe76db5e8f1ae612e8a523b;
  0x1bbdbb8d052cdc35e108c4977e35714b123a825dc1510beea0415f35d57faf00bada0195;
  0x1b8957d5a80d3e11382903d8be6f8c4a6e4cee58fd03de32630b4cb800b4b17d7408a2776;
  0x1117af7b86107481a637a30b3130f6a2fd3e6eb7115de2c1d4c2c793e4cf602ccb8b211ef;
  0x35c290e80ff9d8e70e92a97fcf01182584dfcb12937e67fe8047d46be3fe35dd25fbc5;
  0x10f24334ae7a839cfccffe7a2e6a149bc06c222b186eafebefe51bc48ac58752916139de7;
  0x36d6b32c30a84b37c832395d3146810c4487c0849b7afc3e42a5982b79608fcd8e72a76b;
  0xca3b2db203710dcaa316296d2724203920f93f00e1a2f979aa6f35df98912f7208e6fe34;
  0x713a7d29c808e6bed335af752af755e98874d5e8e841848497506778108aa655bd98a0;
  0x72459d84e75f5357a05df2e468d9bc2a974bfcd4407dc129dbccda118abc79579b8d70a0;
  0x10c79c0986014f5d2068c95820d8eba049fe43ef8a83e38ae419946eaf0aa474b51f70390;
  0x989159b490eb7b16fe8b40cb7341bffe193e02e9d49a8332ad3ee7b405abe420ccf77aca;
  0x72c36c7a05838f93f5a7c1c1a44347fd5936f9143270cd6391b5b43f7efc2d91cb078b3c;
  0x11f2f4c1bf823fc590d103175573697c11fa5448e03bbd21edf9db1a29710bd3568236053;
  0x84672af3b72900e043a5de19779f844d47fd426f534032399f98ea2098403982c13d1e65;
  0x49b80812242602699c3c01b5bff59648b5e6c19885fc22441d00b9d308b8a49e6181105d;
  0x120ce8a9ecdf0aec4a9c3fc87510486cfb7da67e1da102d9526a96c358d4ca1b9d446f;
  0x8661700067d0666b30587ad0d553b9f4bde3fa2969825707153ed8bd90f6a6c3c0e192b8;
  0xb4b3992307f8bc2b8b694776a954a7aa95f2f2575abd5121797af66304eaeb314e82e208;
  0x545057fa80ee5319b8194c13e976e56df8f3ecb96c9d68a14eebb3dafb0471989aadb768;
  0xf1198257a6888e891eb89a617b0f3966a02afeea7aaca70931daa3efb1774a2f5988fd7;
  0x5d015a3ca7e27d60dee41b4a3eaf9ce6b613847fdc23b1f98755378feca681aa6e9434c5;
  0xc93ca21dd0bdb8102320725e7bfde25d57fdde67e2a9de018bad639b33a05f46c41a1017;
  0x1beef16c39716cf86561fff7a2da5892553ec3a09b1c0efee4745c825e2e3199de116f02;
  0x183f3251e8876a8fcfd3affdaa2c9537112cfb6bfcf9c076d1b6498258317e5eda6b0ec25;
  0x657a5cd9c1c1f7df60e3713fec9885994f121b323e9e23bb5c5a02db2e7fbc88aeb15225;
  0xd73c105fd4a926fde47ac944acdd9aa0bdc6e7e4ada2da0267f93a7a9738f7754ceccdcc;
  0xa6df89359745d48cef277ee672fd83950a1e7c23a3fee354b548fd1ad0cedd44077523f;
  0x12171f5680242981cc5e3102145b2b1be4ea45de2ad1e13290e798be5e99b05ac8258b9bd;
  0x14a72d86f08e26d7fbad297666b037aeaf39db7660204450789e8afb388f159d47a0c5f5;
  0x35dcbd66ff23803acd1ff396272c7c61a936abe9d806f7b6c58ff1c0c5d6e59249a2e5b6;
  0x1ab24a0e8627aba5e9f3d0b05ec6e22477b108c12ecc77c4e3d141ee3e9484e298af8a4be;
  0x5ba4a082e089ea9f71ff7200562abe2c916a8a119429abf494a4ae577c66cbe84771684;
  0xf0de2a95360f2f48a1d6d0e3b2fddf0338b893d4bc132b1b04e1086befc31bc85c91b810;
  0x148dcf185cff717ebabd53f40b47cb0d22df6088198d241294d1ab950efe1aa815b0cd20c;
  0x1120a40f01e5f9b3a08645c33e9e4c8f101ca182de9e05b45b43876345295bafd6f989526;
  0x59ac613c2464fc7b80b762f0687d340c5d7756fd3be0c74e4f2b58cdbae99de;
  0xc5a3c36f04fffdf5fdd737999b186d183916cc980d68caf1a7df2f3968b8bf44dd13520;
  0xa7ac09896a83eb0f1cc259e8993e73c48aba3d9fedd0d868f2ba72d266d4407566b3ef;
  0x37c459e2571e721678413079897a5739c506bd131e94221d4015f840cdfc3171].

Notation p := (ed_p edwards25519).
Notation d := (ed_d edwards25519).
Lemma ed_p_val : p = 0x7fffffffffffffffffffffffffffffffffffffffffffffffffffffffffffffed. Proof. reflexivity. Qed.
Lemma ed_p_prime : prime p. Proof. rewrite ed_p_val. exact prime_p25519. Qed.
Lemma ed_p_mul q : mul_p25519 q = q * p. Proof. rewrite ed_p_val. apply mul_p25519_ok. Qed.
Lemma ed_i : (0x2b8324804fc1df0b2b4d00993dfbd7a72f431806ad2fe478c4ee1b274a0ea0b0 * 0x2b8324804fc1df0b2b4d00993dfbd7a72f431806ad2fe478c4ee1b274a0ea0b0 + 1) mod p = 0. Proof. vm_compute. reflexivity. Qed.

Lemma ed_pow : fst (pw mul_p25519 14802493890 0x3ffffffffffffffffffffffffffffffffffffffffffffffffffffffffffffff6 hints25519) = 0x7fffffffffffffffffffffffffffffffffffffffffffffffffffffffffffffec.
Proof. vm_compute. reflexivity. Qed.
Lemma ed_d_val : d * 121666 + 121665 = 0x13083 * p. Proof. reflexivity. Qed.

(** d = -121665/121666 is not a square, since -1 is one and 121665 * 121666 is not *)
Lemma ed_d_ns a : (a * a) mod p <> d mod p.
Proof.
  intros H. change (feq p (a * a) d) in H.
  assert (N : forall a, ~ feq p (a * a) 14802493890).
  { apply (not_square p 14802493890 (Zpos 0x3ffffffffffffffffffffffffffffffffffffffffffffffffffffffffffffff6) 0x7fffffffffffffffffffffffffffffffffffffffffffffffffffffffffffffec ed_p_prime).
    - reflexivity.
    - reflexivity.
    - apply feq_sub, feq_0_div; [discriminate|]. rewrite <- ed_pow. apply cong_sy, pw_ok. exact ed_p_mul.
    - vm_compute. discriminate.
    - vm_compute. discriminate. }
  apply (N (0x2b8324804fc1df0b2b4d00993dfbd7a72f431806ad2fe478c4ee1b274a0ea0b0 * a * 121666)). apply feq_sub, feq_0_div; [discriminate|].
  apply feq_sub, feq_0_div in H; [|discriminate]. destruct H as [u U].
  pose proof ed_i as I. apply Z.mod_divide in I; [|discriminate]. destruct I as [w W]. pose proof ed_d_val as D.
  set (i := 0x2b8324804fc1df0b2b4d00993dfbd7a72f431806ad2fe478c4ee1b274a0ea0b0) in *. set (P := p) in *. set (e := d) in *. clearbody i P e.
  exists (w * (a * a) * 121666 * 121666 - u * 121666 * 121666 - 121666 * 0x13083).
  transitivity ((i * i + 1) * (a * a) * 121666 * 121666 - (a * a - e) * 121666 * 121666 - (e * 121666 + 121665) * 121666); [ring|].
  rewrite W, U, D. ring.
Qed.

Lemma ed_two : ed_ok (EdCurve p d 2 (0, p - 1)).
Proof. apply two_ok; [exact ed_p_prime|reflexivity|reflexivity|exists 0x2b8324804fc1df0b2b4d00993dfbd7a72f431806ad2fe478c4ee1b274a0ea0b0; exact ed_i|exact ed_d_ns]. Qed.
Lemma ed_base : on_ed edwards25519 (ed_b edwards25519).
Proof. split; [split; [discriminate|reflexivity]|]. split; [split; [discriminate|reflexivity]|]. vm_compute. reflexivity. Qed.
Lemma ed_chain : erun (EdCurve p d 2 (0, p - 1)) mul_p25519 (fst (ed_b edwards25519)) (snd (ed_b edwards25519)) chain25519 1
  (fst (ed_b edwards25519)) (snd (ed_b edwards25519)) = Some (ed_l edwards25519 - 1, p - fst (ed_b edwards25519), snd (ed_b edwards25519)).
Proof. vm_compute. reflexivity. Qed.

Lemma ed_lb_two : ed_mul (EdCurve p d 2 (0, p - 1)) (ed_l edwards25519) (fst (ed_b edwards25519), snd (ed_b edwards25519)) = ed_zero.
Proof.
  apply (ed_order (EdCurve p d 2 (0, p - 1)) ed_two mul_p25519 ed_p_mul (ed_l edwards25519) _ _ chain25519).
  - exact ed_base.
  - reflexivity.
  - reflexivity.
  - exact ed_chain.
Qed.
Lemma ed_eta : edwards25519 = EdCurve p d (ed_l edwards25519) (ed_b edwards25519). Proof. reflexivity. Qed.
Lemma ed_lb : ed_mul edwards25519 (ed_l edwards25519) (ed_b edwards25519) = ed_zero.
Proof.
  pattern edwards25519 at 1. rewrite ed_eta. refine (mul_same p d 2 (0, p - 1) _ _ _ _ _ _ ed_lb_two). symmetry. apply surjective_pairing.
Qed.

Theorem edwards25519_ok : ed_ok edwards25519.
Proof.
  refine (Build_ed_ok edwards25519 ed_p_prime eq_refl eq_refl (ex_intro _ _ ed_i) ed_d_ns ed_base _ _ eq_refl _).
  - discriminate.
  - exact prime_l25519.
  - exact ed_lb.
Qed.
