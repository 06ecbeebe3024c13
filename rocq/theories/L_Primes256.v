(** The modulus and the order of P-256 are primes, by Pocklington certificates.
    Generated; what is checked is L_Pock.pock_check.  No part of /repo is modelled. *)
Require Import Verif.Base Verif.L_Pock.
Require Import Znumtheory.

(** Multiples of the number, by shifts.  Spec only. *)
Definition mul_p256 (q : Z) : Z := Z.shiftl q 256 - Z.shiftl q 224 + Z.shiftl q 192 + Z.shiftl q 96 - q.
Lemma mul_p256_ok q : mul_p256 q = q * 0xffffffff00000001000000000000000000000000ffffffffffffffffffffffff.
Proof. unfold mul_p256. rewrite !Z.shiftl_mul_pow2 by discriminate. ring. Qed.

(** Multiples of the number, by shifts.  Spec only. *)
Definition mul_n256 (q : Z) : Z := Z.shiftl q 256 - Z.shiftl q 224 + Z.shiftl q 192 - 0x4319055258e8617b0c46353d039cdaaf * q.
Lemma mul_n256_ok q : mul_n256 q = q * 0xffffffff00000000ffffffffffffffffbce6faada7179e84f3b9cac2fc632551.
Proof. unfold mul_n256. rewrite !Z.shiftl_mul_pow2 by discriminate. ring. Qed.

Lemma prime_704251_6 : prime 0xabefb.
Proof.
apply (pock (Z.mul 0xabefb) 0xabefb 2 [0; 0; 0; 2; 0xa4672; 0x7d005; 0x9de5a; 0x10479c; 0x2a6a8; 0x6ea2e; 0x2e6b5;
  0xa123e; 0xc5896; 0x95a; 0x82970; 0xcb0ec; 0x4bad9; 0x6a688; 0xabef9] [(0x139, 0x8ca%positive, [0; 0; 0; 0; 0xbe95;
  0x752; 0x4f2; 0x901ed; 0x11c08; 0x9a61; 0x99d60], 0x7d07f, 0x1a65d); (5, 0x22632%positive, [0; 0; 0; 0; 0x5f4a;
  0x2f887; 0xc6ef8; 0x13a3a2; 0x16d49; 0x1b335; 0x730ee; 0xa0f7; 0x18a77; 0x99773; 0x8b8ba; 0xfe6; 0x84d7], 0x4ad94,
  0x3d175)] (Z.mul_comm 0xabefb)).
  - cbn [map fac_q]. constructor; [apply small_prime; vm_compute; reflexivity|]. constructor; [apply small_prime; vm_compute; reflexivity|]. constructor.
  - vm_compute. reflexivity.
Qed.

Lemma prime_78283_5 : prime 0x131cb.
Proof.
apply (pock (Z.mul 0x131cb) 0x131cb 2 [0; 0; 0; 6; 0x94b3; 0xee87; 0x21a; 0x58af; 0x1186; 5; 0x4c96; 0x15a7; 0x637;
  0x1227; 0x22a42; 0x131c9] [(0x10fd, 0x12%positive, [0; 0; 0; 3], 0xb0fc, 0x3db5)] (Z.mul_comm 0x131cb)).
  - cbn [map fac_q]. constructor; [apply small_prime; vm_compute; reflexivity|]. constructor.
  - vm_compute. reflexivity.
Qed.

Lemma prime_460769569644_17 : prime 0xa3b2bf8c32ceaf.
Proof.
apply (pock (Z.mul 0xa3b2bf8c32ceaf) 0xa3b2bf8c32ceaf 2 [0; 0; 0; 0; 0; 0x320b15b; 0x144394bae4b0d97;
  0x3c57450be8b844; 0x20be59318cd041; 0xab6ed3cef5b69c; 0x12ebfb440636307; 0x15ca4fbe4f2e58; 0x98386725e4bba2;
  0x110242fd87cf11f; 0x791d8f5279f1ba; 0x10aca46a9c8a24; 0x302ae959610b9f; 0x9b7d43fc28b03a; 0xcfa027709a4e4e;
  0xf331703ea9da77; 0x1a82d4e4de1d2; 0x58fb7f3985a616; 0x1386e1e7fe14c40; 0xf4533758c0ca1; 0x64d4b5f524032f;
  0x50b405bcffe650; 0x961543a9f8fc3; 0x7813d794331033; 0x85eae0dd984edb; 0x2f835476b7f31d; 0xb222d3672471;
  0x16434f8a88928; 0x5c48aa14346d26; 0x10060872907e898; 0xc9c8eda4f27c69; 0x8a906b881bbf2e; 0x2c91ac599d94f;
  0x6e51686a0a1ab; 0x875c0d79c8f24; 0x79c2a2c39c0f9c; 0x10c1a70b4412080; 0x991fe365ba7d0a; 0x7de69b5178f814;
  0x6196f3170b2df4; 0xd4ae6e77ef23d1; 0x2c45af14ea8fab; 0x96752230aa378d; 0x12c3629a4babe; 0x16503df92876b;
  0xa77be0ca3f0162; 0x12f11f42571664; 0xc55db30afb906e; 0x117005be695f991; 0xd4b6f1abf42f; 0] [(0xabefb,
  0xf3bbf34aa%positive, [0; 0; 0; 0; 0x19; 0x274951c4e0cc; 0xaf124b8f11192; 0xab5f839175dad; 0x7e365e76fe2383;
  0x9f53980cc78e57; 0x1320b185544d91a; 0x6611bd4ee95160; 0x58197bc2634a76; 0xe9c8ce1947d7e; 0x1009ad8cb8c0c70;
  0xf06b3c2dcf8; 0x69f2ae6c80075; 0x4a03facb6ba0e0; 0xff1a33039d52fb; 0x27a22fc21372a; 0x9629c4af952a;
  0xa1763812b3bce9; 0x12c37829b7bb1; 0x1c7fa841e1cb6e; 0x5f6dd33de59965; 0x1d6f9d97e50ef3; 0x1594fcd6690648;
  0x450c8f8668e12; 0xc7811545721ea; 0x2960dc44e7c37; 0x4b151c5518b775; 0x114212cc2e9f79c; 0x1823877ff93ae9;
  0xcc24a4490a03ec; 0x4443c7c9be8d], 0x3382d1c86f8bb8, 0x10af4396bffab1); (0x131cb, 0x890af9fe4a%positive, [0; 0; 0;
  0; 0; 0x1905; 0x6059017e6658fa; 0x8e6299cc2f8b38; 0x782f75d2af3964; 0x9078cd3a06ba35; 0x388912abf633f;
  0x495853fb46ddf3; 0x5e5f5a2df09e2d; 0x445b9282f8c6a; 0xd9ee45ab155bc; 0xc033cabe42372; 0xa3f1126534cf9;
  0x1429621af928; 0xb4dce12163a2b6; 0xcf91bf8d235c8a; 0x602cdf5089b136; 0x3b81e0a007106f; 0xc9a1fd580d5525;
  0x2b720e5d4ccde8; 0x8354601622dafc; 0x5ce089bd422c7f; 0xf4e3f0ba4a3b73; 0x2ebdc830e7c9d4; 0x9168d894cea45e;
  0x1b584ef2964f67; 0x6ca2d0d4fcf02c; 0x2836d2bbdb59b6; 0x56c831679e7cf4; 0x1e8e58675f75ef; 0x2a4a4d262d17e2;
  0x7db9f11ad5acd2; 0x3842765d5ebcc4; 0x179ec19b6737a0; 0xaeb2c7d11ae95], 0x93a72f8843276b, 0x54d6a3accd9a65)]
  (Z.mul_comm 0xa3b2bf8c32ceaf)).
  - cbn [map fac_q]. constructor; [exact prime_704251_6|]. constructor; [exact prime_78283_5|]. constructor.
  - vm_compute. reflexivity.
Qed.

Lemma prime_66417393611_11 : prime 0xf76c8ffcb.
Proof.
apply (pock (Z.mul 0xf76c8ffcb) 0xf76c8ffcb 2 [0; 0; 0; 0; 0x211bf11; 0xaf72c3a; 0x15025c9360; 0xb6faf4d; 0xbb51a658;
  0xad648a3c; 0x2619f1030; 0x660c0680b; 0x6c3063f5; 0x90ed3c422; 0x365d8f270; 0x79b391564; 0xc075f5959; 0x63e63c81;
  0x19abe0f1d; 0x396e5bed2; 0x173f43faa9; 0x717e036a1; 0xce55ac235; 0xff9f8b95; 0x35824fa1; 0xdceb319a; 0xbb61785;
  0x10e062efe7; 0x70b3bccbc; 0x117fdbc42; 0x5496c279; 0x3601d7; 0x6971ab17; 0x14a12e042; 0xf76c8ffc9] [(0xe5d,
  0x1139e52%positive, [0; 0; 0; 0; 0; 0x108df8884; 0x1207ba861f; 0xa76a6354e; 0x330452cbe; 0x21a47c088; 0x11438d58;
  0x1bd232928; 0x1cca8a14f; 0x698ff1aec; 0x320378f; 0x194e41d93; 0x15784ce3; 0x13046053b6; 0x17ab34a5; 0x174e52670d;
  0xa7f5d72b6; 0xbce62141; 0x98e3aba07; 0xdedcb3d1], 0xb8335656d, 0xb7a703e48); (0xc5, 0x14186942%positive, [0; 0; 0;
  0; 0x10; 0x4c1881737; 0x2891e393f; 0x51dfccb00; 0x15f4c422f; 0x8f9216ec9; 0x15f4de30a; 0xf63689ec9; 0xbe6c6bdf6;
  0x17e686fdd9; 0x7540a5255; 0x9b0d13349; 0x501b7e3fa; 0x4fd36312; 0x1278cb27; 0x9a1158853; 0xf1b439b0; 0x127f027a96;
  0xa060c7a51; 0x2a2a33343; 0x117b1e00f; 0x88be79011; 0x13646326af; 0x53b1c5b70], 0xbecb15555, 0x639cebd65)]
  (Z.mul_comm 0xf76c8ffcb)).
  - cbn [map fac_q]. constructor; [apply small_prime; vm_compute; reflexivity|]. constructor; [apply small_prime; vm_compute; reflexivity|]. constructor.
  - vm_compute. reflexivity.
Qed.

Lemma prime_112909569138_14 : prime 0xa44e179dccf.
Proof.
apply (pock (Z.mul 0xa44e179dccf) 0xa44e179dccf 2 [0; 0; 0; 0; 0; 0x63b78abc85; 0x64d399bca17; 0x5123868dff3;
  0x122da0c8332a; 0xa87378cf41; 0x94eee80952; 0x2387f8025b0; 0x3f8bac77279; 0x98967e5d4c5; 0x1f930efa83;
  0x409e4d889dd; 0x77379bf1a; 0x65ddd0f2f11; 0x61d99bc7b31; 0x43c68fb73e4; 0x13e51b408f78; 0x71cc46c3fb5;
  0x288f50c0782; 0x13f556bf7cd; 0x1dc290c2a; 0x7d7bded08d7; 0x13cecde32b6b; 0x46f9ab1a445; 0x67b4d6ac562;
  0x377fcd1ea5a; 0x900b5baca3; 0x103d7a1e2253; 0x2b969182e5c; 0x4443dc86323; 0x89ad724d4a; 0x6ccf9c6e89a;
  0x94b32d1e3b; 0x59b8746bd29; 0x3f1bfbd63c9; 0x55163bd761; 0x68f7c2cdd52; 0x7a29a40d7b1; 0] [(0xf76c8ffcb,
  0xaa%positive, [0; 0; 0; 0; 0; 0x31dbc55e42e; 0xbb413be728], 0x3dcf4686688, 0x3c3fb39d379)] (Z.mul_comm
  0xa44e179dccf)).
  - cbn [map fac_q]. constructor; [exact prime_66417393611_11|]. constructor.
  - vm_compute. reflexivity.
Qed.

Lemma prime_774023187263_45 : prime 0x22b559b5c816ae00f2378e18df38c5410ed597.
Proof.
apply (pock (Z.mul 0x22b559b5c816ae00f2378e18df38c5410ed597) 0x22b559b5c816ae00f2378e18df38c5410ed597 2 [0; 0; 0; 0;
  0; 0; 0; 0xec0607bb0a0607b931f9f84409f3f08a; 0x316873e46d714005f0fb27ef0ff12d4c748b27;
  0x90c347a82f6191c16dc23307629353e41f5b; 0x1a247f3a7a8dc43b36a3165d0833b0ab8e0f64;
  0x1b9fefa691e98acaaee3d404bbbdeabc51d4e; 0x2fcd3813e2fc4ed5425559ee5175690d7b770e;
  0x15f83ef2348c5cc1cc384a7e1de7ad950754ff; 0x231eb247a3654975bd4da2cbd2020ab84b606;
  0x78c0ef80d33e0798e0f6e1ea72d60dacb3c94; 0x3e8608456ed8b1cfb749588c3c334b9c8d5ffb;
  0x26624415d54e087f2f7f3d4be62a06ff0b240f; 0x330b58d0649c6d81177d0b69c6ab8768fe67d;
  0xa1ac7b89d9a61f2ed3f8c475afd3293a7ebd7; 0x536e26486de3d628163ca55b7de7bfdd0d4b;
  0x19c522f7a315c732f9457d2597de6c3630013; 0x743284a56a2077c64328edccf225112dde722;
  0x32758dab1864a0c17b5110de92e307763f2c33; 0x6292d56ac97ca0849e09979e3f6a9bc71a2c9;
  0x1df2df65dcb8199ff4b8de6eb24e9be3530dcd; 0x18ce2079b63300b519206377d07dcaddee1f25;
  0x1b4a0ba967a7cf67a6f3ebb25893b5aa8186ae; 0x9d3dad44885e636e71c5a2f30fcfbc742ac7f;
  0x22ac9cb07b93a19fa5b827eb85b540d84fcf7; 0x3ebde71d44af57686f2f89a6017d37ce02d316;
  0x15eadbe1067311082a89dcb325e2e0bd5393ed; 0xa5001afccb0618fc0adbb1ebe9ace88e05df;
  0x471ac1c332f237851a0d5a67ab63d498a3e5f; 0x6250da5dbd2bc6c164bcdacef27abc6262a88;
  0xa59da56079b05c8479b5302f0f6ffe8de2f64; 0x27e0cbc621d065c913e9ed1b2a03a13d666e2;
  0xa4ad8d99a759ea330553919298f66192b8245; 0x50b9bacb4a9f12e886092936f55052f6916d1;
  0x819ea8007b04517c77dc364091f41aca88261; 0x136accf4e8d2c818c5411f0aa9dfa81eb3deb2;
  0x7a8fce66236a5e5396305eeb37957dc6123fd; 0x11f5dc8ceb6b5c84b91090674a96817e5e64dd;
  0x6d4a41f623520b7e53046f9677ea91b05d03d; 0x170ec3deef8ee27f80adb411789fa6bc083d63;
  0xf018a0df8e841822aac776a3e972da15c778b; 0x5bc0b381f13153da62e98fc14023a9632aec;
  0x2ba32f8cc2116e43e89b398e0fc562e9b67275; 0xd467982717ed5bc75796da66a326edd09d568;
  0x1c822b777d9390ef1da80812ef9c50d623fc; 0x42d66ba9b1c00cfc830986a7c0857dd96e6971;
  0x54633a108589377d2a8bec3853d58bf7324e; 0x16d328f1f8c6955cc81dc6a8ce67af5131f64f;
  0x112bf5dc6ded04e64417c185f70299287f84af; 0xe2ea2e9b8d0252e49a498643055ef4e261496;
  0x9d1adc5ba5bb10e6ed34a6e0bb08dfc57343; 0x20c3d34748c793a063f87ef71ff1f5427645ac;
  0x19f5d77793fc68814d002bcc02af133cbf6276; 0x21fbf2b4e45950ba5256d62e798924c6b619;
  0xa918215a782b3944e1f25db5d3a0a3021a342; 0xa8c74426c887726a3370853cddebda1530d45;
  0x1e36803933002da264f24613f4565690fd7e0; 0x2fbe3d60c5e9e8cd41a3479b9965dc671f1ecc;
  0xff7b647c27d9c8fe381fe2c59dc540913fe52; 0x42022cfadf47301b13e1d3a81eec1863f851f;
  0x118df6f75749ab076c68b2c4423bed337c019; 0x1d72f9753faecece98d18924d936581dadc;
  0xf4b71f66ef72513e52d7ade4495014074c7a; 0x242179b4baae02bdfba4b27c335b323d9314a;
  0x2632f0bc9a6dae5dc562664d353c118a9c6c9; 0x5564db1e706abac5eb9368fb5702058a0793c;
  0x17c4fb554bebc26db0cbcd3e8d999d74a11b7; 0x18963cce1fb4e3c30c9dc4e784a36c772ecdfe;
  0x64f2115672efe2f70a1280a89520aefdf7485; 0x2f851e1dc1fb2b404d59566cf121231615c245;
  0x33e63128978eb6f17c9136785f6f6227787c73; 0x35a1ef68a686eb37e8fb740b610a69538bdb;
  0x160b84b1555751e9fbb8781b8bb276e2c84e2a; 0x1ff00f69c71fbad3bffb4c0985e04a5c28424;
  0x826ffd9d3c2ae68e1d3ed562588a8f8a86ee7; 0x59e61a98133ac5cba68738c4ad7ae7fbe35ab;
  0x24cfe15933d365b9f22d4d70375066fbc6f22c; 0x2e77e97560437165167ba347cbd9d7ec65fbde;
  0x1f84388c90068d082baabb0f73dfc6a7295827; 0xbd189bcb4ac9425d7a4cfb245358aea6d29;
  0x6dbfefd9c74d1ced8804348017806eaf94527; 0x14234c2b277872c0b0b26fda59a3d8a71445b3;
  0xec3648a74743999868d3f85dd95583c411dcf; 0x99abf8e7fb0c060b61f16adb30d1dd9fe6ab8;
  0x4f7fc628d51e729879523ec27ada2bc8711; 0xf484501eab2d9b73cb249217d5cc03704cd0d;
  0x11cc061e02515766274131fa75c66ebbb90a9c; 0x1218a022b402e8159d3c37f51db184c0ae4e6;
  0x7c6aabcfc769df708e7c0828647e7de249163; 0x96d7e92fe13ae68748e4bbf06c55fb1c0dc68;
  0x6d46c256bbe3854cfbc588ca09bd3cf136fa7; 0x16b78e04b98dd40c9f26dc68ffac997b16c6e7;
  0x2c91a8c0c4a7b975562703e32272b40359a179; 0xd199ebc586da9e3551c3ac4ff460afbba27;
  0x11825042fc0c5f7c4d563a1da99b90d7e3d81; 0x1d64a1593ad650fb8245fbab4aec6aface17d;
  0x16ef1d4ea64dc5c99242be2cbda93a6ae148b5; 0xad34bd73ad147f1178d6e89296f3c19bc0f76;
  0x219bc4d91f03e3386fd89e7abc3dcce750f528; 0x286379a6b7245c3e7d18c91ba2747826787b82;
  0x7599b2e58a8c30415e0d03fc51c4b52ae3c67; 0x192334b708d1d7140468f6f8e24ad3b5e263b2;
  0x5890d26a31a6f2d32882089e70651e6170d2f; 0x180ca79ee535d4395dd14feaf20774ad70564;
  0x1989b5d742ba22d37fe0e11d04546504c0df80; 0x2a52d2f42e19bab5010f97f9d347ce0c0152dc;
  0x1f6d89fc1cdf8ea48d0867911950f9fbffbf7; 0x610e9ad7272a69b00f346c35b1dbe104151df;
  0x202aae5ac9c81c8f1410a4be4e769159de0b7f; 0x2fc90552c94a86b4010fcca162a22cb17159ee;
  0x9a06c5e185677078ad9da53abbe5f3a2f046; 0x9eb643b7d7c67267eff3f785c8907027de31;
  0x124be64012caa76ff13d0b37d3ba7dab0c331e; 0x2cc6457d7a15874bc520dee34c335e9ada9209;
  0x1093b968cb65770016d060002bb1feb6a270d7; 0x14914448f1e608a8928fb0303d360637826bb9;
  0x2089c0e052ed2bd7e03e403649693479fd2fe8; 0xec61954651cbf9a968e71c80b03db68ee87f8;
  0x57a76118823746eac1f53ba7e8b322b4c98f5; 0x30113ce0af6042842abb49cf14d3153abba17c;
  0x21ae5b4e0846367dba73f752de206f545f3651; 0x42f3196416e51d0c994db14f73cb39affa08;
  0x937fc3e443eb9f2474f7b857e4f349523854b; 0x1e6d1d36ed380b16d8eb3ed14a32b479377e9;
  0x2902826b8217acee264f48c0d1a5311ea4efa5; 0x1ee519dedcfc7818b7be8cd7d9ea70c231f16c;
  0x1229d8592b2d55c830ad5c4a93b675ee996c6d; 0x3475a8343e284dd6e43190ba77801e0847629;
  0x16de5ac09a004f42bef138fdc196ce3e0b3aef; 0x38cb31e9ce8ca1c7276146b1b8cbb99f87996f;
  0x327457160a24cd17471e47b60caf0020d062d; 0x53a04526ec3de4a95ec3ec6403ae158c74f6a;
  0xea18c2b2a22558de823131f116527c846eba9; 0x2a2ed0eea383c76005a0928f8ef7e0b1bd42c3;
  0x65e948912cb31a9048040353ea66e1454bf78; 0x2117fc35cd43f15750b047aabc5529fa4d614c;
  0x1136016407f62cb1bd8430e41f037f2dd30a6; 0x6fecbd242150a5bcffa0eaeed2fb99aac0e87;
  0x5ddc8f16256c481dac71c2c892cd65ff38c80; 0x41fdf130657d0580393dcf3e964b4a8a0d31fd;
  0x1fcf25ea4ca552ac5394c027eb3691f1a1ad9d; 0x76f354dd7cc87d4b26a569efba470efb534be;
  0x29376fbaf64a0c47a935744c19b91e2a14fa51; 0] [(0xa3b2bf8c32ceaf, 0x3647621a0c85b1150ad0194a%positive, [0; 0; 0; 0;
  0; 0; 0xec0607bb0a0607b93; 0x879522c6fd230f1d504a63b0387ef075be6f; 0x94e11380938b80a8b7c158255192a84f7454a;
  0xd923e00ce00e15fec8d4cf5bf18496af8b934; 0x1791266e7478cbdace3d1dac7d53c3d78a9e2;
  0x311cb593713a94f3cfd24cee6ba18cb37d1167; 0x129930afadcd92e29397b843772a0fa8710196;
  0xfff0575f1f0e191761500f374571c06af8b; 0x25947b4332f63171000c2ce98f13417d5de252;
  0x748ff8ac458eba797d27a06b9ed2e77ff8ee6; 0x9eba230231e30c76b350fec049fd5132a3b2;
  0x1d7e8bc0c61e0ea5b908769c1d873636aba7bb; 0xf091cc7bd3ae2eef2f135ecd8107e14f4f2;
  0x16bedbd29d70cfb8148446dd78b008016bc61; 0x8e0c525fdc47734f1a4c82a09eb130067a831;
  0xdc0a678246ed73dd38d9ce9ded0e69a237874; 0x150d2d45fd443c5d5a69c31b0ef378358f3;
  0x5cb3db9bf1989778aced24be8a3e84f895bb2; 0x1c9ac5e949f729b264629ff54e3734b139609c;
  0x132ea4d3ef47980422529282a0a712d85b8936; 0x2a2c0fcee137a2bf0b18350f6eb3f05f40010;
  0x200549b0274f8766d65432bdd87f9c58d77730; 0x7ebf2734713c94c36577d658bd52edbc249;
  0x3354dd1b89d6307665ea07fa9b5a4a731654; 0x59ebb38ff33d43237be75b9ebf366d57eeb2;
  0x3575f6118cd8564b01ba976e1cdb0269fce53; 0x794eca5ce63ebd6786c6e40d8374b08b17ede;
  0x28453e2725211b178d63390bdea3716cd5cf90; 0x2375071f7a1253d0f3552d467174e016ad423;
  0x1c8c77fab56263a0ad5f456902065678697266; 0xda3fe27cbd34ce566481c7aeb87836e51d7d2;
  0x48bd91786bfb131c5a2bc49482a711d0cc353; 0x11606df82f8a2b51405f70c3e411a698b5622b;
  0x13c4262b4b1bd60d676c59f08c3f315055db36; 0x7596bdde19907588c27fc987c62291f5d9e3;
  0xf9533d9ea88e8cd3d5fd1079b71dc62a45df7; 0x16773922ef684596fb8269a24c3ba3f1cd731b;
  0x566efc9f9ae2fce4d04f00d0a3c9fb06c13dc; 0x131c585444a7d58d025b634c5f57dd55eb95fc;
  0x680e1a6a3155e24299aed58f147b5b1b9f5cb; 0xf0fa1401a2a4c391c28b1659b26df72567844;
  0x154f3d9509c835d600f8ef2d81f2d3fdca719c; 0x16f16ce4d9b9f365f9a7ee965c3f2452075968;
  0x13c066dc609671bfffd07b01fb0c8173e2bf5c; 0xa86d57b5028e86cbd325b9fc8a5d2c845e0ba;
  0x1495b8e82cbd4797af096c820c16e309951c35; 0x14b8f3b389dabec251f2b6f4e55fcb950b6fed;
  0x112541b1dd349171544f364568e0c7d8431eae; 0x1bc7be3d1bfb795786d37e8a016f60790b9a01;
  0x35cd72cf2813d359e9eb27fab15c8b5b1701a; 0xbe3dd43e9e8cd693a4237bea283b8b891624;
  0x4b891b006faef5682a7b2a2acc823eeb50c66; 0xeaf7da4eaef3dde68b47f6cb6c62f563c0820;
  0x361d47fd87e72758b4ee788ea199f8087ebc9; 0xee791247bb090e5432094f53ce5bbdb6e849e;
  0xce5c5d8b206d1f6b00c618dc14c1714bddb9; 0x4ca62ee36a81163cdbd314d1dd7df9b0cba91;
  0x1664c33821dec032bdbb6e9f3d1c4462fd72; 0x527599ef6d167d12f6895538e51102aacfb70;
  0x12a1afdb66bd1409db6ccd85d041e565ae1970; 0x6e15a51ca0236f3089191fb3e4facf9c20bd;
  0x34d753599366fef623f6d601ac39b1e92eac2d; 0x21fa062761b56014aea2ec612a535f5ade0bf;
  0x2f651d1c43d79bfe2c7f7020cb989f16a162cc; 0xa49560fce7aff7fa174ffe10b13481016795d;
  0xc005792a91f45cd7f101cea39de5f496844a6; 0x2b763bf8b6147f20e380e08acdfd40814a1bad;
  0x447bd322acfb918a5823646646996865c8b4; 0x63e8119c2f23d829ef557e4dc45b34307f85b;
  0x4aa2312a40369aca1dac62e815b1b6f84fcab; 0x53dddbb740e61607de3efc2eb510d9182a974;
  0x695f175da6748990e252ce08b0a7bad596373; 0xab919f535bdb1aa56ce90782eb5ba7a09b017;
  0x405c27e06c8fb9be6c5234f63df4ff91886b3; 0x30201f2a4bcd7d72ddb20cdf8a7713916e57db;
  0xe997680a2560447566ae6627dfb99a0a966c0; 0x1edd01f2559661d105fa176f1155c3a88390;
  0x255051c3aa544dbc75077fd12244dc4f10fdb; 0x795084a2596e33750f0f1cbaf0bda645f8d05;
  0x85d168025463826793096c239f9251f6a52ed; 0x81de00ee0894b75fed427b62d004d174b9198;
  0xb9044ea40e8910f9969c54774b62a1ed0ea6d; 0x6b86adbbc532d2f50420e885a71a7f37772d;
  0x15dedc66a0f0e421afd6bd4b21492742392599; 0x6b56ac48aa2298db7a2c5fc5a08a844b2501f;
  0x3e54205412469a673c665c530b246cf9053fd7; 0x3cb1fb8360314768e791abb76ec2823543269],
  0x1c57608cca63bd0dec0bb61f90d77cc342f96e, 0x8c8c32ecd9e78f5a7b15ea29193120df46efb); (0xa44e179dccf,
  0x3614108efc00539e535c504d28a%positive, [0; 0; 0; 0; 0; 0; 0x760303dd850303dc9;
  0xaf406ed23eda26a0d5f26f7dfa49e91ff0ba7; 0x129c22701271701516f82b04aa325509ee8a9;
  0x3bcdf9e08b2749f9546c9459d8fb63abded33; 0x356c911c5bc82e9a41753b14e3b40866621ee5;
  0x5877c9462327746405ce4357aa0a4b89c7a02; 0x1e4b8cddae04e81d42b0499ba80216ad9d93d1;
  0x44487dfcfe7e3d9427aaeb49b4495162e8850; 0x217f49c72d6c5c1ca63a20bff812ca72858c3b;
  0x1582113546dc507cf5a8566c4803d28c7d4c38; 0x3fb6e43c312960943a808165be31cffb07865a;
  0x1d03326a61caf763e0b775ad175a8ec83095aa; 0x39f455494fad9b1b9dd855795cb0c69ac8d41;
  0x20321dcb457e78d8b38ef369d70a13c0254f40; 0x1707262030bd3222ccbb3d989e6a01a52aa9bc;
  0x44d3d48ac833b8a32f2f534732b700b8dd798; 0x184072ba3e71f71e8adf884e2916e4f85a709;
  0x125874a95ad12102dce6949ec6eafe5b6a6d1; 0x28cc7081c179c0b3010bdb0e6637e4abce73a;
  0x320b1999ded9284523c4a8ed31c59b95234d0c; 0x162ff4fac0977437260e8da6c12e1258ed5476;
  0x2771c7c2d58e2080c974b70084ae1d6029522; 0x6161e7ac87504fc3a7c9b3473037a26d09240;
  0x424bac6e520d30d80eb397e7b8f0d0c37a04bb; 0x450e695448db3c64a9dd6725ff61084738648;
  0x3d4232d483c94710d04a85d255a9e3f6a74cda; 0x42425ee1b30b278e2978dd9246d5e104a5f27d;
  0xdc45ec473e67b6db48fbc1dfcb0b14609c89a; 0xa44e477d21a954c90bcb6aca98fc8fc7bf41;
  0xf9840a041303ee62fc7357a3d7acb516b62c1; 0x7b8bd65f1683e15d85135c5b920307e859f1c;
  0xac09805550b8082ce1f1bbb88a8aee010; 0xf4ec27f36c27ee3132c7c84fd0cee54ac1a2d;
  0x17d6d2da64ffc5fc0e5cb2517712db0d15113; 0xc21e3cfc771769781f13a403155e3b9c5b61f;
  0x104f17c077eef4000db1374ea44bbdbc5f393; 0x212fb91f99696b787f155b23c17d394dc56;
  0x1e42d242cf7481b9de1b53825d01b7df53660; 0x1f2a4245e3fb6d44132598a5e21cf2f841b118;
  0xa4811d1d527f46bbce847aba6f099ce816fa8; 0x11d3b1b8be63695bc0cc614846f767cda79a;
  0x1918fe1a72e6b6ef20407a2c933dfe1067555; 0x1309aa7f0612b461a16dd367924d93233594fc;
  0x1a49f97c2259375dc852f5531340257b3a3b2e; 0xde56c2a9ac5464e54397429af20c4f3757f5;
  0xd299a441025ff8e29f0763c9019901a35ac3a; 0x1170a54c215455a32d7f9996e224d7e84a945b;
  0x1ffc7434c0023de947387b5f6169a173cd27f; 0xabe5ac86da4492c8c899e2e1f9bd4121b41e4;
  0x1a42cbf97e155ffaadfa613ab4200342b3c26f; 0x573cb571d9e6c2da19aeb155e8a78b5f49522;
  0x3ede9cba85b61fdaa14740c5b345166bfc433; 0x3770c1fdaf13d80b099c24dbfb00535180cdf;
  0x319a61a395261f83f88d3d7ed3b3f4c83cc5e8; 0xbeff0316c53c788ca68c589f9dae3fbceb9f2;
  0x153265c2310b7c490e5dcc2b202f8780473925; 0x22e9676ac50f7feb0a2c405d16ddd70bff0d;
  0x197832a8ac1424080348c16b5e2d7c022b4d15; 0x87b314a3e330740138e2354c363015a48b854;
  0x33465e80f80bf7156c2ff6e933e3e685f5f28; 0xe9c0741b2539382d3ae17fbfb28b107182ce3;
  0x144de2ac588f645f3f0af4b11d83c9852dbbfd; 0x5a8ffdaf679cd46eb70703f1a925dd9bca9e;
  0x228a807467ac906254379b164e9ebf46da446c; 0xfed9a6a615a5e8cf073a26bd695175f72f0b9;
  0x7f3eedb584d0f43e706658472340458ec44f9; 0x728117435fc80ed7a0d1d2ab1d5942e266f4c;
  0x3094097dd758fea855514ce520c1ce1a485167; 0x294b753136aa56d610b5326607d69fbcf29afc;
  0xa77f295b5370b0fda8b530fed65b76de94b54; 0x1b37a4498e9d92addb5e76190d75d9d24a12b4;
  0x178ee81805420e0e00d7088a91d672d55368a; 0x5f0cbc87d92ea570232793670409679941513;
  0x2aa3af66cf1bcc1f7216bbbc996f5863ed0bb; 0x1e856a1478af09239f9c6db65df74b35a65b73;
  0xeebe9f7e0a372bf09f531727ad6653206f94; 0x4ac09afbeb7ee27f3afc567a744255fe02b9c;
  0x1050317818356329fc40c6bf5050924e3273c3; 0x4c91e0d5cc04247dfa62a86881eaabbbe32b0;
  0x37bdcb8c3dbdbab5cf89a31eaa43cb80c58af; 0x3d7f93a558260655768f687f3545d1469b8387;
  0x137ae3c10420c5d3fba48d969454cdbd925f9a; 0x1a1a39285b021fb5146aedbb7822f18034288d;
  0x40cf196d71c29978250f29c31ef3f89d6d8bec; 0x9e862b2325dd6b1cb0c28a48ea1b15fab2ff8;
  0x1d654597f99539004c974a82a6d44b058beda0; 0xc1923136028a3e220bfaf2a43ec62daab3ab9;
  0xbff86813791d7358dfc87ade0113e3efd8995; 0x51474a2f24ea93da70c41abfa2c94cb8f3773;
  0x38e3b984d8c7117017617a379fd72a2e22f28e; 0x98314928456b560e5c9a15612e5463bebf3d9;
  0x10bab93c0458305da1caf1c6514ddd3881d8b; 0x1e444d5f49344abfdbabe9288ded494cdd9a3f;
  0x3028b713c4696c2e38ffe9e21084f38ca3833; 0x98378bb13118d596067f16ec5ce99273ba362;
  0x60f24e03a7679072debd4de2ce81a2b323120; 0x50d387401261f5f1329b17f67cca6b86;
  0x14a9e04040033d06f416fafc81e1580adb416; 0x47ec949e2ad4948e5484e48eafda23e3bfbd0],
  0xe62dfc289b94889baf37a7ecd87a1cba8a4a8, 0x128bb03d7bb2a1c56a8b803543011de45b021)] (Z.mul_comm
  0x22b559b5c816ae00f2378e18df38c5410ed597)).
  - cbn [map fac_q]. constructor; [exact prime_460769569644_17|]. constructor; [exact prime_112909569138_14|]. constructor.
  - vm_compute. reflexivity.
Qed.

Lemma prime_835945042244_48 : prime 0x926d1276e41fae13fdda5f78edb7802a76951509.
Proof.
apply (pock (Z.mul 0x926d1276e41fae13fdda5f78edb7802a76951509) 0x926d1276e41fae13fdda5f78edb7802a76951509 2 [0; 0; 0;
  0; 0; 0; 0; 0x1bf921273bf921270406ded8a80dbdb1a4; 0x35ffb61de54f7121d290329782511b78437f26;
  0xdde9b18b8876df4913839659deb6b0bcbcbda88d; 0x5417a51a440724f5e74595a280a7dfc06ba47fc8;
  0x6113747549f829322d8f7988b92fe3b9cec457d; 0x528b72697e09c1451161e9397141bddc4d83afd8;
  0x99ee082c1a1227fe58d33ff62493beb86f69cff; 0x1f163e430fa02d70fcb169240bd96d5376edb42;
  0x7b110e1b0de3927fb0f26f22997db17f4a179f7f; 0x582f01a274d8a848ed711b94cea009fcc55ebac;
  0x7d0f504066ac0be6a4dc7eba86fd3ea5bc3430d6; 0x5ea5c32c1dfe12569cb8706cb8614f64f4a640e;
  0x23b1f703a4bc50c798e743592223b6ab4bfab664; 0x1395ed6f141f1c483e89e1c91412151b0b386ec1;
  0xc182de39c62a0ca0bcda1ed05ed100741d7c1130; 0x44c45934aa0b912ae25a72d42149b717fa0dd255;
  0x4d3835eca56468a5cf73fd76aaf364efeb3f206; 0x7ea834b3b7af2a10c175319376b1055f90c7ff17;
  0x18cccdf0ae12822efd9778e8b29bcb55b6352c85; 0x40647564eecd9b1b40dec46e9ad9d099fb316eb7;
  0x52b56f6db32df06665de9331c7861f91c5617c6c; 0x36a1cc94490d46828834c45d45ed85f8f959ef9;
  0x641d9cdab72f5ce5ffdd3eee577d1f188e067531; 0x24335276067105d98831b9d0a9c36fee26c34b34;
  0xc3555550136a217493f5de759a57868bf5ccba44; 0x541a96d455f2943d1a497f49573c978722cb5861;
  0x10f39d26f30e0412c1cd1220f953bcb401a0b3ffa; 0x1b715510769f3255a60843c220571932ce101617;
  0x4fa29f66a84f6311c71c38effd23d662a6b4acbd; 0x16031db032bc9f2b4692d3f09f336970043c05;
  0x3080e42908fca8ee16f27d30163e36d5247be0e8; 0x814af7870c4dbf8b0febb046807586ee7975eb1d;
  0x71db52d2e94e3c86a3e477879f31b0d2ad6ed0de; 0x6f46cac211cba283fa6e9ca4f0bf9e64f3e4800f;
  0x12c298daa4fc23569b990ccfee68977a418ceb08; 0x377ed95bc32be1963f27e06fd95d79fd68ed04f1;
  0x25cdbb05bf8da417c214162a7054829e1698adeb; 0x1edd9cb30532988fec1349c2e932a8d5ff66fdd;
  0x12769434229c95d938377c8fc4c1e423ec0a93cd; 0x10d3b98d69832e48d371928b126ee5cc1d1e17779;
  0xbde10d053a523607d1f5da93db0ddd8eecaefa0a; 0x9a12125e986d38aa798de8684530ce76266a8e4;
  0x953b6db4a319f1c744a88dde66b8dfd46464103; 0x1035b8ba64f659b64fe5c4b9570e96a0d7b23d1b;
  0x4c45fa304bcd42dfd2d5261d14fa99fb9d2961a; 0x4bff0f255018439029eaa3d923d3fcee9ab7688;
  0xb902d41570e08b88d2ac3547066aa4510a3b82d0; 0x4fce8db0b8beb77b24ef8d0d7acd2671a0187663;
  0x865c7d2c96b220fda99cc5f6d185756ddd153f80; 0x3667ac44b909a6220742c0cbc5ae04a0783caa7e;
  0x245d52f12fdf25da86a0bcefbb3b3a2484025317; 0x1a1e10e88a7e0a997920507a2d6cd83db014b0ec;
  0x208db301f64160851d683f08eb17bf9fcd22b35; 0x5869022918988585d225bf896b942c07756aad4;
  0xeb1bd459915c7bafdad3308489429ff675dda0b7; 0xa912e7f153b37652758ec571414f92ecbbed1f0;
  0x944397b5865b444105d840ed24accc9e1727ada8; 0x733e8f03b7584592dbd3286fce6a6cc94eb46689;
  0x64a5dd4e6fbbfe807665c51992034e5295046fd2; 0x9e6c264c9cdee7e618666b9994c880dfce849ce8;
  0x122f754af27f27251d042ac3662c6b4c67a35d3; 0x7eae674fc33a1f6f784225978346546a66af97;
  0x25e5c94ca0805182296aa9f88a6266307ec9ae9; 0x46298ce124f3066efb3b96cfd716cd43600b3562;
  0x6a9bbb948a4ac74a0862148b16fa0f5204537ff8; 0x4c80e4a45262117ead4d893ad02177c79e920ed;
  0x79c7cf3ea24282e5a57c9848cc6de2d374f5f14c; 0xa0fcd46f6ec51eb3f692dda77feed6d6e3801fa0;
  0x115036fc35f77c7ede10698d0dedc2cd0a46014; 0xe431492e178c09c8f2c9f45071a68658f674803;
  0x159a27a24ce55e307335cb27525a595d3759139b; 0x5295d4b829c136c42fb58d371430d382872059;
  0x174a9d45cca8d5f44e0fa087198d525bf050e302; 0x4cb397994ccb4f0626cb1c570061fb2905a769b4;
  0x5714b57d4640f118b76657190447ec50fc0eb598; 0x1f715539789f211859ed938d9110828bcca004ea;
  0x10ae968d7e2a17de116f313c08157aab5683227c3; 0x48168bcf2c0a13577b85bb7ffb2d7cd9e5a1372d;
  0x3cde6499185c56db42ec0bc8e4305714a7ad7da7; 0x8d43f0b3cc71f3cef3422a229d1e0da040fa2697;
  0x4baecfe4211ea37f191bc45d788092649b983a5; 0x11216d36408c194e7685fc81909c69599add77a5b;
  0xa3c2c2ca563ac8fc07695e9574e3a71f9e8cad7; 0x12555895f4a238074a4d1722fa7364339b1d761;
  0x5bf20b47c032e394a63c3b2d9d16034c35321a; 0x8a268dddf8ea1940de7cbaa31b9b81b85b8632c4;
  0x74ef0cc41b896bbdebe38bc12b6ccd2230a1f89; 0x1904e57fb22e4ca6e83be349451287fb5104cab8;
  0x6ef8b9eb059f1c64e7cb63daa90c06833f52d79d; 0x84dc7a10d8a4639eda08f1838c12bc8ed188043;
  0x8d0e5a31866f3864c3782e30f439425751ed7a39; 0x4ab123d6c2ffc87cbf3d846dfc0ba51532434dda;
  0x3b2b8505cf7210d399916327ca31d2f0d34bd243; 0x373747ac80c4282e710f3018ba9a8ca76aa4922d;
  0x1613b341f63a43ff21791e65053d95dee757ed45; 0xd4adb488b38ee41cd39e7143bfe0ff7b33178926;
  0x30a801fa244202d816a9bf7fdfedb04d0fe0abe9; 0x1b07dc8533b992f523795b2b5bea3e600c8d5cc9;
  0xbfb181c39a7cdf55c0ce1aa694115f8fb2c61375; 0x129f8cca405287519e21fd0f549bcbef24d2b84;
  0x8b8793c4a48a8ae111924a4d71efc6f6ac42c711; 0xacf55df69c18c922ca9d26d13d21d9eb62fabfe5;
  0x11d5aa29dc7b9396fb87e84f4f4ba882306042d15; 0x792b5fef42d31c1e14678e320c1fe847da3c9;
  0x460d7763b66b28b653381794ea3826882f4a2d1a; 0x4c802f5ce4ab874a95828ff59cb9cb168e4cf326;
  0x934f742d6944aa3fb3af4948e4899effca52de1; 0x4ce86f6ecc196ddda2890cc005eec986fcdfc5;
  0x25fc26a3fe6b81d1ccd106b404e03bf27783f0; 0x4e83a552b579329867dfc4b68ed4eff2f77fb;
  0x4bd994a83a074d7565d0e670b1f02503c7c8c581; 0x5f09d4e8c552649af61beb6e8078b324a99fe634;
  0x10a24b5b5085ba3f030fd93cc1b49cf862835099; 0x83709a8d7386b784925b8245b80617b36cb024e8;
  0x11e2bfa444adb107901d5fee7e9eea630aa9de3; 0x99e4dba18cd41a1d2acf3c8abc1603610506f00;
  0x586e0acde80b2c7d461053fd97f62c327b7afad4; 0x1075ae8c8551a1c1673f251d841c76845e530a08;
  0x5c86cef413611991efc476ecdef76a7f158c59c7; 0x3eafd71cbffebc8d274a2d9164e3dda72caf10d9;
  0x4a2ed85d348ae8478019b4e8dd601ac0fc7de352; 0x1098c3dff6292cd535285cffcf92f56a4e4b56235;
  0x52dc916bab017e4c882fc1765407164bb4313fb8; 0x84a0c8b61e7c13c1ad69d839c3a28f6b2541dc3;
  0x20ba9d0ae143e3469143a84218d11482fc10f0eb; 0xd3696e393554b1f9e3edaec4f8f5e1f0d4985387;
  0xfd22d9003fda551d55055b711c0a69a6741caead; 0x4111c356fbd8c8b769a6fae12ab0b13086f9f82f;
  0x4df04da3b2721307080ba7c38dd1b7fdee88871c; 0x8e5f60c4e39af4ee0d4917040804fbd2d101a9d6;
  0x518071e67e634ab8ff188f14a3691123bcf0bc64; 0x79a23227f8340122f16b6a9912dc4ca4193a322;
  0x3a09f30869a27fb3c87716d2bb87c5cc76d4f50; 0x73090cbf74caac18e2a441dccddd9f70329a62f6;
  0x1f719e945f1b449946bff5bf20d86f94932e650; 0xf38971490058f7de0019375c3a77de8ca69a9b3f;
  0x1a04e4f9503f5d615336a61468fa02fc42665b9a; 0x27c5e9b3814e5bf5a22c7281c9aabc0579d89be5;
  0x13e4d0047208436a51fcb356fb0ebc82a16d54f9; 0x2e5a9a44431f5c118607b281e30db096430bfe2;
  0x7a97a2e99d980701d4c77af6c94311aef2ab28d2; 0x32717132632a1d04d09e6ddd385087237fffe1d;
  0xca798642bcad6de76a95205be27d30d54dc767f; 0x3a1c6987f1db7b386ce7de041ab1e39c1a58db26;
  0x8834a88b85e1e733650c9f728fbb91c702c3fb8e; 0x19dc5d296a98243edaf0bba1c31d7f1459d9757e;
  0x22f7ac8c80d22ddad6d2037b6a54a66e2037e016; 0x261414c1e4a1fb120ba194303c6f0073b51c5870;
  0x1ca7d215ca878f66b6974fe888d0b35e854dc0e7; 0; 0; 0] [(0x22b559b5c816ae00f2378e18df38c5410ed597, 0x438%positive, [0;
  0; 0; 0; 0; 0; 0; 0x6fe4849cefe4849c101b7b62a036; 0x88105dd341037d77d72f9ecc2975840f4666add4;
  0x153dae2a357a1aec4e4fed836d930f365974f0e], 0x915a3c97e1f064769fa3c1c13714e947fde75b95,
  0x83fc873b067687e40e33c93e9edf628ae4e9ad74)] (Z.mul_comm 0x926d1276e41fae13fdda5f78edb7802a76951509)).
  - cbn [map fac_q]. constructor; [exact prime_774023187263_45|]. constructor.
  - vm_compute. reflexivity.
Qed.

Lemma prime_p256 : prime 0xffffffff00000001000000000000000000000000ffffffffffffffffffffffff.
Proof.
apply (pock mul_p256 0xffffffff00000001000000000000000000000000ffffffffffffffffffffffff 2 [0; 0; 0; 0; 0; 0; 0;
  0x800000007fffffffffffffff7fffffff7fffffff7fffffff8000000000000001;
  0x800000048000000b000000027ffffff6ffffffecffffffe57fffffec80000008;
  0x80000068800015bb00002a4a800033b600001d38ffffd9a77fff86be7fff57cf;
  0x1fffe2cea6a88bceb47a5a6f4f1a66e3b410b3c5d0669dddcbaf8dc653b385ceb;
  0xd3bde2f03d7e4b2ec928fa04a2681ef13735562851397e707ec9eb58e960290e;
  0xd327da5fcae648d77177b894e18113c0a54e57752f5180a4c13ee0730122cf27;
  0x434974e653c6ac0b41babba06120442ff95822bfac3e73c6044acffc2bab1c;
  0x382e1bc0a242a94b25f1b6584dd5a3f8d95e08ceb0c06357b0c750fe51c3108d;
  0x1257a210befd73c47afaca7056748231d5977dad489c1b32375e0e1627b461a2;
  0x3f244a2ef3d97b2ca2001ae2051a61c580567c404cc8ab9bf5e04b8b95debe4f;
  0x1df771c53d3bde2545b7a2df06949e0647fbaaae1232cc6866d2f5065913df0a2;
  0xd91704984477992721fe493e21c160347f5479fad441672489ed3a22800c1;
  0x9dbbae43f31837991c714776752db84bd4099ab82ea1e3228fadf5c7a952d189;
  0x1e28c2083847e1a5ed0e01a5c9d66bc22616c0129437127463770bcc71349f9e0;
  0x23c13bc0ecfb40b4d36b702c8844ace1f3fde02af5c482532df409e2c7e3d0ad;
  0x8e0f0584a043a03886bb5f319cd17c4ae575c2f81c70c275101217fb721ccbf;
  0x308eb290d4b341c1d69ddaeb79fdae86195a5a1a536a5b69facecdc8be22164;
  0x98656accd2f26be8a883c71a5abd5fef6f812914aeba10ea1ed35296d5952696;
  0x1862623839e91c9db8feb9f334efa674c836b0b948fad21ea2679b986a887c90;
  0xbcc31cfb32b7dc85f0532013f7cd90c339f6f096baca89f8e74c2fdf6377733b;
  0x3f3901dfda9e37e211c99c301a0504ec3abd634060b8cc1376478970cdb3716;
  0x12dfe9ad705691b5a7ca286ea2f55543d7a5f9f3280723e5dcab227befe18ee4;
  0x46704ae71e409063c3e1a1e84ed0bee1fcf9c06b68c3fca7dbc67b0d713e6d;
  0x31638c7fd884905189789cc8680a816d48fc7a19ea33a3f13dace454f9f2ecf7;
  0xd7a2b4b650e66c255e36c34d5ed89a06eeb0cdf9bd3ffa32d8a958dc7ff0fae;
  0xd11c47c1a2d375eaf2eedb924409ae464727e68c1db68d08558a3fa26b63f3f;
  0x3c5261f742b2c05c79a0a522d6b2d275d460c7a3ce95b212da33527e3f3d5bae;
  0xe52d585e8f701344b63abd75c155da2753cb4def236cfbc5aab636146c781147;
  0x2d5c75b51890e1e16a25dc92e4233349dfb9b329e83ac0584df58ca2fba6cc07;
  0x446821f0fefd5a65da27d908a59c8d712dc0b460d222009a0083fa95e90804d;
  0xe0f5faff92733e26a750a4b187b2f2b6f22d5756e58219d3205c2b15ea0dcb39;
  0xcffd67329edf4f99368a269fd3487a76420f4b580e604025edb1eb8fc712e10f;
  0x3cc2a45c42c9a18f2e09f5ef8b2623e2602aa91891dcc434b6de3ab893414572;
  0x38ff43f8e518aadab6090639f1a75b806971afd478565e0f27522377dfacfc92;
  0xa6a662368e794429deeeaed2074371871dadd33931aab691f24f325718ccf146;
  0xbd8486f4f95c4850bdc8203ef3ee626df8ebbe9282fd748415fe33fb7563e298;
  0x935e9c5709034d540e89ed9d1f0c9908b4948a53d3d543dd8612548912fd90;
  0xe252dc0547ecba685fb653a7f0da186bd6ba0149ed6e8860657b32a3c360ea3f;
  0x19089ced65350b15597b837b19c2f808149a6a1ab71c1641aa164bc330aed1e2;
  0xa101322e4ddc200497f75cbf7a4f4d6d0cd23394f25a5a20cb7bca7252288b8;
  0x5494cef1bf9084d4586f76ea6e2615a2f00937337458a8c7c47610231f3bab94;
  0x7dd8b178bcc499cab8ce642dc4d5c1cfc3132e570b14da75b0ef027f5215ef31;
  0x49c98c8946ce554b9a36017e447377858538525415f856ee69857a15f04bf849;
  0x927cce283564ea1dfbb3b574338c5d7b62499a60c4a1f388d67db8587455051;
  0x9872c72383b445e854619e72b9d9af65dfc2fb75aaf37581f3f1333b6b73adf7;
  0xeeacfe779cc15b1d459bbd3d8e6247daba05944c38bdda8e65359afe59e1c34b;
  0x712a99d4632d72ac480a7a4ae2bd1c0dd9e9140032ef0c1238499448c6118928;
  0xab4f3a55df119f3b75ef530df71158d3bbb963b79f9c67df9088011dc8a96857;
  0x224cd1a6059d7caf5e27fa8028a684a3f933724f8102046c48696dd16c9324de;
  0xaf2a6a03f1b46680f0cb81d079ddac6bbe8b7fc41e22b79ea486e5394e0fabd7;
  0xc641a837404f5b0e7f9accdd79f632cdd12392e4e2f47887c6fb9091cc00e5d0;
  0x5699710a4373c21ec046ddd94cbd15c0701326af6b2efd9dfa59a8a912b39fd;
  0x1b8791710b72699746ed45b263b347426bebcc167fe8a0f082f12fca8eee4dcf;
  0x1f3b680cd51cd971e5a5351a27dfb6452591b4406b1b93e9e983631aca87a2e;
  0xf3fa1095c0253a133e3257e7fcb28088f5c1372ed530e80ab5e94561929a20d2;
  0x1792466ba988c8de88f01f36d596fc1415fe9279b0aeac1852334e5b9edd9121a;
  0xb21de7562a6cdf4e5faa9dfbc55861571497520e2e49aa0611dba7c6d854a47d;
  0x5f5364c99435a413edf1a7defef72296c3d6475e0db6028eba6bd2db82a06fc4;
  0xdcdf1ce5c3fa75477409a1e0acd39d0225c42cf4a988aa75a24400991657b1de;
  0x1f4cde7998d8e5f801990ae6bb219274841853a773e70769a2395d079f74c405;
  0x286139a97a9c4a9420ffe38eac2ddf99ff2ddb8e0e6f64802dabcb3269b4dc0a;
  0x3735fcab67d347c41d9f87e748ff7b876c3c23faa411be79b664c0282b6c38ec;
  0x2a1e4e688722b4ab62bf90f0bf472c9b5dce0251d66a36fb4f535eade21e4fa;
  0x7a9dba6bb3aeed91900074281a37b0781de193f7098076511d92197db003f822;
  0x9080ccb1d24fa299e98bb5ece55e37fcc24207413aaa216d8971b9a318c3cd66;
  0x6e417d5f73da071c3498e6b0a3ec024e147d7d9eb29e5a24c987abc6ad884764;
  0x3647be415abe494f3af69c50bcef818489d99114152cd590af210b0743b43d3;
  0xdb341c64f4d18738363923e24b1eb6fee022aa504845ccc3ca28c35eff92de5b;
  0xba441e57e93cbb29743c8e4a16ef5f17f1c29b436caadfb5cd7c7f20b13dbfd4;
  0x474f5182cd2f1385b01539c9b57d1f1147d051e87e9935ed8860cadf8468c570;
  0x5486c66338b5aba192318b7220d5baaaae13ba9c16b51fe3768361013cd0ff6;
  0x1b0d2788e5e845241ae726ecff517de1eb5ae89c4806d44ddc315ca41f4b1f00;
  0xd78f8211bcd69405be7932bab707c6a531a9682177c801f0e5316c20890254c9;
  0xc41bb884cd0095ba2ec34020321a48e6dc13040d75a9b406d188c76ff76f274d;
  0xb44b011c7c33b579df198febd6a4ddd7ec9de580903a6c3a5ffee5d7ddbe8ad6;
  0x1519b3c7e1bb2ce15b09b4c382555b7fb4e177a648f8ccecc37fcc4364ac2adc;
  0x521e1c40b9046ef6c3dd7a6b2be4bdcafa3064df37e2159da27e0add62b9bc10;
  0x5cb1f69e29e35843b1cdb50f3438e4d5f27799d356be00ee032c07b85db0d2ab;
  0x1fa19cdb47683421ff448708bed02ba651dadf05c06abb16037633140af2dd04;
  0x1789c87415fafd83732a2509e19bedcf58d7b5ef61c2b44c20b9053834b310be;
  0x105e523fb31bfd49ead3d5dcb3c33f7f3712d22c3e94b3ea551d71208ca4fdcf;
  0x61470b661ea5a94d977f3aedefd3b2eba57cc51f1154a9d1d04cf40b28c827a3;
  0xfea32019349d250659177036d833bb61eda6468b29c90bdd1d15ef1fba91ac32;
  0x87ad552b8cd0c98a64126b105557ba16782d4e28a61885eba5a969b713f6b900;
  0xc3205b1b20135bee242160d31e6e81fecaaf4fdf752666ee4d40a423c3c8afca;
  0xa4a239e633c4f37ae0c55c41a5e56362b307ee1ebf2c888d0c2791cb308c1b6;
  0x33751a119be5a44eb309ee4dc6a130a0a5c32ceb994eef0f0601609d3d394c51;
  0xfe09e99f0997c723dba73bd73352062b3f1081743881e7856c1a7964848f77d1;
  0xd065f07c7f2196b22b623be8033ddfd4f162201cc0c1881b7a8372bfaa5bd03c;
  0x17a375bcb62d16a3f8ac1a2cf54436d9e9b3ed7afbddf857203f4b888084bb8;
  0x82dfe0aec781f43856c4bb80a0fe70ecbda4f3d5abd2ee7c43c03d3717647da;
  0x5cb997746a381f0ad436476718b0c4fc82ff8728778aa9d26b9fbb4ed28c9a7;
  0x265d270ab7b6119c0f344c21d1b300b07c015782605097985ea4a0cbd485323c;
  0xca08a53a92d3732dd6091dc0e70eb4a1012f45732febbc78212db2443757d5c;
  0x55a6beb0f90337139229b4ff46e5963b324f2008df642a2a270eb9f2cc0c290d;
  0x12921721d002f8b05571e3d9ce5967d4692b03ef6146b8d19e66d93ecae23c02;
  0x3a0434fe1e126ada1f352242d40cefe6a7781e024cd8a4b65e8f0f9834b34b77;
  0xf9e2c539ac13be39adb92566be75cb6aee6c6c0efd7bc867eb0f4216b39b63b6;
  0xbf11249ded56d2c9b530d4e72d4a457c5126092453d44a516e99e199c05842e7;
  0x1fa1a4436efdc08c42a5f2ebebcaf4d411015357967520c3edcaa967fec6c870;
  0xaaa7d79228aa99546eaf3b59ae7e976fcac1459a93ec03f01327f979852799dc;
  0x19b8775492d77ae91677952f39ba4ab6c7bc3cb2fcba4b513bd43a89fa41c134;
  0xbe3828cdc866a5ab5d9918abb994d0e9b220595c1b72f9658e5489c0bbea2ac7;
  0x37c110a636eb436588201c8b02aa53310fa5ff53454283c3c88e114d7e485934;
  0x7f151d21da6c487b09618e0a8b8dce1b3cc3e8565cc8b7c444798cffb13aa101;
  0x46841a5fa97edd2931aee9fbc45868d8dde1d35dff87aaf866be4790653b5554;
  0x35df8681511c6957b4d77130a4b0bf4b76bba0d18af666b86d768a2a3b2b7d3e;
  0x4d80b81f6707d53b2d195ad8af9af2dbaed150568e105a0df2ce63423bbdc1c;
  0x6407a7e7817438449b2953cf5e296c1ec9c4dead6037b38d2f51b379fc8a6d57;
  0xb99ca17dfcff36c53b0f29e0e7b33db3f94e8d058437ca59dcad1ac145058585;
  0x171da7f5a1f5aac8cc108e7f937be4b77e1c6b6f9bea0c2f7d9b3c3d331c06a;
  0x3c4e48898313ad7f0f14bd7981eec52a043340c4c2c8f37df43f5ea41f3322;
  0xe8b0797d2628019d30c52a8deb46c9f481ffcb6f45846af1c7bfa1958a046fbd;
  0xe405107ac0828c56ac925193e4b2578e27b348bcac61deabaf54236a1c481e27;
  0x374e3f97f3eedf587262353c4969ef22573b5ebeca32983d9f196abbd3ed95ad;
  0xad820c71a6a89798118cea24db053cbe3a3ae8f3d939e26fe7faeadbbf6437e8;
  0x7f9d2fb6fab858125e522aabb452d0f397685287ca7c7ad29efb276b15e86929;
  0x218f910752a0a5263d4e4f040110ee92ed5a1d154b0458e879d3633d2d00eb23;
  0x58d19b708190e41e2fc80aa0baabaceac0fb70fdcfc864c57dbc5d601bb0a137;
  0x668d27c6e3e609034557aa502a1e9d89bac40c14f6951ec7723c64be64f6d075;
  0x52489586a04eaf1a40a5468ff33a3fb941efee6dcc7a52e78917f2d7ca5ccb9d;
  0x909d442cec53355e6227e408cafb117e6a24b5b6f3917504278005814a14a62e;
  0xb6b093cf1a31c95a8b43e6d0d7248edf0df2b95c9ca52962dd4bfc226ebb79ac;
  0x59113d9b43e7370a8c76e718ec224ba82e6713bc990c3f1605589395b29f15b;
  0xb050af405bb427f5ceb89d91fa617eba9684043e6c2f57432ae2b07523fa62cd;
  0x1cbb891a71795de75aced6d5fddacf818b3b0948882c98c38c187680f07a88f8;
  0x28be9d06e68394c3244eee2f285cd50e8e10e6e10a6eb132b132ae32436d886d;
  0xc82344a72be0accb6722291d5fffcc2b0e31ad3fbb8772247920158ec195934;
  0x4e38e304e200e0cc535688fe0a2bc689cbbac3eb29d53870996515c0412492ce;
  0xe1ded8cc4644d8b832eba8c0989b273c4d96ee10b1ee26c687131b16b832a21;
  0x85585e9bf6c0d23a2d7298e070b45737f37c2a35ff417139e432f1adc354028d;
  0x1cad1e3cef566942a3402b48dccdc752ccc0443f2596a264695a1daee71480cc;
  0x49b814c31fa94a2e6fc23acf0d97d742a1f32974dfd7d9aa887fc6e5a092571c;
  0x852ecdd38ae3373ccdc0def7aa8644443f00f8e612721d6333a19be1e81b986e;
  0xdc5bef03e4cfd8551718a2b725b27c8dbfc4c324b25e03190631834674b4166;
  0x2448edd2c5fcfcb94aa56f075130ba2f6b3c818e5ba45c45dd15ae65f4d4b220;
  0xa6c17c533f1440d37f7a1a25d604e181f33ce39a6b3236e851e37850e14ebe94;
  0x5b16e049f5c9ebf200b54b6363b41766e959fe1e3087c838f6b67cbfbfea3d53;
  0x5d54490dfd6986efde8206e44112096778328f0655e744e953e924d3ddc63034;
  0xb412817b2318341a5b1273541daa9457ac8c85d2069f453f7a3e19b85b168836;
  0x1eb63e7a949bb60113c1b609dd04894132f69b5ea213f384264d5f416e2fc9b;
  0x2ee90af8827fc48e138d4e83f23afe813ed5ec810de2f028b763529abbb28e4e;
  0x5143fa6dc7f0a1228d73d98f64a8c229049cc89b27e6a51d6d59b2385438f04b;
  0x17eaa6b3dada818907145226e761a61adbd2ee758ae9b1529fa05e9487d31bdf;
  0x41d31c517efbbf2ce4f5920aa49bce2ca2d85ef7c0a87c752f0b72c367e3ac68;
  0x45029b68479b9ae2ba7eca33b905610182253cf9ef0fb58e6d606eeeee3917;
  0xbdcdc450f40bdb8fe38c40ef9affee96cdeb29212ac52902ee70dc143c6a09;
  0x23d7fe75fe6e545d6a62c808c7af18bb5d5c8cbfa728a46c19a147fb4604217d;
  0xbd11ac4c18fc2fbd6120048a1977d2c517d076db45d432981303dbebdd001be2;
  0x9e8cf7a7f27617590c3ba8e9a585f42e82b8e48bea0f2b1c52331e91b0819a63;
  0xac7220eb0b8133ed2ea816200d66cce64b5427bbdf0929e77200bbd586fd711;
  0x19a0d10753b7e383c83848675a12af5159f0d958c48f12784c1da6f720af4f7;
  0xbe44ad956208860264d31fbab3f2658c2b8ee94c8195cfb62b86e4ab0e495682;
  0x120e9e59aa590c3366d0d6860e7cd6fa3c8840ef1f44264726d7b51030e97ad14;
  0x3da2121b6dc517f319598bbc215ba197409c373edeb0ef9eab0dfdffe1c1012e;
  0x1beaaac1301d7e6265952875c5bf8c5317a49f6b0a878e28efd8e4ec340529c09;
  0x15dc0e4bb42c3798aead695f12358b5815413f549204fd586e55aa80c513ef201;
  0x12c0e87b9c78faf17a288956f458259578a104afcd5f2a25319aba895600770df;
  0x16a9b91936fa3371c77bdcacb7103a99094e8420ed52714cb2fbc5e3c4bcad956;
  0x3634858b061bb68aae9c9aa6ef5a082982702d7424f36e5e4859a56c2284f3dd;
  0x1e42526aefcd9aa99e11b65d9385d0a36fdfb9cb84fa35620aec1c3bfd3b9fd21;
  0x1d53cf086b8848545204ef1f9be174d4baf747906c670e852d692dd3103439fb5;
  0x8211b49bcd39821a31a79669fae1d1dd6e1649016178ece1f07eed12f839c9e4;
  0xff6425d2798f87b30599d9f66aa9593564518db37fcc8d44fbc14734ca9f1da;
  0xd7703db39bb2b3a5635809631512b22e2386eddac07f7117b54072e36c2be2a;
  0x186ac46938f3902d5915a37d92b80825a075051a9cf9ec9279eecbd7c07274cbd;
  0x63fda31f5805e5aa148bfd746c76d887a7d6c6dc0ba1b5b773647ff479097e5b;
  0x1d2a92f4e357f50b17fddd039cc973150e049c7042a08fc7c60ed4a2146bbe0bb;
  0xa0a7a8d3911ebe499b8f8b9da93dc1aa7c19ab805f8527873278b81c3b71dfa1;
  0x97d5812cdcb6863117c75a3c60fdaa3a27dbdecbf2e40e08edf3687ecb867fb;
  0xcf927b79d5dee92b50efd4d84c095dd164ba92916217bf86769d20ca22b843d4;
  0x1a57d0eb9b584ffaac2be35e89202de55df5b681e621aad9811d6048aa64c5345;
  0xe23bab56109d2fcbac1d8f721d374c210d97917988d069f5fe559d2696b1585;
  0x7f3313f8d7dd0bdb374251ed28be4a0613aafc074606d34b4087638c7b9dca39;
  0x16822b24d77d619954bc5894f576a84ce4ee427c5854ab2139ce9edeffa7a55f2;
  0x109d63da1128056088c074004b16a3a8933f92b8566e69b212d593527b0798a39;
  0xd2b52e4cf9dd69efd333cef9254de414a9023de98d8016357d3f607cd5c16a0;
  0x1a1b5322d008caa9e537b6d7fad56b0f3be282f8abeadc0228afa8d360bb2dd8a;
  0x1141704aa2e43e2e15f293bc18f06386a0edbc751b4c0f282cebdc6c54d25ef2a;
  0xaaf03e9d22e73b8968c260f7c121f7b56f0d4c8b52c3e358c95c2bb94083980f;
  0xd0945242eb1a698b69790d5eac0b1510b7f3748bc13331e217d07ad7d9fab61a;
  0x1b91c736950dfa496fd3926a3007efbccb3c9fddc14364995c9756a3bcc3e64c4;
  0x4d3840a735e76aeae81b131c891de07a9d31be9800e18c7bf3061f54f9dd020e;
  0x8bdf433a939db462c0521bcb8809dee1e10d42ff1eff900d9da610eeb237ebed;
  0xd476cbc0458c9a9bd85aa4942c1cdc80e332788e76683d53f336400b308e272f;
  0x1e6ef83ef1aa4d0085607728c9042bc6bdaaed91b0c90afd3c912b6600d34255;
  0x13b670e3a78155d2c2e535f9e6c0276b93fa86141038dc71405f85671c33af66;
  0xe673add56045eb83964ad265cc7046308bf68f431ddf3424e5930bf30b46ac19;
  0x326a81c9149b5c6acbd6c0de140a058a181efc114c0156afc79de2d5554be44a;
  0x2ce866aa1dc20c945c133a1f45528e031c4610dcc0ac239406d12d732ee40b52;
  0x1c018ffb648c850c62f5fc8b3763fb86347f85e91c2713ac076b49e83308c9580;
  0xd9c5c04586c8ae1866c7000290740986129d3ecbecc87f0a148a69323ed22628;
  0x7dd8a583318fd10e5e1f57788d37f5c759f5d23524f07527070e3e1b1a98db55;
  0xc061cd355a658a7f508ede1137035e14a063f05a832d1ba92d27c5e907dd67cd;
  0x1aea7f26d42064d579692030618558fb7c9d5ad69fee5793d279d9adabf703c22;
  0x84b52e274cb8ad2248ffb956d30445a4bdce6c2c7e0d08a5191a013524eb9628;
  0x66ec8092f6f0381122ad9d201803eba81de579458038e01b14f11518235b6c1;
  0x43ce99e13e019b383c84e8787ec0f6497b76d8b6ce118603b47166f0248340d6;
  0x15954d219b4e906dee3df08e130af171b9368a164a0210d8577b14005ede305d;
  0x6c212ea1e9fd9b20171362642c508383bdb754d8978340e873bd7131af49fcca;
  0xe2a7e9cedaee4bd5f17bd1104f70cfa927496edba1d73691a4caf6581719a673;
  0xec4aa987e02485d41f43e1c58537e8daf859c622808dc1cb7a4ee82f22d97894;
  0xbdf2ce26029096d4c9e5748dab176e0abe52da1a487c80ebada1188b6edb1e3;
  0x2202eea2cee4ddac20d8e2bfae9f6a41f79d4b4cb0103b74c40eb101af6e84fc;
  0x1e503ee7782b72edaa969e16b9503995f24bb524a223b44803f4e43c72f8aa230;
  0x1c16cef9621478a8c02fd31ac5056b7194588eeba99adca1a338ec582783d398b;
  0x430fcb4cb73ce3209c078c7af0e1c26916538eb803104d97028793964ecfedb;
  0x270bc2f9cb3784fa9c7829519b6a5ba75db76c2a9d20ccebba5be4250a3037f2;
  0x4868cecd57f7cc8dd7a3ab34e768a7a29c2198dd0a0394a1602b52d963b4990;
  0xda46ed71cf3ec56c056320000c2c56899fa69664f25bc544b562909b763ea6fd;
  0x9db6323406cfb8c62e474872a302c9ad67745273b39a70c74268a7abe040e560;
  0x15a765be447e06098b2cf7ac0982175af1ba3e7237be1de829f91f8ac4ee97e0d;
  0x147a16f80057d5aeda2a9c4a14099b3bcbf1f65c8d49bc2f04ce6034c01c8a348;
  0xa459d2dce2525213eef74fdb6206a369203aa7c93ed1fc6ed234bf3302d3e7;
  0x1ba1dd0685e3adfa2f4e0a618931c0c82d7a3a49c4d95965fb679bd830e221a50;
  0x452078fc23277947fec36309880a61994029d5142c7e98a8898ddb12252dfd;
  0x37ef6a9648f1c6511593d58754d41823c1230a791eea007b070720ee52cf2ac3;
  0x77e7042989d0921eed1223d121299b6169d76cf5b3894c89c58aba5bffa43b10;
  0x18f16d693c9e0b7b2bc95a6882b6964cf6fddeadfaca377d52477e8c8a7ac130a;
  0x19aaba3cc12b5645f152ba2491dff3a44fa2f03fc91700383920ec6ecee642c5d;
  0x7fe908559d51c629c455d33b75caf5c8b9454eeae227bf41c9bb6c5c57bd9df7;
  0x80fb6aa7ae5134f93bb091e7a0aff0e5340d030a6a819ef7514f33e2c2dd379f;
  0xfbe7e36a2e8c15882d11f4e177dd77769ed6692f88a275af9479aa128c0398dc;
  0xb2f4ad3c8d92c7895df6a413842d66ab89db547401633f71e7f5303d9a4c92c6;
  0x1e30e75be0081b4bc738ffac0f12605e4256803a2844a359d5551ea99ef561d0f;
  0x5e1c680704b440d9fa4306dd70027b241af13da03c501e5f5ef3a89004564cb3;
  0x18e7c444b5bd68d1445dd7aac7bc3f28f826ae1fb857529589879272f6409030e;
  0x4085b417964202afdd0b0336b6774c95c5aa23929d5515fc10145554fadb7c41;
  0x1494d8e7d9c6a4a27f64df0781f988f185c9c6e883b69425f78249909e594b4c;
  0x15e29973c3168606dd9e1692b2f58bbfab1e495534b36687c943b0432421f347d;
  0x17ef44587838e2c49a28a4a41567ab199652b6f73e802a013baa876ac9ea31e3;
  0x1600a1133f24f0a3801cbda6d21e083f9f698fe7c2d6e4a567293be23ab4aa919;
  0x95aeb357891586b39d8b97c16a0ac44fafe9c747771d15b4656b1f302f8c9a6e;
  0x412814cdf7ccc03def098c82e69b279c8b183189b1362a2c42b8fdfaa8cd0fd;
  0xbd32eb1ba67fdfa39ce63c43922f4655250960c7ccd1a166376ebe0d6c47ce85;
  0x168ab2a853a21ada887065190d3e6a1ea8e3222a642f5ffce057fdd077b5c56e0;
  0x14e38f9a8b13e02a4c7bfcece6f1a93a3f052889bacd83fe9adad2f297147b3e;
  0x2fe9c6cd4270f593454e17a16ec09d09d3bd93c862ce5ebf2d87c2d1ea58efae;
  0xe328737fe445c921bfcd187d288c1af050ab939d0d5d2b17b6ccc69da81c8dde;
  0x9763538c06fecf40027ee8c4d21e16337790a22e229b953e8c2c0a6b61513ac2;
  0xe6f7ac4715f851203e4b9d356b36968d2db1d95d5206ba38d6d8853c652f437f;
  0x91e630e984fefd71c4e47710cf4f8f7f228035f619b3c03e377a110c8a75790d;
  0x1ec328c4a126908dc64739a9ec14ea5e1a344a2eb98a4557b5b32bfa1c4f4b071;
  0x13b7397801b6e8515f7f987d66cd9499986572a5d95a6b9f2c4b10fa30c0e92;
  0xab5738539838db205d24b59478eb4eccaf2eb219540b204d048083d4685995da;
  0x1479a69060338da9f63cfdfc6553945b8db44f75da3885abb96466c7f0d4e49;
  0x3c302d052e32e32c7b89c87581eddb394011564e8065775f1a67e469107b23bf; 0] [(0x926d1276e41fae13fdda5f78edb7802a76951509,
  0x1bf921271fffffffe406ded8e%positive, [0; 0; 0; 0; 0; 0; 0; 0x800000007fffffffffffffff7fffffff7fffffff7fffffff;
  0x7fffffff8000000380000002000000058000000b0000000a000000017ffffff3;
  0x3fffffe8c000020bc0000300000003a0c00000fcfffff9fbfffff39b3ffff2f1;
  0xffffe33700cf9a10f9724f1c03c5e05e1c3894133fb5395e5a07db3a3deab4b;
  0xc250ed7020337f5fa83e7f45ed34fba1d6b39ce9e8b396aa893d65c073e5a99f;
  0xa9a2a23a45486a396101626d322aa8e52f35ddc0ff046239a1a38d7e8953162a;
  0xb7a02cc38220efa69ce8ade4a8cc57fc551f8a28bf1d214646d8f792783a;
  0x1750df5cac70c94498a7a6e1ce8d51b6511d45d325e87f3fcd219648e66a7322d;
  0xe0f8783f1c609b50cfce736f505a4fb4a0460ffb6166998e5e0b893611a0942c;
  0x2ac76d84f586fd6e4955c0e714f0a6417fd82621437b1ef431e726b03838a696;
  0x771cdddc0382e4e12ed1dbd123e33630f6d66a4e41695d7b67977db5dfb95770;
  0x2e0e5ac759c63e8bd10d713bc34a2acf446f4ccb57d8d86e5baf4dcc88e4f01;
  0xf08281159feeb5aa0fe232b9904b435f312c9281fdbb86844b580e28719ba4bb;
  0x5cca002254ddcae8fcf6727b6b54174328e30ec935c90cfa5685044a606300dc;
  0x611708e86e6f67a788ba6e765f4867169e244f577c02e2f1305c14cdd65e4380;
  0xce0fa04ef0021f74d565489db55148135e48afc9297b2d5052ff00c2b3129e1a;
  0x3ab55ef3240dc8496ec67bb9fb9511d327736abd6c289e811b5d456fab5887d;
  0x4e5a84056aef2c2b3662b8ec77b162bcef0938bb35b7e4c6f9071300c2f6e5b5;
  0x37febbad807e927a7c6a4d2da8c314e06be08b4d63bb6818b3751ca66f24b43;
  0x1d1b246c4a19f0d0387ed46217c21aeff3a00e537ccc75e20b09b847458052;
  0x151e86cae1cd994558f4101ea909c8f4dad42a136f8d9fabf70f80b77d49ca96b;
  0x1aa94b71f36e9ca52f884665e67419150edf750a31b36b806c9ebbed0102751a;
  0x358553d6356ae530ef8d4eb9bcc2da8431a39604ec498de05fca29678c682f51;
  0x1bfa6285582783a32c583922c30934781ea951eaba78e4b69b8208c016a8cb16;
  0x5f39cab4471fea4ae1cd998ff89ebf084a5e057dd0eb3291992ffcc7048c57;
  0x6b5487bff9ae43a38640dc5bfcce20636c601a996ef2ebea9a2fa320eaf224d;
  0x5ce12058ce5ab7987dd1d514e820ce1b0ef99bfc7ac693050050b4c54e2c7ec8;
  0x144e32424a4dec73cc2f2b5467438fb92df3776f65412b3f404348c79eb35ce24;
  0x1c63c67b3e21c2c9b2491576f1992796f6d0007480f67a6a5f41b27c4e5eb9820;
  0x4938b5f14361a2dd5752b12d2e94ae3f84adb75bffbb4fcd322076040574f5a8;
  0xbc801423e8b08ad720daffa7e77baf63ba0ffeca644ede3d211029bbdf701612;
  0x40d89f32cac027254e18f7b3ed8878e96ce590991f4d934968bc0cfa85fb1d3d;
  0x5c308a9f16acbdd296113e0da4f56722758221b74990509abc2cf22276d63;
  0x306dfdb1413e56e0709b5fc82d6bcef2598765777703183571fe2ac8bf233170;
  0xb7dc056d7d9fd6669c6ba85c2d268c17b3c5a062fb0b326d420b2f02949a4c61;
  0x15fc85390e8fc3bf43cb6edf6ac8b8fe1c7229ba3f183feec1102fec8800e3f16;
  0x7abfb164fbf61a509ae8540525ba89b9e43a88a3e2a1011d952162fc2d895b5;
  0xbb460d18d18a1d507d6e7271f16f80b0cf2e946afaad85ca92dc4b4ef63c25ab;
  0x434b5c1c30a7cea9d54d2e45916881bbbfb2b4be75713b58d020747edcd094ac;
  0x78c46fc4fc7b3bb953f7aee746528c58d428c1bcd31c18661f9b99b1dce8627c;
  0x2efea53e3c5167cb0eff78a400b3b080b6cd30de98122c3f0810797bba8cdaa2;
  0x3bbdfd2c49df4d4d30008f09eca79dee97fc7638ccf9a22cc5002bc7d51cf486;
  0x5da1253d32450f0e8d07d4fbb00eeca213206bad3f1b2158179de7027f18657;
  0x716ba45f9b69a19576fa6d26721e06b4070ebcb02b72d17c2e792e4f97ade48a;
  0x155e96d45c0fea3a441e77fb08444dcbfd85860518721dc71a8adb720d37aeb49;
  0x1924e209d3f1bdd7fa6bb5af840332145412a5bc85f5b77818745329a0f916c74;
  0x1d2d0045b4b557a51e50a62f6f874f94934a0ae20e4dbcb46cf6c02ad4fc630b;
  0xdaaf6168dc50f99ce336958d02b23a84e42e331b82b3db23988ea33553bb2dca;
  0xdca9b20741fe7f07308b9169567fb280c00d9971eb9c6c7fd7eb6e4f36a655e1;
  0x68168fb3e8aed21bb183bd7872dbd14e79cd004a743e64431d6d0286549b6c2;
  0x1dbe46251db6340a0b042db2de63155558d35ef34e05f9468df557f65113f5c21;
  0xae8397f648c697d8d7f2c947df1cc674134f3952b8b273026376e77f0866a3c4;
  0x2f0a2f83e0019859d332930a922d0523d8facd78d6d8da59ff4efef45fb92c38;
  0xd13edb8c6bdc4fad615c6f3e4e90c216a8fc6e6f139e88ae08ee7e971bc00a52;
  0xdfb935e876689e285793d2cae345b2898855545c28d89b014af3547306aee60;
  0x8ed76aff0ff3da9d7ee8b3600ae1e6d9d781ac5fbf4c9eb6ac79f4fcaf2fb3d;
  0x243533fa95178a2b739b06ca32841e485c54957cb7b6759a06130cd4aad20d1d;
  0x668fb655cc85e23b12725a74ed30017e293e28ee1778bbd30ae4def0883642b;
  0x5a5e5a3d114ceb7654c9e57de369a2c07178689e9b14ec4bad98e389923ae890;
  0x4db49af31cf1808d01791a022c26384b292cb5baac86ed3a828b10d3d33ea8f;
  0xd0b4cbe18a5c8c565161c300ec7dc633638bb37d8802fc7a885f847880d8e264;
  0x410ecc8ea808519928577cadfb70952c6b45ab6237f1781910582d640fcb567;
  0x83823aaf81294c2f612eb4f836144e3cc5877b493ffc2cbaaf55c9c09023aac;
  0x4953aab48502e6d9dc371525c8d8e54a71681a0814b4d723288b627a8b853f50;
  0x166bad5710ff61e25555a8fb2007a89acc4c313eb4edcf1be621bada179c95b0;
  0x1abf601a30306c8388acdc02090ccf4b90c17aa5477adbcf3b1e631b323b655d;
  0x14ef95a65935a3bbc8b531595352302f06909ba6c67a01f9e53d8bc19884657;
  0x393b0fa10a84fa7982b269b90ede5bf30bfb1e615836645ae2209e0e4ad1d2;
  0x4e79d79b717abd77682ae1d8d117a8235e93df38a38acb229be20bc24b232421;
  0x1f6e24a4bb74eca2fbedea77f57c4f49ac2e7e02237d0f9de1e3bfe91eff5b13;
  0xc4bd8fc9e1ff7b3fe9cfcfdc9c7e666e3dd979462c45b7431fdecd0bff6699d;
  0xd880b4eb896acd0afd327cf826d82dea4683e2e03f4099ffebd3fd69c3707744;
  0x19a5e0a5b941c1472730de00e2f57709b504d6ce14528043b02b289e79911d70c;
  0x6e74062977f48a0bafe7f5128f9108fa9985ec28f4ce131b4e15f1f4fbc6594;
  0x1b7b235b9369ee08d91b7f08f06abb533b4c218566a210d6e6445b2d5268b3ee3;
  0x1c342ad6b0dbc1f60c9c4d0e246692b803b1234b968cd138a585b6d75f3a6c0f7;
  0x16130a9757639c06963301b8f875af83e86a2ae6372745dbac2e56604562465;
  0x10e28933b36d3270cbdad53c5f78dd1509a9fef0b975a09e4c50122601094f100;
  0x1f84258a22adaba35f152ff159480caea4da5df6c831d8568729d1cb22e52cea9;
  0x2f16fe27b6c8b75e42a0090dbf37fb21e211fe64465a1bf7c72aadefef398b02;
  0x1921d27f11282dc172d226d612abc655d6d78a017131c33487df769d9400f6d7;
  0x40009bb3a2dc31b0ff913d9f80ab2646a2f521e93283400662b8bacc119dd281;
  0x77fa19736c38b2cdc2b40f359382243247053ab36fec2a97f2138a7a4ac577ee;
  0x11c412029567ecd6851c1f4b0fca7813bfbd7a010bb5bbf9b580fee4ea50ea0c;
  0x9d5d266c847f5251f364aa9a44adad0471f2e873818f7e0e4c2498b9f58d;
  0xea39f6cfffb6cb2db04f2ceb4b16b834848a649663b795cacc0e77ceaf325f4c;
  0x3891b3f2430a42f80368ac1f53babc9e98e7cd7450bc844fa718bda212b30dca;
  0x10aec70f3107d390a40b4453d5fd3b473066788c127cda63dca32359efe9e8d3c;
  0x11535cd44c2464f346ba0d2f12ad13471a3a4410645dcc4a8303294de4b3f3e],
  0x4f5b418eca523fb75369a24772ba6e620c00261d7f768df08143595c559af3ce,
  0x22276f3b6051c72a50251baf7be7d0e405575a296daf2bd8e083a1a94f06090b)] mul_p256_ok).
  - cbn [map fac_q]. constructor; [exact prime_835945042244_48|]. constructor.
  - vm_compute. reflexivity.
Qed.

Lemma prime_155317_6 : prime 0x25eb5.
Proof.
apply (pock (Z.mul 0x25eb5) 0x25eb5 3 [0; 0; 0; 0x9be; 0x10ea2; 0x47a1e; 0x532; 0x678fb; 0x2f85; 0x6043; 0x672e;
  0x3edef; 0x3c27d; 0x9221; 0x6949a; 0; 0] [(0x2b, 0xe1c%positive, [0; 0; 0x1e; 0x17f57; 0xcfbf; 0x2a3f; 0x1579;
  0xd0c; 0x2434b; 0x55d; 0x11c3], 0x1c4a, 0xc5); (7, 0x56ac%positive, [0; 0; 0; 0x10714; 0x133f4; 0x8e95; 0x3a51c;
  0x2553c; 0x20abd; 0x8eb; 0x180a; 0xa46c; 0xebd; 0x69e], 0x3613, 0x1b69); (3, 0xca3c%positive, [0; 0; 3; 0x1439a;
  0x3d57; 0x57f7; 0x5931; 0xc12f; 0xda86; 0x352ad; 0x68; 0x66e4f; 0x69c3; 0x46b6; 0x10728], 0x14f6d, 0x7283)]
  (Z.mul_comm 0x25eb5)).
  - cbn [map fac_q]. constructor; [apply small_prime; vm_compute; reflexivity|]. constructor; [apply small_prime; vm_compute; reflexivity|]. constructor; [apply small_prime; vm_compute; reflexivity|]. constructor.
  - vm_compute. reflexivity.
Qed.

Lemma prime_191039911_9 : prime 0xb6309a7.
Proof.
apply (pock (Z.mul 0xb6309a7) 0xb6309a7 2 [0; 0; 0; 0; 0x2cf6c; 0x11f2eca5; 0x6678d4d; 0x76f145c; 0x407f; 0xcd327de;
  0x12a62ffd; 0x831ab06; 0x34f20cc; 0x5ed304; 0xe787; 0xae2faf7; 0x9388ba9; 0x16b2dd; 0xbe2ae6; 0x47d415b; 0x1381f9;
  0x1154f2b4; 0x2d675e9; 0xb26900; 0x1e09af9; 0x7dac7; 0] [(0x25eb5, 0x4ce%positive, [0; 0; 0; 0; 0x59e; 0x83d83a8;
  0x28b00a8; 0xe230710; 0x63454be; 0x5984005], 0x424d3b6, 0x1a75ee9)] (Z.mul_comm 0xb6309a7)).
  - cbn [map fac_q]. constructor; [exact prime_155317_6|]. constructor.
  - vm_compute. reflexivity.
Qed.

Lemma prime_208150935158_18 : prime 0x2e3802c35c7ed3b.
Proof.
apply (pock (Z.mul 0x2e3802c35c7ed3b) 0x2e3802c35c7ed3b 2 [0; 0; 0; 0; 0; 0x589f38d75; 0x35c3a00033d620;
  0xdc779f345a0911; 0x1bf026d6b1fb803; 0x19fe21383567df8; 0x5a702a0fc5eb61; 0x1463800c0888037; 0x7ae130c30e73af;
  0x1a9717f735f3d20; 0x17d27a674a1ff5f; 0x5fc1b62372bd6; 0xfce409f7a5ba0d; 0x1d3166a7f29a0b0; 0x64d072536ce5e7;
  0x34bf49b79bf656; 0x1d2fd1690e7bdac; 0x284834741030f; 0x1fc8da8596a0bd3; 0x24c9ea49d471640; 0x2df9c79665a1daf;
  0x284886ae941114; 0x17cdf521cac19b1; 0x2ef20fb309376b9; 0x550fc70db892a24; 0x53934353810513; 0x229c42ce924b89;
  0x186d77cb961795d; 0x8a69772ee847d; 0x1f1e59c91b176cd; 0x48ab2b97208a26d; 0xe00e5492ba0c6; 0x23bcc9ddb49c8f;
  0xcc118eb09c141; 0x2206fbb180c58a; 0x58e6d0ad8780706; 0x1c288189beecb79; 0x187d178fdfb9b2c; 0x442bdf471a73557;
  0x3c521b6de5c7; 0x79b2816e60599b; 0x1ee7a2495d4ac96; 0x1cffcee23f002; 0x1a90ed589e63359; 0x138c0846b7fbbde;
  0x1c5d75ce18ece6d; 0x29b5fb3f53e8766; 0x2d984132aeca6d5; 0x1ce44e36801e8a6; 0x1c2010c82a10abf; 0x1270aed6d25a2dc;
  0x47b8e4e879cfbe8; 0x2e3802c35c7ed39] [(0xb6309a7, 0x40f17c36%positive, [0; 0; 0; 0; 0; 0x58; 0x23c215e606b2b69;
  0x38c05c522e455b; 0x1e7d955bd0dea4b; 0x3a03ed8ad9da6da; 0x406ddb99b0b2e; 0x10d30b72ee2f037; 0x36966282953fa;
  0xda9872ae7755a2; 0x36a220c789b4b7; 0x30402ca; 0x17c66aa3465e7a; 0x23069e4f1d3296d; 0x56188a0250c93e7;
  0x345f774bea19d6; 0x3bf152ab29c4a2; 0xab93811e789b0c; 0x3b5d61d63bcb15; 0x76ee41f40bc8ee; 0x22c96c6fa2deaae;
  0x148e4e37d06bbe8; 0x2093a02a1d6e814; 0x28cc41cab4177a5; 0x52dd79763043cf5; 0x2013dd73154875], 0x1db8cf470f45437,
  0xccf4175e547302); (0xbcf, 0x3e9fba93aba6%positive, [0; 0; 0; 0; 0x16; 0x23c215e606b2b6; 0xf44760076fc73b;
  0x1ac2233538cf59d; 0xc074999277fe5f; 0x13a621d8b7994; 0x3e7da849ba6f68; 0x6d71eb6bae6ad7; 0xda947591e36b53;
  0x310061efc0f2808; 0xc2835ddaba35e; 0x2c10350f2d62c8; 0x6b384494cf359; 0x5b62ee7075ad14f; 0x17c7e58ecbe5e2c;
  0x17e25bb2b1697fd; 0x18c737de3f176a; 0x4608e1a8f9b2290; 0x2bbde7e492ec6dd; 0x1ce803cac9beaa7; 0x57c7ef69ad4644;
  0x125f9dba48e2100; 0x1396e6ea4644b09; 0x280957042b5b3bc; 0xd0362d09c0; 0x348c31a39d97a0f; 0x199721144a09b6c;
  0x453ba44ee8854ca; 0x13e24d287ecaa; 0x5c3961df14891a2; 0x7162a8e747e9b5; 0x6e5ed1d27cf05; 0x565e0e3e6864502;
  0x4426341d112731d; 0x1c9a2c680881e1c; 0x241f2e5f08176d2; 0x7be1288576ac; 0xda5e6568d7a9f5; 0x98433efc329e08;
  0x199b9bdac17daeb; 0x27909a13f95bd], 0xf8b5a170b33cbe, 0xd4b523992d6147)] (Z.mul_comm 0x2e3802c35c7ed3b)).
  - cbn [map fac_q]. constructor; [exact prime_191039911_9|]. constructor; [apply small_prime; vm_compute; reflexivity|]. constructor.
  - vm_compute. reflexivity.
Qed.

Lemma prime_262474755033_28 : prime 0x87b23e9d09d3e637b2aa341.
Proof.
apply (pock (Z.mul 0x87b23e9d09d3e637b2aa341) 0x87b23e9d09d3e637b2aa341 2 [0; 0; 0; 0; 0; 0; 0xf17b00c8202;
  0x31dde2d892c66d42cc2ac2c; 0x6959e9ba2914a97f8628db2; 0x60c1328c8c6291e307fb80; 0xbdda1150eb79344ce4ee23d;
  0x5af725b7a9f75fb203b71e6; 0x2e3d7dbb8c36fb158b78ac8; 0x5dfc0ce5d16aa79ef294d3c; 0x1410292e39ebdf5112a738e;
  0x807d88625b1a719dd5fe4e9; 0x5a20d8515648d5d984efb8b; 0x7bb1b11e99ed763e0029e0a; 0x6903e138f4f61db3202c76a;
  0xeafd5813de86215784218f1; 0x436929d70c73b5764eb048f; 0x71f9959177db442c2c4aae5; 0x1007a0b2c6739f130f28985;
  0xb27275c64b686151497a85c; 0x7001089771e2dcb2383d7c2; 0x437663edebdf4c0a5607afa; 0x5ab47d8df793811a96d5;
  0x5dafe8115197e3f7d4f076e; 0xd6910c3e04c322da6a821d1; 0x81240d79d0806ca91504e41; 0x39095525deb321dc59d42a5;
  0xda1496de5c6bae9620153f; 0x1076dac34f827561deb87; 0x600c1140129325a71a966a4; 0x4f37d0647f1fe8e9f283abd;
  0x443712e0c6ec3a8d47b1aae; 0x5e966902df071e8ca1def58; 0x12c515df3d43e88c69ada46; 0x2b9bb7016f5b28fc45f7ba1;
  0x18f5b951f00b259b60e3da1; 0x7805be0f3e68e6c4609e19; 0x13d988512350bd1c93a4c19; 0x26b2dde476e428db26a198b;
  0x13ae343e170ca90ae13d6b8; 0x6232eb119f9d7391edc8323; 0x3f7ce98e89c39adbe02c8; 0x4194697f12de201842192a;
  0x9e09ed6ad71192a1439697c; 0x31068ae8e44537f7b0f7ade; 0xa8b35383c6d7ee5061279fe; 0x74b973612dc302e2c39fd47;
  0x3a091d55c857886f9a8dfb1; 0x4c1ff0715b425acdb635c5; 0xa1dd3bcab12a788fbe4a67c; 0x1e8caabf03d51fe66ad2335;
  0x83ed636ddfe958981fd2720; 0x479b4d11038538a7d2d9522; 0x419b244d4e5d218a2165805; 0xb6cf7f8f89a9590a67d3b8;
  0x5964880912341adfcf9f090; 0x2f85f59c2cd33478e0dbb30; 0x4aa0a43b4d67b5f3080673; 0x10ce5718091cffa5aa852dc;
  0xc641c6aafd26412b211b90; 0x2a23c8a3005d4a800741692; 0x1a1bddcc9940e5ab0e2403d; 0x6ac970eb67133c9e779b655;
  0x56966e6499228b1a1d2745b; 0x41563d68e5384826d71992c; 0x864ba2bfcf53182562713cd; 0x3cf3a9779ccd87f29af2acf;
  0xfad4cc3c9f42f479ca4d3cf; 0x86f3d1f3ecdeb80f0d3d5dd; 0xea2b9e9a3aff14372c62ce5; 0x32d8711b7e402d2d3fead79;
  0x234e00d5da4ce49a71be481; 0x2d4a33ce2007e6b7caf44b; 0xf9151a8b437d9d3e4cf90d8; 0x351ba8fad0d3e14739a20;
  0x4286c91a789a40cd4350a7; 0x378d5f5f00ba34d569964ee; 0xe8290b34ac5f0ad651d0cb; 0x45afa4b87498da75f5230;
  0x194782bc1a23d245d2604d6; 0x91338f1696dc0aa4a21f7f; 0x3322110060714be04f7caf7; 0x8343d29c522faf6dcca9664;
  0x87b23e9d09d3e637b2aa33f; 0; 0; 0] [(0x2e3802c35c7ed3b, 0x2ef9ab5c0%positive, [0; 0; 0; 0; 0; 3;
  0xa238738cb353ec29d89927b; 0xefa4dceb9ed7930d1e2483a; 0xccd2ae2b03cf2492f47d0d; 0x3d413dd74caec338c2f6b3d;
  0x1e1708aa5eaa378ac52de2d; 0x97204b0d276f6297d044f; 0x37eea4f987bb5e0b2cb7285; 0x29015b011c83a90edfaff18;
  0x584529a1139055b73bccfb; 0xc2486afea1125e0d2525831; 0x46e530f3c924173bf0bdce9; 0xa040e6bf2eb89c3e165499e;
  0x1ee16d7b63399fa5df60481; 0x2116db8411b9d811ff135fe; 0x10c35315468a352262445eef; 0x305c91b701e5256c0439d;
  0x104d7c356bba4b44a3dba15; 0x13687af23082691efae888c; 0x34f282eb8e413413a52bab4; 0x1a97003b51a405e04546915;
  0x17425525f1e798d90c4bf4f; 0x8abff2f342e942977e3156; 0x1b70135ee9af3d137531ee; 0x33847a5fc70ee295604ddcf;
  0x724adfcdd2c301c25839968; 0x6a5e6550866380de9f838c8; 0xedb4c584cb4929ca8a9f07], 0x693de961c10a589c336a85a,
  0x5f31bbe910222ca6acd6f)] (Z.mul_comm 0x87b23e9d09d3e637b2aa341)).
  - cbn [map fac_q]. constructor; [exact prime_208150935158_18|]. constructor.
  - vm_compute. reflexivity.
Qed.

Lemma prime_104471_6 : prime 0x19817.
Proof.
apply (pock (Z.mul 0x19817) 0x19817 2 [0; 0; 0; 0x141; 0x1baf; 0x4fc1; 0xb643; 0x3e0b; 0x1bee; 0xba3b; 0x2ca2;
  0x22881; 0x3fe5; 0x1e7e8; 0x4e59; 0] [(0x151, 0x136%positive, [0; 0; 0; 5; 0x23; 0x1dea6; 0x45a5; 0x102c2], 0x6c80,
  0x2b59)] (Z.mul_comm 0x19817)).
  - cbn [map fac_q]. constructor; [apply small_prime; vm_compute; reflexivity|]. constructor.
  - vm_compute. reflexivity.
Qed.

Lemma prime_3969899_7 : prime 0x3c936b.
Proof.
apply (pock (Z.mul 0x3c936b) 0x3c936b 2 [0; 0; 0; 0x10e; 0xd6d80; 0xc3870; 0x116238; 0x18ce5c; 0x2a65f9; 0xf476;
  0x27544f; 0x4cbbfd; 0xf8696; 0x297ed0; 0xb4314; 0x5af4c4; 0xe94b6; 0x463fb6; 0x2efb50; 0xd4ca2; 0x3c9369] [(0x19817,
  0x26%positive, [0; 0; 0; 0; 0x10e78], 0x223c42, 0x121c87)] (Z.mul_comm 0x3c936b)).
  - cbn [map fac_q]. constructor; [exact prime_104471_6|]. constructor.
  - vm_compute. reflexivity.
Qed.

Lemma prime_100232803931_13 : prime 0xe95f681f97.
Proof.
apply (pock (Z.mul 0xe95f681f97) 0xe95f681f97 2 [0; 0; 0; 0; 0x46348; 0xc6d2f0db12; 0xabc4d96; 0x531729447b;
  0x1396887c7d7; 0x1eb7532ea5; 0x780173dc34; 0xdd9c5f8912; 0x1431c5b1d7d; 0x703ee1e3af; 0xcdadd9842e; 0x486a306f53;
  0x10bdc9fd502; 0x11e04b6a83; 0xdb0bf491d1; 0x140376e371e; 0xa564fe3ed5; 0x65f028f5ea; 0x1f76ca054; 0xcd4935337a;
  0x148a8dd0dc; 0x12e817bb81; 0xfbe540508c; 0xfd21f40f0; 0x2e2da5e934; 0x370af813c1; 0x78e005a8be; 0x1bc41bb86df;
  0x2aa55ad1; 0x1549186d23; 0x1910e15c4e0; 0x1494b18b; 0x4baf65c7ca; 0xbd4187b8b9; 0] [(0x3c936b, 0x3da42%positive,
  [0; 0; 0; 0; 0x231a47; 0x44df0829cf; 0xa9db850af; 0x52c663c2c; 0x6a2ad8fa84; 0x8e916f053a; 0x85a350552c;
  0xb63031c9e; 0x6c87db848e; 0xb5bdb85028; 0xcd0108f62e; 0xa30bd1fc6c; 0xd98591c2e3], 0xa75f7d650b, 0x250b5480bb)]
  (Z.mul_comm 0xe95f681f97)).
  - cbn [map fac_q]. constructor; [exact prime_3969899_7|]. constructor.
  - vm_compute. reflexivity.
Qed.

Lemma prime_n256 : prime 0xffffffff00000000ffffffffffffffffbce6faada7179e84f3b9cac2fc632551.
Proof.
apply (pock mul_n256 0xffffffff00000000ffffffffffffffffbce6faada7179e84f3b9cac2fc632551 2 [0; 0; 0; 0; 0; 0; 0;
  0x800000007fffffffffffffff7fffffffa18c82a96f8d36108097fec2f76fcdff;
  0x14ac1b3201cddfba115d897a19b4044239b7bc664edddc574f80bf33c3527388;
  0x7064e52e8f69ed02cd2ba9da3ce656d7c5fc54e9699df4e1e5c1d72129dac9c5;
  0x19c335697195af584c2d03bf6745d4f0a89ffa511b54ea41c8e2272233c81e43f;
  0x1381aea41da4a25895ecb98bf5b86dd19bb6dbbe91bcae9bd3066df5bdfec9ec;
  0xd1c70e1560b7e8685205bdedfcbb146cd4284bef1a5eabc60086b7837365fbb9;
  0x4ccd08d869280542690ed4f9b08f7812cf610e1fd68d9d0d1827d9f1e9becd47;
  0x8edd0060428142661986cd68e71307406a92572c7e0ac38d17c812a08a9939e5;
  0x1fa85292e50fe6756b597d5f337199224d0942d4c17ba5d958a2c6d0c5f4c86de;
  0x1435261b38527a6a2a0d2d6f76573fc50427f24c28932ac20de7a973597d1fe88;
  0x1e2ff0a3d821deb59dd7d1f868a00b29602301973847cfc714d9d0795ac67bfcf;
  0x16ee8052e5597eb224715f8cd6c6fa1a63dd4f631803c7b373e7134b2b0e5c3e0;
  0x754430c47bcff5b1c22a9bed61c87af31134b080b277d9e357617f951edcb322;
  0x68b0d62525d93450adafc815ab7391d61a7b6c167da20035e0f4dcbf55d3d8a4;
  0xad59738c2eed1128b261fb00794dffac22f891f298b84a242e437cefd4d368b1;
  0x12e29c23bcc9a323765d9cee0770b6e2dd8861024d696b2ad985060fe0339278e;
  0x14a8d2b4a33b515b89ac6f4dcbaaf9b4d7d65c6e625e13dc1c69e2fe1e5da81c4;
  0x41db44a928b3722021f0c8c8aa50e4b2b54bf26b18ca3e44fdf59777128deb05;
  0x144a2b9d0f2e8f015fa541d9489f5b46a06548c6b697d7a72414ea4d723d97240;
  0x1773b182919f2bcbbba4c11fd1732a2cbcf755e3d2752e651c156854533077ca;
  0x3ec4e793e3bcb0e1ebd2d33b7c309e105be84cae74c4d57e330d04da49fab09b;
  0x161324409bc41441897f7d8ddb8b483e78ed6346eec1f6188838df0ebc541ed8;
  0xf4d76bf58e6bc9cc3bf8542306ff2de767798952387b8e04751380f9064a2782;
  0x1e484fe2dbe803b88397072b1b1e521c731aee2daaf68f9f4c1b43eb474cc2ecd;
  0x1662504011d418449ae9f563f4e730c28d91ed28ed000a2a412c4bd9ce7d1ed1;
  0x140bab9cab27f337ccbadbad99b6cae794a42bd6ba5b55920e1e17340aae3c37;
  0x9c07b9e86f866b6014b59b111f4e2dfa84cdbdd04156f2c9dbe07212381c4b8;
  0xd9e411e689a65110f05961a7cf89c4d1187b777a6658f7fafcbfdcffb97172bb;
  0xbc8c12424b9184b31dc33414225ceb52b182ab6156935248f89e73f2bf229869;
  0x12c7ef6e366f0003f6992e1d86ee724130a27f4f06e6cfca0535d3004abffff;
  0xe182134ac93f8367e6e22b55def8d73d4c1cc7ee7fb96ae1e3a45a53f444e635;
  0x215ac926010ef081a0c079fba29f9d1c716ceb62f4e02ae7ce53cde404d44ff8;
  0x31f273d5030648264a1488d74ddcab66c2c08146d71c971629c7e3f76714ed;
  0x2757b99fdd2e6fa4e1c5461bcf1421b52c86ff7c75aef46b4a0e5f57baa4cf1c;
  0x630fbf55c56febf5bac55eb81ab01bfeb9005fcf0c4eb2d09bf92d02700f9fd6;
  0xaf186f611755ae4a5b7743fa70b1492778063c09ff3a6912e29dac056adce1e4;
  0xf86f3294940ec7e25ff83a364cf59edff42bf35c9452fe32e1f6890e5b2f3919;
  0xeb9a92eeb15cd04ef15aee6bff384a14631fe735e108d37c3290ca8ace76f8;
  0xe5ec81147f4cecebb31084ee0e48a5031879edb42510d2257751a2fd5e2af746;
  0xd658d06cada433ded709620dbf3f9c3f2f53fc2e359084761218c4eb32526ab1;
  0xdf1e87545d9f2bf9f03b03612936aae57d6a28b33788f322254078feaf856419;
  0x7dd1ee4bdbf85718616e98f999897759dd8fbad5442a19ac7b34b5baff180ce;
  0x998cb5f3a955f156cfca9ac52b746ef2d5f9e84031944a62bd4005e43eab47a6;
  0x17335be3dcf58214106834227420d6417f6f1d9a626cef5c327a39e918a819b6;
  0x3743550791aab6bd2ef887cfba551129581f2965744ce27b1c3386425f20a932;
  0x25102e0baba3f045b28e32f1137b75041306254254866740b95daf814fad79a;
  0x29ef26c43195ba2a5a2d1f445c349905655220a0ca94e305c16d64f220888f6d;
  0x20fc79ddf3c6299475d9b32039c7d7ca190a8a0954d2d39f4a5c1c7314629b80;
  0xc797c7536eb4ee9c236e01f8ed75ea03ea320c4a4cd97b080591136780bd2525;
  0x7eed2da56df9c63b95bee9d28163485726ef7107c53607556222f6af5d887be2;
  0x11198aea87e8c8f3634cdcc2aa2fa451a77523a271cd290b0c9c52e413894394;
  0xbc1b57c75658eb56246560e5d34334759f842f86176f39a5b991be2f49a3d57a;
  0xaf78e94b6af799c56d5048ab73ec04b17a18bd9e42bccdc40eba21256ee24597;
  0xcbfab6580d5f07fc71054e740eb27e2f9404f01f118110d6532b5202b1d06dac;
  0x21f440472a422e530671aa103575dfc517788bedd2cd03842c7b9851aaf2999;
  0x4b5da8b12296d1067214fb50e458f582fe7572c432e9bc1a4b6f6d1afcfa4641;
  0x11d5c66f059fbbfec6a059eeca853eac9b075528782139e4d461aa4a08b598990;
  0x1873d2b88c927a1123eb840129e9c5c0123d2a610ca4cf2858c5b9ff52525cf7;
  0x39761c288fbb80cf404ab1a765ceb1b9093023107739d7fea095146740ae561e;
  0xb36a42cec305cb8660c70b057d03c43c4cd6805b80a04f339d1523973db1d330;
  0x133ae4a66f04c4d09d7ffccaea25b2c4431bfe6362e431d21163496ec1ca1e072;
  0x22f0576412f4f435b4644aa9ea96e5989e29385ce2a60aa89f03a0bb0ad7425a;
  0x52ca3f63b052401b96844596f9df3a07b49f47bf3909694524c3478e2c0e09f0;
  0x5d8890b4830e3611dbe41c7ec5d6d4c0bd5f8acb383d278baadd80772c112af;
  0x114f96bd0b359f66be21c97a3d2745ff1afe766e6621574aac55566f221919c;
  0x1f0ae19d462b5526f0b2f3c530c0599e912c0a5483355f097f8756c15d48b1b8;
  0x1dadaf1b6ea7d5f765359bf0a3f460160855593defffd6bd44a9a04c34cb43c5f;
  0xe4b3c0b8d1579fac5072385ea9161fdef35253f4f403c3110826d3191936754b;
  0x15380b69fa3e9896a7bc806cbf6ab44c51aefa910774c63d357be7f37b1dca21d;
  0x26dad66a3f4772d33f47efe14a2c598ec27849eab152462bd21406587092785e;
  0x715a4260f470a69aaa7f184bbd5f1c522a1fccc397f0faf2d56e46c278278c5;
  0x1b5a8165aa7aab56e6a534a2883998a6fbb0456c836df47f7feee14af7cd56c4e;
  0x16bced8be13c498f5a959c502364e93908a416988c2992331f688fdab66596f0;
  0x24bc0e4c4655fe99f1d123000f58cbf60d485228136a2d304c1c7c224ada9b50;
  0x4ca88961e2f778026f733cedbf107a2456e1e6db03c1731867fcded537eb8b64;
  0xcd55e8020e661672e953f9578c515a44180a367cb25acb15773015f77e259af;
  0x1038956e087e79260ffee820f64a7a67d0989e85c715b2964c2a913843cfa2c87;
  0x31cb3a7abd00ee3211eb61eba7476bddca2950377860efbcd3a447b6a5a39e62;
  0x7f96bf16928e427ebdf171dcb88ac3cd3dcef0602289f60caa6954cb6a0a82d5;
  0x5a1d05d5b6165b1f1fb96a5250c87ce9d594df52c8b1d2d4bbfd0becab210dc6;
  0xe7e4ce2f0a32d9588a93307f7aa1b4763f243dcc04c9f28d41df66f8f2ca4d87;
  0xaaae0ccf420bfec183416381e21bc2d3abf69341c4e1a078d8edb780fc81e582;
  0x941d54130a0c2720fd0883adf1d92d105a0035795f214ef4226fa9b0058abe22;
  0x12cd77d0be4f94d1f71b070975baf70e3f43b22228aa51db42acd2cc3d7ddf895;
  0x643c0258a759cf0dbdad35e0aa6a0de846068d4fbe5f22248a4ce10e97e57d37;
  0x144fffd6ba8031af85a25a7905405446d37362a5e3137505390430e77f356842;
  0x33767fa8437adb50701f3e0bf37586bbe350a6c52b31ae012a91d0e2bd7c17b;
  0x35ecbac2abc2fee44e60bada29f886d006d06330ca2083df4b68aca93a81547e;
  0x623b02704ae3abdc21d01afbc877a6afdceebb4298e9c908ae79e7da780ee918;
  0x925ee90000281f32a65088dfc8c8803c2e0e3e229a80f33d8c4690b06bbdc36;
  0xdd23b0bee41779f30425b9b312e876c17847ef264fc2b9c8c00bc592435fba23;
  0x5ac5a6e4b125ad34ad32de2b78698a86431eca2b2dc2389049266b2b347235f2;
  0x30a44f582f5b217bb66098ea6121e2d3375fbfa037560a86e987d87e612f1c1;
  0x2d8c3e560fd6690de6e0221303a0d24a706e56d3f74ace7a45288b125e80a3b;
  0x3553351d0b6fcd81df08dc442795e237f0e6a05ab6cf1be0f87635d109;
  0x145ecd11c4612302f4e41ea379c4ca9e04c29b374e0c4195f7819d211ea660c3d;
  0xf329cc7712396cc8d4ef035d10e9b85d3a998616c9c4b3fec0d4cac4bcbd302a;
  0x524e048e183dd033096f78fad06c142379aeced454935e84c63c35ddd24fb389;
  0xf778b763fe03a72e3332be70724227f659785b35910e8028037a98c07732dcda;
  0x825462acdec6eea07cd356c36e96269ccd3bc4ee8ee01aee4659d9fd1d0ea955;
  0x1b967197599a719f52e38067b15fb124df678a64d6bc724a8e1bb2db6b2fae4ef;
  0xd1cac32ea16373f7ffdd2f65c2df612cfe553d9b14e1206749aad93b3514c1f3;
  0x5c6b3e05d7fa6742adf5cba502a77a4e63a30fe7ffe2350c953343262d5fec2b;
  0x1bd5d77ba8430b84f14e28f1b2eba5a37f4277d4a289f8402cfa593805ad002d;
  0x12ad7bc3fa67e241b619c1d68b4af940b10e1a6876ce5cafcee7d2dc7a3e5000f;
  0x73996f87c0bffcea4b3c349562f46cc7c19ec815e2639600392206ad72981971;
  0x8706e813d4b040e5beb2eba927b856a9448fb963235497de7b412aafaae3e0e7;
  0xe03ff0a220ec8bd5e3674dd057ee38db49c6c6a47f9deefb977c1972c19724ed;
  0x56264dcc0db681d57713b63dea4aa73ad0a5d1f873c78e02286a472df7927442;
  0xbd29ca983f52bb833c446533015664a30a543595141cc9ce13f47351f687531f;
  0x17afa6f2ab08d7029fd3b0e796d3f1d7d89bad521944d63d44010dcdba8dad7b;
  0x71038f4fa0206d4840be7bd24774b074ef62947816a70e1598f4c1ca3bb6b27;
  0x2f3bab2df07cd2fdda5f0e4e677d3854a69092b58bb0aa69c641855b5f165860;
  0x160392e2291f2667452a8744c86179193589e786fadaaf0d516e060ceb88123;
  0x3aaf53112f2584e2eee36354d85550a498d76ae789ca589176921275b96ead1d;
  0xba7c4ad15b30236dc6e3661111f0509b683cbc1ad4f85ca02c0a6d3b8738d83;
  0xa17f7b9dcfe9bd934fcf5746305bc4dbc47fedf9488b2f87d22b7832439c2f81;
  0xc25dff183a2327a8cecc24c8b0afdb9975aea5ce8d18a293ece5ce84265fbcf3;
  0x1ab01b0121455abe06ebea42979c3c321dc873e4d39ace8783f42f571f8a9a72;
  0x61adb72559d7bab53f2826d84709d438a4d9e128890918f80e3d99669987f;
  0xfb0931ecf327650e1399f996979d51bd54bb9dedb7df343eec3ff5819ab3f58;
  0x1c921020b4ee915ab9c7e60235cb23106dedfb7a31f63c2b4fae58efa8b8e66b;
  0x1499773a13f33096cc9686a2dba6d87e6f867457e034da7484d096245685a7f7b;
  0x1e6c042c942c9841ee2a2056a0bf0c379bc593a6c6387b5f62971fdde3c7fc39a;
  0x3809350591f588aea483f48940b3fa28104cd69383e7d33bb39aa66cd32403f9;
  0x468336f20ee014b7269ba9e3e5df4a6d10dda1a142f5a83e96ece072e576dbce;
  0x34cac85add93da0c6202ddda0598acbc76e4734beecb352e8c445a5e8da2c14;
  0x231ce9ce85d4cc7008002e49d1867d05edcb1b3ba8926fa75fb6b8d66ad468df;
  0x1e53a0937ecea249cf2c7b6cc8cdc273efb25c7226af6fdc9889def75dbd6e1ce;
  0xee3b055c1f2612f7e365d2dd05437d869b3ac23a233fe9b51136ef790f8206;
  0x5dd7bc34c18996731935fe2f9c9e83e63cee0457031bdf02ccbff7d74eba4797;
  0xbc919dca5bfcc44389e7838a7b8d7d55a6b0bf778535439bea9b6d4e41c1a299;
  0xde424a5b5d26991de8351b347ea14d57244406169275e7a7d060e77beaa5fbe;
  0xbea1a560f4ffdad37257413cd90a83bf944c765f704d8cb17fe1cb1a88bbb854;
  0x1e3d5315a5e0cc815d2ac4a88c55e9a467e8f4c02480e081641cc949f43607261;
  0x2caf4fc1d926b8a545213ce03c647845fd4ad9da8364be11f4ee58f1e15d0a44;
  0x262495c223112347f6e1d163a6a4f64a31e0ef8b701049c2b3bd95d6ddfb22b;
  0x3e580838482bd8a7ab9dbbddcde5dd4023bfb630365d1f007059995148a44f4;
  0x8e58846a81edbc966fc324287b3e91e6535f85da82434285c1c415f433371eba;
  0x2606010e008217ee1c4316c260112e24cb4a72c46bcccdd8c812e089ed93042f;
  0xf86e85d1a842f803200eda16d669a5e38e708724ac04463f1294bd0698a484a;
  0x8671b075c5556a7c1dd36d812492a8cae18d4c5883178dbf1b7a7b27f3089f99;
  0x12051fa0bd562c5f75b65f47f02961231d75c074acd7b6be1aecd22f0e16c0ae7;
  0x3379a8067bac6a1615733523c9019a072dd23787af9cf7a1e4db7bcd81f925a1;
  0xa98eb3340f604d9d12f7ab6bdbd9ca7debc252ef07a9c417601a6ad08aecd995;
  0xd4f41040a687c26fc9f29a04f5c7e35a271a9d8a9035ac6fc3035f0a6494c032;
  0x81a26700f818a812c6162bd2b974e5077258c0f0610de3d7fe90e38afa7fa6;
  0x4c39b5e6535a35f272de3b718225a3aadb2ae3cb3883dc2c83d54ab6c719bb2d;
  0x6c1c0dd173775cc10a6355e15407d2ce80718cc04d96369033bab106caaf9bd;
  0x37f67102d8e8ce7acee00ed36d178018a48a925c56d357c692ab4718acc9bc1d;
  0x3dbc9ad3b9172e4bab0c658282025c6e717ba2274441a69544fc1322b7fb8918;
  0xe4b419343e4800950779b69384316069a9cb1173596b6f13223b9c00195840b;
  0x18387d6e923b1f38ac50b5b36a47b98513ed0e8aac355bebbe6f9061d4cc6;
  0x82b4c028b2e732630a2b098e083f07f7e6708e308b70836a768aa6c4a9c7dbb5;
  0x9b6d134032c9dfdc7e1fc522287bff504b2cdbcad50051bf9f0eb23f6de2d374;
  0x3dd62f0927567c28f99d7a639c84990ef10dde8f9ca3231f13ff24497b050e1c;
  0x2d2e9b925190a66bde02da178b690e1315dcb80567bcc7e4495321909b58ad43;
  0x2aac0f68143f98d847aedbe538dcfd7b1c2dff594bfae60faf303ce29d451491;
  0x10fecaa974a9794f87a6a7c7945e820cd57f3c654088c6bfd5416fd4798c333d;
  0x2e2c95200ad9f2703c657475ed525da36d5a88fdc1347995abe07153655fb61b;
  0xa29d8dda5725b72ae2b62aa43136011473230247f5e2f78de6ee9ba5611b337d;
  0x1870c4b3fecd99396932d0a86780e5506e7b847922ba704e40aa5c48aa59644f;
  0x85dffd9f54c3642ab72ec3c7e0d7445c5b96c6518ed1331598519758c2195646;
  0x22cc4c47a2234eac11c2ad3d8eb4fea07a1af7fe3b75ce58cbaae7761f62c0bf;
  0x7b7b9c5aa8d101989af46aed92ea6c4cb14e75cd3987c1cb2bed7a61a0e6e52;
  0x2201ff80416353e1e2e8bb65d1594035043baced99e2a7649e68c8b1735875dc;
  0x8895450e768e90a331ab9d6abed14074092ea6d1c4a36aa6252ecd73d206323e;
  0x1156bca774d4c0cc8fd19db602ae6f0c9f2377bba1c3f315a4e5f878d4566935b;
  0x69b8f64796210c7682b48a35749fc25dfa4ca3bce8f2a2f7186798256f90cef2;
  0x7577b2e7cbe7580e6691721e40bc63c45b028cde261bf027021ea46b8315b294;
  0x17caf7b7e8f518f494c2629aff3a64bca8533422378bca9b0b06a8e2a207adda;
  0x18f4ebd22061d59d98e9b632b2ad3d32f688dbc69893f83cccd891f1f2c7b46c8;
  0x2d16165473d7c5a5852bb590393522a66ce8c941392b6c4a8842aa3739bd75b;
  0x18b5ee2c4d88681ca87a447842d962542651efc9371a26fd887d6377911fb7dd4;
  0x2fc1b2ad2c6085560ceeafe4132d028cd92dfbd878d9cb35ef9b060ae9a148fc;
  0x209ad61f90e6f83bf8b283b8210d702d6e56173d3428bc74a7de4f8c916eacb8;
  0x3201acf64ff3ec0473e7a6ae6ba38d0add0dd789ed849f90cfa7172c54a75361;
  0x4adf49a83c1bf0d65aa616ed11520fb2889865923685463d136b9a50462d3a3;
  0x78e5c55d33af7be73191851c9b1be7e22b9fb01e9be8023ea0d4f35c5f409f4;
  0x51dbebfb5d354ce45a86b21021e348197965df19c7bc91198b36fb86f59fbb8c;
  0x19fb6f3f7380464940cd4d0437cbd746b892f92c8b71d9c7299e9315ae2f2b65;
  0xf693e77d8e13788e67151dced3ce28bab72e8a6ff0b8f54bda18d27ea50d27e6;
  0xf0cd940795ec69289867a4bfbe74d4e10b0b40c014225d001bbbb0d4d40c1401;
  0x30a5bb56cf2ec38ccc450034c3ddf8320e79f8a532fc4b87ec590a102afd690b;
  0x17ae9e92e8ec1eedb7143df01711945c0c0606e6531a5bc1532f4ae0035182d1c;
  0xa83b41a8f7315fbf36d7aa584320b580cc74d52033c14fe35fda0d5f0c9bf0d8;
  0x6616e495b37858ee8b5236743ec8d90218b741d742984fe58f10f35e2c68bdeb;
  0x1f32b08a8b496876ba8218f18d2e63856edfc315ebdfc32977477f766f81dac19;
  0x8d197ad110bc0c62baeaf219eab8a4b8492ea425575008f5260efc1ff144b94c;
  0xdf71fab9d1ac90bde09f8adb31a22f3cfec0c7c5b5d026adc33cb0a4222c0da0;
  0xc374f5308f75304f1d5d9a547506bacaa2c8a39ed74dc271c45fe19e5267e8f1;
  0x890b17fc59a8ad7ddb6ff9a2f893782d6777bfef57544ac538f6e67d25050bf0;
  0x3e033093d4ef01e4172e0ba4dc99b4ecd63ef887e11b185212cd508e45a1c87d;
  0x7137c946a12f0915407a86d13c738cabfab9fd71543bd9045059001ddbd37c6a;
  0x65a8acf92c5ad36ed514aae341022b39e91cec52b0634a9679490e6cad593b94;
  0x13678560df5e28e7fdf0d3dbbc004e21dd48c669b99ba16a6ba3d06e82a6717ce;
  0x1bcee2b714b48fe9d995760c3386d2e221d6667898fd91312d35f8b342fdd81fa;
  0x36bfc46383abd759d8186f7bb6f3272a760a9224dbe30a2fa8c11ef72b2786ca;
  0xc55c28720eb76db849475f97e2726e907841800244147bccc064fda74f2a2b17;
  0x913b9452114ef30c74f66da19571f612d5233a9e5a265bc2d0901f3eea8e78c;
  0xc400e462dad717caf2514d29cae2313d8e1c5310b8c9234b4980f804f8a499b;
  0x131a2da3fe1a40c98712004194e22dca66a3adaa383cfe8467cc39ff78505a9b;
  0x10f72a26f598ff62faf435242ef2e649f026e730cc18c6c553b9ae685267a3fa;
  0x3a863e8a202ee02928c7e8c5070fddc2d46675a4cd149401ead8c9b36b8ccf0c;
  0x1b6420b3f719c86c1373b41ae723659dac1634afb486b859b982f943c78a1006b;
  0x741763e9fd878236ad1684a742f876307ac7cfd02f6a29820cd62e9e78402d8;
  0x2c2a075722154cc1bd4e98c493c8ce655f7ee8bbbe36eb1e1c279a2bd6914907;
  0x96044ab3955675c7366e77260014587f2b032a55c20de7a348258f5d86df89d1;
  0x1691c0342820533dd5e670b9891ef8de752a6ffdaa107528c3c5932b29a8a5584;
  0xbb53498ec71c15b56eb84760247fddf78a3f8a8a0b3065077bf05855337e4973;
  0x7911cdb3f5e0923329901aaf6dd489c2b7f384661bfdda23dda9c1c9b0faea44;
  0x867250bcf8d4ae5673fd36790114f8526a00cf30d8610ff8080d174a1435a5bf;
  0x441b0fdb07558df63dce219dc029e810a43669961734d0fb62383252a4a9ca;
  0x4055c2cab80d103231e94fef4e7c59e7fbaf7f820dbc22456842d970684fe59;
  0x2b5d2d287f7dae9772f27d4e99f2918e0c635aa29b1117c2f457edb6f8cb6cfd;
  0x1d513e9a5da232ff2e6472f1d6e6dbc7b301fd59ca66a47e7118800e0d4707b;
  0x9b8161de425c4afd6de3e2473b78c49ef7e5e4e5e18d4aa9837f8785bd36ab5;
  0x53b91efb5f07709f118f84ec29ff6b7e9e91daa648756d53bb2ad1a789e0944;
  0xb8fa201d33018a760b12a1a83be244fcc4e6f9cbcbd3936499c4540ab390c30c;
  0xe37ac5f18150a3026bfeac5dd983bfbcb63e6a60c57d84d717e628801e1aaa37;
  0x116ac18bd90c04521a93d2ddea2056c11127e70df4d7d001c0d4691fec8500ef;
  0xd3a56898273a880433f01d67de50b409793eb547787591d0e72601c6c89dfa05;
  0x2d97479bace2a1569fdec5b9b57499032017e98487107c9e31f3fc59a333ff1;
  0x4750776bea37918ff8576178a5facc15743876449fbb9867310964605604b5f3;
  0x1d8eb0434992d227deb1f17814edb09d251e3b045393af10ffca7710868425ee;
  0x1644cbfd2691fc1f632ada3daf206f45e0efd321b13159b93009b8f48e5b16bf6;
  0x135b3d5a10337b373ce9b9022b6ddf59feeb42a60a158ebd7ed4a6e1520dbff25;
  0x8330bf0fff4ea0eadaf4448873af8d510c08e88d287c962caa2d1922555189a1;
  0x2fcb164f3ab0c02f46bbdd8f5ee1db5f84406958aeb9a8968644b0557ea1a09b;
  0xe79a6a749df8f32c9ebdea313e47611fb7d16fbf03aed1b8b3491ccd0a4712c5;
  0x1237d9d77b9fd7eb2717ba8bae9826f01fad1035be997e04ff1cbcd6e8662b780;
  0x14633b2716445ecf4765395d963a455375f9046508461254b4294e45c3e72dab5;
  0xa6fd2510fc9e712ee5ed48bcb4c98cace12cdfbb06dcb567f9caf3a07a3bb056;
  0x31965d9063aa601ed6f243c0882b726c75f79719e7300494bbf2ff06ea85ac49;
  0x101b45a270b60f3c5fc45e67409539826b547db284e44beb2501b6849b8721043;
  0x3f7d2d8a54fcfd8a4a366853550132c0308211a1dfe67bddfab1131b1062e0c9;
  0x9daee4f684b79a781cd7cd41e177beeeadfc620da8155a8a89ea26fe65f9460;
  0x7fc3bc8c39b3d7f61c06415e32311cd1d5236ee61531efcdb09768984cbae3d;
  0xaa0dcd37276a9f4d87743dde7b5641a18a6cbcb3770531e081b22cf167f19baf;
  0x1ffe5d50e1bfa52cb50f1ddc5695943c5def0463d4ee77e2e84d1389cd8e62f1f;
  0xc4528af89a3254c91f04e4f07a65dd53eb6c87e5b3a0c403d2ae69e170d4c3d;
  0x1511e02025cae3a8883d94da9839fefd94964e49a0465a07fd3a5d40fa539f392;
  0xfc7273432bbb85d05a2dae7af2a78a80eb8192dad3abfa1fbe5981000f135f8;
  0x1ac27c40c7e199a65fe82e57a714e8857283420403541ebc3d6efa1457b51ebe7;
  0xb879a8fdc4eb3931b3760e4a0b682a7daa2b674d0eacc3dfbd4447deb0ada6c6;
  0x80509736e3fc7565a5dd490c2212d6d92e7001cba1289b9fa6c5dd452f1e2e19;
  0xffffffff00000000ffffffffffffffffbce6faada7179e84f3b9cac2fc63254f; 0] [(0x87b23e9d09d3e637b2aa341,
  0x1e2f6018e5d57b5f98bbc79dc38587fb30a494e150%positive, [0; 0; 0; 0; 0; 0; 0;
  0x400000003fffffffffffffffbfffffffd0c64154b7c69b08404bff617;
  0x112a3ec111522d67170f106a367cbb0af79d0ff9db7f6c539fcbd321e6c414c33;
  0xbb8bb92c2d4d5d5fc923ff2711990e7f8dc86e6c0288bcdebc9eff3e474fd04c;
  0x5220dea5b4f7e9cc45046f29e012373063275978e56128fbc238bd6ff9e6ea70;
  0x24b4e2b7988a25f0bdf04e48f68a3fe2c14b049bb9390e47ae7761eea4505281;
  0xba9edc705abdbbb16878baea1d6af2775934ab215f6da970b41762b78fa67f45;
  0x200fddb8fee36977b2219359d9df677960fbd09174e07de34023f301fa1ff542;
  0xdbad241bf8f61feab0fcad20ab7d7e3a4199cc6f8c1fb63a646fc66121c79718;
  0xb46c458a7b7ae0d1b05fad5de59ffeebb7e1cd0ba78f894c07ca91141dcd8f;
  0x978ec6c819a1eca64fd2f167f977003c797148f6e404c27a34ada87b72c47925;
  0x933ff9de5a10ae24e91bb5fc9b0a9d34a62702fda8e4913bb7d82be7e6e86;
  0x8077b46dfb905a0a6fcb2a2c14e5fc2d568211a82ba46e6ab0e7d1ec623f203b;
  0x14824949b1dc0e2e4ee817af614a2ece0b538dd19e0baf36f40dd94c58a20662;
  0x183dc9573483d4dc658346b01edded3848c0ba3dabfefcb329731e86832c3ee;
  0x2f5b41a06632d075f57da2fac57bbe40af65d989b231de9b9d68955a9fe63b99;
  0x2406f0e072b551f945ecec9d55aa992d4cdd0538125aef613c59266f61f077d2;
  0x40654009b0895984eece943f9f4ef7209830b38229973ae97c6ec924ddca01d5;
  0x189dfe72318009e89f8e468c990161df1813ce8a4499289291f3f685c2e1ede8b;
  0x56fc819dab5964602e6b3ced8a1f07ff64bc1a4e636fc690578b267c4ffa2f21;
  0x7fd6888794bb02d1c1bd52aa9b46baf29d599bddccaa59cf110de33c3bc8d084;
  0x361cd6b76dfa8d3fc60dcdcecf3e34df3bd31ab8911fc9195ab22120255ba89a;
  0x14f35b72bd90196388e9fb85f0980e9e6c0f05ba4cd0bf0f92fcafffdd8d779a;
  0x1707629392c840386a8d5f7c3bf2fd5294ae1d50f6ff8a883474a8c10e6de3bc3;
  0x1650cc913dc24f0a8a4b9e572363b0d32cc8db63d90cf31e5bed8889d69b16d46;
  0x265885c85a90245dba22a362e633ca4ba1e19afec910e1b24f92012891f9ba;
  0xd0564c7735761769789f6f144fc4ba5af597cd414988a689333dfcb9e22c3de;
  0x25e54f16fac7c756b2da7bb7d7a67b5c813d444baaee5287d2bd44dd37f30754;
  0x1b9227ae16fe4445243759aadda68b48b5597840056ea5922db3534be494e084;
  0x17802b6709e91e1e1276f05b972846a91f8d9e5afdd055e477a9d165280ba5d5f;
  0x4c6d92549f876d900de65751c92014018a715de86d0ab97ee647c73d241f4;
  0x15e49208ad24985bf808550668c2c6c764159298401cb2951baf7b2469eba7689;
  0x10f1688e58599ed7f55997a9aa82c0441c3bccac201354e4a89f479a7218e89b;
  0x28e73253149ec4670398753799c6b6c8c1134dd5868f02faa9e206f668ea7472;
  0x4403786b7af1090ce944e8ed26de07b6794ed218fa9371c8b596b27312d24102;
  0x12f10974bc99da2044be0cd9c8103067facc402c5908bf5390815bef0d76304fe;
  0x9fc64abe3cdaa3064cccab20625e308ec4822a0c58864b2da3f38ceb4514ffa5;
  0x858174f24b3cae00f96ca0979e23087b571a024fd3a5cab1bab3b6ccfaf81dab;
  0x6b150e4638698df77ef4abf98f32e9418036d7224ef66308bad2bbd1f7cf3bf0;
  0x76a40f76c2ca21c79d17a012a930da119f9838ec957fe185d8fc197650c8db62;
  0x4ba4f01c12d5d0ecc59926cdcd44f603f25bfcc2de17ca2046d1f1a54d0a9f;
  0x12387028a781e2acebcfacb2288f6d6b6c635c363bbec7d4009eec884f00cbc4;
  0x15604674e73fb264c9bdb98cd2cc6c499bedd84f3505fa4be7947a92941a47e61;
  0x1f865f594412672b3632e93176f7d7a24d942e832eb6c5a4c1c3900bc43a4541;
  0xcd8830f9a2092755ee2ad76bdffec74f76bdba6d619166b1c71492a0d4550d1b;
  0x25570a8fc203801613720edb16c39ede778802e89d88d6fb51d858af95d917d3;
  0xb0bf42a1875c4f7f2f8d4259d58fa4b796ca6d75d04f843c706d0cdc122c3c3d;
  0x974580a0bcc7d1f6c576a042e6ba2dc70e4d801d7c84839694dc926298ea9ac6;
  0x5e8633fc77af7803c08cb2ee3f0b0d4ded4f4202e72005c693eac085667746c0;
  0x962251787ab1b09747b39d98176e6e21a2eea1811a34df25e22bc247f38d99;
  0xb2fdca476c973ad7a054c857f2a3ce04583d7d7992c33ad685e4395ad8deebb9;
  0x93b5ec76c298d4a9ea77df7e383655c2029bd56b18ba7f235348f897a168408e;
  0x42c4f6ba3e046e1e19e207b95f938e49ea79261c138db41921daa7d0541b7f2e;
  0x2a7964fe904b19a7323755c21b4100f8cfb411a8e85db055172b3e1d34a939b2;
  0x104224e7bef976e5ad07846f07723a4392882f6b02fc9471777a1304b6a652ae2;
  0xf221ca73dd311172ceceea21b81d7b82ed1e8aafb7b490ba1e16ab37830b6aa5;
  0xcae75cfbe2c1eb234d6c0779dd683de68370aba366021774943f5fdfad6cda77;
  0x1123993a01bfc6ae31154e6b619c66ee72b01531f1ade76d4185e195642b2c318;
  0xa61e786c015ef832554e79e650eb5b358905514d70477655065614d1d4f3e78c;
  0x4177bdd6d4e0aa5348ced207dcd29620c129365d02b0ac2ff25dfa01213878d3;
  0x485da5397b0da5b48917a575ef7c2cb914536ab2275bff716156ff71a79b7443;
  0x1521df8b75fcc619d3e3ec6b7025a750942e69ba29d5a729d4aa3d98eb301504;
  0x6379e3d7c667daeaf688f755ec4390a9aa70ac0db251abaf56eeb1fb3e2f1ddb;
  0x2cab1837ee5cd4be5b7cb117595ec4f7ba8fa72ab5d37d604fb96e6125da2898;
  0x92fb2c8cfd90aa22e457c139feef0080d5fe4ca4f1d0cac8d02ec80dba9f53bb;
  0x19f934bb36f1f6a61de8c787ccc665351a5d0807e2dc02149b056c3302331531a;
  0x2fc07027c1a5dc07e20fbe421156ecd0d22c4a39087713798560d246f20eb16e;
  0x90c6fc47504e0aff6f5419befd552c7bbe38f5e97eef3ed6771c7d0e254351c0;
  0xdd6adf8ac24fb9b3fd837ab5e6d48f1e8b8ff066f04f56dc52ffdf14cbeb0a8c;
  0x15e0a451aebb9cbfc8c3d372674f7db7e4ad35296357b5a94a7c7ccfea0b6f4ea;
  0xa3e70dec9246195e46123ab59d44875fbc68fd5414725359005ec4ec89ffb79f;
  0x78462fa41075d6d6a4814b0c98167b80fcc513c29c7286b2603920bc8e341392;
  0x5c5e65e6b9863ff0e2defd23ae0675ffe26bb131f6b335c35c0cdc322a5c82e0;
  0xa300191a30792b4a3aa814f0ec4343580c79459ea429cc178fcac152bb33475;
  0x75483f6bac50e25174349665132d7752d4b133fa087cf9bf05a73085f6234956;
  0xdc9a305b13fa4dbb09fb84ef3ee3dcd2a0585c72ddb62fec9c516a4a07d3a4d7;
  0x9edee8f25cbcabac6755d7814fec64e91c65cea3764027dae9cd8d308d5a6a;
  0x156898fcf4921f6a75779dada21228f2cd72fd521246bffc1321e885d4e01d677;
  0xe1ad9e662281937fb5a536274f06280e91151b8b80528adbcb9bad9a3ac2113d;
  0x20e20c66f03d8dc8b5526bc2359998ab98fdb698dcf6c09a5827ad11d9e7228;
  0x2404110bd8f0482b6d2ff034a4f35578bf7402172fcb8c1f0e8caef2def8b50;
  0x7917eff931aaf932d3edc3ff898694e60af13ecb68adb26a92f69e8dc1dcf842;
  0x1cc410ee84e46a722ff1fbed65f78f2bdb18da9936213a858f48c7df0d464c162;
  0x3c01f5ede2b5145ab03132957cf247fe35f94aafafcd7c900dd8f1695639fc87;
  0xea35f0987e0e880c1d5a00cc2c66117284fffa948f5d10dfb774452a41d0523a;
  0x159ad70dd9021f9a1827f27129028bb38b4c16ee5c227a8187dbe004aed4c3f95;
  0x1574d9342278497571f5729aca7d1a137d07edad62ace186f0a693af14e56470e;
  0x1e04dd38d1844fd77a135cb7c8aaa904e2cbddfd79a4bdb8b2da2263d10dd4326;
  0x2a4589a42175e8f193654467f26c0d7b95cb20e0b04a3af2f1112adcfe98074;
  0xca3655e0b189675839d1fe11485126c412264cf90d7008bda17acf3b5a16685e;
  0x79df97bf65b6e28f9a971f071fa4c23a08acb5a0b48d99e8d0a72310490371c0;
  0x75131affb9ae97fff750c0ea06261fd8cb3acbf770d7ee921d2ec096eef89358;
  0xdadc12a5b850d99dea01304d6b019408a525748a8bdcf1b4e6f844de25005cca;
  0x57ff0c27f0c1e1118be368b2f09f326076ad2016b63f8151d59c742c7bdc1222;
  0x30ae211732cb53cfef1f8609cb73eb45fbcbdddd96b6cd56841139f76b554fdd;
  0x8d6f199e7ea802059cff72e28cf45b422d35af41193370d10b9d0a34f80d664;
  0x2e0a15f85288be12fc40ef114bdc076fad30061b28c3f63959ea9ed270529cd1;
  0x174ca25d5a8daaa3faf496ddf2eabd0903f4204648ea7972e1ccfcd19b2686;
  0x417bd204dd4cd3b83c399073d6c18bfa98f7c02320a2992528a8c9f699244c0e;
  0xa2e497239843d079f90181672e55d8e2dc5e17456642ca2f67c81458d92d4d36;
  0x38b8f6386d493f5630c63811c25276ffe6c52a2d16f588481701b887f6da8ed1;
  0x114d142c36c7ca11e304fdadde16bfb23d612f1682d40489568fe40ff7e77a2a7;
  0x653bcee81a3df0476f4fa9daf62ace4148bdbe94eb2244235cb59f8dceb59bce;
  0xbd653deeea0fe353a229d13626d35f1c7cc06b33839576fd7224ae9d5bfa676e;
  0xceeeb622cf84d47d6ff8c2f9afb18cb6d0f3515cee205e26c8434ad2617aad41;
  0x1a292d7c7a2c8690f7169d82bbe7484a21e1d0b0e0edbaeb1c68b9143f11c137;
  0x91c8d11e2756d40ef0a2c28bcff85cf4ac25fbb78d2f3ab1d0c471287f53fe8;
  0x10d6c2d2cc2b395516e682b1daa3c0418fcc767d3fed68841857065d2af0beee;
  0x629b96b26ad7dbbcaa9945ae86cca927864ae5c6cc38505de608f3d4dd453e22;
  0x24d40b60f56e424841faa84384554c79e015e131aa8226a123f732e276e26284;
  0x1c0dd583f16eaa3508b7ceac4c55d6089ecdf1664d5a74a1d994ca8ac50eed37;
  0x747d20d464e7c4157e51d812b2d8d9a88aa01d4d85bf0aba2913ca051a69c646;
  0x1b6320821fc5c7a7230d9eebf9258cb5e64a48fe8d5e9091bcd0240ba8b71e095;
  0x8bd9c29cd2f63aad89e8d4af2654cf2a56197d11144cb04ab71bf2ef13db6;
  0x9f5d86c427617bc1723453559e9e66d77dc93725e90ff98e785bcaeba69a20d7;
  0x8264d6d56ab40d2be1a0457fc461a75fa82ac6cbcdfc51bbcbdd190264f491b0;
  0xed230058baf0c0e28c9c9b0dde1ec43987928f4cfa53dc5ee2f791a68738b49;
  0x6834fc7a87bcfadc8756650f16601132ebe1a4e08a40ce3164aa92dacc4c77;
  0xc37ae33f4e713d83e2bdb0a695b8a7675cc86f9701e793c657621f887a7fc7f5;
  0x643844dbbee6ce9f02964257de1126fa13aaaec61954f940afed586413210e5a;
  0x1e8e2dbbb565f3fd51a0790ca45bb9e4906e723cc4180dcd97150c1069820af;
  0x41d7610612dc61e0bbbe3ee21139f5945896b3ec1c8f6a02896bee2e65d88003;
  0x2486595045be6f2ce5977ee2e186c87085c7d1d94fcb33a33d21da821fb27c06;
  0xd010b946a052a3c48401ac0db1850da609eef1503826f257ff50a3ea90eed452;
  0x76050735babd051c9eb922739c21753ecd2eef9d0f7f0614c19dac963838a82b;
  0x112a231abac01514c53bf3cbccd06f764dea23150407110f811abf8f5ec9d25;
  0x427a7cf16df789afd53d1cc262a275a6d847528a8938d41fd5e370bc12192487;
  0x6b750625ce0d9b192c06a92f6422611cb1ee84a8ea44f00370014d216b44c317;
  0x1dd09d8548fa23e74596620ac6740b1cfb1a0168f7648e4686f9103b3b3a750b9;
  0x9badbbdd37162fb7bfba7c91e47f53b4c7de0a6f04e09deaf715b88cbad50bd;
  0x5124c0703cf5885756a60f69c4aec2bae0cc713b46aec392bfa1f208b16bed64;
  0x799e1b554057d75da37e07de312b7f9b2176775cab221858d3aa75bc83697f8;
  0x10cdd619348892d95f4d4ffdbc4ad02bc596a0d8b8064791abdf3e4b77bdf46c;
  0x15d37ca4d74abc74574cdc53a766c2a5a94f2ab34d89ed3892d7a625ddeb395a;
  0xcc90b4064a06111a9a2972e349583a6e6b641919dec30ab285f7fcb11b83de47;
  0xa26a73bacaf0f37cde3b81d36fde3ce970f061aa73b8f1af7d7e292e29602263;
  0xe123e6571481ab8e991a6e65322dcba92df8cee0cf2bbb32659f5987b921e865;
  0xda1b5f8a937105474c9ca634ef7290ca8e1da964742a91357c5a1ee0047d3883;
  0x358d0f066d47061fe46eea74bd267a47cc178545c54b24ad809bd5ff9305fb94;
  0x1158bbcac2c1442ba2ab7e51fbb1aadf2e64afd02d364c014313b42f16fb55395;
  0x9d6008a6ab0d554f8d61e3ba893b965d60a8c707453212e89f1b85ac3ade7b14;
  0x7195d96782a7078e50e4535f6c8532e0898aef8bf368e43ad1b2ebd00d77ba1e;
  0x4e5195ddc3b1702dd23ab85f327e30e305493952d6272b7b19268e52f172850c;
  0x40b575c65dd40daef8ffe1e11f2be9aa3e7f911cdaf26a7358d3cdec2ebc298;
  0xa3d68dc6d801ce8a26e243c8160057a07b4f3dc62a404eba3ca9488f96326910;
  0x1c62667e6823d543e757e873d901c23021b4acff3a4ab5cd749f8802f65d470f;
  0x462aba330d208e3ed46b21e0cc659b3d67b3d5741215fa4e63adb00f563b408;
  0x8bcbb833ded7baa2d12d5e2aacb86db53a7cfcf10a9d500f6e6da8495358b559;
  0xd7351e66abea9a383a49fab8dbf644d88b6335f62ad4ef398411614ab0821c94;
  0xd22e88a5adcbd9c2aff60eefee6568fbaa6a24e12542203fecf1fe01e87424f6;
  0x683747ffdab5513b08fb1178d8d83b205ea12648b32d9e31d8ec5b0aa95de3a0;
  0xd13d6449d09108f67a3245e13eb27de3d3ccfb3b215cba86b0e82db6c057e8b8;
  0xf8397d7f3b4e9b6ba305dbccca294a77fd4fbc9fd1182117b90ffed6f6afbfeb;
  0xaa4857175aa6490e50d77e7c5f49c1dc785c090f30d36891e2c1b3ec75c38c2;
  0x3cde73f86584b2ee693878a82ecd1ae0a74e2b4a00ac9c848819228472aa5fe1;
  0x336413a2434c30805e6a83c8fc89394d6e4815ed571e48ddc3f66591c8a4256;
  0x4eabb02c1995974c03c1f5163a44d6d424539bdaef269ebb5ae50b606cc49c0d;
  0x69eadda19692bc62380c568504e3bd28316a92f69ec8a1fccf0dde91d8fc5e11],
  0x72ca5f0d48545c9059c0d962203775545c6248bf5ec7809bba828ec3264e8033,
  0x5658f27af704b48f20df8130d6d5e1616f124512bc9c2ac4ada8778ea6a3dfd9); (0xe95f681f97,
  0x118d23b119a3abc83fae56a5055f31e220e2879f75f07ed6783af30%positive, [0; 0; 0; 0; 0; 0; 0; 0x1000000;
  0x1fffffffdfffffffe000000010c64154be9d39091d685829ecdc25b2ab575;
  0x6df64c08e790c5cf2b200aa248777370c8515a1c6b2fa1a9c63fb40c419c52;
  0x2eb13ae4a9fd0a5fce451c6ba4d59186a642efb8f31d87496c23579661779b97;
  0x105f990bfcd2615db54db477ce83b91c3a457fa60a92fd51b363569f04851fe22;
  0xb5393b05c6cb4319221d7e7c0893b79f640a7d2f6845177732b003050ca77721;
  0x63a03e2e925301197d0711adb39653df944eef9caa1068ab76ca670c2cbcfbc1;
  0x34b2586978ed9bbad82b943190f8553979d3031ee01ffe3cbf028b3ee76692f4;
  0x5894745b4d67b5f4ae81bf8b80774c9fc0f674dfa574ec94a7489df35358e2a5;
  0x7bb9ae7328ecff5384dce0a23985dea76328772fc95823ed6772836ff5ec7566;
  0x33c588b11f017acca10b020b0ee4cf204e0c3b259391ed0d00d55aef1e0d8a3;
  0x21b60d924b1e05134a368d7cdff8c7453afb763a906c805d27502f851a88b8f8;
  0x10294ade45c6c385cbf3bf4ff6d0e6d207dd2c2c3511cc071dbe6a4961ccb335;
  0x1790f8296349615774b44969b2ba1b1eb9e99fcacc701b5dfe27cd0495e77ab8;
  0x2adb00e37366b2b6c02c36e3d743d5205d27370821f7981654cb6ff7200f6f4f;
  0x13f837c6923d20bf385daacad424205576a5a6301cd2f5e77d08ef08b261fd7;
  0x1fa0d40d91f15616c7e7f107dbb09f27e4868f90dcf70cfee0490227da4e73f;
  0xb0faa241da2c18d7a1ebe1f53746294854f32c037889a6bc00ccd5b883aa4a93;
  0x11ae3bc71a7cfadb8bde5e3a6581c7c0a31784f8e19d62d37f1f311c85a52a1c;
  0x25d89e6fc116d5262d0d413592e4b4e37df03acb5f0d51871f886865d49b1d82;
  0x1ebad3c918a4854f91b533c758e3c835d7c5c4f0b7f50a8c83d211b4c706aaeb3;
  0x58be2d92d325c50282ff54eecc6c30185eba9a4f410a41b456fb516a98dc5e1e;
  0x18213307b0b9bc678a2434351d76804ff907c9a59abc27ccce687b7332a12bf9;
  0x49cce7f606a565126c49e9f5cc24d36ad5e71be9c8a45dd141e4dbce98d756e2;
  0x1a029a838c548f37b12e0baf722c652544634438aa8206448d8d85840ddc87f8d;
  0xaf544bcbacdb2793c559fda28546997792f71ee2f4e6298fb799454c27a1607d;
  0xaba091846a64ada13c4857e24785ff84a1cc1c91531ce52b5099a0ee9b2e18f8;
  0x95a724359f1ffb0bfed33796c8f3bd7bce91ad9839496dbba31119b6fe14cc7;
  0x15d03f31f229fad876561f4f6695d651e06c8ddeaddaa86f1004be3c7f2fffe0;
  0x1adb7ade86e262d946df685ef454d6c17d0ba54bc0689fbea0fd662cdfb1a8e3d;
  0xe8531fcf22e59a3a78b897f5c442ddb62ab4fc0b3817ed88e391e15d9f90142d;
  0x16cddfb563c19c0452a22c7f23045ec9302952ec9ef37e886e7800d113fd94ddc;
  0x3e554df1c65a3760057a48d7ff8c4bfcd70c7c838c4795c6f7e8f20e2403e583;
  0xf9ca481a1c4f801f113f702923b342bfbbe5ba677301e45da8400de1daec2ea7;
  0x283221249ff01b8e9598c0bf3d4b7655f22e43bbcb414a37a8bdd6e89aa17d94;
  0x177c0998dcb4cb132883b1cccd05d83036e2cae764521b25b2427036265f1c71c;
  0x112d7402d89e006642e0578f05f54356adefff3720c4712e941b37764d7f341a4;
  0x2991cdf61b1e77cbd72f3dd35fa4508e196d7b4170cf34a645116979a5a36fd3;
  0xe35eb34e505ea58f698f86b61e913e08a542a6391b1a02a658003f3798c4bad;
  0x13144075d17cd1d1dd26b165c02a9a120f42db81bd886196f0ef95896bf285c49;
  0x42cad808687edcc743d2207db67fd7359512c55c483a342fa08c4f378861cf73;
  0xcab0828e9b8cb439f16a41758eccf9b302714465c92ffff334f678dec4d0adbf;
  0xb744bb0102016ca9820a61c26ec28dbb185d388492d5cda310eaa137e411a4b;
  0x5fd643c8f8ff8212fbd5fd6e851f4c55c5c0c25ccdf646bfce3afdfd33ec827;
  0xa0676e9fa031a868cfa6bfff71a38a8c4ee04cd2bf33a2153709daccfc9cbd32;
  0x550d7e97fecd43bca6c01cbf83e32fad5bedf022ffcccc0cab7a2f3f1a2aa498;
  0x19e4441b7262987c525b96dc2fce26b08a1da7e03b51dad7248e1d087d93c0e41;
  0x9c5679483250e7456590eba8d89a833a3c1a0a8ba3e833db577d7c660e9ff8ab;
  0x9fb16f822f53614d922e00a6c699b2b9a456c4478915d5d71928b6bb702cd3b1;
  0xf89a19318e8aeb87297582cd6dc8389093f24bd3a42f0b1c5a71b732586545c;
  0x43ea1e0a289dc7bff19949a0a0861ed156edbb73e4f9d36f4d8d8201cf45aa28;
  0xb537e27a78c59c68f0c0b12c5ea406d8d58441a64c529bbee24f703f2b487b0c;
  0x300e982e88b864cd8a5c59e1df324de3856dbdde4722ea67c81cc4bc8c7c932;
  0x272d2863f9846ec711d5bbac72819dc16467406b9734ef2544ff8881ca817e7f;
  0x1a987ff433e1957d1f39385f949a7e04074b94fd009788f14009f5780da5fa7f;
  0x1ccbcce8aeb8a01ea87cbe35c7621413d3d054ea38501a18c5349705a522a0;
  0x84f1b33bf1287de412cc3373959f36d3bd965480fc72bcef3bcb0458c3e99aa9;
  0x4980f34717bf9a1f25efd8777c93eed14b2458a36f8dc7e47e72c029f74ff5e0;
  0x180ef67976aee9203065f3ec38cb71d4f1afa5d509160ac98016a411a638bc3f9;
  0xabfb0bc7d975fc4ff24fa9cb69f87a52bee59f6c0ea5728811db7c1808884941;
  0x393a346cc74e1825f5a1910c80173be3c7e01a2c34bf67441845de493046dbbf;
  0x1020620c490028655c4c6266008650a8fb5cb09780bf3e841c772b19c34e7fdfb;
  0x63aaddcc5c1250140cf100392973ec3031525cc223a43753f136d6216e257e;
  0x4d019453dba3616700f831a18afface664f8bd71a1b7a749c47a13e357fddd49;
  0x61a592aba0aacd2500087ac9d167d7494ac5da8d13cec780cf5d2f1eb3e1dc75;
  0x25fe9638f56117f9a7fe2b8dfc607be9e05e3ea11fa0818ec63007c029a667b0;
  0x15b90d2a7bfd8a4f656f421756554da4d59ad0a644e804de94c1810367b148d1;
  0x1ed01f96a09688c4c2aad61585c8b05549530566cb9f9430aad92ee663e2b0e86;
  0x158c033e47cf9cae08d228617af690a88ebc99790db76378be54e44271fea063;
  0x9ce184cbcaead4c68f83ca4d91f0d551258f3d5b93314828994e834a29c6ef4;
  0x16ed6498d5f30989b366cd8b9855ce840de3270efe9930a5bd68af92a53ae2ef0;
  0x18284d107cbf50ef05b8fb35e40160f3dfa6d9eda4d24e13b3ac45aa6cd2d4d9;
  0x829408975234260e7920940c594407c0174b0e93944f9a2b5ce43799b49d5c38;
  0x100b86705eb7afee04c08a360d69f5e24c8c7d473ee2d9fa91545aa5b44fcbc1;
  0x157e3a89af6472b6caad8a983ac8c48583e34116e22f46319358c9bf047b0c5b7;
  0xecaa231e8d029180c1b857f88eedd0f0f2e81a968c22c8175806f1b2c7c7d9ab;
  0x5e7e8efbac5fbea21b0a3c516c232ad507d57510d2319948026eed260d0b5a44;
  0x18f1732936e860fc6545cc64a543d134f36c7117fc4c7f5fc7c79aa4f6d0f049;
  0x5dae2acb086cf012df4e73b8655f7677afcab3bf8887ec9f02fdf4e484e08774;
  0xa9570118a864921c7a93eb877a54d18ef43c0c3afa2222fa4f88b505658a0141;
  0x83a70544cab77f1234a127a9b1194b5c1ab17f54d39fec46d0f773c7f2ac7208;
  0x2808da8aa13633998d9bb8d52a4c329d3a32f787728cd8e18c29af06fc8d9739;
  0x16886c21d6175611379b6b61c1d8118ef251999d09274e0fa2bfce29d4e5e8dc8;
  0x4c47adc70841b239d69c3245cb3e649190b835217b82183ee62fb9b5c65b39ff;
  0x3dd1f5bd27d4cc511ddbb4e56771255ca2b69b95ed9ca8cd8cbd96abfb09bdd;
  0x48be0a3cd796185b41917b7f20c5e5e796e94abc79c837574f4b06c4f01e78d0;
  0xe00c275f3c1566ecd8a6b1de903eaf6a998e107fd343dce53edfc500231f1659;
  0x115c63f4359eee3727159e3d49a004d2bb61eee06dc534973e53f63feb3e2c35;
  0x9a05ff26692ca966c2a633432a0189e669f1f6bec6dc93105a3811f826f24806;
  0x70001fe39cbe2923fa61ebc9b6039ab2a24c4cd46dc032dca4970e1458bbcf1b;
  0x166fa3b4921041b4e0f0d763d75f94d8e44847249e2e2be2780bfa51625d689a1;
  0x103c5de01adebdd7dee003e0f4de4e048e17de4c70409be4640f0bc5cc9d3953;
  0x692231aab33d2c6270e8857d13499fa694f07d836ad2781a7742d8a859e6a4bc;
  0x28dae7547857d6191f159c7b3e72f210005bbcf3f2895f51abc02cd6a43e091;
  0x20c14b04465f87307aad5c12dae433fbce5817732c64136e8b9e323bd784aa23;
  0xc485829430a8bf261fc14ad53762e7b6e611b4f12fc962e0cbd82c023a61f2b1;
  0x531e164e99d1b98dd6d1f7762b7c99395886e61439259473c1c5b61e571347d1;
  0x395fa7f80d4e01efc61f2cd7b74f7aa5398ebb09b756c2196d31cb79a9599730;
  0x618d2ab88b5fb8dce1b3d38443503e5b16f667f8c1a9897f63bf5541f9ced000;
  0x658ec3e9d37be46b70b7a82d3c58c05b503080747deac058d7822e1a13e32019;
  0x166a30ea23467f1b101100cbd0f46ea60b6842b1d24079f54c0cb59009fa5ce;
  0x2c66cf1021b4940cd35d7c4f8564973f0da3b2968b76a85ca5f7a3e3f4c9c7;
  0x7bfa63e84eca66589a6d63a747da51f77d3b7625f459436fb8cdb5ced1dcd024;
  0x1655ba743ce6d178f3f47ef48a288e399b0bd1a3cabdd788e3838af8801a7d9d;
  0x68c3b31c9240e7f2535f46003a2411326aac21f4bdac944d97b728ca2d7170d4;
  0x8561776cc06a3aca0976f0f0a1b44f35f906e1449f500bc9f91ee0ac5fb394c4;
  0x1e565dda2343b003e654b7d168edd924a2ed1516739b2e6a7231d4015af0bcf6;
  0x913458d10e6124304299d89397d259e50642d9dacf8d380186dde7fcf37078f;
  0x1175ad65e88a2fc9c0668b64ca6b90a4256ca875012d543c7c1d0e4fa1c13c80c;
  0x2d819631702c046675f56c8f3287f6252389fdcfb978797ca47ce8dd8ee0e93c;
  0x1bf62ff3475bc7530427a91d1f2b9d2d4808950bbf78c72cfb376a57b6b2b1a2f;
  0x11f7b94f27e4649ef7f3e7a676a706a9c9e0a28a5f2e63bf4106fe666b586ccf3;
  0xa32ba07539bfaec4e1cdb432108a2c0bef3996159d7b4258afc61fe68a4e9a84;
  0x2d08eb2a57b70906518a98ccfeebe222b42f0cac232bb911fdc9a20c2b8a2f1f;
  0x879f515e4ed0b5a1b9d792b1732c92c6ba37c05dd1922e2607f0991774504aa2;
  0xcafe132d042c6d260085ffadcd495d05b9a0af4a4b52d0567305f3c38a08705c;
  0x66e81c1126b164bfc3c064e97ca1c9df64baf164ee995b633a835779d2a1d135;
  0x844843f5588c32bc9119763f06e8e783d43ed9436bc47db4af4d0111d9c153a0;
  0xf8521e1dfa25f72cd53d5602c4af09197b09269d4fec6a622ca5ad6f2f149e7e;
  0x100cec2ac2332cf2536889ec0f242067b90238bca7b1b4cc1db83fe93b575f68;
  0xab3c85b8a46f2910d3ad3ef1118f4555b97877dd99daceafc1832997f33f5976;
  0xed03a2bbccc44808db208bc166b3b767a12292bbc6c06ae277c1b7ff362e3b26;
  0xaffee5522f4664e04c370e513298827804770a0487f19552df74ae62527ac171;
  0x332d5850d7e54f178969e5feeee0103c51d23da866d7d5e9f4b2f4cb0f4f380f;
  0x70d8fb1bdccdfd639ce0820d7997bd1775f3706275ae5c21134e1a40a81822e9;
  0x6f8c17c38bbc07a93b4f88de41928d3133e71c3b54e1cef423df5df09fe4e91f;
  0x1517ffc810bbb315cd5861d85e864d4c8983d91a8b73055d55970dd4aaf4795e9;
  0x4542af466b6d996060185a9dee5afde10cb0e0e98776ef9de7ec4dabc261f2;
  0x1237d224b267e9c8e9c9fe748d428e459c18d652ac7422e7dc9f4b60c05695a0;
  0x9cb3f284c5b0784d5c86c68828a6bbddb2f805f05a5a832dedcc4425bec5de13;
  0xa0741fb36c83288d1d9b54d3721a76fb338445d02a45b6d9bf772615a13ad900;
  0x10c4e782cb8a3ec08e5ae4b33151ace2ae539a3dcd9463b84a1324c372a91ded;
  0x8bbea1f0ead9a6f1e7e8fcfbcf4ebfec47468d62935602ff6396c6b205fce22;
  0xdf263d46533c6f5027df298a870f79aeaf306a9f19a92f98bc264ee74681a92;
  0xc29cf23b8dcd090e819b7c38ad74411b0c703ce38bc5c4908175e6b7a6c17d93;
  0x56bd46767ac1cc968fdc54608545d5ecb8d7968b6ab2ad5e3f2f4c5dbb35812;
  0x21d59129b1dcfd0d634078c2be0452771181cbb4dbd6a5c22edce5fb03a76437;
  0x37708e5a3b15704d353265dd8250a762e38e2db75c0e8ec3e9dc05b7724f5b4a;
  0x5a2dc89e0ee194a6a9e8d36ed5fc21a695347f2173334faa05e7c1b1860c1742;
  0x1330e315a6c957d0a8361d6adc7f14fda5b9d4fc4e8110df60bcdcf55336c07f;
  0x8d7663c170c9b26ddb3c10918ec59c548e86a423aa8edb66975e2997021d5082;
  0x258db96e510e486098b7f992267f2d98cafa386afda8b05905d66edadb29c708;
  0x5232e8527baf3fbe382a8c60a1cd35d3d3b3dc0e5ffa962bc760b9c2f5dd07f7;
  0x9e78e56591b00a331ef1aacbd329285a1482638c4cba903c4a81ca5046a;
  0x14da0fee55d098fbb2ac6d45409ae1fe03876a8f27368a7300fa3aa7408c58de4;
  0x103fa2b690a6250ed0afb681a4f4a53cdbd18709b94c42c22c0735871f0c19e;
  0xba2406f71199abc803336d6e6ec82ab7d781cd752cf19992c23c56034062679;
  0x74168a1378e9d7e89cc0b8256d8af8dba5856d34d90c3b4a65dc7093fdf001a8;
  0x1df81029df56160bf05b89c80208d56115d27839d3e15c8f709cbc2bba8b4449a;
  0x149556b0321895f39d6047504f51343c78eff885c362c0525ebf5721d53659c5;
  0x822921bb411973dc7c74c40f00083120abd8544b9cb5ceeebdfc9b5e32339dd;
  0x43020e8578c27c7cad1a23a386bba0492c940ece4a1689d9da974f0f6cf56ffe;
  0x88e89294bd0bd4ec60de74d580d989fa39d2e51261ed86731beb35ad2de07809;
  0x2d8f93c0380f87819da290a24b52cd66c25495566e0753700021eb04e39a437f;
  0x290c71d41a5241af822d6b8d2c8ad2db9ff2982b348ccecf70a299478ac1daf3;
  0x4e96c04a28ff7205170d54bb7354568185f8358b02a7b270d9b11c2989464d5d;
  0x1df86b77af657e97ebf704195d59430dd42ffb31a44a37bba352dd037f9aee0ff;
  0x7b29372b92dca9759fc0e3cee647fd91877fc5c26da721ebb7a30172b4f5b4a1;
  0x11a53b1e547005a35f20c90f044dd0eba4a6f7b36923beecbe805cac42fbf08f8;
  0x237094a8948a15c8bf116c7b0d1d1f9fea44d0b77ed3e8b36e03dd939b6f90b;
  0xafaaadcb1e6af28483e1169b3aedf44d0e905ad23e4836d3c236e24ea8642062;
  0x2a09850409d6b3a22457e52a736ae54bcf09480ecbff55ce05c2e67e161dc547;
  0xd71e7499f96a3f4b92358f699db85cc6ba1fa627d8337a07b60065403455b8;
  0x4b0d2bff6f3be4dc876eecc3833162e2b363c43b9a82c1e9ef6394d2c765c2e7;
  0x66aedbd5cc083abf739dedc122d09e4ad038a7e7ba1f0bd135c73a7e75dc8f72;
  0x28ddde31f0589f877a15bf24073c81d41c47e2d61efa7bd7ba2680c39bc012e1;
  0x48c171ecd4693a3e7c4be6570f81ef677f0917ceb919830b4f2881cd77b4ec03;
  0x89dbc37a21714232d0e5c978d374c0dfa9eba89fd6eb702e2fe897b27dbfc82d;
  0x2353aa3926cc0746703920590fdae4a6363c1569abd267468e18079156d1c503;
  0x1daa2226d0a956e5fb8b4bc021d4f48ddbf6569ff132aefc99d9ac7d6b3c384a;
  0x4fd2aef5bdba1bf8794643ffedfc979223a332166a92847007f21737d7c56dab;
  0xd1be8ac56ede3c8eee4b02f99bd60955acb22ac5b84b292f8f3861967fe96b97;
  0x44c4390139b3daad7e757ab295d458a7948d70aad00b456ca154aac1f3c2de;
  0x88ec5a3711204e6c5f314eeb867672254193862a16cd4d2188c5b26e5af0f08d;
  0x1a756af278209898e9e362e917ad683f912f83bb78fd3fea2afccb13c2ff6a02;
  0xe87a36d109f5d209510f6d26f6b6fbd1849b283733f62e8d9f43cf552cb6b457;
  0x394b84ef279bc7976996a5f51b00b5eb4ec394922c7d2f3989656271d43f9ff1;
  0x3fca9e67ad2bef31299451b1cb8ed27faedc71b26ee8fbf79e60c904a0b6409e;
  0x177a003f0a81d8368f9dbe280f1e820200ac35d7651c9b04d1e146da762242776;
  0xf7261d8feca1234184ef51a540df5938f208f787340f3d73e7e91497947f63c;
  0x106fcf9a32e3a3d7c0a0fbcb2f8946a3cd6a5e4ceaf4f7578556dd182c72b7bd;
  0xbcd4e727d4505750a7cf94781097c04072302409c4444f9f2580f3c42c113c9d;
  0x186ce3c2f50fbd51a86ef1e5c75bb81e9a28234cc37806f4ca8b7151697d2a7d8;
  0x12f697594ab4b3f50565b4cee2a64f81bed2adcff9495cd4bc58e1f5dd72394d7;
  0x639bee31aa0da7ee06a5812e8b65f67542595a4d6ca29f801548a48c329e551c;
  0x48f90e58a8ae7784c0a810664ca3d38b90835edeac35f7d53fd4fa1fb0ae07;
  0x252c26cf06ba5669465ba64a7650a634a80ec28fc93215b4917ba9bda675011e;
  0x3d29edc1494ad5dfc8d49bdf6f72e5aa358bc4fc4065572b985534839f1e7b7;
  0x1e8c4713f2e1b74af0a78c47af1594c950cabc677582a7a89c171c311099f5ae;
  0x2107b8295f6767fabaae87f5e9c807f521027ff4754391f72fb97d1706682ada;
  0xf5493e227e0dc6bb4e74620a981958691cd648c57e61d5db6ef607868f8e4530;
  0x21a492fee4c96f11f651126c9cde78975c261e34fe68b2bfe59d164dd2798bc3;
  0x358871c69b571dde1bb5e8082db1a3fafc9b78a96edb9588cee8615d4abd9f14;
  0x3ec68c7961bb505ec95fe66de0f434fc73a33bdc1e74abcde8365bb1a484acec;
  0x48a0dd4a2717d77f339c1e4c837a3d6404c404b17b1b449b456379a152da3baf;
  0xd2f09ee7f7302c9df42310cea465787e31ca45bf49f8a4e5ca4c484f66a3d4a;
  0xc733becb33e650060d64c3de5b46dde23041afc9eb0215f5cdf8b0db76e90ca7;
  0x19abd4d6e59238a5d3a77afddc6e35f379aa3c1b7b94b3ac4fc89329836d8b73;
  0x1c29cf0cd53f22539e1b2fef7bdda028ebaaffaa9910cfdaaefcf7e8cdbdf842c;
  0x32a03148e94e6c96964950ec88e9d3c22d811e7459442d44582539f2cd27441;
  0xa9b740144835a385041c96272083ce59c8129bc93363681832a14562629aa9e;
  0x3c48ba85aa13af797715bc8be630f5ce45e9393bfb5e2c4c59d04be4d50011b5;
  0x2579cdaaa185459bc402d09e299efd164481431846bf991eb8643668dc61144c;
  0x1e4da31d92b50dd591f6137df7f8edf247dd5e7f2c73ac0a001d76dcd5de89;
  0x15e306bb12b134c8960a67727a1698c344ddd9b53dde077aed358f4c1de260;
  0x889d9c9ebdaee53900d44f1e7377a8754a61317558397d731329ccc5a9fa035b;
  0x36c72a8298a2a2015ee63ccc8878fe7a5c8e2124708609ebcd7fc057ff18d7ee;
  0x563b6ba70865a77b513769711aa085ade6e6c6586548729340b47883343f326c;
  0x15e023b08f839d160840c32d6d5331b1c712334a2da5089fb4128fe23d535f30],
  0x154af5d0cc57479fbc9811f668d2d15a1df4a0b040822adf2503fef7b3e6719e,
  0xdf18c75c25c7e666410815983dfe96b7d72c7871b9d30e67114542a1337901f)] mul_n256_ok).
  - cbn [map fac_q]. constructor; [exact prime_262474755033_28|]. constructor; [exact prime_100232803931_13|]. constructor.
  - vm_compute. reflexivity.
Qed.
