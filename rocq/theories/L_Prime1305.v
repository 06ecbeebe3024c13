(** The modulus of Poly1305 is a prime, by Pocklington certificates.
    Generated; what is checked is L_Pock.pock_check.  No part of /repo is modelled. *)
Require Import Verif.Base Verif.L_Pock.
Require Import Znumtheory.

(** Multiples of the number, by shifts.  Spec only. *)
Definition mul_p1305 (q : Z) : Z := Z.shiftl q 130 - 5 * q.
Lemma mul_p1305_ok q : mul_p1305 q = q * 0x3fffffffffffffffffffffffffffffffb.
Proof. unfold mul_p1305. rewrite !Z.shiftl_mul_pow2 by discriminate. ring. Qed.

Lemma prime_221101 : prime 0x35fad.
Proof.
apply (pock (Z.mul 0x35fad) 0x35fad 2 [0; 0; 0; 0x12f; 0x1d56c; 0x4d9f; 0x1447b; 0x56545; 0x1341; 0x40be3; 0x191bc;
  0x6ba5a; 0x2e504; 0x47ca8; 0x180b5; 0x30169; 0x35fab] [(0x43, 0xce4%positive, [0; 0; 0; 0x97; 0x3e76e; 0x2103b;
  0xba6b; 3; 0x132; 0xda5e; 0xe923], 0x20ff2, 0x9af3); (0xb, 0x4e84%positive, [0; 0; 0; 2; 0xee16; 0xf131; 0x411ec;
  0xf5f5; 0x451; 0x149c2; 0xff2e; 0xa931; 0x234c7; 0x2eec3], 0x17caa, 0x1e13)] (Z.mul_comm 0x35fad)).
  - cbn [map fac_q]. constructor; [apply small_prime; vm_compute; reflexivity|]. constructor; [apply small_prime; vm_compute; reflexivity|]. constructor.
  - vm_compute. reflexivity.
Qed.

Lemma prime_4024685905107147541 : prime 0x37da8e81ca6edb15.
Proof.
apply (pock (Z.mul 0x37da8e81ca6edb15) 0x37da8e81ca6edb15 2 [0; 0; 0; 0; 0; 0x24aacd730961d; 0x2359885e3de04819;
  0x4996ce84aa3d984; 0x3ecab4a5c49fa6; 0x37ec49db67571803; 0x13bbc39cc7bf40b4; 0x2c9eff7bbddce6d4; 0x52d8b547eb0db36;
  0x139293b8c9b71723; 0x2a2ce1434d8f6453; 0x8cb921b95491a8; 0xbf3cd8f6609be2f; 0xb6bab6c15e497ec; 0x30447faed5dadcff;
  0x9fe6cc05e164c3a; 0xe7e2b2b215feba6; 0x9c54ac61611ef3d; 0x251d971236cd8bb3; 0x126c975d19fe0f2; 0x2e8588c3b77c5b63;
  0x318c9b6a53176147; 0x2754125aa15e07f; 0x2f3420411fe87e91; 0x22f2c25f796fedb8; 0x1f2544fa5c5c1c68;
  0x27d2a13139e45d1; 0x17e664d4a8643e8f; 0x17a408907db8a84; 0x1dd63b2f199011ab; 0x14d9f9a503db8c02;
  0x49473cc07f334cec; 0x39e06e40f725916; 0x1a110c76a8484d6b; 0x6431b14c762cf289; 0x35a978568643db1b;
  0x68b9760df8a5128; 0xff25f74ba950302; 0x1b58fb38dbf27f96; 0x8f626d64afaecff; 0x21bebd3d75f49ba1; 0x1266b8d516856ea7;
  0x1c6eefbfbb5dc56; 0x2f61755c65b37b2; 0x361c9c6e8718d54e; 0x2aebf7ad54659425; 0x235971beec1dec40; 0x26562aaa8fb82b2;
  0x622146f166dd4f62; 0x21423ef1faf416; 0x2696327497c537cc; 0xed5e7aac3be7d3d; 0xeabfd5049120c69; 0xb094b4a7cfed9b7;
  0x1f4fa101e8e14eea; 0x3188aca8890590; 0x37da8e81ca6edb13] [(0x35fad, 0x108e3324d9e4%positive, [0; 0; 0; 0; 0; 0x12;
  0x6374256f7ff46e4; 9; 0x298fadc80088d76; 0x4fea2c3edf707e5e; 0x2a81211064bb3dc8; 0x22e875269617d26a;
  0x11c67e5b5c2da329; 0x2624dd6be3454981; 0x41bb2f2dffd3d49; 0x23e30ea7c009063; 0x9439ddcac28d363; 0x7ec2f3989a49768;
  0x697cb961660c7220; 0xa3839aa34c563b1; 0x22700e9e6f913ea8; 0x1fe6c3bed6f4cc6; 0x688058315790dd9; 0x28acd97665d9d88;
  0xbcf02030de6168a; 0x2ad9d52c3490af53; 0x64ffb546de60649; 0xd3304a4203b19b5; 0x5fbe7f19cc21b66; 0xddd8d68dcfe4bf6;
  0x157ca6e107e81cba; 0x55ad21a552e5; 0x82563b2be932985; 0xaf932835af5ffe8; 0x6fda8616cbd90fa; 0xdfaa24eb2b9c27f;
  0x5b1f0edd2f6c5faf; 0x560cdc6566780cf1; 0x1dc1192d1e539ea; 0x27823d1f7705d9c; 0x2a998c4755d17cc2; 0x77718a89b0c1;
  0xe30d1f810dd059e; 0x69dcd3a4e4927a0], 0x145d7b287be3a3c8, 0xae10ba1f745f103); (0x908b, 0x62ec2b27bfbc%positive, [0;
  0; 0; 0; 0; 0x125566b984; 0x355adff8feca6583; 0x3052cf15e50b6194; 0x246d86442413060; 0x8ff4942b65d540;
  0x171f3337d24196d0; 0x1776f8a6355e4059; 0x61d476822f1b; 0xfb66d82fc789; 0x172b979de317284; 0x1aacd63fe0189842;
  0x2fac271699ae030; 0x1b28ffe130468; 0x11adb97ce8cab51; 0x2b4f1b2805437edb; 0x1f9de95b9e946773; 0x231d6d36ee7fc520;
  0x8913173711e47b; 0x88781b9091e8370; 0x573870feac7a43b; 0x10042c43862dc083; 0x1b7160063dd5e75; 0x39da5e1727c0ee14;
  0x6e529eb2907da2ea; 0x3e94a471b60bf990; 0xc7708b92b6114dc; 0x3460265e56e9b1ee; 0x29c09884f2317b42;
  0x7df90ac523e3af4; 0x22e973a6f91ef67c; 0xa4e58dd72fd51ee; 0x1fe476e9484cf1c4; 0x68ab8a27e1d6f8c5;
  0x3b81dcb2fe514161; 0x346dcaab3b0c4a5b; 0x324eae87ecfcdf7; 0x9cab4583db3eb6; 0x129956d097788e32; 0x9791cec03a4177c;
  0x16444b0e664dea88; 0x3359e2bcb557672e], 0xf38ca52ba04ee17, 0x71fc64054b30fe6)] (Z.mul_comm 0x37da8e81ca6edb15)).
  - cbn [map fac_q]. constructor; [exact prime_221101|]. constructor; [apply small_prime; vm_compute; reflexivity|]. constructor.
  - vm_compute. reflexivity.
Qed.

Lemma prime_897064739519922787230182993783 : prime 0xb52928f8c61d5ff53edeeef77.
Proof.
apply (pock (Z.mul 0xb52928f8c61d5ff53edeeef77) 0xb52928f8c61d5ff53edeeef77 2 [0; 0; 0; 0; 0; 0;
  0x2d38312b0000000000000; 0xcb; 0x2b192dcb0e8b9cd57c3114abf; 0xa2f959145d8c0000000; 0; 0x96e05a9000fff22e418bad9;
  0xae273e64224c64e54f4df5dce; 0x2fd4d924128399f71b70111; 0x160955bad44eb2b8b1f4a3775f; 0x32c6104eaa1e5c781102e261b;
  0x54c75695028f55c4bf704def6; 0xaaf4dd834edf4853031c48a; 0x804483ce14d17a72323103b2e; 0x833656c01b7c3a997dda1bcec;
  0x752311c682523f2145b82138; 0x8b1e3788d727d321643cc07f; 0x10f3864068feaef62400895b5; 0xbaffaeeb19fa633be15803094;
  0x2800e3e8e05517eecff72b8; 0x2caa7b7a19901c7034c72708b; 0x45e8b8a90a91d7a6a500ee64a; 0xe8cca4a1a4af1e7f059e044e7;
  0x57b61437be487bb865ce7d678; 0x1a83999d2ed8e3837ee4b3be8; 0x3786b2aa6c46581e4d34513b; 0x27f2b0a73dd35990a2cc0544b;
  0xe2a8428fda5508b64fd5867b1; 0xe8698ce340cec2ffcf7d6cad; 0x20acc4bced7a51713a7f69bc; 0xb10346ab6827cd43e077e9950;
  0x110c02f20642389a82c0fa49; 0x11785179c3b9fa26ce8824ad5; 0x29992df5978ff169afe3b9302; 0x20f13bff9780f9598910ae770;
  0x3dac6c2c2c6851d5161917391; 0x1353157b7d9da8843aa48bb51; 0x2a525d7dcf11e48353bbe551a; 0xc0b2f8dd898d8e8dd5f781;
  0xa06779bce5dc2e6ef7fa5cf50; 0x2919421f17caf018f0fa0f602; 0xc8222df8a636f6697d1be4aa0; 0x388fca56d4667a87e82107405;
  0x123b6c70f40370c81239e05693; 0x3ee6ed88d909a4329d27325ee; 0x295239ecc9763c41422a9da5a;
  0x13266bcc9aa3c290e3a8c11fe0; 0x21a611e73d6362dda464ac93a; 0x15f4acee0c2b876f0854f22de8; 0xef9dc4261546d725b24bd49f;
  0xf2a9e5db2b8f7c242a9839950; 0x11f84ac78a4d40759070453cd4; 0x848da094961f9c1635c72242; 0x148d0618df57dd64064789a718;
  0x10f0bf8a0297daefbe93b77f; 0x684e6096dc01919c6eb75b04b; 0x29e1e3611783db7cab46b2354; 0x539f176d37734515c1543416;
  0x60beaceaf6f349710fc255f2e; 0x3306c19ddfe59c4c544dadaf; 0x131045fc6a3b64cb6695ec51d8; 0xd3f6cbb0f211a7a1482e6c749;
  0x4334d4ab2bb0988bf00007; 0x5d1e8dda86c1ef484cee448a; 0x8eb0bbb9af3fec3cc440573a; 0xc838806cf7561f36c8dc1f;
  0x105641c014e62a3226a0012f14; 0xd072db4a5d0dfe58684d23e0a; 0x53548434d19a08a82633bd9ea; 0x9f3926b09b54ebdaa2ec05f34;
  0xeeb041a6ece40b89e1aa4d2c3; 0x8f13c764be6d1972567edee49; 0x64ba21addfd7d8707ecf60de; 0x14128fd2bd716c5139d448ff7;
  0x349e8b7e71cd7289690c82abc; 0x604b72882f513d2c13cf8d055; 0x155bbd2efe6a1a51175dad086e; 0x3942d823913bb28d6532bf71;
  0x3e06208c7d660f51fdc883cb; 0x2abba88216c32d0ab8f39428; 0x5b01e1d7417889594b4f178ea; 0xa38e37cb73192be1fa18f328;
  0x33ae783909079f3bb84318398; 0x169d1511ee4b8ce179877155a; 0x3157094c0fc32ba8cdb81f5d; 0x19904d70786fb4814af5bf8e5;
  0x18f4a070f5d1092fbbf44243; 0xc199375f65729a360e48bcff; 0x46eb025710581def8f379141; 0x8d7379e90c7938e8cba3f0cf7;
  0x1f4e03576fdad0177a092d976; 0x2a88774cb3db70f90abb622a; 0x682da54abd12f4229ca95ec99; 0] [(0x37da8e81ca6edb15,
  0x33e550f71e%positive, [0; 0; 0; 0; 0; 0xb; 0x21ad672b47c4b5d56ebde5e7e; 0x196f9ba830000000; 0; 0xb7588436;
  0x12cc2c1da3b6a3763f889a24f0; 0x4aef4433687e09a0b516ceea2; 0x9d31fe42917a51e375ea07ae; 0x6c2eaf1f8dfb205e62ecf479;
  0x9c297395a6c9c9f936b69ae68; 0x8abde12ec2f8e7d347c59201a; 0x40636f24787151f1a4b6e7648; 0x5fd94911f15e4262de546321;
  0xa75e02053c7026b5a46b243d; 0x86afa329b748dad086da72db5; 0xce20e84151ca860c8f399ad3; 0x2d32ace49b9fed698edbc2110;
  0x144f6eebc19ac23861dd0b818e; 0x7025e853ebf16ccbc1cdcd730; 0x14ecb586d0be0f7e65795ae679;
  0x8dd59430a5f857a08cf9735e5; 0xa0bb4564241431875307cc4b; 0x66d7b180ef0594b545bd12a98; 0xe908b8d10d04c1b2e484c792;
  0x15ecd9d76607bbc86c710c1da; 0x9916d214edf64ff632b0dc05; 0x10be595c5b9b1382370076533; 0x607aa2682dec5707abbfad190;
  0xb55505b91a5b3ad2ab36a2a7f; 0x9349b6203e285ac183d79d2; 0xb7e6b8afecd8c5c3d95b1eafc; 0x2b29c494ba61c1ab3d23c8270],
  0x9d5a337efe3ee2f65020fcf90, 0x162c97f3653cff0597977d4c9)] (Z.mul_comm 0xb52928f8c61d5ff53edeeef77)).
  - cbn [map fac_q]. constructor; [exact prime_4024685905107147541|]. constructor.
  - vm_compute. reflexivity.
Qed.

Lemma prime_p1305 : prime 0x3fffffffffffffffffffffffffffffffb.
Proof.
apply (pock mul_p1305 0x3fffffffffffffffffffffffffffffffb 2 [0; 0; 0; 0; 0; 0; 0x20000000000000000000000000000000;
  0x32000000000000000000000000000000; 0x7a120000000000000000000000000000; 0x2d79883d2000000000000000000000003;
  0x271a6014a33a76f520000000000000024; 0x6119f81532e7d691130ecb4fbd64a877; 0x4acd3cdf3b5a16c1644c3f12ec1a51f3;
  0x553ae76d5af29d56d63b50e82b5b7646a; 0xac2080119ce4bd480ac6748092f068a; 0x198517a9d462871b619f60a9a10306370;
  0x4e9b96321524a1d8f4254a21f842f32d8; 0x5624dcd93cd4f85cb7a5f5866ddd72fbc; 0x13860821fc9fdd69d8852659f6dfe36c1;
  0x50dd536a4f3f10add38925d06751390c3; 0x487404ed0bc6f4d60cde0ed31995496; 0x53d6510eb76ea56d05297cd50b6262399;
  0x13e4103099af90f251afd92d20b074b5c; 0x4cb7539fc18e7886295d029768504e12; 0x1c4a8ef987b6622584303ad66fb7aedc;
  0xb55fa5ade14482e99c407397b610f88c; 0x272cd787b251e7967a6b9e1e057691ece; 0x94a0547780d860d206f5a4861104ccee;
  0xde620e284bbcc46074f2930581393753; 0x41d47134bb76e62e7280371ea6fac13ee; 0x35a94433e109f45c5cf6648fb9c59b98;
  0x51fc1748115affdff425aa6b205e5335b; 0x65b569266ebdb8004a6617f26a9aed090; 0x24c0950a7f3e7b6a0d41a64025ad7fb5a;
  0x6f46142c02d665da726c10d02c8ab4c36; 0x5fdbd2f699c1834b977bf57e2ac1511c2; 0x736ff118089a5b2f4241f5feb5e046eea;
  0x30bfd039baa32e18204f49b130cba69f6; 0x54b2c7dd575e81b3699770efb81974315; 0x5bfb64aba00525c5b9eac0f54bf926973;
  0x2de36aacccdcc9dbba62773828ea58a18; 0x6e1902b720578f2d0652bc56041c06f22; 0xc806c5c9f13963e8272f3833d0b6ef27;
  0x37b6ac55f683f065ed1cede7e9682fa3c; 0x1f09ea86e0eca89a26c13366fd479df71; 0x19133b22818d9f8a06c5abced831ba2bd;
  0x3bba998e29ef77cb0606e75434412a991; 0x56f3e5097c03fe5cf7c39c22ee3aae600; 0x329d7cc7c99f3c67d11ba090dc9e1d8b4;
  0xb2d15be27c33c70def622e22e68dd7f; 0x5f28c389afa810301d0ccbbeb813433f8; 0x2d3c9a7731de5f2506ab6df7a99b13a11;
  0x76cd382904f62ab76ef1f53bdce0ee1f; 0x364aa6e22d959a1ba449f09f1b11953c5; 0x3b1eebe6a77e2a87b289d9fec4536776c;
  0x6486f2bdff565713fe8060d8d8f8a8f0; 0xbeaa089a69fa4433af0321a3dbbf5afe; 0xe9cd31df166559a59f7a5603f37dafde;
  0x2c55309a2fe32e03e5815c3543aed6d3c; 0x31e9720302c52773753ffc906c42a0d82; 0xe3da98b49f13f47120c346155e2e97d1;
  0x4c5c67bb1cb74bb078ead7ad17a9ad634; 0x6630baf3bd77e2c86941c09c90639a16f; 0x3c065f62e63c3297de9612f4d84f63ecd;
  0xfe40ef5a0fe431ea327432eee17b8a; 0x56548d388d776e6eadc49696499993dce; 0x1a6cf1e6a1fb1e5b3733c1d5eed969c;
  0x17c32c70ed0ac9b918a4342c932c13cf; 0x72c6983f34fdbd9e4e564b887ca3923; 0x12f4d42401f12366ddb414872a845b5ea;
  0x12550b7339dc5c944c19e196d4c890; 0x3434bff42398e33cc29cb5ec897050848; 0x19c95e5657815bbdba6c504d3e20d98c5;
  0x7f2855b112c61d70e956cc356e4b08; 0x6b45742b386ac278191bf5083f3c40e9c; 0x1f7d1941d1a308ce62d622fe9eed1977b;
  0x37fd4e84ce6ba3bfd1d0ac4e7abb3d0a8; 0x405e157f3512a302d818a5795b44f1ef; 0x448ea4fa559c0cc45ed0046ee191cfe8;
  0x280b3deaf78ef8e3af2cc3a5410788f52; 0xc58315325fdbd1b095ed634877a2fa3; 0xd5503c0958f4e09c0286de290f1523b;
  0x61eb4bacaf6ae303a8d604c5dc5ab4328; 0x2db93a389a7c82f2fd90380735bf8e8d5; 0x372bba888d97c7190b125f1f3a1535c3;
  0x7e6cf5896be92659f3dab8df18b26655; 0xb27a1b040e6e0ca4487f3c0739dd6dc9; 0x9349c545b0af2735df76af6b50adb3a1;
  0x9756066796c60d613b4ac1d3f5a9f74e; 0x1b1bf2c403e25ee6d1d89d22d380799d4; 0xff87de34ab430ad03dfc67348093977a;
  0x3aa96cd2aa964bedda79284c9e418d5f1; 0x103e1ed0c6249197a182ff74df0b8505; 0x1d5f5c01027b06659624969f9efccc5c6;
  0x27e75b7428d5b378f3557e49ea14dc8; 0x51fb99deb2d4f90c007c4b4b1824c1a17; 0x2631399af6c0fd2d3161468660ed93d9f;
  0x45aa18fb5d5d6d90639d6648ac7e377b5; 0xfb91224b0a4a6e6ec9298d0a95377d3c; 0x1e909e252502634bf284a99ea848c8518;
  0x4274a29688583274090f74236f38d7d50; 0x51fde492ff4cefdcd14349ff1f72b54ad; 0x6550c964edbf6da36b9ebd8271faac23c;
  0x245df26946487d9caa7a3f1da21d44b9b; 0x6a8608fba857a6a1850709b73a07f200b; 0x5e1f1a1140e246828d89a906ee1e767ab;
  0x12a052806d9162ac4124e8ce6931; 0x2af61a9056ec9c784fd3f2dfbedbc07f; 0x6d8d94695cdb74df4b64d90784282994f;
  0x6c4019eadf06b1d73ae2dcda8e56b1944; 0x3746cc1db003f6f9a0ecd8bed58c43e63; 0x1141ac511702efbd26e5069b1e3cf0362;
  0x33bc1b2c39fd31a869859906bda68f918; 0x7171625ce19808e785184f0fac902cd8; 0x6dd432a7b8b798cd1b2ff74fc557c5a7;
  0x25ef55d7bf687cd93927ad439e06ef8d0; 0x3abdf28cb12d9e0340de0b37cb2517335; 0x2b29bf654615615de426dc678f2b6a6ea;
  0x439a184dba63ef554b1d70ee035eb4c89; 0x21bd11033560c22bf01321c37842fc1e0; 0x2627cf84d679e4e6620d854e21f63516e;
  0x544ee9d8e820c323300eccd4283269dc3; 0x2abd1ecb58f64f0b317cc20fa1150bdf; 0x6931c09f1a979562ed99813f48a34fa6;
  0x46a980c8b4527922273c80612f32f4e30; 0x37376d8b18c393d66071210333a400d5c; 0x3a45d2ca5fb1f685a3e602784a8c26e0c;
  0x7cec2271d34f9c1e2c40ce470faafd892; 0x3fffffffffffffffffffffffffffffff9] [(0xb52928f8c61d5ff53edeeef77,
  0x5a706256%positive, [0; 0; 0; 0; 0; 0; 0x4000000000000; 0; 0x4e2000000000000000000; 0x12a05f20000; 0;
  0x11efc659cf7; 0x2c30ae09d8cd824fb59a195598207768c; 0x2a94043d7d02a9a172bf9347e44f39892;
  0x23396c2b564846c24cf8a3b76c5a060df; 0x68b5cfb68c08f6c0ee717ea939de928a9; 0x4a0c57218dbba6f6f0e3bb79bcd4a5dab;
  0x158ea8b20d5503238f0ccec1286f5da; 0x163ac02485ddb8bba621efc4f42e5eee; 0x402e8b0676fee2f233bf83fe300283bc;
  0x5cec30b6cc1a622d471412ca0b340b7d; 0xdc9d1b60ab47fc5403dc356ae2cc018e; 0x60c2393a5942e5f285d5f6a4662cd4d;
  0x4219e77f32f3e70fbeeb7088069ef41c2; 0x34caee068a59b1a5ff9aa108a4e0888c3; 0x15308d93de5432598056e225fc08c72de;
  0x77e38f96abb2c8c5cb11394fab311ca8; 0x333b10ba8f020225881048b0c9766b8a; 0xd6013777cf3c700d250a022da500f011;
  0x197ba65c221599b45e864e015345604d2], 0xb8a7f7d40edd77d9cfd441c6ee926c2, 0xb30f5817e4013de0656a3730e6ab359)]
  mul_p1305_ok).
  - cbn [map fac_q]. constructor; [exact prime_897064739519922787230182993783|]. constructor.
  - vm_compute. reflexivity.
Qed.

