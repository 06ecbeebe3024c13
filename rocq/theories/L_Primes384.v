(** The modulus and the order of P-384 are primes, by Pocklington certificates.
    Generated; what is checked is L_Pock.pock_check.  No part of /repo is modelled. *)
Require Import Verif.Base Verif.L_Pock.
Require Import Znumtheory.

(** Multiples of the number, by shifts.  Spec only. *)
Definition mul_p384 (q : Z) : Z := Z.shiftl q 384 - Z.shiftl q 128 - Z.shiftl q 96 + Z.shiftl q 32 - q.
Lemma mul_p384_ok q : mul_p384 q = q * 0xfffffffffffffffffffffffffffffffffffffffffffffffffffffffffffffffeffffffff0000000000000000ffffffff.
Proof. unfold mul_p384. rewrite !Z.shiftl_mul_pow2 by discriminate. ring. Qed.

(** Multiples of the number, by shifts.  Spec only. *)
Definition mul_n384 (q : Z) : Z := Z.shiftl q 384 - 0x389cb27e0bc8d220a7e5f24db74f58851313e695333ad68d * q.
Lemma mul_n384_ok q : mul_n384 q = q * 0xffffffffffffffffffffffffffffffffffffffffffffffffc7634d81f4372ddf581a0db248b0a77aecec196accc52973.
Proof. unfold mul_n384. rewrite !Z.shiftl_mul_pow2 by discriminate. ring. Qed.

Lemma prime_363557_6 : prime 0x58c25.
Proof.
apply (pock (Z.mul 0x58c25) 0x58c25 2 [0; 0; 0; 0xb; 0x1994d; 0x199de; 0x335d6; 0x49d44; 0x2ec; 0x40451; 0x3165;
  0x327b; 0x1727; 0x10f54; 0xe78; 0xa2e7f; 0xa09; 0x58c23] [(0x3a9, 0x184%positive, [0; 0; 0; 0x2e; 0x1edc; 0x3ef93;
  0xf05d; 0xbdb7], 0x27404, 0x17ec3)] (Z.mul_comm 0x58c25)).
  - cbn [map fac_q]. constructor; [apply small_prime; vm_compute; reflexivity|]. constructor.
  - vm_compute. reflexivity.
Qed.

Lemma prime_532247449_9 : prime 0x1fb97399.
Proof.
apply (pock (Z.mul 0x1fb97399) 0x1fb97399 2 [0; 0; 0; 4; 0x139c51; 0x33b7c3f; 0x77d6587; 0x370f23fa; 0x6c01db;
  0x33a6bac; 0x3faaed8; 0x157040ba; 0x30018e1; 0x358b4360; 0x2ca3fe9c; 0x2fbbf801; 0x6cb0371; 0x4f17449; 0x10a9f505;
  0x167889a; 0xa838d2; 0x8d5a043; 0x19851793; 0x9485a76; 0x28853e9f; 0; 0; 0] [(0x58c25, 0x5b8%positive, [0; 0; 0; 0;
  0x10239; 0x5582b5e; 0x38f3693f; 0x299f481; 0x2146e45; 0x1a6a194f], 0xc190593, 0x14a0452)] (Z.mul_comm 0x1fb97399)).
  - cbn [map fac_q]. constructor; [exact prime_363557_6|]. constructor.
  - vm_compute. reflexivity.
Qed.

Lemma prime_449259426751_14 : prime 0x28dc22dab6f9.
Proof.
apply (pock (Z.mul 0x28dc22dab6f9) 0x28dc22dab6f9 2 [0; 0; 0; 0; 0; 0xc87d6c466; 0x340df862e7cd; 0x4733487a7bb;
  0x4c633d2db1bd; 0xa607c81f60; 0x420bed7fed19; 0x197abe191be0; 0x93a43617c7d; 0x1ac436320d1; 0x1fc425cf40b9;
  0x74fad740f7; 0x444f64d4164; 0x188c42410f3a; 0x2127b023638; 0xee20a89d65f; 0x32c98b7338d; 0x1b398a4f7693;
  0x34c81efcc3a6; 0x13113c54fb7e; 0x3fd5861e48c; 0x3fd774799d7e; 0x573216aeb56; 0xbeb5b0c715d; 0x7029fbcd420;
  0x1b13358d8cd; 0x8353f1f767; 0x3458c1698361; 0x1f5f6b033263; 0xef7ce8daa06; 0x12d259f2e4; 0xc08f748776;
  0x354d1a9fd7f; 0x18972dfd772f; 0xb267cd96b94; 0x2d8558203ff8; 0x43f25898252b; 0x1d5322c42e82; 0x19a623baf48;
  0x28dc22dab6f7; 0] [(0x1fb97399, 0x149b8%positive, [0; 0; 0; 0; 0; 0x190fad88cd; 0xe867d26b36b; 0x2399a43d3ddf;
  0x2c195ecc8157; 0x141ba554c602; 0x2160834f0ac; 0x44301f9b9fa; 0x1db7be80bc99; 0x1eba40d02a73; 0x35cdb52424f;
  0x15acb9673030], 0x1abe3a7a7ae1, 0x55c90d7586f)] (Z.mul_comm 0x28dc22dab6f9)).
  - cbn [map fac_q]. constructor; [exact prime_532247449_9|]. constructor.
  - vm_compute. reflexivity.
Qed.

Lemma prime_355814586440_23 : prime 0x788dfeed61e9c29d3cf.
Proof.
apply (pock (Z.mul 0x788dfeed61e9c29d3cf) 0x788dfeed61e9c29d3cf 2 [0; 0; 0; 0; 0; 0x21f9ede32fed;
  0x15ad2edd2c4c492fb10; 0x380694d7ee931e578f2; 0x28d255abefae71de2bd; 0x374bc0f57662e98508c; 0x5d739da06663de9fb;
  0x1c63f78e0e3488f5feb; 0x91aee67d3733354573; 0x776fd9d291d199b342f; 0x9a396b82e3f87ce3205; 0x860c5f403b346a3a830;
  0x2d245c2a2afaeec3ad4; 0x17fe1c3d721881e45f; 0x2763855d2dfa26f9eec; 0x43f11a65db77d7a57e3; 0x47be946d77abaac9253;
  0x4be9e44bf43c9f6cd2; 0x38dbeeb44e60f21ade0; 0x80448c2d8646b29cfbb; 0x64634a77740a37ed4a7; 0x9162156e3b0d2aa152;
  0x1241e49bf0479e134fd; 0xa7fd66fc999ee793e82; 0x353281d5191d7dd486b; 0xb4274e1f8602496c2ed; 0x287dd55d1ee5f26cb3;
  0x42bb9abe70e2b6e5e4; 0xe7d6bc6eaf5cfb8c57e; 0x282bf64edeecff74cc0; 0x25a814ce17f8c3aba39; 0x2a82489f2ac8ef16e39;
  0x2fa6d508578fbfa20e8; 0x37e6104b394b3486f41; 0xa7c0eebb1316657b01c; 0x7a79a05fd07d337ed5e; 0x2616ac00947ba35b63a;
  0x15bd2d5aab41ed1a4f8; 0x7a7a2b467ffc6f81ba2; 0x7932a0a1743f276fdd; 0x15616f6e5e661b4dc9d; 0x3c516eb8befee2171f4;
  0x85e749cdb496a8f19b2; 0x4502fbc412a6cde8ba; 0x355e432526987412b0e; 0x2fc499b69f889b6b539; 0x3a09c367c6a4f84e9a0;
  0x115c1f894da90303521; 0x9748d48d9eab0a04eb6; 0x2fe96f507a31207957e; 0x8225df39115bfc14933; 0x13b62f0cd1ddc833b56;
  0x6b29a894d00c60ff0f6; 0x30799352bcd231aa7a; 0x6316499128ef3ac4ebb; 0x7dbb9e2d8c81484bedd; 0x25b8d0306bc573e5c8b;
  0xdbffb823b5b79f8efbf; 0x30e7f0ce7b0e0b217; 0x25a648b2b8626e6b990; 0x5bafdf40022f7022f0f; 0xb0447023d4563911c52;
  0x2f8a507841406e1c11; 0x9f5816b535a2ae4698b; 0x73ece6b67fce58ec98; 0x26096a4299d6cdeb81; 0xf95e8ab470c6607be5;
  0x887407833d60da07b52; 0x8c4ef369c26c14eb1; 0] [(0x28dc22dab6f9, 0x2f34ffbe%positive, [0; 0; 0; 0; 0; 0x87e7b;
  0x1ad78dd22518c42c9f4; 0x4c456ebcc9c381abdb2; 0x96a89d860c81aefc86c; 0x3d32437963e36a46fd1; 0x511fe86fa2394a8cac;
  0x874d9145a17119b51; 0x2eb5c94dcf0b832abc5; 0x266ddd715e7e5448; 0x2ea8c0d61150d222587; 0x8dbdb2ccf2c18d99875;
  0x1ff1c7a909df6cc507; 0xa0c33dab1f4d9259d0d; 0x1145595cabe8048951; 0x493cf63e79e3a253cac; 0x4b55a4e44ef10deb26a;
  0x1a6f09ef739a26d4204; 0x6d91416f7b0b3d1c62; 0xb0b9f9d51c81ae875a6; 0x113140c74622192728a; 0xb6d682f69bcc86ca99;
  0x7e22527df5941869655; 0xd84867fe9ac528fde9; 0x336d61e0aa48350e17a], 0x785650db2e2a78b1d77, 0x518eec3d63ad68ba773)]
  (Z.mul_comm 0x788dfeed61e9c29d3cf)).
  - cbn [map fac_q]. constructor; [exact prime_449259426751_14|]. constructor.
  - vm_compute. reflexivity.
Qed.

Lemma prime_239646105371_29 : prime 0x4d6f0fac5c0e3050743c3537.
Proof.
apply (pock (Z.mul 0x4d6f0fac5c0e3050743c3537) 0x4d6f0fac5c0e3050743c3537 2 [0; 0; 0; 0; 0; 0; 0xd3964c0fd031ba9;
  0x50239c7e7bf7bbe9037ec5c2; 0x5c7b0b46efd4733ca8154136; 0x2b48385fac672f26f9e2051; 0x5091120e5ab86cdb25487f1;
  0x1bd39e7f1e2f8724c41894e5; 0x34b764df467dbc0bcaac6ad3; 0x27ed0587f99daaf92996cd00; 0x66055ddb54973302d613f0a;
  0x109db2761ad5061a63483f80; 0x26bb873c5d9c328f0de865cf; 0x365336b3791646469881ea0c; 0x648cd65c22edd38426717e53;
  0x5a31b471d6991a29a7b61a0; 0x39dab69a8acf49be6f81b4; 0x1097f2abc1e13b16185fb393; 0x4f0d53c4abec53e950cf0efa;
  0x2079f84a2fd8de9839694b31; 0x4f14157b67dd694e22b5b; 0x185a87723a8a264988fc33d8; 0x1fee0d6facac37f253011c8b;
  0x28ef74ec61cddb5df3661566; 0xd8cf7df1d5282b7111c8c99; 0x191484cf2d8f6cfa2b579088; 0x1ff5a27a88ba3a7f49c9e8fd;
  0x10b630b5155574f7b25f4d22; 0x43f7e6e4b14cc7f772bdbee3; 0x2f3560821b9bbe1782bd566b; 0xed0974e2dcf1537ea74b36;
  0x1478c543a520061deaa9336f; 0x11e5471ccad85456f89a947f; 0x242b3244da60c95b06cc1038; 0x183b17b39dd55afba79c8e61;
  0x2016ed14a65ce9dc90fbbae4; 0x7ebaa1bf7df260793b8db9b; 0x3c9e36fcff35b22f80e0796b; 0x226580c77f4ccac3895f9688;
  0x9e611ad562b5c93d7d1cadd; 0xc7668e375b4776b2a7e6061; 0xdb6bc82ce056418c87785d2; 0xd1cdaff4654feb2ea43b04c;
  0x3f44adb2eb5adf7664e7dbe; 0x4ecafc238633526c1334ccf0; 0xc07e3360cd34afabd26484; 0x18685ca778baf6e57fa7ec34;
  0x1359df95ce2b0189f9626365; 0x38a81a91a382272b63b1a3f1; 0x22b92da42af8e376dc4269ef; 0x1ebae1009eb3c6227bfe865f;
  0x1205a440cd035d0ba043f3d5; 0x187dcf6f34bd2f92255ca662; 0x9da4e538f59941a04056225; 0x4c830bbd6d19d0fc93d66d94;
  0x8cfdb6d84f25dda7d2dc967; 0xd0e7ef6880620f501f018f4; 0x33f24e75b9eeafda53b4d8ea; 0x3aa2250aa910f12d1f43035c;
  0xfcc9fac3474b8498339f995; 0x244b5a8a6c3958fbc62a4b02; 0x2c376a10d936247f40ca86aa; 0x443439015ad3a900b22a147;
  0x2e3f4856626a19b61142b556; 0x237bccc6550e1d70557b89a1; 0x26636eb2f3d57e882a496b84; 0x4a08868ce68e499eaf63eee2;
  0x1bef4fbcca8a8038ba8126a0; 0x74d619654d7959b0ab883eb3; 0x9f696c6b44a070aba1bc09; 0x1242e172434d6454d219815a;
  0x51a21fdaf40361e00cfa4edb; 0x21843fec1f8b796430de6520; 0x1205e08aa97fae38a990b2d; 0x2c9ba979c06c0bcdca1c9006;
  0x4d2837607d6a601060a34d3a; 0x419bde4031cf2cd3b3a0b41b; 0xb2167707b75d42f4ebad3da; 0xbcdbef03a0438be390c57bb;
  0x55baa967f3d08440336d1d; 0x225dae71d7aa2e8c211ac285; 0xdda0ef9324b9170e15cac94; 0x40f2bef362501ae7218503f;
  0x253eaae453f982001263e1e9; 0x576009f7454d7df56d80d0f; 0x15e2d56bd6bf7afed142f856; 0xb5e5ce157351b6be132528b;
  0x17c7fc58bafaf8db4d84dd33; 0x10359d17ac62144d5071a077; 0] [(0x788dfeed61e9c29d3cf, 0xa46ea%positive, [0; 0; 0; 0;
  0; 0; 0x34e59303f40c6ea6e0; 0x1d7e3562e0bf8ccd3f09ca9d; 0x49f7d03e109fb3bdbc4b29a; 0x186c201a89ab853dcaa7418a;
  0x33042b35294a44216a749f13; 0x6a79560e36eabe0891a71fc1; 0x454a32aa2093e7cf402e80e7; 0xc418145d6717d5d9a85781b;
  0x19e5bd09ee53d3347c564717; 0x6d5f973dd71861b537c93344; 0x8f94c52f183d6ff75e8b4ae; 0x28767b89fb0b3ace9ce9f84;
  0x2d62116cffc7f0d7441b2986], 0x23bda0296127b9ea14cfe1bc, 0xd5c41239e038fdba7e312d)] (Z.mul_comm
  0x4d6f0fac5c0e3050743c3537)).
  - cbn [map fac_q]. constructor; [exact prime_355814586440_23|]. constructor.
  - vm_compute. reflexivity.
Qed.

Lemma prime_862725979338_30 : prime 0xae39e343cf1fecb5058777bbd.
Proof.
apply (pock (Z.mul 0xae39e343cf1fecb5058777bbd) 0xae39e343cf1fecb5058777bbd 2 [0; 0; 0; 0; 0; 0;
  0x5e09e8ea956b6f618f5; 0x21d75d90fb08db5ba4189b89; 0xd680ff197dd9e3a93c36daf8; 0x128b51f41d362c0c7a856718ad;
  0x340573c538e7fd6d1ec01225c; 0xa7652dfaa372e8f1af2c1bcda; 0x3481c0b7df81c3731ed2a69f; 0x19d504027d63993a9ca68734f;
  0x706dd105039177d1a2dd7e223; 0x8aac75bf5c2dcab9fe9cefe59; 0xb0b740c5032b216f28ce3ae0b; 0x771f9379bdfc93433f18f1e35;
  0x2466b9eb4f3028927bf83ff1a; 0xeaab41513089705a87a297; 0x4d0edebab309c44ccd882d982; 0xe9ecc1704a924a46b581395e1;
  0xa5bb7a35b9d1cb0d0929c7623; 0xa09df2bc8470192bd1504966; 0x115b50b706e6009e25d0083a4a; 0x2771a76ae767a9e9e30654e7;
  0x4bbc4e0b89548a1f1caceb1a9; 0x1fc84ae5ddf71e735b5f058c9; 0x5d402f80de816c1534a5ad312; 0x11d3fa9c6e7f8f3588001f5649;
  0x6dcd0cf71f55b0bf8ce30e8f4; 0x912dd0421ac2c114baca026b; 0x5a033df79945e6c0e8e6f4466; 0x93aeaacadeb9bd4d28ec98b18;
  0x5ffe6f92892b1107351876c; 0xb6886e1399aceb10ccf46f0f8; 0x2e4e2c1f35c6c2e294d4f5ffe; 0x3a300c414215c88a502fd57a1;
  0x9efca6a7e974701434be462e8; 0x3a8c1e2744c574e6da2e8b287; 0x2bd8c983d0eca823b42d5b4d9; 0x5dd794d0ad242a83e4a484de8;
  0x12d46ce0a3d6b4bc9c01cf6c6c; 0x54b52d1117605b73561544db; 0x2353393530581100e35c6782b; 0x78a2c077913975ea5bf449b6c;
  0x41b2e46bda0e4131aadf819e2; 0xe055569e1098875e4c5681e58; 0xc935cdead7ac6702f5e4bd2dd; 0xda0b3cd999c8a1f97a13581c;
  0x8a63c3316a800e699906e9532; 0x75fbf2586fe930ef74e61c222; 0x2f4637f9e9fc73895f0a547a8; 0x4282c351870d1a603531a8104;
  0x6ad02e9974d914c7a98de3dca; 0x69a265a2ec3f08de54c4efd1b; 0x15d50a711af9c70ee524b5de; 0x755bf3bb42e4ad5328ea8a8;
  0x1529adb40db93e8aac98ee8449; 0x7a00b20dd8b7536961b49dd7d; 0x576352657e49eaaa931633e12; 0x1fb941c60837075947fe4fe4e;
  0x14c3751f82e66112c49dec8307; 0x7974f65e8f2d3bb1676fa2; 0x3f1c10975903c373e9021be4f; 0x6613c80d28c1f1588babea7c1;
  0x23acc12a1cb58c67d4fbb6e11; 0x272fd2f0dfd09da54c527b34e; 0x20e7d550b1cdfe3f695479f; 0x394840c35dc677e9bc42edd0d;
  0x18543c30d690efdc167053c0c; 0xe986657f2031306d489bbd0b; 0x4ef1441487a0e54cf04069b1c; 0x1dd0b7f5d9fb0cdf36d7d4e88;
  0xff1f366a0c7fe6a66c0267b; 0x168f51756375e48ff2ffe93a6; 0x7c1ae4bcd9cca225b21cf7d4c; 0xcd9c4367b5cfed5b03eb03b67;
  0xd513b29d0a929ce00920ccf88; 0x42a7c23924cb3d8f030f155fc; 0x3dd1787660bcc7da41e7d5fa7; 0x1154aacd8f7cf05bcd14feee1c;
  0x406cfc4ffa9d732ce2ee7c3; 0x4c22e8230b8303390c3ff3ed; 0x4c24d0437b71b9c2dd98d981; 0x47b7af40177f0230a56f6e66;
  0xa24f1d840389c6031baab2dd; 0xa087d5982659f94d9808e; 0x133609cd2e156cb357d8b475b; 0x785a96948ff6d050015953479;
  0x90e07056d175b9e6757331f0; 0xf855d7f959b9244426e79cd2c; 0x91dc80187069ba480b90968; 0x2f870fac617879befe884dfe;
  0x7e901460a4d64268eb4543b91; 0x2f67c39eb9a5ef75e86a4ed32; 0xddd99c32edc025d87da7e5846; 0x3dda8ef4fb948254464b9bf28;
  0xae39e343cf1fecb5058777bbb] [(0x4d6f0fac5c0e3050743c3537, 0x24%positive, [0; 0; 0; 0; 0],
  0x76cce68a3cc150bd8522df38d, 0xae8f57c5a)] (Z.mul_comm 0xae39e343cf1fecb5058777bbd)).
  - cbn [map fac_q]. constructor; [exact prime_239646105371_29|]. constructor.
  - vm_compute. reflexivity.
Qed.

Lemma prime_207054235041_32 : prime 0x10556d4e5b6afe30f884b3399b9.
Proof.
apply (pock (Z.mul 0x10556d4e5b6afe30f884b3399b9) 0x10556d4e5b6afe30f884b3399b9 2 [0; 0; 0; 0; 0; 0; 0x3eb145f;
  0x60eb1d53fc02d01c33a53e031; 0x5eec54b0979be79f6579e8b45a; 0x1eef7c3b4213e04dd8b227264f7;
  0x541ec108e6ca82de070b6ac054; 0x90d9184dd68ae0dc00e22c684f; 0x2b147bd8a751219c11b8214d35;
  0x4fddbee6bf381a35aa319768d8; 0xf46f36c64af494a4dff126435; 0xf492238d5253ed2f87fe3efbf;
  0xacd5762d417f45a2e08b56282e; 0x390cec06f475b490e54059478f; 0xba5fa99a6fabba6f4bbf9ebb03;
  0x6243adf4cdb1514e028b9405fe; 0xf4b34f94cd9e29fce44099fc3b; 0x8b8eba23d7c8579eb29b89aa0;
  0xe13c979f7cac250cc2d2963162; 0x7f0929fa8ea7c549ac8bb20396; 0x768744f2ec40c78016814ba2ed;
  0x4536b101125a6ab68f107655f8; 0x5df73c61fc853b53824edbe85; 0x18e7ce60638460a090a5dbcba3;
  0x1809f0187049536ffb47f27bd4; 0x282039dadef1cef3efec4c35cf; 0x3f32489864b4ae57f059cf59ca;
  0x17ae0b6ddf2209202bb9d2fc6b3; 0x1db2f97ddb197c72bd45945d4cf; 0x87fa2e7d23925b95d2bb08f6a2;
  0x30573e36980a73dea1ccc10c; 0x8d5f3f7dfc9189da5632e74db2; 0xfcb08593ebfe2ba3c8ee5c7bbf;
  0x1ea6647cd6e1e97d8873f4d2587; 0x9b795fedf629ef959cadfb90; 0x5f8a808f9cd5a7741e6b30e87c;
  0x9aa208c3376d5f0a119acb0f7a; 0x2041ae121e4f39e002b99ddc3; 0x18b21cd0f7b7e3a2aee88f46fdd;
  0x1f5cebde0a878cf7fef332a1ab; 0x9fab58b1849b65825a9ac323ce; 0x33c3fb65617023162ecd6b2916;
  0x10f4b8bb58665df10825adc711f; 0x169df0a65cce110adfce467afd; 0x16486cb0aa3ec3f904243e0b;
  0x195cc9d8b53b80cdf2547017e65; 0x19d55a4949442746a600691c586; 0x102339a58415a9266850a218b7;
  0x29c5356b99338ee60d8b4c044; 0xe19d53ff7493272d6d2b92a286; 0x6746afd037dd297ae80b309315;
  0x30ee93ea4fbe02d1912d9a81f2; 0x982abb59905dc18e046ebc3a; 0xdc96db198f70bd669db3640014;
  0x7ecb64e69232068a0decce0aec; 0x60cd22d5959a62e2e951213a0a; 0x20adc66d85132b210bc851316e;
  0x1b30a7ef647f90b3f2013ef3109; 0x979d562fc089a68d984c7ebe10; 0x56d30e6a8c5b8fd652ac84588d;
  0x1a0d2b81dd0222d919f90e64be0; 0x1bd0080628eaf1411a17e57c8b; 0x377118415efd6e802b9903cf8;
  0x1cecbd938cf5a93dd75e8e1f8e; 0x587b9486e9927d64784b5ebf0c; 0x20804b5198d5bb78e546d6ae6b;
  0x3efadfc6204e7f4aa21b171354; 0x2486b78d7af81f68b3e950; 0x5af904e81d64f6a531c87479c2; 0x7047edbc78b2ec4c335d12287c;
  0x68610236ae51d69da4c8f49069; 0x54653cc1d8cef161fa045c2e02; 0xa3f144addc0d1e4e3f9538b06;
  0x7dc2cd60b6e3bd50b45294cde1; 0x1e36ce13b45f8284ffd36d2ed51; 0x27ad07a1760a237f3266f4e60a;
  0xde9a4dd5c97d1bf59d6245d53e; 0x22af63303934bffa99301c43d; 0xea32d4ef51b5dcf20b6f6bbee6;
  0x703b932c62f87119aab22a7bd6; 0xa52fc667ce67e64026df20833c; 0xab3197dd079c99ed0b53d0dc8; 0x57116d727a63a7ecee034da4;
  0x6761743f47214dda2b38da4cc3; 0x1344a30c958c017d742269a4347; 0xa056979b1765c3ed131ec9b7d;
  0x781eea1a13eace8dc7b11b44d8; 0xa5adf859e20bdedabc72cd1; 0xd68a21c99cf3055a5234ec173; 0x392999eb7bc1756eb13a79f8;
  0x3363265fadb7fb3d25148402fc; 0x35a172fbe476c5e96b1bf42a5e; 0x50d9747ebfa62e0617ecc91ec4;
  0x5172254f46e627909cf4adae68; 0x1dc99e9fc352f7b3679ef25aef; 0x138632c62c0bfcccb19075144c;
  0x80833d96ccaad370ac605607f; 0; 0; 0] [(0xae39e343cf1fecb5058777bbd, 0x18%positive, [0; 0; 0; 0],
  0x784304d49dd84c58d711efba7e, 0x75ce09)] (Z.mul_comm 0x10556d4e5b6afe30f884b3399b9)).
  - cbn [map fac_q]. constructor; [exact prime_862725979338_30|]. constructor.
  - vm_compute. reflexivity.
Qed.

Lemma prime_413244619895_42 : prime 0x4be6ab2c80713e4d5142229baecfe3abc0f.
Proof.
apply (pock (Z.mul 0x4be6ab2c80713e4d5142229baecfe3abc0f) 0x4be6ab2c80713e4d5142229baecfe3abc0f 2 [0; 0; 0; 0; 0; 0;
  0x1afb; 0x29032aec3c04d3d5f45df89cefee281cf3a; 0x22839291a3334f9d5de526de44321f2b398;
  0x131b9a3739e31f031a3f8012ff2ae93971; 0xf40c45f44a61bedb83bdf08f2d040316c; 0x3fe8df63541d2185bee190e5473f20225b1;
  0x5e10ea5505322c2bc18b60baa1ba1a1853b; 0x3235bf8ec929f5855b1dcf3e95956deec42; 0x26f1ed229f91b294e73ee79fb367c635365;
  0x4ec29ac6195f779442d13a305c6c2d2018; 0xc5ea8894f04120676dc9ead1b9fa5de0ed; 0x33c60514c3f17197e209ab5ad16e6359910;
  0x7b805e1c021cc939273fe52ad18da419fd2; 0x2b9d9da8b258d7a2a2a2a54090b244519dc; 0x2811337aa87941f7ad9808a80d53a3a4ce;
  0x2921d8eba35e9c53d85c598f02847bb4ce0; 0x4b4484de6758e8a9a37f7167c2e2664e75d; 0xed077080137d2aaa0d3b6fbab69dce34ff;
  0x49d8f20a0ea1a3bf9fffe49d14fcf33854; 0xdd52358332c8bd49c28c4f1ad36130f035; 0x4f0eb745ba11b5740be9705bc0b219e6686;
  0x4131bc85ba3d18226951c1a55b89e612ede; 0x12cad642992ae139a8e022e703b1db0b861; 0x26ede7f858f4cfdd4f7e47e2fa0d5384338;
  0x42b33609994db8408c3695bd8c5922a4256; 0x7702c31e6cec0d9e07fb6f6d8b2f2639; 0x1f3cd5391e74d0fc40b33a13b62d7e788f;
  0x26ac45a4b5914aa6b3da69a85c2225f3a94; 0x20e47a8e669405040007ee855fea6a78f1; 0x109e73b21783930f3c808d491f3491a5e95;
  0x52e42897034786f0ed0f0db92d81925b5; 0x1fd14e925834b6e55512c159cce7de6a0e0; 0x468cb03e2b29e82e67eb925f8d936374c;
  0xac73ce2f331a93d1d5bb7da8e3b34caf0; 0x5d2b6ce5f5ef09bfe57f306e329c5497e1e; 0x1806c2e723da9d85a54959835092f6204b6;
  0x4b928d18a873e57d99b51f139bd1553a9ce; 0x4460c62edb55cc088b39343dedc83379927; 0x3c385a45e6af16b6f43bc8a99e68f4be3a9;
  0x2d9835e7476889e4e146ea0aae16d8707c; 0x185a0a6960f8c82217cb8a63e1b238c3477; 0x3b866d29e608a73d2d93de5a0ae26a3e118;
  0x7ddd741bc8284bbf51b24e188c0dec120d8; 0x62569bf64c47e38d33c1c1069b5f4cbee82; 0x2b82eb98f66696f567850b1726360daaa25;
  0x901920ebe0c000a3d461128f3e863b9e7a; 0x387a0a3f4d05ba244a2aff5ce7c5e3eaee7; 0x32fc6dcc8a6270c87b7d329308c2b1bf4bc;
  0x49167a8a64923dd4425908efd48571980e3; 0x52613251f336071cfb3fe48ee2e5583455c; 0x55af9fb37c0e7798a44b2d96a19ebf6287;
  0x3a536f34017e1768ae850d64a8aeae6961e; 0x5789c98f40add9e8c24007645b414d7f83; 0x65aa0e0af65edb75e1784d2c59f2c5b719;
  0x4f9e822860b2ad80d6396ff7a671e212e5; 0x1a62ec10ccbc49b0143ecef0f4a9590113; 0x16278fad50e538029d74c91822bf9e98551;
  0x212a6a594b47ea4dfe1d81e008311f16adb; 0x5312fbc60f4f767caac0dbdc25d9c423; 0x74850154342c1c12a4682410394f0c3a43f;
  0x1467b73564c98d50c6e09435b65494577e2; 0x2c275f1f81b2013fa5d4b2fe944a91ffb3; 0x29a3fdd026e7465ed40974e6cae624c074;
  0x4b2640d5447c132236e2724d047fab70c3; 0x2bf2eb60f1e3031c2a0d75f60d462544420; 0x979dd0ebf4b312d179eae93cd91f457c5;
  0x3b57fcf0c1a68f4b5dcd1ce7f467be7688c; 0x266acac78089b8a801cbf2aba31b4a296f; 0x2825921210f6ce955d407f5a4b2d25f2ac;
  0xb10225420fa4f54a981f5b7315d0be5c71; 0x128aebebd4e874490c0b87eddd248c76a92; 0x14452a9243902ea29f012ea1ac449ca1565;
  0x4f9dbd7d3ef0d99f83238d85490f4be9; 0x2bd19bc5e7b02ab88935992af44b6260de6; 0x3bd3dc6d176732ee6cafceb513623454315;
  0x216e9267373f030322ca7b7911641a2fb8f; 0x12ae8a8efde9698aa0e94454fecaa245896; 0x1baa087d4346f17b9ad91f11db8ef935612;
  0x771fb31563b8919dcdf853e174b40e8b997; 0xd4ad702e44a4a78e50564a9ebc1154167; 0x220bb50b9b6974c7ca9018b5222d5940bb6;
  0x40b122e101351c3c6e1272547a04eb0d2; 0x20c146b27f89c9cbc2953ed41917682175d; 0x828a41da135871ae6086170282b08f0f562;
  0x207892db9b26e880595ef9471828c5ab162; 0x21d4ebf115c8d7ceb0e1d21791aa4870d49; 0x15567d2643aec00bee8aad073f62693545;
  0x250a0df32656350d626b63d22a4fab9289; 0x1163d92808f38a26c852f7730a3d4e85a5; 0xdfcc3b75e2e95ff643a11c3e5344de9316;
  0x92a4d3ed244119485b0743165eec9da786; 0xb21cb44c6e3ad77fb85e4bf63f088e1ec1; 0x1da96afc5c792099bebe0c59c8a51f1d44c;
  0x6e3c5550f7c7a91dd468de1375f6d4da26; 0x3df4b016b89d8486c6b8dbd1e234e888d88; 0x122d9920bc0cc1516a8f83a7b57f41009c;
  0x1bcb6f5728a39428c97b05cc5cc4491823b; 0x7a70db03f0543aa19b5598018c208b02c4; 0xeb711f9f3b1709ab961bed5958a64c4915;
  0x29cc717bfffd4a2e82e5dae53eb7e5d9e92; 0x7b23cc589464980b31304310522a6d6b8d; 0x8f3344ef084d98b35a3b42f545636d68b40;
  0x2d297ab8b248d96af350c1f7f19e7238cd4; 0x157b82eae01e0bd69a1dac591013822cb4; 0x2b2fd7f74a39556895cdcd05636fc83373;
  0xc5ffc34a2c68807d9716cfe6d7c290229e; 0x5963fc66e4b4c1ee89f34090d7aa409f660; 0x56f8b8f8ffbdd61f0d5936956d6eaa93c;
  0x23c94ab4c1913a319ee0e3753c85d42bf0; 0x2797c9d05d904649aacd1f9e5c6286539f3; 0x184e707cbc6158bc582a0962a97cd8b00;
  0x696481c9d291fe297bab9d2694c67685a8c; 0x792d54556b48cc77242e2709e0bd610dceb; 0x21fd7c6a930e7217bc877ac94814609a38c;
  0x80fda20435b0357bdd03e49db7803303089; 0x5e65aaca161bf0604492e2ddfaa4a7eb55; 0x7577106ca01f104b9ecbaa667459070de2b;
  0x7ddbd5f5b98cc820c7b023f7f7b8e468c3; 0x1327a598c643afb97fcfbf7473f576812dc; 0xb2d0ed1ceddc3166626c63d8a710354084;
  0x16c097ef896698180846f071c50c8b2ec71; 0x221321d9c23253c9ac5a2dbd51f10413ec5; 0x1a9cfc3a38dd73eaf66cac2b6376ee63522;
  0xbe00d216c12b098d696b8bf73a0607b9bd; 0xe39273bf1b571e6f744adf650ed2a89fd8; 0xabcdbbf77fe29ba068696b208db458f603;
  0x1158345367db1821fa8bf0332ffa662366e; 0x87d1b49ec87bddaae6a29051dc7dcf7d4d; 0x84f9278d59c484a82d0d7696d156d63e9;
  0x411282b931871a508bdd20ab1067b57f3; 0x2f798ed993231e4dbbb8a502f1ba2936abf; 0] [(0x10556d4e5b6afe30f884b3399b9,
  0x4a59b2b7e%positive, [0; 0; 0; 0; 0; 0; 0x35f; 0x1d629bffb02eafd2340addeb345c809907f;
  0x2e279a7b21cafc3d6a3753b3cd2a60b747; 0x201e35b914ff42b12d90245acc7e34612d3; 0x107600b033085c79ae0de574ebcc4e6d3a8;
  0x2a1e82a5b6bd2f913f53c3df0fc0d1fb46; 0xa1398adc214e93d729ad7e3402757946; 0x3149e5e580cc3750b8ec5a45706ae3a5c58;
  0x37a5bcab7dd4a93309eff3cfb7c48e93196; 0x1f4a5360ca271f1e8af49b51886748c3029; 0x48d40576637f4fe7064d7f0f30f9e3eed99;
  0x2a1083085b624aebc47057a863203c45551; 0xc20a9fc04823b2df9a79375f98b202b680; 0x41147e38658be17d0995eb34dbe577603f0;
  0x29da302e2013b049308e2d43a96f20b4038; 0xb102074ef8f734c475b8de698ebf5f9b7c; 0x153b311a825ae1d568d3fa28159e5a9e23c;
  0x159f90a31aa67657e02746dc50f040acdd; 0x8e513178c2d062ac74541838360b3408b4; 0x1d367e19db370970e7b90b5c34534144789;
  0x13ba1cd7234163810e77d5790bc2897f112; 0x349e56a3fba3e77da617a4bf81e8743955; 0x3e7220b633e059abd7e9283b55bbcd046b3;
  0x43a55db65496fce57721fb6f2392bad33d9; 0x7c303c03b3bf2bc8f76c20980b96882c7d; 0x5f6a15c8819622123445c80a1aeb7315e84;
  0x3165a82a150bf59e06a9563f0d3f850d81b; 0x182a6ca41142c586378fa8225d908704176],
  0x1f88f6be77e1fcb96444a211464591ad522, 0xd0167e035aa993c628c67e494f71685115)] (Z.mul_comm
  0x4be6ab2c80713e4d5142229baecfe3abc0f)).
  - cbn [map fac_q]. constructor; [exact prime_207054235041_32|]. constructor.
  - vm_compute. reflexivity.
Qed.

Lemma prime_123973385968_44 : prime 0x8e5080f370d454d0f85c00e3e7c5cae209c3.
Proof.
apply (pock (Z.mul 0x8e5080f370d454d0f85c00e3e7c5cae209c3) 0x8e5080f370d454d0f85c00e3e7c5cae209c3 2 [0; 0; 0; 0; 0; 0;
  0; 0x1cc80566a378f27abb4390b2eb554382a013; 0x1b318562a8d96d5280188bee1b26dbaa3280;
  0x438e55ff2157a5f5b2020a08f8f6be59d50f; 0x25c991c7cc98d3ed990b336e30a8b71f3617;
  0x414a94a95f4551a06760cf90acc0d4583675; 0x1045f47f858a4f50e87f9b91c6343c0deb8d;
  0x75ebe454d91b7aa4e283bdb773814bfc77fb; 0xaa772fa6777fadfbae981462ae7957efc7b;
  0xcc529dbb927bd0c7fac0f74c22711b4eb7c; 0x18717a22cfa6249341dd300dd3c413b64f88;
  0x30c6d01a988c0aa34fc79d2d7e043e1d0354; 0x4b7b166156f38d28e3e352db2de367798d;
  0x7e3fc275746d2832846c5abf36914a3dec42; 0x450ce9c263769cc34789f3f042e0c04db2a1;
  0x1198a18689a41be421f6ed49d9e8ea845ac6; 0x731fc5190623f2cf458c0f5a6a5bdb2c799f;
  0xa846a4327b626ca5132012c9d3b6c42049b; 0x33e31ded6fa6a2ad651f3f76597deb84b533;
  0x10e922d82fa0111fc314fff90e8f62254e89f; 0x2ab908b22993af4d35be18b7374e0616146f;
  0x5f8bb9ad9d8913e63db2d6f3384c8376477; 0x3f574219609895e2e4796f23a1427423f2c3;
  0x3cbb0412f39b1489098f057976bc15570b6e; 0x10be9e0eed99db238e3368f9140b923634779;
  0x10963aca0408e4cffc6e16bf5f91a5bd37c; 0xf4f2a97c83594cfd56001e40d1083a619c; 0x30152c21a830707068c91b8d24438aab1cd6;
  0x54e0edca5b514739d919e7db0d6864e09a3; 0x5f604e62fff9998c75d9f8fec494f7824f8; 0xf7b568e30eae2102389457fa89cbdc17467;
  0x261382728c2508942333bf27f890abb820d; 0xf583dc80f2cfcd41b62cc1536bd15c41d4b;
  0xf162d0948255532f4b2ca5697c2da953292b; 0x2cc053630ee28f58576138327af31b2548e3;
  0x4cf2433ebd06d71238ee307bae89bec9bccc; 0xce33e357db843f85d65c6e1522534791dae0;
  0x22f0e4e8db5a4fef296a0d1c09a94376bc2; 0xa8b30dd2bd57bc25315229d599d22b67333c;
  0xc2ac1685b09858835dc7da2d49b232d405d; 0x54137852cd44a4f1bb53f30b532256e80fbb;
  0x82b1437a5077427c78e15055247d28e0b852; 0x5acc084a0caa2f6e62fef18e652a0d58b3ed;
  0x7f73343b8976e25ef89ee7679c5a75a23d9; 0x2f79a74acd3a8d95d1889ffaf71b60495431;
  0x621b4fba4de96f9e2ff580bbbae83ce82cc1; 0x4d638c409a0420326d155238af9fb3780; 0x45c3de7906a3c908dcbcaeafeb797ccc011f;
  0x51d63b8a2b5fbb6d943870309f14ec6dc2e0; 0x3510e89aa363fb40b43ca9ad5b0ddacb47d2;
  0x4ac3a6668d77323bd3f8693ce164de50e0bc; 0x1c588eb9756fa2b07d956410fdf626b3e439;
  0x27d9a2de931da0243e1a9ca906ab038175fd; 0x60c6f8bdea3f818ebe6c164b439ea91c7b19;
  0xfc06ab1015ed2e1b8af9efba971b80683f; 0x888e76d0805c60e77185ffd782c8bbc56a8b;
  0x117e567024396e15cabab48c3a0aceb961fd; 0x994630967c67d04abd592787036815eca9b; 0x963b672efc8b723b9dfb5219a3abba571e;
  0x4516eecf0b059a6e1c0a4d55b65b688260d2; 0x9078eac69b89abd77b47161d92780b0127bb;
  0xf9ecf43cf3e5a99ff397b67f87b805f8ead0; 0x78080351c4a558214adf4cae975489d7afe0;
  0x5d444903a8388751fa4a424ab5c35bcb5101; 0x2f334db8bc63ee73297511e8069624088672;
  0x222c46f2f60096c0fa7e96166b61c894eeff; 0x418418b140283dd532dfb4ebb0fe1ca093;
  0x7c664993445bc33cc11b8b9d0fbd8dd626b5; 0x20375078ea9ffe235dd0b723b1bd0133ef9e;
  0xb09a78ccbf1b708316bb6c350e27249f46cb; 0x23391bd9bb454280e0eef092019bd02779d4;
  0x10aaa2baa378b2b76f1fa1d059b8b0cb22e; 0x78105d24d7fac6323c161e385f8ecf182f4e;
  0x3f0a8161db59b5a9f612705edef830c62e6c; 0x50bad34265c0eb0a7e378da1eda1a4f6ac22;
  0x865e9b4d3f0e88ea415c32ba4232a1c38315; 0x8d82ad1849ae92d22be31f16048a04d1b964;
  0x35bd851d88936f2f431bf3d22f0664690e9; 0x3431f3b18e3335a824013a8e33473bb3d09;
  0x106c295786481b00d889c1e7a507d19b16f3; 0x6d9ce6755051f2a400996944828ffaab5ff;
  0xa6747d67d44b7941b7bd6a460c94dfd06b35; 0xada0f064b1a8586d34b3e923bcaf50547821;
  0x1ca0641de6288ba91e53771a376f75d3809e; 0x1e349c9d30ebd9d5f4056a7c88849220117a;
  0x14f3fc7f97c9e15ba09bf383a5fca29ecb55; 0x44ac2a577af1d9f3cdd0503b07e6540ae885; 0x1f3f7759d0e6d2d24061c983afb5aa488;
  0x10ed5d8ebefc51224a2de515ad83b994a722d; 0x85ae9eef7631d2f0a625527d2d4a121eb035;
  0x40ea4245ff016be51d04f1a98dcff49f4fc4; 0x576efd01b60b1c40465571cb51157941533d;
  0x3c01d853d325fcd5b5838f92c9c2096662; 0x1bfaf9f81c8752aa805a7ff9a9dc355a2123;
  0xd811471f549d08e9013e601c4b7b651e0d6a; 0x3eca75f24a1efa6248c7d95129c1a2049c75;
  0x262d65d35e43691884f4ec650cfddfdf7fae; 0xb508a460ab95c99019fd54d41125d91eea8f;
  0x10284e954a8615380f9f7b291f8a58ad1fbc6; 0x177df510d7132a7af890bb86dffd9bddbaf5;
  0x62736b4bae34eebb5f0be8e43f92248536d6; 0x799f2cd99a2a8616f2cd0294c0b15cf839ba;
  0x4bbd7723aa8540f596943b9d0bba73301561; 0x7a1fc556da1ed719762159136fc3206ab8f7;
  0x54885d9959093e57de38f8acc18d881eb9a3; 0xdfd14ac27e5b7f7645bc1199d374633aa37;
  0x32a37ecbe72be8e0c4428170c814bebab405; 0x5d2e80633bffaab51835b9ae6d0a5c5e565f;
  0x170a5643ece29443f2bbd5dfaa8be2bfae3b; 0xe38a6a99581fc073a6aa184f949968a8a703;
  0x53ac70ba9a3b35e8805ac757052ee61d655b; 0x4313593bdb154c741845483cf40047f3835;
  0x32eb8e743ebf5efed5bb4b18d750e8c19566; 0x3762cdc22ba637aefd4af3ea441f1690bde1;
  0xcb9298ae4042d55c81bb0542d5172fc3e328; 0x1dc68e8c71b5f85b6f9b9dede23af516b853;
  0x477641095f1a18f65da21f119a5cf94509; 0xc6e40389c5a337afe458ffd3c44c1f8b0fc; 0x86537c2b6f8e2ea0d5f050ed070fa693b15b;
  0x5abd459c0b6f1adb367da598c0dda4081231; 0xd212fd308b8bfa8361ec8472cae542e01b8;
  0xc7de8b2dd05887176cd256370b0812c2a61; 0x11db46d6fe74a2082966ec43ea5787d9c14;
  0x694ceb2fa742641e0e8075cdd8ae1bc29d60; 0x19fffb60c653950b963cdf5a3a596cd6e857;
  0x10858f125a9fce072cce0b1bbe8fe1cf5f3d7; 0x1227bec53e17a3162adc9db5a5ce49e13cc3;
  0xd5763c778d98d0b32acf72331981bab5a; 0x4534938d493c621e1e66cd09fbdca88e673b; 0xe95f152126348fc8d6268fd2682c339c3cd5;
  0x2b9ffe6d5d6e8542392fb3acdc5d92d415c7; 0x17f46f791ce0c788081fb901e1956cbb75cc;
  0x927bac8eb51eda34881866dff62463165b1; 0x6cb77b6f956a70848bd4565a3351715476c5;
  0x4928e222e1c9f0558c4b830c2fc3a4333d3; 0x1d8a733cf8d2f6b6db3996bc0a0419162eea;
  0x8e5080f370d454d0f85c00e3e7c5cae209c1] [(0x4be6ab2c80713e4d5142229baecfe3abc0f, 0x1e%positive, [0; 0; 0; 0],
  0x37a560fe025d74070319dcb8d2405df6d02, 0x190643f)] (Z.mul_comm 0x8e5080f370d454d0f85c00e3e7c5cae209c3)).
  - cbn [map fac_q]. constructor; [exact prime_413244619895_42|]. constructor.
  - vm_compute. reflexivity.
Qed.

Lemma prime_246608641_9 : prime 0xeb2f301.
Proof.
apply (pock (Z.mul 0xeb2f301) 0xeb2f301 2 [0; 0; 0; 2; 0x75e916; 0x1b891ab7; 0x687cd30; 0x8b27b3; 0xd78c6da; 0x3ed5;
  0x12e35d3; 0x190b0714; 0xeb057fb; 0x71d0d03; 0x19832a20; 0x222eb2c; 0xfea89f; 0x18a67911; 0x1138a136; 0xc3204;
  0x13a5293; 0x2d6cc24; 0x1c4eddf; 0x9d41124; 0xeb2f2ff; 0; 0] [(0x539f, 0x2d00%positive, [0; 0; 0; 0; 0x22d50;
  0xc2247f5; 0x406b308; 0x38ea354; 0x8ee087b; 0xb4e8750; 0xbea3176; 0xbe815a1; 0xd73174], 0x5be2c47, 0x3f8f20b)]
  (Z.mul_comm 0xeb2f301)).
  - cbn [map fac_q]. constructor; [apply small_prime; vm_compute; reflexivity|]. constructor.
  - vm_compute. reflexivity.
Qed.

Lemma prime_105957871_9 : prime 0x650c9ef.
Proof.
apply (pock (Z.mul 0x650c9ef) 0x650c9ef 2 [0; 0; 0; 0; 0xa22380; 0x2677412; 0x4107875; 0xad8e; 0x16e64c9; 0x5c5fb15;
  0x168f73a; 0x71753b9; 0x11cd5c7; 0x16de2e8; 0xdae21b; 0x10d2cd8; 0x1b881b3; 0x6a5836c; 0x1ee2889; 0x38bc4a2;
  0xc84bee; 0x1eb9cef; 0x5409804; 0x2fafea2; 0x2e4aa9; 0] [(0x371, 0x1d5ce%positive, [0; 0; 0; 5; 0x738c6; 0x5ee7cfb;
  0x2b74aab; 0x2fa1c33; 0x15fddf; 0x756d0ca; 0x80e69; 0x39b8b19; 0x31634; 0x7886bee; 0x643155d; 0x3daf18a], 0x648a6ca,
  0x632bd5d); (0xd3, 0x7a99a%positive, [0; 0; 0; 0xa; 0x39c635; 0x177ea1b; 0xc40a4c2; 0x67ffd0; 0x4536b1e; 0x3a8d7de;
  0x92563bc; 0xbff360; 0x570ca8; 0xb512b3; 0x7c50fe9; 0x4a80b4; 0xc594; 0x150ce4], 0x30f2620, 0x282611)] (Z.mul_comm
  0x650c9ef)).
  - cbn [map fac_q]. constructor; [apply small_prime; vm_compute; reflexivity|]. constructor; [apply small_prime; vm_compute; reflexivity|]. constructor.
  - vm_compute. reflexivity.
Qed.

Lemma prime_529709925838_21 : prime 0x1cb733b306cfe30dd1.
Proof.
apply (pock (Z.mul 0x1cb733b306cfe30dd1) 0x1cb733b306cfe30dd1 2 [0; 0; 0; 0; 0; 0x23a8f6fe86e6; 0x20cca6554c5bf97b37;
  0x1398182871e5ddc1b7; 0x10dfa58bc401a1ede9; 0x44182188cb4f67322; 0x1e451a971a46c49f39; 0x2e4b0172490571da5a;
  0x33796338fe9466d4c; 0x767a7c6e4256b2bab; 0x164ba8b896e64320fc; 0x153cc6433aac58ea5c; 0x14cd4b14a382fe8491;
  0x20ad9be569b203efd; 0x1fbf3fc450dc2587ab; 0x2f4b9c305771808cc3; 0xe0e92f6cf9123fd59; 0x1add5b0ba91895b9dc;
  0x5a2e2e3a73cf6825d; 0x9765027995a8ebb9b; 0xaaaa985d837699c; 0xe904a4ae87542adeb; 0x2eb37bfe0a062c9744;
  0xd59a9b9368c25aa52; 0x14386691e8590d62df; 0x3e4dc1de83e7b0499; 0x5825039d4b18b23ee; 0x2c76e81c3bcc1d1a;
  0x1fd9d96a2c4daa7d2; 0x13f26fd051c6524; 0x51a9feedfa6724efa; 0x4ad65bbc5d6f114a6; 0x1bbac3ff19c41b6;
  0x4e4a719ce112c4339; 0xa56c8dad938e4b3d4; 0x2a39dfca64cc28ed3; 0x3d21f92226d87236c; 0x2da5f22d7748d5c66e;
  0x133fd7e1fb6949d658; 0x3125311b0ec0f2fd98; 0x4df5e37d2f0d567a7; 0x1095098a3cd22b3c1d; 0x33da8dab3bd3fb68;
  0x9aefca5deb22e8330; 0x104f74dbccfbe7121; 0x4cab4bcdc63e13; 0xc2dd3641aa158a628; 0x2611288395969d99;
  0x19dd7509d707fe2e76; 0x17ab12ab93a9d8b3d; 0x120d77490cb3059742; 0xd93e0f00ee9308a; 0x2835b5e4b75ebee73;
  0xc416042a1cccc5e63; 0x1606495c3887b94d; 0x3783a2566d0a319f5c; 0x2d96afd8343fc32eb; 0x156b030426cd0a636d;
  0x1bb2d0532720dca2c4; 0xa086d15b1d2926d21; 0; 0; 0; 0] [(0xeb2f301, 0x1f41d769dd0%positive, [0; 0; 0; 0; 0;
  0x11d47b7f437360b; 0xe5c5212bcf6e01cbf; 0xb308b9144b2b18e27; 0xd70ed60c1712a5144; 0x280a71d741f668081;
  0x19ad1399c3db2b6237; 0x1ade4a831d48992d7d; 0x4f04f8cb50f106fa; 0x3730920a91a4ab2f28; 0x193486c1b931a9a8f;
  0xc5dfd601fd8ffe31; 0x5958e63d09b4c721b; 0x3ccd486995282c7e3; 0x10c6af68388f777123; 0x12e6dac91dbaefb06f;
  0xc4f127153e0a02eff; 0x24ed4a173baf24ec74; 0x2a6c5631c386a70ec8; 0x17a0b755ea3756973c; 0x176ae75d8da630dcff;
  0x1153b02cc9d3813e2; 0x978f416ac615fb832; 0xcc87b5a2dd1fdf9; 0x10565383f386ef273a; 0x2422d8ea038fdf9971;
  0x7b235154943c6b1; 0x1e7158512e63395ef; 0x24fdfbca9bb1c32207; 0x1af153106efa447fa8; 0x6c5d80c06cfb5be4a;
  0x54e585f432b4bbb7a; 0x6358c7a305e47c01f; 0x9aec710cc4536bc2b; 0x141610a7b16fb142d1; 0xc2f7cb478107882d6],
  0x7395d39b7f88fce94, 0x3b3a74d45c01678b7); (0x650c9ef, 0x48bfa8adf30%positive, [0; 0; 0; 0; 0; 8;
  0x301558c6db52423917; 0x116e2b35b038728f2b; 0xbf0b6d23bc12acf4; 0x2f79a2f2e3b4dc5a6c; 0x1b1f0423fde984f93;
  0x1e0fdfe36c06e8a607; 0x35a09a43a3bde214f4; 0x31fcc3a922415152dd; 0xb35fe355ca64c3d05; 0x4d9aa3941b6e88641;
  0xe7f4a2d1bc417cc4; 0x493da17db742d6024; 0x3943ca4dc9c006e509; 0x11944b784c3c57d718; 0x506ca0c89685462c6;
  0x195ff2da104cb17c1e; 0x66cd9404a34e08b37; 0xd69a958e07da0; 0x67bd2fdf1a0e4799; 0xf2257fe9c0005a5b0;
  0x5e30af2740eb49c44; 0x2466227215f77ef8; 0xd2adfb27177a81997; 0x313e912f584ff24fbc; 0x2af313da35ac480a84;
  0x36e59e3e0da82ef20; 0x61f7a88ec3d60827; 0x37118d1f6000e7f0cc; 0xf4f8d3506048c6f35; 0x53f1bfcb0b69c8500;
  0x11eb5e5fe69f6ea59f; 0xb5a36a00da97d413; 0xa270771ac452f50ee; 0x1c6fc4531ac384bb; 0x4f0fa09a6af1d090;
  0xa0337160fef94d9], 0x1910a2763fe7950ec, 0xd9d0b29ec89ca457)] (Z.mul_comm 0x1cb733b306cfe30dd1)).
  - cbn [map fac_q]. constructor; [exact prime_246608641_9|]. constructor; [exact prime_105957871_9|]. constructor.
  - vm_compute. reflexivity.
Qed.

Lemma prime_191737902980_101 : prime 0x23108c4e1b4108ec0ae7f9ac9f118677a6c53e44fd12fcacc07b805145240aae82349d3ce0e376778bd1.
Proof.
apply (pock (Z.mul 0x23108c4e1b4108ec0ae7f9ac9f118677a6c53e44fd12fcacc07b805145240aae82349d3ce0e376778bd1)
  0x23108c4e1b4108ec0ae7f9ac9f118677a6c53e44fd12fcacc07b805145240aae82349d3ce0e376778bd1 2 [0; 0; 0; 0; 0; 0; 0; 0;
  0xe9a02b7f54b3c00000000000000000000000000000000000000000000;
  0x1d34057024fe82dff260f56fb02e6d20653b1ae049fd05bfc78de56f75c66240e7aa3b;
  0x13a955cb63607b66be15b425b32de4042307f67f41e15bbb703ee4125aefd10d074ab77273b8ff803e1;
  0xb354133b21b5c9d7a940b37825fcd444b4aa05c19f8822a98f60767ffcbc9f0af93e762c526706c8dc6;
  0x1d9483c5563373f418a779c87080cac366b4424474a8ab625f1c1ad7f3894fb64d97aecabac14e8f5;
  0x2e6276f235da2551e080b51fa6231cf59e2f1544ec25409a636025eb5365eea32b54a8bd86d8ee6715d;
  0x6f0d929a2cf8c623aab0bf8fc01d3ffc116bee306381e6e23bd650348f112807b1132202856d334ff79;
  0xfa246cd3eece7d8c5380ff44e5bf15e75e4dfb2f07a73079380721e8ec33cf59197cd8bb173cb23da0e;
  0x460d61424edebaaf3dd66097fa8bb114c4c5039dc239fc5871e22f53a3ec21d7786f3b8105ddd5c0f51;
  0x66a9410f5816b43ad35e529a0b1575fea88822a9c7984915282c75b5a0a418b41813484948ee44e3154;
  0x17482969590943ec65a0df019cb65221184e2247cb03383dc80084e2478e77162da06060b78dc4fe3f09;
  0x4395aa4fa44e851e90891417c501f7b6488522fe67252b69d1047bdcc550399e24ee474d2bee40f0add;
  0x749c3c80834bb91d79c4bdbc80bd9f913fcf2eed56eb39f1c143bc9cb2349f8c829727ccf9fd4883065;
  0xe37ad2855f7886e82b6db950aaada40a93b0e14e8210861a295689d7e48f12960b9a9683b2478ea4f66;
  0x695e8e4616944b82d5c624e3b3f5423ea0d8350d7acfc4d21f8e5404a9f67e4f05e1431a89f27d28de;
  0x1a6f6885ea7367c595429486a6458a7fcfda5d5375c266b0ceaf5579f9f98889b4e1c153312618e2eef;
  0x227d66a19e9f5ce13b2ae6a6d838ec15d1259ee02ac27507b287909a3e5a383a7efecf7f5fbec870ae;
  0x55abd445ee9b3e7b9d5193377d5932dc98bff9181ddcb444588393003c1f239e8248a4786c3256a749;
  0x2c9627b4a88b3694a099187cacdb510756cd27ef5f44ba3f97a15e895416449364d0fe4f65205a1acc4;
  0x23098044799dca2e331c6ed493418211aea5625cf86473bcb7ed8d6634e71beabd56d2a4e19d30a14f;
  0x562183744acfcd6aa31935876a112026988a46ddaf4f69ce6a8ca1b457f2cb8594e7638faf9747584d0;
  0x9930f63a1ed0e9c84340a8abb0d0955e7ebf5ced7fc920ce062ef432ecd120956572dd274933e4c7b7a;
  0x6f68b5e06faab372779e484024d3e788ea94617b4dbe994e9f4b5247b010e30a3740d530d9bdc8549fc;
  0x1d5d1f23ddc8ace8f5b4b2e588f3144ed7d236b857a39707dd1553bbdefa5c1e7e9cac1c26a09ea0656;
  0x2274d89314410b2ac25d72b0dbe9c73b5e9bee18f16554477068564e53328123717f7ea6e695c462a9c9;
  0x23f6c5b9374a82d79a9dc29116a398025dcf286204770bc6370b1dd70a1b740912b55082bc85f9d4438;
  0x2903991dcdac21fe215109bdc865b6a27a985c8cad79deb6df6af8e0d558b46fc797ca36f259ab10acd;
  0x2685b9283fbeb9144c3d095060b61a5de7e8bbbe6ca2db6a523dd7cb796ffc3631e985ef0c3bad612917;
  0x7748a0a55e9b40d205596e037e65da6e0a924441bcb18b72a6975a0105c7e7dd613e4496b5662775042;
  0x1fa1ae6e2fb3404d351fd120e47eecbff16f48b11d7a2382a9141e4c6229a2b136f3ffdd0881a4336870;
  0x1b5d975cc5f2c2320e558bb91fab0eb7822d2bf5ca7ded094263bc2532dc15879c8907cc3cd4c8c88f63;
  0x1fa393bf4dbeeab022499045d4e8c0b0c45d95ff6f0c37d8a2e8b7d04beda874618e1d3ade4f043766cc;
  0xc2d117d4a32390b095b6c471bbb8cda5d2e79970871d2a6b2fa95eeeb966035336093c0d80c72d17583;
  0x1077d2c4e6b42e00335bd24d7d2ed7772b5d0cc16ae5f1d0341753b668d2a4f0520809ebe38d7db2b749;
  0x795777257c96615eccdf47ebc027171e0da227cebcca8671936bf66170eb961d2237e0ae4037b4344a;
  0xf687c63c36d041bc78e920cb44e67502bdbfad42b7297acbd2a1bae103dd13cf57c4a3d12c23992b907;
  0xd310bd503795ffe5c79c36eea9244987eb85ca8794488a25d30dc964d5953417c3beb823708ac28084;
  0x100b4d7d700ecc65e3a61ec6b7e2300d62a1354a7224e8bb01e5ec074107d8c08b538ddbb33b78d7aabd;
  0x9f713d885388254dd3317c017f5b02c8bd08c85efd6906fe7658ee216c25c7738ae9d13be41bfc99f0d;
  0x300071a7fc0a972858fb3ef0d618655c8e483b69c4058d6c281d6689b99e6e86bb56f9ad7d400d9a14d;
  0x5ee7e5c2de9576e999c8e376764d641f3471e418fae1449771eecb03b147e9fe2625bed4cb33be174cb;
  0x277db6c03d4b8069ed2c9187cb689b0aef2017414f7503a4e109375515c14d5c11c764ad867207296c8;
  0x8f1d4b11d6cb8ef579a08c7431b18c958eb8d51e275c3f93db6c629eb7ba8c0f7bba053a34dcf5cc862;
  0xf234b1f6a65177375a6d55201a70ebe8834d2c91fffccefe453494aead171e7143c0eb6d357e49a1e6d;
  0x29f40814e4fd66550e31060eebee8d99eedbcae43cbbbbdef8574787926244ee6cebd2f73a0664db3b;
  0x41deff46cb9c3631390b2d6b9208b5b184fdbf9d348cc6105323e31fe3213791f79170a897a38183cec0;
  0x60494627d2f945b1c794d4d3efff0371d05f0f0d7812ac4fa07e452f1e81b8f72da3bf2fd9ff9c71c7c;
  0x79c1596f0b112df40c44c85b33fa0c3d6f03457c7f832f65af35b8c62398d101e7bafcd7ab667aac849;
  0xc47e9cd062c8b554299b0acfd3866f3226de2a66c1b326eefa0ffcf9bfd3a87f6a4027cbdababfef21;
  0xc01c80f34f7c97f39c4db180099978dfebfccd90d3c7865343c7751835f1686e911e300f64975cb03e6;
  0x70db070d8f2d0d3919638bc03711155ee563503dd9ac04e4cf36d851f25c0a11a38efc8d04a46c0acc9;
  0x26b5d5d3b041ff48c7f26f117878ef769bdc549b5f02084b8d6b13582ac83e9225a4bbd0b2f39bc9268;
  0x21073bad985afcd55b3ae6a67e88b4472de77105cfdfaf81b087ce686700509e1b89440488d1f7f8cc3d;
  0x1596500e3571180ed8667ed4c6ed6230fa9bb961c6b78cabcafa3f91097b1f30a2a8fd03ed7672dfa803;
  0x5af24ed503e326930ad430c38bb4064d1f2e48c05ac7e8072307c5750b89c489a00ba0912eedd5c2955;
  0x7fda8bf341867b019fac81599534489c2672111ece9222aff5899d8ef7a03f11489f4b3476a52f69f54;
  0x841e521ed2f52446918ad46801c434051bc4a34ce4530e8d340e6cd8f462e14a8d24a2185c7b1a0e475;
  0x25d9c54648beeb9fbbe444f097b93a1bddb52e83d156db9b4b0ad6e1aa21cf0e1f0446e1e8c39d2fe69b;
  0x101d4e28abbf0aab0aff8ff39ceb2522fd65ddcc925920640df0f254ff1c7b73b816d3384392868e66e5;
  0xf5a9b26b7defa20541f8a51c2aeae7910eaf63a9ebda5b6ab5e7e0b6591f1d48db009fa142ac87ed32;
  0x45115b3e842ec452600ef34a008b05712e37ea3c647f5245692eed44f76bcfec2d25ae479e3732a6bb4;
  0x78a56e87ff72f4b34b69fe5e171fe3e58fe7f57a76a6c4d97f462215adbdfd0d48a30ecc1fda106fa70;
  0x364c5fd918bf8a0d27cfce4734291e4c73ae2888563773196cd31b1095355d22ccfa6a64356ef04a0ba6;
  0x1f77d6ce4fb8f2c5bb9ed82bd50d5ea66979888f739ca6ef8efde68734e4a545d8f2b4e81775e7fc30fa;
  0x1f2bf71ba52137600c14ed5bb02eedfa3aa5084de6ac59934955352230973647f22469afb28071c7e1e;
  0x1fa485e23aba139a06ac4ebcffabfd1b9a3c48ab3227b317489643a3bcf439fc168d241d9c6e450658e9;
  0x8b6fab36d5607b2f38e4bce438622d6b1d679565fea6e87001ef294f0eaeeb3747e3c31550a98618dcc;
  0xd8c3d992552ac6386f83397023446f2e9244a93a595748415930228c0b92e8d6e9bc04910b1a6fba40a;
  0x915a8a010ad544c2fccaef9832728157c33a1d9da691dd066f1a9f69beefea2725642ec5f062419847d;
  0x4035a872e364afa54ddf27cb5655a8649354295c4fb5ecede1bcb741fe7366c484b5884bd273e192cbde;
  0x1fdb3e3f1ba3b1c49c05ffa96d9ff38b0e0cec30172e0643d43ad14f4a5d7c1cb58c0505391dd2ea6c6;
  0x3dec6af7c8d2d2e8d2b132831561ed8f005e8cf9be1d6fd8f26b13125f15ff302c2a370d27b524ed1d22;
  0x14dda523253909bff31d78d91132b4328c918f091c2c108a9ae21a6367652fbbb917d55e2f2074b1b3b8;
  0x719e40f3837c8b0fc0becd9e8a4d51dff86bef4710483629800b1b91795176a44dd126f9d6fa11caef1;
  0xbc2be7b542f2fba3cb4a3d005fa9842983ae296a74f1740bdb6d0219a6e70b9f18958af6218f2aedb27;
  0x15cf787c5bece2136f2c95982245e2914df1d55a4afe8c84f24bc249f13ac93215ea08e3488046c37e65;
  0x1c0ac3ea5150bb72cf11a4e2cbb39bfe70788b4df0e81e00ef7d84bece4cb0b07b55466399f9a792314c;
  0x960ab6d318283dc915388e77599aff4630db79df3fcbb75c6a682cc06ebaf5c4f0163a8f5401cd062cf;
  0x27bee085d9cb4f305b0ece8c93bdaf758b72f6c7043ccbbd645abae231a1e92345a5c471a22f4189f50;
  0x203603c4bcfc26b98657f410d684cadd3323f2cf16ae2bfaea85bffacd86b418c1a6d02f683621a0700;
  0x228b88d75c73233e232237a20a19a35163877450e369018925a1128f49dcecbdb5b5924fd7ab1edbd338;
  0x12a2b2bb3532c00bbfea567ede0476a389116e8ceb445060a14201513c5cfd683226ec0530ce072e23c4;
  0x24fc74cdac923bf97e5a2bd7edf20243d9ca29519a887c94020c9ad4cd43d61130c9dc6ca0f14c5b877e;
  0x1fda159e9fa0c10ae101b07cac90c155e44a642fc24f7cd6e7529c6927bd3ad4b183810859c95463a273;
  0x864bd01612b19f93fcf861eb4f926c0f8780e13aa0ed7117a871c62b4153530785298ca472d22e7a640;
  0x3b560f68a3d655824d041a6fb6c999b08a1f63e5d600f0be7e50ae0af5d9a12997deb9c118a910121c2f;
  0x229378e9d2b2df52ebc20ff81896bcf93501f0c4f5eb34b5adbed7154b849da199e85b79d3244185c55;
  0x2f3016f47f63faa259d67669be071c2c3e508aaed8db5cbc98c3bbe9662264df8d45a433b83bb3c098f;
  0x27e3c771f82e159437cc7781e194099a181309e8399186b992f3c9876e0a86a432b79b6b5668f3dcee2;
  0x36d75606edefb784bba140c94b492ce9bbda7f4a6337f4a0c19b39ff7cc7985f5bec1af3fcbf4f7a722f;
  0x8f30708a5cf6f3a4d001c24ef575f810b4396080051440b717c59af897ada04e9a32c5ac58587fea20b;
  0x1728a8cc30f8a9cf8eef6106a2e9b65a325d8e6650b9a6f40d3a5ddc38ef4bf26d78d7005e83208a731c;
  0x345df4931baf3c5993a80b0fba321e544b1a6d13135d97747a0cbf474bc5422e55b7f082dc133d0a02e9;
  0x15129eeba436cf86c4981a8e4dd317a24886f42da0d37d37cd7b9a65f3216fe7b3368b1c305231586674;
  0x22f5be03a5faa66380e077ef4a48f5439261b6de37751cbe9a540f7297f26bc4c0c4b4696731c154b3e0;
  0xf1b34f1345fa0c42d059b54daa560a81d89107f50b8f31a6c456745b60a1ad7795e891d21f83d1e289d;
  0x2cd7279794caa81bab1ce844757e3eb6df60c0c8d8cf7b9c1e0cfc82a0eee97d27045b0232b87083dff;
  0x2d2f3e65a2d93dc694076646e64cc001cb4e674e1619539ca6040140ffa6d09fe3a4a92f7ad108f3e8;
  0xc1b02f4fafd2f7433d178af3b0c2e18bccd5bcc1a06f06c20e9d3c286b584ff74b4052c020781c29ca0;
  0x1c9969fcfa244af811856c46a659521859800d98cb7a9261ea2edf9c664f65076aa5deea2650cdabedf8;
  0x1418349eb532b8de68a6eddceb8bb3f94154de8d7591fcbe650e89d52ca141f33cad59ec10ac0860ee37;
  0x3006c61b40c3f77b819ede10c97c8a7357e979a56708737fc282598defb540f8f047723612b0ab46125f;
  0x1f9d706cc35a5c5b38a7c02065fc0a29b4e8294f875d130e7e786d72054ce6b16ede2fe211f0b2e8ae7e;
  0xbf51e8d241584244c6a9788866adf2b48bb59c46003cd01a114d46971570c2d9a9c90c345cdcb6edfdc;
  0x57019fa96ec2d4bedb738cd56cd8c0668e424cc0b5ee75845240fd49b7ac248fcc9663e8c9198334a24;
  0x14c0a1326345c5599887226b81db42527cc297f5480f2c9db2b6d841015b70764120bd17995a2377362a;
  0xc95ecf9b9c317f795aab8075c0c6ee638e18bf0b135e09396b91263771c807e2318edc08560ea9e4b3e;
  0x2fd5a93408f120c085a3c7fcc105470880b2c180601b24e3f9023265b1f6aae1d3194a1afdadbb977d88;
  0x93e71382a9c85ada07876f43d99a161f1a2c4b621a5e559153db4ec2b3359e18715427ab20762577ae;
  0x9831c256faaa93682c96b23167957450c74272482860ec7768b28c5232975e474a9c61bdcacf0b58132;
  0x4125ef502c41d8d20480bda12b2479050ccc49e3e072c223c2d0f004f932a6e601176063349f4ff0ef6;
  0x428609a29e92afc70744feca387926ef1301601b0be6884de78f56f29709995694999ef355e16b7927c1;
  0x99d8fb583fbc801e88b81699d38cd13fb7a7e9fa244b5f72ce532dbce59f634bfaab28665732d27234;
  0x575aac3f34a27e41af9e1705011a7d01913c3a6e561f6d272294423fdaef988a985ea69fd743cf6874d;
  0x61f609f9e55812dd2d6a447b38c8b025bc2eef98c85d7f7882479baafc98c656afb43959f1d37d1813b;
  0xd28826f70cdd6f908c54b7d53c346ad7dc66084c27bff530caf22f1c615d13352414289ef6bb845c40f;
  0x4234c3b9714f523f009e085f7379f276dd476ef605c4f9ab2f769b43374a9e6564a648088db5709789b;
  0x2f5d9aa8263ee0ef3d9584545ae0827e265dda2a53426a0395700d8d01e2008d240c84ea31e5d7daaf56;
  0x5da4420bbecd70873bd307fd7bc0cbd5938c09bc03d299e4eaec406860c0def771afa52274ce4e9f7c6;
  0x25155faedfcab00e3b659c6665b8549ef2db645d03ed10c27fb7726301ba788b490fb0f998b47518d6f6;
  0x9786b5696540ac7bbe8172e4ed8f5cbbc227886130f50c198c450b6d90edd58048193b34e12ba0b6006;
  0x20000b56f750864115dcc53ecd364786d98608453219bfdf4d943b955279ecca4bee72b32d0f30f57a96;
  0x825019843fbb4244a97edb4c65fcb8c3f59082382b1f3d4c439bd29f30e42fb8e4ffb2738c56392bed2;
  0x3c190c483b8e9136996d77519544b58747952fb53bd88127b834dcd738c0c8a0c472a9e9af556251f13;
  0x8fe667aa7a75f14054be472c31dda6e4c72893ce55666e28f6ac5f73a3d6d3deafebe6c40c72c756479;
  0x1e0297c3e8a6dca2ab61cfdba909464242dc70da7d2f1f92da69070a91aa493e52aaf8329fc378468;
  0x14415aba82d3d35bfd378f91aa504e0f8d6783bd89c4ab6bc1d57d3f4eaad80e9db84dad444e71f67362;
  0x14e60f2887c4c9baabe583b4a32c24feaa31cca79638f624337ca8841944c4bf08d9838fc4f5eff0279f;
  0x1285a381c9091bb6b0662c5c05aefc43336859678bafa63eb60ab0d313d901fe522f690711d2ea4a127a;
  0xaea8c6a1b6574c775ca597951be8791125dd72f8fc957df604c181f31616f7fe2aadb12902bac46cd70;
  0x2d718a69ce0a5c27cbcc8d8214c3ce14a70c1ac69440af26476d8453c823e725315890b28f42c8451966;
  0x489d46213fbb418723a94527e73bc8f4138f7750f4fe83d12694ef97d69dfdb10a527dbc6776467c142;
  0x2a4fe3488dfd9d8acafd45b4e592a68995e923123caf8bdf92b40a89e0434a522b4a86a718be94f7d5dc;
  0x144db268c5c764e2b24ccb39625b6d6f78e64be3774cd79475f92488908d4f7b3608c96285dd96b1f19f;
  0x7133669c41c844e6d13190ce8251338df4823012ead6ed60370fcf08814a04a7a9faf5b68ba374016f8;
  0x394dbab0475b0c43c1d22e67c97e9676dcef198d0cec1d18ffdab46a35b1eebe5acc8ba3710dbc57343e;
  0x19e94f2baeb03b2d2f360aff80759f303c363b19f9627981be3bf20e7ca1a7ec6af6d0911e178221dabc;
  0x213e437dbb77cf9ef8fe3bcf4b326e0b36a3dde6e70127f49b221c9924751d41031656c51e2d1fca7ebf;
  0x559f99f7281f9d3cd4d21078ade6f347dc64a7982d521eee0d32a15e38d36fe828f5e8cf0eaa042df56;
  0x1c9b1588f6b057a285f06c18bb93705e54adf957f0a1b57c842b6ee1198319a183439d65b6a244a75c14;
  0x18d5c9c78a5b7b3d5b39e1d426435dd82ab6cf181ec6fca0dbdaa65792254453f8f6ce8237d0800cc865;
  0xbcd368072ddb2f1e93673014f2e94f7c93ee4fb8280aa483e9094052c22a0af241be06cb17b037b5cb3;
  0x168f080fa5d0fb0a2cd448ea850d712adf459a06ee03ca53b785f794e77db821a3580b8f032bb9289396;
  0x39b1d0b4f58966dc1c7d5f1c3543925adea79644ab8693395ba84d721c95fceef180671b76a5c7208ce;
  0x1f9112d5633b8ad9273a3da70e08c1dc412d1e3a0ddeec37e34ce7fb0e83e94e99e34b5a5833b9d8ebe9;
  0x1723d56a8b50b0e857e8b79e13841cdaa458f640f773d1ffe8d017748840fd052ac9c59de36c61cbf7e1;
  0x5f73e4070cf0b313d3db8a5dc641755b7a07c53a203c612e29f299fc3ab92a4b30074b9718d924307a7;
  0xe3379747b85e792e0a32d500c43d25f99722fd6e1af94be43e032ed2d2c68fcc69238cd198301a8c5b;
  0x174a18551799ef68713fc9d7a56aa81fb2f1cdfde462e59e6999ec68865c147ede79dbdd50bf1e1daecd;
  0x5b339fbbf2b5fbaa0261d18e0b61f42b38d0e238319a85b51c75d7d901353d0d7631fcb54e07ff53353;
  0x2a75aac3858fc101dc8f214776ad50613f2115f9afb2e1f2c2bbdd816ec7510935583a1e9d2411c77b2;
  0x266000c7eac3ca089a5a113063259d0a81a9537353b1d7ac28b865ec5ac72ded7b9bdbd42199491e7dbb;
  0x38a5ec8e36dac59d907b6d5b186ab03331f7b136894f1c4d0078c4a7acebb29164d4dddc7400ce235c3f;
  0x26507145b03396fc318c8832b55ec77f03cccff929fa1c61b0efecebeb6f34d2018e6b8cdf1930a986f1;
  0x39a2d0af7190764b3a340af803aa21b6596a662d966651e549658a6e115c7d454b74c2e541bfe79ac7c1;
  0x12151be820beb224665dec993941a0219d71faebcaa29470314584a39020822f9ef6cda52437cc39ad7e;
  0x3943ded568a9e1ee1d43e1b83ec5e0b32237fcb677cfcb70604d6bdbd51e810bafcb3da8063b089366a9;
  0x155dd288cd749c00590cfa4430ccdb61a40269a6b7a0c63eeae253ca8a11ce5402263785070c4799fe1;
  0x83dbe5a41403e22df595bd369b05ee9b26ead3a596c54cfaa3274f2ec38d9ffc1b31289dcd85ad273f1;
  0x1e53f7b344b50e4bfebd3bba18b06b19bcb741fccd6a0e610723c8bdd26b09bb88f8a224ae6895edbf30;
  0x229700f631a07f87cc4d936a76f1a617f2f3da47df4ed2d26af7e9fc4d9236ed8d9996be07268bf9675b;
  0xf85e34f65a38e7bc3a23ee4bb99f992adf2a5b9c4e50d6ba68d23158307f056464873a61c7f4bddf23;
  0x34591e9fab48f66f3d4f51019ba7ae64aa83c7037332c0ad62325dc4337573ff1523c1dd6a17145fe62;
  0x2439f5326f6010e70fb2054e0a454700fa9ad8e8e92c06c7511785f469e4c4361d54db64d929afe0a281;
  0x211f8d54b24272957836d00bb1509bde9453e982101a4be1267aacfdcc1d58621ddf2bc30974e136ef6;
  0xde840ce30d04ac227d3bbb99328a3eb84b9783b37203695af450baf8c730d17aec7f4594eab3d4d1fa0;
  0x1421682125f02656a060eb9a8e44aae87af02b2bf5a2664fcdaa9fbe670e624f63eb0abcb4001d519e4a;
  0xcfb54f59ec4742aaecd8d03f174d096ee55834bbee93a0d4aa866611d81e31ad302255804ae56a4432a;
  0x2084bc9d75253d98596f4729c94ab26b3eb39c89d71bfa753cc7598e93c78cbb2c3b4fe17dc358518f73;
  0x6e706125cb0eb14205a3738f842ceec4fcecdf97947cf5b57e1c7dd97c16432c30cc5b5c6aaf99e37b4;
  0x1fe897b66ce47333a8042a5d4d039b3e4274c777caac1e44aec1f4e623736e0643d4c8f366e7a233f841;
  0xa77fe65b6ad180eea6f3c617b0e8f8923a4960bdb0717ccfc67b958a6d59bd12f18f369682c3b913921;
  0x7db0e2391dc4828a0701d0ce4679a711f37c8147c1f3952155c84b30cc6c829d199d0be307bd379a26a;
  0x2363a776710f9bd28154cc7fab2a9c16dca92255dcf39a1ae189e270501fb571efe087acfd8ac2e97808;
  0xad7d09139fd3f8dcf2979304a5a6519122681b5f915da9ae2b67c59ef6fa591a8257c4db8772a144123;
  0xf4010296fcecde8dc06b69f1cbdf07aad37ae2767f50f1282bdefffdd71d1207fb8e55b451cc38bffd6;
  0x1ecd589d9fd528f847c27b33f3399437557c1a203c55fa1d5e88edc5d26856d36c23ef00f1f6d5bb1618;
  0x40af94089d13ede636b7fdd386cdf3ec0e1e29dfda9e3107d515caf3747ff8aad428f79efc3ae4be2a9c;
  0xa4b4c4a056c6697ed872bfb666a086f572cfbe23d3737a0f9616ca36c74c210da6b75c415af4426fa6f;
  0x29dd3e595db57e62ddb0f64b1123cc806e1c2b125901376bb2dc0ee0dcde24665efccc8a9eb5f87027;
  0x136d753691dc85094ee201b5a6abfaafefdc79e99ae71f7b6590af6ecf16a2d39c374e67f76e6f02142c;
  0x15d33c85fe94332543613c000e83025325a57def0bfc320289b77979b3c4699dc2426dd624106d960e2;
  0x374403b643cc6874fbeb558cb4a5eed9574d0a366b606c70314bd5a76db2f8d1942791ab288811929d56;
  0xb73151e26a268432ed5806cdc5a8e22bb71c6549ced180c9480e3294f6681a614e3e9c7d48d221980f4;
  0x985a8f4f718a77f21a51282238d58c1f69b562b33d9eae9925d92bd66145392442cff4e4a02d7cbcbfd;
  0x54c5ebe4c3045e3ea92995aec5bf6f82ea512da8c89362fe5be039ef03e5caefa0248588d041cf6a3;
  0x1acfc2190abbc30d4c8c6cead20d7a9e683655d1ceac253b86246486837a6b2d272b5c9ef110ec0a48;
  0x5a80c95e359f91cbfdf58d6bf66891fb79a696aa7586dbd9f068d352f2bc400da5b2c6dcbc018141f6a;
  0x38afe78dd32807ebd32871d1d9553e9ab2448436b448b9eb899c29287da76e0bc009b7470008725a457;
  0x2053c911fa1e80531d4811427e9a62272a29bdfb72b66f91a661fecb72798769b6c1238b5d14eaaa6254;
  0x4344407676d463e45506a946437055dbb4a83b8d33fac250b9d29859afe21c732511e6126c99db346f86;
  0x3f6634e0037ec6977b67516c220b1210f7859a79c1a30c9acff2d114fecd14befb45a3ffc4f5e6f6a17d;
  0xfedb997a864859a79a04f6ac6cb5efc62d5981abc81bae32969748308c047d144e75c26c10090bbab;
  0x34682a0d74f3b5435fb61149e1a09d3e74b7d00712905dd1696739a621e64d5800686e9115fc65ec0609;
  0x1914119b4b31f4f8afdaa057a375ab852330a5a988c5d0ab67407ad6e18901f91d9bc31090099029448b;
  0x1321030ff2e44f6eb769650664be02cfca13c85d16a4cc0cd79929804174c741dc9d19fc034a6518e6eb;
  0x31294fd431992520eadb201dfe8a1233e4d1b49e7c01ba5bab12b3716f5206d971e36f8998ce9ec94810;
  0x1bd0c1d686c26fd4f3dc08836009b0464c6ecf44062eb9b28edb629e5df3f9562a06756752f4a5039f74;
  0x14d213d45e370e9af7ed2d0fc188fb1ee44c62725d2d7a22e3a8f84df819ba97b821a433efb959dd3c5;
  0xefd56b6992a95f86efa1065d10797c4810e2aa8cb3275a03f2bb063c03c28f829e4aa8299503c142c;
  0x15f8942b3e62ea90be2a44cf4c313780426051b9629a13f2daa2d6b3b79780e0b0c870caea19529c5274;
  0x1c37defee2e2e16b5b93dbe3ecdf9e1d217deee5f54839aaee3ce73b65695ce52593c5f408e02b7eb49;
  0x21db67581f190bf2e08388e20e16f67b133d1c95fce29e9f6a372aa15a907a14ad30e7db2b95328a72d1;
  0x86475c4135fff3451380406c15f716c81af13a6e33c54a85a9d554b0bb8ac6531b85f58e8533b4636df;
  0xdda46f76c4b914ccce66de4ddaeb80332720dcd1d3bded5e9ae881dff90fefe48f72a84a6cd0a9e8ee0;
  0x2c77011b9807b655968a2ae4bbdef9c483cb676e9032900a4913499cc349afe557a370c595b645a05b;
  0x2c0d8b7edb8cde2db275f78fc1b7684c751969c4e941e2d05b5e15bef59e86669d2c9c6f8adc33e44bd;
  0x15f1920486eaaa1704727491d9f1b9e419a78d54fba0b7234c372e88de52dd83c5ecad4f0b3f83bb7bea;
  0x40496e2173b5d8632320439e6745619038b43424b556c849cb86c64675b5d4c125c8d5f86a426c16744b;
  0x15bf3ef10292c4b1d5c1b5c845b83adc2605c07a4498af70949f9b16e917686cabff30592823a52abf5d;
  0x212b95173aba2c4fdab04a1fd769b771ef6f47e06c39f0432056ca4129cc52a171cb19717960fca9a213;
  0x36242d561d4bc4b3b041ade7e893aaa452bb8c7ad583d610d40795515db592016c59bf8758c3d9fcb3f;
  0x7b8588b0f2b23289fa459d683792426e243fd96cbeb1dbf985736b999f1bd18a36dba056de118844ba5;
  0x197d299caefd5271d1e444ba681082ee160c6320d33a62a15f3447be43e590036120c14e82fc47fe0487;
  0x28fee9112a24d6de4d7a78c18b0e4e166287a2b8dcdc9d522f94617682727b26bef143be60b4f55e9b47;
  0xccc6c30de9ccd37233afc4014cfd102e8fa25e00799d6f2ac7621e3eb2b00b6a07990e6e57190e32961;
  0x5f041fa66ba0d8d7e12dc8c5d910c09cd674ed841844b3df3aa2fd4b7aef81743a06b9759606b0c866a;
  0xf3e75b89c42e8ddeac28d515529f34a84716439b858514144f900c2d924d774c259f5acf30819dcf71;
  0xbaaff0112718ffe49d9ea9e096f3ef8771c1abc657d14661cfe8210f5d5d3b3e6b8a2e6648f8b8c81a9;
  0x24135c3ab60a6271a58464e07b2a677638fd4a577b36d5b37266026104915c0ae7f1dfc21c0c6c1d138;
  0x1004f54819cf291c5252a2e7aba40f002927f7da72709c66555932ce8fd2338d76db67e273af3e58a95e;
  0xc7bb8299ecfc2821bcc85720fb36c0f25744ab2af8370133757d0cb03bd24c6a90a2dfed14f496e47db;
  0x1ccedf9b25c1650723a0202abb396e8ed85348ac595e5d04efaa41b7f18cf69a5ff7c843d6133132b;
  0x225b5d552884622a3819478c71bf5cdfb89e8f63f6d9243ac3c158d84c923bf1540a1647d5a04c0c5f7;
  0x7994ca8558729570c7adc06cbe9d407f7705bef038b2f7797c1ebdb2252a925549ce7feb8cb2e1c399d;
  0x9eabf1bafdc844f10d52a5a29700893a5e32b379420713447d2ffcbd502e858b6bbbd27e7c8c6a6a7c6;
  0x50bfe11c7e6ad85dcc5cf238af1be0fd5b15e8d49bfe1b15100a67898b80b882037503f2d6754b88bad;
  0x464b5541d6998b693d9fc79542cc720b84f24e997d6c87d945ad44975ac8a42baa4da79a3c643768921;
  0x1bc297daa7d8a91ff1ad7bb610560314010b12b43f75a091a9f12728cdd673c674efe0dd5e892d938e54;
  0x37edd9c93efe326939bd26cdc11bf78ae062fa8481380f0e08eae926a6cf09ade73652a00a077e8b6fd;
  0xc705b794865b287877ae229256c1174ad30aea4723a2722727a977c6fda606ae39f98c7025ded4b7e9;
  0x283ec926b8ff5ecb334b803426f204351a440adeeed6b6b608ed22820df94e6a7bec9ca806728abce;
  0x17c506be09c5b5ba7b1d32c4e402fa71a047d9f079c3f85983d15b9db9be043947cde8e6dc17870ef261;
  0x2317a7e85157f8c9fdbbfabaa6444c4d039836b031f90f7381e61dbd7ab7323fa414598a427d54ed16a;
  0x6205bbe3512f09774401524e9654596b0435dc077253d57e9128f3ea0a267553c83a7552238aac4459b;
  0x30aec28b744b6c981a81e2833acd35cf61ac746801cd0b5bf60a0c1eaf247927c9477edf9a6e305c9aa;
  0x34ffeb1da00a19e570ca4c38cd1ead3823c77923970a0b26fd80f4f56169874cfc2977498dd7f5344aa;
  0x1c811d0be3fd35a36aad0764b892f800dd95863925d7530589b972b9c93acc2e88dc04742e06088c6b;
  0x1fc6efd2314df0cb218d332297a2629e59066231ed69f3f47e4457cdd80450866930dae3183586bb91bd;
  0x18239e5657876922b8e7b2d0c59b9ed5b60a32adc2b28813ed137ad0ea1604b4fe86e39e18e2ba5fc0e4;
  0x16dc4ea6dbea0a1470ddda65eeb412b6f142ec317b1cda670e80da56eb6e8be46d530e56c5d189a8e8e9;
  0x31420d2c34998a98d49be5e1c7e456a5e4cf64adff4ca7bba7087b59a81308d9195c0de8622da202c0b4;
  0x420b6638e1bcc7256cc0bceb230295927da67c5ef436a7935ef64bdc5d19e705fbaf53aff28690e707e0;
  0x3f5aa4f7d43611988ae502bb2675925c0605361b3ec7c29f1cbce68c5f56b3cc337fae4725cc89b8d681;
  0x7ce7c5c956dc3180214959dd0b88162362e81c180ad709610102d1659769d748a247f1f788932649163;
  0x3bd211b4ae45b0ad27152b38e948d9da21b19b22423ed82d40ffe4789ceee4d9a90a8de6231625250e6d;
  0x7643dde042574be077fc97dff397db8d7d22101e11d13e4b84bfd29e2159752dc66d27b1c295fb03889;
  0x18927d707131d0dcc8a10088f540dc020f50657e0b6946c31955d5ff63bab16b428fa10e9de08d4c67f;
  0x539996a2a4182470b402de943f94417bb9f518efec91cfee25b9021c2663cdc8d1f9a69ac8aa3a8985;
  0x9deff9007cb7f38d096b9e132c497708152cfa46b41bbbc2f1f6c316dbe0e844a54ffc0b97e9dfc1ae9;
  0xfa35c16626bce393ac6a640e5e058513aa10de1c7e16b1abfeb51e8741fc43b023639523ec17ad1097;
  0xa362f4ff160947682c9690d354714ba22129b24b6396cdb34ea341d771327a92d18f849737d80e3de;
  0x3a96442d6b11c5468e99673a3490d5718d81cc586bc3005204363dcd4f6741c4933a9bf78fb4274d42f;
  0x127064a6b44a623b39d8d6b559c90af54f2641f4214e16c5a6a7354032668a9cd400bab3e40f7f8482d2;
  0x51c0b5319be776a89208af19af49401d507f242a131155feb3c1bd7e0703568fdeba08ce9818857e9;
  0x2af0a2c2ad6d134be19a50734167fe6df2df85a990d22b59dbe9a5d6da9271f96d07bc05fb5ea388407;
  0x27d9c996780cdc2142b81468eff1a051df0d63ba3bbea219cbf16a95a49aca61f46d62e4ce8a21e8a3a;
  0x60ce7fbecb7215e5bd2cda1a9be757b61d5a4ac94b97f86861a97210a46597cf299aa9ecedffa373a69;
  0xa5c1125918504ae029fb8af1ca3ca75ba673202953317d3a14ac32e556f023349b6222d515090474ed0;
  0x1839f907bd2eb5d8a6a0b331e850503d09ca1879811d9152c48b88274256c33bed213bb8534860db7bc8;
  0xbfee10a79c8c64d1bcb3476739747a327d4fa8ae5d37f2cbfb27044b989725c3f249f2be2fd0146be8d;
  0x1a4ba722a8f9843ef9f6042b1224686a3a7665d66a0cec9a8aaed630391679fb898c0436bfa6c92d8dc3;
  0x51f9f4764fe5470e76af4ef65a5695a8674ffa3895d7f8d19d0c37905b7dc307664f3c5558182323fea;
  0x14c66d585a189c30a5ea537b47ece938a07ce6108c3c68cdfd79c29a2e5c27db40668476bc117fbdf08b;
  0x66894492c51a84f4aee58e9cdd229d5254e1ea4c4f3827a6794845e6455082370da87dedcb2a0f3b027;
  0x29632221f668657b38b3f96a00c3eff2ff2a06e0f42acd6baae1eec52ca9383012f61341a1c04cfd5c0a;
  0x22c7d8e1cea92d0d64b8b5215547d3f45066bd4c3c22fd3c9c871872df32d3f616e8b7d25b7b79c05ed9;
  0x216cca08369ce65f4a032614bb5ae8512f9e74ed2d7ea148a9b58b589e67adb08e000672475c89ca5498;
  0xf0dd02823c034d3c725bcff144307bb5783423b0d663fb804c2aa09a653908533180cb5c4dca72ddb11;
  0x2a3f9f7daf26144cd2bb545f478d27365565edeb09a1b6b55b499baa7faee897db1d7c648436cfa9c9c;
  0x27d0cdd7ff7e49ea8da0c38e27b0c6fdde38b2dd02dfec1d5c2b066c63d3cec0dda5853e59ec335f90;
  0x246f94ac9c0cdb3fe75b8827069cb82905d3819d789483635c31b643a8bf7b6c1182fae95e60f4fc33;
  0x278cbb5108bb91320bed2ad7c98f6c2432427aff23a81246bd9ebac32238ec24a21ec3a73d0f13b70997;
  0xc84f83102e334d0162b8db9830f5ff1d3422f009525251e0d02787946621a614272cbf5ce659ab55d4;
  0x1a7bcba7cdd5dadb024e8dabf5ae2968195db494cfdeeba22c285843cd0a2145407e22917b52e25883;
  0xa5467cfa80a8272651fca4bfaf1970d3349d15ad8d8f1ebabf7d4f5a79d3085ed909a082e01dfdb66a;
  0xf9b1f3f69db4dbfbabf2a63888294b7950cc562eb4f475a252ab6d00ade876ed134de7b616936f8755f;
  0x503a3e1e229bde3a74196c0d9121e111017535ad397273117459f89dfed59b180a7a85ef325bd812d5c;
  0x42955b591b81edb1d290b7a6f304e241c3f9145c661bc57158aa1aa1f993c8e37154e02472b6cd9ba6ca;
  0x37830176510af0498e59c1302ffd306d5a2b67ee9c800143a0f104a0906a3a6132f510adffe7c14f;
  0x2fd3fad26c3fac7e48cbb3d514f5ea53a1f0ff05b18c28c66fb4bddb8886e4545f70203149f68038fc9;
  0xd9b77d53980f767112b34a297cd6eb7f199335963ab4392a412857258909829768d3df5f2f5ef22a835;
  0x1073699520f6d183f6352cdbf32fcdcf6e1fc1a51dcecd184d198c2938df245940f0086d3772520266e2;
  0x1660b339c0045513b4f41963a35ef2292abf33a4d924a9e162b3c0f05823dfd40a2e4f61cc1592dcc41;
  0x701c7c49b010e5a1961111faf0144c24bfcec578181f4e22a9cddbc85dc2e5028544f36d735408e5782;
  0x6d33cd4ef5d17297fae2d37fc468168673e0ab44d680a6e962e57efd73983ee8c4e36862472bda08e0c;
  0x16281852ed889bd3ed38a771368452f4cd80439448d03996785c715e1ccedbf26a5bf89288fb99b4fe9a;
  0x1973ba2c3461143116f1b6560378025aaca915d628b1c222f8ff12d90b9f6561ef7c02df141e76d23f1d;
  0x5cb6b09f6f041f492773fa8f2ec2a7eb4b2cb2a964bd6f2b36c0df6e6ea2641d96e01f2200ba5f8cf7d;
  0x6c88307c47281464567bc1a814385f075c1b2b5152d04449349c9c04145bd17a4b1f3e39f9c7b1151f9;
  0x9cc198bc9f628dac5dbeba1b0e39e4608359324da6410934efd3bacecb24e04fdeafad4e876a92dd3b9;
  0x2a770fea87c5ddf5274e8c745ca90a28691d8f114c5a0174e4a8ade80e1ceaa53c33e3af6e702ab12d9b;
  0x3d112132bd35b631307f62c70644df9f4208e4a1221bf47fdb5caac8a670ba29abb7f24235bc897c0ca1;
  0x219c5b43d718cf84952c37c04acc3a691bdd2e4ff4fb4121cb08b816840b64cbdca4b193120c68df221;
  0x64ba38e2faaeb4203e6a08777230e721b6487a1af7231b3e4a1fcc6acd308e24bf22006fb0d2d9c5efe;
  0x21e66046b755ad861da4872c60c157ed046b775043b87b8a6d57ebe6d03f6c224e12cb94de28e05d2a3;
  0xeb5a7302d31202e39675f336d297d5e7f9a835a1710ca178845601ed8e68228459b4c6cad2a8787f1d7;
  0x121609003b182602031c19aa00c419bed4cd33654737653918dcda8ecba2eeb469002428ea1cfcb869be;
  0x1b95694526309f520649094516249c79d5f98dc4191d9b377466d17220c7be1d100b7524d0565ee8296c;
  0x818581f632e821c5e8d46ea12ba9191e9b536a1cb0eb1efd2e193a3513ae0a532216c9672aed6d716a9;
  0x269006330e2c333b9529f87c5f5b3f5fb4d8c56935a8429394090b66ba9b7f3db81ecf616acaa17478f;
  0x16a52c4ce9be286bfc299e9eb3c67944c74d1509119ffbf13cfe3466744f979f0393eb07dcc2c7e8000a;
  0x1728317047b9535a7b7a902d03076850fcec2672dea47d7444e77f1b58dce6634bc08ba335ee49c394f;
  0x15e36d488faa5e9298cf63da0a60053bbf9827bb49df1bd4d6957087ffbd21853f5180cf806af0cbec6b;
  0x1143a95db770aa4f31b7b7a30de444b9b5be47e436d6c3730bacb51d7570172789a2e9a8d4353c032b66;
  0x2092638c9f6d274461b66dd361882c1a6362425a955d62d5657fa4291b0fd8429d399999677f7ac2a21;
  0x142c077adf224fffc9be7a17145cadd9845b8b6df9d1c3d38aa5375b464a18b72157c9e111090bf8e52;
  0x3a5d9fd40bf0a68fade6be5c6f27c075817ab4b8e2099e44fcf70470129287f8df2b4a1ebf44748786a8;
  0x102bcb05a51935d79614a53acff7b2f1a1ba163c68f1752710bfea80b2561d3d41d7b9dea4ac6f9ffdd;
  0x190a258f1b71167b15ac5354155e842fac4044c3810a8c40c5160c27aecd6d32061550255ae6c1853fd9;
  0x12fa179540395c0791e94db96e6da990a11e28d0f628415e08fca972e4880a0041aa8b7e4ce4db95a009;
  0x21728a22c2ff469ee09c9db2edd1a7e7093cdc50221a3212bc3a741439fd08e9c89baff724d780bbcf2;
  0x3a7cab3e2063e848501f050e92e6c242b947dced597eb3b7d4d45212f8dadbbef7d55c747c6294f2b97;
  0x226591026045b53dfca1168f6cc92c9b73e4cdb11c98885125b34e2f89b6c8d7638df4d2fd6ac3692e15;
  0xf75fe982bc05bb63e89b139a3645231930b029c0724252bb8725eb52f9f29531abcff7a951505dec2e;
  0x4ceba20b47f80a87d3658234e4cb44bbdbdd610fcec30cde4e059d223c2e4638accb019e23daf9cb06e;
  0x88f0bad88a4338445e8c21dd743e26ee7a9813e0b925b527c55c7759dcfe0d3656b0dd4b640375de8ee;
  0x563b7c7805b2812041e9a0200843d2ed5d384cf8d6676e73e8028f981d3a52ec0247cb511c00bc61f47;
  0xaed6f52adcb84fed67bd2bd56dd007a7167a5cfe9aec8f0f54cbda80ba18716ba021503ea02ae3d9419;
  0x1b5c34ef01ea023b40fc856f03fe0c68ee913be457378e5edc2b48f4bff3f323bb0fbc0fd907befe9a;
  0xf0a0da79c6bcf0bd428c391923a0fbcda2ccf4a9a354a78b418857013f6049e065dab331cc10535784;
  0x51199095e4e42528662faa02fd086828f2ee31d12b047b93c6fea79c1cda33b10e8c563820f20d2cd06;
  0x1dc3ab50c63cc40fb0f69599787639fb9eefacbed06f3017cc4af08314f293959fc4dc06474d5911b74;
  0x23108c4e1b4108ec0ae7f9ac9f118677a6c53e44fd12fcacc07b805145240aae82349d3ce0e376778bcf; 0]
  [(0x8e5080f370d454d0f85c00e3e7c5cae209c3, 0x3f1350389b9efbdded2489758973d8217145ffdeeedcb7f0%positive, [0; 0; 0; 0;
  0; 0; 0; 0x74d015bfaa59e000000000000000000000000000000; 0xe9a02b8127f416ff9307ab7d8173690329d8d7024;
  0x22a871f896bdb87b629a21ee6cb4275fc7deeb6210fd873439c45fb2fb6d5177e05ea8cfd9ff43b7449b;
  0xeb5993315677ffdb705685d619ff29746f85eac186a0b926d4db9b2c534b09e63394e6967f2d8f2c0e;
  0xce42b1687f8171f93552b4a71a3286eff9b52a3f2be3fd0db8e1e28b6097982eef4178133002d8a6a00;
  0x329aed01a0d0465d4e1057d1d4eff08896df44e9a0d7300a187912550e2543634a6bd56b857e7abed70e;
  0x12c9024074c475bfcf0d67c02b9c3ad0e2cd135fa423d51f1ee8cd128a297ec06b3dad590c6d987b4aa;
  0x2032c33a18ecfd847ab4e28f147d129cdf1054f7e433af62ef82d32fa849518a5b8b5163b9dc58e292e7;
  0xb6da901348a97a1724c1133e7df59c96f65a93541ed6353d976b9a48a1e6ac7a6c6e61d2bd01d5aca1b;
  0x13a6454f83da1365c0c53b913c98b2c4d5ab68cce88f700356377efc6224efe88e88253abeabd3469b;
  0x12dd7d4462f54c2fce44545d57d26d37d6392b398c09f3b45fe7dd1e245826ffbe3a859ddf9cbc43cbe;
  0x8b87d806536f5712c66c9d91656baadfd1428ef3520f0e008ceb9f6888ff1150d556e7b99c13307caac;
  0x5e49dfd7e6a3bef40e35c7e71125cc6f43e2b92e87e145caa09f353d584a3945b4bf4973de7836b8d99;
  0x1dad270ac16ba41158afed79b774e6de8f3c8a0855841eeb3a7b267caa400dda2e97a9ceaf7ecf45af8a;
  0x1010c04b376cb13a65a9d11271ae8510e447789a0c15336228f4d4c7b9990c8daf9d85ad6183094c8e89;
  0x20177d0a0c9e628fddfe31499517f7f1373bfe8889e2d8bedd174cc7466ab55e74731517d25b3ab8ed7b;
  0x2fb2f16e85434ec7d0ef87aa930eca807f1c8155ea1bdd8cc9b0542b4a6956ae4c1d89ec11166dc3670;
  0x101ef2da3ae6f7037a9a06cfce5203ee64536408a28cdad8049417bc3ff70752cd2b626f507ca5ead3e5;
  0x2ca6b66194f1e717f221ea354ecd2fdfb2aca828d5afc900fe3083fd4d6911b683d1d4e73b8df8a7cd03;
  0x389aeeb865dbd3c34bfeb23e8cda38a3e0ead4b9d07226ec6e2d08b7bd6911be7e3c74b0a94eed8d1e1;
  0x308147d35d39565e408f24747ae171f9e4a44921de4afc01fd8d3ecb1cdb74f182d90e8d120da9f956c;
  0xeb1a3e1b489da283d8e09bc4bb3106dc928f453bc2ec727c9e90a9fcbc5bf2756fe8395ac2b57db9cdd;
  0xb33fb9224692f9d194370a31f535d3f32b44c09ebf6319aed20221f38ebf6609fd30956da198c874ce7;
  0x184820e44aa981c8fa8e9c2dfe1c3c844ee2cdc3aa239e719c9d3c5017912a3d3dfce87c9ac8f5e80e3e;
  0x131553dad0944f0573a913fa4d8b3d467479b2b4893173ce2bce1a7a7432742040cd24d78da97a9e6b40;
  0x49359625f8b17ae409315569b13c651dd7c022d80a7f76a7f3b92daac0b059c40e58271a7d6fa35fc28;
  0x3249ef4045f1d800c0609c32f529c9db81a98496cc380e1fec36757908aaa21beeecf0a2ce933c78adc;
  0x9df060ba7bb82ba9232819ef6dc39f0126c399a57adc62747d0d52766a49b75aff9f7d9b674fdb90da7;
  0x248c30ade4ef69a9ab79735a9c3eaf9a68167b83c29102bb858c551330a13beb3580a82af0cd52a0778;
  0x3898854ab2aaa949aa813f807f7ddead6841c74fff0bae0fc93dce961b543d0730b544012b5ee06a0113;
  0x44a59bbe1a05e05e81dbd730c41e49ba66506fe658708fc390da5e07ca78ad5dfbd16835a157dbbd54dd;
  0x129d17e8655e11b64979acab4675de6d30148ce7080c6f3913b168b0b7825980f241ea08f7607f05d42d;
  0x45ed85790273537f3c8fc125676d3ea35c4cafa128157fe27cf72955a9ebf8fd85d8a94ba2441e0a83;
  0x194cabbab9d2d869628a45b70e308ae67e5019a7f3ca442b3a23124e74a2ef61d7e4b2771fb11d948adb;
  0xc1ff3b3176215fd564fa6f13d9c09959df5eae2b3b38a0b5f0f1001d410ed3e81ced8c06b4c9dfbda62;
  0x352ac62f4d68cbe1a866318766899e0edb88bba516b4f2e26a8b7299cc31bfa35e4d3777b603d62e8a52;
  0x6665c7e92207fcab738d0f4d7c2207ebba33056a96ec60e68079057df7256548bb4a49bcfd77dcb9bc1;
  0x309c4f0df4c22f19a6c134d1a51565358875666cef63542092402b0699d17def7c5bffae5f96a88bc3b;
  0x2a05c6ebb880f5888201726029eac62a3fbd4c249962df4c7a346890824f3225f864c0e2ae5c41bcb7c;
  0x15b84fb9ead779f43bcc8d4a575dc4cc6cd122d40b21bb8ce3645d93de310003b84a371cf7287b342649;
  0xd5cf3f01e89af2409972ab28bc8378fb472255c373febec2712b87d019e258f90b5247d39c2829bc715;
  0x4e451c69aa7b95487c18c3963c0fd4685a8b87e969af2b64ff7bfa49f2c2281677f9def557acb03a07f;
  0x1fc73cae888208567a6e4cac9d5a797548f07c33a9ac1b8f416d25ed9aa7f663fa074c81a6ba82b392d;
  0x1bfd36b21ce37890bb5199598bc8cfae8ad74a1d52b194e69384358645dec5e0a5eb58caf79575513b57;
  0x30727a01df6660b28f4d5d7eac02b9228baeb1da532abce81ebe20918c382dc791bb7433125821adb1;
  0x2c7d1646bdad4156f6adc9fd9720951105089c3446e583a52c375d48ae51e9b18c51f2cad500ae0817a5;
  0x2016928cba90624d3ddcfb090c16a39aee883b5eacc73d3a81ebbd107705d80b33933a8df184cf23ed0;
  0x7ed61e9d0b867a313706a140951dfa4d9425ffdff29707ffb2ffde9850cf988a43957cabc7307a87436;
  0x84c6d50556b41099c14c2852616f3406aeed12c02d20f620c03205e4e2d0f6a3aa22fcb3aa988b5071;
  0x6014f1b6a52fb57a27158bf07eeae39b3c4d462d51f9ad1f7e8662547c04fdac99c2074a491f36fe3b6;
  0xd20f5edac34917cfd42072f37a35dc2645bb5925b37d73c22dbaa3f06b81e9220ae6a7e165d8099e14c;
  0xa14f8178c70e32ec93f3eba8e17ad13551b985b985d0d189a3bd4b06bdf677641bd5a7afb38fc018d4c;
  0x2447b18c0df96a81d29c23bee97858aa6fd94f5eaa00f1e432c978ede7f6a8a49c7cfd099a3b6b323d8;
  0x214b253c36c891e9dfd1acf92c24c072314dc7bc476e029fdd77445a9b9520afcf0b01586c7d104e6b3b;
  0x8001552322431151db9147efd12dece91a3528e55aab01ee4e49ec82cdc422bd33654437e47bd2db54;
  0xe51f9690c5642f42e5820e4757c9e3b7fd1fd7055812e88634b8c7cb3cd0979110ae6656c3e10983e6d;
  0x1145f739f61439c688d7bd96e921dec356bfaf1b16ab233f709e70687874390bc65b3042481d358b0a44;
  0x149b67f0ce00852ea642570543e8f2aec63e69c4595bde175fceea1f8a54be9cfccc75e0e37173dde5ea;
  0x116cd112fae7dbc89d25ddbedbd92c2deaa37a19cb8f0def2a589fc12ab8dd14deebdd8641ea01ebfb3d;
  0x3c748833728af948dfb1c49c63aec4e00e8feb2f18f7ac72dd261327a2120d7bf2f8bdc7cb29e21a9a9f;
  0x9f99a4c7e79b0ef6827a7ca740b1d952ddf6c3e5bcf832ce25d3fb4db7d856c5ed84d143c98bb279a9c;
  0x354b15ecd5c24cea99532224fee738fc824f9501ecd03a8cfd8a08ef8024704c7b42ea1f10949a1d788b;
  0x19e7fa558e2324be707af18b89562d0b183de81b9c180454c6c1daf5cccd6a198b9fffeb24876a00b6c;
  0x5d81a296e40318a6314de997d07832d17c9b70b02eb516271c6de03c2d4827aafc501a12ae60be0806c;
  0x2f5006ba274994947790d651aa6f7b19696c54574a8f58a62d8852da7b9fa5fbaa2e1a2653d484be2269;
  0x4f7ace0273e71eedbb97f9958bb5c1a2140e10376cb4e5a6f4e991c416a61126e70e374833d7a406f5e;
  0x1c9c08032839c7ba62485b63c24810337faa343b9f8756ddbbc4fefb1968c67085cd7ec9389dbb6c3bba;
  0x21091814c3995f61cf1558e1c1731374ce40f087553d14f99690b4a84d1cc757ba028cba0d00568386c;
  0xc74779177f13dc5171e692209ceee06eadfec6cc410b0c2b96626d07232105a87fe6ab8e5dde6e9a2;
  0x109825b65a30b0a9890d0f26b144bc14c11215fabd61c29a5a8513a2178f6430a74a4f2eb84e7c7a1a9b;
  0x392b5c13f837ad991d0aff073a982b7a489e5656b5950f2db37d54bb048acc6f86a0bea60a52479fe943;
  0x7378057f9a352fc58c14786fb981fc4589365d64ad83a5886eb923235925f8d00e5f94d487aba19bfa9;
  0x178f742453cda9df2d009652ad26800433131a658ae122541b9ab2cadaba0e42effee6c5132fe4327842;
  0x206df44c0aab592c3b8620c7ce756a36f5b8ac342f9b96643747b443375ede7475ed8ff76df506b88345;
  0x2435b2ffcca41052d164f08cede10f03aec77ada58fd64faf432e9a3101f67508e71892c3f134e4bf6f0;
  0xc0ff2691350b816900a5bd681c45efefd676d2d6692cff10c85d709435e085d7f9d99f12a9f5abdd32f;
  0xb9a470fddf91a12565478bfb7e4f67ec8226ee3d402074612d5a02332e9bd30dc32b5334a613a20a6ab;
  0x10e85934c712bfb4485a28e05c57d05094f8859e6dee85ec8b56e9468c549253e7682db4b9324db51b24;
  0xdca56f7428456d392d0bb65ee951f5abfea0f80acaf8fb956a20e0f94223e21eef8e847d4aae1882f22;
  0x1eb52214ca884d301680d79f2f5e6687a449ad67c34759dc33dfc065accb0cb08eaae8ec2f34382b89f9;
  0x178f9aedb113c115e8b733cfdd8ffc2248710ac07f17bbc2c3b3373465ad816eaa482f9613f64e582335;
  0x345805851044112493724ae2d60492fe486e35913a194679fbb813303eb86cfda9274b46ccd0c4504435;
  0x145514365d9afb6ea68f657e7f68838ddd901f6ee565f844804c275394a6146b901811a5cb35f5bd8fc;
  0x17c98a799dd77e0aac3fff287bdf9c246a6844f3998f7624cea3bc3ad67df67beb74c99d155ca75742ab;
  0x158ea126ef80b31248a4a30f65275ff0aba2dc3976c2689b8917601129553fc06cb2e1eda770bb3fbf25;
  0x302876e4b6960f17e9c6481e773944d1230f9ea0fbd5bbdb9786406461b52d20acbec1d7247a9e35d9d;
  0x53d26a187d249d487aace02c17c02276eab4a3250bf6993f9eb183b4972da7c5ab3f7dc72d587269343;
  0x6d19d680042840fc776224969b06c9a740ed060f4a4d0a4903d8a182c51802c1cb58fee92ff0359aafb;
  0x14941a55122e33ce116de00121e3ed961556e85bc160d365b1d40cce1443074f8e9fc8eefb25ef4aafa9;
  0x1bd6c9be0b5a48346e1258b71ae0be468e1b6584cad59028b7a079fa423bf98f8d39c1d4c02fdd18b47b;
  0x1cad695c364e6d5cc86f6587547f6dc36c9e77c2f799566da4dfd449a79bf1532ce91ac2d63665b3a352;
  0xd03a41e777cae7f434643ced3ff31c0161d85af08ee15caebe21c633b7af6921acd499dd8d4b056fff2;
  0x1b32da5f3a031667271735399682e6cc32ebe32fa3d056c1135b0c20d8c029a91cd051c22fd8ec098d6b;
  0x5f75ef775ce52328f08ec65399231e692bf6dbd7fef6bb71148d07c0de501cfc48d23cbb9ddb5b75cf5;
  0xba5f2efc8671c890cfee10126e982c9b01203fdf3e085d6730c7354f26024df207acbbce17128b66135;
  0x73d4cd9a856d80a831eae063c0afae20562d0813babf76025881c196708dd5ea8a04968846459dc7de;
  0x4528d4f0ebd749eccf0156392bc64608157158ef80d090d3012cc2e9c93587d727cba7bd3527145ed24e;
  0x2e6495590eb3518546a9d0958235432c6bb532c13b469f40c5c31d2e251cde032266703cd46434edd26;
  0xae2b4bfb7a25755212b896be88bc2f62b881c7b442ac66c50372a0dd9d7ce57cfcd78e95b5601ae0714;
  0x2c9e68376799cda3b04e6d5e03c305bb314058b9aefc9edf395ebff1922928dac07588b19a209f66a94;
  0x178bc11db65cb083a538950fb5e30811a5f2be6e5c1801c6b1622ec9086e12b61e14d4b8602f6be47fdc;
  0x2af7c820611de48cf74d53ce7c5877b125ef6a01d91a5ba01d930cb7285496d7e4f4442fee85d480a011;
  0x1f064e9fcbc744b6b57c213e1817583fa6d7d0d1c065caec20288c39f0e1f1085e133f727435f4efae59;
  0x1788f687bd5d305f8829595bdd15ec8d71d37a603598762c4ecaaa42b3635830283a5ee97053a8f53a5;
  0x66bc9652b352e897f74d481b0f9fc8635b61269882d7e4bc8ca039460829b3bcbafa8331550c188cd12;
  0x33f8b5cbc1eb33375a9501fa710ef3ec38328df1ff85e6fcf885911b1a65473bd23ea7ef8c2523dfc617;
  0x2d646d92bf783309a62bb02c98d28aeb88fb0de8e5678a346ea1cd0ea0f9fb9535e4b3c097dcb86300af;
  0xb9294bd49347b72422136668c088305b7a8e1daa3523c84a2c0426078db354fbd76641838e704fa51bf;
  0x179f5161f080129e530fc0630543638aebe7b36e250a54f7e33190230ea1a2206931ac3fa673f02aeba;
  0xd7419ebbcc4dfd3c387ed5f17e4eb4cc1bb42bb5fe93de830c33512e1d32ca486b35a67301e563ab7e9;
  0x36bbc3eea0dbe09977f494d4189a2bb9084d6ef37922d16bceb3109805986565eb03c7be4b29fe241f;
  0x2a388377b0898d3142ca59b5a208b5c03b1a97608afbb5872832669972aeddc48ad9f52856ef2f841bb;
  0x27ede1d092d3d67e583d03b1ea97ce4f94032e5433e9e1bc7047632ee430fe7c8f94c4e85819d91d3b6;
  0x76f0f87e3c6b299dda278e2e897811edd21f7e1f9156239c3226f32e09eb7391db3405d436f03703138;
  0x14e10ce4a6829190aa22a06ded02a5fed7beb2bdd9c83de699dc4d0310007dbf56d9e4f750bfb3c2d2b5;
  0x1b3cfbd6b04b0387c18b61f3d814a391f8dad1357e3427b8e48755a09e68ddea89f68b9180b31222494;
  0x2355cc69e47843682f96e7281d7b76adc2b88e65ad3e9cfa593a8d6321ac052b6781dac5dc5a7a9ded3;
  0x1d91035805f74c23a043dc71be03767159d63e580af618f89cb45e864041134f52fc8e5370201017d9b4;
  0x71a5de8b4b266f6d4ea7f4bda92b85bab846d5f69ae0a7f4f31df82ca90f2483195eaa561c6aad57683;
  0x20dfe8478c02c80e3e9ad50f96e4bf5b73e30a887145b3410cbf8931eec384048dcd5bce84878c01ff72;
  0x27d502f2df7d6e8cae532d6109e10e52bccb96b7d19678a93c5cf9d7e1d50f88f2f96642ac54f94d187;
  0x428fb9899c796e6511ad94fdcc69baed682641ca5d157d7effd258ddebfbf5cb3aaa703c2e3bdb6ccb7f;
  0x4724007437f96b674deb30aacf3ae6db0ddf36faf8d4863be6d15e8e33c50dbff4cbabe95404c6025cf;
  0x147d0ba07310678b43ef3392d9f0a8a20b4d6a95ad72886c2658688e83595edb11abd7b24365750b7241;
  0x2206d21ac7e4cbdcace6fe1a1b0ec46a9c53f775a01a95ee3e2a54455cb7073abce608617d3ec4fe52ff;
  0x2708cd21f59f1c94a8bab66fac1b1ccf499f200b0dc8b19eaf192cd60ea763617149c932da3ea6cc174e;
  0x45ea60a11f06b27a8248210ede291290591fa1938473087bfcf5de3e46b5edffc2ee430e406c08ab97e;
  0x2eaadf9a18e7c16888960bb0c504d09d5ad0b083c885b9acda1350caac0234b34f041e390e64ee2a04be;
  0x4bffd578ae2c8f7c7fcf85008f309e9bf1616d0debce16cf5058d9cb53205f003be37282622a53e2899;
  0x1c627dab213d662f7bb6d9d9ba83c0b981f89ddc734057e7db6d4c183dadeb4a5a12760da20034d0c381;
  0x5532cf4ecbd17a0805f71632d9cf550fd8e3be7d8848af0d197629e14281bade5f68bcd613aee1d7615;
  0xaa5e5b4a385e29ff4ef972ba7336b6165179824a5125180bb09e6b58e3e5c551d3466acc6ab27bbce7d;
  0x26ca51d3fa80df55a9bd70ab3089db6e9a946ffdd1fc723125563b9225106883f34943fc7ba51d3afb1;
  0x40642cdcfaf696c68ec82dc1b09d3f250e0469a4a9937c198c3cd2fe81534f731d7a747c4ee75809f6;
  0x46491b456ebe690c1a215ea3eeaf811005727e8fb5884d1f7a85c4d00ff3d6d869201c11456ad8f7a3;
  0xd40e9f4b0c9cc1dd9f3f4cd428c2eae00e3a85c087caecead680b31be6a1d41f56c3bb724424afe9b1b;
  0x145db7085e6b584d8c1c10545eb6aca4746b8e60be0c18d56efb5f9ec454bd8718fd4b8c5918479cd725;
  0x2c8882df17c6b947c80efc71598f83735c4d5d0cc1600f80098978d1eb202d8da8471f9f698939d1bfbb;
  0x752fc5e2ab81bd8226ce6be54a781bc7f5636334bbd08a0b4f1bf57854320cb36f352f6d4f7170278f7;
  0x225db9f4a120b7031a34e90a96c164324625ce1417e8900d8ef671ff11c66fd3d12d7bdd441f889992c7;
  0x35404a9395b645639b3857a31bc40f2ca05ea8e099341e390ae86a6b1298a1010860c62dd9f7ce24d9cd;
  0x1345f25120c5feb956289ad16ad982fbcccf490309e10493d46e8e5c490fcec8609ada415f19ce6be9c3;
  0x2e695564046ebe46f5887caaa49a4d82ec5aaff92637c1d3fe8c10f9ca6066f89e823650d6ebfecc959;
  0x8b6ec218c167adaa693b4ad2cbb9b0d1f0a035910dcb0bdf6850455d63469c11f4254f780ee467d5cb1;
  0xc02721e4a0366d89b81350b85c6a6884cab3f6e6a3b61012d7384cc72940e76902082853b8026aaaddd;
  0xa643474ea61e35a833b443a3757b87dc31163095ca465b6768886107bd30ab8c1c24d30d87607c6f0d8;
  0x296c8df3e3dcf57ba86120d72829c827667be730d764df1163b9ac5a5f504c6df3055db7d2eef5b924a3;
  0x32fc64e5f8a8a7d17df7711cd143017f9bba3e3c3702c7e46f1d2a9ec3ad87b1d70f78a8c19914b45692;
  0x30e66e5efbb1fb5dd5942c6803740ae483f6fa96b5e9d00cd80e660a89ad952a8c11761b64aa058cfd82;
  0x11dffbbe06e03b93ca6a3838c77643d684fe4d5abee4ac58834dd1c4b7c5e2b8e44fdb35abea74ca7992;
  0x15a9cc713fd0f937255bf508aa4881fa130c306ff258d7bfb92d153908859d4650384d63106bd9cfbc9e;
  0xf43b03694c7efc8382a504f59e23d8410e1a580b26f253e867217e3c54de91fe7eca1e47beaee0effb4;
  0x402da5c00d8d0a75ddeafb47baf5d8c0f5fc549f30a94ac6df8dbf8d9c321bdbbeb689efe3614633962e;
  0x6c892d34ca59c88ef7114fe3ea12d05c460e36198fde6f3363761e177b414f73bd9d899785c5618942d;
  0x1c259e559ec2a28ade04009f216cf0b51b0e5e76875d1bb568bae65df0cb69fb65d49038342468a55f17;
  0x10975bd33f2175eaa7cdebb13c0a42439d779d1eade71b97af4b195a3250d21ddad804244b2f00db9225;
  0x2aa554b4ff7cec1c1da709079ac30498b9a9c8986589093609d307206fdd39495742ef59a3df9036f512;
  0x610aea1b447861099b61dcc894a37ff1aecfd0934db33941c6a2f2172aad66cc96539e411c622699b37;
  0x2d690fc1b534ef94ce918948c4d923a751402ff97e37511f82d58eb3e3ce9bcacd38b36cc1d0ece4948;
  0x3cf53cb1a382fcd8151f528de13f1aaa09c0ccf53fbc2c35b3796ae9addd47f02a0061373eebd383cbe9;
  0x124f0b858885fd84925e7551e2534fb70941d5a0454d54c2d19081cf947a1c67f17e26836c0dce2d427;
  0x133ca74c6b6102f091a7fec94385d22ad8cb556230d413f6b863d537ad7ad0f6f950d6cc9b54d52fed20;
  0x1d234ad23f01557c93bc66f6c80182bf50b7ea2b20a48f1373d94a3c7df025fb0be31df85eeaba74f3f2;
  0x6f353ce6bb499ec7b7588933a374caadd6b6e620fb0b31162d43a61fd0c9085eb47b079fbe084518bb6;
  0x1b7c0fa111aa0e6f2d6e28dd0a88f955c34e5d99da412936fd10d0e57ac6436bc19787065bb97cda5b3b;
  0x7cc08657e21e7d9126d6d3df0922a57d4f88b6463651c568ee3ef44608baf97a3c1311f43d71d6adf24;
  0xc55715332cc79972e1ef4780eddeba1a00574e49dab3353cf5602e401d7b8d2a29cd545975a97ec066;
  0x3708e649e171363c3767f4c932402639cec577999645d3ad46be6be8d91a5c9ee4d431302fbb17006ba;
  0x670e390d9dc46a7c13809733db4db30121707b36be21291c78bce4b58e465a998a649659f08defb2ee3;
  0xc4c2386b968c2c91acf73d168530acd88fba31cdfe3c655aa8d7b51437362272b2badc69972b1b7497;
  0x94708d924616ebdd82917213daed7fbd93edc61a7d9b985d70cd4f3c132e6b8dcd5ee9a402fb089c86a;
  0x814497d94cd070178912b88e80b1f85dfdc75055c690f1436ab8102318f4f1b5ed7b25014029176;
  0x7bcb756632417f1de2cfbd762a8c73980db2bbda8f31e03be614d374e6f522836b14d3aa602d88610ca;
  0x40bda90aab1b427b73f99926fdfefc828fd6efa742ac97fb79d38d3f559ada7d887b38b79a382b3e978d;
  0x5d466509bef80fd30ebc3e5e904c68e1f31aa61d16b91317abe14685dcba5512e5f0e621e5bf925e08;
  0xae79e8ec1e9ec4ea2710d0e5f2e0787cb4e50425d2e0f03a737ebabdaef38ee79ce2253b22625edc90e;
  0x1235ecf6bf40b630279bf02629a8a8273d8ad1bc041f59e2f3c41d99cc472e22559926987e794597acd8;
  0x3efaa24c6d81157e1b079f0f4951a2a47798be3f928eb9e10694f2b759ea7e2c886fb3ab906894de2c0a;
  0x15191ebb5bcb600f0afebd60221e666a186683b7b5440be450ea59cad7b68385f0d8d0bb247b1242c1;
  0xb65cc64edd6230d9a61aae520006a59146c98ab646dd994a81bc9ff4bf572f98795b2c450ec1a92ea4a;
  0x98ae554b1b08a9129aeaaecc2fe011dabb3c4363293d8933acaf72126630b5765781eae20ce402fd869;
  0x22a164867795519c2491260a467d1cb8285b0390a9d9b5dabb2167eac817e418e50f306bfa707287048c],
  0x91477ba640c09af1076f71701f4a5985c683785cb2fb2b59e2589dee5a213149b62d13402fc628c7526,
  0x133d233c1a3566acdad0e4cd96bf9b4ef435079d3a0752c58f743579e1ac34c3c52325940f9074a5941); (0x1cb733b306cfe30dd1,
  0x13899f7e12d13d914daa362fd2c3f23b37ee169a333b01a34099aae6175eb91b2d0%positive, [0; 0; 0; 0; 0; 0; 0; 0;
  0xe9a02b7f54b3c000000000000000000000000000000000000000000000000000e9a02b803;
  0x1c1e4973b9a24d3c9cd543cb0277f923e88980a5bcf0e936da0ba0c1378f7bf21fb2dcc323ac57600d69;
  0x24f5d6e1eed21da324d708de196483e4d88d615a1a17f3a1e8ada6a50ba1f51fa33b519fd2a0a81d;
  0x1d3eaa81890f3e60814212047f6d7cbdff3b5c8fc8c79a26a4a41d9101ca60cbe3c6843ee84dad961ee;
  0xda31856fad6a645654579a5ace37fdc25480e3f0d95dfebf430e8bc352ae7a0e86b63576384107a5;
  0x4eec12dfc21dcf9b6450405553d694c28ed1ecada55e1130f636992384adc9c3d1536b07ebeaedeaf37;
  0x193b1f3ec79f75012974e5cd643c4144fb023cbe8fb6201ccd8dbcdb8c98868d17d9a20670d96f27532d;
  0x44254885c929e2a930ab5ef800b205333c497a917ad3eab1b3742c4b1e20244fe815e4a73b59ea20b630;
  0x895c2830e74b7428d4ccb4fe924c71be811540ced5ab0a4a0a09299f6df92da4ea4ea3ec48befe12a47;
  0x9f0c443e28c5c1f2ccf876beb0912d23f0004d5291696ff6257a9d90bbb973eb7e9103a045d3a56b748;
  0x216f2d28b851e4a86a09aace8feb3b8adf93c3cd31bae221ea39d392a361811fad6cc4ebd9dc4e14272e;
  0x21b13c8a4adb451eefcb9fd188af232f17ec00d52ad910d8ded56f55b7af11ba717a18891839de089c;
  0x54bbd7306f8f722b185d811c5915a0a9b45baafa51ef2a5608f542f5e6bbb947897a617f9c3e7222fa5;
  0x2c67e3d5561b83e3a54ad649c53d4bb5310a7450414c71f048b98ef249718ccd9f6276ac61ce0cc97c5;
  0xf97e1afa64b6238b7b55d402753fab17fa919fee5ad9645a84f7f5336168f841bfb078271ec4dedb740;
  0x1a9ab8ff11b881389d7a0494c6bedb66997ec12d6ee5fcccb3e8d1a496ce757be3bd731a62c45394b685;
  0x21407042459007ff6244b49d7af8056ab2fe06efe17c11bb959811969fd1f9abc9b2be232484a892a9cf;
  0xfcdfd6667c5daad04af316a6ab9d08ea369d3f4b0ef0b6b62a39fd9e35a70b3d772cca21fe98d884acd;
  0x73bdd1a6ffc58d6de33268d33733cf3192557b71822f27110c893ffb6f2dac47f7b3b55ef53b6d580c0;
  0x81a88eb65715893c2edb0785098587d156883fc522df79f56b135caf50c800cd86e9135ff55f9526c0e;
  0x472fa243ae8860d370e44a0db49a0c9958482b59016a82f35dd896e1b3315de4294bbe492df0a3d66e2;
  0x2b4374d514dd23b800ba2127da2e375d1ebbf85932015aa718a739f6bb9fbc85eab05bf98968806369;
  0x216b90846a1277aa3d6da344b4e57e7aa00adc9028e7470138b0fc7d61785d0add2246c51bc3f4eda83e;
  0x3a79a391fad2fcf58716666dc5ce7b2261da0d3bd0b6c2292994fd86f05b5493097113cf05834668717;
  0xee7dec32026122c295ad152e394ecc3f8cc7ae67886b8ab2784fc23ef30e7c22a10340fee7dd9162c16;
  0xb9c7c88ef89bc555b60a5078ebd49b345e3b57749d5a886a9414ad78bb985f7504648def39a9782a8e;
  0x2a572d20399b01e539c13f484ef91662cb680c234d411ed1b447830fd70f076823807d29e553ea7ca9;
  0x17fae502802622859fc6eb5b92d3616bb72210e340859f2e23b059a608198c11b177c3be96759c0e4daf;
  0x15466fff37abee2555a4d92dcf84dad72cb66942c9ef1ef9abd0bdda34682dcbba878c09504e7c68330d;
  0x2162ed2d972b776106c51b9bb3f7ae5c81776eadc62e93ae8690a33d0171c3d81240cb2c5e76835c3158;
  0x1f771dc2ae809ab0bd29915c78ec789dea1c13456841891550fd08e10733aa6ba71bc45c52086d3a0be9;
  0xe53730f5ecc7239a0ae36ffa7f454351643966b086766af3949ffca4c4cd73484fa38afb4ba7626a0a0;
  0xf6651c96f1558a4b951aeaf739833bc2d18868a283368e0cd861f8448a4734bf37b8d204a741484f107;
  0xe6229da7593490034cc8223963df228ba21a8b4839826fcea7afccb3dcec4528e490fb8661cfcdd3e91;
  0x1c89ad986122709e161a7ace4714a3649582637639119ae1dfe95eb4d28fab07e24a1f6645427439956;
  0x23fa09c2d688c8b2c75162b0b279057352e85cc5993b29befac5bc9f1f2413063789d4817bc9d4dffc0f;
  0x162a8b0d8a611e9c3b5174239271d00305d81fbc86788efaaa398325c13d9eda843f5e48b520745935a6;
  0x20cb82af85b96c83fd8976f87a676765341167fa2912fe2a8aa67ce9a32ed2549e9e989188c9f2461f82;
  0x3468d5b0de908d1438830c8daef9ee48a8c47f1b735a3f4b04d4f345b089d585b74de77cbbbe232f23d8;
  0xfa31739d68464cbaf557b5102bef490f534b345ecb3fea86ff2a732ec7664a730482c76922c1a5fbcb7;
  0x4188d25c55e4e43a7610b863c82c9b4be19eab65421e75e008a8fb2f6972f1d998a1636ab14b22d47da3;
  0x1b511351b4522bba938f5a02f30452400e0fcfdb413c621dcb0cf22bbbc583a326b168456b8efdd08d79;
  0x517e726e2f658efea2e6aeea8020e170dc9b3bbe2faa449fd410f9933f00bc2fda59226f6fd6e4814;
  0x3ff2645e0212b6f91db0345ca6058071878d579c2a8cd67658e97678e1ad6d8f3a33cd612216af96e31e;
  0x3fe1cc2ba43c4c61588ee0eb7acaed0a606d05a3d1ba28e814604138157dba3ef085d59149b95db8c4e0;
  0xc6a18a87a83c08a2612fa9c083ce147e3340c4cf2d1ed387199aee3bd7a11beca6dd7967566b53c3286;
  0x1b696f0cd242efdbea85f08a4c4af7aabd77c917a5d223afe8eae79adad938effb8e68397e6e97190d32;
  0x10377325cb4f9008a404dd5c917301af2a1cca6fb92cc4b1fdbd7e4dbb2674f5d74ebea8334b8761766e;
  0x189954b0e5a11ea6f497e71ca5c9ea3f91c0d9503064a995e03d2dbb59922e0eaffbd1c57c5266baec6c;
  0x49f4ce6218649b941867f407937e05c2785174507c3850f176c34bb03173d51756edeb1ebda1e9f34c;
  0x1b964d4b1af1e974329ae3c7480a21e97492b0871b3c0a784f147a2d1f4030549f94379f4fbd9067b495;
  0x786165db6ad101d0961eaf066af62f4d2ecba85acf2eecee1b4fec406c70e2df5ac1f43ddfe56dda3e1;
  0x5e55713b6603f0b8a2fd19ce0c502b4e2749f14aad307d90cca000c420938b131a16678b86f09d2297a;
  0xb592f4f18fbd7445c8975abfe214970566237c57c65fe2ce106c86990ff87ad6e58412c4a69c59a7f1b;
  0x153a5c497f6ef023f3d6359d2ba53c11855b88890fd361a11417ad8d7f2d056453cb5fc7235423c613;
  0xa685400b849b0516e7d39c08d7abc07ef7bdf3260eb36a0bc066a5d516488aa2568a035053344e2280f;
  0x1fba0e78bc68fb20d6f38c113c0fe474643490cd817eb90758787528efba05b52d7e90b9e4bac224ce5f;
  0x731f1571e3d4d7b0877675efd090f1516981f7e0f73b91dde8f84e81c16c3025ca0bd2fd237834cd1bf;
  0x10a5453c602065ae5d492a0f7b26a0cd9596212958f510a93e7e38b74c66a818c7be29cb4115048d8530;
  0x4d3d8c9bd946302a46a094cf0a9be86d7e6cbc5ba35fb386dbaf74baa9192eff623bab0ba99ef68af68;
  0x50e45653a08533603275aa6adc2676531292074006055535314dde0994175b2b1b82aae32e519bddb28;
  0x4ae3b5bab97d7c75fe4099830b1d4eb34480be012944644362310736c4c8275f5ec69790cccbf2e3fa5;
  0xa88aa2ce10d649a67d9aee319ea8457341b08943cd424308abf5ba0c97cc173e5224a7680f1e0e392d9;
  0xc972580e369233800d25e72f6091b407b637b5ee2813d8ba1058529c32589432138a6819461063bede2;
  0x32ce246376446e5e22a4bad8da6a1e69de57866e3a95a971afe15e9960e421ade9da843e714d5de1cfb0;
  0x1f38d53740474ea6f8c158e4c5d52fda052d215faef8e0dc638205c839b4d57340cd2c103e34d9ae3293;
  0x108a719c32ffbc25bb2db50a56525af0a1920104779bbb55912f0350a33e3d5545f5389dbdc79e1fb43f;
  0x1a2d77474eefe21bd62eb80d8aff38d782a5cb24909e4125c17e3cf7cccbae27a608e3934a7d167e66f5;
  0x677d019e8dc66ff6d433b358c44a23b72df0f221116c565cff9305b986ad99693f844972940dbe6bdf;
  0xde7b5ce3beddca4705a590ced671eb6c191446f38239872783b3839824d18cfa398162e64596aa01d;
  0x22d21cddde85c5fd8a9760ddcef92c7cd428860af87d1ae8b9fe163d708e4aa0ac184b578d4aa66372;
  0x72e3354bcaec6b51e4c7aed736b3aa3ed2d2806937f3e9b80c0e41e32b651823a56d4cf378d5f49a3fe;
  0x1a61b9653f3d134ffb3decfc37c6a7d6482c9d37fe8f0fca45352c7f52b1dc76715f1cbb7b47c32f938;
  0x487fe285515fdf49d6ebc7453e320155c10fdf5c8d1c20477f4f4e868a2c83087eff206a6e7c230a821;
  0x102228f6f24b874431fe63b7e169016c8e7edd8389439709321ca528dd7264c711514a2f9b1c92eb36c0;
  0x1c00b46a92c8012b9436d8d2562f136cc9908977ca3f4c750f5619eceff6bcc3352acfabb786c222dfa1;
  0x9651d6d7e79a0dfe7eb6904d94f85cda109866449c120e4ad9245aa88cf0dee1dd6cc6fa5b3d88ffcf6;
  0x777943ce90262d46f8434a9562df9773457031511c1422807a835990ec980dc9c5c5d1f3db0f6576ee7;
  0x404f392a13d8204f3f01db420b3444c5ea35f30575649322fcc66ea0ea1ca8692d66d5da91b9418ea68f;
  0x10dbee4ba20f9ed35659365e0e0ec72b021f4c34285baf9ef2de84e3f498c2eaf01e6f466ced0fd280fc;
  0x4292781480806c4577f665a72243554c8ecaad61e0dfdd0e009311b47bd8edc725bc74e751753aa85ae0;
  0x989fcad81a216927b629e1afd9e991845a3dab8cca0dd6a8843b40c14d376475f1118d645f829789624;
  0x32c1b0b469e4e9cc930752b63a968cf7911ab679258f751214531196aaa0361db99103f2d313957;
  0xd18fa995b71e96f5c79ec44a5bf2c5606911447046ad505e32f68f3c237c0b8adc96b5f0723427d4e47;
  0x99c2ac48b398b20e085f766216ea13404c5fa0abbd596f7f5f3c7a4de8791eb2b4db5b8ba0312b4e1ec;
  0x104a54e45f39843c617dec5146b9742afea7af777ece2c5ef9040c846d39bddb2eca8d4df3ad768ef940;
  0x14a2a795a46e31d9b93ad5180266b84a04d0e6910a65627d011bbdfcea672f04595d81e4bb8159715057;
  0xad5e1cb5fc5c1062e94e48a8480cdfa83b729010fd19f919f3b922abf50db232c0191dd7e98f9d14054;
  0x1302bb9e14f62ef7a0cbb19bcf961a92cd08994918e02afc198c3e811ee5e349bd7f7b070102969b3e2;
  0x72139140da9a26c352420a78fdb4dba04fd50a771188addb6f310f212a2ef1d73a343ff0e75c064859;
  0x102f910c3fefe801433da8daeaebb73d750e94d3fab78538625125c12f60f47fffdc6026809da41e9;
  0x3bb579eefe5e22268a92196c95c13fb9c82c94b0b34d8aec30135eb53162077eb93340997f4c0f43464;
  0xc08c03e2235d4c41c829caad9884a6eb508e6d07b4f1a51eb0f0e399319be2ceba6d44490220943b3b0;
  0x1059fb0cf64422d4400eed2c8bda10fc86dfa8abf65ba4915a56807325971c21e7743a8bacfbb78876f4;
  0x3cbe5ab3c21e6896cf8815d42af9323fe609524d4c87eece3b988ee10cc19d062aeae61b9d2afbe01ba;
  0x99346375fa4e65a469e5adb12ef209f704e33f4144d14ebe406265d510a58b22d7772a0f094d57ff296;
  0x222564ebc223a2ffaf00a6dbda5899484040bcdc0dedb448ce568410ab6e3cc7d5eb896313df995437c2;
  0x2475da4ff156bd778393a2b1510573f5edc2b1dbfaf6ee93369cbe23d2df38962fa8859b246342735;
  0xee306db5b58957ebe3db1af2b5db20bb5423889f6bb4c97dc5d580cf1e9273f4b888c2954aab62aa7a1;
  0x28b9f1cfd609cc25f7d839ecb52821d0140c938122ea4a79d832d61b353713395f64a94242ce1b7a78da;
  0xa6c3672e29b88fac832859a35f5846898cd49234d96a93a8766e94852edd3ed9a0008a57c22b6fc914d;
  0x75d4fdb950438c161786489bb1520686af34070eec8c64592a03f69dbfc5327c25dbe7b82537cc51929;
  0xc7ec2f7697fe3e0d4e0139a2c368d1ddc576e8125c403bc7b56216cc1d1c87ccd3a21e6ea0a19222e;
  0x1811c37aedee58ae46434d8d742588e5cfe961927721e82e902dfcb69fa6eda5fceb18b5127c7d6b06e5;
  0x181945d838d18095a8d0d5f6444c579117fa2da18caeb933b944c0fe4fff8f18515371c6271df416725c;
  0x6fafed7c71c458fb601614c54022c2dd82d10c1be44db3f6622e1703b579f3fdb68861cee038385fd74;
  0x30cb7a6fd4dfc3d42d5d952db79b23d859664d610b24dcf07f15d68d15424106e263615c6f17e9522c1;
  0x128bfbe18bd203fdcdffefa3c23bde3453d89425f78770738ddaa39473e47c7e48174280f422bc0158;
  0x6177c94a6f3481861e72b6a3b9e373a21edbc4c18f0f33a855b613391cac619cb8efc8e99a9edee4f79;
  0x42899234c6311956228f7a4c27da4ef6c36a3385471496d46b4130d4c20211a4db3422d021fdab8595c;
  0x152070a2746f0397bb78dd5992bc265c5999e408bc3cd4630987a5f174a469aaa450db97d3f4fe3847d9;
  0x1106e08655459bb438c2a45ec44f9463d7a88900b3c407e4707c8b1b81d0d31d3855f043146d1b4da60b;
  0x21770773f0f35778a88b2e7fc75a20c82dea36a5296dc153ca13bc9ddec00fe3fc697b8eefa8b14810ca;
  0x41512d1052a52eed7fc70afc5cc75463d787c5a309f9084be45bd3173171127a5a587aa075be85a311d;
  0x2bb37cd618c89a9d4b3bf4f72794a77232158403f45d15aef711500eee66f3c3315a4a0796808d837edd;
  0xfbc1850c5a0f527d314320ddfb2fde32d9c3d6da2f6997834bb8522a7c5b3fd9d946e35df3fafe3b6b;
  0x1937e9e17a9ca429125f1e60c82f28b22634764a4a8b94cb1130d17e4516027a73a085331c845b624cb7;
  0x7bb107a1b23b3187c51b05d80eb9315c4f4cc3767eb7f7fdca88a862083d82b02fd3996cf0f0c6677a5;
  0x19e9ea634e98aeca021155816a42bafd08361ad0a582a84e84387ca8ac6ac1bb1885fa679984d4d7c7ee;
  0x3a16b4854ab22a7d25932ecd5567960d9c333308444e1e35e9a8b4d7ec62dfddf4c4911bf9330cfc62cb;
  0xbc5dd044fa6d613faf30b7430687404eaa9e73eb41d2e8a066173d7ebc5e78fc4c140a8a08095ca915f;
  0xf6d0b23a59366adfdfc7a53bb312c8cdb9554518f3b6c55eb3c977675a9ef043ca661f0776a4d27dc39;
  0x2fdf28b2cd1dd872a6d65a23d5bc057af58b9d6a11305e6d47602a17acbf0c987a4805be195c25c6a05f;
  0x1593abdc4e65431144b20090c30b068df756304a03673f6b3639bfa8b318560883a5dcdf45d64d4e5a8c;
  0x3ad8d63b282a22760fba473026ffac98bea18421313c407a07835f83bb7b2dc1b378940408a3001ef567;
  0x882f5e17990cda06ee715316286ff92746bead8f7b247b8d670f54f66bcc7e4cd1d16570624e004219f;
  0xb83cde23c76ba4310a8f575a5d240d5ff515c86cc7a37fbc192220cc6164e808f5748a41541551bdad1;
  0x2a16a117c421f01ccdc2f035a1a4afdf2ff5a929ba0febac9d392f544544a0252a3888a5b041a91df7;
  0x1340a4a29d3ac1a8d6726145bf953bebf9854ea4b94f364e513bb54604479b1b65b327427a41684b5c;
  0x18ac5b67b15f33d5665ec6fb469e10da0a8a203d79ff69ddac49885190afdc4c2c996f3ca6a4158f46cb;
  0x2e939558b6039f3d6cfe5ed8d1558d566ced063760c6a371e7f44d1ddbc58e8c52781a387697280b39c6;
  0x971e943fd57cf25fb9e7c709b598995440609231a8e08e22ed28e1292cd3b29a820f32ea7eee949f91;
  0x1fa953d611b8aef0f34baf81eac4af59baab48da8ba34b8ba43a5d9ce2a25dd0b43cb03694d540f22beb;
  0x694d08b900ae67c6d3fc4e1e4e05cfb3be557ab60f4dd327a758ceb66c064d928b4d70e1f43cbfac9;
  0x1c644530fb04b5628e78c541cf07e4f1fd67fbec56fd9ca09e34bfab785528cccc52956a5558740b2837;
  0x1a619aefcdc38e0606b7129644632a50b753d0ca8abea48bdde8c35bf0f0ca940494a15db3c57668cf5e;
  0x12f660b540d3a20e2691f40c9495065a350a47236cb99cf006def6389e8e0f29aab5285bc923d6416ca0;
  0xdd04e5cc2b7cf30c9770d5c7d2c199b6903e9311e63fda0e0f95be97fe7fd25f4a8e1f810421456e77;
  0x15802ba82bd982970f9981dea18e9b383b31055e6ea8eb59dab88c147ca7bba1dd0b2f358280296e98fc;
  0xdca9a81021c919ae78e2040ffc8564c9553661528c92cc79acdff560cc7c42a72b16e0baf03037cabc6;
  0x19d8bc0f5a593e859a33db35bf3126b1128145fe4697ac0331ce2a575bbf255627544ea7194d2781d6c;
  0x24bd909d903d5057b129cf085a707369f184dd09d6007b24b58d9d1fec017d477e9bc0d2b84227a5ce5;
  0x10b03dbe3014a2bc11536cce1999331534858295c99c173a4a73215f80b197fffd02ff2f1870d000fec;
  0x3b4e6f5e0f3d6906fce345cb46a214c1f9f188e752ed0391df11ce459a4019e09bcc81c2f2e1417561;
  0x159fbcc12644466383e71f30b3e87fbde3e584dc4c47e05eba033e633e026bb2a447cab19cc6ca2df2c;
  0x5015cc7cc755437ac82f4ad25cb784057d4d7ae771b3be22a573493162502dc41e272f6a42c9eb58c92;
  0xceee3d3e0b10aef5b80debbf88c67e3776420b8829fe9065cfcaeca34e454f9f67a5e90c1ee1054d15;
  0x2c9a0278fe4b81fafe5a964ffd1ada38ee04bbc0f4535dbaf3925f80dd4c75a0ed6a0a29369cad618b;
  0x8b8f5b37d597f7df4eb7953913816b88b55b9f737acda9e97540f452deca2fdd7bd9306ea9f00afd726;
  0x1a02edde64bb24c1ee4e0a2d6294851aa54ca1dd795a333e2c51c0a55ecaba9346c989c386bbeade28a;
  0x9d97b259fbe8fbc2acd83180cc616b3572e49c1c00decd15e96cc0093742ddeb172a398a5dac055ef62;
  0x103afcbc3ce2824032b9d8e3b56f7a9b3e8e9c1e96cf31bcc7c217a6445740512a41ea4f62f9c0eda056;
  0x224d9ff02453c5534c2513b763f56dc7732f82cd7ec516034c9429eb2143e4a50d12a09c7158e0da2a7b;
  0x9d6eacc62b7ddf065ad4e5bd71aab6854844f8ade0bd462cddf1fab744c6697d9bd84287d919797d4a;
  0x16146541eacb738ac589a9744a926047eaa1af9dd12da30d9de1337d6e0136767bfd8b3ab7b6de4e96ba;
  0xf86bcb5d6e62f59d80b03cda7d13598cb294739e7d30ed58de250636663af4b618d63a98ba56d228055;
  0x6414dba8890368fb3123c9df5a276d602786a68b0574da8a8ffb93a5f3b9e9850c15d8936c5a39e940f;
  0x99fefffa9941f6f40e07857cd96042ecf16a0a2bb569504f464e2998c944af317cb341c3c89bc10cb8;
  0x487bccdff287721f754e18da2c0a79029bfe308f72f1d1274f806fe1c26ed51c0eb0b12666042d99a78;
  0x49ca16662fcac9eeda45672a69531fd3cced7277ec037b1ccd64903c8a5af582f726ddd60e4dfa957ca;
  0xce0b03dc520deb16aa9046168a6b83da1581a9aef6f5d5ea410f7460f56d9ff46c92d4340fccff678d7;
  0x62fc0ee947fc1af9be1640bc12616aa6bac90b7858aa4743968e93ae6208073679e2d4a2cd700a4fe5;
  0x1014dd91140131a3dd32f39da390262e786533b5245d91ae9edb5cce47266297681581c43b5c9de7470;
  0x15ea48ea1df441b7e6f072b2010546625d47645d8d9bf8ab1b6b80fe9e6884b5c50528345d2e213380ac;
  0x7c10a582fca1c0f2bee65390c753f00a861524f1f37e56bb078fc63640359238c00629e4263db6f63;
  0x22a4e4f90445e4bda6ff4296c64b0cd190429a82417d949648048af16ad61082c9a6fb5a94921e3f1ec2;
  0xe12eeefc9b4d662ba8efc00e9aec9d1cf4601cc7cd5b6b1d39f133bc72856f095facf0e80b83a1fc08b;
  0x4e4d385bfa70d3a49de03f64c4dfbe086336ebba1ec9e8dd20a4c22e767894a0674f8bd81725955c0d5;
  0x30ebaba439751050ab3373f957f12798385ae7372c167fc6e2e270cf17dfffe5652d62a11348e25ece1;
  0xf31e2cdf693fa35af12e61ee6000910a177d47dfd2f5bfa0ca1d4e0024d27b928d4bb3e3045f0c7ee9;
  0x28fca31eacb7e5ee420265c75f838e5c47954db6c319744ff982cb6016dd33701e6fb799f54a013b1ad;
  0x384e2413aa900406859847c51e21d73ea7b4adf8e02fcbed0605901984ed34ce69c746c94c79d779eecb;
  0x668665d909d6b4cca2b3cef7f4f2278205f26f8e3b2e0e4f30525e470a00da75106448dd153432e990a;
  0x12b0eb413224e2e7a4dd53f08d88f9839059cbe3268440c95be537dd93bec18da2563905fecf2396388;
  0x30922bd3d3e7e18802d7570fdd0189083667f5631c25746f8124e9e0c48da93d851ca48782e2c501a6;
  0x62804e3c695ee5fbe29297dd0282ac2e810649eb101039004b3a8c00693415364a64a3b294d61f86c7b;
  0x9d381d2215835fa7a054a42b9b2089fd2c197a6cefca4ee755a425a7268ffd5ccc87641e087156ed273;
  0x4e9d3e4ca47a060bcd28e26edd444419ef716cb3d7e9cb864d614c71e99dfd58cfa10f5263967916b2e;
  0x161216ffeb952ade552e2fa1a7cc426a679255cf5f7aba04efa0700d865d905fbf3d54d29c5e392d0328;
  0x265f1caf9854cae47134f7bc0f399ad0814e6e24b3e04822e819826d1a3f9b652f4ae3435a1e4bfb901d;
  0xa983b84e1a4558a51f9b27223c0c522a8e3088dd54d2562e2cad87ff1a78f160389f43886c9004d698d;
  0x250ad1cc57090bfd0c3bd7de2edf380aeef3215039b0399cfad5b1d54a581022413b0407318c4b91ea7f;
  0x2147abf507fb22606493def14e7bab9dc5ca29875560aea0dd4aa96ebba68dbc91a60bee01959b06d457;
  0x129c047c478cdac2ed5024e3289ad92e886ae1130ced382193c718ccdcb7df32829793353882ac941c77;
  0xffdf2bb43d55b8771512de5f33d2d467c99c84b60c85fcf842790cd7f857555f34604288c2a0ea3d58;
  0x46de5b697e65aaf66492876d3c93df0645149b607b269da20085e8b2ed465f32793b5c394b4e407de1e;
  0x9eb27c9a85ac8882eb1c0f194cbead87ffeea8a58318900fddc6de2862c3450fa3ace6172f93b50f985;
  0x45be9e36f1187909ff0abd270c95537acd7516582e33a769c82f2ab3e9fb27578c6289eaa8e7b8d6bd;
  0x2c84ed6467ae38f7a0181baa005f08fc9921643bb5e046b11e1f6b2c6160a183b3d8d0ce4d3ffa2ad68f;
  0x1149f37d7cfb49ea63a7a1ed45055ee1c1f5ddb72fdced0306280d1b3860c5a41ab7a6ee121202f2a0bf;
  0x696077d5461bdb8172e4f3386928010fa591386411f09a295f8c73b86031a126c556dcdb2869b4904e5;
  0x15730bc1d6404fbaa5125fe622c087642a94c349f8b6e41fe817d2793773e5e2d0f397088fe089e3352b;
  0x1728e55259dc8f863ddbba08e4524d3dd752248f7706ce1aed4a919dc99fe5e63c6a191ea464eea6a8dc;
  0x1e87306a9a78c1c1a313a3152cd7b96a71167d7835841ede3b16b42546636bda2f8f225b0f6e42dbd9fe;
  0x4febfc1738f3319a931a4a15a5bbb342a83037c8bb66e27645aa73af61f311ad38dea26b77a040028c;
  0x2d4387073d9a35b93ad43e890c842be86337cb1bd01f95a9880256cea6c029b9909dccefe1ed2fdc4f3f;
  0xa9fbd6d6be8127b6cd52747781aaa2dcd48636eb0a8cf0e2fbc256b5d6a90a9c314b0d973714236a8a1;
  0x169ed93fd1b00cbed9d412241247f9ad68bad1c500d07b2f6dfa2942df337d00176334e7234e9c6278d;
  0x25ec7194819e23c14aad7f1950d8b851d79f095526c0f9e0cc957cc00e374c114d6f8a3fa94f19ea790a;
  0x14e7c1bc26189f0c59cc7107a094a1a389565433667fd7c56049cc0d528eb0c037c42be0139463bddab4;
  0x15bc6a3d1f6c3e179673589f31bbffd11e54e92dd17294a848a4d18ba56f9cbffc7ce12d46ee2b9b4cd;
  0x1b4e151ec8df8a7836a1bdb104cd9c62cbc716f6922350f25df649ee1189c0ef6357f998a45e8bd01312;
  0xa5d92360a8b084f6f856774e06bce2988879743e59bbb3383799babb6f4fa43233bc57f37d78afc2543;
  0x1b6d8cc8eaa947b66a0f0003e3c198b38023549cd444e194fc0d55305fdae937e382c5d389dc54095061;
  0x28aa8b4b4a74021867d9f58337c595449974c55254e0d597aba76ff22ce6999a438c5ae3e14316532e6;
  0x133ae643048a3f02c4196f3fc2d6ea227d6b361ae5de382736aea2002125772171fcda4dce9bd05e60d9;
  0x11bcafe87087d9ba1f120d06717f4588d17bb18c6f9fbefd3274eb96aa084bf5052a2141a87358a15307;
  0x21363b2a43aaeeb1aa32e1e909e913102b006e86a1d011a69aad4ff0f1c5398d5e451c83a22ac1c1909a;
  0x139387c95e77e8fc1d97f685f6462f631c79705c7243dd251a3fb3e0458f1aa496f204bcc51d23cf251e;
  0x4dfb003e66a501d39d86375ba445437c66dd4e7c677c61ff9f2c5a48b3aed9dde7af4266182d02df8e7;
  0x3f982ccbcb4e84dec463745234da4dc84efe79ff0a5bd05270973b884eb12de9e01d1aa9dfd17397154b;
  0x1de0cdb6be75cf6d0a15d5cb847f1d3696e8d2f5d730bf3261b555c4a5ecc0ce0fecb7be5bbcd6629b4;
  0xc40e016d34957cbeb3d386e4c8523ce553240ba303e59dbb8f5049c44be6a0f32cdba365d4890d13a0b;
  0x1063006fb02bd23f2c1f0c6539a6336b7ee025d99733e36daa0e54f108d843cd9676baeb3cf0d562c2dd;
  0x1d90e516060425f651c7724c443cfa64464da3b56a8ffe92a2d540815e427a66de283dd9984cffc6ca98;
  0x42272782e670554e6180e7751277ab6c189aa88ae323389f30429a13a87fbea3bd537be49a0d149457b;
  0xc4418f3b8c926dab14f924f9f715d5663c03b6964b239dd61cec9e02c496aecd5f55b4b321fc9314c42;
  0x2265bb3704291fa9f7a91ff4c16b3352ad0ce212b540d1f3c42194a5ed16762968c0df901b85d387202;
  0x167ca06303367de83386b2262d9523c11ba463966d6153f559ac4187b5aa5e9aaf123d25a2e8dc5269;
  0x49e771dbbbb84200edd718159e9e3d1515a7d49742dacbce3026ecbcd2b695e749e2720d39ef152b229;
  0x356ca16a4f6aa76ebec7439de9e63123d168179ce530411aca2f59c8744faded97894ad6605da04538a;
  0x2c7ac06d57056c0c989b09cea252679d4c71502cc77f8d15d9e7129d3c2d1d67db8ad2d8bdb2d1db82ca;
  0x14635702bc993fa231861b00e8126f357ee9afe413dfd8bb83bcfd49bf6b9455e945e41da8e6a6b48903;
  0x21b7620ffb4a750f346b84bfab3483faa07380a041af659bcc647cd6ac89af4a4609b832f44ea54a538f;
  0x5479f5fbed25f5715939fc4121abb0c4cba06ec9105b40ef14271c488bdbcd8637444cb23960c7e2574;
  0x2778788efd6cc92bd9bbddb77e505a20389c660a30dbb5af5a29a8814856dde57bc392b758e3d57d385d;
  0x65a712bc2ddac359071c9e187e4e7eedc3e9f39750c1fee467029d597baf05df7094852728334898436;
  0x1c991bfd12840c4337e04577885a4b0bb3cb1c01a781467eef3644c497a0f6560f0c2cea02d6cdd7001;
  0x1f7cd998968bbf39e95035acbac9903f7154f14222eb5eb00ef4dc0eb6665db334852fec6aff0926f2e2;
  0x2009b1276e4174ab93c85baabe20a0817117eafd2a11064ac01fc4f9452b4b9bf4018031756affa2e496;
  0x1acaef2b712c6e76f288c8a019c2f0fddb1d90c55ff22a235eb40ce47c2b599d45d452a1e851faba2ed5;
  0x2949e0f1e72a298e1006e9931bba88f77267f9ec89fd9907bf1a108f031365cc168a453d02ce612e78cd;
  0x11c803aa2f5a478b29e08326cc6407e953f830be0ff36b42b6c506c4ed97fa5b7130a86f50a865f756e;
  0x7ec26a2a7a6d3467d8f02df14ce440e06fc9c7904d63824d4e539ee78c0e67bcf285820aadb8041706e;
  0x696f201b598a8f6821b4cb1ba613d1a87e0e1e79ac95968dee53c822bbae61ce58db4c08413d4afb809;
  0x72c77f3d30abb724c670ce8e017e73efdaa9f977082f19d179f6eb4cb9eb67bb0cb45c8f91e43ccb77e;
  0x54cab433bfe9e85bafe41ff9c14bfea37ab2ff647353c06c22b9545397da87b93119d88d12a4edb7;
  0x4d92ec07ef18b7dc7ae8ad03ecbb194aa1a4a24b269342347e034e0495b0cbd0ec4ee7b212ebc92108c;
  0x2e99c4c4cb14659b75bac12e99585d191852419fc6a87e72d49d5154a988b0f8b1ada9832c6c55a0f06;
  0x1ef4e2a32c7a96bdd60b9479d6a03c531f826d1ba01a85a0d340701a8f0d53867c26b366fe2634dd8cf8;
  0x334bda283a96850ba445a16aa997cde935304fd2599b07a203a3e17c97ab9210e73631ad2b66bae6b76b;
  0x15f12fde922367f9b0b04e9eb61da187ae7942bb7e0e889a9d8e38b7772cd8826c05eea6aac1c78185db;
  0x2b05cf47f96d7ed6e2566ba4110e628c58344d4854b05871fe93c7d8a3520eb6f58a7c4734b9c40e6df2;
  0x36d73fae83291e082470bf400f27979e8bf001d365f42515f9c23dbd0b0d5bf49fdc3e6830c4c4512030;
  0x1a4f76187f52cf4132df6176310578833b033984308719b6229dbee201bf03c1d878fec96d89a85ddac;
  0x8e7fe2ff7096fbbb0608af4226c2a640fe6c7669588429f9823b961942bc0292686aeaaa034d93b0d0e;
  0x390cb3fa6a244904aa1f7c0b01827c9e08935c2a7065a011d1c265e53b9ee9c2166c6a8b6011aa12213f;
  0x2499474719684382d9fe07eb285ec5337a4fdeb6288fb353d58156e620642734ddde16e15d501a77cc6;
  0xb5177b25623d8f52d32d2bb52e2001eb39706b0fd6e4a28eac81cb856344c76a05d04721aed6b2f161b;
  0x1227dabcbaaa0810abc9a756e3f43c6e0c736d42fc451812d8eed55731ecb14c9c9473f8b370694fe30e;
  0xd84999bf46e55276f57853f7164d721bf6d9ab7ed96df031414d60a73a80bdfaf7024b03a8229101cac;
  0x1124841c719f231bb415dde7e1d1b5b43baa11cc0b4f781ce2cc4b3e36d995f17d7f73c0a57d1866810;
  0x16cb7d56758c7ba42367237c85ee7dd00746f7300e43eb9b3b2ccaa0bd4fbcaed9693267262991bb6e6e;
  0x3dfa328231e016d6a5e41880b346279c18603fcecff38eba049cd245b22d3f4012188eb64c7d5e15f7e;
  0xf8dd84c705e7ca1e92ac582cc02044667d679e4e4832548683f1bc2d93b22a09d1b28edf57448515662;
  0xf66dc91bf8ea9f2018e3ec4c1a95276bc0ae01256edb537ceaecc7cbdc4a4c577a2e39ba9701f3e334],
  0x1c7c14f4ae35eefd4031fcd9c12e6b99084b36d3195812f082d0101e75a14eca5b7a721d90a85c9e2276,
  0x1bb6ac267bf575644612d238c60da1523760d1a5cb2c502084c874a36f31170a7c539dfc14245ca99399)] (Z.mul_comm
  0x23108c4e1b4108ec0ae7f9ac9f118677a6c53e44fd12fcacc07b805145240aae82349d3ce0e376778bd1)).
  - cbn [map fac_q]. constructor; [exact prime_123973385968_44|]. constructor; [exact prime_529709925838_21|]. constructor.
  - vm_compute. reflexivity.
Qed.

Lemma prime_p384 : prime 0xfffffffffffffffffffffffffffffffffffffffffffffffffffffffffffffffeffffffff0000000000000000ffffffff.
Proof.
apply (pock mul_p384
  0xfffffffffffffffffffffffffffffffffffffffffffffffffffffffffffffffeffffffff0000000000000000ffffffff 2 [0; 0; 0; 0; 0;
  0; 0; 0x80000000000000000000000000000000; 0x80000001000000007fffffff00000000;
  0x200000001fffffffc800000020000000a00000004fffffffafffffff80000000f80000015fffffff3;
  0x1ffffff9e000004f87ffff9a5fffff55300000924000017347ffff3b1ffffd97300000d9d000041727ffff83e7fffaa4e;
  0x26eef4878d28a95efe996f96786adf26c250ae20a8ffae844bd37f80a73419bf3c43a6f2383bb4346823f8;
  0x1f0407bab2da1a62dddf192a65c19f70b76e482135d6f098528d1d197da47a6eefc8033b255b412a09dc26e583396fba;
  0x1a6f8a21c017579ae284056ea1202a7cea8f294022c6770d0fc40a510455e0ec82d55d219d29fbf393c9a3e41679170f8;
  0xef9ce32ad26bd708dcf97d8525752ad2c6dac27f8625843d951a416c89d52704367661bedbf389e1cf66cbb2dd2ffde;
  0x4172b56bc25584f6f71a843b4e43183db2e4193045995630eba320460c74e34754f31b64477c7e6ad75ca1af930568a4;
  0x1291cb4d85ace92705c0e0eba91f793a79482fac58fe18e177255ff103b358db8d19ef15f3eb9060cd922a1f526095bc;
  0x17d4eac4b774203f675c1cb39006259531130b086c82945fd71a5f5d3f269201dcd133011e5b367d10747cdc4d53b52e;
  0x4c85dc1ef8c45e81f15d1e4c616d3f5e56d7924b863963dfdf974c2e9037e96f6bfa787f2cdaea7e68eca1c71d9c8865;
  0x1a7cc84aa57c06d60da50a7dd67b41a1388623b60f52487a211fcbe0ab93e6134d668f78acc60e9741151424b282c9fb;
  0x1d48cd24efde01204eb2b60cadfae898438feb87926fb8bd91a22535d565ef548a576c1efd1ea5a4f4575a7067bc303f;
  0x2eaf2b0f40e0f62573b384a112beff37e51656057fcec857eb5bd2f7842012ed49716ef30ef0e619b0e26155848b47;
  0x1d17bdbf2a21ee7b06e8b7d53aa896165c0ccd053f25dad105b6ba2b0fd3b4e13e92e7652355dda7a09591a5d854bb428;
  0xf15aa4e61ebb2b964f8b422afe9b1b8cd86c63b4a904ca37c1e64274ac3c1c6b612538d36e6f350d183838fc949276fd;
  0xf484a61781e3cb347d9f42848e389a1dc6fc1431fbc65fbb9e01b05e155659999905bcc9e0dc7a49225b1995e4139dd0;
  0x180cea323eb6bef0e10e117fdc8576808676dc990cf940a69f6bd64b47cb1b6f5769d724edd7dd95d4dd676abb72c7a42;
  0xddbd68a2207fca7975d6812471b360a31fa81576fdc1593bcc1efebfde52fdc1dcd41c7b8a79e8fba2b748a1c0ec7d9a;
  0x161258e90e4e3da5769e9a44cf9633d1caed891204ba52f44df4efdc1ee29debc8892820ebf841054e7f41f0e52603513;
  0xa132f661c2fd508c98f1d04c583f02cdef18d8b23c7e11892162363629bc161364216fbd56feb17c1caa05c411902aef;
  0x1519ce123acb38c1a68150868a91a803abff6b518b889ce5dcfd75d17f8592d2ae4cada109ffe025723e00a8460b47491;
  0x1eccb39a3681c2053f660d981469e50fd422376fc8a666ea94aaffb51aadad0f4efcff73406b6d17fa3565f58b824873d;
  0x3dc542134f7955b3ad976cc38b2e6f24f77178ed5cd5e91605b03556b6cd14b5b7de2d38f84e1f005449cb356f4d46cd;
  0x12bd0f68cb3539fa237901f25d926f0b1c31a8a2096cfa9c44d6380186857474735851ba7efdc860059f59fbcf583323c;
  0x188b30c322dfbb5e8dcda477ad2a86210dd5029124f5a36f497146130852ab1c62f83607b8c5f27056983b7e955f52bfe;
  0x21189d2ee3bf7a1a38a6a5d73ee699b91ddcd773a7037b2efac0201b87240f921d9c3e7f0db3e17b8dfbf990aea6208f;
  0x15fdb78f543aff3447f5a801a47a7838e32910ab479a005c8f01ac790ed8884288618b1c0faf61211204c16f7701691c5;
  0x1ada6892af82ed0a5ccdfaab6344964a6648c9c6e678448c1e7220d5b77090c90f278a7d3f58018952af54007a96364b;
  0x16c1deed034c1532c040e746b8caac04db8814fa43a0e472ecd179d53682c4d0cf71a4e6f87c2f65bd581a2f0f5a7f74d;
  0x1045c0426fca3e63240f3b376398efa8aacd652e1bcd0901d31b702abaa244fb1eeb2c67074224f62764924c31afd2959;
  0xbfda52805fb13ceba105cc37c49d64f625474f64bbf57c8b55c047f67ee844d32c1feae1d11515356476c887a7a83926;
  0x26f297543aacb74a417b02f34334a1c013afd81bed776caea2892c08d85e572ef9984a66b4c7de55568f29e631ca60b7;
  0xe19dd629187c1f96f99611d386169bf07368cb21e21f84877987fe0331978ba83100818db295fdd5d62b4feef5a4ab31;
  0x123983481b1aca4b91d99ea120414207b2b7714cf3a6fa35b2e201358d6905e53b6a860a63fa9f57069b91733dce6f7d;
  0x3ef1db28247c0bb346fcb91a4b46ae08a7bc62c644256988f9369bc6554ba1cd271144a8f97ff91499f8ff604db6364e;
  0x1506842b2a9f25154deb241367b9618aacc5a9e4047bc9496b24d36549cb915cd998e2e2115e4eea2a1a2452fd1615d0b;
  0xb3ef54559266db75d9fcd889b450d7256ef895778f5256b07d9da816d744915cc700d51aabe54546f9aa01a71f70e8fb;
  0x11c66a87533e71ac01682f6e87a7494c0e4dcbc7e03673e86d13e7af5ff19ca35077378ef0e7d8cd5be9dd36422b62fb6;
  0x58f7ca1ba9202ef88fdb35aced9ff121910432af72dc56ba4d43dac8a2cb485cfdef266da15298b55f28cd3ab754a;
  0x1f4945e61dd2491aa01a643da5272d112725ba6c9c72bad8a02e2d70db34818d4d1b43905afc2c335e6df7c6926b4e15;
  0x1d76d149a1a7fd696ef7557b652dbd83ab03e851379ff50d5eca569e45c424b65b6f471750de9c4029004871478825352;
  0x1fd565a547ef279fe96fd19482838017411ea9a8dc10012b8058158d13278256c48a7ed2e6e905fa9f8e3af195553fa1c;
  0x27389905011d79fb1706828bb12acb8f1caff659e207d55f979345ae7c1984b24c8e5e14ad13e23fd78b5fa28caa0479;
  0xf823c9530c75974701d256aa09905280bf1cddbb4efe040ccc7a1ac48730aab6ef6b5678027996d4557a6399e8ee3ab0;
  0x10f2f757dbc068adeaaf83b862731c8547ae60cb59b468d2e91821104da712e6bef1539177c9192907feb822ac95cedd3;
  0x7d1f6e8d4293d1a8c5404242a0da04dcbf15866d511760ad70baf1a8c33c53830a7719afa5cb8711e50040d261984e99;
  0x30cf624802482bda6976ec4f47071614a7a01521a4d1dd75024d436548c04acc27f5d7a6a0306b8e9e9907a8cc9c8206;
  0x10a5e3622f8e5bc57f82b89b7492cecda236f0d6c35be382eea773aa09cc0ff511f18c2bc66d8140717aad1d9df9a05d;
  0x3ac21e9a881de978abc257b8dc6dcf52d6b30a2fd13923d06bafe1fb29e312d3282c49a39a4ae16b1408b97c756af389;
  0x6a45e3e385c2c03262d71cca13fb5fa6bdad9bdc164139b8b224299512404b86e4e1f175a7532c76a6c3ebed91cfcc6d;
  0x1643af8c8c311c060de0171aa11758130110f46f28b71f2b13678af9e7461deee5bc9d8c0143975963d748b9a88397de;
  0x2565688c270c31ddfcb51051858c75f1175d2b46f3c056b043722fb4d70a4528668e94e1fc313e0f7d0329c45cea6d6;
  0x192ec1102e70e8351712a578cebf91fd98c999b6f8db72604431f296255e68ec12e7c3662fab4be7a1353ec589c0b072e;
  0x49b5954e017cbac593ddebd657d7b7e2547a29f15f3c18fa16a6cde8f3126bc00980ec1b81da2f510b1f92b0f9d999fc;
  0x12bd1fc46c57af5905dd0c76e49fb2f60e321de28beb0d7d5ccb518a87619a61b9fd22c24198243b7e6eb0e86d314543f;
  0x14e3aee096af79e30c060c5cebf21a927760e6ff8d2c153a5d38bb1f5e3f9a73ff321125b076c1acb0e7b2fb8a106352;
  0x109418fe39f807fb4466ded7afccb84d133c485a7544fb3a22d877dba6615833165d9d30ab037970233dbe11cea6747a;
  0x1fc05323e340f9fb6db845635402e4fcef8116c571f1a8ed2d58588f6ee7a265371a7483113fb4a532dd561737b3add10;
  0x1b16168ea249be55fb981186a1db1798babd0742d0b77b48c4279f86f317422f1c4587d3d66821bcd3ada7d3c9c995171;
  0x4bde2b7a5662c074a9b884f653bc7b821e450204602425b671d23e4122a9448c0ea1e36fc7d0c5bf529daef2d54254af;
  0xf96d8d6836f27a80da2ba53b9a6b333aa5faca32fca39e615202517b58f194fab0bfeb51180cd79a52672a4250fb7d84;
  0xdaa6fcd5e4d418df04f8daa968ed70d60ac14afed4caffa36b2b6e5c8031323e9dd184b671262f16dc3b64e09d7a014;
  0x8f8f0ce332ae3936480fca6b6acfcf1237d2d5a0d1b3ad73db624657f8b1de05966438753e42d84524f7ff46ea8d1b0b;
  0x376c12010ff6e4927d7545d4025e63a82edda6a433c09eb0321a721c4df2cdb248a4900bf7e3dde501a730bb710beab2;
  0x125d484065f82782e8c45a8a05753836f7028ff98dc697ffb6f98212ab418bd726c88b079b6d79a9989afdb4a980a0ace;
  0x1ab7528a49b189eed8ea94877adf40d2ebb9adee91e738953c6124be5c42ec6c010243ebecaeab5efdc92f47969bcaa7d;
  0xd828ce332bd60280c519163921f3c1f5a52145febbd7049722cd4b22ab36f04e19c2e5426cc5c766e8a729ac027a89a8;
  0xa9d9b306aca730f94693265c35798c35ef714a272225cb710f90066deca504173cce77de3f4e7d289a6c61f8c3329f72;
  0x456fd30ee99aaff1ae080c4eb160f616835d6e6fcffde8910ef4536f87f85c73e8c881e1e9f2938983b92d75a37948f;
  0xe64abe3ae455950d1238c486b485293b68f2957f2857596d07e0c0aaed9642157288d3300cbd282eb02ec52d7ad4e343;
  0x37225517a2c38105ac47fdac7be894190798c3b78bec6ae6d0f5576ccbbb5aa0f74d8c108d3be1db0c9b9943b1fe4fa;
  0xfdbd74a3af7642a6c0c34c562bfbd70a38e05fb4f0cbb3e36fe8d80dcdff3733928531a769b50fbefde4b8c46753ebf;
  0x93d9788eaf10b859109fea0162033dcca35f1e4e36980497800546f085c87a2410c7ae6576787a24c84625726f1dbb8;
  0x199bfc9cfb1bfd7032ac0818f91794b93cdec9f14e22fc4f9ef9b689d63e21c5b22911574f5779a8df522258515922ac9;
  0x101f6914388d71d35fae6c95a4eb79ab59b8a2001ceca43717d24e30b6b8677af158bf10a51e5819f620137fbc52ceb68;
  0x1d75cfd31e97989d58a27efc7cea8442c32f41cf55217417ffdb01338f81dbd3bda6eef00008e9d7b86bafe7f81c13aa2;
  0x58cce58bfdb29bc90e410f492ce927f83dd582ba95e26441ccb41e0f48e3038c32ea7672e54064b69f85fc2205b19c64;
  0xe41650e23755e2b1e32ea1299c040da9953781e50980ee619fbf295d8b41db6edb792acedc1e88773b9ff6fe462b69b;
  0xae1ceb51fe9b732e35e9dff3270e3630ef87295b9280fd4479475f3e02a15a4bc2a73eb92328f199e8c0d5cc9f4c2aa3;
  0xbee2ad42d35963d9839f684945ac427051d60655cd8a70e84fb69d4b329332b808d27708d596d82097b08050da3c478e;
  0xe62ddcf6ef7b842eb38b3f0b22b9185e2dae7e7c3dca2a9300faad29e3cd1fb48ad0a04342c8cd8345dde8fa280b6c9;
  0x5ce70e94356f07185c176fc96fa8b7e1fe78fc1a4c065ebf1fa632e8d02805fc0825af911070a1757b3dd2abbb478059;
  0x652088e864fbce79418e84b4a1ad5cc96e23abe5c9910184cf7a9a98dd04c62f28c78b3f5e707d8e5ca06df4175cbfb7;
  0x185ad640ab16d081c1efb462af4080b9192b340a1358770fa4de2d51e562ade7be8012e957e19a1948241a0be185e48f0;
  0x58f56c9e84869f4c5804ba12e60380206a3c40673a520eebb8f3b8acd410aa5f7376af2ccd4ff88ec933526b686b9cb4;
  0xa178bb76271812d205d800374085fcdc089f00759962e6723214763ce1b3d27f2c1bb13a94c64a97021507d01e3dea61;
  0x1681e554286e67cc0a46b86f4b91daf17e983e6a4e9a09e01e4ba7f4d0336647778cfe56fae6e9aaba24b5e4dc82818ba;
  0x5742e931323e1536ab24a2699e96ca2e5602e82df09a64b0cc2f431c1095009173e2050f7e64468e54c22b3958a2a53;
  0x17f7a41123c68b129e843efe29ee08a440cd61e6dcb9e7c4b460c2ff67e5cf14c509d3eaf9fd27058e553c1622b6202f1;
  0x417d1ff8a10a933fcbbfe405ee0e3a08d00584b6346da8233932e3d042dc028f67b3178001b2f0d308b63eb7bb62abe2;
  0x194ce1466c685023a4d0711da1df7b6621fc5da660b79e434d680c6ac166fa9d8f9d8ab9f8f948d830dbc2bc6c017ffb0;
  0x1657d5d806c3a0417dad273933a0e2ebab145966203c3be3450b898cea18b66711885cbd22501d580f9ef17d0169c1cfc;
  0x4fc7086f179ba07a10d6fb29569fa5df1f7912c148024645db92ed425ff6b63c4e86ec7d199a80b6204e76142dc646ec;
  0x16ef7d53dfc25dcc9d1c445e900b7b583052b0a6dcd5f51379f702b9a12d81ae7728278c0895abc9d9808e948ced1089;
  0x189d57a6450f474c0958d0327e1f3f35828cd9cd2516a96a9b72467e678c1c195c3670c0a51fdc392b4faa4841419bfc;
  0x1c3f593d4f80fe0ddf41d1575935728770d219a46f6f5cb39ba8db62e228678870e0c998bbd8e033cb9ba4cf84b2264d8;
  0x161ccc0f4bdf21aa492c16d87103fc1fa1d7b0b1d47edde5dcc1a3884bbd9eab7946c01cf87cee2fbde47197fa2db6ca;
  0xf4e84c324283976e76a3829bb7138f98d83d6664022a97326ac868e2c757f6e656c26de634c5cc29f81099a6a86d3f2;
  0xb886f235f19f3857b65ffe479a2b94d450bd530bc4995082f88c7636d8f74083ece0f863630831c99696ec4c410612;
  0x1e7d9c01c4ebf8af0be94e79fc7b218a1923c4317d868f66db58633c4e6ca62462192f59744cbb3ed4dcc83e4a415452f;
  0x1f877fdeb0f26345f63b509a369334c70eda17a78450e0a556759c8fb75695d57a5beef1446e745705f4f4dba30f40cc1;
  0x185f462df0ea1ed628f1bb71bc1c70c2c61b8d3cc5ec204eeb587881ac721c260ac4db06428ca65f4db2d323685a5bcab;
  0x1f1ef2116258ca3f653a39d8fc55ff2ad122af539e457234f2ce5671a1b664f5a1138c1caff2f68375430c6a20c763298;
  0x4ff1b95452d168342757005a17ef88c51003036fdbfbbb9719971a0140ade489ccb80ed3869c93a4f4bb6a063ebbe;
  0x4013a91aa804a540c4a4437e200ccb85964cd2d6b4a657e5d3b64185ec54ec04433984cff0560743d1824532db2a596b;
  0xaff4f652a16900264ad41907b5bf62b40bbd5a5beb3bb3d69845ae80ccd8b97ec201b491ae23288ff259ef00d97e7b56;
  0x18fb732a42bafc6fd1a8b0a6459a9a890b5a1df8a3c3405d0fd75f21b923b8fe4b568dc469b6f239121916756de56e20b;
  0x580c5f6cdc59c7fa73f7aff90cc56bf738ab4cba9a6029f0e642f671ac4bac375161a6701c1369d598346b33fcd4cdd7;
  0x1bef26d278397e22ee42e9c872d038b77982f586103024517113445a9da58ad932cc7b945c7955ca1890c841b3ec038dd;
  0x1b9f88e212df38b2924ea3a2c4173736248bc5b87fa75d6b69a5eb8f56daeca244dd29ebf8644c86d0311fc03fa510f0b;
  0x18a399f27bb526519ac5c891b0cab697a1877812ec064a281382e8f9ab960f962c323866484b309ab06df8e57c5ba733;
  0xc3edb8cfe9f2c571745b29153c4d8946ca577ec733e16c63ed96c517296c6c43b26d9f3968cab3d9e9eceb3210623759;
  0xc61ee69eb7a0c7c77c94197f5970894dffa3d23d7a14fd02acb3bcd338b5d22e13d3f3876719c8e885c9afd97720481;
  0x9bb93f3efa79ac76ce2ec7cf0178b3c5683a556dd7dbe8c03a31805a4d67474b749bb91c7af49aa382e740c29ad87f0d;
  0x6480115219e3317d5314d50efca08cd398bc250bde6fc8c700838dc223c961819baaecfbe63f53ee2f4f2fb0d87cc73;
  0x10aab3a4c50145d30f0c06fc8aa0c72c358eb677887cbefe2aad55e5283347312fb47ff4bf17a0138c329169c0a21cc3f;
  0x99db624cf8cc503280a0ea5ef0e94339fc49aafb75e0177b732ba7209bf6112feebd1002f77a5cd291229edb8cad07b4;
  0x1873cadedee1b239b45167c5e17f77d7f1e27a9d97093147fd0d77b56a8147f892dc4d669349b703424eb8a3c0a636816;
  0x4b210ddb6a5f84b0dabc690e2c9d892b9f2cecb23cc2e172bb6279b27aa25833f80a44ef77cedd76f7b8361931ffdda;
  0x57abdaef76aec9c233219642da4e5827eb24196364ddbfc4ffb10581041624282f0efd3cf8c2812b48c72890349e67ea;
  0x5643fc0b3caee1c8c489e06810b79c85a4b352d829121c2daa715aff199335edefdc3a66b4f4eb8bf38d4e3cdecf5331;
  0x1f3d28755c2be97487426f49632c9bb2a471dddad843203fbcea980e809888dc435e7ebb17cf4d9d260a969cdf56e77bb;
  0xb0c4829bb7499c998e1bf989d206860a3cdc6eaa6c672561e590fcea7f8fd738928978ebc186115c4e0200071c529a79;
  0x1d3cc5b27827707ae940a03a572fbf61e79197e1938279c8fcf4e79cfbacfbc739065ac9b0e5615fa81037c9d6a17bb7;
  0x7b872a5370b874a010ff981cd20c34403e5b82c611bfc203203bf6bd5ecd5acafd09bfb8f1c403773b1024d62bcefb76;
  0x19d3dc3c6b4d5f3d24206699c3042e7fc85ea709f69267d92567105c19127796417414ad445a05980f095c2c2c89129c;
  0x1f701e5868b7f2dea6fe56daed347d8f16ca9cd0f9d287efb2a68a8e068a2722174fb80fa47aa43246dec992f703c74d9;
  0xf1a14e15b27291a3e80fed5490aa6205512805fcf6fe6d9e841b24ca2b2f7ca73546c1ff85cf73fb791bf26d7e8e3a1a;
  0x86984bde8df95646794dae623c176d7ddd5707511f0ef3e69741307c867d63c6e4bd0652b98c7faa43834845a0f4c9d6;
  0x5bf9b8211af3e7f7cede2fcf0dd33994996d91eac0f54a392b99ab16b8878c250e46f40717b81ce7f5484757935b7628;
  0x1ff026d4b0701f4ebf4deb7632a3189295d9db01aa9f8ab31040fe3a6620da56970768395eb727170c5838c1caeba0bf;
  0xa4c91b74d63405c046b69b2497723288057dfdecf98edb5da65d61a35a302d3efad64ba7f04941ca1db20796ddfaa4c4;
  0x1bc180b89501fd06202d021eb88f6539499edf39659dbba651c9c4815edcbd07a8b3905c70c7b6b61e520178aab3291e;
  0x2438c4a425b35ac2afc7cc28c10eeaed3f958ecdb4946bc8d18932a5790afbea3896fa7269f814e79df39f1ddd9093d;
  0x343d214841af1f71ee911f935733a42666462028c475f04237b043e57679f83c07263be59503f72058802e725f6793d1;
  0x6d213b9404308f8b23ae68cdbcbe9bcda349ac34bcc9595e63c8a74452b0b9c83742d7411932e1c039594074a224490f;
  0xd4d1c69e62d824d5d7a7c3e48d29b51cfeaea8f715d817d9648aaab17fc0d9c07696609fffa5f5a57496b40bd7b8694;
  0x50920d46bbdd6972aec2d332b1c81fc9093112a36a818568d35d2d7fcd06c19eb74e7e9d232d3a4298a973e0f8b1731e;
  0x44cbd0a42d542a3a82e4224f8d3a26445769a53689d378fbb430aa23d7440cc8af0d2136bb45b9d091d5bc913c9c88cd;
  0xff9e0a3064bc45f8a60759d2f81c4a6b93f4108d67c2599985e02cbeed837d0ede0bed4a13f5fb6c9101822008aa7c7;
  0xa9cc7aa6c2c3d3a54c5a86629ec16b00bc901c32902836e14daeccbe6245cbb238cf9adb49a17a6c713220be2975c0b4;
  0x1ec5637857546d1185925c08076fd6d0bf7736082907b9c74b5a304249266c4c495a6f1e217e25f141eb0cf6d7fba6221;
  0x861bd2d3d66881eb8a14b4c09be68c13c9324aa527fc829181e776740ab30543fbd537c2e6a253be514cc6f30fe1548;
  0x2cd04ad15c59542c26579cab59fa7f82e1dd7d0a491b92937bc12d440459580532b9f3c289d92659ffd158a7aed7aa08;
  0x1b6f949e14b3fd08a224bb1cd6b801d98cc5113230c5738c7e891ed11e1bce580cdf47b3404993060fdbf674a1f18f8f0;
  0x39df6e66f6e9219ceff9143f1b3be17a861e5bcf72c51f1bbdbb6fbc946aa2d8745dd8149367475096bc0f2b873334c7;
  0x7bfe1f4d68e3872183512bb7321a72ed4d4e341a5419e0968ead9f9d4f97017d310e1047958b69b3341611855773e;
  0x1170e01c2199129f9dc132f135a4277734ca74585cd5f7ffa70a9e2b1d73c561c6f3cef427da46bde6df736e39d2508d0;
  0x12dfeedcb83d8660da1b99f9a273adb7be6bb84969a269a86068807d57d6de2e75f94a6ba38c058cc06f53bd0cdc54c7b;
  0x678016d9734f98b2a2577658d6db307f58d23bc930188332d9bd681ecf3cdf39f4be884552c576f2d95d04972023776b;
  0x1ed5c0ec618594a779eefdd1b256ce2025efae7db67b1be292e9e20a2ad6fe90fa8b087a99b76bfd5a3ea647d278de620;
  0x1696c68e16899c2255e9f434342dca1235d91dc6ced119d477499961bd5c6de5bd16c56e727523c0a57eea1435bd271f4;
  0x11029c60187cc380a202869d2242335758da61277abb78a9bcd9f42bb7348c3440dfd5736bc7ffbe578c463aec376f70a;
  0x8a0fd03b0d872d09b60010a9b34984f54a1eb216c103914ff4dd217115900e9f031091c88bf8f7bbac1e7c6734eeaffe;
  0x2af3e68ac0cf79960b22798a3d74b9b58fe540ab47cea17221045b3eefe91337de96160a6a525d289f18cf85962704b0;
  0x11de761e2fe942254512403e0c30d86b9295fceeb65675166267615b4ed3d32c88a8756cc1da4d15757233f4e53ec8904;
  0x1b37c7e8516606ce0c20a9aecf5b3ba35d523b5bcd5dcd08123b157433e5dc7ecb3cba6f7cb472a3bdf4638d3d53179a0;
  0x1a075df6dcb9664cae91ea8d6e0742a4af7c5e0cbdd23d1c8daef9588df52a0ef551b3259b40ed0a8aad1d8942c2700fe;
  0x853728b06e41df662f5923c5847dff37a5354e11b4ebc101bf5483833c5e6f3cd8ec6f1a7b0abd73ee5986e0a5cdb2a8;
  0xf84d7d4dfcb4b0466c0bc635bad3e942804d112af6d9fc7f5248b0c812fc9d94abbb83804cb6dd32c3449bae3cfb89;
  0xdcd4923a1baf05d170d091319864c4a176113e7f54641376bc6586e7de652a6d254844f7db328ef0f1e9d41ca13b0bad;
  0x28c8436ca9b082fb5a4fbd34d49578ea37bc5e893d4b430a24b9e506e90f9bf6250ba8df49c06c84661d584204e23;
  0xc0b09159beeed9a1c3a4b784fa711e8bd55198cd8f538a16d693770485ac5cd24da5633ad9a87f951f6b134704fb15bb;
  0x32529b29be803061296e3ae1374a5baba3085498b588ea9822aa8018f21c0ef3f7251e25caf375353c697688ec539678;
  0x8d8e3ffc4642b7a99ef84dd19437263a884f33b072d6f58690de8a7864499c507564da19f8df443f3006f1f3179e51d7;
  0x193cdf05b0fb847c30e814a44a64c9888915e57eb8c4ee03e916593fb222f84d57ee7acc2223ba2ccf5825470c15ea6c5;
  0xaa3b9416881310a27c9e9de1a49b18b929170b9c3d065a00c674afdebf314574d52a2eb14aa130fa45eb53e309ffa560;
  0x4a17eb4bd205c4ab91c3580864cd97030ad65b89b77dc7f094a2f320e1df5f7a1444d1209a0a74ac795decb796e52ff6;
  0x5fc944c6b88c7f2709512e783a98ec3d24389c0cce8759e4ee76a259c4dd2c7f2448b91cb971ea3ea6215eb6b6226e30;
  0x2a167db8a6986fc79e498d8e2d24e7d575eb41a75bee1e084861aec21c8a7bcbb879a9629a829e66206136c7d5cce7;
  0x1129062bf69b6e8255265241efcade80fe9cf49de6a1212128f53092147cc5aebb73648dc1316cae508abcc41c6130d62;
  0x16cb235fc7b690b70420b030f3603a813148c381a5169cbc368d9cd4f4cbbfe49afdb78ce5f2a7481a69c9e6c694328ac;
  0x1d92a368be0e973bce9580823192bdf2579394f1351750d58eaccc26440a6dd7200ac6f456c30585a387a95bec3bfe39;
  0x410eaed310c68ba8a5faa999ba266408aa4cbb41a1b9b8a3ea2a707f98edfe9459ec34fd1742dd51a8514fc6f8304dcd;
  0x1c22cc1f7c1be6ebb03836f65bebf45fe59e02d3d2c1511f26f24b410b7f9735d3e20dbf804be30e1490e9d2bde374bb;
  0x76bc27cd4177aa1eb603b014f0e24255955237f97c20819a8e46e584efabf22e760ea18afb66fde579555a705743a63;
  0x1324964b02e2f1e010aa6c820e217fad5ba97d991617089e75782e62bb334ffd708255e7cc25cb1410537b2b32dc51bda;
  0x34f67646f836913f41767bd7ec72384c65f5382bdc2ee103b2601a4c2b7d3b601d4901a0c3cc0e26f3ac50364908625f;
  0x10907db4ff4aaadfa91d62ae9d81128fddf12c9d55bf6f0cc48e75fb5b564b705380e56df584ee7c18776dc33eb3d72db;
  0x140ea2118331cd466be21afa03a87a752570676012fe2baff3b26a1a688513c9befd3afa42ccebae1be6816012aa75a45;
  0x10327ce73e0c7871bf8c5bad8086a612d3634fa71e270f1da2a55d968570a1a6e88b4a25e04878c3c61fbafbd64e91f9a;
  0x1dd8f83f83aba2cc6fc70eb3753cfc06a010e4432e7278156364fbb86eafbff30ad4b593930b4c9a020acd834e568206b;
  0xdfad059f0253c38422f1c0736f5302f3e4318d1441f12e29ae78a82ce0f9aa90bb529bae31951ec804996da167718f5;
  0x1d3a93150e7166d346a251231b84747f486bca8108227fb4231ddd7fe69b12ef552faba05f732c68d2d1097e91a370274;
  0xa23a383be85dc415725cbd426cd76f446a6ddf244f8525ceca729aed86d76345800fc5ccc2cc3e4b83fa0334e89d70a;
  0x1ba74ccabd6891fcf33a183680f643c43a67b2193a1e4ec3117a0cf9d0f688876c7335435382a5e898d1eb477824758fb;
  0x5b9824f1cc6a8c5f75335aadde870939f832347621292e9bc0d31ea08807827d87b362e1e98b5cf6ea98db01260a6294;
  0x1ca9cd8f14438693b44394f85696ccd5d8eee899b8600dd09b35ea30db3f14205d6754b72f565f351f9bac83da9438fef;
  0x1afa45a949848e2218cf0d38213f6aebb1f32ed3a3b5116e9eccea192f7222a3813bfc61b9f5098e7070bce354ce880a6;
  0x2a027312987f858ee4fabd9b9b147c5081dc6b99d06bf1101e2d52e5eed51aa31a40445adb51fa2dfebb71f7f14fca78;
  0x1ef59ac25e1cfcc408a236fe68a8b18a5bc941b4331dfef6de1229735025a1b997a25fe42621c86e08bc02d81f6c86a0e;
  0x7f65da65374e8372b43d1c2a6b8621b86a5bb9c98495ab4f1c4f42d4011b6f155f6d3364ecf97d055b7eaf3472e3004d;
  0x1fc3f39a04b07d6ae6bea8e70ff0faa5bf3434b8b3dd55944ebffb353fe57eb340b32c84dd4eaf072fac529f29379e8d1;
  0x10df6544a8f5fa74139fd733551c53c2c8a03123e86a0f150df3de772402e320821890ee118da2132b0eaaece2b3052c;
  0x6fb2c4b47ca1e3752c8fbd18b508043a4c59c480d4c273ba54ffbcb3d0b28c49385dd226d4cf96efe99661edd098f7fd;
  0x1b519760cc3b9ef96439259a0f70cf2d1d987ec30cda6eac526e20d8e27912149fdc0974732669409717abce40d01f3a;
  0x426d6872024403b2d2812d05e89dcfb1780ab8f74e3edfc54ba579f407c5540386162db1215b4c4f070ff8861426088e;
  0x810851f076b2c53873b07d930b1a7f356caf0aef992f2db7f1720f5d9b7aa126131e39e460cabf2f212b1da6242c8304;
  0x21d994c010b7e71deab6e804290067460b3fe55ec47abf4bc1f1eecfa57cda17680078930406271488f1af9528ecd4db;
  0x71b97d42a50bc87b76170b4c72b4a93c4b4508bf018fba56ca83101b74ce52386c56c7a3194629ababe385c2a362f04;
  0x358ca41092f92d62410458b1d66e9995ea7c26689fe2ff92e8b4520c91532ad616bba22e27cd8fd3cf64f1f8eb7cc53;
  0x6f7db3af7768fbacd5ec0b507ce28a69dfca89d7f103f8d29a052bfdad7ef60e35ed8c472e30ac8cc8302dbd14e7cc04;
  0x3af3626f6026850374aa207314a15102463d745e15b685b4df5067c09347e5adb9ef9d78d69a0a134a95964b30782c76;
  0xaded31016ca72275f14971d803a8c99e9638568e1759825e8615da76822341caf303784caa9b411f8f4b30f47c33671c;
  0x7c53d9bc922fb4ede4708108f54daac99a3e0dcfaad57c54106e0ace4c771bf7cd44569b9a10e094f4cbbbd92d51126;
  0x8c152a9f282f3aec4f8a734855a7656e90c7ee49994af7ed76c7be20da3835872c419ba3d28e4e8cbf8734ee71e29d09;
  0x48c1fc7e7e68eed07bdf2f8803485681404fff92e063db3bbcb5f98152833f18e3b1c4a6733b3a74fad28783a04d29c;
  0xa9f753d7d207b7be28991af60f75a850ad6407abbc056ba82925ff09e59a120aea2efb1e42ba5c99a72a34d2ed2578cf;
  0x2414053d03a3adbbb2dd820a9398f92234324e92548f5d0c67fce117472df1c0124d71ef9b25f08dbc3ffeb33c5a1166;
  0x1a5f25796f68bbfc45b49e2b148c853ffebc14212f0d9dd54a58dbacb9e5ffc959e281bd0468975486d52d8ba2ec797b8;
  0x1019339b1ecd6a8c782b6994d7aaf6e5accb5c30ee6d53fc5e6bfb7a3f6d15e257cc3d961be7e03c92601c6691cc5e8cf;
  0x5a2ce699a350543bbbcbba4db32908e16b65bc743c316237a41f1547f259ec99d3211a1f83dc93da23336443db655bbc;
  0x3d840d622b0436a6d4c39b77ee12e21b724c40aab46216e7f3351db2f00733d41d94719cd12ae10346912501be6a7e;
  0x16065d0f669f0a06f971c32ce47507d3522a1ff9b5a40147e4e2c91d0fdee07759600177c452a0c0ad84611212545d216;
  0x453d45aa5212bc57a1176790b053378b0b71d571cbce5971b435780cbe0da477b6fed08c6d2bd7f47d058b0fc800cf83;
  0x87323eb3750b046117f98b380a9987f4d099479deae438acd506fd281d4805bdc7307c1d8aeeb195d314e287c0cc37f4;
  0x31916a319b2df7c13d1ca848598333cd3b58c1a987a65014afd3c003904e56ea52b0bc2bc0bf73a3499f87d6ed43a870;
  0x14dcaf7339999643dacd1794bde4d96b5d9a392369f18171579694af28706ce2f0b65680e9e0b0e2d2e91bf96cc0cac0a;
  0x2a0da9dcdb370397535baf1a3afcd657b37a0eeaa7a63c57a19bd96d3dd1ed58b222c3f55773321d02cd0914bc078ea;
  0xe80f76a0964b70c2501313b547ba94df31871906ad0ac76e4e8504a6cf77bfe6ca30cfdbfda7a3541a568c672f8c32b3;
  0x709a39369c42075b1193540d750f3e584822fcbcb3820e91f30b98d88a1c226afe972c7cc79fecf86fa8d03e018f8131;
  0x17c0c9ac2192cd6099e76304e4c03e8eeb53133f921f7461c1da825e5e2173ccd60665816e231e7505452e30b8b7dc0;
  0x1b3df9c37b18588e7f2d8c4ec33494adcda94ba38bc76184d4fe4ffdc245634d8a6d00228026a56e2fd63ad5d65c0cfcb;
  0x8e0533f76330476d99a5e1832755a18fee08e5eb9b3e3b4f1f60f17fe340a2dd3303f0131be7b127e3d6ba6a8b57ad4c;
  0xd0627458f57c48edc517898483fb35a91fcd3f85e15b26207beaa870db509e7a16a42c297f90a89d875999ef8e2c18;
  0x1a6f3caa92a0e0ca45b0e33b33f4cb5d9cefac7b4690f8d300ad2f585759a2f51a7a5410ebd7af513deda1c9f20eda0a1;
  0x1d32bf109df742d988a60186e48fde6a6f75e1736771618460fb9effec0bc758132e241c05c999554d0f2c5e608cbce31;
  0x869f1258afff00545f962ab541b833f334bfb403d0cd4be11596ddd9d385531cd0e45fd933a87e7823b04f0e4107fd7;
  0x1fdc1f7e04370a3f190fa8e56a22f69ef91fff0e7c5bc4b43d4ae452f11f3323db75a444ee47457a7dc99cba08852cfa;
  0x1d901eb72f8b71b96a00b1fcbe5654874f02263d656e47c9c0bbdbeb60afb164c6e4567c141c80f89d77067d68ae0063;
  0x9046ed1adc9d4c80817e4de5b2c1d29d7afbdb8092d6b72b49c49d20539f40870400a0e089fb175e18f4b7e677e1ab96;
  0x14068f164bf13b87f7faa21bfbf37570627a86b77a35c146761b1d110c438f75352203443218b7010986144350c024e5;
  0xa989ea88d0b995baff396fd394ed5432c7aa1d92b8c7a1f7f0134e628e10e06fc3b400693fcb0783014fe52931f93c26;
  0x48c4c8e29fa24b36482c70a69dd87b3963a89aaafb95c56e0e8b21291be082fbe921d3bef108e95e6afa1d264cbbca1;
  0x574ddf9f9cde515c98d41377d33e2f4c6da34d87009445e78c4fd4870e556846b80f36cfa11e347e0ebe77dfe9120cb9;
  0x14e6cfed7d9f3d470b2f9e46973c706a8d5f29a8633d5c1b71a44d7674d232d2810c7c8d0a19da4bc5909e4fb39a9b9d9;
  0x1a0afafa635c7c02f1f2632fc3f8a3fb5cbfa013e3d2a4208ce063c8a3d0c12fd868f90a75d8e7b0bbbc2ba1dcf3789f6;
  0x9b582baa9cb47818d1dc8867a8921d0ee12c1e32d976884f8a0e160a5dc7e68f9cde117fe3f4ff52923fcf033ff32e25;
  0x36e1df86e8c6529fc5a20565d1c35cbfe746d27a7316db014494d44987ebe9432608817498d2486c7a9716262c8613d;
  0x19654b692995cdb50958879d6395c276f9f835e443d900eb0ee44030accd160a028439320256f799fff4742d65fad5285;
  0x3c21637ea7756d7991fd974f156872394eaae8f7e806361c015edabf23c3a66190fe0b5d4098ab8368bfcae3dd18c3ef;
  0x19b1ca56a165972cf382be921f4b1383cb8840fe74fada2e7b0bca94666cce42275264ff314563b831adeeaeaa94f75f;
  0x771e623c2e66c65e51f2c69fc7a22f7e12f1507cc056a3845b11dfcae928fb5b67f7a962cc5c8cb52e0a3f482705fb20;
  0x194236ff697d2bade35ece3cd47be83d70bfc60002aa0d98ae214bd6928038efae414832b95dd379a03c161d314d388a4;
  0x190144f2699dc61fa24c63cc807310754a56b178f8d056a79156e4c37424498da67c391f4ec930e0ded47f132f12a6d37;
  0xb8a60e756c2eb7cc5ff718484d14adabba6d558dd62dd514cde3c8ac4a75f20071817bd16c39cdff13f2af8563ba24b;
  0x57e32f6a88761380eb6ad8db487f18fd9c0613997ee1fb7a73540f850f68de8cf98872844c0d610528abd190e2356ed;
  0xb0b412dad4512a03bfd1684279fe46c1614ad8ff24ad852a0b51ad708907cbf21b6a886f7a8266814b027638c8261ef0;
  0xa450e5a90969b7edcd86468207847a59a6b6558333ff4400e47cfd569c00f4085d6cad73373d093049c5ce9fb559f670;
  0x82ac97946fb11d982c76ab168ad4cc5177036f0354f71bb47117b625b7f05bdbb373cd5d603c9c1f41c719a805abf4f9;
  0x926bf1ff971b666cddf21d9b284c51f92a09f1a08469c3fe45b28d258302323474759da0df9e6b823ed847b1bee7fcd5;
  0xd369068f9921098c5e77eb21dd8c605ddb2fe6f8db4b08dc22981b03c21c39e95a70fe337a80d9e977c21034530743e2;
  0x32703319fb45ce7510f118ffa0b7de9a3e865e95cf9b2ea81d4e2ca3b52b6da01816f12fd2c6fb1489c6a9d1e2a4269;
  0x1967f652252a84c530e1d57f5bb78924de5ae65eef39bed2af701f1a3f494ca95c2bed2031e9854ac738cb7987d621f8d;
  0xe01ab559ee047c6df4b58ff23ddbc76b24e6673cc03026005e217e54eb0510e5e8c07369fae7fb64500e00d0fcb9fee;
  0xe32b9be7bdc1cef7740cb2f91884cb51623e38729d2281b5c9b52ad59fa2ba81aa1fb007bf3298df5e4514d6279f2d;
  0x162c8da4d8d768ba8775774c4687f1fa211a8e788625b911de6070581badf83e0abf55db81114ceeff12a640174ec7ee1;
  0x34b4098d16f224ff65959d55f082e6723cff4953a4713dc4240c18bcfa152a313fd10abc3cc5b5ff3a8bf56c2e20f8cc;
  0xc8e8cb050338916812b78e7ee987f5c4ba5397e87e8f72b007289b0389b1c3e6b621720284dff61c544113b84bf26c5f;
  0x16ce9e43ff89cb93615f08da32b335a60d45de756ba5a83e8394bfa5e6fdc1034388714b4147acbcaa56ff46b5d16d12e;
  0x5d45b84bf325ed7c269c9791f3eb7eeae79cac63089665ade3cfedc7ee8daf9b7885e6befe3b7b57c55d0fa697ae7cea;
  0x3b62c2542203bd81a4871e3849ea7240a88205dec739e96cd2e78cbcf48b5519d67ff36fd53f9fc5397fbbfdcd2c8868;
  0x1fe6b1046e364a6b0df7b9a8427832cde439b4b790588ea413b891a5f648e93f3e352deb10c02da1d1da9c8ad37064767;
  0x1497041fbd17dcf05b275a1dd044c3ae4e75f39a80de0af042f1c7de36dd5a5a6a11f0975243478af80c7bf84c84958;
  0xca01215a607b5635a123a6b40b9944c2289fce580714c545e070d4236fcc598c452edf39a51613e9863d4b963c547b8;
  0x61f8f9c3ad8f337a1f2c430b1eeaf34af460be7375e3114b0f5e0bd60831c41d205d3a78071cbd3ed44fc61d42b2b244;
  0x55701bb18d3dff1d300eeed05c90e0551e0c9299dce8c298a19aadef8c96371bdc3f394ac6e9fbf6f3e7c92f5cd87ca;
  0x22df7071acbd57ec162ae32743284ea5cf8e74f9b638338fe0ff9daf3ee6da4438fa6b61ec7553debae740bac7e9fc1f;
  0x36bf2de9aa74651a5ac36e7328f495d3a1fa8d0f1e5d5f4bd23a26907ff3dc379e4b6184879b170b7c94e8060e3c01;
  0x80b9ab4c6146e0e58214edec36c8e2a7639337dc9bd0159178d380d1996bd45eea5118fd82a172cd628f3f8defa1d5d6;
  0x10d8f2168aed4f8d8ba7dc60c8dca3d86942bc150ab2097a12f1597709935b5b2116a3744278c2a2e37547c81027a0e7;
  0x1201484a3257712379058489be3aba4949b1a519a261a987afc71fcd89b102eb0e43d9f22e42321575e6149b354dcff3f;
  0x890a19d07d35a5a048dd6edab6215571221116527ab3d0620c20dfa9590135596c93f548bcc7a14281f2dc96654201d;
  0x1175d38e3ae70ea6f72bff2640e683b8731f2f0a716f7c17d0ddff4663596c38a0cbe86080b03ea74e43c600538e47a1;
  0x16c54f9fabcce34eed06361bdd6545899149006be00b124c4f5ee8b7ba7f07e7696a9dbc52ee0f59af4a77d47f2ec49cb;
  0x80b216e60966c729eaf7885c97266ac3568853d156c977fe7418ece78f0342c2b380c17fd187f8784a5b1346cace0eb;
  0x8c95d6d61143938e9cbac6d70eecd16c16fba088478784741db3524bc5d000029c09503f98f0c831c911d80145d1d018;
  0x15fbe9007be586ac67482c52b36c4c6d28d47dd1608e65d2c9e4f5eff52f318a4b30477b106bc2fe547b35f6bab2b313;
  0xf105ea186f564f2722a606406a94f36b6b0b62ff68444912f2d3caa06d673229b8fd2867df141591d2fbee0b7ee0788;
  0x83a3b5e7e2e15b640c71761beb4026208678e3699aa451bc582bdef93ed27dbadcf509baf9df88f78e6d66133ecb6928;
  0x10d0b584ee5647a15f1fce7c59cd04efb793ca6e9ffa30d849542cf65ae5cead0b7971aa6218b7521f9391d5e6f4ed88;
  0x59975cac918358a02e74c8c7766945cfeed8998b68ba1636358f75968ef4a6a4faa53138e7bdb2924e5a52766e218559;
  0xa72f042d044c1bc13067addd561b55d71cfd97dc348c58f1d524005124b4c1e6ea8647e4cb2d796f7849714f79f08716;
  0x1ece2d53a635460118037f98a326ec115a8cb466d98559a87111c1b1e6acae176d83bd25b038a95a9a939e721ad02bfe;
  0x52e353f95fea9b9956f1965b76cc4b21702193617be64d4e6628d9b3ca51f7b86fac3247f2a8765aaf7b0e2377938942;
  0x9bd8894ff2048f2805749554ecd23577cc470a5667fb1df800c6a6c9fc796c455f300383c9b68590d0e936d33697b637;
  0xcd195bdd81019b422210cd980a028f53593a11bc18941164056de7efc4be931bf8a632a38b953a0d843598a8aa8f10db;
  0x62cca7cb1fba5d3325939faecb4ad84a2299a0fe616b98c02f258990259a64398815bb95b5340042ea19cb1117410f36;
  0x4ce7ce5e0fda3853741154d8893e1ee8b45c0c14a08dd2ffc777a86f38aef1ce1ff1ea060b218f8559edefc0b76c80c7;
  0x2c2aa678c995ae5795554c3cf6b8a46e455644d6d856e40c715fcfaa06af661c5582b818434f52289f074bbfa2319038;
  0x1b2a6e54f763b2ee34e54e1405b14c24b26897ae2f88b7c18c3fa11043ad3c2f25dab85bcd6f59aca84124ee3a8dac59;
  0x70a7d037b70f302a1467b3aed40e3e28eed0232efc2b93e486b23c85148737501f624387a5cff6b7b77157d6b04e78;
  0x4b0f491f4d6fe8bc791ba50e5c37390483602ecd96ad8b388f0b1b563f15c33fbbdb0a2a0edc3a76ae515a5e3cde3295;
  0x14ae4cf837e7e48c4ebfaff129fc3bac435bee3cd18f94350ac77fd3f5006f660a3e726a20bd94745007c6cae88c8b2;
  0x1668026ba399672938ed9b9fe8a179f145faf3c86f60c3b19138b0aeb31ba9fb9c83925cf3d5813c56bd6363764526d8;
  0x1dcefffbb52fba0e5de2a1cfebf2bedafbeb857084d85f3c3cbeffdaa91bec321ee3518f86e7ad24bd9dab4ec48a74e;
  0x165caa3bad92dd53568722dc4877811020ba5fd194de3fe9f858e128e9dc5fd67abac621d8ee231fc82c8172a9b5fae;
  0x71d78d721d903ad310c96d2580da15cdbc8cf66d58eada013408a84a3b852fd99a911b4ce392c67fe5453de429869b5;
  0x834f4ffbc56c5eb81cd1a151f98f3958d3b9c737b7c74e818d553439118eb45dbcacd6d240a7918c1b390de7bb381f3f;
  0x43cf18b0b747ed21ef18a8cd2ca125c6de5dbcc20f76c5d9333f436063c25cbf3826554948f060ac583686a974da45f6;
  0x1695b57da27284331581ba829ee1641ef9f1dd804c056c59c3b87ab6970608d9cd3135509af37b6deeed7aa069053c79;
  0x110db5102670e27805b7150e400082555784fca3f30fbfa4a904867b39694f42bc9e4934ca48703fedd9f90e6f520852;
  0xbc42ea0d551efe7b8708c903c549443b12efd1ecd57080f6907b1e0f1f9c2f51f5292c88d24040197835b9be1c381315;
  0x66be8fdd900b54b56d5e0ce7da5e3e9fa52114b95dab47b20962993961c92a46b71786444668b00acb46dd86004957e;
  0xf395ad4d4644db9a60c39f814c6fddc342a915cea2d4af40bf3d7d63cdce6271cf4ead73b6d3d6faa5c5d74aebd184d8;
  0xdb89a5950ff5a68371e841f4dde8d29b2c7c015df359b0b129dc9e66d83a5efdc23fe0d81c6b1d87540eb5a22096cd7b;
  0xcc80a2b3efad75fcdf6eaf92b2d9f0a1a308a7970e363c5c95da1c64a17f26b53e86402702ee68993369282baa8d849;
  0x8875d57cc0a4dc9f92728b63b8d117c66ccc4f3bacd5f65d75d082834c2687d922fd9836e88b4108c96b0431b53203d5;
  0x922d526fa32fe9e0e83f336db400ad4277c2e6e956816a4783b5fff3cdba3404d16be612fd014a857481aa4bf9620582;
  0x9def9b80219b6d2f717b1068d94a9fca6d1c146d61e3464edb5c52445e88cd5caccb7673dd962842ab67711233b6e7a5;
  0x316616939ec9efc4a492b6e9040e47b796c158348f64b6932a642a1853d903b4117e2f1d6ffce9a5d920ddc2053a3919;
  0x9884a0a924bb0a9c40d2823c1c64559f8bcfaf2a4c9b767729775b0336c261e22c30388686e8cc0e6ef084006c5bc900;
  0xcce3f81e4387aa5fc01f61545312b5fa0e64308ef8177dbb37498ffe29a6981324adff3f4a03e02896c99a5b5d74a4a2;
  0x975500507e3fb5ea3bcb33c637b5687c4dc24204d2ec1a7513ba82fa4d3a79b7252d9f4c0f2dd4317f7c7a06a17be98;
  0xec59cc06e693efb854c4a74f3fef4e065153d5c73ff5ec9abf154ccab03e22bdc8197158a823cb209f05b09f8f141439;
  0x585ea4e60a2cd9a591104c943cb29ac7ed986f15280480d2ef7a70fb1dfceea9382c02bb889a2cea5d704f54a0b607a8;
  0x2bff216604302ca9d07cf214d75a1b75744db9fca2d5840889753d8147f54cb3c818f5f9b9fab68fb4946d59866230d4;
  0xe0e2a6a2270aa7c426df10958d64f210c8cadf4874c9b1462e6c3a5e93107752dec252e407e0cd8abfadedf2e130219d;
  0xf4028a290b8349fd703f9db122c51f6f6279d15813e409c11eacaf364560a81a4ea78ab6f1456b73c3b093c6dccc787a;
  0x134feb237f9eef53d52dfaeb1fd1f5a07d667009c2ff66868bee8e79f9a89826dca8480bc2fa49411c51ca128c8c6d36;
  0x800c70492ae57eb087593ddb98a3267dea4e70c56b8eb8179bea05ea7b11db0fc4e9e1805b99f4dc6985a03f06c6427;
  0xc0f578b8be1d552790d8431b959fe822666abb48696efaeebe6e6524bbbb4ce246da2c724739805e24e4aeeb10bd23f6;
  0x731d0dfd33695bdb8668be15332f31c75e4fd2f31487ab877d9712e5a58f83924c7888deb5a277e6d00dd4e196bd1693;
  0xb9d7dcad0b5d33dc249a40e0c5b64cc04b3654607b98ca8609775182971e7e07308317bb1a2bfbc15ab7c7434eca30b9;
  0x107994b8a7c0e529f0e9f2f12031657cfed77e5593be3b08b27bdbffdd060bd6fa1370b268723ebf3517c42ef0eeccea;
  0xf83885a9f8ed2ca535c2f12eaab137a1a94da90b19781d5b6884324aa6697fd4a1c653f27778a49d681803228635605;
  0x60b0fcbf60bf95d822482515719ea214e2c9e90ae3df0dd8b28c2a6937d106b8c3045aea761e89befa5926de4f9ba84;
  0xd508224c21b0f4ed87a7f529bdcd0a29adfd7eb0235c94032e914370d9b6d65b0c034794bc3076c5782808c3f9a53f3c;
  0x3f995b1f7542092ee9e191d4c33a4457568a570644f7bf057c6da63abbbbc08aaadc70ea9f58d434b19c1f81085872bf;
  0x26436e019c98957618fe00d4775b3bc0887fbb3ef5c67acdc9a88f050d9e0bc1909435340c8e2bfc6f5ab0e8a46ff11;
  0xd7c9ec0a35a6e67536468f6a16490fc26526ec1138e27245f16b9d7d0f0fc33eadc37ade2316d801e94aae6228798a8;
  0x3367d3cf7544053e0e1e2e458d90e4ee7bdb7248cf6dab486b61e888464c62262b4db4dcebf22e73357a87c4fc3657ed;
  0x99c5f0e515136ef56490fe2f925ec379766ad6b939af190a1ecada765039c2dda2bc7c3eb420ecedf2ea06863a95fdd4;
  0x1532ecf6da841da0430932b3f26eff7daf4e3bc490a1b8a1f7548da86d0ee6f0affc5ed565331948093c71a21ceed4f;
  0x1d9059ce2c806cd6ff7811bdaf8fdd570e8ba0aeaa58d4cb268002a5ac2c4ffb590ec6f89fcadabeb6555668980a98b4;
  0x1890e800fe3e7e24c9199ccb06aa7d77c53e14a087bdcf944909fc8885c4d5f6099206c462825d2dc99e4faa708c0287;
  0xbfebe524ff3a04e19135330986438c9b185b1cbeb7db4a5261daf8fb6a64eb48132145e9fbf4ffebebbc62a44722dd5;
  0x370dc8b57e480c7e25fd1ebd614186b9b9646529e3a6f85391be23e6420d74e648a47daf4bae7d4e9a9aea5fc494efd4;
  0x9160ae4763c8b13f977e39fec2631ffa2e1a0cb326bc8e445de2155cb6a4eb46d354b29aaf1d2dde405bf85aebba4cc7;
  0x562b9919a504d5f5042840aac60ace5e9916a2df855f7ae60eb7dadf13c515d7608046ed2cbccbfa7be93271b6a251f0;
  0xda8baf20885f8c35274079ce831780d11f7070faf8eb20f24d8dcf3860adabdb211c377815b6b9693e1c1aea9d6c14c4;
  0x53afe7ce05ad0292a640e408cd157c35462968df9d25d846a7a832dd33c7724771f7f3a3c8f4093e8dfba5715d8b7e63;
  0x10ed62908fe5db0e1530ccdff01c4fffae53ea6757ea5cc4727b42c0b634c661e71ec37594558c6fa6227bc47c46f474;
  0x198a5b4be5cbedfe9f57ab822097cabad81bd1d30494ab6dcd8f6bf084ca9c28d85cef28974eca60ff1d2201cb56ef252;
  0x6da40d44beb0b73fb6f841f55355f4d4067c9236b0d6b8882c0c95ed51634dd9deaa3a4182af04f99a8c03bb0b21390d;
  0x13a9e4ba65b2a2ff356325e1ebc866894fb26b0ce4f686564e724d720718368c80c279e54f6cb2be4a6432a01ff0b05af;
  0x13e15e33a3f4a85ccae411c0a0d066d2889d0c46439edd97f503b1e2f246d669a781b04fee43018b67d06af7dac09f3b1;
  0x1a371f146cfbd8ba1aac588ac681f3e130780d2240d4b27a36ed108e74699aacd21a912ad9a91bbc26d9c006a23efa48a;
  0x1f8a25f2342c4168a45df0a0d7b8cfa70b1ba923ab2849cce7817bd18239172c34c3f68edd2c61cf638237824cef21270;
  0xe67bac4ee6ebed37f13d46f0c3b010300afe835b7d0c1fb4195b879b034d17eb1a60218831595e223b4e5b7cc72433d7;
  0x139c68ea127c0a686a363db01e3cf2c4df03d0ab77d17eb4eccf4e1ecdc337f42a7c777001eb22a06b755434e5c03a3ce;
  0xb4f179646010aa816c346d1edb1f1be7ec46582fe3940815119a3c34e5531953f1400af02ee71f8eb47ccce4c7ccb7d;
  0x8863e68a561c7fcc58c4c225e3bb73c302b96fbbee73aeb016cf1059f20e136c3877d729638a4c89ffe85888d8ca8435;
  0x5a5ed6508cd651a828fc7f1dbcb523cdef58fc9db4f71214c9aa8f3084f2c752c2641e74d1299abb379fe6003c8cb4e;
  0x1d328dc9ee5f7cdf43abbb8472f1d0dd877962e9a5ff6634e22d1db4bda68527b03bf178d6c9faefc607f082888da7d8;
  0x4a5e5f65c59941a8b5ef8f7d28b8c00c9ad63df68fabc9249dbcdcb48599a610a1fe1ab124bad83a9c1785a5853b3b1d;
  0x1abbe9153945fe0018da2768cec909ee27f493d6047054ff8b868959423675ec69abec10fd1d6f80e3372f47a4323335a;
  0x14f37f89a70b7f423373931aaa2fa2a632b9d95371f9d52fa181aaad5a618ec62f8f3a143dd6d1651a738b387a5f25873;
  0xd8f23c85c3289042bc43212790df27eef46aa16f6f23b1beace8bbb5b2b3303404665a8856cba1dfe789e047ff0f6963;
  0x1ae48314f37c0127534f533d385442280dfe8641d3b7feafa0678296b8e3231fad48f361fdfa5830356f3685c88f4bf7;
  0x589b24679fd797a3a7887a8152a7964d94a70c6952783e70fe6fb893b14ac81645243f3c6bfd8bb8bf0bf41f811d1367;
  0xf4abd1ca15e1cba4644610d8e7f896ee5896b87690db8b9c68f4f218fdcfde2f8200238d2960478840bb4a4b648e8b88;
  0x680fe051609252aafcbda59cd7ebf53d9ac4930529cf10d556f3c88aa21348328811218780d9c6771932254042544fc8;
  0x116021ea956827f436f91f874584dbfdfaaa91569efd21a1179e78c01300f28493aac747965067810b9d67492484f1684;
  0x1ea5a1b815a2fa952ffbb4183a856816f475208e8fdc5c6e31a37bdb0b7c56c97f02b07eb31097b1851835a70b9e41590;
  0x2e185e11fd01812230f7107fdb2fdb352a406befc90997428bbaccd5955e46dd887dbee34f31cd4bf5979c69e21848d3;
  0xaf5b776a1ae732908ce6ea81cc599ec9b074c71274706c3c38b8c136bf2d3f060a5a7bc1a79861dd32f785bf620b2b7a;
  0x34be41a124a1212be35715b5e6864be70c1f91b5be74c1eab173f6223cee4737178f7b4653653ae8b4e40155c152893;
  0x194487a754adadc5de3e8ad3e1ed3946fd9cf21cb7daa1d115aeb32a977b9e8cde05108b0aad935d12af35d1e03b29c;
  0x60db988ec1b0f171333e9c137effc1f6d2ebb04b3b129e8638561f56e812287e5aa5a6abd493fdf240098d8458df62ad;
  0x13553705317c27c42131b3172b203e6677e7a3fa42a6369a3b372737d047b26924e97914bcfb34282b445aa3d06484934;
  0x199a85aef92329e1dfc06a2ebae5ed1b636e230b2ea3a271ed4d83c1eca941b04cc007f4ce97ae07d9be0cfc8f49ff435;
  0x125cef4c077714c3b816a265a7fa7bf92420f78ecf69b24dd2abb8967979f0591ac827319f11481e9731720fddbc8d9ef; 0]
  [(0x23108c4e1b4108ec0ae7f9ac9f118677a6c53e44fd12fcacc07b805145240aae82349d3ce0e376778bd1, 0x74d015bfaa59e%positive,
  [0; 0; 0; 0; 0; 0; 0; 0x800000000000000000000; 0x4000000080;
  0x1fffffff80000000800000007fffffff3fffffff00000002000000003ffffffe3ffffffee0000002c000;
  0x6e3fffff777fffff2e4000020b8000017a7ffffc41fffffdbbc00006da800004083ffff7403ffff9fa40000bc;
  0x900000e8e0005d073dff167355ff932cde923a0c31c0f0b7cd5be1e8429dd84b513683bfdc841cc36d671b4406190208;
  0xb28bab89a7d2011ca1441c37f5165f1de6dc00bda7c9e0a6399582865c1ef09df59bcda49c8673e98c81532f5c225b48;
  0xc6d548b3e45391177759974933e3ff7e314bb0f40d1a9175130caa2104848659a88377528d0befe8f5d8e08bb992b3c7;
  0x466c51bac106a276b220636d15daae63e2ab6bc900248c7d2f8476ac7dc6bf40bdb0681ce3222b05bd8eae20ebd44358;
  0xb5a6d71e9bd7a4df8358025853d174b2207ae4070a6cf3952b45583a23e2062c22353d9305e0261ed6ff895e954ae21d;
  0xde05ddb0dee86f34871a437dd53b71da390fb5b675391c112a701ba4cee36c539992f7397668000a9f38e9934e458cd;
  0x4c36f98a14a00d5c6ef672d18a4c528292318016cbe276a65cf22a10d7e5e2cd8850b7572be6f26c88cc6d9a1dfc68bd;
  0x24cc1200a61f82fbed3f6598a2d08b0bc520cb0f2c3f9479c4486c1a55effe1d9eb1a7d8a7b679b1f487bb8820511305;
  0xe41cb3dbe2a664f385837d1e7ccef971627f2387f77f748a5e1607db48a1718f83924727b08c7512cedcba5ee8d596a0;
  0x45fb65185403878235f453daf11219e7d5704aa3c7f1802a5753402273049fad4e4fb231cb966625aeef65447dabbae0;
  0x1fdddda54f98949fe4eb06b079e97fdacb7236304ae1226a7864ab6bd9eedf80733f3e26b5fa14849ba444471f9add847;
  0x4ff18307edc6f443a423a80501c92a19339ac9c58e6397c2c4c006473733226b69da57d6697e6a0528e22f00549c2df7;
  0xa5492fec6d7b43c77702fda5170ea466d2c93f2e703350a56fc7117dc04ea210318eac406f67fdce366dcdf2598596e8;
  0x7afe9f19cbf75864f0453aea5fdcd480a53f9bca59da61e3fd6ce176a86df050bdbf03971364a11497dd83f1a9b6d9a2;
  0xc9a1377ebc4939b97c828c2b801b2aeba3cdb87051b1c072c0b4ff52da52097d8960d622c1d6c60f75990500498e21e;
  0x11e6d21352f2422baba6a0e0027b164e7ab9aad2aecf12acb395aa0287922a9e7eb0ec709aeaa8771ffc67f7309f731cf;
  0x120da94981327532b294d1504ce84652688a0d3ac1a461bb055dc4d36d9fdf9b1ca0888eda3ce7be96c68d3ab7c89d6b;
  0xcc4d50c9b2cb0dfaf8baba2e23e03770203ce47ca56dc1c4cb953a5f5affb716aa627ce37e23e56abc3a2a613bf3e4b;
  0xef5487a7b2caf4a7292f86e7a0c2c61960cd8514bce69d3fa9728dab972df7124dd5629ee9e5ef1bb5d2ef817a82b311;
  0x5ce55a7dc115935128f674a40b694ac3811cb888e32b9c4b279e9de2ba458da4eb66dd17a0d81d56a5c271738ae2809f;
  0x5aebd673cb532f830091f72fb3e981edeba193d57440b13ebc702c8a1eaeb0857a5d8f0dd44c5ac10f60a160e82cb84a;
  0x329f6a87c4b500a03eadf66bc76689e1987e4bd365a81d2ec202232d47b52ef96b9d3b77adf001c467d634502c012211;
  0xa943966f79aa0067066a5b5f8b8ef30e9e76361359697c584afb1d525e72215342d2aa2e80d14c9f1c75038c7afffa5;
  0xa34d386c48effd7a0f3464c1f71ff0142108c4375be4b495bf056ebaf3b312b0b93f28b9c03fbf0c7fd52a25e6ca5fbc;
  0x281dc03bc40ab1421354d19a930fca5f16c77b35938956696ed8e05e32db561c8a6ab56471b3daaa8c67a262f343850;
  0xbdf65acb2a2b1d8f4f6e71dbe594350d7d2275b27f8cb331a16d824776265334eec41f10628f9de6dea2fa8b190ed2dc;
  0xb179de916fc30075c9a331c6649d36b63faffef2072a9992ae170a2337f8fb2dc52e66bc22709f61fc5caf84c1c04263;
  0x2d1c9d25c4b77fdca9098f28d4fe22e76adb78f0a77791fad2bbf70fa5f066ea084b6dc762df0c8b463e7c46dbb2a9b9;
  0x1d472cf14ad5861fc9c01632b6177a826323e75a39fa7d8a213ba4c1a36bef5323e406c522448099b88c7fb6097d9cc8a;
  0x9d33a0d4cdc51a9fe579ca9ee2c49f4d1ec18bb3610924b509985576cdc595360fd99fe8d51d562f5cc3f2bc534a4c4d;
  0x2979eb9ef4f9dfe35de95b691b0ca3c6a5f01882a8ab0e0f449beaa37966fd0678834ceb94825f11c5358c59d0d75784;
  0x817df1a8d98416b1919bc0524680c404617e5451b42f27f7eb4bb12cb0fcd3ed5a581bd658336b46ae95132258d236a;
  0x1a36f6c95748ab05e7bb68fb64949f86581d0ff076d7927537a34f46d786c4f4367d3766f4699b112239fb1d10aaa4f0;
  0x1260a8dbf4f072c944f34fc637ca5175ebba0876bd5767155153632cd1101654b470c64c13c499818e746e79a93804d;
  0xde7e48bb8b061c7d3116c443ad58bf4d909187f217440f3209a135da5fe66f3120e13367d8c3dd6b45ffae9ac0cf326;
  0x287d75eec0db064b8ab7839b0b1e9a190da57174f705232a13006e55739201c20b8eb58f2600da59ff48a42b03821d5;
  0x12d99a0d542d3052cbc8e8b796ae72abe47b5d24525f44b6d2876059258f1e509eae96ebf24e6402e52c94049b7f5abf;
  0x1d77fbe505e9ad689fd35e9cbe9a68df750afb5060b16562c16627b1cccb2fcee5f616d89b6e228e4c3221f77d3a30dd0;
  0x1e91f9bbb43937dd8f9aeae6e63b72ab35e7a2eceaad03656ba7ee1daefca801b852f3960648028b48acc6e3c2df6c89],
  0xbee9087bb8daf2a63d4170ccd09fbb036323d186069ddc422019a92579f90d5d9abf2cd7419800e75fc95c24019c068d,
  0x63c21f59981bde9385fdbd43ca471140c80851288616217359faee5bfc695b5e2b25fbdcce473904da9f193d8923a4a5)] mul_p384_ok).
  - cbn [map fac_q]. constructor; [exact prime_191737902980_101|]. constructor.
  - vm_compute. reflexivity.
Qed.

Lemma prime_272109983_9 : prime 0x1038119f.
Proof.
apply (pock (Z.mul 0x1038119f) 0x1038119f 2 [0; 0; 0; 0; 0xf; 0x9f7b1ef; 0x286cb44; 0x5023e30; 0x1552435b; 0x81411b0;
  0x1c25248; 0xb55ba8; 0x3820f68; 0x8581798; 0x7e2f71; 0x18521d85; 0x346be0e; 0x111768f; 0x1e77987; 0x869ca78;
  0x10d7af78; 0xe1d2e82; 0x4c09c7f; 0xceb910; 0xbc6e1ef; 0x1f89673a; 0xc6b81; 0] [(0x1a5, 0x9dcc6%positive, [0; 0; 0;
  0; 0x7e4; 0x1ebc8cc; 0x8ca1060; 0xd57d355; 0x1692926d; 0xd17ecdc; 0xae475e1; 0x17d82ac1; 0x321db82; 0x148ae16;
  0x2c63043; 0x73502e0; 0x182154b; 0x16bae5cf; 0x2b5a02], 0x765c7a, 0x5c3fad); (0xe9, 0x11d1ee%positive, [0; 0; 0; 0;
  0x7e; 0x264291b; 0x8794e6a; 0x156e41; 0x17bf733; 0x27a62d6; 0x260a2a4; 0x146dea24; 0xde6cfc; 0x858a1fd; 0xf1f7c15;
  0x2f2cca5; 0x814626b; 0x163243a; 0x14232a03; 0x3a0cea5], 0x9c18a4b, 0x7973372)] (Z.mul_comm 0x1038119f)).
  - cbn [map fac_q]. constructor; [apply small_prime; vm_compute; reflexivity|]. constructor; [apply small_prime; vm_compute; reflexivity|]. constructor.
  - vm_compute. reflexivity.
Qed.

Lemma prime_228572385721_12 : prime 0x3537f9d1b9.
Proof.
apply (pock (Z.mul 0x3537f9d1b9) 0x3537f9d1b9 2 [0; 0; 0; 0; 0x99ee; 0x5db323e40; 0x3d12e23bc; 0x240eed6874;
  0x3717b0461d; 0x8feed1e7; 0x2e303f11fa; 0x227ffb6e4; 0x30db30726f; 0x89e68c599; 0x4c45c8f579; 0x36e716f4a3;
  0x4caaaa1233; 0x56f5f2e645; 0x6fce6973e; 0x870007e3; 0x198f38fe59; 0x3600fce8e9; 0x16da0f08a0; 0x2abc63b63f;
  0x331a68aab5; 0x44ee06d65; 0x25f2f6d251; 0x1b5d50ff2c; 0x2f193d51b7; 0x127afcdd99; 0x1e502daf4e; 0x54039a3fa8;
  0x330083dee7; 0x617bebb07a; 0x3537f9d1b7; 0; 0] [(0x1038119f, 0x348%positive, [0; 0; 0; 0; 0x4cf7; 0x2ed991f20;
  0xf44b88ef; 0x120776b43; 0x164fa1f8c9], 0x2d95986221, 0x2d85163789)] (Z.mul_comm 0x3537f9d1b9)).
  - cbn [map fac_q]. constructor; [exact prime_272109983_9|]. constructor.
  - vm_compute. reflexivity.
Qed.

Lemma prime_233143833435_14 : prime 0x15344d898fb7.
Proof.
apply (pock (Z.mul 0x15344d898fb7) 0x15344d898fb7 2 [0; 0; 0; 0; 0; 0xc12b153c17; 0x31b5d6bc199; 0x5b68420f13e;
  0xd9b62164477; 0x21eb79f2b0a8; 0xd6e3a46fb0d; 0x15b60f3e65a; 0x6740839c0e9; 0xf9f09ce724c; 0x6e4f2ed1de9;
  0xf0abc4fe5b3; 0x264a23043c; 0x7065010f790; 0x2863d9e5239; 0x1a917ffc8e76; 0x384d4c3a57; 0xffb642e0b2; 0x1fa2f18893;
  0x113406ce8686; 0x463eec5424; 0x4f1e1b8b42; 0x2549f1e2ad2; 0x122dba1c52f6; 0x1f27fdb0d123; 0x1b34c748b0b;
  0x105149428f78; 0x6fcfc91f50; 0x911ebd95cac; 0xefe642ed62c; 0x136a38b2aa02; 0x1c69c5ab375f; 0x3b2079cc33a;
  0x143f2624431c; 0x177ca6ff914b; 0x8519c80530d; 0x110a1a2edd3c; 0x1b9bb9bfa9a6; 0x1492fc108979; 0] [(0x3537f9d1b9,
  0x66%positive, [0; 0; 0; 0; 0x60; 0x73c4892d129], 0x12d2ad58e5d, 0x106e5da6989)] (Z.mul_comm 0x15344d898fb7)).
  - cbn [map fac_q]. constructor; [exact prime_228572385721_12|]. constructor.
  - vm_compute. reflexivity.
Qed.

Lemma prime_426632512014_21 : prime 0x1720b72947fc8b45d9.
Proof.
apply (pock (Z.mul 0x1720b72947fc8b45d9) 0x1720b72947fc8b45d9 2 [0; 0; 0; 0; 0; 0xb11a58; 0x2c34ceac4409f3e694;
  0x9433bd3e6b9360; 0x11ba613d8a3a374c9a; 0xf143e701bb6f567dc; 0xb27d48f8f640970e1; 0x4d8536a9e9d5b6f6f;
  0x2deb93397be2ccd77; 0x23b753ba4e60fdc3f; 0x68bf7fc5607c937e; 0x2a273aa253fdd4fbe6; 0x1219e8b208def50511;
  0x10f4cc8e273a38523a; 0x16e36553dd8f5803ab; 0x56421f24f6177217; 0x12da18e4995b9ca57e; 0xc32deba65d97d6b90;
  0x10044ce8b45972c01a; 0x25e2531f04f4c6fa4; 0x36cf416c539acc98f; 0x8729b932e2467dcd; 0x1064b14e2588e4c223;
  0x208a306f25973bf458; 0x7fc6657c33c9ec2a4; 0x227a7496bb67c743c4; 0x28815bd04cfc87690; 0x146528e7422aad9428;
  0xd13d14b56e979df60; 0xbd2cbd2d598f347de; 0x2ae4765a8f191651f0; 0x6fa3a24edf1848ba; 0x5d37bcefdc7f16ac6;
  0x25da06be5ebeb2f6c6; 0x1cb0d903d9ea29c2b3; 0x25aa9bbb74ea42ce20; 0xa663b1e37d5d28c91; 0xf0a1294e345372b2;
  0x73a5cd91ad8c821; 0xb846898bce5958706; 0x10da29078ab53152d0; 0x123d44c7aa305a0768; 0x13297eb15ea0be0670;
  0x34e45a99e74513bea; 0xff8a69a2ca5a7aac; 0x45b490af51b301b00; 0x8c18884fded7ed3d; 0x22bf70af0ce8dc66;
  0x1716ce9235639f884; 0x2ce378162047f2e564; 0x6571d23c88e00c2e7; 0x13831b8151e445666a; 0x5140ad421ac9c38c7;
  0x529c1a28e495a2155; 0xbe7738b4fb7141243; 0x274115c60323b6ac18; 0x2125fdd7b9ff31f100; 0x81ced03b075314622;
  0x586cf50df442e1fa0; 0x63cb425ae769591b3; 0x7aebc4a77d65366a; 0x1720b72947fc8b45d7; 0; 0] [(0x15344d898fb7,
  0x11738e8%positive, [0; 0; 0; 0; 0; 1; 0x6ce9acfb1df3d3cac; 0xf2992bc0ca755c914; 0x3d1952d37563e2f98;
  0x6b15bacced4212968; 0x11881c3a7c8ea76f1f; 0xeff2bb4209dc8d7fc; 0x8a1164c8c4a120692; 0x83101d10792987f51;
  0x5ffd014f0b8c4f229; 0x97c5f375afdf53ab4; 0x2f13a73725dbadc6e; 0x201f4702712a0ebffd; 0x165fe06e0422c27bf7;
  0x1b34f71ea9e8ec3a7; 0x28196baeb36c9f29f2; 0x13e5cfb1d32c1e7f96; 0x3bf757afdbcca206; 0x1133ed22e622d8b4],
  0x367b9b8f15f607b0b, 0x6e41ac00cffbe224)] (Z.mul_comm 0x1720b72947fc8b45d9)).
  - cbn [map fac_q]. constructor; [exact prime_233143833435_14|]. constructor.
  - vm_compute. reflexivity.
Qed.

Lemma prime_149519933976_28 : prime 0x4d4ccc69f97d91fa4d43bdf.
Proof.
apply (pock (Z.mul 0x4d4ccc69f97d91fa4d43bdf) 0x4d4ccc69f97d91fa4d43bdf 2 [0; 0; 0; 0; 0; 0; 0xd3f414eddb8964c5;
  0x6375826eb2b3716f9e57b06; 0x5e3aa49ef68fcef3ce0013; 0x23cd88ea0494a8a128be0a; 0x3fe2a0cfbc56a6b7d8d05de;
  0x1629b925f7b0fcae7e1c71f; 0x2212c764a5b366aa6a43a9; 0x116f28d6ba352945f72657f; 0x73ddbabefca859521ec2f6;
  0x7ed7078174cec72c81a7ea3; 0x464d3f6c2b7823c4ac9658; 0x114b7ea1f8ab7c9abc6067; 0xf6fbe1dc26ad13994a8b8e;
  0x8a2f62536eaa728ce37c2d7; 0x644348f24d56a921ff2bc; 0x243479f16c38f5162b9925; 0x16ebb0bfc9021696b4d8b;
  0xb2b82bd11d1e26bcbf5335; 0x1d665c2209df21f5c877768; 0x1f7e5191ca35462e82322c1; 0x46df68dde918f7cdee873cd;
  0x7a2fdb4cb7a9ebdab4d91; 0x5110702ef3edc38c41ed78; 0x25f10a330e74476e93e417f; 0x2e73a41a07cff83bd29b40;
  0x571b73d6aa0a11ea63bb230; 0x5e16d897089a1371f15f4; 0x68177324bd368d13f1980; 0x76cc0916f6ee1208504fbd1;
  0x4a546fa5470b48d1b62b4fd; 0x3d4911ae4413e0919fcbf2f; 0x77edba7f44123ee7ce1d46c; 0x282b38d5b92f72a1ceb38;
  0x407cf4b99398089a16f50b2; 0x2148913becce8c37f1db3a4; 0x8a87d8961e0bd6fbfd8287f; 0x35d727198824930c9e189ab;
  0xcb6145c52e0bad5fb0351b; 0x1516c2e86cdba3675ea99f; 0x475eab0658418269d25a6b; 0x993258e32ecdf056b95aae1;
  0x3341a3c1266dd9ecb2ead8d; 0x301a9b6eb9c49e98cc6555d; 0x96d2eb8885d5bdbdc16dea4; 0x9597c037214ddc06af7bad;
  0xf59404f42fa2f862bb3cfb; 0xeb569f06d88edde6de971; 0x7f2720637d9a13d22c061d; 0x1149d7af4cbc2ac7fa8bbef;
  0xf017e7a4018a69a4075b5; 0x1fb660076726577fbb26c46; 0x121ccbf23dbbc8708521328; 0x96887e1dc8ed7f74509b6c;
  0x48370509e24a18e93788e1a; 0xd8d2d0a2794183e158e988; 0x3b33367c42c6b555881dd6; 0x275692bb6ac4cf51613498d;
  0x2303be404ab11c9e1c21734; 0x1cfbee392c8825daba46c15; 0x4b2cf36b3a4499b4bbea082; 0x219787b8201f3cd7c90ccc5;
  0x683faeaa597617376cd3d; 0x2f7a894a13277b7fa4778dd; 0x42616393117a39d9cbc60d8; 0x1e3273876b707981ffb932;
  0x16c66df6bdf7a1f401ee575; 0x4bf2ea729ccb3fc97f24983; 0x60fc811d907897f3d5955e; 0x21d026dbc40ea5a59b196b;
  0x8ffc380ec90f554dfcf64f; 0x23d81257232c520ded74210; 0x27d2ddec7970348de043d7a; 0x199f89517c00a56cc3f5;
  0x14d390824975ceecfd3d4db; 0x15ea91f05d452e418373f5d; 0x76074776ca077e9b52cf532; 0x3ae2c0234c9b23909de202;
  0x6a0fc3773348962dc19fd88; 0x252f0c3ec4e9161b5e69061; 0x344305475c4047d10e754b8; 0x490c96871e27fab271af0f4;
  0x29acf67992458d693f7c29d; 0xb0c371f3bf24cc6e26168f; 0] [(0x1720b72947fc8b45d9, 0x357a0e%positive, [0; 0; 0; 0; 0;
  0xd3f4; 0x1088734988acde3b3c0383; 0x1c0f82f59f77338509f4c9e; 0x13b74c1d4e58546dc4c1993; 0x93f1068fbe8ecc0ac1de6ee;
  0x1da198c0278b7d2ef1e7702; 0x4b884d03e75e084e2f4f; 0x1928a3e3f0ee47f93151915; 0x2f25ee2ba6d0bf9ccf556d9;
  0x27412ebf1a3964bf556b54; 0x93b838b1119e4ecf4ae460; 0x76173ffd6a72b2f0ceb2e9; 0x5f22dc4329c4f5972d5a026;
  0xf2ff6dc54b9ade9c47d1e7; 0x2f10492f19e984dd55a37ac; 0x18f2031cf883447dac61a8f], 0x8a083581996092bfc8ced2,
  0x452427ebd0fc0d7212e05d)] (Z.mul_comm 0x4d4ccc69f97d91fa4d43bdf)).
  - cbn [map fac_q]. constructor; [exact prime_426632512014_21|]. constructor.
  - vm_compute. reflexivity.
Qed.

Lemma prime_179423920771_29 : prime 0x39f9994f7b1e2d7bb9f2ce75.
Proof.
apply (pock (Z.mul 0x39f9994f7b1e2d7bb9f2ce75) 0x39f9994f7b1e2d7bb9f2ce75 2 [0; 0; 0; 0; 0; 0x235358;
  0x4e4122a69f707ecf60ab4e77; 0x25191ac4af847a9d34a5b; 0x2658440d7fa8cca6a100f68a; 0x138130a837093878143718e1;
  0x37f7dda3b949ac9a77881c1c; 0x5072b4bcd7882f74a07eae1; 0x1cb3068dfed9b1244491aa7; 0x1ad89697b40a2ad1ada40aa3;
  0x2abf1ad6c1402348a6cae61; 0x199bfa57317adb0f89a837b4; 0x3bf2491a5c0dee8137629cfd; 0x46238d1194ee1acee61a6a14;
  0x12bf43d83fc497e3e968f3f3; 0x1c32dd35ada180905f1829ca; 0x459be32bb0c8c36327e288; 0x252e4209713d7c228e02af3c;
  0xea0d024c5f20382ee9788b7; 0x121424c493e7a230622c6039; 0x80075935bf2e0f9c9b251dc; 0x1551b11598da40b0af2ca568;
  0x29502d475ba8e8f5c7e3fc; 0x1c7680e156b2d6573f32af3; 0x249e7941a77e55c6e972f486; 0xf79168c20260ea52f89401f;
  0x72f0764270097f9226bd70a5; 0x12540fb31067d784079f76; 0x9dd63e97851b204768e65b5; 0xa36abdec6f6eabd498d8235;
  0xee42f9f794752c27ed4e91c; 0x9304ccfef1001d566fc1; 0xecd4ab0f4109395d3f3d7f1; 0x10c667946a27675c70f3ae64;
  0x2a25c54cb7397d087e1d655b; 0x225313f449523c90dd054dea; 0x1a0c7bb792d67641aa992617; 0x9a60d62f42fba6acb64a93f;
  0x41b994e372f0582aa7ab1464; 0x1b825c376f6987ec27fe93b7; 0x26418dd69c210566d75b2c6f; 0x1a3b420b4a180bd2a1e46163;
  0x944385ad477374f7704f7eb; 0x1d3f65f49ceb14442c87960; 0x16905b15ba39c0e313c89085; 0x2a29199e97b8f0e082e624f7;
  0x428993bb581243bf77de39ec; 0x617b21b168df9bbc8f63d2; 0x70e49e63ac151918bdfaf32d; 0x98b4cf01e48bac57fb977fe;
  0x61d1bcc476e6360477757b69; 0x1e30f1676632805a47ae4a76; 0x83ddc5931b30dccb2207ae5; 0x3aeae2b9c9627101854780a;
  0x890f23003e3ecd0ea098b0b; 0x3428d492be6b5c21efbaeef7; 0x46b5bfc243e338e1599a8810; 0x4858e30fa47a30138a32370a;
  0x1d63660c5760c70a2fc83141; 0xb55aaa0ced8b26ca7692cd; 0x6405cf0fca30cc6fbbc5a006; 0x7697a9af4dc0b36b4a95f89;
  0xdd9f8fd473d46f246bee6e; 0x6d61784967767b42618a17c; 0x41904644cbb07493c5b952ba; 0x246a1699e617c66eb62cd6f;
  0x11a89c7ae0770501192cc296; 0x1dcc95e57079b96c9a8fd4fe; 0x14a72af22062f980ab4c075d; 0xabaa6a19c5087289b2fec51;
  0x1a915b31396ac68b782aa0e4; 0x37bacdb467a3125ea1b61c15; 0x28f0f9a309dbef7175aba7bf; 0x582674e5534b39604aa22c5e;
  0x11a2e9380f45acf2d625f3f; 0x2af5cd8a9fd61287c47b6c6c; 0x1a6c2c0e61973126f1ccb40; 0x4b3c82dd10a6410d4715674f;
  0x6133937acf04a7bc7cb262c; 0x692f3757521e5053d46e94e; 0x202797c4e4e4a554688978ef; 0x1f29242d8d7e2d1dc9d2b7;
  0x169213b92fd9b6812dc35fbc; 0x6ccfe4254fcb8fe8074992ce; 0x42d9c3b5a39a530970a688f7; 0x316b0a6b17b405debd00d37;
  0x113d05170d5bc028327cf0c0; 0x3093e75cc4492bca063f91c; 0x39f9994f7b1e2d7bb9f2ce73] [(0x4d4ccc69f97d91fa4d43bdf,
  0xc%positive, [0; 0; 0], 0x91330c10c452d5101d9ad0a, 0x281)] (Z.mul_comm 0x39f9994f7b1e2d7bb9f2ce75)).
  - cbn [map fac_q]. constructor; [exact prime_149519933976_28|]. constructor.
  - vm_compute. reflexivity.
Qed.

Lemma prime_9863677_7 : prime 0x9681fd.
Proof.
apply (pock (Z.mul 0x9681fd) 0x9681fd 2 [0; 0; 0; 0; 0x366d; 0xd74b86; 0x6b1fc1; 0x44c042; 0x5ba95e; 0x5bf5; 0x89e790;
  0x15c69f; 0x6189de; 0x7ff3; 0x1253a89; 0x9a7884; 0x60e7a8; 0x1c2323; 0x96dee; 0x9d26e; 0x52225a; 0x4d08; 0x9681fb]
  [(0x371, 0x2bbc%positive, [0; 0; 0; 0; 0xd9b76; 0x4bf27; 0x36eb39; 0xc128c0; 0x1539be; 0x1c15f7; 0xd4ef51; 0x259346;
  0x7d2f36], 0x2970af, 0x92c29); (0x137, 0x7be4%positive, [0; 0; 0; 0x6c; 0xddaf36; 0x6a0d06; 0x6b6bfb; 0x293a;
  0x7c3240; 0x4f7140; 0xf8ec6; 0xf676cb; 0x53698; 0x216b47], 0x2e8d44, 0x15218f)] (Z.mul_comm 0x9681fd)).
  - cbn [map fac_q]. constructor; [apply small_prime; vm_compute; reflexivity|]. constructor; [apply small_prime; vm_compute; reflexivity|]. constructor.
  - vm_compute. reflexivity.
Qed.

Lemma prime_373447688529_14 : prime 0x21f701ae83c3.
Proof.
apply (pock (Z.mul 0x21f701ae83c3) 0x21f701ae83c3 2 [0; 0; 0; 0; 0; 0x3c4c2f; 0x62fc135c4fb; 0x32b311c85cc0;
  0x2874eb295d87; 0xb3d1b7b45e2; 0xd2e71a726b7; 0xa127021b1; 0x3fad6c78ed8; 0x4d284571b49; 0x1482a28b9d3a;
  0x535c4f91c9; 0x3c83c36dcfd; 0x3c55187b53c; 0x96bd4fa4733; 0x8408bf213; 0x954da663939; 0x25e3bf7ced23; 0x288b847608;
  0x23fbd3dae03; 0x5b2d9f3380; 0x186f3b26bfe2; 0x1e4ef1b2034a; 0x42c426d1828d; 0x92e497d54f; 0x1f344f2f15e8;
  0x622f6492934; 0x27e79ba33aa; 0x298000f5c99; 0x2b6e2fb47a8; 0x99c8ab761; 0x1cdbf41ac8dd; 0x1ee2d780f002;
  0x24b5f5c156a7; 0x4f635fe83d5; 0x1e2f40e49dc9; 0x3894411072d; 0x6044af58ecc; 0x11fe99efb472; 0x555a0e9bb70;
  0x21f701ae83c1] [(0x9681fd, 0x39c56a%positive, [0; 0; 0; 0; 0xf13; 0x251b5fae15; 0x52adc765d73; 0x1fee0e61dd17;
  0x8202c022ff2; 0x1fc9dfd7e8f5; 0x31cbe60953f6; 0x10a3922be512; 0x44427a69e3; 0xf5e22089240; 0x74fb26a17e7;
  0x1853acfa2337; 0x1e2245433c86; 0x1c049b18d14e; 0xe2b8146521; 0xdfeca6db986; 0xa758a554c0], 0xf09bd0fc764,
  0x59f6710749)] (Z.mul_comm 0x21f701ae83c3)).
  - cbn [map fac_q]. constructor; [exact prime_9863677_7|]. constructor.
  - vm_compute. reflexivity.
Qed.

Lemma prime_559424637416_17 : prime 0xc6bf5fd72f030f.
Proof.
apply (pock (Z.mul 0xc6bf5fd72f030f) 0xc6bf5fd72f030f 2 [0; 0; 0; 0; 0; 0xa4df5a08385; 0xa980e77e167e17;
  0x146d2f502236991; 0x3baa703287959a; 0x6105e817b1c2cb; 0x4bde0f3a01ac; 0x16341b6f8f9e42b; 0x4c071926db78bf;
  0xc5a07c36e4ffd0; 0xf61ee8c9f61; 0x1c365788c1b2a3; 0xae13fff197c885; 0xaa007fb7fa12c4; 0x820db1dc22c58b;
  0xb825e0dc19eba2; 0x3c2df1df53e60c; 0x6d36ec79fb01f2; 0xe357d28350e6bd; 0x1235a78cceb15ce; 0xcc8351cc31541d;
  0x6822d6ebd3432; 0xbec760b761cb84; 0x65e8d6d328552b; 0x1320f0c98dab93; 0xd9bba7539b7646; 0x13ab8a38bed531a;
  0x9b6bb44c5f0266; 0x7143b4b6fbaa3f; 0xde98ddfd89eff2; 0xe10660e067f0; 0x12e9aedfbb2511; 0x11f99b3e655f83a;
  0x1e99e03e269ca; 0xe0c3ad5d1daf84; 0xa93c856182040d; 0x221a87b5d852a8; 0x8b731cb882d63; 0xffad7b2a4ac54;
  0x8476f08e774b56; 0x4bae8b65b7a292; 0x83b03eb22ac0db; 0x2e23f59dab548b; 0x1f014e85bf1dd; 0x77f542c1698be4;
  0x2b262ba7399b68; 0x13192b92eeb03a; 0x29bfd30dc179bb; 0x12e9ea7aeb5646d; 0x5d4660fcf057af; 0] [(0x21f701ae83c3,
  0x5da%positive, [0; 0; 0; 0; 0; 0x2937d6820e; 0x367b43fca4124; 0x4287650239ad43; 0x50c130c1e74aef;
  0x24b3d30dc14c1f], 0x45e3398f3e8434, 0x14d6e187e05b45)] (Z.mul_comm 0xc6bf5fd72f030f)).
  - cbn [map fac_q]. constructor; [exact prime_373447688529_14|]. constructor.
  - vm_compute. reflexivity.
Qed.

Lemma prime_105939265494_61 : prime 0xa8c55f664384d6fe203ca16a45d7238cad2d61237ce2fa5933.
Proof.
apply (pock (Z.mul 0xa8c55f664384d6fe203ca16a45d7238cad2d61237ce2fa5933)
  0xa8c55f664384d6fe203ca16a45d7238cad2d61237ce2fa5933 2 [0; 0; 0; 0; 0; 0; 0; 0x308a05a320e270f98cb10bde6aade8c78ed;
  0x185b28e1dbf0d7ad8686fe489f4a9b60db763a348b32bc09eb; 0xc8b5f9eb54c475bbcc0399316ef5ced3f57dfd774f3fffe;
  0x4ab6e371d9b56c5a6a6e4900c1558e12196b9b761790fe699e; 0x3c05414d67f518c78c84854113b0add29c8f9221c23023cc7f;
  0x5d97f62aa680cb57c042073d43a6e8b461f1195fb614d67c0c; 0x2564ad43f4a45f87c83a247af5d4ae8793555f37cb2d1bcb59;
  0xc6ed3eec9db472484e0e8324b42d904e0f28b74811d3a4d244; 0x3d88ba13f696fda56cde9b03567595ac11d65611d8f9d14ee7;
  0x1477abccbab9a0e271ab6af954d1e748794f5c1889e1885879d; 0x3b575d0ba999d1d238e7d2876b4ae93897044381131e4f4b87;
  0x11eedd68484a243e92d232fc506bcdfe0500486f41560ad277; 0xde3a1919b4637e3786e893eb66adfd5706398927fd16867940;
  0x1501a8b54732ef45154e53fcc23ed7122ed5be7635193ea70; 0x121ad63d4a0edc105dbe544a8aa51196371e2e888467b4823ae;
  0x1488ef16f5bd773329c7e74810d00950596047c9185678415b7; 0x2201bee687cbcb761bb9718bf07bd718d0f61dfbdf32b2e1b1;
  0x16507d7c120391eb072a5785c4c399e3570d04b93c2a97e7aa; 0x831f7d20b65ee9b1365927ed3b85195bdd766666c5357e06b;
  0x30e6c08f1fae6012a3b5343129cec7ef4f5e94b9db7620218f; 0x8322b765b0e3409ae8320fe5f6ca2cc408023bbbdfc85355a7;
  0x7e0c35115cb830047ce4269a28438148b696fe60311aae9b67; 0x1f9ee69b44b82c24cbce449509f11db518b6c3eeea0437fc04;
  0x2b8ada6477a381098ae54cfdc65022e4d770fe945d016f1234; 0x2b6ed7da226e3f1e386dd9b82181ece946582f0ea0b10bb94c;
  0x11d585e012228506146c2841870cf0eb007dc70a76c489fd15; 0x6c1a389e5eb2e35ec01f109b6b3606447da84a01c1d761255d;
  0x8bb8696a958d96f7abb34483f1d848a1dc6c2d7f48c58304db; 0x3955b5c8f84d1b6af0a398b20e66a3f485bc604bad86680e0b;
  0x4f7067660a4fe4c3ae9d7efd0708e0efd7ad503aebaf5cebf8; 0x6e0bb59698c101ce1564a7bd1c725fbd028dac3e402535ef3;
  0x1393641ea14b958d550d6f1ab36153942439258c4210f71a3c; 0x2eaa6ddfccd038ab616a4bf0665cf9ecedcec98c624ebf75ab;
  0x82f19fd724d775f8c482f52719c166147a711e62bcdae8a77; 0x46f0aaec68d3975bd01b596dc7664c9258a553de1744f867;
  0x26626b765ca359f98078e391d78550d5fbcf6bfdfc959491b; 0x9642ad5f48d33a813b2d83823fd5ceaf88ad5d76594c13257f;
  0xc63e4184cacbb40e1cc721cde44198da85f4a7ad319845620f; 0x2b6169c08f72dd4da4aefa09f2135259dffa66a0dd27aed78d;
  0x316bf9dc1830655c0fd6eedd39a28c9f4dbf75cc690519d1; 0x4b6ee57e5db857b4df31ab2a366b5ef64c71a4edba62c1510b;
  0x237f27cd1d361bc6096f645d9eff1818420a673755a0b337ac; 0x3c935f0221e3cf835bdb10784b986267a7332a757b82f34f03;
  0xf691c7f3e34cfd410d6fb421580ee9466b081b255f53ad71c1; 0xbf4e3fb29aeed2629b3ee6bd6d59be584f6a148cb890876cf;
  0x1495e0706fd19ec7591c84a8f710a1b4c34e78c3f33e9dc03; 0xad9b432724adfc9abb0c6bcc35651c290992500e08034ebd8;
  0x55b0e779c8f22306abb4398cac76ba306b7b48f377976c68db; 0x1a582250d8f50990fc1231fa30f96924997e2e61db6b382f07;
  0x1babefde41d7d2b5ede80f96c46a95f074bfd1b19c9e87c1f0; 0x508330e74f8398f9a6efeeeded7b2c0e81b6537c859c34c175;
  0x107bc420ec165a84bf95125bc0e90e10afca00c7ee799dba8f; 0x12a98d92c4366b14c2a31407a577d9d8e515a671c92399c1cb5;
  0x21c4f3eebf798b1576470393f078d51a20b0b0c6b3cda201a8; 0x547b81151a470811f1283b9e6db86254b86b08dee866639132;
  0xd8a2a0d8a1c056b0eb7be48bf837d9ed172fbe28adad7b6d; 0x3f311f87a56a6b098f32bad1ea767bbc730ae0adfa5e5f245b;
  0xcaa42708032223e809514015480c27cbbdd5a92f1116573fc; 0x6be3b1a6fb3e51883f4221380894bfb03e008fabba0e687da;
  0x1efae2c4d38fe9eb8774acb112a3dd93a054f419d290104e97; 0xf94bc48dfaf3a148aca7332af528ed42efbcae5968f888d20;
  0x3bb46b07dc4ca27ede751249a7c2f21f8a54340796b4cd2bf7; 0x99dc32c2a2bfa61cebd71285ba1293980752216dfbae6ae413;
  0x8ab70e532cd0263da340cc7ef70edf1f3a77a9ad1b43ca2c45; 0x26e5caece557fda474329822740ae2f6194827c6529af99c32;
  0x142b94d345d1a13adf82e6a7a235f306f2548a5fcc3b2cd6a6; 0x6ac7ba20faec6015491fc84ce5efa4f1cfbe4a5dcba09fdae8;
  0xc6a9369310f7913cdc638d83be57b890da8846e96522eed7fd; 0xeda3a841b0e8e0ec190a95654ac1cfc4b8bd211d63d5984242;
  0xae36cde5418d0b7560ed43b27e63a13d487c5b341cd07bbc43; 0x9a2b6f1116953a8bd5e20a2dabbde55cae562418890df6b553;
  0x88cf25d3c5ee2aaa30a808a71e63697dd26660d8048c72f99; 0x62061650e933882f1aab8bab3f2639bc517de52b0ef87bcef;
  0x13adfcceae1202396594a3605add8913046361ef7e9ed5baa4; 0xeb1363e65718e4a6fe681469818fcf28d03acdd74afdd79072;
  0x89490989dc5f56f25ac8df85fe01f84e83d7b98945659f7069; 0x103a287255788744e36aecd0fe12c800cb08e6ec692351fee5;
  0x26bf5f12f6f989d54eb6bd21f8afc55d33c0e0ee10086a9fc4; 0x5704e01b3ad394d8a1293eb91c5872ac4eb50aa90bf2bddb08;
  0x371d898b0fd16e4e75463de59349c50ff77e86acba8720cf2a; 0x3368bf88e2a824d8311c1c39fbf44e62f7b7150e792b7268fe;
  0x1944592e4a318d452f883db36268bce8e73f3179b2c8cf898b; 0x1ce9e35b33918196c27945c529409a8008681c34f49411212c;
  0x437202684ebfab7feee5915947b851a66303641e3858308971; 0x8f857ce82a0a3333f04b2c9c5e3940c2f0abfa28169ee8aa66;
  0x5b070538f46d5efc65d0e6514c3e0ed37fc9cbb85776979263; 0xb70abb9c20220a14253541e4b9ef5491dcf2cd4f6fd3b732d;
  0x1a7bae5b759f357d171b3442895911bed435ad180615eafd3; 0x348f3552e321963cec51dcaa16f9e5df012dca496e176509af;
  0x5888fa65d058382283cce14e32fefb0fabf1a258922f7f2dd; 0x84e7327a7a009eeeda0fcd5c398e72d3ec811d7d1da492f211;
  0x1837ed841ba8a7573677a8439ba3645aeefabac0776ee687f1; 0xf9b34cef222645837c359a56fe8c00b75661d7affa62aac38;
  0x61241b865dad9fa76a2e9152df1aa441fcfd694963dbbb0403; 0x5ffe8dc37841d1420893f6be1a90b52a858db39e7a02b6ef3;
  0x13243bc7cf7b5e920f840f0f2103f2e35c7bd5fb500ed4e562f; 0xd85cbbaa7ed615dfaf07682378304ad2eb4010de25d615cfa;
  0x1268f5795c6b61159603b402556ea7b0fdf16b6fc5a0e2c48d3; 0x67e5846ef2cdab15691f9c7388a4f8ef58b3cccb0cf1c09a55;
  0x15a3936fdd6a41fc517ea4ef6085ff786a51a71978e7f420d; 0xc1947706bd48059c68a4fb31d0a37f375afff926fd396a05e;
  0x88a3e4746e0ed92f8a174171c1692e26ff9eb2548b1f7f0b13; 0x758cabc562fb8332c346fa1624e68b41717dce1b394494e346;
  0x2e7dc1fdea5c81e5ff16235ebcdb247e1f6cfb1f2af17384d4; 0x8163e34fd42b9fac183d80913abef0ba6c95c5ddb8c83dc055;
  0x5b3765b421fa2063618ba92421bcc388fde342bb9c1af289b; 0x11bd16e5745242e2f6a1ac4debe62ce6e31e25f5073925b432c;
  0x193738c3d76616a09690b9545c09eaabc545bf06c356e77aaf; 0x4f5d1a5827863be033f8e3f3bcdb62f6bc5f3834a8b447ed0a;
  0x32c46896cb230250eeaad172d404b84ff1556f88493ea7718d; 0x6ba0b6d1c264fddb8859aad53460dc1e400a50c82b7105d915;
  0x1ebd2bdaecf3825f711e0985f051d45faf3592ec965fe377bc; 0x104da685328eece323a4dd4a708fc6b40acca25619e017d2c47;
  0x836a42dda27a5a5f30c35a599547f9067178f740e9b5199767; 0x491b8983f3bef98bba2b562050fd1876edbc6bac663ccd67f;
  0x78056b4e96358c73675137be294d931dbeabdc438f57fb2396; 0xe64893ed470d95bdfae55e49345df3e8441f91ebf4b8fb95ab;
  0x1cd6e903f4ca9b8d483fd6354eb2c5889d9517414494c79697; 0x1eb4c243d1193b7ef9d41a7dd1dfeb2adcc169e9e9801642d;
  0xa89dfd5d1b8b6471ae00ef9766d105332487e37f455fb90b8f; 0x576d972a2f844590165cd0b39b780b3413ad7e7d54715b5b98;
  0x52d54b74ba0abe80bcbf2c86161a0949a6b689a23b7e7bd9fc; 0x1e2746e7b866a782d59b3dd89bc4cda1789eae8af51c0f0a72;
  0xc948ac02e1372f9a167a90253b7c0de2cd99065d30c0abc0a; 0x361a0ad7fad9d952c0cd968d47599e58e2151c74fbc16a68;
  0x26d31a4bb77c158a1b9916fe66450794d5e42ea83f999df9d; 0x41fd7f3e79b136f70f8562a17f489a88fbedeaac09d6b9fc;
  0x3a5cacf8496cd9a7cb72c3d6bdeef91030032649c675d55bd6; 0x121da934ef9ee47a8074467cb4a6e820fdf8f9e1c4a4584261;
  0x25c2f6d0045e6e6f6c00c5572d667eb0b5033262fa7ee19d39; 0x1fcc4875265e0b663858961567f107714828839325eb28fe15;
  0x44de49fbf0da4217fda208db04705294ff0f2a086471936bfe; 0x131936f697ff951a5959069725cb134f5b917b01d6fb2bed95d;
  0x3704d2a9e8ace4e2f90ff42668645f6bebc2e2e2e7cecf3bb; 0x76c7e6d0bfbb33281e76f4f31f5fbe92bc7635172a42baca01;
  0x40c6f6a12078c19fc717b133b0bb793d5735dabe0c51c1b2d3; 0x9cabb97c02a4b364b71e405ca73de263caa5124345771e80aa;
  0xc121b9050f83f0eb8cc9c237ee6d984ba9cba814799f43e36f; 0xbdfd5bd5f0828ab7617b37f83d4a99960890b8a01e337a289c;
  0x953a1ceedd334d8abb51761a617f074cbffd8b25e29a233b5; 0x3b0427ec1346ec12dbb6aa59667111e7961232344a5b3023b7;
  0x428582b505106826cabd377c0529394f86517309d6e8651f6e; 0xd01b321c98d7ee8e37219296e47cfe8ef17a7e1b140fa35ea;
  0x15b5732bd776473559c92ab2b335833e8dab0d45a497617756; 0x3338887de8548cd02729b546b59d3030415f6ee2cea557a5a9;
  0x37e3fdca5d051df1043ea562cc754ef1eb307b619c21199f51; 0x823049636d6da8bb626a8dbcb8dbb6db1c699c0b7f6e1f75b;
  0x51350d4be8776ba800be60a2fce184a6f4aff2e43d3a298b; 0x10e89aa61d9cf068b33f1513556a6c2d2e8bab7a6598a764e9;
  0xa869f40e78188fd3f6811a12f89eb907d635430f035dcf1ed1; 0x337f397a45e2b907a32f2d07d9e82d8cc698919b5934344cb;
  0x2fcc4468b50c4fd452c23d7a62b7aeaf9dfd21e55dac7328a; 0x719547a52c39dac9dc3b9120ac184b2e7057c3b52c68b05013;
  0x131e3d39c78c2d513d97bc01dc5cc186f1f1e0265bab9d77de; 0xf59aec8a28af6eeaa0a188338a0c98bcd89a3f822307548b05;
  0x1172e224d5785df03118a82509bb6aee1f9c15e9a905370c32c; 0x43cf55c0b63288337cb18d7e93858cbfa5736373005d3719c1;
  0x1273415e694b7f66eab8e2953ca51c028e8373fc76137365293; 0x659d35a2b370cf98f37c17f64d6b3c710b986684a248acc4f0;
  0x3dc687dbf9bf085c4eebae34c09e78b4d5620a4854d0dbafd; 0xbd832203a506908f62b0d413f8ff4affc4e9ba9106e95f049;
  0xea193160dbd689b79349864178095d8e0a0289167256109942; 0x3844385ec275e8029b53b56b34f2a6c63c3adf16c11a1c7204;
  0x3883dcae8d4de3324eaaa501e11bef4914da04c02ca42dc43; 0xf02ba7955f17e632d9b0bdb019712c865c6499950d2a04386;
  0x1b08aba07116bea2598ef1fafccc5ac72c51f7e3ba901c6; 0x4790d8de1ac44e6e1f99cc57d834a1f9d8bb26555d5c89c8;
  0x85af745226b08b06332d0fa6034681181201e647c6264b007; 0x65bdce860233e9c68e6cf780f71d8ecea18b2deec513433a7;
  0x544407cc7e75463a5719ab262023f45d1d03732936ff30de70; 0x9f2eae6082b28a2b859e5d28b3b10f14b94fedc9d5001ad0e;
  0xc7c65c37030436dfc7d1ac192089e9f0180422de462b2ba16f; 0x1c6fdacea68f1bfe8e44717f1dcf4aa0ceb17ad1eb9c3a059;
  0x4d7ce43a36d703e6a71f9e5ff26800cebfa5cff36c78ff7d5e; 0xcdc4ecefbe8c788dcfc82f842444297b8b49b21a4338a9fcc;
  0x12abf417d40257eb1934e6665c3952f9ac3d978b8baf08ae07; 0x7be36e988fe16ab79150942480d73c281180f395b297305cee;
  0x647e1102b9d09a75ab1ccc7f6441b87861059a27f3c24b9dca; 0x2f81364a539aecc12b232ef67b255610033322fc907d881326;
  0x14c399d58c775ca1ab963bbc9ef9f384bd491e95fd037007dc3; 0x6ffc024d8ef05a78e09950012714d8e7fb522998b236888f0;
  0x2a5e2ecfcdad767d277169a0be4e8878505c69c624549e3806; 0x12660147b222f6ac8014bd2d7754c97cde3c6cc603c08fd65b;
  0x27c30f3ac00eb9f75ba30513f7353a01047ea6a5e81e919abc; 0xa3435308c866bd3290c4fc75e576a51fd2b68cd3063124054f;
  0x53d37241e15b7af32086da1a827663178994f8571c75076f14; 0x88ca2059e40374f08b798e0efed88fc7645e696863d4d788dd;
  0x169cc3269ba586b6d50a3460854d46f986594f74855d9ecda; 0x97b3dff98dfd319b9875fc423da4baf114bf7980c34899f0f;
  0x7b1303078313421f0c753ff6c14edcd4149f3e80e0816967f; 0x29d9335192af524df246f1713d1fd1cf639eea346181c07b5a;
  0xa8c55f664384d6fe203ca16a45d7238cad2d61237ce2fa5931] [(0x39f9994f7b1e2d7bb9f2ce75,
  0x2e93dd2ed0ad31251930497522a%positive, [0; 0; 0; 0; 0; 0; 0; 0x184502d19071387cc65885ef3556f463c76a2622c075;
  0x2b5b6e8137c15ab2fb6dba9d384c75464d01d68ffeb20ecae3; 0x52be7e2c66b2587227ae5aff8c1f55d32fb560e0b82e715f44;
  0x99ce78df44b7253dd7ebac743c59fab8375aae448a7d69971a; 0x121b3f485d010d17b45916ce310e0fbcc5b9a715d69904c0924;
  0x6a5ac1f7c2ea139844fe6b873c3edf0098adc8f0eed92a53c5; 0xd6291d0d7c158b555b7cf78e80ad9ec1ed58294ee8e725ee9;
  0x6257e9b35b7ba7ef8b5d7c4487e93c1c48f98a655c9519e9e8; 0x30014c725a0d8881dbc45fad07667fab7b0c5c80fff9f0f25;
  0x8712cb97b0e81dd9a2510f27f13844e4c2a4e73fa1646ef1c5; 0x37a636d6316ea96050bb628df72ef76f21d7124e1dcf4773ce;
  0x135ae574eb478f1af0bb71fa3d9e052f46cd6445ec7da70c122; 0x3296fc8b3bfd9acfdf7d992e2b8d4064a49900b80ddf5ac4a1;
  0x9d1428a8d20ae9d9716f3ad011ef625d853e7144372ea4aad6; 0x5705571cf4a36ac046d6ecaa517fc0619917abd1bf7c96ac84;
  0x39aa61baf83a2af90c6f717c6598cd608252e8b7f0f9f258de; 0xae9d77999000e47ff9de13afaf60165d2ea5d803812fa97a16;
  0x5d08e24fd428785e42c7692963eb8da58bc80bb318f8e877ee; 0x3068f3114ee9c4163aa1016cf629a0e337fac2db2ccb41807e;
  0x1cffc20612cc9d080c395011a0e43110c5286aea50d7b752f9; 0xc2e63af8260ffd6e9532669b1d4c86de9ed4a267acef98b21;
  0x44b13c6bde78bd01678fcf0a4299bff66ac8cd2da256b7e687; 0xd06dc7f0a5117b882d18c4a168367b75f2adebbf70473321de;
  0xc997a9610816036f1419d14835168823d6f370f79b876ab0e; 0x18e7b4e326e74ba2986a60d79ec0948760468d72e0180b436d;
  0x1d5b2dee1f352c4ab51bfd3d90442184a4511264f18fc9629d; 0xb1fd4616eace775634fd11541e789578551ec87b327285f7c;
  0xaea77e76c55fd1a0b76046a15e725988ab72ced963c76492a; 0x3f4e848de5df94089397dc4af2f1c38dbf9e382b1a507b228a;
  0x4edd6ae9ffb5dea36eef42e9787dd791c77f9209cfe3fb3a7f; 0x14558c0efef8f00e2d680a504a0cf4b9a5bf2a509c2f34c43fc;
  0xd3093e787f07180a95320b2ce06c24b8aa72441063184f9cf; 0xc605fc0fdb111620c2d8eeef57994bc540c2c3c3ab1214f;
  0x49b5263616ab308d32561f69f9bd13805636e57676a95d7c13; 0x5394546832f973a5caef3fc6f7de919765808d298122f97a0a;
  0x17a5b4da1730bf1583d4f7e4ca59d2a90fafde80d59812e66; 0x1bff0a81da815973667b92f08451f22f5edb729001d73c2d25;
  0x2a6dceb748c9958d47b61a8931636d2e78b10664ead5b5facb; 0x472d064deb8a06b2e99749a4c95b5a8711362e9fa6ec1ba530;
  0x41bffe6ac7603b037ff681d399271213a5b1a056aec3efd6c2; 0x931898d998245f834fad42d3fcf471edbde46c0e0cbd7a1607;
  0x1fb02c1a1edaf0c8e98f179d155d58c3d7abcc7d3cc093184; 0x713fdcf88c25821cc6abe4b6376d6097f6e5b4a16060a862ef;
  0x334a67896f27edc89d429b084c403cea2aa3977bdd46a8b048; 0x3955965b5ec47dbf4ffd97da5da6fa561fa50f4b41fa7f6e31;
  0x2ea55f4e9d0dbe9f87cc3e47c6fd843ab3d838e049af61a34e; 0x730f737f512338a12f301aa2acb9f2c55bac5a3eaa4ff7e6a4;
  0x9a79a2adc1bcf54462774304ebbf8aa585d39018eb955ea64; 0x2732bea0a7b2b28cdc9a371149f6491dd880193ef3ff0f2ac5;
  0x91d7bb9bef7d41c980d58fd46571f16f290f0a5ba79bd4bcd9; 0x4fa8f76ecd117fc78eb5a23d8ed83959ee400a9c2d8c094be6;
  0xf323eaf65581366be3c8b668dc534906f0e04f736e2b893227; 0x949f1d8519d14d0847a12e4e359d25e37f3d3df87e27b17d78;
  0x46b6a50e2a8a72b0dddf3c67943f34d966597cf434ff7e9968; 0x14a27569b587c836f9e22dd56d599aec19577747226577283e;
  0x45666edaaa78685884b29e5392bc63338697f78a635886e992; 0x20f001784a5eb15797cdac1c59552c74c017514b5cb0f1fc5;
  0x17006da62917ab8fac27d2ad0fabdd8ad54bac7397fcd30ea3; 0x24e0c7a4a78a2dccd6a4a8687fbb1e01d6bc7f9e2cbd6ef4b6;
  0x8c4252a8376c2e455fae49d38216d41ff5243c42b61e57f6c; 0x9ca49db81615ff7f76152a0d4ee84afc1d86dc0a87924d0f1f;
  0x1b2a442579c57798d04595fb702e14b541f604e19d5dc97144; 0x359805ec7cb1cd7efce8e5a3dbad17da861a234643b656a7d;
  0x373f12ccc27ce6486b5b32e5b1d346b63eca371e191eab0e4d; 0x8f77beac043bcbadfa43df5db139882420614a2e923bdc76b9;
  0xe2ebae78c8685a190f0cc7dadc89ed90bd7ebd8a70ce0f5f56; 0x107b3bcf5384836adaf41c3e77ca07ec93c816bdea7a5d0546;
  0x25719be2e9dce698b41db06cfba143c4605144e31c8c1c80; 0x2c90560b52fb6f315128bd71098af1e4c69cfd9dcc2197b31f;
  0x4aff4168b18beb05d761ca493a99824bf7d8ec7307f6320276; 0x40c5e036ff04fa291bbbccb0c4571156303c19005db524bbf8;
  0x5d50270859734aff4a3805f8d58273dfb8bc0d29c6600a2baa; 0x9dc54445c3b94242f8d2771c1b388ef4f17bd2f23889148265;
  0x284832603d1fe45fa5bb537119f90c7e1658b56c1c1e30ca42; 0xe1a8f59954cea526bd0e589959af2fd345f83b46d600b147a6;
  0x7c5e40c991bd02c36ab8cd757d53d5796799191411b60f577b; 0x14445b140121b82ebf622544d3593df85ffea488c8dbdb319;
  0x7e933dc9e786c76265c9c08a220c49a7ddd0252d7f1045573; 0xa22c84f405a74aabea84fad1a99f47f029ee9f8b9872bf6df7;
  0xb0cce154d3f48cf1276bcaa04d07e55371c915ba88d59e1c1f; 0x1176d415c08b0d16c295ec6ccc1589201d79355e7d8a6f4732c;
  0xe54dcc4ba5f7e47d3e33f13b0161a71873aa5f10efb9cc800e; 0x3fab2f120ea53acfe2f2b87dc88eaf09ca3b7ad4cdc18c5c88;
  0x3bc039cbaff55b13072d2fca94b8db24b4a48d998746ef64f; 0x56301609a99fa8ae14c498d6087bfba4c60053e78df568ea;
  0x1103e6908d51118ba21a88d429ec768e677cc6e47f0a878f5; 0x357686c5e41d5bae8427fec53317d14ddf338114e825ff9218;
  0x6b28f1c371d754641f3f4f6fdd702f7f96c676c32251746b2; 0x627edbfa2aabac79953b30b78c6a8ec3e4689a05276cedff8a;
  0x3ba460bf0416d36417b64e5373799d1316f70e339a497f0c71; 0x851432a921b57c5965ef8356c073473a4802c3dd2a9e5e7f9a;
  0x55030c14fbb194f6743b7b5eee0dd378cffceeee81d0700153; 0x31d04d0cb09b89322962d25c16b68615ccfe622f4190cb878;
  0x2ad54410dded792d4d95815c689220f235a359ce91a3ba2d0; 0xebe3a09aa2afcd09e0d456d55d6ee1eb489ebe81e408af4eb7;
  0x97d9f62c4ee4ba294ab4cda0dc5a59978c0588e497ff7f3e; 0x11091d73319acd007da2510f216166795fe2a0e724a58d7b434;
  0x6e1631c31ecef51551ed2475fbb1d803ec41892615f812aca3], 0x9f033fdff044d44917e757865665a77176730e432e113fee9b,
  0x4bb72a3d758e11478af2d2c0a8a4b021651dbc6879d6c0c8df); (0xc6bf5fd72f030f,
  0xd96360ccd8690363f4e279a5d49bcd516bae%positive, [0; 0; 0; 0; 0; 0; 0x308a0;
  0x14f33f5ca0b800495db149cbf1b0e2163c0495a4b21fbbcb95; 0x13f42d0c0ba30985a3fe84337f5d4010aae497d25fc45f9b7ac;
  0x7b65fc0edea979d5325a9a9221a2c1edb5b7d4192d4666cf4; 0x1f8e824137ba73062fc8c81563f74a4cb60129a5d075ab54fd;
  0x28320f10d18834e7e4e2a1e777259faccd6af76dcdfae8736c; 0x7cd2a322f646a22232c92de62fbe66fe70c7143290d4ce787;
  0xe2b5a230d81dbe02b13917d7466f1c55fbebb0fa1e0a224f4; 0x121c6877ae6e418fd9ec7e821b5a3e867e7114493732a1527a7;
  0x31368efc11e508068338748638d4abc65fe6f8dc6798a45075; 0x19b2b8b0b575e047212f3257b321ab311825c97c8aae5035c1;
  0x1f79bf72fbc523fe30a75e6dd0ec76095d416b706379487f6; 0x9f41be7a4b49cbd5ed3aef254e432f666c542e0bd13025567c;
  0x64eec1804d35c413edd71ed7ff5bbb88f66cc5f68b4c920a37; 0x93197df51c8c29c835975e73371bc57245bb369c3e5e2c7c35;
  0x556603d3af58630eab9181934d0bd4e868616f1244f5b7e83b; 0x70f5b6ca23ac60f957c0de6cb9e6a9425334f3d0f1afd6ce36;
  0x77dc0fe1c511acbea35dfa4ff69b8a628151e11c858b4aa763; 0xf9459133430e536d40b49e4c5452004a8823913305b4642b55;
  0x165aeca5958cd75a2d07891313dbf5f7c11481591e3113be5c; 0xf399c39979da88f8e87ab910147acc4bd53846832a764fb95;
  0xf6739a94435adf95933cd8f92c3146ad8a532f2dbc811cd1fe; 0xda6c2dba5de90bcd19355062c24e98947bc310604dfb0b5c9f;
  0x7a81a656fcf6e0212907c77f145506515fc5ec5f1418ca2283; 0x898768b9efb4fc8efd8de57cc3ecca90f1f124316a53e389;
  0x452f9decb98742a87ad70a7ee2adc00a759abe8e83a874fe57; 0xef1428b99106466672140e13f32734fe6fbe0f7fa1ee1231ea;
  0xd445b8ff16cb23e6c100f3ad78e053b125e440e8770ca7da; 0x9079f664ad3c6fcdfae2fdd87a25ffed7c08bed25585f8f61e;
  0x7653dad5e010077c59523fec359774721165c83b95983ab4a1; 0x103d9cfccba16c8c1ef45d5ebf36ad440761ffa3276a5d07a6;
  0x152f37df23558dd368df73adde246046b87c965f9d1b8ccc97; 0xe4c7babc2c137e6919dd61069889ee3b4cb7a3ceea7989e04;
  0xc3f4f9609a8f7e3c269edc9f976f997ceaf15361629a68ea3; 0x4ff8dcf4c533e540315899ae5cea36a72277c61a7c98ded3cd;
  0x1b0494b3a04bf75b0d8fd62e683d2265c1f9ac99e711d63078; 0x297615c8c2908f495a7429c455809cc4763040830cf7e29e6d;
  0xff6616927db95e38de8d400ed197578773f0c1c0a17fa2f72d; 0x1610e5727adf7b9e2d7383a7f0b5ce5e7a17f4720b704657e9;
  0x173a93f50033043224e8c6cae7b30780308337cd2136169703; 0x406ae19cdb14932b187a83032014c4e5f8a9ecac0306fee32a;
  0x5fa70a985749bba480e53f7f048a8be6158ea04918d6589783; 0x4b2a478f8efb05bdec4d035a9a3650ff0d7be3f77007eaf2ed;
  0x773c4125615cc59be86f41c97712cc2534de347f8a08e59c4f; 0x794aa2c657baec939e36c668b6ad7dbf7beb2e97fd42e1d7;
  0x2691c06513223cf29e86973ecb01c443ebe774e13f59146c3a; 0x12471e98cf83b02f92b32d79f8f34f85d95e1308726f26e6b0;
  0x11faad6a0337c9ab66a7ecf50e2c33c7030cae4a2e488eb58e; 0xd3acc403b05158ae51f71a84da99a9974813295f32f6cb8b2b;
  0x2f3274140e702d0e6e0fd38637d161424165453eb13cfebd6; 0x1afa320484fdcc4e0413931144bc3fbf14a29469b322d279fc;
  0x3acf4e43a44ebaf8f4af6b06624a8d5b4c819124debf528f9a; 0x57b7b5bc8921077b3b0478321c72b453a5ff926be0df092914;
  0x324295996e9ed9cdc693611315b20ad1b7bcd3117f9c4d2740; 0x60ab105a99c5b32b39013cdf3f63c4b2281594263072c2d48a;
  0x11f84bc51f7f36a34d04cf580bd35273ba2af04068bb69bc778; 0x2cd93ceb08a0708b97cc9d82e1938ffb5b95698b83e2e72a7b;
  0x6ef3e88c0930c08982f6c0400424f23c7fdea694d629a6e737; 0xb5ebb01a023ccdae5178ee31a2d14a04b85211363a247d73a;
  0x95b4faf7eecb0dc5b9d4c49c058185a6cd6fbe44305190c1ef; 0x53d2c378ad5c6c8f1f283f1cbef4f382b64976f8152d389591;
  0xf2e5d9591e37d87b115f99dddeed658e04cfc5db3ad66281; 0x11ffaf5c71916a21e7a50ca61cb1169430c4fe9775df4f56890;
  0x3f174832dfd8b02887016f31aa80aa7c5c1ba0e74e1ebb7850; 0x1baeb51994b683dcbf634d29d95421b6c4a09d8994e7eb9815;
  0x12c4a1b9817fa5c6905e615552c88f214db9879ef2fe3a19df1; 0xb4df554b33bbf92599d84422e1593100ae06208bf90f355c7a;
  0xf68d2912658875d373a732d12f61d157bd690c34fd617e4919; 0x42d5e92832b50df0e565b9cef4cbe519e9b545c4f5b099bffa;
  0x1dd75e3e5ebca639bda1576ab65dce1a889c227e0846ade339; 0x6c3cf1ac75559f6fc5e38002a7bc1990e2960840e8b2eba22;
  0x2e78fbeae4f1cee0fe8cd16a7d821accefb38568aacdd260; 0x9b8a163ce4c53ea808ed029782c538f396e86577bec8e4356;
  0x862d6c9a2458865f44de4980182a9a285ec56721784a51c31e; 0x39531101f4e27ca320e62c38efcb7e626fc1a80af2220a1db0;
  0x8011d96806e54de997de9a86b5d613e676e1f7f1d4e1be47c1; 0x7892da6c940202a5356daa440ccb2b99548a52a73d8b30eaa8;
  0x145f9c898342d9f99601f388ba214f57e23aa00c9501f318e84; 0x957df78acc7589d3182ea8dcc4ba3b8dcb2167111375461b2;
  0xa2394c1a3bbe9d21d5e781dfa348ec2a403a6d797400129c41; 0x37853cc87d36fba828e10df04ef5815eb212cce5e6fb015350;
  0x4ff462ee52dca1dd187d61bc52c46538165cc1306554a24e40; 0x18a11f2898851785f44983b7c6f301adc6d42c7aa78227c32;
  0x9bf982f18fd71e15d3e3feb4b31b77c2a93754fbfe88c9f57; 0x93571916b4caebc330ff9e9f5f6499935c7b6a74916f343ddc;
  0xcf379540fe34bf32d6ed9625903017d265571710dbc35d78a; 0xf8289b103464d1641734f61c44c12838d3c372d1716452aaac;
  0x9983f355ec0ed59b73f339aa948edd3a3dfb4fcb4586b1bb07; 0xe104cefa5320254023bb8236b78f753295fc355949640a8bfb;
  0xea4f2d0fa6a70b76f86bfc469ac6e45c3297bfeef54cdb15c5; 0x3a7936acb6ed7f3e59ab41442f6955aaca797d9a08c6af9b63;
  0x73b2dd9229cf3c3638672c82dbd7fe217c4098e712f8025033; 0x143d37f1647c0499cd2d5d0bb801b62befd39dd87ae767eb0c6;
  0xa4e5a244d5184add1524fe012855a2a8482a2f771e7f4a4e13; 0x11b6a5dc1f0b42cf5ae31c9797f793045b87e39a2fa8712beb;
  0x97c31069075bf65abcbf54be2e0bf8f165ffa44a58392ed36a; 0x8eab8e7de28da06aed604395e14e2724e4978b965f88fbb20;
  0x13e65119010e2698650f0e8821a03e32c64d1d88bcc0422cf88; 0x19b473c2a09da06c0854056f6f88d7bce7595540ac5320e1;
  0xc9100be631471d960870ad769ae9b6c2073060ed7d541b796; 0x87381a10cbd7a4dc6257d4a0cee824f6cc78de276f5950a788;
  0xd0d246bbd7aaea320b6057f622fd3262800bf370609934ba77; 0xaafe877107c407a0071fa00222287873206a16429b152657;
  0x3502e9499cb4fe2ff0b5f9eed809012a0ab07c19adbe6d6870; 0x79967cd56d0de233c73bb0fb769c1462b0fe84fbf4848a5571;
  0x4bdec1866df07666faed2d0be7022d482f5775c7d529c09754; 0x461507ab0a466c5e2505cd8f6abc747a2f34743786dfb06bbc;
  0x1f3b1aafd7b3b3b19bcaf56e990665e15fc4baae39de607eff; 0x781898d6cea16577b65dc0a1aa89feb6a9158653593617d99;
  0x7e0668d8c556ff562663453fa1870e836c260defb6bbaf42; 0x59ad6be18e6d0cc479ab93365016664ae95a5150331268;
  0xafa16f69863e06411a8a58b3394f525c6d0851e54aa372ee; 0xd8d461d3011283f62ad77dd49b2cfd1d456be0bf97968bb56;
  0x529dd65aea9c8b8ee1d34612abad5ec635a95fd857708c2c1; 0x8d8ee619c8d21e43d353a0e8d546af891ebf8c9a3cb6e392a;
  0x11c8dbee63c3b3315515d8acbd911223e14f668a29a9905965; 0x74e0c28d8a292774d1fd8a3385e30129f4479c4ad9d3c201d7;
  0x79b660f526556c3d4f7970fa445809d8f25edef33c313b0150; 0x543131a36c9752bc2308e349f8c82cc6fa75d126372908a2d6;
  0x2085f91c930bbc9c4da5f90ffba04831a3c27b318dd55c3291; 0x3c316da6d5a9dc3afd7dfbbc3b22e8ab296bbab2353cce5ff4;
  0x7c7edadb7d02110bf5f4b9e33ea0dc713ff5559d789087cd6; 0xa4cd91afcbd3b3ab6b120d089bdecaac5cbc50e1be360541e6;
  0x2e53dd9495457505a3400ef86f2ac47d11cfd91dac09cac0; 0xfbb40b1a1c8c47422a4b82225dfb6c82951876413d9d43e35;
  0x7c2d9c5d49e8e83d39ff39f51d6237be5e0949fbc42307876c; 0x1197bf6a507d2666aae4e40beaaf7df5d4d7a40dace6150498;
  0xd7c04b901b845f128a3f86c8bea4ef084abe5853cb8f85a0ab; 0xebb8190b2b4a81b75032817fa6c8400d409f6f06e703891407;
  0xabd048a627da2fdd1d01f64eb396559bf494b0a80618b665; 0x1c8bacd52aa5552a8085078145208a3034ab2898d24ea94352;
  0x13eb4ceb53c78773dda27f73f87ace5c79d67b7cd7e8535f365; 0x94acd944ec98f3ddb388f4722b8901c81749cb970c646241;
  0xcd87593b73b886bcaa04befd6c7e45ad2baebe2c439b3b4275; 0x676d134a87e1524e472688fbf4a68fd66b8e9aa0ff69999a73;
  0xf34ecf6e6650ce534d9f7d4993486c880bb8955cbc94bf1fd; 0x3cb2981a32566379ebd580a888f7173387513526a7ef1c13e0],
  0x7d303affd5356dd5590b98597f81f92e269884ff82f35d03a1, 0x11e92049c1fba0f807b509ae4de7ef9ab07e90c11f81dcf2ad)]
  (Z.mul_comm 0xa8c55f664384d6fe203ca16a45d7238cad2d61237ce2fa5933)).
  - cbn [map fac_q]. constructor; [exact prime_179423920771_29|]. constructor; [exact prime_559424637416_17|]. constructor.
  - vm_compute. reflexivity.
Qed.

Lemma prime_305546578814_85 : prime 0x192a43d8f8a55b860e20c52b200024fbdd5c39850b80be9fa08e6156d781713c6b252c7.
Proof.
apply (pock (Z.mul 0x192a43d8f8a55b860e20c52b200024fbdd5c39850b80be9fa08e6156d781713c6b252c7)
  0x192a43d8f8a55b860e20c52b200024fbdd5c39850b80be9fa08e6156d781713c6b252c7 2 [0; 0; 0; 0; 0; 0; 0;
  0x28b0f79f72a1e57aa8f23a2e3f80000; 0xfeb657eeae66e722caca7e8b99baf07dce;
  0x5ed9d6b2171866f312b5fe99c547b52b859d8ffee13ab990d5c186f829387c9e344a3;
  0x438f8444abc66697b0b38e7867e5dd59b18896b873fc2c46d3d9697a8ff62914885e3;
  0x153fda629925613bb202632d18d05f5977d70c5500958c5b530801cd7ac5b6045b378b;
  0x7fd272ea63775692ab024935c670074076a9be53d9243f982b73eda3306a2da99e48d;
  0x269dd7ee99ea5f7454d619b48f33b5c0974e9d731a57ebaa2334221aa048cb06c5e815b;
  0xeb4fca3216c822d2e5b900ec3aca22c4cd2f9107db4221705b90ff1a4e73151e1490e6;
  0x61afe7889f455927efb7ddea9966fcf29898750a709a46c1221f9373436147d71db324;
  0x10103086ca4088af5552416712db467cfbc12772adb4dd957d7e7aff9d6150975bba89b;
  0x3217e83bf850a02bb35b89134d009546c9340abf285e8ddd74da97bb5700914fae929;
  0x2619b54d048b1903e450a4e3dbb2477972a93398399a15079440d55c68ac1bafb5174;
  0x29514fccb88482b4a81ec44a5501a5bc499e6ac657da382bd282b9d92b5f5e08953910a;
  0x10a79805ce7d5e966856ff4d60e2e59c936196ab5f723596ee7c330433d1e74b5ceb758;
  0x3381cb8e451175d0a3fffd3fc1ccb25114bc0fab6b398e248cc8f200b8917618c09cac;
  0x1407174a1c93d4713818a7d5a4b5b10d4499cc797139970c77c89152b8e6eca8e6a363c;
  0xf314636e0813cbe78e69d616cd9115af387c03a380b95ce2f0d0c2c1a8839bfb55375;
  0x50dc0a3bdffb8611bc33d3ba618f11f26edc9a5625e52747e871ce57d31df2e0c66c11;
  0x3e6cef0f15e40f0927902461399c4f486917070f1490875d6f558c568795279f3cfaef;
  0x18c493fffa21d105665ea87ec49d77f8b42e0b80dc450e27a4f2fa96fdd2a5c98807e5;
  0x6a72428bb59577330c53b57252aacca663b74f76208de690e7095c22c44adafdc75b94;
  0x73fbef0c85a5c7159e665bc78f070bf1372bf8c2fd2dffd14cf9870735e0e0967cfa3c;
  0x2a3bc8dbefa7679347a724b34614ce15dc386b7a2192215c779d12dcf1d9e94743ff5b;
  0x1d04fd33558dffbb33d295a32381b1a213e8b86c2d8079a1fee99e6c2ce8022943d1329;
  0xdda1ea1c2ae36332e9920ff33ced817cf42b1a4dce828e21cc2a17a3405af0b82089fa;
  0x1ce0787ce6a6ae58caed11c4cc43244b8a7fba34f231d5643bd79b2bf389e3a9db5076d;
  0x36b114e541aac1c5635e37e774d0e6db236da7e45d64eafa759270e668839159f5d4e8;
  0x7c67e549ce9065cd7b72c017fd55fca47f4e67a865586d40dd57b5e068cee94a0526b3;
  0x6db57236650546b6f51022270ec41d2b6a9c368a24d772cb54b05aca0bd673337c745a;
  0x1bb0441db33571425cd9bc51e709a85e4df4da533f253b770d3a98ce6e8d37727860f80;
  0xec48a2117c520037844576e34a139c4811d5d5abd0524ee63578f20030bf2bd45bee55;
  0xea49879654f212f7e771cefe7017f2f78be2d11928607fc0242b396143a120d4e46665;
  0xf135a5d67dd15c4afb41a3968c6a7ed29b30aacdc16665543f9c4b91c6c29bbfa0941;
  0x5323e03d3db30e091085fd933a17802a82cbc42c888ea0db9a2a04e1bc97ecc363c74b;
  0x2fa69803275b66e109218c697d9d294bf4e8d15de8b96678c17953c689a28f72a6c957d;
  0x31d7d4207898e80acff46ee34679406a50fce7bc046f30014ffe3e6ab6f8cd624fa;
  0x16994576c57a7e57aec7edd3ccd63f46187d3c589737c310a6c107f130f46d709921643;
  0x948c626587d7a0d7a14fce598add09bf78effd648d96b5b420a484540ade4abd556241;
  0x9ee596c63bfd783127ea10f1c134a4f0372c513e69468459b0e06fcb8107531902ab1;
  0xf665373e3e6e13b825e661503bdb26301f632c44eb1eaff64d1530e79212a127e6006b;
  0x2e3b20b5afc87ec6b36d226611c7208c984f6a0073f39e013ec643e6e76ae2b8887aa41;
  0x1d3d11b69faa2baef96e357f022e4d87be6cc2f9a3eeb284bff577123bc757ced5b0213;
  0x15f02c2b5302271e3fa67394dd10f25a292569e517ed552c03d8bbd000a0b1b4dd55e01;
  0x1ba535a8fad27a4cdbef9e17ceb2dbb7e1928b6189759a09f1ce26c925ffa4010570bf2;
  0xcb2dc32b73306fab7d7ee997f301f23c932989b21c1bb1fd907b9c3da4a4880ce6c24;
  0x10ea1e53bd87f8f71f3d1bd2693fffd8587bb3b0d5e886426886a4d36401e5defaad71f;
  0x75d0db507da17af4a180e43418c78462d105468a65f683b4d8cc104b62452a6754f21e;
  0x1694d079d955eae3dc24f0097a1f1b087b1c56cd37be9e2f4292e20bc54fa292a64bcc4;
  0xb281c405e3ebcf934307a0590e1c54029af3be0e0c777d8909745f2e7ea36d0c0ea75c;
  0xc219979f88add14bd333f92a22d8b2c6491fd9b2e8a445d7baa6388e75518360bcf;
  0x32b4344415033562f1fe0b8e916745d1f7bab772a0365328bfc9916c1cce550a7d67a;
  0x5821a02c7d1aba39a0cb799af29a71e6e0cdd292aa8934b317a2fb08f2e9b3104b02d;
  0x9051145fb4d81683998ac3d27a87d3034822b1f224efd413f6689cc61b267b2f92d34d;
  0xe75703e3d4cb3ce754d9ae4afd361f4932190fa8fe878e04dea9f478533850ca3d3760;
  0x13c145ba8651d5fb19e855821752fb0eca5ff1092579c5c2ed42bfbcb8f916bfc2;
  0x10682b1a359cb0383fcb14de434008d95cbd27b09709195eeac016e3d2ee6a66de994da;
  0x577986cfdb93dac7d3cbe48b5e85bf0991e45172f4343cfdc0d3ae708403e06d8dd306;
  0x1adad4ee158be875ee5ea384d38e533a648ff5f184261768409f67f7e0db6a9be7daaea;
  0x91d9addd694123f1bb5ac03695fb3669a2485b94fde01cef9fe766ab6d4d0ea782b578;
  0x131f4bc92b862ff80fc731f811cbe70556e27b6827223f0ce20155a34f9762a9e19347a;
  0xc1a92b66786ad8f8ca0036bbc82e74b3a0a0ca1be025f3d368c1cb8c5ded947ada53d;
  0x41b927ac4a275d385707530eeccf6429f0126452f72853eaf3d4d2576fd2ffc729a5ba;
  0xc87e37d2fe48c327124071ab22a6c49ebaccf0f66a05bd741b4771768c3ec7343d81d8;
  0x1e06f001874b04c892f7b6eaa1b43b4796395ed3c920fdee9565b52908f2b131ad9f897;
  0xe52b2d5e856e72d0c33101b0fb7acb19185579bc9b408d9216b5a6a9314ff865bea0d9;
  0x55a8b6f11b663d19e96a6e625a9ad2a7b64f9764d26e4b636cf851a32f2bd01e50a5b;
  0x48ec819e0bda4c2eb6e6c6e579789e83896cd10bc1cdc3bdf2aa0e5d80360840bf7c14;
  0x75938f4bae87ba33b909388deb18f33a7d25d99f53e0c4bcf852e7284fd41a354c38;
  0x8bf6dc11e8358b2a29d095bc33263884ac64d5394cfe65ee8d5f1e8d169931bfc1308;
  0x40ad6c470741a33f55589f6b317da114248e28136d46c523ca453edaa60eb6e10f55f9;
  0x152c63b28e4f4437a1f3668c639986b64366ae0dfdf63f8dad6cfdf6eda7df1e36893ad;
  0x699116dd493a5905789e27ecdbf5e6664ffe8e9d6d87a140aa5f10eb0892559690601;
  0xa3e0ae194d997452093bd7742641f80f48389ca0e4f2c37fc32c88b800321cc8f450f9;
  0xc6b35e3bb2e3db9a6cddb7939c76146013ce3c00abae01d14c9fd40870c4fb6a98903;
  0x125e87a5e521d965942fa3344f615b0ae550cf49e467d38dc63630463c6701b687acf0f;
  0x1cfc8ff5005efee0a6e934d018e25b99c2bc056a1362b6b806803c950a96a31fe116d3;
  0x21063ec819cbfd8bf6442fbefbc99fa4afc28490c1d64f896f99d6b42147ebfc46f90ae;
  0x15e371fc2c7483a4ffe84bffeea2cc87ab83eedbc2cd7525087c76c8bba6b7c6d445c;
  0x2bb140de77d49c2023a0de789b50a2638b9ceaab31f25e667c0ec0c9f7d5fd03f90925;
  0x231bc43360e0cffcfb485cf1f92a80529a82d8e613cfeb841fd7cfe361c7708b3d74ee6;
  0x5e9545603d81b725cb78d8c10a4768198452ee2e7afba435a4c03bddf4dcce579dd5b;
  0x2ab76a188ae51737904a00eb4afd34c8021610d6f86affe0e9871761ae052f8d85f47;
  0x41b6ce9b3ff37b5b532a4d3b8f242f5ba722b120f13affe1db2ba4007e51a8ed724123;
  0x1df977b4679c954366f5b19e95cfa8b7d702ec06af15f5f4074338ce3376c2a1ea4ce9b;
  0x255cfe519fbc212ab7f4c0d0f41e838118571ad1c6266c41f332df8f0c0f3a62c37b5f1;
  0xc16b0d051393d47e1a07820cc6e82df0ee9f533f1a5d20fbc4037901082a68ecf89a64;
  0x7d61d48a096ad7d8c2abf82622dc3c898c91846d2df802520d5442dfb8f172032a89e;
  0xc9f060d032344cc6d38446cd032c94acebeabe73c153a46f51de910f9b1a8a24d24026;
  0x1ced27e63b4575d87410dc417f9e93f0acdd49819eaf3482fb7141d964db70cacb389e;
  0xbc9c8137259d6ddb434b9c5f6d770695822a4d7a857ee2b9c99acdcf9ef21e5862d875;
  0x173f031c2700f1e9fca31acb54238238b16112abf6b46075da35a4ec64c51bf3ee5c91b;
  0x4d2de29b7d881c9699c441285118998974dce78e29f383ba57d15aef4013b9acd1877e;
  0x10cf02d30f102c08a0ecfd83a5c70cc424e310c375aa67edc66d4f434c41e9b087d8c3c;
  0x170c7c6731d3e6fd3d5ad405351f5cb7ef64d969cb24295fce3da00ab0288ebcfa31816;
  0x18ddfcf73ae70f93927b3df1e4902d056511fefb9a0b8aa261041dcdb22a0f6c1787bc4;
  0x66a2afc77b60c0eefb0296ad79c2a59bff45b320893f647943819729467009617ac398;
  0x4b9e54978f62ce6e59ed219bf722db78f21d5656422c00c713e46c96a447ff4900758;
  0x1476ab6c7102415e94d828804709073d40f61d0b714755f77f2c82e0c569d66ee49fc55;
  0x9fdd237bdc78d9fcc1aee6244d3541a7e9e4449ac74d67b062c1097f71bdeb0d9b89a5;
  0x7ce421a75b7e09dde8f1ded9ae9350d5ea88247f79e7e479f4975381db73b5c9c253c6;
  0xdd5834f3ce3339a131b6befdf62fddc651b27f1f6f4a62177d834cf85c6a9cc70930f9;
  0x103d0b740f9e9b2505a6a962b4cc49b6ae27a8cd9d29db41a449cf727423b36650f;
  0x13922864635565aa01f873d69f4e1ab4fbd4dacf46b816d29cb32a51ab808a256878035;
  0xc7e1b9dcd606a39fd1aa72b154703865c1980852928d79c508a8d592a75589d3549173;
  0x44417ca4892a8681052c252cfe35c4b2f50ae54ebe10f0a2f4c5839099f9575dcd1319;
  0x27b2b601d7aed467263af61bf7e05d0422bcfe15e5211a2252794f5529361d3eac38d4;
  0x8ec25e4223700deb78bd658ff867ed3c0eb5edd5c0985f9faafdc6212237b90bac766;
  0x6b5170d4add5a717740f52933c17fde4f9544acdb06acba8e5dfc080f0f5ca30b68ae1;
  0xd70ff55c5b884e21d8f1b4d7a4fa1b55abc0cb811b77510a8c918c77601e9e00fe8d4;
  0x144d9d6f90615cbc96b02da8f98acb953856605e85e13f85c34d1d04390e052f3546e7f;
  0x15a59818f86c6056a0e5bc494b3a2729699661503c6caa2b0dfe69446d1f4b7c907d1c;
  0x2245153a9fd330fc2c0b7ee3daa2c45576b2c717c8e905bec845fec46fdf1e557c2b32f;
  0x5be904094450112ddc27f4cc2ebdd8e73315aad7c954143b5e0a824b91a78f496b7ac;
  0x1b2baec1e16cf1469e2c670c886aff357769e93f557acff77e1506d1607535826586237;
  0xbb7391a5fbd4c2d412d1a8e189fc4cc199ad327f0ab65001df77fb8af0351e853043b2;
  0xa85fc78e39ffa9892aaf0e6957056b22b43773da75d751a4a5937bbcfa415f952c4739;
  0x42f11f4c532f18a5884b41bf3a35e1086764ef29d7baa8ecbc482fc40049ce85d916;
  0xaacf92c9eadcda92c039efea19ced3fe304cd702ddd49e70425fd66d3ffaa040d98f39;
  0x6c78eedb989e152a6d5121f2f974118b1a9d0c07291ec8a8a01a323f9da9ceff87532;
  0x156fd466a28f647f1938e14c202b3f0c829918daa39b6feb66907fb637313a636f566bf;
  0x1efa28daf96054dea2b334d0fd5fca450bef463a72cb72d81962601bfac6cd182ba401d;
  0xaf34f48a0d97aecbe1838a0cdb663e5a1ce4e9b49d322c731c60ec268cda86975959f2;
  0x101d26f02e8f86310a7dd8f92fabc2c6be18d5e37f1c83465e3bb833b327f21b7cc92be;
  0xe2bfe3196ee2017ad42cc1280c3e7ab824c6782975167b5ae32463ebb0254b490c747;
  0xd2c2fd5ed2bb7496c4033cad3f12c518656c63b5e731fff0a5b14467a95f293ff8ee05;
  0x17c6ff7b1dc5252f4a3ab7a960ca3b3a98ee1a2ee4950c050644b8c78a99208671fc335;
  0x6f9ea0fda6673bd889c6790b4b67971af520bc57835134a2d95ab30e9170c2003172;
  0x4627470c299a24c5265374a7182f32a9da6871794d6a5321126b58ebd63820fd2b7ef5;
  0x1a5b50a0edbc106fd01f08fd512ac07d48e76f65947d963db2ad8b3959a7e6204214d06;
  0x15fc2d5e04534d774db53e08100399088c85d4142a2557974536d62aa73d71c04fad28;
  0x8e7929d66477a2d41e35c25db6383321149d71497deb0e337645d0b83166e4f6351eb;
  0x2834e17dec224e3d57c67180d014f2a046019c2617d4a89ca215c0af5f7834c060ce46;
  0x314e57d802c14240baf5acf3408bc379905273f60cea3e90f8cd8150384479df7f0ce1;
  0x13f5a083f90032ba1b11a051d34bb3cdf894090de4fe25962880c123f8f20b96c34b7e1;
  0x26b3573df230dc74fa58295e3f64cd45306ce4e3498a30d369bf83a37697eb2c5c29ec;
  0x1fba51065a94585953c3396fe06c5fc0bbb6f2c1772ce640ccf3e04964026b0056146cd;
  0x2d5b0b682d63aaee3a6518c79323b4b9640e13e85aed0ebf8bab4013b099c05369267d;
  0x177665a8d68b570eda24e1bfbb4f940988efae1506f6c4e4ba5bede86a53f40d1a6169;
  0x7873f0c69be48c01e10869c6b9cc3bdc645f957f64c9f3655d7f516bc6d8fad2eaf061;
  0x14c274b8635051838c01f0edb404933ce497ccdbcda80b930558f975d75dfe54a61e5e;
  0x2ed2e6c356bfa8f197d3a74095c5e84887bd311b3777eca25a4e26685d040784a45b7e7;
  0x3ed0fec2c7a60f4192dfbafc7c4c8f9b6ba6a6463397d63b39cf65ecaf9e4fc6d4290;
  0x3a66ab01a737adaca1c645b637befc4399f9db26517d0b2e61af411a247519e5c42ca;
  0x87c34abd371b52dc3b2d3bd1faaef18b3fb10364295ca7eb3aac8bccebc26248268101;
  0xa454a14aff54379bd5cd9b0b0795f2a7664497aa9dd26d56e3cbbb8150ca1b36ca4e79;
  0x84d0fffa6a9bea2d5c9d2115207236b8e1f73f298e61652ce8b609c4b56653aee1a3ed;
  0x9d187544b7c7e4ff3784ec1eaf7698a6a72a6ff089c9ad4ee6db20fd0d5468760495;
  0x5149b87c75b824043da271f1f23b83291fe7108312d0986b2b05db177e1d8eef6f9fb9;
  0x2967514e3355253215712fdfc05c66b76d228169bc1c74ceaa32a55f9d381bb8c67bc6;
  0x296b0f27130d522533c3d4bde16ccc93a84eb3ab9eed33d0771ecb19cc94084055207a;
  0x7533213b99e69c27f265231a6ef6d7591cbce932f6eed6e3e9a747c8cc8c3f80245a31;
  0xc05b0885c0e8fba569a6c942f3fedb7c0e9799fe69ed02edc497018eb2ebad0f104284;
  0xb847752bb3fc775c1017cd14df69fa3923176414074ef54dedf9a57c0cf8dfa9942c08;
  0x21600c4202fd05b1a07ef10bb6f9c9f956f67b8c9fd922027ecd2eb3f29a7d195e32fcc;
  0x466cf56c96411f726abfc3fa98b12d063c1d6691eaaed344ea9fc885ddc61ae47cf9;
  0x5acee495c2f974ba6aa97374571ebdaae1e81912c509e93c1879a3aa71cd33c5bc8ad4;
  0x786549cf787ffed68bd027d7abae5374fbde6e3a98df4bf05cff0dc330d915386b5c30;
  0x25bb2929f534f8443b7c2f7bd0b61b2e6c3141ce7c8deeba255e7a90b00ab7b6759f93f;
  0x3c1e655f5ea531b9512333ebffb852fd8f1714cd852b27b035354db4eda562a38afba4;
  0x7266eedad057387efd7b9a3fe16e6ab7e5d8fcda08ce33df396b66398f035ef66dd432;
  0x159aabfb988ceb5292ec4d7c66518624366f3cd7ac94737dde6f9029f89c7650726bf37;
  0x172821e0c307f3e73f539ce5fadd2da05195a308679f36849f8b83b7888adf1146b7438;
  0x406001835b034a825534c193fb41c3ed25721b40ca8817c7b10bf42cec1f6dc16f470a;
  0x77f064228b0ec3c1f7b30b98ea98d2fd517aa5137e7a76d46904da36f2b68f62581b;
  0x14cec5472c070a8200f2b71adfb672c4393f227374000232683e639d835e0d0de80947;
  0x2a29d9911456837d245a7a7db8b4d2a3a6456cc2fbcd463ce88240dccb2fa2fd00a46f5;
  0x59133661fcb6a0d986c01745f775788d5b879b491392adcc99560adcb33d4e5a27d816;
  0x29156e0e7a08349ca89572746acff05a70cd67d86486659a07473865a48a13ed86c4754;
  0x2c01282a542a4c64b1bbd8176d2fd7d4ed8e9f4584f964aa462e8b0535a816274492ea2;
  0x1de4cde33ce1febbd5686015307f77aa9fd5315bf1731dd75d16d5493c6a26ff1fde3a4;
  0x1fd8433941db05975c56e035dcb8fd84e8c55495025cab7ecefc9c8a592a847373b1f09;
  0x86d78a97c329455ca1726a14740b2027f1e4ff6ab7d66402d6742dcd40dda2fb19e332;
  0x149d287565da41ad1b43cb7e0142ea612c2a6886ba2bb27b13f6bae7daf61668ea5e87;
  0xf387aa6d6b12c9c0b0a2fcf66d2204edaff31230804a293834b8cdf77573ab62e0275;
  0x1115559d1e161424ae4fcbdf8146f1c6b4c9967575dc8edd0860d2141ecc5ec839cdce8;
  0xebbd165a522f6ba51527baade8552fa4c8d7656c844d7cfe1676c98a6e69aac1952de4;
  0x25d56d82c2bae0802a999644c85f8aee9550e898f52d3ec6f7970b72ba63c8e103606f9;
  0x44fffdf7db64dae64ade6ffa1508e277aeeffb284fa1f47fb67cc799dbe6de1d294129;
  0x1250439593c9f91fe4a4d50f813708de8b9ff3fe3c2f4a94dc5c1add9fd9460748f32b8;
  0x2effdb6487a2e3178c1add02f15cb7c98c4460b941cae4cac0ff06456c2d04506d1b5ad;
  0x1745d8d3a0afc855cf883a43a90f0ad50b35cf6cc6293895a30ecf674a248b6dfed84b7;
  0x116273983940f604fd9898e78933a446828a16b7f5f5553e63290294f5d04952ea2c3e6;
  0x929ddd0a6e8cfb3f636ec3f3238ae76081f656cf5b88d31c2431663007aef17f44977;
  0x1a53c58ad0c1de448afa53366763326805d340cb7e334efe5db36f242332819f5f86083;
  0xd4d17e27b5d489e698d58360e2601a7545586235e08f1d9a8a80b08ec4cb2c6be22;
  0x29731049acd3a46f105f65da591b7cd2c8e4a35c410e4d39e26073e672bd3eba1a0b0d;
  0x4608a24b497cf455331aa6d5f58056a6168cc14de35b35e98158839b2f6c1e2923ba42;
  0x1b6d632267d858d6a6ac8532826276c66d13afddfb4c3432e11d213c035fd90a4f180;
  0x6a650e2aff1336b545fe81fd1558f03a1845e95817ebdceabc3233571f50f5bc6d29de;
  0xbc0fc05ec5322ba1137d94fb079896ca0b91b8ad3ea687e9d9d55b44e867552f092a51;
  0x10837834fc3f88b5007cc729e2a30f9f486473dd6371cb7f65c6d9301d70fcbe460a6a9;
  0x10215e12db0cd795dd68984de15724937c8ef66f637396b98c7809c71623bb6d5062f;
  0xb2be94b23c4ac90a0a2585d57af68777adfe9d1f49afa30fc1a6e54b2c8b19b1cd7652;
  0xd3086cc56c5e89ccb011264e5a0e0a5e901f1fff0c81eed4df1744e21e50432e0e67d;
  0x112c3aa4a3db3e464a92d841d38489839954662e485e0de57db44fca96b1f31099d8e67;
  0x139f5146eb38f61c35f8554258fe7d9796f1cf4f7584a6dcbf26d006142724730c58039;
  0x346c4a3206aab529719b0e69f1a161e6f641c43359efdc441ab5822f70877537e7696;
  0x18d2a7c8b5db2f914e250bea3a896b83091fe77d047c1cc362070eef49f38e68933e16d;
  0x18905e542807d54b017b7f2d2a6e837dd0fd933ff2c8a26fcc5e6918629e045364f7101;
  0x20ba4e744cafb4553a51b6540adeca3e1e89aff189a4e84beecbb6ad42cf42970ee75f1;
  0x6d72acfb3f846ae14fcb1b1a402e2b10008be7b216ad62cbf9f8060a82f1204c774581;
  0x3755d444856eba268a2110a861a8398f601dc2472f1e1cf89331b57dadb3a1b60f084d;
  0x127046edaf1ccb21895107086c0199dbe26a9b09a7be7118b9c64e44de7eb8f8ee426b;
  0x7cd3ee1351f295a8c04e969b4d20e34f55cffbfe86c28fafc2c2176448060bdd7f3;
  0x2f338b790db0609ffcd94119735ef2c10b5467d29c817c2aab9cce9b8decb58c9c320c1;
  0x462f1160aa453e209363971686780495b090cfca090e4b32f289f1bef595d39abf92a2;
  0xb965617af050224dd77b49994264875b40e9d68cc4dd3842545dd9a5760a826b239a5;
  0x8b08e67f1b0d77581efe7e6e0dd69f95d6c06b61e80ce9a2c9737428470b5ea4d71c5f;
  0x26b32fd6f3b83c86a4cf4685fda56d224b8d489472301f982a2fe1f75fe063f940f5ca0;
  0x7f1eb6d0ef0dddae8a00b893d13eb7066b69456ec6ff85dea7baed498d2065c37d5a2f;
  0x26a66679e355bb676295f780460f21629c3b0a663f720f2a2b031cb1edd1c4ec01e6566;
  0x3a84fe053648fa860f8c0df1d6ad9b8ffe4701e3dccb537ef49b13f37d90f5f68808a8;
  0xa04311bc6ef5346b403a73f3f969d4e23dbad0bddefb06a02da87484ece835ce34ff8b;
  0x3d37f0631ca7c019e5508488b51fb5cdbe3872c6b3a29a8ace3e60ec620ed4647fc293;
  0xe18a6d5be56ef6e5866e9d488a85c8bcd9e877fd4e256624269cd594fc100732d81f29;
  0x1380f5ad382e9ecd73b573c26f692b1ceaf6e8ad4f817f468537ef6095b4fefb4c626b1;
  0x27dd5e0e272cddd53ac9f695cd0be079b35ffa3c578dd9361b872bbc602e37d78d8d81;
  0x152ecc6803fed9bbef520910ed4ff5e16a8db5f2c20fd8d3054e66cb04dea6ea5547d0;
  0xf80b38c17b89a9ef7fda43fabfcc0d299e17291f74e065991a4162a521ed05eeeb6a64;
  0x16c88fa7da3b76fa814b036b5f9a46692719b978d45e2e86bf91bf263372fa7bc3b9d1;
  0x8abbe7ff197cfaa7b9bd17598a844db5ccbf63c8e65602516afeed42ae225b0c3c411;
  0x3c7f74236f0e857b54907507393c2ede32cd5267ef656d6022652f39b298422abc0a32;
  0x1a8ce6cf5aa298fdbfe4391ab3731c11e0aeb88d891d431b271a30f094aad87e022263;
  0xae367862caf360894aeb2ff1f8a46552201ab1800510b0d1bfb569ddcffd72ee688d5b;
  0x7a83997fd101657e5a5c04e2d06872e3cd023c3c5e64edf1b511edbc4e3863c3e17ee4;
  0xcfba1c27a08ba0e623c3a303ca03f84b9110b3bed2825224d9a7fdd14e4ddd85e7f5f0;
  0x56c013f1e1baf1fdc82fe9ff62a6da7501c1a90758c51d624e5d825c92cab9864954a7;
  0x253a0e7a1829aa8467e5108d23dee6356c3aefc749962a6310da31ac9393282aae214;
  0x18d10b2b45e719096a612b61880a5dc8b493442c78596edba9e1bfb9f5d06807542322;
  0xad56556bfd8dc61aa12153dc5b40b8088d30913ed8d43b9e9a6a9f9486f29a71560c1;
  0x54f1798b07358131d74e97fa31cc922137ea02546e14c7934b255ec0b645d09c91ee48;
  0x1e05e320fe420891c8016cfc8dfe6e5677e7ff3ea70e7258a87de8b16c69006bf6310;
  0x6158ddb1952f0760f0975fb0974f3800a8d80b3ed3a63ad95e8fe2f6159a006adc80f9;
  0x75ae0ec9a670301c7bd65bf855fb706a9661efb5244cf26a913d8d3779d38bc17397d;
  0x7026ad7074eb811b0e975eadd8d0b0e02d843ec4e019782176e6dd58e36d836bc5e2;
  0x1114d8a4aded87d77682050d88b88b1b69dabdb6dc2acf504ccfea3422b37f33f5ce577;
  0x2919352abc4f048204a5a7875b269a3d6e763aa6609ac31bc8b4e405991c68d7a00ed0a;
  0x96bb3a8df96b280df3a85fcd7a759b0928681a6099310a92a92b66161ec88c13acc055;
  0x9c2e505f785cc04632bb089bbf475f5e622d012737fd8338366fa7e1c5ce511b4a97dc;
  0x4d4aaa2170e2711f2c4eaad01ef9b7fcc195863166bd49a2020a312899b736bbaa4916;
  0x123383bf7d8b31095ca2199cfcd0c5533d19cabe74de0fdbe547e8a214ee0760e1b2ac1;
  0x1e95ee79a385407adfafaab1d584bc858e6135e89609761279f8c6790ed9bfe945d9448;
  0x11b46b9012d3baf6ce1c4b797c8bc670445009eae2b6d95ec9787ec8dd5cf2a0a132d49;
  0x11957173e4caa7c1f387f0484344e67fcd23f34e3f24a65f1d878932b33175d31a5a8;
  0x54a44f8702163604428881f5112b8216ea80b446d4d918ef833fb85ae4af1920366c6d;
  0xea9a785138f01b6720966a37bdb625b653de7378445d31f549f4b7812e1d438b24e616;
  0x1b602db8104029dd465d0481e066ce1af4072cd16d9224332307e7472f6b00dce1a07a6;
  0x4aeef16367200cfb97daf185933dc4e2a42769b2e692d4c9e0242954c51afbe60a8d4a;
  0x21fb3066f2551b3be7e4560149b21be048e5ba4944371ec147da34c1b0697bcb401eac;
  0x138d87ddda3e8dcab8fb91904cfb47275d65f16b0cf42d8ea9bfebb02a96af753f60fc;
  0xcf2bf54b27d6cd0f08c2cf44fa21c793ed7c65782cc8e179a2123f2ea5f500bcbb0681;
  0x271e6bdf9b1bc31324151806674aecee4b4ce3e29d89ac6f8f39c25645412adbc207d17;
  0x68f8f64f6f27b76cec8d419edc3132532045a22568e898af832cedbeaf8bd4fa1b5d1c;
  0x4748601c97423e4333ac6d4c8c14673e25424d98780da9ccdca40443b2d1b4fab9ac4b;
  0x1cb332d38f250a944bb1edfc4c8e78abce54b88478efab16a31ceb78672c8bba50e42;
  0xbc73b1bafc17b559f3bda83c677769bdf427f85246607e2950e1d3ddb3fb3d67dc969;
  0x4bf7e9c1dafb2f30ac2e11501d98a4b52184e88a94f5947a4a33277ff1aed7949e1140;
  0x68a2f539e5286b369d7082651d2c68e2634614eab4673a5c978d3da59c7f76ea4a5287;
  0x2db69131c17f1baeabd417f710c78f1c1763c6bc792eaf2822287298917b98d25ba9a6f;
  0x6423266a590b85db049942f8a968c9ecd9906aba3a5aac30a1f5e52e517cea3633fcbe;
  0x4e61247a5d8e74724eadd3591e14b37e5eca8f1d4d216634aed5e089267f27adecf5;
  0x9599b641b343d39ae9c93f18bb55d3892e92245809d88d6c93e35287ec9d1e324cd020;
  0xc03c5530ecc6d158fb968f891e3b6fa808b17f0593b6d33655ba300cf08721e1353cc9;
  0x276811449316470e48b6e707fd09b8a4c7ed793dbfd11a60b0b85fbb074c6c9bdad534c;
  0x54bdfc8fe50e87be9c71dc2c7344d08994edb1daf4333a6307f3ef833b9920737a983;
  0x30d9587653f15fbf0f7b297320d06c16b5545ad88eca01bef4aff0e2331b5edf8bec9f8;
  0x2baf0537dd51a2cf9bb6c6330da0d5aed17cf1e92ca670d84c8967fe87ab3bc9d36a7d6;
  0x154acd61638c1538ebef26977fa76f0130a0f818a38469ce3901260b1cd6b59366217a;
  0x13d53fa3ee9dd9e1fb5c03dd76853f78328db46bc92bf958e348fec4c56785f5a5fa777;
  0x175ecd331d1826aa20c2e9c8020cdc4660dc3b16cbb1c4bab79e93e0cccb5204f5868bd;
  0xe4f3734589587dfb70bef5ea08cc7ce7d2803bab292af14ad49854c059cb5df1533c4f;
  0x1c7cfb21ae10734b8a07187a6d216fc3ca419384e7fd6ff7d05569e71c62b2f96336977; 0]
  [(0xa8c55f664384d6fe203ca16a45d7238cad2d61237ce2fa5933, 0x262bf078f06829a079e22%positive, [0; 0; 0; 0; 0; 0; 0;
  0x14587bc; 0x184dd682e1de90cc8e45da29e8e3ad64e64b7ac32783b2c9d43f0c365380588b62735ca;
  0x14da5f3fa4e5b3f18d633341c2f47b20b958120b02d9e162b9b11692e052c10dbc34a52;
  0xd2360a3c2fe78b0ceac230f93ffc85cf5c03c04d77e5571bcdee6a09c4fc9417f7158;
  0x13ca431bbe8347d762322d012c3a085ccf5142ac95e477593b857066054ae85a21875f1;
  0x236fffeec23e104e7a2d9bc0c0076cb3ebcc28805e2b2b54b11ae377c1f3728d064c6d4;
  0x1bebec7867a1fbe418b429ad1348378f9eb028cd890e9c3e1ae73a8f80c80d5c102d7eb;
  0x5035c284b91db2742ef5bad4794fe0c02d01a3490f540564bda3663fddf38f904f1115;
  0x12580a80fde97008c3899e859a72c0dbfd1ca7a2e02506855cdadefb338e9ce7d972912;
  0x1e6c87a0a873627801a3e1af11da24ebc1831cd9458f45c1e351c5bb41ba20fb3c2741;
  0x692bf95d4c6a76aa56c60c33c0a42529248c4fb79539490444fbb2afe30692fe61dd85;
  0x17ca413d7ddf8ad02c08e2e34138360556fed891b13f531bd70f2cb6673c13a4fc9a043;
  0x2dd8af84fce5c5f2ae10af61fb9279af3fa10dc1dbd3dd6124806d046d5f612183b1d1;
  0x7702c1e1c808564e859977de938530cb60f59fdcd7342616a092a1af0c1387a0bf957a;
  0xa9f6dd8a26dc9fda821f244aea121595211ef29fee3300e9adffc45af0bcf935936496;
  0x2dd19c5438c5e8866066f8dcbf757b9259cb7ad73881e08e7e84bb6a4a82a6e0f2be189;
  0x1b397470be5d32a8a4a009223eb4897d0c2836af9504b1b9780db8dbbfda87e99db20ad;
  0x2b8ea896c121cee3d98dd13bf63702257b5e2adc7c0d105bbb6ae04585415bc478cb7d2;
  0x131fea87e54b06040a9d2c9734c16844a766ccf25e64d68fad24f282bf8c224c29eae32;
  0xa3dd87acfdc81fd845cf6db0de415ba38b88c3eb1168bf09a4cdd74dcec1e9c95dc;
  0x101eee56a11b244cbe1874220d8af8b64001244478580366a231eb7477c923802693986;
  0x81d43fd66a2fbd8de682cc91f85a54fe0b33588aa7dd02c9748198f0da75000244e251;
  0x24fe193f92b1fa890af0538b61dc60e2032b052a4d344d6e5a653b73b905416dbc5121d;
  0x29acabdc5a78989c4d6cbc2a45b7905b24d9c0d94d0796610ac322cbc9fbb7645517a10;
  0x1b6ac981ad584d7a8493cfb9d045c7d525b0435297ce9ad2ffd67da5dca90d7487ac1cc;
  0x62bf7a4ed8479714345a16fdb9e5f1672ca18a1be8bfe8bd05b0ce3ce87b9317960065;
  0x1883374bd37945b96b385ee0422ba225e5eff868d2125010c05f15d7f1f70159fa955;
  0x1923689155c91696feec5b3119f6d58dc97b71875234ed9c6aa0147e8f8c70c72865ec;
  0x2d1b9cf2a59f15f0e4cc65807192a82545ee600c4569c34be433e73f6c0841cd3b2843;
  0x168e667b06d9cb7347702626d96a79332bba394c410d1691e86a2621b105647904d0599;
  0x96656c827bcc6071d3b3ad72f999650bd7bdadbfba56273a12422c7c09a07c77b617ca;
  0x1b663ad1b33123f2ca6a706fe10e4b82bab7dbcab0579afd5f7ece3aa99dc8807ec970;
  0x26a9137aecbfb55dec35a939322921c05fdf088d07203cb7c1e706c837b65312ae7d471;
  0xe2553f1eee784a72b4323d81f6033a3f3eb8f8df850068047a52f28554f18bdf0ead87;
  0x30796283762b1ef1f4e461b43d1cafc048ec7501f184cf008dbd075b94ad5e7538caea5;
  0x160401384f2c2729aadc010c2ae407dcb8961fca6b02f2e41972403fe8c21ee713f6e99;
  0x8cd2874958768da39947b2f3d3dc38b2068c3f0d458be8ca54adc42d5c198207b9a4c3;
  0x17eb7e37d37a31079ced5739490c2d93ad2188dc970dd511d6f171c2890192f446d9786;
  0x37575118e5deaff61a35d8d260ec553ac7d30aea74662d8d99dcfbff80d6affd91a811;
  0x258938cc1d689f48806d134d8919daaadaef79ce5886635fbb154c7c0c01eb33364e0d;
  0x29b89e0d3cd554c5eb96a5527edad8c405aa90a514237941ad019e8aee3801cc8e3255b;
  0x585c9d2393ee949b233c4f9f49e072bf65421c564b605512eaaf8dc5c12591c8539a90;
  0x2b50998986e5f518d7320432edc5a155f15617ab32a9f3b0ba5cf53e6523eee9146258;
  0x281e657a55996498d159b66d970f702c3ee424a956d78010f97939362d86844566fcf8;
  0x8660069c0f6a0084dbc9d8b8476916cb431808dfc36dd97b307e3c93afb6e863411c;
  0x1de8dbcbbcfb37d337a9c5ff9236bf60eab95aead2bf39c4e26b60411ea2990a5dfa2bf;
  0x1d3000914bdf747693823b605f3ac7011efa52ac2fc9ba6fd81828df67cbc83c1ba59;
  0x24b23f0e4da0868603cab374ead66c69064ec3e3efbec64e9c2f8a125fba821b64b72e;
  0xa0b12173f14341fc4fb2fe78d174a7780ba83bae726f7b146097fcf6638496726cbc98;
  0x3c13dff2fe9076bfffd7423ce0eeeb5b6be68f9f91e1672c1c1778456d21f8ce2232;
  0xaedffa3d7bca17eab6e5ff35197c9b9a1ff783383add187e3a22b4cb9cf2e28f35a84d;
  0x14bbd46087315a8046e2975fb7c014f3d7ff4e37b3405e8e46a028ff8220d7ae96e44e2;
  0x141407676272036d17fb7dfeda592d9ddb2bdba0ff4cd4918cccf93b1423d4df4a88d8;
  0x17667ac185528b1c2f5d6510db26ed880a3860b16133313dc9b98687afeadf8b019a6ca;
  0x283a41489c7c67acd36a39a12979faa86ddb385a05ca30b6b73e06149442a5008108d0;
  0x1ad1e730d7dd947b3c1558528042bad57ccd2f53bcdbda83254b9c44025bc33fcdc30;
  0xbaf6cfe10797f6ae6a598e7c8e6b84d7a939a3e654a55287bbdd0c7291b5d99d001646;
  0x236d00a59a6ccb50ced66d6816404df2bc68ad790f28676125601417d16246f8a1f96ac;
  0x1a7123f039ae724a4f49f12a330b6b00045c1c02481cc540f419fa1227032aa8895f1fa;
  0xb0b5f2aed3615365e3d55f562888de7a52fd9e2fa479a02056cb40af74354d59b566ce;
  0x39dcbe6f21de236354a0da26ea2286daf5ebca08d0296334ddad6aaaa88cb6b7a20e27;
  0x21786115968a99b9acb7ecc92a1dc9a81725adc9bfe065b5ba70deb2559cec88a7c44;
  0xc1a5e64654fd4231c84d0f8d7c66ada1bdec1c4cf020b77bd3900e325d4be1d34167bb;
  0x2220f1f67c4c0157d9be9af4bb16885edb2954a477a578b81c8c6a2ceb7d3c53225b;
  0x2dd7b0d6c3da389fe100a1799975a62ce2f023184cfb051de891060289b1c464133bcff;
  0x6c8e601e2e09a6393d177c32f05a9cb65815f3976583f73158b87dd38e167bdf8f1f93;
  0x7adb687efdd1e5e9abeb0d840614a12593f943c0d4afcdd3e6b98c8b4db81eb78440e;
  0xcac2ef7104da7bccf6f92db98be6a51c2674d2ecc75bdabdcc69892a1cb06260ad63ee;
  0x5f2c36a894c7559ef7e5d971e47f8f2d4c5dbdc5f8af891fa0f40250aed9d5cac836f0;
  0x17495e46f753513ce791a238e7dd474d426789b79637d312e29335e721ea59d3c560ee3;
  0xf7cafb26b415978e027c78867dbd21a7c6b7154b7c8e961fca94cb6ded4d4a784e0e0d;
  0x5aa43246bb15aec84fc33bf0cb921a4f756c7439765000a83198930385a1270eef3500;
  0x24a3b1a0eddde69b272def65a6b01947a7bbf6ec08545ab1720a9e03ae1e9ddf4cc966c;
  0x7ce72a3416f5413fdfde86e138e8ac1e8390c32ee2595dcac4738b8f3ab03d49b03c83],
  0x1657228959274c36038698ade4979e616abff3f2c42499d97fcf5b1d900953f0e90af51,
  0xa69ebdddd1d99d3b021115b61085e5a0febbe86a015d4493a4c734e8052c85dd705f)] (Z.mul_comm
  0x192a43d8f8a55b860e20c52b200024fbdd5c39850b80be9fa08e6156d781713c6b252c7)).
  - cbn [map fac_q]. constructor; [exact prime_105939265494_61|]. constructor.
  - vm_compute. reflexivity.
Qed.

Lemma prime_n384 : prime 0xffffffffffffffffffffffffffffffffffffffffffffffffc7634d81f4372ddf581a0db248b0a77aecec196accc52973.
Proof.
apply (pock mul_n384
  0xffffffffffffffffffffffffffffffffffffffffffffffffc7634d81f4372ddf581a0db248b0a77aecec196accc52973 2 [0; 0; 0; 0; 0;
  0; 0; 0x80000000000000000000000000000000; 0x6427700959cdf909fd82dbd1413344aea06a48ba5558e62df8183036f304fa1;
  0x19e55b7804c086a5df843fd59d3ff2cae23030663177205f41375d0724621762830388e2a996b1e13c574be99c67c09d8;
  0xa0e7d42bd9c9f94c719d9e5d2b3835924135f96525cec77cc638f670133a2bd4d6e55909a938928e8d6842dd2b36a6;
  0x2ba63530f66c6bf07313feca7e1d94ec3f0537e586613dbad3932f60e2e790fa541440dc9c354650a32c8b448438d305;
  0x17bc3702d8cd7e55f835c37e1a8368d8918db350e2bf6b3c851c927619cdb8a24f37193e204927c540411e82fc1d05d6c;
  0x3823dde1138873a34822610c7625a882afd4cc09a2280739bf23936ad3b51e3e406b3183cbcdedbacb21569c877bf87f;
  0x60e744c37f089ec7f2f7c52125a7c9368e65256a2a5c690b7ceccd04e3388d1f0f4ca1b796186f505aafe60c56eb32a9;
  0x3661ba32da023e22e79e9ae66cc6dfb28baecafe92675515c50758f2bcbca2f00216c5371a8361baf44e25b4a5138b57;
  0x7722823000600925dbd60d24c3e5fe7f14614f2230cfc5047b44a593f13ccfa3b74f80d8685c169cc2d6985811e594ee;
  0x371b2e510eb31b1a30d5a7386839263bfb21be85cc5cfd3ae123d5e1a413a3ee866d6722453d4eb4b40dbf2fe676851;
  0x9f5187ddfde890651d7fed25fc1d03f83d95c361a9383e77897313e16b15c1c6a8e97bf1ece1e4d2e584cd77b3995;
  0x65c6b0b525cedfe63853c09ed7d706a171d93c589b9e27ba28cb706722c0ea796b80c8ff9bd686b0a4e958dc82e03aa3;
  0x6be5e7a1043488bd913dfd0d00d09f6b85acf23eb878f63022997b5d1b7d6103eea5b5998266bba66a8cdbe594f51e;
  0xcb0dd0311d4e1c76c5f761b07c53bcd1a1de6943c764376416bfda60120dc12970ff5b576905c1e3c9cd4be70a86d22a;
  0x195cf82b13379ab291ccafad4c5db1bd69c11766853471dfc2518afc826655528440bddb1a879692d44b3516ee521e37a;
  0x10294d8495344f5e7bcf938752b0bdf6110ad1a22cf3e3be0622c7da19f000bc77febec07fed56c2f6a1c2a90011c6962;
  0x19738ba1495b45f52b811b09873a2ec9abe041702e12a37b132f1932546a9124bcf79467b770d2dd4782c6af80fc922d1;
  0x3a8f09cbbbff57035208ebbdc67de93035fcdfb79c7394b83f7d1bb267f4a89d538cd05728f79685960dc323f039a214;
  0x507336857cbe10f3e27ddf6609719ac54c03a3d57e3fa5594ee23bd2c4e444e297e1d2b44b19a0e7410ca2b8f8b0202a;
  0x10a20a9473e6ed28905a3c75dd6ee977c3df592cd35982cb6cb9ea197fd089743ce899ac8fde5141e1546ee0fedf13fec;
  0xe7684f0b35b5e621ee5107a58f946d807ab7a1a9a436ae5952c33f150efd4f3f4a149e6c387e54dc39f0d264fd717c58;
  0x10895aaa9417d438f88e3663e864d84c0a74ff6fc03ac52c2fbf7261a6346b85c038bc6f714c8d4d29311143d4e0d3660;
  0x50e58e7fe8e5b6382a6cf342512a3a774393ec556fca6770a1d6edabc8c821e33a3fa45e103fc848e4f066793b90ae52;
  0xbc2348615f9ad6f8c6d1666741f9a9f4399140c23e9eb52947c0d81932382a49901840e64d11afa1bc60060c5e47e008;
  0x1cdc2280d77c23e52419e8193841b25ef70eab0ab2baa853b77fe3bbbdb58a1509c9f191a7f15d3d189ccca050ab9ebf8;
  0x3c10effa0c5d9552d7bc753a51a6e25bcd3ff138a542b1e96d3776d7775fade4e5bf0a3b8cd075895fda4b2dd1f4c4c6;
  0x35923b19571462346d7df9592c1358c732c96552d9d729a0741e479ecf13a7442c4a2283213e0a08316aaa69ce8eeb78;
  0xa1811e6f13a72c981e217fe229f875d643754504a2c734e0d3f4f6320419e0ff9a88858e0df99bd38e2607757c7a070d;
  0xd4636d5d61f549e300f7585a6df34ad10615fc2dc26dd2b48667742db3c92e207c4e5a9c45b0e2b6f45a46a2d05d2676;
  0x1ea31429d35c8187bfec2edf8ab9b07f3a85909fd4db923e53e9fd1914869ceaba9e736be78a49fe0fbb97f8718ed2e46;
  0xd66e0a7b2f08e61c98cdb32d3d8c16af22064395124afc386e7f8b4935ec2ba2de0d19c6b20620e99825dd00e0001d95;
  0x19fcedf5d3785aee3e5097346f08f60776151dde44b60dc16374914b1cb747ca3c60c09999cab61109aa37770fb14e660;
  0x8e439aa884f89a5ef7bfe6668afea4e09baff5a927e500d9459980c648b9e3d420d12be7d7f6eba32c67cc232b88bedd;
  0xdbe604e7a281e8ad8d46fd6502b1688b89135959d66ae62c2f49cb3849830885917098fc0697608c0c5079cc8eb7296;
  0x1b66fc4a3ba0f8ad6ba6d6d717b434419df0e311b143f333c3f0a4690d533d288a1680d554da333033a6b309376b5da;
  0x1030452d94d4c76695a7813e041d5b35348d5c2c4ea41bc782b18d7c6e6d5f6e47c9bd63970223c3d72411ed74a7edb8d;
  0x4209dc5f0f55bfe291a75c4a75bdb63520bdb3ecae788d5495cfa8d844b99969255437906bde6f628735605c97110553;
  0x1ff188e2c2db839d952af474cb2e3e5e11a0618d4683ef9312b87a9ac149254f825a03ddf2dde33ede8c246a75775ca6f;
  0x3a8be9561a2b3b8fbc3ac453346f2047988597116c15837c90fa3e703247ab8c2eae8eede0c2da3bfca101d0d67abdc1;
  0x898fc917869cff161b1a1b35f0d7d406138cb06e4c1149d2651e2360fafe4aac24b88f0d54deca0de84659194506cbfe;
  0xc17b89341fe8caeff077d4867e1ecb5418d6e82f2e228e47bffe3b97b969efe688cb00e1137ba4ee09f3e948c9b428;
  0x631fff6457eadaaf74706dbddf2ecc4388413c10d5d29c444f39bc259e71f2e1c05cef055175762d22c0f4ffba92931;
  0x17382ca009b5758b59efcefb57a1e494f0f8086d6b39f09b4b6299812c7799e1f3f897ce630a3183a95bb5a493105d72;
  0x1bef1b7ada15d0b2dd54e1a4285ba3a9a062092aae35e0b7f43f93d5d901b19f09789d476140e67e22e34d20a195affd6;
  0x9b430f31345c3d184ab41eb7faae3559c1e9faa598a129214d68994f5f7169da9f04c57871dfa08c18f63bd81b3f0211;
  0x1019c7e123f5103ddfbe241bbe596476b433f46dd4e4f66c43be0913814193cde62d5341ce38016535d6a9a9a7ab5052a;
  0x142b38eca38ddc5961a1c58fb308d85807f16bcd07dfbf7cbb8f014d1a3b858b135f82d1e9c27e9eaf785a1803666f5a;
  0xf90e442e64037357d231af86a44c0cb0531f3112f3c9f9fc284c6ecce5e4642b63cfcebe3e9451125c0a43f9d9945a28;
  0xabd4305de4ba89531fde059c1892564a2f901e591080df3f2d08e2706146b36ff961d0f82ebd6413eb700676b607abe;
  0x76092265c7c6449629e415811301e11e59c1cfaa500bf1540edcbe3fbf8b25ea656e78a98f524b9001b40389cd2a04dd;
  0x154946ee5e355f66f016d53952b55f8e9e51e7c90d278637344b3dcb8bde441c35312408e746cad91072452641c2e6f00;
  0x1bbcc0f5dbe4a39d0e7bbbb6a19cfa2e63e59722fb32dce5fdd84ef761850a231ea96c975eb1947df3197265735e8f403;
  0x13ec6eff79fba6ecb9dc549c338554249a70d039b5a9bfbbe3b342ff827a9ef87eabfad10036dc6d1474c596327dfbf9f;
  0x1d4ed03c35b0910f79a00e032bdbf307302df2d9961b515f8bf3338db9336f4a242c677ff859b637e3fd363554c4b4afa;
  0xd45cb653d0fa1ae6c4a06bedce3d8515f35ae6fc11e8ba7eb81c94cff1acc51df19fb3576bc52b6d4520a5ad2f5d0d7;
  0x3749bc1d74641ba4f53c2aa9f09026189d13382af16fb1ce2aa12f1bfa3f8e08adbc79b7543226eeb3b812e6b6a79fd3;
  0x1012628aea47a95845937b3ac9e4920f0bac3f320eb30ccbd0a854b5024cecca7673fe4bd31280243517a9f47d1311f;
  0x12da0b3ca4b09425d442c5e3391417dd7cee1ac1c943f48a3abe8da91e489fc9a566a8951e0ec3f9fd2c6edf92c5dbb94;
  0xc647bf0f541626ce0f86cf3db6751403551cbac3cb8151b1045529964a82e0dc52f330ecdea75356242e4a7687c8c7ce;
  0x5cd992b475f54e8291a04113d5ca1c8458b85ce2eebe8870d58b3a72035cdc6b539b026ab6912e2e786c5c2c219f1407;
  0x9486741280b97466d6cf97074ffed4f1bd8edff6fb194fcc8891638cd74c7f5b43e1df40d15b738fa2eeb1225f3ad2e;
  0x8b127ae3ec056e810f6d8e3342f54728b6f150e2e4b39266a905e4bdd791a28ef2832354b9043d707a998f77eaa04516;
  0x18d857962c32de8e6d15127a981d612485af5d1703074b7dc4008e51578eaf24a7fc86676ee3598aa1b43411d66fb322e;
  0x92ccda5f497a0de983d58212cfddaf394c1cc90c5447cf6cfca40d21b18a37e3af86e2a32bb7ffa2fd3ba11958129187;
  0x1e7de460b7a885d79b69ca2d9f4694121cdfd93609f9cd50de963cb24ed016552d40994bc85e0e0ef1e7f142685403b;
  0x1d85079409f6ff7228eab24e7bfe62c37ba2baf9970ad53643f5119e56511ab7535e21cf6df355daf52a801639a2e95d;
  0x31fe6bd808367f3fdfaa62a6683ab1c9920313b07c785b264597ed710093cd52b8333ccba0396c043eff3eea76580df4;
  0x450aeab7014dd75f82d67347de0e7ea7a31782f814cdf77af55a251dce5a9b666a170c3ca38c938197ce1d87db1a4c1;
  0x8d2eee6d78091c313a07e2144f7528814fd814e97949643a5a793265ca6f5e16210363b6081c808a93cc4b8ab561cc98;
  0x669964c3497f9c8ccdcab83f46e174f2d586ad9913fe4a2a525ebf55d3b2c43a807fbf062b7ebac357aa7ffa908729a7;
  0x1fa0d0eccfab640d920b8e1bb6f98c8df94ee7a535767c6404b11c0dd9f41bb00e140abad1168daa0da1e09c66e982e;
  0xbbbaa6028691d67b018c373e649509842fcfb7955e8854ca36fdbe6afa185579bef1d6118f38db1b7cefe544bd352f;
  0xe707e3224cb975eaadeba3be0b40ed9027c3191a0681d24e020f9639b00dc2a91a7471e0e88b483e8413ee48685442e3;
  0x697f568077d8bdb7d32ac126efeb667a6651403bd32cc8550eefed7c2d27d1a45b42d2f9127c1117c39c740cdbfec1a9;
  0xe4c07e5c051aaebd027f68d2635f390795461e5ff86d4d56d530085ae653457213561e39f38a18525f0f217e78fb732e;
  0x4ad3638521166055e505ec11dcc6c2ae6c87b4f6ea5a25e9e8d85e6333eebdfcdc6f510b71e95488191b6395014714a1;
  0xab4af80a55817c6af30b2d54480a8fbdf3fc26aed9ba42fe3335837fdbb92aa94f14478492a500d1c99b889688c45deb;
  0x1c45c32108bb56bb9dc3daa871d42c27404dc11f2f38d20fe6dcd30bd444c98d3025239c2e8cf0c427a86029bd4f40da6;
  0x5191bb73968e822c7778fa74fe491270e8aec576267742f1d101464dc212ae942a7cab0298fe35f16750ea4182feb49;
  0xaf0fca60f7fcc68e4e9ca1a82446ec632d415504cd242624236ef60d22d682a241eace900c26e661278b08aead57c413;
  0x65dc1c0e192b7123cb251697347e7d91c96bbadd6fc1ccfd3b3d7f90ba3f6221f4dcf4bcc95fab577780485ed798c5c9;
  0x3ba064cc097e886e0e01f9dbe657d2da02abf226c71ed261c1ac77e56a3fa44be379e2ed473260e5990fd323d2520170;
  0x1e45d0127a8818a95709668159b6b78dd54ed7797e841bb69c8567832aa861c0f07471e0163d97fe6144192f0f8ac7bb1;
  0x19c18bb89880023c114db2663e216ddec83f80edffdf13a691cff1a6e3f370a846d7f7400a700f3e3ec21441ad921639e;
  0x229fd4959d6a5336a6a957d60a2ea9ef47037da8f7544151123aae7ed058725ad64a7a351f42b82c204c64867b75f77a;
  0x148b80a8ccabb177478b55ad2954d95bd94dfa7d936562069603311ac46da193a5204fd7996f7b88b578b7c1ad67986e6;
  0x2425c6a36e880f635b760533d00853f10abda1a88d41d6c1016787e851eed90cd7d01e207b00865f4c6f7d5727ae467;
  0xacb4615656bc9337619809d9a2491666e90f74ef4e2266783bfed2749acaa29ba5ca6f6817d9872b82006058ef476346;
  0x12efcc545131a7bfca18a9eeea3bfb8329033cb382218a7f205d8180048e75fe08e9969478acbea9e365d03662db2559b;
  0x2b37634110ca2e4e157839aad26528f349932eb70b0cdc1cc700df3c3c82ee861339f3b69c99a83a33310f3f1d466b4;
  0x14c68ede1be84d8542cc01094bbf35a82c4c539085d06e1ff0d16de4c0d61def55590af2dd26613ad8a39f3f1579e28e1;
  0x163048b344f7d2df8c90c2736d212de3baadc06ea2d7571a5bd2a71e037675e7f273807dc3de1449a0d227e8e187ae8db;
  0x2fc5e7bc8427fb6b6c29b63fae5331076d597b8b1ddef1f3ce7168826657bb3698ecb7ee08b9e164f62efdc44f56bd79;
  0xb7f7b317e57bde515f9cc06dcf2a8d84b800322274061713bfbaaf6b2a3d62bda77f2c22d3227e03e614da1473efe54;
  0xcb6ef8cad59f4bd8ea90f5190f0d919f95560502f868885201b805f021a3d259ed6df21a38d679adb7cedc9331871d36;
  0x12f40bf7a0db2f9a184922e276d012e5d8de3be45aa0e4c8854b6eecfd9f822f89c7be803fec86432c4ab467a978cbbf7;
  0x1aa2bedbbbcb80ecd87f9ee3cefa0ad5254f8de39d1a10b0bca6b7ab75543b10c0eb616c207889e66e2411da5974dccbb;
  0xad0ec222801c5bbb16d9ee61e7ecc9fd79dbdeee075014cc7b7cbf9d7dd85ccfd5b66dd9bbfa3be0ca6b3140c458137d;
  0x13fb6f242582f70d348ea3b1c14664fb977a1cdb4552e416393a232580d288b4c1251b7535d3254482bdb580b6f6a68c2;
  0x1e2e315482bf1f056e01e9fffa87d4af5cbb3eb77060a1b5288a2439903c15239d22e44fd1c80927b1ce57ab2331500e9;
  0x140b8ebc82e6922dfe976c38d4a74138e9c1a699c26928141a7779e084d3624ee28d0c6ce6bc815d718f6218a3924570e;
  0xd36886e0ecca50cd1518e6307bf3f62ef168a9dd7b0741403c3afc70c94822ad9ea458413ea334dda54a089a41f9ff93;
  0x20e9ba8cd0f179786092fd33c393f40c97893502adfc3396f8339a35d169be2747e755c3dbc5189d2ab555f45372807c;
  0x8106e85064195392a1cba45ebe98ee721486d4c9e9630ea13fd1bdf65ddc47b764e53e0955d4d59f6d0c858310e96506;
  0x761b4387732de94a14ae56ba81e17674975b129492a5a43cc622220ca17e540331f017ccd4def4b9d1a9a4d9186fdec;
  0x796e93011087dd0480911a73a81daed7f27bc92b1bf8a17fc973151f442d6379b6d9070d0f5959ccc4549ba627cbf667;
  0x3aae4bba9a9471b6c25471ef669c63de5fa63dcbc9a5d1f6f1e5c9e747d4b85166cd4b7e5df2ccca5ea84f190441db3e;
  0x11d1a998a69656346e50dd151c917ad66730e1251339c4e5d3415ba1f998b8f35023818585324a55363061f587644efec;
  0xc85449a075c215012c7b4081b9108916ce22f97ccdf2d78aede7012fedf68fc6810cf1a50240b1ad2888fad52173f3db;
  0x19db8d330a2fe1f0d89d54d75216efcf17695c874192daa0c9298f0ce4fc03763cd7c1603bc9c28db538de64371f94f38;
  0x8e71475a598140e6609a7d2a48a7ae8368e7ad610924eb07b83e3e6f27d8ba383919b650ec2ba4a65f52f261bf5ee4b;
  0x680c440dc9723fe50174cffdc47dd7757a73292a329a8353828af3b957f9f5de104d3c7fe7b42418ff346c3218e950dc;
  0xd5df4baf911a5fd8418d760deb5594d51f98c6d862f0fe23b8cddf28104715a0a1f7597327c6ceb4a4ed6b8fa819ec;
  0x1204b0ae30f61830c07c83e43a6aa1fca3d923c1f0dd1a9e7a05adf3261f8691ce4002f30ad050cdea639a09aba7297ea;
  0x559e1823a42710957b647ff4549f2057c138e9152097af550875694b0666e17dfff72996024a66c474c39492b654cbb0;
  0xba7c7023e3896528f3694006f84377ba87ee94ac61a862390854e3c8501d8e748bd614a60558328ef8a1726e1b5088fb;
  0x9c0aab678a53bfebcd78f7e513e85004b95cb3030502549868b0455abaa03490de2b4516bcd010ced3fd5da6fc4209c;
  0x73c6fdb26121cc7ad40952eb692f353deff451d40fb2985f652d7132e571d0ade968eb2b360c4a1fbaf7a432308ec010;
  0x8b1950a7e5556ee940852a4c40b76f8d23a0a7ceea8228d3be81e69afb66b5f71c4fa002132e647677496cf0af2abc;
  0x1d63bf23b9dcd3536f66008112ccde08deca650172be7c1aad6348bb889fb913596180eb28e66798c73a55683717af4ca;
  0x1c218fc7ec3201ad2f1a4717c4a1acf4a2d135a270a6596ad61e3d07f7cd525660d7eeabad409475e6be47645aa32d8c8;
  0x24b1cc6edcb367ea661d93d67a5a1b483ad48bbd567c10b8c28e46697dd5034cbfaf363b32e2e94fb2e567449405488f;
  0x3849f537d9e0d23d5c85a02e686f20f600c2c104fc17f8f740b602814ade579ebad5007a30ed12e69840456ab41328a3;
  0x3ae65593a545480c8c2ccd245cb29a07db8251fde4d6fca5d692914b9877c4df71d695a5cda649b3fb84cb85a0119492;
  0x1c0d45a0f21a8ecc973b99095d92b9c71525bca323f3eaefde471637b31464a2256a59be461010f82bedaecb01c84e82;
  0x5058760ecf4f1cfa1ac7624b942d130cba21c1df64576d5abd906b1adbf15c1840f7efbea4fef379e782c3e493f72331;
  0xf768f44a5ecdfe79dccd21e71d96f98ff37feefc33fe4c2514bb7ce4fd25a97e6fd2aa68f118031f7ed9d0960e6e77;
  0x1dafb2193f96ee561741223c3cd41e31418bd98c73d84614311d6a112bc295ef97527f277bb460d76953ae70a7d04c954;
  0x6743541aa7cf1a23092cf6aab486d99de89032eaed67332781ce445ed8e11e3f5e5249987c92cb8052cd406e6c471792;
  0x52f25cd6488313ec3f3a31c5be536416dfeffd5b95dbddd2ab6ce58c4855a87b5bf2447c596da5cfc5dd5aa1f5c2197d;
  0x6d292fb4979dd083cb7a711ba0010e792a39f97515cdf32f3157eb60e4b38a64f816e7534c894f77c1a5b6bd87b80fb;
  0x50c77b4eb84d95eec9a37507df09ae232877e4be09fd0c22f02f3f0f61da9e3bd587491ec2ffdaae792c89d2a6d93a94;
  0xc08ecb79b58414a96b20100df61e04eda41b39961de389c257dfc34ea562436798edc6684ed2c06ea51346d0a0e31de;
  0x8bd52e1d930a34dfd4954e589bf98ddcfb0f89024c429e1a987ed24b9378778f2a63832aba734ad3ef183123f75af9;
  0x145b6f882a699e9fc06fbcd0f21e7aac09ad7a77d990e7d4baaa541f755c669ada741515519a2e6eed245360728682c19;
  0x65e84cf5c521e78dadc0528273980ea3cc794c9e8c404a6c6738d9380de619ee04571ef9a9d7e359e376fcb575a0779;
  0xc352e7971099a2e3f7ab2025c15bbe21dd64b35c3770d37cb6a59efee47f2c9e66728215d2cb6856ff48c7fc46ce026c;
  0x16b831275e473321a82bc8772633e9b19800a071e7467db765570a766419f8ba846d4a66801997e7802d789f5c2668b;
  0x1062b3913a300352183ebd7143bcc33bd4a7e78255a52e4b6c2716043c8e509f2740b76e0f743608e4bf5da2ae70d8ad5;
  0x1502f358f4538c4bb900bd7b2f7486e5a05be3c3e1e31d619757fc5de08d196e6b3580dea0f8e7a256877bde86644ba9c;
  0x1be2e5944264947f620327de8c225023f05169a827b4c820d6774206f41b840ebecefbdef6e2797b978f813057c94d789;
  0x4c9ed019c4601f1fce3b9c3aeb0bb83074ca96ecd54dcdb71ba76294e5052fbbd3d40b9e689b17f99aa781120f12b22;
  0x19a5ce16458e2388c61cbb32bef29051c4368f64fc9a20987fcc664421cef882ce9d60a94724eca94aef46112b7005;
  0x12f60f38f6fca51e093eee4eafb6ef585824976c397bd6b69bd7976b0154b8aa4abd5ddabc5e76fe1ee75ba88bc60d8b1;
  0x1c96a0eb3f357e69ba545e44bdaeba197efc76b24c7d7061f162bb2b1a8dd9a97fa404291721dff5a2a121058342638d;
  0x256271b53497d096574da4af270b5ec7aab1fe613b0af863ef75670c114cfe5988c710749b5d2d9cdebbebc384fe9c6;
  0x350d1508e3eaa05529f0a23db923475ff2ba931c8b980aeb8862c71bd498fe061a4231e24d730ed9c1eb7bc5860acce8;
  0x13d17329f486cff7635ea940efe5e296b2ef5d7c945c362f42c92587fc233ee6d4c99426717695a79c4f1d7bea8112e33;
  0xf0aafb659a8cccf1dbb94d475e3ae181f4d0200abee912892ff4ed955dbc46d953128bd972d6dcd1db316f5d1c888436;
  0x7647bce82938ec7285f7dcd3929c6b9e2b1efc8ea7c2d45787707407993d19e75a0fe68bc4f111fa3b813c0936a914c4;
  0x1a72bf552aca1fc7959ce6d76edc3b6dadc2649389f4bf0073d7605711ef895685f4913dc4116c82890255f78fd4a7d43;
  0x1d45944c62bb758a2612b5a20b1acec201007831d2ece89855f6b8a9c8654bee0c8641f7a82bcc502e66b770bdcb21d1a;
  0x1e759150ed6ef96e30c53ea48ad0a08e8490b30152d7aa1957ce67464fffd4ab791c9e95c9efd893f789db157c6987d57;
  0x8b4612a2d80ae65c5bda71b145cbc1f8b45564641129b15f090a7321d67c16f2d912c7ce65edd3b9af2fef796b68395c;
  0x56a807a3164b4b8f60688c094217e3fa6ce4e479e6ced0bdaf5a7449fcbab39eb72570a2a226d1e140bbbd6db3e2368;
  0xd911a27b484ec63261069d51bd9dbf2e6a24ed898f66d0a604fabacd5567452b451422f2fc78cd39aabc48de15e32c;
  0x1adf5e3d350f08fa94e7bf3e594113160b2700b6b59b499bb6f654d5bceaca737aa1ddecd640d9c16f86e8656930b20c0;
  0x123a7a784d77f1d4520411a037a601e5a3bdb95cf59a5be0a274e01d83331b3ee4e1985a06dc1ed73ebf7a1889ae404;
  0x71c91df3907f6003131b171ed416e73734ea9f15d3983140be8b6cd0936499d789dff47ce48f5aab2ee475fc84cc8350;
  0x2c518a69be01df14ed4d78f398e0f5532d9630cafc45091ef91bc79d443af197c681bb3ea488a44e44c1f51f684995ed;
  0x4b2ee9afd70f7e5a299f66cba1f97b25159a9ed05b8a29ffa2ba00b2389a93a55d4594a52d407712664385bc27fc2fa8;
  0x1ae48f590709af18f5d87e4760018991d2a0fcb6c78a6938aa99d5f161dcd26b15089e2eefb7bb5db89fdd9967793aea7;
  0x12693169f750bf5122f21a0b29cfc23c6d839e57753f0318194250eedcb27204afb3647297932ff099aa9737ba13acf54;
  0x4398e3d71167b0681ecd6b4f7333f3a3462d5bc8f7d2c4606d13e53e867fa8868fd3ad498ab69651fc5b4e295b0cd0ee;
  0xdb172268bc44b1d31cacfd3517f352413d6e53605130c0d2b3638be4af08506dec1122bf3fd78b7e94e501c172523631;
  0x1478200b6de7316c4de6abed1814b0f87aef4097e09d4493c69c51ba26914d9ff7b83134199760123c5120cea9104e4ff;
  0x1480637b13c5620189873dabdd1c8bbbe589a2c94005851eb1cd2ee978cdced1eb82c7e5c266167fe5ffe709f38c9484;
  0x1d6c3700091195a0b0301340036ed15ac41dd66269e4f72ab87a5d926793da04bed9cab92767c98cc0a7b4d5e34f71;
  0xdc2328f009c4e990e2f401cc799d09233223be6f86ce71d38f51b822230ab40e91eb5d4868ed31cd925e94a7fa310133;
  0x6d1cf6f66510e210c1b40a826d8b55b500dc5382f8e9ea7a2f5948b1d4e329a720520d40111921648cf8b20c7b85fab;
  0x31cce26003426f5f404f7371fea621fbe0a702544f6d6ec055efeeb3903928080f7b3b17f585ba717876c5c7ca13aa72;
  0x376f13534de873cfe6c45b25cbdc1d087d4bbee3bb751ed56b25d71f93c27dca01868d083410397fc49c311fff01c620;
  0x15959f7577a69d6b2bd51031ae889b6262aa96e94dbdcb9010e69c22042298ccd89671b4729b90759ee2e321338cd5d9;
  0x18ad49171d4f69b2fe0d54167a07473599267cb3a4243eea0b4581a026d7baa92bf0c31da446511c322fab61275130688;
  0x112e109b6291d1a7dd45f96f159b848558b2adf7693576b752803b6bd4525eb86d4e1a9f434ee096a756e15dc66ace612;
  0x355c538bcf060cad223d9eaff36d5677b869c9d1a3a3789deb3bac1dc4e42e11e61915ae8fad2d6d4142ab19fbf4179f;
  0x5b257f9de1ac9f69d5dea215ffd46398bd5136170b2af3b9efd23663408560f6646bdf8870936f656136b0bd209c9fc;
  0x50224e51f2ec0bfba3451aa47d5a60befe880540cd669a140caa3fbcadbff93df5afcec7b5cd25365e442d67799db31;
  0xd4bf64e8dfd6100219f292b11df39d926db48e62339d1d27ca88b4fc006c07bdafdf4bc6240ed4b6dd2832c08c425146;
  0x30a54a06f98a9b1b5d86f8352b6614ba7fe0f4751879b286479109b121676d3825155ce3db5c6700aabcd7d9422fa59a;
  0x10ec85fdcb429fc68f070ec21f1507b77594062ef638ec04acc539438407e33ca93a5b662fab0853396bc4a2487044b80;
  0x1d5c56935caf14fa0585cca76c15f82937f238282d394944f52362cb73a92d4d72833e90e68f7159a901fdea982a46;
  0x312142111ef0a115f3ee89e365c56e3e183461040d66881cacc7efd1435de53c76be97b1eee4c8a896705c1e038857f0;
  0x1523f85122876965df72e5b20c70c0defb63d5bc47d940bf3c9ffc2f262f38a428c7d8ceab6b3f8c9ac2de556101e712c;
  0x1ce730c301c2477ee911ac4bd9244852441fe61c0c8e63b97e84f248a50219a7d7d6dd8d2fb4196fa3e1c5b057fc47019;
  0x5b6b0301ca842a4ca0aaec655a4efec6cbc1be1d309e37b93f1e8acbcb8e141593408857ce0c29246c6e1a2c29c3f453;
  0x3103455bdd9f487c19e0ab1adc5aed0e965fc8e4531e404d68a7ad2bd8b466b7c6351d28c791ea97f2865288ea14c38b;
  0x63455d0463332ef72584f0fab06577763ea5d35450c6a6a6724a272d0f118b1eeab2457a270c281a63c702b28c4d3364;
  0x228d9f6182f48a982340d3acfcef97ff89f3a9a4b544b2ebbf6eae706167b6cb4a9c6c98419fb141473e6174e0724fd8;
  0x1ed0b31ff37dffe7f816d2fb634e69f872d3e16ae7794e7096d9a6269f266d325f7c66011cace437dd31883b80d5b5c54;
  0xb667ee076c6785d7add5ed90d1b87c6c8211983828794fa55c85f0514769480ef97f7773b677a9f60735d7cceca5fc62;
  0x7fc2351a7a89fb86e5dcfb6f6f7890d40f98d4edb5dccd44983eea2487e3d504fe66b244a3e44afec0cb71357d86451;
  0xb8abc0e7cf7449a30c2fb650c4d60eb761174e1d52996174b6d3331d4ade2b80d66091ceb9d10c4250340d4f61a0c609;
  0xcc2c6867c53a1389a98ec361f026b2dfe117c01c0b6d494b8ebf1164541d860ee63424c9fe79a5e48084855f4ba591c4;
  0x810984833571cc67802578c9fbe23aa44e2da6d7e6ebf7c6ea381767210f1404ae1a21a247ebe2009278825d68a3d4;
  0x9d59c3e13f58bf09c288d5913b83717f61bb917b2b1e95b8ba9a2ad1aa7413815b76969d3e26ad33972772197f4c581;
  0x4c5dcb698fb8e5a2333a4380c1fe6d1e68e627586b5e14c2afe3b49e6002bb3474b55a7e33e8782f99948f807614718f;
  0xb689368f0981d53305054b05ec91c720202e84f8d3b8e14375ae1838834cb686b79ab310efa91764b49b6ec24d6d9300;
  0x66f1fcc18db75a86642258e961516cae41a35623b88cd071fd9597e3388175e95761f5739952312f6943868761242784;
  0x16d5086b311928acc81ce0f3bba45a6d14c6a505dd6def1c9f6922ddd357463a005106a46f663179dc535a84382504f6;
  0x36329cb744a546ed77d1a2efc9f57558bb70c2ca867d156543c2240dfc65cfa95a7396a932d139a168f28e127f9dd016;
  0x1f88c2b824456944c036c6b24b067b708a93ab0f2d311427318d50ba44f9946deb6cacb6f201e23d6be0dca7e72cbae;
  0x324e36eb8b45fb1b93177f36378768ce8e264e4c37f04a1e333aeac999883b2ac5798ff4a7f6a4499cb5357145fd4898;
  0x7038cd1e9d53f7dcb68caf6750b0ffd8491cbc8ef67aa7362c9b3a8938415f4fd8f5a03475d1e6bd2247fe5b0f0d6431;
  0x6248d6deabadc1ca537a38363d8d64a7eace657acfedec19fff75f9fb7f923d852a602b0e8d01f45cb7c7da411b2073e;
  0x569931ee752cdf96eac2be106d108e05f59a2488c3644b39bfd66f77d6bd0fb65c71736ce1020d240ff7c978f457b1e;
  0x1dcc1274e03cec798362d99065c1e586780cbd1894553f14dcaab3618ecd15f8f9a448e1a545e56b4707afbc00cdfc48b;
  0x59ecc6133029e55d5c00903dc8a006d3a02f0d11bca269bf57eb738310eb4a91497f812508cd53b0b51539bc9cdcdf97;
  0x13d10d3af157a7918fae1141aa9e79d86446ecff56bd64dbaf9c39577ef9512efc443fbb480bbb1842f0701cf0f1d120;
  0x93aa079100a6b9684fc3cd3a083fe9c5fc391cb66dd329b05dc058c78e3284b62de1ce2813825bcaa5aa58237f81a5ef;
  0x8783db37106399275580b3b2afb05513e2f3640ee1719c987745c21558a05ec022b7b6549c7ffd2197e316de72e35cce;
  0x4d31f4fd150b862adf13767832cbee2adebd7b2e89b20045e346ac57cda56fcc097a61d946b9abd7b923778f6333c07;
  0xf19d214779b3bce427ac83c3c075652674fbd8d6fa6804b407f2fe8aeefbd46d03b46bb0af818ff7c092a472060e26;
  0x2418ef361ab96e5d532e0af0a702fed1a7cad131a712b0e63b3822b3ce624897a882312e875dd29e51b0bda8d1095ba;
  0xff9cf04346b7505ef785e82655d35215567eb0c82100ee2dcbbad58f4563e3d1ae86e5b295b318fa35ab624e9e53cf1;
  0x566b2242f73a04ae461ed823d3b932ca430bc1464cef4ea060d5b6dad43bd45bb27fda0ad6984549ebec1c6fbc2b252;
  0x232054e9643ff57e869f5a9214c0d0fa80b5ef382a6085730ddcb6ad4aa55fa520e4193ada8f7dd6a49e44ccb86532b4;
  0x91e128d6028373f7fd7baf513acf1342d68c243be8ebd1f607791e2f2c2b6ca650b8a35212af734196a055169a7880d7;
  0x1a14ea9eb35f2de4d2b94104c24ef4e9b5e005e4c99e59499572237eb2cd4dbb1840e218fb4369ca3c0a7e09795c7fee2;
  0x4366bc65e80767a8600d945b0951579fd040e29ca300d3b7ce7f3a820ed6de1c5ad19b135f8f01beece1ac43f5fb1ccc;
  0x1558d11b5643d9e6b73a85b47bd784b2214e05348bbfeb41c4925865c34a024df54d83e4023a7adeeb06a4e78cdcebd81;
  0x97f344ff2321a82e638f70dfd4f8d1bea8bb25b6454566a099977de3749ff20fd8163d7b6d6ef32d5529d6edae032f88;
  0xf7c56dca3b5349fb6c1f5c583aa3279239b52ed838741ad04d77418492be11bdb8a5ae808043d205d48c1137ce7bcd14;
  0x2b38349f542087180ca6a0d4777f67fb4599450508b04dd9c8ca5b5f13eb46e5cf6c98536d645a6ae8a4db2bc7a5c632;
  0x110e7f525411588ebe16f517a72373cd9d893b023da1192926ec6d58388ddbd83f5c9aa529acaabbe236448b28b88710;
  0x30c2267a175c327cf6317223bcd6eea6ba7f616e046505726a787332b85298a2e2dc73bf4a72d39bcec17edb561ee337;
  0x595d43002d515f94dedb2afb8f2460e43b583516dc42f5ad7ec7aed551f0067b77bac418ecd846c551e0db9f02664;
  0x30bfd7618b40a5dae8ddde054708ccd3444219bfa4493bf05ce3a43dcecc8dee4f963c11c5dfe95b3da869f3cd1da3ef;
  0xba91f569652d123645a940289d45b28180b5b4be46b769db5b29e8c2e84276c4ff6143b0c81b30621bd83c28308cc734;
  0xa3ba3fc620bacc87813cdfabf94ccf515b59d1ef5f8fb2c5157ac6df0a9067e9c958384c2449a6ad02c447b3f57ec35f;
  0x3640d526b215af6d353df54eced9114c6766562610954c2dac6836c23b3b4487d8d09921a882fdccaa30e5b5053c1764;
  0x32a526f8269db44a2bc31e31b67f0f07602c3727d88c7a2a99e1f2b814e49049f86db1cfd4bf6b8631fcb33b664aedee;
  0x70a961c3edeb83bcf3d8b4b92418e2f0e8c4921f31f648b000b34cdeda47f6d87808e7c2904697c5904a07cce2cd4579;
  0x80b8fea7f4b71d0cc464ade7ac6e46ee8fd9d53662ccb5ceb3cf19aac989746e45a995071a96ee89b6794597bb42fa7;
  0x77c068025867501ce24cffb9d6f1b863cc3d0ec8a6dcd38b78dff2d9871d5ef5809b330fd28de6ab6fb1149339f93bb6;
  0x2b3e94ccf146028f31e189f5c9b917ee1ba302f14657398f17457e342ae0b4c5d1aa69f1f72eed511bf94d9db34d1a;
  0x16072daceaa29f2cca8bae2bb3a169741940e1e417c7f63fee03e12e4a75e1dbb860b4d7623eac1846e0189feada41b24;
  0x1e98f8ed485399da9eac33f497626a69ccb349ea3ca1d7353488d2794f5a46bc6d1260527a632a8d84eb8ecf67fc074;
  0x16bed92f63351a1f052557db9a9f085735f5b2b02f6415517caae808590df23d20ca1f38a9635916f64def4cdcde0e515;
  0x169d76a2c7ba26eb65d3b243b939284c25c61140e9a5ecb1e3787621e89d45c7779ea2c4b60eb5fbb9a75a4d182eb5408;
  0x18f297ae84e9f9dce74fc44498ca6314270e88cdb67fb955e3644006336d9392ee88b828daaa5a3d58b5b5fd11c4ef4b;
  0x2c3fddb1d68ce83c3a1762dc4ddcf861fd9330a0ae00595cbdaa1bc44e494e2792cb85e96268edee78afc3c67a78dd03;
  0x1b127f4215ee66073b6d8aad2b0e550007eb7ae7dd5cc438baa2c74a4f59606dc44fba982b63418222cf4430eab35184;
  0x1824197e390c7edd5fd54e7ac7a89774c5d7b03f1325e9bd63e04898d016c4b6454fea0a87ef83cc59bc5e5e0cb08c4ad;
  0xd333d28e9cb1b682ad3d15302d6a0be084840d03227f3a29a5e322b8a6e1cf67fef22ed6e1e0ec0f5955f4510b355810;
  0x1954ce812ca98d839e596f25e248bc3a2180e0dacdb257fbe9e2e6cdb009c70dfc7cdbd6a73de6d032f0ae8a2b673bed;
  0x640604737d1dfe57b94e2fb896bb4bf28b0da97cb297453ed5d682016bf2915d248536c2a95d9c336e1a10e1001eb9;
  0xb844ed93b3f346ffa2b9d26446c1811c94862d1a0c55bf0aa3cc80fc76b9886328096a5d4041871314039e25fcecc409;
  0x10647ae99fbac8a3a0ae7ea3ca0fac02909d0173b606d8b32225ccecfa69bd56c8faf63f60c1666d2ff85688cbdc65569;
  0x4b0d75725d18710b6f47e4af96d06aae3b971914636482b5e80eb18b0a74e3d440924dd1b5cdc250cd1dcd02776002a6;
  0x66ff4f2a27a10cbc58d47ac5c1d3ae5c9e85a6086ff064da101ce79d36185a4bcc90bffa7a24f7e238bf7402f0a78cfe;
  0x7e2bb2aca64cc121beb6cde33e790cd10226ac837a46b509f1dc39039840b53c6138c443cb032faaaa7dbfd954a9021;
  0x3cae9d8e9edc7a7bea850f6c20818ff5b245217ce243bb3795081513130dc9e979f7bea5c68281f65bcf98cc4213228;
  0xfa21f9bfaf6af7eec3b2539c4629a994349ea2be85ac4422468cbb756e2c98de52595f99af149c8a9e802dd46cb4e8b5;
  0x9efdc2fd499192c3c8e8ee4625cacaa129815e9cfc6f2eecf65ea79b18f98df44b6f3f2670f3e5aab04dc3873de585;
  0x108600bd3f9191dfea6506d043a9421835dcb057110b16371ac1288e3ba3a38c6dcd6688df8f6b7b2338807a6411a94e;
  0x4e9acdb0107ec80bfb0d7b1af642cf795e14d5bd69a14c31d2335852e141c6f37f59843b8642e2737deb506ddc4b58b;
  0x198b8dbc3350cfdac87a7a8d139e243d8b5ac0363839e5af1b5a78130f63ba82a66b71eeca16e7f4b4fd3cd30c571f9f;
  0x285fb68ea68fc74c8e9a5acdd7c4e970b2593835337473c5877fd01661328bda25fb162541398b9edc5cd04f1ef0c6a0;
  0xde64c1712e4e8de81edaf37ad96fcc02ac28c4eb13333c670b6837d4681ff67d306c662a3d670a75b919e8d8560881d2;
  0x42879a39331ef38951dd3be4a431e802cc338d0619f83802f6ad0718898a57d14650d6ec82233183341aad43052ad6fc;
  0x1cf0b460807dbc97a257ff399fa21d7eb30b846e0b8a8bc823bebd11fc9a7193e45663a7b22951db63e01f3070f3e00e5;
  0xdc4f00e61f660ee32c7014530f2d902c646a9c67babd9e58f6f1509eb1857daa42b5a13ea7414321957933098c08077c;
  0x7475ad08afb907d98155e7ccdaa2e28919c322a4440dd0812de661f577a94279d2f46f7c253f19fb34fdef7797c212cb;
  0x2b52842a54a7000739c21b34c2c84f8f416f8e0a4d7d008e6135ea4832320bfcd3dfbed18152050aab7707c111696998;
  0x38ef769df4110803c274c57008ff0015d3ec510b9ecb6bbd45744f59af66c2c706c33f022ee428b6d94acef25fb692e9;
  0x204a8bd5fcf7151b6282e9d639f333bdb05e7cf049d2e4db2ae807d27c6181e119ec7d8c8927f71adfc2955626e4f8b8;
  0x9453a9a20cceda13ef70d5601509eb9db60ccc53d5304b98d49872c4aaaf18bee24b7b989647aadaeed2bf6dec8db71e;
  0x1a2b7a5349048ab3f1c00b3ef81196acc662710bb1bec2d883cc2cc7a03df3082d23dfff9ded2abbfaf08f955f799d4af;
  0x1272d7a63815f63e5e20c4849529094c56c4e2badac588e39b1c6c05a4da1b2f5f80f0019eb3de85c94560814751134;
  0x11597738ecf09627555712d2456177d3ecb2df391415225fdabefbb63026ba56e20c8c741e6aa019834bacbc774ff9f76;
  0xac34d2f042b6379aaca04afd2d0a209e8a8872c0be78d3ead757b41f9b26450ae88769b0532b7114fbb3ea882f5e7bf7;
  0x739393159c497a140d30987027abab30dac0d9e8a5e816d567f8ac4d728b1d4385c492bc2ca33a86481dcfeed906f2b4;
  0x8925d18fd15b14c63e42e2d15b86ee4446f21a0faa5ac386ef9217d29ef12b915b0d2b4561316e24a32891a774ebcfd0;
  0x6bbde90dd257d0f1624ef436cdf4dba668b78f542f15affedf52cd6d733d06a20c2d73cbcc11404f33b8045617c11b6f;
  0x164f68343af898441d1cb0537715f7c2e57b0fdc63b72281eccdfec61ea0c7749ae9010d14ffb443e7cdb0f2f59bb87;
  0x55a6d4a590bf96ad210061722a673cb4302bfe45d6dd9ee0933ae0456dfd5f32bc85702da5a634f40c3fe1849c5a863;
  0xd9edd14edc42d69bd9fc188d08cea22acc58d32dce3da6245571e80982d087b6938ad9a104f97a2b76f320628bd2374b;
  0x2644d89690883e9be3cbfe20c1231ca6a555ae5add6065186603a673171bb1a61a5c04f3cf02bc8bf0bec0b87e4c9190;
  0x3698729f3a17709f3b3e7f7dbdc6b10fca5cd9eb3dff1cba18b3175d8440e37d647c5931ccd7bc0394fd9763b933ec07;
  0x11088818ea90d100e8ac1cbc870efc11f33d9a74ecac2fba56caf667228438f62446daae20e9127bc6da952a13abde7fb;
  0x31267e4e604d85dd3b906343613d0b3d729dd152ddeb628a35137be76ebc731e15e08485621132cb552484c10e35a5f6;
  0x63426c88cd623af7554312665169c257794d242c1b1792076fc2705a758a218a3a8f47e9dc9e1ecb8a12c03031d5681;
  0x2425a0d47abe937a674588ca285f34132c79b7669602f3bf8cd30c743ed69ed259f3591e902eec4b3dae74d00cf5188;
  0x7f75609e720e725805950acd6102062e432dcb006fa75dd404410cce30ac7471e679cb7b0a672498f873016af3f3b16d;
  0xe3bc84790b7c2daab265ad76d8af8910f64a7270bbd4014ff53c46bdc1adde6683a1d4e751dfb9bf2ac2c0121c7fc2bb;
  0x4e06b1c199539ed5e5d20a1edc935ca80a8843f827bf76b61e5e57a3c2fb27af2a5cb93732dd4d6d2d377a15e7be47a;
  0xfa612d2da2c2493b79f95631720925ab9b2c8300ee8ea5f44eef49c907a6877ee24f0cbf709b93dbc3f4e6bce06eb111;
  0x8067418a2a9af03884fda28b81704a1c0e73781bdf499d9c51943b07b57f1cf2a6da66c4d9db36876435cdb0660f848;
  0x168851cc8d00b4a123d988c14877301304181205eb5100e4642e51226bf0c91904a1b34a208b0f97093834344450e8c90;
  0x10f4e25860ea846f726a7917ef377dbb4118357bcf5556dfa62d4117cdf3d3577277da585d563ca7fd65180d2782ea4ba;
  0xbaad694e28d544dced5f2f21bee7139ebe63cece749493f322840b30e2edb27eb76880d08f20f38f4aebd5ae6395d95c;
  0xd10cf2a8c10294520ca983ac3777dfab02c5e2c0ec70fa7d9cb416fd840115bc6eb816cac0209491df77ed9f124ea633;
  0x6a6c669c9bc408e659cdb3b0f3649dc3bb04801d73497366d35cca2746c0eaed004a5a14145c5311baf6ef28c9865160;
  0x42743d7d52a94ef5f211217eda89cdee57728fd1124bb91ff4789bad99fcf95ef137d99af07b83b341095460c5a5ce9;
  0xa9bbeacb8c846a9b01c92021e492ce3cc6f432b02ca35e39ec989669240378f0242507cdbf9cb7f3489c39203f6648dd;
  0x810bf3f796c62e4e7c6b04448cde259dd37ac955617f7963605ce637764f4912c8f6f9ff94a899bb8cb0adc17ad56153;
  0x24b8e8f27e2c99a17284fab06284c14c10681592f459bc65dddfd5cbccbb826cbf301afe26ae0cef6c171052fcdd90aa;
  0xa7d2d675b33533a77c423bbc2fbeca81b43a9040f961040969141d1da2393e198cdf4b3b3956228c06edd068261ac478;
  0xa01eda99674d0595466382ff7f4c2e3fa3d6057db82c21f3b5c1024ce912a3dcb627212aa313617714cad1ef0fdac7b;
  0x1077d358bee8167b74c99e179148ce0bbeeddc819a1dfc7c936f49d1a3114cb9c7fc338ee52236c3b9945a67c6d1768a9;
  0x425428bb5e028119125f199aecf4adcf64bf802bae7f04da63a552bf754ad6806f17931faef9b6c6a8a96a1f7aeafcd2;
  0xca933a64968ca321f2a295e81cadb159ae35929a7bb7aa2b682c5391c83d9fd1d8767a2958139938d4e59f3bed48753c;
  0xa4d5dc589d448762118cc9b25088aeb0e1a305d802dda44bad3dd0dc29cdf9241e29bcc189a6ec51fe38a2bd7e31bb5a;
  0x42582340cacaeed725d6d47d2762ead8849aaa069229053d229613465062baee14c1c7f6ed1e8b44fd5db6f4ac6e57;
  0x1339390faf425eb3e678e2172fce9e7951196588c8c0897271d38a3bec670bacacbd914a74f6e972d6297e1c0438279;
  0x269d739baf97011cef7a488ef2d2a4a07708a99854ff96a0a9bfd681f9a1858bfdef382cd4f004939e137ea38ceee9ed;
  0x1cb98b6770d9c4ce8ead6852c3bc82144eeece15ba87c4f327c0868b6e43dc004d14a2de8e7dac9fa81cd71994980df05;
  0xb8b8e12d10274835a6c4c14391a4d3bc0e7314fc91a1038c734ee0c485cc86be06cfdde6e2549c6dc19d5771bd0e47e4;
  0x1041e8c094517db64c2e04f17c66fecfdde1579e7a870c84f2dc729ee76544909b9f1d0b337a6e2273944e9cbd1485f30;
  0xe98da03a5fa506d47b2d568be4edada8547cc89dd6d7ea3617ce01603251b1d4e2b0e302a0eb6241ad57816b16073aab;
  0x131e5157028a319c1d3ba509e7b1bacdf5a6e8b5382460e3eac3d2314ffc85fce313b6143abe0194eb0a19f81e359ab88;
  0x564c4c3627739942a7fd681e8065c87a6271248562bb7b7e216b6578db6bd23431228ace569afafefed2bf4e882ca824;
  0x1f483a92fa5aabdc84b35e0f25cbce5aba4c6b7a04641e8df0337c3d718b5d2b2aebe5276fe4158f095ef286528d4685f;
  0x932375aeaad0687091d43957bee1ce2b5d249a2bb4fb6ed91111066e17d0b860cf885d00ac110b0f2e0edb2fc2d3d67a;
  0x7fcef27ac5bcde694ce77ab2cc008aa810848415e1519c1b09a36a9ac85bd127818a2291d0b1bd5592a9bb35035e70;
  0x25369c1531d6fe18d231c6128888a84cfb418749b00f9a964436bf873e7a8a12f43f2393c86dd491fcee4142b41f520f;
  0x848f10ad38df1db5fe6cd77e648a31e2f5a4848c213462db29ac8448ec6e33a00a43ddc451b586cbd52d80af469a2d16;
  0xfd828d6683e1d8c70429fdddc84937da825513f2ddea6077944fe9b243666b2db3fda4687bd061d50d26800c6f459218;
  0x702967787416d28a3bbaa9ea7fa03db9db3b82bda01340b0ce45e7607459bf528644ac2bf064353f10a7c3ea701556d4;
  0x74e54848b6146942027c3708783e9cec9679f45bc1d0a0833247e22b3a200c9630e98b38447b1e3986bb79e17f52202;
  0xa1cb04efcdea687b98ca73f4fecab1ddd2c9504a0a0a6b2221596194e4e33259eca0bbb735ef31a43d87ace741a368cd;
  0x634a75f270ebc60dbff5e7fddc609fa2cc54f5a7cdb8e1eea9c839169c00288c29195e7e0c9e7ce2a87795516f39535;
  0x3a87b8ca30dae5e4676acdac368303c8b8d49f31b4cc629999e9239bf718af362aba3607fd69b777acabdfd2a1cdfe1;
  0x1943f4a34cf4e117e3a2319a723c4a195f8fdb71da5f852b121b52eb886eda6657caf63200b1572890f9bcbe095df863b;
  0x2956ff8ecf84879719dd30af068474a30ca3050c83c714a932e3def2e846eb6b91e71d4c1adf0e1128448d4449732c5b;
  0x1a7a3254a04acf3aee8419c52726bc198b0feb76a5f972b03914be8544dfc05f39a51a097048de49d95f4b06c320b197;
  0x31c9facf00ca0970ac9b8ec42e115725c0bfab5c6c20868a9d70f72d8cb42a1f41db200091a4268704acce5a317f5d71;
  0xc2468f324f60346d9f3175c9f49cb7ed1835c5823acea08397d1d50d5197c48702ae55b96e5652422d49901940a85745;
  0xee9d4d3e7fac87628cb791e33bfea46cdb4e24f21bac4d054db9f4310e28a944976ca32bf307d889adf82a20a63ccf33;
  0xdf86e678c73d98e7739bb7cdced539fc382e9f2587001c55a7ca33e803dd6e2be60e0d1532b55fcc14292f409cdaaebb;
  0x13ed9afef0539d4b9e2fbbddcb837a8b002a7131ee42f720423644d160ec7a13638d57d908fa295b7758f2c523cc7801d;
  0x90c4951d639e57bbac0ab0054c133773e5a9e60a5583e160cedfd281624ec84c239172cacf08164fca2a1535d4b6738a;
  0x15ea9124715dc59f410a25bb95896e380603e261ee728ab3d17d1bf23c86fb2ccd4d16e859723314fbc37a7a3ef21e3;
  0x1d971b4a92854728ac28409e7a21f2e4e24af403c345015548b90384e43da9cc778c0f6174fdd652abb3fba845dddbe3a;
  0xc616777034868eaee1b291e75ede491f6e9711956a830801e7e1f97f03f7667071eead61cf5eefcf61fa312aad3a1242;
  0x1a534184337b60b77cdca8a4a0233df3e149dcca04b123d4617756b0d7d68b638fe64d03cad1c81c8f1b8a57b816d807a;
  0x14469028b241b7552235da7234addba5997539308da30b29505734cbb074f6ad8095a6cd4be55da63978a2c76d20629ac;
  0x189dc8c6cc459d830d30911641c1aab2e347aabf5e90c0b2509a7682cfdcf4202c5dbffe485970b3319149f712b87bb1;
  0x1e026ffb6a6453833425ea8856f16a391358f26be69d658a19d0f93be9a49e72864e9b69d6d32a7975a0c39c32ea5f27;
  0x703e89d85b2c6eb62148b3600a50fc2edac9861583124428ba10b759f84e889f01f44c41069f0af1a28780064da0d88a;
  0x2a84f6a85ae0f91e29d401ab1ef9bf099f2215606abfec50ba10d28f4da2ae4fdd10e23f9a1fce18b8d7a41931459251;
  0xc05208b9a6b986c05a90fdfee985caf0f6efa8fea16cd8e9c4071556290c545809b86ca6488c1bf7282f3e56d860dc5e;
  0x62969843fc7b7c108d3af04158b7fb76b16d4aaaa499518e962ff7f6249fa1e72e98c9fe84bb9323172373688857e5a9;
  0x2e2877fc20617e33bfc3ac1a3296c9e98bba2d043a89e5c1b8ac98d9f2f8a26c160907e026d8c3a4a841df4bfe443d51;
  0x2842f988d9819a427a022a500218853066dcef48b7793c786b1a2cc0253ec6152d59b3ee97ac4583c41b32fdd3a8faad;
  0x18fc23e279cf5f346ccf52c9786ad26ff3971d3c486710863d811ff5a6dc5e5a1093b50dce629825f457627e0b44a4a5;
  0x1e618ca63a76c3bc2ff2d9ff025f965480311fd2ab3587e1282b9e13effaaf5d77655ba32b9980e636d2dd1518f0859cc;
  0x36210ba9d850a87f78c4171183a7e772c1537836e0e618964e3a0ef27b959ed5ff9d801ee32dded40700ea5e653d1330;
  0x25ac48e9a0369ab86c575150a788581725438e88d83dc5e07838b3ad49c267a08aee3e927352b54ce34ab58f38bffeea;
  0x75c4ae5504f6e17284b9a9a476440fd8eed0c8dd8a956ee9d4b951b1af95ad503709bd53fd13b1a3511ef58f2606e683;
  0x100c3c846380fe9bf2006ffa30a1990ab01cba59aeda9cd52cfaab06527316d946566246a13c5791e9c5fbfb8080656e0;
  0x33d3916fad7b0bfda4e6e6ec9a25d9adb5ee0819e89027fae37135f6a6f7d6b9caa9594f5cedbfd5ba7cdf189bc5d6f8;
  0xae22c5191f7f83642476eb15f1e7d8969e8b93b2cf0d7252a783e2c460e8463ab9f9dd59c3fb3ac19c0e70101eba9e2;
  0xc8c24022b32d6e8969d0773dd098c6175e92377e637cb46bd4625e02fb79dce261ce85e462c8b242d7287508209270ad;
  0x16d175a33ef57744f82e9a5ce02efdd50c1790e13ebf7e85a01ceda052d7fad253c28afee804835cda35306140b0ce35;
  0x14fe5b2d3cc7b9cf340b6c29d118eed40001ac819454b7e0c46c7efb7f4d516bd37042f837fa2c0844231149ba49dc74b;
  0x8b37b3b61f9e48363cdc6f93b19019f7af1ec3924e03fbae68e188f62a95af1b406bf724a326a147a8c044d263adaae;
  0x119ee868f038af1e0f6799f2d3588371ce63c6866a336b09e88812bdd4d6be5e5403a5d5f1058ded79ae5601702443333;
  0x6c69c440f18740acbda6d5a4d1d5ee2a1f43a4b8e4b3625f0213e9ce977e116f3cff559aed26fe97a5c67c29b7c74098;
  0x726662f00355b55973cdd5abc38edf22285a764ba52c11d7e3eb8a55bc24fc955f11e937802312bdc3dbe1c4ff722051;
  0x11fc24aff668474fe4d75787708207778cc7336a28ce5403d016357c3bf0ebc2c0549758e13f1df6256042085a0861f26;
  0x3704109b3a8f87ff3c636998ac9a99ba558670049543b3cc69b37f940a11c02bfb06eb08b1588f7155c2f72f00712dc6;
  0x7df9422097bbd71236e4fe6c22c798d6213e76185877743422f16034f9d5d78c8faaa22180e162ffab7fce55525815e8;
  0x928b68562d3fa208735f5c976986e01d1a75e98963497192f8b4894b99fb8a8de70284321b1445849a9daceb970c58e7;
  0xd647ae0d775dbaddfc20df4c2fcad1e8fe426e03d27b18b51119bb78743dd409ccf0f92d87946787ebba84622018a2c;
  0x1bb745795c0996dce8ea3d6b194a18e793524adb821f5cb14d7d76060a433d90d7b3e5783c8cd4d9b52d31a3de30e25a9;
  0xa3874c169a7cd0d74755f950b194e04d80c5bf4e50fc45d732ad924722bd060485a33e57b9ea147b5ff06e790fad0316;
  0xcac72f4f990500e9d8b5be4cbc08a9c774a6487b0b6e8e6023e49185b9e9368b8a96da6febf7dc4991f0061e845b1756;
  0xa93fbbc3b3f0e8d8c3acac8feac5e555e16e630c4496f86344c733455eacdc954e1ff0fb77359753602ea5c6cf323163;
  0x1db0b3d7deb473dc2a8166cc199c6dc87cb3a2108a7e819adb05b4ab09f9cccf4b545f554161cd7f7d2037b19b699396;
  0x142ba8ec5d378ca2aa3fc961067fd1ba257845ecbb24722b6d4e127a8b06656706d98cb9221e503178ed9b29fceeddc3;
  0x977cce9ca8b4f01a239e2e4191eb71ab1324c22e7545c5f968c6e09b80d3b9455eae6335b99ad62c4692b41b80f58148;
  0x6aa250fe924140bb5c89ad08a845c8dcd99adb85ca9529340110c6bd0320005fea8dd0f98d788c0b5b8f64ce3d1632d0;
  0xffffffffffffffffffffffffffffffffffffffffffffffffc7634d81f4372ddf581a0db248b0a77aecec196accc52971]
  [(0x192a43d8f8a55b860e20c52b200024fbdd5c39850b80be9fa08e6156d781713c6b252c7, 0xa2c3de7dca8795eaa3c8e8b8fe%positive,
  [0; 0; 0; 0; 0; 0; 0; 0; 0x8000000000000000000000000000000000000000000000001c4e593f05e4691053f;
  0x8d7180bd0d06308030770b1c9249f85b285c1617032ae3cf6aa2956fca849243950c6dc02ae3340df619921f3151142;
  0xa9c8ccdc08d848e8114aa3c0498c5ba6d037aa45ee445ca1b2c9bf630436107e2d6465e5b64b0e37586d30ffb2e24964;
  0x27cbb42d2a7c003482e16fac098678181cb7af5eaa809e472fb607790abed16d3e38abcb68b906239669f00c077f19ad;
  0xa1cb5be61a8d948c364f4847d03fcc54f2861ceb3039d7d756f27850529d264ba6b2eb3ae28d5ac9fc68915cd06f3004;
  0x1f65daed8865cea05119593658108ba05159cb4c484e7f8d1baf21da75ef505622052d04bd63169ae61f9cad2d1cd9;
  0x11e3cb1f37dcdb84a4c0636cd58d9025e424677f59fef84f22734c0dd745980f1cb4d42bed2ec2e30f16765a48322a83;
  0xc256eb968cf93336f5e0114081c3b03031507bfbaaa5441dc2afc62d43c97c24c72a717005062ea3e9f576ac774ccbe7;
  0x6a22289ae7625f667a2c14a2745092339abec58848f4f268b601f21e13a56083dd333fa07fb941c6bf33ee6d8b20d04c;
  0x1b49931f8e0c29e8acd10d863e4b3ecd9c810b42a0a9cfb8015cc1cb9af3574af87ff1f472b4503bdcec84b40adc6d3d;
  0x2f8dc1e617a49d7c291ebd80df6651fec1fb45dcffb4cacef8834532653aaac7c4712beba5a81e47459897d4bf66e;
  0x1148f17469517f43a92f2a7e1e8eede833240ce19ff29c5e17a67b178f7294a87b4885afb55da489993014390e80b6ac;
  0x13ab5c263d918759b7f84bd66021257cef4b06512ee822711af07868756477a2e812da06e5c9574f7a56faf810722fb29;
  0x27459502719ecc20e611644509f7ee4fa28e8f3f317bf3f8fa53d8dafbde5968da2a6f12d71181b73547fdab6355ebbe;
  0x3f99432509afd3893f34148a16624fcac0f2bc2be3fde962abcb1441f3d6d8472daac781f0a7c06335c501b9f7b3328c;
  0x1a7de9ed125cbde83d0cefbf2a9d2785da1f949ad3c82cf5a516ff7d0a73cb0242595cc645308019071e064d44807a50;
  0x155f51f2038af46d24bfb9e7b4d7a30190742cad9284d2a9136be754d302ffc3f699c667efb7c5a87d2cf17c5f92b8a83;
  0xdd5c58cb21ac6875493bc8dffdbec3a46c6588be961cb1347d0907c10ff01b70ca47243446be284fe5caca96c3f454f;
  0x43cd0d5a3692b2a0e402da922dd5c3a2358209566318eb995514c2333ab10834439050d6c76868df04be3b706833c597;
  0x96fe9e497322f66dfa0abd93627c3dafa40c50e3294f813bd6c755a183424d7024e3af8d5cae572a917f9130fe7f0e7b;
  0x4435dd7ddf86fb8f47dfda0994e5f2dc2c5968dd493cbf9aa43b5239acfe0545b4258cb180f99e2f9336ff1d7d42af7;
  0x192083a67cee288fd3ae65d6ecb2824ff7d5e58771e8e43bba4be99d3d92c5d9a07dd1231a9bd74e1358b4058072ebe3;
  0xed54f2a91e338b6c44f16d804a2972ffae77e77fd6a168a22b02b2d00531674123e49f21f1b893e4aec241d16d374d2e;
  0x1eb733dd609878015418e9c89ad4ad0b0d9e93fce2eb7c73327568768fde0a4c87b9a01b04778c6c6aecf2c57993871;
  0xd2d06e7ec008a0d2061bf812732ba1faa99078c40e7eedde9235d25f02a805853cd245917ec26a17b3c2419826bcc2a7;
  0x514321a4ca93ddaab48f764959cca3a6bcddec8fbcb2ee3d657a6ca2fd8ab562627078d167d7c96550c8abda09428cf0;
  0x7f2120f3114cccaed7ea9d2bb754ad04f2b65aa8dfa648abd5f3506fe2c8f326e557ed1fcda5698b8327ceda9a10ba17;
  0x78ed013f3b258499d1a615d0d26edbf66b01328547c1f3951dfd8a00741242b6c09d7c20ac822f188a1b62fadd5b2349;
  0x40f2d4adfdfeb85b972407f6c860455937ed8f4fc30c4134aaffc36e1a2a9a57e71dbbaf2db1d95386b20b1d49d0254c;
  0x16c2b0a02346838b4c1ad9ce811829cb096de17db38fb60bde5ea709e9b817c942a587ece2b7edc4d6bd4a0a652a2d5a2;
  0x2220f82c940e64573b075b4aaae799efc159709a3fa411f2cb67c1173671204cf9aec0c22d01a4557dd9da52aff1b25;
  0xf3706861a1c3ca84a093dd4ce7bffea81fc64a91beace218f9c2ba2c4dc698b51ea0cf918f440612e783b037c79d7dee;
  0x5b8a89f4296e52ac1b0057250a611b0adb003cbe3bb1e50414bd9a88aa1ae0ec50656581064752b6aac2f08f8b867ace;
  0xc510bab6fba7c3aad1da8ef2b9babee62cb2059d7de327100f66707210d909f36827966697769bbaa7a487a98eb4856;
  0x31d42000904f9384a683f866fc251cba26ed73434dd8f2ade27d634a75a9f324c7ec4f8cad3f93ea38c3b26af4736ca8;
  0x8d2930c67839c2b68e29632ec0049ec17a90af70a2976ebb42262ae0cefc13d8d1d7421c60e9bf2052a114a4203a670;
  0x2160d4f16f6cc01ce5be56e4af01ee99c4bb68cf6955432d406ddecfdfefdb8ebcd4d9de5fd57a1f8f8c7981d90b5c0b;
  0x1793e52691e0d34c74c2baa44a61096d6a2549029696d302aa03fbae92c936214b83f1bd37536f6dbd70c47318d99396;
  0x713be310eba63df02d46b6e4093357b165fe95553e129dc5bbb084a61f14a4ac086b5138595489bbd08fedf26d2b2e2;
  0x4a20ceba197c26918a587167e31e15088dc2ab1083ffb4a869f97ffcf46d475c409ca1414160c5da4e651e832eb77e86;
  0xdb72cd96bf54db6e5c57e737317d799cf6c75f40430b7704734e36f4f72aa06aa1d74c25be6b0989218ae3f132e760e8;
  0xf21c92502de70e0ac25418f1c816613d832ef4bf5ca9d90d06efa9820e092193e4acec408faad2958eddd5f5e63e9a86;
  0x169e18d0f235ae43cedd7749217f1f586931d3fcf97201e5c495723db8ef24f88cd1378cc7c66d085c68fc5b4b684d0;
  0x3098c347b3ef34589a6c3c3b4af32397a7ba6343cc247da7741cfcbd000b0185e7ce9938ce2370e8a26be2d6305d58e0;
  0xe3886bd7f403e72a8a2be4f7098393391f9d89ce77a2a644a407ba9d2d67f9526bb10cdccba8eb0ac6aebd8f746c8a1;
  0x7ed10974b83b7263b9b595819a4d188ae4e7578c66f30fd50ac17825e46dda86cbb88d1e878bea559bdfc2b70a4f9;
  0x56b589e3f9ac92a6e3241b7012afecaf7dce4e043a03092930f01f4e32c0c29e6507c83661f27df84330e17c95146d3e;
  0x2e170db640ec953a6ee48b030f9cf97213fc9b65f343c53a8191a88ee8c28db183a8d00e2f2b2ddd5581f17d99054551;
  0x733fcd2cec88c8dd156773ba1b64ca341584bab39934014afca4827661f239bca0d7fe33096fef5c2615caa131c9af1;
  0x1048f8713b04e57b4ac05f82c7b9bb9d269541b6fe1cc6c8ffd800bf072720f8e477cae6ffc696f0d40517f92a7d71584;
  0x62080a119a53ed798d44ab9a69e5295d963cccc6eaa8f9182c4b425849309a5e505bf3551a661a902754ceca403a0d4c;
  0x57575cc7342cf73d46686ee1a7f97ed1ce75d0129680cfd40bc3b209ad6be32325a169ef473de213676ba66ff597b47a;
  0xbc439ef2f7b09a68904a172c61e05dd87ccbc87016ca64b55438fa5fee257bc9dd164e548d514ec8a5d6960dac8839da;
  0x1472d3f69e157b34659b3f91f34d91d7f7b3dbe8a158794e2f0a41894a7d4218eb3ab196ac6a4f4d3dda4dc13644614e;
  0x22a50656ee5f62a4451d1feccaf91827c42b7413fc6c53039b52a6fce0ff2a9b0372063b9dcd54ef03a313e1d315f2be;
  0xc23a44905470bbb5956eab61d3ef023333af5993167e3977ed174a2606efd7211fc54b94db1926aafcdb66c541737151;
  0xace430d79fe1b0e4caf4748e5ff96a6979e0a44c2f075b9518295da454fdc67cbd788bd6a9710242947b29c721f78c07;
  0xdb16827955ba9b29d60582f15095ac081bcb99e97ad39e642edeee8eee56b9705fbe65fb894311b6ec51f3e42e706f69;
  0x9e86fbb50a79a8eebcd7288a178a0840524c726010cbed43cea12150bec4c229c40de3d6d590aa658dea4611767e16c9;
  0xa26201b19bad861d805e7f0e0b80d9196e93155924093cf7989a7a881c2be345d72eb2d3de66c39b2fa38d71e07d37fd;
  0x7392c65a9f073bdc7cec3618b5a9fcb60e9a9db2f023ff31839b7c48aa0c725212573915882b6f69ab4a8ad19c9ce53c;
  0xac5bdf715d1c32fb46c6f0a60c957f38cfe276dfc912f23847888928922b8edeb4355e0d1b2d88e949b08a2805460159;
  0x72c54c8ab2a5d5b3a9023842a238b7ab0fb5ea348a31c007510c30a7f93c5537c0e5b900e5c1bc8e977f3482e670a4e5;
  0xb83c7087fd8e485f90aad2d19a76f42b977fb05f3f47a7b313750828502ae5c7600cd541f49005e6c5a6d0ea10175ba7;
  0xc37037faa3f73d0bcabc8da48b875a74d8abe61b28c3ddeb2c2e0cfb2723fd75f164ee582690696b4bef23be015f85e1;
  0x2101ec13b09eaa1e423af83634f5e2155b230a730c4822c2318d526a12251ddd6d79b6e003ef70f864c1e368cf1af287;
  0xd66ed66095737a755909dff7e2dc59b91c7aa577484f7535056b4639aafe439691e20fab180251f7ec5ebcc2ac341307;
  0x1ae4cb0d4150a6f14426c31dfb71b49cc38afa115af7c62c5fd2e34bc60c7a9f65ca6c0d0f2d806a4c22cab90ba700cd0;
  0x18105f1285f18d4b3267b76df4d46354d3a8965fd7635a44feba5f6282301d92f6f56f5a3eba3ee64588d0d84c2361e;
  0xa38806062787998d26d5922f419dbd94bb5fb74bff81ec2b7e8b588f880b622e1409d67746305f55bb733145e669a09d;
  0x1e98500237d1fdc723392fce3acabf3afe9d4b204122bc84b8a287b898573d9155e1e2f5b7dd4e8f526122ab0818f1c0;
  0x3674b053f9edb7dfddf42fecb55d76e4c419302c15f2242e72237c21454c5384610ccd13a517f286155ee0b5240025d7;
  0x1e08401f8d38360b2a9d1c554ea9ba9301a624f6d1a7a9b1ca0b8948365bdfd23fb8a3322c6c20808275c40c01e9deae;
  0x49d9f8632e4566e26decbb78497eacab293863d446e1d40d4020fba043127a67d7590e679c2cf5fa3b641398f20a91d8;
  0x21e470603a6674864614513f9074b86449876b9e7e9ad8e7e9432c2584a9c6c83de243bc648976a8a779398140b56aeb;
  0xb3e35f787961c3383aa27d51baa009b5c38e5b95e205b818b71ac32bdbbb30ec72e94ca3414eee6e4f23ca727bc6eefb;
  0x3dd0c2cb543af1488ffb608a67bd71f2d94a6c10a7033c86a797c8f68c75530e175d8533424d8c29fcb6850d1ffe5110;
  0xf04328ec1f8642007f298e2370d50deed0e2462573d01ce797fd9fc64274a6346bc5d18e76f7f85f906392771ec671f;
  0x2c93e6a6ceff942d11d8b99622dfedc73f95ba7aa2acd4f8ad2ba907e5360db52c19c7059a0df11a7c4db0972cc491bc;
  0x1733f781c6749e513e86b26121e6bf0a6fb018d17003aefb2f1d4dbea2961980013ebc4b67b7c9b6b6830157028f81740;
  0xcbcf263280c86f9621d9aad8649dd85325b342f6e8f9898d371c9f03e839dc0e38032104f75784f121a68024b9b3e37;
  0xcbaedb9c808f406c1f067333a759f73755038e58f291b540af8a44b51405f60e16b9d739ac20e67e05a67a0c5d5a9383;
  0x1fc403ebcb6dbf0e20803f6b6fecf1f426e505edc03c52b4c9be5a8b2c00a6e8ecf85efd95e3461910cc110e21d945c0e;
  0x4a1d26c26e03180f1acb222733f5c0dd006337fcb99c9e02cc5bf36566bcf56e17182f5e85f600679fc895fc658c9b;
  0xd4ecb853ecf7d770c7865b5bc797495fcd4237e27a521c1fadab02514d28483cf4b08e6f688a4ad35ef34674a241c06;
  0xfbfe1d5b4146d88a60ddbfa8ce61989706e2ee2165f31e8d8e0b0a64810ad09aef3fc922e225bb28362466f68e237374;
  0x5eb00140ef562515891c790d27e8624d0f101d0131222f4e8e229f39daeac936af85bea01028ec7009f1928cf32b58;
  0x56e407e6423e61258739d2e8d8e7e5cd8a7d9e563b6bb6d0b2d1662a672e1d4f4661dd5f67dc95ca5b0cc4c24a8e270d;
  0x18d3b3ade8f9d296a0f94fa95e2cdf92b38094448693de08e5d057d587660560cf229a96578568df6bf510b2d5a3cba50;
  0x19aadb3241c0cbcbfec54594e6fdde7cf61b8f1ea3b08419bc3ceed335926e8907ebace09efa0c569ae4f25e5c22f2d3b;
  0x7e699bfc7e24dc366676d94ef3ecc5706146dae70f6292a7d97be79ba98f79db421d30cbcbfcb12a6351d9bbabed9a79;
  0x25043edaf7f71d07cf73cdac0c38802ae55a173e75f2d55f15f351bd9aec8a94ccfd9aeb762196fc3fa7a2c314c07fb5;
  0x6c6f6929351112668ff548afd7ac1c4fef599bb0550bebb37f3bff832460c76aa8c43310260977e509448258cfc48565;
  0x275fc71a0103a5830fefc214ffb48ed03a1c08c44e8a7a3d7f18db869cd5e7e74d689981fd85762a1467f8efe9976140;
  0xf75de0e6f4ccf0e9f2d721f58e2a21ed6ca92d133613168e9f4ce9a8da334555db1db370081f45ebc24a52cd244f3b05],
  0x2b78e1961b91dbb816ba41c28e1064448e9c0d800b52e1a4bcf9862944aa360d5dbd3150f705e597a8ce1b9703432111,
  0x20e742343436511adb57aef2da815fb5971ee7a348108a844af54e101af8bdcb7513eb3eb44c8c99521358a3a2266af1)] mul_n384_ok).
  - cbn [map fac_q]. constructor; [exact prime_305546578814_85|]. constructor.
  - vm_compute. reflexivity.
Qed.
