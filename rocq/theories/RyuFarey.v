(** * Witnesses for the exactness of Ryu's products (generated by scripts/gen_ryu_farey.py).
    Entry for a binary exponent: (a, b, c, d), two neighbouring fractions a/b and c/d around the exact factor and
    the ones from the tables.  Nothing is assumed about them; they are checked in [RyuScale.v]. *)

From Coq Require Import ZArith List.
Import ListNotations.
Open Scope Z_scope.

Definition ryu_double : list (Z * Z * Z * Z) := [
  (0x6017bc6d3fc8281, 0x7c79de6c0dd6cc, 0x74ff612b3d3830, 0x978e403f788bf);
  (0xb7d7454dadb24c1, 0x7712474dd41fe0, 0xe9fec2567a7060, 0x978e403f788bf);
  (0x10f96ce2e1b9c701, 0x57f3cfb2d0aa2d, 0x12cd6a678eaea7c1, 0x616cb3b6c832ec);
  (0x21f2d9c5c3738e02, 0x57f3cfb2d0aa2d, 0x12cd6a678eaea7c1, 0x30b659db641976);
  (0x3077cac70f42e0d, 0x273d75d76c90b7, 0x9b6f4623bd21d9a, 0x7dd75fc2aecd29);
  (0x60ef958e1e85c1a, 0x273d75d76c90b7, 0x12cd6a678eaea7c1, 0x79c7e0a47a3fa7);
  (0x24fa56723467bc0f, 0x77c021155ff8e6, 0x18dc63c0709703db, 0x5082ab3df3682f);
  (0x72511f1ad4c1dd5, 0x73b0a1f72b6b64, 0x4f8e0c016849a5f, 0x5082ab3df3682f);
  (0x72511f1ad4c1dd5, 0x39d850fb95b5b2, 0x9f1c1802d0934be, 0x5082ab3df3682f);
  (0x1b0894f2075e8751, 0x6d6ed3bbbe4308, 0x13e383005a12697c, 0x5082ab3df3682f);
  (0x4f23c422c39667, 0x641ce3b6d285c, 0x637a6a545015aa0, 0x7dd75fc2aecd29);
  (0x4f23c422c39667, 0x320e71db6942e, 0xc6f4d4a8a02b540, 0x7dd75fc2aecd29);
  (0x4f23c422c39667, 0x190738edb4a17, 0x192dbe5936c900e7, 0x7f67d3518a1740);
  (0x4f23c422c39667, 0x7d241ca487273, 0x5092611d7c1ccfb, 0x7f67d3518a1740);
  (0x5a76d9a1d48f9c9, 0x47862b730d7e13, 0x5092611d7c1ccfb, 0x3fb3e9a8c50ba0);
  (0x105801461253c08d, 0x676020477003e3, 0x5092611d7c1ccfb, 0x1fd9f4d46285d0);
  (0x25b9289dfc694e15, 0x774d1ab1a146cb, 0x5092611d7c1ccfb, 0xfecfa6a3142e8);
  (0x78b6e85ff4842d1, 0x774d1ab1a146cb, 0x5092611d7c1ccfb, 0x4fa0e412f64e88);
  (0xf16dd0bfe9085a2, 0x774d1ab1a146cb, 0x5092611d7c1ccfb, 0x27d072097b2744);
  (0x1e2dba17fd210b44, 0x774d1ab1a146cb, 0x5092611d7c1ccfb, 0x13e83904bd93a2);
  (0x4057c640f85e376, 0x4f7ca8a8261f87, 0x5092611d7c1ccfb, 0x63891d17b3e22a);
  (0x80af8c81f0bc6ec, 0x4f7ca8a8261f87, 0x5092611d7c1ccfb, 0x31c48e8bd9f115);
  (0xd141ed9f6cd93e7, 0x40a09b9a00084e, 0x17266afda6512ddd, 0x72652a25d9f963);
  (0x99f6f1417531fd, 0xedc0d0e261739, 0x4a89da86264d811, 0x731a533beae468);
  (0x133ede282ea63fa, 0xedc0d0e261739, 0x97855326e0e67f9, 0x74fd5dd68dcf18);
  (0xe480cbc79b7f7e1, 0x5836c9079315fe, 0xbe030f773e32fed, 0x495abbf96cfec5);
  (0x26086eab617e57bb, 0x7576207d3689c4, 0x17c061eee7c65fda, 0x495abbf96cfec5);
  (0x6b49560ee793e4d, 0x678b98bc61e7e3, 0x1e4ddd6e2cfae65, 0x1d3f5775a373c6);
  (0xf4e0898bfc22aff, 0x762b447733a1c6, 0x1e4ddd6e2cfae65, 0xe9fabbad1b9e3);
  (0x1e74f74fd63f9e27, 0x75945126e0b86f, 0x3c9bbadc59f5cca, 0xe9fabbad1b9e3);
  (0x30f9b51bff3a233, 0x3b15a23b99d0e3, 0x3c9bbadc59f5cca, 0x491e5aa618a16f);
  (0x6d956ff8592fefd, 0x4219fe70d93929, 0x793775b8b3eb994, 0x491e5aa618a16f);
  (0xdb2adff0b25fdfa, 0x4219fe70d93929, 0xe6cce5b10d1b891, 0x459c2c8b78ed4c);
  (0x2bd55ffcf079932, 0x4219fe70d93929, 0x377765bd4b353c9, 0x53a4e4f5f7bdd8);
  (0x57aabff9e0f3264, 0x4219fe70d93929, 0x8f2225b72c2862d, 0x6bec70ebd51815);
  (0xaf557ff3c1e64c8, 0x4219fe70d93929, 0xe6cce5b10d1b891, 0x570337ae57289f);
  (0x15eaaffe783cc990, 0x4219fe70d93929, 0x1962265a4cf01d59, 0x4c8e9b0f9830e4);
  (0x6afcc2eb07984c1, 0x64d62705758b21, 0x513a14542966c45, 0x4c8e9b0f9830e4);
  (0xd5f985d60f30982, 0x64d62705758b21, 0x513a14542966c45, 0x26474d87cc1872);
  (0x1fd2d200047c7f49, 0x77f9cdc95b975a, 0x513a14542966c45, 0x1323a6c3e60c39);
  (0x45583177fdcbaf3, 0x51b280418f7ee8, 0x513a14542966c45, 0x5fb241d37e3d1d);
  (0x45583177fdcbaf3, 0x28d94020c7bf74, 0xa27428a852cd88a, 0x5fb241d37e3d1d);
  (0x18a4082c8a366c07, 0x741ee1e3e21cd7, 0x144e85150a59b114, 0x5fb241d37e3d1d);
  (0x45583177fdcbaf3, 0x661f2051f35ea2, 0x253e62e02200bd6, 0x36d901b2b67da9);
  (0x45583177fdcbaf3, 0x330f9028f9af51, 0x8fd4f73841cd29f, 0x69e891dbb02cfa);
  (0x11a855a283d64885, 0x6803d916d1c5ce, 0x8fd4f73841cd29f, 0x34f448edd8167d);
  (0x23a2f4898c0fedc3, 0x68f6357940f964, 0x11fa9ee70839a53e, 0x34f448edd8167d);
  (0x720974eb59cc927, 0x68f6357940f964, 0x3b970499d0012f0, 0x36d901b2b67da9);
  (0x720974eb59cc927, 0x347b1abca07cb2, 0xe9377e1ef9cef07, 0x6b541c6f56fa5b);
  (0x720974eb59cc927, 0x1a3d8d5e503e59, 0x1d26efc3df39de0e, 0x6b541c6f56fa5b);
  (0x16ceb0fbdec283b, 0x1a3d8d5e503e59, 0x6583ec800775a5e, 0x74cbb847aefe37);
  (0x2d9d61f7bd85076, 0x1a3d8d5e503e59, 0xd78d616b6142385, 0x7bffbd8fa01afa);
  (0x5b3ac3ef7b0a0ec, 0x1a3d8d5e503e59, 0x18e02e94a575655d, 0x727af984708a2f);
  (0x549c6539cc00d63, 0x79aefecc61a6f2, 0x69e5eb5af09389, 0x984c40b2f90cb);
  (0x549c6539cc00d63, 0x3cd77f6630d379, 0x61d922a52a13475, 0x465c4371606444);
  (0x10b11ed18c214f3b, 0x6005a11ee1059b, 0x61d922a52a13475, 0x232e21b8b03222);
  (0x277fcfcd6ae3d2eb, 0x719cb1fb391eac, 0x61d922a52a13475, 0x119710dc581911);
  (0x7b2d7be239d8ef1, 0x6eb7c3872b0da2, 0x1391d3baa203db1, 0x119710dc581911);
  (0x117bc19b749f7c79, 0x7db82534f5eb15, 0x2723a7754407b62, 0x119710dc581911);
  (0x229b5adec262dc27, 0x7c6ccd9daf4d46, 0x4e474eea880f6c4, 0x119710dc581911);
  (0x3fc659d5b5ffe5f, 0x47a79b08a70213, 0x4e474eea880f6c4, 0x57f3544db87d55);
  (0x8e0da8c03e0f523, 0x4fcd77ab2fbfb4, 0x9c8e9dd5101ed88, 0x57f3544db87d55);
  (0x8e0da8c03e0f523, 0x27e6bbd597dfda, 0x1c72ae46a5e4d033, 0x7fda1023505d2f);
  (0x169bf2eaeb96745, 0x1fc0df330f2239, 0x4a39cfff7b4bf54, 0x683f0d92c9f897);
  (0x8e0da8c03e0f523, 0x63c0d595fbafa1, 0x60d5c2ea66e2699, 0x43fff662ec8d68);
  (0x11c1b51807c1ea46, 0x63c0d595fbafa1, 0x60d5c2ea66e2699, 0x21fffb317646b4);
  (0x2990c65eb5f1fb25, 0x74c0d32eb6d2fb, 0x60d5c2ea66e2699, 0x10fffd98bb235a);
  (0x4ae89f6f3bb1b12, 0x41c0da648568ed, 0x60d5c2ea66e2699, 0x54fff3fba7b0c2);
  (0xf6a701c8de45cbd, 0x6c40d46259414e, 0x60d5c2ea66e2699, 0x2a7ff9fdd3d861);
  (0xf6a701c8de45cbd, 0x36206a312ca0a7, 0x1b852879dac0a9ef, 0x60a0642f007908);
  (0x6d41e64df5cf501, 0x77e14495b20994, 0x1c23352cf2a72bb, 0x1edf89ca7b101b);
  (0x6d41e64df5cf501, 0x3bf0a24ad904ca, 0xa58850a7db1da77, 0x5ad02c155414e5);
  (0x6d41e64df5cf501, 0x1df851256c8265, 0x1b852879dac0a9ef, 0x78c87d3ac0974a);
  (0x2b0b5fa46af6a6b, 0x3b0969a5ca7714, 0x423686a98ad8a96, 0x5ad02c155414e5);
  (0xaf786cf780a7f97, 0x7854e0e839506f, 0x846d0d5315b152c, 0x5ad02c155414e5);
  (0x15ef0d9ef014ff2e, 0x7854e0e839506f, 0x133e57a4a96594c3, 0x6992867ec6b2aa);
  (0x2bde1b3de029fe5c, 0x7854e0e839506f, 0x133e57a4a96594c3, 0x34c9433f635955);
  (0x93ab0af15a658fd, 0x7e95074ea06e2e, 0x3d944ba88478427, 0x34c9433f635955);
  (0x10ed3a242635614b, 0x7413c6e6b3906c, 0x7b28975108f084e, 0x34c9433f635955);
  (0x20524d0e475371e7, 0x6ed326b2bd218b, 0xf6512ea211e109c, 0x34c9433f635955);
  (0x362a53a6e0aad0f, 0x3a09e37359c836, 0x53d233ad6fe096f, 0x59d0a5e2e36607);
  (0x362a53a6e0aad0f, 0x1d04f1b9ace41b, 0xddcebb01c06bfed, 0x76d5979c904a22);
  (0x6c54a74dc155a1e, 0x1d04f1b9ace41b, 0x1b678099d4317429, 0x7574af41a1ed47);
  (0x2a4d93a440fbb4f, 0x38a8fb186b6b5b, 0x420713a98059ecf, 0x586fbd87f5092c);
  (0x96a23af2025156d, 0x64e0d9dc65eff1, 0x420713a98059ecf, 0x2c37dec3fa8496);
  (0x16f4b898d84fc9a9, 0x7afcc93e63323c, 0x420713a98059ecf, 0x161bef61fd424b);
  (0x2fb75ff868718283, 0x7fd232c5295fff, 0x840e275300b3d9e, 0x161bef61fd424b);
  (0x63debcf9b4567db, 0x539a54012edb69, 0x840e275300b3d9e, 0x6e8bace9f24b77);
  (0xc7bd79f368acfb6, 0x539a54012edb69, 0xe7ece44cb50a579, 0x61130075909370);
  (0x18f7af3e6d159f6c, 0x539a54012edb69, 0xe7ece44cb50a579, 0x3089803ac849b8);
  (0x4fe563faf6ab97c, 0x539a54012edb69, 0x48221c56c7b3281, 0x4b7ad9238bb9c6);
  (0x9fcac7f5ed572f8, 0x539a54012edb69, 0xe7ece44cb50a579, 0x7957c092f4b84c);
  (0x13f958febdaae5f0, 0x539a54012edb69, 0xe7ece44cb50a579, 0x3cabe0497a5c26);
  (0x11882253078734b, 0x16ee73b7b47f43, 0x5babd1b478d0b21, 0x77e7c3b1bfd2a6);
  (0x231044a60f0e696, 0x16ee73b7b47f43, 0xa1cc5b0096ed84d, 0x69d0c94848e7d9);
  (0x10afd28f2c418c0f, 0x574e1237b332d1, 0xc4dc9fa6a5fbee3, 0x405f9e7ffeb38e);
  (0x2dad6f18c2e2d701, 0x777de177b28c98, 0xc4dc9fa6a5fbee3, 0x202fcf3fff59c7);
  (0x1c0d03b80c0b878, 0x16ee73b7b47f43, 0x8cc298368de4df3, 0x731224d093c25d);
  (0x11903aaceca1e84b, 0x72dd33b38d1f56, 0xe0e9a35eb20775b, 0x5beebffbd8a013);
  (0x11903aaceca1e84b, 0x396e99d9c68fab, 0x1c1d346bd640eeb6, 0x5beebffbd8a013);
  (0x3833eef6286c80f, 0x396e99d9c68fab, 0x709bacf87183e5c, 0x731224d093c25d);
  (0x7067ddec50d901e, 0x396e99d9c68fab, 0xa8cf9bee99f066b, 0x56405f552d2904);
  (0xe0cfbbd8a1b203c, 0x396e99d9c68fab, 0x1899f57c73ba26a7, 0x648ec9845d242d);
  (0x4e9005848b64923, 0x6459d867568126, 0x168fe59a83a2f52, 0x1cd1c57b669959);
  (0x4e9005848b64923, 0x322cec33ab4093, 0x7bafd0b992aa7c7, 0x4efeb1af11d9ec);
  (0x118cfdbc2a973a0d, 0x59ac450b342d89, 0x7bafd0b992aa7c7, 0x277f58d788ecf6);
  (0x261cdaab522e5c1, 0x3cda7f8fcd9430, 0x2ac97b07203e103, 0x44511e52ef864f);
  (0x261cdaab522e5c1, 0x1e6d3fc7e6ca18, 0x7bafd0b992aa7c7, 0x62be5e1ad65067);
  (0x11d7c7c1e778354f, 0x71f4fdfec9b573, 0xf75fa1732554f8e, 0x62be5e1ad65067);
  (0x214dc1d919cd84dd, 0x6a59ae0cd002ed, 0x1eebf42e64aa9f1c, 0x62be5e1ad65067);
  (0x79d12a2e7371013, 0x79904df0c367f9, 0x53b44f832142a52, 0x5387be36e2eb5b);
  (0xcd8579b194b3a65, 0x668c0613d329aa, 0xa7689f0642854a4, 0x5387be36e2eb5b);
  (0xcd8579b194b3a65, 0x33460309e994d5, 0x14ed13e0c850a948, 0x5387be36e2eb5b);
  (0x617421bec2c0cdc, 0x79904df0c367f9, 0xa9d36340f320ad, 0xd3d7350091837);
  (0xc2e8437d85819b8, 0x79904df0c367f9, 0x6c1157f2d1f2d89, 0x4366e0a0664018);
  (0x185d086fb0b03370, 0x79904df0c367f9, 0x6c1157f2d1f2d89, 0x21b3705033200c);
  (0x419c7f22952aad5, 0x664df100d22729, 0x159d1196f6ca2b5, 0x21b3705033200c);
  (0x98d60fdc211f85f, 0x7727a928ebb72f, 0x159d1196f6ca2b5, 0x10d9b828199006);
  (0x14749314f3909373, 0x7f94853cf87f32, 0x159d1196f6ca2b5, 0x86cdc140cc803);
  (0x275e02790b817959, 0x7ac4472ad5b7ae, 0x2b3a232ded9456a, 0x86cdc140cc803);
  (0x6409f2ce2fdee9f, 0x617db2eeaf5fa5, 0x2b3a232ded9456a, 0x2a204c643fe80f);
  (0xe5b85c57f89bedd, 0x6fef4c0db78be9, 0x5674465bdb28ad4, 0x2a204c643fe80f);
  (0x1e9152f6b8a15f59, 0x7728189d3ba20b, 0xace88cb7b6515a8, 0x2a204c643fe80f);
  (0x5be35823303e5f2, 0x6fef4c0db78be9, 0x28829a4a43097db, 0x315918f3c3fe31);
  (0x8465f26d7347dcd, 0x50a43280bdc50d, 0x510534948612fb6, 0x315918f3c3fe31);
  (0x108cbe4dae68fb9a, 0x50a43280bdc50d, 0xd56b2701f95ad83, 0x40fea5ba40e19f);
  (0x53c93947893c793, 0x7f94d8d4346f57, 0x20687b6e9c0797c, 0x315918f3c3fe31);
  (0x7431b4b6254410f, 0x5876f8e3fc36c4, 0x40d0f6dd380f2f8, 0x315918f3c3fe31);
  (0x7431b4b6254410f, 0x2c3b7c71fe1b62, 0xf5d3a27095626ff, 0x5d949565c21993);
  (0x7431b4b6254410f, 0x161dbe38ff0db1, 0x25fd8f9975008f0d, 0x73b2539ec12744);
  (0x7431b4b6254410f, 0x6e94b71cfb4475, 0x33da5f17600c260, 0x315918f3c3fe31);
  (0xe863696c4a8821e, 0x6e94b71cfb4475, 0xa80c13cd855036f, 0x4ff6e8085fa153);
  (0x1906f7d39cfd858d, 0x5f45cf92ad72e4, 0x15018279b0aa06de, 0x4ff6e8085fa153);
  (0xcde4452f43e623, 0xf4ee78a4dd191, 0x687759c5de3d868, 0x7c464070656a6d);
  (0x19bc88a5e87cc46, 0xf4ee78a4dd191, 0xc28b380a8bf235d, 0x73b74a9c4312b2);
  (0x1906f7d39cfd858d, 0x7717437758cf9d, 0x15cf66bedfeded01, 0x67c85bed0afe0c);
  (0x3379114bd0f988c, 0x4c8a85b38517d5, 0x31340eaadf62595, 0x492a8cd86f5aea);
  (0x9826314281556ad, 0x711fcc1fbcc54a, 0x31340eaadf62595, 0x2495466c37ad75);
  (0xfa8e4e98401a1d7, 0x5d252c7c16101a, 0x62681d55bec4b2a, 0x2495466c37ad75);
  (0xfa8e4e98401a1d7, 0x2e92963e0b080d, 0x1bf5e8943bda382b, 0x5327dcaa42b582);
  (0x8477c4fe27fae0b, 0x7b1d1bf1901fe2, 0x275cd888b2b5144, 0x2495466c37ad75);
  (0xd331760f8d65093, 0x6223d464ffbd66, 0x4eb9b111656a288, 0x2495466c37ad75);
  (0xd331760f8d65093, 0x3111ea327fdeb3, 0x170a4d83258395a3, 0x55a7309eb78c28);
  (0x34fcb532766459e, 0x3d8e8df8c80ff1, 0x69380baaa09c557, 0x7a3c770aef399d);
  (0x9e34c0dd1700af5, 0x5be58281dba4c7, 0xd27017554138aae, 0x7a3c770aef399d);
  (0x13c6981ba2e015ea, 0x5be58281dba4c7, 0x170a4d83258395a3, 0x6b10fcc6656f32);
  (0x1ff17fa9efdeaf3, 0x2e6313b43e4586, 0x542cd6221a16aac, 0x7a3c770aef399d);
  (0x1ff17fa9efdeaf3, 0x173189da1f22c3, 0xa859ac44342d558, 0x7a3c770aef399d);
  (0x1082e2b4203c9631, 0x5fe88a4ca650f3, 0xc84b2bee240c04b, 0x48b70072872e30);
  (0x2105c56840792c62, 0x5fe88a4ca650f3, 0xc84b2bee240c04b, 0x245b8039439718);
  (0x5b2b083f87004c7, 0x52be93ed81dc9e, 0x369011d74e85dc2, 0x31857698680b6d);
  (0x5b2b083f87004c7, 0x295f49f6c0ee4f, 0xc84b2bee240c04b, 0x5ae4c08f28f9bc);
  (0x17ea13c6d320c9d9, 0x56d1aa3e556b2d, 0xc84b2bee240c04b, 0x2d726047947cde);
  (0x4c86a5af7068ec5, 0x56d1aa3e556b2d, 0x2f3de08f433a2c1, 0x35988ce93b99fc);
  (0x990d4b5ee0d1d8a, 0x56d1aa3e556b2d, 0xc84b2bee240c04b, 0x719df0b2f3382b);
  (0x16158774d04dddd5, 0x6437cd78a451ac, 0x1909657dc4818096, 0x719df0b2f3382b);
  (0x58cac0f78c64e69, 0x7deb28fa946278, 0x972c6830d7208d, 0xd66233a4ee67f);
  (0xa460f50ff7f52d1, 0x748e216685cb38, 0x12e58d061ae411a, 0xd66233a4ee67f);
  (0x16158774d04dddd5, 0x7d45c0d6cd6617, 0x25cb1a0c35c8234, 0xd66233a4ee67f);
  (0x1872391593aa6009, 0x4555f2088e264b, 0x1d2b9c571a636471, 0x52bc1542dd0cca);
  (0x8624e0396688441, 0x76e5634b897108, 0xf1e0a6b48b6748, 0xd66233a4ee67f);
  (0x11d51486a3da8d11, 0x7e7161c94f38ff, 0x1e3c14d6916ce90, 0xd66233a4ee67f);
  (0x1780586edf1ef8c1, 0x5351e5bc1df63e, 0x1b47db09b14c95e1, 0x60b808f66cdcbd);
  (0x6df4cf8dbefdf01, 0x79d275a9ce004c, 0xc180855d3c52a0, 0xd66233a4ee67f);
  (0xe6e522e804b1941, 0x7fe7eaf87180a1, 0x183010aba78a540, 0xd66233a4ee67f);
  (0x15fd576424a65381, 0x61734d8dfe008e, 0x1903597999979e01, 0x6ed970c84ce70d);
  (0x465de473a87aa4d, 0x61734d8dfe008e, 0x306021574f14a80, 0x42feb0238a807b);
  (0x465de473a87aa4d, 0x30b9a6c6ff0047, 0xa71e272246a3f4d, 0x73b856ea8980c2);
  (0x8cbbc8e750f549a, 0x30b9a6c6ff0047, 0x133d9f00997993e7, 0x6a95d23c43c0a8);
  (0x1197791cea1ea934, 0x30b9a6c6ff0047, 0x24d5181d83983d1b, 0x66048fe520e09b);
  (0x6b4f5aad42d47f1, 0x5ce20b36db2081, 0x42d8dc741c41952, 0x39dc2b7544c061);
  (0xae2837215f16143, 0x4b5f1b560ff071, 0x85b1b8e838832a4, 0x39dc2b7544c061);
  (0x15c506e42be2c286, 0x4b5f1b560ff071, 0x133d9f00997993e7, 0x429da365aa5869);
  (0x55d9155768a9ff4, 0x5ce20b36db2081, 0x2d62971e4217155, 0x311ab384df2859);
  (0xabb22aaed153fe8, 0x5ce20b36db2081, 0x833bac75aac1149, 0x46fe5f5ddd246d);
  (0x12eedd7247c15131, 0x51f0354a5c2277, 0x1067758eb5582292, 0x46fe5f5ddd246d);
  (0x3c95f7d418d103d, 0x51f0354a5c2277, 0x50b5716f0b0f1db, 0x6d273cf63d4ebc);
  (0x792befa831a207a, 0x51f0354a5c2277, 0x50b5716f0b0f1db, 0x36939e7b1ea75e);
  (0xf257df5063440f4, 0x51f0354a5c2277, 0x1430d50bf6e532cf, 0x6d3a0487eb7626);
  (0x1e4afbea0c6881e8, 0x51f0354a5c2277, 0x1430d50bf6e532cf, 0x369d0243f5bb13);
  (0xb1bcd739e247, 0x963c8d713b5, 0x9764cc7ac26b5a5, 0x7ff801f9b9da18);
  (0xa18c364670f8a8b, 0x44469bc728eec5, 0xa175feab89bc5fd, 0x443d37fe51db10);
  (0x143186c8ce1f1516, 0x44469bc728eec5, 0x1e48e6b386badb13, 0x666537c651dc4d);
  (0x60f22bafa53ada3, 0x666e9b8f28f002, 0x2041e97df240c2d, 0x2215383651d9d3);
  (0x60f22bafa53ada3, 0x33374dc7947801, 0xa175feab89bc5fd, 0x554c85fde651d4);
  (0xc1e4575f4a75b46, 0x33374dc7947801, 0x1635a560ad432143, 0x5ddd90c687a0eb);
  (0x26c744aca87df0e, 0x33374dc7947801, 0x53e7755238c07e1, 0x6ed0b36b96dc90);
  (0x4d8e895950fbe1c, 0x33374dc7947801, 0xa175feab89bc5fd, 0x6a9fa77d5fe649);
  (0x9b1d12b2a1f7c38, 0x33374dc7947801, 0xef048804dab8419, 0x4eeb7aa27a2f25);
  (0x2c05bc01cc09f8c1, 0x7448b1fc9bcb94, 0x18a219ab77cb0051, 0x41116435075393);
  (0x98931ab57875eb6, 0x7df1bc7bd7b0df, 0x4ed38557e5bccdd, 0x41116435075393);
  (0xe766a00d5e32b93, 0x5f8190586f8239, 0x9da70aafcb799ba, 0x41116435075393);
  (0x1850daabd29ac54d, 0x50497a46bb6ae6, 0x13b4e155f96f3374, 0x41116435075393);
  (0xebfeaac508b6c5, 0xf381611b41753, 0x7b8f2a9f7fdeb73, 0x7f7dd622ff72a8);
  (0x1d7fd558a116d8a, 0xf381611b41753, 0xf18e8002043a19b, 0x7c9f43585016a0);
  (0x1678dd56488957c3, 0x5cbfcdcf9039f6, 0x12c8e2ab34667caf, 0x4d87b7bddc22a3);
  (0x47e92aadb4eab27, 0x5cbfcdcf9039f6, 0x54d2aaaa27a7b3a, 0x6d672d469bff4d);
  (0x47e92aadb4eab27, 0x2e5fe6e7c81cfb, 0xa9a555544f4f674, 0x6d672d469bff4d);
  (0x8fd2555b69d564e, 0x2e5fe6e7c81cfb, 0x18160d55d6e0f7e9, 0x7c4370fefa2b1f);
  (0x11fa4aab6d3aac9c, 0x2e5fe6e7c81cfb, 0x211332ab8d7e4e37, 0x5551abf361240d);
  (0x7c464cd3b15ada5, 0x642defabbf4fdf, 0x2718110f70f5152, 0x1f83a32f69f129);
  (0xf88c99a762b5b4a, 0x642defabbf4fdf, 0xa35e5de3224fef7, 0x41d8c96d94a084);
  (0x1f119334ec56b694, 0x642defabbf4fdf, 0xa35e5de3224fef7, 0x20ec64b6ca5042);
  (0x64d175ca6d949a7, 0x6596b1331faef8, 0x1f46740c5a5daa8, 0x1f83a32f69f129);
  (0x64d175ca6d949a7, 0x32cb58998fd77c, 0xa35e5de3224fef7, 0x524efbc8f9c8a5);
  (0x1ab8e3190b234795, 0x6bb4a815c1b463, 0x146bcbbc6449fdee, 0x524efbc8f9c8a5);
  (0x64d175ca6d949a7, 0x7efc5d7fe79ab6, 0x190529a37b7e220, 0x1f83a32f69f129);
  (0x96dbc9116490de7, 0x5f01d1ef5dbe84, 0xc8e61c585b8d227, 0x7e85751ec7afad);
  (0x96dbc9116490de7, 0x2f80e8f7aedf42, 0x191cc38b0b71a44e, 0x7e85751ec7afad);
  (0x1e2bf5037a835fb, 0x2f80e8f7aedf42, 0x45e8b18a7375285, 0x6e1146f562d68b);
  (0x1e2bf5037a835fb, 0x17c0747bd76fa1, 0x8bd16314e6ea50a, 0x6e1146f562d68b);
  (0x3c57ea06f506bf6, 0x17c0747bd76fa1, 0x122ad2c264b7b2f1, 0x7269c6b04c0258);
  (0x78afd40dea0d7ec, 0x17c0747bd76fa1, 0x2140cd4421f962c9, 0x68b5cc4fd4e06e);
  (0x18232a692ecf7fc, 0x17c0747bd76fa1, 0x79b7034603ceb0d, 0x77c54155d9f875);
  (0x304654d25d9eff8, 0x17c0747bd76fa1, 0xf266d753eddc2f9, 0x7743c3e087934d);
  (0x608ca9a4bb3dff0, 0x17c0747bd76fa1, 0x1e3c67f6fc1f72d1, 0x77030525de60b9);
  (0x608ca9a4bb3dff0, 0x76c2466b352e25, 0x60c14caff397d5d, 0x77030525de60b9);
  (0xc1195349767bfe0, 0x76c2466b352e25, 0xc14df654aed5d4d, 0x76e2a5c889c76f);
  (0x18232a692ecf7fc0, 0x76c2466b352e25, 0x18267499e2551d2d, 0x76d27619df7aca);
  (0x4d32cd818a86077, 0x76b216bc8ae180, 0x4d67708cc2dfde4, 0x77030525de60b9);
  (0x4d32cd818a86077, 0x3b590b5e4570c0, 0x9acee11985bfbc8, 0x77030525de60b9);
  (0x4d32cd818a86077, 0x1dac85af22b860, 0x1359dc2330b7f790, 0x77030525de60b9);
  (0x4d32cd818a86077, 0xed642d7915c30, 0x26b3b846616fef20, 0x77030525de60b9);
  (0x4d32cd818a86077, 0x4a2f4e35d6ccf0, 0x7bd8b4146affca0, 0x77030525de60b9);
  (0x4d32cd818a86077, 0x2517a71aeb6678, 0xf7b16828d5ff940, 0x77030525de60b9);
  (0x4d32cd818a86077, 0x128bd38d75b33c, 0x1ef62d051abff280, 0x77030525de60b9);
  (0x4d32cd818a86077, 0x5cbb21c34c802c, 0x255185424d2e354, 0x2cd3b6f00793c9);
  (0x4d32cd818a86077, 0x2e5d90e1a64016, 0x97d5d80624e271f, 0x5b3147d1add3df);
  (0x4d32cd818a86077, 0x172ec870d3200b, 0x17cde7d8dd44aeb5, 0x7260104280f3ea);
  (0x4d32cd818a86077, 0x73e9ea341fa037, 0x2d4b6082263fc5b, 0x44027f60dab3d4);
  (0x9a659b03150c0ee, 0x73e9ea341fa037, 0x2d4b6082263fc5b, 0x22013fb06d59ea);
  (0x134cb36062a181dc, 0x73e9ea341fa037, 0x2d4b6082263fc5b, 0x11009fd836acf5);
  (0x1621696885057e37, 0x427545062b2696, 0x1bcad578c9cd76ed, 0x5375e4de61d38b);
  (0x768ea0b0563f791, 0x6f423b2410f87d, 0x121e269a75b31be, 0x11009fd836acf5);
  (0xf561aee98e253c3, 0x73234d06c7d998, 0x243c4d34eb6637c, 0x11009fd836acf5);
  (0x13dda495364f1abb, 0x4a92465b9a99c1, 0x18652e3bd3bbe1b3, 0x5b92e633d146b6);
  (0x14167ed12ce8df7, 0x179066d2f692e2, 0x5c8f193b03b54ef, 0x6c93860c07f3ab);
  (0xcd34b14734537d5, 0x785bb975833d1c, 0xb91e3276076a9de, 0x6c93860c07f3ab);
  (0xcd34b14734537d5, 0x3c2ddcbac19e8e, 0x1723c64ec0ed53bc, 0x6c93860c07f3ab);
  (0x290a89db0a77191, 0x3c2ddcbac19e8e, 0x52f29feec5938c5, 0x79a09520dc6c75);
  (0x290a89db0a77191, 0x1e16ee5d60cf47, 0xa5e53fdd8b2718a, 0x79a09520dc6c75);
  (0x521513b614ee322, 0x1e16ee5d60cf47, 0x12104dd6eaa8c63d, 0x69f2b01c7f6d25);
  (0xa42a276c29dc644, 0x1e16ee5d60cf47, 0x217441890e956fa3, 0x621bbd9a50ed7d);
  (0x59f1c3fe69f7131, 0x526dd895f3ee2d, 0x4a38636dbfe5513, 0x4404cf3cf01e36);
  (0xfe1beb6a93d3775, 0x747040346bfd48, 0x4a38636dbfe5513, 0x2202679e780f1b);
  (0xfe1beb6a93d3775, 0x3a38201a35fea4, 0x1928cb246139e19b, 0x5c3a87b8ae0dbf);
  (0x15223a830401c43, 0x1835b87bbdef89, 0x6a2c51d577c71a0, 0x79a09520dc6c75);
  (0xd3d776648bcfeef, 0x795697c5c90d11, 0xa993015e83cc669, 0x6120df4a0b1d88);
  (0x1a7aeecc9179fdde, 0x795697c5c90d11, 0xa993015e83cc669, 0x30906fa5058ec4);
  (0x5488ea0c100710c, 0x790c9a6ab5adad, 0x110204aa1727779, 0x185ab729479f3b);
  (0x878ef80a557d777, 0x610e5ff34645af, 0xa993015e83cc669, 0x7969171c8de4ea);
  (0x10f1df014aafaeee, 0x610e5ff34645af, 0xa993015e83cc669, 0x3cb48b8e46f275);
  (0x21e3be02955f5ddc, 0x610e5ff34645af, 0x1b8b0f1732ec7557, 0x4ee175c0c69c12);
  (0x144efc8ad4a2e81, 0x122cea327fa99d, 0x88102550b93bbc8, 0x79c593ce661c27);
  (0x289df915a945d02, 0x122cea327fa99d, 0x116390d1c89b014f, 0x7c7ffd97f1dfb9);
  (0x1e14eea88d80d259, 0x6bb0484a3817e5, 0x19012f85d8581855, 0x59835e17b86e48);
  (0x103f306f1082534, 0x122cea327fa99d, 0x6ba1908e5c57aad, 0x78685ee9a03a5e);
  (0x207e60de2104a68, 0x122cea327fa99d, 0xcd1cb328bf659e5, 0x72baee0c4f1a06);
  (0x40fcc1bc42094d0, 0x122cea327fa99d, 0x19012f85d8581855, 0x6fe4359da689da);
  (0x40fcc1bc42094d0, 0x5ae092fc7e5011, 0x4304715373e4d81, 0x5db74b6b26e03d);
  (0x8401330fb5ee251, 0x5c4bef33d29827, 0x8608e2a6e7c9b02, 0x5db74b6b26e03d);
  (0x10802661f6bdc4a2, 0x5c4bef33d29827, 0x10a0a15b69db7d53, 0x5d019d4f7cbc32);
  (0x21004cc3ed7b8944, 0x5c4bef33d29827, 0x10a0a15b69db7d53, 0x2e80cea7be5e19);
  (0x665b0fe774f8d8c, 0x597536c52a07fb, 0x3535378aec57f77, 0x2e80cea7be5e19);
  (0x105fab6883a00bf1, 0x727bd15e329123, 0x6a6a6f15d8afeee, 0x2e80cea7be5e19);
  (0x2453a03c9c4108bb, 0x7eff1eaab6d5b7, 0xd4d4de2bb15fddc, 0x2e80cea7be5e19);
  (0x743ecd8ec0d01bf, 0x7eff1eaab6d5b7, 0x6096109cf08fc1d, 0x6984ea9c0100c6);
  (0xe87d9b1d81a037e, 0x7eff1eaab6d5b7, 0x6096109cf08fc1d, 0x34c2754e008063);
  (0x14913abba722ff9b, 0x59e0c9fc5bab0d, 0xc12c2139e11f83a, 0x34c2754e008063);
  (0xfba30c17366ae8, 0x157a340eb5d4f1, 0x58b8f83c36dc6a9, 0x79290b3ba6567f);
  (0x87e78a809110761, 0x5ccbd3b3e3eaa9, 0x687328fdaa43191, 0x47519fa52e15b8);
  (0x10fcf15012220ec2, 0x5ccbd3b3e3eaa9, 0x687328fdaa43191, 0x23a8cfd2970adc);
  (0x2881152ffee84f15, 0x6ea03b9d2f7017, 0x687328fdaa43191, 0x11d467e94b856e);
  (0x92b55b0b23a945d, 0x7d376c32d8ae23, 0x14e3d4ff8873d1d, 0x11d467e94b856e);
  (0x1256ab61647528ba, 0x7d376c32d8ae23, 0x14e3d4ff8873d1d, 0x8ea33f4a5c2b7);
  (0x234fc87103534333, 0x788e07cfa1c8b7, 0x29c7a9ff10e7a3a, 0x8ea33f4a5c2b7);
  (0x4f92c637305120f, 0x54e537fd0abddb, 0x29c7a9ff10e7a3a, 0x2c9303c73ccd93);
  (0xcce9c43463080bd, 0x6d4f21a960934a, 0x538f53fe21cf474, 0x2c9303c73ccd93);
  (0x174086c30a6a69a5, 0x633a949bed1738, 0xa71ea7fc439e8e8, 0x2c9303c73ccd93);
  (0x78f05a4d315191, 0xa148d0d737c12, 0x5b886f8c04cb93e, 0x7a11905dad2b2b);
  (0x78f05a4d315191, 0x50a4686b9be09, 0xbe9fe4bcdcac40d, 0x7f1bd6e466e934);
  (0x164ea60e7007c683, 0x76fef33c2e9efd, 0x155cc559d5a52361, 0x71f4acb574e0f4);
  (0x2c9d4c1ce00f8d06, 0x76fef33c2e9efd, 0x155cc559d5a52361, 0x38fa565aba707a);
  (0x50741a273098995, 0x430ee3682dec8c, 0x82ac1dbb14dcce6, 0x6cea662ebb22eb);
  (0x50741a273098995, 0x218771b416f646, 0x105583b7629b99cc, 0x6cea662ebb22eb);
  (0x50741a273098995, 0x10c3b8da0b7b23, 0x25b249113840bd2d, 0x7dae1f08c69e0e);
  (0x50741a273098995, 0x53d29c423967af, 0x6889b16277170b8, 0x6cea662ebb22eb);
  (0xb8fdcb89a7afa4d, 0x605e81387a454d, 0xd11362c4ee2e170, 0x6cea662ebb22eb);
  (0x171fb97134f5f49a, 0x605e81387a454d, 0x18a112e4e95ddbbd, 0x66a473b39ab41c);
  (0x36baa53ad77ab36, 0x4746b74bf88a11, 0x4ed03c761df9259, 0x66a473b39ab41c);
  (0xbc4586ebccee8c5, 0x7a98f125c5e41f, 0x4ed03c761df9259, 0x335239d9cd5a0e);
  (0x1788b0dd799dd18a, 0x7a98f125c5e41f, 0x4ed03c761df9259, 0x19a91cece6ad07);
  (0x3029c3c262fbad47, 0x7d7340e323a2a1, 0x9da078ec3bf24b2, 0x19a91cece6ad07);
  (0x7a98c0a530c1b51, 0x63ca23f63cf59a, 0x2307b8470b30961, 0x1c836caa446b89);
  (0x7a98c0a530c1b51, 0x31e511fb1e7acd, 0xc0a831334722e13, 0x4e687ea562e656);
  (0x1b5d9b27da8a64b5, 0x5919514dcfedf8, 0xc0a831334722e13, 0x27343f52b1732b);
  (0xa81dcd16bace83, 0xab0d2a86d07a2, 0x771b2779556887e, 0x792f7a027c0a69);
  (0xa81dcd16bace83, 0x55869543683d1, 0xf8b82bc4167df7f, 0x7e87e356b28e3a);
  (0x1b5d9b27da8a64b5, 0x6f5fa5a143e976, 0x1a0d5f8dad14c7af, 0x6a073c4d0d65a5);
  (0x5bc5e26ce6666bf, 0x74b80ef57a6d47, 0x46c228ca0f0c9b9, 0x59fe005069da32);
  (0xb78bc4d9ccccd7e, 0x74b80ef57a6d47, 0x46c228ca0f0c9b9, 0x2cff002834ed19);
  (0x16f1789b39999afc, 0x74b80ef57a6d47, 0xfe4deda3dbd9737, 0x50db878ed7ad30);
  (0x168eb8cff2c00c1, 0x23dc8766a2c017, 0x49d8272445d912f, 0x75656a95206138);
  (0x2d1d719fe580182, 0x23dc8766a2c017, 0x76f598c42b592b1, 0x5e8f3cb132f0b3);
  (0x5a3ae33fcb00304, 0x23dc8766a2c017, 0xfe4deda3dbd9737, 0x651269728d987c);
  (0x1b2c3b42371d9d3f, 0x5665bc1fe98c55, 0xfe4deda3dbd9737, 0x328934b946cc3e);
  (0x56f3f0d3e391f73, 0x5665bc1fe98c55, 0x50660bfc14b5851, 0x4fe28f5e8ee48c);
  (0xade7e1a7c723ee6, 0x5665bc1fe98c55, 0xfe4deda3dbd9737, 0x7e5703cf30fe9b);
  (0x1ac35cf4ba2fd61d, 0x6a5e5ff78d4578, 0x1fc9bdb47b7b2e6e, 0x7e5703cf30fe9b);
  (0x5a89368f4c02ffc, 0x70726f25542b79, 0x101468cc04244dd, 0x13f8a3d7a3b923);
  (0xcb1814236901207, 0x7e1f7505671db7, 0x2028d19808489ba, 0x13f8a3d7a3b923);
  (0x16be42c1b926c2a9, 0x70fd541dccddb3, 0x4051a3301091374, 0x13f8a3d7a3b923);
  (0x2f0cfabf16a858d, 0x490c0c6e856b6d, 0x4051a3301091374, 0x63db3336329daf);
  (0x5e19f57e2d50b1a, 0x490c0c6e856b6d, 0x6f5e9def2739901, 0x56739fd25c048e);
  (0x12b9288eb81daf35, 0x7445dc57b36db4, 0x6f5e9def2739901, 0x2b39cfe92e0247);
  (0x20a4fc4c9d04e137, 0x655cbe1507b921, 0xdebd3bde4e73202, 0x2b39cfe92e0247);
  (0x68765a8ec342d0b, 0x655cbe1507b921, 0x7646e14f8b304f7, 0x72c45178de5242);
  (0xd0ecb51d8685a16, 0x655cbe1507b921, 0x7646e14f8b304f7, 0x396228bc6f2921);
  (0x14733966d11b5f0d, 0x4f5f7368bb7121, 0xec8dc29f16609ee, 0x396228bc6f2921);
  (0x5aa5d3cdfb5551f, 0x6df2755d7d6800, 0x2f4f8d530479b96, 0x396228bc6f2921);
  (0xb944ee740448c4b, 0x705b636b2ddd21, 0x5e9f1aa608f372c, 0x396228bc6f2921);
  (0x117e4091a0d3c377, 0x54dec613ce8321, 0xbd3e354c11e6e58, 0x396228bc6f2921);
  (0x4a1b9294ce8381e, 0x705b636b2ddd21, 0x3991515ba1b1b1d, 0x5747b4217ef842);
  (0x943725299d0703c, 0x705b636b2ddd21, 0x3991515ba1b1b1d, 0x2ba3da10bf7c21);
  (0xcdc876853eb8b59, 0x4dff9ebdf6aca1, 0x140eb193c821c193, 0x79a378ceb628c2);
  (0x19b90ed0a7d716b2, 0x4dff9ebdf6aca1, 0x140eb193c821c193, 0x3cd1bc675b1461);
  (0x769284214a6c030, 0x705b636b2ddd21, 0x1becb0534f16b11, 0x1a75f7ba23e3e1);
  (0xed25084294d8060, 0x705b636b2ddd21, 0x927f34749982b41, 0x4568ad92a8e081);
  (0x17fa43cb72e5aba1, 0x5ae2087eeb5ed1, 0x124fe68e93305682, 0x4568ad92a8e081);
  (0x5aa5d3cdfb5551f, 0x6b5ec69d4c7790, 0x3a99482ea3cde1a, 0x4568ad92a8e081);
  (0xcfd8642b42f1153, 0x7b1810e14f1c49, 0x7532905d479bc34, 0x4568ad92a8e081);
  (0x1450af4888a8cd87, 0x60405f39fbfe65, 0xea6520ba8f37868, 0x4568ad92a8e081);
  (0x3de5f79eaa8e7aa, 0x5ba57c5949d2d7, 0x1cbfdc2f50c6d75, 0x2a90fbeb55c29d);
  (0x94258c2c9ce3009, 0x6dac380da58d57, 0x397fb85ea18daea, 0x2a90fbeb55c29d);
  (0x1284b185939c6012, 0x6dac380da58d57, 0xcda5448b3e70af3, 0x4c1e99fc7da7fa);
  (0x2509630b2738c024, 0x6dac380da58d57, 0xcda5448b3e70af3, 0x260f4cfe3ed3fd);
  (0x4d63626e3dd243d, 0x479ceb0f66b95a, 0x8041e21d009e6b6, 0x76af95e7d36a97);
  (0x4d63626e3dd243d, 0x23ce7587b35cad, 0x10083c43a013cd6c, 0x76af95e7d36a97);
  (0x1e8adeb84bab3a23, 0x710d7b3f76c04f, 0x14de726a83f0f1a9, 0x4d3f05b7c363a2);
  (0x1ef48dc5b2541b2, 0x23ce7587b35cad, 0x5642b87aac6e419, 0x63c77059360cc2);
  (0x3de91b8b64a8364, 0x23ce7587b35cad, 0xd214ef9175beae1, 0x7980a33c01bfbb);
  (0x7bd23716c9506c8, 0x23ce7587b35cad, 0x18bd04233a3b750d, 0x727601e98deae1);
  (0x408d7be128e1096, 0x5d561df2326c53, 0x1da25d9ad037b19, 0x2ad916da273187);
  (0x997494b199881e1, 0x6ef0b140540074, 0x3b44bb35a06f632, 0x2ad916da273187);
  (0x997494b199881e1, 0x377858a02a003a, 0x10ffe0b1cda66e45, 0x62516f7a5131c1);
  (0x997494b199881e1, 0x1bbc2c5015001d, 0x2b970aaeb4e55e6b, 0x7e0d9bca6631de);
  (0x4b597ac99413c8c, 0x44179a662cceed, 0x4e1b19e80574555, 0x4695432a3c31a4);
  (0xe4ce0f7b2d9be6d, 0x67623bfb4ae7bf, 0x4e1b19e80574555, 0x234aa1951e18d2);
  (0x217b738de60ac22f, 0x79078cc5d9f428, 0x4e1b19e80574555, 0x11a550ca8f0c69);
  (0x5b859fcadf0b292, 0x67623bfb4ae7bf, 0x4e1b19e80574555, 0x583a93f4cb3e0d);
  (0xa9a0b9b2e47f7e7, 0x5fce67f80b12e6, 0x9c3633d00ae8aaa, 0x583a93f4cb3e0d);
  (0xa9a0b9b2e47f7e7, 0x2fe733fc058973, 0x1386c67a015d1554, 0x583a93f4cb3e0d);
  (0x21ecf1f094197fb, 0x2fe733fc058973, 0x4af1ca0c091ed77, 0x69d277e3d1741c);
  (0x43d9e3e12832ff6, 0x2fe733fc058973, 0x8ecbaded3151d6d, 0x64d06fedee4381);
  (0x87b3c7c25065fec, 0x2fe733fc058973, 0x15a595990a9ead4f, 0x7a4305f0ff6fed);
  (0x10f678f84a0cbfd8, 0x2fe733fc058973, 0x1e20d2152fa50d3b, 0x55151cf6827cb0);
  (0x78b69f5981c63a1, 0x6a87b2f993a91c, 0x1dfa50d19d3f896, 0x1a749df8f45d07);
  (0x78b69f5981c63a1, 0x3543d97cc9d48e, 0xb4ab40fcbc454cd, 0x4fb87775be3195);
  (0x78b69f5981c63a1, 0x1aa1ecbe64ea47, 0x1e20d2152fa50d3b, 0x6a5a6434231bdc);
  (0x4896a539839ef3c, 0x501315009f4c15, 0x301ffa1ffe27465, 0x35168ab759474e);
  (0xc14d449305652dd, 0x6a9e5a5c4befbc, 0x301ffa1ffe27465, 0x1a8b455baca3a7);
  (0x1218d38d301b3ba7, 0x4fda7289d29b85, 0x181cd2d12fe02471, 0x6a65b7e57f3f2c);
  (0x39e90b5d66bd8bb, 0x4fda7289d29b85, 0x2656e8e2959100f, 0x34dde8408c96be);
  (0x73d216bacd7b176, 0x4fda7289d29b85, 0x9a28ff9d630c185, 0x6a4966aa18e6e4);
  (0xe7a42d759af62ec, 0x4fda7289d29b85, 0x9a28ff9d630c185, 0x3524b3550c7372);
  (0x1cf485aeb35ec5d8, 0x4fda7289d29b85, 0x269715a8898f875d, 0x6a6ccc3458d53e);
  (0x5ca8122f0ac8df8, 0x4fda7289d29b85, 0x3d80ed6e584338d, 0x35014dcacc8518);
  (0xb950245e1591bf0, 0x4fda7289d29b85, 0xf6d111cc6dd4f7d, 0x6a5b196f38de11);
  (0x172a048bc2b237e0, 0x4fda7289d29b85, 0x1b021362a8366b6d, 0x5d1ac5fc85bccb);
  (0x704f96b9853c5c3, 0x78fd64486b4edb, 0xc4cfc4944da3e9, 0xd405372b32146);
  (0xecec29bc4f52f6f, 0x7f9d8e01c4df7e, 0xc4cfc4944da3e9, 0x6a029b95990a3);
  (0x1ca55e6e326ab5d1, 0x7b703e8508857a, 0x1899f89289b47d2, 0x6a029b95990a3);
  (0x5e3bee6a63d5bad, 0x7ee5290546cc44, 0x4eb981d4ebdb2a, 0x6a029b95990a3);
  (0xb6cca079ed2c4a1, 0x7b140c06c97bdd, 0x9d7303a9d7b654, 0x6a029b95990a3);
  (0x171c534d39d54cdd, 0x7c7b9264379bfb, 0x13ae60753af6ca8, 0x6a029b95990a3);
  (0x2e7b65d86fda5d55, 0x7d2f5592eeac0a, 0x275cc0ea75ed950, 0x6a029b95990a3);
  (0x9167b60196bdc95, 0x7a6048d8126bce, 0x7df59c87dfc510, 0x6a029b95990a3);
  (0x12edab9ab6e741d5, 0x7f71c5a988dc45, 0xfbeb390fbf8a20, 0x6a029b95990a3);
  (0x25a020d6e21e8235, 0x7eaa6f35974c2f, 0x1f7d6721f7f1440, 0x6a029b95990a3);
  (0x5f35b02e0d3a371, 0x6429c8503109a3, 0x1f7d6721f7f1440, 0x2120d09ebfd32f);
  (0x7eb31750052b7b1, 0x42a54c77786e69, 0xbdade593f50e031, 0x63c61d16384198);
  (0x1bb141433ff64f93, 0x74885b02948f35, 0xbdade593f50e031, 0x31e30e8b1c20cc);
  (0x32ae0953354497a, 0x42a54c77786e69, 0x5851d2ed8a84d3d, 0x7424afc89bc72a);
  (0x655c12a66a892f4, 0x42a54c77786e69, 0xbdade593f50e031, 0x7cb7a45bc651fe);
  (0xcab8254cd5125e8, 0x42a54c77786e69, 0xbdade593f50e031, 0x3e5bd22de328ff);
  (0x188660ae0ca20619, 0x40808f52adcbb4, 0x303c1d608b43c67b, 0x7edc618090f4b3);
  (0x53b21baa1ba1d1b, 0x44ca099c43111e, 0x9a59f79b573f47f, 0x7edc618090f4b3);
  (0x53b21baa1ba1d1b, 0x226504ce21888f, 0x134b3ef36ae7e8fe, 0x7edc618090f4b3);
  (0x188660ae0ca20619, 0x50a0b327593ea1, 0x26967de6d5cfd1fc, 0x7edc618090f4b3);
  (0x6ff540710047343, 0x7305b7f57ac730, 0x3886498dc94ac50, 0x3a1257e44de395);
  (0x6ff540710047343, 0x3982dbfabd6398, 0xe101d38c92dcbe3, 0x739533df0b472d);
  (0x6ff540710047343, 0x1cc16dfd5eb1cc, 0x1c203a71925b97c6, 0x739533df0b472d);
  (0x592145afc5b33aa, 0x72763c0bea4733, 0x16d3fac13a93f99, 0x1d50e9e6ef31c9);
  (0x6ff540710047343, 0x47e392f96cbc7e, 0x9d9d35f3756f275, 0x65347ce05bee47);
  (0x6ff540710047343, 0x23f1c97cb65e3f, 0x13b3a6be6eade4ea, 0x65347ce05bee47);
  (0xdfea80e2008e686, 0x23f1c97cb65e3f, 0x28b1a2d39ebb3eb3, 0x6884ecab3f8482);
  (0x8e9ba2b2d5eb910, 0x72763c0bea4733, 0x28a76f1795516bb, 0x20a159b1d2c804);
  (0x11d374565abd7220, 0x72763c0bea4733, 0x28a76f1795516bb, 0x1050acd8e96402);
  (0x26315f9e2ecffafb, 0x7a9e92785ef934, 0x28a76f1795516bb, 0x828566c74b201);
  (0x72161bc244bc740, 0x72763c0bea4733, 0x28a76f1795516bb, 0x28c9b01e477a05);
  (0x9abd8ad9da0ddfb, 0x4d9ff61518e09c, 0xec0c690904b0b71, 0x7669a633605aa1);
  (0x9abd8ad9da0ddfb, 0x26cffb0a8c704e, 0x1d818d21209616e2, 0x7669a633605aa1);
  (0x1d5f7844462ad02, 0x24d645f6d16697, 0x5ffe9a514db83f7, 0x78635b471b6458);
  (0x9abd8ad9da0ddfb, 0x6107f39a5f18c3, 0x5ffe9a514db83f7, 0x3c31ada38db22c);
  (0x19579b00501d3fed, 0x7f20ca6c25f1d9, 0x5ffe9a514db83f7, 0x1e18d6d1c6d916);
  (0x4f1809bd5ffb272, 0x7bfdb02e894ec7, 0x1332eba9dc580cb, 0x1e18d6d1c6d916);
  (0x9e30137abff64e4, 0x7bfdb02e894ec7, 0x1332eba9dc580cb, 0xf0c6b68e36c8b);
  (0x12494851fc65ea71, 0x72aa500660a34a, 0x2665d753b8b0196, 0xf0c6b68e36c8b);
  (0x257c33fbd8bdf721, 0x7586d5a6be03d1, 0x4ccbaea7716032c, 0xf0c6b68e36c8b);
  (0x49e00a5b0b262b9, 0x4861936c13be30, 0x4ccbaea7716032c, 0x4b3e190c711eb7);
  (0xe37767a9ede6911, 0x6f6ee2c27afdcf, 0x99975d4ee2c0658, 0x4b3e190c711eb7);
  (0x1c6eecf53dbcd222, 0x6f6ee2c27afdcf, 0x17d0ec4f8d0a6f69, 0x5d567de7760e43);
  (0x49e00a5b0b262b9, 0x5a79f84718adbc, 0x2ea95673bedeecb, 0x3925b4316c2f2b);
  (0x49e00a5b0b262b9, 0x2d3cfc238c56de, 0xa732b74288e404f, 0x6662b054f88609);
  (0x1984578e01cee357, 0x7d012e66beb178, 0x14e656e8511c809e, 0x6662b054f88609);
  (0x49e00a5b0b262b9, 0x71187658ded92b, 0x25544529657f23c, 0x3925b4316c2f2b);
  (0x6f344f8470a54f5, 0x551f154525842b, 0x4aa88a52cafe478, 0x3925b4316c2f2b);
  (0xde689f08e14a9ea, 0x551f154525842b, 0xb9dcd9d73ba396d, 0x472264bb48d9ab);
  (0x1984578e01cee357, 0x4e20bd00372eeb, 0x173b9b3ae77472da, 0x472264bb48d9ab);
  (0x58f6a6038d510c4, 0x551f154525842b, 0x346ae0d1e7aa047, 0x32275bec7dd9eb);
  (0xb1ed4c071aa2188, 0x551f154525842b, 0x8d6186d574fb10b, 0x43a33898d1af0b);
  (0x13f4ed2dc8f9d293, 0x4c6126eefb999b, 0x11ac30daae9f6216, 0x43a33898d1af0b);
  (0x55ca06e3801d402, 0x669af1f179594b, 0x313e41b1da76385, 0x3ae54a42a7c47b);
  (0x870848955a93787, 0x50c01e1a108ee3, 0x627c8363b4ec70a, 0x3ae54a42a7c47b);
  (0x10e10912ab526f0e, 0x50c01e1a108ee3, 0xe984cbf90f7fe91, 0x45d2b42e5c29af);
  (0x4bf0c68cbad2681, 0x71885bdd2dbe7f, 0x2765015b152b604, 0x3ae54a42a7c47b);
  (0x7355c7e7cffdc85, 0x5636d30feac17d, 0x4eca02b62a56c08, 0x3ae54a42a7c47b);
  (0xe6ab8fcf9ffb90a, 0x5636d30feac17d, 0xc21fca9dfa5488d, 0x488e0ea94942fc);
  (0x28f76ea3d3a4baa1, 0x7a7dda648f62fb, 0xc21fca9dfa5488d, 0x24470754a4a17e);
  (0x5c449feca664a04, 0x5636d30feac17d, 0x65db2ab153efe89, 0x5f2c51974c65f9);
  (0xb8893fd94cc9408, 0x5636d30feac17d, 0xc21fca9dfa5488d, 0x5ab192539b93bb);
  (0x17aa90a77471dc95, 0x587432b1c32a9c, 0x1843f953bf4a911a, 0x5ab192539b93bb);
  (0x49d07ff0851d4d0, 0x5636d30feac17d, 0x53670ab532a8955, 0x6169b13924cf18);
  (0x93a0ffe10a3a9a0, 0x5636d30feac17d, 0x53670ab532a8955, 0x30b4d89c92678c);
  (0x17aa90a77471dc95, 0x6e913f5e33f543, 0x53670ab532a8955, 0x185a6c4e4933c6);
  (0x19b0c877efd401e, 0x2581fa735859f1, 0x53670ab532a8955, 0x79c41d876e02de);
  (0x86c89ba51250991, 0x626409370f5b60, 0x53670ab532a8955, 0x3ce20ec3b7016f);
  (0x86c89ba51250991, 0x3132049b87adb0, 0x12d96b10f77a1c3b, 0x6e14135f3eaf1f);
  (0x86c89ba51250991, 0x1899024dc3d6d8, 0x25b2d621eef43876, 0x6e14135f3eaf1f);
  (0x86c89ba51250991, 0x7afd0b84d33238, 0x27c3e96ff1a9f27, 0x24490c75f32a97);
  (0x86c89ba51250991, 0x3d7e85c269991c, 0xd6506e84f5a47df, 0x61c792385cc3b3);
  (0x86c89ba51250991, 0x1ebf42e134cc8e, 0x1aca0dd09eb48fbe, 0x61c792385cc3b3);
  (0x310ed5d649a866b, 0x37f4bc2dab3b13, 0x55b9c5cec8a8326, 0x61c792385cc3b3);
  (0x86c89ba51250991, 0x4cde273303ff63, 0xab738b9d915064c, 0x61c792385cc3b3);
  (0x10d91374a24a1322, 0x4cde273303ff63, 0x1323c2742a3a0fdd, 0x5752dcb5b0618b);
  (0x55d3862228da337, 0x7a5e2dde02d84e, 0x3d3f3b0d53ecff9, 0x5752dcb5b0618b);
  (0x55d3862228da337, 0x3d2f16ef016c27, 0x7a7e761aa7d9ff2, 0x5752dcb5b0618b);
  (0xd051fc3cd0b4329, 0x4a40f9d258e6d9, 0xf4fcec354fb3fe4, 0x5752dcb5b0618b);
  (0x1c54ee872206830d, 0x50c9eb4404a432, 0x1e9f9d86a9f67fc8, 0x5752dcb5b0618b);
  (0x44a9381b53e1c2c, 0x3d2f16ef016c27, 0x69542813d2e18e7, 0x5ddbce275c1ee4);
  (0xf2a6984a7aa513f, 0x6c1cfe02af7b99, 0x69542813d2e18e7, 0x2eede713ae0f72);
  (0x1e54d3094f54a27e, 0x6c1cfe02af7b99, 0x69542813d2e18e7, 0x1776f389d707b9);
  (0x610f701dcaa86e6, 0x6c1cfe02af7b99, 0x69542813d2e18e7, 0x7552c1b133269d);
  (0xca6398319d89fcd, 0x70b7dfd9f1511b, 0xd2a85027a5c31ce, 0x7552c1b133269d);
  (0x194c730633b13f9a, 0x70b7dfd9f1511b, 0x19d0be859434d19b, 0x730550c5923bdc);
  (0x4a57434f053cb1e, 0x67821c2b6da617, 0x529bfb450d75d1f, 0x730550c5923bdc);
  (0x94ae869e0a7963c, 0x67821c2b6da617, 0x529bfb450d75d1f, 0x3982a862c91dee);
  (0x1295d0d3c14f2c78, 0x67821c2b6da617, 0x529bfb450d75d1f, 0x1cc15431648ef7);
  (0x2c668f595583fe13, 0x7ba46091323875, 0xa537f68a1aeba3e, 0x1cc15431648ef7);
  (0x6d09cc9bd910d91, 0x5ee30c5fcda97e, 0x382e29ee41dacad, 0x30e39897292155);
  (0x6d09cc9bd910d91, 0x2f71862fe6d4bf, 0xdd6620785cc66eb, 0x60551ec70ff614);
  (0x1b779b9b00ee820d, 0x5f9c15936ecfc9, 0xdd6620785cc66eb, 0x302a8f6387fb0a);
  (0x75138989d4f81aa, 0x7f5a2847d36b33, 0xaa1b0ceeedbf5, 0xb90933a1264b);
  (0xdabdb444a10f717, 0x76f8541191a703, 0xdc11ea5e7eeaf01, 0x77b15d4532cd4e);
  (0x1b57b6889421ee2e, 0x76f8541191a703, 0xdc11ea5e7eeaf01, 0x3bd8aea29966a7);
  (0x5e15e19723a2d8d, 0x7fede460ce8dd4, 0x8815a3f257cc4, 0xb90933a1264b);
  (0xbba4c24dbfff44d, 0x7f921befcc70b2, 0x1102b47e4af988, 0xb90933a1264b);
  (0xdb89d4ba8c9323d, 0x4aa097fe5776be, 0xddaa2b4a55f254d, 0x4b59a131f89d09);
  (0xdb89d4ba8c9323d, 0x25504bff2bbb5f, 0x296de2b4f3877cd7, 0x70a9ed31245868);
  (0x8205a0c9b33f54b, 0x6e7ed19640e587, 0x2cc219f86ca9e79, 0x26095532cce1aa);
  (0x1040b4193667ea96, 0x6e7ed19640e587, 0x2cc219f86ca9e79, 0x1304aa996670d5);
  (0x1e3d5c36d85d02f3, 0x66cb134aa08cd8, 0x23d59f75e5f23fe5, 0x79cfbde406fdad);
  (0x4edd1cb288e5acd, 0x53c668b13a1c03, 0x598433f0d953cf2, 0x5f1754ff003429);
  (0x9dba396511cb59a, 0x53c668b13a1c03, 0xa86150a362397bf, 0x596eded81d2816);
  (0x13b7472ca2396b34, 0x53c668b13a1c03, 0xa86150a362397bf, 0x2cb76f6c0e940b);
  (0x3f174a286d848a4, 0x53c668b13a1c03, 0x2a32bc528730677, 0x38085bb9d4ac31);
  (0x7e2e9450db09148, 0x53c668b13a1c03, 0x694a067af4b4f1b, 0x45e7623587641a);
  (0xfc5d28a1b612290, 0x53c668b13a1c03, 0x165a72f1caac71ab, 0x76ba19cbfdce10);
  (0x1f8ba51436c24520, 0x53c668b13a1c03, 0x165a72f1caac71ab, 0x3b5d0ce5fee708);
  (0x93132226c15d375, 0x7a0ecaf82808e7, 0x4787d638eef49ef, 0x3b5d0ce5fee708);
  (0x12626444d82ba6ea, 0x7a0ecaf82808e7, 0x4787d638eef49ef, 0x1dae8672ff7384);
  (0x24c4c889b0574dd4, 0x7a0ecaf82808e7, 0x4787d638eef49ef, 0xed743397fb9c2);
  (0x675a8a139e19a61, 0x6b3787bea84f25, 0x4787d638eef49ef, 0x4a34501f7ea0ca);
  (0xceb514273c334c2, 0x6b3787bea84f25, 0x4787d638eef49ef, 0x251a280fbf5065);
  (0x1a54c96d2091128f, 0x6d42fff6f3202a, 0x8f0fac71dde93de, 0x251a280fbf5065);
  (0x52aed4dc7e7aeb4, 0x6b3787bea84f25, 0x1e306bcaafb7295, 0x2725a0480a216a);
  (0xc38e1583acacffd, 0x7eca57e2ad5fda, 0x1e306bcaafb7295, 0x1392d0240510b5);
  (0xffeeed190c1b527, 0x52f7fc155bc0a2, 0x13c4fc4ae6b89a51, 0x668acc3960d157);
  (0xffeeed190c1b527, 0x297bfe0aade051, 0x2789f895cd7134a2, 0x668acc3960d157);
  (0x81689e6ce11776d, 0x68e129fc04903e, 0x7e864eac2b03dba, 0x668acc3960d157);
  (0x81689e6ce11776d, 0x347094fe02481f, 0xfd0c9d585607b74, 0x668acc3960d157);
  (0x102d13cd9c22eeda, 0x347094fe02481f, 0x17e753bc5371f2e1, 0x4d7db09bb18cbb);
  (0x4ecc7ef4cfe2b89, 0x4fd40e5e554ba2, 0x65383ef022697c8, 0x668acc3960d157);
  (0x4ecc7ef4cfe2b89, 0x27ea072f2aa5d1, 0xca707de044d2f90, 0x668acc3960d157);
  (0x1193cfcd514b5b19, 0x473a69b445bb94, 0x194e0fbc089a5f20, 0x668acc3960d157);
  (0x264f98fb2885539, 0x3083abd93a35df, 0x50f9cbf34ebaca0, 0x668acc3960d157);
  (0x774964ee77401d9, 0x4b873c094d839b, 0xa1f397e69d75940, 0x668acc3960d157);
  (0x1193cfcd514b5b19, 0x59090421572a79, 0x143e72fcd3aeb280, 0x668acc3960d157);
  (0x1ea613fc206aa94, 0x3083abd93a35df, 0x495046f446a01fb, 0x740c94516a7835);
  (0x67f65af0670ac8f, 0x5248201552570a, 0x92a08de88d403f6, 0x740c94516a7835);
  (0x67f65af0670ac8f, 0x2924100aa92b85, 0x125411bd11a807ec, 0x740c94516a7835);
  (0xcfecb5e0ce1591e, 0x2924100aa92b85, 0x25d242ca24fa0d99, 0x77bc6238b2fd62);
  (0x3b9fdccd21ff8d, 0x3afcde748852d, 0x7df0e646bf56300, 0x7c989e551267bb);
  (0xcc32b813fbf5991, 0x6502412702aa36, 0xc4bebc7a57b5a77, 0x6152733fba2509);
  (0xcc32b813fbf5991, 0x3281209381551b, 0x1897d78f4af6b4ee, 0x6152733fba2509);
  (0x2bd2230e40e44c1, 0x3630ee7ac9da48, 0x48bc4ee93948b4e, 0x59f2d771291aaf);
  (0x2bd2230e40e44c1, 0x1b18773d64ed24, 0xbd4ac0e0b375b5d, 0x750b4eae8e07d3);
  (0x2bd2230e40e44c1, 0xd8c3b9eb27692, 0x17a9581c166eb6ba, 0x750b4eae8e07d3);
  (0x2bd2230e40e44c1, 0x43bd2a197c50da, 0x316c9e84873fb4b, 0x4c669bd276a41d);
  (0x2bd2230e40e44c1, 0x21de950cbe286d, 0x8eab60174f63b57, 0x6e4530df34cc8a);
  (0x13df3ec5052f4e5b, 0x7adfc28916b71f, 0xe64fa633d12c4d9, 0x59012d7c588eb2);
  (0x27be7d8a0a5e9cb6, 0x7adfc28916b71f, 0xe64fa633d12c4d9, 0x2c8096be2c4759);
  (0x81389e2ea68853f, 0x7cd852818a82c8, 0x2e0fee0a5d08dc5, 0x2c8096be2c4759);
  (0xdd587a43609a0c9, 0x6aecbffef188bd, 0x5c1fdc14ba11b8a, 0x2c8096be2c4759);
  (0x1f1b80e818ecf367, 0x7837421cbb2f64, 0xb83fb8297423714, 0x2c8096be2c4759);
  (0x5c5f12f328e7a3b, 0x6f8dd063c0dc21, 0x24d98b3b7da0b04, 0x2c8096be2c4759);
  (0xcaebb4a5a1c9b47, 0x7a87ca4f22d916, 0x49b31676fb41608, 0x2c8096be2c4759);
  (0x15e51e193984c757, 0x69c47be5bdb3e4, 0x93662cedf682c10, 0x2c8096be2c4759);
  (0x46106050b80f4ab, 0x69c47be5bdb3e4, 0x4d55cc9d3e73765, 0x74be75d11fb0d9);
  (0x46106050b80f4ab, 0x34e23df2ded9f2, 0x9aab993a7ce6eca, 0x74be75d11fb0d9);
  (0x46106050b80f4ab, 0x1a711ef96f6cf9, 0x135573274f9cdd94, 0x74be75d11fb0d9);
  (0x8c20c0a1701e956, 0x1a711ef96f6cf9, 0x293a91408921a4eb, 0x7c7a08582668db);
  (0x2438aff3361f705, 0x222cb1807624fb, 0x67e810ae39ff251, 0x6208e95eb6fbe2);
  (0xb0597094a63e05b, 0x5331262fd1a2ec, 0x67e810ae39ff251, 0x310474af5b7df1);
  (0x1802991f11a3c4fd, 0x5a9d07c7444f67, 0xcfd0215c73fe4a2, 0x310474af5b7df1);
  (0x5d39633c77d84e7, 0x6df1f618d51b6c, 0x299006ac1732dba, 0x310474af5b7df1);
  (0xb0597094a63e05b, 0x67fd6fbbc60ba7, 0x53200d582e65b74, 0x310474af5b7df1);
  (0x1a9b9989d316f2b7, 0x7d8566e4ec42bd, 0xa6401ab05ccb6e8, 0x310474af5b7df1);
  (0x3bf95de5fee2d1f, 0x5869feefaee456, 0x2140055678f57c8, 0x310474af5b7df1);
  (0x7e796892f0cdcaf, 0x5d39742732f01c, 0x42800aacf1eaf90, 0x310474af5b7df1);
  (0x103797decd4a3bcf, 0x5fa12ec2f4f5ff, 0x85001559e3d5f20, 0x310474af5b7df1);
  (0x188799346b879aef, 0x4852d1b92839f8, 0x29279bdfa802592f, 0x7957466883b7e9);
  (0x7e796892f0cdcaf, 0x7487d130ffac23, 0x35333bbd8e55940, 0x310474af5b7df1);
  (0xb3aca4507f235ef, 0x52c622f02d950a, 0x6a66777b1cab280, 0x310474af5b7df1);
  (0x188799346b879aef, 0x5a678627724876, 0xd4cceef63956500, 0x310474af5b7df1);
  (0x413e993240d0c29, 0x4b24bfb8e8e19e, 0x312f71ebfd81d9d, 0x38a5d7e6a0315d);
  (0x413e993240d0c29, 0x25925fdc7470cf, 0xa39d7d0a3bd4763, 0x5e3837c314a22c);
  (0x1261aaf6ebd75fb5, 0x54ae7bbdfec1e5, 0xa39d7d0a3bd4763, 0x2f1c1be18a5116);
  (0x1a190a1419ed1aa, 0x25925fdc7470cf, 0x55525ecdee0d265, 0x7ad56bd2564301);
  (0x3432142833da354, 0x25925fdc7470cf, 0xa39d7d0a3bd4763, 0x75c645b3d9cab7);
  (0xd7cf91326faeab7, 0x4dac52c8271dc3, 0x1473afa1477a8ec6, 0x75c645b3d9cab7);
  (0x21f0a8b46e75797d, 0x61b94c3e00743d, 0x28e75f428ef51d8c, 0x75c645b3d9cab7);
  (0x565306e0f979116, 0x4dac52c8271dc3, 0x6f6b68e207fa40f, 0x6440df4d3eb062);
  (0xaca60dc1f2f222c, 0x4dac52c8271dc3, 0x11c1176a3faec63b, 0x7fccc26ec675f4);
  (0x1594c1b83e5e4458, 0x4dac52c8271dc3, 0x11c1176a3faec63b, 0x3fe66137633afa);
  (0xc3eedc66231939, 0xdc5f190c3e2c9, 0x70a075ca9c3651d, 0x7eacb02a39bfe4);
  (0x187ddb8cc463272, 0xdc5f190c3e2c9, 0xd297e3fdadc2ee5, 0x766e1e582c6b16);
  (0x1658b094a4815d91, 0x6488e3de61dde6, 0x1348f5230bf4f8ad, 0x56c2f24d9dfb1d);
  (0x4782350edb3791d, 0x6488e3de61dde6, 0x16867df55271439, 0x1fab2c0a8e6ff9);
  (0x4782350edb3791d, 0x324471ef30eef3, 0x748f30f9801a18f, 0x51ef9df9bf5eec);
  (0x8f046a1db66f23a, 0x324471ef30eef3, 0x103939b1736893c9, 0x5b3c40ec109e69);
  (0x2b0a0d97059d6a77, 0x7904cb5cd1b5a1, 0x192980534ecf8603, 0x46c0596da0c6ae);
  (0x3934f73f15c60e4, 0x324471ef30eef3, 0x748f30f9801a18f, 0x666b85782f36a7);
  (0x7269ee7e2b8c1c8, 0x324471ef30eef3, 0x1202e16b6c16c43b, 0x7e9c6da2e101c0);
  (0xe4d3dcfc5718390, 0x324471ef30eef3, 0x20501f3b318847cb, 0x7192a8c0a16fd3);
  (0x4fa919a60d927b1, 0x577f1efc224bf9, 0x4581a9b03bf342e, 0x4c57fbb3b012cd);
  (0x952ac3564985bdf, 0x51eb8d57e92f63, 0x8b03536077e685c, 0x4c57fbb3b012cd);
  (0x12a5586ac930b7be, 0x51eb8d57e92f63, 0x1202e16b6c16c43b, 0x4f21c485cca118);
  (0x41c25e1c67fb6db, 0x5a48e7ce3eda44, 0x379aee26965c358, 0x4c57fbb3b012cd);
  (0x41c25e1c67fb6db, 0x2d2473e71f6d22, 0xb0f83a6994b3d8b, 0x797c6f9acf7fef);
  (0x41c25e1c67fb6db, 0x169239f38fb691, 0x161f074d32967b16, 0x797c6f9acf7fef);
  (0x1a3b2d2ef91631f1, 0x480754c72f9b40, 0x2c3e0e9a652cf62c, 0x797c6f9acf7fef);
  (0x1a4dbf3e8ffe2be, 0x169239f38fb691, 0x825b9b3f61773c7, 0x6fdc2a6cc13005);
  (0x349b7e7d1ffc57c, 0x169239f38fb691, 0x105e05778316e17d, 0x705ba61747e06d);
  (0x1a3b2d2ef91631f1, 0x5a0929f8fb8210, 0x13a7bd5f5516a6f9, 0x4376f0056bcb7f);
  (0x150aff653ffe898, 0x169239f38fb691, 0x680ddc00d179109, 0x6f9c6c977dd7d1);
  (0x2a15feca7ffd130, 0x169239f38fb691, 0xd144d8fb1171c01, 0x703bc72ca63453);
  (0x1a3b2d2ef91631f1, 0x708b74773a6294, 0x14f86d55a9168f91, 0x59f93a83aaac03);
  (0x542bfd94fffa260, 0x70db21c1ce90d5, 0x32455e5ab6afc3d, 0x436700901af572);
  (0xa857fb29fff44c0, 0x70db21c1ce90d5, 0x32455e5ab6afc3d, 0x21b380480d7ab9);
  (0x13f28163a2403977, 0x6afad14cfb8080, 0x648abcb56d5f87a, 0x21b380480d7ab9);
  (0x13f28163a2403977, 0x357d68a67dc040, 0x2083d8fa4fec2a6b, 0x5730e8ee8b3af9);
  (0x577223ceaf74d32, 0x49475104ee05c7, 0x9043ce9cc519f13, 0x78e4693698b5b2);
  (0xaee4479d5ee9a64, 0x49475104ee05c7, 0x9043ce9cc519f13, 0x3c72349b4c5ad9);
  (0x25fafb373ae3779d, 0x7f4ef76b698b29, 0x120879d398a33e26, 0x3c72349b4c5ad9);
  (0x523519d8c9e3be2, 0x561c6d6e8fb0b5, 0x3394a0d83014091, 0x3607a6667b8562);
  (0xd7fed489c3db855, 0x712040a1cd7366, 0x3394a0d83014091, 0x1b03d3333dc2b1);
  (0x1a65157ea842ba99, 0x6e97c6b7623f15, 0x672941b06028122, 0x1b03d3333dc2b1);
  (0x2b32f74ec0c5811, 0x38902050e6b9b3, 0x3bf64a619f62911, 0x4e82ffaf4e13c2);
  (0x5665ee9d818b022, 0x38902050e6b9b3, 0x925c38ff20ed933, 0x5fd1a0288dc394);
  (0x13f28163a2403977, 0x6878f0652d9b7d, 0x925c38ff20ed933, 0x2fe8d01446e1ca);
  (0x27e502c7448072ee, 0x6878f0652d9b7d, 0x925c38ff20ed933, 0x17f4680a2370e5);
  (0xa930e7e5a7693a, 0x8a7503c9fd7e9, 0x925c38ff20ed933, 0x77c60832b13479);
  (0x9cef477d7b6426d, 0x4036ac37a88631, 0x124b871fe41db266, 0x77c60832b13479);
  (0x139de8efaf6c84da, 0x4036ac37a88631, 0x1c1a7b97bbd3f4d3, 0x5bfe5a352cdd55);
  (0x3ec61c9897c1a92, 0x4036ac37a88631, 0x49030de82eb5567, 0x4aafb9bbed2d83);
  (0x7d8c39312f83524, 0x4036ac37a88631, 0x87c92a80c676ff9, 0x457332f9cad9da);
  (0xfb1872625f06a48, 0x4036ac37a88631, 0x182e19ce3257da41, 0x62f045b48df31e);
  (0x323816e07967ba8, 0x4036ac37a88631, 0x559113a04d0f451, 0x6d695338d29a70);
  (0x64702dc0f2cf750, 0x4036ac37a88631, 0xba0141613fdeba1, 0x76eb55d411d369);
  (0xc8e05b81e59eea0, 0x4036ac37a88631, 0x11e716f2232ae2f1, 0x5b910105dd2ccd);
  (0x282cdf19fab9620, 0x4036ac37a88631, 0x2d6434865255e31, 0x488cfbcf5ebadb);
  (0x5059be33f572c40, 0x4036ac37a88631, 0x559113a04d0f451, 0x4461d40383a086);
  (0xa0b37c67eae5880, 0x4036ac37a88631, 0xf644900837f4cd1, 0x626796396a5674);
  (0x14166f8cfd5cb100, 0x4036ac37a88631, 0x237ab88d80dbfdd1, 0x716a77545db16b);
  (0x4047cb5cc45bd00, 0x4036ac37a88631, 0x75b4f94eaf3d2d1, 0x75959f2038cbc0);
  (0x808f96b988b7a00, 0x4036ac37a88631, 0xf644900837f4cd1, 0x7b017bc7c4ec11);
  (0x1011f2d73116f400, 0x4036ac37a88631, 0x176d426c1c0ac6d1, 0x5d9c13ffb6b921);
  (0x336ca2b09d16400, 0x4036ac37a88631, 0x4248569e1226ed1, 0x52c45ab09e787f);
  (0x66d945613a2c800, 0x4036ac37a88631, 0x75b4f94eaf3d2d1, 0x497d8374237f58);
  (0xcdb28ac27459000, 0x4036ac37a88631, 0x14367841123962d1, 0x64f56df1ba45dd);
  (0x2923b55a1745000, 0x4036ac37a88631, 0x4c9143f497f82d1, 0x77831c6ab0382b);
  (0x52476ab42e8a000, 0x4036ac37a88631, 0x75b4f94eaf3d2d1, 0x5bdce4512c5f2e);
  (0xa48ed5685d14000, 0x4036ac37a88631, 0x11a43ceb70c512d1, 0x6e251e603eb5c8);
  (0x1491daad0ba28000, 0x4036ac37a88631, 0x263617987c6792d1, 0x77493b67c7e115);
  (0x95ec59ebc5e2a3, 0x9241d07892b4d, 0x7af8af2c8a105fe, 0x77f6de7080e657);
  (0x12bd8b3d78bc546, 0x9241d07892b4d, 0xf4c8b83c1ad8845, 0x77662be93c0ca0);
  (0x13fbee531fdc9d5d, 0x4dfb5003b05cea, 0x11a43ceb70c512d1, 0x44d732fc27319d);
  (0x77f047efd1821c, 0x9241d07892b4d, 0x665b62cf520e031, 0x7cd14637e7e8d9);
  (0xefe08fdfa30438, 0x9241d07892b4d, 0xc7ce9d422c47b9d, 0x79d35fccef8de1);
  (0x14ebcee2ff7fa195, 0x660c32886109cb, 0x130c0dc340399925, 0x5ce81580d7de7e);
  (0x1dfc11fbf460870, 0x2db49125add881, 0x3cf35f3d9a51ea1, 0x5ce81580d7de7e);
  (0x78eb83358312f81, 0x5c289be619c7c0, 0x3cf35f3d9a51ea1, 0x2e740ac06bef3f);
  (0xf2d241b0b7b6cc3, 0x5c8858b378d31f, 0x79e6be7b34a3d42, 0x2e740ac06bef3f);
  (0x260867d2255a2489, 0x73f23c7a5e506e, 0xf3cd7cf66947a84, 0x2e740ac06bef3f);
  (0x6120e7137caf84e, 0x5c8858b378d31f, 0x49564af1764c11b, 0x45ddee87516c8e);
  (0x10b9819186fab1b7, 0x7f774ff7218966, 0x49564af1764c11b, 0x22eef743a8b647);
  (0x19e44aefb5c433ed, 0x62aa9f3f397afa, 0x92ac95e2ec98236, 0x22eef743a8b647);
  (0x6977ab33dd5caae, 0x7d989ff446508b, 0x5269d55e1e76f1, 0x622468bc0a7db);
  (0x8338bde146e1d63, 0x4e22005784cbe9, 0x8d85f88d0ab0b45, 0x544446e34573c4);
  (0x193f7744f987460b, 0x784423c92785cb, 0x8d85f88d0ab0b45, 0x2a222371a2b9e2);
  (0x50cb17431e7dacf, 0x784423c92785cb, 0x3cbae149ec33076, 0x5a668d6f061b9f);
  (0xa1962e863cfb59e, 0x784423c92785cb, 0x8d85f88d0ab0b45, 0x6955589c16d0b5);
  (0x12f1c271347ac0e3, 0x70ccbe329f2b40, 0x11b0bf11a156168a, 0x6955589c16d0b5);
  (0x12f1c271347ac0e3, 0x38665f194f95a0, 0x23617e2342ac2d14, 0x6955589c16d0b5);
  (0x8144f204fd95e18, 0x784423c92785cb, 0x2c9243094c804b3, 0x297793ec3ee08a);
  (0x10289e409fb2bc30, 0x784423c92785cb, 0x2c9243094c804b3, 0x14bbc9f61f7045);
  (0x12f1c271347ac0e3, 0x467ff6dfa37b08, 0x18840ad25e0aca49, 0x5b3bc0d5c2eb4d);
  (0x43c225962744784, 0x4ecc8fdce8a541, 0x4e7355d46022875, 0x5b3bc0d5c2eb4d);
  (0x92357b6a8766ff9, 0x5504285955c847, 0x9ce6aba8c0450ea, 0x5b3bc0d5c2eb4d);
  (0x12f1c271347ac0e3, 0x581ff4978c59ca, 0x139cd5751808a1d4, 0x5b3bc0d5c2eb4d);
  (0x34117ad2140a5d3, 0x4bb0c39eb213be, 0x3ec2ab104ce86c4, 0x5b3bc0d5c2eb4d);
  (0x34117ad2140a5d3, 0x25d861cf5909df, 0x7d85562099d0d88, 0x5b3bc0d5c2eb4d);
  (0xb196d0f2addb35b, 0x408a11528dfa96, 0xfb0aac4133a1b10, 0x5b3bc0d5c2eb4d);
  (0xb196d0f2addb35b, 0x204508a946fd4b, 0x2a7ac2975151e97b, 0x7b80c97f09e898);
  (0x623054453a93fd, 0x5935926120c94, 0x8cc4b158b7e3b6d, 0x7fe51469f6a6ff);
  (0x623054453a93fd, 0x2c9ac9309064a, 0x1198962b16fc76da, 0x7fe51469f6a6ff);
  (0x623054453a93fd, 0x164d649848325, 0x23312c562df8edb4, 0x7fe51469f6a6ff);
  (0x623054453a93fd, 0x6f82f6f968fb9, 0x6e28f22ba4d8df2, 0x7d1b67d6eda0b5);
  (0x8cd80c8147271e3, 0x4ffa2a826f37a9, 0x809201f89fd49e9, 0x4901fb12d8a7f0);
  (0x119b019028e4e3c6, 0x4ffa2a826f37a9, 0x19a421afb2e22daf, 0x747b280bdb8ba1);
  (0x38566b66e942d8e, 0x4ffa2a826f37a9, 0x483b9691b691c5b, 0x668ac92cae6c2f);
  (0x70acd6cdd285b1c, 0x4ffa2a826f37a9, 0x809201f89fd49e9, 0x5b4279d78ed1ec);
  (0xe159ad9ba50b638, 0x4ffa2a826f37a9, 0x161ebaf9444e0021, 0x7d9b676e36a09f);
  (0x243455d2fe9eb659, 0x66cac8f852ec24, 0x2c3d75f2889c0042, 0x7d9b676e36a09f);
  (0x5a23df0b0ed15b0, 0x4ffa2a826f37a9, 0x809201f89fd49e9, 0x7213184d728667);
  (0xb447be161da2b60, 0x4ffa2a826f37a9, 0xdab5e103aea5f99, 0x6106a167f0df08);
  (0x1688f7c2c3b456c0, 0x4ffa2a826f37a9, 0xdab5e103aea5f99, 0x308350b3f86f84);
  (0x647b6b10f4c75fb, 0x6f710450e5ffce, 0x3b1d3af95cef4cf, 0x418fc7997a16e3);
  (0x647b6b10f4c75fb, 0x37b8822872ffe7, 0xdab5e103aea5f99, 0x794849c1ed16ca);
  (0x1a3acb7259834b8f, 0x745ca709698b4c, 0xdab5e103aea5f99, 0x3ca424e0f68b65);
  (0x28315e06c84fbfe, 0x37b8822872ffe7, 0x39f068e88d66fa1, 0x5052afc304b95d);
  (0x5062bc0d909f7fc, 0x37b8822872ffe7, 0xb28482fce65639b, 0x7bbe1b1e2edc89);
  (0xa0c5781b213eff8, 0x37b8822872ffe7, 0x102e73f0a76f5b97, 0x59bb4ea350ee38);
  (0x244722f40b973b87, 0x6496297a1b7703, 0x102e73f0a76f5b97, 0x2cdda751a8771c);
  (0x8d251d1e7680da5, 0x7a4bdf27b08899, 0x2740b5f9557c4a6, 0x2202cc7addee51);
  (0xb465d317cbfd24b, 0x4e2755d1473b75, 0x102e73f0a76f5b97, 0x702a224c2529c6);
  (0x168cba62f97fa496, 0x4e2755d1473b75, 0x102e73f0a76f5b97, 0x381511261294e3);
  (0x5c899c4424ffc51, 0x64399a7c7be207, 0x532ed16328fafa3, 0x5a17dda0f08334);
  (0xb913388849ff8a2, 0x64399a7c7be207, 0x532ed16328fafa3, 0x2d0beed078419a);
  (0x1c5554273bcfa0e7, 0x7abf91e4b802d4, 0x532ed16328fafa3, 0x1685f7683c20cd);
  (0x57540f8c3bdcf4d, 0x763a96826d3c86, 0x10a2f6ad6e98987, 0x1685f7683c20cd);
  (0xbb25d79cd370877, 0x7eaf3179eb00aa, 0x2145ed5add3130e, 0x1685f7683c20cd);
  (0x1403d8d0848354af, 0x6c63878d6dc1ef, 0x428bdab5ba6261c, 0x1685f7683c20cd);
  (0x28cf8d294ec2133b, 0x6e80ae4b4d32f8, 0x8517b56b74c4c38, 0x1685f7683c20cd);
  (0x67f9d2a1e4ac167, 0x57fab6e311122b, 0x8517b56b74c4c38, 0x709dd5092ca401);
  (0xcff3a543c9582ce, 0x57fab6e311122b, 0xed11880d5970d9f, 0x644c45f61edb16);
  (0x19fe74a8792b059c, 0x57fab6e311122b, 0xed11880d5970d9f, 0x322622fb0f6d8b);
  (0x76f29c338f2ff85, 0x7dcf4acb12b6cb, 0x3b0f75ece52070d, 0x3e77b20e1d3676);
  (0xede538671e5ff0a, 0x7dcf4acb12b6cb, 0x3b0f75ece52070d, 0x1f3bd9070e9b3b);
  (0x128f4ae540380617, 0x4e8591e910a903, 0x19f139a2dcdc1431, 0x6dc16af01f443e);
  (0x5f287cf60c26604, 0x7dcf4acb12b6cb, 0xb7b3771df0d40b, 0xf2df92c1b28ae);
  (0xbe50f9ec184cc08, 0x7dcf4acb12b6cb, 0xb7b3771df0d40b, 0x796fc960d9457);
  (0xc9cc315df75a013, 0x42b323b0902591, 0xe0c2a041b574829, 0x4a4a20469db9e8);
  (0x1939862bbeeb4026, 0x42b323b0902591, 0x2745b02fda42884f, 0x67d833d3df0285);
  (0x9840c7f013709a0, 0x7dcf4acb12b6cb, 0x7dabcd65eda1b43, 0x67d833d3df0285);
  (0x115ec955601124e3, 0x72d3bf4f78dca8, 0xfb579acbdb43686, 0x67d833d3df0285);
  (0x115ec955601124e3, 0x3969dfa7bc6e54, 0x1f6af3597b686d0c, 0x67d833d3df0285);
  (0x79cd6cc00f8d480, 0x7dcf4acb12b6cb, 0x2251bbd5e1f7be3, 0x2372c8b088ba0e);
  (0xf39ad9801f1a900, 0x7dcf4acb12b6cb, 0x2251bbd5e1f7be3, 0x11b96458445d07);
  (0x115ec955601124e3, 0x47c45791ab89e9, 0x15a900d01c501ca9, 0x597dbbe9efe6f0);
  (0x55bc79750fa6f1f, 0x6eb239049c9b2b, 0xdba4b225a6318e, 0x11b96458445d07);
  (0xb5d48765885ca01, 0x7561fbb73d932e, 0x1b749644b4c631c, 0x11b96458445d07);
  (0x123a6e0785b75671, 0x5e23c68c2783a5, 0x15a900d01c501ca9, 0x6fdd2ae46be0ac);
  (0x2474dc0f0b6eace2, 0x5e23c68c2783a5, 0x15a900d01c501ca9, 0x37ee957235f056);
  (0x94e239797c3b979, 0x78246420a66c6f, 0x15f6de9d5d6b5b0, 0x11b96458445d07);
  (0x102b4928c4f545e9, 0x6861acecfe1ec9, 0x12ea24fc70a2b149, 0x7a1b1145427bd0);
  (0x2056925189ea8bd2, 0x6861acecfe1ec9, 0x12ea24fc70a2b149, 0x3d0d88a2a13de8);
  (0x677b6dd1b954f2a, 0x6861acecfe1ec9, 0x5fab742397812f5, 0x6080515329f7f6);
  (0xcef6dba372a9e54, 0x6861acecfe1ec9, 0x5fab742397812f5, 0x304028a994fbfb);
  (0x19dedb746e553ca8, 0x6861acecfe1ec9, 0x12ea24fc70a2b149, 0x4c50eacb498d62);
  (0x52c924a7c777288, 0x6861acecfe1ec9, 0x3646e1cfb3c59b1, 0x446f8f3175668f);
  (0xa592494f8eee510, 0x6861acecfe1ec9, 0x891006777b3cc39, 0x56689e0f39c2ac);
  (0x14b24929f1ddca20, 0x6861acecfe1ec9, 0x891006777b3cc39, 0x2b344f079ce156);
  (0x390485b027631ae, 0x59dd4a54d5cc91, 0x1b699ae4b23f5a5, 0x2b344f079ce156);
  (0x8d72a6450105901, 0x6f7771d8a43d3c, 0x1b699ae4b23f5a5, 0x159a2783ce70ab);
  (0x131ec47a12e81adf, 0x788a2f77bd709f, 0x36d335c9647eb4a, 0x159a2783ce70ab);
  (0x2440c549024fb351, 0x72467a8562d1fb, 0x6da66b92c8fd694, 0x159a2783ce70ab);
  (0x778490c13f3947d, 0x75bb26cafedbe0, 0x15ee1583c1cc484, 0x159a2783ce70ab);
  (0xfb1911d7ca02f95, 0x7bac09f0eabff1, 0x2bdc2b078398908, 0x159a2783ce70ab);
  (0x1d665e8fd5bfdcbd, 0x73d767c1f979a4, 0x57b8560f0731210, 0x159a2783ce70ab);
  (0x4c891d62ddc2889, 0x5e3d403e2b08f9, 0x57b8560f0731210, 0x6c02c593083357);
  (0xa4417371e4f3a99, 0x652002e8999e28, 0xaf70ac1e0e62420, 0x6c02c593083357);
  (0xa4417371e4f3a99, 0x329001744ccf14, 0x15ee1583c1cc4840, 0x6c02c593083357);
  (0x3d3a7de8b1686d4, 0x5e3d403e2b08f9, 0x29cc77a08222cf1, 0x405586c929f972);
  (0xa4417371e4f3a99, 0x7e6803a2c005b2, 0x29cc77a08222cf1, 0x202ac36494fcb9);
  (0xa4417371e4f3a99, 0x3f3401d16002d9, 0xf7da62b2e93947b, 0x5f5ec535f4ff92);
  (0x14882e6e3c9e7532, 0x3f3401d16002d9, 0x2405d4996b3209ad, 0x6ee3646c5a82a2);
  (0x61f72fdab573e20, 0x5e3d403e2b08f9, 0x7345db848a39b89, 0x6ee3646c5a82a2);
  (0xc3ee5fb56ae7c40, 0x5e3d403e2b08f9, 0x7345db848a39b89, 0x3771b2362d4151);
  (0x137343b39f5217c9, 0x4ad7793a2c2525, 0xe68bb7091473712, 0x3771b2362d4151);
  (0x3e3da571fdd37f5, 0x4ad7793a2c2525, 0x6a106c2518cc728, 0x7f89889a89fc4b);
  (0x7c7b4ae3fba6fea, 0x4ad7793a2c2525, 0xa84e1197169ff1d, 0x653080ea5b10b8);
  (0x1a144a75f0dedef1, 0x7d6fb9af59ad81, 0xa84e1197169ff1d, 0x329840752d885c);
  (0x50a88430e0ae0b7, 0x793c1bd8f90fed, 0x118782ae0ac9fae, 0x1a5907b02eeb93);
  (0x853f0c3b010bfc1, 0x64239974c2e953, 0xa84e1197169ff1d, 0x7e7ca124f1d4e6);
  (0x10a7e18760217f82, 0x64239974c2e953, 0xa84e1197169ff1d, 0x3f3e509278ea73);
  (0x1b2cc2a0d18b7e9f, 0x51b0f5039de9e3, 0x1509c232e2d3fe3a, 0x3f3e509278ea73);
  (0x13a33492fbe4ce1, 0x1272a47124ff70, 0x7898e0dd5a6b08f, 0x714a81ffc59a6f);
  (0x13a33492fbe4ce1, 0x9395238927fb8, 0x104d4f64db0badff, 0x7a83d438581a27);
  (0x13a33492fbe4ce1, 0x49ca91c493fdc, 0x21d4d212e5d5a8df, 0x7f207d54a15a03);
  (0x13a33492fbe4ce1, 0x170f4d8d6e3f4c, 0x68552f5246b1266, 0x7a83d438581a27);
  (0x13a33492fbe4ce1, 0xb87a6c6b71fa6, 0xd0aa5ea48d624cc, 0x7a83d438581a27);
  (0x13a33492fbe4ce1, 0x5c3d3635b8fd3, 0x1a154bd491ac4998, 0x7a83d438581a27);
  (0x13a33492fbe4ce1, 0x1cd320f0c9cf1f, 0x4f89e8246c9328b, 0x74c000d4fc8a54);
  (0x27466925f7c99c2, 0x1cd320f0c9cf1f, 0x9e16ba705c2660f, 0x7406424c11e368);
  (0x13b305f083b4cd17, 0x73a963079c8ff2, 0xeca38cbc4bb9993, 0x56d64216d2c0d3);
  (0x13b305f083b4cd17, 0x39d4b183ce47f9, 0x1d94719789773326, 0x56d64216d2c0d3);
  (0x5e7533ecd2170d3, 0x56a7d274981718, 0x7e45f72e971eb71, 0x73d7d2a9d739ad);
  (0x5e7533ecd2170d3, 0x2b53e93a4c0b8c, 0xfc8bee5d2e3d6e2, 0x73d7d2a9d739ad);
  (0x5e7533ecd2170d3, 0x15a9f49d2605c6, 0x1f917dcba5c7adc4, 0x73d7d2a9d739ad);
  (0x5e7533ecd2170d3, 0x6c51c711be1cde, 0x522088291bad8fd, 0x5e2dde0cb133e7);
  (0x5e7533ecd2170d3, 0x3628e388df0e6f, 0xa4411052375b1fa, 0x5e2dde0cb133e7);
  (0xbcea67d9a42e1a6, 0x3628e388df0e6f, 0x102b6443f09722cd, 0x4a2b60cac8212b);
  (0x9dd56362b87978, 0xe23e9050ce8f7, 0x4fa9329b90cba9f, 0x72305b4e9a46a3);
  (0x598688d1bc53417, 0x402a2229d397cd, 0x9f526537219753e, 0x72305b4e9a46a3);
  (0xb30d11a378a682e, 0x402a2229d397cd, 0xf8d8ee08ddea955, 0x592d3ebc36ef38);
  (0x1661a2346f14d05c, 0x402a2229d397cd, 0x25ef3114fcf379b1, 0x6cc0c187ef0f69);
  (0x15d9d772d0ad49b, 0x139382cbb82031, 0x8b97b8caca8824e, 0x7d0f8edbf0b517);
  (0x2bb3aee5a15a936, 0x139382cbb82031, 0xf8d8ee08ddea955, 0x6f788e6b44ab06);
  (0x150404bd4209fbc1, 0x4b4fca015a75b4, 0xf8d8ee08ddea955, 0x37bc4735a25583);
  (0x54bb21ecad77609, 0x5ee34ccd1295e5, 0x520ee60e18399a6, 0x5be50b9f8c8ad5);
  (0xa97643d95aeec12, 0x5ee34ccd1295e5, 0xa6ca07fac5b0faf, 0x5d642c364f905d);
  (0x150404bd4209fbc1, 0x5e23bc81b11321, 0x14d940ff58b61f5e, 0x5d642c364f905d);
  (0x44da997cc678362, 0x60626d63d59b6d, 0x422e5d9e313a6ff, 0x5ca49beaee0d99);
  (0x8708f71af7b2a61, 0x5e8384a761d483, 0x845cbb3c6274dfe, 0x5ca49beaee0d99);
  (0x10e11ee35ef654c2, 0x5e8384a761d483, 0x10b65b2575a2785f, 0x5d94104927f10e);
  (0x21c23dc6bdeca984, 0x5e8384a761d483, 0x10b65b2575a2785f, 0x2eca082493f887);
  (0x704df24681be8ec, 0x62415620496257, 0x357abd44aba1813, 0x2eca082493f887);
  (0x110be2a1484a3125, 0x774fb74702a5f6, 0x6af57a895743026, 0x2eca082493f887);
  (0x1e6a91f273329171, 0x6a71e3c8154b82, 0xd5eaf512ae8604c, 0x2eca082493f887);
  (0x42504637abc0066, 0x4885af226ead6f, 0x49cd576d8162ff3, 0x50b63cca3a969a);
  (0xce6de3dcd8e30bf, 0x70e0cd878bf8bc, 0x49cd576d8162ff3, 0x285b1e651d4b4d);
  (0xce6de3dcd8e30bf, 0x387066c3c5fc5e, 0x1620892b7dba90a5, 0x60cb8528e347ab);
  (0x4c94b3c6df0ba42, 0x68b03fdfc00f91, 0x11c17ec508ee969, 0x1845d606749a3c);
  (0xaaeae652c705ded, 0x74d32ae2fa5caf, 0x11c17ec508ee969, 0xc22eb033a4d1e);
  (0x167974b6a96fa543, 0x7ae4a06497833e, 0x11c17ec508ee969, 0x61175819d268f);
  (0x1ae9d467ebab4ae7, 0x49953b35860ebd, 0x1d2204408cc91db9, 0x4fa6b0b723354c);
  (0x561f747fbef0efb, 0x49953b35860ebd, 0x79a27209d0ce1cd, 0x67ec86bd97cf88);
  (0xac3ee8ff7de1df6, 0x49953b35860ebd, 0x125e15b094eaffc3, 0x7d8b7e9451f681);
  (0x1587dd1fefbc3bec, 0x49953b35860ebd, 0x1d2204408cc91db9, 0x63905ce4ec029f);
  (0x44e5f6cc98c0bfc, 0x49953b35860ebd, 0x34bc7b3d380d5d1, 0x38526d3777b4ad);
  (0x89cbed9931817f8, 0x49953b35860ebd, 0x79a27209d0ce1cd, 0x40f3d4367ee1b5);
  (0x11397db326302ff0, 0x49953b35860ebd, 0x1036e5fa3024f9c5, 0x454487b6027839);
  (0x3d955d436daec0e, 0x5236a2348d3bc5, 0x2d6be1b40cfb5e3, 0x3ca320b6fb4b31);
  (0x7b2aba86db5d81c, 0x5236a2348d3bc5, 0x6b013ef77aaa1f1, 0x476ce175c4437b);
  (0xe62bf97e5607a0d, 0x4cd1c1d528bfa0, 0xd6027deef5543e2, 0x476ce175c4437b);
  (0x29230f55c40b01d1, 0x6dd5c26058a34b, 0x1ac04fbddeaa87c4, 0x476ce175c4437b);
  (0x97085ef1b42daf7, 0x7e04637e8617ba, 0x2791cd4650ecf8b, 0x2104008b2fe3ab);
  (0xe62bf97e5607a0d, 0x6006324a72ef88, 0x4f239a8ca1d9f16, 0x2104008b2fe3ab);
  (0x184732e9799bb839, 0x510719b0695b6f, 0x222ba63b0dd6f665, 0x720b1a3b993f1a);
  (0x4db0a2eb1ebf1a5, 0x510719b0695b6f, 0x5096922e24f4c87, 0x540ce9078616e8);
  (0x9b6145d63d7e34a, 0x510719b0695b6f, 0xebf7d8046272fd1, 0x7b0d8e342c66e3);
  (0x136c28bac7afc694, 0x510719b0695b6f, 0x187591dda9ff131b, 0x660a53f24ae129);
  (0x1deaae433d03c4e, 0x2700a52ca64ffb, 0x5096922e24f4c87, 0x69102349679ca2);
  (0x3bd55c867a0789c, 0x2700a52ca64ffb, 0x8c6beeb49efc523, 0x5b88b6d15a1e4c);
  (0x10416a7c1930b65b, 0x54c50095535f21, 0x8c6beeb49efc523, 0x2dc45b68ad0f26);
  (0x294993e37c5131d9, 0x6ba72e49a9e6b4, 0x8c6beeb49efc523, 0x16e22db4568793);
  (0x9b14afad88b9f5b, 0x7e5cb0c23bf92e, 0x1c1596241fcc107, 0x16e22db4568793);
  (0x10b6b083e07ea377, 0x6cf2b3c9cb0bbd, 0x382b2c483f9820e, 0x16e22db4568793);
  (0x22442e5a745e2dbd, 0x6faecc27bdd8ce, 0x705658907f3041c, 0x16e22db4568793);
  (0x572f4f6af48a1ed, 0x58cc9e7367513b, 0x705658907f3041c, 0x726ae485b0a5df);
  (0xc785a7fb73ba609, 0x659bc17c8bfb8d, 0xe0acb120fe60838, 0x726ae485b0a5df);
  (0x1a832591c721ae41, 0x6c0353011e50b6, 0x1c1596241fcc1070, 0x726ae485b0a5df);
  (0x54d6de9f4a0560d, 0x6c0353011e50b6, 0x192709258aa622f, 0x2005d796dba9cd);
  (0x54d6de9f4a0560d, 0x3601a9808f285b, 0x8724f0ea5f51a6b, 0x560781176ad228);
  (0xa9adbd3e940ac1a, 0x3601a9808f285b, 0x130d2ae28f35c685, 0x61056a0c44916f);
  (0x28d7b51d5b5a5f5, 0x40ff927568e7a2, 0x2f269de681fba3b, 0x4b0998229112e1);
  (0x28d7b51d5b5a5f5, 0x207fc93ab473d1, 0x8724f0ea5f51a6b, 0x6b89615d4586b2);
  (0x51af6a3ab6b4bea, 0x207fc93ab473d1, 0x12a83c55fccbb23f, 0x76c443240baafb);
  (0x17c332f9a836fe29, 0x4ba2062f600f66, 0x255078abf997647e, 0x76c443240baafb);
  (0x780128a135ce9c3, 0x775cb130daa780, 0x2b5dabd4379ae11, 0x2b223cf4ab9b95);
  (0xcebc8049a5045e5, 0x66d0958d18ef55, 0x56bb57a86f35c22, 0x2b223cf4ab9b95);
  (0x1d2ee8742f2a5a4b, 0x741ba6358de10a, 0xad76af50de6b844, 0x2b223cf4ab9b95);
  (0x18003b537129527, 0x1dd72c4c36a9e0, 0x6575fd568aef8cf, 0x7e25abe2b60c49);
  (0x18003b537129527, 0xeeb96261b54f0, 0xcaebfaad15df19e, 0x7e25abe2b60c49);
  (0x18003b537129527, 0x775cb130daa78, 0x195d7f55a2bbe33c, 0x7e25abe2b60c49);
  (0x18003b537129527, 0x254cf75f445458, 0x3df7ce68e16b620, 0x604e7f967f6269);
  (0x18003b537129527, 0x12a67bafa22a2c, 0x93efd8253400167, 0x72f4fb46218c95);
  (0x18003b537129527, 0x9533dd7d11516, 0x13fdfeb9dd9297f5, 0x7c48391df2a1ab);
  (0x18003b537129527, 0x4a99eebe88a8b, 0x27fbfd73bb252fea, 0x7c48391df2a1ab);
  (0x18003b537129527, 0x17501a9b8ab4b7, 0x765979b75cccdec, 0x72f4fb46218c95);
  (0x300076a6e252a4e, 0x17501a9b8ab4b7, 0xee5aa258929b7af, 0x73c2c027eb8a14);
  (0x14e5b8fa65740c4b, 0x51317aaf8079c1, 0xee5aa258929b7af, 0x39e16013f5c50a);
  (0x6000ed4dc4a549c, 0x74908509b58793, 0x1c7857688f97a37, 0x229145786b1053);
  (0xb569f387736c341, 0x6e222ab97b5c46, 0x38f0aed11f2f46e, 0x229145786b1053);
  (0xb569f387736c341, 0x3711155cbdae23, 0x1274b5129b1cac1d, 0x59a25ad528be76);
  (0x244863e7e3e270d, 0x3711155cbdae23, 0x4d98f9ba5a7c1cf, 0x75c545fd59a37c);
  (0x4890c7cfc7c4e1a, 0x3711155cbdae23, 0x9629c18a2240fe9, 0x71f3b85b6a7fe1);
  (0x91218f9f8f89c34, 0x3711155cbdae23, 0xdeba8959ea05e03, 0x548266dc141702);
  (0x122431f3f1f13868, 0x3711155cbdae23, 0x200fda899091966b, 0x615248cac7b9a4);
  (0x70144af730a86cc, 0x6a509d178c38ab, 0x2c8bb511fb9ac67, 0x2a41336e0a0b81);
  (0xf5b76a2d2378c01, 0x748a1bb0d52d97, 0x59176a23f7358ce, 0x2a41336e0a0b81);
  (0x1eb6ed45a46f1802, 0x748a1bb0d52d97, 0x14eced4511aae4cf, 0x4f65a78f6f9c8c);
  (0x1f53333508da3d7, 0x2524742165910b, 0x54353aa8d3dc617, 0x63d8a4c2018664);
  (0x3ea6666a11b47ae, 0x2524742165910b, 0xd182077cf745573, 0x7c353aa3cbe548);
  (0x7d4cccd42368f5c, 0x2524742165910b, 0x14eced4511aae4cf, 0x633f11734b83af);
  (0x837ea08a982841, 0xc2e4af0e52f72, 0x54353aa8d3dc617, 0x7ccecdf281e7fd);
  (0x837ea08a982841, 0x61725787297b9, 0xa86a7551a7b8c2e, 0x7ccecdf281e7fd);
  (0xe1f1db8e4a4a5f5, 0x53b86a1ed20706, 0xd182077cf745573, 0x4da144a65f6f4d);
  (0xe1f1db8e4a4a5f5, 0x29dc350f690383, 0x284f5ea8838d50db, 0x777d79b5c872d0);
  (0x2d305f1c7542131, 0x29dc350f690383, 0x66b17532b9bc28f, 0x5f20e3d3fe13ec);
  (0x5a60be38ea84262, 0x29dc350f690383, 0xc112336ba4404f1, 0x596ca6f9680d79);
  (0xb4c17c71d5084c4, 0x29dc350f690383, 0x1d0346e1663ccc17, 0x6b80a313d18c01);
  (0x43604efccf201d6, 0x4e042d443c0093, 0x38b096ba82f4177, 0x41a46e0468887e);
  (0xbf7134b42134523, 0x6ed664467044d2, 0x38b096ba82f4177, 0x20d2370234443f);
  (0x130d26229271c811, 0x583d69256c66a8, 0x1a2338f9e2d04aff, 0x790fa027a0aae7);
  (0x3cf6e06ea16c19d, 0x583d69256c66a8, 0x346a4d06647c151, 0x4bdda9e598ee93);
  (0x3cf6e06ea16c19d, 0x2c1eb492b63354, 0xa5cb7a7b6a6443f, 0x77fc5e784f21e7);
  (0x3cf6e06ea16c19d, 0x160f5a495b19aa, 0x14b96f4f6d4c887e, 0x77fc5e784f21e7);
  (0x3cf6e06ea16c19d, 0xb07ad24ad8cd5, 0x2972de9eda9910fc, 0x77fc5e784f21e7);
  (0x3cf6e06ea16c19d, 0x372661b763c029, 0x6c4008367af1c5a, 0x61ed042ef4083d);
  (0x79edc0dd42d833a, 0x372661b763c029, 0xa936e8a51c5ddf7, 0x4c89b2f32be433);
  (0xf3db81ba85b0674, 0x372661b763c029, 0x217002b3ce4e67a5, 0x78fe6c0cab9257);
  (0x452be8d2b2f65bd, 0x4e37c9951b4a43, 0x3a3a884d463e03d, 0x41d80a5547d22e);
  (0xc49259f2ac2abb7, 0x6f23cebfbf335a, 0x3a3a884d463e03d, 0x20ec052aa3e917);
  (0x1ad7c7b27c522cab, 0x7969f1b5276bdb, 0x7475109a8c7c07a, 0x20ec052aa3e917);
  (0x3e9b154f71baf3d, 0x587dec8a8382c4, 0x35d9fb4b1ac113d, 0x4c1e2d4ab00aaf);
  (0x3e9b154f71baf3d, 0x2c3ef64541c162, 0xaa4f0be5a73d1b7, 0x785d238ff1cc11);
  (0x3e9b154f71baf3d, 0x161f7b22a0e0b1, 0x1549e17cb4e7a36e, 0x785d238ff1cc11);
  (0x7d362a9ee375e7a, 0x161f7b22a0e0b1, 0x28da582588720f9f, 0x737d459e8b17c3);
  (0x7d362a9ee375e7a, 0x6e9d67ad246375, 0x379a33b25f5973d, 0x311ed436a875b0);
  (0xfa6c553dc6ebcf4, 0x6e9d67ad246375, 0x379a33b25f5973d, 0x188f6a1b543ad8);
  (0x22c72de2ded31125, 0x7ae51cbace80e1, 0x379a33b25f5973d, 0xc47b50daa1d6c);
  (0x6fa1409af26573d, 0x7b45458373eb85, 0xb1ed723acab7d9, 0xc47b50daa1d6c);
  (0xdf428135e4cae7a, 0x7b45458373eb85, 0xb1ed723acab7d9, 0x623da86d50eb6);
  (0x1c9a3d98f76414cd, 0x7e5732c6de72e0, 0xb1ed723acab7d9, 0x311ed436a875b);
  (0x52a1b299c0b7115, 0x720f7db9345574, 0xb1ed723acab7d9, 0xf59a25114a4c7);
  (0xab986bb72612fdd, 0x766e4820ecbdd6, 0x163dae475956fb2, 0xf59a25114a4c7);
  (0x15d85ddf1f0cad6d, 0x789dad54c8f207, 0x2c7b5c8eb2adf64, 0xf59a25114a4c7);
  (0x23beeacbb6e30a61, 0x62aeec751814f5, 0x294e565d8d38c929, 0x72088ec62cb9bc);
  (0x4ecd0bb353e4f5d, 0x43fba7d2eecb67, 0x58f6b91d655bec8, 0x4cc02b956737e3);
  (0x9d9a1766a7c9eba, 0x43fba7d2eecb67, 0xa7c3c4d0b940e25, 0x485de9b42b01a5);
  (0x1455ddc37610acdf, 0x462cc8c38ce686, 0x14f8789a17281c4a, 0x485de9b42b01a5);
  (0x4112c5a4ad02293, 0x462cc8c38ce686, 0x4b3c730ebe791fe, 0x51226d76a36e21);
  (0x4112c5a4ad02293, 0x23166461c67343, 0xd78babc229f468f, 0x7438d1d869e164);
  (0x82258b495a04526, 0x23166461c67343, 0x159b1370b83f8bb5, 0x5d32cd4dfb63f5);
  (0x22fa979ec7381c7, 0x2f26c4391e6917, 0x3c305c0bcb94198, 0x51226d76a36e21);
  (0xa52022e8213c6ed, 0x6f4b5d10ff54b3, 0x5f2af3aa92cc35f, 0x402498d7e0eb9c);
  (0x14a4045d04278dda, 0x6f4b5d10ff54b3, 0x5f2af3aa92cc35f, 0x20124c6bf075ce);
  (0x2f3ab7f4b17bdf13, 0x7f548346f78f9a, 0x5f2af3aa92cc35f, 0x10092635f83ae7);
  (0x5e08874246450fe, 0x4f3910a50edee5, 0x5f2af3aa92cc35f, 0x502dbf0dd92683);
  (0xbd337aecd91145d, 0x4fb367d97402b4, 0xbe55e75525986be, 0x502dbf0dd92683);
  (0xbd337aecd91145d, 0x27d9b3ecba015a, 0x239df499724421d9, 0x780772fa9327dd);
  (0x2562ed38d99a31f, 0x275f5cb854dd8b, 0x726da07b25dce1f, 0x7881ca2ef84bac);
  (0xbd337aecd91145d, 0x63a041cfd10361, 0x726da07b25dce1f, 0x3c40e5177c25d6);
  (0x17a66f5d9b2228ba, 0x63a041cfd10361, 0x726da07b25dce1f, 0x1e20728bbe12eb);
  (0x34cb77794f4121f, 0x457fcf4412f076, 0x3da22901d69bc00, 0x51226d76a36e21);
  (0x34cb77794f4121f, 0x22bfe7a209783b, 0xb00fc97cfc78a1f, 0x73e25518ace65c);
  (0x6996eef29e8243e, 0x22bfe7a209783b, 0x1833da762397d29b, 0x7f70f9d06963a4);
  (0x2566b85477681b17, 0x6278648a3e2a0d, 0x1833da762397d29b, 0x3fb87ce834b1d2);
  (0x77af1aa7e48056b, 0x6278648a3e2a0d, 0x93df7212707c7c5, 0x79a9a7748b2500);
  (0xef5e354fc900ad6, 0x6278648a3e2a0d, 0x93df7212707c7c5, 0x3cd4d3ba459280);
  (0x1debc6a9f92015ac, 0x6278648a3e2a0d, 0x93df7212707c7c5, 0x1e6a69dd22c940);
  (0x5fbf48865066abc, 0x6278648a3e2a0d, 0x3420298c2015d09, 0x359bacc76fc433);
  (0xbf7e910ca0cd578, 0x6278648a3e2a0d, 0x93df7212707c7c5, 0x4c0a08a8d6f720);
  (0x17efd2219419aaf0, 0x6278648a3e2a0d, 0x93df7212707c7c5, 0x260504546b7b90);
  (0x4078c9323d2661d, 0x52e1bc1739e16a, 0x29b3547019ab0d4, 0x359bacc76fc433);
  (0x4078c9323d2661d, 0x2970de0b9cf0b5, 0x93df7212707c7c5, 0x5f0c8ad30cb4e8);
  (0x114d10476eac93ff, 0x58f72375234b29, 0x93df7212707c7c5, 0x2f864569865a74);
  (0x2bd817b00460efc3, 0x70ba4629e67863, 0x93df7212707c7c5, 0x17c322b4c32d3a);
  (0x6eba01c92ab6e66, 0x58f72375234b29, 0x93df7212707c7c5, 0x76cfad87cfe222);
  (0xdd740392556dccc, 0x58f72375234b29, 0x93df7212707c7c5, 0x3b67d6c3e7f111);
  (0x1bae80724aadb998, 0x58f72375234b29, 0x1715375a4c5ea491, 0x4a2f7d1c859e1d);
  (0x76036ed417593ee, 0x768670265ea541, 0x2c6edd543267ee7, 0x2ca0306b4a4405);
  (0xa2724c2849c12d5, 0x51935048d474a3, 0xfb5006d0ae910a3, 0x7e3380b41eb8a8);
  (0x144e4985093825aa, 0x51935048d474a3, 0xfb5006d0ae910a3, 0x3f19c05a0f5c54);
  (0x4fb1d529b1b0bbd, 0x640ce037998cf2, 0x55cf18d37e70273, 0x6bb9f0c559a059);
  (0x4fb1d529b1b0bbd, 0x3206701bccc679, 0xab9e31a6fce04e6, 0x6bb9f0c559a059);
  (0x9f63aa53636177a, 0x3206701bccc679, 0xfb5006d0ae910a3, 0x4ee03070933369);
  (0xd7e42c46b3d2dd, 0x152cafc7065989, 0x4e6e19b8dff264c, 0x7b1411e0d9c727);
  (0x91e5678ef82449d, 0x7279c061fcc36a, 0x76e8e20621a9ee3, 0x5d4d109af669e1);
  (0x91e5678ef82449d, 0x393ce030fe61b5, 0xedd1c40c4353dc6, 0x5d4d109af669e1);
  (0x123cacf1df04893a, 0x393ce030fe61b5, 0x17fb72b9b3b78263, 0x4b44f865fa65cb);
  (0x62550d261de050f, 0x6071a82d00bf54, 0x5f20b4d1b487f1c, 0x5d4d109af669e1);
  (0x62550d261de050f, 0x3038d416805faa, 0xbe4169a3690fe38, 0x5d4d109af669e1);
  (0x62550d261de050f, 0x181c6a0b402fd5, 0x1ded7e06cf00017f, 0x75697aa63699b6);
  (0x62550d261de050f, 0x788e123840ef29, 0x111a5590e4e62a7, 0x14f7d27935da62);
  (0xc4aa1a4c3bc0a1e, 0x788e123840ef29, 0x111a5590e4e62a7, 0xa7be93c9aed31);
  (0xd5c46fdd20a6cc5, 0x4184fdba6dee2d, 0xf7f91afeea73213, 0x4c00e6f708db5e);
  (0x23e98dbf115ee4b, 0x3709147dd300fc, 0x461e38e0db2b399, 0x6b74a2acd9a2f1);
  (0x23e98dbf115ee4b, 0x1b848a3ee9807e, 0x8c3c71c1b656732, 0x6b74a2acd9a2f1);
  (0x23e98dbf115ee4b, 0xdc2451f74c03f, 0x13c6271427e0bcaf, 0x7936e7cc4e6330);
  (0x47d31b7e22bdc96, 0xdc2451f74c03f, 0x25baedf3b0902f07, 0x73a48863fa3294);
  (0xe5d6be606f2c1e, 0xdc2451f74c03f, 0x81a3f69423b7f29, 0x7c2bc0e5d634c5);
  (0x1cbad7cc0de583c, 0xdc2451f74c03f, 0x102ecc1aa6240c37, 0x7c001780787b7e);
  (0x3975af981bcb078, 0xdc2451f74c03f, 0x1e8c3800ad16ce17, 0x7509203e0f3ebb);
  (0x3975af981bcb078, 0x44cb599d47c13b, 0x61c0b3355d15c6b, 0x7509203e0f3ebb);
  (0x72eb5f3037960f0, 0x44cb599d47c13b, 0x9b3662cd78e0ce3, 0x5cea3cedab7ffb);
  (0x10e21c1fdb076dd3, 0x50dacb4579a09b, 0x1366cc59af1c19c6, 0x5cea3cedab7ffb);
  (0x53e07ea0b902b29, 0x7d8741925da316, 0x3e15c11efd26b8e, 0x5cea3cedab7ffb);
  (0x53e07ea0b902b29, 0x3ec3a0c92ed18b, 0x7c2b823dfa4d71c, 0x5cea3cedab7ffb);
  (0xd00c00deb350245, 0x4dd6eedb6d28c3, 0xf857047bf49ae38, 0x5cea3cedab7ffb);
  (0x1c863055aa7eb07d, 0x556095e48c545f, 0x1f0ae08f7e935c70, 0x5cea3cedab7ffb);
  (0x3b0afe2ded599bd, 0x3739f9c00fa5ef, 0x635601cb2ea45b0, 0x5cea3cedab7ffb);
  (0x9e60fff91bfdf6d, 0x4a121b56dd92f5, 0xc6ac03965d48b60, 0x5cea3cedab7ffb);
  (0x1650d038f7946acd, 0x537e2c22448978, 0x18d58072cba916c0, 0x5cea3cedab7ffb);
  (0x272cfdd21738bcd, 0x2dcde8f4a8af6c, 0x4f78016f58837c0, 0x5cea3cedab7ffb);
  (0xc61d00b0c83fb4d, 0x73d13167ffd7b1, 0x9ef002deb106f80, 0x5cea3cedab7ffb);
  (0x1650d038f7946acd, 0x685db72ad5abd6, 0x13de005bd620df00, 0x5cea3cedab7ffb);
  (0x272cfdd21738bcd, 0x39416331d2db47, 0x37bd67fbdbc43d7, 0x5176c2b0815420);
  (0x861763a00a35b71, 0x61fcc48a138557, 0x37bd67fbdbc43d7, 0x28bb615840aa10);
  (0x143ec2f3bf02fab9, 0x765a753633da5f, 0x37bd67fbdbc43d7, 0x145db0ac205508);
  (0x287d85e77e05f572, 0x765a753633da5f, 0x37bd67fbdbc43d7, 0xa2ed856102a84);
  (0x54fa261b49dc79e, 0x4d9f13ddf3304f, 0x37bd67fbdbc43d7, 0x32ea39ae50d494);
  (0xe1b1b4326f7d313, 0x671430b51b9a99, 0x37bd67fbdbc43d7, 0x19751cd7286a4a);
  (0x1fb20d060babe9fd, 0x73cebf20afcfbe, 0x37bd67fbdbc43d7, 0xcba8e6b943525);
  (0x5a4714e0f96546e, 0x671430b51b9a99, 0x37bd67fbdbc43d7, 0x3fa4c819e509b9);
  (0x92047cdcd529845, 0x535c7c67805229, 0x6f7acff7b7887ae, 0x3fa4c819e509b9);
  (0x1017f4cd48cb1ff3, 0x4980a240b2adf1, 0xdef59fef6f10f5c, 0x3fa4c819e509b9);
  (0x3a6831f1eedd682, 0x535c7c67805229, 0x5246b6fec019c6d, 0x756db60cfc6f3a);
  (0x74d063e3ddbad04, 0x535c7c67805229, 0x5246b6fec019c6d, 0x3ab6db067e379d);
  (0xc7171ae29dd4971, 0x4709abb6ff44e3, 0xa48d6dfd80338da, 0x3ab6db067e379d);
  (0x18e2e35c53ba92e2, 0x4709abb6ff44e3, 0x16ba488e01e0824b, 0x40e0435ebebe40);
  (0x4fa2d78dd8bb6fa, 0x4709abb6ff44e3, 0x7cbc023693d5d5d, 0x6f444db4bbe897);
  (0x9f45af1bb176df4, 0x4709abb6ff44e3, 0xcc5ed9c46c91457, 0x5b26fcb5dd96bd);
  (0x13e8b5e3762edbe8, 0x4709abb6ff44e3, 0x16ba488e01e0824b, 0x511854366e6dd0);
  (0x24a65fa5d6b94f3, 0x28ddb238b1ca1c, 0x51bf8a4e91d3b56, 0x5b26fcb5dd96bd);
  (0x24a65fa5d6b94f3, 0x146ed91c58e50e, 0xc8257442fa60b9f, 0x6f95d5d2367bcb);
  (0x1b4f1482bcb7ac31, 0x79cd426062ee52, 0x1904ae885f4c173e, 0x6f95d5d2367bcb);
  (0x24a65fa5d6b94f3, 0x33151ec6de3ca3, 0x500efb4dfdc04a6, 0x6f95d5d2367bcb);
  (0x74b55af3d479999, 0x51557a4c8a5c37, 0xa01df69bfb8094c, 0x6f95d5d2367bcb);
  (0x114d3518fcffa2e5, 0x6075a80f606c01, 0x1403bed37f701298, 0x6f95d5d2367bcb);
  (0x2550f3ec7c6fb57d, 0x6805bef0cb73e6, 0x28077da6fee02530, 0x6f95d5d2367bcb);
  (0x5d5de25ca9fae14, 0x51557a4c8a5c37, 0x88c67e04d101dc7, 0x7725ecb3a183b0);
  (0xbabbc4b953f5c28, 0x51557a4c8a5c37, 0x88c67e04d101dc7, 0x3b92f659d0c1d8);
  (0x1fe3e077778ed617, 0x6f1ef57972bd23, 0x88c67e04d101dc7, 0x1dc97b2ce860ec);
  (0x72a8eda757256c4, 0x7cda8231fd90f5, 0x75f301f289ed01, 0x806f73a2ec68d);
  (0x7a081dc67fc43c5, 0x4270bcb6162bc1, 0x88c67e04d101dc7, 0x4a77b3f044f24e);
  (0x17cd6b991d08a551, 0x67ac96ae38a4e8, 0x88c67e04d101dc7, 0x253bd9f8227927);
  (0x30d00be8ffe8182, 0x4270bcb6162bc1, 0x57f6721bd119c45, 0x77ba8522963202);
  (0xb99689edd0e9f49, 0x7e4dff476144c2, 0x57f6721bd119c45, 0x3bdd42914b1901);
  (0xb99689edd0e9f49, 0x3f26ffa3b0a261, 0x169836e25731d7d3, 0x7b044234fbbb62);
  (0x1732d13dba1d3e92, 0x3f26ffa3b0a261, 0x2dcb0820114f1665, 0x7ca920be2e8012);
  (0x1eebabe0957af3, 0x1a4de8932c4b0, 0x94ef307d6f70369, 0x7eb30690a4d0d5);
  (0x1eebabe0957af3, 0xd26f44996258, 0x12bcd1bb8e8381c5, 0x7f8575d53e332d);
  (0x1eebabe0957af3, 0x6937a24cb12c, 0x25988f22fd9c7e7d, 0x7feead778ae459);
  (0x1eebabe0957af3, 0x20e162b7f75dc, 0x76c2ce3e57483bd, 0x7e49ceee581fa9);
  (0x1eebabe0957af3, 0x1070b15bfbaee, 0xef74573ab7e826d, 0x7f50da0417da97);
  (0x1eebabe0957af3, 0x83858adfdd77, 0x1e0d769337927fcd, 0x7fd45f8ef7b80e);
  (0x1eebabe0957af3, 0x2919bb65f5353, 0x5e9f4c7243f50cd, 0x7dc64963784232);
  (0x3dd757c12af5e6, 0x2919bb65f5353, 0xbf3fc5901715443, 0x7f1b59810b4434);
  (0xeda14760f74db0b, 0x4ef75306c1960c, 0xe5e65c68d1eef3f, 0x4c65b7506242b9);
  (0xeda14760f74db0b, 0x277ba98360cb06, 0x2b96e00329b2b989, 0x73e160d3c30dbf);
  (0x91ab88d0a354825, 0x7904984081b465, 0x5bf5be9053f92e6, 0x4c65b7506242b9);
  (0xeda14760f74db0b, 0x62b527c871fb8f, 0xb7eb7d20a7f25cc, 0x4c65b7506242b9);
  (0x1db428ec1ee9b616, 0x62b527c871fb8f, 0x1a58cc4819f400d7, 0x578d6f8c6a1f24);
  (0x69cb450072caf11, 0x6ddce00479d7fa, 0x34157ac0236f9d2, 0x361646d85289e3);
  (0x69cb450072caf11, 0x36ee70023cebfd, 0xd1f63a80b9aa2b5, 0x6d04b6da8f75e0);
  (0xd3968a00e595e22, 0x36ee70023cebfd, 0x1a58cc4819f400d7, 0x6d70cb6f84a6ed);
  (0x2a514eccfab793a, 0x36ee70023cebfd, 0x53024e19c983707, 0x6bc0791bafe2b9);
  (0x54a29d99f56f274, 0x36ee70023cebfd, 0x7d539ce6c43b041, 0x5157748ef6675b);
  (0xa9453b33eade4e8, 0x36ee70023cebfd, 0x17b3b75b4a48879d, 0x7b11624ad695a9);
  (0x1528a7667d5bc9d0, 0x36ee70023cebfd, 0x22480b0e88f66c85, 0x58ffe92689c0d3);
  (0x43b54ae19125b90, 0x36ee70023cebfd, 0x8e40ef9f2884725, 0x7368edb3433c31);
  (0x876a95c3224b720, 0x36ee70023cebfd, 0xd1f63a80b9aa2b5, 0x552baedac01417);
  (0x10ed52b864496e40, 0x36ee70023cebfd, 0x26835fbca208c815, 0x7cfb7f70bb6c07);
  (0x2741e7c1bc3e6ef, 0x27cfd095fb57f0, 0x71cd8c7f539d284, 0x7368edb3433c31);
  (0x2741e7c1bc3e6ef, 0x13e7e84afdabf8, 0xe39b18fea73a508, 0x7368edb3433c31);
  (0x2741e7c1bc3e6ef, 0x9f3f4257ed5fc, 0x1ee7819bf0ab30ff, 0x7d5ce1d8c2122d);
  (0x2741e7c1bc3e6ef, 0x31c3c4bb7a2dec, 0x4b56e07ec464c0a, 0x5f810568459039);
  (0x2741e7c1bc3e6ef, 0x18e1e25dbd16f6, 0xbdefa8bf4507f03, 0x7862e7c602a72f);
  (0x2741e7c1bc3e6ef, 0xc70f12ede8b7b, 0x17bdf517e8a0fe06, 0x7862e7c602a72f);
  (0x2741e7c1bc3e6ef, 0x3e34b5ea58b967, 0x2c918a17eb6ad42, 0x469f230a887943);
  (0x4e83cf83787cdde, 0x3e34b5ea58b967, 0x53d371d9a7a9431, 0x4269ec7a709955);
  (0xa257415d202620f, 0x404f513264a95e, 0xa7a6e3b34f52862, 0x4269ec7a709955);
  (0xa257415d202620f, 0x2027a8993254af, 0x1f1a508c3becb2d3, 0x62919513a2ee04);
  (0x1e57ff568d29115, 0x1e0d0d512664b8, 0x65a742b005d3fe5, 0x64ac305baeddfb);
  (0x1e57ff568d29115, 0xf0686a893325c, 0xe9a684b698d10df, 0x73b2b704421057);
  (0x1e57ff568d29115, 0x783435449992e, 0x1f1a508c3becb2d3, 0x7b35fa588ba985);
  (0x1e57ff568d29115, 0x259050a56ffde6, 0x51529bc004a9984, 0x64ac305baeddfb);
  (0x1e57ff568d29115, 0x12c82852b7fef3, 0xc0fd36d6967c41d, 0x777458ae66dcee);
  (0xfdad3583b0ce647, 0x4e8254a9eb6d6a, 0xc0fd36d6967c41d, 0x3bba2c57336e77);
  (0x3caffead1a5222a, 0x5de8c99d97fabf, 0x26990af7b7b2739, 0x3bba2c57336e77);
  (0x634909a4d204963, 0x4cd17afa65b49b, 0x4d3215ef6f64e72, 0x3bba2c57336e77);
  (0x14adf4b7320334b9, 0x80000000000000, 0x9a642bdedec9ce4, 0x3bba2c57336e77);
  (0x14adf4b7320334b9, 0x40000000000000, 0x27fa7a330ddc6e81, 0x7bba2c57336e77);
  (0x422ca8b0a00a425, 0x40000000000000, 0x6e425dabdd74d59, 0x6aa2ddb4012853);
  (0x422ca8b0a00a425, 0x20000000000000, 0xdc84bb57bae9ab2, 0x6aa2ddb4012853);
  (0x422ca8b0a00a425, 0x10000000000000, 0x1fb361f6015dd989, 0x7aa2ddb4012853);
  (0xd3c21bcecceda1, 0x10000000000000, 0x60ee097f68d130a, 0x752e548405c99f);
  (0xd3c21bcecceda1, 0x8000000000000, 0xcf1834bbbe713b5, 0x7d2e548405c99f);
  (0xd3c21bcecceda1, 0x4000000000000, 0x19e3069777ce276a, 0x7d2e548405c99f);
  (0x2a5a058fc295ed, 0x4000000000000, 0x53511e045caf2b1, 0x7de7a6941cf01b);
  (0x2a5a058fc295ed, 0x2000000000000, 0xa947dc61b587b4f, 0x7fe7a6941cf01b);
  (0x2a5a058fc295ed, 0x1000000000000, 0x1528fb8c36b0f69e, 0x7fe7a6941cf01b);
  (0x2a5a058fc295ed, 0x800000000000, 0x2a51f7186d61ed3c, 0x7fe7a6941cf01b);
  (0x878678326eac9, 0x800000000000, 0x870590bd1b6c93c, 0x7f8640e490b087);
  (0x878678326eac9, 0x400000000000, 0x10e92a7f26947d41, 0x7fc640e490b087);
  (0x878678326eac9, 0x200000000000, 0x21dacd65d04fe54b, 0x7fe640e490b087);
  (0x1b1ae4d6e2ef5, 0x200000000000, 0x6c6af482319511f, 0x7fff4476d372a3);
  (0x1b1ae4d6e2ef5, 0x100000000000, 0xd8d5e904632a23e, 0x7fff4476d372a3);
  (0x1b1ae4d6e2ef5, 0x80000000000, 0x1b1abd208c65447c, 0x7fff4476d372a3);
  (0x56bc75e2d631, 0x80000000000, 0x56b9fa7d6d9047c, 0x7ffc5652213d2f);
  (0x56bc75e2d631, 0x40000000000, 0xad73f4fadb208f8, 0x7ffc5652213d2f);
  (0x56bc75e2d631, 0x20000000000, 0x15aed55bd146e821, 0x7ffe5652213d2f);
  (0x56bc75e2d631, 0x10000000000, 0x2b5e01741870a673, 0x7fff5652213d2f);
  (0x1158e460913d, 0x10000000000, 0x8ac6cbda3185a2a, 0x7fffaf9aa631eb);
  (0x1158e460913d, 0x8000000000, 0x1158d97b4630b454, 0x7fffaf9aa631eb);
  (0x1158e460913d, 0x4000000000, 0x22b1c44f70c1f9e5, 0x7fffef9aa631eb);
  (0x3782dace9d9, 0x4000000000, 0x6f05a604fa6e3be, 0x7fffee053ef997);
  (0x3782dace9d9, 0x2000000000, 0xde0b4c09f4dc77c, 0x7fffee053ef997);
  (0x3782dace9d9, 0x1000000000, 0x1bc16cf96c4878d1, 0x7ffffe053ef997);
  (0xb1a2bc2ec5, 0x1000000000, 0x58d157393a878d1, 0x7ffff61a3adff3);
  (0xb1a2bc2ec5, 0x800000000, 0xb1a2b98ca0d2067, 0x7ffffe1a3adff3);
  (0xb1a2bc2ec5, 0x400000000, 0x16345731941a40ce, 0x7ffffe1a3adff3);
  (0xb1a2bc2ec5, 0x200000000, 0x2c68ae632834819c, 0x7ffffe1a3adff3);
  (0x2386f26fc1, 0x200000000, 0x8e1bc8182fe40a0, 0x7ffffe83265fbf);
  (0x2386f26fc1, 0x100000000, 0x11c379268ceef101, 0x7fffff83265fbf);
  (0x2386f26fc1, 0x80000000, 0x2386f24d19dde202, 0x7fffff83265fbf);
  (0x71afd498d, 0x80000000, 0x71afd4351d30836, 0x7fffff8fbfdebb);
  (0x71afd498d, 0x40000000, 0xe35fa8dbea359f9, 0x7fffffcfbfdebb);
  (0x71afd498d, 0x20000000, 0x1c6bf5229843fd7f, 0x7fffffefbfdebb);
  (0x16bcc41e9, 0x20000000, 0x5af3106dfdc8151, 0x7fffffeebf59a7);
  (0x16bcc41e9, 0x10000000, 0xb5e620f2b85448b, 0x7ffffffebf59a7);
  (0x16bcc41e9, 0x8000000, 0x16bcc41e570a8916, 0x7ffffffebf59a7);
  (0x16bcc41e9, 0x4000000, 0x2d79883cae15122c, 0x7ffffffebf59a7);
  (0x48c27395, 0x4000000, 0x9184e7276d785c1, 0x7ffffffdbcc043);
  (0x48c27395, 0x2000000, 0x12309ce536717f17, 0x7fffffffbcc043);
  (0x48c27395, 0x1000000, 0x246139ca6ce2fe2e, 0x7fffffffbcc043);
  (0xe8d4a51, 0x1000000, 0x746a5287b70487f, 0x7fffffffafc14f);
  (0xe8d4a51, 0x800000, 0xe8d4a50f6e090fe, 0x7fffffffafc14f);
  (0xe8d4a51, 0x400000, 0x1d1a94a1fc4e6c4d, 0x7fffffffefc14f);
  (0x2e90edd, 0x400000, 0x5d21db9ff377b2a, 0x7fffffffeec68b);
  (0x2e90edd, 0x200000, 0xba43b73fe6ef654, 0x7fffffffeec68b);
  (0x2e90edd, 0x100000, 0x174876e7ffc6fb85, 0x7ffffffffec68b);
  (0x2e90edd, 0x80000, 0x2e90edcfff8df70a, 0x7ffffffffec68b);
  (0x9502f9, 0x80000, 0x9502f8fff8df70a, 0x7ffffffff9e0b7);
  (0x9502f9, 0x40000, 0x12a05f1fffb0f10d, 0x7ffffffffde0b7);
  (0x9502f9, 0x20000, 0x2540be3ffff6e513, 0x7fffffffffe0b7);
  (0x1dcd65, 0x20000, 0x773593ffff6e513, 0x7fffffffff6393);
  (0x1dcd65, 0x10000, 0xee6b27fffedca26, 0x7fffffffff6393);
  (0x1dcd65, 0x8000, 0x1dcd64fffff961b1, 0x7fffffffffe393);
  (0x5f5e1, 0x8000, 0x5f5e0ffffff5792, 0x7ffffffffff1df);
  (0x5f5e1, 0x4000, 0xbebc1fffffeaf24, 0x7ffffffffff1df);
  (0x5f5e1, 0x2000, 0x17d783fffffd5e48, 0x7ffffffffff1df);
  (0x5f5e1, 0x1000, 0x2faf07fffffabc90, 0x7ffffffffff1df);
  (0x1312d, 0x1000, 0x98967ffffff8144, 0x7ffffffffff95b);
  (0x1312d, 0x800, 0x1312cfffffff0288, 0x7ffffffffff95b);
  (0x1312d, 0x400, 0x26259fffffff363d, 0x7ffffffffffd5b);
  (0x3d09, 0x400, 0x7a11fffffffed58, 0x7ffffffffffec7);
  (0x3d09, 0x200, 0xf423fffffffdab0, 0x7ffffffffffec7);
  (0x3d09, 0x100, 0x1e847ffffffff269, 0x7fffffffffffc7);
  (0xc35, 0x100, 0x61a7ffffffffe9e, 0x7fffffffffffe3);
  (0xc35, 0x80, 0xc34fffffffffd3c, 0x7fffffffffffe3);
  (0xc35, 0x40, 0x1869fffffffffa78, 0x7fffffffffffe3);
  (0xc35, 0x20, 0x30d3fffffffff4f0, 0x7fffffffffffe3);
  (0x271, 0x20, 0x9c3fffffffffeb4, 0x7fffffffffffef);
  (0x271, 0x10, 0x1387ffffffffffd9, 0x7fffffffffffff);
  (0x271, 0x8, 0x270fffffffffffb2, 0x7fffffffffffff);
  (0x7d, 0x8, 0x7cfffffffffffb2, 0x7ffffffffffffb);
  (0x7d, 0x4, 0xf9fffffffffffe1, 0x7fffffffffffff);
  (0x7d, 0x2, 0x1f4000000000003f, 0x80000000000001);
  (0x19, 0x2, 0x64000000000000d, 0x80000000000001);
  (0x19, 0x1, 0xc80000000000033, 0x80000000000002);
  (0x5, 0x1, 0x28000000000000b, 0x80000000000002);
  (0x1, 0x1, 0x80000000000003, 0x80000000000002);
  (0x2, 0x1, 0x100000000000005, 0x80000000000002);
  (0x4, 0x1, 0x200000000000009, 0x80000000000002);
  (0x8, 0x1, 0x400000000000011, 0x80000000000002);
  (0x10, 0x1, 0x800000000000021, 0x80000000000002);
  (0x20, 0x1, 0x1000000000000041, 0x80000000000002);
  (0x40, 0x1, 0x2000000000000081, 0x80000000000002);
  (0x40, 0x5, 0x66666666666664d, 0x7ffffffffffffe);
  (0x80, 0x5, 0xccccccccccccccd, 0x80000000000000);
  (0x100, 0x5, 0x19999999999999cd, 0x80000000000001);
  (0x100, 0x19, 0x51eb851eb851e29, 0x7ffffffffffff2);
  (0x200, 0x19, 0xa3d70a3d70a3c29, 0x7ffffffffffff0);
  (0x400, 0x19, 0x147ae147ae147829, 0x7fffffffffffef);
  (0x800, 0x19, 0x28f5c28f5c28f429, 0x7ffffffffffffb);
  (0x800, 0x7d, 0x83126e978d4f8d5, 0x7fffffffffffb0);
  (0x1000, 0x7d, 0x10624dd2f1a9f8d5, 0x7fffffffffffe8);
  (0x2000, 0x7d, 0x20c49ba5e353d8d5, 0x7fffffffffff87);
  (0x2000, 0x271, 0x68db8bac710be91, 0x7fffffffffff0a);
  (0x4000, 0x271, 0xd1b71758e217e91, 0x7fffffffffff18);
  (0x8000, 0x271, 0x1a36e2eb1c42fe91, 0x7fffffffffff1f);
  (0x8000, 0xc35, 0x53e2d6238d9e61d, 0x7ffffffffff7cc);
  (0x10000, 0xc35, 0xa7c5ac471b3e61d, 0x7ffffffffff908);
  (0x20000, 0xc35, 0x14f8b588e367e61d, 0x7ffffffffff9a6);
  (0x40000, 0xc35, 0x29f16b11c6cfe61d, 0x7ffffffffff9f5);
  (0x40000, 0x3d09, 0x8637bd05af66139, 0x7ffffffffff9f5);
  (0x80000, 0x3d09, 0x10c6f7a0b5ea6139, 0x7fffffffffe7cd);
  (0x100000, 0x3d09, 0x218def416bd26139, 0x7fffffffffdeb9);
  (0x100000, 0x1312d, 0x6b5fca6af1d46a5, 0x7ffffffffeea95);
  (0x200000, 0x1312d, 0xd6bf94d5e4d46a5, 0x7fffffffff9d26);
  (0x400000, 0x1312d, 0x1ad7f29abc8d46a5, 0x7fffffffff5dd8);
  (0x400000, 0x5f5e1, 0x55e63b88be90e21, 0x7ffffffffa9924);
  (0x800000, 0x5f5e1, 0xabcc77117e90e21, 0x7ffffffffbaaaa);
  (0x1000000, 0x5f5e1, 0x15798ee22fe90e21, 0x7ffffffffc336d);
  (0x2000000, 0x5f5e1, 0x2af31dc460e90e21, 0x7fffffffff72bf);
  (0x2000000, 0x1dcd65, 0x89705f4122e9c6d, 0x7fffffffed911c);
  (0x4000000, 0x1dcd65, 0x112e0be8262e9c6d, 0x7ffffffffb1c87);
  (0x8000000, 0x1dcd65, 0x225c17d04a2e9c6d, 0x7ffffffff2fb8a);
  (0x8000000, 0x9502f9, 0x6df37f66ed61f49, 0x7fffffff7bc5f6);
  (0x10000000, 0x9502f9, 0xdbe6fecded61f49, 0x7fffffff869c2a);
  (0x20000000, 0x9502f9, 0x1b7cdfd9bed61f49, 0x7fffffff8c0744);
  (0x20000000, 0x2e90edd, 0x57f5ff84c913975, 0x7ffffffe620152);
  (0x40000000, 0x2e90edd, 0xafebff08c913975, 0x7ffffffdcfb3e6);
  (0x80000000, 0x2e90edd, 0x15fd7fe10c913975, 0x7ffffffd868d30);
  (0x100000000, 0x2e90edd, 0x2bfaffc20c913975, 0x7ffffffd61f9d5);
  (0x100000000, 0xe8d4a51, 0x8cbccbfcf503eb1, 0x7ffffff4a6cd3e);
  (0x200000000, 0xe8d4a51, 0x1197997fcf503eb1, 0x7ffffff6090aff);
  (0x400000000, 0xe8d4a51, 0x232f3301cf503eb1, 0x7ffffffe00cf08);
  (0x400000000, 0x48c27395, 0x7097099f6433fbd, 0x7ffffffe00cf08);
  (0x800000000, 0x48c27395, 0xe12e131f6433fbd, 0x7fffffec28c193);
  (0x1000000000, 0x48c27395, 0x1c25c259f6433fbd, 0x7fffffbedb810e);
  (0x1000000000, 0x16bcc41e9, 0x5a126d53140a659, 0x7ffffee494264f);
  (0x2000000000, 0x16bcc41e9, 0xb424da53140a659, 0x7ffffea98c4c42);
  (0x4000000000, 0x16bcc41e9, 0x16849b653140a659, 0x7fffff41ee8030);
  (0x8000000000, 0x16bcc41e9, 0x2d0936e53140a659, 0x7fffff8e1f9a27);
  (0x8000000000, 0x71afd498d, 0x901d7c770402145, 0x7fffff8e1f9a27);
  (0x10000000000, 0x71afd498d, 0x1203af4770402145, 0x7ffffd9285c445);
  (0x20000000000, 0x71afd498d, 0x24075e4770402145, 0x7ffffc94b8d954);
  (0x20000000000, 0x2386f26fc1, 0x734ab417cd9a041, 0x7fffe743c0fcad);
  (0x40000000000, 0x2386f26fc1, 0xe6959417cd9a041, 0x7fffffa35108a2);
  (0x80000000000, 0x2386f26fc1, 0x1cd2b1417cd9a041, 0x7ffffa0f9fd6bc);
  (0x80000000000, 0xb1a2bc2ec5, 0x5c3b9d9e5c5200d, 0x7fffb301baf73a);
  (0x100000000000, 0xb1a2bc2ec5, 0xb8779d9e5c5200d, 0x7ffff745c73dc9);
  (0x200000000000, 0xb1a2bc2ec5, 0x170ee9d9e5c5200d, 0x7fffc0966f49ae);
  (0x400000000000, 0xb1a2bc2ec5, 0x2e1de9d9e5c5200d, 0x7ffffe10216703);
  (0x400000000000, 0x3782dace9d9, 0x938fb91fac10669, 0x7ffd378530abef);
  (0x800000000000, 0x3782dace9d9, 0x12723b91fac10669, 0x7fff1258e02f86);
  (0x1000000000000, 0x3782dace9d9, 0x24e43b91fac10669, 0x7ffe43abe17c65);
  (0x1000000000000, 0x1158e460913d, 0x76072506559ce15, 0x7ff7535087a8b3);
  (0x2000000000000, 0x1158e460913d, 0xec172506559ce15, 0x7ffc203e8bade8);
  (0x4000000000000, 0x1158e460913d, 0x1d8172506559ce15, 0x7ff5da435d67e4);
  (0x4000000000000, 0x56bc75e2d631, 0x5e5e3a9addec2d1, 0x7fe4815efcd6a7);
  (0x8000000000000, 0x56bc75e2d631, 0xbc9e3a9addec2d1, 0x7fd0057d052268);
  (0x10000000000000, 0x56bc75e2d631, 0x1799e3a9addec2d1, 0x7ff125c6fab361);
  (0x20000000000000, 0x56bc75e2d631, 0x2f29e3a9addec2d1, 0x7fd657b10410c5);
  (0x20000000000000, 0x1b1ae4d6e2ef5, 0x96860bb892c8d5d, 0x7f7f9b3b213a94);
  (0x40000000000000, 0x1b1ae4d6e2ef5, 0x12a860bb892c8d5d, 0x7e6dfece7d66b3);
  (0x80000000000000, 0x1b1ae4d6e2ef5, 0x256860bb892c8d5d, 0x7ebe07bee2943d);
  (0x80000000000000, 0x878678326eac9, 0x72e79bf1b6f4f79, 0x79a8fcd698075e);
  (0x100000000000000, 0x878678326eac9, 0xe2e79bf1b6f4f79, 0x781f53015c6f2e);
  (0x200000000000000, 0x878678326eac9, 0x1e2e79bf1b6f4f79, 0x7fd2e599e58ddf);
  (0x200000000000000, 0x2a5a058fc295ed, 0x4d618596be30fe5, 0x6669af1070cd84);
  (0x400000000000000, 0x2a5a058fc295ed, 0x8d618596be30fe5, 0x5d8edd17fafcaf);
  (0x800000000000000, 0x2a5a058fc295ed, 0x14d618596be30fe5, 0x6e4e76e3a15f3b);
  (0x1000000000000000, 0x2a5a058fc295ed, 0x2cd618596be30fe5, 0x76ae43c9749081);
  (0x3d52e548405c99f, 0x32b9d27595c733, 0x855a356f7f46cc2, 0x6e4e76e3a15f3b);
  (0x7aa5ca9080b933e, 0x32b9d27595c733, 0xc2ad1ab7bfa3661, 0x508424ac9b9337);
  (0x13d52e548405c99f, 0x419efb9118ad35, 0x1855a356f7f46cc2, 0x508424ac9b9337);
  (0x22a740fec081a45, 0x23d4a95a12e131, 0x6aae9125ff6bd68, 0x6e4e76e3a15f3b);
  (0xd2a4542240f0c37, 0x6ce63978ed0167, 0x8d55d224bfed7ad, 0x4911901eda2036);
  (0x1a548a84481e186e, 0x6ce63978ed0167, 0x8d55d224bfed7ad, 0x2488c80f6d101b);
  (0x52144985e874602, 0x6a15bea38445bf, 0x1c445d3a8cc9189, 0x2488c80f6d101b);
  (0xa6e161358ecfa9d, 0x6bd80b68e5bb08, 0x3888ba751992312, 0x2488c80f6d101b);
  (0x189044b09f5186e5, 0x7efd95d34cfdba, 0x711174ea3324624, 0x2488c80f6d101b);
  (0x26b2734de5b6132d, 0x640792f9138ef8, 0xe222e9d46648c48, 0x2488c80f6d101b);
  (0x4e9a75686438161, 0x3f7ecae9a67edd, 0x9388746c0210ae7, 0x772d1d637ad1aa);
  (0x130bd5f3cca80da9, 0x7b15599b63e7b2, 0x9388746c0210ae7, 0x3b968eb1bd68d5);
  (0x130bd5f3cca80da9, 0x3d8aaccdb1f3d9, 0x257ce4814cea2377, 0x79213b7f6f5cae);
  (0x3cf2aca5c219c55, 0x3d8aaccdb1f3d9, 0x7038e2e6bdd40cf, 0x7150c30f9d309e);
  (0x79e5594b84338aa, 0x3d8aaccdb1f3d9, 0xea1e3c324207979, 0x76330e55808c28);
  (0xf3cab2970867154, 0x3d8aaccdb1f3d9, 0x1dde8eec94a6eacd, 0x78a433f87239ed);
  (0x30c223b7ce7b044, 0x3d8aaccdb1f3d9, 0x57d7d10ad6968ad, 0x6edf9d6cab82d9);
  (0x6184476f9cf6088, 0x3d8aaccdb1f3d9, 0x8899f4c2a5118f1, 0x5635251d2ebb59);
  (0xc3088edf39ec110, 0x3d8aaccdb1f3d9, 0xea1e3c324207979, 0x49dfe8f5705799);
  (0x175f70d83b8a9a6, 0x24e0347e352c59, 0x3e751e2b43a620f, 0x628a6144ed1f19);
  (0x849370b3f645f01, 0x68957f5fc65212, 0x55d48f037f30bb5, 0x43b54ae19125b9);
  (0x1303c8ebaf4a766b, 0x78000a91744ec2, 0xaba91e06fe6176a, 0x43b54ae19125b9);
  (0x1303c8ebaf4a766b, 0x3c000548ba2761, 0x2878ecac8f16a53f, 0x7fb5502a4b4d1a);
  (0x623e6ab2903271f, 0x60e039c6ef53ba, 0x44aa0c02cc26fc4, 0x43b54ae19125b9);
  (0xeb9282b828806a7, 0x742567c508cf96, 0x89541805984df88, 0x43b54ae19125b9);
  (0x1fe3ab2c3591c5b7, 0x7dc7fec4158d84, 0x112a8300b309bf10, 0x43b54ae19125b9);
  (0x46c732b171bc737, 0x573da2c7e295cc, 0x36ee70023cebfd0, 0x43b54ae19125b9);
  (0xb4a412b5eb946d7, 0x6f541c4582709f, 0x6ddce00479d7fa0, 0x43b54ae19125b9);
  (0x12280f2ba656c677, 0x5984b39389cb2c, 0xdbb9c008f3aff40, 0x43b54ae19125b9);
  (0x3a19ca25477c14b, 0x5984b39389cb2c, 0x2d6c61991d3bb5f, 0x45fc5bad385b19);
  (0x3a19ca25477c14b, 0x2cc259c9c4e596, 0x94f28d5781f3809, 0x72beb576fd40af);
  (0x3a19ca25477c14b, 0x16612ce4e272cb, 0x129e51aaf03e7012, 0x72beb576fd40af);
  (0x7433944a8ef8296, 0x16612ce4e272cb, 0x24c660d696953689, 0x71524af7b4bf53);
  (0x7433944a8ef8296, 0x6fe5e0786c3df7, 0x18b7f2730916f3d, 0x17cd97642af427);
  (0xe86728951df052c, 0x6fe5e0786c3df7, 0x8ceb86bd980f1d3, 0x43d9bbee4b990f);
  (0x17552af52b5ff6ff, 0x59dfce335beb83, 0x119d70d7b301e3a6, 0x43d9bbee4b990f);
  (0x124bed2b1ac6a45, 0x16061245105274, 0x62dfc9cc245bcf4, 0x7703f4f4d6c4c3);
  (0x124bed2b1ac6a45, 0xb03092288293a, 0xc5bf939848b79e8, 0x7703f4f4d6c4c3);
  (0x124bed2b1ac6a45, 0x581849144149d, 0x19dcb145bac35e15, 0x7c8579861ad960);
  (0x124bed2b1ac6a45, 0x1b8796d6546711, 0x4b70a5344aee84f, 0x7182706392b026);
  (0x2497da56358d48a, 0x1b8796d6546711, 0x94a059e0b609163, 0x6fd065de722635);
  (0x14b979d8fc1cb815, 0x7cbb2c070c14c5, 0x10267e8e356b0f01, 0x61339530b7adb4);
  (0x2972f3b1f839702a, 0x7cbb2c070c14c5, 0x10267e8e356b0f01, 0x3099ca985bd6da);
  (0x7bf74fd6bc82c63, 0x7493be6d9e938c, 0x1668198219b25c5, 0x151233c2076fc9);
  (0xd597b5df234c377, 0x646e46bade2958, 0x10267e8e356b0f01, 0x79807a7ce59921);
  (0xd597b5df234c377, 0x3237235d6f14ac, 0x204cfd1c6ad61e02, 0x79807a7ce59921);
  (0x5c4e111c1f438d9, 0x6c8102943e5e72, 0x3ca4d261820454f, 0x4749571f768475);
  (0xd597b5df234c377, 0x7d89d86995b3ae, 0x7949a4c30408a9e, 0x4749571f768475);
  (0xd597b5df234c377, 0x3ec4ec34cad9d7, 0xf2934986081153c, 0x4749571f768475);
  (0x5611929a67e8ee1, 0x7e776cdd35979f, 0x5cbea5494276c1, 0x8846aeaabaa9e);
  (0xac232534cfd1dc2, 0x7e776cdd35979f, 0x5cbea5494276c1, 0x442357555d54f);
  (0x1543cb0c9984919f, 0x7cfbbd93f760c9, 0xb97d4a9284ed82, 0x442357555d54f);
  (0x1a5638169b27102d, 0x4d6599e4a81af9, 0x1bc932abc030eb31, 0x51a7cf59fdf048);
  (0x544719e1f07d009, 0x4d6599e4a81af9, 0x6b76c334411ab0d, 0x62b0a52f554584);
  (0xa88e33c3e0fa012, 0x4d6599e4a81af9, 0x11404f6f82214b1f, 0x7ebdec7c52bdbb);
  (0x1511c6787c1f4024, 0x4d6599e4a81af9, 0x1bc932abc030eb31, 0x6611c3307d6c5a);
  (0x2f19f956620c99, 0x3611e012826d6, 0x6e6862c9a73b7a6, 0x7ebdec7c52bdbb);
  (0x2f19f956620c99, 0x1b08f0094136b, 0xdcd0c5934e76f4c, 0x7ebdec7c52bdbb);
  (0xdfc26528b497be5, 0x40373dbe736893, 0x1b9a18b269cede98, 0x7ebdec7c52bdbb);
  (0x12d73088f4050a, 0x1b08f0094136b, 0x5857b8505ab3867, 0x7ec3f775bc51ce);
  (0x25ae6111e80a14, 0x1b08f0094136b, 0xb1d5dedae1cb75f, 0x7f9735d0d90ac9);
  (0xde94f22025576db, 0x4fd8e96deb3ddd, 0xd9df25fde8562b3, 0x4e285a6d572a72);
  (0x1bd29e4404aaedb6, 0x4fd8e96deb3ddd, 0x297090a3e3305069, 0x76ed16a496d316);
  (0x2f57aae7c5abd77, 0x2a754b37d3bc0f, 0x849b6872d701015, 0x76ed16a496d316);
  (0xe34abe426258b03, 0x65ebd68a1f259a, 0x849b6872d701015, 0x3b768b524b698b);
  (0x1ec818f28105ab2d, 0x6e6c76975afc58, 0x10936d0e5ae0202a, 0x3b768b524b698b);
  (0x25dfbbec9e2312c, 0x2a754b37d3bc0f, 0x71ab8a7c87ef77f, 0x7f6db6b1d2a9d4);
  (0xbd6b0255c4359d7, 0x6a2c2690bd10f9, 0x71ab8a7c87ef77f, 0x3fb6db58e954ea);
  (0x17ad604ab886b3ae, 0x6a2c2690bd10f9, 0x71ab8a7c87ef77f, 0x1fdb6dac74aa75);
  (0x790add79685c3d, 0xa99dd8b5f119a, 0x5af980f5c45e2c8, 0x7f7b8bbc2a1f7b);
  (0x790add79685c3d, 0x54ceec5af88cd, 0xb5f301eb88bc590, 0x7f7b8bbc2a1f7b);
  (0xfa091e7fd3703b5, 0x5797f857aaf758, 0xeae7c2d0a664b3b, 0x524b0991fb6e8b);
  (0xfa091e7fd3703b5, 0x2bcbfc2bd57bac, 0x2cfd8a4212039a2b, 0x7e1705bdd0ea37);
  (0x60d57dfab9e364, 0x54ceec5af88cd, 0x8d18f0c5c2506ad, 0x7b9322f4d3cbf2);
  (0xfa091e7fd3703b5, 0x6d7df66d95b52e, 0xedee6ec07c33ced, 0x683107a7e62c61);
  (0xfa091e7fd3703b5, 0x36befb36cada97, 0x1dbdcdd80f8679da, 0x683107a7e62c61);
  (0x68db1f4c7778432, 0x72cae533453dfb, 0x2852dfe6e47fb51, 0x2c251dab6bc8fd);
  (0x912dff335bf7f83, 0x4f78016f58837c, 0xe1d3bf0124f7625, 0x7b9d1f1ac44c79);
  (0x912dff335bf7f83, 0x27bc00b7ac41be, 0x1c3a77e0249eec4a, 0x7b9d1f1ac44c79);
  (0x1d09330a4597fe7, 0x27bc00b7ac41be, 0x4a2fe67cc136d8f, 0x658592321627b7);
  (0x1d09330a4597fe7, 0x13de005bd620df, 0xb1690003c805b05, 0x7963928dec4896);
  (0x3a1266148b2ffce, 0x13de005bd620df, 0x15fa032416995a6f, 0x784bca5a7886e8);
  (0x7424cc29165ff9c, 0x13de005bd620df, 0x2bc0e96bcacb5943, 0x77bfe640bea611);
  (0x173a8f3b6adffec, 0x13de005bd620df, 0x8e91292aa7b5b23, 0x79ef76a7a6296d);
  (0x2e751e76d5bffd8, 0x13de005bd620df, 0x102b5f553be15abf, 0x6ea2bc396a66e4);
  (0x5cea3cedab7ffb0, 0x13de005bd620df, 0x21974ac1cc0959cf, 0x72eb5f3037960f);
  (0x5cea3cedab7ffb0, 0x635601cb2ea45b, 0x6b7dbc05c01dec3, 0x72eb5f3037960f);
  (0xb9d479db56fff60, 0x635601cb2ea45b, 0xc867f8f36b9de73, 0x6b20b07db31d35);
  (0x173a8f3b6adffec0, 0x635601cb2ea45b, 0x1823c72cec29ddd3, 0x673b592470e0c8);
  (0x476ab0ec8513989, 0x5f70aa71ec67ee, 0x55fe300499b189c, 0x72eb5f3037960f);
  (0x476ab0ec8513989, 0x2fb85538f633f7, 0xabfc60093363138, 0x72eb5f3037960f);
  (0x8ed561d90a27312, 0x2fb85538f633f7, 0xf36710f5b876ac1, 0x5151da3496e503);
  (0x29fe73680d6ec3f7, 0x703d6cefbcc074, 0x1823c72cec29ddd3, 0x408517b6c68c7d);
  (0x2505041de132fb1, 0x1eeb92bb25db71, 0x8996b33a8f82760, 0x72eb5f3037960f);
  (0xf8a5bf94331b673, 0x67d70bb0d49431, 0xae9bb75870b5711, 0x48eb78f5aeb8c0);
  (0x1f14b7f286636ce6, 0x67d70bb0d49431, 0xae9bb75870b5711, 0x2475bc7ad75c60);
  (0x40898e5ccab3791, 0x43614f35fd37d1, 0x6e1228fba601f80, 0x72eb5f3037960f);
  (0x81131cb99566f22, 0x43614f35fd37d1, 0xae9bb75870b5711, 0x5b2657331a66f0);
  (0x1b0c1f0cb9b83555, 0x70f47acf8a6b49, 0xae9bb75870b5711, 0x2d932b998d3378);
  (0x10b54d388b9e7d7, 0x15ce239c700459, 0x5b11353db69cfde, 0x76d927f191eb9b);
  (0x216a9a71173cfae, 0x15ce239c700459, 0xae9bb75870b5711, 0x71efecffe100ac);
  (0xf170ec3a9f2f66d, 0x4ec61a1c6084af, 0xae9bb75870b5711, 0x38f7f67ff08056);
  (0x2917d8fcdaf143eb, 0x6b42155c58c4da, 0xae9bb75870b5711, 0x1c7bfb3ff8402b);
  (0x960aef32cb41542, 0x7a626155408d61, 0x83042b73726b45, 0x6add7a3883bd2);
  (0x13446211ccda95c9, 0x7db94d2704ab4a, 0x83042b73726b45, 0x356ebd1c41de9);
  (0x144a6a68b3bf6c53, 0x4233926546738e, 0x155072bf9aa442dd, 0x458a7e370a9177);
  (0x40ee214f0bfe277, 0x4233926546738e, 0x514ea6bd7a4b901, 0x52e62d7e1b091b);
  (0x40ee214f0bfe277, 0x2119c932a339c7, 0xe38b6eca0095479, 0x73fff6b0be42e2);
  (0x81dc429e17fc4ee, 0x2119c932a339c7, 0x1e743f406308de55, 0x7c338dbda594ff);
  (0x19f8da1f9e65a96, 0x2119c932a339c7, 0x61af2c2be898f8b, 0x7c7efabcab8652);
  (0x33f1b43f3ccb52c, 0x2119c932a339c7, 0x95a0e06b25644b7, 0x5f594690f8fcf0);
  (0x67e3687e7996a58, 0x2119c932a339c7, 0x16567b1681891967, 0x71e035adc2f206);
  (0x4c71ba23ac1b41f, 0x79c85fbba452d0, 0x925e4c8ef29213, 0xe92da15d944b1);
  (0x5ebd83b58a6d845, 0x4b7709f3ab6e19, 0x71094d4768bfc6b, 0x5a09e40984b2ca);
  (0x12e8454b27d9acf5, 0x787bfbf86dc77e, 0x71094d4768bfc6b, 0x2d04f204c25965);
  (0x21096ef414f1a5cb, 0x6942f000f93d24, 0xe2129a8ed17f8d6, 0x2d04f204c25965);
  (0x69b7c973763878f, 0x6942f000f93d24, 0x785ad11b5b47147, 0x77d5ca16d281d5);
  (0x69b7c973763878f, 0x34a178007c9e92, 0xf0b5a236b68e28e, 0x77d5ca16d281d5);
  (0x69b7c973763878f, 0x1a50bc003e4f49, 0x1e16b446d6d1c51c, 0x77d5ca16d281d5);
  (0x96f222a6066023, 0xbbde1ea650a98, 0x6048a74915d276c, 0x77d5ca16d281d5);
  (0x96f222a6066023, 0x5def0f532854c, 0xca0070bc8c0aefb, 0x7db4bb0c050721);
  (0x96f222a6066023, 0x2ef787a9942a6, 0x19400e1791815df6, 0x7db4bb0c050721);
  (0x96f222a6066023, 0xead5a64fe4d3e, 0x4ee9f30fbe565f7, 0x7ac542916bc47b);
  (0x96f222a6066023, 0x756ad327f269f, 0x9dd3e61f7cacbee, 0x7ac542916bc47b);
  (0xa7430849dd12c11, 0x410df7e1f5758d, 0x13ba7cc3ef9597dc, 0x7ac542916bc47b);
  (0x14e861093ba25822, 0x410df7e1f5758d, 0x1e2ead488d66c3ed, 0x5de99d39b09d04);
  (0x7ec5cb095f5c139, 0x7b445203ad3780, 0x1dadc0ca9f4158f, 0x1cdba557bb2777);
  (0xf57cce33dc61775, 0x775973b14ceaae, 0x3b5b81953e82b1e, 0x1cdba557bb2777);
  (0xf57cce33dc61775, 0x3bacb9d8a67557, 0x16c33d15e5966db1, 0x58885f30619cce);
  (0x195ac23513126a5, 0x1ed11480eb4de0, 0x5d5c40f569f2f97, 0x71792635bc7773);
  (0x195ac23513126a5, 0xf688a4075a6f0, 0xbab881ead3e5f2e, 0x71792635bc7773);
  (0x195ac23513126a5, 0x7b445203ad378, 0x18ecbc60abade501, 0x792d6b55f74aeb);
  (0x51226d76a36e21, 0x7b445203ad378, 0x4f543707975cae2, 0x788615bf5a6c0f);
  (0x51226d76a36e21, 0x3da22901d69bc, 0xa3ba94e698f03e5, 0x7c60384f77d5cb);
  (0x51226d76a36e21, 0x1ed11480eb4de, 0x14c8750a49c175eb, 0x7e4d4997868aa9);
  (0x51226d76a36e21, 0xf688a4075a6f, 0x29e20c820a2659f7, 0x7f43d23b8de518);
  (0x51226d76a36e21, 0x4d0ab3424c42b, 0x8502ed0ea4d625e, 0x7e4d4997868aa9);
  (0xa244daed46dc42, 0x4d0ab3424c42b, 0x103c8b8180432397, 0x7b5700d78ed96e);
  (0x14489b5da8db884, 0x4d0ab3424c42b, 0x20b789bd9975824b, 0x7c443211a562e6);
  (0x14489b5da8db884, 0x18135804b7d4d7, 0x5c862859b8f44f3, 0x6dd23075371665);
  (0x289136bb51b7108, 0x18135804b7d4d7, 0xc1f1312e053df87, 0x73197446671f4c);
  (0x113139ea4a8ac197, 0x51a01227eb647d, 0xc1f1312e053df87, 0x398cba23338fa6);
  (0x51226d76a36e210, 0x7860b817972833, 0x26c9d6a2cdd931b, 0x398cba23338fa6);
  (0xa244daed46dc420, 0x7860b817972833, 0x26c9d6a2cdd931b, 0x1cc65d1199c7d3);
  (0x116a25ed5b067d71, 0x6759e7a6323fd6, 0x4d93ad459bb2636, 0x1cc65d1199c7d3);
  (0x24cf113ec1f31649, 0x6d39adf64caf91, 0x9b275a8b3764c6c, 0x1cc65d1199c7d3);
  (0x56c1f1e02e5c1f9, 0x507350e4b2e7be, 0x446568ab0908a73, 0x3f6c80734dff61);
  (0x56c1f1e02e5c1f9, 0x2839a8725973df, 0xdf8cc336406d6df, 0x67a628e5a77340);
  (0xad83e3c05cb83f2, 0x2839a8725973df, 0x18d10a6f69d25ad1, 0x5c0cbce52d2d7f);
  (0x677777b4eaba973, 0x77ee5638675b14, 0xa01c64ac7243c9, 0xb996c007a45c1);
  (0xb785aa0b23dc7bb, 0x6a5cdb1e1cc48e, 0xcb8936a0b224f4d, 0x75f6471e970a4f);
  (0xb785aa0b23dc7bb, 0x352e6d8f0e6247, 0x197126d416449e9a, 0x75f6471e970a4f);
  (0x14b17e576225517, 0x1dfb958e19d6c5, 0x516a15d9e0db952, 0x75f6471e970a4f);
  (0x661b94314300e69, 0x49f8ee5658708a, 0xa2d42bb3c1b72a4, 0x75f6471e970a4f);
  (0x661b94314300e69, 0x24fc772b2c3845, 0x145a85767836e548, 0x75f6471e970a4f);
  (0x277fb13fb4c71083, 0x7275d6500dd98f, 0x1abc3eb98c66f3b1, 0x4d795f24e1a14a);
  (0x8a7a805f7293dd9, 0x7d66d620c0dc99, 0x3ddebc3f215869, 0x38070ce8930c0);
  (0x118d2ec82d73d41b, 0x7f270e880574f9, 0x3ddebc3f215869, 0x1c03867449860);
  (0x231a5d905ae7a836, 0x7f270e880574f9, 0x3ddebc3f215869, 0xe01c33a24c30);
  (0x70510847ff8208d, 0x7f234778c45fed, 0xc5fbf3fd37815, 0xe01c33a24c30);
  (0xe1680c83fc3b92f, 0x7f935592958605, 0xc5fbf3fd37815, 0x700e19d12618);
  (0x1c39614fbf5aea73, 0x7fcb5c9f7e1911, 0xc5fbf3fd37815, 0x38070ce8930c);
  (0x5a0205d0cbd9875, 0x7f5b4e85acf2f9, 0xc5fbf3fd37815, 0x11823408adf3c);
  (0xb4ca079594ea8ff, 0x7fe76025f26297, 0xc5fbf3fd37815, 0x8c11a0456f9e);
  (0x169940f2b29d51fe, 0x7fe76025f26297, 0xc5fbf3fd37815, 0x4608d022b7cf);
  (0x2d2bead42161604d, 0x7fd4b9eaa3d89a, 0x18bf7e7fa6f02a, 0x4608d022b7cf);
  (0x8fee25e3a03e665, 0x7f48a84a5e68fc, 0x18bf7e7fa6f02a, 0x15e2c10ad970b);
  (0x121532d1195015d1, 0x7fee6b350def83, 0x317efcff4de054, 0x15e2c10ad970b);
  (0x21be60dde0f41065, 0x775d2e3dfd5cff, 0x22215ed7df8fd10d, 0x78bb5a4eaaf40a);
  (0x6bfacf92cfd9ce1, 0x775d2e3dfd5cff, 0x722aaf32b995d89, 0x7e340a91615036);
  (0xd7f59f259fb39c2, 0x775d2e3dfd5cff, 0x722aaf32b995d89, 0x3f1a0548b0a81b);
  (0x1afeb3e4b3f67384, 0x775d2e3dfd5cff, 0x14a204e58594974b, 0x5b3b99c357028d);
  (0x38204378357b6cf, 0x4d8de11c8f1c1f, 0x2daaac7ab0a256a, 0x3f1a0548b0a81b);
  (0x65caeff2e61dc39, 0x4653f3329fe21d, 0x5b5558f56144ad4, 0x3f1a0548b0a81b);
  (0xc12048e8476270d, 0x42b6fc3da8451c, 0xb6aab1eac2895a8, 0x3f1a0548b0a81b);
  (0xc12048e8476270d, 0x215b7e1ed4228e, 0x22e75acbdcc7525d, 0x6075836784caa9);
  (0x2acf17c7103752b, 0x24f87513cbbf8f, 0x6b82195a26f3cb7, 0x5cd88c728d2da8);
  (0xc12048e8476270d, 0x5364bb4d125663, 0x6b82195a26f3cb7, 0x2e6c46394696d4);
  (0x1824091d08ec4e1a, 0x5364bb4d125663, 0x1edc2ab2ab5b8ad1, 0x6a9ade69b5a1cd);
  (0x223f4638d9c5dbc, 0x24f87513cbbf8f, 0x6b82195a26f3cb7, 0x740eaf8f307912);
  (0xb000a5cbda7f82f, 0x5effccdb63fc18, 0x6b82195a26f3cb7, 0x3a0757c7983c89);
  (0xb000a5cbda7f82f, 0x2f7fe66db1fe0c, 0x18704d880286719d, 0x69873e354a3a95);
  (0x13984f3230bcabd, 0x1a7103b9e58112, 0x4e342b4cd4e16b9, 0x69873e354a3a95);
  (0xb000a5cbda7f82f, 0x76bfc0123cfb1e, 0x9c685699a9c2d72, 0x69873e354a3a95);
  (0xb000a5cbda7f82f, 0x3b5fe0091e7d8f, 0x138d0ad335385ae4, 0x69873e354a3a95);
  (0x160014b97b4ff05e, 0x3b5fe0091e7d8f, 0x1e8d152ff2e05313, 0x52738f1f345c12);
  (0xfad0c2826fd564, 0xd3881dcf2c089, 0x88d0076779062b5, 0x73626b6e6d588f);
  (0xb7d72bdfedfe2e1, 0x4d85f882a2cd15, 0x987d138fa003819, 0x404d76a5b00c8c);
  (0x16fae57bfdbfc5c2, 0x4d85f882a2cd15, 0x2082b6b4f7bffddb, 0x6dacb3d57ad35b);
  (0x5d339af088c2d95, 0x624144a395c8f3, 0x1e7f6a4feccd805, 0x2026bb52d80646);
  (0xd8e6a030fe5332f, 0x7254a24d01cc16, 0x1e7f6a4feccd805, 0x10135da96c0323);
  (0x1cce1f2b064bf357, 0x7977c7cc30f297, 0x3cfed49fd99b00a, 0x10135da96c0323);
  (0x43c741e356b50a7, 0x59510c7958ec51, 0x3cfed49fd99b00a, 0x5060d44f1c0faf);
  (0x80c6168330500b1, 0x54d8f0643a7e00, 0x79fda93fb336014, 0x5060d44f1c0faf);
  (0x80c6168330500b1, 0x2a6c78321d3f00, 0x174c1690296bc0d9, 0x7acd4c81394eaf);
  (0x80c6168330500b1, 0x15363c190e9f80, 0x2e982d2052d781b2, 0x7acd4c81394eaf);
  (0x80c6168330500b1, 0x6a0f2c7d491d80, 0x7b58f24d32a19cd, 0x659710682aaf2f);
  (0x80c6168330500b1, 0x3507963ea48ec0, 0xf6b1e49a654339a, 0x659710682aaf2f);
  (0x80c6168330500b1, 0x1a83cb1f524760, 0x1ed63c934ca86734, 0x659710682aaf2f);
  (0x1e1887df07cec0d, 0x1efbe73470b5b1, 0x62ad8ea428814a4, 0x659710682aaf2f);
  (0x80c6168330500b1, 0x42497bce4db270, 0xc55b1d485102948, 0x659710682aaf2f);
  (0x80c6168330500b1, 0x2124bde726d938, 0x18ab63a90a205290, 0x659710682aaf2f);
  (0x18139fe59fd89a4, 0x1efbe73470b5b1, 0x509ed6b7f09ed69, 0x67bfe71ae0d2b6);
  (0x80c6168330500b1, 0x52dbdac1e11f0c, 0x509ed6b7f09ed69, 0x33dff38d70695b);
  (0x80c6168330500b1, 0x296ded60f08f86, 0x12203c3f3118db83, 0x5d4de0ee60f8e1);
  (0x80c6168330500b1, 0x14b6f6b07847c3, 0x2c4cd9e69536b7b7, 0x7204d79ed940a4);
  (0x80c6168330500b1, 0x6792d1725966cf, 0x26bdda78ea08a97, 0x1f28fcdcf82198);
  (0x1018c2d0660a0162, 0x6792d1725966cf, 0x1284a077f4aa8bf9, 0x77274fe0d5779b);
  (0x229d63485ab48d5b, 0x6f5d10a9976f35, 0x250940efe95517f2, 0x77274fe0d5779b);
  (0x5785ba9efc3c91e, 0x57fe5303dd5603, 0x7e439517e6453b5, 0x7ef18f18138001);
  (0xd5c94fb6e281cd3, 0x6b77f10df86b02, 0xfc872a2fcc8a76a, 0x7ef18f18138001);
  (0xd5c94fb6e281cd3, 0x35bbf886fc3581, 0x1f90e545f9914ed4, 0x7ef18f18138001);
  (0x4604954bfcfd418, 0x57fe5303dd5603, 0x49c0251ee8874a3, 0x5caf349b325f7f);
  (0x8c092a97f9fa830, 0x57fe5303dd5603, 0x8fc4ba6ae5848bb, 0x5a56c3cf87dac1);
  (0x11bcde502df7f0eb, 0x592a8b69b29862, 0x11f8974d5cb09176, 0x5a56c3cf87dac1);
  (0x50bf54fd9ef6cfb, 0x7ed8ccdde674fa, 0xbf1cc3c8b534f, 0x12c3865d5425f);
  (0xa2ddb11ddcd38ed, 0x7fec844fc47ce6, 0x17e3987916a69e, 0x12c3865d5425f);
  (0x11d4c1e8a70e9789, 0x700b4a7709dfaa, 0x12048919993be4c5, 0x713782dcdf2209);
  (0x11d4c1e8a70e9789, 0x3805a53b84efd5, 0x240912333277c98a, 0x713782dcdf2209);
  (0x70ecaafe1f3b752, 0x6edf1211349d4b, 0x3b72c88e32728e5, 0x3a5e16072f7493);
  (0xe1d955fc3e76ea4, 0x6edf1211349d4b, 0xac5f738c51ae037, 0x549e940c3208ef);
  (0x18e38c9889024edb, 0x61bed30eb3531d, 0x158bee718a35c06e, 0x549e940c3208ef);
  (0xab1fa16628e949, 0xd203f02814a2e, 0x62c16f15c88cadf, 0x79333b035c8289);
  (0xab1fa16628e949, 0x6901f8140a517, 0xd034d841f3a7f07, 0x7fc35a849d27a0);
  (0x1563f42cc51d292, 0x6901f8140a517, 0x190b86dd4e1ae629, 0x7af2c8cd94619f);
  (0x1563f42cc51d292, 0x20d09d86433973, 0x434f5042ea11617, 0x67426a49d2725a);
  (0x98df20f5fe8605f, 0x754270316fac13, 0x6e17389c744bb3b, 0x5471d2ab2c72a0);
  (0x131be41ebfd0c0be, 0x754270316fac13, 0x6e17389c744bb3b, 0x2a38e955963950);
  (0x2637c83d7fa1817c, 0x754270316fac13, 0x6e17389c744bb3b, 0x151c74aacb1ca8);
  (0x7a4c1a5e653804c, 0x754270316fac13, 0x6e17389c744bb3b, 0x698e4755f78f48);
  (0xf49834bcca70098, 0x754270316fac13, 0x6e17389c744bb3b, 0x34c723aafbc7a4);
  (0x1e930697994e0130, 0x754270316fac13, 0x6e17389c744bb3b, 0x1a6391d57de3d2);
  (0x9c3e7ce5a56a74, 0xbb428db781ccb, 0x645350ce19f50c7, 0x783db04ffd564f);
  (0x819f083928f9023, 0x4dad157132d658, 0x6e17389c744bb3b, 0x41f8ec95bab98d);
  (0x819f083928f9023, 0x26d68ab8996b2c, 0x15dcd79721190699, 0x68cf774e5424b9);
  (0x4b48fc6c82cd2be, 0x70c990039b2cb9, 0x121cae998cb9477, 0x1b2261dd214e61);
  (0x819f083928f9023, 0x61185acd7f8bee, 0xa5d8656c426b911, 0x7c3abcaaa0da4f);
  (0x819f083928f9023, 0x308c2d66bfc5f7, 0x14bb0cad884d7222, 0x7c3abcaaa0da4f);
  (0x1cd4fd311add0245, 0x56637508b05023, 0x2976195b109ae444, 0x7c3abcaaa0da4f);
  (0x5c432a36bc5cd41, 0x56637508b05023, 0x6dce98689f814be, 0x66d0f1210262b9);
  (0xb886546d78b9a82, 0x56637508b05023, 0xca11c29f5bde1ff, 0x5e9a3314d9596e);
  (0x1710ca8daf173504, 0x56637508b05023, 0xca11c29f5bde1ff, 0x2f4d198a6cacb7);
  (0x67d1bfee63deb43, 0x79831b09e0dd79, 0x704927a5adb632, 0x836be0c29094b);
  (0xb5040b304b4bf69, 0x69eea2c7d221d9, 0xc30d30250102bcd, 0x722560d3fb2b24);
  (0x16a0816609697ed2, 0x69eea2c7d221d9, 0xc30d30250102bcd, 0x3912b069fd9592);
  (0x1bc81f43a207ed9, 0x28a53451ab82fc, 0x53a28870af7d67a, 0x7a5c1ee024346f);
  (0x1bc81f43a207ed9, 0x14529a28d5c17e, 0xa74510e15efacf4, 0x7a5c1ee024346f);
  (0x1bc81f43a207ed9, 0xa294d146ae0bf, 0x14e8a21c2bdf59e8, 0x7a5c1ee024346f);
  (0x1d972be14e81d425, 0x569550231d4c15, 0x1a1e27f8da40d673, 0x4c6c030eb26b56);
  (0xb1cd94e40cff8a, 0xa294d146ae0bf, 0x80f46d9b0eee26f, 0x75ea3b36a14548);
  (0x1639b29c819ff14, 0xa294d146ae0bf, 0x1064e9d4618adce7, 0x77ecec15d1e71e);
  (0x1b81c322a25ad587, 0x649baa5c94768b, 0x18ba8ccf1226d75f, 0x5a725d482995cc);
  (0x5805a3a2078911b, 0x649baa5c94768b, 0x2b923e6904492f3, 0x31cd28f67e12d0);
  (0xb00b47440f12236, 0x649baa5c94768b, 0xdb9d85ad135b529, 0x7d823ed7d37ff3);
  (0x160168e881e2446c, 0x649baa5c94768b, 0x18ba8ccf1226d75f, 0x710ef49a33fb3f);
  (0x466ae94e6c6da7c, 0x649baa5c94768b, 0x2b923e6904492f3, 0x3e4073341d9784);
  (0x8cd5d29cd8db4f8, 0x649baa5c94768b, 0x2b923e6904492f3, 0x1f20399a0ecbc2);
  (0x119aba539b1b69f0, 0x649baa5c94768b, 0x1453de3a2b5ffce3, 0x742bc7299bdc6c);
  (0x233574a73636d3e0, 0x649baa5c94768b, 0x1453de3a2b5ffce3, 0x3a15e394cdee36);
  (0x6c00a55c64a0b6f, 0x60711abd44cd3d, 0x410c60ba24665c7, 0x3a15e394cdee36);
  (0x1190dab72eda7ca5, 0x7d7c0c87abc458, 0x410c60ba24665c7, 0x1d0af1ca66f71b);
  (0x21d3f2e5b7f413c1, 0x78d3e9d8a3d062, 0x8218c17448ccb8e, 0x1d0af1ca66f71b);
  (0x3835ef16fc54c21, 0x3ebe0643d5e22c, 0x49e2d25d4c77f6d, 0x5278b2b02cf15b);
  (0x3835ef16fc54c21, 0x1f5f0321eaf116, 0xcbfb93d19544afb, 0x71d7b5d217e271);
  (0x3835ef16fc54c21, 0xfaf8190f5788b, 0x197f727a32a895f6, 0x71d7b5d217e271);
  (0x3835ef16fc54c21, 0x4e6d87d4cb5ab7, 0x4659d81c093db91, 0x622834412269e6);
  (0xb6c5b64a01e73d3, 0x7f81a1f55c8faa, 0x4659d81c093db91, 0x31141a209134f3);
  (0xb6c5b64a01e73d3, 0x3fc0d0faae47d5, 0x1437966821462af5, 0x70d4eb1b3f7cc8);
  (0x2b104d316183129b, 0x782b46884e0639, 0x1437966821462af5, 0x386a758d9fbe64);
  (0x5185e3baca3edab, 0x47172c67bcd146, 0x78f9c163a511ea5, 0x697e8fae30f357);
  (0x5185e3baca3edab, 0x238b9633de68a3, 0xf1f382c74a23d4a, 0x697e8fae30f357);
  (0x1e6852df7a8e064b, 0x6a10a924e616a0, 0x1437966821462af5, 0x468512f107adfd);
  (0x209bf4b11db2bde, 0x238b9633de68a3, 0x5f35b5aa447f7e3, 0x67c8434a11897c);
  (0x4137e9623b657bc, 0x238b9633de68a3, 0xe1a5886ebb4a75b, 0x7afb4e0cc59604);
  (0x826fd2c476caf78, 0x238b9633de68a3, 0x164155b3332156d3, 0x61093d3a4133a5);
  (0x554eb77b1e22799, 0x743c47fcf5402d, 0x2d211b4958a87df, 0x3d7da70662cb02);
  (0xaa9d6ef63c44f32, 0x743c47fcf5402d, 0x2d211b4958a87df, 0x1ebed383316581);
  (0x13200c0d2463e6cf, 0x683c614344b858, 0x5a423692b150fbe, 0x1ebed383316581);
  (0x1e6852df7a8e064b, 0x52dd0424d3c1ad, 0x29b099b1d0b825c7, 0x719bd7a805272e);
  (0x564c374ca1f893a, 0x497d8dc01352d7, 0x85685239024d45b, 0x719bd7a805272e);
  (0xac986e9943f1274, 0x497d8dc01352d7, 0x85685239024d45b, 0x38cdebd4029397);
  (0x23cd165444ad8f85, 0x79f3a89e0d86ce, 0x10ad0a472049a8b6, 0x38cdebd4029397);
  (0x5c8d0a10a8f5fd7, 0x628500a22c71b7, 0x355cedb067521be, 0x38cdebd4029397);
  (0x91e9f7c11048195, 0x4da9763b1782a7, 0x6ab9db60cea437c, 0x38cdebd4029397);
  (0x1d21789e37c34c09, 0x7c099cdb8f9eb6, 0xd573b6c19d486f8, 0x38cdebd4029397);
  (0x5d37e860b270f35, 0x7c099cdb8f9eb6, 0x1b03e600386688e, 0x23f2616ceda487);
  (0x5d37e860b270f35, 0x3e04ce6dc7cf5b, 0x933fb461233e051, 0x61f72fdab573e2);
  (0xba6fd0c164e1e6a, 0x3e04ce6dc7cf5b, 0x14daf8522881febb, 0x6f00665b22894c);
  (0x2c28f26a551e3b8f, 0x7585019b591401, 0x14daf8522881febb, 0x3780332d9144a6);
  (0x621664871c897d3, 0x5192a02e6b6f7a, 0x3ae64826dae59ba, 0x30fb97ed5ab9f1);
  (0xd7e2f4d4d254b47, 0x59c4e8049071ae, 0x75cc904db5cb374, 0x30fb97ed5ab9f1);
  (0xd7e2f4d4d254b47, 0x2ce274024838d7, 0x1c37c15703deb22f, 0x5dde0befa2f2c8);
  (0x79a5b496a74bbb7, 0x7e751430b3a851, 0x2f1ea01f15847c8, 0x30fb97ed5ab9f1);
  (0xa8c454b5bcd037f, 0x57b8560f073121, 0x5e3d403e2b08f90, 0x30fb97ed5ab9f1);
  (0x15188a96b79a06fe, 0x57b8560f073121, 0x1070194f3e7d930f, 0x4459f6fe30f589);
  (0x4381bb7be520166, 0x57b8560f073121, 0x3c7c62803878edd, 0x4e98d0c9df384a);
  (0x870376f7ca402cc, 0x57b8560f073121, 0xc37fd97802b91a9, 0x7f04be73f6cd46);
  (0x10e06edef9480598, 0x57b8560f073121, 0xc37fd97802b91a9, 0x3f825f39fb66a3);
  (0x1d186c7679739741, 0x4b9d5aa4814be2, 0x186ffb2f00572352, 0x3f825f39fb66a3);
  (0x6c02c5930833570, 0x57b8560f073121, 0x8d7e76ae7e9f6f1, 0x72e9c30970e807);
  (0xd8058b261066ae0, 0x57b8560f073121, 0xf9813c4186d2c61, 0x65510c8c3c0c94);
  (0x1b00b164c20cd5c0, 0x57b8560f073121, 0xf9813c4186d2c61, 0x32a886461e064a);
  (0x56689e0f39c2ac0, 0x57b8560f073121, 0x4cb00023134d6e1, 0x4dd9f34087bd30);
  (0xacd13c1e7385580, 0x57b8560f073121, 0xf9813c4186d2c61, 0x7ea54faf4b0fb9);
  (0x1a652785ffa581e1, 0x6b2ed2df29206d, 0x1f30278830da58c2, 0x7ea54faf4b0fb9);
  (0x35ca18052a590d3, 0x4441d93ee541d5, 0x4cb00023134d6e1, 0x61507010a9ac7c);
  (0xb844302d67ff887, 0x74ea11473a1813, 0x4cb00023134d6e1, 0x30a8380854d63e);
  (0x17088605acfff10e, 0x74ea11473a1813, 0x4cb00023134d6e1, 0x18541c042a6b1f);
  (0x1bb1acc9ead15af, 0x2bedbd3abad6b6, 0x4cb00023134d6e1, 0x79a48c14d4179b);
  (0x1bb1acc9ead15af, 0x15f6de9d5d6b5b, 0x99600046269adc2, 0x79a48c14d4179b);
  (0x123d86037bcb1a2d, 0x73bb7293d39831, 0xec7506a3e70eecf, 0x5dc493f6762cd6);
  (0x247b0c06f796345a, 0x73bb7293d39831, 0xec7506a3e70eecf, 0x2ee249fb3b166b);
  (0x1627bd6e557448c, 0x15f6de9d5d6b5b, 0x7dae537c3bc9813, 0x7c9918d5545750);
  (0x2c4f7adcaae8918, 0x15f6de9d5d6b5b, 0xd64d4935919aa43, 0x6a3a49a565025e);
  (0x12eec3eeee76bc73, 0x4b1403700fec8a, 0xd64d4935919aa43, 0x351d24d2b2812f);
  (0x11b96458445d070, 0x15f6de9d5d6b5b, 0x5a3b8acbb30f733, 0x6fd1a1cfee966e);
  (0x2372c8b088ba0e0, 0x15f6de9d5d6b5b, 0xc493e4dd4d3d9d3, 0x79cd6cc00f8d48);
  (0x10b79763e5eb1b93, 0x52dd94fd6531ff, 0xc493e4dd4d3d9d3, 0x3ce6b66007c6a4);
  (0x46e5916111741c0, 0x6dd25912d318c7, 0x2750c75f75d91f7, 0x3ce6b66007c6a4);
  (0x8dcb22c222e8380, 0x6dd25912d318c7, 0x2750c75f75d91f7, 0x1e735b3003e352);
  (0x142e70ce3bba98f7, 0x7d0c06aad50a70, 0x2750c75f75d91f7, 0xf39ad9801f1a9);
  (0x27d6d47df6a728af, 0x7b6cb9b5724bdc, 0x4ea18ebeebb23ee, 0xf39ad9801f1a9);
  (0x76763359bd40859, 0x72b03ff2fb5483, 0xfb9e9596256d96, 0xf39ad9801f1a9);
  (0x103ff677e324e29f, 0x7ddbad258669ba, 0x1f73d2b2c4adb2c, 0xf39ad9801f1a9);
  (0x1ff9dfd1457bbbff, 0x7bd48cf2cafb81, 0x3ee7a565895b658, 0xf39ad9801f1a9);
  (0x59be11895c79abb, 0x6c9adf5ac909d8, 0x3ee7a565895b658, 0x4c2063f809b84d);
  (0x59be11895c79abb, 0x364d6fad6484ec, 0x7dcf4acb12b6cb0, 0x4c2063f809b84d);
  (0x59be11895c79abb, 0x1b26b7d6b24276, 0x1555ca71f81e741b, 0x67471bcebbfac3);
  (0x3858634633315d, 0x553c38c0d0f15, 0x52b305209613801, 0x7d1a1019612e24);
  (0x59be11895c79abb, 0x43e0cb98bda627, 0x52b305209613801, 0x3e8d080cb09712);
  (0x1062f28334f06d77, 0x63274f9f15f1b0, 0x52b305209613801, 0x1f468406584b89);
  (0x1ab9532747b2dd79, 0x50da2bd5e34461, 0x250fb3cb5a754d7b, 0x7020afdc3b8fea);
  (0x135b6c63a0932b1, 0x124d23c932ad4f, 0x7eaf3179eb00aa0, 0x77c64c8d541f0f);
  (0xdf784f6c0de0815, 0x69a3ffbda8c0cd, 0xb8c176a4ccba2b3, 0x5756dbf476137e);
  (0x1bef09ed81bc102a, 0x69a3ffbda8c0cd, 0xb8c176a4ccba2b3, 0x2bab6dfa3b09bf);
  (0x4d6db18e824cac4, 0x5b81b2edfd628b, 0x24f37e20f5bed57, 0x2bab6dfa3b09bf);
  (0xbc482bf163892c9, 0x6f41fe6e573fe4, 0x49e6fc41eb7daae, 0x2bab6dfa3b09bf);
  (0x1501624753a84825, 0x634c6d3166a9b1, 0x93cdf883d6fb55c, 0x2bab6dfa3b09bf);
  (0x81870af8282c49, 0xbf5913cf09633, 0x530a7307c2e5314, 0x7aac9bfba27f23);
  (0xac174a925e83a37, 0x7f1cecccfc79aa, 0x9be66933597e1a5, 0x73275b900be377);
  (0xac174a925e83a37, 0x3f8e76667e3cd5, 0x137ccd266b2fc34a, 0x73275b900be377);
  (0x1e3e41cf9117fd81, 0x595ae8fb451026, 0x26f99a4cd65f8694, 0x73275b900be377);
  (0x44d61dd425ce416, 0x3f8e76667e3cd5, 0x46df6a002eaa4fd, 0x416fc68163e3c0);
  (0x89ac3ba84b9c82c, 0x3f8e76667e3cd5, 0xd08ba5a87a46d29, 0x604659a7302eb5);
  (0x1135877509739058, 0x3f8e76667e3cd5, 0x15a37e150c5e3555, 0x4fea6806d735c5);
  (0x439d568686e3d25, 0x4e0917ebf18eda, 0x453e60435ac7111, 0x4fea6806d735c5);
  (0xce1a170d3c71f47, 0x76eef3fccffd32, 0x8a7cc086b58e222, 0x4fea6806d735c5);
  (0xce1a170d3c71f47, 0x3b7779fe67fe99, 0x114f9810d6b1c444, 0x4fea6806d735c5);
  (0x1b0bbc35cf8e542, 0x27048bf5f8c76d, 0x46df6a002eaa4fd, 0x663ea62a2c13dc);
  (0x3617786b9f1ca84, 0x27048bf5f8c76d, 0x7cf6e26bcdc6f81, 0x5a23df0b0ed15b);
  (0xb30e5ad76ce3a05, 0x4094358083cc64, 0xf9edc4d79b8df02, 0x5a23df0b0ed15b);
  (0xb30e5ad76ce3a05, 0x204a1ac041e632, 0x2a6e9e486a3ff809, 0x7a6df9cb50b78d);
  (0x4f15a5b461de0d1, 0x474ea6b63aad9f, 0x63f8b5230b05934, 0x5a23df0b0ed15b);
  (0xb30e5ad76ce3a05, 0x50b942e0a4bf7d, 0xc7f16a46160b268, 0x5a23df0b0ed15b);
  (0x17affc51d82eec6d, 0x556e90f5d9c86c, 0x18fe2d48c2c164d0, 0x5a23df0b0ed15b);
  (0x3b171b13c61022d, 0x429958a105a4b0, 0x4ffa2a826f37a90, 0x5a23df0b0ed15b);
  (0xdb0b7018a47f74d, 0x7b708b5b91a3b3, 0x9ff45504de6f520, 0x5a23df0b0ed15b);
  (0x17affc51d82eec6d, 0x6aca3533503a87, 0x13fe8aa09bcdea40, 0x5a23df0b0ed15b);
  (0x3b171b13c61022d, 0x533faec9470ddc, 0x3429e964648fb37, 0x497d88e2cd682f);
  (0xa36aeddc8f2f89b, 0x731d604770ef1d, 0x6853d2c8c91f66e, 0x497d88e2cd682f);
  (0x146d5dbb91e5f136, 0x731d604770ef1d, 0x10bbec0a5584ef09, 0x5e4d74951f2ba6);
  (0x28dabb7723cbe26c, 0x731d604770ef1d, 0x10bbec0a5584ef09, 0x2f26ba4a8f95d3);
  (0x64d23c30e34fe59, 0x58c691af331cc1, 0x5376423a3a7f858, 0x497d88e2cd682f);
  (0xb8487e6b1dcf6b1, 0x51220d49004278, 0xa6ec847474ff0b0, 0x497d88e2cd682f);
  (0xb8487e6b1dcf6b1, 0x289106a480213c, 0x20621875407cd811, 0x720e8f874d896b);
  (0x2bcce3ab497cd57, 0x30358b0ab2fb85, 0x60aeb7148ad5c03, 0x6a6a0b211aaf22);
  (0xb8487e6b1dcf6b1, 0x656a909b405316, 0x60aeb7148ad5c03, 0x353505908d5791);
  (0xb8487e6b1dcf6b1, 0x32b5484da0298b, 0x179a5ec94337aeb7, 0x67ea4dde2d811c);
  (0x5ba6243fd73dc4e, 0x7e17b52ee0a485, 0x1d0fcbf97f8d11, 0x27fbd42ed2e06);
  (0xb91d453f46745ad, 0x7f5793d0573b88, 0x1d0fcbf97f8d11, 0x13fdea1769703);
  (0x16ec00016a3a6051, 0x7e254571551c5a, 0x17261f995d397a73, 0x7f652412cbb35d);
  (0x16ec00016a3a6051, 0x3f12a2b8aa8e2d, 0x2e4c3f32ba72f4e6, 0x7f652412cbb35d);
  (0x4959999e20bacdd, 0x3f12a2b8aa8e2d, 0x509d8c9c809e121, 0x4551fbdffb813c);
  (0x92b3333c41759ba, 0x3f12a2b8aa8e2d, 0xe350bfd8c213adb, 0x61bba0a8a84ecb);
  (0x12566667882eb374, 0x3f12a2b8aa8e2d, 0x17603f3150389495, 0x506721b0a96e7c);
  (0x1a6f0f7319efd0a, 0x1c69a4c8accd8f, 0x6b0c9c0f9a8de2b, 0x73101fa0a72f1a);
  (0x9feabaf5ce6d83f, 0x55f1b49900651c, 0x6b0c9c0f9a8de2b, 0x39880fd053978d);
  (0x9feabaf5ce6d83f, 0x2af8da4c80328e, 0x17603f3150389495, 0x6480ea1cd3ca1b);
  (0x1ffbbefdf615e73, 0x2af8da4c80328e, 0x562a3c275cc428a, 0x73c4e5dfa12b89);
  (0x1ffbbefdf615e73, 0x157c6d26401947, 0xac54784eb988514, 0x73c4e5dfa12b89);
  (0x3ff77dfbec2bce6, 0x157c6d26401947, 0x14c3f334487f5d53, 0x6f9983cf70d4f6);
  (0x7feefbf7d8579cc, 0x157c6d26401947, 0x2cc0c272c10fcab7, 0x7842095a78b650);
  (0x7feefbf7d8579cc, 0x6b6e21bf407e63, 0x42730a40e7fdf77, 0x37ccc1e7b86a7b);
  (0xffddf7efb0af398, 0x6b6e21bf407e63, 0xc2620638c055943, 0x519d71d37c746f);
  (0x1c23ffe287104cdb, 0x5e85c9c95e7969, 0x184c40c7180ab286, 0x519d71d37c746f);
  (0x5a0ccc6e7d00f5f, 0x5e85c9c95e7969, 0x769da72609a8469, 0x7c81dbc552d9f0);
  (0xb41998dcfa01ebe, 0x5e85c9c95e7969, 0x769da72609a8469, 0x3e40ede2a96cf8);
  (0x1683331b9f403d7c, 0x5e85c9c95e7969, 0x1ded0d8dffdac1e5, 0x7da640bab32fe5);
  (0x48e916005bcfc59, 0x5faa2ebebecf5e, 0x5fc35e9332bc061, 0x7da640bab32fe5);
  (0x48e916005bcfc59, 0x2fd5175f5f67af, 0xbf86bd2665780c2, 0x7da640bab32fe5);
  (0x1086fd326c147d1b, 0x56bdac0d094bca, 0x17f0d7a4ccaf0184, 0x7da640bab32fe5);
  (0x1086fd326c147d1b, 0x2b5ed60684a5e5, 0x2fe1af49995e0308, 0x7da640bab32fe5);
  (0x3fc4f8f8d2a4789, 0x344b58b83a2979, 0x64556d16f751ac9, 0x52476ab42e8a00);
  (0xe3df5f089c9a9db, 0x5d6f0e12516e79, 0x64556d16f751ac9, 0x2923b55a174500);
  (0x22c142b283086e7f, 0x7200e8bf5d10f9, 0x64556d16f751ac9, 0x1491daad0ba280);
  (0x729c4b2989ec571, 0x757bc0ddd15ddd, 0x141115d164a9ef5, 0x1491daad0ba280);
  (0xf949ac2478829d7, 0x7fc4ae34572f1d, 0x141115d164a9ef5, 0xa48ed5685d140);
  (0x1f2935848f1053ae, 0x7fc4ae34572f1d, 0x141115d164a9ef5, 0x52476ab42e8a0);
  (0x613da3ed13be88a, 0x7c990c1f910d11, 0x4036ac37a88631, 0x52476ab42e8a0);
  (0xc67eb29da205745, 0x7f2b4775328161, 0x4036ac37a88631, 0x2923b55a17450);
  (0x18cfd653b440ae8a, 0x7f2b4775328161, 0x4036ac37a88631, 0x1491daad0ba28);
  (0x31dfe353a029e345, 0x7fcfd64a9ade75, 0x4036ac37a88631, 0xa48ed5685d14);
  (0x9c634ed59e7f54d, 0x7d3d9af4f96a25, 0x4036ac37a88631, 0x336ca2b09d164);
  (0x13cca086eb7870cb, 0x7ed9000a7e52d7, 0x4036ac37a88631, 0x19b651584e8b2);
  (0x27d977ba0e9967c7, 0x7fa6b29540c730, 0x4036ac37a88631, 0xcdb28ac27459);
  (0x7f84b25361eae5b, 0x7fa6b29540c730, 0x4036ac37a88631, 0x4047cb5cc45bd);
  (0xf7eb353bbde6819, 0x7c16a7f19879ab, 0x806d586f510c62, 0x4047cb5cc45bd);
  (0x1f0bf10936aee7f7, 0x7c50e0faaa75c7, 0x100dab0dea218c4, 0x4047cb5cc45bd);
  (0x5ced8bb18488ae3, 0x7447e78f11ea4d, 0x100dab0dea218c4, 0x14166f8cfd5cb1);
  (0xad31e2f717306b7, 0x6c5c0aa8025ce1, 0x201b561bd443188, 0x14166f8cfd5cb1);
  (0x18df13db9e50616f, 0x7c7c8bc177f2dc, 0x4036ac37a886310, 0x14166f8cfd5cb1);
  (0x42bee9e6d8e6613, 0x68661c347a962b, 0x4036ac37a886310, 0x64702dc0f2cf75);
  (0x82f5961e816c923, 0x666b24fab6b2d0, 0x806d586f510c620, 0x64702dc0f2cf75);
  (0x82f5961e816c923, 0x3335927d5b5968, 0x100dab0dea218c40, 0x64702dc0f2cf75);
  (0x82f5961e816c923, 0x199ac93eadacb4, 0x284aaf7dbc59e1a3, 0x7e0af6ffa07c29);
  (0x6acb0fd7c1709b8, 0x68661c347a962b, 0x182a8646bffbf6b, 0x179fd204e9c959);
  (0x82f5961e816c923, 0x4002f71cb22fc2, 0xb34aa2ac01647f9, 0x57a2c9219bf91b);
  (0x82f5961e816c923, 0x20017b8e5917e1, 0x1e98adb768435915, 0x77a444aff510fc);
  (0x6dbe5cd804c24b, 0x861a9896f4e88, 0x6785fee8803bff7, 0x7e80c3a2003d45);
  (0x6dbe5cd804c24b, 0x430d4c4b7a744, 0xcf0bfdd10077fee, 0x7e80c3a2003d45);
  (0x6dbe5cd804c24b, 0x2186a625bd3a2, 0x19e17fba200effdc, 0x7e80c3a2003d45);
  (0x15f2df5e675a0f, 0x2186a625bd3a2, 0x537db7240c337bd, 0x7f87ab918ef6d7);
  (0x15f2df5e675a0f, 0x10c35312de9d1, 0xa6fb6e481866f7a, 0x7f87ab918ef6d7);
  (0x2be5bebcceb41e, 0x10c35312de9d1, 0x14cf827820600091, 0x7f2667e8213d50);
  (0x57cb7d799d683c, 0x10c35312de9d1, 0x29baff5e1ae1d6dd, 0x7f7be0ac015575);
  (0x57cb7d799d683c, 0x53d09f5e59115, 0x8470a602040e2ed, 0x7e6fab7ad36ba4);
  (0xc649441d3a1c5bd, 0x5ea61180cb1c50, 0xbb4fd46e066f545, 0x5969078ae58b3b);
  (0xc649441d3a1c5bd, 0x2f5308c0658e28, 0x1769fa8dc0cdea8a, 0x5969078ae58b3b);
  (0x5c7bd4778874942, 0x6e5d2f627bcf8f, 0x23447a8c908d429, 0x2a15feca7ffd13);
  (0xc649441d3a1c5bd, 0x764f95e0fde364, 0x4688f519211a852, 0x2a15feca7ffd13);
  (0xc649441d3a1c5bd, 0x3b27caf07ef1b2, 0x1535b2e4f7c51661, 0x653dc9bafeeec5);
  (0x556e225b6b8b86d, 0x7f6efb887ac42e, 0x1c36c87073a4354, 0x2a15feca7ffd13);
  (0x8ddbb33c52d3f15, 0x69cd7c8ebd5f2a, 0x386d90e0e7486a8, 0x2a15feca7ffd13);
  (0x8ddbb33c52d3f15, 0x34e6be475eaf95, 0xfeb6d4fe2164c65, 0x5efcbd11deaca8);
  (0x21a6e3b76c70ca8f, 0x64651cd04e05e9, 0xfeb6d4fe2164c65, 0x2f7e5e88ef5654);
  (0x77497948c31d605, 0x6f35dc4d2cb86b, 0x2d2473e71f6d220, 0x2a15feca7ffd13);
  (0xa46ded2fe28a825, 0x4ca5ed8bd65abf, 0xfeb6d4fe2164c65, 0x76bbec565657d2);
  (0x148dbda5fc51504a, 0x4ca5ed8bd65abf, 0xfeb6d4fe2164c65, 0x3b5df62b2b2be9);
  (0x5f6dfaa09c17804, 0x6f35dc4d2cb86b, 0x1548f53ef86741f, 0x18ce0769d4ce3d);
  (0x74b6efdf947ec23, 0x4401f1db80c354, 0x9f48da5d854d461, 0x5ccff945559191);
  (0x74b6efdf947ec23, 0x2200f8edc061aa, 0x1b348a49a9f194e5, 0x7ed0f23315f33b);
  (0x4c57fbb3b012cd0, 0x6f35dc4d2cb86b, 0x285ef42be46bf53, 0x3acf0057952fe7);
  (0x74b6efdf947ec23, 0x55026e5260f429, 0x50bde857c8d7ea6, 0x3acf0057952fe7);
  (0xe96ddfbf28fd846, 0x55026e5260f429, 0xc574d8375d56ac9, 0x47e8b754fb1208);
  (0x1d2dbbf7e51fb08c, 0x55026e5260f429, 0x2985097b5af51b55, 0x78f6c9fcde7d2d);
  (0x35e161749754127, 0x310e12a7e36b25, 0x59b2154e2eae87b, 0x51a9a504acd6ca);
  (0x6bc2c2e92ea824e, 0x310e12a7e36b25, 0xc574d8375d56ac9, 0x59e2e52a39d68a);
  (0xd78585d25d5049c, 0x310e12a7e36b25, 0x19cfa5e09baa6f65, 0x5dff853d00566a);
  (0x39cef8566651f7, 0x41ca012c67fe0, 0x6ebe63b5c3dbba1, 0x7e083b26f49b59);
  (0x39cef8566651f7, 0x20e5009633ff0, 0xdd7cc76b87b7742, 0x7e083b26f49b59);
  (0x39cef8566651f7, 0x1072804b19ff8, 0x1be967e5c75d407b, 0x7f0f632ba63b51);
  (0x39cef8566651f7, 0x523c817781fd8, 0x5726565c0d5421e, 0x7bf9eb1d915b69);
  (0x39cef8566651f7, 0x291e40bbc0fec, 0xb1e99c3d810d633, 0x7e8bcf294d6b55);
  (0x39cef8566651f7, 0x148f205de07f6, 0x167702800687fe5d, 0x7fd4c12f2b734b);
  (0x39cef8566651f7, 0xa47902ef03fb, 0x2cee05000d0ffcba, 0x7fd4c12f2b734b);
  (0x39cef8566651f7, 0x3365d0eab13e7, 0x8ce28395717bdc6, 0x7d42dd236f635f);
  (0x10b5742d2714f28b, 0x76d8cb12698dfa, 0x1041d63c7a484e9d, 0x73a26e03be7a13);
  (0x10b5742d2714f28b, 0x3b6c658934c6fd, 0x2083ac78f4909d3a, 0x73a26e03be7a13);
  (0x4107a56e91869ff, 0x4845d9c3e11699, 0x3293e758f7f2223, 0x3836087a89b316);
  (0xb4a332361aff621, 0x6460de0125f024, 0x3293e758f7f2223, 0x1c1b043d44d98b);
  (0x17ef2cf99fac7ead, 0x6a66777b1cab28, 0x6527ceb1efe4446, 0x1c1b043d44d98b);
  (0x4c96f651fef4c89, 0x6a66777b1cab28, 0x1890d85ff0ef7bd, 0x22209db73b948f);
  (0x4c96f651fef4c89, 0x35333bbd8e5594, 0x7db8a711e0d3c03, 0x5753d974c9ea23);
  (0x4c96f651fef4c89, 0x1a999ddec72aca, 0x148084475c09c48f, 0x71ed77539114ed);
  (0x4c96f651fef4c89, 0xd4cceef639565, 0x2dca77f3d802d5a7, 0x7f3a4642f4aa52);
  (0xf516476cc975b5, 0xd4cceef639565, 0x87413124551e714, 0x756fd8d69b9137);
  (0x1ea2c8ed992eb6a, 0xd4cceef639565, 0x1111db9518670a71, 0x76918fa08de8e2);
  (0x3d4591db325d6d4, 0xd4cceef639565, 0x2437992998243c95, 0x7dc8d27d38df6a);
  (0xc411d2bd6df7c4, 0xd4cceef639565, 0x71cf3e179d1757d, 0x7b8564e9543014);
  (0x18823a57adbef88, 0xd4cceef639565, 0xd3d82776541339d, 0x72f5ee32386d9e);
  (0x310474af5b7df10, 0xd4cceef639565, 0x1c8ee6ee31d88eed, 0x7bfb01c60e21c8);
  (0x310474af5b7df10, 0x42800aacf1eaf9, 0x47c7811a7ae9029, 0x616163e746f6fe);
  (0x6208e95eb6fbe20, 0x42800aacf1eaf9, 0xa9d06a7931e4e49, 0x7330bca0956678);
  (0xc411d2bd6df7c40, 0x42800aacf1eaf9, 0x16de23d369fdca89, 0x7c1868fd3c9e35);
  (0x231f40ff40dd46c9, 0x5f4c39d5174497, 0x2dbc47a6d3fb9512, 0x7c1868fd3c9e35);
  (0x2c770bcd220220b, 0x25b3db84cc915b, 0x7d595eac0fe2c3e, 0x6a491043ee2ebb);
  (0x102be821375e925f, 0x6db2516929f166, 0xa9d06a7931e4e49, 0x47fe75e45d600b);
  (0x102be821375e925f, 0x36d928b494f8b3, 0x2565f5705d9b2ef1, 0x7ed79e98f258be);
  (0x13652c111ed4c65, 0x148e8e55042a03, 0x77acab012b8a2fd, 0x7ed79e98f258be);
  (0x9e7703236933bc7, 0x53fa5da17d5662, 0x77acab012b8a2fd, 0x3f6bcf4c792c5f);
  (0x18dd05925c0481c1, 0x6968fe1d37d790, 0xef59560257145fa, 0x3f6bcf4c792c5f);
  (0x2f358a47fa815df, 0x3e8bbd25c2d534, 0x400bee937431009, 0x54da6fc833ad8d);
  (0x2f358a47fa815df, 0x1f45de92e16a9a, 0xaf4d676ee2e35f1, 0x74204e5b151827);
  (0x2f358a47fa815df, 0xfa2ef4970b54d, 0x15e9aceddc5c6be2, 0x74204e5b151827);
  (0x18dd05925c0481c1, 0x41e19ed242e6ba, 0x2bd359dbb8b8d7c4, 0x74204e5b151827);
  (0x8836b7c453100ff, 0x70ca6cae9506a1, 0x29cba3345e0d541, 0x229bc03f617c20);
  (0x1106d6f88a6201fe, 0x70ca6cae9506a1, 0x29cba3345e0d541, 0x114de01fb0be10);
  (0x24aa68245aa4d93d, 0x79715cbe6d65a9, 0x29cba3345e0d541, 0x8a6f00fd85f08);
  (0x5c40b821b66deb2, 0x5f7c8c8ee44891, 0x29cba3345e0d541, 0x2b42b04f39db28);
  (0xe24d1377cae92a5, 0x751de4b6813625, 0x29cba3345e0d541, 0x15a158279ced94);
  (0x1ee65ca23f3dfa8b, 0x7fee90ca4facef, 0x29cba3345e0d541, 0xad0ac13ce76ca);
  (0x52294d8bd7f4335, 0x6a4d38a2b2bf5b, 0x29cba3345e0d541, 0x36135c630851f2);
  (0xa4529b17afe866a, 0x6a4d38a2b2bf5b, 0x29cba3345e0d541, 0x1b09ae318428f9);
  (0xce1e3e4c0df5bab, 0x42ab736a1b742a, 0x121b584b4ca1062d, 0x5db5219b9f9d23);
  (0x3118947b5a216805, 0x7f0adb50ad5738, 0x2436b09699420c5a, 0x5db5219b9f9d23);
  (0x7c989e551267bb, 0x64c0b8389911c, 0x979b7906d5e858e, 0x7a984ff081aaa5);
  (0x7c989e551267bb, 0x32605c1c4c88e, 0x137007bf2fcf72d7, 0x7dbe55b2467333);
  (0x7c989e551267bb, 0x19302e0e26447, 0x275ca81cb4b14d69, 0x7f51589328d77a);
  (0x7c989e551267bb, 0x7df0e646bf563, 0x79492d9f1186ad8, 0x7a984ff081aaa5);
  (0xa038df19a74717f, 0x50f9cbf34ebaca, 0x90a5cb4f04fa209, 0x491abd8ee2c567);
  (0xa038df19a74717f, 0x287ce5f9a75d65, 0x1c18475b7b13b591, 0x7197a3888a22cc);
  (0x200b5fd1ee416b3, 0x287ce5f9a75d65, 0x610757b2746bbe0, 0x7a984ff081aaa5);
  (0x4016bfa3dc82d66, 0x287ce5f9a75d65, 0xc12977283f2fff9, 0x7a0780eebbe16a);
  (0x802d7f47b905acc, 0x287ce5f9a75d65, 0x14156f66ff835ac5, 0x6580a671054e1a);
  (0x19a2b30e583455c, 0x287ce5f9a75d65, 0x40fbf7e0862a52d, 0x66a2447490e090);
  (0x3345661cb068ab8, 0x287ce5f9a75d65, 0x74415dfd3692fe5, 0x5bce0833efcdad);
  (0x668acc3960d1570, 0x287ce5f9a75d65, 0x10e11905347cd00d, 0x6aa25d1072f2ee);
  (0xcd159872c1a2ae0, 0x287ce5f9a75d65, 0x1db2728c6096faed, 0x5dce1481e0d6dc);
  (0x450971cdcc389b7, 0x44258364bc9eb8, 0x4302b4d72931772, 0x42257716cb9589);
  (0x450971cdcc389b7, 0x2212c1b25e4f5c, 0xcb0edb7c1e9b89b, 0x643838c929e4e5);
  (0x450971cdcc389b7, 0x110960d92f27ae, 0x1db2728c6096faed, 0x754199a2590c93);
  (0x450971cdcc389b7, 0x552ee43debc666, 0x359bc3df5427928, 0x42257716cb9589);
  (0x450971cdcc389b7, 0x2a97721ef5e333, 0xb040f98c7487c07, 0x6cbce935c178bc);
  (0x13a53dd280cf8f75, 0x60f5e6b9d69f91, 0xb040f98c7487c07, 0x365e749ae0bc5e);
  (0x3edd92a19c31cb1, 0x60f5e6b9d69f91, 0x3285d4493c242a5, 0x4dec7992b66eb4);
  (0x7dbb25433863962, 0x60f5e6b9d69f91, 0x3285d4493c242a5, 0x26f63cc95b375a);
  (0xfb764a8670c72c4, 0x60f5e6b9d69f91, 0x12dfc1ecfaceb569, 0x7471051e843b3e);
  (0x1f6ec950ce18e588, 0x60f5e6b9d69f91, 0x12dfc1ecfaceb569, 0x3a38828f421d9f);
  (0x283017a5d753cd3, 0x26bd642a9481f2, 0x650ba892784854a, 0x616797f7640a61);
  (0x283017a5d753cd3, 0x135eb2154a40f9, 0xf24768cac7e4767, 0x74c64a0cae4b5a);
  (0x50602f4baea79a6, 0x135eb2154a40f9, 0x1e367f6add3db459, 0x747f3b4635e898);
  (0x50602f4baea79a6, 0x60d97a6a7344dd, 0x4087eb37b14f369, 0x4dc1d71ba166a6);
  (0xa0c05e975d4f34c, 0x60d97a6a7344dd, 0x4087eb37b14f369, 0x26e0eb8dd0b353);
  (0xe14849cf0e9e6b5, 0x43dd32fc21fc18, 0x16258203e713cd87, 0x6abe1e89f2af6b);
  (0x133e7d7988cccc7, 0x1cfc476e5148c5, 0x47545e02c83807d, 0x6b6fc37a1fa650);
  (0x267cfaf3119998e, 0x1cfc476e5148c5, 0x944e53e8eb6b399, 0x6fb07099b264b2);
  (0xe14849cf0e9e6b5, 0x54d47fbb2a7b1e, 0x944e53e8eb6b399, 0x37d8384cd93259);
  (0xe14849cf0e9e6b5, 0x2a6a3fdd953d8f, 0x209e4f1a0e574de7, 0x6242782a6e6fe8);
  (0x4bd8d78577675c9, 0x4766874be68654, 0x49969ac41fcfb23, 0x454630bc1d2723);
  (0x4bd8d78577675c9, 0x23b343a5f3432a, 0xdf060d0db706c0f, 0x68f97462106a4d);
  (0x4bd8d78577675c9, 0x11d9a1d2f9a195, 0x209e4f1a0e574de7, 0x7ad316350a0be2);
  (0x4bd8d78577675c9, 0x5940291ee027e9, 0x4a0a40846487a11, 0x571fd28f16c8b8);
  (0x97b1af0aeeceb92, 0x5940291ee027e9, 0x4a0a40846487a11, 0x2b8fe9478b645c);
  (0x1796d9e9a4225135, 0x6f081dc2a5da17, 0x4a0a40846487a11, 0x15c7f4a3c5b22e);
  (0x4b7c52eba6d4371, 0x6f081dc2a5da17, 0x4a0a40846487a11, 0x6ce7c732dc7ae6);
  (0x96f8a5d74da86e2, 0x6f081dc2a5da17, 0x4a0a40846487a11, 0x3673e3996e3d73);
  (0xe102e65bb2300f3, 0x52be00ae0a0bc5, 0x94148108c90f422, 0x3673e3996e3d73);
  (0x1c205ccb764601e6, 0x52be00ae0a0bc5, 0x1751767647b3f515, 0x4498f223bc249c);
  (0x78c6eb12a486be8, 0x6f081dc2a5da17, 0x2bd885bfbb65f17, 0x284ed50f20564a);
  (0xf18dd625490d7d0, 0x6f081dc2a5da17, 0x2bd885bfbb65f17, 0x14276a87902b25);
  (0x11d665be504736e7, 0x4197c4251b029e, 0x1751767647b3f515, 0x55bf2eacab2dc3);
  (0x278aa9ade921825, 0x2d70599d8ad779, 0x57b10b7f76cbe2e, 0x64c514a5d0d7b9);
  (0x4f15535bd24304a, 0x2d70599d8ad779, 0xce510889323069d, 0x768b10bf38af12);
  (0x16c7baf40d6b6731, 0x68b5e1fd272f02, 0xce510889323069d, 0x3b45885f9c5789);
  (0x1fa22157edb4684, 0x2d70599d8ad779, 0x4fc883297b5ec8d, 0x729a4367e257c9);
  (0x3f4442afdb68d08, 0x2d70599d8ad779, 0xaeaee731447c019, 0x7d75a820416f1a);
  (0x12d376c90fb4da29, 0x6c2b2dadab8f06, 0xaeaee731447c019, 0x3ebad41020b78d);
  (0x28a953af38445a5b, 0x74d06ae6f67f10, 0x15d5dce6288f8032, 0x3ebad41020b78d);
  (0x5b98bd890f85a0b, 0x523b7601cabee8, 0x45df8fad4e9800a, 0x3ebad41020b78d);
  (0xe757dce3acb5a1f, 0x67d88f11061701, 0x8bbf1f5a9d30014, 0x3ebad41020b78d);
  (0x17316fc3e49e5a33, 0x5349b190936747, 0x1177e3eb53a60028, 0x3ebad41020b78d);
  (0x4a37cc0c752ded7, 0x5349b190936747, 0x38d6da8fdad63a3, 0x3fc90f9ee95fec);
  (0x946f9818ea5bdae, 0x5349b190936747, 0xcd4672a8c532151, 0x732e396008173d);
  (0x128df3031d4b7b5c, 0x5349b190936747, 0x161b60ac1af8deff, 0x633bf5784dbf42);
  (0x3001aab9fec6b25, 0x43576da8d90f4c, 0x38d6da8fdad63a3, 0x4fbb5386a3b7e7);
  (0x3001aab9fec6b25, 0x21abb6d46c87a6, 0xa1af5fd9b47326b, 0x71670a5b103f8d);
  (0x3001aab9fec6b25, 0x10d5db6a3643d3, 0x1435ebfb368e64d6, 0x71670a5b103f8d);
  (0x60035573fd8d64a, 0x10d5db6a3643d3, 0x2936a6ac960552d9, 0x73a00521460d29);
  (0x60035573fd8d64a, 0x542d49130f531f, 0x37129dcb7b9febd, 0x304897786cfddd);
  (0xc006aae7fb1ac94, 0x542d49130f531f, 0x9715f33f792d507, 0x423af045be287e);
  (0x21723490f6f62e2f, 0x754ac135ee675e, 0x9715f33f792d507, 0x211d7822df143f);
  (0x106049769a5efd2, 0x11f258cd512aa1, 0x65f516dbaa10591, 0x6fbc4e4667e558);
  (0xa7763cb6138c4d9, 0x5bc2d8bdd647ee, 0x86b5a9c8dece535, 0x49d07ff0851d4d);
  (0xa7763cb6138c4d9, 0x2de16c5eeb23f7, 0x1b4e19047d128f43, 0x77b1ec4f704144);
  (0x3bb1b4e22e1a715, 0x51c61df98d7939, 0x35e243e9f2b8ee2, 0x49d07ff0851d4d);
  (0x7193f8cc20d35f7, 0x4dcb4ef5094b43, 0x6bc487d3e571dc4, 0x49d07ff0851d4d);
  (0xdd5880a006453bb, 0x4bcde772c73448, 0xd7890fa7cae3b88, 0x49d07ff0851d4d);
  (0xdd5880a006453bb, 0x25e6f3b9639a24, 0x28c6a9fef9c0cacb, 0x6fb773a9e8b771);
  (0x8721ad901b83beb, 0x73b242ae6ce567, 0x5636d30feac17d0, 0x49d07ff0851d4d);
  (0xdd5880a006453bb, 0x5ec1614f79015a, 0xac6da61fd582fa0, 0x49d07ff0851d4d);
  (0xdd5880a006453bb, 0x2f60b0a7bc80ad, 0x23633ccdfb14b2fb, 0x79313098419dfa);
  (0x61d5b5006184836, 0x68b466dac37441, 0x18b3c25320f3581, 0x1a6fcf48c89ca0);
  (0xdc5f2c53e3fc5ed, 0x75ec4e7f27c291, 0x18b3c25320f3581, 0xd37e7a4644e50);
  (0x1d1721afae8ec15b, 0x7c88425159e9b9, 0x18b3c25320f3581, 0x69bf3d2322728);
  (0x5d16d2322e959df, 0x7c88425159e9b9, 0x18b3c25320f3581, 0x210bc31afac3c8);
  (0xba2da4645d2b3be, 0x7c88425159e9b9, 0x18b3c25320f3581, 0x1085e18d7d61e4);
  (0x1745b48c8ba5677c, 0x7c88425159e9b9, 0x18b3c25320f3581, 0x842f0c6beb0f2);
  (0x2e8b6919174acef8, 0x7c88425159e9b9, 0x18b3c25320f3581, 0x42178635f5879);
  (0x812e4e74302cb64, 0x6c0260c3dc87d5, 0x18b3c25320f3581, 0x14a759f0dcba5d);
  (0x12e189eba16d41eb, 0x7e4aeb2cf2d030, 0x316784a641e6b02, 0x14a759f0dcba5d);
  (0x12e189eba16d41eb, 0x3f257596796818, 0x190e7a8069aa17ef, 0x53cccf87562275);
  (0x3c6b52f20490d2f, 0x3f257596796818, 0x62cf094c83cd604, 0x6744c1b44fa3d1);
  (0x3c6b52f20490d2f, 0x1f92bacb3cb40c, 0xc59e1299079ac08, 0x6744c1b44fa3d1);
  (0x3c6b52f20490d2f, 0xfc95d659e5a06, 0x1c7a7782413c653f, 0x770e1f19edfdd7);
  (0x3c6b52f20490d2f, 0x4eeed2fc17c21e, 0x42f69073355422d, 0x577b644eb149cb);
  (0x3c6b52f20490d2f, 0x2777697e0be10f, 0xc25873d86f39189, 0x7ef2cdccbd2ada);
  (0x78d6a5e40921a5e, 0x2777697e0be10f, 0x13b2f19bc785abe7, 0x66f0d0646a767c);
  (0xf1ad4bc812434bc, 0x2777697e0be10f, 0x22cdc65848a9e0a3, 0x5aefd1b0411c4d);
  (0x21a24c5d88d591d, 0x1b766ac9e286e0, 0x8cc666af77c2965, 0x72f1cf1893d0ab);
  (0x21a24c5d88d591d, 0xdbb3564f14370, 0x1198ccd5eef852ca, 0x72f1cf1893d0ab);
  (0x21a24c5d88d591d, 0x6dd9ab278a1b8, 0x254bbe71b67dfeb1, 0x79cf69cb0c7263);
  (0x21a24c5d88d591d, 0x2254057c5b2898, 0x632a9a008f79712, 0x653699b3a28d3b);
  (0x21a24c5d88d591d, 0x112a02be2d944c, 0xe7f7805ea7c8741, 0x76609c71d02187);
  (0x21a24c5d88d591d, 0x895015f16ca26, 0x1f1914d1ad86679f, 0x7ef59dd0e6ebad);
  (0x21a24c5d88d591d, 0x2ae906db71f2be, 0x489b38ba8a9cd6f, 0x5ca198548bc315);
  (0x21a24c5d88d591d, 0x1574836db8f95f, 0xb2d8bdd29e0f3fb, 0x72161bc244bc74);
  (0x13961ef48c16586f, 0x63f414bc9450f8, 0xf61d568dafba635, 0x4e7f914edb5799);
  (0x434498bb11ab23a, 0x6b4691249cdedb, 0x23c4f2c3b9363ff, 0x390b0de1225e3a);
  (0x868931762356474, 0x6b4691249cdedb, 0x23c4f2c3b9363ff, 0x1c8586f0912f1d);
  (0x13961ef48c16586f, 0x7cf119ebb96536, 0x4789e587726c7fe, 0x1c8586f0912f1d);
  (0x13961ef48c16586f, 0x3e788cf5dcb29b, 0x1c875ba57a63e86b, 0x5afe13e66de1b8);
  (0x71130633e768edb, 0x70b4103957333c, 0x1c9d8f02fa91ccc, 0x1c8586f0912f1d);
  (0xe389423fd1b020b, 0x716515fdcdf7d8, 0x393b1e05f523998, 0x1c8586f0912f1d);
  (0xe389423fd1b020b, 0x38b28afee6fbec, 0x155ff7e4bbbf753b, 0x553811ef782b09);
  (0x5abca954b9b398d, 0x710c931b92958a, 0x44664c758bfe43f, 0x553811ef782b09);
  (0x5abca954b9b398d, 0x3886498dc94ac5, 0x88cc98eb17fc87e, 0x553811ef782b09);
  (0xe389423fd1b020b, 0x46df2dbea0bae7, 0x1119931d62ff90fc, 0x553811ef782b09);
  (0x244b76eeb0ae3d2, 0x3886498dc94ac5, 0x2e0fef965e48ef1, 0x47bc74f43530aa);
  (0x4896eddd615c7a4, 0x3886498dc94ac5, 0x76a6dd73bfa5695, 0x5c648407e3e31a);
  (0x107d4b92e825e5dd, 0x66b88b91bb3c52, 0x76a6dd73bfa5695, 0x2e324203f1f18d);
  (0x1f522741601a9307, 0x618e87cccf8fb6, 0xed4dbae77f4ad2a, 0x2e324203f1f18d);
  (0x3a1257e44de3950, 0x3886498dc94ac5, 0x599db18198b39ed, 0x573a8042f8367e);
  (0xcdc2614a347ac8d, 0x642389af456604, 0x599db18198b39ed, 0x2b9d40217c1b3f);
  (0xcdc2614a347ac8d, 0x3211c4d7a2b302, 0x180fdc44d65e2067, 0x5daf04f91ece41);
  (0x33c345f80bb9f97, 0x3eface43efe288, 0x4cff8da9146067b, 0x5daf04f91ece41);
  (0xcdc2614a347ac8d, 0x7d2c6c1b16bf85, 0x99ff1b5228c0cf6, 0x5daf04f91ece41);
  (0x167c17c9c5d3b983, 0x6d6db88a1ac6e3, 0x133fe36a451819ec, 0x5daf04f91ece41);
  (0xa5a41319bf1feb, 0xfbeb390fbf8a2, 0x503c9c60eab5bba, 0x7a07aa67f2a959);
  (0xa5a41319bf1feb, 0x7df59c87dfc51, 0xa07938c1d56b774, 0x7a07aa67f2a959);
  (0x14b4826337e3fd6, 0x7df59c87dfc51, 0x150778d0d307d60f, 0x7fee505c28355d);
  (0x296904c66fc7fac, 0x7df59c87dfc51, 0x2870b30dd76d9399, 0x7b02498dc4ff0e);
  (0x8483427aff4cbc, 0x7df59c87dfc51, 0x858e8f40d98fe11, 0x7ef3b13655dfa8);
  (0x1090684f5fe9978, 0x7df59c87dfc51, 0x10a11d1bbd8dc9d1, 0x7e74a6df1ad25c);
  (0x2120d09ebfd32f0, 0x7df59c87dfc51, 0x2131856b1d776151, 0x7e3521b37d4bb6);
  (0x6a029b95990a30, 0x7df59c87dfc51, 0x6b0de85b734d551, 0x7f333661f3664e);
  (0xd405372b321460, 0x7df59c87dfc51, 0xd51083f10c57851, 0x7e946974e995af);
  (0x1a80a6e566428c0, 0x7df59c87dfc51, 0x19bd567a98b4a9f1, 0x7a55561a25af37);
  (0x1a80a6e566428c0, 0x275cc0ea75ed95, 0x47c4052c8c8de7d, 0x6a96a28929b695);
  (0x9745f9dcbf558bd, 0x705672a445bfaa, 0x6244ac11f2d073d, 0x48f9b1b9cfd215);
  (0x9745f9dcbf558bd, 0x382b395222dfd5, 0xc4895823e5a0e7a, 0x48f9b1b9cfd215);
  (0x12e8bf3b97eab17a, 0x382b395222dfd5, 0x28a5b45ba23a18b1, 0x78bdaed81c38ca);
  (0x3374eab07813259, 0x2fc3fd1e4c66b5, 0x60b848f79e5e816, 0x59c82a217cc455);
  (0xfb1709090697f21, 0x748a10be30fc3a, 0x942d33a81671a6f, 0x44c6139fe49585);
  (0xfb1709090697f21, 0x3a45085f187e1d, 0x223717059337b3ff, 0x7f0b1bfefd13a2);
  (0x5b6223f56160e81, 0x6a09057d64e4d2, 0x4452c11e43d621f, 0x4f471ee0b0aced);
  (0x5b6223f56160e81, 0x350482beb27269, 0x88a5823c87ac43e, 0x4f471ee0b0aced);
  (0xb6c447eac2c1d02, 0x350482beb27269, 0x19acbee1cabcefc1, 0x772a538e640214);
  (0x248da7fbc08d29a, 0x350482beb27269, 0x51d10642e6d8857, 0x76ab0913ae04b3);
  (0x491b4ff7811a534, 0x350482beb27269, 0x765eae3ea765af1, 0x55d7c5e9303b8e);
  (0x92369fef0234a68, 0x350482beb27269, 0x108954e2da99a559, 0x5ff065b34a9030);
  (0x22d028e0bae03a29, 0x64fcb59857ba81, 0x108954e2da99a559, 0x2ff832d9a54818);
  (0x6f66e9358933ed5, 0x64fcb59857ba81, 0x29c77bc297327af, 0x25df930f8af376);
  (0xdecdd26b1267daa, 0x64fcb59857ba81, 0x108954e2da99a559, 0x77ec7f201d343c);
  (0x1bd9ba4d624cfb54, 0x64fcb59857ba81, 0x108954e2da99a559, 0x3bf63f900e9a1e);
  (0x61775f234cd069d, 0x6e715e82924148, 0x10b631810947646, 0x12efc987c579bb);
  (0xc5bc8829847cc41, 0x70080bd8998dd5, 0x216c6302128ec8c, 0x12efc987c579bb);
  (0xe728eb2b970b8cd, 0x417beab02f83c8, 0x12a01b12fbc291e5, 0x546bb437f4fd83);
  (0x4f18367701cb81a, 0x70080bd8998dd5, 0x48f87e3d9374899, 0x675b7dbfba773e);
  (0x9e306cee0397034, 0x70080bd8998dd5, 0x48f87e3d9374899, 0x33adbedfdd3b9f);
  (0xe728eb2b970b8cd, 0x51dae55c3b64ba, 0x91f0fc7b26e9132, 0x33adbedfdd3b9f);
  (0xe728eb2b970b8cd, 0x28ed72ae1db25d, 0x20b0ae421e4ddb31, 0x5c9b318dfaedfc);
  (0x8600d51a729a975, 0x76a0dbd89831c1, 0xc2502c2248e1eb, 0xac04c31bf8942);
  (0x11826acf709c34d5, 0x7c0101f177f662, 0xc2502c2248e1eb, 0x5602618dfc4a1);
  (0x1c22cd3950988faf, 0x63a18ba6da5b98, 0x1da76d91952a5385, 0x6901b1bfba2039);
  (0x4b762701a2d7409, 0x5381195c3b0db5, 0x63c02c85ebf37df, 0x6e61d7d899e4da);
  (0x96ec4e0345ae812, 0x5381195c3b0db5, 0x63c02c85ebf37df, 0x3730ebec4cf26d);
  (0x1c22cd3950988faf, 0x7c89ee9090f27e, 0xc780590bd7e6fbe, 0x3730ebec4cf26d);
  (0xa3c06b2ab8bcd7, 0xe2816b7f70da4, 0x56ec0f5e78e5281, 0x783ba1b5e32615);
  (0xa3c06b2ab8bcd7, 0x7140b5bfb86d2, 0xb814256f9d561d9, 0x7f4fad11deace7);
  (0xa3c06b2ab8bcd7, 0x38a05adfdc369, 0x170284adf3aac3b2, 0x7f4fad11deace7);
  (0x14780d6557179ae, 0x38a05adfdc369, 0x2d65d354caec9517, 0x7d9739edc83221);
  (0x14780d6557179ae, 0x11b21c65f4d10d, 0x84fdcf6c21e6e69, 0x72f928e3cee7e6);
  (0xadedea36d0161c5, 0x4b2eb0d7dc4500, 0x84fdcf6c21e6e69, 0x397c9471e773f3);
  (0xadedea36d0161c5, 0x2597586bee2280, 0x1b7e9890f13e3e97, 0x5f13ecddd59673);
  (0x55f26866ff4eeda, 0x5ce0cd3dd1160d, 0x57fb81cfd0c72eb, 0x5f13ecddd59673);
  (0xadedea36d0161c5, 0x5dfa5d0dd35640, 0xaff7039fa18e5d6, 0x5f13ecddd59673);
  (0xadedea36d0161c5, 0x2efd2e86e9ab20, 0x15fee073f431cbac, 0x5f13ecddd59673);
  (0x5e22d2f6bcdf591, 0x7f28db01b3c41a, 0xd0709053c9b3a, 0x1198fd0024033);
  (0xadedea36d0161c5, 0x7578f451482bd0, 0xaf8ecb5777a9839, 0x769284214a6c03);
  (0xadedea36d0161c5, 0x3abc7a28a415e8, 0x15f1d96aeef53072, 0x769284214a6c03);
  (0xadedea36d0161c5, 0x1d5e3d14520af4, 0x2be3b2d5ddea60e4, 0x769284214a6c03);
  (0x217badf0d6c1b31, 0x1c44ad444fcac1, 0x8c723c45f954694, 0x769284214a6c03);
  (0xadedea36d0161c5, 0x496b98b2cd1b62, 0x118e4788bf2a8d28, 0x769284214a6c03);
  (0xadedea36d0161c5, 0x24b5cc59668db1, 0x231c8f117e551a50, 0x769284214a6c03);
  (0x3d9286cba238fb5, 0x40fa799db65872, 0x705b636b2ddd210, 0x769284214a6c03);
  (0x3d9286cba238fb5, 0x207d3ccedb2c39, 0xe0b6c6d65bba420, 0x769284214a6c03);
  (0x1996e5b39426533f, 0x6c051d46edf857, 0x11e494da1fdf33d5, 0x4b87e07812cc1e);
  (0x51e2df0b73add73, 0x6c051d46edf857, 0x28a0b07fa2e9b7c, 0x35980a83941391);
  (0xa3c5be16e75bae6, 0x6c051d46edf857, 0x7a838f8b16978ef, 0x50ce93e54105f4);
  (0x1478b7c2dceb75cc, 0x6c051d46edf857, 0x7a838f8b16978ef, 0x286749f2a082fa);
  (0x28f16f85b9d6eb98, 0x6c051d46edf857, 0x7a838f8b16978ef, 0x1433a4f950417d);
  (0x8c8803e03e8bc79, 0x73dd09ef107a72, 0x1880b64f0484b63, 0x1433a4f950417d);
  (0x11f8c49ba59a80cb, 0x768973e37901b0, 0x31016c9e09096c6, 0x1433a4f950417d);
  (0x24594d56e8fe096f, 0x77dfa8ddad454f, 0x6202d93c1212d8c, 0x1433a4f950417d);
  (0x25e849b2db1dd73, 0x271114f86c3f5b, 0x6202d93c1212d8c, 0x650238de914771);
  (0x87eb22eeed30aff, 0x4609a6eb7ec366, 0xc405b2782425b18, 0x650238de914771);
  (0x87eb22eeed30aff, 0x2304d375bf61b3, 0x1880b64f0484b630, 0x650238de914771);
  (0x57d5e34df46caeb, 0x7126fd6697e069, 0x180a9fd07c6200a, 0x1ef891f312840b);
  (0x6fe0831e70ceaf5, 0x480fc7acd5323a, 0x9ff5c2bf6992b09, 0x6708599fe7b645);
  (0x6fe0831e70ceaf5, 0x2407e3d66a991d, 0x13feb857ed325612, 0x6708599fe7b645);
  (0x1afcc089d43f4107, 0x45881ebb2927b1, 0x27fd70afda64ac24, 0x6708599fe7b645);
  (0x2fe49b9eacfa68b, 0x268f8cc816a3a6, 0x7ff7ceff87a88d4, 0x6708599fe7b645);
  (0x12fd4399dbc4b833, 0x7a502003f30818, 0xffef9dff0f511a8, 0x6708599fe7b645);
  (0x12fd4399dbc4b833, 0x3d281001f9840c, 0x1ffdf3bfe1ea2350, 0x6708599fe7b645);
  (0x13283e3f786429e, 0x1347c6640b51d3, 0x7041cb230861e07, 0x70fa90216e61fe);
  (0x26507c7ef0c853c, 0x1347c6640b51d3, 0xe333409fdabadbb, 0x72549b3cd92678);
  (0x12fd4399dbc4b833, 0x4c72140277e50f, 0xe333409fdabadbb, 0x392a4d9e6c933c);
  (0x4ca0f8fde190a78, 0x6066dff438991f, 0x2d70a6865ef22bf, 0x392a4d9e6c933c);
  (0xc6b2988222137af, 0x7cfc06c36ee2bd, 0x2d70a6865ef22bf, 0x1c9526cf36499e);
  (0x18d6531044426f5e, 0x7cfc06c36ee2bd, 0x2d70a6865ef22bf, 0xe4a93679b24cf);
  (0x46641bb2c770f53, 0x6eb1735bd3bdee, 0x2d70a6865ef22bf, 0x4774e10607b80b);
  (0xa14568bf85554d1, 0x7ecd9ab3f19702, 0x5ae14d0cbde457e, 0x4774e10607b80b);
  (0xa14568bf85554d1, 0x3f66cd59f8cb81, 0xb5c29a197bc8afc, 0x4774e10607b80b);
  (0x1428ad17f0aaa9a2, 0x3f66cd59f8cb81, 0x1570802d9011dfcd, 0x436dd7300041c6);
  (0x74b9363009ff027, 0x72b87d31db3433, 0x449b33c50039329, 0x436dd7300041c6);
  (0xe9726c6013fe04e, 0x72b87d31db3433, 0x449b33c50039329, 0x21b6eb980020e3);
  (0x1b74407af14a99c9, 0x6bee9ffcedcb6e, 0x8936678a0072652, 0x21b6eb980020e3);
  (0x20f7d81f03f42a1, 0x2880c8cced89a8, 0x4746b74bf88a110, 0x5791085e25911f);
  (0x20f7d81f03f42a1, 0x1440646676c4d4, 0xaf8546b6f5084c1, 0x6bd16cc49c55f3);
  (0x20f7d81f03f42a1, 0xa2032333b626a, 0x18002658cee04c23, 0x75f19ef7d7b85d);
  (0x20f7d81f03f42a1, 0x32a0fb0028ec12, 0x46354f7c620351a, 0x6bd16cc49c55f3);
  (0x20f7d81f03f42a1, 0x19507d80147609, 0x8c6a9ef8c406a34, 0x6bd16cc49c55f3);
  (0xef522755cfe3217, 0x5be172a26cdc07, 0xad627717c7facd5, 0x4290f5225865fe);
  (0x1dea44eab9fc642e, 0x5be172a26cdc07, 0x28c06c5c367c1103, 0x7d29ed33990f06);
  (0x576d0b3661859f9, 0x53e97591551f11, 0x8267c12714c0367, 0x7d29ed33990f06);
  (0xaeda166cc30b3f2, 0x53e97591551f11, 0x8267c12714c0367, 0x3e94f699cc8783);
  (0x13141d793d7cb759, 0x493f361590d34a, 0x104cf824e29806ce, 0x3e94f699cc8783);
  (0x8e3aaa7894234f, 0xaaa3f7bc44bc7, 0x64cd828682d8b40, 0x78f05a4d315191);
  (0x11c7554f128469e, 0xaaa3f7bc44bc7, 0xc695d7b968b0fa5, 0x77208a4f50498f);
  (0x11f7a8244c5470bb, 0x5639e3dd12e239, 0xfbebd7a6a03e37f, 0x4b8fa4614e9672);
  (0x409b6f6095432cb, 0x60e42358d72e00, 0x1d0cc4c2703a58f, 0x2b90e5ee01b31d);
  (0x409b6f6095432cb, 0x307211ac6b9700, 0x7ab4f8e575b7de9, 0x5c02f79a6d4a1d);
  (0x409b6f6095432cb, 0x183908d635cb80, 0x13605612b80b2e9d, 0x743c0070a3159d);
  (0x409b6f6095432cb, 0xc1c846b1ae5c0, 0x26c0ac2570165d3a, 0x743c0070a3159d);
  (0x409b6f6095432cb, 0x3c8e9617867cc0, 0x622a60b7915fe54, 0x5c02f79a6d4a1d);
  (0x409b6f6095432cb, 0x1e474b0bc33e60, 0x104f030cfb802f73, 0x7a4a42a630887d);
  (0x409b6f6095432cb, 0xf23a585e19f30, 0x209e0619f7005ee6, 0x7a4a42a630887d);
  (0x409b6f6095432cb, 0x4bb23b9d681bf0, 0x5b743072f88d59f, 0x6b269d204ee94d);
  (0x409b6f6095432cb, 0x25d91dceb40df8, 0xb6e860e5f11ab3e, 0x6b269d204ee94d);
  (0x409b6f6095432cb, 0x12ec8ee75a06fc, 0x1ae6c312c7778947, 0x7e132c07a8f049);
  (0x409b6f6095432cb, 0x5e9eca84c222ec, 0x5615a36f4b181db, 0x7e132c07a8f049);
  (0x409b6f6095432cb, 0x2f4f6542611176, 0xac2b46de96303b6, 0x7e132c07a8f049);
  (0x409b6f6095432cb, 0x17a7b2a13088bb, 0x158568dbd2c6076c, 0x7e132c07a8f049);
  (0x8136dec12a86596, 0x17a7b2a13088bb, 0x29b5fbaa016b0563, 0x7a2cd496cdcdf8);
  (0x8136dec12a86596, 0x76467d25f2aba7, 0x85798bb99e23447, 0x7a2cd496cdcdf8);
  (0x1026dbd82550cb2c, 0x76467d25f2aba7, 0x85798bb99e23447, 0x3d166a4b66e6fc);
  (0x204db7b04aa19658, 0x76467d25f2aba7, 0x85798bb99e23447, 0x1e8b3525b3737e);
  (0x4cad2fdbcf3139d, 0x57bb48003f3829, 0x38cc5bddcef20aa, 0x40fcc1bc42094d);
  (0x995a5fb79e6273a, 0x57bb48003f3829, 0x85798bb99e23447, 0x4c5c04de40a0bb);
  (0x11ed3eb713c85b81, 0x520ba66f3fec72, 0x10af317733c4688e, 0x4c5c04de40a0bb);
  (0x41511d7c3f6737b, 0x5d6ae9913e83e0, 0x2d70497e3f28088, 0x40fcc1bc42094d);
  (0x41511d7c3f6737b, 0x2eb574c89f41f0, 0x9c31b078bdb748b, 0x6fb23684e14b3d);
  (0x41511d7c3f6737b, 0x175aba644fa0f8, 0x1386360f17b6e916, 0x6fb23684e14b3d);
  (0x41511d7c3f6737b, 0xbad5d3227d07c, 0x2b217df5f36445a7, 0x7b5f93b7091bb9);
  (0x41511d7c3f6737b, 0x3a62d1fac7126c, 0x8a04c6463e0dabb, 0x7b5f93b7091bb9);
  (0x41511d7c3f6737b, 0x1d3168fd638936, 0x114098c8c7c1b576, 0x7b5f93b7091bb9);
  (0x41511d7c3f6737b, 0xe98b47eb1c49b, 0x228131918f836aec, 0x7b5f93b7091bb9);
  (0x41511d7c3f6737b, 0x48fb867978d707, 0x47398ceda53367f, 0x4f95763af3cde8);
  (0xc9dbc7e62401d75, 0x70c64196f2bdfb, 0x47398ceda53367f, 0x27cabb1d79e6f4);
  (0x193b78fcc4803aea, 0x70c64196f2bdfb, 0x47398ceda53367f, 0x13e55d8ebcf37a);
  (0x26022e9a44e1e49, 0x351628eabbe38d, 0x47398ceda53367f, 0x637ad3c9b0c162);
  (0x933dea222ef7311, 0x66d392cf94443e, 0x47398ceda53367f, 0x31bd69e4d860b1);
  (0x933dea222ef7311, 0x3369c967ca221f, 0x121b103fd795e00f, 0x6527334ca282d0);
  (0x2482cd841d74c631, 0x65fd630e1b6387, 0x121b103fd795e00f, 0x329399a6514168);
  (0x74d5c4d9f7dc13d, 0x65fd630e1b6387, 0x38057a4989a5d95, 0x30e73a235f7ffa);
  (0xe9ab89b3efb827a, 0x65fd630e1b6387, 0x121b103fd795e00f, 0x7e71001fcb2384);
  (0x1d3571367df704f4, 0x65fd630e1b6387, 0x121b103fd795e00f, 0x3f38800fe591c2);
  (0x6e6c49788db1aff, 0x787d97c1fdd8e2, 0x166897509d758a2, 0x18739d11afbffd);
  (0xc80ea6bb0387d87, 0x6d2606045e6c6b, 0x2cd12ea13aeb144, 0x18739d11afbffd);
  (0xf4dfd55c3e72ecb, 0x42ccd18b071634, 0x14e82329eb449153, 0x5b406e9cb6d631);
  (0x30f9911272e3c8f, 0x42ccd18b071634, 0x59a25d4275d6288, 0x7a4211586ebff1);
  (0x30f9911272e3c8f, 0x216668c5838b1a, 0xb344ba84ebac510, 0x7a4211586ebff1);
  (0x30f9911272e3c8f, 0x10b33462c1c58d, 0x166897509d758a20, 0x7a4211586ebff1);
  (0x61f32224e5c791e, 0x10b33462c1c58d, 0x2bd5c6c8afb93209, 0x77944005dd9366);
  (0x61f32224e5c791e, 0x538005edc8dbc1, 0x3de993fe474a91d, 0x34c76e7ad67d32);
  (0xc3e64449cb8f23c, 0x538005edc8dbc1, 0x101cfd84812d9b59, 0x6de3bd2b341a5a);
  (0x187cc8893971e478, 0x538005edc8dbc1, 0x101cfd84812d9b59, 0x36f1de959a0d2d);
  (0x2084e763123161, 0x22a701ac38ffb, 0x77c28b102c4ef78, 0x7f9db3fd911907);
  (0x81ec135f21fe65d, 0x4538f241b17477, 0x7ddb7672bfb839b, 0x430e8226ede47c);
  (0x103d826be43fccba, 0x4538f241b17477, 0x181b39d3103b5055, 0x66c033552866b5);
  (0x33f807bfa7328f2, 0x4538f241b17477, 0x49e36eb31885aa9, 0x626b531fa146bf);
  (0x67f00f7f4e651e4, 0x4538f241b17477, 0x7ddb7672bfb839b, 0x53d222b0a95d9b);
  (0xcfe01efe9cca3c8, 0x4538f241b17477, 0xe5cb85f20e1d57f, 0x4c858a792d6909);
  (0x19fc03dfd3994790, 0x4538f241b17477, 0x1b5aba4f0aae7947, 0x48df3e5d6f6ec0);
  (0x4a61e337aafc73a, 0x3dec5a0a357fe5, 0x604d4a2b1c4f8f1, 0x502bd694eb6352);
  (0xf511109a7248765, 0x66024554ab318e, 0x604d4a2b1c4f8f1, 0x2815eb4a75b1a9);
  (0xf511109a7248765, 0x330122aa5598c7, 0x1b5aba4f0aae7947, 0x5b170df4cb4a70);
  (0x3b818292ef305c8, 0x3dec5a0a357fe5, 0x428c88e1a4b760d, 0x45409f350b7c34);
  (0x77030525de60b90, 0x3dec5a0a357fe5, 0xb98f8e07831819d, 0x608ca9a4bb3dff);
  (0x13092932d6178d2d, 0x4f3c81d7785ef2, 0x1731f1c0f063033a, 0x608ca9a4bb3dff);
  (0x51e64f245dc24d7, 0x6a888c472820bd, 0x4a396c03013cd72, 0x608ca9a4bb3dff);
  (0x9c1fbb275eff249, 0x658a9af5f1af5e, 0x9472d8060279ae4, 0x608ca9a4bb3dff);
  (0x9c1fbb275eff249, 0x32c54d7af8d7af, 0x128e5b00c04f35c8, 0x608ca9a4bb3dff);
  (0x1c5056b3363f2811, 0x49a8fb8fda0ad7, 0x251cb601809e6b90, 0x608ca9a4bb3dff);
  (0x60be97f1c468121, 0x4ea6ece1107c36, 0x76c2466b352e250, 0x608ca9a4bb3dff);
  (0x60be97f1c468121, 0x27537670883e1b, 0xed848cd66a5c4a0, 0x608ca9a4bb3dff);
  (0x14e4324c82ec45c1, 0x43f0100aa1be0d, 0x1db0919acd4b8940, 0x608ca9a4bb3dff);
  (0x313daefa1588d01, 0x320a5346f6fc44, 0x5f01d1ef5dbe840, 0x608ca9a4bb3dff);
  (0xef4152d8d105d81, 0x7991d34836bc21, 0xbe03a3debb7d080, 0x608ca9a4bb3dff);
  (0x1ad44f6b78c82e01, 0x6d0f3e7678fd10, 0x17c0747bd76fa100, 0x608ca9a4bb3dff);
  (0x9d922fed11b5cd, 0xc8294d1bdbf11, 0x5e6e50dfc6e08c7, 0x77f4747529910e);
  (0x13b245fda236b9a, 0xc8294d1bdbf11, 0xc0e9aed3f1f22c9, 0x7a8722534983dc);
  (0x27648bfb446d734, 0xc8294d1bdbf11, 0x185e06abc48156cd, 0x7bd07942597d43);
  (0x7e0e8cbda7c4a4, 0xc8294d1bdbf11, 0x4abc0ae224a9d2d, 0x76ab1d861997a7);
  (0xfc1d197b4f8948, 0xc8294d1bdbf11, 0x91a43a0cd3086f1, 0x73a12c72e2a7a0);
  (0x1f83a32f69f1290, 0xc8294d1bdbf11, 0x12f3669f9e4be3c1, 0x785d7e52260f25);
  (0x18dc153882291b71, 0x4ef29e63afa62c, 0x14eba0d294eaf651, 0x42700991f1e71b);
  (0x5c281ec7cae401d, 0x5b7533356d653d, 0x7948f730c1e5b1a, 0x785d7e52260f25);
  (0xb8503d8f95c803a, 0x5b7533356d653d, 0xd57115f88cc9b37, 0x69e958c3c9ba31);
  (0x18dc153882291b71, 0x62af45fc9b8fb7, 0x1aae22bf1199366e, 0x69e958c3c9ba31);
  (0x49b9b2396f1cce4, 0x5b7533356d653d, 0x66da8aa2661e7e1, 0x7f97911954399f);
  (0x93736472de399c8, 0x5b7533356d653d, 0xb0943cdbd53b4c5, 0x6d86622760cf6e);
  (0x126e6c8e5bc73390, 0x5b7533356d653d, 0xb0943cdbd53b4c5, 0x36c33113b067b7);
  (0x23ad7b0d2ce27ec, 0x3752d5518690db, 0x2ef795ef8d72ef3, 0x48d46005a3d1e8);
  (0x76528c09e737ecb, 0x5bbd05545879cf, 0x2ef795ef8d72ef3, 0x246a3002d1e8f4);
  (0x11b9cae035be2c89, 0x6df21d55c16e49, 0x2ef795ef8d72ef3, 0x1235180168f47a);
  (0x26630f1f64538805, 0x770ca95675e886, 0x2ef795ef8d72ef3, 0x91a8c00b47a3d);
  (0x5543b8719caf5a5, 0x52a27953a3ff92, 0x2ef795ef8d72ef3, 0x2d84bc03866331);
  (0xb332e450b79538b, 0x56d5f8ad5862fa, 0x5def2bdf1ae5de6, 0x2d84bc03866331);
  (0xb332e450b79538b, 0x2b6afc56ac317d, 0x16f113c0eed60f57, 0x58efb85a3294ae);
  (0x221b1693d846242, 0x29513ca9d1ffc9, 0x4ce1a0952ec2cc5, 0x5d2337b3e6f816);
  (0x44362d27b08c484, 0x29513ca9d1ffc9, 0x9117cdbcdf4f149, 0x57e2d883c57bd4);
  (0x11984280c4067a51, 0x5542a8ebb4bdb3, 0x9117cdbcdf4f149, 0x2bf16c41e2bdea);
  (0x198cfaf9fa2d35b, 0x26b10d11c141a8, 0x3bc569617290ef7, 0x5a83081bd639f5);
  (0x198cfaf9fa2d35b, 0x13588688e0a0d4, 0x9117cdbcdf4f149, 0x6ddb8ea4b6dac9);
  (0x13bbc9673b8cb5ed, 0x7787d1e9272b33, 0x1222f9b79be9e292, 0x6ddb8ea4b6dac9);
  (0x277792ce77196bda, 0x7787d1e9272b33, 0x25dec31ed776987f, 0x72b1b046ef02fe);
  (0x198cfaf9fa2d35b, 0x182ea82b18c909, 0x6ef6d8cb809c9f5, 0x69056d027eb294);
  (0xa210cebf74f70ab, 0x4cb15eac582253, 0x6ef6d8cb809c9f5, 0x3482b6813f594a);
  (0x1b318764a6a8ab4b, 0x66f2b9ecf7cef8, 0x6ef6d8cb809c9f5, 0x1a415b409faca5);
  (0x2aa2275715104ad, 0x3270036bb875ae, 0x4454b1746b8c548, 0x50d6c4d765e98b);
  (0x2aa2275715104ad, 0x193801b5dc3ad7, 0xb34b8a3fec28f3d, 0x6a0ec68d422462);
  (0x15dd4279c406a1f1, 0x677766b25987df, 0x1088fd8ee1649897, 0x4e3f64fc7d4d08);
  (0x55444eae2a2095a, 0x7e18088d4d2633, 0x34e991c937a84eb, 0x4e3f64fc7d4d08);
  (0xaa889d5c54412b4, 0x7e18088d4d2633, 0x34e991c937a84eb, 0x271fb27e3ea684);
  (0x155113ab8a882568, 0x7e18088d4d2633, 0x34e991c937a84eb, 0x138fd93f1f5342);
  (0x2aa2275715104ad0, 0x7e18088d4d2633, 0x34e991c937a84eb, 0x9c7ec9f8fa9a1);
  (0x68adf3378868c03, 0x60c042ae9e2950, 0x34e991c937a84eb, 0x30e79f1dce5025);
  (0xd28116c9f7b95d9, 0x6147c0751d64cd, 0x69d323926f509d6, 0x30e79f1dce5025);
  (0x20ffa818145ab35b, 0x79ff4ee7442a9e, 0xd3a64724dea13ac, 0x30e79f1dce5025);
  (0x14ef970b1b48267, 0x183010aba78a54, 0x6af853ed56387a9, 0x7b95c83ac1dd15);
  (0x14ef970b1b48267, 0xc180855d3c52a, 0xd5f0a7daac70f52, 0x7b95c83ac1dd15);
  (0x14ef970b1b48267, 0x60c042ae9e295, 0x1abe14fb558e1ea4, 0x7b95c83ac1dd15);
  (0x42feb0238a807b, 0x60c042ae9e295, 0x548808ff330f73e, 0x7a139366debdaf);
  (0x85fd60471500f6, 0x60c042ae9e295, 0xac76502dd8d8155, 0x7c87f5760729f4);
  (0x10bfac08e2a01ec, 0x60c042ae9e295, 0x153f30886b31948d, 0x7abc2468266ecc);
  (0x217f5811c5403d8, 0x60c042ae9e295, 0x2c46bd14a2cdbed5, 0x7fe2400c1ff3cd);
  (0x6b3119d27733f8, 0x60c042ae9e295, 0x8af6f81c1397d7d, 0x7d6dddfcf78788);
  (0xd66233a4ee67f0, 0x60c042ae9e295, 0x110f458632898cdd, 0x7b2f18ab9e9d96);
  (0x1acc46749dccfe0, 0x60c042ae9e295, 0x21cef18f1529ab9d, 0x7a0fb602f2289d);
  (0x1acc46749dccfe0, 0x1e3c14d6916ce9, 0x5c1ba783e50a599, 0x67eba9823480de);
  (0xc74cc1565c3e519, 0x706dfe6e3d1a41, 0x91b4346d20a4559, 0x5231e997abad58);
  (0x18e9982acb87ca32, 0x706dfe6e3d1a41, 0x91b4346d20a4559, 0x2918f4cbd5d6ac);
  (0x329442d984c4dc5, 0x475509a2674395, 0x2c8baeba171a9cf, 0x3ed2b4b65eaa32);
  (0x652885b30989b8a, 0x475509a2674395, 0x91b4346d20a4559, 0x66be63fd9698ae);
  (0x15c053fd333b7c6d, 0x7ab43ba1328fec, 0x91b4346d20a4559, 0x335f31fecb4c57);
  (0x15c053fd333b7c6d, 0x3d5a1dd09947f6, 0x27f6da8ad750071f, 0x70b94fcf64944d);
  (0xb529164fd496bf, 0x9faebd1cdfb9f, 0x903706b9648e2ff, 0x7f1e005282b6a0);
  (0x16a522c9fa92d7e, 0x9faebd1cdfb9f, 0x11815d77543ff3f3, 0x7b70871415410a);
  (0x172aa629d2e4a9eb, 0x51ae1b2da697c3, 0x145601d093924eef, 0x47b32f5bd89c24);
  (0x6e5d7e95cd6045f, 0x7999ca74de863f, 0x41133901d83a963, 0x47b32f5bd89c24);
  (0xdcbafd2b9ac08be, 0x7999ca74de863f, 0x41133901d83a963, 0x23d997adec4e12);
  (0x1b975fa57358117c, 0x7999ca74de863f, 0x41133901d83a963, 0x11eccbd6f62709);
  (0x313f431055c3777, 0x43d366effc1124, 0x41133901d83a963, 0x599ffb32cec32d);
  (0xb365b5140638a3d, 0x7b89aeaacccbbf, 0x82267203b0752c6, 0x599ffb32cec32d);
  (0x1358c2717b6add03, 0x6a94d4eecdc776, 0x1044ce40760ea58c, 0x599ffb32cec32d);
  (0x1358c2717b6add03, 0x354a6a7766e3bb, 0x20899c80ec1d4b18, 0x599ffb32cec32d);
  (0x8cb4731ee0f51bf, 0x791dd16762f4df, 0x2a35ecfe356e2d1, 0x245590bb67df72);
  (0x11968e63dc1ea37e, 0x791dd16762f4df, 0x2a35ecfe356e2d1, 0x122ac85db3efb9);
  (0x240e2613137ed735, 0x7c24a5fba74177, 0x546bd9fc6adc5a2, 0x122ac85db3efb9);
  (0x736079d6a4c9171, 0x7c24a5fba74177, 0x546bd9fc6adc5a2, 0x5ad5e9d483ae9d);
  (0xe6c0f3ad49922e2, 0x7c24a5fba74177, 0xc7cc53d30fa5713, 0x6b7d47e815780a);
  (0x1cd81e75a93245c4, 0x7c24a5fba74177, 0xc7cc53d30fa5713, 0x35bea3f40abc05);
  (0x5c4d2e4550a0df4, 0x7c24a5fba74177, 0xf31f7486e63b2b, 0x146fe7cce7292b);
  (0xb89a5c8aa141be8, 0x7c24a5fba74177, 0x6b7f258dbf0491f, 0x484a46e4473551);
  (0x1241982186046507, 0x6237766ff73b64, 0xd6fe4b1b7e0923e, 0x484a46e4473551);
  (0x1241982186046507, 0x311bbb37fb9db2, 0x2d216184f5c58983, 0x7966021c42d303);
  (0x1ed7af985a7edea, 0x19ed2f8bb00613, 0x89e3141e9bcbf75, 0x73e8ba5d79f61b);
  (0x1241982186046507, 0x7ac5540bf50a3d, 0xe66a22e7ab48933, 0x60d8248045042a);
  (0x248330430c08ca0e, 0x7ac5540bf50a3d, 0xe66a22e7ab48933, 0x306c1240228215);
  (0x18ac8c79e1ff188, 0x19ed2f8bb00613, 0x6b0b6486414d18b, 0x707a6d863c6c0a);
  (0x315918f3c3fe310, 0x19ed2f8bb00613, 0xcdbd966dc9497ab, 0x6c1795da7e422b);
  (0x161c8e14915440db, 0x5cef923ec72a32, 0xff16af618d47abb, 0x430262b317241f);
  (0x5a7f03d685d9aff, 0x76dcc1ca773045, 0x524bd5c583b6fde, 0x6c1795da7e422b);
  (0xaccad99c0990add, 0x717a2bd27ab938, 0xa497ab8b076dfbc, 0x6c1795da7e422b);
  (0xaccad99c0990add, 0x38bd15e93d5c9c, 0x1492f57160edbf78, 0x6c1795da7e422b);
  (0xaccad99c0990add, 0x1c5e8af49eae4e, 0x2925eae2c1db7ef0, 0x6c1795da7e422b);
  (0x4bad48b26bef3a6, 0x3e1fabe139d3a9, 0x611d90e99da1737, 0x4fb90ae5df93dd);
  (0xaccad99c0990add, 0x46ec5b638cb3c3, 0xc23b21d33b42e6e, 0x4fb90ae5df93dd);
  (0x15995b33813215ba, 0x46ec5b638cb3c3, 0x16f05fb6f44d394b, 0x4b52b324b623d0);
  (0x7a9f90fa0e4a3d6, 0x7dd3f5b554c02b, 0x449a80b09f071d, 0x46657c129700d);
  (0xf6f79a3a2e8721f, 0x7eb5f34b8338d2, 0x893501613e0e3a, 0x46657c129700d);
  (0x15ddf5b431d11cd7, 0x59c1082cba3cb7, 0x16f05fb6f44d394b, 0x5e275fede3acc4);
  (0x3f1d38955c4fa63, 0x50f458aa675c9d, 0x5043d8c184116d7, 0x66f40f70368cde);
  (0x7e3a712ab89f4c6, 0x50f458aa675c9d, 0x5043d8c184116d7, 0x337a07b81b466f);
  (0xce7e49ec3cb0b9d, 0x42373031415186, 0x16f05fb6f44d394b, 0x75b137e95c97f5)].
Definition ryu_float : list (Z * Z * Z * Z) := [
  (0x399ed29, 0x10729d9, 0xc10e855, 0x371ba2c);
  (0x733da52, 0x10729d9, 0x1a789cf9, 0x3c730c8);
  (0x4ca1241, 0x36af427, 0x269c811, 0x1b8dd16);
  (0x9942482, 0x36af427, 0x269c811, 0xdc6e8b);
  (0xbfdec93, 0x223b159, 0x10d17cb5, 0x3001fe4);
  (0x1e6a1c0, 0x1b21711, 0x35d18f1, 0x3001fe4);
  (0x72a5c71, 0x3322703, 0x35d18f1, 0x1800ff2);
  (0x11b1d1d3, 0x3f22efc, 0x35d18f1, 0xc007f9);
  (0x1f263597, 0x3792770, 0x6ba31e2, 0xc007f9);
  (0xd91603, 0x79078c, 0x6ba31e2, 0x3c027dd);
  (0xe4d79c7, 0x3fcaba3, 0xd7463c4, 0x3c027dd);
  (0x1bc1dd8b, 0x3de69c0, 0x1ae8c788, 0x3c027dd);
  (0x58d2c4f, 0x3de69c0, 0x4b4164c, 0x3472051);
  (0x58d2c4f, 0x1ef34e0, 0x9682c98, 0x3472051);
  (0x58d2c4f, 0xf79a70, 0x12d05930, 0x3472051);
  (0x4025f65, 0x37e18bf, 0x18accea, 0x157eb71);
  (0x58d2c4f, 0x26b0218, 0x8a2c623, 0x3c2ed89);
  (0x58d2c4f, 0x135810c, 0x11458c46, 0x3c2ed89);
  (0x58d2c4f, 0x9ac086, 0x228b188c, 0x3c2ed89);
  (0x58d2c4f, 0x305c29e, 0x393ea53, 0x1f2abf7);
  (0x58d2c4f, 0x182e14f, 0xcb500f5, 0x3758d46);
  (0xb1a589e, 0x182e14f, 0x17cf5993, 0x33da7f2);
  (0x5a61c43, 0x3d82bf7, 0x5221ab, 0x37e554);
  (0xb9e5a31, 0x3f41ea1, 0x5221ab, 0x1bf2aa);
  (0x173cb462, 0x3f41ea1, 0x5221ab, 0xdf955);
  (0x495508b, 0x3e6254c, 0x5221ab, 0x45dea9);
  (0x86ee48f, 0x3964a9c, 0x91327e5, 0x3dc2945);
  (0x86ee48f, 0x1cb254e, 0x12264fca, 0x3dc2945);
  (0x86ee48f, 0xe592a7, 0x244c9f94, 0x3dc2945);
  (0x2dc258e, 0x18546a5, 0x592bf01, 0x2f6969e);
  (0xb4b0a1d, 0x30091f4, 0x592bf01, 0x17b4b4f);
  (0x1670881f, 0x2fb9449, 0xb257e02, 0x17b4b4f);
  (0x2423539, 0x18048fa, 0x45ede57, 0x2e79d9d);
  (0x2423539, 0xc0247d, 0xafff1e7, 0x3a7c21a);
  (0x4846a72, 0xc0247d, 0x1408c6cb, 0x3542a07);
  (0x4846a72, 0x3c0b671, 0x649f67, 0x539813);
  (0x908d4e4, 0x3c0b671, 0x4e909d9, 0x20a2742);
  (0x1211a9c8, 0x3c0b671, 0x4e909d9, 0x10513a1);
  (0x20ccc753, 0x367f8aa, 0x9d213b2, 0x10513a1);
  (0xaae8d9, 0x58bdc7, 0x726704e, 0x3b66b09);
  (0xa7cfc8b, 0x2b90ff6, 0x9272ad9, 0x260522f);
  (0xa7cfc8b, 0x15c87fb, 0x1ccb523d, 0x3bcda2a);
  (0x218ff4f, 0x15c87fb, 0x5b859d8, 0x3b66b09);
  (0x431fe9e, 0x15c87fb, 0xc0357c5, 0x3e6017d);
  (0x863fd3c, 0x15c87fb, 0x1899539f, 0x3fdccb7);
  (0x1ad990c, 0x15c87fb, 0x476270f, 0x39e9fcf);
  (0x35b3218, 0x15c87fb, 0x97ef233, 0x3da1be0);
  (0x6b66430, 0x15c87fb, 0x10355663, 0x34995eb);
  (0xd6cc860, 0x15c87fb, 0x245882f3, 0x3af96ee);
  (0x441b0f2, 0x2288a01, 0x4958bb7, 0x2530ef3);
  (0x8d73ca9, 0x23dcc7a, 0x92b176e, 0x2530ef3);
  (0x8d73ca9, 0x11ee63d, 0x1b2d6b85, 0x371f530);
  (0x52c667d, 0x347703e, 0x3aad62c, 0x2530ef3);
  (0xc8212d5, 0x3f6c712, 0x755ac58, 0x2530ef3);
  (0xc8212d5, 0x1fb6389, 0xeab58b0, 0x2530ef3);
  (0x4922cc3, 0x39f1ba8, 0x35db94f, 0x2aaba5d);
  (0x4922cc3, 0x1cf8dd4, 0x6bb729e, 0x2aaba5d);
  (0x4922cc3, 0xe7c6ea, 0x120911ff, 0x3928147);
  (0x1e0cbb7, 0x1dc2835, 0x2b1610c, 0x2aaba5d);
  (0x4922cc3, 0x2437149, 0x562c218, 0x2aaba5d);
  (0x9245986, 0x2437149, 0x9f4eedb, 0x27715d3);
  (0x13194861, 0x25d438e, 0x13e9ddb6, 0x27715d3);
  (0x32afd69, 0x1f5fa7a, 0x3fb92be, 0x27715d3);
  (0xb2222e5, 0x3721310, 0x7f7257c, 0x27715d3);
  (0xb2222e5, 0x1b90988, 0xfee4af8, 0x27715d3);
  (0x4c2d1b5, 0x3af0402, 0x32fa898, 0x27715d3);
  (0x4c2d1b5, 0x1d78201, 0x65f5130, 0x27715d3);
  (0xb2222e5, 0x2274bea, 0xcbea260, 0x27715d3);
  (0x37c8e45, 0x35f3a19, 0x28c86e0, 0x27715d3);
  (0x6091525, 0x2eb27f6, 0x5190dc0, 0x27715d3);
  (0x103b30a5, 0x3eca9ce, 0xa321b80, 0x27715d3);
  (0x103b30a5, 0x1f654e7, 0x14643700, 0x27715d3);
  (0x3ff0fa5, 0x26a670a, 0x4140b00, 0x27715d3);
  (0xc2725a5, 0x3ac4958, 0x8281600, 0x27715d3);
  (0xc2725a5, 0x1d624ac, 0x10502c00, 0x27715d3);
  (0x25d71a5, 0x1c975e3, 0x3433c00, 0x27715d3);
  (0x5a0ada5, 0x22045db, 0x6867800, 0x27715d3);
  (0xc2725a5, 0x24badd7, 0xd0cf000, 0x27715d3);
  (0x1b665a5, 0x19e0de7, 0x29c3000, 0x27715d3);
  (0x45295a5, 0x20a91dd, 0x5386000, 0x27715d3);
  (0x98af5a5, 0x240d3d8, 0xa70c000, 0x27715d3);
  (0x1e6c75a5, 0x3977fbf, 0x14e18000, 0x27715d3);
  (0x615b121, 0x3977fbf, 0x2a06c9d, 0x18cede2);
  (0xc2b6242, 0x3977fbf, 0x2a06c9d, 0xc676f1);
  (0x1856c484, 0x3977fbf, 0xecbcedf, 0x22efb58);
  (0x2c436d0, 0x20a91dd, 0x4028805, 0x2f57249);
  (0x6c6bed5, 0x2800213, 0x805100a, 0x2f57249);
  (0xd8d7daa, 0x2800213, 0xecbcedf, 0x2baba2e);
  (0x2369240, 0x20a91dd, 0x374e375, 0x3302a64);
  (0x7e207f5, 0x3a2a70f, 0x374e375, 0x1981532);
  (0xfc40fea, 0x3a2a70f, 0x374e375, 0xcc0a99);
  (0x1338f35f, 0x23758d4, 0x1a22ba49, 0x303636d);
  (0x64e6cc4, 0x3a2a70f, 0x69c19d7, 0x3cf6e06);
  (0xc9cd988, 0x3a2a70f, 0x69c19d7, 0x1e7b703);
  (0x1338f35f, 0x2c52f09, 0xd3833ae, 0x1e7b703);
  (0x48f4218, 0x3491921, 0x1717d99, 0x10a3efd);
  (0x8e3bae3, 0x333eb0c, 0x2e2fb32, 0x10a3efd);
  (0x8e3bae3, 0x199f586, 0xea9b147, 0x2a43483);
  (0x9f8db3, 0x8fb689, 0x3e74d4b, 0x3841756);
  (0x13f1b66, 0x8fb689, 0x7a49f7d, 0x3712f46);
  (0xa22d649, 0x2484e2c, 0x7a49f7d, 0x1b897a3);
  (0x196c1543, 0x2dcbeb9, 0xf493efa, 0x1b897a3);
  (0x7143017, 0x3fc2bcb, 0x30ea632, 0x1b897a3);
  (0xa22d649, 0x2da61b7, 0x61d4c64, 0x1b897a3);
  (0x104022ad, 0x2497cad, 0xc3a98c8, 0x1b897a3);
  (0xcde861, 0x90e50a, 0x4fd6d5f, 0x382e8d5);
  (0xcde861, 0x487285, 0xac8c31f, 0x3cb5b5a);
  (0x19bd0c2, 0x487285, 0x160b786d, 0x3e0cf50);
  (0x19bd0c2, 0x16a3c99, 0x31f3de1, 0x2bf053c);
  (0x656df65, 0x2c9bf37, 0x31f3de1, 0x15f829e);
  (0xcadbeca, 0x2c9bf37, 0xfccfcab, 0x3798086);
  (0x195b7d94, 0x2c9bf37, 0xfccfcab, 0x1bcc043);
  (0x70f1c35, 0x3e17826, 0x13fb25a, 0xafc14f);
  (0xe8d4a51, 0x4000000, 0x27f64b4, 0xafc14f);
  (0xe8d4a51, 0x2000000, 0x138c13b9, 0x2afc14f);
  (0x2e90edd, 0x2000000, 0x4fec968, 0x36ec68b);
  (0x2e90edd, 0x1000000, 0x9fd92d0, 0x36ec68b);
  (0x2e90edd, 0x800000, 0x16e4347d, 0x3eec68b);
  (0x9502f9, 0x800000, 0x443d55d, 0x3a9e0b7);
  (0x9502f9, 0x400000, 0x91cadb3, 0x3e9e0b7);
  (0x9502f9, 0x200000, 0x12395b66, 0x3e9e0b7);
  (0x9502f9, 0x100000, 0x2507b9c5, 0x3f9e0b7);
  (0x1dcd65, 0x100000, 0x758222a, 0x3f16393);
  (0x1dcd65, 0x80000, 0xece11b9, 0x3f96393);
  (0x1dcd65, 0x40000, 0x1db9f0d7, 0x3fd6393);
  (0x5f5e1, 0x40000, 0x5f44e7a, 0x3fef1df);
  (0x5f5e1, 0x20000, 0xbe89cf4, 0x3fef1df);
  (0x5f5e1, 0x10000, 0x17d72fc9, 0x3fff1df);
  (0x1312d, 0x10000, 0x4c45fc9, 0x3ffb95b);
  (0x1312d, 0x8000, 0x988bf92, 0x3ffb95b);
  (0x1312d, 0x4000, 0x1312b051, 0x3fff95b);
  (0x1312d, 0x2000, 0x262560a2, 0x3fff95b);
  (0x3d09, 0x2000, 0x7a11dab, 0x3fffec7);
  (0x3d09, 0x1000, 0xf423b56, 0x3fffec7);
  (0x3d09, 0x800, 0x1e8476ac, 0x3fffec7);
  (0xc35, 0x800, 0x61a76ac, 0x3fff9e3);
  (0xc35, 0x400, 0xc34f98d, 0x3fffde3);
  (0xc35, 0x200, 0x1869ff4f, 0x3ffffe3);
  (0x271, 0x200, 0x4e1ff4f, 0x3ffff6f);
  (0x271, 0x100, 0x9c3fe9e, 0x3ffff6f);
  (0x271, 0x80, 0x1387ffad, 0x3ffffef);
  (0x271, 0x40, 0x270fff5a, 0x3ffffef);
  (0x7d, 0x40, 0x7cfffd7, 0x3ffffeb);
  (0x7d, 0x20, 0xf9fffae, 0x3ffffeb);
  (0x7d, 0x10, 0x1f3fffd9, 0x3fffffb);
  (0x19, 0x10, 0x63ffff2, 0x3fffff7);
  (0x19, 0x8, 0xc7ffffd, 0x3ffffff);
  (0x19, 0x4, 0x18fffffa, 0x3ffffff);
  (0x5, 0x4, 0x4ffffff, 0x3ffffff);
  (0x5, 0x2, 0xa000003, 0x4000001);
  (0x5, 0x1, 0x1400000b, 0x4000002);
  (0x1, 0x1, 0x4000003, 0x4000002);
  (0x2, 0x1, 0x8000005, 0x4000002);
  (0x4, 0x1, 0x10000009, 0x4000002);
  (0x8, 0x1, 0x20000011, 0x4000002);
  (0x8, 0x5, 0x6666665, 0x3ffffff);
  (0x10, 0x5, 0xccccccd, 0x4000000);
  (0x20, 0x5, 0x1999998d, 0x3fffffe);
  (0x20, 0x19, 0x51eb849, 0x3fffff9);
  (0x40, 0x19, 0xa3d70a9, 0x4000002);
  (0x80, 0x19, 0x147ae129, 0x3fffffa);
  (0x80, 0x7d, 0x4189355, 0x3ffffe1);
  (0x100, 0x7d, 0x83126d5, 0x3fffff6);
  (0x200, 0x7d, 0x10624cd5, 0x3ffffc2);
  (0x400, 0x7d, 0x20c498d5, 0x3ffffa8);
  (0x400, 0x271, 0x68db691, 0x3fffeae);
  (0x800, 0x271, 0xd1b6e91, 0x3ffff1e);
  (0x1000, 0x271, 0x1a36de91, 0x3ffff56);
  (0x1000, 0xc35, 0x53e261d, 0x3fffa74);
  (0x2000, 0xc35, 0xa7c461d, 0x3fff81f);
  (0x4000, 0xc35, 0x14f8a61d, 0x3fffd0f);
  (0x4000, 0x3d09, 0x431a139, 0x3ffe4a5);
  (0x8000, 0x3d09, 0x8636139, 0x3fff352);
  (0x10000, 0x3d09, 0x10c66139, 0x3ffdc24);
  (0x20000, 0x3d09, 0x218c6139, 0x3ffd08d);
  (0x20000, 0x1312d, 0x6b546a5, 0x3ff9384);
  (0x40000, 0x1312d, 0xd6946a5, 0x3ff322b);
  (0x80000, 0x1312d, 0x1ad546a5, 0x3ff9a15);
  (0x80000, 0x5f5e1, 0x5590e21, 0x3fc068e);
  (0x100000, 0x5f5e1, 0xab90e21, 0x3fe9cdd);
  (0x200000, 0x5f5e1, 0x15690e21, 0x3fced14);
  (0x200000, 0x1dcd65, 0x42e9c6d, 0x3e51590);
  (0x400000, 0x1dcd65, 0x86e9c6d, 0x3ed2e7d);
  (0x800000, 0x1dcd65, 0x10ae9c6d, 0x3e25441);
  (0x1000000, 0x1dcd65, 0x222e9c6d, 0x3fab488);
  (0x1000000, 0x9502f9, 0x6d61f49, 0x3fab488);
  (0x2000000, 0x9502f9, 0xcd61f49, 0x3bc632f);
  (0x4000000, 0x9502f9, 0x1ad61f49, 0x3e7bbff);
  (0x4000000, 0x2e90edd, 0x4913975, 0x352b906);
  (0x8000000, 0x2e90edd, 0x4913975, 0x1a95c83);
  (0x10000000, 0x2e90edd, 0xc913975, 0x24935b0);
  (0xafc14f, 0x9fd92d, 0x45429c1, 0x3efde54);
  (0x15f829e, 0x9fd92d, 0x872b19b, 0x3d77ab1);
  (0x2bf053c, 0x9fd92d, 0xf503eb1, 0x37b5c49);
  (0x120f43ed, 0x20d9abb, 0x1ea07d62, 0x37b5c49);
  (0x6e84711, 0x3ed2642, 0x16a3c99, 0xcde861);
  (0x9bcc043, 0x2c47b82, 0xc913975, 0x39263e3);
  (0x9bcc043, 0x1623dc1, 0x192272ea, 0x39263e3);
  (0x53597f3, 0x3b39341, 0x121ca14, 0xcde861);
  (0x89af62f, 0x30ea632, 0xade8a57, 0x3dc8e93);
  (0x89af62f, 0x1875319, 0x15bd14ae, 0x3dc8e93);
  (0x1b897a3, 0x1875319, 0x2ce90ad, 0x27e36cc);
  (0x3712f46, 0x1875319, 0x63fbff3, 0x2c66e7f);
  (0x6e25e8c, 0x1875319, 0x10934dc5, 0x3ae33e5);
  (0xdc4bd18, 0x1875319, 0x1775ac51, 0x29ac37f);
  (0x652a803, 0x38288e5, 0x11f6d12, 0x9f8db3);
  (0x7721515, 0x2110b4c, 0x9b0ef39, 0x2b098ff);
  (0x7721515, 0x10885a6, 0x1ad3f387, 0x3b91ea5);
  (0x2147dfa, 0x1717d99, 0x55d971b, 0x3b91ea5);
  (0x7721515, 0x2954e1f, 0xabb2e36, 0x3b91ea5);
  (0xee42a2a, 0x2954e1f, 0x122d434b, 0x3273662);
  (0x3fc34fd, 0x374e375, 0x3a2a70f, 0x3273662);
  (0x7f869fa, 0x374e375, 0x3a2a70f, 0x1939b31);
  (0xb9b1109, 0x2843f53, 0x7454e1e, 0x1939b31);
  (0x12e05f27, 0x20bed42, 0x216afb63, 0x39f8873);
  (0x66054c8, 0x374e375, 0x20a91dd, 0x11b4920);
  (0xcc0a990, 0x374e375, 0x20a91dd, 0x8da490);
  (0x1b8be4fd, 0x3bbb5bd, 0x20a91dd, 0x46d248);
  (0x3e052b5, 0x2a06c9d, 0x20a91dd, 0x1621b68);
  (0x9cb3747, 0x3517a51, 0x20a91dd, 0xb10db4);
  (0x15a1006b, 0x3aa012b, 0x20a91dd, 0x5886da);
  (0x319dbc4, 0x2a06c9d, 0x20a91dd, 0x1baa242);
  (0x83e4965, 0x37dbdbe, 0x20a91dd, 0xdd5121);
  (0xc536d1f, 0x29c3000, 0x106890d9, 0x3798121);
  (0xc536d1f, 0x14e1800, 0x20d121b2, 0x3798121);
  (0x27715d3, 0x14e1800, 0x5b331a1, 0x3047da5);
  (0x27715d3, 0xa70c00, 0xddd7915, 0x3ab89a5);
  (0x27715d3, 0x538600, 0x1e3207fd, 0x3ff0fa5);
  (0x27715d3, 0x1a19e00, 0x60a0199, 0x3ff0fa5);
  (0x27715d3, 0xd0cf00, 0xc140332, 0x3ff0fa5);
  (0x27715d3, 0x686780, 0x18280664, 0x3ff0fa5);
  (0x27715d3, 0x20a0580, 0x4d4ce14, 0x3ff0fa5);
  (0x27715d3, 0x10502c0, 0x9a99c28, 0x3ff0fa5);
  (0x27715d3, 0x828160, 0x13533850, 0x3ff0fa5);
  (0x27715d3, 0x4140b0, 0x26a670a0, 0x3ff0fa5);
  (0x27715d3, 0x1464370, 0x6be7432, 0x37c8e45);
  (0x27715d3, 0xa321b8, 0xd7ce864, 0x37c8e45);
  (0x27715d3, 0x5190dc, 0x1d70e69b, 0x3ce1f21);
  (0x27715d3, 0x197d44c, 0x4e6f231, 0x32afd69);
  (0x27715d3, 0xcbea26, 0xc44fa35, 0x3f6e78f);
  (0x27715d3, 0x65f513, 0x1889f46a, 0x3f6e78f);
  (0x27715d3, 0x1fdc95f, 0x3ebf4f4, 0x32afd69);
  (0x4ee2ba6, 0x1fdc95f, 0x6630ac7, 0x2946364);
  (0x9dc574c, 0x1fdc95f, 0x103f6213, 0x347fb11);
  (0x13b8ae98, 0x1fdc95f, 0x1a1bb95f, 0x2a2e238);
  (0x2aaba5d, 0x158b086, 0x6630ac7, 0x3397c3d);
  (0x2aaba5d, 0xac5843, 0xf70cfeb, 0x3e5d480);
  (0x1f712e19, 0x3f7f309, 0x1a1bb95f, 0x34b9ac6);
  (0x649d605, 0x3f7f309, 0xf4614b, 0x9a39ba);
  (0xc93ac0a, 0x3f7f309, 0xf4614b, 0x4d1cdd);
  (0x19275814, 0x3f7f309, 0xd880d55, 0x22287f3);
  (0x2530ef3, 0x1d56b16, 0x43bd189, 0x356fb67);
  (0x2530ef3, 0xeab58b, 0x877a312, 0x356fb67);
  (0x4a61de6, 0xeab58b, 0x1416edd1, 0x3f6438f)].
Definition ryu_float_last : list (Z * Z * Z * Z) := [
  (0, 0, 0, 0);
  (0, 0, 0, 0);
  (0x1f263597, 0x8e43c0, 0x1a789cf9, 0x78e619);
  (0x1f263597, 0x4721e0, 0x54176f89, 0xc007f9);
  (0, 0, 0, 0);
  (0x1f263597, 0xb1d4b0, 0x21a2f96a, 0xc007f9);
  (0x1f263597, 0x58ea58, 0x4345f2d4, 0xc007f9);
  (0, 0, 0, 0);
  (0, 0, 0, 0);
  (0x1f263597, 0x6f24ee, 0x35d18f10, 0xc007f9);
  (0x8ac953b7, 0xf79a70, 0x6ba31e20, 0xc007f9);
  (0, 0, 0, 0);
  (0x1bc1dd8b, 0x7bcd38, 0x30bb0afe, 0xd9588d);
  (0x1bc1dd8b, 0x3de69c, 0x617615fc, 0xd9588d);
  (0, 0, 0, 0);
  (0x58d2c4f, 0x1ef34e, 0x2d087fa3, 0xfb1187);
  (0x58d2c4f, 0xf79a7, 0x5a10ff46, 0xfb1187);
  (0, 0, 0, 0);
  (0, 0, 0, 0);
  (0x1634b13c, 0x4d6043, 0x346eac2b, 0xb6b330);
  (0, 0, 0, 0);
  (0, 0, 0, 0);
  (0x2aceba21, 0xba73fd, 0x2e040acf, 0xc86d52);
  (0x559d7442, 0xba73fd, 0x2e040acf, 0x6436a9);
  (0, 0, 0, 0);
  (0x2a2a76cb, 0xe592a7, 0x2cbb8423, 0xf38bfc);
  (0x5454ed96, 0xe592a7, 0x2cbb8423, 0x79c5fe);
  (0, 0, 0, 0);
  (0, 0, 0, 0);
  (0x43772478, 0xe592a7, 0xafff1e7, 0x256e2a);
  (0, 0, 0, 0);
  (0, 0, 0, 0);
  (0x21960621, 0x8edbf3, 0x3795e9ef, 0xec6f5c);
  (0x432c0c42, 0x8edbf3, 0x3795e9ef, 0x7637ae);
  (0, 0, 0, 0);
  (0x2a9edb05, 0xe29c0f, 0x67b8775, 0x227792);
  (0x5bb93d7f, 0xf3d7d8, 0x67b8775, 0x113bc9);
  (0, 0, 0, 0);
  (0, 0, 0, 0);
  (0xd289fef, 0x2bba2d, 0x4167fda1, 0xd95974);
  (0, 0, 0, 0);
  (0, 0, 0, 0);
  (0x22229905, 0x8dcab7, 0x31c54b53, 0xcebd44);
  (0x760a7d5d, 0xf52959, 0x31c54b53, 0x675ea2);
  (0, 0, 0, 0);
  (0x115a9e8d, 0x5a1b66, 0x206aacc6, 0xa8512f);
  (0x115a9e8d, 0x2d0db3, 0x522ff819, 0xd55ee2);
  (0, 0, 0, 0);
  (0, 0, 0, 0);
  (0x456a7a34, 0xe1447f, 0x97ef233, 0x1ed0df);
  (0, 0, 0, 0);
  (0, 0, 0, 0);
  (0x2b8c79c3, 0xb0a797, 0x1b2d6b85, 0x6e3ea6);
  (0x72465f0b, 0xe7c6ea, 0x1b2d6b85, 0x371f53);
  (0, 0, 0, 0);
  (0x16dadfcf, 0x73e375, 0x1f7ff73b, 0x9fb92a);
  (0x4d35b6d9, 0xc3c00a, 0x1f7ff73b, 0x4fdc95);
  (0, 0, 0, 0);
  (0x1248b30c, 0x73e375, 0x165b9db5, 0x8db5ba);
  (0x24916618, 0x73e375, 0x3aed03cd, 0xbabe52);
  (0, 0, 0, 0);
  (0, 0, 0, 0);
  (0x37aaae79, 0xdc84c4, 0x14ba730b, 0x521d03);
  (0x611f948f, 0xc05f65, 0x2974e616, 0x521d03);
  (0, 0, 0, 0);
  (0xb2222e5, 0x372131, 0x3183637d, 0xf52d7c);
  (0x164445ca, 0x372131, 0x5e0bef11, 0xe8d920);
  (0, 0, 0, 0);
  (0x249f67a5, 0xe2aef2, 0x1cb643b6, 0xb1b7ef);
  (0x249f67a5, 0x715779, 0x396c876c, 0xb1b7ef);
  (0, 0, 0, 0);
  (0, 0, 0, 0);
  (0x3cc3bc39, 0xeb1256, 0x8520cb6, 0x20303b);
  (0x3cc3bc39, 0x75892b, 0x4d67d5a5, 0x95b966);
  (0, 0, 0, 0);
  (0x184e4b4a, 0x75892b, 0x1ccb3f11, 0x8b3d29);
  (0x65b620ef, 0xf5ec55, 0x35198a5b, 0x80632a);
  (0, 0, 0, 0);
  (0x2a540e17, 0xffdbef, 0x1cb94b6, 0xad9ff);
  (0x2fb6cc39, 0x9034f6, 0x334df5a5, 0x9b0ef5);
  (0, 0, 0, 0);
  (0, 0, 0, 0);
  (0x1315eb4a, 0x481a7b, 0x36e51f11, 0xcf6331);
  (0x262bd694, 0x481a7b, 0x7026e0ef, 0xd3d951);
  (0, 0, 0, 0);
  (0x2ec00f6a, 0xdcc591, 0xecbcedf, 0x45df6b);
  (0x5b237c07, 0xd731e9, 0x1d979dbe, 0x45df6b);
  (0, 0, 0, 0);
  (0xc4f2c75, 0x48a93f, 0x2290e292, 0xcc0a99);
  (0x189e58ea, 0x48a93f, 0x477e67f1, 0xd3032b);
  (0, 0, 0, 0);
  (0, 0, 0, 0);
  (0x2671e6be, 0x8dd635, 0x2ee00f07, 0xacf067);
  (0x4ce3cd7c, 0x8dd635, 0x5551f5c5, 0x9d634e);
  (0, 0, 0, 0);
  (0x2c72a66f, 0xccfac3, 0x146fa7ab, 0x5e3ec0);
  (0x6d54f489, 0xfc1a23, 0x146fa7ab, 0x2f1f60);
  (0, 0, 0, 0);
  (0x238eeb8c, 0xccfac3, 0x146fa7ab, 0x75ce70);
  (0x471dd718, 0xccfac3, 0x146fa7ab, 0x3ae738);
  (0, 0, 0, 0);
  (0, 0, 0, 0);
  (0x3cfb00cf, 0xdbb491, 0x146fa7ab, 0x49a106);
  (0x79f6019e, 0xdbb491, 0x146fa7ab, 0x24d083);
  (0, 0, 0, 0);
  (0x1c7abb75, 0x80428a, 0x28df4f56, 0xb8128f);
  (0x1c7abb75, 0x402145, 0x6e395a21, 0xf833d4);
  (0, 0, 0, 0);
  (0x22e9fe7d, 0xc48c6f, 0x160b786d, 0x7c19ea);
  (0x45d3fcfa, 0xc48c6f, 0x160b786d, 0x3e0cf5);
  (0, 0, 0, 0);
  (0, 0, 0, 0);
  (0x48c27395, 0x1000000, 0x35a571c3, 0xbcc043);
  (0x48c27395, 0x800000, 0x6b4ae386, 0xbcc043);
  (0, 0, 0, 0);
  (0xe8d4a51, 0x400000, 0x36839591, 0xefc14f);
  (0xe8d4a51, 0x200000, 0x6d072b22, 0xefc14f);
  (0, 0, 0, 0);
  (0x2e90edd, 0x100000, 0x2e57e955, 0xfec68b);
  (0x2e90edd, 0x80000, 0x5cafd2aa, 0xfec68b);
  (0, 0, 0, 0);
  (0, 0, 0, 0);
  (0x9502f9, 0x20000, 0x4a786193, 0xffe0b7);
  (0, 0, 0, 0);
  (0, 0, 0, 0);
  (0x1dcd65, 0x8000, 0x3b942bb1, 0xffe393);
  (0x1dcd65, 0x4000, 0x77285762, 0xffe393);
  (0, 0, 0, 0);
  (0x5f5e1, 0x2000, 0x2fac6648, 0xfff1df);
  (0x5f5e1, 0x1000, 0x5f58cc90, 0xfff1df);
  (0, 0, 0, 0);
  (0, 0, 0, 0);
  (0x1312d, 0x400, 0x4c4a763d, 0xfffd5b);
  (0, 0, 0, 0);
  (0, 0, 0, 0);
  (0x3d09, 0x100, 0x3d08f269, 0xffffc7);
  (0x3d09, 0x80, 0x7a11e4d2, 0xffffc7);
  (0, 0, 0, 0);
  (0xc35, 0x40, 0x30d3fa78, 0xffffe3);
  (0xc35, 0x20, 0x61a7f4f0, 0xffffe3);
  (0, 0, 0, 0);
  (0, 0, 0, 0);
  (0x271, 0x8, 0x4e1fffb2, 0xffffff);
  (0, 0, 0, 0);
  (0, 0, 0, 0);
  (0x7d, 0x2, 0x3e7fffc2, 0xffffff);
  (0x7d, 0x1, 0x7d000001, 0x1000000);
  (0, 0, 0, 0);
  (0x32, 0x1, 0x32000001, 0x1000000);
  (0x64, 0x1, 0x64000001, 0x1000000);
  (0, 0, 0, 0);
  (0, 0, 0, 0);
  (0, 0, 0, 0);
  (0, 0, 0, 0);
  (0, 0, 0, 0);
  (0x40, 0x1, 0x40000001, 0x1000000);
  (0x80, 0x1, 0x80000001, 0x1000000);
  (0, 0, 0, 0);
  (0x100, 0x5, 0x333332cd, 0xfffffe);
  (0x200, 0x5, 0x666664cd, 0xfffffc);
  (0, 0, 0, 0);
  (0x400, 0x19, 0x28f5c029, 0xfffff1);
  (0x800, 0x19, 0x51eb8429, 0xfffffd);
  (0, 0, 0, 0);
  (0, 0, 0, 0);
  (0x2000, 0x7d, 0x418918d5, 0xffff89);
  (0x4000, 0x7d, 0x831238d5, 0xffff97);
  (0, 0, 0, 0);
  (0x8000, 0x271, 0x346d7e91, 0xfffea4);
  (0x10000, 0x271, 0x68db7e91, 0xffffe0);
  (0, 0, 0, 0);
  (0x20000, 0xc35, 0x29efe61d, 0xfff6ba);
  (0x40000, 0xc35, 0x53dfe61d, 0xfff709);
  (0, 0, 0, 0);
  (0, 0, 0, 0);
  (0x100000, 0x3d09, 0x43126139, 0xffdbcd);
  (0x200000, 0x3d09, 0x86226139, 0xffd743);
  (0, 0, 0, 0);
  (0x400000, 0x1312d, 0x358d46a5, 0xff5aec);
  (0x800000, 0x1312d, 0x6b0d46a5, 0xff3b45);
  (0, 0, 0, 0);
  (0x1000000, 0x5f5e1, 0x2ae90e21, 0xffc408);
  (0x2000000, 0x5f5e1, 0x54e90e21, 0xfd0d79);
  (0, 0, 0, 0);
  (0, 0, 0, 0);
  (0x8000000, 0x1dcd65, 0x422e9c6d, 0xf68c25);
  (0x10000000, 0x1dcd65, 0x7a2e9c6d, 0xe394f4);
  (0, 0, 0, 0);
  (0x20000000, 0x9502f9, 0x1ed61f49, 0x8f97df);
  (0x40000000, 0x9502f9, 0x3ed61f49, 0x924d6c);
  (0, 0, 0, 0);
  (0x28076dcd, 0xe8ffe3, 0xc913975, 0x4926b6);
  (0x500edb9a, 0xe8ffe3, 0xc913975, 0x24935b);
  (0, 0, 0, 0);
  (0, 0, 0, 0);
  (0x178d4e65, 0x55ae7d, 0x3244e5d4, 0xb6e0c7);
  (0x78ecd103, 0xdbf61f, 0x49d23439, 0x8647a2);
  (0, 0, 0, 0);
  (0x413cddf, 0x128aac, 0x356f2ede, 0xf2fdb9);
  (0x413cddf, 0x94556, 0x6ef22b9b, 0xfc430f);
  (0, 0, 0, 0);
  (0x413cddf, 0x172d57, 0x2c60de3e, 0xfc430f);
  (0x40c3e399, 0xb812e1, 0x389c47db, 0xa0e58a);
  (0, 0, 0, 0);
  (0, 0, 0, 0);
  (0x253a6969, 0x8442d3, 0x26c3bce4, 0x89b833);
  (0x4a74d2d2, 0x8442d3, 0x4bfe264d, 0x86fd83);
  (0, 0, 0, 0);
  (0x1dc85454, 0x8442d3, 0x1f51a7cf, 0x8b158b);
  (0x3b90a8a8, 0x8442d3, 0x3d19fc23, 0x87ac2f);
  (0, 0, 0, 0);
  (0x17362212, 0x80d977, 0x18bf758d, 0x8960dd);
  (0x2e6c4424, 0x80d977, 0x2ff5979f, 0x851d2a);
  (0, 0, 0, 0);
  (0, 0, 0, 0);
  (0x414ca34b, 0xe28d7d, 0xa34d951, 0x236924);
  (0, 0, 0, 0);
  (0, 0, 0, 0);
  (0x391192d8, 0xf77eed, 0x20a91dd, 0x8da49);
  (0x744418e1, 0xfc1c99, 0x41523ba, 0x8da49);
  (0, 0, 0, 0);
  (0x2d4c92b3, 0xf59126, 0x82a4774, 0x2c436d);
  (0x3da1219b, 0xa70c00, 0x4df5b083, 0xd34f6d);
  (0, 0, 0, 0);
  (0, 0, 0, 0);
  (0xc536d1f, 0x29c300, 0x41523ba0, 0xdd5121);
  (0, 0, 0, 0);
  (0, 0, 0, 0);
  (0x27715d3, 0xa70c0, 0x3b23f0ea, 0xfa7825);
  (0x27715d3, 0x53860, 0x78bef7a7, 0xffb085);
  (0, 0, 0, 0);
  (0x27715d3, 0xd0cf0, 0x2fce2b7f, 0xfd1455);
  (0x27715d3, 0x68678, 0x5f9c56fe, 0xfd1455);
  (0, 0, 0, 0);
  (0, 0, 0, 0);
  (0x27715d3, 0x82816, 0x4b026bb3, 0xf82f7b);
  (0, 0, 0, 0);
  (0, 0, 0, 0);
  (0x4ee2ba6, 0x146437, 0x3d10a477, 0xfc8f18);
  (0x9dc574c, 0x146437, 0x783ab03f, 0xf8a0d6);
  (0, 0, 0, 0);
  (0x13b8ae98, 0x65f513, 0x1fef35e3, 0xa518d9);
  (0x27715d30, 0x65f513, 0x5b1941ab, 0xeb7c09);
  (0, 0, 0, 0);
  (0, 0, 0, 0);
  (0x35568f44, 0xac5843, 0x1a1bb95f, 0x545c47);
  (0, 0, 0, 0);
  (0, 0, 0, 0);
  (0x3a1c75bb, 0xeab58b, 0xf70cfeb, 0x3e5d48);
  (0x7438eb76, 0xeab58b, 0xf70cfeb, 0x1f2ea4);
  (0, 0, 0, 0);
  (0x2e7d2afc, 0xeab58b, 0xf70cfeb, 0x4df49a);
  (0x5cfa55f8, 0xeab58b, 0xf70cfeb, 0x26fa4d);
  (0, 0, 0, 0)].
