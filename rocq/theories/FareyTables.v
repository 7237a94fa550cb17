(** * Witnesses for the exactness of the truncated products (generated by scripts/gen_farey.py).
    Entry for k: (a, b, c, d), two neighbouring fractions a/b and c/d around the scaled multiplier.
    Nothing is assumed about them; they are checked in [ExpFacts.v]. *)

From Coq Require Import ZArith List.
Import ListNotations.
Open Scope Z_scope.

Definition farey_float : list (Z * Z * Z * Z) := [
  (0x34a1bf1b, 0x5309d2e, 0x2b55834f, 0x445e7a3);
  (0x324eb028, 0x3f7f309, 0x58fe1591, 0x7053087);
  (0x3ee25c32, 0x3f7f309, 0x58fe1591, 0x59dc06c);
  (0x2dd467f7, 0x4a0ab97, 0x47f02156, 0x7438dcf);
  (0x4ee2ba6, 0x65f513, 0x60076d51, 0x7c1d55b);
  (0x27715d3, 0x28c86e, 0x7afa04a4, 0x7f27a4d);
  (0x27715d3, 0x4140b0, 0x4ba0b7fd, 0x7d1d9f5);
  (0x27715d3, 0x3433c0, 0x5f26ab71, 0x7dee6e5);
  (0x27715d3, 0x29c300, 0x778e1bc2, 0x7e957a5);
  (0x45cb690f, 0x763c921, 0x3977fbf0, 0x615b121);
  (0x45cb690f, 0x5e96db4, 0x47d5faec, 0x615b121);
  (0x55b655ed, 0x5ceded9, 0x57c0e7ca, 0x5f247fd);
  (0x344b5a8a, 0x5ab75b5, 0x216afb63, 0x39f8873);
  (0x1dc85454, 0x2954e1f, 0x4dbdebf3, 0x6be376f);
  (0x7721515, 0x8442d3, 0x71388fb6, 0x7db353d);
  (0x253a6969, 0x4221698, 0x3cb015ba, 0x6bcda17);
  (0x4de60218, 0x6eb34c5, 0x1e580add, 0x2b1f0d6);
  (0x13798086, 0x1623dc1, 0x5d4bb4bf, 0x6a10a15);
  (0x30afc14f, 0x588f704, 0x1ea07d62, 0x37b5c49);
  (0x20000000, 0x2e90edd, 0x4c913975, 0x6f6b892);
  (0x8000000, 0x9502f9, 0x66d61f49, 0x77b7a3d);
  (0x1000000, 0x1dcd65, 0x442e9c6d, 0x7effbf2);
  (0x400000, 0x5f5e1, 0x55a90e21, 0x7fa4d6b);
  (0x100000, 0x1312d, 0x6b5d46a5, 0x7ffd009);
  (0x20000, 0x3d09, 0x431a6139, 0x7ffd28c);
  (0x8000, 0xc35, 0x53e2661d, 0x7fff551);
  (0x2000, 0x271, 0x68db7e91, 0x7ffff00);
  (0x400, 0x7d, 0x418934d5, 0x7ffffb3);
  (0x100, 0x19, 0x51eb8429, 0x7ffffe8);
  (0x40, 0x5, 0x6666664d, 0x7fffffe);
  (0x8, 0x1, 0x40000001, 0x8000000);
  (0xa, 0x1, 0x50000001, 0x8000000);
  (0x19, 0x2, 0x63fffff4, 0x7ffffff);
  (0x7d, 0x8, 0x7cffffb2, 0x7fffffb);
  (0x271, 0x40, 0x4e1fff5a, 0x7ffffef);
  (0xc35, 0x100, 0x61a7fe9e, 0x7ffffe3);
  (0x3d09, 0x400, 0x7a11ed58, 0x7fffec7);
  (0x1312d, 0x2000, 0x4c4b00a2, 0x7fff95b);
  (0x5f5e1, 0x8000, 0x5f5d6792, 0x7fff1df);
  (0x1dcd65, 0x20000, 0x772c7913, 0x7ff6393);
  (0x9502f9, 0x100000, 0x4a487805, 0x7f9e0b7);
  (0x2e90edd, 0x400000, 0x5c5956ca, 0x7eec68b);
  (0xe8d4a51, 0x1000000, 0x6fda9b07, 0x7afc14f);
  (0x48c27395, 0x8000000, 0xfccfcab, 0x1bcc043);
  (0x1c7abb75, 0x2814cb2, 0x523890db, 0x73b7391);
  (0x1c7abb75, 0x2010a28, 0x6de563ef, 0x7bbb61b);
  (0x196c1543, 0x2dcbeb9, 0x42216980, 0x7721515);
  (0x8e3bae3, 0xccfac3, 0x52a9c3e0, 0x7721515);
  (0x46e30dcb, 0x51ba20f, 0x675434d8, 0x7721515);
  (0x1338f35f, 0x23758d4, 0x4094a107, 0x7721515);
  (0x29e6ca33, 0x3dd5f2a, 0x38b29912, 0x53abc41);
  (0x30ad8908, 0x3977fbf, 0x3f7957e7, 0x4aefd6b);
  (0x1e6c75a5, 0x3977fbf, 0x334df5a5, 0x60e9592);
  (0x193415a5, 0x26161d5, 0x4c820b4a, 0x739d97d);
  (0x65b620ef, 0x7af62a8, 0x2cc77da5, 0x3622829);
  (0x249f67a5, 0x46d6aba, 0x39039ea5, 0x6e4808d);
  (0x249f67a5, 0x38abbc8, 0x3e1cac65, 0x601d19b);
  (0x611f948f, 0x783b9f2, 0x2afeb8d5, 0x3539a97);
  (0x3a1c6e78, 0x7319cef, 0x27032617, 0x4d45961);
  (0x44115d53, 0x6bdb97a, 0x3f7f3090, 0x649d605);
  (0x3431912f, 0x4229cc7, 0x4f5efcb4, 0x649d605);
  (0x4809505c, 0x490db6d, 0x6336bbe1, 0x649d605);
  (0xd6cc860, 0x15c87fb, 0x4c9edc13, 0x7c52edf);
  (0x53554043, 0x6c2c24a, 0x428d45cb, 0x5663a4f);
  (0x5bb93d7f, 0x5f40506, 0x46bf4469, 0x4977d0b);
  (0x4815161b, 0x77c472e, 0x9d213b2, 0x10513a1);
  (0x5bb93d7f, 0x79ebec0, 0x3a23375e, 0x4d47301);
  (0x21960621, 0x23b6fcc, 0x59770846, 0x5f22ae7);
  (0x352a68b2, 0x5a74e93, 0x2cbb8423, 0x4c1bbec);
  (0x58d2c4f0, 0x78e668b, 0x2cbb8423, 0x3ce2ff0);
  (0x1634b13c, 0x182e14f, 0x70a21e83, 0x7aa5935);
  (0x58d2c4f, 0x9ac086, 0x49674eb5, 0x7fe3133);
  (0x58d2c4f, 0x7bcd38, 0x57974127, 0x7a15749);
  (0x1bc1dd8b, 0x1ef34e0, 0x6d554a26, 0x79e919d);
  (0x478360e3, 0x7f95746, 0x6ba31e2, 0xc007f9);
  (0x4a704f45, 0x6a3e12f, 0x10d17cb5, 0x1800ff2);
  (0xe67b4a4, 0x10729d9, 0x627f242d, 0x70769a1)
].

Definition farey_double : list (Z * Z * Z * Z) := [
  (0xce7e49ec3cb0b9d, 0x211b9818a0a8c3, 0x618051e8f7c6a10a, 0xfa1f984bdf3b01);
  (0x2bbbeb6863a239ae, 0x59c1082cba3cb7, 0x6e683687bb91aca7, 0xe295c050664fd0);
  (0x15995b33813215ba, 0x46ec5b638cb3c3, 0x4223161df6b164bf, 0xd92b69ebcf8b56);
  (0xaccad99c0990add, 0x1c5e8af49eae4e, 0x5f254ee384d8b541, 0xf9f04ca197a9b1);
  (0x75c50fd9264f213d, 0xf77ef138a90176, 0x1fe2d5ec31a8f576, 0x430262b317241f);
  (0x32e9d27186bd5341, 0xab31664c178c52, 0x415074a00171dc74, 0xdb9d788c3a0e67);
  (0x1241982186046507, 0x311bbb37fb9db2, 0x51a491c801ce5391, 0xdb9d788c3a0e67);
  (0x74418322000aa749, 0xfa2d90d3f932cd, 0x18f98a7a61f4ae26, 0x35bea3f40abc05);
  (0x39291c922e35edbd, 0xc4cfc77277005b, 0x3e6fda31f4e3b35f, 0xd6fa8fd02af014);
  (0x546bfb7353a57333, 0xe88a60dd046a15, 0x20899c80ec1d4b18, 0x599ffb32cec32d);
  (0x71009a77df24f69b, 0xf903418b87dcfe, 0x82267203b0752c6, 0x11eccbd6f62709);
  (0x3fd6a9cafa0947c9, 0xe11479e557d00b, 0x145601d093924eef, 0x47b32f5bd89c24);
  (0x3db72e880a8b838c, 0xae136d9ffddc43, 0x27f6da8ad750071f, 0x70b94fcf64944d);
  (0x4d24fa2a0d2e646f, 0xae136d9ffddc43, 0x56403d70df38a9c8, 0xc29fe805e8c799);
  (0x3794eacdd56039fd, 0xc8abec30d2aa2e, 0x35e826668b836a1d, 0xc29fe805e8c799);
  (0x38d67e1b4cc5d5e5, 0xa42a590d9b434b, 0x36be889a3071d20d, 0x9e1e54e2b160b6);
  (0x38d67e1b4cc5d5e5, 0x8355140ae29c3c, 0x36388b39e95cd117, 0x7d490fdff8b9a7);
  (0x3b7470fcb02edab3, 0xdbce8d22e0cae8, 0xd3a64724dea13ac, 0x30e79f1dce5025);
  (0x559fedca92490abf, 0xfd3f0ca798c360, 0x34e991c937a84eb, 0x9c7ec9f8fa9a1);
  (0x5d557da02c3b0da7, 0xdcd67e2d157b6b, 0x1088fd8ee1649897, 0x271fb27e3ea684);
  (0x3ddeab243ed99d14, 0xea398230162e31, 0x6ef6d8cb809c9f5, 0x1a415b409faca5);
  (0x4d5655ed4e900459, 0xea398230162e31, 0x25dec31ed776987f, 0x72b1b046ef02fe);
  (0x62aaef0429bf8da1, 0xef0fa3d24e5666, 0x9117cdbcdf4f149, 0x15f8b620f15ef5);
  (0xb332e450b79538b, 0x2b6afc56ac317d, 0x388a9e90114209f8, 0xdb30ad5e372925);
  (0x3ddeda172b0cff9d, 0xbfe1095c19ba6e, 0x40ce537623e42e90, 0xc8fb955cce34ab);
  (0x1d77b05c191ae855, 0x491c32248ee67a, 0x5101e853acdd3a34, 0xc8fb955cce34ab);
  (0x18dc153882291b71, 0x62af45fc9b8fb7, 0x338a37f793c251df, 0xcc989ec06549e8);
  (0x18dc153882291b71, 0x4ef29e63afa62c, 0x46a3cb43993d2d33, 0xe0554659513373);
  (0x4b905cc301cadb9b, 0xbffa004c651b6d, 0x30bc0d578902ad9a, 0x7bd07942597d43);
  (0x4a55386327a77001, 0x971448dff7bc87, 0x79d6215ad686b201, 0xf7a0f284b2fa86);
  (0x3294c3e75037cf01, 0xa47cb9af5cfc0c, 0x1db0919acd4b8940, 0x608ca9a4bb3dff);
  (0x416d0cb4b6dd93a1, 0xaa35a5349548d6, 0x251cb601809e6b90, 0x608ca9a4bb3dff);
  (0x416d0cb4b6dd93a1, 0x882aea90776d78, 0x6fd0f03697a39a15, 0xe8b7943532ab77);
  (0xf511109a7248765, 0x330122aa5598c7, 0x494ded6c001c0f76, 0xf41a75f3cc14c5);
  (0x19fc03dfd3994790, 0x4538f241b17477, 0x4f52c20eb1e10867, 0xd35122e0d257ae);
  (0x207b04d7c87f9974, 0x4538f241b17477, 0x694ec5ee857a4ff7, 0xe06e774ecfd684);
  (0x2899c60dba9f7fd1, 0x8a71e48362e8ee, 0x38b6c3923bcd1b2a, 0xc163c318fcf61b);
  (0x61f32224e5c791e, 0x10b33462c1c58d, 0x5ccf57db229cfaf9, 0xfd2de31bebbfce);
  (0x67083baae625ddd2, 0xe0da11b2c50299, 0x57ba3e55223eaf07, 0xbf73a8ed41777f);
  (0x416b91b62d22c512, 0xe46e632de6870b, 0x121b103fd795e00f, 0x3f38800fe591c2);
  (0x5ad3fe43a436665e, 0xfdb830010f27bf, 0x121b103fd795e00f, 0x329399a6514168);
  (0x51a01fa18146f34d, 0xb669090a881226, 0x5613b8705b9a29cc, 0xc05bb7d1e68be3);
  (0x269643695379de67, 0x89f84835bae054, 0x228131918f836aec, 0x7b5f93b7091bb9);
  (0x2f368fcdb75ab922, 0x870cf0e930ec35, 0x2b217df5f36445a7, 0x7b5f93b7091bb9);
  (0x54aa0493e2d9fdb9, 0xc1bddcf42137af, 0x215e62ee6788d11c, 0x4c5c04de40a0bb);
  (0x41ac1a9eb22a6774, 0xf07351bcc0799f, 0x85798bb99e23447, 0x1e8b3525b3737e);
  (0x31c9699614136af9, 0x91d48737fe56b3, 0x29b5fbaa016b0563, 0x7a2cd496cdcdf8);
  (0x409b6f6095432cb, 0x9764773ad037e, 0x6a4bd0a40835a6dd, 0xf914cce7721daf);
  (0x409b6f6095432cb, 0xf23a585e19f30, 0x40ebbdca41a1f53e, 0xf3676ed53d81fd);
  (0x409b6f6095432cb, 0xc1c846b1ae5c0, 0x532b88b7d6b48bf3, 0xf975b10acaf4dd);
  (0x436ccb3d6cb0a874, 0xa1c9883e6178ab, 0x532b88b7d6b48bf3, 0xc7915a6f08c3e4);
  (0x33ae0dc302acc4f5, 0xc669234929e250, 0x104cf824e29806ce, 0x3e94f699cc8783);
  (0x1dea44eab9fc642e, 0x5be172a26cdc07, 0x46aab146f0787531, 0xd90b5fd605eb0d);
  (0x48ba2ec8e0b7b7d2, 0xb2b2cc2b3c06d9, 0x46aab146f0787531, 0xada2b3119e55a4);
  (0x3dc1da5d71673311, 0xf2ca4e5cee4efa, 0x8936678a0072652, 0x21b6eb980020e3);
  (0x3f09ad7310ce693c, 0xc6427bb9f94f0d, 0x1570802d9011dfcd, 0x436dd7300041c6);
  (0x5a2842716cbe8e87, 0xe2d7a2892f98ab, 0x5fd65742389cd405, 0xf12235f0cabd7a);
  (0x5a2842716cbe8e87, 0xb5794ed42613bc, 0x342dbb3db5351e21, 0x69073ad1ae2ead);
  (0x12fd4399dbc4b833, 0x3d281001f9840c, 0x45f87af3997393b6, 0xe15879a3dabe5d);
  (0x1afcc089d43f4107, 0x45881ebb2927b1, 0x5df6f1c382e32e32, 0xf21897163a05a7);
  (0x10fd645ddda615fe, 0x2304d375bf61b3, 0x75f25e5347962f25, 0xf31ba776e53d11);
  (0x3099a87e6b406487, 0xa046f2d04dc849, 0x36b9d6122c619213, 0xb47a97c99e09c6);
  (0x3099a87e6b406487, 0x8038c2403e39d4, 0x3841e1771ca9dd76, 0x946c67398e7b51);
  (0x56f6f51b680b0e28, 0xb78cfdbf00c475, 0x68db89f587ea41fd, 0xdd50edfb0a2a84);
  (0xadedea36d0161c5, 0x24b5cc59668db1, 0x43b92afbc5593f9f, 0xe4b3e92d7e1516);
  (0xadedea36d0161c5, 0x1d5e3d14520af4, 0x575f2d6391efe7f8, 0xec0b78729297d3);
  (0xadedea36d0161c5, 0x177e974374d590, 0x6d36f8bc766be1f6, 0xec0b78729297d3);
  (0xadedea36d0161c5, 0x2597586bee2280, 0x46fa131ea543c5ab, 0xf5714e8d8e2073);
  (0x365a59312106e8d9, 0x965d61afb88a00, 0x3512d85acb956f2b, 0x92d35c01bac697);
  (0x5135a5941c2dfeda, 0xb3bada7cdde4eb, 0x3512d85acb956f2b, 0x7575e334956bac);
  (0x39ca3acae5c2e334, 0xcca33d66947bd1, 0x1da76d91952a5385, 0x6901b1bfba2039);
  (0xe728eb2b970b8cd, 0x28ed72ae1db25d, 0x4c085a5a4aa00598, 0xd7638998540513);
  (0xe728eb2b970b8cd, 0x20bdf55817c1e4, 0x6d7cffa396b8bfcb, 0xf8217ef06bc6f7);
  (0x1bd9ba4d624cfb54, 0x64fcb59857ba81, 0x2c630f303ce6a0ad, 0xa0f2f52866549f);
  (0x5629a6a4505a19ab, 0xf9f19e0a54bd1a, 0x33597dc39579df82, 0x94f4e871fd0299);
  (0x63dec5a2b88f0947, 0xe7c40014487587, 0x19acbee1cabcefc1, 0x3b9529c732010a);
  (0xfb1709090697f21, 0x3a45085f187e1d, 0x4199f826b40ab241, 0xf3952cbd2e0fdc);
  (0x3b8e73973a24ca2b, 0xb0e8e82a3f189f, 0x28a5b45ba23a18b1, 0x78bdaed81c38ca);
  (0x549b7d93f13c82e2, 0xc90ed7ef118a61, 0x28a5b45ba23a18b1, 0x6097bf1349c708);
  (0x2b8bc69cb9696001, 0xa591e29df3394b, 0x2979b992cd6c2d11, 0x9db288d5753cfa);
  (0x5377f66815d7a6de, 0xfde3ece407fa6d, 0x2870b30dd76d9399, 0x7b02498dc4ff0e);
  (0x29bbfb340aebd36f, 0x658e5ec19cca92, 0x503bc208951c0747, 0xc33d63babb98d3);
  (0x24ec025979a5ccf4, 0x8fc0c9d0c18143, 0x3cfbde9e5003ed5b, 0xed6fcec9e04f84);
  (0x2e2702efd80f4031, 0x8fc0c9d0c18143, 0x3cfbde9e5003ed5b, 0xbdf30bd4b372d0);
  (0x63b873b6ec18d6f7, 0xf87bc3b5fcc90a, 0x2233263ac5ff21f8, 0x553811ef782b09);
  (0x38f883ed7499ec81, 0xe322aeddd751fe, 0x155ff7e4bbbf753b, 0x553811ef782b09);
  (0x13961ef48c16586f, 0x3e788cf5dcb29b, 0x43b3998e92909949, 0xd7ef2dd22746ee);
  (0x13961ef48c16586f, 0x31fa0a5e4a287c, 0x598607af5a3a55b7, 0xe46db069b9d10d);
  (0x61ee9ac6bc6fba2b, 0xc7e8297928a1f0, 0x5fd47600e3e2610e, 0xc39da8c99d3cdd);
  (0x3c6b52f20490d2f0, 0xc5550f763b654b, 0x3a512e2c2c0379d3, 0xbe7774c3c2c393);
  (0xf1ad4bc812434bc, 0x2777697e0be10f, 0x5f39194a4d3ab393, 0xf8cd77a870a089);
  (0x3c6b52f20490d2f, 0x7e4aeb2cf2d03, 0x7926f725a752aa9d, 0xfd3db8f9affb0a);
  (0x12e189eba16d41eb, 0x3f257596796818, 0x3ed18e57ac849bc5, 0xd217bab448f2a5);
  (0x5e67b19a27224997, 0xfc95d659e5a060, 0x18b3c25320f3581, 0x42178635f5879);
  (0x74d930e4cb5f73dc, 0xfa1b5aeb12d1b1, 0x76646d09fd6ea95d, 0xfd6954d42be545);
  (0xdd5880a006453bb, 0x2f60b0a7bc80ad, 0x3f0e4ce1fbdd5a71, 0xd7f291e7ba9f54);
  (0xdd5880a006453bb, 0x25e6f3b9639a24, 0x5247421cfaedc5fc, 0xe16c4ed61385dd);
  (0x303ce09b3f8418f5, 0x69ba6286a34499, 0x4b8af99fbc96a838, 0xa59358ae5b653b);
  (0x4737b160d541824b, 0xf9c0a1c16ab85a, 0x9715f33f792d507, 0x211d7822df143f);
  (0x3537115b15b6ff6d, 0x954bbbf5b294cf, 0x2f36dc03d5de2923, 0x8475e08b7c50fc);
  (0x676e080a8b8193b5, 0xe823a1c508062a, 0x161b60ac1af8deff, 0x319dfabc26dfa1);
  (0x28a953af38445a5b, 0x920485a0b41ed4, 0x3a21379a8bea5a83, 0xd0bf59b0d4d661);
  (0x28a953af38445a5b, 0x74d06ae6f67f10, 0x3e7f309560d3da8d, 0xb38b3ef717369d);
  (0x64261e27803d8edf, 0xe62b8a1d689e1c, 0x19ca211126460d3a, 0x3b45885f9c5789);
  (0x2927dc3497fb2bfc, 0x9756f2d1c63061, 0x407952aadfaf2111, 0xed16217e715e24);
  (0x4ac349b805adec10, 0xdbefe4f58254fd, 0x1751767647b3f515, 0x4498f223bc249c);
  (0x5d741c2607196714, 0xdbefe4f58254fd, 0x6214c02e4d61e125, 0xe6d3df47652e14);
  (0x2a196a0abd443979, 0x9e8659dafd4f0c, 0x255bdc9265cdc3b0, 0x8cacb80803ad77);
  (0x3cc75853f02b1b51, 0xb716f7e598eb06, 0x2eb2d3b6ff41349c, 0x8cacb80803ad77);
  (0x48740d41affb6878, 0xae9b518614ab83, 0x3a5f88a4bf1181c3, 0x8cacb80803ad77);
  (0x2d4888490dfd214b, 0xae9b518614ab83, 0x284285545312a7a5, 0x9b3c9f70ca6a8a);
  (0x452e4d2ac3b6505a, 0xd566ebd85adacf, 0x12dfc1ecfaceb569, 0x3a38828f421d9f);
  (0x3d529ad6903016f8, 0x97545b54b75bef, 0x4856aa6f577892ff, 0xb28395a227ba1e);
  (0x2653a0c61a1e0e5b, 0x97545b54b75bef, 0x220309a93d5a84a4, 0x864afa7b883441);
  (0x44267f21e4e57b8d, 0xd744c66ed6ef0b, 0x3755259ab8cb50ad, 0xaec7e0752f91a6);
  (0x44267f21e4e57b8d, 0xac37052578bf3c, 0x3420cf38edc4c5f5, 0x83ba1f2bd161d7);
  (0x44267f21e4e57b8d, 0x89c59db793cc30, 0x7445e26094e2141c, 0xeb0e5575803afb);
  (0x309bfbdd050f004a, 0x9d3a8f43f648bf, 0x301f633eaffc988f, 0x9ba78c6313e478);
  (0x554f4511f363745f, 0xdcbffcec4cf45b, 0x2436b09699420c5a, 0x5db5219b9f9d23);
  (0x57ebff45394449a0, 0xb601ed2d57fee1, 0x5a88b9787f251ee1, 0xbb6a43373f3a46);
  (0x36f37f8b43caae04, 0xb601ed2d57fee1, 0x399039be89ab8345, 0xbea8dd3d305de9);
  (0x44b05f6e14bd5985, 0xb601ed2d57fee1, 0x2bd359dbb8b8d7c4, 0x74204e5b151827);
  (0x68823b775ef01137, 0xdd894c784cefb7, 0x4fa535e502eb8f76, 0xa8d4cd69b103ef);
  (0x102be821375e925f, 0x36d928b494f8b3, 0x45bdc5b2cc5853af, 0xec89f0021c4a24);
  (0x50db88a614d8dbdb, 0xdb64a2d253e2cc, 0x2dbc47a6d3fb9512, 0x7c1868fd3c9e35);
  (0x6208e95eb6fbe20, 0xd4cceef639565, 0x7256b32111f4f4ad, 0xf830d1fa793c6a);
  (0x3d4591db325d6d4, 0xd4cceef639565, 0x46aebb34e478ca09, 0xf57c18e7b91ff7);
  (0x4c96f651fef4c89, 0xd4cceef639565, 0x58df6281f76c8678, 0xf6ed8cad74eadf);
  (0x249426cfdda90739, 0x514e3ffad32f1f, 0x55cd4775f94e96fe, 0xbeb78432eb37c9);
  (0x10b5742d2714f28b, 0x3b6c658934c6fd, 0x41ee94d342ba8250, 0xea7b391628080d);
  (0x52a4090069cf74db, 0xeb1fb219170c08, 0x526a3a08136922e4, 0xea7b391628080d);
  (0x6778667ac5100f8b, 0xeb82611ad9a805, 0x673e97826ea9bd94, 0xeafecd1880d809);
  (0x4117a41e5d29e366, 0xed0d1d21e417f9, 0x19cfa5e09baa6f65, 0x5dff853d00566a);
  (0x1d2dbbf7e51fb08c, 0x55026e5260f429, 0x46b2c5734014cbe1, 0xcdf9384f3f7156);
  (0x74b6efdf947ec23, 0x11007c76e030d5, 0x69791d8524da9ebf, 0xf5d4597337490e);
  (0x24792af5de679caf, 0x8803e3b70186a8, 0x34649845c07de914, 0xc361d9e22cb291);
  (0x319251074e8716f4, 0x93e37b593d5c3d, 0x417dbe57309d6359, 0xc361d9e22cb291);
  (0xc649441d3a1c5bd, 0x1d93e5783f78d9, 0x68624b1311b30973, 0xf92145143c4b02);
  (0xc649441d3a1c5bd, 0x2f5308c0658e28, 0x3c97b7533bb33bc1, 0xe76221cc1635b3);
  (0x3df6e5492228dcb1, 0xbd4c23019638a0, 0x3d9f19cba88b7475, 0xbc3fedd0684ecf);
  (0x3e0cd828809036c0, 0x97a5c03e4e28dd, 0x3d9f19cba88b7475, 0x96998b0d203f0c);
  (0x26c80719505a2238, 0x97a5c03e4e28dd, 0x1e98adb768435915, 0x77a444aff510fc);
  (0x307a08dfa470aac6, 0x97a5c03e4e28dd, 0x284aaf7dbc59e1a3, 0x7e0af6ffa07c29);
  (0x611c959a3be7588f, 0xf30831d5a43ba7, 0x806d586f510c620, 0x14166f8cfd5cb1);
  (0x7e5d18abd4d618b3, 0xfcfd9438bc2b75, 0x201b561bd443188, 0x4047cb5cc45bd);
  (0x4fbb6cb0a044c036, 0xff6896c4070a77, 0x4036ac37a88631, 0xcdb28ac27459);
  (0x63ca6332e42a335c, 0xffbade2ebb3901, 0x4036ac37a88631, 0xa48ed5685d14);
  (0x7bc6bdda62691441, 0xfdc209983e726d, 0x141115d164a9ef5, 0x2923b55a17450);
  (0x48614b9b1fc70f35, 0xed6c08cda2dff9, 0x64556d16f751ac9, 0x1491daad0ba280);
  (0x4068ac7c05728023, 0xa90516c137d5ca, 0x2fe1af49995e0308, 0x7da640bab32fe5);
  (0x347040a99f1aff61, 0x6e16054208d4a7, 0x704a5bc59ed0832b, 0xebbc45fcbc048c);
  (0x347040a99f1aff61, 0xb0233b9cdaedd8, 0x184c40c7180ab286, 0x519d71d37c746f);
  (0x54bb713034ab2bb3, 0xe3b02b19b934b3, 0x4cbc8170b725b1e7, 0xce33bdf3791b6c);
  (0x56bb2d20140c8a26, 0xba729eb5d42f37, 0x4cbc8170b725b1e7, 0xa4f6318f9415f0);
  (0x3c0d0c006095fb7d, 0xce8c6721fe8ad6, 0x29b6a598d8674809, 0x8f79c46953fca9);
  (0x45383f3424ad5537, 0xbe77c6cb76418a, 0x2e4c3f32ba72f4e6, 0x7f652412cbb35d);
  (0x17090fcd63b9ed62, 0x32b5484da0298b, 0x73be9dfed21f643f, 0xfeca48259766ba);
  (0xb8487e6b1dcf6b1, 0x289106a480213c, 0x42efb0295613bc24, 0xebc1a374cded1f);
  (0x4a52938bced5c07e, 0xd16ad4dc901ac3, 0x10bbec0a5584ef09, 0x2f26ba4a8f95d3);
  (0x2f5ff8a3b05dd8da, 0x6aca3533503a87, 0x5b0e7f96245aaf87, 0xcd413f527fc078);
  (0x17affc51d82eec6d, 0x556e90f5d9c86c, 0x30ae299a9af0513d, 0xaf927000e899c7);
  (0x359f83f5e10e320e, 0x9ab8148b929dbf, 0x2a6e9e486a3ff809, 0x7a6df9cb50b78d);
  (0x636f99c5053ff49b, 0xe585c1104e05b9, 0x229f3021ad638888, 0x4fea6806d735c5);
  (0x3c7c839f222ffb02, 0xdf6346742ca85f, 0x15a37e150c5e3555, 0x4fea6806d735c5);
  (0x1e3e41cf9117fd81, 0x595ae8fb451026, 0x4537dc1c67778415, 0xcc82448b50f39d);
  (0x1e3e41cf9117fd81, 0x477bed95d0d9b8, 0x4ef642af9d0f65ba, 0xbaa34925dcbd2f);
  (0x436a2b455043c307, 0xfef36d758c8b59, 0x277b2157ce87b2dd, 0x954f6db7e3ca8c);
  (0x1ab9532747b2dd79, 0x50da2bd5e34461, 0x3fc906f2a2282af4, 0xc0fadbb21ed44b);
  (0x5af30ae076416b27, 0xdc219388d116c1, 0x2aab94e3f03ce836, 0x67471bcebbfac3);
  (0x3f6db2840a296ebf, 0xf5a1f9b2da88c9, 0x3ee7a565895b658, 0xf39ad9801f1a9);
  (0x4f279bdd6c80481f, 0xf53a267581d924, 0x4ea18ebeebb23ee, 0xf39ad9801f1a9);
  (0x2db86d15a0aa10f9, 0x7150f02d691551, 0x3a01ab63757deacc, 0x8fc44b5d6cf8a3);
  (0x2db86d15a0aa10f9, 0xb54e4d1574eee8, 0x3b1d41a8f9c3bb3c, 0xea6b71e8277017);
  (0x4209acdb747811f8, 0xd180068a49c507, 0xec7506a3e70eecf, 0x2ee249fb3b166b);
  (0x2e110c0b59ffe21c, 0x74ea11473a1813, 0x49e492133834aa0b, 0xbb8927ecec59ac);
  (0x77f59e1e92348c27, 0xf38f60f68527cc, 0x3e604f1061b4b184, 0x7ea54faf4b0fb9);
  (0x49c8ecb10b545ae3, 0xefb1e8e16143ff, 0xf9813c4186d2c61, 0x32a886461e064a);
  (0x358867a579caba93, 0x8b1fb9de7cb285, 0x4df862d47a21dde5, 0xcaa21918781928);
  (0x67490922f00de649, 0xd6bd1482fdfe67, 0x20e0329e7cfb261e, 0x4459f6fe30f589);
  (0xd7e2f4d4d254b47, 0x2ce274024838d7, 0x44b24f3eeb4e9404, 0xe48567f67b9d4d);
  (0x2c28f26a551e3b8f, 0x7585019b591401, 0x4103eabc7da03a4a, 0xad0534c8ea58a7);
  (0x6d2cdd26d2be75d9, 0xe86e91e9cf8a20, 0x1aae76d833a90df0, 0x38cdebd4029397);
  (0x45272ae28540e0f1, 0xeb8f804612adfc, 0x10ad0a472049a8b6, 0x38cdebd4029397);
  (0x4818ec914b462c12, 0xc478dbccd8e8db, 0x29b099b1d0b825c7, 0x719bd7a805272e);
  (0x695351255b5eba3c, 0xe59e10a860cfed, 0x4aeafe45e0d0b3f1, 0xa353a6f15101c9);
  (0x1e6852df7a8e064b, 0x6a10a924e616a0, 0x329fe9479bd43140, 0xb095bc15edc49d);
  (0x2b104d316183129b, 0x782b46884e0639, 0x3f47e39982c93d90, 0xb095bc15edc49d);
  (0x2b104d316183129b, 0x60229ed3719e94, 0x4f19dc7fe37b8cf4, 0xb095bc15edc49d);
  (0x425a2342ca2741f9, 0xecffb1023facce, 0x8218c17448ccb8e, 0x1d0af1ca66f71b);
  (0x233574a73636d3e0, 0x649baa5c94768b, 0x378952e16196d0c3, 0x9eb18df16264c1);
  (0x5abec78897cda4a3, 0xcf70f9d7f8af70, 0x2ebbf5b794091bcb, 0x6ad54f7b6438e5);
  (0x1b81c322a25ad587, 0x649baa5c94768b, 0x343c4ff1b481ace6, 0xbf0e07a4be0c57);
  (0x51d37bd30303810b, 0xef6d56408222c1, 0x1a1e27f8da40d673, 0x4c6c030eb26b56);
  (0x5e044ed55313acd8, 0xdc14039bcd4cfd, 0x6a3521d7a323d8a5, 0xf89d5bd0cc17c6);
  (0x3ac2b14553ec4c07, 0xdc14039bcd4cfd, 0x23b1e6b7a4d51703, 0x85b08e931cfcda);
  (0x464b168c2b77e689, 0xd29e31b3512a72, 0x2976195b109ae444, 0x7c3abcaaa0da4f);
  (0x3bed903567512d78, 0x8fa60206ed8fe5, 0x33d39fb1d4c19d55, 0x7c3abcaaa0da4f);
  (0x25747a216092bc6b, 0x8fa60206ed8fe5, 0x2c55edab27d777a6, 0xaa0993dc6b73b7);
  (0x2d193bc746e63cb7, 0x8a5ee4dc3ac8bb, 0x33faaf510e2af7f2, 0x9f7b598705e563);
  (0x5785f908f528d44a, 0xd6d481df1d68e1, 0x2a6cbd41ae429793, 0x6822312eee61e5);
  (0x2e6f7b0a13380f49, 0xb65d671ae55c0c, 0x158bee718a35c06e, 0x549e940c3208ef);
  (0x47b296048094f89c, 0xe142cd53e901b3, 0x35ddd41bd9866113, 0xa93d28186411de);
  (0x599f3b85a0ba36c3, 0xe142cd53e901b3, 0x23f12e9ab96122ec, 0x5a56c3cf87dac1);
  (0x74941e79abc310f4, 0xea6980260beb03, 0x2ced7a4167b96ba7, 0x5a56c3cf87dac1);
  (0x47a6a4384409a54d, 0xe684608a6ce6d0, 0x250940efe95517f2, 0x77274fe0d5779b);
  (0x80c6168330500b1, 0x14b6f6b07847c3, 0x5c972257c754bbdd, 0xee4e9fc1aaef36);
  (0x80c6168330500b1, 0x10925ef3936c9c, 0x79c633fbdf6dab59, 0xfabc66f85980ab);
  (0x80c6168330500b1, 0x1a83cb1f524760, 0x4714239c4bc16aa9, 0xea2a0804c6140f);
  (0x80c6168330500b1, 0x15363c190e9f80, 0x5ee2759184f585d8, 0xfa12b517910baf);
  (0x377d9c30f57fc39d, 0x74ffabb7128446, 0x769b12f5e632e74e, 0xfa12b517910baf);
  (0x377d9c30f57fc39d, 0xbb32ac581da070, 0x2082b6b4f7bffddb, 0x6dacb3d57ad35b);
  (0x160014b97b4ff05e, 0x3b5fe0091e7d8f, 0x4a8d3ea2e98033cf, 0xc9334f31715730);
  (0xb000a5cbda7f82f, 0x17bff336d8ff06, 0x72e0d93c76fcb454, 0xf806f17e6034b9);
  (0x370033cfb447d8eb, 0xbdff99b6c7f830, 0x1edc2ab2ab5b8ad1, 0x6a9ade69b5a1cd);
  (0xc12048e8476270d, 0x215b7e1ed4228e, 0x532f6d05ee9fee91, 0xe5e37be2d554e1);
  (0x659e2093a177f1d7, 0xe0a9923ea78cc5, 0x2fa0b8ca398b0acf, 0x694c6400aa2fc6);
  (0x21be60dde0f41065, 0x775d2e3dfd5cff, 0x43dfbfb5c083e172, 0xf018888ca85109);
  (0x5a69fe157e906d15, 0xffdcd66a1bdf06, 0x18bf7e7fa6f02a, 0x4608d022b7cf);
  (0x710cba7073041cf5, 0xffef7ca56a6903, 0xc5fbf3fd37815, 0x1c0386744986);
  (0x34bee13e5b69de27, 0xbf0f19414d2ea9, 0x34fcbffa9a8b3690, 0xbfef3574ef7ad9);
  (0x277fb13fb4c71083, 0x7275d6500dd98f, 0x423beff9412e0434, 0xbfef3574ef7ad9);
  (0x69bba138f5f514b7, 0xf51da303fddd20, 0x52caebf791798541, 0xbfef3574ef7ad9);
  (0x2e8186e7756962b5, 0xac800dc9e0153d, 0x23a948ab6f9ddec3, 0x8446655786a15e);
  (0x2e8186e7756962b5, 0x8a000b07e67764, 0x3833fc9028dfaf21, 0xa6c66819803f37);
  (0x692220e1cb26a4f1, 0xf9933b84a42073, 0x3aa099fa55bd423c, 0x8b2ccc4b1ef423);
  (0x14489b5da8db884, 0x4d0ab3424c42b, 0x42f20feba667f837, 0xfe46409186136f);
  (0x51226d76a36e21, 0xf688a4075a6f, 0x5408ef60ad0e911c, 0xff58cf735fe0c3);
  (0x5e384c9e38bc040e, 0xe50933192edb7b, 0x5ca2a07ae78add69, 0xe12f10891171bf);
  (0x3cde470f08f2f2d7, 0xecbd783969aef3, 0x16c33d15e5966db1, 0x58885f30619cce);
  (0x14e861093ba25822, 0x410df7e1f5758d, 0x47ff6f5b04ab7431, 0xe0058cfd9b881e);
  (0x3444f2971515dc55, 0x821befc3eaeb1a, 0x33ae00746f0f7c32, 0x80a433869e49c7);
  (0x69b7c973763878f, 0x1a50bc003e4f49, 0x3f20233aebc36ae7, 0xfb6976180a0e42);
  (0x2f2a989d02099ea1, 0x9647e205bb9689, 0x3d4bc245ef219777, 0xc34cd40a7defee);
  (0x57449c658d8740d7, 0xde7108d41199e6, 0x4a482f55be546c27, 0xbd573fa16e601f);
  (0x57449c658d8740d7, 0xb1f407100e14b8, 0x47091411ca87b6fb, 0x90da3ddd6adaf1);
  (0x299add284e63af30, 0x87be109c510505, 0x3eeb4fe7e907f20d, 0xcd488ed35b967c);
  (0x3401947261fc9afc, 0x87be109c510505, 0x3eeb4fe7e907f20d, 0xa43a0bdc494530);
  (0x4101f98efa7bc1bb, 0x87be109c510505, 0x4bebb504818718cc, 0x9e87a669179ec1);
  (0x29fe73680d6ec3f7, 0x8c4cc82babf091, 0x34e82edd947a1b08, 0xb0c284a6834cf1);
  (0x29fe73680d6ec3f7, 0x703d6cefbcc074, 0x42223a94f998a1ca, 0xb0c284a6834cf1);
  (0x2e751e76d5bffd80, 0x635601cb2ea45b, 0x750e041a97a9d8d3, 0xfa49b02895b91a);
  (0x5cea3cedab7ffb0, 0x13de005bd620df, 0x4a3dc569c711579f, 0xfdfd61b3127c28);
  (0x7424cc29165ff9c, 0x13de005bd620df, 0x574eb5fb332f56eb, 0xeef3e867c36b4b);
  (0x912dff335bf7f83, 0x13de005bd620df, 0x6ee62f738bbad5a6, 0xf2d12141c911b3);
  (0x2d5e5fc00cbd7d8f, 0x9ef002deb106f8, 0x1dbdcdd80f8679da, 0x683107a7e62c61);
  (0x3c9e1c2a0f3a9de0, 0xa9e301e9a665e3, 0x2cfd8a4212039a2b, 0x7e1705bdd0ea37);
  (0x4bc5a33493094558, 0xa9e301e9a665e3, 0x2cfd8a4212039a2b, 0x64df37cb0d882c);
  (0x2f5b8600dbe5cb57, 0xa9e301e9a665e3, 0x3feef30f36c5eb81, 0xe5598d3bf1cf6e);
  (0x1bd29e4404aaedb6, 0x4fd8e96deb3ddd, 0x45432ee7e7db3e1f, 0xc6c600128210f3);
  (0x458e8baa0bab5247, 0x9fb1d2dbd67bba, 0x6f24caaf00c3acc4, 0xff2c67f9398ee1);
  (0x30daf9243c502b55, 0xb3775d15258753, 0x1bc932abc030eb31, 0x6611c3307d6c5a);
  (0x51e89d6e1b88e68f, 0xf0b53898a3fb89, 0x1bc932abc030eb31, 0x51a7cf59fdf048);
  (0x3735a6b2371f5fa1, 0x81cc0ddeeb88fd, 0x53b856a889d53854, 0xc4d32f890c3823);
  (0xd597b5df234c377, 0x3237235d6f14ac, 0x3afff3d84f3fa4f0, 0xddeec137c3c279);
  (0x399972402da47f2b, 0xad54f69f67eb9f, 0x49bff0ce630f8e2c, 0xddeec137c3c279);
  (0x5e796aa75f2c4641, 0xe37045c907d716, 0x5c2fed01fbd371b7, 0xddeec137c3c279);
  (0x17552af52b5ff6ff, 0x59dfce335beb83, 0x4047c6c209c1d1a4, 0xf7995855037015);
  (0x7433944a8ef8296, 0x16612ce4e272cb, 0x5059b8728c32460d, 0xf7995855037015);
  (0x3fc756586b238b6e, 0x9d39fe751af0e5, 0x2d9f472cc4ccc4f7, 0x7077a4ab560b4f);
  (0x1fe3ab2c3591c5b7, 0x7dc7fec4158d84, 0x310e2e2ce89b84c7, 0xc17d49a5a6b33d);
  (0x3b7cb5983e611baa, 0xbbb5557305747b, 0x2878ecac8f16a53f, 0x7fb5502a4b4d1a);
  (0x63f5a244cd77c0e9, 0xfc55514aa70144, 0x4b949068e63a3ec9, 0xbecaa47cf50d6b);
  (0x6a0de6bbc7472171, 0xd62cc9fe75fe95, 0x4b949068e63a3ec9, 0x98a21d30c40abc);
  (0x130bd5f3cca80da9, 0x3d8aaccdb1f3d9, 0x4b949068e63a3ec9, 0xf436951ad34460);
  (0x5f3b2dc2ff48444d, 0xf62ab336c7cf64, 0xe222e9d46648c48, 0x2488c80f6d101b);
  (0x7b7f8afd8c115cdd, 0xff6369114e5948, 0x11aaba4497fdaf5a, 0x2488c80f6d101b);
  (0x4000000000000000, 0xd3c21bcecceda1, 0x2c2ad1ab7bfa3661, 0x9223203db4406c);
  (0x1000000000000000, 0x2a5a058fc295ed, 0x5cd618596be30fe5, 0xf5bc5478bc5248);
  (0x400000000000000, 0x878678326eac9, 0x782e79bf1b6f4f79, 0xfe7e8bd3de699a);
  (0x80000000000000, 0x1b1ae4d6e2ef5, 0x4b6860bb892c8d5d, 0xff7dc6bb9884f9);
  (0x20000000000000, 0x56bc75e2d631, 0x5e69e3a9addec2d1, 0xffe89dc1f4551f);
  (0x8000000000000, 0x1158e460913d, 0x760972506559ce15, 0xfff3a47255f7ff);
  (0x1000000000000, 0x3782dace9d9, 0x49c93b91fac10669, 0xffff30d8712f82);
  (0x400000000000, 0xb1a2bc2ec5, 0x5c3ba9d9e5c5200d, 0xffff87f738bc96);
  (0x100000000000, 0x2386f26fc1, 0x734ac1417cd9a041, 0xffffebc1b5e29f);
  (0x20000000000, 0x71afd498d, 0x480ebe4770402145, 0xffffff46a21144);
  (0x8000000000, 0x16bcc41e9, 0x5a126de53140a659, 0xffffff68704e45);
  (0x2000000000, 0x48c27395, 0x70970999f6433fbd, 0xffffffefa94249);
  (0x400000000, 0xe8d4a51, 0x465e6601cf503eb1, 0xfffffff56c17c8);
  (0x100000000, 0x2e90edd, 0x57f5ff850c913975, 0xfffffffd886f2c);
  (0x40000000, 0x9502f9, 0x6df37f673ed61f49, 0xffffffffb53228);
  (0x8000000, 0x1dcd65, 0x44b82fa09a2e9c6d, 0xfffffffffba37c);
  (0x2000000, 0x5f5e1, 0x55e63b88c0e90e21, 0xfffffffffc2eef);
  (0x800000, 0x1312d, 0x6b5fca6af28d46a5, 0xffffffffff8de8);
  (0x100000, 0x3d09, 0x431bde82d7b26139, 0xfffffffffff167);
  (0x40000, 0xc35, 0x53e2d6238d9fe61d, 0xfffffffffff439);
  (0x10000, 0x271, 0x68db8bac710c7e91, 0xffffffffffff81);
  (0x2000, 0x7d, 0x4189374bc6a7d8d5, 0xffffffffffffa7);
  (0x800, 0x19, 0x51eb851eb851e429, 0xffffffffffffe9);
  (0x200, 0x5, 0x66666666666664cd, 0xfffffffffffffc);
  (0x40, 0x1, 0x4000000000000001, 0x100000000000000);
  (0x50, 0x1, 0x5000000000000001, 0x100000000000000);
  (0x64, 0x1, 0x6400000000000001, 0x100000000000000);
  (0x7d, 0x1, 0x7d00000000000001, 0x100000000000000);
  (0x271, 0x8, 0x4e1fffffffffffb2, 0xffffffffffffff);
  (0xc35, 0x20, 0x61a7fffffffff4f0, 0xffffffffffffe3);
  (0x3d09, 0x80, 0x7a11ffffffffe4d2, 0xffffffffffffc7);
  (0x1312d, 0x400, 0x4c4b3fffffff363d, 0xfffffffffffd5b);
  (0x5f5e1, 0x1000, 0x5f5e0ffffffabc90, 0xfffffffffff1df);
  (0x1dcd65, 0x4000, 0x773593fffff2c362, 0xffffffffffe393);
  (0x9502f9, 0x20000, 0x4a817c7ffff6e513, 0xffffffffffe0b7);
  (0x2e90edd, 0x80000, 0x5d21db9fff8df70a, 0xfffffffffec68b);
  (0xe8d4a51, 0x200000, 0x746a5287f89cd89a, 0xffffffffefc14f);
  (0x48c27395, 0x1000000, 0x48c27394ece2fe2e, 0xffffffffbcc043);
  (0x16bcc41e9, 0x4000000, 0x5af31079ce15122c, 0xfffffffebf59a7);
  (0x71afd498d, 0x10000000, 0x71afd498b385448b, 0xffffffffbfdebb);
  (0x2386f26fc1, 0x80000000, 0x470de4bcdadde202, 0xffffff83265fbf);
  (0xb1a2bc2ec5, 0x200000000, 0x58d15d6ed974819c, 0xfffffe1a3adff3);
  (0x3782dace9d9, 0x800000000, 0x6f05b4c17620f1a2, 0xfffffe053ef997);
  (0x1158e460913d, 0x4000000000, 0x45638d10933bf9e5, 0xffffef9aa631eb);
  (0x56bc75e2d631, 0x10000000000, 0x56bc3c6583892673, 0xffff5652213d2f);
  (0x1b1ae4d6e2ef5, 0x40000000000, 0x6c6b43eedea928f8, 0xffff4476d372a3);
  (0x878678326eac9, 0x200000000000, 0x43bc6b726bfb094b, 0xffe640e490b087);
  (0x2a5a058fc295ed, 0x800000000000, 0x54abfca82ff7da3c, 0xffe7a6941cf01b);
  (0xd3c21bcecceda1, 0x2000000000000, 0x698a563e71a4a4b5, 0xff2e548405c99f);
  (0x422ca8b0a00a425, 0x10000000000000, 0x40c9b64e5162fab1, 0xfaa2ddb4012853);
  (0x14adf4b7320334b9, 0x40000000000000, 0x515663a171e2d7f3, 0xfbba2c57336e77);
  (0x6765c793fa10079d, 0x100000000000000, 0x578af43bbf032156, 0xd8bed5ab0a494b);
  (0x26b05061df36f727, 0x994307a9b20e3d, 0x24cad06c76646612, 0x91bfc45568750f);
  (0xa257415d202620f, 0x2027a8993254af, 0x47b020e383f63b0f, 0xe33037786c40c0);
  (0x56bdd1f18d806afc, 0xdbea713cf70307, 0x28eaca7caafc4e8f, 0x67bcc0070c3bc6);
  (0x69f927f1d51c9ecc, 0xd6f0772a379809, 0x67850975b958b7dd, 0xd1f67d17782d0b);
  (0x3770b27506523655, 0xb3e9ef72f85804, 0x26835fbca208c815, 0x7cfb7f70bb6c07);
  (0x59b8bd838f48a2da, 0xe8ee424f506da3, 0x22480b0e88f66c85, 0x58ffe92689c0d3);
  (0x69973b106d4d7a36, 0xdb4dab73fe7ee7, 0x279234e8284d5ef9, 0x522f9db8e0c975);
  (0x1db428ec1ee9b616, 0x62b527c871fb8f, 0x380cf53438ddb6ed, 0xba429754dc1ab3);
  (0xeda14760f74db0b, 0x277ba98360cb06, 0x58251d6558114aaa, 0xea545d5de56ed1);
  (0x4a048ef68c1d5151, 0x9d6b2082a34ea1, 0x49c6b79ecaf25b6b, 0x9ce79af7c3712a);
  (0x1eebabe0957af3, 0x6937a24cb12c, 0x4b28dcf0d334dbb2, 0xffc143a2b620cd);
  (0x1732d13dba1d3e92, 0x3f26ffa3b0a261, 0x5c30aa9b85899389, 0xfaf720058fc4d4);
  (0x4b17dadaeb6957fb, 0xa389d93f83bde9, 0x5c30aa9b85899389, 0xc8c5b337a63710);
  (0x42157ff8abcf4d33, 0xe644e22d1440d3, 0x88c67e04d101dc7, 0x1dc97b2ce860ec);
  (0x2550f3ec7c6fb57d, 0x6805bef0cb73e6, 0x4d5871937b4fdaad, 0xd79b94c301efb1);
  (0x68a78616380786de, 0xe9631832996a1d, 0x4d5871937b4fdaad, 0xac7c770267f2f4);
  (0x13e8b5e3762edbe8, 0x4709abb6ff44e3, 0x3e8bb454ee3e3a1b, 0xdf2baba46cf796);
  (0x18e2e35c53ba92e2, 0x4709abb6ff44e3, 0x48800f46a955a80f, 0xcef39accbd4806);
  (0x5c3e8733110e9e84, 0xd2a60c9b4a659b, 0x1e074ecc3fbc2f4f, 0x4492b52d4bdbd5);
  (0x4604448332c2d43a, 0xffd2ddc00e1855, 0x37bd67fbdbc43d7, 0xcba8e6b943525);
  (0x55c76a642095675d, 0xfabb7195060313, 0x37bd67fbdbc43d7, 0xa2ed856102a84);
  (0x65c8d1a85017e6cd, 0xee035570c1d5e1, 0x27bc00b7ac41be00, 0x5cea3cedab7ffb);
  (0x2f2650abc33d818d, 0xb068690ff00973, 0x18d58072cba916c0, 0x5cea3cedab7ffb);
  (0x3b9110e529120ced, 0xb24ad2d237d45a, 0x1f0ae08f7e935c70, 0x5cea3cedab7ffb);
  (0x4b16812ce85bbb25, 0xb3ccc1073e1046, 0x26cd98b35e38338c, 0x5cea3cedab7ffb);
  (0x341859d9b782f0e7, 0xc796befacbc035, 0x3080fee035c6406f, 0xb9d479db56fff6);
  (0x3332831b5713c4c9, 0x9ceb57c2587351, 0x2eb5516374e7e833, 0x8f2912a2e3b312);
  (0x1ab88dfba414d98a, 0x4184fdba6dee2d, 0x5fa93ba2dae5beb1, 0xea8f6caace3836);
  (0x3ca81222b8561aca, 0xedf78cde7788df, 0x3682c150567815bb, 0xd5db22d337590a);
  (0x123cacf1df04893a, 0x393ce030fe61b5, 0x4eb1798f50c51e11, 0xf6fb98f8f58aea);
  (0x4742eb6eeeaa7f2e, 0xb2ed10a82cc05b, 0x60ee26812fc9a74b, 0xf36060ee5cbd4c);
  (0x289c930a12704b54, 0x51935048d474a3, 0x60ee26812fc9a74b, 0xc2b380beb09770);
  (0x32c3b7cc970c5e29, 0xa326a091a8e946, 0x49d8ef26e36b02ba, 0xed561dae2e8763);
  (0x2bd817b00460efc3, 0x70ba4629e67863, 0x60ee26812fc9a74b, 0xf937af08901e00);
  (0x391d9b644f3b1da5, 0x757ae6b473e7d5, 0x7b792de9c57e030f, 0xfdf84f931d8d72);
  (0x451584751947f31d, 0xe35b32f19f1d5a, 0x2729bdcb2027dd71, 0x80e2ce6760f34d);
  (0x3d9a92ca9affedb2, 0xa230e17272dbdf, 0x55ce6d40be97c04d, 0xe1e95e5aa78db1);
  (0x1ecd49654d7ff6d9, 0x40e05a2dc78b26, 0x6ab5903f4d3b80c9, 0xe0c1811514b45d);
  (0xbd337aecd91145d, 0x27d9b3ecba015a, 0x47179ba5daf75ef0, 0xef948ec0c12beb);
  (0x52ead354a888734d, 0xdf8b688ac8f104, 0x58dd828f51b536ac, 0xef948ec0c12beb);
  (0x1044b1692b408a4c, 0x23166461c67343, 0x6f14e33326228457, 0xef948ec0c12beb);
  (0x3da4342103497608, 0xd4b77b3b44ceb1, 0x294e565d8d38c929, 0x8e8ab277b7e82b);
  (0x4d0d4129441bd38a, 0xd4b77b3b44ceb1, 0x294e565d8d38c929, 0x72088ec62cb9bc);
  (0x72c940ed719521e9, 0xfd830fb73c017a, 0x163dae475956fb2, 0x311ed436a875b);
  (0x2d34179450b3d6dc, 0x9fbc3be3ccd925, 0x30adbacf76a96e19, 0xac03f0f176f691);
  (0x38811d7964e0cc93, 0x9fbc3be3ccd925, 0x30adbacf76a96e19, 0x899cc0c12bf874);
  (0x52ccd38b9bc35b3e, 0xbb41fc0a6f3e09, 0x30adbacf76a96e19, 0x6e17009a899390);
  (0x3feb72eb1f04748d, 0xe74b2f7b7312a9, 0x30adbacf76a96e19, 0xb024cdc40f5280);
  (0x3cf6e06ea16c19d, 0xb07ad24ad8cd5, 0x572c06f1d3aa2458, 0xfc587c3071bbe3);
  (0x4753981658125e0f, 0xa52e54ba56de3b, 0x344671f3c5a095fe, 0x790fa027a0aae7);
  (0xb4c17c71d5084c4, 0x29dc350f690383, 0x3ee78e36be2e5a63, 0xe91542420c968a);
  (0xe1f1db8e4a4a5f5, 0x29dc350f690383, 0x52acb7d3317b42ba, 0xf51218e4037d59);
  (0x469b949c77373dc9, 0xa770d43da40e0c, 0x29d9da8a2355c99e, 0x633f11734b83af);
  (0x33a3da8ab619fcd1, 0xc3efc34044ca23, 0x14eced4511aae4cf, 0x4f65a78f6f9c8c);
  (0x122431f3f1f13868, 0x3711155cbdae23, 0x44583e717474073b, 0xcf7473844315ea);
  (0x16ad3e70ee6d8682, 0x3711155cbdae23, 0x567c706566653fa3, 0xd2046d80cd69a4);
  (0x23cb631fee9dc3fa, 0x8b12dac3763ecb, 0x32b10d4577c77ba9, 0xc4f43ad76c03d5);
  (0x18003b537129527, 0x4a99eebe88a8b, 0x51fc6545c12d802e, 0xfed59aeb61c8df);
  (0x18003b537129527, 0x3bae58986d53c, 0x65bb7cbc95ef95a6, 0xfcf828269e5e41);
  (0x1d2ee8742f2a5a4b, 0x741ba6358de10a, 0x280653693d11128f, 0x9f3de32a397c9f);
  (0x3d13aba5a1ce62a7, 0xc26649536bba61, 0x255078abf997647e, 0x76c443240baafb);
  (0x1535b7a7d2815834, 0x3601a9808f285b, 0x5d492dadeffa7b3b, 0xed8886481755f6);
  (0x1a832591c721ae41, 0x3601a9808f285b, 0x6d31776bcddb7d62, 0xde6e3786cef695);
  (0x4c648f90a4104665, 0xf8fbde61c50640, 0x705658907f3041c, 0x16e22db4568793);
  (0x5df20d6737efd0ab, 0xf4f44083b11426, 0x8c6beeb49efc523, 0x16e22db4568793);
  (0x26d851758f5f8d28, 0x510719b0695b6f, 0x79925d83906df3ff, 0xfd96ea322cd52a);
  (0x184732e9799bb839, 0x510719b0695b6f, 0x3a72d9248772ae9e, 0xc31233ec029a89);
  (0x5ea3aed181601159, 0xfcaf854be12a41, 0x1ac04fbddeaa87c4, 0x476ce175c4437b);
  (0x6553c2c0f90ab34a, 0xd86efe210e95b3, 0x217063ad565529b5, 0x476ce175c4437b);
  (0x32a9e1607c8559a5, 0xad25981a72115c, 0x1d2204408cc91db9, 0x63905ce4ec029f);
  (0x552ddce9053d8659, 0xe8e29ca3cc7955, 0x1d2204408cc91db9, 0x4fa6b0b723354c);
  (0x3927f094c9035209, 0x7d03b88ac645da, 0x656902ebc4787353, 0xddcf3db3a98d85);
  (0x3927f094c9035209, 0xc805f4113d3c90, 0x46869fe5f3ebb255, 0xf6cffc35d13517);
  (0x327898ec338f21e3, 0x8d4d8ccbf5cd0a, 0x432ef411a9319a42, 0xbc1794f089c591);
  (0x2a08097a8413f782, 0x5e23bc81b11321, 0x53e54f371ed412a1, 0xbbe7b0ddb164e0);
  (0x150404bd4209fbc1, 0x4b4fca015a75b4, 0x3995985b11f2a0d7, 0xce5bdb385740eb);
  (0x52b2757ddb1d1a69, 0xed1505db963f03, 0x3c50d3496c084a0d, 0xaceae3b1c2a736);
  (0x584ade0af6e24e80, 0xca7fa51e6f50c5, 0x3c50d3496c084a0d, 0x8a5582f49bb8f8);
  (0x372ecac6da4d7110, 0xca7fa51e6f50c5, 0x314777880d2c003d, 0xb4d5b081494aff);
  (0x44fa7d7890e0cd54, 0xca7fa51e6f50c5, 0x314777880d2c003d, 0x90aaf39aa108cc);
  (0x56391cd6b51900a9, 0xca7fa51e6f50c5, 0x53c4b644559c66e7, 0xc4bbd1bb13c0f2);
  (0x13a33492fbe4ce1, 0x49ca91c493fdc, 0x42f83acaeee7c49a, 0xfba653505b1637);
  (0x1b2cc2a0d18b7e9f, 0x51b0f5039de9e3, 0x4b63477485eafb78, 0xe2a03a99b4be39);
  (0x3ead76055327bcff, 0x96bbd9e9f071af, 0x4932571ec491bc1c, 0xb007fa248735dd);
  (0x3ead76055327bcff, 0xf12c8fdcb3e918, 0xe68bb7091473712, 0x3771b2362d4151);
  (0x4d163175e46ef411, 0xed4b680f1a8854, 0x388e0307a7d07edf, 0xae17663dba857b);
  (0xa4417371e4f3a99, 0x194800ba26678a, 0x5f309f1b1b24b57d, 0xea6ac935c83909);
  (0x3e4b7ed57872491d, 0xf57454d8d01da6, 0x57b8560f0731210, 0x159a2783ce70ab);
  (0x3faa602db48f0da1, 0xc8af18949c94a7, 0x4684c6e6e11ee435, 0xde4940186b0552);
  (0x4317938a4ad6f8eb, 0xa93023786970ca, 0x4ba893f1c28ac524, 0xbeca4afc37e175);
  (0x6c7c25de2e928d2b, 0xdadb0d1dec72dc, 0x12ea24fc70a2b149, 0x26287565a4c6b1);
  (0x462adc4a6b2fee64, 0xe27cbe32409a99, 0x12ea24fc70a2b149, 0x3d0d88a2a13de8);
  (0x2474dc0f0b6eace2, 0x5e23c68c2783a5, 0x5e92b8ee332d766d, 0xf436228a84f7a0);
  (0x5b2426259c94b035, 0xbc478d184f074a, 0x3866937adc72666f, 0x74833586a37d61);
  (0x115ec955601124e3, 0x3969dfa7bc6e54, 0x422886043b8ab6d2, 0xdaabf32357df2d);
  (0x1939862bbeeb4026, 0x42b323b0902591, 0x59b8bc875819089b, 0xed3e7b34ff4da7);
  (0x3f0fcf6d5d4c205f, 0x85664761204b22, 0x590109103a283490, 0xbc46fcd92fed41);
  (0x28cf8d294ec2133b, 0x8a20d9de207fb6, 0x37a0a5aa245920da, 0xbc46fcd92fed41);
  (0x28cf8d294ec2133b, 0x6e80ae4b4d32f8, 0x59f095a954d072ae, 0xf38753fed686bd);
  (0x57dc36d3a6fd5fa0, 0xbe51781d6c653b, 0x31210880060e5f73, 0x6a6bb7c2d44304);
  (0x36e9a244485e5bc4, 0xbe51781d6c653b, 0x47181634efcdb75b, 0xf66689437efa1e);
  (0x44a40ad55a75f2b5, 0xbe51781d6c653b, 0x54d27ec601e54e4c, 0xeb2f1f6f14dc57);
  (0x1a3acb7259834b8f, 0x3a2e5384b4c5a6, 0x6a071e77825ea1df, 0xeb2f1f6f14dc57);
  (0x243455d2fe9eb659, 0x807d7b3667a72d, 0x31dfb3e3398915f2, 0xb100cbea6016b1);
  (0x243455d2fe9eb659, 0x66cac8f852ec24, 0x5071cbc5873ab69b, 0xe4663066898cc3);
  (0x2b3f233fdbc71175, 0x623aa9472561a5, 0x5e87669f418b6cd3, 0xd6b5d15300ed46);
  (0x2b3f233fdbc71175, 0x9d2aa871d56908, 0x2adcf2eb968c7d78, 0x9bc5d22850e5e3);
  (0x40ad9cb5a70d5031, 0xbc0adad197e32e, 0x35942fa67c2f9cd6, 0x9bc5d22850e5e3);
  (0x12f1c271347ac0e3, 0x2c0ffa4bc62ce5, 0x600ef23dcd818651, 0xdf6bafb91571fc);
  (0x12f1c271347ac0e3, 0x467ff6dfa37b08, 0x3e678fb4c7004c0f, 0xe83bae9509e15d);
  (0x12f1c271347ac0e3, 0x38665f194f95a0, 0x49450305aba1aeda, 0xda2216ceb5fbf5);
  (0x67912bbed710cfb4, 0xf6aa8e1e0fb371, 0x8d85f88d0ab0b45, 0x151111b8d15cf1);
  (0x19e44aefb5c433ed, 0x62aa9f3f397afa, 0x3cf35f3d9a51ea10, 0xe84435c21bac3b);
  (0x53beef4059179415, 0xff4e5cbba21e2b, 0xf3cd7cf66947a84, 0x2e740ac06bef3f);
  (0x62fbc70fbfac0e99, 0xf16852c9a4d788, 0x130c0dc340399925, 0x2e740ac06bef3f);
  (0x13fbee531fdc9d5d, 0x4dfb5003b05cea, 0x399c1991b07e4d8b, 0xe0cdd30387eb71);
  (0x3ac7f245880a12d1, 0xb77fe79f706746, 0x263617987c6792d1, 0x77493b67c7e115);
  (0x3ac7f245880a12d1, 0x92ccb94c59ec38, 0x5bd99332c18905a2, 0xe562c6610b523f);
  (0x3791281a7e38aed1, 0xde096c6f07c583, 0x277f35434d21bad1, 0x9dd2c0375f3f52);
  (0x3791281a7e38aed1, 0xb1a1238c06379c, 0x237ab88d80dbfdd1, 0x716a77545db16b);
  (0x3791281a7e38aed1, 0x8e1a82d66b5fb0, 0x560644c4bfbd8062, 0xdbfe59752e392f);
  (0x3791281a7e38aed1, 0x71aecf11ef7fc0, 0x4fbf41e8b0908912, 0xa326f1ec36794f);
  (0x2fb864876b4079ad, 0x9c35066cd56386, 0x4bd2e01f27146e80, 0xf83360a20240db);
  (0x4c7c11070cbbd7ba, 0xc84a908dbb5f11, 0x55a1d496fecab0ed, 0xe03ef897decff6);
  (0x34ca2afd50857532, 0x6e97c6b7623f15, 0x55a1d496fecab0ed, 0xb36593acb23ff8);
  (0x25fafb373ae3779d, 0x7f4ef76b698b29, 0x3803750ad386b5c3, 0xbbc12c06b5e602);
  (0x54fa335842188e4d, 0xe3df3a83943632, 0x2083d8fa4fec2a6b, 0x5730e8ee8b3af9);
  (0x1a3b2d2ef91631f1, 0x3845ba3b9d314a, 0x5e67350944598304, 0xca84aefae50e97);
  (0x481e17bd47430adb, 0xf78943f762cf9f, 0x2de2ea8e4e2cd8ea, 0x9d8019fe674d8f);
  (0x1a3b2d2ef91631f1, 0x480754c72f9b40, 0x46793bc95e43281d, 0xc183c461ff1b2f);
  (0x254ab0d592616f7c, 0x51eb8d57e92f63, 0x5c98431690d9a333, 0xcb67fcf2b8af52);
  (0x2e9d5d0af6f9cb5b, 0xa3d71aafd25ec6, 0x20501f3b318847cb, 0x7192a8c0a16fd3);
  (0x2b0a0d97059d6a77, 0x7904cb5cd1b5a1, 0x44338dea546cf07a, 0xbfc524ca727c4f);
  (0x637c8520d4554045, 0xdfca568a6ce52d, 0x2691ea4617e9f15a, 0x56c2f24d9dfb1d);
  (0x2755d9227e0d0a93, 0x8d92b3ff8a58bd, 0x3916f08cbdbbd0ce, 0xcd791536ed93b7);
  (0x21f0a8b46e75797d, 0x61b94c3e00743d, 0x4ad807f6fd6a9709, 0xd77f91f1da3ef4);
  (0x6c583ca251dbb31f, 0xf990dd5362ddb2, 0xa39d7d0a3bd4763, 0x178e0df0c5288b);
  (0x3e5c01583aa49ade, 0xe5d380fe400edd, 0x25d46823cf1cffef, 0x8b6bfad6cdc667);
  (0x188799346b879aef, 0x4852d1b92839f8, 0x41af35141389f41e, 0xc1aa1821abf1e1);
  (0x5a36ce487f118f0d, 0xd4ca54af102314, 0x24ff9b34d8e3a99f, 0x5744edca23e057);
  (0x3d023453ea876e9c, 0xe63e843de41cbf, 0x24ff9b34d8e3a99f, 0x8ba17c769fcd58);
  (0x4c42c168e5294a43, 0xe63e843de41cbf, 0x4380b55ece2760ed, 0xcbcd654474afc6);
  (0x2851e3b6f8551f77, 0x6162d4b10b214b, 0x63108d0baf7a970e, 0xef4640204289ef);
  (0x2a9f7c6ab02f2a7b, 0xa4b7d8dae776bd, 0x362377ed4771618f, 0xd1386f9913be16);
  (0x27be7d8a0a5e9cb6, 0x7adfc28916b71f, 0x362377ed4771618f, 0xa760594742fe78);
  (0x609f17a835de4306, 0xeef96742d432f5, 0x5de1f57751cffe45, 0xe83349737af7ac);
  (0xcc32b813fbf5991, 0x3281209381551b, 0x3ee15a130a34c1a1, 0xf8d5d4fa3e245a);
  (0x32d10e2831db66b7, 0xa0e072435c28e7, 0x25d242ca24fa0d99, 0x77bc6238b2fd62);
  (0x23279f9aa296b632, 0x59090421572a79, 0x48f9e264c790c3cb, 0xb8d2ec4eb32861);
  (0x1193cfcd514b5b19, 0x239d34da22ddca, 0x78eb5ead56622aa4, 0xf4ff9fa1ec487f);
  (0x3ffbbb464306d49c, 0xcf6bf635656195, 0x17e753bc5371f2e1, 0x4d7db09bb18cbb);
  (0xffeeed190c1b527, 0x297bfe0aade051, 0x5786c50a7fb65417, 0xe2fec6596a724a);
  (0x73be95344b42d93b, 0xf024484a36220e, 0x11e1f58e3bbd27bc, 0x251a280fbf5065);
  (0x4d013109b6c0e73b, 0xffa027fda590b9, 0x4787d638eef49ef, 0xed743397fb9c2);
  (0x4c408af7cc1b2876, 0xca80827d37ea13, 0x165a72f1caac71ab, 0x3b5d0ce5fee708);
  (0x1e3d5c36d85d02f3, 0x403eec0ea45807, 0x6fc43eb8f55e3857, 0xed743397fb9c20);
  (0x1e3d5c36d85d02f3, 0x66cb134aa08cd8, 0x4212fbacbe4f42d8, 0xe09ad12ea78a85);
  (0xdb89d4ba8c9323d, 0x25504bff2bbb5f, 0x5297ba97ede3138e, 0xe09ad12ea78a85);
  (0x601d4fc61bcb5933, 0xd119de9f485423, 0x1b823d4bcfdd5e02, 0x3bd8aea29966a7);
  (0x1b779b9b00ee820d, 0x5f9c15936ecfc9, 0x44c5993d87a96b05, 0xef62ba8a659a9c);
  (0x55b48cfbdc3ee70b, 0xeea9b156c47451, 0xa537f68a1aeba3e, 0x1cc15431648ef7);
  (0x663a63178fcc226a, 0xe3bd309f838cf7, 0x19d0be859434d19b, 0x3982a862c91dee);
  (0x45d46210be6937e8, 0xf8e6b33db9a9ef, 0x69542813d2e18e7, 0x1776f389d707b9);
  (0x3af48c0dcbfd02d5, 0xa81cc7f9b505bd, 0x5994299475f3829d, 0xff6fa4af656748);
  (0x4a445ad120f842b9, 0xa96b5eaa0a9202, 0x264784e854741fba, 0x5752dcb5b0618b);
  (0x44e8be74346dbf93, 0xfb83e09e64c279, 0x3c7c34b9e348b602, 0xdcc49dbd2ff5eb);
  (0x4fd186c584ad684b, 0xe9111ee411e157, 0x4764fd0b33885eba, 0xd0781c964e0a7f);
  (0x39c202a58f38cbd4, 0x86ebabac7d2909, 0x3ef87350e2635529, 0x9318e1d3a1c2ec);
  (0x2fee89fb33bc6daf, 0xb325c5055ebe57, 0x1843f953bf4a911a, 0x5ab192539b93bb);
  (0x4d5d64a172949448, 0xe752f0627d4775, 0xc21fca9dfa5488d, 0x24470754a4a17e);
  (0x1f7955d23c4a6d9f, 0x4b496924365c49, 0x5c2345239a84d860, 0xdc658676c8e241);
  (0x13f4ed2dc8f9d293, 0x4c6126eefb999b, 0x39960b364093073c, 0xdc658676c8e241);
  (0x30bff2c8e9435631, 0x954321bb800896, 0x47fb8e03d0b7c90b, 0xdc658676c8e241);
  (0x4351055ea407e493, 0xa4e3478857dec5, 0x29ccadd0a239013c, 0x6662b054f88609);
  (0x1c6eecf53dbcd222, 0x6f6ee2c27afdcf, 0x343fd944cac7418b, 0xccc560a9f10c12);
  (0x4be20b4f916e1081, 0xedea30edd96829, 0x50aec63a088413ad, 0xfcf69c56bcd4b4);
  (0x4aaedc94f3a88fb6, 0xbb52780fb3a405, 0x50aec63a088413ad, 0xca5ee378971090);
  (0x44aef2efdecd0bbf, 0x89d1a3b8a692c8, 0x3b031a42412c2dc4, 0x7669a633605aa1);
  (0x473969e15822227a, 0xe4aaf5fa4c0341, 0x49c3e0d2d1773935, 0xecd34c66c0b542);
  (0x36b04ae1bec42539, 0x8c76b627f5e2c1, 0x5f61edb55d7f63ec, 0xf4fba2d3356743);
  (0x6ff540710047343, 0xe60b6feaf58e6, 0x773a6922b4df3ce7, 0xf4fba2d3356743);
  (0x188660ae0ca20619, 0x50a0b327593ea1, 0x3f1cde94e271d815, 0xcf7d14a7ea3354);
  (0x188660ae0ca20619, 0x40808f52adcbb4, 0x6148debca487d2ad, 0xffdd8025ec8c1b);
  (0x4f183f38fe8e5f88, 0xa66b698db0b001, 0x5af31d923ddf3fb9, 0xbf5cf0d33ec067);
  (0x316f27839f18fbb5, 0xa66b698db0b001, 0x3366fdf5be980ff5, 0xad0b93470a40a4);
  (0x30f131e7173936a5, 0x83cf7f4c483cad, 0x3366fdf5be980ff5, 0x8a6fa905a1cd50);
  (0x6144f0ca849ab6f6, 0xd1925cee94ddc1, 0x322c17ee6ae8a34d, 0x6c194353f73732);
  (0x49561c7a2d9adb2d, 0xfccfab102af3d5, 0x322c17ee6ae8a34d, 0xacf53886585850);
  (0x438b9b573cee4d35, 0xba473ebe2b70c3, 0x269715a8898f875d, 0x6a6ccc3458d53e);
  (0x3c4e79eb90169bbf, 0x850d4e7c923b1b, 0x546b4cbcbff6c030, 0xba402a6f51dab1);
  (0x3c4e79eb90169bbf, 0xd4e2172db6c4f8, 0x34c30ff5f7fa381e, 0xba402a6f51dab1);
  (0x10f678f84a0cbfd8, 0x2fe733fc058973, 0x51043cfe0dcb4cc3, 0xe4cab8ea931909);
  (0x153417365c8fefce, 0x2fe733fc058973, 0x5dbd17b84554dca5, 0xd3c67fec790019);
  (0x35023a07e767d783, 0xbf9ccff01625cc, 0x39e3eba667bf1cd8, 0xd14220baa53235);
  (0x51f42fdb1b4765ef, 0xecfe4d0aba3252, 0x485ce69001aee40e, 0xd14220baa53235);
  (0x51f42fdb1b4765ef, 0xbd983da22e8ea8, 0x317a08467476ea1a, 0x727601e98deae1);
  (0x1e8adeb84bab3a23, 0x710d7b3f76c04f, 0x33695122cf9c2bcc, 0xbe4c80f73a23f1);
  (0x4b985fe542ede0fd, 0xdfda1f0862094e, 0xcda5448b3e70af3, 0x260f4cfe3ed3fd);
  (0x633aa6bfb51f7cae, 0xeb11ba5f4dbf67, 0x4043a56b838336bf, 0x983d33f8fb4ff4);
  (0x2a4a2a5a06160223, 0xa04ab611943f52, 0x3c9a10e8994658a5, 0xe5b363a43d1fd3);
  (0x19b90ed0a7d716b2, 0x4dff9ebdf6aca1, 0x4780cf3517cfeef7, 0xd8d0f9e3486da3);
  (0x404ea509a399b8bd, 0x9bff3d7bed5942, 0x5da0c8f0058bea8c, 0xe31fb4e40c2f63);
  (0x14733966d11b5f0d, 0x4f5f7368bb7121, 0x37af4ef7939cc808, 0xd8210f8de60b63);
  (0x4a6877864bba773d, 0xe70a2dd091bff6, 0xdebd3bde4e73202, 0x2b39cfe92e0247);
  (0x3d90ee4f7671d322, 0x98ee9bcd144ff9, 0x605e7faa32b3d027, 0xef623b9f705487);
  (0x3a8d1aa935ab048b, 0xe8b563c6be4413, 0x1fc9bdb47b7b2e6e, 0x7e5703cf30fe9b);
  (0x4adad7d0f05662e4, 0xee015a4bbdf10f, 0xfe4deda3dbd9737, 0x328934b946cc3e);
  (0x5d918dc52c6bfb9d, 0xee015a4bbdf10f, 0xfe4deda3dbd9737, 0x286dc3c76bd698);
  (0x6ad5f56b0f3e58c8, 0xd966e1ee514f1b, 0x4f785a4334b3f413, 0xa1b70f1daf5a60);
  (0x42c5b962e986f77d, 0xd966e1ee514f1b, 0x27681e3b0efc92c8, 0x804d90a0816123);
  (0x616be98c35b764c1, 0xfdc0d183a503c4, 0x9da078ec3bf24b2, 0x19a91cece6ad07);
  (0x7822ab9126057c6b, 0xfa552ec5e25377, 0x18a112e4e95ddbbd, 0x335239d9cd5a0e);
  (0x2fc0cc561e53d057, 0x9f3590bcdd9454, 0x2ab98ab3ab4a46c2, 0x8e71d7e2d21931);
  (0x5756d6d08b59d3c8, 0xe8f39ff1a37ff1, 0x155cc559d5a52361, 0x38fa565aba707a);
  (0x55ec05c1a3c5df15, 0xb75655a3acf455, 0x6acfdac12c39b0e5, 0xe3e9596ae9c1e8);
  (0x4a7af7d0232c6c99, 0xfe471325583170, 0x29c7a9ff10e7a3a, 0x8ea33f4a5c2b7);
  (0x5cbaa9aed409db9d, 0xfd437ae78b9b87, 0x687328fdaa43191, 0x11d467e94b856e);
  (0x72e8e7bde1c0f641, 0xfb13339de56bd2, 0x49c67246937af70b, 0xa13269a189c0c5);
  (0x3eee3c02126d0473, 0xdc00bbfa3391e9, 0xd4d4de2bb15fddc, 0x2e80cea7be5e19);
  (0x52e230d62b0e013d, 0xe7ce5b2b0db272, 0x10a0a15b69db7d53, 0x2e80cea7be5e19);
  (0x5b42bf00998a9c3f, 0xcc3024d1792201, 0x3a21f74338f15a4a, 0x82111fd0263377);
  (0x1e14eea88d80d259, 0x6bb0484a3817e5, 0x37161e2e65d8eaae, 0xc533a661f0862d);
  (0x58f9dc30fb38488a, 0xfed14b74d37dd3, 0x1b8b0f1732ec7557, 0x4ee175c0c69c12);
  (0x34f5dd9922f3fbbc, 0x795697c5c90d11, 0x3f8f0daf0b30c225, 0x919ecf984bd473);
  (0x423354ff6bb0faab, 0xf2ad2f8b921a22, 0x1928cb246139e19b, 0x5c3a87b8ae0dbf);
  (0xa42a276c29dc644, 0x1e16ee5d60cf47, 0x54c16ddadbaa4ef7, 0xf88e656d34f9e0);
  (0xcd34b14734537d5, 0x1e16ee5d60cf47, 0x6194b8ef4eef86cc, 0xe4ef3f818b30c7);
  (0x2c42d2d10a0afc6e, 0xa6252c8f6be077, 0x18652e3bd3bbe1b3, 0x5b92e633d146b6);
  (0x1621696885057e37, 0x427545062b2696, 0x480da849d3d8735b, 0xd8606eeab820b7);
  (0x6500b55a67cab625, 0xf2a64ba7d97a4d, 0x5b5a5baa3679f537, 0xdb778337065a42);
  (0x4d32cd818a86077, 0x128bd38d75b33c, 0x40bc66edc75a95c1, 0xf8d5ce0416475d);
  (0x4d32cd818a86077, 0xed642d7915c30, 0x52204bdf3f5b534f, 0xfc8b5eb9fa9e69);
  (0x486cc96c3ff41cad, 0xb22b817824eb8a, 0x60933e06224939da, 0xed94bc8514a8ef);
  (0x608ca9a4bb3dff0, 0x17c0747bd76fa1, 0x3c685cfa76a2d281, 0xedc54b91138ede);
  (0x78afd40dea0d7ec, 0x17c0747bd76fa1, 0x4e82bcc959be7251, 0xf7388736e17e34);
  (0x96dbc9116490de7, 0x17c0747bd76fa1, 0x615e35eb86508e1f, 0xf547bb89fcddd2);
  (0x2f24aed56f6d4583, 0x5f01d1ef5dbe84, 0x57fc464e3801415f, 0xb150cdb8578729);
  (0x47e92aadb4eab270, 0xe7df8286e890e7, 0xa35e5de3224fef7, 0x20ec64b6ca5042);
  (0x570212add52e540b, 0xe07160aab97afe, 0x4507c80267f3a76f, 0xb21179c2f15e03);
  (0x52838002f9dfa8e4, 0xaa47858d6c5c99, 0x3c0aa2acb1565121, 0x7be79ea5a43f9e);
  (0x3fba9d57c5792c35, 0xd26c42b0ca120c, 0x13b4e155f96f3374, 0x41116435075393);
  (0x5d49ef58bb9ff963, 0xf66b7a66aa72ba, 0x18a219ab77cb0051, 0x41116435075393);
  (0x2253ead6a1ea7c89, 0x488a6f470e0c76, 0x7113206e9e5b3b98, 0xeef26f54a3b9d7);
  (0x143186c8ce1f1516, 0x44469bc728eec5, 0x46abf44522f9053f, 0xeef26f54a3b9d7);
  (0x5add7b0df1181a55, 0xf5c73c163d53b0, 0x1430d50bf6e532cf, 0x369d0243f5bb13);
  (0x23565300fd1973c3, 0x4c774a541ca372, 0x677b911f64e32caa, 0xdfecf406166b51);
  (0x15c506e42be2c286, 0x4b5f1b560ff071, 0x3ec7acc8f13f18f3, 0xd95bda11ca394b);
  (0x366c913a6db6e64f, 0x96be36ac1fe0e2, 0x5b41a957f14f236a, 0xfcc2c69140c17d);
  (0x48040a5757d58f83, 0x9f93178f4be754, 0x3206b2f3332f3c02, 0x6ed970c84ce70d);
  (0x1780586edf1ef8c1, 0x5351e5bc1df63e, 0x32c83378906b8ea2, 0xb409eeb28ad2fb);
  (0x1872391593aa6009, 0x4555f2088e264b, 0x4e100e8241b82483, 0xdd67f953f95960);
  (0x482852705950df01, 0xa3b9d76f456101, 0x3212cafb8903012c, 0x719df0b2f3382b);
  (0x3d782c0379e30aba, 0xdf28cb1512e1c7, 0xc84b2bee240c04b, 0x2d726047947cde);
  (0x53189063c97c2d8e, 0xf1568b31b4ad53, 0xc84b2bee240c04b, 0x245b8039439718);
  (0x6624adf1b103ed4b, 0xed538366ea0127, 0x3e977dba6b43c177, 0x916e00e50e5c60);
  (0x31707c45173036c9, 0xb7cb0503b7498e, 0x243d64e41e59e636, 0x86b91ad1376adb);
  (0xfa8e4e98401a1d7, 0x2e92963e0b080d, 0x4af09750c7df1db0, 0xdedf9f6463cda9);
  (0x47dd566619e8f81b, 0xaafb716dde4ea3, 0x5dacbd24f9d6e51c, 0xdedf9f6463cda9);
  (0x1906f7d39cfd858d, 0x5f45cf92ad72e4, 0x2e087a4d4da78c6b, 0xaf3cb79b0d1437);
  (0x7431b4b6254410f, 0x161dbe38ff0db1, 0x5190335dc2fa1567, 0xf864c8f4bb796a);
  (0x601669f487a29785, 0xea19d11efadd70, 0x3efced592ad0a051, 0x99759e9e3d1863);
  (0x342e648daf6b8aa9, 0xcb68b165bb7229, 0x3efced592ad0a051, 0xf588fdc9fb5a38);
  (0x4fe483741a3c8a8f, 0xf9252c57956fdb, 0x2b3a232ded9456a, 0x86cdc140cc803);
  (0x6001a7599d3aa59f, 0xef845709765823, 0x6c1157f2d1f2d89, 0x10d9b828199006);
  (0xcd8579b194b3a65, 0x33460309e994d5, 0x3b761ab214325877, 0xed59c7549fa9da);
  (0x4039b6077e7823f9, 0xcd180c27a65354, 0x1eebf42e64aa9f1c, 0x62be5e1ad65067);
  (0x60f1e3d51e83b252, 0xf7a9a86957e161, 0x7bafd0b992aa7c7, 0x13bfac6bc4767b);
  (0x6967d9ef0fe0ce3e, 0xd76bfd37ea4383, 0x26a6f139fdd546e3, 0x4efeb1af11d9ec);
  (0x2dad6f18c2e2d701, 0x955d59d59f2fbe, 0x49caa3849923c5b7, 0xf14c19d177cfd1);
  (0x2dad6f18c2e2d701, 0x777de177b28c98, 0x39fb39132d4295e4, 0x97adb0b7b1e65f);
  (0x706cb95573e9073d, 0xeb4804b8e0c1c8, 0xe7ece44cb50a579, 0x1e55f024bd2e13);
  (0x44741a0ccf078fd7, 0xe536d4b187b891, 0xe7ece44cb50a579, 0x3089803ac849b8);
  (0x37f8426d987cc021, 0x95ee222726a24a, 0x403924e2c887fdbf, 0xac0a118923e495);
  (0x7410f615c8ff1f11, 0xf8bb6332a31e2e, 0x222ccb0eb046ce47, 0x493cd07da768b1);
  (0x3f1c72e2898f931f, 0xd865ad3183d435, 0xf6512ea211e109c, 0x34c9433f635955);
  (0x525aca8732f527e2, 0xe1e76767000319, 0x133e57a4a96594c3, 0x34c9433f635955);
  (0x292d6543997a93f1, 0x5a5c8fc2ccce0a, 0x6ddff3010db5d1d1, 0xf11d5e22f9e7b9);
  (0x3a5a08b2f6896369, 0xcce1389159ba56, 0x2aef989668a506ac, 0x96c0ce602d19af);
  (0x2f9e228d5c6021be, 0x85c0d0c771f655, 0x35ab7ebc02ce4857, 0x96c0ce602d19af);
  (0x6e2a7bd5630f5f38, 0xf78e43a417fcbd, 0x6549a1495f2e6a15, 0xe39ae5b94c0cd0);
  (0x44da8d655de99b83, 0xf78e43a417fcbd, 0x4e474eea880f6c4, 0x119710dc581911);
  (0x3ff61876b568a4bf, 0xb7f8f56c9982f0, 0x4613aaa10809d934, 0xc9900648f19c01);
  (0x62ffedc7396d9159, 0xe3cd93a741da5a, 0x579895494a0c4f81, 0xc9900648f19c01);
  (0x720974eb59cc927, 0x1a3d8d5e503e59, 0x40c9e44d6b49cbd1, 0xee87df46e83218);
  (0x479832579c83383f, 0xd2dec754f1265e, 0x11fa9ee70839a53e, 0x34f448edd8167d);
  (0x5e3a9d9aa8fcf529, 0xde0773bf9249d1, 0x2cf28d4194901d1b, 0x69e891dbb02cfa);
  (0x435c3ae4d699752c, 0xfdf35d24a5ece9, 0x513a14542966c45, 0x1323a6c3e60c39);
  (0x453786573d69b079, 0xd0c297f14aa336, 0x2f4cd658c52ce6e9, 0x8ea89980716a0d);
  (0x453786573d69b079, 0xa70213276ee8f8, 0x29d22a59271db485, 0x64e814b695afcf);
  (0x26086eab617e57bb, 0x92d3a89c842c35, 0x29d22a59271db485, 0xa173545755e618);
  (0x26086eab617e57bb, 0x7576207d3689c4, 0x3dc8d09a4944b795, 0xbed0dc76a38889);
  (0xd141ed9f6cd93e7, 0x20504dcd000427, 0x629d516327d8ab56, 0xf3a66159da09ff);
  (0x2336e029d4e2d83f, 0x8b3553b65eda6d, 0x2840063baca4a53a, 0x9f1d8cbb1c6e0f);
  (0x2fcb74c1abece80b, 0x97270f8603cc9b, 0x34d49ad383aeb506, 0xa71409f0350f83);
  (0x4fdd2fc58b0d3c57, 0xca0ee5e24e2981, 0x1a6a4d69c1d75a83, 0x42d4d0c67b9fce);
  (0x6a96a0f36fa82d41, 0xd7bcc059c5f1e2, 0x27c70600b424d2f8, 0x5082ab3df3682f);
  (0x3dd6ba32a4febfea, 0xc842cc53536115, 0x18dc63c0709703db, 0x5082ab3df3682f);
  (0x34c0442d522235c3, 0x88aa298e34c3a3, 0x478dae94e0d0dd84, 0xb960836998dd19)
].

