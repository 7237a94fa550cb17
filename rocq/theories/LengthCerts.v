(** * Multipliers that attain the extreme residues, for [LengthCheck] (written by scripts/gen_lengths.py) *)

From Coq Require Import ZArith List.
Import ListNotations.
Open Scope Z_scope.

(** multipliers s and u of the least and the greatest residue of a modulo b, and the quotients: s a - t b is
    the least, u a - (w - 1) b the greatest; or nothing: then the algorithm has to be followed *)
Inductive cert := Near (s u t w : Z) | Run.

(** with the quotient of the edge case *)
Definition binary32_negative_certs : list (cert * cert * Z) := [
  (Run, Run, 0x3333331);
  (Run, Run, 0x6666663);
  (Run, Run, 0xcccccc6);
  (Run, Run, 0x28f5c27);
  (Run, Run, 0x51eb84f);
  (Run, Run, 0xa3d709e);
  (Run, Run, 0x20c49b9);
  (Run, Run, 0x4189372);
  (Run, Run, 0x83126e5);
  (Run, Run, 0x10624dca);
  (Run, Run, 0x346dc5b);
  (Run, Run, 0x68db8b7);
  (Run, Run, 0xd1b716f);
  (Run, Run, 0x29f16af);
  (Run, Run, 0x53e2d5f);
  (Run, Run, 0xa7c5abf);
  (Run, Run, 0x218def3);
  (Run, Run, 0x431bde6);
  (Run, Run, 0x8637bcc);
  (Run, Run, 0x10c6f798);
  (Run, Run, 0x35afe51);
  (Run, Run, 0x6b5fca3);
  (Run, Run, 0xd6bf946);
  (Run, Run, 0x2af31da);
  (Run, Run, 0x55e63b5);
  (Run, Run, 0xabcc76b);
  (Run, Run, 0x225c17b);
  (Run, Run, 0x44b82f7);
  (Run, Run, 0x89705ef);
  (Run, Run, 0x112e0bdf);
  (Run, Run, 0x36f9bf9);
  (Run, Run, 0x6df37f3);
  (Run, Run, 0xdbe6fe6);
  (Near 0x13fb25a 0x1a95c83 0x36ec68b 0x4913975, Near 0x9fd92d 0x84c1ab 0x6dd8d16 0x5b3ac5f, 0x2bfaffa);
  (Near 0x9fd92d 0x1a95c83 0x36ec68b 0x92272ea, Near 0x9fd92d 0x924d6c 0xdbb1a2c 0xc913975, 0x57f5ff5);
  (Near 0x1c47405 0x1249ad8 0x136ec68b 0xc913975, Near 0xe8ffe3 0x4926b6 0x28076dcd 0xc913975, 0xafebfeb);
  (Near 0x9fd92d 0x1f7ef2a 0x15f829e 0x45429c1, Near 0x9fd92d 0xcde861 0x57e0a78 0x7132efd, 0x232f32f);
  (Near 0x9fd92d 0x19bd0c2 0x2bf053c 0x7132efd, Near 0x9fd92d 0xb6e0c7 0xafc14f0 0xc913975, 0x465e65e);
  (Near 0x9fd92d 0x16dc18e 0x57e0a78 0xc913975, Near 0xab5cfa 0xb6e0c7 0x178d4e65 0x192272ea, 0x8cbccbc);
  (Near 0x156b9f4 0xb6e0c7 0x178d4e65 0xc913975, Near 0x55ae7d 0xb6e0c7 0x178d4e65 0x3244e5d4, 0x11979978);
  (Near 0x1f69321 0xcde861 0x6e84711 0x2d47932, Near 0x4a2ab0 0xcde861 0x413cddf 0xb51e4c8, 0x384b84b);
  (Near 0x1623dc1 0xcde861 0x9bcc043 0x5a8f264, Near 0x251558 0xf2fdb9 0x413cddf 0x1ab7976f, 0x7097096);
  (Near 0x1623dc1 0x1181311 0x13798086 0xf65b2a7, Near 0x128aac 0xf2fdb9 0x413cddf 0x356f2ede, 0xe12e12d);
  (Near 0x172d570 0xcde861 0x413cddf 0x2439428, Near 0x5cb55c 0xcde861 0x413cddf 0x90e50a0, 0x2d0936f);
  (Near 0x1875319 0xcde861 0x89af62f 0x4872850, Near 0x2e5aae 0xfc430f 0x413cddf 0x16306f1f, 0x5a126de);
  (Near 0x1875319 0x12a9dbd 0x1135ec5e 0xd221e7f, Near 0x172d57 0xfc430f 0x413cddf 0x2c60de3e, 0xb424dbd);
  (Near 0x1875319 0x13f1b66 0x3712f46 0x2ce90ad, Near 0x73e2b3 0x9f8db3 0x413cddf 0x59d215a, 0x24075f2);
  (Near 0x1875319 0x9f8db3 0x6e25e8c 0x2ce90ad, Near 0xfd9ae6 0x89b833 0x11d88af7 0x9b0ef39, 0x480ebe5);
  (Near 0x1875319 0x1137066 0xdc4bd18 0x9b0ef39, Near 0x7ecd73 0x89b833 0x11d88af7 0x1361de72, 0x901d7ca);
  (Near 0x1875319 0x89b833 0x1b897a30 0x9b0ef39, Near 0x8442d3 0x89b833 0x253a6969 0x26c3bce4, 0x1203af95);
  (Near 0x1717d99 0x9f8db3 0x5333af1 0x23eda24, Near 0x8442d3 0x9f8db3 0x7721515 0x8fb6890, 0x39a5651);
  (Near 0x10885a6 0x1a81359 0x7721515 0xbefc95d, Near 0x8442d3 0x91e843 0xee42a2a 0x106d7da5, 0x734aca2);
  (Near 0x8442d3 0x1a81359 0x7721515 0x17df92ba, Near 0x8442d3 0x8b158b 0x1dc85454 0x1f51a7cf, 0xe695944);
  (Near 0x1717d99 0x123d086 0x428fbf4 0x3491921, Near 0x6fcaab 0x91e843 0x508dec7 0x6923242, 0x2e1dea7);
  (Near 0x1717d99 0x91e843 0x851f7e8 0x3491921, Near 0x80d977 0x91e843 0xb9b1109 0xd246484, 0x5c3bd4e);
  (Near 0x101b2ee 0x1939b31 0xb9b1109 0x122d434b, Near 0x80d977 0x8960dd 0x17362212 0x18bf758d, 0xb877a9d);
  (Near 0x1e14844 0x1939b31 0x455c2eb 0x3a2a70f, Near 0x785211 0xa2f70f 0x455c2eb 0x5df1666, 0x24e4bb9);
  (Near 0xf0a422 0x1939b31 0x455c2eb 0x7454e1e, Near 0x785211 0x8da490 0x8ab85d6 0xa34d951, 0x49c9772);
  (Near 0x785211 0x1939b31 0x455c2eb 0xe8a9c3c, Near 0xbf2459 0x46d248 0x1b8be4fd 0xa34d951, 0x9392ee4);
  (Near 0x105f6a1 0x1939b31 0x12e05f27 0x1d153878, Near 0xe28d7d 0x236924 0x414ca34b 0xa34d951, 0x12725dc8);
  (Near 0x1cbf5c5 0x8da490 0x6a0f3f9 0x20a91dd, Near 0xf77eed 0x236924 0xe4464b6 0x20a91dd, 0x3b07928);
  (Near 0x1cbf5c5 0x46d248 0xd41e7f2 0x20a91dd, Near 0xf77eed 0x11b492 0x1c88c96c 0x20a91dd, 0x760f250);
  (Near 0x1ef5ee9 0x236924 0x1c8e61c1 0x20a91dd, Near 0xf77eed 0x8da49 0x391192d8 0x20a91dd, 0xec1e4a0);
  (Near 0x1ef5ee9 0xb10db4 0x5b6138d 0x20a91dd, Near 0xe5ca5b 0x2c436d 0xa98e306 0x20a91dd, 0x2f39420);
  (Near 0x1ef5ee9 0x5886da 0xb6c271a 0x20a91dd, Near 0xe18dbe 0x2c436d 0x14cdbc57 0x41523ba, 0x5e72840);
  (Near 0x1ef5ee9 0x2c436d 0x16d84e34 0x20a91dd, Near 0xf59126 0x2c436d 0x2d4c92b3 0x82a4774, 0xbce5080);
  (Near 0x1c31b7c 0xdd5121 0x42925ab 0x20a91dd, Near 0x70c6df 0xdd5121 0x42925ab 0x82a4774, 0x25c7680);
  (Near 0x1bededf 0xdd5121 0x83e4965 0x41523ba, Near 0xa70c00 0xdd5121 0xc536d1f 0x10548ee8, 0x4b8ed00);
  (Near 0x14e1800 0xdd5121 0xc536d1f 0x82a4774, Near 0x538600 0xdd5121 0xc536d1f 0x20a91dd0, 0x971da00);
  (Near 0xa70c00 0x1845d21 0xc536d1f 0x1ca7fc07, Near 0x29c300 0xdd5121 0xc536d1f 0x41523ba0, 0x12e3b400);
  (Near 0xa70c00 0x1b665a5 0x27715d3 0x678379c, Near 0x29c300 0xe596a5 0x27715d3 0xd8d7151, 0x3c72400);
  (Near 0x538600 0x1b665a5 0x27715d3 0xcf06f38, Near 0x14e180 0xfa7825 0x27715d3 0x1d91f875, 0x78e4800);
  (Near 0x29c300 0x1e028a5 0x27715d3 0x1c57f443, Near 0xa70c0 0xfa7825 0x27715d3 0x3b23f0ea, 0xf1c9000);
  (Near 0xd0cf00 0x18ca2a5 0x27715d3 0x4aec1b9, Near 0x3433c0 0xf00765 0x27715d3 0xb55c56b, 0x305b666);
  (Near 0x686780 0x1f50a25 0x27715d3 0xbd49945, Near 0x1a19e0 0xf00765 0x27715d3 0x16ab8ad6, 0x60b6ccc);
  (Near 0x3433c0 0x1f50a25 0x27715d3 0x17a9328a, Near 0xd0cf0 0xfd1455 0x27715d3 0x2fce2b7f, 0xc16d999);
  (Near 0x10502c0 0x1f50a25 0x27715d3 0x4bb7082, Near 0x4140b0 0xf00765 0x27715d3 0x9116abc, 0x26af851);
  (Near 0x828160 0x1f50a25 0x27715d3 0x976e104, Near 0x20a058 0xf00765 0x27715d3 0x1222d578, 0x4d5f0a3);
  (Near 0x4140b0 0x1f50a25 0x27715d3 0x12edc208, Near 0x10502c 0xf00765 0x27715d3 0x2445aaf0, 0x9abe147);
  (Near 0x20a058 0x1f50a25 0x27715d3 0x25db8410, Near 0x82816 0xf82f7b 0x27715d3 0x4b026bb3, 0x1357c28f);
  (Near 0xa321b8 0x193291d 0x27715d3 0x617a6eb, Near 0x28c86e 0xf00765 0x27715d3 0xe824460, 0x3de5a1c);
  (Near 0x5190dc 0x1e4b9f9 0x27715d3 0xea663a9, Near 0x146437 0xf00765 0x27715d3 0x1d0488c0, 0x7bcb439);
  (Near 0x28c86e 0x1e4b9f9 0x27715d3 0x1d4cc752, Near 0x146437 0xfc8f18 0x4ee2ba6 0x3d10a477, 0xf796873);
  (Near 0xcbea26 0x193291d 0x27715d3 0x4dfb8bc, Near 0x65f513 0xfc8f18 0x4ee2ba6 0xc36874b, 0x3184817);
  (Near 0x65f513 0x1f91e30 0x27715d3 0xc36874b, Near 0x65f513 0xe43c9f 0x9dc574c 0x1612de97, 0x630902e);
  (Near 0x65f513 0x1c8793e 0x4ee2ba6 0x1612de97, Near 0x65f513 0xa518d9 0x13b8ae98 0x1fef35e3, 0xc61205c);
  (Near 0x1fdc95f 0x969a05 0x4ee2ba6 0x174df21, Near 0xb397ad 0xa518d9 0x6f2990a 0x6630ac7, 0x279d345);
  (Near 0x1fdc95f 0x14a31b2 0x9dc574c 0x6630ac7, Near 0xac5843 0xa518d9 0xd55a3d1 0xcc6158e, 0x4f3a68b);
  (Near 0x1fdc95f 0xa518d9 0x13b8ae98 0x6630ac7, Near 0xac5843 0xa8b88e 0x1aab47a2 0x1a1bb95f, 0x9e74d16);
  (Near 0x1fdc95f 0x151711c 0x27715d30 0x1a1bb95f, Near 0xac5843 0x545c47 0x35568f44 0x1a1bb95f, 0x13ce9a2d);
  (Near 0xac5843 0x1e0cbb7 0x2aaba5d 0x770a0d4, Near 0xac5843 0xf97520 0xaaae974 0xf70cfeb, 0x3f61ed5);
  (Near 0xac5843 0x1f2ea40 0x55574ba 0xf70cfeb, Near 0xac5843 0x7cba90 0x1555d2e8 0xf70cfeb, 0x7ec3dab);
  (Near 0xac5843 0x1a5cd63 0xaaae974 0x1a1bb95f, Near 0xeab58b 0x3e5d48 0x3a1c75bb 0xf70cfeb, 0xfd87b57);
  (Near 0x1dc28fe 0x4d1cdd 0x5e502fd 0xf4614b, Near 0xeab58b 0x4d1cdd 0xb9f4abf 0x3d1852c, 0x32b4bde);
  (Near 0x1d56b16 0x4d1cdd 0xb9f4abf 0x1e8c296, Near 0xeab58b 0x9be934 0x173e957e 0xf70cfeb, 0x65697bc);
  (Near 0xeab58b 0x137d268 0xb9f4abf 0xf70cfeb, Near 0xeab58b 0x4df49a 0x2e7d2afc 0xf70cfeb, 0xcad2f78);
  (Near 0xeab58b 0x1819051 0x2530ef3 0x3d1852c, Near 0xeab58b 0x9b1177 0x94c3bcc 0x624941f, 0x289097e);
  (Near 0xeab58b 0x13622ee 0x4a61de6 0x624941f, Near 0xeab58b 0xc2e381 0x12987798 0xf70cfeb, 0x51212fd);
  (Near 0xeab58b 0x185c702 0x94c3bcc 0xf70cfeb, Near 0xeab58b 0xd6cc86 0x2530ef30 0x22094783, 0xa2425fa)].

Definition binary32_positive_certs : list (cert * cert) := [
  (Run, Run);
  (Run, Run);
  (Run, Run);
  (Run, Run);
  (Run, Run);
  (Run, Run);
  (Run, Run);
  (Run, Run);
  (Run, Run);
  (Run, Run);
  (Run, Run);
  (Run, Run);
  (Run, Run);
  (Run, Run);
  (Run, Run);
  (Run, Run);
  (Run, Run);
  (Run, Run);
  (Run, Run);
  (Run, Run);
  (Run, Run);
  (Run, Run);
  (Run, Run);
  (Run, Run);
  (Run, Run);
  (Run, Run);
  (Run, Run);
  (Run, Run);
  (Run, Run);
  (Run, Run);
  (Run, Run);
  (Run, Run);
  (Run, Run);
  (Run, Run);
  (Run, Run);
  (Run, Run);
  (Run, Run);
  (Run, Run);
  (Run, Run);
  (Run, Run);
  (Run, Run);
  (Run, Run);
  (Near 0x1f0bc13 0xafc14f 0x70f1c35 0x27f64b4, Run);
  (Near 0x867f7a 0x1bcc043 0x98e80e9 0x1f99f956, Run);
  (Near 0x10cfef4 0x1bcc043 0x98e80e9 0xfccfcab, Near 0x433fbd 0xf3010c 0x98e80e9 0x22886ff1);
  (Near 0x16a3c99 0xafc14f 0x66f4308 0x31f3de1, Near 0x867f7a 0xafc14f 0x98e80e9 0xc7cf784);
  (Near 0x16a3c99 0x15f829e 0x337a184 0x31f3de1, Near 0x5d3da5 0xafc14f 0x3500527 0x63e7bc2);
  (Near 0x487285 0x1f067a8 0x337a184 0x160b786d, Near 0xc48c6f 0x7c19ea 0x22e9fe7d 0x160b786d);
  (Near 0x487285 0x1e5adad 0x19bd0c2 0xac8c31f, Near 0x487285 0xf833d4 0x66f4308 0x160b786d);
  (Near 0x487285 0x1d039b7 0xcde861 0x5276878, Near 0x487285 0xce9d94 0x337a184 0x92cf25d);
  (Near 0x487285 0x1b897a3 0x40589e5 0x18753190, Near 0x80428a 0xb8128f 0x1c7abb75 0x28df4f56);
  (Near 0x90e50a 0x1b897a3 0x40589e5 0xc3a98c8, Near 0x487285 0xb8128f 0x80b13ca 0x146fa7ab);
  (Near 0x121ca14 0x1b897a3 0x40589e5 0x61d4c64, Near 0x487285 0xdf4014 0x40589e5 0xc6493e1);
  (Near 0x92138b 0x1b897a3 0xa22d649 0x1e927df4, Near 0xdbb491 0x49a106 0x3cfb00cf 0x146fa7ab);
  (Near 0x1242716 0x1b897a3 0xa22d649 0xf493efa, Near 0x92138b 0x93420c 0x1445ac92 0x146fa7ab);
  (Near 0x8fb689 0x1b897a3 0x27e36cc 0x7a49f7d, Near 0x92138b 0x94708d 0xa22d649 0xa4cd162);
  (Near 0x8fb689 0x1c20bab 0x13f1b66 0x3e74d4b, Near 0x8fb689 0x94708d 0x4fc6d98 0x52668b1);
  (Near 0xccfac3 0x1d739c0 0x8e3bae3 0x146fa7ab, Near 0xccfac3 0x75ce70 0x238eeb8c 0x146fa7ab);
  (Near 0x199f586 0x10a3efd 0x8e3bae3 0x5c5f664, Near 0xccfac3 0xeb9ce0 0x11c775c6 0x146fa7ab);
  (Near 0x11f6d12 0x10a3efd 0x31dc47f 0x2e2fb32, Near 0xccfac3 0x3d443a 0x8e3bae3 0x2a831e5);
  (Near 0x6ebc03 0x1e7b703 0x600bfb1 0x1a70675c, Near 0xccfac3 0x5e3ec0 0x2c72a66f 0x146fa7ab);
  (Near 0xdd7806 0x1e7b703 0x600bfb1 0xd3833ae, Near 0x6ebc03 0xbc7d80 0xc017f62 0x146fa7ab);
  (Near 0x1baf00c 0x1e7b703 0x600bfb1 0x69c19d7, Near 0x6ebc03 0x9b82fa 0x600bfb1 0x86e2849);
  (Near 0x11bac6a 0x1e7b703 0x1338f35f 0x210c8133, Near 0x8dd635 0xacf067 0x2671e6be 0x2ee00f07);
  (Near 0x16b4e3b 0xcc0a99 0xc4f2c75 0x6e9c6ea, Near 0x8dd635 0xcc0a99 0x1338f35f 0x1ba71ba8);
  (Near 0x13e8744 0xcc0a99 0x565658b 0x374e375, Near 0x4fa1d1 0xcc0a99 0x565658b 0xdd38dd4);
  (Near 0x727cab 0x1981532 0xf8410b 0x374e375, Near 0x9f43a2 0xcc0a99 0x565658b 0x6e9c6ea);
  (Near 0x122a4fc 0x15d5d17 0xc4f2c75 0xecbcedf, Near 0x48a93f 0xcc0a99 0xc4f2c75 0x2290e292);
  (Near 0x1cfd9c2 0x3ab81b 0x9d28a0b 0x13e5135, Near 0x91527e 0xcc0a99 0xc4f2c75 0x11487149);
  (Near 0x19521a7 0x757036 0x44a1c6b 0x13e5135, Near 0xe7ece1 0x3ab81b 0x9d28a0b 0x27ca26a);
  (Near 0x1688467 0x1177dac 0x1315eb4a 0xecbcedf, Near 0xdcc591 0x45df6b 0x2ec00f6a 0xecbcedf);
  (Near 0x1688467 0xc676f1 0x98af5a5 0x540d93a, Near 0xdcc591 0x8bbed6 0x176007b5 0xecbcedf);
  (Near 0x1441aec 0xc676f1 0x44a1c6b 0x2a06c9d, Near 0x5106bb 0xc676f1 0x44a1c6b 0xa81b274);
  (Near 0x9034f6 0x1e6e0dd 0x98af5a5 0x20380a5b, Near 0x481a7b 0xcf6331 0x1315eb4a 0x36e51f11);
  (Near 0x12069ec 0x156abe7 0x98af5a5 0xb568a5b, Near 0x481a7b 0xc676f1 0x98af5a5 0x1a443e22);
  (Near 0x1d44fe2 0x3641fb 0x7bf60ef 0xe5ca5b, Near 0x9034f6 0xc676f1 0x98af5a5 0xd221f11);
  (Near 0x19e0de7 0x6c83f6 0x36ccb4a 0xe5ca5b, Near 0xea27f1 0x3641fb 0x7bf60ef 0x1cb94b6);
  (Near 0x1f4dddf 0x15b3fe 0x14b721de 0xe5ca5b, Near 0xffdbef 0xad9ff 0x2a540e17 0x1cb94b6);
  (Near 0x1f4dddf 0x2b67fc 0xa5b90ef 0xe5ca5b, Near 0xfb47f6 0xad9ff 0x14c9158f 0xe5ca5b);
  (Near 0x1c975e3 0x56cff8 0x4bae34a 0xe5ca5b, Near 0xf06df7 0x15b3fe 0x9f1a59a 0xe5ca5b);
  (Near 0xeb1256 0x18c037d 0xc2725a5 0x1479325b, Near 0x75892b 0x8b3d29 0x184e4b4a 0x1ccb3f11);
  (Near 0x1d624ac 0xa0f127 0xc2725a5 0x429065b, Near 0x75892b 0xa0f127 0xc2725a5 0x10a4196c);
  (Near 0x1353385 0x141e24e 0x3ff0fa5 0x429065b, Near 0xeb1256 0xa0f127 0xc2725a5 0x8520cb6);
  (Near 0x1f654e7 0x406076 0x2076614a 0x429065b, Near 0xeb1256 0x20303b 0x3cc3bc39 0x8520cb6);
  (Near 0x1f654e7 0x80c0ec 0x103b30a5 0x429065b, Near 0xf4d30f 0x20303b 0x1fa48fbc 0x429065b);
  (Near 0x17593fb 0x10181d8 0x6091525 0x429065b, Near 0xf4d30f 0x406076 0xfd247de 0x429065b);
  (Near 0x741223 0x18ef18d 0xf00765 0x338fef6, Near 0xf4d30f 0x80c0ec 0x7e923ef 0x429065b);
  (Near 0x113a5f5 0x1636fde 0xb2222e5 0xe5b21db, Near 0xe2aef2 0xb1b7ef 0x249f67a5 0x1cb643b6);
  (Near 0x1d78201 0x4fc9e9 0x985a36a 0x19c7f7b, Near 0x61ee06 0xb1b7ef 0x7e923ef 0xe5b21db);
  (Near 0x1d78201 0x9f93d2 0x4c2d1b5 0x19c7f7b, Near 0xc3dc0c 0x4fc9e9 0x7e923ef 0x338fef6);
  (Near 0xdc84c4 0x19a910f 0xb2222e5 0x14ba730b, Near 0x372131 0xf52d7c 0xb2222e5 0x3183637d);
  (Near 0x1b90988 0xbe0c4b 0xb2222e5 0x4cc2813, Near 0x6e4262 0xbe0c4b 0xb2222e5 0x1330a04c);
  (Near 0xfafd3d 0x17c1896 0x32afd69 0x4cc2813, Near 0xdc84c4 0xbe0c4b 0xb2222e5 0x9985026);
  (Near 0x12ea1c7 0x148740c 0x13194861 0x14ba730b, Near 0xdc84c4 0x521d03 0x37aaae79 0x14ba730b);
  (Near 0x1f5fa7a 0x19d245 0xfd6f30d 0xd09555, Near 0x8a67c1 0xa43a06 0x11781db7 0x14ba730b);
  (Near 0x1dc2835 0x33a48a 0x7832edc 0xd09555, Near 0xfafd3d 0x19d245 0xfd6f30d 0x1a12aaa);
  (Near 0x1dc2835 0x674914 0x3c1976e 0xd09555, Near 0xf3c3c8 0x19d245 0x7b11dbb 0xd09555);
  (Near 0x73e375 0x1c2f373 0x4922cc3 0x11c970f2, Near 0x73e375 0x8db5ba 0x1248b30c 0x165b9db5);
  (Near 0xe7c6ea 0x1c2f373 0x4922cc3 0x8e4b879, Near 0x73e375 0xa787ff 0x9245986 0xd37442f);
  (Near 0x1cf8dd4 0xdb2c89 0x4922cc3 0x22945db, Near 0x73e375 0xdb2c89 0x4922cc3 0x8a5176c);
  (Near 0x1fb6389 0x2bd5b5 0x190425aa 0x22945db, Near 0x73e375 0x9fb92a 0x16dadfcf 0x1f7ff73b);
  (Near 0x1fb6389 0x57ab6a 0xc8212d5 0x22945db, Near 0xe7c6ea 0x2bd5b5 0x16dadfcf 0x4528bb6);
  (Near 0x1a3b81f 0xaf56d4 0x52c667d 0x22945db, Near 0xf4614b 0x2bd5b5 0xc0c8288 0x22945db);
  (Near 0x11ee63d 0x1b8fa98 0x11ae7952 0x1b2d6b85, Near 0xb0a797 0x6e3ea6 0x2b8c79c3 0x1b2d6b85);
  (Near 0x11ee63d 0x13428b6 0x8d73ca9 0x97ef233, Near 0x4268f1 0xdc7d4c 0x82f871f 0x1b2d6b85);
  (Near 0x1fe050f 0x154279 0x7dbac5a 0x53dac5, Near 0x84d1e2 0x9a145b 0x82f871f 0x97ef233);
  (Near 0x15c87fb 0x1d7cb77 0x1ad990c0 0x245882f3, Near 0xe1447f 0x1ed0df 0x456a7a34 0x97ef233);
  (Near 0x15c87fb 0xf686f8 0xd6cc860 0x97ef233, Near 0xe1447f 0x3da1be 0x22b53d1a 0x97ef233);
  (Near 0x15c87fb 0x1ed0df0 0x6b66430 0x97ef233, Near 0xe1447f 0x7b437c 0x115a9e8d 0x97ef233);
  (Near 0x15c87fb 0x1210bea 0x35b3218 0x2c88e03, Near 0x660103 0xf686f8 0x3edd62d 0x97ef233);
  (Near 0x15c87fb 0x150a25e 0x10c7fa78 0x10355663, Near 0x5a1b66 0xa8512f 0x115a9e8d 0x206aacc6);
  (Near 0x15c87fb 0x144bcc1 0x863fd3c 0x7d15927, Near 0xb436cc 0xa8512f 0x115a9e8d 0x10355663);
  (Near 0x15c87fb 0x12cf187 0x431fe9e 0x39f5a89, Near 0xbe59d 0xfd5b13 0x92a415 0xc32d9d0);
  (Near 0x15c87fb 0x1de6d15 0x14f9f916 0x1ccb523d, Near 0x8dcab7 0xcebd44 0x22229905 0x31c54b53);
  (Near 0x15c87fb 0x103ca34 0xa7cfc8b 0x7d15927, Near 0xdaa2e1 0x40f28d 0x1a513fde 0x7d15927);
  (Near 0x58bdc7 0x1aed6a1 0x155d1b2 0x67b8775, Near 0xdaa2e1 0x81e51a 0xd289fef 0x7d15927);
  (Near 0x1b3fc55 0x10513a1 0x20ccc753 0x13a42764, Near 0x2bba2d 0xd95974 0xd289fef 0x4167fda1);
  (Near 0x15dd168 0x10513a1 0xd289fef 0x9d213b2, Near 0x57745a 0xad9f47 0xd289fef 0x1a1faed9);
  (Near 0x1b68f2f 0x10513a1 0x83f9616 0x4e909d9, Near 0xaee8b4 0x562aed 0xd289fef 0x67b8775);
  (Near 0x1b68f2f 0x539813 0x41fcb0b 0xc93ece, Near 0x58bdc7 0xac55da 0x3568c3d 0x67b8775);
  (Near 0xc0247d 0x14a02c5 0x908d4e4 0xf845c59, Near 0xe29c0f 0x227792 0x2a9edb05 0x67b8775);
  (Near 0xc0247d 0x1d3e10d 0x4846a72 0xafff1e7, Near 0xc0247d 0x44ef24 0x1211a9c8 0x67b8775);
  (Near 0xc0247d 0x16754a3 0x2423539 0x439523c, Near 0xc0247d 0x89de48 0x908d4e4 0x67b8775);
  (Near 0xc0247d 0x17b4b4f 0xb4b0a1d 0x164afc04, Near 0x8edbf3 0xec6f5c 0x21960621 0x3795e9ef);
  (Near 0x18048fa 0x17b4b4f 0xb4b0a1d 0xb257e02, Near 0xc0247d 0x5d9369 0x1696143a 0xafff1e7);
  (Near 0x18546a5 0x17b4b4f 0x5b84b1c 0x592bf01, Near 0xc0247d 0xbb26d2 0xb4b0a1d 0xafff1e7);
  (Near 0xe592a7 0x17b4b4f 0x10ddc91e 0x1bddbb05, Near 0xe592a7 0x256e2a 0x43772478 0xafff1e7);
  (Near 0xe592a7 0x12b7150 0x86ee48f 0xafff1e7, Near 0xe592a7 0x4adc54 0x21bb923c 0xafff1e7);
  (Near 0x1cb254e 0x45dea9 0x86ee48f 0x14886ac, Near 0xe592a7 0x95b8a8 0x10ddc91e 0xafff1e7);
  (Near 0x1f312a6 0x45dea9 0x495508b 0xa44356, Near 0xe592a7 0x45dea9 0x86ee48f 0x2910d58);
  (Near 0x1f312a6 0xdf955 0x16ea92b7 0xa44356, Near 0xe592a7 0xf38bfc 0x2a2a76cb 0x2cbb8423);
  (Near 0x1fd0ead 0xdf955 0xbaff856 0x5221ab, Near 0xf98953 0xdf955 0x16ea92b7 0x14886ac);
  (Near 0x1fd0ead 0x1bf2aa 0x5d7fc2b 0x5221ab, Near 0xf78aac 0xdf955 0xb5dd6ab 0xa44356);
  (Near 0x182e14f 0x19ed3f9 0x1634b13c 0x17cf5993, Near 0xba73fd 0xc86d52 0x2aceba21 0x2e040acf);
  (Near 0x182e14f 0x1bac6a3 0xb1a589e 0xcb500f5, Near 0xf723fd 0xdf955 0x1c5ecf12 0x19aa857);
  (Near 0x182e14f 0x1f2abf7 0x58d2c4f 0x727d4a6, Near 0xf723fd 0x1bf2aa 0xe2f6789 0x19aa857);
  (Near 0x4d6043 0x1f2abf7 0x58d2c4f 0x23c7273e, Near 0x4d6043 0xb6b330 0x1634b13c 0x346eac2b);
  (Near 0x9ac086 0x1f2abf7 0x58d2c4f 0x11e3939f, Near 0x4d6043 0xd2a5da 0xb1a589e 0x1e39faef);
  (Near 0x135810c 0x157eb71 0x58d2c4f 0x62b33a8, Near 0x4d6043 0xbd2aeb 0x58d2c4f 0xd927602);
  (Near 0x11316a7 0x157eb71 0x277927b 0x31599d4, Near 0x9ac086 0xbd2aeb 0x58d2c4f 0x6c93b01);
  (Near 0x7bcd38 0x1d3b8a9 0x58d2c4f 0x14f92d73, Near 0x1ef34e 0xfb1187 0x58d2c4f 0x2d087fa3);
  (Near 0xf79a70 0x157eb71 0x58d2c4f 0x7b60092, Near 0x3de69c 0xdc1e39 0x58d2c4f 0x13bda9aa);
  (Near 0x1ef34e0 0x157eb71 0x58d2c4f 0x3db0049, Near 0x7bcd38 0xdc1e39 0x58d2c4f 0x9ded4d5);
  (Near 0x1ef34e0 0x1d0f2fd 0x1bc1dd8b 0x1a0fb185, Near 0x7bcd38 0xd9588d 0x1bc1dd8b 0x30bb0afe);
  (Near 0x1e41e3 0x1fa4b90 0xd91603 0xe307d5b, Near 0xf79a70 0xd9588d 0x1bc1dd8b 0x185d857f);
  (Near 0x3c83c6 0x1dc09ad 0xd91603 0x6abb3ac, Near 0x1e41e3 0xfd25c8 0x1b22c06 0xe307d5b);
  (Near 0x1bc93b8 0xc007f9 0x1f263597 0xd7463c4, Near 0x6f24ee 0xc007f9 0x1f263597 0x35d18f10);
  (Near 0x1f9177e 0xc007f9 0x11b1d1d3 0x6ba31e2, Near 0xde49dc 0xc007f9 0x1f263597 0x1ae8c788);
  (Near 0x1b21711 0xc007f9 0x79a8700 0x35d18f1, Near 0xfc8bbf 0xc007f9 0x11b1d1d3 0xd7463c4);
  (Near 0x1b21711 0x1800ff2 0x3cd4380 0x35d18f1, Near 0x79078c 0xc007f9 0x43d6e0f 0x6ba31e2);
  (Near 0xa3a167 0x1800ff2 0x72a5c71 0x10d17cb5, Near 0xb1d4b0 0xc007f9 0x1f263597 0x21a2f96a);
  (Near 0x14742ce 0xdc6e8b 0x72a5c71 0x4d39022, Near 0xa3a167 0xc007f9 0xe54b8e2 0x10d17cb5);
  (Near 0x1b21711 0xdc6e8b 0x4c09460 0x269c811, Near 0xa3a167 0xdc6e8b 0x72a5c71 0x9a72044);
  (Near 0x10729d9 0x1e39864 0xe67b4a4 0x1a789cf9, Near 0x8e43c0 0x78e619 0x1f263597 0x1a789cf9);
  (Near 0x10729d9 0x1b8dd16 0x733da52 0xc10e855, Near 0x155da7 0xf1cc32 0x256cc4f 0x1a789cf9)].

(** with the quotient of the edge case *)
Definition binary64_negative_certs : list (cert * cert * Z) := [
  (Run, Run, 0x333333333333326);
  (Run, Run, 0x66666666666664c);
  (Run, Run, 0xccccccccccccc99);
  (Run, Run, 0x28f5c28f5c28f51);
  (Run, Run, 0x51eb851eb851ea3);
  (Run, Run, 0xa3d70a3d70a3d47);
  (Run, Run, 0x20c49ba5e353f74);
  (Run, Run, 0x4189374bc6a7ee9);
  (Run, Run, 0x83126e978d4fdd2);
  (Run, Run, 0x10624dd2f1a9fba5);
  (Run, Run, 0x346dc5d63886587);
  (Run, Run, 0x68db8bac710cb0f);
  (Run, Run, 0xd1b71758e21961e);
  (Run, Run, 0x29f16b11c6d1e06);
  (Run, Run, 0x53e2d6238da3c0c);
  (Run, Run, 0xa7c5ac471b47818);
  (Run, Run, 0x218def416bdb19e);
  (Run, Run, 0x431bde82d7b633c);
  (Run, Run, 0x8637bd05af6c679);
  (Run, Run, 0x10c6f7a0b5ed8cf3);
  (Run, Run, 0x35afe535795e8fd);
  (Run, Run, 0x6b5fca6af2bd1fb);
  (Run, Run, 0xd6bf94d5e57a3f6);
  (Run, Run, 0x2af31dc46118731);
  (Run, Run, 0x55e63b88c230e62);
  (Run, Run, 0xabcc77118461cc4);
  (Run, Run, 0x225c17d04dad28d);
  (Run, Run, 0x44b82fa09b5a51b);
  (Run, Run, 0x89705f4136b4a37);
  (Run, Run, 0x112e0be826d6946e);
  (Run, Run, 0x36f9bfb3af7b749);
  (Run, Run, 0x6df37f675ef6e92);
  (Run, Run, 0xdbe6fecebdedd24);
  (Run, Run, 0x2bfaffc2f2c92a0);
  (Run, Run, 0x57f5ff85e592541);
  (Run, Run, 0xafebff0bcb24a83);
  (Run, Run, 0x232f33025bd421a);
  (Run, Run, 0x465e6604b7a8434);
  (Run, Run, 0x8cbccc096f50869);
  (Run, Run, 0x119799812dea10d3);
  (Run, Run, 0x384b84d092ed02a);
  (Run, Run, 0x709709a125da054);
  (Run, Run, 0xe12e13424bb40a8);
  (Run, Run, 0x2d09370d4257354);
  (Run, Run, 0x5a126e1a84ae6a9);
  (Run, Run, 0xb424dc35095cd53);
  (Run, Run, 0x24075f3dceac2aa);
  (Run, Run, 0x480ebe7b9d58554);
  (Run, Run, 0x901d7cf73ab0aa9);
  (Run, Run, 0x1203af9ee7561553);
  (Run, Run, 0x39a5652fb113777);
  (Run, Run, 0x734aca5f6226eee);
  (Run, Run, 0xe69594bec44dddc);
  (Run, Run, 0x2e1dea8c8da92c5);
  (Run, Run, 0x5c3bd5191b5258b);
  (Run, Run, 0xb877aa3236a4b16);
  (Run, Run, 0x24e4bba3a48756a);
  (Run, Run, 0x49c97747490ead5);
  (Run, Run, 0x9392ee8e921d5ab);
  (Run, Run, 0x12725dd1d243ab57);
  (Run, Run, 0x3b07929f6da5577);
  (Run, Run, 0x760f253edb4aaef);
  (Run, Run, 0xec1e4a7db6955df);
  (Run, Run, 0x2f394219248445f);
  (Run, Run, 0x5e72843249088bf);
  (Run, Run, 0xbce50864921117f);
  (Run, Run, 0x25c768141d369e6);
  (Run, Run, 0x4b8ed0283a6d3cc);
  (Run, Run, 0x971da05074da799);
  (Run, Run, 0x12e3b40a0e9b4f32);
  (Run, Run, 0x3c7240202ebdca3);
  (Run, Run, 0x78e480405d7b947);
  (Run, Run, 0xf1c90080baf728e);
  (Run, Near 0x85fcce5d33146 0x199a6bc41c3361 0x329e7a6941cf01b 0x9ac30b2d7c61fca, 0x305b66802564a1c);
  (Run, Near 0x42fe672e998a3 0x1dca523705cc04 0x329e7a6941cf01b 0x1682490c43a92faf, 0x60b6cd004ac9439);
  (Run, Near 0x1744f601561748 0x13150f8e6c7ea5 0x2329e7a6941cf01b 0x1cd618596be30fe5, 0xc16d9a009592872);
  (Near 0x32b9d27595c733 0x3b94a46e0b9808 0x3d52e548405c99f 0x480750273eea323, Near 0x14ef803e8ffb2f 0xee5291b82e602 0x653cf4d2839e036 0x480750273eea323, 0x26af8533511d4e3);
  (Near 0x32b9d27595c733 0x1dca523705cc04 0x7aa5ca9080b933e 0x480750273eea323, Near 0x1c6214cc516e30 0x772948dc17301 0x1128139cc462638f 0x480750273eea323, 0x4d5f0a66a23a9c7);
  (Near 0x32b9d27595c733 0xee5291b82e602 0xf54b9521017267c 0x480750273eea323, Near 0x1d163381ab9d1a 0x772948dc17301 0x2329e7a6941cf01b 0x900ea04e7dd4646, 0x9abe14cd447538e);
  (Near 0x3a2c6703573a34 0x772948dc17301 0x2329e7a6941cf01b 0x480750273eea323, Near 0xe8b19c0d5ce8d 0x15fdae4e97418e 0x2329e7a6941cf01b 0x352bbbb063d77ca7, 0x1357c299a88ea71c);
  (Near 0x23d4a95a12e131 0x253ce6c4c73f05 0x454e81fd810348a 0x480750273eea323, Near 0x1ff60074a2df2a 0x5a0f5aad1775 0xf7492c2adb21195 0x2b8ce29bde6e99, 0x3de5a1ebb4fbb05);
  (Near 0x23d4a95a12e131 0x2488c80f6d101b 0x8a9d03fb0206914 0x8d55d224bfed7ad, Near 0x12175c5a5ffc53 0x12716bb50d13c8 0x117f2d61fc1f40c1 0x11d6472733dc1df3, 0x7bcb43d769f760b);
  (Near 0x242eb8b4bff8a6 0x2488c80f6d101b 0x117f2d61fc1f40c1 0x11aaba4497fdaf5a, Near 0x1b501234e68637 0x938b5da8689e4 0x34d4a1eb2c1a9f75 0x11d6472733dc1df3, 0xf79687aed3eec17);
  (Near 0x22c67b4a0b9ad2 0x2488c80f6d101b 0x35cfec4b5bab479 0x3888ba751992312, Near 0x1af602da396ec2 0x992c53533a159 0xa6e161358ecfa9d 0x3b41889ed7791ab, 0x318481895d9626b);
  (Near 0x35ec05b472dd84 0x2488c80f6d101b 0xa6e161358ecfa9d 0x711174ea3324624, Near 0xd7b016d1cb761 0x170dc6a25058ba 0xa6e161358ecfa9d 0x11d6472733dc1df3, 0x63090312bb2c4d6);
  (Near 0x3f7ecae9a67edd 0x2488c80f6d101b 0x189044b09f5186e5 0xe222e9d46648c48, Near 0x1901e4be44e3be 0xb86e351282c5d 0x26b2734de5b6132d 0x11d6472733dc1df3, 0xc612062576589ac);
  (Near 0x3f7ecae9a67edd 0x37ae5279d452cd 0x4e9a75686438161 0x44edff039dd8986, Near 0x1f41e1bf48b04 0x1e48cb0e694399 0x9ac7664c65f7db 0x95f5f8f06488ff9, 0x279d346de4781ef);
  (Near 0x3f7ecae9a67edd 0x3b968eb1bd68d5 0x9d34ead0c8702c2 0x9388746c0210ae7, Near 0xfa0f0dfa4582 0x1f42da1c63891b 0x9ac7664c65f7db 0x1359868458f717cd, 0x4f3a68dbc8f03de);
  (Near 0x3d8aaccdb1f3d9 0x3b968eb1bd68d5 0x130bd5f3cca80da9 0x12710e8d804215ce, Near 0x7d0786fd22c1 0x1fbfe1a360abdc 0x9ac7664c65f7db 0x274dd46efe542775, 0x9e74d1b791e07bc);
  (Near 0x3d8aaccdb1f3d9 0x3c909dbfb7ae57 0x2617abe799501b52 0x257ce4814cea2377, Near 0x1f03da2a578b4d 0x1e86d2a35a688c 0x4cca1f357f062e7f 0x4b949068e63a3ec9, 0x13ce9a36f23c0f79);
  (Near 0x3d8aaccdb1f3d9 0x38a86187ce984f 0x79e5594b84338aa 0x7038e2e6bdd40cf, Near 0x1ffde93851d0cf 0x1d8cc39560230a 0xfd7728fbcec692f 0xea1e3c324207979, 0x3f61ed7ca0c0318);
  (Near 0x3d8aaccdb1f3d9 0x3b19872ac04614 0xf3cab2970867154 0xea1e3c324207979, Near 0x1ffde93851d0cf 0xec661cab01185 0x1faee51f79d8d25e 0xea1e3c324207979, 0x7ec3daf94180630);
  (Near 0x3d8aaccdb1f3d9 0x1d8cc39560230a 0x1e795652e10ce2a8 0xea1e3c324207979, Near 0x1762258180f12a 0xec661cab01185 0x2e50c8e29df94bd7 0x1d43c7864840f2f2, 0xfd87b5f28300c61);
  (Near 0x3d8aaccdb1f3d9 0x18aa784f7cc780 0x6184476f9cf6088 0x2715ad53081b869, Near 0x1eb5966a55fa79 0x62a9e13df31e0 0xc2a4bb1f4b4e813 0x2715ad53081b869, 0x32b4bdfd4d668e0);
  (Near 0x3d8aaccdb1f3d9 0xc553c27be63c0 0xc3088edf39ec110 0x2715ad53081b869, Near 0x1eb5966a55fa79 0x3154f09ef98f0 0x18549763e969d026 0x2715ad53081b869, 0x65697bfa9acd1c0);
  (Near 0x3d8aaccdb1f3d9 0x62a9e13df31e0 0x186111dbe73d8220 0x2715ad53081b869, Near 0x1eb5966a55fa79 0x18aa784f7cc78 0x30a92ec7d2d3a04c 0x2715ad53081b869, 0xcad2f7f5359a381);
  (Near 0x24e0347e352c59 0x1ed516635bf960 0x2ebee1b0771534c 0x2715ad53081b869, Near 0x1d2aeee55e2e01 0x7b54598d6fe58 0x93e5d96ed4394c7 0x2715ad53081b869, 0x289097fdd7853e6);
  (Near 0x344abfafe32909 0xf6a8b31adfcb0 0x849370b3f645f01 0x2715ad53081b869, Near 0x1d2aeee55e2e01 0x3daa2cc6b7f2c 0x127cbb2dda87298e 0x2715ad53081b869, 0x51212ffbaf0a7cd);
  (Near 0x3c000548ba2761 0x7b54598d6fe58 0x1303c8ebaf4a766b 0x2715ad53081b869, Near 0x1f18404b93ed97 0x1ed516635bf96 0x276ad130e5900b85 0x2715ad53081b869, 0xa2425ff75e14f9a);
  (Near 0x1d2aeee55e2e01 0x268a5bfc32f7b8 0x1d945eafc40b75b 0x2715ad53081b869, Near 0x1d2aeee55e2e01 0x9a296ff0cbdee 0x76517abf102dd6c 0x2715ad53081b869, 0x2073accb12d0feb);
  (Near 0x30701ce377a9dd 0x13452dfe197bdc 0x623e6ab2903271f 0x2715ad53081b869, Near 0x1d2aeee55e2e01 0x4d14b7f865ef7 0xeca2f57e205bad8 0x2715ad53081b869, 0x40e7599625a1fd7);
  (Near 0x3a12b3e28467cb 0x9a296ff0cbdee 0xeb9282b828806a7 0x2715ad53081b869, Near 0x1f71ffb1056361 0x4d14b7f865ef7 0x1fe3ab2c3591c5b7 0x4e2b5aa610370d2, 0x81ceb32c4b43fae);
  (Near 0x3ee3ff620ac6c2 0x4d14b7f865ef7 0x1fe3ab2c3591c5b7 0x2715ad53081b869, Near 0x1f71ffb1056361 0x1221a59845e12c 0x3fc756586b238b6e 0x24c660d696953689, 0x1039d66589687f5d);
  (Near 0x2b9ed163f14ae6 0x1816797d9fdad3 0x46c732b171bc737 0x2715ad53081b869, Near 0x15cf68b1f8a573 0x16f2f117cc4023 0x8d8e6562e378e6e 0x94f28d5781f3809, 0x33ec47ab514e645);
  (Near 0x15cf68b1f8a573 0x2de5e22f988046 0x46c732b171bc737 0x94f28d5781f3809, Near 0x16612ce4e272cb 0x16f2f117cc4023 0x12280f2ba656c677 0x129e51aaf03e7012, 0x67d88f56a29cc8b);
  (Near 0x2cc259c9c4e596 0x16f2f117cc4023 0x12280f2ba656c677 0x94f28d5781f3809, Near 0x16612ce4e272cb 0x16aa0efe575977 0x24501e574cad8cee 0x24c660d696953689, 0xcfb11ead4539917);
  (Near 0x2cc259c9c4e596 0x193a01e3737583 0x3a19ca25477c14b 0x20bef90cf2fb573, Near 0x16612ce4e272cb 0x17cd97642af427 0x7433944a8ef8296 0x7b97bc3f2d72c31, 0x2989d2ef743eb6b);
  (Near 0x16612ce4e272cb 0x2f9b2ec855e84e 0x3a19ca25477c14b 0x7b97bc3f2d72c31, Near 0x16612ce4e272cb 0x1717622486b379 0xe86728951df052c 0xefcb5089bc6aec7, 0x5313a5dee87d6d6);
  (Near 0x16612ce4e272cb 0x2e2ec4490d66f2 0x7433944a8ef8296 0xefcb5089bc6aec7, Near 0x16612ce4e272cb 0x16bc4784b49322 0x1d0ce512a3be0a58 0x1d832791eda5b3f3, 0xa6274bbdd0fadac);
  (Near 0x287d1a4beb6182 0x17cd97642af427 0x2a0bbcf173b34df 0x18b7f2730916f3d, Near 0x16061245105274 0x17cd97642af427 0x5b7ba1d785e1359 0x62dfc9cc245bcf4, 0x213b0f25f698922);
  (Near 0x2c0c248a20a4e8 0x17cd97642af427 0x5b7ba1d785e1359 0x316fe4e6122de7a, Near 0xb03092288293a 0x17cd97642af427 0x5b7ba1d785e1359 0xc5bf939848b79e8, 0x42761e4bed31245);
  (Near 0x16061245105274 0x2dd3a9a93b469b 0x5b7ba1d785e1359 0xbe5b6ba3aa3d04d, Near 0x581849144149d 0x1d4f1bf56f08c4 0x5b7ba1d785e1359 0x1e6fac9081750729, 0x84ec3c97da6248a);
  (Near 0xb03092288293a 0x38d6b2cbc36fd5 0x5b7ba1d785e1359 0x1d832791eda5b3f3, Near 0x581849144149d 0x1f2c1bae83c239 0xb6f743af0bc26b2 0x40be094153a97b3f, 0x109d8792fb4c4914);
  (Near 0xb03092288293a 0x3ff4c7482df6a1 0x124bed2b1ac6a45 0x6a43f1c0c2d668f, Near 0x581849144149d 0x1d39a15b74f102 0x2497da56358d48a 0xc23bf6566ae62d9, 0x352b4b6ff0f41d0);
  (Near 0x581849144149d 0x3ff4c7482df6a1 0x124bed2b1ac6a45 0xd487e38185acd1e, Near 0x581849144149d 0x1f215e6186b658 0x492fb4ac6b1a914 0x19dcb145bac35e15, 0x6a5696dfe1e83a1);
  (Near 0x581849144149d 0x3e42bcc30d6cb0 0x2497da56358d48a 0x19dcb145bac35e15, Near 0x581849144149d 0x1a93b8534b8466 0x925f6958d635228 0x2c289e70d58a0265, 0xd4ad2dbfc3d0743);
  (Near 0x1b8796d6546711 0x38c13831c95813 0x2497da56358d48a 0x4b70a5344aee84f, Near 0x1b8796d6546711 0x151233c2076fc9 0x925f6958d635228 0x70087f8a807bcd9, 0x2a8909265a5ce40);
  (Near 0x1b8796d6546711 0x2a2467840edf92 0x492fb4ac6b1a914 0x70087f8a807bcd9, Near 0x1b8796d6546711 0x184ce54c2deb6d 0x124bed2b1ac6a450 0x10267e8e356b0f01, 0x5512124cb4b9c81);
  (Near 0x1b8796d6546711 0x3099ca985bd6da 0x925f6958d635228 0x10267e8e356b0f01, Near 0x19ea3e1141293f 0x184ce54c2deb6d 0x22726bb95031b351 0x204cfd1c6ad61e02, 0xaa2424996973902);
  (Near 0x355d2327884431 0x151233c2076fc9 0x38bf03506f6bb14 0x1668198219b25c5, Near 0x1d24ef9b67a4e3 0x151233c2076fc9 0x7bf74fd6bc82c63 0x59a0660866c9714, 0x22073a8515171cd);
  (Near 0x3a49df36cf49c6 0x151233c2076fc9 0x7bf74fd6bc82c63 0x2cd033043364b8a, Near 0x191b91aeb78a56 0x151233c2076fc9 0xd597b5df234c377 0xb340cc10cd92e28, 0x440e750a2a2e39a);
  (Near 0x3237235d6f14ac 0x151233c2076fc9 0xd597b5df234c377 0x59a0660866c9714, Near 0xc8dc8d75bc52b 0x151233c2076fc9 0xd597b5df234c377 0x1668198219b25c50, 0x881cea14545c735);
  (Near 0x191b91aeb78a56 0x2e2dc570befa1f 0xd597b5df234c377 0x188d881eff0df19f, Near 0xc8dc8d75bc52b 0x1d5dc7240d5fa5 0x1ab2f6bbe46986ee 0x3e748b9bf050a6b5, 0x11039d428a8b8e6a);
  (Near 0x3640814a1f2f39 0x1108d5d557553c 0x5c4e111c1f438d9 0x1cfb93a6e4c51c5, Near 0x1cb3408a1c2f5f 0x442357555d54f 0xc352ce87206f8c6 0x1cfb93a6e4c51c5, 0x3671f73b54f1c7b);
  (Near 0x3ec4ec34cad9d7 0x8846aeaabaa9e 0xd597b5df234c377 0x1cfb93a6e4c51c5, Near 0x1d415b5fba8244 0x442357555d54f 0x18e33d81761d3529 0x39f7274dc98a38a, 0x6ce3ee76a9e38f7);
  (Near 0x3ec4ec34cad9d7 0x442357555d54f 0x1ab2f6bbe46986ee 0x1cfb93a6e4c51c5, Near 0xea0adafdd4122 0x12e2e325331671 0x18e33d81761d3529 0x2022226b2f4e7c3d, 0xd9c7dced53c71ee);
  (Near 0x3e964afd2e17fe 0x442357555d54f 0x55306a402182873 0x5cbea5494276c1, Near 0x1e8d4dd9f7f094 0x442357555d54f 0xa6573ae03baa701 0x172fa952509db04, 0x2b8e5f62aa5b062);
  (Near 0x3d1a9bb3efe128 0x442357555d54f 0xa6573ae03baa701 0xb97d4a9284ed82, Near 0x1c0d474cfd7837 0x442357555d54f 0x1317532ce1f5c919 0x2e5f52a4a13b608, 0x571cbec554b60c5);
  (Near 0x3c5cc40f50c5bd 0x442357555d54f 0x148a4dc206ffa41d 0x172fa952509db04, Near 0x1027be6129a6c3 0x1469f3d67f7c12 0x15fd48572c097f21 0x1bc932abc030eb31, 0xae397d8aa96c18b);
  (Near 0x381a8e99faf06e 0x154b0b4aad2a8b 0x3d17708f9fdf505 0x172fa952509db04, Near 0x1c0d474cfd7837 0x18ac294bd55161 0x7a2ee11f3fbea0a 0x6b76c334411ab0d, 0x22d84c4eeeaf382);
  (Near 0x1c0d474cfd7837 0x31585297aaa2c2 0x3d17708f9fdf505 0x6b76c334411ab0d, Near 0x1a5cb84c6964cc 0x18ac294bd55161 0xe5a5a45380d9517 0xd6ed8668823561a, 0x45b0989ddd5e704);
  (Near 0x34b97098d2c998 0x18ac294bd55161 0xe5a5a45380d9517 0x6b76c334411ab0d, Near 0xd2e5c2634b266 0x18ac294bd55161 0xe5a5a45380d9517 0x1addb0cd1046ac34, 0x8b61313bbabce09);
  (Near 0x1a5cb84c6964cc 0x3308e1983eb62d 0xe5a5a45380d9517 0x1bc932abc030eb31, Near 0x6972e131a5933 0x1f43575eefaa94 0xe5a5a45380d9517 0x4415bbdf589aed7f, 0x116c262777579c13);
  (Near 0x1b08f0094136b 0x3e88b26657dbd9 0x2f19f956620c99 0x6cf315662599096, Near 0x1b08f0094136b 0x1f43575eefaa94 0xbc67e559883264 0xd9df25fde8562b3, 0x37c07a17e44b8d0);
  (Near 0x1b08f0094136b 0x3e86aebddf5528 0x5e33f2acc41932 0xd9df25fde8562b3, Near 0x11523ab00be8b5 0xfa1abaf77d54a 0xf16c22a9195c77b 0xd9df25fde8562b3, 0x6f80f42fc8971a1);
  (Near 0x20f3e65f83bdff 0x1f43575eefaa94 0xe5a5a45380d9517 0xd9df25fde8562b3, Near 0x19231087c7d35a 0x7d0d5d7bbeaa5 0x2bcb76b501b0f1a9 0xd9df25fde8562b3, 0xdf01e85f912e342);
  (Near 0x1b08f0094136b 0x3f61fbbade28e7 0x25ae6111e80a14 0x5857b8505ab3867, Near 0x1b08f0094136b 0x1ea16233c73422 0x96b98447a02850 0xaac52ca78649923, 0x2c99fb46503c70d);
  (Near 0x1b08f0094136b 0x3ef35368227baf 0x4b5cc223d01428 0xaf7af8c9c34ad4b, Near 0x14625e1b9fd452 0x12b1cf1b0bc0e7 0xe34abe426258b03 0xd0738db96e53a63, 0x5933f68ca078e1a);
  (Near 0x28c4bc373fa8a4 0x27142d36ab9539 0xe34abe426258b03 0xd9df25fde8562b3, Near 0xa312f0dcfea29 0x1ce2fe28dbab10 0xe34abe426258b03 0x28431d9b53efffc9, 0xb267ed1940f1c35);
  (Near 0x2a754b37d3bc0f 0x22028034ef5af8 0x2f57aae7c5abd77 0x25ec12a34ba9527, Near 0x19740b1d5c0e93 0x880a00d3bd6be 0x718686587f5cb8e 0x25ec12a34ba9527, 0x23ae629ea696c0a);
  (Near 0x2a754b37d3bc0f 0x3b768b524b698b 0x5eaf55cf8b57aee 0x849b6872d701015, Near 0x1db45b23f9f9f2 0x44050069deb5f 0x108f91f544a62c43 0x25ec12a34ba9527, 0x475cc53d4d2d815);
  (Near 0x32f5eb450f92cd 0x3b768b524b698b 0xe34abe426258b03 0x10936d0e5ae0202a, Near 0x1b9b1da5d6bf16 0x1fdb6dac74aa75 0x1ec818f28105ab2d 0x23859b46ea7ad57b, 0x8eb98a7a9a5b02a);
  (Near 0x37363b4bad7e2c 0x3b768b524b698b 0x1ec818f28105ab2d 0x2126da1cb5c04054, Near 0xdcd8ed2eb5f8b 0x1fdb6dac74aa75 0x1ec818f28105ab2d 0x470b368dd4f5aaf6, 0x11d7314f534b6055);
  (Near 0x2a754b37d3bc0f 0x3fb6db58e954ea 0x4bbf77d93c46258 0x71ab8a7c87ef77f, Near 0x54ceec5af88cd 0x1fdb6dac74aa75 0x25d36535f09cd31 0xe35714f90fdeefe, 0x391704310a8acdd);
  (Near 0x2a754b37d3bc0f 0x1fdb6dac74aa75 0x977eefb2788c4b0 0x71ab8a7c87ef77f, Near 0x12942e391219a1 0x1fdb6dac74aa75 0x1092a7a2f007bc2f 0x1c6ae29f21fbddfc, 0x722e086215159bb);
  (Near 0x25285c72243342 0x1fdb6dac74aa75 0x1092a7a2f007bc2f 0xe35714f90fdeefe, Near 0x12942e391219a1 0x1937cdf2c3620b 0x21254f45e00f785e 0x2cfd8a4212039a2b, 0xe45c10c42a2b377);
  (Near 0x54ceec5af88cd 0x3fe05a77efb5df 0x790add79685c3d 0x5b2adbd07a772b4, Near 0x54ceec5af88cd 0x1be52fdac6e145 0x1e42b75e5a170f4 0x9f40f864c52b0d9, 0x2dac035a6ed5717);
  (Near 0x54ceec5af88cd 0x3d174e7b3d4b57 0xf215baf2d0b87a 0xae625413f236953, Near 0x15e5fe15eabdd6 0x10990f503b3509 0xfa091e7fd3703b5 0xbd83afc31f421cd, 0x5b5806b4ddaae2f);
  (Near 0x2bcbfc2bd57bac 0x267f0d6625f2df 0xfa091e7fd3703b5 0xdbc6672179592c1, Near 0xaf2ff0af55eeb 0x1b8c0e5b3093f4 0xfa091e7fd3703b5 0x275107e0611f474f, 0xb6b00d69bb55c5f);
  (Near 0x54ceec5af88cd 0x3bf7f1b0996256 0x60d57dfab9e364 0x4478d249b6e5dfd, Near 0x54ceec5af88cd 0x1c3e515a5d2e96 0x18355f7eae78d90 0x80fe41066b13fe5, 0x24899c4858aac13);
  (Near 0x54ceec5af88cd 0x3dc9917a69e5f9 0xc1aafbf573c6c8 0x8d18f0c5c2506ad, Near 0x1e05f4fe3d31b2 0x18b906388da8e5 0x1123e7dfe81e9145 0xe1d3bf0124f7625, 0x49133890b155826);
  (Near 0x36befb36cada97 0x31720c711b51ca 0xfa091e7fd3703b5 0xe1d3bf0124f7625, Near 0xf02fa7f1e98d9 0x18b906388da8e5 0x1123e7dfe81e9145 0x1c3a77e0249eec4a, 0x9226712162ab04c);
  (Near 0x36befb36cada97 0x18b906388da8e5 0x1f4123cffa6e076a 0xe1d3bf0124f7625, Near 0x13de005bd620df 0x18b906388da8e5 0x2d5e5fc00cbd7d8f 0x3874efc0493dd894, 0x1244ce242c556098);
  (Near 0x2352e3c3ecba7f 0x2c251dab6bc8fd 0x40883f6592f88e1 0x50a5bfcdc8ff6a2, Near 0x13de005bd620df 0x18471d4f95a81e 0x912dff335bf7f83 0xb1690003c805b05, 0x3a75c6da27779b8);
  (Near 0x27bc00b7ac41be 0x2c251dab6bc8fd 0x912dff335bf7f83 0xa14b7f9b91fed44, Near 0x13de005bd620df 0xc238ea7cad40f 0x1225bfe66b7eff06 0xb1690003c805b05, 0x74eb8db44eef370);
  (Near 0x13de005bd620df 0x2c251dab6bc8fd 0x912dff335bf7f83 0x14296ff3723fda88, Near 0x13de005bd620df 0x1000c781d07a77 0x244b7fccd6fdfe0c 0x1d3c4fe6a7ff5a0b, 0xe9d71b689dde6e0);
  (Near 0x13de005bd620df 0x3dc9917a69e5f9 0x1d09330a4597fe7 0x5a4d66e4f73db50, Near 0x13de005bd620df 0x1469e4759001b6 0x7424cc29165ff9c 0x775699ef3cd5b37, 0x2ec49f14ec5faf9);
  (Near 0x13de005bd620df 0x3cb1c946f6244b 0x3a1266148b2ffce 0xb1690003c805b05, Near 0x13de005bd620df 0x1e12f2969e21ba 0xe84998522cbff38 0x15fa032416995a6f, 0x5d893e29d8bf5f3);
  (Near 0x13de005bd620df 0x3c25e52d3c4374 0x7424cc29165ff9c 0x15fa032416995a6f, Near 0x13de005bd620df 0xf09794b4f10dd 0x1d09330a4597fe70 0x15fa032416995a6f, 0xbb127c53b17ebe6);
  (Near 0x13de005bd620df 0x3e55759423c6d0 0x173a8f3b6adffec 0x48e17b786715b5f, Near 0x13de005bd620df 0xf955d6508f1b4 0x5cea3cedab7ffb0 0x48e17b786715b5f, 0x256a18dd89e6261);
  (Near 0x13de005bd620df 0x3308bb25e80447 0x2e751e76d5bffd8 0x775699ef3cd5b37, Near 0x13de005bd620df 0x1ba8af0e5a99b9 0xb9d479db56fff60 0x102b5f553be15abf, 0x4ad431bb13cc4c2);
  (Near 0x13de005bd620df 0x37515e1cb53372 0x5cea3cedab7ffb0 0x102b5f553be15abf, Near 0x13de005bd620df 0x17c357b5185d4c 0x173a8f3b6adffec0 0x1bc8a6f2f1515a1f, 0x95a863762798985);
  (Near 0x13de005bd620df 0x2f86af6a30ba98 0xb9d479db56fff60 0x1bc8a6f2f1515a1f, Near 0x13de005bd620df 0x1fbfac36624f85 0x2e751e76d5bffd80 0x4a3dc569c711579f, 0x12b50c6ec4f3130a);
  (Near 0x3c60984e984819 0x7caaeb28478da 0x70f2fe62efea401 0xe937f18149df13, Near 0x1c3da07aab05d6 0x3e55759423c6d 0xd3527dadcb368ef 0x1d26fe30293be26, 0x3bdcf495a9703ce);
  (Near 0x3c60984e984819 0x3e55759423c6d 0xe1e5fcc5dfd4802 0xe937f18149df13, Near 0x15e97eefd9fbc5 0x19ced6491c3832 0x147ee766e7026187 0x1823c72cec29ddd3, 0x77b9e92b52e079d);
  (Near 0x2fb85538f633f7 0x339dac92387064 0x16515749e9961fad 0x1823c72cec29ddd3, Near 0x15e97eefd9fbc5 0xce76b248e1c19 0x28fdcecdce04c30e 0x1823c72cec29ddd3, 0xef73d256a5c0f3b);
  (Near 0x2fb85538f633f7 0x137ab4be4b2e21 0x476ab0ec8513989 0x1d26fe30293be26, Near 0x1eeb92bb25db71 0x10ccc27dd05886 0xb919149565fee75 0x6491af1cae4f7af, 0x2fe3f6de2126972);
  (Near 0x2fb85538f633f7 0x219984fba0b10c 0x8ed561d90a27312 0x6491af1cae4f7af, Near 0x1eeb92bb25db71 0x866613ee82c43 0x17232292acbfdcea 0x6491af1cae4f7af, 0x5fc7edbc424d2e4);
  (Near 0x2fb85538f633f7 0x10ccc27dd05886 0x11daac3b2144e624 0x6491af1cae4f7af, Near 0x1c0f5b3bef301d 0x866613ee82c43 0x29fe73680d6ec3f7 0xc9235e395c9ef5e, 0xbf8fdb78849a5c9);
  (Near 0x1eeb92bb25db71 0x351439b9ebdf2d 0x2505041de132fb1 0x3f8caafecd1c7fe, Near 0x1eeb92bb25db71 0x58a29bfb180ef 0x9414107784cbec4 0x1a87a6e0ebe984d, 0x264ff8b1b41edf5);
  (Near 0x1eeb92bb25db71 0x29ffe63a88dd4f 0x4a0a083bc265f62 0x6491af1cae4f7af, Near 0x1eeb92bb25db71 0x123ade3d6bae30 0x1282820ef0997d88 0xae9bb75870b5711, 0x4c9ff163683dbea);
  (Near 0x1eeb92bb25db71 0x2475bc7ad75c60 0x9414107784cbec4 0xae9bb75870b5711, Near 0x1eeb92bb25db71 0x91d6f1eb5d718 0x2505041de132fb10 0xae9bb75870b5711, 0x993fe2c6d07b7d4);
  (Near 0x312670f89189a1 0x123ade3d6bae30 0x1d6c3d8477a4d499 0xae9bb75870b5711, Near 0x1eeb92bb25db71 0x48eb78f5aeb8c 0x4a0a083bc265f620 0xae9bb75870b5711, 0x1327fc58da0f6fa8);
  (Near 0x2b9c4738e008b2 0x17c507fd1d2f1f 0x538a821aba18733 0x2d889a9edb4e7ef, Near 0x15ce239c700459 0x16c995ccc699bc 0xa71504357430e66 0xae9bb75870b5711, 0x3d4cc11c5364988);
  (Near 0x15ce239c700459 0x2d932b998d3378 0x538a821aba18733 0xae9bb75870b5711, Near 0x15ce239c700459 0xb64cae6634cde 0x14e2a086ae861ccc 0xae9bb75870b5711, 0x7a998238a6c9310);
  (Near 0x2c97b969369e15 0x16c995ccc699bc 0x155b0bb8de4e6577 0xae9bb75870b5711, Near 0x1b80890fa1aac8 0x5b2657331a66f 0x34aefc82e41790a9 0xae9bb75870b5711, 0xf53304714d92620);
  (Near 0x15ce239c700459 0x3085822a90f3a1 0x216a9a71173cfae 0x4a5be8052afe807, Near 0x15ce239c700459 0x1c7bfb3ff8402b 0x85aa69c45cf3eb8 0xae9bb75870b5711, 0x310a3416a91d46c);
  (Near 0x15ce239c700459 0x38f7f67ff08056 0x42d534e22e79f5c 0xae9bb75870b5711, Near 0x19250f6e342242 0x1c7bfb3ff8402b 0x13446211ccda95c9 0x15d376eb0e16ae22, 0x6214682d523a8d9);
  (Near 0x324a1edc684484 0x1c7bfb3ff8402b 0x13446211ccda95c9 0xae9bb75870b5711, Near 0xc9287b71a1121 0x1c7bfb3ff8402b 0x13446211ccda95c9 0x2ba6edd61c2d5c44, 0xc428d05aa4751b3);
  (Near 0x3e45cc957672ff 0x6add7a3883bd2 0x4c5896c1dae4fd5 0x83042b73726b45, Near 0x1d777061d92a8b 0x356ebd1c41de9 0x9080eacc7ea3465 0x1060856e6e4d68a, 0x273b5cdeedb1057);
  (Near 0x3e45cc957672ff 0x356ebd1c41de9 0x98b12d83b5c9faa 0x83042b73726b45, Near 0x1dc2dd60df1bde 0x356ebd1c41de9 0x123e59bae5f5bf3f 0x20c10adcdc9ad14, 0x4e76b9bddb620ae);
  (Near 0x3edca6938255a5 0x356ebd1c41de9 0x13446211ccda95c9 0x1060856e6e4d68a, Near 0xee16eb06f8def 0x12385a8233abd8 0x123e59bae5f5bf3f 0x16567b1681891967, 0x9ced737bb6c415c);
  (Near 0x2119c932a339c7 0x2470b5046757b0 0x144a6a68b3bf6c53 0x16567b1681891967, Near 0x17fd9bf18963db 0x91c2d4119d5ec 0x3ad32e8c4d7497e5 0x16567b1681891967, 0x139dae6f76d882b9);
  (Near 0x2119c932a339c7 0x31cc644b77cf54 0x40ee214f0bfe277 0x61af2c2be898f8b, Near 0x14a6b01fc545f2 0xc731912ddf3d5 0xa2095910475fa51 0x61af2c2be898f8b, 0x3ec56164af81a25);
  (Near 0x2119c932a339c7 0x39fffb585f2171 0x81dc429e17fc4ee 0xe38b6eca0095479, Near 0xa53580fe2a2f9 0x16c67122c096ce 0xa2095910475fa51 0x16567b1681891967, 0x7d8ac2c95f0344a);
  (Near 0x2119c932a339c7 0x2d8ce245812d9c 0x103b8853c2ff89dc 0x16567b1681891967, Near 0x15b690a142ee60 0xb633891604b67 0x2a97a6388a750e09 0x16567b1681891967, 0xfb158592be06894);
  (Near 0x2119c932a339c7 0x3e3f7d5e55c329 0x33f1b43f3ccb52c 0x61af2c2be898f8b, Near 0x943778e64fa8b 0x17d651a43e3f3c 0x3a25f091cdc8ff9 0x95a0e06b25644b7, 0x3237811d593481d);
  (Near 0x2119c932a339c7 0x2faca3487c7e78 0x67e3687e7996a58 0x95a0e06b25644b7, Near 0x152ea060841a29 0xbeb28d21f1f9e 0x109ecc18ec0f64a9 0x95a0e06b25644b7, 0x646f023ab26903b);
  (Near 0x2119c932a339c7 0x38f01ad6e17903 0xcfc6d0fcf32d4b0 0x16567b1681891967, Near 0x1b2434c993a9f8 0x5f594690f8fcf 0x2a97a6388a750e09 0x95a0e06b25644b7, 0xc8de047564d2076);
  (Near 0x3ce42fddd22968 0xe92da15d944b1 0x4c71ba23ac1b41f 0x124bc991de52426, Near 0xf390bf7748a5a 0x1dcbe60d4dcf0b 0x4c71ba23ac1b41f 0x95a0e06b25644b7, 0x282c674aadc39b1);
  (Near 0x1e7217eee914b4 0x2d04f204c25965 0x4c71ba23ac1b41f 0x71094d4768bfc6b, Near 0x79c85fbba452d 0x1dcbe60d4dcf0b 0x4c71ba23ac1b41f 0x12b41c0d64ac896e, 0x5058ce955b87362);
  (Near 0x3c3dfdfc36e3bf 0x2d04f204c25965 0x12e8454b27d9acf5 0xe2129a8ed17f8d6, Near 0x1a50bc003e4f49 0x12b43604840a1c 0x21096ef414f1a5cb 0x177b37af9f6e3d8d, 0xa0b19d2ab70e6c5);
  (Near 0x3d8a61bf6d6f11 0xe92da15d944b1 0x3dceb27bc70ca67 0xea307a7e50e9b8, Near 0x1a50bc003e4f49 0xe92da15d944b1 0x69b7c973763878f 0x3a8c1e9f943a6e0, 0x202385d557cfaf4);
  (Near 0x34a178007c9e92 0xe92da15d944b1 0x69b7c973763878f 0x1d460f4fca1d370, Near 0x1a50bc003e4f49 0x1471cb0b0bc9fd 0xd36f92e6ec70f1e 0xa443e8130a72e6f, 0x40470baaaf9f5e8);
  (Near 0x1a50bc003e4f49 0x28e396161793fa 0x69b7c973763878f 0xa443e8130a72e6f, Near 0x1a50bc003e4f49 0x17614385a50ca3 0x1a6df25cdd8e1e3c 0x177b37af9f6e3d8d, 0x808e17555f3ebd0);
  (Near 0x1a50bc003e4f49 0x2ec2870b4a1946 0xd36f92e6ec70f1e 0x177b37af9f6e3d8d, Near 0x1a50bc003e4f49 0x18d8ffc2f1adf6 0x34dbe4b9bb1c3c78 0x31e92a0c7cfc5bc9, 0x1011c2eaabe7d7a1);
  (Near 0x5def0f532854c 0x3d206082d94cdd 0x96f222a6066023 0x6239f8ea67a8d7a, Near 0x177bc3d4ca153 0x1fc5abb8dcb261 0x96f222a6066023 0xcc39385a16ab32c, 0x336c0955594c4b9);
  (Near 0x2ef787a9942a6 0x3d206082d94cdd 0x96f222a6066023 0xc473f1d4cf51af4, Near 0x177bc3d4ca153 0x1f4c0e6012f718 0x12de4454c0cc046 0x1925705d3ff0960b, 0x66d812aab298973);
  (Near 0x177bc3d4ca153 0x3e981cc025ee30 0x96f222a6066023 0x1925705d3ff0960b, Near 0x177bc3d4ca153 0x1fcb1dd2546a1d 0x25bc88a9819808c 0x33170e51c9091c0f, 0xcdb0255565312e7);
  (Near 0x756ad327f269f 0x38b92bcaf368e4 0x96f222a6066023 0x48ebb2a21916ab3, Near 0x756ad327f269f 0x1cdba557bb2777 0x25bc88a9819808c 0x9464c3f51c46bcb, 0x29233aaaadd6a2e);
  (Near 0x756ad327f269f 0x39b74aaf764eee 0x12de4454c0cc046 0x9464c3f51c46bcb, Near 0x121929451d270b 0x1cdba557bb2777 0xba214c9e9ddec57 0x128c987ea388d796, 0x524675555bad45c);
  (Near 0x2432528a3a4e16 0x1cdba557bb2777 0xba214c9e9ddec57 0x9464c3f51c46bcb, Near 0x121929451d270b 0x177a674e6c2741 0x17442993d3bbd8ae 0x1e2ead488d66c3ed, 0xa48ceaaab75a8b9);
  (Near 0x24b161fc7bc11b 0x1cdba557bb2777 0x25bc88a9819808c 0x1dadc0ca9f4158f, Near 0x1ed11480eb4de0 0x1cdba557bb2777 0x7ec5cb095f5c139 0x76b7032a7d0563c, 0x20e8fbbbbe454f1);
  (Near 0x3da22901d69bc0 0x1cdba557bb2777 0x7ec5cb095f5c139 0x3b5b81953e82b1e, Near 0xf688a4075a6f0 0x1cdba557bb2777 0x7ec5cb095f5c139 0xed6e0654fa0ac78, 0x41d1f7777c8a9e3);
  (Near 0x3bacb9d8a67557 0x1cdba557bb2777 0xf57cce33dc61775 0x76b7032a7d0563c, Near 0x7b445203ad378 0x1cdba557bb2777 0x7ec5cb095f5c139 0x1dadc0ca9f4158f0, 0x83a3eeeef9153c7);
  (Near 0x3bacb9d8a67557 0x2c442f9830ce67 0x1eaf99c67b8c2eea 0x16c33d15e5966db1, Near 0x3da22901d69bc 0x1cdba557bb2777 0x7ec5cb095f5c139 0x3b5b81953e82b1e0, 0x10747ddddf22a78f);
  (Near 0xf688a4075a6f0 0x33d6fd33e5dbb3 0x195ac23513126a5 0x554d7916879c49a, Near 0x3da22901d69bc 0x1cba2dd335614b 0x195ac23513126a5 0xbd15571bac02a8a, 0x34a7f92c63a2183);
  (Near 0x7b445203ad378 0x3b8b425420af2b 0x195ac23513126a5 0xc3f5b462224afd9, Near 0x1ed11480eb4de 0x1ea73f1b441629 0x195ac23513126a5 0x19385706c6b17bb9, 0x694ff258c744306);
  (Near 0x3da22901d69bc 0x3f6564e43e18e7 0x195ac23513126a5 0x1a1462af957a8657, Near 0xf688a4075a6f 0x1f9dc7bf4b7098 0x195ac23513126a5 0x34065a30de941e17, 0xd29fe4b18e8860c);
  (Near 0x3da22901d69bc 0x3ebe0f4da13a0b 0x51226d76a36e21 0x5298276ff5821d5, Near 0xf688a4075a6f 0x1fecfaccb5ec2b 0x51226d76a36e21 0xa81bc2d28f2c334, 0x2a1ffa89e94e79c);
  (Near 0x1ed11480eb4de 0x3ebe0f4da13a0b 0x51226d76a36e21 0xa5304edfeb043aa, Near 0xf688a4075a6f 0x1fda4bf8d44a3d 0xa244daed46dc42 0x14f72c497403f575, 0x543ff513d29cf38);
  (Near 0xf688a4075a6f 0x3fb497f1a8947a 0x51226d76a36e21 0x14f72c497403f575, Near 0xf688a4075a6f 0x1fd0f48ee37946 0x14489b5da8db884 0x29e20c820a2659f7, 0xa87fea27a539e70);
  (Near 0x4d0ab3424c42b 0x3fb497f1a8947a 0x51226d76a36e21 0x4316f41e400cab1, Near 0x4d0ab3424c42b 0x1bf6d1fec60f8a 0x14489b5da8db884 0x75cc788866317fb, 0x21b32ed4baa52e3);
  (Near 0x4d0ab3424c42b 0x3cbe4f31b0e33f 0xa244daed46dc42 0x7ff0c6373a9f43d, Near 0x4d0ab3424c42b 0x1c6d6a9bd15446 0x289136bb51b7108 0xef801cba5b56b13, 0x43665da9754a5c6);
  (Near 0x4d0ab3424c42b 0x3dab806bc76cb7 0x14489b5da8db884 0x103c8b8180432397, Near 0x4d0ab3424c42b 0x1ca8b6ea56f6a4 0x51226d76a36e210 0x1e2e7651e45a1143, 0x86ccbb52ea94b8c);
  (Near 0x4d0ab3424c42b 0x3e221908d2b173 0x289136bb51b7108 0x20b789bd9975824b, Near 0x4d0ab3424c42b 0x1cc65d1199c7d3 0xa244daed46dc420 0x3c9b5f5e61a35da3, 0x10d9976a5d529719);
  (Near 0x18135804b7d4d7 0x2adf6c383fa0c7 0x289136bb51b7108 0x483d8cfc1018c6f, Near 0x18135804b7d4d7 0x1cc65d1199c7d3 0xa244daed46dc420 0xc1f1312e053df87, 0x35eb7e212aa1e38);
  (Near 0x18135804b7d4d7 0x398cba23338fa6 0x51226d76a36e210 0xc1f1312e053df87, Near 0x1a6cda8b28ce55 0x1cc65d1199c7d3 0x164360c1b4c1a3a7 0x183e2625c0a7bf0e, 0x6bd6fc425543c70);
  (Near 0x34d9b516519caa 0x1cc65d1199c7d3 0x164360c1b4c1a3a7 0xc1f1312e053df87, Near 0x1b999bce614b14 0x1cc65d1199c7d3 0x2e8186e7756962b5 0x307c4c4b814f7e1c, 0xd7adf884aa878e1);
  (Near 0x3ed3fdf463988d 0x1cc65d1199c7d3 0x54b12da7ab29dea 0x26c9d6a2cdd931b, Near 0x16e696c17f5818 0x1cc65d1199c7d3 0x7b7b044a7903105 0x9b275a8b3764c6c, 0x2b22cb4dbbb4b60);
  (Near 0x2dcd2d82feb030 0x1cc65d1199c7d3 0x7b7b044a7903105 0x4d93ad459bb2636, Near 0xb734b60bfac0c 0x1cc65d1199c7d3 0x7b7b044a7903105 0x1364eb5166ec98d8, 0x5645969b77696c0);
  (Near 0x33acf3d3191feb 0x1cc65d1199c7d3 0x116a25ed5b067d71 0x9b275a8b3764c6c, Near 0x5b9a5b05fd606 0x1cc65d1199c7d3 0x7b7b044a7903105 0x26c9d6a2cdd931b0, 0xac8b2d36eed2d81);
  (Near 0x1106d07164e85d 0x3f6c80734dff61 0x125c89352553786 0x446568ab0908a73, Near 0x1ca03c71df2e1e 0xb996c007a45c1 0x7b7b044a7903105 0x3208df75e3b52ed, 0x22823c3e2fc3c4d);
  (Near 0x2839a8725973df 0x3f6c80734dff61 0x56c1f1e02e5c1f9 0x88cad15612114e6, Near 0xe501e38ef970f 0x19e98a3969dcd0 0x7b7b044a7903105 0xdf8cc336406d6df, 0x4504787c5f8789a);
  (Near 0x2839a8725973df 0x33d31472d3b9a0 0xad83e3c05cb83f2 0xdf8cc336406d6df, Near 0x1b44e355a48577 0xcf4c51cb4ee68 0x1d682cbcb32738e9 0xdf8cc336406d6df, 0x8a08f0f8bf0f134);
  (Near 0x2839a8725973df 0x19e98a3969dcd0 0x15b07c780b9707e4 0xdf8cc336406d6df, Near 0x1b44e355a48577 0x67a628e5a7734 0x3ad05979664e71d2 0xdf8cc336406d6df, 0x11411e1f17e1e268);
  (Near 0x3bf72b1c33ad8a 0xb996c007a45c1 0x677777b4eaba973 0x14038c958e48792, Near 0x14ca80c74a0e43 0xb996c007a45c1 0x8f7e90e0074b897 0x500e32563921e48, 0x3736c6c9e60607b);
  (Near 0x352e6d8f0e6247 0xb996c007a45c1 0xb785aa0b23dc7bb 0x2807192b1c90f24, Near 0x14ca80c74a0e43 0x1031f663e22a02 0x11efd21c00e9712e 0xdf8cc336406d6df, 0x6e6d8d93cc0c0f6);
  (Near 0x352e6d8f0e6247 0x2063ecc7c45404 0x16f0b541647b8f76 0xdf8cc336406d6df, Near 0x1ce37bf93b2344 0x818fb31f11501 0x31d8706b65d9b93b 0xdf8cc336406d6df, 0xdcdb1b2798181ed);
  (Near 0x1dfb958e19d6c5 0x2bfd58c83e99c5 0x2962fcaec44aa2e 0x3cb897827eb643b, Near 0x1dfb958e19d6c5 0x38070ce8930c0 0xa58bf2bb112a8b8 0x13559ad3ba6ba0d, 0x2c2bd23b1e6b395);
  (Near 0x24fc772b2c3845 0x2bfd58c83e99c5 0x661b94314300e69 0x79712f04fd6c876, Near 0x1fbbcdf55e6f25 0x1c03867449860 0x15e6d8049dcc0b7d 0x13559ad3ba6ba0d, 0x5857a4763cd672b);
  (Near 0x24fc772b2c3845 0x287ce7f9b56905 0xcc3728628601cd2 0xdf8cc336406d6df, Near 0x1fbbcdf55e6f25 0xe01c33a24c30 0x2bcdb0093b9816fa 0x13559ad3ba6ba0d, 0xb0af48ec79ace57);
  (Near 0x3e5ee79b1b6f19 0x38070ce8930c0 0x44dfec986d10677 0x3ddebc3f215869, Near 0x1fbb0c8beb0489 0xe01c33a24c30 0x8c2876979b50381 0x3ddebc3f215869, 0x235641c8e522944);
  (Near 0x3e5ee79b1b6f19 0x1c03867449860 0x89bfd930da20cee 0x3ddebc3f215869, Near 0x1fbb0c8beb0489 0x700e19d12618 0x11850ed2f36a0702 0x3ddebc3f215869, 0x46ac8391ca45289);
  (Near 0x3f3f03cebdbb49 0xe01c33a24c30 0x1175d9e25a657245 0x3ddebc3f215869, Near 0x1ff31398d39795 0x38070ce8930c 0x2347fc6225f5666d 0x3ddebc3f215869, 0x8d590723948a512);
  (Near 0x3faf11e88ee161 0x700e19d12618 0x23299280f3ec3cf3 0x3ddebc3f215869, Near 0x1ff31398d39795 0x1c0386744986 0x468ff8c44beaccda 0x3ddebc3f215869, 0x11ab20e472914a25);
  (Near 0x3fab4ad94dcc55 0x700e19d12618 0x707e5b5d9293d35 0xc5fbf3fd37815, Near 0x1fef4c89928289 0x1c0386744986 0xe1b20311716ed0a 0xc5fbf3fd37815, 0x388a02db083753a);
  (Near 0x3fe351e6365f61 0x38070ce8930c 0xe1c2b2af225f27f 0xc5fbf3fd37815, Near 0x1ffd4e4ccca74c 0xe01c33a24c3 0x1c42a0216e015229 0xc5fbf3fd37815, 0x711405b6106ea75);
  (Near 0x3fff556caaa8e7 0x1c0386744986 0x1c44b615241f5d13 0xc5fbf3fd37815, Near 0x1ff8a9d4b84212 0xe01c33a24c3 0x387d0c6b086b4211 0x18bf7e7fa6f02a, 0xe2280b6c20dd4ea);
  (Near 0x3fe351e6365f61 0x8c11a0456f9e 0x5a4de112da8c766 0xc5fbf3fd37815, Near 0x1fcea48b09d3c9 0x4608d022b7cf 0xb3d5c631b7e16b7 0x18bf7e7fa6f02a, 0x2d3b357c0692a95);
  (Near 0x3fe351e6365f61 0x4608d022b7cf 0xb49bc225b518ecc 0xc5fbf3fd37815, Near 0x1fe855d573eab2 0x4608d022b7cf 0x168ce13372c9d9e9 0x317efcff4de054, 0x5a766af80d2552a);
  (Near 0x3fd0abaae7d564 0x4608d022b7cf 0x168ce13372c9d9e9 0x18bf7e7fa6f02a, Near 0x1fd22a12979a3f 0x4608d022b7cf 0x2cfa6bd722137ff9 0x62fdf9fe9bc0a8, 0xb4ecd5f01a4aa55);
  (Near 0x3efe913a7fadf7 0x15e2c10ad970b 0x473ba24ca5dceaf 0x18bf7e7fa6f02a, Near 0x1fd22a12979a3f 0x15e2c10ad970b 0x8fee25e3a03e665 0x62fdf9fe9bc0a8, 0x242f5dfcd20eedd);
  (Near 0x3fa454252f347e 0x15e2c10ad970b 0x8fee25e3a03e665 0x317efcff4de054, Near 0x1fa40fc918161e 0x15e2c10ad970b 0x11e3b3d41a02357d 0xc5fbf3fd378150, 0x485ebbf9a41ddbb);
  (Near 0x3f481f92302c3c 0x15e2c10ad970b 0x11e3b3d41a02357d 0x62fdf9fe9bc0a8, Near 0x1d7fc08b53f17d 0x1eddec9c018888 0x215b62e3e2584fbd 0x22e75acbdcc7525d, 0x90bd77f3483bb77);
  (Near 0x3aff8116a7e2fa 0x3c5dad27557a05 0x215b62e3e2584fbd 0x22215ed7df8fd10d, Near 0x1d7fc08b53f17d 0xf6ef64e00c444 0x42b6c5c7c4b09f7a 0x22e75acbdcc7525d, 0x1217aefe690776ee);
  (Near 0x384328f54cb4e4 0x3f1a0548b0a81b 0x65caeff2e61dc39 0x722aaf32b995d89, Near 0xe10ca3d532d39 0x14e7a690b72070 0x65caeff2e61dc39 0x9749ecf233fe179, 0x39e5632e1ce4afc);
  (Near 0x1c21947aa65a72 0x3f1a0548b0a81b 0x65caeff2e61dc39 0xe4555e65732bb12, Near 0xe10ca3d532d39 0x18849d85aebd71 0xcb95dfe5cc3b872 0x162dfccd800399eb, 0x73cac65c39c95f9);
  (Near 0xe10ca3d532d39 0x3f1a0548b0a81b 0x65caeff2e61dc39 0x1c8aabccae657624, Near 0xe10ca3d532d39 0x134ab3e180f555 0x1972bbfcb98770e4 0x22e75acbdcc7525d, 0xe7958cb87392bf2);
  (Near 0x739ede9ef3a02 0x3f1a0548b0a81b 0xa7596fd84d9165 0x5b5558f56144ad4, Near 0x39cf6f4f79d01 0x1dbe8729dc858d 0x14eb2dfb09b22ca 0xac351aed3db0443, 0x2e511c24e3ea263);
  (Near 0x39cf6f4f79d01 0x3f1a0548b0a81b 0xa7596fd84d9165 0xb6aab1eac2895a8, Near 0x10adbf0f6a1147 0x1dbe8729dc858d 0xc12048e8476270d 0x1586a35da7b60886, 0x5ca23849c7d44c7);
  (Near 0x215b7e1ed4228e 0x3f1a0548b0a81b 0xc12048e8476270d 0x16d5563d58512b50, Near 0x10adbf0f6a1147 0x1736231ca34b6a 0x1824091d08ec4e1a 0x2198a7ec2c2c2f93, 0xb94470938fa898e);
  (Near 0x24f87513cbbf8f 0x37e0175ec16e19 0x2acf17c7103752b 0x40b3019316bc78c, Near 0xdc251f7287425 0x1736231ca34b6a 0x3fba45c219e97f5 0x6b82195a26f3cb7, 0x250db01d8321b82);
  (Near 0x24f87513cbbf8f 0x2e6c46394696d4 0x559e2f8e206ea56 0x6b82195a26f3cb7, Near 0x195d63857a19da 0xb9b118e51a5b5 0xeaf6a4de5ac6ca1 0x6b82195a26f3cb7, 0x4a1b603b0643705);
  (Near 0x3c2e98306f0af9 0x1736231ca34b6a 0x116be787667d1163 0x6b82195a26f3cb7, Near 0x1849c3510eb2a2 0xb9b118e51a5b5 0x1c1fad792a8ae60f 0xd70432b44de796e, 0x9436c0760c86e0b);
  (Near 0x3c2e98306f0af9 0xb9b118e51a5b5 0x22d7cf0eccfa22c6 0x6b82195a26f3cb7, Near 0x17bff336d8ff06 0xb9b118e51a5b5 0x370033cfb447d8eb 0x1ae0865689bcf2dc, 0x1286d80ec190dc17);
  (Near 0x24f87513cbbf8f 0x3a0757c7983c89 0x447e8c71b38bb78 0x6b82195a26f3cb7, Near 0x17bff336d8ff06 0xa877159e63e7d 0xb000a5cbda7f82f 0x4e0719d0e6d027e, 0x3b4919c8d1cf8d1);
  (Near 0x2f7fe66db1fe0c 0x3a0757c7983c89 0xb000a5cbda7f82f 0xd70432b44de796e, Near 0xbdff99b6c7f83 0x16676af552be00 0xb000a5cbda7f82f 0x14c0ed96da81fd2b, 0x76923391a39f1a2);
  (Near 0x17bff336d8ff06 0x3a0757c7983c89 0xb000a5cbda7f82f 0x1ae0865689bcf2dc, Near 0xbdff99b6c7f83 0x1713af1615de83 0x160014b97b4ff05e 0x2ac1025055d1ed89, 0xed246723473e345);
  (Near 0xd3881dcf2c089 0x34a536c17f3871 0x13984f3230bcabd 0x4e0719d0e6d027e, Near 0xd3881dcf2c089 0x1713af1615de83 0x4e613cc8c2f2af4 0x88d0076779062b5, 0x2f6dae3a4172d74);
  (Near 0x3b5fe0091e7d8f 0x2e275e2c2bbd06 0xb000a5cbda7f82f 0x88d0076779062b5, Near 0x12261879844f86 0x1713af1615de83 0xd73144303bf8da9 0x111a00ecef20c56a, 0x5edb5c7482e5ae8);
  (Near 0x3b5fe0091e7d8f 0x1713af1615de83 0x160014b97b4ff05e 0x88d0076779062b5, Near 0x9130c3cc227c3 0x1713af1615de83 0xd73144303bf8da9 0x223401d9de418ad4, 0xbdb6b8e905cb5d1);
  (Near 0xd3881dcf2c089 0x3e8063faa2566b 0xfad0c2826fd564 0x4a1bd6c6dd10d25, Near 0xd3881dcf2c089 0x12ee3975e545bd 0x3eb430a09bf5590 0x59c8e2ef040e289, 0x25f1582e9ac245d);
  (Near 0xd3881dcf2c089 0x3314f4c8bd4c03 0x1f5a18504dfaac8 0x7922fb3f5208d51, Near 0x1d4bdf865ec3ac 0x10135da96c0323 0x115e574d0d7ee339 0x987d138fa003819, 0x4be2b05d35848ba);
  (Near 0x2d5f3d2fcac6cf 0x2026bb52d80646 0xd73144303bf8da9 0x987d138fa003819, Near 0x1eb94d6c9b64f9 0x10135da96c0323 0x246df9bf017f536b 0x130fa271f4007032, 0x97c560ba6b09174);
  (Near 0x3d729ad936c9f2 0x10135da96c0323 0x246df9bf017f536b 0x987d138fa003819, Near 0x1766558b03b40e 0x10135da96c0323 0x377d9c30f57fc39d 0x261f44e3e800e064, 0x12f8ac174d6122e8);
  (Near 0x32072ba751bf8a 0x10135da96c0323 0x5ee8f6f14b1d31b 0x1e7f6a4feccd805, Near 0x148b79be8a7174 0x10135da96c0323 0x9be7cb9124b8325 0x79fda93fb336014, 0x3cb559e42ad06fb);
  (Near 0x392a512680e60b 0x10135da96c0323 0xd8e6a030fe5332f 0x3cfed49fd99b00a, Near 0x1a591a88b13bdd 0x10135da96c0323 0x18fe31e108b2434d 0xf3fb527f666c028, 0x796ab3c855a0df6);
  (Near 0x34b235116277ba 0x10135da96c0323 0x18fe31e108b2434d 0x79fda93fb336014, Near 0x15363c190e9f80 0x10135da96c0323 0x283de708ff190375 0x1e7f6a4feccd8050, 0xf2d56790ab41bed);
  (Near 0x4781c151e6e51 0x3e8063faa2566b 0x6c86d437d1a09d 0x5edbf431becdda0, Near 0x15363c190e9f80 0x10be2003f0312f 0x80c6168330500b1 0x65a461753be7e3d, 0x309114b688a6bfc);
  (Near 0x2a6c78321d3f00 0x25f45c1cfed0af 0x80c6168330500b1 0x73353bfc361bf77, Near 0xa9b1e0c874fc0 0x1b593e107780ef 0x80c6168330500b1 0x14c0ed96da81fd2b, 0x6122296d114d7f8);
  (Near 0x15363c190e9f80 0x3b2a98360d702f 0x80c6168330500b1 0x167308e7b9c87f9f, Near 0x54d8f0643a7e0 0x1b593e107780ef 0x80c6168330500b1 0x2981db2db503fa56, 0xc24452da229aff1);
  (Near 0x4781c151e6e51 0x3d5e13aa18ce56 0x56d2435fdae6e4 0x4a82ac67477fbc9, Near 0x1a83cb1f524760 0x160baf0a33d90f 0x80c6168330500b1 0x6b1185ab3996521, 0x26da76f86d52330);
  (Near 0x3507963ea48ec0 0x308f7a2986206f 0x80c6168330500b1 0x75ebce1734f32e9, Near 0xd41e58fa923b0 0x160baf0a33d90f 0x80c6168330500b1 0xd6230b56732ca42, 0x4db4edf0daa4660);
  (Near 0x1a83cb1f524760 0x308f7a2986206f 0x80c6168330500b1 0xebd79c2e69e65d2, Near 0x6a0f2c7d491d8 0x1caca1d2086ae7 0x80c6168330500b1 0x22d0c2d3016a9535, 0x9b69dbe1b548cc0);
  (Near 0xd41e58fa923b0 0x3dd15fb92f441f 0x80c6168330500b1 0x258754ee0041cc55, Near 0x3507963ea48ec 0x1ffd1b35f2b3d3 0x80c6168330500b1 0x4dade70e35da2b1b, 0x136d3b7c36a91981);
  (Near 0x1efbe73470b5b1 0x234d9499dcfcbf 0x3c310fbe0f9d81a 0x449506c520b2897, Near 0x10925ef3936c9c 0x12bb35a6499023 0x80c6168330500b1 0x918e0491527a1ab, 0x3e2a57f3e21d1e6);
  (Near 0x2124bde726d938 0x234d9499dcfcbf 0x80c6168330500b1 0x892a0d8a416512e, Near 0x8492f79c9b64e 0x1b046520134671 0x80c6168330500b1 0x1a3e21fa5d544407, 0x7c54afe7c43a3cd);
  (Near 0x10925ef3936c9c 0x33dff38d70695b 0x80c6168330500b1 0x1931a3197b31a30d, Near 0x42497bce4db27 0x1f28fcdcf82198 0x80c6168330500b1 0x3c88a55cedad88bf, 0xf8a95fcf887479b);
  (Near 0x1efbe73470b5b1 0x33dff38d70695b 0x30273fcb3fb1348 0x509ed6b7f09ed69, Near 0x14b6f6b07847c3 0x1f28fcdcf82198 0x80c6168330500b1 0xc1b5445c922b4f3, 0x31bb798fe8174b8);
  (Near 0x296ded60f08f86 0x33dff38d70695b 0x80c6168330500b1 0xa13dad6fe13dad2, Near 0x14b6f6b07847c3 0xf947e6e7c10cc 0x1018c2d0660a0162 0xc1b5445c922b4f3, 0x6376f31fd02e971);
  (Near 0x14b6f6b07847c3 0x33dff38d70695b 0x80c6168330500b1 0x1427b5adfc27b5a4, Near 0x14b6f6b07847c3 0x1c8135e7b65029 0x203185a0cc1402c4 0x2c4cd9e69536b7b7, 0xc6ede63fa05d2e2);
  (Near 0x2940d7b869239f 0x1f28fcdcf82198 0x334a61915c3eb83 0x26bdda78ea08a97, Near 0x19ac5949ed12d3 0x7ca3f373e0866 0x7fadd1539ce98de 0x26bdda78ea08a97, 0x27c92e0cb9ac3c6);
  (Near 0x38d55626e5346b 0xf947e6e7c10cc 0x8d529d9ba28619d 0x26bdda78ea08a97, Near 0x1d9178e58c1706 0x3e51f9b9f0433 0x126197d2023dbc53 0x26bdda78ea08a97, 0x4f925c19735878d);
  (Near 0x38d55626e5346b 0x7ca3f373e0866 0x11aa53b37450c33a 0x26bdda78ea08a97, Near 0x1e5d3ae1421c4f 0x3e51f9b9f0433 0x25c0850e7742110b 0x4d7bb4f1d41152e, 0x9f24b832e6b0f1b);
  (Near 0x3cba75c284389e 0x3e51f9b9f0433 0x25c0850e7742110b 0x26bdda78ea08a97, Near 0x1cd08c114d9cda 0x3e51f9b9f0433 0x47a6a4384409a54d 0x9af769e3a822a5c, 0x13e497065cd61e37);
  (Near 0x310b16efa72c05 0x13799e0a1b14ff 0x618fc04c2467d0e 0x26bdda78ea08a97, Near 0x11212d3e709041 0x13799e0a1b14ff 0x884d9ac50e707a5 0x9af769e3a822a5c, 0x3fa849adf5e060b);
  (Near 0x35bbf886fc3581 0x13799e0a1b14ff 0xd5c94fb6e281cd3 0x4d7bb4f1d41152e, Near 0x11212d3e709041 0x124d65a445d2a0 0x1109b358a1ce0f4a 0x1234504a8b693201, 0x7f50935bebc0c16);
  (Near 0x35bbf886fc3581 0x249acb488ba540 0x1ab929f6dc5039a6 0x1234504a8b693201, Near 0x1a47e010937991 0x926b2d222e950 0x3447b6fbcf055095 0x1234504a8b693201, 0xfea126b7d78182c);
  (Near 0x3e317a4389a1d9 0x25870cbaa84be 0x62f9fc87db0c237 0x3bb8fd2eb8a08b, Near 0x1faed954af721c 0x12c3865d5425f 0xc9af88e2a1a24f9 0x7771fa5d714116, 0x32ed07be5e4d1a2);
  (Near 0x3f5db2a95ee438 0x12c3865d5425f 0xc9af88e2a1a24f9 0x3bb8fd2eb8a08b, Near 0x15b486a78204e9 0x16e0bf0d574748 0x11456c55d086afd5 0x1234504a8b693201, 0x65da0f7cbc9a344);
  (Near 0x2c9545b4d94c31 0x2dc17e1aae8e90 0x11bcde502df7f0eb 0x1234504a8b693201, Near 0x15b486a78204e9 0xb705f86aba3a4 0x228ad8aba10d5faa 0x1234504a8b693201, 0xcbb41ef97934689);
  (Near 0x3f6c666ef33a7d 0x12c3865d5425f 0x50bf54fd9ef6cfb 0x17e3987916a69e, Near 0x1f6504e1067e0a 0x12c3865d5425f 0x9fe13e0eb9febb1 0x5f8e61e45a9a78, 0x28bd9fcb7ea414e);
  (Near 0x3ff64227e23e73 0x12c3865d5425f 0xa2ddb11ddcd38ed 0x2fc730f22d4d3c, Near 0x1b6cb66ad7d6bb 0x1c98eed0ad191a 0x11753386c2b3fd11 0x1234504a8b693201, 0x517b3f96fd4829d);
  (Near 0x3805a53b84efd5 0x3931dda15a3234 0x11d4c1e8a70e9789 0x1234504a8b693201, Near 0x1b6cb66ad7d6bb 0xe4c7768568c8d 0x22ea670d8567fa22 0x1234504a8b693201, 0xa2f67f2dfa9053a);
  (Near 0x3480fc0a0528b8 0x3a5e16072f7493 0x3579e26fecc8e6d 0x3b72c88e32728e5, Near 0xd203f02814a2e 0x12fd58ffab9609 0x3579e26fecc8e6d 0x4d5d7ae9036f84d, 0x2097b309321cdd8);
  (Near 0x1a407e0502945c 0x3a5e16072f7493 0x3579e26fecc8e6d 0x76e5911c64e51ca, Near 0x6901f8140a517 0x198d7880ec3b20 0x3579e26fecc8e6d 0xd034d841f3a7f07, 0x412f66126439bb1);
  (Near 0xd203f02814a2e 0x3a5e16072f7493 0x3579e26fecc8e6d 0xedcb2238c9ca394, Near 0x6901f8140a517 0x19e6fb42f767be 0x6af3c4dfd991cda 0x1a61c6201a6cb8bb, 0x825ecc24c873762);
  (Near 0x6901f8140a517 0x3a5e16072f7493 0x3579e26fecc8e6d 0x1db9644719394728, Near 0x1a13bca3fcfe0d 0x13839d22bc58f6 0x351eb75810d12c23 0x27c03ebc159ef26f, 0x104bd984990e6ec4);
  (Near 0x6901f8140a517 0x3e221f7816b4ba 0xab1fa16628e949 0x654113621a1622d, Near 0x6901f8140a517 0x1ff0d6a12749e8 0x2ac7e8598a3a524 0xd034d841f3a7f07, 0x3425eb41e9c7c8d);
  (Near 0x6901f8140a517 0x3fe1ad424e93d0 0x1563f42cc51d292 0xd034d841f3a7f07, Near 0x6901f8140a517 0x1d18aa5314ef22 0x558fd0b31474a48 0x17b5479a81c91397, 0x684bd683d38f91b);
  (Near 0x6901f8140a517 0x3a3154a629de44 0x2ac7e8598a3a524 0x17b5479a81c91397, Near 0x1bac942c0bc1bf 0x151c74aacb1ca8 0x2d193bc746e63cb7 0x226741b0e457a827, 0xd097ad07a71f237);
  (Near 0x20d09d86433973 0x33a13524e9392d 0x2ac7e8598a3a524 0x434f5042ea11617, Near 0xbb428db781ccb 0x151c74aacb1ca8 0x3d0868c9b49d955 0x6e17389c744bb3b, 0x29b7ef67ee396d7);
  (Near 0x20d09d86433973 0x2a38e955963950 0x558fd0b31474a48 0x6e17389c744bb3b, Near 0x16426330ddab1f 0xa8e3a55658e54 0xe8280a2fdd86de5 0x6e17389c744bb3b, 0x536fdecfdc72daf);
  (Near 0x35ed12310e561b 0x151c74aacb1ca8 0x11936da029d34fcb 0x6e17389c744bb3b, Near 0x1b89805b907249 0x5471d2ab2c72a 0x23e674cfc2f59705 0x6e17389c744bb3b, 0xa6dfbd9fb8e5b5f);
  (Near 0xbb428db781ccb 0x3abda3e8171c1c 0xc34e1c1f0ec511 0x3d43b194b09a6f7, Near 0xbb428db781ccb 0x1a6391d57de3d2 0x30d38707c3b1444 0x6e17389c744bb3b, 0x215ff2b98b61246);
  (Near 0xbb428db781ccb 0x34c723aafbc7a4 0x1869c383e1d8a22 0x6e17389c744bb3b, Near 0x18e5f1c6370eb4 0xd31c8eabef1e9 0xcfbe46abfbae3c3 0x6e17389c744bb3b, 0x42bfe57316c248c);
  (Near 0x2617bab0f6009d 0x1a6391d57de3d2 0x9eeabfa437fcf7f 0x6e17389c744bb3b, Near 0x19a4c1cdda7943 0xd31c8eabef1e9 0x1abecb7e4e445a39 0xdc2e7138e897676, 0x857fcae62d84918);
  (Near 0x3349839bb4f286 0xd31c8eabef1e9 0x1abecb7e4e445a39 0x6e17389c744bb3b, Near 0x136b455c4cb596 0xd31c8eabef1e9 0x2881b291dccdd0af 0x1b85ce271d12ecec, 0x10aff95cc5b09231);
  (Near 0xbb428db781ccb 0x3644c3ba429cc2 0x1387cf9cb4ad4e8 0x5a8f68ffbf9e653, Near 0x136b455c4cb596 0x1b2261dd214e61 0x819f083928f9023 0xb51ed1ff7f3cca6, 0x35665128df01d3d);
  (Near 0x26d68ab8996b2c 0x1b2261dd214e61 0x819f083928f9023 0x5a8f68ffbf9e653, Near 0x9b5a2ae265acb 0x1b2261dd214e61 0x819f083928f9023 0x16a3da3fefe7994c, 0x6acca251be03a7a);
  (Near 0x136b455c4cb596 0x2e8da7396e03f7 0x819f083928f9023 0x136bdda38a835cc9, Near 0x9b5a2ae265acb 0x1c21a4f3ca2f61 0x1033e107251f2046 0x2ef1abcaa79649b5, 0xd59944a37c074f4);
  (Near 0x2ad397133cef2c 0x1b2261dd214e61 0x392c4dd2f613e47 0x24395d3319728ee, Near 0xab4e5c4cf3bcb 0x1b2261dd214e61 0x392c4dd2f613e47 0x90e574cc65ca3b8, 0x2ab840ed7f34a97);
  (Near 0x308c2d66bfc5f7 0x1b2261dd214e61 0x819f083928f9023 0x4872ba6632e51dc, Near 0x1da08995c780e1 0x12eba3d0f84516 0x13c6a5e454805e8d 0xca11c29f5bde1ff, 0x557081dafe6952e);
  (Near 0x308c2d66bfc5f7 0x25d747a1f08a2c 0x1033e107251f2046 0xca11c29f5bde1ff, Near 0x1da08995c780e1 0x975d1e87c228b 0x278d4bc8a900bd1a 0xca11c29f5bde1ff, 0xaae103b5fcd2a5d);
  (Near 0x35887cd80c2af7 0x106d7c18521296 0x392c4dd2f613e47 0x118b6e31e32477d, Near 0x1edf9d721a9a21 0x836be0c29094b 0x83e409d7cf4c40b 0x2316dc63c648efa, 0x222d00bdff5d545);
  (Near 0x3dbf3ae4353442 0x836be0c29094b 0x83e409d7cf4c40b 0x118b6e31e32477d, Near 0x138b2dbf21d1b6 0x1bc1ebcb4adb01 0xa6fae63b9595305 0xed289f0322270f9, 0x445a017bfebaa8b);
  (Near 0x27165b7e43a36c 0x2f4d198a6cacb7 0xa6fae63b9595305 0xca11c29f5bde1ff, Near 0x9c596df90e8db 0x1bc1ebcb4adb01 0xa6fae63b9595305 0x1da513e06444e1f2, 0x88b402f7fd75517);
  (Near 0x138b2dbf21d1b6 0x2f4d198a6cacb7 0xa6fae63b9595305 0x19423853eb7bc3fe, Near 0x9c596df90e8db 0x1c895834fecac9 0x14df5cc772b2a60a 0x3cf41f0b9050db01, 0x1116805effaeaa2f);
  (Near 0x38a62e7edbea17 0x836be0c29094b 0x60cd2d740903511 0xe0924f4b5b6c64, Near 0x14529a28d5c17e 0x1c895834fecac9 0x8ae89c522a27a3d 0xc30d30250102bcd, 0x36ae67966562209);
  (Near 0x30dbf25dd48c47 0x3912b069fd9592 0xa6fae63b9595305 0xc30d30250102bcd, Near 0xa294d146ae0bf 0x1c895834fecac9 0x8ae89c522a27a3d 0x1861a604a020579a, 0x6d5ccf2ccac4412);
  (Near 0x30dbf25dd48c47 0x1c895834fecac9 0x14df5cc772b2a60a 0xc30d30250102bcd, Near 0x135952a4b4d5c4 0x1c895834fecac9 0x21102fc9c2c2d1d7 0x30c34c094040af34, 0xdab99e599588825);
  (Near 0x14529a28d5c17e 0x3d645065a2eff5 0x1bc81f43a207ed9 0x53ecb31678e3069, Near 0xa294d146ae0bf 0x199d81a89c079b 0x37903e87440fdb2 0x8c1146e94fbe1f9, 0x2bbeb9451de81a1);
  (Near 0xa294d146ae0bf 0x3d645065a2eff5 0x1bc81f43a207ed9 0xa7d9662cf1c60d2, Near 0xa294d146ae0bf 0x1c0cb472ee54ec 0x6f207d0e881fb64 0x132c2027f1bedb0f, 0x577d728a3bd0342);
  (Near 0xa294d146ae0bf 0x381968e5dca9d8 0x37903e87440fdb2 0x132c2027f1bedb0f, Near 0x182fa74de20b35 0xe065a39772a76 0x21102fc9c2c2d1d7 0x132c2027f1bedb0f, 0xaefae51477a0684);
  (Near 0xa294d146ae0bf 0x38f26cbc2000ce 0xb1cd94e40cff8a 0x3e4755c58a0e533, Near 0xa294d146ae0bf 0x1d7a8ecda85152 0x2c736539033fe28 0x80f46d9b0eee26f, 0x22fefa9db1867b4);
  (Near 0xa294d146ae0bf 0x3af51d9b50a2a4 0x1639b29c819ff14 0x80f46d9b0eee26f, Near 0xa294d146ae0bf 0x18e6947b3f0968 0x58e6ca72067fc50 0xd9db380d156debf, 0x45fdf53b630cf68);
  (Near 0xa294d146ae0bf 0x3bf6760ae8f38f 0x2c736539033fe28 0x1064e9d4618adce7, Near 0xa294d146ae0bf 0x169c97520a6573 0xb1cd94e40cff8a0 0x18ba8ccf1226d75f, 0x8bfbea76c619ed0);
  (Near 0x37627bb87faba5 0x2d392ea414cae6 0x1e48f976328ed3af 0x18ba8ccf1226d75f, Near 0x1062f2333aa319 0x169c97520a6573 0x23d7661d52f6cfff 0x3175199e244daebe, 0x117f7d4ed8c33da0);
  (Near 0x32ce81661663bb 0x18e6947b3f0968 0x58e6ca72067fc50 0x2b923e6904492f3, Near 0x19e7ecead75a53 0x639a51ecfc25a 0xb552302408da574 0x2b923e6904492f3, 0x37fe5dc91c0a5ec);
  (Near 0x3f41cba3b5e86f 0xc734a3d9f84b4 0xdd5fd34d1148b93 0x2b923e6904492f3, Near 0x1d04bf7a3f3b80 0x31cd28f67e12d 0x196369eb115fdddb 0x2b923e6904492f3, 0x6ffcbb923814bd9);
  (Near 0x3f41cba3b5e86f 0x639a51ecfc25a 0x1babfa69a2291726 0x2b923e6904492f3, Near 0x1e127c8a2703a1 0x31cd28f67e12d 0x349ed0ecb40d9b59 0x57247cd208925e6, 0xdff9772470297b3);
  (Near 0x265b372876df07 0x1f20399a0ecbc2 0x35b155cad048f12 0x2b923e6904492f3, Near 0x1af5a9fabf2274 0xf901ccd0765e1 0x96f4e9fea4db117 0x57247cd208925e6, 0x2ccb7e3a7cd518a);
  (Near 0x35eb53f57e44e8 0xf901ccd0765e1 0x96f4e9fea4db117 0x2b923e6904492f3, Near 0xd7ad4fd5f913a 0x1d0af1ca66f71b 0x96f4e9fea4db117 0x1453de3a2b5ffce3, 0x5996fc74f9aa314);
  (Near 0x2a85c6c7c68855 0x3a15e394cdee36 0xee1966d0ad6d6fd 0x1453de3a2b5ffce3, Near 0x6bd6a7eafc89d 0x1d0af1ca66f71b 0x96f4e9fea4db117 0x28a7bc7456bff9c6, 0xb32df8e9f354629);
  (Near 0x265b372876df07 0x3a15e394cdee36 0x2af444a2403a5a8 0x410c60ba24665c7, Near 0x4a822af07f3f6 0x1d0af1ca66f71b 0x14dc288a5c0e589 0x8218c17448ccb8e, 0x23d5fe9530aa7a1);
  (Near 0x265b372876df07 0x1d0af1ca66f71b 0x55e889448074b50 0x410c60ba24665c7, Near 0x1f5f0321eaf116 0x1d0af1ca66f71b 0x1190dab72eda7ca5 0x1043182e8919971c, 0x47abfd2a6154f43);
  (Near 0x3ebe0643d5e22c 0x1d0af1ca66f71b 0x1190dab72eda7ca5 0x8218c17448ccb8e, Near 0xfaf8190f5788b 0x1d0af1ca66f71b 0x1190dab72eda7ca5 0x2086305d12332e38, 0x8f57fa54c2a9e87);
  (Near 0x3c69f4ec51e831 0x1d0af1ca66f71b 0x21d3f2e5b7f413c1 0x1043182e8919971c, Near 0x165d39adae37d3 0x1d0af1ca66f71b 0x32170b14410daadd 0x410c60ba24665c70, 0x11eaff4a98553d0f);
  (Near 0x1f5f0321eaf116 0x3319af8e420045 0x3835ef16fc54c21 0x5b8fb5a39c9b2b9, Near 0xfaf8190f5788b 0x11b516fea643dd 0x706bde2df8a9842 0x7ee97c303ce1951, 0x39566421e77729c);
  (Near 0xfaf8190f5788b 0x3319af8e420045 0x3835ef16fc54c21 0xb71f6b473936572, Near 0xfaf8190f5788b 0x10b24c47cdde34 0xe0d7bc5bf153084 0xef555a5e358b193, 0x72acc843ceee539);
  (Near 0xfaf8190f5788b 0x31141a209134f3 0x706bde2df8a9842 0x15fc1388c2e349d5, Near 0x1808a7b4dc67a5 0x8592623e6ef1a 0x2b104d316183129b 0xef555a5e358b193, 0xe55990879ddca72);
  (Near 0x1d596db43a25c4 0x31141a209134f3 0x2a120611ef6bcb1 0x4659d81c093db91, Near 0x7565b6d0e8971 0x1b1107d96598a0 0x2a120611ef6bcb1 0x9b314e3a56b3831, 0x2ddeb68185f8ee3);
  (Near 0x3fc0d0faae47d5 0x31141a209134f3 0xb6c5b64a01e73d3 0x8cb3b038127b722, Near 0x7565b6d0e8971 0x1c353ac6cfdf32 0x54240c23ded7962 0x1437966821462af5, 0x5bbd6d030bf1dc7);
  (Near 0x3fc0d0faae47d5 0x386a758d9fbe64 0x16d8b6c9403ce7a6 0x1437966821462af5, Near 0x1570f8d076790a 0xe1a9d6367ef99 0x1ebc17ec9d211db9 0x1437966821462af5, 0xb77ada0617e3b8e);
  (Near 0x24afc92148af35 0x22676346742211 0x2a120611ef6bcb1 0x2773dda8dad30fa, Near 0x921976b52349 0x1f8ce3f4ea71a4 0x29e28691498bb7 0x90b8ac960450955, 0x24b22b9ad193f1c);
  (Near 0x238b9633de68a3 0x22676346742211 0x5185e3baca3edab 0x4ee7bb51b5a61f4, Near 0x120ed7d549c5f6 0x117cbe5e94a2ad 0xa5a9efdea91670d 0xa06d9f0c7fe4f9f, 0x49645735a327e39);
  (Near 0x238b9633de68a3 0x22f97cbd29455a 0xa30bc775947db56 0xa06d9f0c7fe4f9f, Near 0x1a842a493985a8 0x117cbe5e94a2ad 0x1e6852df7a8e064b 0x140db3e18ffc9f3e, 0x92c8ae6b464fc72);
  (Near 0x35085492730b50 0x117cbe5e94a2ad 0x1e6852df7a8e064b 0xa06d9f0c7fe4f9f, Near 0xd4215249cc2d4 0x1ebed383316581 0x1e6852df7a8e064b 0x4683baa29a8744c7, 0x125915cd68c9f8e4);
  (Near 0x238b9633de68a3 0x33e421a508c4be 0x4137e9623b657bc 0x5f35b5aa447f7e3, Near 0x4ccc2b0ad0322 0x1ebed383316581 0x233a1d1a324b795 0xe1a5886ebb4a75b, 0x3ab6ac2ae8ecb60);
  (Near 0x238b9633de68a3 0x3d7da70662cb02 0x826fd2c476caf78 0xe1a5886ebb4a75b, Near 0x2666158568191 0x1ebed383316581 0x233a1d1a324b795 0x1c34b10dd7694eb6, 0x756d5855d1d96c1);
  (Near 0x238b9633de68a3 0x1ebed383316581 0x104dfa588ed95ef0 0xe1a5886ebb4a75b, Near 0x10929a6dc3f389 0x1ebed383316581 0x1e6852df7a8e064b 0x3869621baed29d6c, 0xeadab0aba3b2d83);
  (Near 0x36bea0f692752b 0x1ebed383316581 0x505b38638af3f74 0x2d211b4958a87df, Near 0x155f5d1e70f6ab 0x1ebed383316581 0x7d7c53ace39c753 0xb4846d2562a1f7c, 0x2ef889bbed8a2b3);
  (Near 0x2abeba3ce1ed56 0x1ebed383316581 0x7d7c53ace39c753 0x5a423692b150fbe, Near 0x1a0f1850d12e16 0x1ebed383316581 0x13200c0d2463e6cf 0x16908da4ac543ef8, 0x5df11377db14567);
  (Near 0x341e30a1a25c2c 0x1ebed383316581 0x13200c0d2463e6cf 0xb4846d2562a1f7c, Near 0xd078c2868970b 0x1ebed383316581 0x13200c0d2463e6cf 0x2d211b4958a87df0, 0xbbe226efb628acf);
  (Near 0x215f43d8217e80 0x281e49e7f1d457 0x27301c6041a3e19 0x2f1c1aec6054b21, Near 0x857d0f6085fa0 0x1fc678f1e974b7 0x27301c6041a3e19 0x95404f513faee6b, 0x2593a163246e88f);
  (Near 0x10afa1ec10bf40 0x38cdebd4029397 0x27301c6041a3e19 0x85685239024d45b, Near 0x42be87b042fd0 0x1fc678f1e974b7 0x27301c6041a3e19 0x12a809ea27f5dcd6, 0x4b2742c648dd11f);
  (Near 0x857d0f6085fa0 0x38cdebd4029397 0x27301c6041a3e19 0x10ad0a472049a8b6, Near 0x215f43d8217e8 0x1fc678f1e974b7 0x27301c6041a3e19 0x255013d44febb9ac, 0x964e858c91ba23f);
  (Near 0x3cf9d44f06c367 0x38cdebd4029397 0x23cd165444ad8f85 0x215a148e4093516c, Near 0x10afa1ec10bf4 0x1fc678f1e974b7 0x27301c6041a3e19 0x4aa027a89fd77358, 0x12c9d0b19237447f);
  (Near 0x14db8a6714ef10 0x38cdebd4029397 0x27301c6041a3e19 0x6ab9db60cea437c, Near 0x536e299c53bc4 0x1ebb7ed32868c3 0x27301c6041a3e19 0xe6f6dfa1f25d773, 0x3c1f689ea0b0db3);
  (Near 0xa6dc5338a7788 0x38cdebd4029397 0x27301c6041a3e19 0xd573b6c19d486f8, Near 0x29b714ce29de2 0x1ebb7ed32868c3 0x27301c6041a3e19 0x1cdedbf43e4baee6, 0x783ed13d4161b66);
  (Near 0x3e04ce6dc7cf5b 0x38cdebd4029397 0x1d21789e37c34c09 0x1aae76d833a90df0, Near 0x14db8a6714ef1 0x1ebb7ed32868c3 0x27301c6041a3e19 0x39bdb7e87c975dcc, 0xf07da27a82c36cc);
  (Near 0x3e04ce6dc7cf5b 0x23f2616ceda487 0x5d37e860b270f35 0x3607cc0070cd11c, Near 0x6849b40368ab5 0x1d6dc62cb719d2 0x27301c6041a3e19 0xb0ef13a18190657, 0x3019207ee6f3e28);
  (Near 0x3e04ce6dc7cf5b 0x30fb97ed5ab9f1 0xba6fd0c164e1e6a 0x933fb461233e051, Near 0x6849b40368ab5 0x1bc01996c8a253 0x4e6038c08347c32 0x14daf8522881febb, 0x603240fdcde7c51);
  (Near 0x3e04ce6dc7cf5b 0x3780332d9144a6 0x174dfa182c9c3cd4 0x14daf8522881febb, Near 0x11225a6b7f9684 0x1bc01996c8a253 0x19c0fbde30b67aed 0x29b5f0a45103fd76, 0xc06481fb9bcf8a3);
  (Near 0x2097084110b589 0x30fb97ed5ab9f1 0x27301c6041a3e19 0x3ae64826dae59ba, Near 0x1c7de455fe346f 0x41923eb12811a 0x890a45ba6d4dcc3 0x13b62bc69941ba1, 0x267a8065858fe87);
  (Near 0x28c9501735b7bd 0x30fb97ed5ab9f1 0x621664871c897d3 0x75cc904db5cb374, Near 0x1e8a764b8774fc 0x20c91f589408d 0x125cab73b73dd527 0x13b62bc69941ba1, 0x4cf500cb0b1fd0e);
  (Near 0x2ce274024838d7 0x30fb97ed5ab9f1 0xd7e2f4d4d254b47 0xeb99209b6b966e8, Near 0x156af1065f7c25 0x177782fbe8bcb2 0x19c0fbde30b67aed 0x1c37c15703deb22f, 0x99ea0196163fa1c);
  (Near 0x2ce274024838d7 0x2eef05f7d17964 0x1afc5e9a9a4a968e 0x1c37c15703deb22f, Near 0x156af1065f7c25 0xbbbc17df45e59 0x3381f7bc616cf5da 0x1c37c15703deb22f, 0x133d4032c2c7f438);
  (Near 0x26bcbe21ac7730 0x30fb97ed5ab9f1 0x4a87147791c73ef 0x5e3d403e2b08f90, Near 0x9af2f886b1dcc 0x1d9d38dc847e59 0x4a87147791c73ef 0xe3e6d8098895662, 0x3d90cd6f3c1973e);
  (Near 0x135e5f10d63b98 0x30fb97ed5ab9f1 0x4a87147791c73ef 0xbc7a807c5611f20, Near 0x4d797c4358ee6 0x1d9d38dc847e59 0x4a87147791c73ef 0x1c7cdb013112acc4, 0x7b219ade7832e7d);
  (Near 0x9af2f886b1dcc 0x3aaac775c5d7bd 0x4a87147791c73ef 0x1c37c15703deb22f, Near 0x26bcbe21ac773 0x1d9d38dc847e59 0x4a87147791c73ef 0x38f9b60262255988, 0xf64335bcf065cfa);
  (Near 0x306bedaa1794fc 0x274c6864ef9c25 0x4a87147791c73ef 0x3c7c62803878edd, Near 0xc1afb6a85e53f 0x1b316cfa69b6e6 0x4a87147791c73ef 0xa76a7589501c785, 0x3140a458fce1298);
  (Near 0x1835f6d50bca7e 0x3f825f39fb66a3 0x4a87147791c73ef 0xc37fd97802b91a9, Near 0xc1afb6a85e53f 0x19b3b1e7bac0b2 0x950e28ef238e7de 0x13c789e7873aaf63, 0x628148b1f9c2530);
  (Near 0xc1afb6a85e53f 0x3f825f39fb66a3 0x4a87147791c73ef 0x186ffb2f00572352, Near 0x18f4d45e634598 0xcd9d8f3dd6059 0x26694f056bac7f1f 0x13c789e7873aaf63, 0xc5029163f384a61);
  (Near 0x3c86e9149d7a3b 0x1b316cfa69b6e6 0x4a87147791c73ef 0x217bb11b766c181, Near 0x1777194bb44f64 0xd98b67d34db73 0x739277d3ad2265d 0x42f76236ecd8302, 0x2766e9e0ca4dbad);
  (Near 0x3c86e9149d7a3b 0xd98b67d34db73 0x950e28ef238e7de 0x217bb11b766c181, Near 0xbbb8ca5da27b2 0x195443230f0325 0x739277d3ad2265d 0xf9813c4186d2c61, 0x4ecdd3c1949b75a);
  (Near 0x250fcfc8e92ad7 0x32a886461e064a 0xb689da0a99fa95f 0xf9813c4186d2c61, Near 0x1f320975fc16fe 0x195443230f0325 0x26694f056bac7f1f 0x1f30278830da58c2, 0x9d9ba7832936eb4);
  (Near 0x3e6412ebf82dfc 0x195443230f0325 0x26694f056bac7f1f 0xf9813c4186d2c61, Near 0xf9904bafe0b7f 0x195443230f0325 0x26694f056bac7f1f 0x3e604f1061b4b184, 0x13b374f06526dd69);
  (Near 0x30cb5c6ec35289 0x26ecf9a043de98 0x60213bfb6037e9f 0x4cb00023134d6e1, Near 0x1d54df9ea1633d 0x9bb3e6810f7a6 0xe724efa75a44cba 0x4cb00023134d6e1, 0x3f0b0fce107c5e1);
  (Near 0x30cb5c6ec35289 0x13767cd021ef4c 0xc04277f6c06fd3e 0x4cb00023134d6e1, Near 0x1d54df9ea1633d 0x4dd9f34087bd3 0x1ce49df4eb489974 0x4cb00023134d6e1, 0x7e161f9c20f8bc3);
  (Near 0x3a869ad6d44a2f 0x9bb3e6810f7a6 0x1cd34f010942d15d 0x4cb00023134d6e1, Near 0x1fb21d056e6301 0x4dd9f34087bd3 0x3e719e0443ba799b 0x99600046269adc2, 0xfc2c3f3841f1787);
  (Near 0x1399a136906b97 0x30a8380854d63e 0x1ee42fe74164ac5 0x4cb00023134d6e1, Near 0x15f6de9d5d6b5b 0x18541c042a6b1f 0x8a785ff19616c6b 0x99600046269adc2, 0x326f3fd80d304b4);
  (Near 0x2bedbd3abad6b6 0x18541c042a6b1f 0x8a785ff19616c6b 0x4cb00023134d6e1, Near 0x17257d50c3eb3d 0x18541c042a6b1f 0x123d86037bcb1a2d 0x132c0008c4d35b84, 0x64de7fb01a60969);
  (Near 0x2e4afaa187d67a 0x18541c042a6b1f 0x123d86037bcb1a2d 0x99600046269adc2, Near 0x17257d50c3eb3d 0x17bcccaa772b2e 0x247b0c06f796345a 0x2569860c409e75b1, 0xc9bcff6034c12d2);
  (Near 0x15f6de9d5d6b5b 0x37bff03cbbd58a 0x1bb1acc9ead15af 0x464af9e86626cb5, Near 0x15f6de9d5d6b5b 0x18eb6b5dddab10 0x6ec6b327ab456bc 0x7dae537c3bc9813, 0x2858ffe00a8d090);
  (Near 0x15f6de9d5d6b5b 0x31d6d6bbbb5620 0x37635993d5a2b5e 0x7dae537c3bc9813, Near 0x15f6de9d5d6b5b 0xc75b5aeeed588 0xdd8d664f568ad78 0x7dae537c3bc9813, 0x50b1ffc0151a121);
  (Near 0x15f6de9d5d6b5b 0x2ee249fb3b166b 0x6ec6b327ab456bc 0xec7506a3e70eecf, Near 0x1c31b974d4d61f 0x63adad7776ac4 0x238c9201ae8df303 0x7dae537c3bc9813, 0xa163ff802a34242);
  (Near 0x15f6de9d5d6b5b 0x3ab47cfd3c153f 0x1627bd6e557448c 0x3b371b313b6ca6f, Near 0x15f6de9d5d6b5b 0x1f2646355515d4 0x589ef5b955d1230 0x7dae537c3bc9813, 0x20473319a20a6da);
  (Near 0x15f6de9d5d6b5b 0x3e4c8c6aaa2ba8 0x2c4f7adcaae8918 0x7dae537c3bc9813, Near 0x15f6de9d5d6b5b 0xf93231aaa8aea 0xb13deb72aba2460 0x7dae537c3bc9813, 0x408e66334414db4);
  (Near 0x15f6de9d5d6b5b 0x351d24d2b2812f 0x589ef5b955d1230 0xd64d4935919aa43, Near 0x1dc0702ab2b0d0 0x7c9918d554575 0x1e02a2a61930e0d3 0x7dae537c3bc9813, 0x811ccc668829b68);
  (Near 0x258a01b807f645 0x351d24d2b2812f 0x12eec3eeee76bc73 0x1ac9a926b2335486, Near 0x16a9c9a2ae9ddd 0x1e735b3003e352 0x2db86d15a0aa10f9 0x3d6e37852823411f, 0x1023998cd10536d0);
  (Near 0x15f6de9d5d6b5b 0x37e8d0e7f74b37 0x2372c8b088ba0e0 0x5a3b8acbb30f733, Near 0x15f6de9d5d6b5b 0x1e735b3003e352 0x8dcb22c222e8380 0xc493e4dd4d3d9d3, 0x33a51e8f69aa490);
  (Near 0x15f6de9d5d6b5b 0x3ce6b66007c6a4 0x46e5916111741c0 0xc493e4dd4d3d9d3, Near 0x15f6de9d5d6b5b 0xf39ad9801f1a9 0x11b96458445d0700 0xc493e4dd4d3d9d3, 0x674a3d1ed354920);
  (Near 0x346a39cd614ead 0x1e735b3003e352 0x1525f079f7025d53 0xc493e4dd4d3d9d3, Near 0x1298461aafae82 0xf39ad9801f1a9 0x1e02a2a61930e0d3 0x18927c9ba9a7b3a6, 0xce947a3da6a9240);
  (Near 0x30eba2b2cb5223 0x1e735b3003e352 0x3f2994033735f92 0x2750c75f75d91f7, Near 0x10d8fa8d64b03d 0xf39ad9801f1a9 0x570260a6f892d2d 0x4ea18ebeebb23ee, 0x2950e53f87bb6d9);
  (Near 0x30eba2b2cb5223 0xf39ad9801f1a9 0x7e5328066e6bf24 0x2750c75f75d91f7, Near 0x1f4301aab5429c 0xf39ad9801f1a9 0x142e70ce3bba98f7 0x9d431d7dd7647dc, 0x52a1ca7f0f76db3);
  (Near 0x3e8603556a8538 0xf39ad9801f1a9 0x142e70ce3bba98f7 0x4ea18ebeebb23ee, Near 0x1edb2e6d5c92f7 0xf39ad9801f1a9 0x27d6d47df6a728af 0x13a863afbaec8fb8, 0xa54394fe1eedb66);
  (Near 0x35c98992f38ddf 0xf39ad9801f1a9 0x378e8df433e5201 0xfb9e9596256d96, Near 0x1140cdcabd5fe2 0xf39ad9801f1a9 0x4748774d963bf97 0x3ee7a565895b658, 0x210d8432d2fc57a);
  (Near 0x31bb492d7cb16d 0xf39ad9801f1a9 0x66bc4a005ae9ac3 0x1f73d2b2c4adb2c, Near 0x17da147d60a19a 0xf39ad9801f1a9 0xc517c218a8f2c47 0x7dcf4acb12b6cb0, 0x421b0865a5f8af5);
  (Near 0x3eedd692c334dd 0xf39ad9801f1a9 0x103ff677e324e29f 0x3ee7a565895b658, Near 0x1b26b7d6b24276 0xf39ad9801f1a9 0x1c0b657aece605a7 0xfb9e9596256d960, 0x843610cb4bf15eb);
  (Near 0x364d6fad6484ec 0xf39ad9801f1a9 0x1c0b657aece605a7 0x7dcf4acb12b6cb0, Near 0x1ccd09835b12e4 0xf39ad9801f1a9 0x3b7f382db193b867 0x1f73d2b2c4adb2c0, 0x1086c219697e2bd7);
  (Near 0x364d6fad6484ec 0x15d2f44aa53361 0x59be11895c79abb 0x24113941b63d1f5, Near 0xd935beb59213b 0x15d2f44aa53361 0x59be11895c79abb 0x9044e506d8f47d4, 0x34e26d1e1e608c4);
  (Near 0x1b26b7d6b24276 0x30f9ac215775d7 0x59be11895c79abb 0xa1e0840cc8f3ea5, Near 0xd935beb59213b 0x1f468406584b89 0xb37c2312b8f3576 0x19d7f19a2ee61805, 0x69c4da3c3cc1189);
  (Near 0xd935beb59213b 0x3e8d080cb09712 0x59be11895c79abb 0x19d7f19a2ee61805, Near 0xd935beb59213b 0x166ceff8d8b662 0x166f8462571e6aec 0x250fb3cb5a754d7b, 0xd389b4787982312);
  (Near 0x553c38c0d0f15 0x3e8d080cb09712 0x70b0c68c6662ba 0x52b305209613801, Near 0x124d23c932ad4f 0x1f468406584b89 0x60c91df222dfd75 0xa5660a412c27002, 0x2a4ebdb1b1e6d6a);
  (Near 0x249a4792655a9e 0x1f468406584b89 0x60c91df222dfd75 0x52b305209613801, Near 0x18c9d3e7c57c6c 0x1f468406584b89 0x1062f28334f06d77 0x14acc1482584e004, 0x549d7b6363cdad4);
  (Near 0x3193a7cf8af8d8 0x1f468406584b89 0x1062f28334f06d77 0xa5660a412c27002, Near 0xc64e9f3e2be36 0x1f468406584b89 0x1062f28334f06d77 0x295982904b09c008, 0xa93af6c6c79b5a8);
  (Near 0x124d23c932ad4f 0x2e91bd688969d3 0x135b6c63a0932b1 0x31417feb68b3fdc, Near 0x124d23c932ad4f 0x195e4a31085c70 0x4d6db18e824cac4 0x6b53c5164a6d7ef, 0x21d897c15b1f121);
  (Near 0x124d23c932ad4f 0x32bc946210b8e0 0x26b6d8c74126562 0x6b53c5164a6d7ef, Near 0x1efc48e1b6db87 0xcaf2518842e38 0x1062f28334f06d77 0x6b53c5164a6d7ef, 0x43b12f82b63e243);
  (Near 0x3df891c36db70e 0x2bab6dfa3b09bf 0x1062f28334f06d77 0xb8c176a4ccba2b3, Near 0x1efc48e1b6db87 0x657928c42171c 0x20c5e50669e0daee 0x6b53c5164a6d7ef, 0x87625f056c7c486);
  (Near 0x1efc48e1b6db87 0x2bab6dfa3b09bf 0x1062f28334f06d77 0x17182ed499974566, Near 0x1efc48e1b6db87 0x32bc946210b8e 0x418bca0cd3c1b5dc 0x6b53c5164a6d7ef, 0x10ec4be0ad8f890d);
  (Near 0x17eb2279e12c66 0x2bab6dfa3b09bf 0x287a336d8c8dd6d 0x49e6fc41eb7daae, Near 0x1bd07f9b95cff9 0xfdaee5ea539c6 0xbc482bf163892c9 0x6b53c5164a6d7ef, 0x362759355e981cf);
  (Near 0x37a0ff372b9ff2 0x2bab6dfa3b09bf 0xbc482bf163892c9 0x93cdf883d6fb55c, Near 0x1bd07f9b95cff9 0x7ed772f529ce3 0x1789057e2c712592 0x6b53c5164a6d7ef, 0x6c4eb26abd3039f);
  (Near 0x1bd07f9b95cff9 0x2bab6dfa3b09bf 0xbc482bf163892c9 0x1279bf107adf6ab8, Near 0x11defb6574366e 0x19cc7294c6d351 0x1e3e41cf9117fd81 0x2ba8ba725a65ad5f, 0xd89d64d57a6073e);
  (Near 0xbf5913cf09633 0x375b855f58f478 0x1030e15f0505892 0x4af2025840626cb, Near 0xbf5913cf09633 0x19cc7294c6d351 0x40c3857c1416248 0x8bb587d45478913, 0x2b52adc44bace3f);
  (Near 0x3f8e76667e3cd5 0x3398e5298da6a2 0xac174a925e83a37 0x8bb587d45478913, Near 0x12e101e8dbb4c2 0x19cc7294c6d351 0xcc790d50688eb5b 0x1176b0fa8a8f1226, 0x56a55b889759c7f);
  (Near 0x3f8e76667e3cd5 0x19cc7294c6d351 0x1582e9524bd0746e 0x8bb587d45478913, Near 0x97080f46dda61 0x19cc7294c6d351 0xcc790d50688eb5b 0x22ed61f5151e244c, 0xad4ab7112eb38fe);
  (Near 0x3f8e76667e3cd5 0x1e1501ae5a6eb 0x44d61dd425ce416 0x2094c2c08dc0e7, Near 0x1ed69325cc4af5 0x105bf1a058f8f0 0x8599a35039e465e 0x46df6a002eaa4fd, 0x22a88b036fbd832);
  (Near 0x3f8e76667e3cd5 0x20b7e340b1f1e0 0x89ac3ba84b9c82c 0x46df6a002eaa4fd, Near 0x1ed69325cc4af5 0x82df8d02c7c78 0x10b3346a073c8cbc 0x46df6a002eaa4fd, 0x45511606df7b065);
  (Near 0x3f8e76667e3cd5 0x105bf1a058f8f0 0x1135877509739058 0x46df6a002eaa4fd, Near 0x1ed69325cc4af5 0x416fc68163e3c 0x216668d40e791978 0x46df6a002eaa4fd, 0x8aa22c0dbef60cb);
  (Near 0x3f8e76667e3cd5 0x82df8d02c7c78 0x226b0eea12e720b0 0x46df6a002eaa4fd, Near 0x1ed69325cc4af5 0x20b7e340b1f1e 0x42ccd1a81cf232f0 0x46df6a002eaa4fd, 0x11544581b7dec197);
  (Near 0x27048bf5f8c76d 0x28e5dc10de6e58 0x439d568686e3d25 0x46df6a002eaa4fd, Near 0x1ccb14f1c12bd7 0xa397704379b96 0xc795f019ece4f97 0x46df6a002eaa4fd, 0x3774119f192f384);
  (Near 0x3b7779fe67fe99 0x1472ee086f372c 0xce1a170d3c71f47 0x46df6a002eaa4fd, Near 0x1ccb14f1c12bd7 0x51cbb821bcdcb 0x18f2be033d9c9f2e 0x46df6a002eaa4fd, 0x6ee8233e325e709);
  (Near 0x3b7779fe67fe99 0xa397704379b96 0x19c342e1a78e3e8e 0x46df6a002eaa4fd, Near 0x1b2d5f3e261867 0x51cbb821bcdcb 0x2f188f234c31d81f 0x8dbed4005d549fa, 0xddd0467c64bce12);
  (Near 0x27048bf5f8c76d 0x331f53151609ee 0x3617786b9f1ca84 0x46df6a002eaa4fd, Near 0x6ba7135b6e13b 0x198fa98a8b04f7 0x254f86d70f8f00b 0x8dbed4005d549fa, 0x2c5cdae5adbf603);
  (Near 0x27048bf5f8c76d 0x198fa98a8b04f7 0x6c2ef0d73e39508 0x46df6a002eaa4fd, Near 0x10250d6020f319 0x198fa98a8b04f7 0xb30e5ad76ce3a05 0x11b7da800baa93f4, 0x58b9b5cb5b7ec07);
  (Near 0x204a1ac041e632 0x39d9c44acceb29 0xb30e5ad76ce3a05 0x140cd2ed7ca383ff, Near 0x10250d6020f319 0x14da5b7555fc08 0x1661cb5aed9c740a 0x1ce8c02d8278cdf9, 0xb1736b96b6fd80e);
  (Near 0x34796e616689e3 0x12d53854d423bc 0x3a329645b8b686e 0x14e30f6ea927863, Near 0x1ceee7f75d5d38 0x4b54e153508ef 0x805b0bed95147c9 0x14e30f6ea927863, 0x237d7beaf165e69);
  (Near 0x3de40a8bd09bc1 0x96a9c2a6a11de 0x89483bfa1a9493f 0x14e30f6ea927863, Near 0x1c975e3b4dc969 0x4b54e153508ef 0xfdad68858c01a1b 0x29c61edd524f0c6, 0x46faf7d5e2cbcd2);
  (Near 0x3de40a8bd09bc1 0x4b54e153508ef 0x1129077f4352927e 0x14e30f6ea927863, Near 0x155ba43d76721b 0x1a10f252ab7b0a 0x17affc51d82eec6d 0x1ce8c02d8278cdf9, 0x8df5efabc5979a5);
  (Near 0x2ab7487aece436 0x2f6c969021ed25 0x17affc51d82eec6d 0x1a4c5e3fad53dd33, Near 0x155ba43d76721b 0xd08792955bd85 0x2f5ff8a3b05dd8da 0x1ce8c02d8278cdf9, 0x11bebdf578b2f34a);
  (Near 0x214cac5082d258 0x38d732ba8bff03 0x3b171b13c61022d 0x64dd39f1185f2f3, Near 0x8532b1420b496 0x1fddb17e29e141 0x3b171b13c61022d 0xe22f96890f4c545, 0x38c8c644b56fd75);
  (Near 0x10a6562841692c 0x38d732ba8bff03 0x3b171b13c61022d 0xc9ba73e230be5e6, Near 0x429958a105a4b 0x1fddb17e29e141 0x3b171b13c61022d 0x1c45f2d121e98a8a, 0x71918c896adfaea);
  (Near 0x8532b1420b496 0x38d732ba8bff03 0x3b171b13c61022d 0x19374e7c4617cbcc, Near 0x429958a105a4b 0x1e8064224e2ca7 0x762e36278c2045a 0x36200ea9c89099c5, 0xe3231912d5bf5d5);
  (Near 0x299fd764a386ee 0x1fddb17e29e141 0x3b171b13c61022d 0x2d3cb7b5030f441, Near 0x14cfebb251c377 0x1a56ce983dd25c 0x762e36278c2045a 0x95908a7dcc2eaaf, 0x2d6d6b6a2abfdf7);
  (Near 0x14cfebb251c377 0x34ad9d307ba4b8 0x3b171b13c61022d 0x95908a7dcc2eaaf, Near 0x14cfebb251c377 0xd2b674c1ee92e 0xec5c6c4f18408b4 0x95908a7dcc2eaaf, 0x5adad6d4557fbef);
  (Near 0x14cfebb251c377 0x2f26ba4a8f95d3 0x762e36278c2045a 0x10bbec0a5584ef09, Near 0x1b659f5861380e 0x695b3a60f7497 0x26e49631bfcafc17 0x95908a7dcc2eaaf, 0xb5b5ada8aaff7de);
  (Near 0xf4908cc65b492 0x3a34801667b39d 0x115bf9f6a8d0601 0x421a484391af257, Near 0x7a4846632da49 0x1947fdd81a6caa 0x22b7f3ed51a0c02 0x72d896907a8dead, 0x24578921bbccb2c);
  (Near 0x7a4846632da49 0x3a34801667b39d 0x115bf9f6a8d0601 0x84349087235e4ae, Near 0x1448835240109e 0xca3feec0d3655 0xb8487e6b1dcf6b1 0x72d896907a8dead, 0x48af12437799658);
  (Near 0x289106a480213c 0x20ec823e4d46f3 0xb8487e6b1dcf6b1 0x95908a7dcc2eaaf, Near 0xa2441a920084f 0x16c840952d3ea4 0xb8487e6b1dcf6b1 0x19df9ab8c12eb40b, 0x915e2486ef32cb1);
  (Near 0x1448835240109e 0x353505908d5791 0xb8487e6b1dcf6b1 0x1e3699366b62cc0f, Near 0xa2441a920084f 0x1faca39cd6aff0 0x17090fcd63b9ed62 0x47f1ba5388a28ecf, 0x122bc490dde65963);
  (Near 0x30358b0ab2fb85 0x353505908d5791 0x5799c75692f9aae 0x60aeb7148ad5c03, Near 0x1ff73cd7ad505e 0x13fdea1769703 0xe856f0b4b5b9967 0x914efbdf7dc155, 0x3a25a835f947847);
  (Near 0x32b5484da0298b 0x353505908d5791 0xb8487e6b1dcf6b1 0xc15d6e2915ab806, Near 0x18bab4d614c944 0x19fa93778b6047 0x1677c0d1843c2c0d 0x179a5ec94337aeb7, 0x744b506bf28f08e);
  (Near 0x32b5484da0298b 0x33f526ef16c08e 0x17090fcd63b9ed62 0x179a5ec94337aeb7, Near 0xc5d5a6b0a64a2 0x19fa93778b6047 0x1677c0d1843c2c0d 0x2f34bd92866f5d6e, 0xe896a0d7e51e11c);
  (Near 0x3f9e39a5b725ef 0x13fdea1769703 0x5c7aeb13ffe2b4a 0x1d0fcbf97f8d11, Near 0x1fd5e4f415cee2 0x13fdea1769703 0xb91d453f46745ad 0x743f2fe5fe3444, 0x2e848691943936c);
  (Near 0x3fabc9e82b9dc4 0x13fdea1769703 0xb91d453f46745ad 0x3a1f97f2ff1a22, Near 0x1ee9620b99fb95 0x13fdea1769703 0x1677c0d1843c2c0d 0xe87e5fcbfc6888, 0x5d090d2328726d8);
  (Near 0x3f12a2b8aa8e2d 0x13fdea1769703 0x16ec00016a3a6051 0x743f2fe5fe3444, Near 0x1ee9620b99fb95 0x1014a05688494c 0x2cef81a30878581a 0x17603f3150389495, 0xba121a4650e4db0);
  (Near 0x3f12a2b8aa8e2d 0x63f592750f30f 0x4959999e20bacdd 0x743f2fe5fe3444, Near 0x1c69a4c8accd8f 0x11547ef7fee04f 0x842b4d3f81af132 0x509d8c9c809e121, 0x2536d20e102dc56);
  (Near 0x3f12a2b8aa8e2d 0x22a8fdeffdc09e 0x92b3333c41759ba 0x509d8c9c809e121, Near 0x16df11e055d6ef 0x11547ef7fee04f 0xd4c8d9dc024d253 0xa13b1939013c242, 0x4a6da41c205b8ac);
  (Near 0x3f12a2b8aa8e2d 0x11547ef7fee04f 0x12566667882eb374 0x509d8c9c809e121, Near 0x16df11e055d6ef 0x1419c86c2a5b9f 0x1a991b3b8049a4a6 0x17603f3150389495, 0x94db483840b7159);
  (Near 0x3f12a2b8aa8e2d 0x283390d854b73e 0x24accccf105d66e8 0x17603f3150389495, Near 0x157c6d26401947 0x1419c86c2a5b9f 0x31f95a6cd082393b 0x2ec07e62a071292a, 0x129b69070816e2b3);
  (Near 0x1c69a4c8accd8f 0x39880fd053978d 0x34de1ee633dfa14 0x6b0c9c0f9a8de2b, Near 0x157c6d26401947 0xe8f3583d364ff 0x9feabaf5ce6d83f 0x6c5cfa52cd5c82e, 0x3b8ae9b019e2d57);
  (Near 0x2af8da4c80328e 0x39880fd053978d 0x9feabaf5ce6d83f 0xd619381f351bc56, Near 0x157c6d26401947 0x1205d15509bf23 0x13fd575eb9cdb07e 0x10c47b5489bca06d, 0x7715d36033c5aae);
  (Near 0x157c6d26401947 0x39880fd053978d 0x9feabaf5ce6d83f 0x1ac32703e6a378ac, Near 0x157c6d26401947 0x13c11f3da4ec35 0x27faaebd739b60fc 0x24c1d2b3438a50eb, 0xee2ba6c0678b55c);
  (Near 0x157c6d26401947 0x334f9e6ce0dfb4 0x1ffbbefdf615e73 0x4c613b54d7469bb, Near 0x157c6d26401947 0xcd3e79b3837ed 0x7feefbf7d8579cc 0x4c613b54d7469bb, 0x2fa2548ce182445);
  (Near 0x157c6d26401947 0x2f243c5cb08921 0x3ff77dfbec2bce6 0x8c58b950c3726a1, Near 0x157c6d26401947 0x11282a60bc289a 0xffddf7efb0af398 0xcc50374caf9e387, 0x5f44a919c30488b);
  (Near 0x157c6d26401947 0x37ccc1e7b86a7b 0x7feefbf7d8579cc 0x14c3f334487f5d53, Near 0x157c6d26401947 0x1e1082569e2d94 0x1ffbbefdf615e730 0x2cc0c272c10fcab7, 0xbe8952338609116);
  (Near 0x33a15fd78813e8 0x37ccc1e7b86a7b 0x3d7bf1b6f059a55 0x42730a40e7fdf77, Near 0xce857f5e204fa 0x1dfc11fbf46087 0x3d7bf1b6f059a55 0x8ed44595bf44932, 0x261b76d71ace9d1);
  (Near 0x19d0afebc409f4 0x37ccc1e7b86a7b 0x3d7bf1b6f059a55 0x84e61481cffbeee, Near 0x6742bfaf1027d 0x1dfc11fbf46087 0x3d7bf1b6f059a55 0x11da88b2b7e89264, 0x4c36edae359d3a2);
  (Near 0xce857f5e204fa 0x37ccc1e7b86a7b 0x3d7bf1b6f059a55 0x109cc29039ff7ddc, Near 0x6742bfaf1027d 0x1f2076f154b67c 0x7af7e36de0b34aa 0x2511443be304960d, 0x986ddb5c6b3a745);
  (Near 0x6742bfaf1027d 0x3e40ede2a96cf8 0x3d7bf1b6f059a55 0x2511443be304960d, Near 0x160467739b5dbb 0xf903b78aa5b3e 0x347040a99f1aff61 0x2511443be304960d, 0x130dbb6b8d674e8a);
  (Near 0x2044dbe6b50c71 0x3e40ede2a96cf8 0x3d7bf1b6f059a55 0x769da72609a8469, Near 0x10b4a06e0ab133 0xf903b78aa5b3e 0x7f521fb5b7be4eb 0x769da72609a8469, 0x3cf8be24f7b0fb5);
  (Near 0x3f6552d809c2ed 0x1f2076f154b67c 0xf1958a93ea5b913 0x769da72609a8469, Near 0x187cbe2a5fded2 0x7c81dbc552d9f 0x17541e6917924e3f 0x769da72609a8469, 0x79f17c49ef61f6a);
  (Near 0x3f6552d809c2ed 0xf903b78aa5b3e 0x1e32b1527d4b7226 0x769da72609a8469, Near 0x1bce9a8dda4aa7 0x7c81dbc552d9f 0x34fb883299fc5fe3 0xed3b4e4c13508d2, 0xf3e2f893dec3ed5);
  (Near 0x2fd5175f5f67af 0x1dfc11fbf46087 0x48e916005bcfc59 0x2db49125add8810, Near 0x4764158dac1ca 0x1dfc11fbf46087 0x1b3484daadf7449 0xb6d24496b762040, 0x30c6fe83f95a62a);
  (Near 0x2fd5175f5f67af 0x26e894ada9e41b 0x91d22c00b79f8b2 0x769da72609a8469, Near 0x23b20ac6d60e5 0x1dfc11fbf46087 0x1b3484daadf7449 0x16da4892d6ec4080, 0x618dfd07f2b4c55);
  (Near 0x2b5ed60684a5e5 0x26e894ada9e41b 0x1086fd326c147d1b 0xed3b4e4c13508d2, Near 0x16ccfb59790365 0x1491daad0ba280 0x22c142b283086e7f 0x1f5ab2172d4985ed, 0xc31bfa0fe5698aa);
  (Near 0x344b58b83a2979 0x1dfc11fbf46087 0x3fc4f8f8d2a4789 0x2490741e24ad340, Near 0x1fb97e0b2e86f9 0x1491daad0ba280 0x9abe76cc534035b 0x64556d16f751ac9, 0x2705986994484ee);
  (Near 0x344b58b83a2979 0x2923b55a174500 0x7f89f1f1a548f12 0x64556d16f751ac9, Near 0x1fb97e0b2e86f9 0xa48ed5685d140 0x1357ced98a6806b6 0x64556d16f751ac9, 0x4e0b30d328909dd);
  (Near 0x344b58b83a2979 0x1491daad0ba280 0xff13e3e34a91e24 0x64556d16f751ac9, Near 0x1fb97e0b2e86f9 0x52476ab42e8a0 0x26af9db314d00d6c 0x64556d16f751ac9, 0x9c1661a651213bb);
  (Near 0x3e94460ebffab9 0xa48ed5685d140 0x2627d34dd8c75711 0x64556d16f751ac9, Near 0x1fb97e0b2e86f9 0x2923b55a17450 0x4d5f3b6629a01ad8 0x64556d16f751ac9, 0x1382cc34ca242777);
  (Near 0x37c630d6ae765d 0xa48ed5685d140 0x6cd2136ab7dd124 0x141115d164a9ef5, Near 0x1e0fdf7e5feb3d 0x2923b55a17450 0xea9d737cf0d0efe 0x141115d164a9ef5, 0x3e6f5a4286da17e);
  (Near 0x3ceaa781f15efd 0x52476ab42e8a0 0xedb53ca6d46413d 0x141115d164a9ef5, Near 0x1f58fd2930a565 0x1491daad0ba28 0x1e94bfccb464bcf1 0x141115d164a9ef5, 0x7cdeb4850db42fc);
  (Near 0x3f7ce2d792d34d 0x2923b55a17450 0x1ef7b8f1f0d7216f 0x141115d164a9ef5, Near 0x1ffd8bfe990279 0xa48ed5685d14 0x3e6a90f67f1418d7 0x141115d164a9ef5, 0xf9bd690a1b685f9);
  (Near 0x3ee37c186e2591 0x2923b55a17450 0x62294586aab3c7c 0x4036ac37a88631, Near 0x1f64253f7454bd 0xa48ed5685d14 0xc3fda6b036b428f 0x4036ac37a88631, 0x31f2ae9b9f14dfe);
  (Near 0x3ee37c186e2591 0x1491daad0ba28 0xc4528b0d55678f8 0x4036ac37a88631, Near 0x1fb66caa288347 0x52476ab42e8a 0x18bfeb823e7f0b4f 0x4036ac37a88631, 0x63e55d373e29bfd);
  (Near 0x3f880aedd682a5 0xa48ed5685d14 0x18ca880de2557821 0x4036ac37a88631, Near 0x1fdf905f829a8c 0x2923b55a1745 0x31c00db0b4a69ccf 0x4036ac37a88631, 0xc7caba6e7c537fa);
  (Near 0x3cf5cf98350e55 0x336ca2b09d164 0x4c1ef7900bd7979 0x4036ac37a88631, Near 0x1f3b018a1a3d78 0xcdb28ac27459 0x9bfd6fff79a80cf 0x4036ac37a88631, 0x27f5587c7f43e65);
  (Near 0x3e9134adb9f707 0x19b651584e8b2 0x9c4159e39237923 0x4036ac37a88631, Near 0x1faf739c3e35b0 0xcdb28ac27459 0x13c861e8a9ef7877 0x806d586f510c62, 0x4feab0f8fe87cca);
  (Near 0x3f5ee7387c6b60 0xcdb28ac27459 0x13c861e8a9ef7877 0x4036ac37a88631, Near 0x1fe9aca55031cc 0xcdb28ac27459 0x27d977ba0e9967c7 0x100dab0dea218c4, 0x9fd561f1fd0f995);
  (Near 0x3fd3594aa06398 0xcdb28ac27459 0x27d977ba0e9967c7 0x806d586f510c62, Near 0x1f39169f16bb81 0xcdb28ac27459 0x4df9edfb1aa914df 0x201b561bd443188, 0x13faac3e3fa1f32a);
  (Near 0x3fd3594aa06398 0x4047cb5cc45bd 0x7f84b25361eae5b 0x806d586f510c62, Near 0x1c024c740cea1d 0x4047cb5cc45bd 0xdfd6b4a6deb42f3 0x201b561bd443188, 0x3feef3fa6539708);
  (Near 0x3c09159de619f7 0x4047cb5cc45bd 0xefe45fb4c8d5bb7 0x100dab0dea218c4, Near 0x1c10dab6516924 0x4047cb5cc45bd 0x1c0960f69ac89dab 0x4036ac37a886310, 0x7fdde7f4ca72e11);
  (Near 0x3c2632226f1805 0x4047cb5cc45bd 0x1e0b1658580ccf33 0x201b561bd443188, Near 0x1e1a603259cb86 0x4047cb5cc45bd 0x3c24b7126f0bb62b 0x806d586f510c620, 0xffbbcfe994e5c22);
  (Near 0x3018bc010a46ce 0x14166f8cfd5cb1 0x4cdfe0a39a6721f 0x201b561bd443188, Near 0x161166c6c1400c 0x14166f8cfd5cb1 0x8d168cdb42ed52f 0x806d586f510c620, 0x33258ffb842df3a);
  (Near 0x2c22cd8d828018 0x14166f8cfd5cb1 0x8d168cdb42ed52f 0x4036ac37a886310, Near 0x1f1f22f05dfcb7 0x14166f8cfd5cb1 0x18df13db9e50616f 0x100dab0dea218c40, 0x664b1ff7085be74);
  (Near 0x3e3e45e0bbf96e 0x14166f8cfd5cb1 0x18df13db9e50616f 0x806d586f510c620, Near 0x199ac93eadacb4 0x14166f8cfd5cb1 0x28ecbee98871edaf 0x201b561bd4431880, 0xcc963fee10b7ce8);
  (Near 0x1faf739c3e35b 0x3ecfd47768efb4 0x2883daf3060303 0x5050c46eb9e8ce7, Near 0x199ac93eadacb4 0x179fd204e9c959 0x82f5961e816c923 0x78d49f61bfebd17, 0x28ead9960357f61);
  (Near 0x3335927d5b5968 0x313a9b4397760d 0x82f5961e816c923 0x7de51ac020ac31d, Near 0xccd649f56d65a 0x179fd204e9c959 0x82f5961e816c923 0xf1a93ec37fd7a2e, 0x51d5b32c06afec3);
  (Near 0x199ac93eadacb4 0x313a9b4397760d 0x82f5961e816c923 0xfbca3580415863a, Near 0x666b24fab6b2d 0x1e068454953486 0x82f5961e816c923 0x2664813a5811bd7f, 0xa3ab66580d5fd86);
  (Near 0x3926782aa70379 0x179fd204e9c959 0x3a76034a4178ae2 0x182a8646bffbf6b, Near 0x861a9896f4e88 0x179fd204e9c959 0x224b7d03817cb77 0x60aa191affefdac, 0x20bbe144cf7991a);
  (Near 0x28632517c86669 0x179fd204e9c959 0x52a089910174a4d 0x30550c8d7ff7ed6, Near 0x430d4c4b7a744 0x1bd0a6c9a1709d 0x224b7d03817cb77 0xe39faf39815c6cf, 0x4177c2899ef3235);
  (Near 0x20017b8e5917e1 0x37a14d9342e13a 0x82f5961e816c923 0xe39faf39815c6cf, Near 0x2186a625bd3a2 0x1de9112bfd443f 0x224b7d03817cb77 0x1e98adb768435915, 0x82ef85133de646b);
  (Near 0x20017b8e5917e1 0x3bd22257fa887e 0x105eb2c3d02d9246 0x1e98adb768435915, Near 0x1ef5465d2b2e10 0x1de9112bfd443f 0x3f56133f089e7da1 0x3d315b6ed086b22a, 0x105df0a267bcc8d7);
  (Near 0x430d4c4b7a744 0x3fa44c1b3d7049 0x6dbe5cd804c24b 0x682986c67c01d89, Near 0x10c35312de9d1 0x1f29db26ae1ffa 0x6dbe5cd804c24b 0xcc05473766cef0f, 0x345fced47f28e91);
  (Near 0x2186a625bd3a2 0x3fa44c1b3d7049 0x6dbe5cd804c24b 0xd0530d8cf803b12, Near 0x10c35312de9d1 0x1f4c0b7507c33c 0xdb7cb9b0098496 0x199ca354c6fbb3d9, 0x68bf9da8fe51d22);
  (Near 0x10c35312de9d1 0x3fa44c1b3d7049 0x6dbe5cd804c24b 0x1a0a61b19f007624, Near 0x10c35312de9d1 0x1f5d239c3494dd 0x1b6f9736013092c 0x3355411768193d6d, 0xd17f3b51fca3a45);
  (Near 0x10c35312de9d1 0x3f9efed99e400a 0x15f2df5e675a0f 0x534d7ab02e5f9e7, Near 0x10c35312de9d1 0x1f18c2ff814e59 0x57cb7d799d683c 0xa2dde466650614d, 0x29e63f1065ba541);
  (Near 0x10c35312de9d1 0x3f3dbb30308683 0x2be5bebcceb41e 0xa59c405231f156b, Near 0x10c35312de9d1 0x1fc999fa084f54 0xaf96faf33ad078 0x14cf827820600091, 0x53cc7e20cb74a82);
  (Near 0x10c35312de9d1 0x3f9333f4109ea8 0x57cb7d799d683c 0x14cf827820600091, Near 0x10c35312de9d1 0x1f9beadeb4dae9 0x15f2df5e675a0f0 0x296333e0a1446ea1, 0xa798fc4196e9504);
  (Near 0x53d09f5e59115 0x3f9333f4109ea8 0x57cb7d799d683c 0x429807e6ce0001d, Near 0x53d09f5e59115 0x1f9beadeb4dae9 0x15f2df5e675a0f0 0x8470a602040e2ed, 0x2184ff405161dcd);
  (Near 0x53d09f5e59115 0x3f37d5bd69b5d2 0xaf96faf33ad078 0x8470a602040e2ed, Near 0x17a9846032c714 0x126c7a6a4d35ff 0xc649441d3a1c5bd 0x9a6385606b683dd, 0x4309fe80a2c3b9b);
  (Near 0x2f5308c0658e28 0x2a15feca7ffd13 0xc649441d3a1c5bd 0xb05664bed2c24cd, Near 0xbd4c23019638a 0x1e413c9a669989 0xc649441d3a1c5bd 0x1fb104ede10ecd77, 0x8613fd014587736);
  (Near 0x17a9846032c714 0x2a15feca7ffd13 0xc649441d3a1c5bd 0x160acc97da58499a, Near 0x5ea61180cb1c5 0x1e413c9a669989 0xc649441d3a1c5bd 0x3f6209dbc21d9aee, 0x10c27fa028b0ee6d);
  (Near 0x2223984bfde93e 0x2a15feca7ffd13 0x393759eaf7e7519 0x4688f519211a852, Near 0x1d93e5783f78d9 0xc82195240843a 0xc649441d3a1c5bd 0x53da90474a4db8b, 0x35a19866e89c949);
  (Near 0x3b27caf07ef1b2 0x2a15feca7ffd13 0xc649441d3a1c5bd 0x8d11ea3242350a4, Near 0x1d93e5783f78d9 0x6410ca920421d 0x18c92883a7438b7a 0x53da90474a4db8b, 0x6b4330cdd139292);
  (Near 0x1d93e5783f78d9 0x2a15feca7ffd13 0xc649441d3a1c5bd 0x11a23d464846a148, Near 0x1d93e5783f78d9 0x11ea7910afdd7b 0x319251074e8716f4 0x1e06d1881be86705, 0xd686619ba272524);
  (Near 0x3fb77dc43d6217 0x2a15feca7ffd13 0x556e225b6b8b86d 0x386d90e0e7486a8, Near 0x5685fbe6f5941 0x1f453f4da14a91 0x1d00917a84431c5 0xa7b5208e949b716, 0x2ae7ad1f207d43a);
  (Near 0x34e6be475eaf95 0x2a15feca7ffd13 0x8ddbb33c52d3f15 0x70db21c1ce90d50, Near 0x1d278f02e7046b 0x17bf2f4477ab2a 0x138b7f7f329eafef 0xfeb6d4fe2164c65, 0x55cf5a3e40fa875);
  (Near 0x34e6be475eaf95 0x2f7e5e88ef5654 0x11bb76678a5a7e2a 0xfeb6d4fe2164c65, Near 0x1d278f02e7046b 0xbdf97a23bd595 0x2716fefe653d5fde 0xfeb6d4fe2164c65, 0xab9eb47c81f50ea);
  (Near 0x1b09deb82cbe45 0x2a15feca7ffd13 0x1d00917a84431c5 0x2d2473e71f6d220, Near 0x1147f760ab2ed6 0x18ce0769d4ce3d 0x4a250561a3b03e5 0x6a6cca3ada0449b, 0x2252f0e5b397695);
  (Near 0x228feec1565dac 0x2a15feca7ffd13 0x4a250561a3b03e5 0x5a48e7ce3eda440, Near 0x8a3fbb055976b 0x18ce0769d4ce3d 0x4a250561a3b03e5 0xd4d99475b408936, 0x44a5e1cb672ed2a);
  (Near 0x1147f760ab2ed6 0x3b5df62b2b2be9 0x4a250561a3b03e5 0xfeb6d4fe2164c65, Near 0x8a3fbb055976b 0x195cfd3d6aca3f 0x944a0ac347607ca 0x1b348a49a9f194e5, 0x894bc396ce5da54);
  (Near 0x8a3fbb055976b 0x3b5df62b2b2be9 0x4a250561a3b03e5 0x1fd6da9fc42c98ca, Near 0x11007c76e030d5 0x195cfd3d6aca3f 0x24792af5de679caf 0x3669149353e329ca, 0x11297872d9cbb4a9);
  (Near 0x2b33ea71abf517 0x18ce0769d4ce3d 0x4a250561a3b03e5 0x2a91ea7df0ce83e, Near 0x11007c76e030d5 0x18ce0769d4ce3d 0x74b6efdf947ec23 0xaa47a9f7c33a0f8, 0x36eb1b091f58a88);
  (Near 0x2200f8edc061aa 0x3acf0057952fe7 0x74b6efdf947ec23 0xc9dac4db761bc9f, Near 0x11007c76e030d5 0x14e741f05a7f89 0xe96ddfbf28fd846 0x11efe99d757b8d1b, 0x6dd636123eb1510);
  (Near 0x11007c76e030d5 0x3acf0057952fe7 0x74b6efdf947ec23 0x193b589b6ec3793e, Near 0x11007c76e030d5 0x12f3df339d582f 0x1d2dbbf7e51fb08c 0x2086c799680b6561, 0xdbac6c247d62a21);
  (Near 0x1a336dfacbc442 0x3acf0057952fe7 0x23f90787cba6d7d 0x50bde857c8d7ea6, Near 0xd19b6fd65e221 0x16daa4ad17a6e3 0x47f20f0f974dafa 0x7d82c927c608fcf, 0x2bef48d41913ba0);
  (Near 0xd19b6fd65e221 0x3acf0057952fe7 0x23f90787cba6d7d 0xa17bd0af91afd4c, Near 0x1f13e4d2a4a6a3 0x11fa2dd53ec482 0x15558f6568bf20bd 0xc574d8375d56ac9, 0x57de91a83227740);
  (Near 0x310e12a7e36b25 0x23f45baa7d8904 0x10d66e746f4a45c3 0xc574d8375d56ac9, Near 0x1f13e4d2a4a6a3 0x8fd16ea9f6241 0x2aab1ecad17e417a 0xc574d8375d56ac9, 0xafbd2350644ee81);
  (Near 0x310e12a7e36b25 0x209b925cc96ba5 0x35e161749754127 0x23d0b3d9975a754, Near 0x41ca012c67fe0 0x1c7ef24a02ebc5 0x1210ad9afff99d3 0x7d3221cb5d7037d, 0x2325d3dce0dc94d);
  (Near 0x310e12a7e36b25 0x28d4d282566b65 0x6bc2c2e92ea824e 0x59b2154e2eae87b, Near 0x20e5009633ff0 0x1e8d4253662bb5 0x1210ad9afff99d3 0x10c74f131bada0cd, 0x464ba7b9c1b929a);
  (Near 0x310e12a7e36b25 0x2cf172951ceb45 0xd78585d25d5049c 0xc574d8375d56ac9, Near 0x1072804b19ff8 0x1f946a5817cbad 0x1210ad9afff99d3 0x22afa8ffe75adb6d, 0x8c974f738372534);
  (Near 0x310e12a7e36b25 0x2effc29e802b35 0x1af0b0ba4baa0938 0x19cfa5e09baa6f65, Near 0x83940258cffc 0x1f946a5817cbad 0x1210ad9afff99d3 0x455f51ffceb5b6da, 0x1192e9ee706e4a68);
  (Near 0x20e5009633ff0 0x3e4c8a03efdd49 0x39cef8566651f7 0x6d7bc6442178a59, Near 0x83940258cffc 0x1ff96d7977ee35 0x39cef8566651f7 0xe0c3e551ec94577, 0x383c862e3494214);
  (Near 0x1072804b19ff8 0x3f53b208a17d41 0x39cef8566651f7 0xde947c0da9566a9, Near 0x41ca012c67fe 0x1ff96d7977ee35 0x39cef8566651f7 0x1c187caa3d928aee, 0x70790c5c6928429);
  (Near 0x83940258cffc 0x3fd7460afa4d3d 0x39cef8566651f7 0x1c0c5e7a0b911f49, Near 0x20e5009633ff 0x1ff96d7977ee35 0x39cef8566651f7 0x3830f9547b2515dc, 0xe0f218b8d250853);
  (Near 0x291e40bbc0fec 0x3e4c8a03efdd49 0x39cef8566651f7 0x57963836812d514, Near 0xa47902ef03fb 0x1f75d9771f1e39 0x39cef8566651f7 0xb0ebf7d6d1bf600, 0x2cfd3824f6dce77);
  (Near 0x148f205de07f6 0x3f957c09cde53f 0x39cef8566651f7 0xb2c95ff268bfc1f, Near 0xa47902ef03fb 0x1f7881836f70a2 0x739df0accca3ee 0x161f5d05f6b1a647, 0x59fa7049edb9cee);
  (Near 0xa47902ef03fb 0x3f957c09cde53f 0x39cef8566651f7 0x16592bfe4d17f83e, Near 0xa47902ef03fb 0x1fcc120b0f1bd4 0xe73be1599947dc 0x2cb43607b6a9aac3, 0xb3f4e093db739dc);
  (Near 0x3365d0eab13e7 0x3d0397fe11d553 0x39cef8566651f7 0x449fcd29719567a, Near 0x3365d0eab13e7 0x1e8320053113de 0xe73be1599947dc 0x894594100b16bcf, 0x23fdc683f8b0b92);
  (Near 0x3365d0eab13e7 0x3d06400a6227bc 0x739df0accca3ee 0x894594100b16bcf, Near 0x1f51614befed72 0x1c1b043d44d98b 0x119cb00e80ae3a67 0xfce384bcd7baaaf, 0x47fb8d07f161724);
  (Near 0x3b6c658934c6fd 0x3836087a89b316 0x10b5742d2714f28b 0xfce384bcd7baaaf, Near 0xfa8b0a5f7f6b9 0x1c1b043d44d98b 0x119cb00e80ae3a67 0x1f9c70979af7555e, 0x8ff71a0fe2c2e49);
  (Near 0x3b6c658934c6fd 0x1c1b043d44d98b 0x216ae85a4e29e516 0xfce384bcd7baaaf, Near 0xfa8b0a5f7f6b9 0x15e1da719e6822 0x2339601d015c74ce 0x313920a61ba58fc5, 0x11fee341fc585c93);
  (Near 0x2c2ad5869c3d0e 0x1c1b043d44d98b 0x4f7b63842b1b1db 0x3293e758f7f2223, Near 0x19183780497c09 0x1c1b043d44d98b 0xb4a332361aff621 0xca4f9d63dfc888c, 0x39960a6cc11ac1d);
  (Near 0x32306f0092f812 0x1c1b043d44d98b 0xb4a332361aff621 0x6527ceb1efe4446, Near 0x1a999ddec72aca 0x1c1b043d44d98b 0x17ef2cf99fac7ead 0x1949f3ac7bf91118, 0x732c14d9823583b);
  (Near 0x35333bbd8e5594 0x1c1b043d44d98b 0x17ef2cf99fac7ead 0xca4f9d63dfc888c, Near 0xd4cceef639565 0x1c1b043d44d98b 0x17ef2cf99fac7ead 0x3293e758f7f22230, 0xe65829b3046b076);
  (Near 0x35333bbd8e5594 0x22209db73b948f 0x4c96f651fef4c89 0x3121b0bfe1def7a, Near 0xd4cceef639565 0x14d3cec7d7ff2a 0x4c96f651fef4c89 0x77efccad888715f, 0x2e11a1f09a7bce4);
  (Near 0x1a999ddec72aca 0x3cba3b9602bf59 0x4c96f651fef4c89 0xaeda57d1c2b2b7d, Near 0xd4cceef639565 0x17b6b6534f94fa 0x992deca3fde9912 0x1111db9518670a71, 0x5c2343e134f79c8);
  (Near 0xd4cceef639565 0x3cba3b9602bf59 0x4c96f651fef4c89 0x15db4afa385656fa, Near 0xd4cceef639565 0x19282a190b5fe2 0x1325bd947fbd3224 0x2437992998243c95, 0xb84687c269ef391);
  (Near 0xd4cceef639565 0x32efce29a9a63e 0xf516476cc975b5 0x3aaa3ad25629a8b, Near 0xd4cceef639565 0x13625b021c3442 0x3d4591db325d6d4 0x594d03bfef585f5, 0x24dae7f3aec971d);
  (Near 0xd4cceef639565 0x341184f39bfde9 0x1ea2c8ed992eb6a 0x77efccad888715f, Near 0xd4cceef639565 0x16fdfc7071af86 0x7a8b23b664bada8 0xd3d82776541339d, 0x49b5cfe75d92e3a);
  (Near 0xd4cceef639565 0x3b48c7d046f471 0x3d4591db325d6d4 0x1111db9518670a71, Near 0xd4cceef639565 0x18cbcd279c6d28 0xf516476cc975b50 0x1c8ee6ee31d88eed, 0x936b9fcebb25c74);
  (Near 0xd4cceef639565 0x3ee4693e9c6fb5 0x7a8b23b664bada8 0x2437992998243c95, Near 0xd4cceef639565 0x19b2b58331cbf9 0x1ea2c8ed992eb6a0 0x3b31afdbcb07458d, 0x126d73f9d764b8e9);
  (Near 0xd4cceef639565 0x3dc2b274aa180a 0x18823a57adbef88 0x71cf3e179d1757d, Near 0xd4cceef639565 0x16171414dc50b5 0x6208e95eb6fbe20 0xa2d3b2c6f89548d, 0x3af7d985e47582e);
  (Near 0xd4cceef639565 0x397af7191c36cf 0x310474af5b7df10 0xd3d82776541339d, Near 0xd4cceef639565 0x1efec071838872 0xc411d2bd6df7c40 0x1c8ee6ee31d88eed, 0x75efb30bc8eb05d);
  (Near 0xd4cceef639565 0x3dfd80e30710e4 0x6208e95eb6fbe20 0x1c8ee6ee31d88eed, Near 0xd4cceef639565 0x1ccc2f2825599e 0x18823a57adbef880 0x35112145df97876d, 0xebdf661791d60ba);
  (Near 0x11cf58b94e6f7a 0x30b0b1f3a37b7f 0x1a4168443c12df7 0x47c7811a7ae9029, Near 0x8e7ac5ca737bd 0x1ccc2f2825599e 0x3482d0887825bee 0xa9d06a7931e4e49, 0x2f2cae04b6c468b);
  (Near 0x8e7ac5ca737bd 0x39985e504ab33c 0x1a4168443c12df7 0xa9d06a7931e4e49, Near 0x174dc3f0b9e48c 0xe66179412accf 0x112d60b8a2230625 0xa9d06a7931e4e49, 0x5e595c096d88d17);
  (Near 0x25b3db84cc915b 0x1ccc2f2825599e 0xde533b01aa0aa37 0xa9d06a7931e4e49, Near 0x1a0cf98c6f9f15 0xe66179412accf 0x26676e07c85fa2b7 0x153a0d4f263c9c92, 0xbcb2b812db11a2e);
  (Near 0x25b3db84cc915b 0x1ee1593a550c05 0x2c770bcd220220b 0x246b4711cbde828, Near 0x148e8e55042a03 0x11254d2fc86758 0x60f9dc559a27df9 0x50e252deede0a33, 0x25bd5803c569ed6);
  (Near 0x25b3db84cc915b 0x224a9a5f90ceb0 0x58ee179a4404416 0x50e252deede0a33, Near 0x1d2134ece85daf 0x892a697e433ac 0x112d60b8a2230625 0x50e252deede0a33, 0x4b7ab0078ad3dac);
  (Near 0x36d928b494f8b3 0x11254d2fc86758 0x102be821375e925f 0x50e252deede0a33, Near 0x1d2134ece85daf 0x449534bf219d6 0x225ac17144460c4a 0x50e252deede0a33, 0x96f5600f15a7b58);
  (Near 0x36d928b494f8b3 0x3f6bcf4c792c5f 0x2057d0426ebd24be 0x2565f5705d9b2ef1, Near 0x1f45de92e16a9a 0x224a9a5f90ceb 0x49c3a810776a22c7 0x50e252deede0a33, 0x12deac01e2b4f6b1);
  (Near 0x148e8e55042a03 0x3f6bcf4c792c5f 0x26ca58223da98ca 0x77acab012b8a2fd, Near 0x1f45de92e16a9a 0xab7503ddd4097 0xec0bb367e486d5b 0x50e252deede0a33, 0x3c62266c6f0fe23);
  (Near 0x29fd2ed0beab31 0x3f6bcf4c792c5f 0x9e7703236933bc7 0xef59560257145fa, Near 0x1a5a3f874df5e4 0xab7503ddd4097 0x18dd05925c0481c1 0xa1c4a5bddbc1466, 0x78c44cd8de1fc46);
  (Near 0x34b47f0e9bebc8 0x3f6bcf4c792c5f 0x18dd05925c0481c1 0x1deb2ac04ae28bf4, Near 0xd2d1fc3a6faf2 0x17e47001843b89 0x18dd05925c0481c1 0x2d159a4a177caa8d, 0xf18899b1bc3f88d);
  (Near 0x1f45de92e16a9a 0x359491355242f3 0x2f358a47fa815df 0x50e252deede0a33, Near 0xfa2ef4970b54d 0x12f8d0f5f0c6d3 0x5e6b148ff502bbe 0x728f1b75e13fe87, 0x304e85238c0cb4f);
  (Near 0xfa2ef4970b54d 0x359491355242f3 0x2f358a47fa815df 0xa1c4a5bddbc1466, Near 0xfa2ef4970b54d 0x114de01fb0be10 0xbcd6291fea0577c 0xd0fa3005d642a45, 0x609d0a47181969f);
  (Near 0xfa2ef4970b54d 0x323eaf88d2316d 0x5e6b148ff502bbe 0x12f654495cb45603, Near 0x1849df59491455 0x8a6f00fd85f08 0x24aa68245aa4d93d 0xd0fa3005d642a45, 0xc13a148e3032d3e);
  (Near 0x2b92ec2fd20e61 0x229bc03f617c20 0x349f715b96f567d 0x29cba3345e0d541, Near 0x1a450c10215051 0x8a6f00fd85f08 0x7ee67f059fbaf72 0x29cba3345e0d541, 0x26a5374fa33d5d9);
  (Near 0x3ce0cc4f82cc71 0x114de01fb0be10 0x930a85eb8bf823b 0x29cba3345e0d541, Near 0x1e9884180d7fd5 0x4537807ec2f84 0x12798a13f9d83425 0x29cba3345e0d541, 0x4d4a6e9f467abb2);
  (Near 0x3ce0cc4f82cc71 0x8a6f00fd85f08 0x126150bd717f0476 0x29cba3345e0d541, Near 0x1e9884180d7fd5 0x229bc03f617c2 0x24f31427f3b0684a 0x29cba3345e0d541, 0x9a94dd3e8cf5764);
  (Near 0x3ce0cc4f82cc71 0x4537807ec2f84 0x24c2a17ae2fe08ec 0x29cba3345e0d541, Near 0x1fad621a088bb6 0x114de01fb0be1 0x4c82e2832d41a5d5 0x29cba3345e0d541, 0x13529ba7d19eaec9);
  (Near 0x3439dc3faa6d69 0x15a158279ced94 0x64ea29dab0c12e2 0x29cba3345e0d541, Near 0x1e9884180d7fd5 0x5685609e73b65 0xec7a1a994acf684 0x29cba3345e0d541, 0x3dd5254c38622f5);
  (Near 0x3f0a885378e433 0xad0ac13ce76ca 0xf39ff6e9bf8fb05 0x29cba3345e0d541, Near 0x1cd11924c8d467 0x5685609e73b65 0x1bd744a9f21120c9 0x53974668bc1aa82, 0x7baa4a9870c45ea);
  (Near 0x3f0a885378e433 0x5685609e73b65 0x1e73fedd37f1f60a 0x29cba3345e0d541, Near 0x1bed63ab267eb0 0x5685609e73b65 0x35f68aaaacd97553 0xa72e8cd17835504, 0xf7549530e188bd4);
  (Near 0x3439dc3faa6d69 0x1b09ae318428f9 0x50bb54aef3cdbe8 0x29cba3345e0d541, Near 0x64c0b8389911c 0x1b09ae318428f9 0x26efb17a95c06a7 0xa72e8cd17835504, 0x31775109c6b4f2a);
  (Near 0x27a1c538974b31 0x1b09ae318428f9 0x7a86f7e351db129 0x53974668bc1aa82, Near 0x32605c1c4c88e 0x1e2fb3f348f187 0x26efb17a95c06a7 0x1754ccb1d862b0af, 0x62eea2138d69e55);
  (Near 0x2155b9b50dba15 0x3c5f67e691e30e 0xce1e3e4c0df5bab 0x1754ccb1d862b0af, Near 0x1fc2b6d42b55ce 0x1e2fb3f348f187 0x3118947b5a216805 0x2ea99963b0c5615e, 0xc5dd44271ad3caa);
  (Near 0x64c0b8389911c 0x3b9fdccd21ff8d 0x7c989e551267bb 0x49bc1611aa67840, Near 0x19302e0e26447 0x1f49a8fd36f28f 0x7c989e551267bb 0x9ac4a626f4e95da, 0x2792a73b055d8ee);
  (Near 0x32605c1c4c88e 0x3ec5e28ee6c81b 0x7c989e551267bb 0x9b41b608a5f583b, Near 0x19302e0e26447 0x1e996fd70231ea 0xf9313caa24cf76 0x12eb9e22bfac48bb, 0x4f254e760abb1dd);
  (Near 0x19302e0e26447 0x3ec5e28ee6c81b 0x7c989e551267bb 0x136836c114beb076, Near 0x19302e0e26447 0x1f0ad4b45903bb 0x1f2627954499eec 0x266376e00a8c7df3, 0x9e4a9cec15763bb);
  (Near 0x19302e0e26447 0x3fa8ac49946bbd 0xf9313caa24cf76 0x275ca81cb4b14d69, Near 0x1507f46d44e0d6 0x1374f18c627c8f 0x34042831588fd667 0x301f633eaffc988f, 0x13c9539d82aec776);
  (Near 0x7df0e646bf563 0x395ca0c60adaa1 0xf9313caa24cf76 0x717fa3b9c06031d, Near 0x182dfa2f09a964 0x104eebca9db401 0xbf5f06aeebe106b 0x8112b78462ad293, 0x3f510b91a22f4b1);
  (Near 0x287ce5f9a75d65 0x209dd7953b6802 0xa038df19a74717f 0x8112b78462ad293, Near 0xc16fd1784d4b2 0x1c65e8e22288b3 0xbf5f06aeebe106b 0x1c18475b7b13b591, 0x7ea21723445e962);
  (Near 0x287ce5f9a75d65 0x38cbd1c4451166 0x14071be334e8e2fe 0x1c18475b7b13b591, Near 0x60b7e8bc26a59 0x1c65e8e22288b3 0xbf5f06aeebe106b 0x38308eb6f6276b22, 0xfd442e4688bd2c5);
  (Near 0x287ce5f9a75d65 0x290db4fb6d26a0 0x4016bfa3dc82d66 0x40fbf7e0862a52d, Near 0x1e3978bacc13bd 0xa436d3edb49a8 0xbf5f06aeebe106b 0x40fbf7e0862a52d, 0x32a73c7481bf6f4);
  (Near 0x287ce5f9a75d65 0x3d03c0775df0b5 0x802d7f47b905acc 0xc12977283f2fff9, Near 0x1e3978bacc13bd 0x521b69f6da4d4 0x17ebe0d5dd7c20d6 0x40fbf7e0862a52d, 0x654e78e9037ede8);
  (Near 0x287ce5f9a75d65 0x32c0533882a70d 0x1005afe8f720b598 0x14156f66ff835ac5, Near 0x1e3978bacc13bd 0x290db4fb6d26a 0x2fd7c1abbaf841ac 0x40fbf7e0862a52d, 0xca9cf1d206fdbd1);
  (Near 0x287ce5f9a75d65 0x3351223a487048 0x3345661cb068ab8 0x40fbf7e0862a52d, Near 0x1ba89d6b154153 0xcd4488e921c12 0x8c19a0923b785b3 0x40fbf7e0862a52d, 0x2885c9f6ce32bf6);
  (Near 0x287ce5f9a75d65 0x19a8911d243824 0x668acc3960d1570 0x40fbf7e0862a52d, Near 0x1ba89d6b154153 0x66a2447490e09 0x11833412476f0b66 0x40fbf7e0862a52d, 0x510b93ed9c657ed);
  (Near 0x287ce5f9a75d65 0x35512e88397977 0xcd159872c1a2ae0 0x10e11905347cd00d, Near 0x110960d92f27ae 0x177385207835b7 0x1592f3904fd1b093 0x1db2728c6096faed, 0xa21727db38cafda);
  (Near 0x2000c4df1092f 0x3e255e7ae9832b 0x206bcf6a307245 0x3ef53ae9e3232e8, Near 0x110960d92f27ae 0xf09548b3e1e7f 0x450971cdcc389b7 0x3cee7df3401c0a3, 0x206b07f8a4f565e);
  (Near 0x2212c1b25e4f5c 0x2012b5646d462d 0x450971cdcc389b7 0x40fbf7e0862a52d, Near 0x884b06c9793d7 0x178e04f7d5b256 0x450971cdcc389b7 0xbee66db44c70afd, 0x40d60ff149eacbd);
  (Near 0x110960d92f27ae 0x311c163d9c6ddb 0x450971cdcc389b7 0xc701618ed88d411, Near 0x884b06c9793d7 0x1cd063551a00d9 0x8a12e39b987136e 0x1d30c34eb7d531d9, 0x81ac1fe293d597b);
  (Near 0x884b06c9793d7 0x39a0c6aa3401b2 0x450971cdcc389b7 0x1d30c34eb7d531d9, Near 0x884b06c9793d7 0x1b2f3a4d705e2f 0x11425c73730e26dc 0x37144dfbe46a6c23, 0x103583fc527ab2f7);
  (Near 0x2a97721ef5e333 0x178e04f7d5b256 0x450971cdcc389b7 0x262e15f0dc16899, Near 0xf6837d1858504 0x1b2f3a4d705e2f 0x63e4cdaabc5aad5 0xb040f98c7487c07, 0x33de73276e556fe);
  (Near 0x2a97721ef5e333 0x365e749ae0bc5e 0x8a12e39b987136e 0xb040f98c7487c07, Near 0x7b41be8c2c282 0x1b2f3a4d705e2f 0x63e4cdaabc5aad5 0x16081f318e90f80e, 0x67bce64edcaadfc);
  (Near 0x2a97721ef5e333 0x1b2f3a4d705e2f 0x11425c73730e26dc 0xb040f98c7487c07, Near 0x1f094841d1bf70 0x1b2f3a4d705e2f 0x324e8b3dc8e79af1 0x2c103e631d21f01c, 0xcf79cc9db955bf8);
  (Near 0x39ffa9f07b6837 0x26f63cc95b375a 0x4b3550f9fc3f6bd 0x3285d4493c242a5, Near 0x134245c5e6e645 0x137b1e64ad9bad 0x63e4cdaabc5aad5 0x650ba892784854a, 0x297ec285f1ddf31);
  (Near 0x39ffa9f07b6837 0x137b1e64ad9bad 0x966aa1f3f87ed7a 0x3285d4493c242a5, Near 0x135eb2154a40f9 0x137b1e64ad9bad 0xc8f0763d34a301f 0xca175124f090a94, 0x52fd850be3bbe63);
  (Near 0x26bd642a9481f2 0x3a38828f421d9f 0xc8f0763d34a301f 0x12dfc1ecfaceb569, Near 0x135eb2154a40f9 0x136ce83cfbee53 0x191e0ec7a694603e 0x19307c7622533ab3, 0xa5fb0a17c777cc7);
  (Near 0x26bd642a9481f2 0x3aaa33cccf886f 0x283017a5d753cd3 0x3cdb90eca0f4877, Near 0x135eb2154a40f9 0x13a5c0dbc2a3bb 0x50602f4baea79a6 0x51870a336a9541b, 0x21323537f4b18f4);
  (Near 0x135eb2154a40f9 0x3aaa33cccf886f 0x283017a5d753cd3 0x79b721d941e90ee, Near 0x135eb2154a40f9 0x1382397886725a 0xa0c05e975d4f34c 0xa1e7397f193cdc1, 0x42646a6fe9631e9);
  (Near 0x135eb2154a40f9 0x3a6325065725ad 0x50602f4baea79a6 0xf24768cac7e4767, Near 0x135eb2154a40f9 0x1d1fced18d7a26 0x14180bd2eba9e698 0x1e367f6add3db459, 0x84c8d4dfd2c63d2);
  (Near 0x135eb2154a40f9 0x3a3f9da31af44c 0xa0c05e975d4f34c 0x1e367f6add3db459, Near 0x135eb2154a40f9 0xe8fe768c6bd13 0x283017a5d753cd30 0x1e367f6add3db459, 0x10991a9bfa58c7a5);
  (Near 0x39f88edca2918a 0x26e0eb8dd0b353 0x6038735fabfffe3 0x4087eb37b14f369, Near 0x1cfc476e5148c5 0x4f2520fbfb547 0xc070e6bf57fffc6 0x20d7630fb69e6ef, 0x351d21f3211c187);
  (Near 0x1cfc476e5148c5 0x26e0eb8dd0b353 0x6038735fabfffe3 0x810fd66f629e6d2, Near 0x10f74cbf087f06 0x15e99ecec8344d 0xe14849cf0e9e6b5 0x122f70fee7bdb493, 0x6a3a43e6423830e);
  (Near 0x21ee997e10fe0c 0x26e0eb8dd0b353 0xe14849cf0e9e6b5 0x1021facdec53cda4, Near 0x87ba65f843f83 0x1e65452e4c73d0 0xe14849cf0e9e6b5 0x3273669ac0654fdb, 0xd47487cc847061d);
  (Near 0x1cfc476e5148c5 0x35b7e1bd0fd328 0x267cfaf3119998e 0x47545e02c83807d, Near 0x1cfc476e5148c5 0xd6df86f43f4ca 0x99f3ebcc4666638 0x47545e02c83807d, 0x2a7db4c280e346c);
  (Near 0x1cfc476e5148c5 0x37d8384cd93259 0x4cf9f5e6233331c 0x944e53e8eb6b399, Near 0x1cfc476e5148c5 0x6b6fc37a1fa65 0x133e7d7988cccc70 0x47545e02c83807d, 0x54fb698501c68d8);
  (Near 0x2a6a3fdd953d8f 0x37d8384cd93259 0xe14849cf0e9e6b5 0x1289ca7d1d6d6732, Near 0x11d9a1d2f9a195 0x18909e0a9b9bfa 0x17b3c359b5504ced 0x209e4f1a0e574de7, 0xa9f6d30a038d1b1);
  (Near 0x220568fc95f31 0x3ee52d0cc10990 0x2423cc15797aa6 0x42cfe4801908b31, Near 0x11d9a1d2f9a195 0xfb94b43304264 0x4bd8d78577675c9 0x42cfe4801908b31, 0x21fe2a3533e9056);
  (Near 0x23b343a5f3432a 0x2192ed1629e3f9 0x4bd8d78577675c9 0x47545e02c83807d, Near 0x11d9a1d2f9a195 0x19b6477491c2c7 0x97b1af0aeeceb92 0xda81938b07d76c3, 0x43fc546a67d20ad);
  (Near 0x11d9a1d2f9a195 0x336c8ee923858e 0x4bd8d78577675c9 0xda81938b07d76c3, Near 0x11d9a1d2f9a195 0x15c7f4a3c5b22e 0x12f635e15dd9d724 0x172334295f6a6255, 0x87f8a8d4cfa415a);
  (Near 0x11d9a1d2f9a195 0x3d698b1a8505f1 0x97b1af0aeeceb92 0x209e4f1a0e574de7, Near 0x1cbd9c24dc7aac 0xae3fa51e2d917 0x3d0f9fec1b1e109d 0x172334295f6a6255, 0x10ff151a99f482b5);
  (Near 0x2db03fd754c38d 0x2b8fe9478b645c 0x4da76e868a47181 0x4a0a40846487a11, Near 0x17e84b338f115f 0xae3fa51e2d917 0xa2893911600d1e2 0x4a0a40846487a11, 0x366376bb8641a24);
  (Near 0x2db03fd754c38d 0x15c7f4a3c5b22e 0x9b4edd0d148e302 0x4a0a40846487a11, Near 0x1c4a1d149bce52 0xae3fa51e2d917 0x180a7fa9e8da4015 0x94148108c90f422, 0x6cc6ed770c83448);
  (Near 0x38943a29379ca4 0xae3fa51e2d917 0x180a7fa9e8da4015 0x4a0a40846487a11, Near 0x190908dc30c040 0xae3fa51e2d917 0x2a8d0fcb01fc2859 0x128290211921e844, 0xd98ddaee1906891);
  (Near 0x38943a29379ca4 0x3673e3996e3d73 0x4cee6552e920cd1 0x4a0a40846487a11, Near 0xe250e8a4de729 0x1a29c684d26f21 0x4cee6552e920cd1 0x8e4c376bbfdcea2, 0x2b82c562d1ce1b6);
  (Near 0x1c4a1d149bce52 0x3673e3996e3d73 0x4cee6552e920cd1 0x94148108c90f422, Near 0xe250e8a4de729 0x14276a87902b25 0x99dccaa5d2419a2 0xdb3a9cbea8fdb73, 0x57058ac5a39c36d);
  (Near 0xe250e8a4de729 0x3673e3996e3d73 0x4cee6552e920cd1 0x128290211921e844, Near 0x1f4b4b133cf050 0x11263c88ef0927 0x2a8d0fcb01fc2859 0x1751767647b3f515, 0xae0b158b47386da);
  (Near 0x1e6a73a4652d83 0x284ed50f20564a 0x2115df932dbadba 0x2bd885bfbb65f17, Near 0x1948ef15faac54 0x14276a87902b25 0x6e0444e616dba8b 0x57b10b7f76cbe2e, 0x22cf044f0e3e7c5);
  (Near 0x3291de2bf558a8 0x14276a87902b25 0x6e0444e616dba8b 0x2bd885bfbb65f17, Near 0xca4778afd562a 0x14276a87902b25 0x6e0444e616dba8b 0xaf6216feed97c5c, 0x459e089e1c7cf8a);
  (Near 0x2d70599d8ad779 0x14276a87902b25 0xc5b550658da78b9 0x57b10b7f76cbe2e, Near 0x6523bc57eab15 0x1a79a64d0ed63a 0x6e0444e616dba8b 0x1ccc872e3f20b343, 0x8b3c113c38f9f15);
  (Near 0x20cbe2128d814f 0x34f34c9a1dac74 0x11d665be504736e7 0x1ccc872e3f20b343, Near 0x138f0eec061632 0xd3cd326876b1d 0x2a8d0fcb01fc2859 0x1ccc872e3f20b343, 0x11678227871f3e2a);
  (Near 0x2d70599d8ad779 0x1baa5d84230020 0x4f15535bd24304a 0x302661d18daa609, Near 0x1f9b2adb795769 0x6ea976108c008 0xdc0889cc2db7516 0x302661d18daa609, 0x37b1a07e7d30c6e);
  (Near 0x2d70599d8ad779 0x3b45885f9c5789 0x9e2aa6b7a486094 0xce510889323069d, Near 0x1f9b2adb795769 0x3754bb0846004 0x1b81113985b6ea2c 0x302661d18daa609, 0x6f6340fcfa618dd);
  (Near 0x345af0fe939781 0x3b45885f9c5789 0x16c7baf40d6b6731 0x19ca211126460d3a, Near 0x1f9b2adb795769 0x1baa5d8423002 0x370222730b6dd458 0x302661d18daa609, 0xdec681f9f4c31bb);
  (Near 0x2d70599d8ad779 0x2294f4e52bc028 0x3f4442afdb68d08 0x302661d18daa609, Near 0x1c25df2af4f765 0x8a53d394af00a 0x9cc4471c524e80e 0x302661d18daa609, 0x2c8e19feca8d6bf);
  (Near 0x2d70599d8ad779 0x3ebad41020b78d 0x7e88855fb6d1a10 0xaeaee731447c019, Near 0x1c25df2af4f765 0x4529e9ca57805 0x139888e38a49d01c 0x302661d18daa609, 0x591c33fd951ad7e);
  (Near 0x361596d6d5c783 0x3ebad41020b78d 0x12d376c90fb4da29 0x15d5dce6288f8032, Near 0x1d341ab9bd9fc4 0x4529e9ca57805 0x28a953af38445a5b 0x604cc3a31b54c12, 0xb23867fb2a35afc);
  (Near 0x1380a1f1aa075b 0x3ebad41020b78d 0x15b92ddbc0eda01 0x45df8fad4e9800a, Near 0x148edd8072afba 0x159d190f3b5819 0x5b98bd890f85a0b 0x604cc3a31b54c12, 0x23a4e198a20abcc);
  (Near 0x291dbb00e55f74 0x3ebad41020b78d 0x5b98bd890f85a0b 0x8bbf1f5a9d30014, Near 0xa476ec03957dd 0x1fe487cf74aff6 0x5b98bd890f85a0b 0x11c3244cf462f22f, 0x4749c3314415798);
  (Near 0x148edd8072afba 0x3ebad41020b78d 0x5b98bd890f85a0b 0x1177e3eb53a60028, Near 0xa476ec03957dd 0x1a39b2a7f3afd8 0xb7317b121f0b416 0x1d363bfe1653a645, 0x8e938662882af30);
  (Near 0xa476ec03957dd 0x3ebad41020b78d 0x5b98bd890f85a0b 0x22efc7d6a74c0050, Near 0x17644814332fc9 0xd1cd953f9d7ec 0x341c6b605a350e71 0x1d363bfe1653a645, 0x11d270cc51055e60);
  (Near 0x336529c11eb751 0x1fe487cf74aff6 0x5b98bd890f85a0b 0x38d6da8fdad63a3, Near 0x11b972ecb22fab 0xff243e7ba57fb 0x7e5aa0824435073 0x71adb51fb5ac746, 0x3907cf5a9cddfac);
  (Near 0x336529c11eb751 0xff243e7ba57fb 0xb7317b121f0b416 0x38d6da8fdad63a3, Near 0x10d5db6a3643d3 0xff243e7ba57fb 0xf00855a1f9e17b9 0xe35b6a3f6b58e8c, 0x720f9eb539bbf59);
  (Near 0x21abb6d46c87a6 0x319dfabc26dfa1 0xf00855a1f9e17b9 0x161b60ac1af8deff, Near 0x10d5db6a3643d3 0x10640fa8f84de7 0x1e010ab43f3c2f72 0x1d363bfe1653a645, 0xe41f3d6a7377eb3);
  (Near 0x21abb6d46c87a6 0x2e0f9cb2373041 0x3001aab9fec6b25 0x41ac0a65b6e5c21, Near 0x10d5db6a3643d3 0x1f72bc0e36ba0a 0x60035573fd8d64a 0xb359bf856c92367, 0x2d9fd9154a4b2f0);
  (Near 0x10d5db6a3643d3 0x3ee5781c6d7414 0x3001aab9fec6b25 0xb359bf856c92367, Near 0x10d5db6a3643d3 0xfb95e071b5d05 0xc006aae7fb1ac94 0xb359bf856c92367, 0x5b3fb22a94965e1);
  (Near 0x10d5db6a3643d3 0x304897786cfddd 0x60035573fd8d64a 0x1135d14f96a1f9b1, Near 0x10d5db6a3643d3 0x10479cb8a8d06c 0x1800d55cff635928 0x173606a6d67acffb, 0xb67f6455292cbc2);
  (Near 0x23e4b19aa25542 0x304897786cfddd 0x28f0b7a881ed78d 0x37129dcb7b9febd, Near 0x11f258cd512aa1 0xf2b1f558de99e 0x51e16f5103daf1a 0x453483ee75525ed, 0x247fe0ddd508f26);
  (Near 0x11f258cd512aa1 0x304897786cfddd 0x28f0b7a881ed78d 0x6e253b96f73fd7a, Near 0x1987e878181f70 0x7958faac6f4cf 0xe8f762907d08421 0x453483ee75525ed, 0x48ffc1bbaa11e4d);
  (Near 0x330fd0f0303ee0 0x211d7822df143f 0xe8f762907d08421 0x9715f33f792d507, Near 0xcc3f43c0c0fb8 0x145983e6d30487 0xe8f762907d08421 0x173606a6d67acffb, 0x91ff83775423c9b);
  (Near 0x3aa5609af733af 0x211d7822df143f 0x21723490f6f62e2f 0x12e2be67ef25aa0e, Near 0x661fa1e0607dc 0x1abb7e04d90c63 0xe8f762907d08421 0x3cfb8376b4c62417, 0x123ff06eea847937);
  (Near 0x11f258cd512aa1 0x37de272333f2ac 0x20c092ed34bdfa4 0x65f516dbaa10591, Near 0x1fe9e2961e274c 0xdf789c8ccfcab 0xe8f762907d08421 0x65f516dbaa10591, 0x3a66349621a7ea4);
  (Near 0x2de16c5eeb23f7 0x1bef139199f956 0xa7763cb6138c4d9 0x65f516dbaa10591, Near 0xff4f14b0f13a6 0x1dec7b13dc1051 0xe8f762907d08421 0x1b4e19047d128f43, 0x74cc692c434fd49);
  (Near 0x2de16c5eeb23f7 0x3bd8f627b820a2 0x14eec796c27189b2 0x1b4e19047d128f43, Near 0x7fa78a58789d3 0x1dec7b13dc1051 0xe8f762907d08421 0x369c3208fa251e86, 0xe998d258869fa93);
  (Near 0x3facf04842df6 0x3de012e2f8936b 0x5cf70f83b61833 0x5a5634eb334d52b, Near 0x1fd67824216fb 0x1feebd329d5533 0xb9ee1f076c3066 0xba7bdacea1fc289, 0x2eb82a11b486550);
  (Near 0x1fd67824216fb 0x3fdd7a653aaa66 0x5cf70f83b61833 0xba7bdacea1fc289, Near 0x12f379dcb1cd12 0x10f6125a6fb617 0xdd5880a006453bb 0xc61abcbf18bf2ef, 0x5d705423690caa1);
  (Near 0x25e6f3b9639a24 0x23e98c37218329 0xdd5880a006453bb 0xd1b99eaf8f82355, Near 0x979bcee58e689 0x1a6fcf48c89ca0 0xdd5880a006453bb 0x2698dfa1e37c3999, 0xbae0a846d219542);
  (Near 0x29e1c2bde7c81a 0x1feebd329d5533 0x30eada8030c241b 0x254bf88fb9ff3b5, Near 0x14f0e15ef3e40d 0x1a6fcf48c89ca0 0x61d5b5006184836 0x7b82cb9fa4c0b85, 0x256021a7c39eaa6);
  (Near 0x14f0e15ef3e40d 0x34df9e91913940 0x30eada8030c241b 0x7b82cb9fa4c0b85, Near 0x14f0e15ef3e40d 0xd37e7a4644e50 0xc3ab6a00c30906c 0x7b82cb9fa4c0b85, 0x4ac0434f873d54d);
  (Near 0x2f60b0a7bc80ad 0x1a6fcf48c89ca0 0xdd5880a006453bb 0x7b82cb9fa4c0b85, Near 0x1b8cd531260b35 0x69bf3d2322728 0x202d99fa12ad2c5d 0x7b82cb9fa4c0b85, 0x9580869f0e7aa9b);
  (Near 0x2f60b0a7bc80ad 0x3c98984c20cefd 0x1bab101400c8a776 0x23633ccdfb14b2fb, Near 0x1edacf1a3f1ec9 0x34df9e9191394 0x481360ae1fa6643f 0x7b82cb9fa4c0b85, 0x12b010d3e1cf5537);
  (Near 0x33d4c849323b01 0xd37e7a4644e50 0x60dc60b43f3ba68 0x18b3c25320f3581, Near 0x1cb2f2e982b1f5 0x34df9e9191394 0xd687328b1647319 0x18b3c25320f3581, 0x3bcd02a605caaa4);
  (Near 0x3a70bc1b646229 0x69bf3d2322728 0xda6c83bb9f6aa51 0x18b3c25320f3581, Near 0x1e59efde0f3bbf 0x1a6fcf48c89ca 0x1c5c227694d81bb3 0x18b3c25320f3581, 0x779a054c0b95549);
  (Near 0x3dbeb6047d75bd 0x34df9e9191394 0x1cd8cc9ca5fc8a23 0x18b3c25320f3581, Near 0x1f2d6e585580a4 0xd37e7a4644e5 0x3a4381125bbf6ce7 0x18b3c25320f3581, 0xef340a98172aa92);
  (Near 0x3a70bc1b646229 0x1085e18d7d61e4 0x575e9b17d95ddba 0x18b3c25320f3581, Near 0x1d867163c8f6da 0x42178635f5879 0xb0901c197ed0061 0x18b3c25320f3581, 0x2fd735519e3bbb6);
  (Near 0x3a70bc1b646229 0x842f0c6beb0f2 0xaebd362fb2bbb74 0x18b3c25320f3581, Near 0x1f491a3f61dd51 0x42178635f5879 0x1762e2eb2866ac69 0x316784a641e6b02, 0x5fae6aa33c7776d);
  (Near 0x3e92347ec3baa2 0x42178635f5879 0x1762e2eb2866ac69 0x18b3c25320f3581, Near 0x1e19b27b7ea450 0x42178635f5879 0x2d002cf3e53b9977 0x62cf094c83cd604, 0xbf5cd54678eeedb);
  (Near 0x2e0c52f14658be 0x14a759f0dcba5d 0x3713077acd52ae1 0x18b3c25320f3581, Near 0x15d6c1b4bff35e 0x14a759f0dcba5d 0x687a8c210f395e3 0x62cf094c83cd604, 0x2645c4414b62fc5);
  (Near 0x2bad83697fe6bc 0x14a759f0dcba5d 0x687a8c210f395e3 0x316784a641e6b02, Near 0x1f92bacb3cb40c 0x14a759f0dcba5d 0x12e189eba16d41eb 0xc59e1299079ac08, 0x4c8b888296c5f8b);
  (Near 0x3f257596796818 0x14a759f0dcba5d 0x12e189eba16d41eb 0x62cf094c83cd604, Near 0xfc95d659e5a06 0x14a759f0dcba5d 0x12e189eba16d41eb 0x18b3c25320f35810, 0x991711052d8bf16);
  (Near 0x1f92bacb3cb40c 0x343a14bc196e69 0x12e189eba16d41eb 0x1f3b6b1531e6edf3, Near 0x7e4aeb2cf2d03 0x1c8c08a3abe760 0x12e189eba16d41eb 0x44490e91e353f20b, 0x1322e220a5b17e2c);
  (Run, Run, 0x3d3c6d35456b2d5);
  (Run, Run, 0x7a78da6a8ad65ab);
  (Run, Run, 0xf4f1b4d515acb56);
  (Run, Near 0x1b766ac9e286e0 0xc00feb4295a2f 0xa82b7dd3ac2bd91 0x4981cdf4661772b, 0x30fd242a9def577);
  (Run, Near 0xdbb3564f14370 0x19bc34191a9d9f 0xa82b7dd3ac2bd91 0x13b2f19bc785abe7, 0x61fa48553bdeaef);
  (Run, Near 0x6dd9ab278a1b8 0x19bc34191a9d9f 0xa82b7dd3ac2bd91 0x2765e3378f0b57ce, 0xc3f490aa77bd5de);
  (Near 0x1b766ac9e286e0 0x3c04f984cec2eb 0x21a24c5d88d591d 0x4981cdf4661772b, Near 0x6dd9ab278a1b8 0x19b0f408739a53 0x21a24c5d88d591d 0x7ddbb9fdec31f1b, 0x2730e9bbb18c45f);
  (Near 0xdbb3564f14370 0x3c04f984cec2eb 0x21a24c5d88d591d 0x93039be8cc2ee56, Near 0x36ecd593c50dc 0x1d1fc161afeb2f 0x21a24c5d88d591d 0x11d59c0596139753, 0x4e61d37763188bf);
  (Near 0x6dd9ab278a1b8 0x3c04f984cec2eb 0x21a24c5d88d591d 0x1260737d1985dcac, Near 0x1b766ac9e286e 0x1ed7280e4e139d 0x21a24c5d88d591d 0x25c55cd104b487c3, 0x9cc3a6eec63117f);
  (Near 0x36ecd593c50dc 0x3f73c6de0b13c7 0x21a24c5d88d591d 0x26db0bc00b991275, Near 0xdbb3564f1437 0x1fb2db649d27d4 0x21a24c5d88d591d 0x4da4de67e1f668a3, 0x139874ddd8c622fe);
  (Near 0x112a02be2d944c 0x31b8917919d057 0x21a24c5d88d591d 0x616e4ee884722cd, Near 0x44a80af8b6513 0x1c440e0b60d6f8 0x21a24c5d88d591d 0xdd8dbdce659cda3, 0x3eb4a92c4f46d66);
  (Near 0x895015f16ca26 0x3a4d92d8309a7d 0x21a24c5d88d591d 0xe47eea2e91b9eb7, Near 0x44a80af8b6513 0x1f4c09c3ddffc8 0x434498bb11ab23a 0x1eaa020baac4968b, 0x7d6952589e8dacc);
  (Near 0x44a80af8b6513 0x3e981387bbff90 0x21a24c5d88d591d 0x1eaa020baac4968b, Near 0x44a80af8b6513 0x1c8586f0912f1d 0x868931762356474 0x37e3bb51d164c3e7, 0xfad2a4b13d1b598);
  (Near 0x1574836db8f95f 0x31b8917919d057 0x21a24c5d88d591d 0x4df1d8ba038e8a4, Near 0x1574836db8f95f 0x1c8586f0912f1d 0x868931762356474 0xb2d8bdd29e0f3fb, 0x322a20f03f6bdeb);
  (Near 0x1574836db8f95f 0x390b0de1225e3a 0x434498bb11ab23a 0xb2d8bdd29e0f3fb, Near 0x18fd052f25143e 0x1c8586f0912f1d 0x13961ef48c16586f 0x165b17ba53c1e7f6, 0x645441e07ed7bd6);
  (Near 0x31fa0a5e4a287c 0x1c8586f0912f1d 0x13961ef48c16586f 0xb2d8bdd29e0f3fb, Near 0xc7e8297928a1f 0x1c8586f0912f1d 0x13961ef48c16586f 0x2cb62f74a783cfec, 0xc8a883c0fdaf7ac);
  (Near 0x323b83437a80a1 0x1c8586f0912f1d 0x3eff4beeb0e9c76 0x23c4f2c3b9363ff, Near 0x56d7f14ba5461 0x1c8586f0912f1d 0x1b3a592af7b3877 0x8f13cb0ee4d8ffc, 0x2821b3f365efe55);
  (Near 0x2760851a05d7df 0x1c8586f0912f1d 0x62c43eb26a20075 0x4789e587726c7fe, Near 0x10f98302a5c1bf 0x1c8586f0912f1d 0xaa4e2439dc8c873 0x11e27961dc9b1ff8, 0x504367e6cbdfcab);
  (Near 0x3e788cf5dcb29b 0x1c8586f0912f1d 0x13961ef48c16586f 0x8f13cb0ee4d8ffc, Near 0x10f98302a5c1bf 0x16bf84f99b786e 0x1549c4873b9190e6 0x1c875ba57a63e86b, 0xa086cfcd97bf957);
  (Near 0x37a9025834d502 0x1c8586f0912f1d 0x37d7e82df245543 0x1c9d8f02fa91ccc, Near 0x1c2d040e55cccf 0x1c8586f0912f1d 0x71130633e768edb 0x72763c0bea47330, 0x201af65c518cb77);
  (Near 0x385a081cab999e 0x1c8586f0912f1d 0x71130633e768edb 0x393b1e05f523998, Near 0x1c59457f737df6 0x1c8586f0912f1d 0xe389423fd1b020b 0xe4ec7817d48e660, 0x4035ecb8a3196ef);
  (Near 0x38b28afee6fbec 0x1c8586f0912f1d 0xe389423fd1b020b 0x72763c0bea47330, Near 0xe2ca2bfb9befb 0x1c8586f0912f1d 0xe389423fd1b020b 0x1c9d8f02fa91ccc0, 0x806bd9714632ddf);
  (Near 0x1c59457f737df6 0x38decc7004ad13 0xe389423fd1b020b 0x1c875ba57a63e86b, Near 0xe2ca2bfb9befb 0x155914d825770c 0x1c712847fa360416 0x2ad62326f7accecb, 0x100d7b2e28c65bbe);
  (Near 0x3886498dc94ac5 0x1cb1c861aee044 0x5abca954b9b398d 0x2e0fef965e48ef1, Near 0x1bd4812c1a6a81 0x72c72186bb811 0xb2b2e6f96daaa70 0x2e0fef965e48ef1, 0x335e56fa1c1458c);
  (Near 0x3886498dc94ac5 0xe58e430d77022 0xb57952a9736731a 0x2e0fef965e48ef1, Near 0x1fd95dd31a816b 0x72c72186bb811 0x1990294e94517525 0x5c1fdf2cbc91de2, 0x66bcadf43828b19);
  (Near 0x3fb2bba63502d6 0x72c72186bb811 0x1990294e94517525 0x2e0fef965e48ef1, Near 0x1382e7f5c31cbe 0x1aaf5a0e2ed4cf 0x1f522741601a9307 0x2ad62326f7accecb, 0xcd795be87051632);
  (Near 0x3886498dc94ac5 0x23de3a7a1a9855 0x4896eddd615c7a4 0x2e0fef965e48ef1, Near 0x52a03c4ebac9c 0x1eb436b52eebb9 0x1a86fe4703138b3 0x9db8c0127610311, 0x29184594e3437a3);
  (Near 0x3886498dc94ac5 0x2e324203f1f18d 0x912ddbbac2b8f48 0x76a6dd73bfa5695, Near 0x29501e275d64e 0x1eb436b52eebb9 0x1a86fe4703138b3 0x13b718024ec20622, 0x52308b29c686f47);
  (Near 0x335c45c8dd9e29 0x2e324203f1f18d 0x107d4b92e825e5dd 0xed4dbae77f4ad2a, Near 0x14a80f13aeb27 0x1ffeb7a669d6e0 0x1a86fe4703138b3 0x29169fe90db544f7, 0xa46116538d0de8e);
  (Near 0x3886498dc94ac5 0x1eb436b52eebb9 0x3a1257e44de3950 0x1f8b599d4ad009d, Near 0x67484b62697c3 0x1eb436b52eebb9 0x1a86fe4703138b3 0x7e2d66752b40274, 0x20e037aa4f692e9);
  (Near 0x3886498dc94ac5 0x2b9d40217c1b3f 0x7424afc89bc72a0 0x599db18198b39ed, Near 0x1908e26bd15981 0x12945db5aac1be 0xcdc2614a347ac8d 0x98b464bc2e53b27, 0x41c06f549ed25d2);
  (Near 0x3211c4d7a2b302 0x2b9d40217c1b3f 0xcdc2614a347ac8d 0xb33b630331673da, Near 0x1908e26bd15981 0x94a2edad560df 0x19b84c29468f591a 0x98b464bc2e53b27, 0x8380dea93da4ba5);
  (Near 0x1908e26bd15981 0x2b9d40217c1b3f 0xcdc2614a347ac8d 0x16676c60662ce7b4, Near 0x1908e26bd15981 0x112988a3535d30 0x337098528d1eb234 0x2343927509749441, 0x10701bd527b4974a);
  (Near 0x1f7d6721f7f144 0x3e319dd726dcfd 0x33c345f80bb9f97 0x663bd55a1d06d5f, Near 0x7df59c87dfc51 0x1eb436b52eebb9 0x33c345f80bb9f97 0xc9e23d884533720, 0x3499f2aa18a84a8);
  (Near 0xfbeb390fbf8a2 0x3e319dd726dcfd 0x33c345f80bb9f97 0xcc77aab43a0dabe, Near 0x7df59c87dfc51 0x1b292207547056 0x67868bf01773f2e 0x1652c0f7068615e5, 0x6933e5543150950);
  (Near 0x7df59c87dfc51 0x3e319dd726dcfd 0x33c345f80bb9f97 0x198ef5568741b57c, Near 0x1d534494a630cd 0x1573eacc28347c 0x303463f30c63129d 0x2343927509749441, 0xd267caa862a12a1);
  (Near 0x7df59c87dfc51 0x3b0cdc2402c6d1 0xa5a41319bf1feb 0x4da72f34f5db81c, Near 0x7df59c87dfc51 0x1c8a1427dd2b42 0x296904c66fc7fac 0x961ef7903979789, 0x2a14c221ad536ed);
  (Near 0x7df59c87dfc51 0x3914284fba5684 0x14b4826337e3fd6 0x961ef7903979789, Near 0x7df59c87dfc51 0x1e03bda4ea8e43 0x52d2098cdf8ff58 0x13bc30aa9f899639, 0x542984435aa6dda);
  (Near 0x7df59c87dfc51 0x3c077b49d51c86 0x296904c66fc7fac 0x13bc30aa9f899639, Near 0x7df59c87dfc51 0x1ad0e57f32419b 0xa5a41319bf1feb0 0x2343927509749441, 0xa8530886b54dbb4);
  (Near 0x7df59c87dfc51 0x3ff8e2f265fd20 0x8483427aff4cbc 0x434cee0359e9831, Near 0x7df59c87dfc51 0x1fbcec4d9577ea 0x2120d09ebfd32f0 0x858e8f40d98fe11, 0x21aa34e7bddc58a);
  (Near 0x7df59c87dfc51 0x3f79d89b2aefd4 0x1090684f5fe9978 0x858e8f40d98fe11, Near 0x7df59c87dfc51 0x1f9d29b7c6b497 0x4241a13d7fa65e0 0x10a11d1bbd8dc9d1, 0x435469cf7bb8b15);
  (Near 0x7df59c87dfc51 0x3f3a536f8d692e 0x2120d09ebfd32f0 0x10a11d1bbd8dc9d1, Near 0x7df59c87dfc51 0x1b9d9b88a054c5 0x8483427aff4cbc0 0x1d0d6b57457cfb71, 0x86a8d39ef77162a);
  (Near 0x7df59c87dfc51 0x3f1a90d9bea5db 0x4241a13d7fa65e0 0x2131856b1d776151, Near 0x199dd4710d24dc 0x11be7aa88f288b 0x35e607ce555b5eb1 0x25559f7ef571c731, 0x10d51a73deee2c54);
  (Near 0x7df59c87dfc51 0x3f999b30f9b327 0xd405372b321460 0x6b0de85b734d551, Near 0x7df59c87dfc51 0x19bd9706dbe82f 0x35014dcacc85180 0xad4f8998f2f3b31, 0x35dd2172c9608dd);
  (Near 0x7df59c87dfc51 0x3b5a87d635ccaf 0x1a80a6e566428c0 0xc7d0307e59363f1, Near 0x7df59c87dfc51 0x18add2302aee91 0x6a029b95990a300 0x14c5372f95882fb1, 0x6bba42e592c11bb);
  (Near 0x7df59c87dfc51 0x393afe28d3d973 0x35014dcacc85180 0x18154c0c42508131, Near 0x7df59c87dfc51 0x1825efc4d271c2 0xd405372b3214600 0x28a5b45ba23a18b1, 0xd77485cb2582376);
  (Near 0x275cc0ea75ed95 0x219cf0cf59e480 0x35014dcacc85180 0x2d435e47264b5bd, Near 0x1ef584b69f7475 0x8673c33d67920 0xa6c1d8e40bc9043 0x2d435e47264b5bd, 0x2b174df56de6d7e);
  (Near 0x382b395222dfd5 0x10ce7867acf240 0x9745f9dcbf558bd 0x2d435e47264b5bd, Near 0x1ef584b69f7475 0x4339e19eb3c90 0x14d83b1c81792086 0x2d435e47264b5bd, 0x562e9beadbcdafc);
  (Near 0x382b395222dfd5 0x8673c33d67920 0x12e8bf3b97eab17a 0x2d435e47264b5bd, Near 0x1ef584b69f7475 0x219cf0cf59e48 0x29b0763902f2410c 0x2d435e47264b5bd, 0xac5d37d5b79b5f8);
  (Near 0x2fc3fd1e4c66b5 0x2a042d03305da0 0x3374eab07813259 0x2d435e47264b5bd, Near 0x1ac1e69cb437e5 0xa810b40cc1768 0x734cee3393b5dea 0x2d435e47264b5bd, 0x22790b2abe52464);
  (Near 0x2fc3fd1e4c66b5 0x15021681982ed0 0x66e9d560f0264b2 0x2d435e47264b5bd, Near 0x1ac1e69cb437e5 0x54085a0660bb4 0xe699dc67276bbd4 0x2d435e47264b5bd, 0x44f216557ca48c9);
  (Near 0x3a45085f187e1d 0xa810b40cc1768 0xfb1709090697f21 0x2d435e47264b5bd, Near 0x1d62296ce73dbf 0x2a042d03305da 0x1fa7717157522d65 0x2d435e47264b5bd, 0x89e42caaf949193);
  (Near 0x3a45085f187e1d 0x3f858dff7e89d1 0x1f62e12120d2fe42 0x223717059337b3ff, Near 0x1eb24ad500c0ac 0x15021681982ed 0x422318c721091087 0x2d435e47264b5bd, 0x113c85955f292327);
  (Near 0x350482beb27269 0x1a429c21fe3a84 0x5b6223f56160e81 0x2d435e47264b5bd, Near 0x1ac1e69cb437e5 0x690a7087f8ea1 0xb87b16b8ec56310 0x2d435e47264b5bd, 0x372811ddfd50707);
  (Near 0x350482beb27269 0xd214e10ff1d42 0xb6c447eac2c1d02 0x2d435e47264b5bd, Near 0x1739eddb1971e4 0x1dca94e3990085 0x14045318e5f38447 0x19acbee1cabcefc1, 0x6e5023bbfaa0e0f);
  (Near 0x350482beb27269 0x3b9529c732010a 0x16d888fd58583a04 0x19acbee1cabcefc1, Near 0xb9cf6ed8cb8f2 0x1dca94e3990085 0x14045318e5f38447 0x33597dc39579df82, 0xdca04777f541c1f);
  (Near 0x350482beb27269 0x20d3432a7dc925 0x491b4ff7811a534 0x2d435e47264b5bd, Near 0x50c4fe50d2a51 0x1bc6f345709ed4 0x1bd7f1b05acef77 0x9935876c3e5e77d, 0x2c200e4b310d26c);
  (Near 0x350482beb27269 0x2aebe2f4981dc7 0x92369fef0234a68 0x765eae3ea765af1, Near 0x1d086951dfce5d 0x17fc196cd2a40c 0x14045318e5f38447 0x108954e2da99a559, 0x58401c96621a4d9);
  (Near 0x350482beb27269 0x2ff832d9a54818 0x1246d3fde04694d0 0x108954e2da99a559, Near 0x1d086951dfce5d 0xbfe0cb6695206 0x2808a631cbe7088e 0x108954e2da99a559, 0xb080392cc4349b2);
  (Near 0x3f1d2288ccc70b 0x25df930f8af376 0x459f6d72f201726 0x29c77bc297327af, Near 0x1616ac8083a6a8 0x12efc987c579bb 0x61775f234cd069d 0x538ef7852e64f5e, 0x234cd83c273db8a);
  (Near 0x3f1d2288ccc70b 0x12efc987c579bb 0x8b3edae5e402e4c 0x29c77bc297327af, Near 0xb0b564041d354 0x1dfb1fc8074d0f 0x61775f234cd069d 0x108954e2da99a559, 0x4699b0784e7b714);
  (Near 0x29067608492063 0x3bf63f900e9a1e 0xb50656a87b355fb 0x108954e2da99a559, Near 0x585ab2020e9aa 0x1dfb1fc8074d0f 0x61775f234cd069d 0x2112a9c5b5334ab2, 0x8d3360f09cf6e28);
  (Near 0x29067608492063 0x1dfb1fc8074d0f 0x16a0cad50f66abf6 0x108954e2da99a559, Near 0x2c2d5901074d5 0x1dfb1fc8074d0f 0x61775f234cd069d 0x4225538b6a669564, 0x11a66c1e139edc51);
  (Near 0x3738af414920a4 0x12efc987c579bb 0x61775f234cd069d 0x216c6302128ec8c, Near 0xdce2bd0524829 0x12efc987c579bb 0x61775f234cd069d 0x85b18c084a3b230, 0x387af39371fc5a9);
  (Near 0x2e8c21286a0a0d 0x12efc987c579bb 0xa450252771edfb5 0x42d8c604251d918, Near 0x105efaac0be0f2 0x12efc987c579bb 0xe728eb2b970b8cd 0x10b6318109476460, 0x70f5e726e3f8b53);
  (Near 0x20bdf55817c1e4 0x33adbedfdd3b9f 0xe728eb2b970b8cd 0x16cda7733e146afd, Near 0x82f7d5605f079 0x1b1f46ddcb6a34 0xe728eb2b970b8cd 0x2fdef1b4cbff818d, 0xe1ebce4dc7f16a7);
  (Near 0x3c5a4cf8bc5236 0x33adbedfdd3b9f 0x5537eeb0702279b 0x48f87e3d9374899, Near 0x1e2d267c5e291b 0xac04c31bf8942 0xaa6fdd60e044f36 0x3cb90dcab6c6997, 0x2d2f2942c196aee);
  (Near 0x1e2d267c5e291b 0x33adbedfdd3b9f 0x5537eeb0702279b 0x91f0fc7b26e9132, Near 0x1e2d267c5e291b 0x5602618dfc4a1 0x154dfbac1c089e6c 0x3cb90dcab6c6997, 0x5a5e5285832d5dc);
  (Near 0x28ed72ae1db25d 0x33adbedfdd3b9f 0xe728eb2b970b8cd 0x123e1f8f64dd2264, Near 0x11c6a64a9ef6de 0x1726cc637ebb7f 0x19198c88c7750803 0x20b0ae421e4ddb31, 0xb4bca50b065abb9);
  (Near 0x361f12ae1afa35 0xac04c31bf8942 0x3d22c48d9745df3 0xc2502c2248e1eb, Near 0x1dbf9c637d5f6b 0x5602618dfc4a1 0x866a8bdd5319dd1 0x184a0584491c3d6, 0x2425ba9bce12258);
  (Near 0x3b7f38c6fabed6 0x5602618dfc4a1 0x866a8bdd5319dd1 0xc2502c2248e1eb, Near 0x1c502d6fee1b48 0x5602618dfc4a1 0xffdca772c0a70ff 0x30940b0892387ac, 0x484b75379c244b0);
  (Near 0x3e0080f8bbfb31 0x5602618dfc4a1 0x11826acf709c34d5 0x184a0584491c3d6, Near 0x18e862e9b696e6 0x1e488902965b87 0x1c22cd3950988faf 0x22354e9a62df9f07, 0x9096ea6f3848960);
  (Near 0x31d0c5d36d2dcc 0x3730ebec4cf26d 0x1c22cd3950988faf 0x1f2c0de9d9bc175b, Near 0xc743174db4b73 0x1e488902965b87 0x1c22cd3950988faf 0x446a9d34c5bf3e0e, 0x1212dd4de70912c1);
  (Near 0x1c502d6fee1b48 0x3730ebec4cf26d 0x332c217d59bb033 0x63c02c85ebf37df, Near 0x7140b5bfb86d2 0x1ae0be7c5ed725 0x332c217d59bb033 0xc2502c2248e1eb0, 0x39d5f75fb01d08d);
  (Near 0xe2816b7f70da4 0x3730ebec4cf26d 0x332c217d59bb033 0xc780590bd7e6fbe, Near 0x38a05adfdc369 0x1e6ac42a5c9a8e 0x332c217d59bb033 0x1b7cc79c1eb7ed93, 0x73abeebf603a11a);
  (Near 0x3e44f74848793f 0x3730ebec4cf26d 0x1c22cd3950988faf 0x18f00b217afcdf7c, Near 0x38a05adfdc369 0x1d5d78cd255aeb 0x665842fab376066 0x3512d85acb956f2b, 0xe757dd7ec074234);
  (Near 0x7140b5bfb86d2 0x3f9b46d606ef85 0xa3c06b2ab8bcd7 0x5bf7e927956be4a, Near 0x38a05adfdc369 0x1e08a09404960e 0x14780d6557179ae 0xadb3cb9c7f4bfbd, 0x2e44c5e6267da0a);
  (Near 0x38a05adfdc369 0x3f9b46d606ef85 0xa3c06b2ab8bcd7 0xb7efd24f2ad7c94, Near 0x38a05adfdc369 0x1d2c6701f958ab 0x28f01acaae2f35c 0x1517436c73808d2d, 0x5c898bcc4cfb414);
  (Near 0x38a05adfdc369 0x3de2d3b1f074bf 0x14780d6557179ae 0x165ec442c8f206db, Near 0x38a05adfdc369 0x1e834d0ff29bae 0x51e035955c5e6b8 0x2c1e527e757b1b69, 0xb913179899f6829);
  (Near 0x11b21c65f4d10d 0x3de2d3b1f074bf 0x14780d6557179ae 0x4795a73c1ca015f, Near 0x11b21c65f4d10d 0x13e53c05f95173 0x51e035955c5e6b8 0x5c0db4a173b7b0d, 0x2503d184eb97b3b);
  (Near 0x11b21c65f4d10d 0x397c9471e773f3 0x28f01acaae2f35c 0x84fdcf6c21e6e69, Near 0x12cbac35f71140 0x13e53c05f95173 0xadedea36d0161c5 0xb81b6942e76f61a, 0x4a07a309d72f677);
  (Near 0x2597586bee2280 0x397c9471e773f3 0xadedea36d0161c5 0x109fb9ed843cdcd2, Near 0x965d61afb88a0 0x1d4b1220f4da13 0xadedea36d0161c5 0x21e24bcbc9ef4df9, 0x940f4613ae5ecee);
  (Near 0x12cbac35f71140 0x397c9471e773f3 0xadedea36d0161c5 0x213f73db0879b9a4, Near 0x4b2eb0d7dc450 0x1d4b1220f4da13 0xadedea36d0161c5 0x43c4979793de9bf2, 0x1281e8c275cbd9dc);
  (Near 0x3f2ea24d9450ac 0x1198fd0024033 0x74ef22bfe6eefe9 0x2091968d178411, Near 0x177e974374d590 0x189827137715c3 0xadedea36d0161c5 0xb6124fda15f7209, 0x3b394f3b128c52c);
  (Near 0x2efd2e86e9ab20 0x3016be56ebeb53 0xadedea36d0161c5 0xb2001d0873069e7, Near 0xbbf4ba1ba6ac8 0x189827137715c3 0xadedea36d0161c5 0x16c249fb42bee412, 0x76729e762518a58);
  (Near 0x177e974374d590 0x3016be56ebeb53 0xadedea36d0161c5 0x164003a10e60d3ce, Near 0x5dfa5d0dd3564 0x1e77cce4544b27 0xadedea36d0161c5 0x38637299f27f29e9, 0xece53cec4a314b0);
  (Near 0x3f946d80d9e20d 0x1198fd0024033 0x5e22d2f6bcdf591 0x1a0e120a793674, Near 0x1d5e3d14520af4 0x1e77cce4544b27 0xadedea36d0161c5 0xb4716eb96e63b95, 0x2f610c2f4209dbc);
  (Near 0x3abc7a28a415e8 0x3bd609f8a6561b 0xadedea36d0161c5 0xb12fac781f3cead, Near 0xeaf1e8a29057a 0x1e77cce4544b27 0xadedea36d0161c5 0x168e2dd72dcc772a, 0x5ec2185e8413b79);
  (Near 0x1d5e3d14520af4 0x3bd609f8a6561b 0xadedea36d0161c5 0x1625f58f03e79d5a, Near 0x7578f451482bd 0x1e77cce4544b27 0xadedea36d0161c5 0x2d1c5bae5b98ee54, 0xbd8430bd08276f3);
  (Near 0x1c44ad444fcac1 0x3e092998aad681 0x217badf0d6c1b31 0x497ae0644bd1032, Near 0x1c44ad444fcac1 0x8711f1516c2f0 0x85eeb7c35b06cc4 0x27ff3273750f501, 0x25e73cf29b3b163);
  (Near 0x1c44ad444fcac1 0x2d26eb6e7d50a1 0x42f75be1ad83662 0x6af68e552292b63, Near 0x1c44ad444fcac1 0x4388f8a8b6178 0x10bdd6f86b60d988 0x27ff3273750f501, 0x4bce79e536762c7);
  (Near 0x24b5cc59668db1 0x2d26eb6e7d50a1 0xadedea36d0161c5 0xd5ed1caa45256c6, Near 0x1e60f509957b7d 0x21c47c545b0bc 0x23fba1180e12a811 0x27ff3273750f501, 0x979cf3ca6cec58f);
  (Near 0x24b5cc59668db1 0x28ee5be3f1ef29 0x15bdbd46da02c38a 0x183db06e1153b88b, Near 0x1f6f18ec3853db 0x10e23e2a2d85e 0x4a77355753764523 0x27ff3273750f501, 0x12f39e794d9d8b1f);
  (Near 0x207d3ccedb2c39 0x35980a83941391 0x3d9286cba238fb5 0x6591b93f17484b6, Near 0x1b368961acf263 0x546b36d2e39d6 0xce4ae8bb13d49d3 0x27ff3273750f501, 0x3ca52e50f85e89f);
  (Near 0x207d3ccedb2c39 0x2b0aa3a9379fe5 0x7b250d974471f6a 0xa324400ab98146b, Near 0x1dd9e318440f4e 0x2a359b6971ceb 0x1c49503e99cb88a7 0x27ff3273750f501, 0x794a5ca1f0bd13f);
  (Near 0x207d3ccedb2c39 0x25c3f03c09660f 0xf64a1b2e88e3ed4 0x11e494da1fdf33d5, Near 0x11904b42b92492 0x1433a4f950417d 0x2149368d086d72a9 0x26491cdb770f5cab, 0xf294b943e17a27f);
  (Near 0x1b368961acf263 0x35980a83941391 0x29422e8bd0c41f7 0x514160ff45d36f8, Near 0x1b368961acf263 0x1433a4f950417d 0xa508ba2f43107dc 0x7a838f8b16978ef, 0x3084250d937ed4c);
  (Near 0x1b368961acf263 0x286749f2a082fa 0x52845d17a1883ee 0x7a838f8b16978ef, Near 0x17b5172d7e99f0 0x1433a4f950417d 0x11f8c49ba59a80cb 0xf5071f162d2f1de, 0x61084a1b26fda99);
  (Near 0x2f6a2e5afd33e0 0x1433a4f950417d 0x11f8c49ba59a80cb 0x7a838f8b16978ef, Near 0xbda8b96bf4cf8 0x1433a4f950417d 0x11f8c49ba59a80cb 0x1ea0e3e2c5a5e3bc, 0xc21094364dfb532);
  (Near 0x37421b031fb5fb 0x1433a4f950417d 0x4305e0f330fda50 0x1880b64f0484b63, Near 0x12dd6fff1bfdde 0x1433a4f950417d 0x5b86974235825b3 0x6202d93c1212d8c, 0x26d01da475ff10a);
  (Near 0x39ee84f7883d39 0x1433a4f950417d 0x8c8803e03e8bc79 0x31016c9e09096c6, Near 0x1da25cf8de406c 0x1433a4f950417d 0x11f8c49ba59a80cb 0xc405b2782425b18, 0x4da03b48ebfe214);
  (Near 0x3b44b9f1bc80d8 0x1433a4f950417d 0x11f8c49ba59a80cb 0x6202d93c1212d8c, Near 0xed12e7c6f2036 0x1433a4f950417d 0x11f8c49ba59a80cb 0x1880b64f0484b630, 0x9b407691d7fc428);
  (Near 0x31d601f22e81e9 0x1433a4f950417d 0x1e391fc327dcdbe3 0xc405b2782425b18, Near 0x768973e37901b 0x1b9c3c3787d198 0x11f8c49ba59a80cb 0x42fa3139aea3ed2b, 0x13680ed23aff8851);
  (Near 0x271114f86c3f5b 0x1ef891f312840b 0x4bd09365b63bae6 0x3c1a8f8936f5019, Near 0x20620c1566ed4 0x1ef891f312840b 0xfb603dc7f46acd 0xf06a3e24dbd4064, 0x3e19c9072331b43);
  (Near 0x2304d375bf61b3 0x1ef891f312840b 0x87eb22eeed30aff 0x78351f126dea032, Near 0x1031060ab376a 0x1ffba253bdbb75 0xfb603dc7f46acd 0x1f08a802636eeb95, 0x7c33920e4663686);
  (Near 0x2304d375bf61b3 0x20feb2b468f2df 0x10fd645ddda615fe 0x1002042015b1ab31, Near 0x818830559bb5 0x1ffba253bdbb75 0xfb603dc7f46acd 0x3e115004c6ddd72a, 0xf867241c8cc6d0d);
  (Near 0x291735b9c2ae2f 0x1ef891f312840b 0x3fcb437d780aae1 0x30153fa0f8c4014, Near 0x287a8f1ac0a89 0x1ef891f312840b 0xfb603dc7f46acd 0xc054fe83e310050, 0x31ae3a6c1c27c35);
  (Near 0x2407e3d66a991d 0x1ef891f312840b 0x6fe0831e70ceaf5 0x602a7f41f188028, Near 0x1347c6640b51d3 0x10c01d725f474a 0xef770a1960e40b7 0xd00b02606256b1d, 0x635c74d8384f86b);
  (Near 0x2407e3d66a991d 0x21803ae4be8e94 0xdfc1063ce19d5ea 0xd00b02606256b1d, Near 0x1ba7d51d3af578 0x8600eb92fa3a5 0x2aef91693241ec8b 0xd00b02606256b1d, 0xc6b8e9b0709f0d7);
  (Near 0x268f8cc816a3a6 0x19e9400fba6ef9 0x2fe49b9eacfa68b 0x202e97c22db3bbe, Near 0x1347c6640b51d3 0x16988339e2e066 0x5fc9373d59f4d16 0x7041cb230861e07, 0x27be952349b9691);
  (Near 0x1347c6640b51d3 0x2d310673c5c0cc 0x2fe49b9eacfa68b 0x7041cb230861e07, Near 0x1e940800fcc206 0xb4c419cf17033 0x12fd4399dbc4b833 0x7041cb230861e07, 0x4f7d2a469372d23);
  (Near 0x3d281001f9840c 0x29e0499dee3239 0x12fd4399dbc4b833 0xd00b02606256b1d, Near 0xf4a04007e6103 0x1a96459d6fd136 0x12fd4399dbc4b833 0x21057cfe3cd0f441, 0x9efa548d26e5a46);
  (Near 0x1e940800fcc206 0x29e0499dee3239 0x12fd4399dbc4b833 0x1a01604c0c4ad63a, Near 0xf4a04007e6103 0x1c9526cf36499e 0x25fa8733b7897066 0x47000431f45a64a7, 0x13df4a91a4dcb48c);
  (Near 0x1347c6640b51d3 0x387d4810b730ff 0x26507c7ef0c853c 0x7041cb230861e07, Near 0x1347c6640b51d3 0x1c9526cf36499e 0x9941f1fbc3214f0 0xe333409fdabadbb, 0x3f97550542c241c);
  (Near 0x1347c6640b51d3 0x392a4d9e6c933c 0x4ca0f8fde190a78 0xe333409fdabadbb, Near 0x1347c6640b51d3 0xe4a93679b24cf 0x13283e3f786429e0 0xe333409fdabadbb, 0x7f2eaa0a8584838);
  (Near 0x2fdced33419b71 0x1c9526cf36499e 0x17c75329b9ddc2ab 0xe333409fdabadbb, Near 0x1f13c04d6e6020 0xe4a93679b24cf 0x3dc1da5d71673311 0x1c666813fb575b76, 0xfe5d54150b09070);
  (Near 0x273c9255cc05e3 0x1c9526cf36499e 0x3e60a4ef053cf72 0x2d70a6865ef22bf, Near 0x1ac392deb39559 0xe4a93679b24cf 0xaa31f064696c1a3 0x5ae14d0cbde457e, 0x32df7737689b67c);
  (Near 0x358725bd672ab2 0xe4a93679b24cf 0xaa31f064696c1a3 0x2d70a6865ef22bf, Near 0x14871323275d14 0xe4a93679b24cf 0x105133d712750721 0xb5c29a197bc8afc, 0x65beee6ed136cf9);
  (Near 0x3758b9ade9def7 0xe4a93679b24cf 0x15ff48a7de534c9f 0x5ae14d0cbde457e, Near 0x188e1cf92ed359 0xe4a93679b24cf 0x2709871a41ee1d19 0x16b853432f7915f8, 0xcb7ddcdda26d9f3);
  (Near 0x3758b9ade9def7 0x101c27581dd914 0x46641bb2c770f53 0x147d3159f67362b, Near 0x1f2e7ea9bd1959 0x40709d6077645 0x9ea146af570f84a 0x147d3159f67362b, 0x28b2c5c5ed491fd);
  (Near 0x3f66cd59f8cb81 0x80e13ac0eec8a 0xa14568bf85554d1 0x147d3159f67362b, Near 0x1dafe1c1f8aa9e 0x40709d6077645 0x12e0da0251437377 0x28fa62b3ece6c56, 0x51658b8bda923fb);
  (Near 0x3f66cd59f8cb81 0x40709d6077645 0x1428ad17f0aaa9a2 0x147d3159f67362b, Near 0xed7f0e0fc554f 0x12defab703cb94 0x12e0da0251437377 0x18002658cee04c23, 0xa2cb1717b5247f6);
  (Near 0x2f4aa601daf26d 0x1423312e254f59 0x301e026b09c5cfe 0x147d3159f67362b, Near 0x6c9dd34ed68c5 0x1aed0e6312b81e 0x1ba0d11113526d3 0x6d959678ed1ff7f, 0x208f049e576db31);
  (Near 0x2f4aa601daf26d 0x21b6eb980020e3 0x603c04d6138b9fc 0x449b33c50039329, Near 0x1440646676c4d4 0xd768731895c0f 0xa4d7389b13c4d25 0x6d959678ed1ff7f, 0x411e093caedb662);
  (Near 0x2880c8cced89a8 0x21b6eb980020e3 0xa4d7389b13c4d25 0x8936678a0072652, Near 0xa2032333b626a 0x1796b964c4be79 0xa4d7389b13c4d25 0x18002658cee04c23, 0x823c12795db6cc4);
  (Near 0x35f74ffe76e5b7 0x21b6eb980020e3 0x1b74407af14a99c9 0x1126ccf1400e4ca4, Near 0x51019199db135 0x1ca6d27e626fae 0xa4d7389b13c4d25 0x3a4dc03b4efce56b, 0x1047824f2bb6d989);
  (Near 0x1440646676c4d4 0x2f103f91380777 0x20f7d81f03f42a1 0x4c9dbe59e92bcde, Near 0x51019199db135 0x1fdff4445ef3d8 0x20f7d81f03f42a1 0xcf8f710a98d2b95, 0x34180763bf15eb5);
  (Near 0xa2032333b626a 0x393071c47369e1 0x20f7d81f03f42a1 0xba3354d2d64bc5d, Near 0x51019199db135 0x1f20456f088d8b 0x41efb03e07e8542 0x1955e81c4b08bb5b, 0x68300ec77e2bd6a);
  (Near 0x51019199db135 0x3e408ade111b16 0x20f7d81f03f42a1 0x1955e81c4b08bb5b, Near 0x51019199db135 0x1c3861778e81ca 0x83df607c0fd0a84 0x2df0cf2fad8155a5, 0xd0601d8efc57ad4);
  (Near 0x19507d80147609 0x393071c47369e1 0x20f7d81f03f42a1 0x4a7aeebabc1e4f2, Near 0x19507d80147609 0x7f7fd1117bcf6 0x83df607c0fd0a84 0x2983169bb82a251, 0x29acd2b63277ef7);
  (Near 0x19507d80147609 0x294077a243eff5 0x41efb03e07e8542 0x6b72c6d9c012793, Near 0x1d4c7c08a05484 0x3fbfe888bde7b 0x13141d793d7cb759 0x2983169bb82a251, 0x5359a56c64efdee);
  (Near 0x3a98f81140a908 0x21487a912c32ff 0x13141d793d7cb759 0xad627717c7facd5, Near 0xea63e04502a42 0x12a23c8cdc08bd 0x13141d793d7cb759 0x1844804cb481fbfb, 0xa6b34ad8c9dfbdd);
  (Near 0x2aa8fdef112f1c 0x294077a243eff5 0x2c725545ae4b08b 0x2afab5f0b33a96e, Near 0xaaa3f7bc44bc7 0x1e9638267fa42e 0x2c725545ae4b08b 0x7f78827d1e9f52d, 0x21570ef8285ff2c);
  (Near 0x15547ef788978e 0x3e94f699cc8783 0x2c725545ae4b08b 0x8267c12714c0367, Near 0xaaa3f7bc44bc7 0x19f55b8f041dde 0x58e4aa8b5c96116 0xd85d2d087b35643, 0x42ae1df050bfe58);
  (Near 0xaaa3f7bc44bc7 0x3e94f699cc8783 0x2c725545ae4b08b 0x104cf824e29806ce, Near 0x17a4ed43465ab6 0xcfaadc7820eef 0x18a26821f346186f 0xd85d2d087b35643, 0x855c3be0a17fcb1);
  (Near 0x249f9b0ac869a5 0x3e94f699cc8783 0x13141d793d7cb759 0x2099f049c5300d9c, Near 0x18cd2469253c4a 0xcfaadc7820eef 0x33ae0dc302acc4f5 0x1b0ba5a10f66ac86, 0x10ab877c142ff962);
  (Near 0xaaa3f7bc44bc7 0x37230d68b682e5 0x11c7554f128469e 0x5be9d7def9967f1, Near 0xaaa3f7bc44bc7 0x1b1d92b4e2ff72 0x471d553c4a11a78 0xb4ce826a562c907, 0x355817f373ccb7a);
  (Near 0xaaa3f7bc44bc7 0x363b2569c5fee4 0x238eaa9e2508d3c 0xb4ce826a562c907, Near 0x183908d635cb80 0xd8ec95a717fb9 0x143092ce2ea4fdf7 0xb4ce826a562c907, 0x6ab02fe6e7996f4);
  (Near 0x307211ac6b9700 0x25c7d230a74b39 0x143092ce2ea4fdf7 0xfbebd7a6a03e37f, Near 0xc1c846b1ae5c0 0x19ab4dc58c6579 0x143092ce2ea4fdf7 0x2aca631b796a9005, 0xd5605fcdcf32de8);
  (Near 0x307211ac6b9700 0x2b90e5ee01b31d 0x409b6f6095432cb 0x3a198984e074b1e, Near 0xc1c846b1ae5c0 0x1f746182e6cd5d 0x409b6f6095432cb 0xa7cab6b2ec8f9ad, 0x2aacdff5f63d5fb);
  (Near 0x183908d635cb80 0x2b90e5ee01b31d 0x409b6f6095432cb 0x74331309c0e963c, Near 0x60e42358d72e0 0x1f746182e6cd5d 0x409b6f6095432cb 0x14f956d65d91f35a, 0x5559bfebec7abf6);
  (Near 0xc1c846b1ae5c0 0x37ad6a591c98dd 0x409b6f6095432cb 0x1290195741715f43, Near 0x307211ac6b970 0x1f746182e6cd5d 0x409b6f6095432cb 0x29f2adacbb23e6b4, 0xaab37fd7d8f57ec);
  (Near 0x3c8e9617867cc0 0x1f746182e6cd5d 0x409b6f6095432cb 0x218ef156fc1cb89, Near 0xf23a585e19f30 0x1f746182e6cd5d 0x409b6f6095432cb 0x863bc55bf072e24, 0x2223e65e5e977fc);
  (Near 0x1e474b0bc33e60 0x3dbbac8eaa0bbd 0x409b6f6095432cb 0x83b9520e8d7c9dd, Near 0x791d2c2f0cf98 0x1f746182e6cd5d 0x409b6f6095432cb 0x10c778ab7e0e5c48, 0x4447ccbcbd2eff8);
  (Near 0xf23a585e19f30 0x3dbbac8eaa0bbd 0x409b6f6095432cb 0x10772a41d1af93ba, Near 0x3c8e9617867cc 0x1f746182e6cd5d 0x409b6f6095432cb 0x218ef156fc1cb890, 0x888f99797a5dff0);
  (Near 0x791d2c2f0cf98 0x3dbbac8eaa0bbd 0x409b6f6095432cb 0x20ee5483a35f2774, Near 0x1e474b0bc33e6 0x1f746182e6cd5d 0x409b6f6095432cb 0x431de2adf8397120, 0x1111f32f2f4bbfe1);
  (Near 0x25d91dceb40df8 0x1f746182e6cd5d 0x409b6f6095432cb 0x35b18224c6945a8, Near 0x9764773ad037e 0x1f746182e6cd5d 0x409b6f6095432cb 0xd6c608931a516a0, 0x369fd6fd6425993);
  (Near 0x12ec8ee75a06fc 0x3260f06a40d459 0x409b6f6095432cb 0xabfe73aa226be1b, Near 0x4bb23b9d681bf 0x1f746182e6cd5d 0x409b6f6095432cb 0x1ad8c112634a2d40, 0x6d3fadfac84b326);
  (Near 0x9764773ad037e 0x3bd737ddedd7d7 0x409b6f6095432cb 0x1989856b4da1af01, Near 0x4bb23b9d681bf 0x1b8e0a120bab0c 0x8136dec12a86596 0x2f0953e091ef2b37, 0xda7f5bf5909664d);
  (Near 0x2f4f6542611176 0x1f746182e6cd5d 0x409b6f6095432cb 0x2af4681d6ba9e20, Near 0x17a7b2a13088bb 0x1b8e0a120bab0c 0x8136dec12a86596 0x96843f9b6c96f0b, 0x2bb31264501e142);
  (Near 0x17a7b2a13088bb 0x371c1424175618 0x409b6f6095432cb 0x96843f9b6c96f0b, Near 0x17a7b2a13088bb 0xdc7050905d586 0x1026dbd82550cb2c 0x96843f9b6c96f0b, 0x576624c8a03c285);
  (Near 0x17a7b2a13088bb 0x3335bcb33c33c7 0x8136dec12a86596 0x117bb1e5c971d4a1, Near 0x17a7b2a13088bb 0x1e8b3525b3737e 0x204db7b04aa19658 0x29b5fbaa016b0563, 0xaecc4991407850b);
  (Near 0x3fadb4f9f6cb39 0x3e65770db2251 0x4591692ad7f17e8 0x442acf8739ceb1, Near 0x1aa4ddb4d8512d 0x1e8b3525b3737e 0x746ed7d7cfaf983 0x85798bb99e23447, 0x22f5a8504018102);
  (Near 0x393012da8bc4ab 0x3d166a4b66e6fc 0x7cf431c8b6e96e5 0x85798bb99e23447, Near 0x1aa4ddb4d8512d 0xf459a92d9b9bf 0xe8ddafaf9f5f306 0x85798bb99e23447, 0x45eb50a08030204);
  (Near 0x393012da8bc4ab 0x1e8b3525b3737e 0xf9e863916dd2dca 0x85798bb99e23447, Near 0x14f53c23d90576 0xf459a92d9b9bf 0x16e573b693d8274d 0x10af317733c4688e, 0x8bd6a1410060408);
  (Near 0x393012da8bc4ab 0xf459a92d9b9bf 0x1f3d0c722dba5b94 0x85798bb99e23447, Near 0x19c038a4c63c7a 0xf459a92d9b9bf 0x3843d6a4fb60f869 0x215e62ee6788d11c, 0x117ad428200c0811);
  (Near 0xb5f4321fe976e 0x359d7e9a4371df 0x13e0d3fe003f2f3 0x5db7e3bd9da4e61, Near 0x5afa190ff4bb7 0x1da69015a15ecb 0x27c1a7fc007e5e6 0xcf509b793b88fb5, 0x37ef73b399c019d);
  (Near 0x5afa190ff4bb7 0x3b4d202b42bd96 0x13e0d3fe003f2f3 0xcf509b793b88fb5, Near 0x175aba644fa0f8 0x11ab18d3505541 0x14695936d3d04167 0xf71243753c0759b, 0x6fdee767338033a);
  (Near 0x2905d3379ff639 0x235631a6a0aa82 0x11ed3eb713c85b81 0xf71243753c0759b, Near 0x1d5876057825bd 0x11ab18d3505541 0x334ba1a57b512c9d 0x1ee2486ea780eb36, 0xdfbdcece6700674);
  (Near 0x2eb574c89f41f0 0x12474cf3a2c75d 0x41511d7c3f6737b 0x198f75803ee8d95, Near 0xbad5d3227d07c 0x1df4aa25ca97d9 0x41511d7c3f6737b 0xa78ef37d3b0a9cf, 0x2cbf8fc2e1667b0);
  (Near 0x175aba644fa0f8 0x29a20757f26855 0x41511d7c3f6737b 0x7470087cbd38ea5, Near 0x5d6ae9913e83e 0x1df4aa25ca97d9 0x41511d7c3f6737b 0x14f1de6fa761539e, 0x597f1f85c2ccf61);
  (Near 0xbad5d3227d07c 0x354f648a1a38d1 0x41511d7c3f6737b 0x12a312e75b9d90c5, Near 0x2eb574c89f41f 0x1df4aa25ca97d9 0x41511d7c3f6737b 0x29e3bcdf4ec2a73c, 0xb2fe3f0b8599ec3);
  (Near 0x3a62d1fac7126c 0x699efc17af6e1 0x41511d7c3f6737b 0x7628b4dbf3f3c5, Near 0xe98b47eb1c49b 0x1532a4402cbb7c 0x41511d7c3f6737b 0x5edb4ab33c6428f, 0x23cc73024deb95a);
  (Near 0x1d3168fd638936 0x23cb58bede8017 0x41511d7c3f6737b 0x50163417bde5b05, Near 0xe98b47eb1c49b 0x1932069ec82259 0x82a23af87ece6f6 0xe17d85abbb32985, 0x4798e6049bd72b4);
  (Near 0xe98b47eb1c49b 0x32640d3d9044b2 0x41511d7c3f6737b 0xe17d85abbb32985, Near 0xe98b47eb1c49b 0x13e55d8ebcf37a 0x1054475f0fd9cdec 0x1641fc0a43a0107b, 0x8f31cc0937ae569);
  (Near 0xe98b47eb1c49b 0x36636f9c2bab8f 0x82a23af87ece6f6 0x1e6c1fb9cb8cf771, Near 0x188b6346103e58 0x9f2aec75e79bd 0x36ea8ac86353ac53 0x1641fc0a43a0107b, 0x11e6398126f5cad2);
  (Near 0x2130cb5bfef013 0x27cabb1d79e6f4 0x3b68ae0ad99b077 0x47398ceda53367f, Near 0x173e1c94a07656 0x9f2aec75e79bd 0xa6692b3dc138b5d 0x47398ceda53367f, 0x39471e6a1645bc3);
  (Near 0x351628eabbe38d 0x13e55d8ebcf37a 0xbe0ae903586976d 0x47398ceda53367f, Near 0x1f846bd90d2ea5 0x9f2aec75e79bd 0x1c34f5ef45606559 0x8e7319db4a66cfe, 0x728e3cd42c8b787);
  (Near 0x3f08d7b21a5d4a 0x9f2aec75e79bd 0x1c34f5ef45606559 0x47398ceda53367f, Near 0x1eae3c17944dee 0x9f2aec75e79bd 0x36ea8ac86353ac53 0x11ce633b694cd9fc, 0xe51c79a85916f0f);
  (Near 0x351628eabbe38d 0x31bd69e4d860b1 0x4c045d3489c3c92 0x47398ceda53367f, Near 0xd62fc178e0b7 0x1f554f447510f7 0x4cad046e490613 0xb3784d9ef06545a, 0x2dd27ebb4504969);
  (Near 0x3369c967ca221f 0x31bd69e4d860b1 0x933dea222ef7311 0x8e7319db4a66cfe, Near 0x1a1ffc94a1816b 0x1949ccd328a0b4 0x12b46a48b427ec35 0x121b103fd795e00f, 0x5ba4fd768a092d2);
  (Near 0x3369c967ca221f 0x329399a6514168 0x1267bd4445dee622 0x121b103fd795e00f, Near 0x1a1ffc94a1816b 0xca4e66994505a 0x2568d491684fd86a 0x121b103fd795e00f, 0xb749faed14125a5);
  (Near 0x351628eabbe38d 0x30e73a235f7ffa 0x3cd04a906e363a8 0x38057a4989a5d95, Near 0xe5145ec8611c8 0x18739d11afbffd 0x419b1ad752c69bb 0x700af493134bb2a, 0x24a865629d9d454);
  (Near 0x351628eabbe38d 0x18739d11afbffd 0x79a09520dc6c750 0x38057a4989a5d95, Near 0x728a2f64308e4 0x1f9c4007f2c8e1 0x419b1ad752c69bb 0x121b103fd795e00f, 0x4950cac53b3a8a8);
  (Near 0x26c4e2fe35d1c5 0x3f38800fe591c2 0xb1a60f6a66124e5 0x121b103fd795e00f, Near 0x394517b218472 0x1f9c4007f2c8e1 0x419b1ad752c69bb 0x2436207faf2bc01e, 0x92a1958a7675151);
  (Near 0x26c4e2fe35d1c5 0x1f9c4007f2c8e1 0x1634c1ed4cc249ca 0x121b103fd795e00f, Near 0x1ca28bd90c239 0x1f9c4007f2c8e1 0x419b1ad752c69bb 0x486c40ff5e57803c, 0x125432b14ecea2a2);
  (Near 0x3c3ecbe0feec71 0x18739d11afbffd 0x6e6c49788db1aff 0x2cd12ea13aeb144, Near 0x8f2cbb3d3cb1d 0x18739d11afbffd 0x419b1ad752c69bb 0xb344ba84ebac510, 0x3aa7089dc8fba20);
  (Near 0x2a593479575637 0x18739d11afbffd 0x9b3d7819c89cc43 0x59a25d4275d6288, Near 0x10b33462c1c58d 0x18739d11afbffd 0xf4dfd55c3e72ecb 0x166897509d758a20, 0x754e113b91f7441);
  (Near 0x216668c5838b1a 0x39da05d7334b17 0xf4dfd55c3e72ecb 0x1a8248fe12a1f3db, Near 0x10b33462c1c58d 0x149368ba38c2c5 0x1e9bfaab87ce5d96 0x25b694a6615cb8eb, 0xea9c227723ee882);
  (Near 0x216668c5838b1a 0x37753fcd67a9bd 0x30f9911272e3c8f 0x5151986005e4bf2, Near 0x10b33462c1c58d 0x136105b552f218 0x61f32224e5c791e 0x71a99fad98e5b55, 0x2eec06e4a0c94e6);
  (Near 0x10b33462c1c58d 0x37753fcd67a9bd 0x30f9911272e3c8f 0xa2a330c00bc97e4, Near 0x10b33462c1c58d 0x1a63b73d6b3e99 0xc3e64449cb8f23c 0x1358fe3f76474d91, 0x5dd80dc941929cd);
  (Near 0x10b33462c1c58d 0x34c76e7ad67d32 0x61f32224e5c791e 0x1358fe3f76474d91, Near 0x10b33462c1c58d 0x158b75d0168213 0x187cc8893971e478 0x1f97628413003fcd, 0xbbb01b92832539b);
  (Near 0x1eb89772f25e8f 0x34c76e7ad67d32 0x24098e269e7d001 0x3de993fe474a91d, Near 0x1c8e27582ece94 0x1a63b73d6b3e99 0x85fcb04b844491f 0x7bd327fc8e9523a, 0x25899f1d4d6dd85);
  (Near 0x391c4eb05d9d28 0x1a63b73d6b3e99 0x85fcb04b844491f 0x3de993fe474a91d, Near 0xe4713ac17674a 0x1a63b73d6b3e99 0x85fcb04b844491f 0xf7a64ff91d2a474, 0x4b133e3a9adbb0a);
  (Near 0x1c8e27582ece94 0x36f1de959a0d2d 0x85fcb04b844491f 0x101cfd84812d9b59, Near 0x72389d60bb3a5 0x1a63b73d6b3e99 0x85fcb04b844491f 0x1ef4c9ff23a548e8, 0x96267c7535b7615);
  (Near 0xe4713ac17674a 0x36f1de959a0d2d 0x85fcb04b844491f 0x2039fb09025b36b2, Near 0x72389d60bb3a5 0x1f0ab435d2e069 0x10bf96097088923e 0x48d3c116bcfab683, 0x12c4cf8ea6b6ec2b);
  (Near 0x22a701ac38ffb 0x3eb9a1f166c486 0x4109cec62462c2 0x75ba3c99fb2be17, Near 0x12ee10a47f091a 0x10c3a089bb791f 0x8e1dea2448d0ea3 0x7ddb7672bfb839b, 0x3c0f64fbaf1626f);
  (Near 0x23b1b12e3a8239 0x2187411376f23e 0x85fcb04b844491f 0x7ddb7672bfb839b, Near 0x1a3aa8dbfafdac 0x10c3a089bb791f 0x189d4d709c8415d9 0xfbb6ece57f70736, 0x781ec9f75e2c4de);
  (Near 0x347551b7f5fb58 0x10c3a089bb791f 0x189d4d709c8415d9 0x7ddb7672bfb839b, Near 0xd1d546dfd7ed6 0x1de0f4f7b8f7f5 0x189d4d709c8415d9 0x38142b0d4c722445, 0xf03d93eebc589bc);
  (Near 0x369fc1d2b98b53 0xe99306ef7e924 0x5204a88bdd1202d 0x15eb66f371531b7, Near 0x1d13ad1087b354 0x3a64c1bbdfa49 0xaea2d1875b024b3 0x15eb66f371531b7, 0x300c50c958de858);
  (Near 0x3dec5a0a357fe5 0x74c98377bf492 0xb9f4b80b2b77211 0x15eb66f371531b7, Near 0x1d2306f73bc2ce 0x3a64c1bbdfa49 0x15dfe0922e59b26b 0x2bd6cde6e2a636e, 0x6018a192b1bd0b1);
  (Near 0x3dec5a0a357fe5 0x3a64c1bbdfa49 0x173e9701656ee422 0x15eb66f371531b7, Near 0xe91837b9de167 0x1237cf975bdbb0 0x15dfe0922e59b26b 0x1b5aba4f0aae7947, 0xc0314325637a163);
  (Near 0x3dec5a0a357fe5 0x123f7c8ab5e36d 0x4a61e337aafc73a 0x15eb66f371531b7, Near 0xaeb375fdfe71e 0x1d2ab3ea95ca8b 0x34767c4439a9583 0x8c241811fef5c5f, 0x267040a113e537a);
  (Near 0x3dec5a0a357fe5 0x2815eb4a75b1a9 0x94c3c66f55f8e74 0x604d4a2b1c4f8f1, Near 0x5759bafeff38f 0x1d2ab3ea95ca8b 0x34767c4439a9583 0x118483023fdeb8be, 0x4ce0814227ca6f4);
  (Near 0x330122aa5598c7 0x2815eb4a75b1a9 0xf511109a7248765 0xc09a9456389f1e2, Near 0x1c3b5f2d22c62b 0x16c5c37d32d29c 0x21e989d791e3a44d 0x1b5aba4f0aae7947, 0x99c102844f94de9);
  (Near 0x330122aa5598c7 0x2d8b86fa65a538 0x1ea222134e490eca 0x1b5aba4f0aae7947, Near 0x1c3b5f2d22c62b 0xb62e1be99694e 0x43d313af23c7489a 0x1b5aba4f0aae7947, 0x1338205089f29bd2);
  (Near 0x3dec5a0a357fe5 0x22a04f9a85be1a 0x77030525de60b90 0x428c88e1a4b760d, Near 0x164e191e79506c 0x115027cd42df0d 0xab79816a180a113 0x851911c3496ec1a, 0x3d8067681fd525d);
  (Near 0x3dec5a0a357fe5 0x115027cd42df0d 0xee060a4bbcc1720 0x428c88e1a4b760d, Near 0xb270c8f3ca836 0x1c77345c7f8743 0xab79816a180a113 0x1b5aba4f0aae7947, 0x7b00ced03faa4ba);
  (Near 0x279e40ebbc2f79 0x38ee68b8ff0e86 0x13092932d6178d2d 0x1b5aba4f0aae7947, Near 0x59386479e541b 0x1c77345c7f8743 0xab79816a180a113 0x36b5749e155cf28e, 0xf6019da07f54975);
  (Near 0x4fdf15136715f 0x3d9b106c3e2466 0x7ace3215c85765 0x5eb8a21c7ad3721, Near 0x1be19f6617a487 0x16e3ae14e13328 0xab79816a180a113 0x8cc5f4e4a5f437f, 0x313385ece6441e4);
  (Near 0x32c54d7af8d7af 0x2dc75c29c26650 0x9c1fbb275eff249 0x8cc5f4e4a5f437f, Near 0x1be19f6617a487 0xb71d70a709994 0x156f302d43014226 0x8cc5f4e4a5f437f, 0x62670bd9cc883c8);
  (Near 0x32c54d7af8d7af 0x16e3ae14e13328 0x1383f764ebdfe492 0x8cc5f4e4a5f437f, Near 0x1be19f6617a487 0x5b8eb85384cca 0x2ade605a8602844c 0x8cc5f4e4a5f437f, 0xc4ce17b39910790);
  (Near 0x3cc1301d65ba6d 0x11e5bcc3aac1c9 0x4abae97853a1ff2 0x1603ae7970c612f, Near 0xab6dcd66ebe29 0x1c9c999a197ff2 0x34b73afee2dbec3 0x8cc5f4e4a5f437f, 0x275c6b23eb69b1c);
  (Near 0x27537670883e1b 0x3939333432ffe4 0x60be97f1c468121 0x8cc5f4e4a5f437f, Near 0x190529a37b7e22 0xe4e4ccd0cbff9 0xf6346ae26bac105 0x8cc5f4e4a5f437f, 0x4eb8d647d6d3639);
  (Near 0x27537670883e1b 0x1c9c999a197ff2 0xc17d2fe388d0242 0x8cc5f4e4a5f437f, Near 0x1ad0e19eca7f0a 0xe4e4ccd0cbff9 0x20fc054abb794803 0x1198be9c94be86fe, 0x9d71ac8fada6c73);
  (Near 0x35a1c33d94fe14 0xe4e4ccd0cbff9 0x20fc054abb794803 0x8cc5f4e4a5f437f, Near 0xd6870cf653f85 0x1bb6bd9c71ff7e 0x20fc054abb794803 0x442d8283e4f655ff, 0x13ae3591f5b4d8e7);
  (Near 0x190529a37b7e22 0x2e82565dc441bb 0x313daefa1588d01 0x5b8845ea906b67e, Near 0xc8294d1bdbf11 0x1d827597c10066 0x627b5df42b11a02 0xe84e3acf365f9fd, 0x3efa45064575e94);
  (Near 0xc8294d1bdbf11 0x3b04eb2f8200cc 0x313daefa1588d01 0xe84e3acf365f9fd, Near 0x1b43cf9d9e3f44 0xec13acbe08033 0x1ad44f6b78c82e01 0xe84e3acf365f9fd, 0x7df48a0c8aebd29);
  (Near 0x36879f3b3c7e88 0x2a050a697ebf77 0x1ad44f6b78c82e01 0x14ac998c361713ff, Near 0xda1e7cecf1fa2 0x1c63229aaf9fd5 0x1ad44f6b78c82e01 0x37de16c55f9421fb, 0xfbe9141915d7a53);
  (Near 0xc8294d1bdbf11 0x3bfa3a3a94c887 0x13b245fda236b9a 0x5e6e50dfc6e08c7, Near 0xc8294d1bdbf11 0x1ea1c894d260f7 0x4ec917f688dae68 0xc0e9aed3f1f22c9, 0x3261d0d1d12b210);
  (Near 0xc8294d1bdbf11 0x3d439129a4c1ee 0x27648bfb446d734 0xc0e9aed3f1f22c9, Near 0xc8294d1bdbf11 0x15922eb3481004 0x9d922fed11b5cd0 0x10fb2c6ca7acd131, 0x64c3a1a3a256421);
  (Near 0xc8294d1bdbf11 0x37a6f2384ddf19 0x4ec917f688dae68 0x15e7bdec103a7f99, Near 0x174bac2b61c713 0xac91759a40802 0x24ad726a49e38ad1 0x10fb2c6ca7acd131, 0xc987434744ac842);
  (Near 0xc8294d1bdbf11 0x3514445a2dec4b 0xfc1d197b4f8948 0x42db22164a2d889, Near 0xc8294d1bdbf11 0x1ce84b1cb8a9e8 0x3f07465ed3e2520 0x91a43a0cd3086f1, 0x284e40a7da88e73);
  (Near 0xc8294d1bdbf11 0x39d096397153d0 0x1f83a32f69f1290 0x91a43a0cd3086f1, Near 0xc8294d1bdbf11 0x1af6ba601a1405 0x7e0e8cbda7c4a40 0x10fb2c6ca7acd131, 0x509c814fb511ce7);
  (Near 0xc8294d1bdbf11 0x35ed74c034280a 0x3f07465ed3e2520 0x10fb2c6ca7acd131, Near 0x13bca798ebe98b 0x1af6ba601a1405 0x18dc153882291b71 0x21f658d94f59a262, 0xa139029f6a239ce);
  (Near 0x3e8ce818b4bb55 0x1ce84b1cb8a9e8 0x3f07465ed3e2520 0x1d20d868f701afd, Near 0x1a6a8a34cde6f3 0x73a12c72e2a7a 0x6a78df6e7c80d8f 0x1d20d868f701afd, 0x203e9a1fe2071f6);
  (Near 0x3e8ce818b4bb55 0xe74258e5c54f4 0x7e0e8cbda7c4a40 0x1d20d868f701afd, Near 0x1e07939864fc30 0x39d096397153d 0xf2129745f00361b 0x1d20d868f701afd, 0x407d343fc40e3ec);
  (Near 0x3e8ce818b4bb55 0x73a12c72e2a7a 0xfc1d197b4f89480 0x1d20d868f701afd, Near 0x1d77ef5a8ed30c 0x39d096397153d 0x1db195a8da810e03 0x3a41b0d1ee035fa, 0x80fa687f881c7d8);
  (Near 0x3e8ce818b4bb55 0x39d096397153d 0x1f83a32f69f12900 0x1d20d868f701afd, Near 0x15f60a74759400 0x199313d80ca93d 0x2c4201dd5601e5eb 0x338a37f793c251df, 0x101f4d0ff1038fb1);
  (Near 0x3752d5518690db 0x12112ef1f36a31 0x5931b3a0f0363ce 0x1d20d868f701afd, Near 0x12590110de7ec3 0x12112ef1f36a31 0x76528c09e737ecb 0x748361a3dc06bf4, 0x33975cffd00b656);
  (Near 0x24b20221bcfd86 0x36c33113b067b7 0x76528c09e737ecb 0xb0943cdbd53b4c5, Near 0x12590110de7ec3 0x1235180168f47a 0xeca51813ce6fd96 0xead5edadc33eabf, 0x672eb9ffa016cad);
  (Near 0x12590110de7ec3 0x36c33113b067b7 0x76528c09e737ecb 0x1612879b7aa7698a, Near 0x1b738d1192f900 0x91a8c00b47a3d 0x2c4201dd5601e5eb 0xead5edadc33eabf, 0xce5d73ff402d95a);
  (Near 0x3752d5518690db 0x246a3002d1e8f4 0x475af61a59c4fd8 0x2ef795ef8d72ef3, Near 0x1c03314f692224 0x91a8c00b47a3d 0x9085169abebb287 0x2ef795ef8d72ef3, 0x2945e3ffd9a2b78);
  (Near 0x3752d5518690db 0x1235180168f47a 0x8eb5ec34b389fb0 0x2ef795ef8d72ef3, Near 0x171c24a8690b4f 0x91a8c00b47a3d 0xee744279d9a106d 0x5def2bdf1ae5de6, 0x528bc7ffb3456f1);
  (Near 0x3752d5518690db 0x91a8c00b47a3d 0x11d6bd8696713f60 0x2ef795ef8d72ef3, Near 0x1935e455433d03 0x91a8c00b47a3d 0x20841c6172a52a1f 0xbbde57be35cbbcc, 0xa5178fff668ade2);
  (Near 0x251dbd501d9c61 0x2d84bc03866331 0x264c22820f3c6b2 0x2ef795ef8d72ef3, Near 0x1ed07e498f0745 0x219bfacda31b4 0x7f2e2fbfc24e205 0x8ab736d7e36841, 0x2104b66647b55fa);
  (Near 0x29513ca9d1ffc9 0x2d84bc03866331 0x5543b8719caf5a5 0x5def2bdf1ae5de6, Near 0x1fdd5e1ffc201f 0x10cdfd66d18da 0x10707d2ed02d2c4b 0x8ab736d7e36841, 0x42096ccc8f6abf4);
  (Near 0x2b6afc56ac317d 0x2d84bc03866331 0xb332e450b79538b 0xbbde57be35cbbcc, Near 0x1fdd5e1ffc201f 0x866feb368c6d 0x20e0fa5da05a5896 0x8ab736d7e36841, 0x8412d9991ed57e8);
  (Near 0x2b6afc56ac317d 0x2c77dc2d194a57 0x16665c8a16f2a716 0x16f113c0eed60f57, Near 0x15724635bad288 0x15f8b620f15ef5 0x2c4201dd5601e5eb 0x2d57704b05c8b66d, 0x10825b3323daafd0);
  (Near 0x29513ca9d1ffc9 0x2e919bd9f37c0b 0x44362d27b08c484 0x4ce1a0952ec2cc5, Near 0x13588688e0a0d4 0x15f8b620f15ef5 0x7fc0e6e1e2e20c7 0x9117cdbcdf4f149, 0x34d4570a0c5565c);
  (Near 0x29513ca9d1ffc9 0x2bf16c41e2bdea 0x886c5a4f6118908 0x9117cdbcdf4f149, Near 0x1fa4f96561af5f 0x15f8b620f15ef5 0x1a1f0825ba180359 0x1222f9b79be9e292, 0x69a8ae1418aacb9);
  (Near 0x3f49f2cac35ebe 0x15f8b620f15ef5 0x1a1f0825ba180359 0x9117cdbcdf4f149, Near 0x1aced7c329872a 0x15f8b620f15ef5 0x2c4201dd5601e5eb 0x2445f36f37d3c524, 0xd3515c283155973);
  (Near 0x13588688e0a0d4 0x33d1fb0a14f84d 0x198cfaf9fa2d35b 0x4470dccef0c7738, Near 0x4d621a2382835 0x1ba352defc2f44 0x198cfaf9fa2d35b 0x92028c59e03bc19, 0x2a4378d4d6aab7d);
  (Near 0x9ac434470506a 0x3d7e3e4e8548b7 0x198cfaf9fa2d35b 0xa26eb497dbbc1cb, Near 0x4d621a2382835 0x1c540e56269041 0x3319f5f3f45a6b6 0x12b506e35bd4b03b, 0x5486f1a9ad556fa);
  (Near 0x4d621a2382835 0x3d7e3e4e8548b7 0x198cfaf9fa2d35b 0x144dd692fb778396, Near 0x1f177ce2d7d4da 0x1a415b409faca5 0x2910627e16bc3f35 0x22ad23bf9830f1c9, 0xa90de3535aaadf5);
  (Near 0x182ea82b18c909 0x38a81cac4d2082 0x198cfaf9fa2d35b 0x3bdce2d78c4233f, Near 0x182ea82b18c909 0x1a415b409faca5 0x6633ebe7e8b4d6c 0x6ef6d8cb809c9f5, 0x21cf93dd7888931);
  (Near 0x182ea82b18c909 0x3482b6813f594a 0x3319f5f3f45a6b6 0x6ef6d8cb809c9f5, Near 0x193801b5dc3ad7 0x1a415b409faca5 0xd52ac4b36951761 0xddedb19701393ea, 0x439f27baf111262);
  (Near 0x3270036bb875ae 0x1a415b409faca5 0xd52ac4b36951761 0x6ef6d8cb809c9f5, Near 0x19bcae7b3df3be 0x1a415b409faca5 0x1b318764a6a8ab4b 0x1bbdb632e02727d4, 0x873e4f75e2224c4);
  (Near 0x33795cf67be77c 0x1a415b409faca5 0x1b318764a6a8ab4b 0xddedb19701393ea, Near 0xcde573d9ef9df 0x1a415b409faca5 0x1b318764a6a8ab4b 0x377b6c65c04e4fa8, 0x10e7c9eebc444989);
  (Near 0x193801b5dc3ad7 0x379ec32189aeb4 0x2aa2275715104ad 0x5e073b91c2085e3, Near 0x193801b5dc3ad7 0xde7b0c8626bad 0xaa889d5c54412b4 0x5e073b91c2085e3, 0x3618ec958da751b);
  (Near 0x193801b5dc3ad7 0x35076346a11231 0x55444eae2a2095a 0xb34b8a3fec28f3d, Near 0x193801b5dc3ad7 0x138fd93f1f5342 0x155113ab8a882568 0x1088fd8ee1649897, 0x6c31d92b1b4ea36);
  (Near 0x193801b5dc3ad7 0x271fb27e3ea684 0xaa889d5c54412b4 0x1088fd8ee1649897, Near 0x193801b5dc3ad7 0x9c7ec9f8fa9a1 0x2aa2275715104ad0 0x1088fd8ee1649897, 0xd863b256369d46d);
  (Near 0x2fd8a390cfd92b 0x271fb27e3ea684 0x40b579c9e4f08de 0x34e991c937a84eb, Near 0x1c48ca51b085e9 0x9c7ec9f8fa9a1 0x9902c39524719a2 0x34e991c937a84eb, 0x2b4723aad7b90e2);
  (Near 0x2fd8a390cfd92b 0x138fd93f1f5342 0x816af393c9e11bc 0x34e991c937a84eb, Near 0x1cd048182fc166 0x9c7ec9f8fa9a1 0x137bf78f0cb6a863 0x69d323926f509d6, 0x568e4755af721c5);
  (Near 0x39a090305f82cc 0x9c7ec9f8fa9a1 0x137bf78f0cb6a863 0x34e991c937a84eb, Near 0x183010aba78a54 0x9c7ec9f8fa9a1 0x20b65c015aa0bc0f 0xd3a64724dea13ac, 0xad1c8eab5ee438b);
  (Near 0x2fd8a390cfd92b 0x30e79f1dce5025 0x33c4616e50c0718 0x34e991c937a84eb, Near 0x183010aba78a54 0x18b78e7226c5d1 0x68adf3378868c03 0x6af853ed56387a9, 0x229f4fbbdfc73e8);
  (Near 0x306021574f14a8 0x30e79f1dce5025 0x68adf3378868c03 0x69d323926f509d6, Near 0xc180855d3c52a 0x18b78e7226c5d1 0x68adf3378868c03 0xd5f0a7daac70f52, 0x453e9f77bf8e7d1);
  (Near 0x183010aba78a54 0x30e79f1dce5025 0x68adf3378868c03 0xd3a64724dea13ac, Near 0x60c042ae9e295 0x1ec3929d10a866 0x68adf3378868c03 0x2148f42ece14aaa7, 0x8a7d3eef7f1cfa2);
  (Near 0x3cffa773a2154f 0x30e79f1dce5025 0x20ffa818145ab35b 0x1a74c8e49bd42758, Near 0x1b79d1a45c195d 0x156dcd797236c8 0x3b7470fcb02edab3 0x2e5eb295bf21c2ad, 0x114fa7ddefe39f45);
  (Near 0xc180855d3c52a 0x3f1d9e8d9f0343 0x14ef970b1b48267 0x6d42b4a3240834f, Near 0x60c042ae9e295 0x1c88cd315a9057 0x29df2e1636904ce 0xc595d23b2cc8437, 0x37654c5fcc71fda);
  (Near 0x60c042ae9e295 0x3f1d9e8d9f0343 0x14ef970b1b48267 0xda856946481069e, Near 0x60c042ae9e295 0x1d627103f5fea0 0x53be5c2c6d2099c 0x196f1b8aa3d99c3d, 0x6eca98bf98e3fb5);
  (Near 0x60c042ae9e295 0x3ac4e207ebfd40 0x29df2e1636904ce 0x196f1b8aa3d99c3d, Near 0x60c042ae9e295 0x1ac940d7cec47a 0xa77cb858da41338 0x2e5eb295bf21c2ad, 0xdd95317f31c7f6a);
  (Near 0x60c042ae9e295 0x3a03c79dfa6d8d 0x85fd60471500f6 0x50581dfcfa676c3, Near 0x60c042ae9e295 0x1f21fd5d81ca7d 0x217f5811c5403d8 0xac76502dd8d8155, 0x2c5109e63d27fe2);
  (Near 0x60c042ae9e295 0x3e43fabb0394fa 0x10bfac08e2a01ec 0xac76502dd8d8155, Near 0x60c042ae9e295 0x1eaf091a099bb3 0x42feb0238a807b0 0x153f30886b31948d, 0x58a213cc7a4ffc4);
  (Near 0x60c042ae9e295 0x3d5e1234133766 0x217f5811c5403d8 0x153f30886b31948d, Near 0x60c042ae9e295 0x1e758ef84d844e 0x85fd60471500f60 0x2a2ec7938679bafd, 0xb1442798f49ff88);
  (Near 0x60c042ae9e295 0x3ae9b024eacb21 0x6b3119d27733f8 0x4145365b61a41d5, Near 0x60c042ae9e295 0x1f5b777f3de1e2 0x1acc46749dccfe0 0x8af6f81c1397d7d, 0x237407eb641ffe8);
  (Near 0x60c042ae9e295 0x3eb6eefe7bc3c4 0xd66233a4ee67f0 0x8af6f81c1397d7d, Near 0x60c042ae9e295 0x1bc5c41572b61b 0x35988ce93b99fc0 0xf62811ee8acbcfd, 0x46e80fd6c83ffd0);
  (Near 0x60c042ae9e295 0x3d978c55cf4ecb 0x1acc46749dccfe0 0x110f458632898cdd, Near 0x60c042ae9e295 0x1d00ec76021182 0x6b3119d27733f80 0x20222d27cb4cdbbd, 0x8dd01fad907ffa0);
  (Near 0x60c042ae9e295 0x3a01d8ec042304 0x35988ce93b99fc0 0x20222d27cb4cdbbd, Near 0x1a987e90d4cdeb 0x148c7a65eaeb56 0x3aee739c6919d9bd 0x2d8850621a335abd, 0x11ba03f5b20fff40);
  (Near 0x1e3c14d6916ce9 0x33f5d4c11a406f 0x35988ce93b99fc0 0x5c1ba783e50a599, Near 0x1e3c14d6916ce9 0x148c7a65eaeb56 0xd66233a4ee67f00 0x91b4346d20a4559, 0x38b9a6456cfffd9);
  (Near 0x1e3c14d6916ce9 0x2918f4cbd5d6ac 0x6b3119d27733f80 0x91b4346d20a4559, Near 0x1e3c14d6916ce9 0xa463d32f575ab 0x1acc46749dccfe00 0x91b4346d20a4559, 0x71734c8ad9fffb3);
  (Near 0x32c88f3c7c583f 0x148c7a65eaeb56 0x1681668120f0c459 0x91b4346d20a4559, Near 0x1e876637b8e6f5 0xa463d32f575ab 0x361e104913ebce0b 0x1236868da4148ab2, 0xe2e69915b3fff66);
  (Near 0x27ebaf4737ee7c 0x1f695a5b2f5519 0x389cd6f8f26f1bb 0x2c8baeba171a9cf, Near 0x9faebd1cdfb9f 0x1f695a5b2f5519 0x389cd6f8f26f1bb 0xb22ebae85c6a73c, 0x2d6151d123fffe1);
  (Near 0x13f5d7a39bf73e 0x335f31fecb4c57 0x389cd6f8f26f1bb 0x91b4346d20a4559, Near 0x1ead0ee84ca3fb 0x14b223167ea85c 0x15c053fd333b7c6d 0xeacb91e14ed98f7, 0x5ac2a3a247fffc2);
  (Near 0x3d5a1dd09947f6 0x335f31fecb4c57 0x15c053fd333b7c6d 0x1236868da4148ab2, Near 0x1ead0ee84ca3fb 0xa59118b3f542e 0x2b80a7fa6676f8da 0xeacb91e14ed98f7, 0xb58547448ffff85);
  (Near 0x9faebd1cdfb9f 0x39418d95e0d547 0xb529164fd496bf 0x40f50cf6778c3c6, Near 0x9faebd1cdfb9f 0x1fc78014a0ada8 0x2d4a4593f525afc 0x903706b9648e2ff, 0x244ddb0db66664d);
  (Near 0x9faebd1cdfb9f 0x3f8f0029415b50 0x16a522c9fa92d7e 0x903706b9648e2ff, Near 0x9faebd1cdfb9f 0x19deabdc1e5273 0x5a948b27ea4b5f8 0xeacb91e14ed98f7, 0x489bb61b6cccc9b);
  (Near 0x9faebd1cdfb9f 0x3db8438a0aa085 0x2d4a4593f525afc 0x11815d77543ff3f3, Near 0x1be7b7a8c422a8 0x11eccbd6f62709 0x1fa8933590dbbadf 0x145601d093924eef, 0x91376c36d999937);
  (Near 0x2dd4837fba49b1 0x23d997adec4e12 0x19ff4a83123704e7 0x145601d093924eef, Near 0x1fe0a7ab58385d 0x11eccbd6f62709 0x485496d6b80058bd 0x28ac03a127249dde, 0x1226ed86db33326f);
  (Near 0x31e69b1905ea1b 0x23d997adec4e12 0x5a948b27ea4b5f8 0x41133901d83a963, Near 0xffce7a107e189 0x11eccbd6f62709 0x7415dd4dfc5c28d 0x82267203b0752c6, 0x3a162b4923d707c);
  (Near 0x31e69b1905ea1b 0x11eccbd6f62709 0xb529164fd496bf0 0x41133901d83a963, Near 0x10f4d9bbff0449 0x11eccbd6f62709 0xf63c4f51acd1553 0x1044ce40760ea58c, 0x742c569247ae0f9);
  (Near 0x33d67f4ef42f9b 0x11eccbd6f62709 0x17862c1555d46819 0x82267203b0752c6, Near 0x1170d2c97a95a9 0x11eccbd6f62709 0x1fa8933590dbbadf 0x20899c80ec1d4b18, 0xe858ad248f5c1f2);
  (Near 0x21e9b377fe0892 0x37b647bad0ba9b 0x313f431055c3777 0x50e72ef35ab1b4f, Near 0x10f4d9bbff0449 0x1360b6ff68db29 0x627e8620ab86eee 0x708f1ad65f9ff27, 0x2e7822a0e978d30);
  (Near 0x10f4d9bbff0449 0x37b647bad0ba9b 0x313f431055c3777 0xa1ce5de6b56369e, Near 0x10f4d9bbff0449 0x122ac85db3efb9 0xc4fd0c41570dddc 0xd30da0f70b26e15, 0x5cf04541d2f1a61);
  (Near 0x354a6a7766e3bb 0x245590bb67df72 0x1358c2717b6add03 0xd30da0f70b26e15, Near 0x118fd10cd97a01 0x122ac85db3efb9 0x1980aad386234bf1 0x1a61b41ee164dc2a, 0xb9e08a83a5e34c2);
  (Near 0x3072aff09335fb 0x245590bb67df72 0x384899227618c1d 0x2a35ecfe356e2d1, Near 0xf23f3c96fa321 0x122ac85db3efb9 0x465b4546b6c3569 0x546bd9fc6adc5a2, 0x252ce880bac70f3);
  (Near 0x3072aff09335fb 0x122ac85db3efb9 0x70913244ec3183a 0x2a35ecfe356e2d1, Near 0x10a75e1391c96d 0x122ac85db3efb9 0x9ac71f43219fb0b 0xa8d7b3f8d5b8b44, 0x4a59d101758e1e7);
  (Near 0x33798484d78293 0x122ac85db3efb9 0xef32f93f8c7c0ad 0x546bd9fc6adc5a2, Near 0x11691338a2dc93 0x122ac85db3efb9 0x1439ed33bf75864f 0x151af67f1ab71688, 0x94b3a202eb1c3ce);
  (Near 0x34fceecef9a8df 0x122ac85db3efb9 0x1ec768734cd11193 0xa8d7b3f8d5b8b44, Near 0x11c9edcb2b6626 0x122ac85db3efb9 0x2954e3b2da2c9cd7 0x2a35ecfe356e2d10, 0x129674405d63879c);
  (Near 0x10a75e1391c96d 0x39872dad601bc3 0x1ef49fda39ecbcf 0x6aee744461df3a6, Near 0x10a75e1391c96d 0x128ba2f03c794c 0x7bd27f68e7b2f3c 0x89e3141e9bcbf75, 0x3b7b0d9ac471b1f);
  (Near 0x10a75e1391c96d 0x35bea3f40abc05 0x3de93fb473d979e 0xc7cc53d30fa5713, Near 0x19ed2f8bb00613 0x945d1781e3ca6 0x1818812f06b31ded 0x89e3141e9bcbf75, 0x76f61b3588e363e);
  (Near 0x23330103ce42b9 0x35bea3f40abc05 0x105b59387837eeb1 0x18f98a7a61f4ae26, Near 0x1e901847bf2466 0x4a2e8bc0f1e53 0x38cf339ff722fb4f 0x89e3141e9bcbf75, 0xedec366b11c6c7d);
  (Near 0x33da5f17600c26 0x146fe7cce7292b 0x4d1b36fce23d2c9 0x1e63ee90dcc7656, Near 0x19ed2f8bb00613 0x172e8bac4b979f 0x9a366df9c47a592 0x89e3141e9bcbf75, 0x2f95a47bd05af4c);
  (Near 0x19ed2f8bb00613 0x2e5d1758972f3e 0x4d1b36fce23d2c9 0x89e3141e9bcbf75, Near 0x188ddd9bfdced9 0x172e8bac4b979f 0x1241982186046507 0x113c6283d3797eea, 0x5f2b48f7a0b5e98);
  (Near 0x311bbb37fb9db2 0x172e8bac4b979f 0x1241982186046507 0x89e3141e9bcbf75, Near 0x188ddd9bfdced9 0x17de34a424b33c 0x248330430c08ca0e 0x237dfaa5597de3f1, 0xbe5691ef416bd31);
  (Near 0x19ed2f8bb00613 0x26212bba69e3e2 0x1ed7af985a7edea 0x2d5c05558c4f5b7, Near 0x19ed2f8bb00613 0x167ee2b4727c02 0x7b5ebe6169fb7a8 0x6b0b6486414d18b, 0x261150630d15909);
  (Near 0x19ed2f8bb00613 0x2cfdc568e4f804 0x3daf5f30b4fdbd4 0x6b0b6486414d18b, Near 0x19ed2f8bb00613 0xb3f715a393e01 0xf6bd7cc2d3f6f50 0x6b0b6486414d18b, 0x4c22a0c61a2b213);
  (Near 0x19ed2f8bb00613 0x306c1240228215 0x7b5ebe6169fb7a8 0xe66a22e7ab48933, Near 0x12965072f4a20a 0x1dd5c1cd2de00b 0x161c8e14915440db 0x237dfaa5597de3f1, 0x9845418c3456427);
  (Near 0x252ca0e5e94414 0x306c1240228215 0x161c8e14915440db 0x1ccd445cf5691266, Near 0x94b28397a5105 0x1dd5c1cd2de00b 0x161c8e14915440db 0x46fbf54ab2fbc7e2, 0x1308a831868ac84e);
  (Near 0x19ed2f8bb00613 0x383d36c31e3605 0x315918f3c3fe310 0x6b0b6486414d18b, Near 0x19ed2f8bb00613 0x148a9993b38f06 0xc56463cf0ff8c40 0x9c647d7a054b49b, 0x3ce8809e7b55b42);
  (Near 0x19ed2f8bb00613 0x29153327671e0c 0x62b231e787fc620 0x9c647d7a054b49b, Near 0x19ed2f8bb00613 0xa454cc9d9c783 0x18ac8c79e1ff1880 0x9c647d7a054b49b, 0x79d1013cf6ab685);
  (Near 0x2e77c91f639519 0x148a9993b38f06 0x161c8e14915440db 0x9c647d7a054b49b, Near 0x1c5e8af49eae4e 0xa454cc9d9c783 0x35ff6400c2fd3651 0x138c8faf40a96936, 0xf3a20279ed56d0b);
  (Near 0x56295f7fc770d 0x3ba050229e12b6 0x8332e110222b21 0x5acb0cf1f435b93, Near 0x1c5e8af49eae4e 0x16fbf4fca23741 0xaccad99c0990add 0x8bfe21580105e59, 0x30ba007ec9115cf);
  (Near 0x38bd15e93d5c9c 0x335a7ff140e58f 0xaccad99c0990add 0x9c647d7a054b49b, Near 0xe2f457a4f5727 0x16fbf4fca23741 0xaccad99c0990add 0x117fc42b0020bcb2, 0x617400fd9222b9e);
  (Near 0x1c5e8af49eae4e 0x335a7ff140e58f 0xaccad99c0990add 0x138c8faf40a96936, Near 0xe2f457a4f5727 0x12959d3b78c734 0x15995b33813215ba 0x1c4c71c4c0b9c78f, 0xc2e801fb244573c);
  (Near 0x3e1fabe139d3a9 0x11995f04a5c034 0x4bad48b26bef3a6 0x1570483731b2391, Near 0x1f53459917c34e 0x46657c129700d 0x98a3294753dd5a1 0x1570483731b2391, 0x26fb3398a0dab0c);
  (Near 0x3e1fabe139d3a9 0x8ccaf8252e01a 0x975a9164d7de74c 0x1570483731b2391, Near 0x1cdcaa100831ce 0x46657c129700d 0x11944da927e0ab07 0x2ae0906e6364722, 0x4df6673141b5618);
  (Near 0x3e1fabe139d3a9 0x46657c129700d 0x12eb522c9afbce98 0x1570483731b2391, Near 0xe6e55080418e7 0x12d4acc92d88f4 0x11944da927e0ab07 0x16f05fb6f44d394b, 0x9becce62836ac30);
  (Near 0x214301d131a1db 0x25a959925b11e8 0x144256b00e16f229 0x16f05fb6f44d394b, Near 0x17d8ab6c9add61 0x96a566496c47a 0x3a18fb09440e8f59 0x16f05fb6f44d394b, 0x137d99cc506d5860);
  (Near 0x3cb6cefa15a80f 0x46657c129700d 0x7655e8ef0459cb9 0x893501613e0e3a, Near 0x1d7a50f24c162e 0x46657c129700d 0xe5d0fa0e06c55ab 0x224d40584f838e8, 0x3e5eb8f434911ac);
  (Near 0x3f5af9a5c19c69 0x46657c129700d 0xf6f79a3a2e8721f 0x1126a02c27c1c74, Near 0x1323803a4f7b24 0x1789d7fb78eb31 0x12a6b7abea5cc77b 0x16f05fb6f44d394b, 0x7cbd71e86922359);
  (Near 0x2aad5835c86655 0x2f13aff6f1d662 0x14cb8bb16f550063 0x16f05fb6f44d394b, Near 0x991c01d27bd92 0x1789d7fb78eb31 0x12a6b7abea5cc77b 0x2de0bf6de89a7296, 0xf97ae3d0d2446b3);
  (Near 0x1d7a50f24c162e 0x337a07b81b466f 0x2df69869348ddef 0x5043d8c184116d7, Near 0xebd2879260b17 0x125e6f9f7a9dac 0x5bed30d2691bbde 0x72911919d394fbf, 0x31e560c35d40e23);
  (Near 0xebd2879260b17 0x337a07b81b466f 0x2df69869348ddef 0xa087b1830822dae, Near 0x17ec6048e359ed 0x92f37cfbd4ed6 0x12a6b7abea5cc77b 0x72911919d394fbf, 0x63cac186ba81c47);
  (Near 0x211b9818a0a8c3 0x337a07b81b466f 0xce7e49ec3cb0b9d 0x1410f63061045b5c, Near 0x1c83fc30c20158 0x4979be7dea76b 0x2c7680e971f2deb5 0x72911919d394fbf, 0xc795830d750388f)].

Definition binary64_positive_certs : list (cert * cert) := [
  (Run, Run);
  (Run, Run);
  (Run, Run);
  (Run, Run);
  (Run, Run);
  (Run, Run);
  (Run, Run);
  (Run, Run);
  (Run, Run);
  (Run, Run);
  (Run, Run);
  (Run, Run);
  (Run, Run);
  (Run, Run);
  (Run, Run);
  (Run, Run);
  (Run, Run);
  (Run, Run);
  (Run, Run);
  (Run, Run);
  (Run, Run);
  (Run, Run);
  (Run, Run);
  (Run, Run);
  (Run, Run);
  (Run, Run);
  (Run, Run);
  (Run, Run);
  (Run, Run);
  (Run, Run);
  (Run, Run);
  (Run, Run);
  (Run, Run);
  (Run, Run);
  (Run, Run);
  (Run, Run);
  (Run, Run);
  (Run, Run);
  (Run, Run);
  (Run, Run);
  (Run, Run);
  (Run, Run);
  (Run, Run);
  (Run, Run);
  (Run, Run);
  (Run, Run);
  (Run, Run);
  (Run, Run);
  (Run, Run);
  (Run, Run);
  (Run, Run);
  (Run, Run);
  (Run, Run);
  (Run, Run);
  (Run, Run);
  (Run, Run);
  (Run, Run);
  (Run, Run);
  (Run, Run);
  (Run, Run);
  (Run, Run);
  (Run, Run);
  (Run, Run);
  (Run, Run);
  (Run, Run);
  (Run, Run);
  (Run, Run);
  (Run, Run);
  (Run, Run);
  (Run, Run);
  (Run, Run);
  (Run, Run);
  (Run, Run);
  (Run, Run);
  (Run, Run);
  (Run, Run);
  (Run, Run);
  (Run, Run);
  (Run, Run);
  (Run, Run);
  (Run, Run);
  (Run, Run);
  (Run, Run);
  (Run, Run);
  (Run, Run);
  (Run, Run);
  (Run, Run);
  (Run, Run);
  (Near 0x88ba751992312 0x3bba2c57336e77 0x1616f3b5629faf1 0x9a642bdedec9ce4, Run);
  (Near 0x11174ea3324624 0x3bba2c57336e77 0x1616f3b5629faf1 0x4d3215ef6f64e72, Near 0x445d3a8cc9189 0x1dd162b99b73b8 0x1616f3b5629faf1 0x9a27adc80b35d31);
  (Near 0x27412a54f5b6b5 0x3bba2c57336e77 0xfdad3583b0ce647 0x181fa6dad2cf883a, Near 0xe8254a9eb6d6a 0x18bed5ab0a494b 0x1770d32dde572a9b 0x27fa7a330ddc6e81);
  (Near 0x12c82852b7fef3 0x3bba2c57336e77 0x3caffead1a5222a 0xc0fd36d6967c41d, Near 0x1d04a953d6dad4 0xa3c81011edbe1 0x1770d32dde572a9b 0x844d38297c2a1f3);
  (Near 0x12c82852b7fef3 0x3f1bdfb63ee015 0x1e57ff568d29115 0x65f538d2ef010de, Near 0x12c82852b7fef3 0x147902023db7c2 0x795ffd5a34a4454 0x844d38297c2a1f3);
  (Near 0x3c1a1aa24cc97 0x3f1bdfb63ee015 0x1e57ff568d29115 0x1fdca1c1eab05456, Near 0x3c1a1aa24cc97 0x1fbde700ac1d87 0x795ffd5a34a4454 0x401a210de0abf6bb);
  (Near 0x783435449992e 0x3f1bdfb63ee015 0x1e57ff568d29115 0xfee50e0f5582a2b, Near 0x3c1a1aa24cc97 0x1dad1f060d09bf 0x3caffead1a5222a 0x1df721cc81ddc341);
  (Near 0xf0686a893325c 0x37989c61f546e7 0x1e57ff568d29115 0x7046875c642cc8b, Near 0x3c1a1aa24cc97 0x1d4d30baf3aec6 0x1e57ff568d29115 0xecb22213b493a99);
  (Near 0x1e0d0d512664b8 0x289215b962148b 0x1e57ff568d29115 0x28f74402eb81dbb, Near 0x783435449992e 0x198b8f10cee22f 0x1e57ff568d29115 0x672d115e93b54c2);
  (Near 0x2027a8993254af 0x224243e13e44a6 0xa257415d202620f 0xacf686097e7eeb5, Near 0x783435449992e 0x18a46544e8bb81 0x97b7fcb0c1cd569 0x1f1a508c3becb2d3);
  (Near 0x3e34b5ea58b967 0x21a9b480beff7 0x9d079f06f0f9bbc 0x54fa2562f2c653, Near 0xf0686a893325c 0x112121f09f2253 0x97b7fcb0c1cd569 0xacf686097e7eeb5);
  (Near 0x3e34b5ea58b967 0x435369017dfee 0x4e83cf83787cdde 0x54fa2562f2c653, Near 0x1e0d0d512664b8 0x21a9b480beff7 0x97b7fcb0c1cd569 0xa9f44ac5e58ca6);
  (Near 0xc70f12ede8b7b 0x35f8fb4b920dda 0x4e83cf83787cdde 0x1549d69bccdd1717, Near 0xc70f12ede8b7b 0x13b6b76a53c934 0x13a0f3e0de1f3778 0x1f1a508c3becb2d3);
  (Near 0xc70f12ede8b7b 0x3a2e31dba9edc8 0x2741e7c1bc3e6ef 0xb795cab5dcd7b5b, Near 0xc70f12ede8b7b 0x1afc7da5c906ed 0x9d079f06f0f9bbc 0x1549d69bccdd1717);
  (Near 0x18e1e25dbd16f6 0x2dbd40accb624d 0x2741e7c1bc3e6ef 0x4829f17a104ca36, Near 0xc70f12ede8b7b 0x1d1718edd4f6e4 0x4e83cf83787cdde 0xb795cab5dcd7b5b);
  (Near 0x4f9fa12bf6afe 0x3cab2ee509a347 0x2741e7c1bc3e6ef 0x1de976ea7863a7db, Near 0x27cfd095fb57f 0x1f9415f734ac63 0x4e83cf83787cdde 0x3e470c510c8b36a5);
  (Near 0x9f3f4257ed5fc 0x37b134d24a3849 0x2741e7c1bc3e6ef 0xdbaac372e4fe076, Near 0x27cfd095fb57f 0x1ecf52748d2153 0x2741e7c1bc3e6ef 0x1e618003a3987c82);
  (Near 0x13e7e84afdabf8 0x37b134d24a3849 0x2741e7c1bc3e6ef 0x6dd561b9727f03b, Near 0x4f9fa12bf6afe 0x1ecf52748d2153 0x2741e7c1bc3e6ef 0xf30c001d1cc3e41);
  (Near 0x36ee70023cebfd 0x230687b73f4005 0x21daa570c892dc80 0x15960d043dbf59d5, Near 0x4f9fa12bf6afe 0x1e0c8da47fd507 0xc44986c8ad382ab 0x4a139ba46c29e4a9);
  (Near 0x36ee70023cebfd 0xf1e9f6c41940d 0x10ed52b864496e40 0x4a8ba4bd975eb95, Near 0x9f3f4257ed5fc 0x19129391c06a09 0xc44986c8ad382ab 0x1ee7819bf0ab30ff);
  (Near 0x36ee70023cebfd 0x1e3d3ed883281a 0x876a95c3224b720 0x4a8ba4bd975eb95, Near 0x13e7e84afdabf8 0xf1e9f6c41940d 0xc44986c8ad382ab 0x9517497b2ebd72a);
  (Near 0x36ee70023cebfd 0x3c7a7db1065034 0x43b54ae19125b90 0x4a8ba4bd975eb95, Near 0x18b13129b9c3e3 0xf1e9f6c41940d 0x79bde20b15d9716 0x4a8ba4bd975eb95);
  (Near 0x36ee70023cebfd 0x221179244cd4d6 0x1528a7667d5bc9d0 0xd1f63a80b9aa2b5, Near 0x12f2d9b80b40c9 0x1108bc92266a6b 0x1d31eb24ef1cf0eb 0x1a3ec7501735456a);
  (Near 0x36ee70023cebfd 0xd3482465cbdaf 0xa9453b33eade4e8 0x28b0ff4ccecbdcd, Near 0x14dcf6ddf01727 0x1108bc92266a6b 0x1012877ce3824e36 0xd1f63a80b9aa2b5);
  (Near 0x36ee70023cebfd 0x1a69048cb97b5e 0x54a29d99f56f274 0x28b0ff4ccecbdcd, Near 0x14dcf6ddf01727 0xd3482465cbdaf 0x80943be71c1271b 0x5161fe999d97b9a);
  (Near 0x36ee70023cebfd 0x1b412db6a3dd78 0x1a72d1401cb2bc44 0xd1f63a80b9aa2b5, Near 0x1bad424b990e85 0x6d04b6da8f75e 0x354db6604460663c 0xd1f63a80b9aa2b5);
  (Near 0x36ee70023cebfd 0x36825b6d47baf0 0xd3968a00e595e22 0xd1f63a80b9aa2b5, Near 0x1bad424b990e85 0xda096db51eebc 0x1aa6db302230331e 0xd1f63a80b9aa2b5);
  (Near 0x36ee70023cebfd 0x361646d85289e3 0x69cb450072caf11 0x682af58046df3a4, Near 0x1bad424b990e85 0x1b412db6a3dd78 0xd536d981118198f 0xd1f63a80b9aa2b5);
  (Near 0x36ee70023cebfd 0x2bc6b7c6350f92 0x210f859023df6b55 0x1a58cc4819f400d7, Near 0x10858a0f91321a 0x15e35be31a87c9 0x27c63ed82dcad5d3 0x34b1989033e801ae);
  (Near 0xb27b83c07dc6b 0x361646d85289e3 0x35b5ca404f5b53f 0x1046b65c0b12e11a, Near 0xb27b83c07dc6b 0x15e35be31a87c9 0xd6d729013d6d4fc 0x1a58cc4819f400d7);
  (Near 0x164f70780fb8d6 0x361646d85289e3 0x35b5ca404f5b53f 0x8235b2e0589708d, Near 0xb27b83c07dc6b 0x1577474e2556bc 0x6b6b94809eb6a7e 0xceb59b8061d2bdb);
  (Near 0x2c9ee0f01f71ac 0x1fc6d66042d10d 0x35b5ca404f5b53f 0x263ff450049dda7, Near 0xb27b83c07dc6b 0x1fc6d66042d10d 0x35b5ca404f5b53f 0x98ffd140127769c);
  (Near 0x277ba98360cb06 0x24ea0dcd0177b3 0xeda14760f74db0b 0xde2b7170ac90373, Near 0x13bdd4c1b06583 0x1c53f14758ee9b 0x1db428ec1ee9b616 0x2a9f82a42506e1f1);
  (Near 0x2919bb65f5353 0x3f8dacc085a21a 0x7baeaf8255ebcc 0xbf3fc5901715443, Near 0x13bdd4c1b06583 0x112c390b511230 0xeda14760f74db0b 0xceb59b8061d2bdb);
  (Near 0x2919bb65f5353 0x3ee324b1bc2119 0x3dd757c12af5e6 0x5e9f4c7243f50cd, Near 0x2919bb65f5353 0x1fc6d66042d10d 0xf75d5f04abd798 0xbf3fc5901715443);
  (Near 0x83858adfdd77 0x3fea2fc77bdc07 0x3dd757c12af5e6 0x1e0d769337927fcd, Near 0x83858adfdd77 0x1fc6d66042d10d 0xf75d5f04abd798 0x3bc3edbd0736a54f);
  (Near 0x83858adfdd77 0x3f9c2abfa894f3 0x1eebabe0957af3 0xef463a68e957726, Near 0x83858adfdd77 0x1fb3551e4dff48 0x7baeaf8255ebcc 0x1dcf9f3b766789e7);
  (Near 0x1070b15bfbaee 0x3f9c2abfa894f3 0x1eebabe0957af3 0x77a31d3474abb93, Near 0x83858adfdd77 0x1f8c529a645bbe 0x3dd757c12af5e6 0xed577faadfffc33);
  (Near 0x349bd1265896 0x3fd0c690ceed89 0x1eebabe0957af3 0x2581e4cc450b24d2, Near 0x1a4de8932c4b 0x1ff58a3cb10cea 0x3dd757c12af5e6 0x4b22b5446aabc497);
  (Near 0x6937a24cb12c 0x3fd0c690ceed89 0x1eebabe0957af3 0x12c0f26622859269, Near 0x1a4de8932c4b 0x1ff66eee974ab7 0x1eebabe0957af3 0x2592677695136762);
  (Near 0xd26f44996258 0x3f678eee823c5d 0x1eebabe0957af3 0x951035d20f80bbb, Near 0x349bd1265896 0x1ff66eee974ab7 0x1eebabe0957af3 0x12c933bb4a89b3b1);
  (Near 0x1a4de8932c4b0 0x3e951fa9e8da05 0x1eebabe0957af3 0x4990bd8a0314864, Near 0x6937a24cb12c 0x1fc1d31d70f221 0x1eebabe0957af3 0x9552407b4fa1c5f);
  (Near 0x3f26ffa3b0a261 0x3d82211a7dddb1 0x1732d13dba1d3e92 0x169836e25731d7d3, Near 0x6937a24cb12c 0x1fea7b74ec0951 0x9a9a5b62eb66bf 0x2ee571d58a927994);
  (Near 0x3f26ffa3b0a261 0x3bdd42914b1901 0xb99689edd0e9f49 0xafece437a23388a, Near 0xd26f44996258 0x1fea7b74ec0951 0x9a9a5b62eb66bf 0x1772b8eac5493cca);
  (Near 0x6937a24cb12c0 0x3bdd42914b1901 0x9a9a5b62eb66bf 0x57f6721bd119c45, Near 0x1a4de8932c4b0 0x1fea7b74ec0951 0x9a9a5b62eb66bf 0xbb95c7562a49e65);
  (Near 0x33d64b571c5274 0x253bd9f8227927 0x17cd6b991d08a551 0x1118cfc09a203b8e, Near 0xcf592d5c7149d 0x184647225b648a 0x17cd6b991d08a551 0x2c95d3694b7848e7);
  (Near 0x1d34e2bdf3b29a 0x253bd9f8227927 0x6b49bd882e869c3 0x88c67e04d101dc7, Near 0x19eb25ab8e293a 0xb50b44c944fed 0x17cd6b991d08a551 0xa6433e81737d1cb);
  (Near 0x3a69c57be76534 0x806f73a2ec68d 0x6b49bd882e869c3 0xebe603e513da02, Near 0xe9a715ef9d94d 0x16a16899289fda 0x6b49bd882e869c3 0xa6433e81737d1cb);
  (Near 0x338bff1fa1fb4b 0xee4bd96743076 0x1d96216dbadd3512 0x88c67e04d101dc7, Near 0x1d7f2ef56e09c3 0x7725ecb3a183b 0x43b8aabbc2ca87eb 0x1118cfc09a203b8e);
  (Near 0x338bff1fa1fb4b 0x1dc97b2ce860ec 0xecb10b6dd6e9a89 0x88c67e04d101dc7, Near 0x1d34e2bdf3b29a 0x7725ecb3a183b 0x21870b3a8e8a10cf 0x88c67e04d101dc7);
  (Near 0x15c283f2b99a5f 0x3b92f659d0c1d8 0x31f546b482f3e61 0x88c67e04d101dc7, Near 0x15c283f2b99a5f 0xee4bd96743076 0xc7d51ad20bcf984 0x88c67e04d101dc7);
  (Near 0x2b8507e57334be 0x25d07267172779 0x31f546b482f3e61 0x2b689ba82706fb3, Near 0x15c283f2b99a5f 0x1dc97b2ce860ec 0x63ea8d6905e7cc2 0x88c67e04d101dc7);
  (Near 0x3aa535a8494488 0x79016e16b07e5 0x1509b98d6dcd174b 0x2b689ba82706fb3, Near 0x1639644b7d5907 0x1dc97b2ce860ec 0x1fe3e077778ed617 0x2abe0761815094e3);
  (Near 0x33151ec6de3ca3 0xf202dc2d60fca 0x92997e975ae53cc 0x2b689ba82706fb3, Near 0x1d529ad424a244 0x79016e16b07e5 0x1509b98d6dcd174b 0x56d137504e0df66);
  (Near 0x33151ec6de3ca3 0x1e405b85ac1f94 0x494cbf4bad729e6 0x2b689ba82706fb3, Near 0x1c64da229d24f4 0x79016e16b07e5 0xa2f92a3640b587f 0x2b689ba82706fb3);
  (Near 0x3ce6a130317729 0x32af34a20504a2 0x1b4f1482bcb7ac31 0x16ba488e01e0824b, Near 0x11c7836f977a6c 0x19579a51028251 0x1fe3e077778ed617 0x2d74911c03c10496);
  (Near 0xa376c8e2c7287 0x3c80b70b583f28 0x24a65fa5d6b94f3 0xd90b0a48c322e7f, Near 0xa376c8e2c7287 0x19579a51028251 0x92997e975ae53cc 0x16ba488e01e0824b);
  (Near 0x146ed91c58e50e 0x32494a7d2bcca1 0x24a65fa5d6b94f3 0x5a3255517634cc6, Near 0xa376c8e2c7287 0x1e405b85ac1f94 0x494cbf4bad729e6 0xd90b0a48c322e7f);
  (Near 0x1e7d819bc80dfb 0x288c2a1b3736e8 0x11172338ea7d3585 0x16ba488e01e0824b, Near 0x1e7d819bc80dfb 0xa230a86cdcdba 0x445c8ce3a9f4d614 0x16ba488e01e0824b);
  (Near 0x3cfb0337901bf6 0xa0ea87f6f28ed 0x11172338ea7d3585 0x2d192aa8bb1a663, Near 0x1e7d819bc80dfb 0x1446150d9b9b74 0x222e4671d4fa6b0a 0x16ba488e01e0824b);
  (Near 0x32ec5ab820f309 0x141d50fede51da 0x722c8472f65c791 0x2d192aa8bb1a663, Near 0x1e7d819bc80dfb 0xa0ea87f6f28ed 0x11172338ea7d3585 0x5a3255517634cc6);
  (Near 0x1ecf09b942a12f 0x283aa1fdbca3b4 0x2289ace51da1097 0x2d192aa8bb1a663, Near 0x1ecf09b942a12f 0xa0ea87f6f28ed 0x8a26b394768425c 0x2d192aa8bb1a663);
  (Near 0x62968584086a3 0x3ab6db067e379d 0x2289ace51da1097 0x1491adbfb00671b4, Near 0x1661792ff03633 0x103810d7afaf90 0x1f5cb3c74948c4a7 0x16ba488e01e0824b);
  (Near 0xc52d0b0810d46 0x3ab6db067e379d 0x2289ace51da1097 0xa48d6dfd80338da, Near 0x62968584086a3 0x1a46b9571ed87d 0x451359ca3b4212e 0x126912f15e2c611d);
  (Near 0x18a5a161021a8c 0x3ab6db067e379d 0x2289ace51da1097 0x5246b6fec019c6d, Near 0x62968584086a3 0x1be7d14d3b966e 0x2289ace51da1097 0x9c6a7b816c41ec1);
  (Near 0x4eded1366d21c 0x3fa4c819e509b9 0x2289ace51da1097 0x1bdeb3fdede21eb8, Near 0x13b7b44d9b487 0x1f9a431bc8b403 0x2289ace51da1097 0x375b17036762cb8a);
  (Near 0x9dbda26cda438 0x3fa4c819e509b9 0x2289ace51da1097 0xdef59fef6f10f5c, Near 0x276f689b3690e 0x1f9a431bc8b403 0x2289ace51da1097 0x1bad8b81b3b165c5);
  (Near 0x13b7b44d9b4870 0x3fa4c819e509b9 0x2289ace51da1097 0x6f7acff7b7887ae, Near 0x4eded1366d21c 0x1d234c92154af5 0x2289ace51da1097 0xcc27859b0ebaa97);
  (Near 0x39e75f9057e7df 0xcba8e6b943525 0x1fb20d060babe9fd 0x6f7acff7b7887ae, Near 0x1e6309ea8f3c66 0xcba8e6b943525 0x42886e0375069063 0x1bdeb3fdede21eb8);
  (Near 0x3429f706cac605 0xcba8e6b943525 0xe46dc8756fe96ca 0x37bd67fbdbc43d7, Near 0x1696689261d95d 0xcba8e6b943525 0x18ba60069033624f 0xdef59fef6f10f5c);
  (Near 0x3429f706cac605 0x19751cd7286a4a 0x7236e43ab7f4b65 0x37bd67fbdbc43d7, Near 0x13b7b44d9b4870 0xcba8e6b943525 0xacb0607994252f3 0x6f7acff7b7887ae);
  (Near 0x1ab4da2fa25bbb 0x32ea39ae50d494 0x1d3cbe1f6e183c7 0x37bd67fbdbc43d7, Near 0x1ab4da2fa25bbb 0xcba8e6b943525 0x74f2f87db860f1c 0x37bd67fbdbc43d7);
  (Near 0x39416331d2db47 0xa2ed856102a84 0x13967ee90b9c5e68 0x37bd67fbdbc43d7, Near 0x1fcc465aaa70fd 0x28bb615840aa1 0x2b839aa6c516d33a 0x37bd67fbdbc43d7);
  (Near 0x39416331d2db47 0x145db0ac205508 0x9cb3f7485ce2f34 0x37bd67fbdbc43d7, Near 0x1fcc465aaa70fd 0x5176c2b081542 0x15c1cd53628b699d 0x37bd67fbdbc43d7);
  (Near 0x39416331d2db47 0x28bb615840aa10 0x4e59fba42e7179a 0x37bd67fbdbc43d7, Near 0x1ab4da2fa25bbb 0xa2ed856102a84 0x922fb69d26792e3 0x37bd67fbdbc43d7);
  (Near 0x342edb956ad5eb 0x28bb615840aa10 0x1650d038f7946acd 0x116b307eb4ad5333, Near 0x1fd12ae94a80e3 0xa2ed856102a84 0x366cdfe674f704ce 0x116b307eb4ad5333);
  (Near 0xb737a3d2a2bdb 0x3a8fce362cfc6a 0x272cfdd21738bcd 0xc8590c471c63b99, Near 0x1fd12ae94a80e3 0x145db0ac205508 0x1b366ff33a7b8267 0x116b307eb4ad5333);
  (Near 0x16e6f47a5457b6 0x2f1c53f902d08f 0x272cfdd21738bcd 0x5096073a82957e6, Near 0xb737a3d2a2bdb 0x1d47e71b167e35 0x4e59fba42e7179a 0xc8590c471c63b99);
  (Near 0x29bf16112244bc 0x332b26dc893b3f 0x1650d038f7946acd 0x1b5a30ac9fbdc2b3, Near 0xa6fc58448912f 0x1e4b9bd3f818e1 0x1650d038f7946acd 0x40c722408fce3532);
  (Near 0x3739f9c00fa5ef 0x96c10cb66f683 0xec2bf8b7b5666f4 0x284b039d414abf3, Near 0x14df8b0891225e 0x1e4b9bd3f818e1 0x1650d038f7946acd 0x2063912047e71a99);
  (Near 0x3739f9c00fa5ef 0x12d82196cded06 0x7615fc5bdab337a 0x284b039d414abf3, Near 0x16e6f47a5457b6 0x96c10cb66f683 0xc3e0f51a741bb01 0x5096073a82957e6);
  (Near 0x3739f9c00fa5ef 0x25b0432d9bda0c 0x3b0afe2ded599bd 0x284b039d414abf3, Near 0x1af5c75ddac266 0x96c10cb66f683 0x734aeddff18631b 0x284b039d414abf3);
  (Near 0x3ec3a0c92ed18b 0x789a7091f2b9c 0x14f81fa82e40aca4 0x284b039d414abf3, Near 0x1eba9ae26a5834 0x1e269c247cae7 0x2910cac9a3a3476d 0x284b039d414abf3);
  (Near 0x3ec3a0c92ed18b 0xf134e123e5738 0xa7c0fd417205652 0x284b039d414abf3, Near 0x1cd83120228d4d 0x3c4d3848f95ce 0x13460d47e7c74dbd 0x284b039d414abf3);
  (Near 0x3ec3a0c92ed18b 0x1e269c247cae70 0x53e07ea0b902b29 0x284b039d414abf3, Near 0x19135d9b92f77f 0x789a7091f2b9c 0x860ae8709d950e5 0x284b039d414abf3);
  (Near 0x3ec3a0c92ed18b 0x607b8d418efb0 0x1a36279239d0d7cd 0x284b039d414abf3, Near 0x1f1b166fabe72f 0x181ee35063bec 0x33f6298a81914445 0x284b039d414abf3);
  (Near 0x38bbe7f515e1db 0xc0f71a831df60 0xbd8bbac32de15ed 0x284b039d414abf3, Near 0x1d99283aa5ab43 0x303dc6a0c77d8 0x18b8bca856be4c29 0x284b039d414abf3);
  (Near 0x2cac764ce4027b 0x181ee35063bec0 0x4aa05b92f64b4fd 0x284b039d414abf3, Near 0x1a954bd099336b 0x607b8d418efb0 0xb1a06374154d01b 0x284b039d414abf3);
  (Near 0xdc2451f74c03f 0x33a36d8f4d3f3e 0x72eb5f3037960f0 0x1af4dd072b5a1d9f, Near 0xdc2451f74c03f 0x13c9fdf38dafef 0x1cbad7cc0de583c0 0x295248ed324cdf7f);
  (Near 0xdc2451f74c03f 0x3e000bc03c3dbf 0x3975af981bcb078 0x102ecc1aa6240c37, Near 0xdc2451f74c03f 0x19d1b6c7a69f9f 0xe5d6be606f2c1e0 0x1af4dd072b5a1d9f);
  (Near 0xdc2451f74c03f 0x3734bde330ba43 0x1cbad7cc0de583c 0x73468aae1cc530b, Near 0xdc2451f74c03f 0x181ee35063bec0 0x72eb5f3037960f0 0xc97712124675bbf);
  (Near 0xdc2451f74c03f 0x376067488e738a 0xe5d6be606f2c1e 0x39d0db1600fa293, Near 0xdc2451f74c03f 0x14b93c61ddfd02 0x3975af981bcb078 0x568bb2e20edfacf);
  (Near 0xdc2451f74c03f 0x3c9b73e6273198 0x47d31b7e22bdc96 0x13c6271427e0bcaf, Near 0xdc2451f74c03f 0x1ce92218fe8ca5 0x11f4c6df88af7258 0x25baedf3b0902f07);
  (Near 0xdc2451f74c03f 0x346b8e2f06a1f5 0x23e98dbf115ee4b 0x88d2ac872731538, Near 0xdc2451f74c03f 0x1e4db9f31398cc 0x8fa636fc457b92c 0x13c6271427e0bcaf);
  (Near 0x1b848a3ee9807e 0x346b8e2f06a1f5 0x23e98dbf115ee4b 0x446956439398a9c, Near 0xdc2451f74c03f 0x1354a487c8f0db 0x47d31b7e22bdc96 0x64e91ec815d26ed);
  (Near 0x1b848a3ee9807e 0x2600737b846daf 0xb38fc4bb56da777 0xf7f91afeea73213, Near 0xdc2451f74c03f 0x19e15c4d7c96f7 0x1671f8976adb4eee 0x2a381fab92bc0b9d);
  (Near 0x3709147dd300fc 0xa7be93c9aed31 0xb38fc4bb56da777 0x2234ab21c9cc54e, Near 0xdc2451f74c03f 0x183e2e5c0fad70 0xb38fc4bb56da777 0x13c6271427e0bcaf);
  (Near 0x39a69acc9f6003 0xa7be93c9aed31 0x5e0c18e6de5ba34 0x111a5590e4e62a7, Near 0x1b848a3ee9807e 0xa7be93c9aed31 0xb38fc4bb56da777 0x446956439398a9c);
  (Near 0x181c6a0b402fd5 0x3ab4bd531b4cdb 0xc4aa1a4c3bc0a1e 0x1ded7e06cf00017f, Near 0x181c6a0b402fd5 0x14b449d796df2c 0x312a86930ef02878 0x2a381fab92bc0b9d);
  (Near 0x181c6a0b402fd5 0x2d143c84760a37 0x62550d261de050f 0xb7d8b8fa965f252, Near 0x181c6a0b402fd5 0x114c29a3ed8e83 0x189543498778143c 0x11a2dc620b43f761);
  (Near 0x3038d416805faa 0x2d143c84760a37 0x62550d261de050f 0x5bec5c7d4b2f929, Near 0x181c6a0b402fd5 0xa7be93c9aed31 0xc4aa1a4c3bc0a1e 0x5583abd4787ed43);
  (Near 0x32497920a5573 0x3ddf24e68f1363 0x334585469585f3 0x3f154185971439e, Near 0x181c6a0b402fd5 0x14f7d27935da62 0x62550d261de050f 0x5583abd4787ed43);
  (Near 0x393ce030fe61b5 0x12081834fc0416 0x123cacf1df04893a 0x5bec5c7d4b2f929, Near 0x181c6a0b402fd5 0x9040c1a7e020b 0x1eba941be956194b 0xb7d8b8fa965f252);
  (Near 0x393ce030fe61b5 0x24103069f8082c 0x91e5678ef82449d 0x5bec5c7d4b2f929, Near 0x1e30bbe1845b94 0x9040c1a7e020b 0x133d088c3ff026f9 0x5bec5c7d4b2f929);
  (Near 0x152cafc7065989 0x32f3b10ce9b6cf 0x1afc8588d67a5ba 0x40efd6f474b536f, Near 0x152cafc7065989 0x12081834fc0416 0x6bf2162359e96e8 0x5bec5c7d4b2f929);
  (Near 0x3206701bccc679 0xe6ce02a633678 0x13ec754a6c6c2ef4 0x5bec5c7d4b2f929, Near 0x1ffe57e6d0c263 0x39b380a98cd9e 0x32f7f8428a31de03 0x5bec5c7d4b2f929);
  (Near 0x3206701bccc679 0x1cd9c054c66cf0 0x9f63aa53636177a 0x5bec5c7d4b2f929, Near 0x1c631fdc37f4c5 0x7367015319b3c 0x169c993d5abf726d 0x5bec5c7d4b2f929);
  (Near 0x3206701bccc679 0x39b380a98cd9e0 0x4fb1d529b1b0bbd 0x5bec5c7d4b2f929, Near 0x152cafc7065989 0xe6ce02a633678 0x86ee9bac3063ca2 0x5bec5c7d4b2f929);
  (Near 0x3206701bccc679 0x1f8ce02d07ae2a 0x18e7929d07873ab1 0xfb5006d0ae910a3, Near 0x11200002a477b2 0xfc6701683d715 0x221a24cd042564bf 0x1f6a00da15d22146);
  (Near 0x12798feec5184f 0x3f19c05a0f5c54 0x4994917fe4f1507 0xfb5006d0ae910a3, Near 0x12798feec5184f 0xfc6701683d715 0x1265245ff93c541c 0xfb5006d0ae910a3);
  (Near 0x24f31fdd8a309e 0x2ca0306b4a4405 0x4994917fe4f1507 0x58ddbaa864cfdce, Near 0x12798feec5184f 0x1f8ce02d07ae2a 0x932922ffc9e2a0e 0xfb5006d0ae910a3);
  (Near 0x763d32c4ed686 0x3b67d6c3e7f111 0x4994917fe4f1507 0x24f7dc849c1f1f14, Near 0x3b1e996276b43 0x1f8ce02d07ae2a 0x932922ffc9e2a0e 0x4e890221368d532f);
  (Near 0xec7a6589dad0c 0x3b67d6c3e7f111 0x4994917fe4f1507 0x127bee424e0f8f8a, Near 0x3b1e996276b43 0x1dd88a12ac96f9 0x4994917fe4f1507 0x2525704945c595f0);
  (Near 0x1d8f4cb13b5a18 0x3b67d6c3e7f111 0x4994917fe4f1507 0x93df7212707c7c5, Near 0x763d32c4ed686 0x1dd88a12ac96f9 0x4994917fe4f1507 0x1292b824a2e2caf8);
  (Near 0x3b1e996276b430 0x1dd88a12ac96f9 0x4994917fe4f1507 0x2525704945c595f, Near 0xec7a6589dad0c 0x1dd88a12ac96f9 0x4994917fe4f1507 0x9495c125171657c);
  (Near 0x2970de0b9cf0b5 0x17c322b4c32d3a 0x101e324c8f499874 0x93df7212707c7c5, Near 0x1aa937b2ff43a9 0xbe1915a61969d 0x297a5bba459af8ad 0x127bee424e0f8f8a);
  (Near 0x2970de0b9cf0b5 0x2f864569865a74 0x80f192647a4cc3a 0x93df7212707c7c5, Near 0x1d8f4cb13b5a18 0xbe1915a61969d 0x16fe6d77f78b6923 0x93df7212707c7c5);
  (Near 0x2970de0b9cf0b5 0x359bacc76fc433 0x4078c9323d2661d 0x5366a8e033561a8, Near 0x11adbb56d9c37b 0x17c322b4c32d3a 0x6e03b2b6841d0af 0x93df7212707c7c5);
  (Near 0x3c736035d2ae7d 0x1302822a35bdc8 0x1d63b600da23c656 0x93df7212707c7c5, Near 0x1fef9cf68211d1 0x4c0a08a8d6f72 0x3e1b0d3c7e606aba 0x93df7212707c7c5);
  (Near 0x3c736035d2ae7d 0x260504546b7b90 0xeb1db006d11e32b 0x93df7212707c7c5, Near 0x1fef9cf68211d1 0x98141151adee4 0x1f0d869e3f30355d 0x93df7212707c7c5);
  (Near 0x166e5be16732ed 0x359bacc76fc433 0x2b9f1efa3050db3 0x68405318402ba12, Near 0x166e5be16732ed 0x1302822a35bdc8 0xae7c7be8c1436cc 0x93df7212707c7c5);
  (Near 0x34d8c5be89fc2d 0xf3534ee9164a0 0x201da7f07d28d409 0x93df7212707c7c5, Near 0x1e08f658afe53d 0x3cd4d3ba45928 0x4902d4fb0a74a186 0x93df7212707c7c5);
  (Near 0x25a390cff8978d 0x1e6a69dd22c940 0xb6fd867ab108622 0x93df7212707c7c5, Near 0x1e08f658afe53d 0x79a9a7748b250 0x24816a7d853a50c3 0x93df7212707c7c5);
  (Near 0x25a390cff8978d 0x3cd4d3ba459280 0x5b7ec33d5884311 0x93df7212707c7c5, Near 0x166e5be16732ed 0xf3534ee9164a0 0xda1b9ae2f19447f 0x93df7212707c7c5);
  (Near 0x3415deb5a43427 0x173142ea4cfaf3 0x3f4e6bd2cc880b7 0x1c30576a8bfc25a, Near 0x73926f2d5ce4d 0x1e6a69dd22c940 0x231e1468408be5d 0x93df7212707c7c5);
  (Near 0x22bfe7a209783b 0x3fb87ce834b1d2 0xd32ddde53d0487c 0x1833da762397d29b, Near 0x171d496f78fa9 0x1fdc3e741a58e9 0x231e1468408be5d 0x3067b4ec472fa536);
  (Near 0x22bfe7a209783b 0x39f12a8c56732e 0x6996eef29e8243e 0xb00fc97cfc78a1f, Near 0x2e3a92def1f52 0x1fdc3e741a58e9 0x231e1468408be5d 0x1833da762397d29b);
  (Near 0x22bfe7a209783b 0x2e6285d499f5e6 0x34cb77794f4121f 0x4678da8a5df65e1, Near 0x5c7525bde3ea4 0x1cf895462b3997 0x231e1468408be5d 0xb00fc97cfc78a1f);
  (Near 0x22bfe7a209783b 0x1e20728bbe12eb 0x107f9555e8c45a9b 0xe4db40f64bb9c3e, Near 0x127dd4592d954 0x1f484fd150ec3f 0x231e1468408be5d 0x3b68b18416f72f55);
  (Near 0x275f5cb854dd8b 0x1e20728bbe12eb 0x958bb4e36668c7c 0x726da07b25dce1f, Near 0x24fba8b25b2a8 0x1e20728bbe12eb 0x231e1468408be5d 0x1c9b681ec977387c);
  (Near 0x275f5cb854dd8b 0x3c40e5177c25d6 0x4ac5da71b33463e 0x726da07b25dce1f, Near 0x49f75164b6550 0x1e20728bbe12eb 0x231e1468408be5d 0xe4db40f64bb9c3e);
  (Near 0x13ecd9f65d00ad 0x3c40e5177c25d6 0xbd337aecd91145d 0x23c242267bd5069b, Near 0x13ecd9f65d00ad 0x1906a6410d89cc 0x2f4cdebb36445174 0x3b68b18416f72f55);
  (Near 0x27d9b3ecba015a 0x28540b211f2529 0xbd337aecd91145d 0xbf7853bd721f91f, Near 0x13ecd9f65d00ad 0x1e20728bbe12eb 0x17a66f5d9b2228ba 0x23c242267bd5069b);
  (Near 0x3fee2a186a6505 0x7a57346523cf 0x97c3817afba55dc 0x1226c684c87261, Near 0x13ecd9f65d00ad 0x1467312ac2247c 0xbd337aecd91145d 0xc1bd2c8e0b2dde1);
  (Near 0x3fee2a186a6505 0xf4ae68ca479e 0x4be1c0bd7dd2aee 0x1226c684c87261, Near 0x1fb9e97202a09b 0x7a57346523cf 0x96a11512af1e37b 0x244d8d0990e4c2);
  (Near 0x3f2fea6f16a3fe 0x10092635f83ae7 0x176ffb0a0cc8d197 0x5f2af3aa92cc35f, Near 0x17d08db6c1c673 0x10092635f83ae7 0x2355597f5f225855 0x17cabceaa4b30d7c);
  (Near 0x2f26c4391e6917 0x20124c6bf075ce 0x8bea5e7b1ce071c 0x5f2af3aa92cc35f, Near 0x1f97f5378b51ff 0x10092635f83ae7 0x176ffb0a0cc8d197 0xbe55e75525986be);
  (Near 0x2f26c4391e6917 0x10fdd49ec28285 0x45f52f3d8e7038e 0x1935c46d045bfd1, Near 0x1f1d9e03262e30 0x10092635f83ae7 0xb8a9c94ba6f4ad9 0x5f2af3aa92cc35f);
  (Near 0x23166461c67343 0x1d0e34761a7859 0x1044b1692b408a4c 0xd78babc229f468f, Near 0x130d3e2bce385c 0x10092635f83ae7 0x2355597f5f225855 0x1dbd6c254ddfd0db);
  (Near 0x23166461c67343 0x3a1c68ec34f0b2 0x82258b495a04526 0xd78babc229f468f, Near 0x30417f5d5fd75 0x1d0e34761a7859 0x2cbf6ad08a143bd 0x1af17578453e8d1e);
  (Near 0x23166461c67343 0x2e0c0914dcfade 0x4112c5a4ad02293 0x55662078cff0169, Near 0x6082febabfaea 0x1d0e34761a7859 0x2cbf6ad08a143bd 0xd78babc229f468f);
  (Near 0x23166461c67343 0x25478552648e62 0x1455ddc37610acdf 0x159b1370b83f8bb5, Near 0x83950dc4a1609 0x1add13857c5d3a 0x1310a81633e1ce09 0x3e46cef7a460e573);
  (Near 0x3f9965f1b29529 0x23120f09e1b1f 0x126e0d3f92ca5e9e 0xa29ad6a1176f6b, Near 0x1072a1b8942c12 0x12a3c2a9324731 0x1310a81633e1ce09 0x159b1370b83f8bb5);
  (Near 0x3f9965f1b29529 0x46241e13c363e 0x937069fc9652f4f 0xa29ad6a1176f6b, Near 0x1eb422808a3d05 0x23120f09e1b1f 0x11cb7268f1b2ef33 0x14535ad422eded6);
  (Near 0x3b372410765eeb 0x8c483c2786c7c 0x44a35e49426dff2 0xa29ad6a1176f6b, Near 0x1eb877d86efe58 0x23120f09e1b1f 0x8e6faac226ad759 0xa29ad6a1176f6b);
  (Near 0x34a20581da26a0 0xf59a25114a4c7 0x1310a81633e1ce09 0x58f6b91d655bec8, Near 0xd2881607689a8 0x1c8223b18b2e6f 0x1310a81633e1ce09 0x294e565d8d38c929);
  (Near 0x3b372410765eeb 0xf59a25114a4c7 0xab986bb72612fdd 0x2c7b5c8eb2adf64, Near 0x1a5102c0ed1350 0xf59a25114a4c7 0x1310a81633e1ce09 0xb1ed723acab7d90);
  (Near 0x3907bedc9a2aba 0xf59a25114a4c7 0x52a1b299c0b7115 0x163dae475956fb2, Near 0x15eec0dfb0dd12 0xf59a25114a4c7 0x7f1d0f287365079 0x58f6b91d655bec8);
  (Near 0x3f2b99636f3970 0x311ed436a875b 0x1c9a3d98f76414cd 0x163dae475956fb2, Near 0x1f2488a9f07323 0x311ed436a875b 0x386757722710ceb5 0x58f6b91d655bec8);
  (Near 0x3ddebc3f215869 0x311ed436a875b 0xe01c33a24c30000 0xb1ed723acab7d9, Near 0x1f95ccb1b79cb8 0x311ed436a875b 0x1c9a3d98f76414cd 0x2c7b5c8eb2adf64);
  (Near 0x3ddebc3f215869 0x623da86d50eb6 0x700e19d12618000 0xb1ed723acab7d9, Near 0x1d66677ddb6887 0x311ed436a875b 0xd4fd5c7e9f84827 0x163dae475956fb2);
  (Near 0x3d7e93767bedc5 0x623da86d50eb6 0x22cdfb76420e39e8 0x379a33b25f5973d, Near 0x1d36531988b335 0x311ed436a875b 0x422253b15e26dc93 0x6f346764beb2e7a);
  (Near 0x3d7e93767bedc5 0xc47b50daa1d6c 0x1166fdbb21071cf4 0x379a33b25f5973d, Near 0x1ecb4ed452a437 0x311ed436a875b 0x22db969d08848b6e 0x379a33b25f5973d);
  (Near 0x3d7e93767bedc5 0x188f6a1b543ad8 0x8b37edd90838e7a 0x379a33b25f5973d, Near 0x1ecb4ed452a437 0x623da86d50eb6 0x116dcb4e844245b7 0x379a33b25f5973d);
  (Near 0x3d7e93767bedc5 0x311ed436a875b0 0x459bf6ec841c73d 0x379a33b25f5973d, Near 0x18a7744d7d9581 0xc47b50daa1d6c 0x6fa1409af26573d 0x379a33b25f5973d);
  (Near 0x161f7b22a0e0b1 0x311ed436a875b0 0x7d362a9ee375e7a 0x11603027bdcbf431, Near 0x161f7b22a0e0b1 0xc47b50daa1d6c 0x1f4d8aa7b8dd79e8 0x11603027bdcbf431);
  (Near 0x161f7b22a0e0b1 0x35feb2280f29fe 0x3e9b154f71baf3d 0x98ccd7dcf9495b7, Near 0x161f7b22a0e0b1 0x188f6a1b543ad8 0xfa6c553dc6ebcf4 0x11603027bdcbf431);
  (Near 0x2c3ef64541c162 0x1fdf37056e494d 0x3e9b154f71baf3d 0x2d18e146c3c733d, Near 0x161f7b22a0e0b1 0x1aff59140794ff 0x7d362a9ee375e7a 0x98ccd7dcf9495b7);
  (Near 0x2c3ef64541c162 0x20ec052aa3e917 0x139076a8d38a6c31 0xe8ea213518f80f4, Near 0x161f7b22a0e0b1 0x1b85c026a264e4 0x2720ed51a714d862 0x30adbacf76a96e19);
  (Near 0x3791e75fdf99ad 0x20ec052aa3e917 0xc49259f2ac2abb7 0x7475109a8c7c07a, Near 0x161f7b22a0e0b1 0xacc8a08030866 0x139076a8d38a6c31 0x98ccd7dcf9495b7);
  (Near 0x2d4bc46a77612c 0x20ec052aa3e917 0x501d49581faeb3d 0x3a3a884d463e03d, Near 0xb52f11a9dd84b 0x159914100610cc 0x501d49581faeb3d 0x98ccd7dcf9495b7);
  (Near 0x372661b763c029 0x20ec052aa3e917 0x1e7b703750b60ce8 0x12324a9825f36131, Near 0xb1d2e465feb89 0x160499b881ea50 0x18924b3e5585576e 0x30adbacf76a96e19);
  (Near 0x372661b763c029 0xab1a89de41205 0xf3db81ba85b0674 0x2f4927c7d985abd, Near 0xb1d2e465feb89 0x15ced6e443fd8e 0xc49259f2ac2abb7 0x181b6f91212416ab);
  (Near 0x372661b763c029 0x1563513bc8240a 0x79edc0dd42d833a 0x2f4927c7d985abd, Near 0x163a5c8cbfd712 0xab1a89de41205 0xc49259f2ac2abb7 0x5e924f8fb30b57a);
  (Near 0x372661b763c029 0x2ac6a277904814 0x3cf6e06ea16c19d 0x2f4927c7d985abd, Near 0x171167ddb78a1a 0xab1a89de41205 0x66000a62f91f63d 0x2f4927c7d985abd);
  (Near 0xb07ad24ad8cd5 0x35ce4f9c3dd4e9 0x3cf6e06ea16c19d 0x12964a755e10874e, Near 0xb07ad24ad8cd5 0x15b955c2919eda 0xf3db81ba85b0674 0x1e04948a1c54cc25);
  (Near 0x160f5a495b19aa 0x35ce4f9c3dd4e9 0x3cf6e06ea16c19d 0x94b253aaf0843a7, Near 0xb07ad24ad8cd5 0x1563513bc8240a 0x79edc0dd42d833a 0xec6dc6e73f9c5b1);
  (Near 0x2c1eb492b63354 0x1fbef552e2bb3f 0x3cf6e06ea16c19d 0x2bddb99e278c105, Near 0xb07ad24ad8cd5 0x1fbef552e2bb3f 0x3cf6e06ea16c19d 0xaf76e6789e30414);
  (Near 0x2c1eb492b63354 0x20d2370234443f 0x130d26229271c811 0xe2c25aea0bd05dc, Near 0xb07ad24ad8cd5 0x15ca89dd86b76a 0x130d26229271c811 0x25a37097f0824f5f);
  (Near 0x376b3223382269 0x20d2370234443f 0xbf7134b42134523 0x71612d7505e82ee, Near 0x160f5a495b19aa 0xac2dcb8d92a95 0x130d26229271c811 0x94b253aaf0843a7);
  (Near 0x2d31f64207bc54 0x20d2370234443f 0x4e10073f1b4c235 0x38b096ba82f4177, Near 0xb4c7d9081ef15 0x1585b971b2552a 0x4e10073f1b4c235 0x94b253aaf0843a7);
  (Near 0x29dc350f690383 0x20d2370234443f 0x16982f8e3aa10988 0x11b72f1a48ec4753, Near 0x2427f834d2fd1 0x1e8fb77ee7146e 0x4e10073f1b4c235 0x41fbbbf531fc5b17);
  (Near 0x29dc350f690383 0x17c838f4ff84fb 0xb4c17c71d5084c4 0x66b17532b9bc28f, Near 0x484ff069a5fa2 0x1c4d37fb99e49d 0x4e10073f1b4c235 0x1e8d5dc0a023cc71);
  (Near 0x29dc350f690383 0x2f9071e9ff09f6 0x5a60be38ea84262 0x66b17532b9bc28f, Near 0x909fe0d34bf44 0x17c838f4ff84fb 0x4e10073f1b4c235 0xcd62ea65737851e);
  (Near 0x29dc350f690383 0x3544aec4951069 0x2d305f1c7542131 0x39811616447a15e, Near 0x1213fc1a697e88 0x17c838f4ff84fb 0x4e10073f1b4c235 0x66b17532b9bc28f);
  (Near 0x29dc350f690383 0x23c50f96f66bca 0xe1f1db8e4a4a5f5 0xc112336ba4404f1, Near 0xbfcd6a1f6e6cf 0x1ddf5e6d721cb4 0x102d183b0f0546f9 0x284f5ea8838d50db);
  (Near 0x61725787297b9 0x3b5bd43d07a822 0x106fd4115305082 0xa0328b48fe363ed, Near 0x17f9ad43edcd9e 0x11e287cb7b35e5 0x102d183b0f0546f9 0xc112336ba4404f1);
  (Near 0x61725787297b9 0x3fe7573e07fac3 0x837ea08a982841 0x563b50fb089f9a4, Near 0x61725787297b9 0x1dadea1e83d411 0x20dfa822a60a104 0xa0328b48fe363ed);
  (Near 0x2524742165910b 0x1f0d4ea8f2f952 0xfa9999a846d1eb8 0xd182077cf745573, Near 0x1a558dbaef86da 0xf86a754797ca9 0x2c6b53acd84e92e3 0x1a3040ef9ee8aae6);
  (Near 0x2524742165910b 0x3e1a9d51e5f2a4 0x7d4cccd42368f5c 0xd182077cf745573, Near 0x159dccccec1462 0xf86a754797ca9 0x123b12bd3965e7fd 0xd182077cf745573);
  (Near 0x2524742165910b 0x31ec526100c332 0x3ea6666a11b47ae 0x54353aa8d3dc617, Near 0x61725787297b9 0x1f0d4ea8f2f952 0x2917922b4f8c945 0xd182077cf745573);
  (Near 0x2524742165910b 0x27b2d3c7b7ce46 0x1394000125886666 0x14eced4511aae4cf, Near 0x1c7eef02a0bc17 0x13d969e3dbe723 0x3c14ed475cbbb19b 0x29d9da8a2355c99e);
  (Near 0x2524742165910b 0x2a41336e0a0b81 0x9ca000092c43333 0xb22ed447ee6b19c, Near 0x114b0a3d89a9e8 0x13d969e3dbe723 0x123b12bd3965e7fd 0x14eced4511aae4cf);
  (Near 0x2007b4d4c11695 0x2a41336e0a0b81 0x438895e5350da65 0x59176a23f7358ce, Near 0x1d79552e6ed95a 0x28e5fa6523d3b 0xf8938356120eb2b 0x158ed43ec227e69);
  (Near 0x15ce363b7821a9 0x2a41336e0a0b81 0x16fce0d33972dfe 0x2c8bb511fb9ac67, Near 0x1aeaf5881c9c1f 0x51cbf4ca47a76 0x7182578ba7f3661 0x158ed43ec227e69);
  (Near 0x3711155cbdae23 0x2a41336e0a0b81 0x122431f3f1f13868 0xdeba8959ea05e03, Near 0x1ebc832a0bbfba 0x18549232b1ee69 0x2880ed4637334b35 0x200fda899091966b);
  (Near 0x3711155cbdae23 0x1d71517f5668df 0x91218f9f8f89c34 0x4d98f9ba5a7c1cf, Near 0x667f0f759d151 0x1d71517f5668df 0x438895e5350da65 0x13663e6e969f073c);
  (Near 0x3711155cbdae23 0x3ae2a2feacd1be 0x4890c7cfc7c4e1a 0x4d98f9ba5a7c1cf, Near 0xccfe1eeb3a2a2 0x1d71517f5668df 0x438895e5350da65 0x9b31f374b4f839e);
  (Near 0x3711155cbdae23 0x2cd12d6a945f3b 0x16ad3e70ee6d8682 0x1274b5129b1cac1d, Near 0x28ff9fc8a53ba 0x1d71517f5668df 0x438895e5350da65 0x307f9c14788d9216);
  (Near 0x3711155cbdae23 0x229145786b1053 0xb569f387736c341 0x71e15da23e5e8dc, Near 0x51ff3f914a774 0x1d71517f5668df 0x438895e5350da65 0x183fce0a3c46c90b);
  (Near 0x28ff9fc8a53ba0 0x229145786b1053 0x438895e5350da65 0x38f0aed11f2f46e, Near 0xa3fe7f2294ee8 0x18515d8641c16b 0x438895e5350da65 0xa03a255f47af753);
  (Near 0x3440caa585973c 0x1cf0b009fae285 0x1ae5c7cf41be60e7 0xee5aa258929b7af, Near 0xd1032a96165cf 0x1cf0b009fae285 0x1ae5c7cf41be60e7 0x3b96a89624a6debc);
  (Near 0x17501a9b8ab4b7 0x39e16013f5c50a 0x6000ed4dc4a549c 0xee5aa258929b7af, Near 0x1a206552c2cb9e 0x1cf0b009fae285 0x1ae5c7cf41be60e7 0x1dcb544b12536f5e);
  (Near 0x17501a9b8ab4b7 0x2dd270554b6bef 0x300076a6e252a4e 0x5e593e63eba38c5, Near 0x17501a9b8ab4b7 0x1cf0b009fae285 0xc001da9b894a938 0xee5aa258929b7af);
  (Near 0x17501a9b8ab4b7 0x2d04ab73816e70 0x18003b537129527 0x2e58c7bd0950e77, Near 0x17501a9b8ab4b7 0xb412adce05b9c 0x6000ed4dc4a549c 0x2e58c7bd0950e77);
  (Near 0x4a99eebe88a8b 0x3fab272323989c 0x18003b537129527 0x147bcd3fef339cef, Near 0x4a99eebe88a8b 0x1de7a68c8285c8 0x6000ed4dc4a549c 0x267bf9be84129ac3);
  (Near 0x9533dd7d11516 0x3b0188373b0e11 0x18003b537129527 0x97de4c55c1083e4, Near 0x4a99eebe88a8b 0x1fd5939191cc4e 0x300076a6e252a4e 0x147bcd3fef339cef);
  (Near 0x12a67bafa22a2c 0x3b0188373b0e11 0x18003b537129527 0x4bef262ae0841f2, Near 0x4a99eebe88a8b 0x1f07ceafc7cecf 0x18003b537129527 0x9fbb34b6db188de);
  (Near 0x3bae58986d53c 0x3ebc6dc0c1e34d 0x18003b537129527 0x193abfa29d3bdee1, Near 0xeeb96261b54f 0x1ff6881229841e 0x18003b537129527 0x336a842e5b8a417d);
  (Near 0x775cb130daa78 0x3b0188373b0e11 0x18003b537129527 0xbdd5df6b314a4dd, Near 0x1dd72c4c36a9e 0x1f07ceafc7cecf 0x18003b537129527 0x18f5403c923bd62b);
  (Near 0xeeb96261b54f0 0x338bbd242d6399 0x18003b537129527 0x52ead20be0107db, Near 0x3bae58986d53c 0x1d2a5beb046431 0x18003b537129527 0xbba9e43ad94a082);
  (Near 0x3a0dd31ac6f085 0x2b223cf4ab9b95 0x1d2ee8742f2a5a4b 0x15aed5ea1bcd7088, Near 0x3bae58986d53c 0x1ff18c58171be1 0x780128a135ce9c3 0x403b200a351f04d7);
  (Near 0x1dd72c4c36a9e0 0x2b223cf4ab9b95 0x780128a135ce9c3 0xad76af50de6b844, Near 0x775cb130daa78 0x1c36a6ce9046a5 0x780128a135ce9c3 0x1c5d86c010e10d8a);
  (Near 0x3bae58986d53c0 0x2b223cf4ab9b95 0x780128a135ce9c3 0x56bb57a86f35c22, Near 0xeeb96261b54f0 0x1c36a6ce9046a5 0x780128a135ce9c3 0xe2ec360087086c5);
  (Near 0x21183747837056 0x2b223cf4ab9b95 0x2145d0f8c698da1 0x2b5dabd4379ae11, Near 0x1dd72c4c36a9e0 0xd4b10a874f1b5 0x780128a135ce9c3 0x357586afa89ce81);
  (Near 0x207fc93ab473d1 0x2b223cf4ab9b95 0xa35ed4756d697d4 0xd8d45b251606655, Near 0x1dd72c4c36a9e0 0x2a89cee7dc9f1 0x25805cb260d090cf 0x357586afa89ce81);
  (Near 0x207fc93ab473d1 0x35c4b0aea2c359 0x51af6a3ab6b4bea 0x8724f0ea5f51a6b, Near 0x1b2e8f5db8dfef 0x55139dcfb93e2 0x11148223b3236127 0x357586afa89ce81);
  (Near 0x207fc93ab473d1 0x2a89cee7dc9f10 0x28d7b51d5b5a5f5 0x357586afa89ce81, Near 0x15dd5580bd4c0d 0xaa273b9f727c4 0x6de94dc5c4cc953 0x357586afa89ce81);
  (Near 0x3601a9808f285b 0x1581e045dab48a 0x1535b7a7d2815834 0x8724f0ea5f51a6b, Near 0x15a05caed0e70b 0xac0f022ed5a45 0x21f92040ff0d95fd 0x10e49e1d4bea34d6);
  (Near 0x3601a9808f285b 0x2b03c08bb56914 0xa9adbd3e940ac1a 0x8724f0ea5f51a6b, Near 0x15bed917c7198c 0xac0f022ed5a45 0x11148223b3236127 0x8724f0ea5f51a6b);
  (Near 0x3601a9808f285b 0x2005d796dba9cd 0x54d6de9f4a0560d 0x324e124b154c45e, Near 0xafde8f4d9bf47 0x1581e045dab48a 0x451198a8697235e 0x8724f0ea5f51a6b);
  (Near 0x3601a9808f285b 0x3c693b05217d84 0x1a832591c721ae41 0x1da806b67876729f, Near 0x17cd0bfdfe6999 0xf1a4ec1485f61 0x2ebc88da2b99d3c6 0x1da806b67876729f);
  (Near 0x3f2e58611dfc97 0x6679184925529 0xf8211915a78fef8 0x192709258aa622f, Near 0x17cd0bfdfe6999 0x1e349d8290bec2 0x175e446d15cce9e3 0x1da806b67876729f);
  (Near 0x3f2e58611dfc97 0xccf230924aa52 0x7c108c8ad3c7f7c 0x192709258aa622f, Near 0x1c63636e45d3b7 0x6679184925529 0xdefa0ff01ce9cc9 0x324e124b154c45e);
  (Near 0x37d76613deec67 0x16e22db4568793 0x22442e5a745e2dbd 0xe0acb120fe60838, Near 0x1f1f7bcc38a0c8 0x16e22db4568793 0x4c648f90a4104665 0x382b2c483f9820e0);
  (Near 0x2b08430aba4215 0x16e22db4568793 0xd33fdbf5c852169 0x705658907f3041c, Near 0x107a9c2fc4326a 0x16e22db4568793 0x1439634864782585 0x1c1596241fcc1070);
  (Near 0x3f2e58611dfc97 0x16e22db4568793 0x9b14afad88b9f5b 0x382b2c483f9820e, Near 0xa130aab31dd41 0x16e22db4568793 0x62e983654921d4d 0xe0acb120fe60838);
  (Near 0x39b627a5386275 0x16e22db4568793 0x46d3ed412955c46 0x1c1596241fcc107, Near 0x1426155663ba82 0x16e22db4568793 0x62e983654921d4d 0x705658907f3041c);
  (Near 0x3de2d2e0fcd78e 0x16e22db4568793 0x17bc160ce871a793 0x8c6beeb49efc523, Near 0x1ae9cb926a79ad 0x16e22db4568793 0x294993e37c5131d9 0x231afbad27bf148c);
  (Near 0x2700a52ca64ffb 0x2dc45b68ad0f26 0x77aab90cf40f138 0x8c6beeb49efc523, Near 0x1ef169707e6bc7 0x16e22db4568793 0x17bc160ce871a793 0x118d7dd693df8a46);
  (Near 0x2700a52ca64ffb 0x348811a4b3ce51 0x3bd55c867a0789c 0x5096922e24f4c87, Near 0x101e77784fc868 0x16e22db4568793 0x62e983654921d4d 0x8c6beeb49efc523);
  (Near 0x3c03df6e87d5b5 0xa819d20f0c2dd 0x1cc57f2fcac0f41a 0x5096922e24f4c87, Near 0xc60909365c4b6 0x16e22db4568793 0x17bc160ce871a793 0x2be1ba9871aed9af);
  (Near 0x3c03df6e87d5b5 0x15033a41e185ba 0xe62bf97e5607a0d 0x5096922e24f4c87, Near 0x18c12126cb896c 0xa819d20f0c2dd 0x17bc160ce871a793 0xa12d245c49e990e);
  (Near 0x2700a52ca64ffb 0x2a067483c30b74 0x4acab3a818896c3 0x5096922e24f4c87, Near 0x1c7f080bb58d1e 0xa819d20f0c2dd 0xda943c723d30e85 0x5096922e24f4c87);
  (Near 0x18018c929cbbe2 0x39058d1dcc9f8d 0xe62bf97e5607a0d 0x222ba63b0dd6f665, Near 0xc00c6494e5df1 0x1682636a3f20ce 0x1cc57f2fcac0f41a 0x35f48cde364d72bd);
  (Near 0x300319253977c4 0x2104008b2fe3ab 0xe62bf97e5607a0d 0x9e47351943b3e2c, Near 0xc00c6494e5df1 0x15033a41e185ba 0xe62bf97e5607a0d 0x192f0dae6b8c7ea3);
  (Near 0x3f0231bf430bdd 0x2104008b2fe3ab 0x97085ef1b42daf7 0x4f239a8ca1d9f16, Near 0x18018c929cbbe2 0x90273f89327c9 0xe62bf97e5607a0d 0x566270b4316024b);
  (Near 0x3bfc6268265064 0x2104008b2fe3ab 0x47e4c4651253be1 0x2791cd4650ecf8b, Near 0xeff189a099419 0x1204e7f1264f92 0x47e4c4651253be1 0x566270b4316024b);
  (Near 0x2668e0ea945fd0 0x2104008b2fe3ab 0xe62bf97e5607a0d 0xc5d9025f94a0db7, Near 0x99a383aa517f4 0x1769c8508acbb7 0xe62bf97e5607a0d 0x231380ffffc7bccf);
  (Near 0x564e05f647c25 0x3ca320b6fb4b31 0x10297b8f60b362b 0xb5af86d033ed78c, Near 0x133470754a2fe8 0xdcf9015e5b3c3 0xe62bf97e5607a0d 0xa5860b40d33a161);
  (Near 0xac9c0bec8f84a 0x3ca320b6fb4b31 0x10297b8f60b362b 0x5ad7c36819f6bc6, Near 0x564e05f647c25 0x1b9f202bcb6786 0x2052f71ec166c56 0xa5860b40d33a161);
  (Near 0x22859bfc1cb42 0x3ecb7a76bd1673 0x10297b8f60b362b 0x1d6604c97e285109, Near 0x1142cdfe0e5a1 0x1fefd3ab4efe0a 0x2052f71ec166c56 0x3bcea14bf25bd83d);
  (Near 0x450b37f839684 0x3ca320b6fb4b31 0x10297b8f60b362b 0xe31b688440e8d6f, Near 0x1142cdfe0e5a1 0x1f82651a431336 0x10297b8f60b362b 0x1d80d99f1d0b7f33);
  (Near 0x8a166ff072d08 0x38526d3777b4ad 0x10297b8f60b362b 0x6978f67a701aba2, Near 0x22859bfc1cb42 0x1e6e383a622d95 0x10297b8f60b362b 0xe3f20f313802484);
  (Near 0x3c97aa5dd314cc 0xcfd90d7b2f9f1 0x2375931f426b960b 0x79a27209d0ce1cd, Near 0xf25ea9774c533 0x1c237b6f27bf24 0x2375931f426b960b 0x41de2fa1b69f1d3f);
  (Near 0x2f9a1986201adb 0x19fb21af65f3e2 0xdedb5ff52af5a1f 0x79a27209d0ce1cd, Near 0x1e4bd52ee98a66 0xcfd90d7b2f9f1 0x2375931f426b960b 0xf344e413a19c39a);
  (Near 0x159ef7d6ba26f9 0x33f6435ecbe7c4 0x329c76f5ad13c29 0x79a27209d0ce1cd, Near 0x159ef7d6ba26f9 0xcfd90d7b2f9f1 0xca71dbd6b44f0a4 0x79a27209d0ce1cd);
  (Near 0x2b3defad744df2 0x1e574b8811c0cb 0x329c76f5ad13c29 0x2382fd8a11dd2d2, Near 0x159ef7d6ba26f9 0x19fb21af65f3e2 0x6538edeb5a27852 0x79a27209d0ce1cd);
  (Near 0x3d7250324bc19f 0x61175819d268f 0x167974b6a96fa543 0x2382fd8a11dd2d2, Near 0xdd836ac2ba6c4 0x13e9ac2dc8cd53 0x144144de0851d271 0x1d2204408cc91db9);
  (Near 0x3e3609547401a8 0x61175819d268f 0xb60857b83da8729 0x11c17ec508ee969, Near 0x1bb06d58574d88 0x61175819d268f 0x144144de0851d271 0x4705fb1423ba5a4);
  (Near 0x382493d2d6db19 0xc22eb033a4d1e 0x52236c799a5cee0 0x11c17ec508ee969, Near 0x1f1b04aa3a00d4 0x61175819d268f 0xb60857b83da8729 0x2382fd8a11dd2d2);
  (Near 0x1c383361e2fe2f 0x285b1e651d4b4d 0xce6de3dcd8e30bf 0x127355db6058bfcc, Near 0x1c383361e2fe2f 0x1124d471c0125f 0x339b78f73638c2fc 0x1f5a34192de6f08b);
  (Near 0x387066c3c5fc5e 0x285b1e651d4b4d 0xce6de3dcd8e30bf 0x939aaedb02c5fe6, Near 0x1c383361e2fe2f 0x61175819d268f 0x19cdbc7b9b1c617e 0x58c779d92ca8f0d);
  (Near 0x202a90bd516222 0x285b1e651d4b4d 0x3ad33501d61d0d9 0x49cd576d8162ff3, Near 0x1c383361e2fe2f 0xc22eb033a4d1e 0xce6de3dcd8e30bf 0x58c779d92ca8f0d);
  (Near 0x3538f1e40aa5c1 0x2eca082493f887 0x1e6a91f273329171 0x1abd5ea255d0c098, Near 0x1900be8227a792 0x15c949a26c50f5 0x3927f094c9035209 0x31cd89f48e3fb057);
  (Near 0x3ba7dba38152fb 0x2eca082493f887 0x110be2a1484a3125 0xd5eaf512ae8604c, Near 0x33774dfbb569d 0x1eb4bfc5eb4776 0x3ad33501d61d0d9 0x2318bcb418b86cf3);
  (Near 0x19bba6fddab4e8 0x2eca082493f887 0x3ad33501d61d0d9 0x6af57a895743026, Near 0x66ee9bf76ad3a 0x1b7d4ae62ff0d9 0x3ad33501d61d0d9 0xfb5c4b1fdab4e0d);
  (Near 0x33774dfbb569d0 0x2eca082493f887 0x3ad33501d61d0d9 0x357abd44aba1813, Near 0xcddd37eed5a74 0x150e6126b9439f 0x3ad33501d61d0d9 0x60448b0f024be9a);
  (Near 0x2fb97c82cddbfc 0x2eca082493f887 0x110be2a1484a3125 0x10b65b2575a2785f, Near 0xbee5f20b376ff 0x16ed49e32d0a89 0x110be2a1484a3125 0x20c1a75345f57f32);
  (Near 0xef745e39e375 0x3fa58481eb826e 0x2ac3bde953dc63 0xb5de3684b26ebff, Near 0x17dcbe4166edfe 0x16ed49e32d0a89 0x110be2a1484a3125 0x1060d3a9a2fabf99);
  (Near 0x1dee8bc73c6ea 0x3eb61023b19ef9 0x2ac3bde953dc63 0x5998fd530e987ce, Near 0xef745e39e375 0x1fd2c240f5c137 0x55877bd2a7b8c6 0xb5de3684b26ebff);
  (Near 0x5fc825b0c162 0x3fd56894c3e31f 0x2ac3bde953dc63 0x1c801a63b08b3c2f, Near 0x2fe412d860b1 0x1fd2c240f5c137 0x55877bd2a7b8c6 0x38d5710977c29bfb);
  (Near 0xbf904b6182c4 0x3f75a06f1321bd 0x2ac3bde953dc63 0xe2aab52e39bafe6, Near 0x2fe412d860b1 0x1fd80ffe3b4ce4 0x2ac3bde953dc63 0x1c6f74ec8612423d);
  (Near 0x17f2096c30588 0x3f75a06f1321bd 0x2ac3bde953dc63 0x71555a971cdd7f3, Near 0x5fc825b0c162 0x1fa82beb62ec33 0x2ac3bde953dc63 0xe2258974e5f32ed);
  (Near 0x25a7e500ad3ada 0x37bc4735a25583 0x150404bd4209fbc1 0x1f1b1dc11bbd52aa, Near 0x12d3f280569d6d 0x12742a5aa5dc0b 0x2a08097a8413f782 0x293236c4f570a993);
  (Near 0x139382cbb82031 0x37bc4735a25583 0x57675dcb42b526c 0xf8d8ee08ddea955, Near 0x12d3f280569d6d 0x12146234f51aa9 0x150404bd4209fbc1 0x142e3207b366add2);
  (Near 0x139382cbb82031 0x34be06081c4a73 0x2bb3aee5a15a936 0x75bde157f9dadb3, Near 0x139382cbb82031 0x12146234f51aa9 0xaecebb96856a4d8 0xa171903d9b356e9);
  (Near 0x139382cbb82031 0x2ec183ad103453 0x15d9d772d0ad49b 0x34305aff87d2fe2, Near 0x139382cbb82031 0x1095419e321521 0x57675dcb42b526c 0x4a0a3272588047d);
  (Near 0x139382cbb82031 0x2c969f5e1b779c 0x6d41353e1362707 0xf8d8ee08ddea955, Near 0x1eb92aa33efe18 0xb25a7d786dde7 0x2adddc3012b74571 0xf8d8ee08ddea955);
  (Near 0x27270597704062 0x19031c9263576b 0x6d41353e1362707 0x45cbdc656544127, Near 0x139382cbb82031 0x164b4faf0dbbce 0xda826a7c26c4e0e 0xf8d8ee08ddea955);
  (Near 0xe23e9050ce8f7 0x32063924c6aed6 0x13baac6c570f2f0 0x45cbdc656544127, Near 0x139382cbb82031 0x19031c9263576b 0x6d41353e1362707 0x8b97b8caca8824e);
  (Near 0x3628e388df0e6f 0xa013ea0f4895e 0x179d4cfb3485c34c 0x45cbdc656544127, Near 0x1d94c16caca98f 0x5009f507a44af 0x339757bcbf5fc7bf 0x8b97b8caca8824e);
  (Near 0x3628e388df0e6f 0x14027d41e912bc 0xbcea67d9a42e1a6 0x45cbdc656544127, Near 0x1d25c6f67bb704 0x5009f507a44af 0x196ae516b96640d5 0x45cbdc656544127);
  (Near 0x3628e388df0e6f 0x2804fa83d22578 0x5e7533ecd2170d3 0x45cbdc656544127, Near 0x182527a6017255 0xa013ea0f4895e 0xa8713a83188ffd7 0x45cbdc656544127);
  (Near 0xad4fa4e9302e3 0x3daeef20f82b3e 0x5e7533ecd2170d3 0x219e5b5d49e82769, Near 0xad4fa4e9302e3 0x1fab333e1a8f24 0x179d4cfb3485c34c 0x450a4ed618b0cc5b);
  (Near 0x15a9f49d2605c6 0x32d9f4d265285b 0x5e7533ecd2170d3 0xddb840f3e635b4b, Near 0xad4fa4e9302e3 0x1ed777907c159f 0xbcea67d9a42e1a6 0x219e5b5d49e82769);
  (Near 0x2b53e93a4c0b8c 0x1d3000353f2295 0x5e7533ecd2170d3 0x3fa186838a0f53c, Near 0xad4fa4e9302e3 0x1d3000353f2295 0x5e7533ecd2170d3 0xfe861a0e283d4f0);
  (Near 0x3977d23f58f483 0x1d3000353f2295 0x3ea470ab0d0f635 0x1fd0c341c507a9e, Near 0x15a9f49d2605c6 0x1d3000353f2295 0x5e7533ecd2170d3 0x7f430d07141ea78);
  (Near 0x39d4b183ce47f9 0x1d0190930478da 0x13b305f083b4cd17 0x9e16ba705c2660f, Near 0x15a9f49d2605c6 0xe80c849823c6d 0x1d84a03a01a7341f 0x13c2d74e0b84cc1e);
  (Near 0x1cd320f0c9cf1f 0x3a03212608f1b4 0x4e8cd24bef93384 0x9e16ba705c2660f, Near 0x1cd320f0c9cf1f 0xe80c849823c6d 0x13a33492fbe4ce10 0x9e16ba705c2660f);
  (Near 0x1cd320f0c9cf1f 0x3a60006a7e452a 0x27466925f7c99c2 0x4f89e8246c9328b, Near 0x1cd320f0c9cf1f 0x1d0190930478da 0x9d19a497df26708 0x9e16ba705c2660f);
  (Near 0x5c3d3635b8fd3 0x3a60006a7e452a 0x27466925f7c99c2 0x18db188b61edfcb7, Near 0x5c3d3635b8fd3 0x1d0190930478da 0x9d19a497df26708 0x31671a431ccbfe4b);
  (Near 0x5c3d3635b8fd3 0x3b19bef368ec16 0x13a33492fbe4ce1 0xc9517af847efbed, Near 0x5c3d3635b8fd3 0x1d3000353f2295 0x4e8cd24bef93384 0x18db188b61edfcb7);
  (Near 0xb87a6c6b71fa6 0x3555eb900d5c43 0x13a33492fbe4ce1 0x5ad72332a605786, Near 0x5c3d3635b8fd3 0x1d8cdf79b4760b 0x27466925f7c99c2 0xc9517af847efbed);
  (Near 0x24e548e249fee 0x3e8f3dc89fdbfb 0x13a33492fbe4ce1 0x214c082492dae922, Near 0x1272a47124ff7 0x1fdb3407d915f9 0x27466925f7c99c2 0x43d2439255741f25);
  (Near 0x49ca91c493fdc 0x3e8f3dc89fdbfb 0x13a33492fbe4ce1 0x10a60412496d7491, Near 0x1272a47124ff7 0x1f6dc849b16cee 0x13a33492fbe4ce1 0x2174a7911ca3b689);
  (Near 0x9395238927fb8 0x39f294ac569c1f 0x13a33492fbe4ce1 0x7b5e8648cd793d8, Near 0x24e548e249fee 0x1e469e029f1cf7 0x13a33492fbe4ce1 0x101d3a23f672b4d4);
  (Near 0x1272a47124ff70 0x39f294ac569c1f 0x13a33492fbe4ce1 0x3daf432466bc9ec, Near 0x49ca91c493fdc 0x1e469e029f1cf7 0x13a33492fbe4ce1 0x80e9d11fb395a6a);
  (Near 0x1272a47124ff70 0x3f3e509278ea73 0x623006deeb78065 0x1509c232e2d3fe3a, Near 0x49ca91c493fdc 0x1ef5b0cc782b6f 0x623006deeb78065 0x293205ca044b7625);
  (Near 0x24e548e249fee0 0x3f3e509278ea73 0x623006deeb78065 0xa84e1197169ff1d, Near 0x9395238927fb8 0x1a5907b02eeb93 0x623006deeb78065 0x118782ae0ac9fae0);
  (Near 0x2f718a1465122d 0x1a5907b02eeb93 0x3f210182d5e4109 0x230f055c1593f5c, Near 0x1272a47124ff70 0x1a5907b02eeb93 0x623006deeb78065 0x8c3c1570564fd70);
  (Near 0x318b58ff9560f7 0x194c203a96c42e 0x1499f19f8d7fc08b 0xa84e1197169ff1d, Near 0x1f18b48e706187 0xca6101d4b6217 0x33b8c4588c698033 0x1509c232e2d3fe3a);
  (Near 0x183f38c4fe9cc9 0x329840752d885c 0x50a88430e0ae0b7 0xa84e1197169ff1d, Near 0x183f38c4fe9cc9 0xca6101d4b6217 0x142a210c382b82dc 0xa84e1197169ff1d);
  (Near 0x307e7189fd3992 0x1a5907b02eeb93 0x50a88430e0ae0b7 0x2bd2c6b31af8f33, Near 0x183f38c4fe9cc9 0x194c203a96c42e 0xa1510861c15c16e 0xa84e1197169ff1d);
  (Near 0x9b2e381ff71ea 0x3771b2362d4151 0x50a88430e0ae0b7 0x1cd176e1228e6e24, Near 0x1e2591fb967d23 0x194c203a96c42e 0x3ead76055327bcff 0x3498657f3711fb91);
  (Near 0x1365c703fee3d4 0x3771b2362d4151 0x50a88430e0ae0b7 0xe68bb7091473712, Near 0x4d971c0ffb8f5 0x1f3279712ea488 0x50a88430e0ae0b7 0x206e4472fee678b5);
  (Near 0x26cb8e07fdc7a8 0x3771b2362d4151 0x50a88430e0ae0b7 0x7345db848a39b89, Near 0x9b2e381ff71ea 0x1a5907b02eeb93 0x50a88430e0ae0b7 0xdb1de17f86dcbff);
  (Near 0x3cf0f7e1cc15a7 0x10a6242e2f79a9 0x3f59d8870be834e 0x114eaba9d4c5d69, Near 0x1365c703fee3d4 0x10a6242e2f79a9 0x50a88430e0ae0b7 0x453aaea753175a4);
  (Near 0x3f3401d16002d9 0x2faf629afa7fc9 0x14882e6e3c9e7532 0xf7da62b2e93947b, Near 0x3e127cd9960c4 0x1c499b96fb9bf5 0x50a88430e0ae0b7 0x24c1ef5d7417ee59);
  (Near 0x3f3401d16002d9 0x202ac36494fcb9 0xa4417371e4f3a99 0x5398ef4104459e2, Near 0x7c24f9b32c188 0x186873c9623b31 0x50a88430e0ae0b7 0xfdbb38d330686d1);
  (Near 0x3e127cd9960c40 0x202ac36494fcb9 0x50a88430e0ae0b7 0x29cc77a08222cf1, Near 0xf849f36658310 0x10a6242e2f79a9 0x50a88430e0ae0b7 0x56895a5127dd30d);
  (Near 0x194800ba26678a 0x3972c41ebb6443 0xa4417371e4f3a99 0x1753fc9946fa1b4e, Near 0xca4005d1333c5 0x166761e0d4183f 0x14882e6e3c9e7532 0x2463e1fb6fa4fc03);
  (Near 0x329001744ccf14 0x3972c41ebb6443 0xa4417371e4f3a99 0xba9fe4ca37d0da7, Near 0xca4005d1333c5 0x1386c30781c8f4 0xa4417371e4f3a99 0xfdbb38d330686d1);
  (Near 0x3bcf72ea021f0e 0x6e2c2aa6e952f 0x61261f68ec5c16f 0xb2f38ac296e987, Near 0x194800ba26678a 0x6e2c2aa6e952f 0xa4417371e4f3a99 0x2cbce2b0a5ba61c);
  (Near 0x39ebb3e0fcbcd2 0x159a2783ce70ab 0x1d665e8fd5bfdcbd 0xaf70ac1e0e62420, Near 0x194800ba26678a 0x159a2783ce70ab 0x33547413978c24fd 0x2bdc2b0783989080);
  (Near 0x3308f1368e27a3 0x159a2783ce70ab 0xcf3ce6d0466a68d 0x57b8560f0731210, Near 0x1cf5d9f07e5e69 0x159a2783ce70ab 0x1d665e8fd5bfdcbd 0x15ee1583c1cc4840);
  (Near 0x3add93657f6df0 0x159a2783ce70ab 0x778490c13f3947d 0x2bdc2b078398908, Near 0xeb764d95fdb7c 0x159a2783ce70ab 0x778490c13f3947d 0xaf70ac1e0e62420);
  (Near 0x34ecb03f9389df 0x159a2783ce70ab 0x35ba5035f9d46f1 0x15ee1583c1cc484, Near 0x1d6ec9b2bfb6f8 0x159a2783ce70ab 0x778490c13f3947d 0x57b8560f0731210);
  (Near 0x317803f9f77ffa 0x159a2783ce70ab 0xfb1911d7ca02f95 0x6da66b92c8fd694, Near 0x172b14c0651854 0x159a2783ce70ab 0x1d665e8fd5bfdcbd 0x1b699ae4b23f5a50);
  (Near 0x37bbb8ec521e9e 0x159a2783ce70ab 0x8d72a6450105901 0x36d335c9647eb4a, Near 0x18bc01fcfbbffd 0x159a2783ce70ab 0xfb1911d7ca02f95 0xdb4cd72591fad28);
  (Near 0x2ea8fb4d38eb3b 0x159a2783ce70ab 0x3b35d596ea47812 0x1b699ae4b23f5a5, Near 0x1bdddc76290f4f 0x159a2783ce70ab 0x8d72a6450105901 0x6da66b92c8fd694);
  (Near 0x3d2d5de5613d73 0x159a2783ce70ab 0x18429184f453fbce 0x891006777b3cc39, Near 0x1f7ef51c3323dd 0x159a2783ce70ab 0x31f592bb5b6f6079 0x2244019ddecf30e4);
  (Near 0x3d2d5de5613d73 0x2b344f079ce156 0xc2148c27a29fde7 0x891006777b3cc39, Near 0x13c99b30c96664 0x159a2783ce70ab 0xfb1911d7ca02f95 0x112200ceef679872);
  (Near 0x11f90eddc45c1d 0x32768053b10a72 0x1c8242d813b18d7 0x500b80c753d9a8b, Near 0x11f90eddc45c1d 0x159a2783ce70ab 0x72090b604ec635c 0x891006777b3cc39);
  (Near 0x1c10c221b49167 0x26287565a4c6b1 0xde96ceffb6516be 0x12ea24fc70a2b149, Near 0x108e4de1d65606 0x159a2783ce70ab 0x20d391ec6c07c807 0x2ad502055682fd1d);
  (Near 0x1c10c221b49167 0x304028a994fbfb 0x6f4b677fdb28b5f 0xbf56e8472f025ea, Near 0x1c10c221b49167 0x50bd9a1f81aa5 0x1bd2d9dff6ca2d7c 0x500b80c753d9a8b);
  (Near 0x382184436922ce 0x304028a994fbfb 0x6f4b677fdb28b5f 0x5fab742397812f5, Near 0x1c10c221b49167 0xa17b343f0354a 0xde96ceffb6516be 0x500b80c753d9a8b);
  (Near 0x2b54244a5ce0e1 0x1e86c451509ef4 0x1ad8daaa328fb512 0x12ea24fc70a2b149, Near 0x1c10c221b49167 0x7a1b1145427bd 0x458f20afe8f971b6 0x12ea24fc70a2b149);
  (Near 0x2b54244a5ce0e1 0x3d0d88a2a13de8 0xd6c6d551947da89 0x12ea24fc70a2b149, Near 0x1c10c221b49167 0xf436228a84f7a 0x22c79057f47cb8db 0x12ea24fc70a2b149);
  (Near 0x33357fe43107b4 0x11b96458445d07 0x7eeb5adc1ed03c9 0x2bedbd3abad6b60, Near 0xccd5ff90c41ed 0x1e86c451509ef4 0x7eeb5adc1ed03c9 0x12ea24fc70a2b149);
  (Near 0x313ed2bf94f853 0x11b96458445d07 0x3d06bf04068e2b9 0x15f6de9d5d6b5b0, Near 0x199abff21883da 0x11b96458445d07 0x7eeb5adc1ed03c9 0x57db7a7575ad6c0);
  (Near 0x26353119f1934f 0x37ee957235f056 0xecbdb3eef1e9039 0x15a900d01c501ca9, Near 0x51ef3306b4d92 0x1bf74ab91af82b 0x7eeb5adc1ed03c9 0x2b5201a038a03952);
  (Near 0x3ab0fddb9ec997 0x11b96458445d07 0xb5d48765885ca01 0x36e92c89698c638, Near 0xa3de660d69b24 0x1bf74ab91af82b 0x7eeb5adc1ed03c9 0x15a900d01c501ca9);
  (Near 0x2e7c6a562c1f12 0x11b96458445d07 0x48022e52b543d91 0x1b749644b4c631c, Near 0x147bccc1ad3648 0x11b96458445d07 0x7eeb5adc1ed03c9 0x6dd25912d318c70);
  (Near 0x1b05799cb39671 0x2cbeddf4f7f378 0xd1491daa3d22d1d 0x15a900d01c501ca9, Near 0x1b05799cb39671 0xb2fb77d3dfcde 0x3452476a8f48b474 0x15a900d01c501ca9);
  (Near 0x360af339672ce2 0x11b96458445d07 0xd1491daa3d22d1d 0x44a377abc3ef7c6, Near 0x1b05799cb39671 0x165f6efa7bf9bc 0x1a2923b547a45a3a 0x15a900d01c501ca9);
  (Near 0x36e9b96a0142af 0x11b96458445d07 0x6a53ea28973b974 0x2251bbd5e1f7be3, Near 0x1b05799cb39671 0x11b96458445d07 0xd1491daa3d22d1d 0x8946ef5787def8c);
  (Near 0x1cb4efd3de372a 0x2e6e542c229431 0x115ec955601124e3 0x1c18540836ae9052, Near 0xe5a77e9ef1b95 0x1e64660b08d7e3 0x22bd92aac02249c6 0x498f7165cd6e4587);
  (Near 0x3969dfa7bc6e54 0x2e6e542c229431 0x115ec955601124e3 0xe0c2a041b574829, Near 0xe5a77e9ef1b95 0x11b96458445d07 0x115ec955601124e3 0x15731565ad3ad6de);
  (Near 0xafb8b7b99da23 0x3bea05e57799f9 0x1a94fa8a25cee5d 0x9103b0a34407d12, Near 0x1cb4efd3de372a 0x11b96458445d07 0x115ec955601124e3 0xab98ab2d69d6b6f);
  (Near 0x15f716f733b446 0x3bea05e57799f9 0x1a94fa8a25cee5d 0x4881d851a203e89, Near 0xafb8b7b99da23 0x18773d34eedfeb 0x3529f5144b9dcba 0x766eb6191e38eb5);
  (Near 0x1d8e138d41489d 0x252510234edcf4 0xb2d5c27a393f7fd 0xe0c2a041b574829, Near 0x1d8e138d41489d 0x9494408d3b73d 0x2cb5709e8e4fdff4 0xe0c2a041b574829);
  (Near 0x3b1c271a82913a 0x796fc960d9457 0xb2d5c27a393f7fd 0x16f66ee3be1a816, Near 0x1d8e138d41489d 0x12928811a76e7a 0x165ab84f4727effa 0xe0c2a041b574829);
  (Near 0x39806984987fbc 0x796fc960d9457 0x56fc06eb40d57a5 0xb7b3771df0d40b, Near 0x1d8e138d41489d 0x796fc960d9457 0xb2d5c27a393f7fd 0x2decddc77c3502c);
  (Near 0x17a4dc710106e4 0x36e0b5780fa21f 0xb2d5c27a393f7fd 0x19f139a2dcdc1431, Near 0x5e9371c4041b9 0x1f3bd9070e9b3b 0xb2d5c27a393f7fd 0x3b0f75ece52070d0);
  (Near 0x2f49b8e2020dc8 0x1f3bd9070e9b3b 0xb2d5c27a393f7fd 0x761eebd9ca40e1a, Near 0xbd26e38808372 0x1f3bd9070e9b3b 0xb2d5c27a393f7fd 0x1d87baf672903868);
  (Near 0x3f5798bcf58055 0x1f3bd9070e9b3b 0x77c64c8d541f0f0 0x3b0f75ece52070d, Near 0x17a4dc710106e4 0x1f3bd9070e9b3b 0xb2d5c27a393f7fd 0xec3dd7b39481c34);
  (Near 0x12ea49f400d250 0x322622fb0f6d8b 0xb2d5c27a393f7fd 0x1da23101ab2e1b3e, Near 0x4ba927d003494 0x1f3bd9070e9b3b 0xb2d5c27a393f7fd 0x49d353681e688d04);
  (Near 0x25d493e801a4a0 0x322622fb0f6d8b 0xb2d5c27a393f7fd 0xed11880d5970d9f, Near 0x97524fa006928 0x1f3bd9070e9b3b 0xb2d5c27a393f7fd 0x24e9a9b40f344682);
  (Near 0x3f5798bcf58055 0xc518f130dc8eb 0x95b7dfb0a926d2c 0x1d1de2c99018ad1, Near 0x12ea49f400d250 0x1f3bd9070e9b3b 0xb2d5c27a393f7fd 0x1274d4da079a2341);
  (Near 0x3f5798bcf58055 0x18a31e261b91d6 0x4adbefd85493696 0x1d1de2c99018ad1, Near 0x198304d4f3dbb5 0xc518f130dc8eb 0x7899fce7190e25b 0x3a3bc59320315a2);
  (Near 0x2aeec81298d091 0x1685f7683c20cd 0xfdb1b2528dd2e93 0x8517b56b74c4c38, Near 0x1ba02b92d34cbe 0x1685f7683c20cd 0x28cf8d294ec2133b 0x2145ed5add3130e0);
  (Near 0x3f5798bcf58055 0x1685f7683c20cd 0xbb25d79cd370877 0x428bdab5ba6261c, Near 0xa3468552e57e2 0x1685f7683c20cd 0x7899fce7190e25b 0x10a2f6ad6e989870);
  (Near 0x3b1d4b41369e43 0x1685f7683c20cd 0x57540f8c3bdcf4d 0x2145ed5add3130e, Near 0x1468d0aa5cafc4 0x1685f7683c20cd 0x7899fce7190e25b 0x8517b56b74c4c38);
  (Near 0x3d5fc8f25c016a 0x1685f7683c20cd 0x1c5554273bcfa0e7 0xa65da2c651f5f46, Near 0x1eafe4792e00b5 0x1a9aedf0b510c1 0x38aaa84e779f41ce 0x31210880060e5f73);
  (Near 0x372dabac03a06d 0x1685f7683c20cd 0xcbc8ce4a42091fe 0x532ed16328fafa3, Near 0x1eafe4792e00b5 0x1685f7683c20cd 0x1c5554273bcfa0e7 0x14cbb458ca3ebe8c);
  (Near 0x372dabac03a06d 0x2d0beed078419a 0x65e4672521048ff 0x532ed16328fafa3, Near 0x1053da21e3bfd0 0x1685f7683c20cd 0x7899fce7190e25b 0xa65da2c651f5f46);
  (Near 0xb0922559a5349 0x381511261294e3 0x65e4672521048ff 0x205ce7e14edeb72e, Near 0x10c78cdeeb3a0b 0x1685f7683c20cd 0x26bb2e53a0ef002d 0x33fd42ddf99cdc5e);
  (Near 0x161244ab34a692 0x381511261294e3 0x65e4672521048ff 0x102e73f0a76f5b97, Near 0xb0922559a5349 0x1685f7683c20cd 0xcbc8ce4a42091fe 0x19fea16efcce6e2f);
  (Near 0x2c248956694d24 0x2202cc7addee51 0x65e4672521048ff 0x4e816bf2aaf894c, Near 0xb0922559a5349 0x16f9aa25439b08 0x65e4672521048ff 0xd42148a58addc31);
  (Near 0x36464631f4abf7 0x2202cc7addee51 0x3ea3b12bcb88459 0x2740b5f9557c4a6, Near 0x161244ab34a692 0xbf087cfa947bf 0x65e4672521048ff 0x371e70c034ec999);
  (Near 0x37b8822872ffe7 0x2cdda751a8771c 0x1418af036427dff0 0x102e73f0a76f5b97, Near 0x161244ab34a692 0xb3769d46a1dc7 0x1fd7603b9a516cfb 0x102e73f0a76f5b97);
  (Near 0x37b8822872ffe7 0x2202cc7addee51 0xa0c5781b213eff8 0x6221c6ef55b6b9f, Near 0xadadad6ca88cb 0x166ed3a8d43b8e 0x7d47625797108b2 0x102e73f0a76f5b97);
  (Near 0x37b8822872ffe7 0xc4d16cd48dcbb 0x5062bc0d909f7fc 0x11bf0ae1c5173a3, Near 0xadadad6ca88cb 0x1727f1a4136586 0x3ea3b12bcb88459 0x859fdcb2dfe52e5);
  (Near 0x3a2e5384b4c5a6 0x3ca424e0f68b65 0x1a3acb7259834b8f 0x1b56bc2075d4bf32, Near 0x1d1729c25a62d3 0xfc67d8f4e1449 0x347596e4b306971e 0x1c72acce922632d5);
  (Near 0x37b8822872ffe7 0x3ca424e0f68b65 0xc8f6d621e98ebf6 0xdab5e103aea5f99, Near 0x1d1729c25a62d3 0x1f8cfb1e9c2892 0x1a3acb7259834b8f 0x1c72acce922632d5);
  (Near 0x37b8822872ffe7 0x9d745710716fc 0x647b6b10f4c75fb 0x11bf0ae1c5173a3, Near 0x1f1e548de14671 0x275d15c41c5bf 0xe0773f72203538e 0x11bf0ae1c5173a3);
  (Near 0x37b8822872ffe7 0x1841a859fc37c2 0x1f6691754c7e4de7 0xdab5e103aea5f99, Near 0x15cbd6fdba7203 0xc20d42cfe1be1 0x3121c4da5e123c35 0x1b56bc2075d4bf32);
  (Near 0x1f76d9ce76c825 0x308350b3f86f84 0x8dd99b288c9f727 0xdab5e103aea5f99, Near 0x1f76d9ce76c825 0xc20d42cfe1be1 0x237666ca2327dc9c 0xdab5e103aea5f99);
  (Near 0x3eedb39ced904a 0x110c76e581a75f 0x8dd99b288c9f727 0x266e22ed9103439, Near 0x1f76d9ce76c825 0x1841a859fc37c2 0x11bb33651193ee4e 0xdab5e103aea5f99);
  (Near 0x2de13cb76be8eb 0x2218edcb034ebe 0x33b5bc1d7dce177 0x266e22ed9103439, Near 0x1f76d9ce76c825 0x110c76e581a75f 0x8dd99b288c9f727 0x4cdc45db2206872);
  (Near 0x39298c0c8b832e 0x16d09e75e3b47b 0x14221593eaa42287 0x809201f89fd49e9, Near 0x19b2b23e14bb09 0x16d09e75e3b47b 0x243455d2fe9eb659 0x2024807e27f527a4);
  (Near 0x2258ed96a7ceb3 0x2da13cebc768f6 0x60c7aba30536c4f 0x809201f89fd49e9, Near 0x1c94c60645c197 0x16d09e75e3b47b 0x14221593eaa42287 0x1012403f13fa93d2);
  (Near 0x39698bd8300323 0xb484f551f9a43 0x50e2807837e7d82 0xfe52b2acd4eecd, Near 0xb884f20c41a38 0x16d09e75e3b47b 0x40fd554d6a98eb5 0x809201f89fd49e9);
  (Near 0x3db9abbdb90dad 0x12407ec4b629fc 0x1b2ce300c7cc7da3 0x809201f89fd49e9, Near 0x1dc8cde57a4434 0x4901fb12d8a7f 0x3473ab265944f12d 0x809201f89fd49e9);
  (Near 0x2b792cf902e3b1 0x2480fd896c53f8 0x991e1709ee799dd 0x809201f89fd49e9, Near 0x1938ae344cb9b5 0x9203f625b14fe 0x1635458367a3d3a2 0x809201f89fd49e9);
  (Near 0x6f82f6f968fb9 0x3b119c33ab887e 0xc460a88a7527fa 0x6805ece7512f9f5, Near 0x1938ae344cb9b5 0x12407ec4b629fc 0xb1aa2c1b3d1e9d1 0x809201f89fd49e9);
  (Near 0x164d649848325 0x3f401f103911ed 0xc460a88a7527fa 0x22cefc01e8be59b7, Near 0x13a5550e3aad21 0x12407ec4b629fc 0x2b3f233fdbc71175 0x282da09db1f2718d);
  (Near 0x164d649848325 0x3fc69334271659 0x623054453a93fd 0x118c7d31bd72563e, Near 0x164d649848325 0x1eeda4635a4764 0x188c15114ea4ff4 0x220a9b595e4931bd);
  (Near 0x2c9ac9309064a 0x3fc69334271659 0x623054453a93fd 0x8c63e98deb92b1f, Near 0x164d649848325 0x1f30de7551499a 0xc460a88a7527fa 0x112a4cdd7837c241);
  (Near 0x5935926120c94 0x3cfce6a11e100f 0x623054453a93fd 0x43207224cbf4b91, Near 0x164d649848325 0x1fb752993f4e06 0x623054453a93fd 0x8ba259f852f0a83);
  (Near 0x204508a946fd4b 0x3af6b82c7bee02 0xb196d0f2addb35b 0x1447e878fb9682c5, Near 0x164d649848325 0x1ee0325fc27a26 0x1eaf1a55a24e3f1 0x2a7ac2975151e97b);
  (Near 0x25d861cf5909df 0x1ab1af8334f0b7 0x6822f5a42814ba6 0x4973db4e85c67b5, Near 0x2c9ac9309064a 0x1d7b5c163df701 0x1eaf1a55a24e3f1 0x1447e878fb9682c5);
  (Near 0x25d861cf5909df 0x35635f0669e16e 0x34117ad2140a5d3 0x4973db4e85c67b5, Near 0x5935926120c94 0x1ab1af8334f0b7 0x1eaf1a55a24e3f1 0x92e7b69d0b8cf6a);
  (Near 0x2c0ffa4bc62ce5 0x2f2bc689fcbe68 0x12f1c271347ac0e3 0x1447e878fb9682c5, Near 0x147a1706c7cdb1 0xbcaf1a27f2f9a 0x233738d2dabdfe02 0x1447e878fb9682c5);
  (Near 0x3f4192a5d7cdb2 0x31bcc3e369183 0xd992a52180bb95b 0xab1303e38de0f1, Near 0x147a1706c7cdb1 0x1795e344fe5f34 0x119b9c696d5eff01 0x1447e878fb9682c5);
  (Near 0x3c25c667a13c2f 0x637987c6d2306 0x6770ba71a3eec35 0xab1303e38de0f1, Near 0x1fa0c952ebe6d9 0x31bcc3e369183 0xd992a52180bb95b 0x1562607c71bc1e2);
  (Near 0x233ffb6fd1bd84 0x37fbc565f12dc9 0x12f1c271347ac0e3 0x1e165333879ad3af, Near 0x8cffedbf46f61 0x1d8bc8d213dfa6 0x12f1c271347ac0e3 0x3f84057a80fb0c13);
  (Near 0x31c42ce9840ac3 0x14bbc9f61f7045 0xd5f7a100aeab77d 0x592486129900966, Near 0x119ffdb7e8dec2 0x14bbc9f61f7045 0x12f1c271347ac0e3 0x16492184a6402598);
  (Near 0x3a10c5e6c934fc 0x14bbc9f61f7045 0x7cd31aee15aae17 0x2c9243094c804b3, Near 0xe843179b24d3f 0x14bbc9f61f7045 0x7cd31aee15aae17 0xb2490c2532012cc);
  (Near 0x2554fbf0a9c4b7 0x297793ec3ee08a 0x28206bf264954b2 0x2c9243094c804b3, Near 0x1d0862f3649a7e 0x14bbc9f61f7045 0x7cd31aee15aae17 0x592486129900966);
  (Near 0x38665f194f95a0 0x30eef982c73b15 0x12f1c271347ac0e3 0x106fbbb20e316c31, Near 0xe1997c653e568 0x14bbc9f61f7045 0x12f1c271347ac0e3 0x1bdb69e5cfd02efe);
  (Near 0x7776596885a8b 0x3c88f714e4b173 0x141035f9324aa59 0xa2aaad42e7a1874, Near 0x1c332f8ca7cad0 0x14bbc9f61f7045 0x12f1c271347ac0e3 0xdedb4f2e7e8177f);
  (Near 0xeeecb2d10b516 0x3c88f714e4b173 0x141035f9324aa59 0x515556a173d0c3a, Near 0x7776596885a8b 0x1a88c8bf2e2b74 0x28206bf264954b2 0x8e9a7749b556e1b);
  (Near 0x3910ee9eb36ef8 0x151111b8d15cf1 0x17f5cfef810d6a47 0x8d85f88d0ab0b45, Near 0xe443ba7acdbbe 0x151111b8d15cf1 0x17f5cfef810d6a47 0x23617e2342ac2d14);
  (Near 0x23ffdce5e21207 0x2a222371a2b9e2 0x78eb83358312f81 0x8d85f88d0ab0b45, Near 0x1c88774f59b77c 0x151111b8d15cf1 0x17f5cfef810d6a47 0x11b0bf11a156168a);
  (Near 0x3bbb2cb442d458 0x622468bc0a7db 0x64510dddfb753bd 0xa4d3aabc3cede2, Near 0xeeecb2d10b516 0x151111b8d15cf1 0x64510dddfb753bd 0x8d85f88d0ab0b45);
  (Near 0x31554f9f9cbd7d 0x22eef743a8b647 0x19e44aefb5c433ed 0x125592bc5d93046c, Near 0x1c443de6cb608c 0x151111b8d15cf1 0x3b574e12c3b9975b 0x2c39ddac13573859);
  (Near 0x3fbba7fb90c4b3 0x22eef743a8b647 0x10b9819186fab1b7 0x92ac95e2ec98236, Near 0x7332c2dfa039b 0x1bbbcb15aeb2ac 0x78eb83358312f81 0x1d1c6d4562f4d957);
  (Near 0x3999616fd01cd8 0x22eef743a8b647 0x78eb83358312f81 0x49564af1764c11b, Near 0xe66585bf40736 0x14889ee7b4af11 0x78eb83358312f81 0xac6da890561d4eb);
  (Near 0x16aa6a2c276691 0x2f33845b2a05fd 0x17ca9c220663733 0x318baecf6fe89e8, Near 0x1cccb0b7e80e6c 0x622468bc0a7db 0x78eb83358312f81 0x19c112ad69852b5);
  (Near 0x170a26f98671f0 0x2e740ac06bef3f 0x78eb83358312f81 0xf3cd7cf66947a84, Near 0x5c289be619c7c 0x1d2c6d854719cb 0x78eb83358312f81 0x264736a391be5b8d);
  (Near 0x2e144df30ce3e0 0x2e740ac06bef3f 0x78eb83358312f81 0x79e6be7b34a3d42, Near 0xb85137cc338f8 0x1769e3c6e57d4f 0x78eb83358312f81 0xf5c3f381cc69606);
  (Near 0x2db49125add881 0x2e740ac06bef3f 0x3bf823f7e8c10e0 0x3cf35f3d9a51ea1, Near 0x170a26f98671f0 0x1769e3c6e57d4f 0x78eb83358312f81 0x7ae1f9c0e634b03);
  (Near 0x379827c7f51a8c 0x2e740ac06bef3f 0x16cb9002bec5aa05 0x130c0dc340399925, Near 0xde609f1fd46a3 0x12a7f6dc7161f9 0x16cb9002bec5aa05 0x1e991707835b108a);
  (Near 0x9241d07892b4d 0x3857a162b3314a 0x1dfc11fbf460870 0xb8d094443217765, Near 0x1bcc13e3fa8d46 0x12a7f6dc7161f9 0x16cb9002bec5aa05 0xf4c8b83c1ad8845);
  (Near 0x9241d07892b4d 0x39d694982f5ec6 0xefe08fdfa30438 0x5edc5e5054f5e15, Near 0x9241d07892b4d 0x1c2bd0b15998a5 0x3bf823f7e8c10e0 0xb8d094443217765);
  (Near 0x26fda801d82e75 0x1dd98afa4f0328 0x13fbee531fdc9d5d 0xf4c8b83c1ad8845, Near 0x1f874543446dab 0x77662be93c0ca 0x40a32dc8bdc4ed2f 0xf4c8b83c1ad8845);
  (Near 0x9241d07892b4d 0x3bb315f49e0650 0x257b167af178a8c 0xf4c8b83c1ad8845, Near 0x1810e284b0ace1 0xeecc57d278194 0x18ab51227e0bb275 0xf4c8b83c1ad8845);
  (Near 0x9241d07892b4d 0x376960b47bdd85 0x12bd8b3d78bc546 0x7199e98dcdb235b, Near 0x9241d07892b4d 0x1dd98afa4f0328 0x4af62cf5e2f1518 0xf4c8b83c1ad8845);
  (Near 0x9241d07892b4d 0x37fa133bc0b73c 0x95ec59ebc5e2a3 0x396147d5637d389, Near 0x9241d07892b4d 0x1722a1d679591c 0x257b167af178a8c 0x5edc5e5054f5e15);
  (Near 0x9241d07892b4d 0x37128f301f5ae4 0x2ed9dc19add6d2f 0x11a43ceb70c512d1, Near 0x16e8c0d3910206 0xdc4a3cc07d6b9 0x1d5ab3f1dc3ac78d 0x11a43ceb70c512d1);
  (Near 0x12483a0f12569a 0x2dee7228962f97 0x2ed9dc19add6d2f 0x75b4f94eaf3d2d1, Near 0x9241d07892b4d 0x1b8947980fad72 0x5db3b8335bada5e 0x11a43ceb70c512d1);
  (Near 0x2490741e24ad34 0x1ba6381983d8fd 0x2ed9dc19add6d2f 0x236d8e9a80b32d1, Near 0x9241d07892b4d 0x1ba6381983d8fd 0x2ed9dc19add6d2f 0x8db63a6a02ccb44);
  (Near 0x2dd74b5a9fa65b 0x125f60dd08dfd6 0x125b01c363974d2f 0x75b4f94eaf3d2d1, Near 0x1b837de4920b23 0x92fb06e846feb 0x2c11531bb2226d2f 0xeb69f29d5e7a5a2);
  (Near 0x1b77ea7d96c685 0x24bec1ba11bfac 0x57fd9173c51bd2f 0x75b4f94eaf3d2d1, Near 0x1b77ea7d96c685 0x92fb06e846feb 0x15ff645cf146f4bc 0x75b4f94eaf3d2d1);
  (Near 0x36efd4fb2d8d0a 0x946d73c7af927 0x57fd9173c51bd2f 0xedbb3ed7510ad1, Near 0x1b77ea7d96c685 0x125f60dd08dfd6 0xaffb22e78a37a5e 0x75b4f94eaf3d2d1);
  (Near 0x3183f853a16cb9 0xeb2b3e4071978 0x18c89619773a152f 0x75b4f94eaf3d2d1, Near 0x1f249776988ce3 0x3acacf901c65e 0x3e59ca7d462536a7 0x75b4f94eaf3d2d1);
  (Near 0x22d1446f9a5341 0x1d6567c80e32f0 0x8b6a3424623212f 0x75b4f94eaf3d2d1, Near 0x1b77ea7d96c685 0x75959f2038cbc 0x1b7f3d742d98b1eb 0x75b4f94eaf3d2d1);
  (Near 0x56bdca78c2051 0x3acacf901c65e0 0xada9d6ad97a72f 0x75b4f94eaf3d2d1, Near 0x141e908b9339c9 0xeb2b3e4071978 0xa11f6efa1526f8d 0x75b4f94eaf3d2d1);
  (Near 0xad7b94f1840a2 0x355ef2e890458f 0xada9d6ad97a72f 0x356d2df1eae15d1, Near 0x56bdca78c2051 0x1d6567c80e32f0 0x15b53ad5b2f4e5e 0x75b4f94eaf3d2d1);
  (Near 0xf02e11af35af7 0x3133cb1cb52b3a 0x4b2268c79dd642f 0xf644900837f4cd1, Near 0x13ce6354a6f84a 0x1899e58e5a959d 0x18c89619773a152f 0x1ec8920106fe99a2);
  (Near 0x1e05c235e6b5ee 0x2230ea01c1d043 0x4b2268c79dd642f 0x559113a04d0f451, Near 0xf02e11af35af7 0x1899e58e5a959d 0x9644d18f3bac85e 0xf644900837f4cd1);
  (Near 0x3c0b846bcd6bdc 0x42b27cbdb1a55 0x4b2268c79dd642f 0x537556c579c811, Near 0xf02e11af35af7 0x132e08e6ce754c 0x4b2268c79dd642f 0x5fffbe78fc48473);
  (Near 0x328981d08e32e3 0xdad2a671a534e 0x13c2fa3637e2e8ef 0x559113a04d0f451, Near 0x1cb00b820dae45 0x6d695338d29a7 0x2cdf05a67496c62f 0xab2227409a1e8a2);
  (Near 0x24dc576973df95 0x1b5a54ce34a69c 0x734f47e1988fa4f 0x559113a04d0f451, Near 0x1e05c235e6b5ee 0x6d695338d29a7 0x177ac0be6152f4eb 0x559113a04d0f451);
  (Near 0x982029b3f38f9 0x36b4a99c694d38 0xedf1a20a5c02ff 0x559113a04d0f451, Near 0x172f2d02598c47 0xdad2a671a534e 0x910d7c22e41004d 0x559113a04d0f451);
  (Near 0xebe895d618ca2 0x317822da46f98f 0x734f47e1988fa4f 0x182e19ce3257da41, Near 0x1c6bb3c47bdff0 0x150c6f15cb199f 0x3791281a7e38aed1 0x29273f1e4b26ba33);
  (Near 0x1d7d12bac31944 0x22b9997ce56ced 0x734f47e1988fa4f 0x87c92a80c676ff9, Near 0x75f44aeb0c651 0x1b5a54ce34a69c 0x734f47e1988fa4f 0x1abd56221814c595);
  (Near 0x3afa2575863288 0x53c86c22253a9 0x734f47e1988fa4f 0xa3cf14f96f3ad5, Near 0xebe895d618ca2 0x13fb101f83e04b 0x734f47e1988fa4f 0x9c430d1ff45e5a3);
  (Near 0x3252d538e65a9f 0xde3d6fec22b92 0x1ebf3f37527199bb 0x87c92a80c676ff9, Near 0x1ca2605c23b834 0x6f1eb7f6115c9 0x45fb1116b14aa36f 0x10f9255018cedff2);
  (Near 0x246efe3a242f0d 0x1bc7adfd845724 0xb215647a30514e1 0x87c92a80c676ff9, Near 0x1d7d12bac31944 0x6f1eb7f6115c9 0x2408c6767face38b 0x87c92a80c676ff9);
  (Near 0x8a7503c9fd7e9 0x378f5bfb08ae48 0x15261cfcb4ed274 0x87c92a80c676ff9, Near 0x168b273b62037b 0xde3d6fec22b92 0xdc619e739a2b9c9 0x87c92a80c676ff9);
  (Near 0x8a7503c9fd7e9 0x3b32d68a524d1a 0xa930e7e5a7693a 0x4856d38aa7af89d, Near 0x8a7503c9fd7e9 0x1bc7adfd845724 0x2a4c39f969da4e8 0x87c92a80c676ff9);
  (Near 0x38902050e6b9b3 0x17f4680a2370e5 0x15997ba76062c088 0x925c38ff20ed933, Near 0x14212216c28aa6 0x17f4680a2370e5 0x1ebf3f37527199bb 0x24970e3fc83b64cc);
  (Near 0x38902050e6b9b3 0x2fe8d01446e1ca 0xaccbdd3b0316044 0x925c38ff20ed933, Near 0x104ddc2361a467 0x17f4680a2370e5 0xc73b8176e53e755 0x124b871fe41db266);
  (Near 0x38902050e6b9b3 0x27417fd7a709e1 0x5665ee9d818b022 0x3bf64a619f62911, Near 0x8a7503c9fd7e9 0x17f4680a2370e5 0x34df4877c450e22 0x925c38ff20ed933);
  (Near 0x29c9f9c2123e32 0x1b03d3333dc2b1 0x13f28163a2403977 0xce528360c050244, Near 0x14e4fce1091f19 0x17f4680a2370e5 0x27e502c7448072ee 0x2dbcd1cfba4a3dff);
  (Near 0x38902050e6b9b3 0x1b03d3333dc2b1 0xd7fed489c3db855 0x672941b06028122, Near 0x14e4fce1091f19 0x1b03d3333dc2b1 0x13f28163a2403977 0x19ca506c180a0488);
  (Near 0x3b189a3b51ee04 0x1b03d3333dc2b1 0x70d592d963b3733 0x3394a0d83014091, Near 0xec6268ed47b81 0x1b03d3333dc2b1 0x70d592d963b3733 0xce528360c050244);
  (Near 0x216e61680e9828 0x3c72349b4c5ad9 0x13f28163a2403977 0x2410f3a731467c4c, Near 0x85b985a03a60a 0x1b03d3333dc2b1 0x13f28163a2403977 0x4079c90e3c190b54);
  (Near 0x66a8e34d0d577 0x3c72349b4c5ad9 0x1ea0790099cfb51 0x120879d398a33e26, Near 0x10b730b4074c14 0x1b03d3333dc2b1 0x13f28163a2403977 0x203ce4871e0c85aa);
  (Near 0xcd51c69a1aaee 0x3c72349b4c5ad9 0x1ea0790099cfb51 0x9043ce9cc519f13, Near 0x66a8e34d0d577 0x1b03d3333dc2b1 0x3d40f201339f6a2 0x101e72438f0642d5);
  (Near 0x19aa38d34355dc 0x2f9d1831aaafeb 0x1ea0790099cfb51 0x38d1aace15a51e1, Near 0x66a8e34d0d577 0x1c5d6d93382f86 0x1ea0790099cfb51 0x876540368925591);
  (Near 0x357d68a67dc040 0x21b380480d7ab9 0x13f28163a2403977 0xc915796adabf0f4, Near 0xd5f5a299f7010 0x1454261e6e0aa9 0x13f28163a2403977 0x1e52dcf7146f8a59);
  (Near 0x2793d0bce08b0e 0x21b380480d7ab9 0x76129ccf4944883 0x648abcb56d5f87a, Near 0x1abeb4533ee020 0x6f4cbf4ce9a99 0x13f28163a2403977 0x5302dc9b917a871);
  (Near 0x2d742131b39b63 0x21b380480d7ab9 0x43cd3e749294c46 0x32455e5ab6afc3d, Near 0x13c9e85e704587 0xde997e99d3532 0x76129ccf4944883 0x5302dc9b917a871);
  (Near 0x3845ba3b9d314a 0x21b380480d7ab9 0x1a3b2d2ef91631f1 0xfb5ad7c5916ed31, Near 0x1c22dd1dce98a5 0x1eeb2eb2ee09af 0x34765a5df22c63e2 0x39a68827ab440c53);
  (Near 0x169239f38fb691 0x2cd4c69c8b3ee1 0x542bfd94fffa260 0xa72eda309174ad1, Near 0x1c22dd1dce98a5 0x590a32a3ee214 0x1a3b2d2ef91631f1 0x5302dc9b917a871);
  (Near 0x169239f38fb691 0x2c851951f710a0 0x2a15feca7ffd130 0x5302dc9b917a871, Near 0x169239f38fb691 0xb2146547dc428 0xa857fb29fff44c0 0x5302dc9b917a871);
  (Near 0x2d0494fc7dc108 0x16725b08ee0a77 0x1a3b2d2ef91631f1 0xd144d8fb1171c01, Near 0xb41253f1f7042 0x16725b08ee0a77 0x1a3b2d2ef91631f1 0x3451363ec45c7004);
  (Near 0x169239f38fb691 0x2ce4b611dc14ee 0x6936fcfa3ff8af8 0xd144d8fb1171c01, Near 0x16824a7e3ee084 0x16725b08ee0a77 0x1a3b2d2ef91631f1 0x1a289b1f622e3802);
  (Near 0x169239f38fb691 0x2ca4f83c98bcba 0x349b7e7d1ffc57c 0x680ddc00d179109, Near 0x169239f38fb691 0x16725b08ee0a77 0xd26df9f47ff15f0 0xd144d8fb1171c01);
  (Near 0x169239f38fb691 0x2c257c92120c52 0x1a4dbf3e8ffe2be 0x33725d83b17cb8d, Near 0x169239f38fb691 0x16527c1e4c5e5d 0x6936fcfa3ff8af8 0x680ddc00d179109);
  (Near 0x169239f38fb691 0x31751ad39fe4af 0x8384bc38cff6db6 0x1202e16b6c16c43b, Near 0x1201d531cbe6d0 0x1f7345a1d3fddf 0x1a3b2d2ef91631f1 0x2dd0587eb744defb);
  (Near 0x169239f38fb691 0x35c5c1c0205c3c 0x41c25e1c67fb6db 0x9ca95a7df175685, Near 0x169239f38fb691 0xd71707008170f 0x1070978719fedb6c 0x9ca95a7df175685);
  (Near 0x2d2473e71f6d22 0x1f3387cc90a5ab 0x41c25e1c67fb6db 0x2d737e30c4bcfd5, Near 0x169239f38fb691 0x1ae2e0e0102e1e 0x8384bc38cff6db6 0x9ca95a7df175685);
  (Near 0x2a5aab1502ded7 0x2790e242e6508c 0x1347cf6a264aab41 0x1202e16b6c16c43b, Near 0x169239f38fb691 0x9e43890b99423 0x29197ad1c0fd248e 0x1202e16b6c16c43b);
  (Near 0x2c9c8d21c8e4b 0x3e670f99214b56 0xa276ff5d19f383 0xe34176f3d7b0f29, Near 0x169239f38fb691 0x13c87121732846 0x148cbd68e07e9247 0x1202e16b6c16c43b);
  (Near 0x59391a4391c96 0x3b9d46c704bd0b 0xa276ff5d19f383 0x6c8d037f0308dd3, Near 0x2c9c8d21c8e4b 0x1f3387cc90a5ab 0x144edfeba33e706 0xe34176f3d7b0f29);
  (Near 0x324471ef30eef3 0x1fa71b68b84070 0x1c9a7b9f8ae30720 0x1202e16b6c16c43b, Near 0x1a871d60a6be9f 0x7e9c6da2e101c 0x3c614a3be747cfcf 0x1202e16b6c16c43b);
  (Near 0x324471ef30eef3 0x3f4e36d17080e0 0xe4d3dcfc5718390 0x1202e16b6c16c43b, Near 0x129d568678ae83 0xfd38db45c2038 0x152f34683d9885ca 0x1202e16b6c16c43b);
  (Near 0x324471ef30eef3 0x1a1389c47f23da 0x7269ee7e2b8c1c8 0x3b5a39ba6a540ab, Near 0x129d568678ae83 0x1fa71b68b84070 0xa979a341ecc42e5 0x1202e16b6c16c43b);
  (Near 0x324471ef30eef3 0x34271388fe47b4 0x3934f73f15c60e4 0x3b5a39ba6a540ab, Near 0x1830e82ab1cb19 0xd09c4e23f91ed 0x6e1f6987827023a 0x3b5a39ba6a540ab);
  (Near 0x324471ef30eef3 0x147be77e6fd7bb 0x11e08d43b6cde474 0x748f30f9801a18f, Near 0x772229c3045ce 0x1bee0a1aa01d89 0xa979a341ecc42e5 0x27bb66727ed2c921);
  (Near 0x324471ef30eef3 0x28f7cefcdfaf76 0x8f046a1db66f23a 0x748f30f9801a18f, Near 0xee44538608b9c 0x147be77e6fd7bb 0xa979a341ecc42e5 0xe91e61f3003431e);
  (Near 0x324471ef30eef3 0x1fab2c0a8e6ff9 0x4782350edb3791d 0x2d0cfbeaa4e2872, Near 0x1dc88a70c11738 0x147be77e6fd7bb 0xa979a341ecc42e5 0x748f30f9801a18f);
  (Near 0x324471ef30eef3 0x247e805e6d0c2a 0x1658b094a4815d91 0x103939b1736893c9, Near 0x100298dffd346f 0x123f402f368615 0x1c782777d59a2759 0x20727362e6d12792);
  (Near 0xdc5f190c3e2c9 0x3b370f2c16358b 0x30fbb71988c64e4 0xd297e3fdadc2ee5, Near 0xdc5f190c3e2c9 0x123f402f368615 0xc3eedc662319390 0x103939b1736893c9);
  (Near 0xdc5f190c3e2c9 0x3f5658151cdff2 0x187ddb8cc463272 0x70a075ca9c3651d, Near 0xdc5f190c3e2c9 0x16b88ecda92961 0x61f76e33118c9c8 0xa19c2ce424fca01);
  (Near 0x2db9222c758046 0x1ff3309bb19d7d 0x19686c063d0dc275 0x11c1176a3faec63b, Near 0x1b67e0d8f62ed0 0x1ff3309bb19d7d 0x3cea9adabc6b4eeb 0x47045da8febb18ec);
  (Near 0xdc5f190c3e2c9 0x3fe66137633afa 0x3d3aa4dfeaf7e1d 0x11c1176a3faec63b, Near 0x16dc91163ac023 0x1ff3309bb19d7d 0x19686c063d0dc275 0x23822ed47f5d8c76);
  (Near 0x1b8be32187c592 0x32206fa69f5831 0x3d3aa4dfeaf7e1d 0x6f6b68e207fa40f, Near 0xdc5f190c3e2c9 0x1ff3309bb19d7d 0x7a7549bfd5efc3a 0x11c1176a3faec63b);
  (Near 0x3717c6430f8b24 0x16948c8517929f 0x3d3aa4dfeaf7e1d 0x191862010e812f9, Near 0xdc5f190c3e2c9 0x16948c8517929f 0x3d3aa4dfeaf7e1d 0x646188043a04be4);
  (Near 0x399f59524dc749 0x140cf975d9567a 0x14033b982d76315f 0x6f6b68e207fa40f, Near 0x17cc6e4bb08e06 0xa067cbaecab3d 0x210fc0a23a6cbeaf 0xded6d1c40ff481e);
  (Near 0x25925fdc7470cf 0x2819f2ebb2acf4 0x6864285067b46a8 0x6f6b68e207fa40f, Near 0x1b8be32187c592 0xa067cbaecab3d 0x13225385f96d7691 0x6f6b68e207fa40f);
  (Near 0x25925fdc7470cf 0x2aa185faf0e919 0x3432142833da354 0x3b3954b9d4200bb, Near 0x118566669b1a55 0x140cf975d9567a 0x615ce7bec76e941 0x6f6b68e207fa40f);
  (Near 0x3d206dcd39995a 0x178e0df0c5288b 0x1a897e1d33f17807 0xa39d7d0a3bd4763, Near 0x1b0f226bb0fa9c 0x178e0df0c5288b 0x2efd2dbe7b6c06cd 0x28e75f428ef51d8c);
  (Near 0x25925fdc7470cf 0x2f1c1be18a5116 0x827d326481a1852 0xa39d7d0a3bd4763, Near 0x1e9036e69cccad 0x178e0df0c5288b 0x1a897e1d33f17807 0x1473afa1477a8ec6);
  (Near 0x25925fdc7470cf 0x38a5d7e6a0315d 0x413e993240d0c29 0x625ee3d7fb03b3a, Near 0xe0451ebaf4844 0x178e0df0c5288b 0x615ce7bec76e941 0xa39d7d0a3bd4763);
  (Near 0x2d33c313b9243b 0x310474af5b7df1 0x188799346b879aef 0x1a999ddec72aca00, Near 0x15a5b522f3fbb0 0x178e0df0c5288b 0x2efd2dbe7b6c06cd 0x3321371332b264ef);
  (Near 0x2963117816ca85 0x310474af5b7df1 0xb3aca4507f235ef 0xd4cceef63956500, Near 0x1fd9557300ea3e 0x1e858cdd12cdb 0x229111c05598ec67 0x21204aa5ba32f11);
  (Near 0x21c1ae40d21719 0x310474af5b7df1 0x49462cd5627836f 0x6a66777b1cab280, Near 0x1df0fca52fbd63 0x3d0b19ba259b6 0x103f868afcfadeab 0x21204aa5ba32f11);
  (Near 0x127ee7d248b041 0x310474af5b7df1 0x1412f117d422a2f 0x35333bbd8e55940, Near 0x1a204b098d63ad 0x7a1633744b36c 0x716c0f050abd7cd 0x21204aa5ba32f11);
  (Near 0x174e5d09ccbc07 0x310474af5b7df1 0x7e796892f0cdcaf 0x10a002ab3c7abe40, Near 0x1214b46e4a0e7e 0x1eefc041116f73 0x188799346b879aef 0x29f8717886635e11);
  (Near 0x2e9cba1399780e 0x310474af5b7df1 0x7e796892f0cdcaf 0x85001559e3d5f20, Near 0x174e5d09ccbc07 0xcdb0bd2c760f5 0xfcf2d125e19b95e 0x8b86c220d6de191);
  (Near 0x2c34ff77d7722b 0x310474af5b7df1 0x3bf95de5fee2d1f 0x42800aacf1eaf90, Near 0x174e5d09ccbc07 0x19b617a58ec1ea 0x7e796892f0cdcaf 0x8b86c220d6de191);
  (Near 0x2640791ac86266 0x310474af5b7df1 0x103797decd4a3bcf 0x14c803560b996dd0, Near 0x13203c8d643133 0xef21c10fba65f 0x206f2fbd9a94779e 0x19586ecd49e89fd1);
  (Near 0x1b7c7d863546db 0x310474af5b7df1 0x5d39633c77d84e7 0xa6401ab05ccb6e8, Near 0x13203c8d643133 0x1de43821f74cbe 0x103797decd4a3bcf 0x19586ecd49e89fd1);
  (Near 0x36f8fb0c6a8db6 0x310474af5b7df1 0x5d39633c77d84e7 0x53200d582e65b74, Near 0x1b7c7d863546db 0xac3fb94931b8b 0xba72c678efb09ce 0x4906b773e4f3201);
  (Near 0x14cc498bf468bb 0x310474af5b7df1 0xb0597094a63e05b 0x19fa042b8e7fc944, Near 0x14cc498bf468bb 0x11742f8ed3f9ab 0x2c165c25298f816c 0x24ff9b34d8e3a99f);
  (Near 0x29989317e8d176 0x310474af5b7df1 0xb0597094a63e05b 0xcfd0215c73fe4a2, Near 0x14cc498bf468bb 0xe1c1591b38a9b 0x160b2e1294c7c0b6 0xef46d22441be8e9);
  (Near 0x222cb1807624fb 0x310474af5b7df1 0x48715fe66c3ee0a 0x67e810ae39ff251, Near 0x14cc498bf468bb 0x1c382b23671536 0xb0597094a63e05b 0xef46d22441be8e9);
  (Near 0x222cb1807624fb 0x3fdc37de40d6e7 0x2438aff3361f705 0x43af60bb03dfb4c, Near 0x1ac0cfe9037880 0x76be19772ac7b 0x716c0f050abd7cd 0x1f76b0c7cdc0447);
  (Near 0x1a711ef96f6cf9 0x2d26ab6bd821f0 0x8c20c0a1701e956 0xef46d22441be8e9, Near 0x1a711ef96f6cf9 0xb49aadaf6087c 0x230830285c07a558 0xef46d22441be8e9);
  (Near 0x1a711ef96f6cf9 0x3fdc37de40d6e7 0x46106050b80f4ab 0xa93671d389af43e, Near 0x1a711ef96f6cf9 0x169355b5ec10f8 0x118418142e03d2ac 0xef46d22441be8e9);
  (Near 0x34e23df2ded9f2 0x3fdc37de40d6e7 0x46106050b80f4ab 0x549b38e9c4d7a1f, Near 0x1a711ef96f6cf9 0x12b58c7268b4f7 0x8c20c0a1701e956 0x63261182d19ff93);
  (Near 0x34e23df2ded9f2 0x2c8096be2c4759 0x15e51e193984c757 0x126cc59dbed05820, Near 0x1a711ef96f6cf9 0x907bbe25e6d30 0x2bca3c3273098eae 0xef46d22441be8e9);
  (Near 0x3d43e527916c8b 0x2c8096be2c4759 0xcaebb4a5a1c9b47 0x93662cedf682c10, Near 0x1a711ef96f6cf9 0x120f77c4bcda60 0x15e51e193984c757 0xef46d22441be8e9);
  (Near 0x21869cd2ca4a64 0x2c8096be2c4759 0x378587b7ab46f37 0x49b31676fb41608, Near 0x861a734b29299 0x1bbd4854c72227 0x378587b7ab46f37 0xb7c14a6c96779b2);
  (Near 0x3c1ba10e5d97b2 0x2c8096be2c4759 0x1f1b80e818ecf367 0x1707f7052e846e28, Near 0x1e0dd0872ecbd9 0x739631b7ebdc0 0x3e3701d031d9e6ce 0xef46d22441be8e9);
  (Near 0x1f3614a062a0b2 0x2c8096be2c4759 0x81389e2ea68853f 0xb83fb8297423714, Near 0x1e0dd0872ecbd9 0xe72c636fd7b80 0x1f1b80e818ecf367 0xef46d22441be8e9);
  (Near 0x3e6c2940c54164 0x2c8096be2c4759 0x81389e2ea68853f 0x5c1fdc14ba11b8a, Near 0xf9b0a50315059 0x1ce58c6dfaf700 0x81389e2ea68853f 0xef46d22441be8e9);
  (Near 0x23d7250531f416 0x2c8096be2c4759 0x2518c219ec769b5 0x2e0fee0a5d08dc5, Near 0x1f3614a062a0b2 0xd4a821dc9a6a7 0x81389e2ea68853f 0x370719facd9b1d5);
  (Near 0x21de950cbe286d 0x2c8096be2c4759 0xaf488c390391304 0xe64fa633d12c4d9, Near 0x1f3614a062a0b2 0x2a8806c5b87bb 0x2861b16e940a9a3b 0x370719facd9b1d5);
  (Near 0x21de950cbe286d 0x3722986f9a6645 0x57a4461c81c8982 0x8eab60174f63b57, Near 0x1c8d94340718f7 0x55100d8b70f76 0x12789fe773987433 0x370719facd9b1d5);
  (Near 0x21de950cbe286d 0x2a8806c5b87bb0 0x2bd2230e40e44c1 0x370719facd9b1d5, Near 0x173c935b500981 0xaa201b16e1eec 0x7841723e35f612f 0x370719facd9b1d5);
  (Near 0x6c61dcf593b49 0x3eda6033c42d8b 0x2bd2230e40e44c1 0x19699eb10c6b476c, Near 0x6c61dcf593b49 0x1ef45b1f79d0c7 0xaf488c390391304 0x320fd26910ebb235);
  (Near 0xd8c3b9eb27692 0x3eda6033c42d8b 0x2bd2230e40e44c1 0xcb4cf588635a3b6, Near 0x6c61dcf593b49 0x1c0a2132357921 0x57a4461c81c8982 0x16ac7c80285d02ab);
  (Near 0x1b18773d64ed24 0x3eda6033c42d8b 0x2bd2230e40e44c1 0x65a67ac431ad1db, Near 0x6c61dcf593b49 0x1cfbcb2706051e 0x2bd2230e40e44c1 0xbb7f3bc9823efa7);
  (Near 0x3281209381551b 0x1768a9561c67f7 0x198657027f7eb322 0xbd4ac0e0b375b5d, Near 0x6c61dcf593b49 0x1e2ec72575a340 0xdb1aaf4744757c5 0x3d045b2ca124c539);
  (Near 0x3281209381551b 0x2ed152ac38cfee 0xcc32b813fbf5991 0xbd4ac0e0b375b5d, Near 0xd8c3b9eb27692 0x1768a9561c67f7 0xdb1aaf4744757c5 0x17a9581c166eb6ba);
  (Near 0x3afcde748852d 0x3c746836e4f147 0x773fb99a43ff1a 0x7a36e879ed36373, Near 0x1b18773d64ed24 0x1768a9561c67f7 0xdb1aaf4744757c5 0xbd4ac0e0b375b5d);
  (Near 0x3afcde748852d 0x3debf1f9418fbe 0x3b9fdccd21ff8d 0x3e970baccb36aa3, Near 0x3afcde748852d 0x1c624d27ce360d 0xee7f733487fe34 0x72c2ece048f6459);
  (Near 0x2924100aa92b85 0x2574422360a658 0xcfecb5e0ce1591e 0xbd4ac0e0b375b5d, Near 0x1fc6ff81d101ef 0x95d1088d82996 0x2826816a284e091b 0xbd4ac0e0b375b5d);
  (Near 0x2924100aa92b85 0x21c4743c18212b 0x67f65af0670ac8f 0x555465f04c6aece, Near 0x1669eef8f8d859 0x12ba2111b0532c 0xe28eaae0e8b56df 0xbd4ac0e0b375b5d);
  (Near 0x3083abd93a35df 0x21c4743c18212b 0x3d4c27f840d5528 0x2aaa32f82635767, Near 0x3afcde748852d 0x1e14a654cf9bfe 0x12a1f5001a9fdc1 0x9806d6e07e35fdb);
  (Near 0x3e0573f143dcbd 0x6c0e40c04d36f 0x187d12dc99095896 0x2aaa32f82635767, Near 0x113195ff522c0b 0x17f27a0b56ff7a 0x1b27b60c1b6caffd 0x25d242ca24fa0d99);
  (Near 0x3e0573f143dcbd 0xd81c81809a6de 0xc3e896e4c84ac4b 0x2aaa32f82635767, Near 0x1ba247f29f84a7 0x6c0e40c04d36f 0x15d26fad16a6012f 0x555465f04c6aece);
  (Near 0x3083abd93a35df 0x1b039030134dbc 0x4c9f31f6510aa72 0x2aaa32f82635767, Near 0x1c40ffb52bbb92 0x6c0e40c04d36f 0xb27e2ef0d18a393 0x2aaa32f82635767);
  (Near 0x239d34da22ddca 0x1f5062851b15c3 0x1193cfcd514b5b19 0xf747fdd6e9e080e, Near 0x11ce9a6d116ee5 0x188f7e79164254 0x23279f9aa296b632 0x307ccf882e876b35);
  (Near 0x27ea072f2aa5d1 0x1f5062851b15c3 0x9d98fde99fc5712 0x7ba3feeb74f0407, Near 0x11ce9a6d116ee5 0x1f5062851b15c3 0x1193cfcd514b5b19 0x1ee8ffbadd3c101c);
  (Near 0x27ea072f2aa5d1 0x3ea0c50a362b86 0x4ecc7ef4cfe2b89 0x7ba3feeb74f0407, Near 0x44cd25507c807 0x1f5062851b15c3 0x21f4fefe2ad530b 0xf747fdd6e9e080e);
  (Near 0x347094fe02481f 0xc868dced7a24e 0x205a279b3845ddb4 0x7ba3feeb74f0407, Near 0x1d59edf2b70ca3 0x64346e76bd127 0x486e8f2527dabf6f 0xf747fdd6e9e080e);
  (Near 0x347094fe02481f 0x190d1b9daf449c 0x102d13cd9c22eeda 0x7ba3feeb74f0407, Near 0x1b637960530383 0x64346e76bd127 0x21cb4f7b934fab4c 0x7ba3feeb74f0407);
  (Near 0x347094fe02481f 0x321a373b5e8938 0x81689e6ce11776d 0x7ba3feeb74f0407, Near 0x1b637960530383 0xc868dced7a24e 0x10e5a7bdc9a7d5a6 0x7ba3feeb74f0407);
  (Near 0x2565dc2a3bee7 0x3ece924c812400 0x2e24fc0b6139b3 0x4d7f02e013b68d7, Near 0x1b637960530383 0x190d1b9daf449c 0x872d3dee4d3ead3 0x7ba3feeb74f0407);
  (Near 0x297bfe0aade051 0x3d0ece2eb2f106 0xffeeed190c1b527 0x178b09c43caf7f7b, Near 0x57a4b79aa33e7 0x1e876717597883 0x872d3dee4d3ead3 0x2f161388795efef6);
  (Near 0x3f652bf156afed 0x1392d0240510b5 0xc38e1583acacffd 0x3c60d7955f6e52a, Near 0xaf496f35467ce 0x1e876717597883 0x872d3dee4d3ead3 0x178b09c43caf7f7b);
  (Near 0x307f1752991d06 0x1392d0240510b5 0x4acc6658edd05a9 0x1e306bcaafb7295, Near 0x15e92de6a8cf9c 0x1392d0240510b5 0x872d3dee4d3ead3 0x78c1af2abedca54);
  (Near 0x36a17ffb799015 0x251a280fbf5065 0x1a54c96d2091128f 0x11e1f58e3bbd27bc, Near 0x461d5faee8fec 0x1c567c19e2308d 0x872d3dee4d3ead3 0x36a22e7b254cc94a);
  (Near 0x230eafd7747f60 0x251a280fbf5065 0x872d3dee4d3ead3 0x8f0fac71dde93de, Near 0x8c3abf5dd1fd8 0x1c567c19e2308d 0x872d3dee4d3ead3 0x1b51173d92a664a5);
  (Near 0x2103379f29ae5b 0x251a280fbf5065 0x3fa567b55e4a0e4 0x4787d638eef49ef, Near 0x118757ebba3fb0 0x1392d0240510b5 0x872d3dee4d3ead3 0x96f21af56e93ce9);
  (Near 0x3eb1be122921df 0x76ba19cbfdce1 0x25c5a5f6e9344c30 0x4787d638eef49ef, Near 0x18f2f9887a1c91 0x76ba19cbfdce1 0x3c2018e8b3e0bddb 0x11e1f58e3bbd27bc);
  (Near 0x3eb1be122921df 0xed743397fb9c2 0x12e2d2fb749a2618 0x4787d638eef49ef, Near 0x1ba30e3ab4a27f 0x76ba19cbfdce1 0x214d28935a450241 0x8f0fac71dde93de);
  (Near 0x3eb1be122921df 0x1dae8672ff7384 0x971697dba4d130c 0x4787d638eef49ef, Near 0x1997960269d17a 0x76ba19cbfdce1 0xf6b33051e87da85 0x4787d638eef49ef);
  (Near 0x3eb1be122921df 0x3b5d0ce5fee708 0x4b8b4bedd268986 0x4787d638eef49ef, Near 0x122bf465a9f499 0xed743397fb9c2 0x5795ad0c7cc484b 0x4787d638eef49ef);
  (Near 0x18695bcb3b34fb 0x3b5d0ce5fee708 0x93132226c15d375 0x165a72f1caac71ab, Near 0x18695bcb3b34fb 0xed743397fb9c2 0x24c4c889b0574dd4 0x165a72f1caac71ab);
  (Near 0x30d2b7967669f6 0x22f3b11ac3b20d 0x93132226c15d375 0x694a067af4b4f1b, Near 0x18695bcb3b34fb 0x1dae8672ff7384 0x12626444d82ba6ea 0x165a72f1caac71ab);
  (Near 0xddf067bb2b7e9 0x38085bb9d4ac31 0x14e48dd5e65422d 0x546578a50e60cee, Near 0x18695bcb3b34fb 0xa8a554f887d12 0x93132226c15d375 0x3f80eacf280cac1);
  (Near 0x13877ca295c3fc 0x2cb76f6c0e940b 0x93132226c15d375 0x150c2a146c472f7e, Near 0x4e1df28a570ff 0x1e11d1f21e410e 0x93132226c15d375 0x389d11ea6cdb4399);
  (Near 0x270ef9452b87f8 0x2cb76f6c0e940b 0x93132226c15d375 0xa86150a362397bf, Near 0x9c3be514ae1fe 0x192ff2c978d00f 0x93132226c15d375 0x17b5efe40062b812);
  (Near 0x3d249015adebb7 0x5a87626e30c13 0x731ddc6bd012d06 0xaa7173e506e225, Near 0x13877ca295c3fc 0x192ff2c978d00f 0x93132226c15d375 0xbdaf7f200315c09);
  (Near 0x336589a550466c 0x1304aa996670d5 0x1e3d5c36d85d02f3 0xb30867e1b2a79e4, Near 0xcd9626954119b 0x1fde0d02ba8270 0x1e3d5c36d85d02f3 0x4aff762f4506ea83);
  (Near 0x2dbd137e6d3a59 0x1304aa996670d5 0xd749279af9d4c1d 0x598433f0d953cf2, Near 0x19b2c4d2a82336 0x1304aa996670d5 0x1e3d5c36d85d02f3 0x16610cfc3654f3c8);
  (Near 0x3570d1ca0d9308 0x1304aa996670d5 0x7dc4f3aa2080f2b 0x2cc219f86ca9e79, Near 0xd5c34728364c2 0x1304aa996670d5 0x7dc4f3aa2080f2b 0xb30867e1b2a79e4);
  (Near 0x226c2730a72233 0x26095532cce1aa 0x28816cd8d9eb859 0x2cc219f86ca9e79, Near 0x1ab868e506c984 0x1304aa996670d5 0x7dc4f3aa2080f2b 0x598433f0d953cf2);
  (Near 0x25504bff2bbb5f 0x26095532cce1aa 0xdb89d4ba8c9323d 0xdfca81da1f5185d, Near 0x925d0b2e2a545 0x1c2a7b4c49161a 0xd749279af9d4c1d 0x296de2b4f3877cd7);
  (Near 0x3fc90df7e63859 0xb90933a1264b 0xbba4c24dbfff44d 0x220568fc95f310, Near 0x124ba165c54a8a 0x1304aa996670d5 0xd749279af9d4c1d 0xdfca81da1f5185d);
  (Near 0x3ff6f2306746ea 0xb90933a1264b 0x5e15e19723a2d8d 0x1102b47e4af988, Near 0x1f880262228907 0xb90933a1264b 0xb9846bbdf6a013d 0x440ad1f92be620);
  (Near 0x1d8fd2b77c202e 0x3bd8aea29966a7 0xd9697e2ac333f2d 0x1b823d4bcfdd5e02, Near 0xec7e95bbe1017 0x168862a36dab48 0x1b2d2fc558667e5a 0x296de2b4f3877cd7);
  (Near 0x3b1fa56ef8405c 0x3bd8aea29966a7 0xd9697e2ac333f2d 0xdc11ea5e7eeaf01, Near 0xec7e95bbe1017 0x1e48dbeb1d4679 0xd9697e2ac333f2d 0x1bd74ad247543daa);
  (Near 0x3f508f8a192274 0xb90933a1264b 0x74696e7ce60a5b5 0x1543619dddb7ea, Near 0x1d8fd2b77c202e 0x1e48dbeb1d4679 0xd9697e2ac333f2d 0xdeba56923aa1ed5);
  (Near 0x2f71862fe6d4bf 0x181547b1c3fd85 0x1b427326f6443644 0xdd6620785cc66eb, Near 0x11e1b3786ab491 0x181547b1c3fd85 0x2918d52e7c109d2f 0x3759881e17319bac);
  (Near 0x2f71862fe6d4bf 0x302a8f6387fb0a 0xda139937b221b22 0xdd6620785cc66eb, Near 0xbae1f3f116b9d 0x181547b1c3fd85 0xd6c111f7077cf59 0x1bacc40f0b98cdd6);
  (Near 0x2f71862fe6d4bf 0x30e39897292155 0x6d09cc9bd910d91 0x705c53dc83b595a, Near 0x175c3e7e22d73a 0x181547b1c3fd85 0xd6c111f7077cf59 0xdd6620785cc66eb);
  (Near 0x2dff73c8a48829 0x30e39897292155 0x34dba2ad97360e4 0x382e29ee41dacad, Near 0x1f8abbc00d8a4d 0xb90933a1264b 0x90fbf9a907f97dc 0x3528740aaa4bc9);
  (Near 0x256063fd048b90 0x1cc15431648ef7 0xd6c111f7077cf59 0xa537f68a1aeba3e, Near 0x95818ff4122e4 0x1cc15431648ef7 0xd6c111f7077cf59 0x294dfda286bae8f8);
  (Near 0x2dff73c8a48829 0x1cc15431648ef7 0x842516b1fa0723a 0x529bfb450d75d1f, Near 0x12b031fe8245c8 0x1cc15431648ef7 0xd6c111f7077cf59 0x14a6fed1435d747c);
  (Near 0x2dff73c8a48829 0x3982a862c91dee 0x42128b58fd0391d 0x529bfb450d75d1f, Near 0x89f0fcb9ffc99 0x1cc15431648ef7 0x31891b6cec9151b 0xa537f68a1aeba3e);
  (Near 0x3735377728332d 0x3982a862c91dee 0x18c82786d32dad99 0x19d0be859434d19b, Near 0xd39f1a2e1d21b 0x1cc15431648ef7 0x17bf908812268997 0x33a17d0b2869a336);
  (Near 0x3e102b9a1d2485 0x24d70eba0eac1 0xdedf613e862b384 0x844b7f60839201, Near 0x1a73e345c3a436 0x1cc15431648ef7 0x17bf908812268997 0x19d0be859434d19b);
  (Near 0x3e102b9a1d2485 0x49ae1d741d582 0x6f6fb09f43159c2 0x844b7f60839201, Near 0x1de15d573e1ce2 0x24d70eba0eac1 0xd69aa9487df2183 0x10896fec1072402);
  (Near 0x2a53053c6c39f0 0x1776f389d707b9 0x17bf908812268997 0xd2a85027a5c31ce, Near 0xa94c14f1b0e7c 0x1776f389d707b9 0x17bf908812268997 0x34aa1409e970c738);
  (Near 0x3d2f16ef016c27 0x1776f389d707b9 0x112a4e06d4f870b0 0x69542813d2e18e7, Near 0x1529829e361cf8 0x1776f389d707b9 0x17bf908812268997 0x1a550a04f4b8639c);
  (Near 0x3d2f16ef016c27 0x2eede713ae0f72 0x89527036a7c3858 0x69542813d2e18e7, Near 0x12dc11b2953237 0x1776f389d707b9 0xa950b8597ca57c9 0xd2a85027a5c31ce);
  (Near 0x3d2f16ef016c27 0x20acb7385ab2bd 0x44a9381b53e1c2c 0x24aaeff87effcbb, Near 0xe412fdb535cb5 0x1776f389d707b9 0x3ffc9045a9c3ee2 0x69542813d2e18e7);
  (Near 0x3d2f16ef016c27 0x688f171abbd59 0x1574e1888a368cdc 0x24aaeff87effcbb, Near 0x10ee02182b4a60 0x1776f389d707b9 0x17bf908812268997 0x20ea4c8631e67c83);
  (Near 0x3d2f16ef016c27 0xd11e2e3577ab2 0xaba70c4451b466e 0x24aaeff87effcbb, Near 0x1b5312beaad767 0x688f171abbd59 0x132a328902469021 0x4955dff0fdff976);
  (Near 0x3d2f16ef016c27 0x1a23c5c6aef564 0x55d3862228da337 0x24aaeff87effcbb, Near 0x1c825fb6a6b96a 0x688f171abbd59 0x9ff768ae2869d35 0x24aaeff87effcbb);
  (Near 0x3d2f16ef016c27 0x53a5ac1563114 0x1ad219eaacc43013 0x24aaeff87effcbb, Near 0x1f1f8d1751d1f4 0x14e96b0558c45 0x3692aeb57c810b7f 0x24aaeff87effcbb);
  (Near 0x37f4bc2dab3b13 0xa74b582ac6228 0xc43b575926a19ac 0x24aaeff87effcbb, Near 0x1dd0f666fc45af 0x29d2d60ab188a 0x1a23ffdafa488762 0x24aaeff87effcbb);
  (Near 0x37f4bc2dab3b13 0x14e96b0558c450 0x621dabac9350cd6 0x24aaeff87effcbb, Near 0x1dd0f666fc45af 0x53a5ac1563114 0xd11ffed7d2443b1 0x24aaeff87effcbb);
  (Near 0xf5fa1709a6647 0x33a8ade68d90de 0x86c89ba51250991 0x1c4e7e7249fa02c9, Near 0xf5fa1709a6647 0x1499fc31f0975b 0x21b226e944942644 0x2d2791e6ec4415eb);
  (Near 0x1ebf42e134cc8e 0x24490c75f32a97 0x86c89ba51250991 0x9f0fa5bfc6a7c9c, Near 0xf5fa1709a6647 0x19d456f346c86f 0x10d91374a24a1322 0x1c4e7e7249fa02c9);
  (Near 0x3d7e85c269991c 0x24490c75f32a97 0x86c89ba51250991 0x4f87d2dfe353e4e, Near 0xf5fa1709a6647 0x14e96b0558c450 0x86c89ba51250991 0xb756afda7afefa7);
  (Near 0x326af298ecdd0a 0x24490c75f32a97 0x3740c8c52efcb43 0x27c3e96ff1a9f27, Near 0x1ebf42e134cc8e 0x589c994be5e09 0x86c89ba51250991 0x18470a1ab45730b);
  (Near 0x1899024dc3d6d8 0x3ce20ec3b7016f 0x86c89ba51250991 0x14d9c2ad4caa2554, Near 0x626409370f5b6 0x1e22cbe28234e1 0x86c89ba51250991 0x29485a119cef657b);
  (Near 0x3132049b87adb0 0x3ce20ec3b7016f 0x86c89ba51250991 0xa6ce156a65512aa, Near 0xc4c8126e1eb6c 0x17fc8b4f113f2b 0x86c89ba51250991 0x106de82ba5e52df5);
  (Near 0x2581fa735859f1 0x3ce20ec3b7016f 0x336190efdfa803c 0x53670ab532a8955, Near 0x1899024dc3d6d8 0xbb00a282f53bf 0x86c89ba51250991 0x400af38aa601232);
  (Near 0x3ddc66c1a18db7 0xc2d36272499e3 0x1a7b5ea19c3993d6 0x53670ab532a8955, Near 0x1899024dc3d6d8 0xc2d36272499e3 0x2a1eb0a395b92fd5 0x14d9c2ad4caa2554);
  (Near 0x3ddc66c1a18db7 0x185a6c4e4933c6 0xd3daf50ce1cc9eb 0x53670ab532a8955, Near 0x18d7984d3e79ea 0xc2d36272499e3 0x1544edf6490f0a81 0xa6ce156a65512aa);
  (Near 0x2581fa735859f1 0x30b4d89c92678c 0x4039f52bd79204b 0x53670ab532a8955, Near 0x1954c44c33c00e 0xc2d36272499e3 0xad80c9fa2b9f7d7 0x53670ab532a8955);
  (Near 0x2c3a1958e1954e 0x2e7778fab9fe6d 0x17aa90a77471dc95 0x18dd62000a23459f, Near 0x161d0cac70caa7 0xc2d36272499e3 0x2f55214ee8e3b92a 0x1a1033589fd4aea9);
  (Near 0x3fd116bd76a647 0x23d5fa1d8691f 0x111311403d221ade 0x9968ac4ad8b485, Near 0x161d0cac70caa7 0x185a6c4e4933c6 0x17aa90a77471dc95 0x1a1033589fd4aea9);
  (Near 0x3fd116bd76a647 0x47abf43b0d23e 0x88988a01e910d6f 0x9968ac4ad8b485, Near 0x1ec9db8dcf1e94 0x23d5fa1d8691f 0x1079a893f2496659 0x132d15895b1690a);
  (Near 0x3b565779c5d409 0x8f57e8761a47c 0x3f80ff9e9dc2c75 0x9968ac4ad8b485, Near 0x1e387c41c87d76 0x23d5fa1d8691f 0x815ef27da6f8713 0x9968ac4ad8b485);
  (Near 0x31efcbbb461fff 0x24470754a4a17e 0x10b37550145a2987 0xc21fca9dfa5488d, Near 0xfe6240879e7a0 0x122383aa5250bf 0x1544edf6490f0a81 0x1843f953bf4a911a);
  (Near 0xda8c466a17e81 0x3ae54a42a7c47b 0x248bc531a5a707d 0x9d94056c54ad810, Near 0x1fcc4810f3cf40 0x122383aa5250bf 0x1544edf6490f0a81 0xc21fca9dfa5488d);
  (Near 0x1b5188cd42fd02 0x3ae54a42a7c47b 0x248bc531a5a707d 0x4eca02b62a56c08, Near 0xda8c466a17e81 0x169e42ee0322fd 0x49178a634b4e0fa 0x7908403aaf06793);
  (Near 0x576b4f5da329a 0x3ae54a42a7c47b 0x248bc531a5a707d 0x189f20d8ed3b1c28, Near 0x2bb5a7aed194d 0x1ed0525eca6ee4 0x49178a634b4e0fa 0x3386fe04f4d0a8cd);
  (Near 0xaed69ebb46534 0x3ae54a42a7c47b 0x248bc531a5a707d 0xc4f906c769d8e14, Near 0x2bb5a7aed194d 0x1f93c17564c779 0x248bc531a5a707d 0x1a66e672d2edd36e);
  (Near 0x15dad3d768ca68 0x3ae54a42a7c47b 0x248bc531a5a707d 0x627c8363b4ec70a, Near 0x576b4f5da329a 0x1f93c17564c779 0x248bc531a5a707d 0xd3373396976e9b7);
  (Near 0x45ef72b14f548 0x3f44416dbcb9c3 0x248bc531a5a707d 0x210fa56242e453af, Near 0x117bdcac53d52 0x1f93c17564c779 0x248bc531a5a707d 0x4201401f0f529093);
  (Near 0x8bdee5629ea90 0x3ae54a42a7c47b 0x248bc531a5a707d 0xf6374879444f199, Near 0x22f7b958a7aa4 0x1e7c03aa9f8a27 0x248bc531a5a707d 0x1fdc41e5fa7c100b);
  (Near 0x117bdcac53d520 0x32275bec7dd9eb 0x248bc531a5a707d 0x68d5c1a3cf5408e, Near 0x45ef72b14f548 0x1c4c8815150f83 0x248bc531a5a707d 0xec9c2c97010cfc7);
  (Near 0x22f7b958a7aa40 0x32275bec7dd9eb 0x248bc531a5a707d 0x346ae0d1e7aa047, Near 0x8bdee5629ea90 0x17ed90ea001a3b 0x248bc531a5a707d 0x640833b2adb2fa5);
  (Near 0x6fe5844ee5540 0x3925b4316c2f2b 0x248bc531a5a707d 0x12aa2294b2bf91e0, Near 0x1bf96113b9550 0x1eebe92eee6f7b 0x248bc531a5a707d 0x286581743fb1b02d);
  (Near 0xdfcb089dcaa80 0x3925b4316c2f2b 0x248bc531a5a707d 0x955114a595fc8f0, Near 0x37f2c22772aa0 0x1d2c531db2da2b 0x248bc531a5a707d 0x130e629092ab9fd8);
  (Near 0x1bf96113b95500 0x3925b4316c2f2b 0x248bc531a5a707d 0x4aa88a52cafe478, Near 0x6fe5844ee5540 0x1d2c531db2da2b 0x248bc531a5a707d 0x98731484955cfec);
  (Near 0x3e8097335f58bc 0x27e21921992d4d 0x1984578e01cee357 0x10485642a06a1de5, Near 0xfa025ccd7d62f 0x1841f354c1571e 0x1984578e01cee357 0x279d017c7fd9943d);
  (Near 0x169e7e11c62b6f 0x3925b4316c2f2b 0x49e00a5b0b262b9 0xbaa559cefb7bb2c, Near 0x1f404b99afac5e 0x8a1cd87e980ef 0x1984578e01cee357 0x70c54f73f055873);
  (Near 0x2d3cfc238c56de 0x3925b4316c2f2b 0x49e00a5b0b262b9 0x5d52ace77dbdd96, Near 0x169e7e11c62b6f 0x11439b0fd301de 0x93c014b6164c572 0x70c54f73f055873);
  (Near 0x90c326d8277c6 0x3925b4316c2f2b 0x49e00a5b0b262b9 0x1d29d608574b53ee, Near 0x4861936c13be3 0x1ed5e6b416b587 0x93c014b6164c572 0x3ef1acb65f490a95);
  (Near 0x121864db04ef8c 0x3925b4316c2f2b 0x49e00a5b0b262b9 0xe94eb042ba5a9f7, Near 0x4861936c13be3 0x1e011ce8e4c7d9 0x49e00a5b0b262b9 0x1e9fa82e8a685786);
  (Near 0x2430c9b609df18 0x270d4f56673f9f 0x49e00a5b0b262b9 0x4fb752f3d79a39f, Near 0x90c326d8277c6 0x1e011ce8e4c7d9 0x49e00a5b0b262b9 0xf4fd41745342bc3);
  (Near 0x3fcc028afb9c9b 0x2dc85a05d6087 0x411d1d75d878160 0x2eba44c663a073, Near 0x121864db04ef8c 0x14f4ea7b625013 0x49e00a5b0b262b9 0x558e9b8ca40e485);
  (Near 0x395528033051a5 0xf0c6b68e36c8b 0x12494851fc65ea71 0x4ccbaea7716032c, Near 0x121864db04ef8c 0xf0c6b68e36c8b 0x1716033c737bed9d 0x1332eba9dc580cb0);
  (Near 0x3678a262d2f11e 0xf0c6b68e36c8b 0x8afd27d0e39e419 0x2665d753b8b0196, Near 0x15245e4d26728d 0xf0c6b68e36c8b 0xd7c8d67854fe745 0x99975d4ee2c0658);
  (Near 0x3fcc028afb9c9b 0xf0c6b68e36c8b 0x516464d34e961b8 0x1332eba9dc580cb, Near 0x1b3c513169788f 0xf0c6b68e36c8b 0x8afd27d0e39e419 0x4ccbaea7716032c);
  (Near 0x33e2b15fb4d322 0xf0c6b68e36c8b 0x14afa5c737f0ec07 0x5ffe9a514db83f7, Near 0x147ee20c5eeb0e 0xf0c6b68e36c8b 0x20af791161a7f3f5 0x17ffa694536e0fdc);
  (Near 0x24d645f6d16697 0x1e18d6d1c6d916 0x757de11118ab408 0x5ffe9a514db83f7, Near 0x19f158afda6991 0xf0c6b68e36c8b 0x14afa5c737f0ec07 0xbffd34a29b707ee);
  (Near 0x24d645f6d16697 0x3c31ada38db22c 0x3abef0888c55a04 0x5ffe9a514db83f7, Near 0x15c9da8dedfa0c 0xf0c6b68e36c8b 0x8afd27d0e39e419 0x5ffe9a514db83f7);
  (Near 0x1367fd85463827 0x3c31ada38db22c 0x9abd8ad9da0ddfb 0x1dff9039684993d3, Near 0x1367fd85463827 0xf0c6b68e36c8b 0x26af62b6768377ec 0x1dff9039684993d3);
  (Near 0x26cffb0a8c704e 0x28c9b01e477a05 0x9abd8ad9da0ddfb 0xa29dbc5e5545aec, Near 0x1367fd85463827 0x1e18d6d1c6d916 0x1357b15b3b41bbf6 0x1dff9039684993d3);
  (Near 0x24d645f6d16697 0x28c9b01e477a05 0x496eacaaaf6b085 0x514ede2f2aa2d76, Near 0x1367fd85463827 0x1561b2990141de 0x9abd8ad9da0ddfb 0xaa7dede2d07d7dd);
  (Near 0x3d4f493c2f7c9a 0x828566c74b201 0x26315f9e2ecffafb 0x514ede2f2aa2d76, Near 0x1b9053f1baea28 0x828566c74b201 0x44aef2efdecd0bbf 0x1453b78bcaa8b5d8);
  (Near 0x395bdf14b9692c 0x828566c74b201 0x11dda81264274523 0x28a76f1795516bb, Near 0x1ea7a49e17be4d 0x828566c74b201 0x26315f9e2ecffafb 0xa29dbc5e5545aec);
  (Near 0x313388a844b72b 0x1050acd8e96402 0x7a9989075691734 0x28a76f1795516bb, Near 0x1cadef8a5cb496 0x828566c74b201 0x11dda81264274523 0x514ede2f2aa2d76);
  (Near 0x313388a844b72b 0x20a159b1d2c804 0x3d4cc483ab48b9a 0x28a76f1795516bb, Near 0x18ba8562e6a128 0x828566c74b201 0x7b3cc4c7ed2ea37 0x28a76f1795516bb);
  (Near 0x23f1c97cb65e3f 0x20a159b1d2c804 0xdfea80e2008e686 0xcb452b75ea971a7, Near 0x1bc9731041ac3e 0x828566c74b201 0x2b464d81217a2871 0xcb452b75ea971a7);
  (Near 0x23f1c97cb65e3f 0x1d50e9e6ef31c9 0x6ff540710047343 0x5b4feb04ea4fe64, Near 0x13a11ca3ccfa3d 0x1050acd8e96402 0xf48fd64e1685b65 0xcb452b75ea971a7);
  (Near 0x2a92a9127d8ab5 0x1d50e9e6ef31c9 0x424d4aee8b1f411 0x2da7f5827527f32, Near 0x3506fcae3963b 0x1d50e9e6ef31c9 0x14a5556c15f74df 0xb69fd609d49fcc8);
  (Near 0xe60b6feaf58e6 0x3a1257e44de395 0x6ff540710047343 0x1c4324c6e4a56280, Near 0x7305b7f57ac73 0x1970fe327b1b91 0xdfea80e2008e686 0x3186f586b94651bd);
  (Near 0x1cc16dfd5eb1cc 0x3a1257e44de395 0x6ff540710047343 0xe2192637252b140, Near 0x7305b7f57ac73 0x1d50e9e6ef31c9 0x6ff540710047343 0x1c88f9718938f7f4);
  (Near 0x3982dbfabd6398 0x3a1257e44de395 0x6ff540710047343 0x710c931b92958a0, Near 0xe60b6feaf58e6 0x1d50e9e6ef31c9 0x6ff540710047343 0xe447cb8c49c7bfa);
  (Near 0x3982dbfabd6398 0x171dd72c9bdb09 0x22fca4235016404f 0xe101d38c92dcbe3, Near 0xe60b6feaf58e6 0x171dd72c9bdb09 0x22fca4235016404f 0x384074e324b72f8c);
  (Near 0x226504ce21888f 0x2e3bae5937b612 0xa76437543743a36 0xe101d38c92dcbe3, Near 0x1cc16dfd5eb1cc 0x171dd72c9bdb09 0x22fca4235016404f 0x1c203a71925b97c6);
  (Near 0x226504ce21888f 0x3a1257e44de395 0x53b21baa1ba1d1b 0x8d4fb7e2773aec8, Near 0xb472da185ad86 0x171dd72c9bdb09 0x6dc69b1bdbaa889 0xe101d38c92dcbe3);
  (Near 0xab7b1b7f52d89 0x3a1257e44de395 0xd0a3fb8e0045b7 0x46a7dbf13b9d764, Near 0x168e5b430b5b0c 0xbd6a98b162d83 0x6dc69b1bdbaa889 0x399d9c385b991ad);
  (Near 0x224bd24caa2b5 0x3e5bd22de328ff 0xd0a3fb8e0045b7 0x17b5bcb27ea1c062, Near 0x102023d4ab72ed 0x1e1b8a848c4325 0x188660ae0ca20619 0x2dca316de142f556);
  (Near 0x4497a4995456a 0x3e5bd22de328ff 0xd0a3fb8e0045b7 0xbdade593f50e031, Near 0x224bd24caa2b5 0x1e1b8a848c4325 0x1a147f71c008b6e 0x16e518b6f0a17aab);
  (Near 0x892f4932a8ad4 0x3a1257e44de395 0xd0a3fb8e0045b7 0x5851d2ed8a84d3d, Near 0x224bd24caa2b5 0x1e34bd0603a064 0xd0a3fb8e0045b7 0xb7c20f52c9daaa9);
  (Near 0x29b3c531ea5e03 0x18f187458e1066 0x13d1e77ac1f9fe93 0xbdade593f50e031, Near 0x1b16446a58b31b 0xc78c3a2c70833 0x337ead4ec344dd57 0x17b5bcb27ea1c062);
  (Near 0x10c23dec5c4d9d 0x31e30e8b1c20cc 0x3fb8490c1548f31 0xbdade593f50e031, Near 0x1d3b018f2355d0 0xc78c3a2c70833 0x1bc8f09c44a31cf5 0xbdade593f50e031);
  (Near 0x21847bd8b89b3a 0x2120d09ebfd32f 0x3fb8490c1548f31 0x3eface43efe2880, Near 0x10c23dec5c4d9d 0x18f187458e1066 0x7f7092182a91e62 0xbdade593f50e031);
  (Near 0x3c0522be1eddc6 0x6a029b95990a3 0x23a84a64c29f6df5 0x3eface43efe2880, Near 0x12515d8c347fc3 0x18f187458e1066 0x2b87a42d409bbef5 0x3b4657be3c9460f5);
  (Near 0x3c68cdf817a5d1 0x6a029b95990a3 0x11f1c061a727b7b5 0x1f7d6721f7f1440, Near 0x1e02915f0f6ee3 0x6a029b95990a3 0x23a84a64c29f6df5 0x7df59c87dfc5100);
  (Near 0x3d30246c0935e7 0x6a029b95990a3 0x9167b60196bdc95 0xfbeb390fbf8a20, Near 0x1ae4521f5f0a97 0x6a029b95990a3 0xff9e9ef87a8a375 0x3eface43efe2880);
  (Near 0x3ebed153ec5613 0x6a029b95990a3 0x4a8d8df528def05 0x7df59c87dfc510, Near 0x1b47fd5957d2a2 0x6a029b95990a3 0x81a902709ac5275 0x1f7d6721f7f1440);
  (Near 0x3aedb4556f05ac 0x6a029b95990a3 0x15e16d45e625e035 0x275cc0ea75ed950, Near 0x1bfbc0880ee2b1 0x6a029b95990a3 0x298fcdbb211caab5 0x9d7303a9d7b6540);
  (Near 0x3a39f126b7f59d 0x6a029b95990a3 0xacf5703f4fb0e4d 0x13ae60753af6ca8, Near 0x1d76da2ab782d6 0x6a029b95990a3 0x15e16d45e625e035 0x4eb981d4ebdb2a0);
  (Near 0x3f729482a36622 0x6a029b95990a3 0x5e3bee6a63d5bad 0x9d7303a9d7b654, Near 0x19cce3b6af327d 0x6a029b95990a3 0x99470fca14ba1a5 0x275cc0ea75ed950);
  (Near 0x3db81f428442bd 0x6a029b95990a3 0x1ca55e6e326ab5d1 0x3133f1251368fa4, Near 0x17b63bf851057b 0x1e5665b1aa961e 0x2c0599c9c87b8405 0x385296130d55c295);
  (Near 0x3fcec700e26fbf 0x6a029b95990a3 0xecec29bc4f52f6f 0x1899f89289b47d2, Near 0x1b8bfac495590d 0x6a029b95990a3 0x19921f5be134262d 0x6267e24a26d1f48);
  (Near 0x3d5becc4453920 0x6a029b95990a3 0x71ea4edf9ecc855 0xc4cfc4944da3e9, Near 0x1c974ea3c46f8e 0x6a029b95990a3 0xd4523129c59e79d 0x3133f1251368fa4);
  (Near 0x3bf9f55dc5e99c 0x6a029b95990a3 0x22cbdc92d4d7d519 0x3d80ed6e584338d, Near 0xefe7d57717a67 0x159ea710cb0b0a 0x22cbdc92d4d7d519 0x322c17ee6ae8a34d);
  (Near 0x3559cba46c58f9 0xd405372b32146 0xf79e6ddf7a9d0c6 0x3d80ed6e584338d, Near 0x1dfcfaaee2f4ce 0x6a029b95990a3 0x22cbdc92d4d7d519 0x7b01dadcb08671a);
  (Near 0x3559cba46c58f9 0x1a80a6e566428c 0x7bcf36efbd4e863 0x3d80ed6e584338d, Near 0x1ad924bf06166d 0x6a029b95990a3 0xf9392605942d358 0x3d80ed6e584338d);
  (Near 0x1ad924bf06166d 0x35014dcacc8518 0x1f2724c0b285a6b 0x3d80ed6e584338d, Near 0x1ad924bf06166d 0xd405372b32146 0x7c9c9302ca169ac 0x3d80ed6e584338d);
  (Near 0x354818df4c61cc 0x1a9259aa8639b9 0x1351f5b4dd2e0453 0x9a28ff9d630c185, Near 0xd520637d31873 0x1a9259aa8639b9 0x1351f5b4dd2e0453 0x268a3fe758c30614);
  (Near 0x1ab5bf34c62813 0x3524b3550c7372 0x4d7b2dd837ea167 0x9a28ff9d630c185, Near 0x1aa40c6fa630e6 0x1a9259aa8639b9 0x1351f5b4dd2e0453 0x13451ff3ac61830a);
  (Near 0x356b7e698c5026 0x1a6ef420464b5f 0x4d7b2dd837ea167 0x2656e8e2959100f, Near 0x1ab5bf34c62813 0x1a9259aa8639b9 0x9af65bb06fd42ce 0x9a28ff9d630c185);
  (Near 0x1aa7969712fbef 0x3532dbf2bf9f96 0xc14d449305652dd 0x181cd2d12fe02471, Near 0x1aa082483965dd 0x1a996df95fcfcb 0x30467b63908cca2b 0x3039a5a25fc048e2);
  (Near 0x354f2d2e25f7de 0x1a8b455baca3a7 0xc14d449305652dd 0x603ff43ffc4e8ca, Near 0x1aa7969712fbef 0x1a996df95fcfcb 0x1829a89260aca5ba 0x181cd2d12fe02471);
  (Near 0x3587cfa4f2a86e 0x1a8b455baca3a7 0x610d50530916a13 0x301ffa1ffe27465, Near 0x1aa7969712fbef 0x1a8b455baca3a7 0xc14d449305652dd 0xc07fe87ff89d194);
  (Near 0x1aa1ecbe64ea47 0x352d321a118dee 0xf16d3eb3038c742 0x1e20d2152fa50d3b, Near 0x1a9c42e5b6d89f 0x1a96990d08c6f7 0x3c4e79eb90169bbf 0x3c41a42a5f4a1a76);
  (Near 0x1aa1ecbe64ea47 0x35168ab759474e 0x78b69f5981c63a1 0xf09fe29ff6c45f9, Near 0x1aa1ecbe64ea47 0x1a96990d08c6f7 0x1e2da7d660718e84 0x1e20d2152fa50d3b);
  (Near 0x3543d97cc9d48e 0x1a749df8f45d07 0x78b69f5981c63a1 0x3bf4a1a33a7f12c, Near 0x1aa1ecbe64ea47 0x1a8b455baca3a7 0xf16d3eb3038c742 0xf09fe29ff6c45f9);
  (Near 0x359e7707aaef0e 0x1a749df8f45d07 0x3cc1fdb64747275 0x1dfa50d19d3f896, Near 0x1aa1ecbe64ea47 0x1a749df8f45d07 0x78b69f5981c63a1 0x77e9434674fe258);
  (Near 0x2fe733fc058973 0x252de8fa7cf33d 0x10f678f84a0cbfd8 0xd2a591ce5984d63, Near 0x1aa1ecbe64ea47 0x1545473da09f2c 0x25b911cbf88df225 0x1e20d2152fa50d3b);
  (Near 0x2fe733fc058973 0x1a749df8f45d07 0x87b3c7c25065fec 0x4af1ca0c091ed77, Near 0x55ca580c44b1b 0x1fd14379b8a822 0x3cc1fdb64747275 0x1688925e66bc2851);
  (Near 0x2fe733fc058973 0x34e93bf1e8ba0e 0x43d9e3e12832ff6 0x4af1ca0c091ed77, Near 0xab94b01889636 0x1a749df8f45d07 0x3cc1fdb64747275 0x95e39418123daee);
  (Near 0x2fe733fc058973 0x1429affc62da4d 0x153417365c8fefce 0x8ecbaded3151d6d, Near 0x1ee2fafdeb7083 0x110438fe1a18f0 0x36af8ac4429ab1fd 0x1e20d2152fa50d3b);
  (Near 0x2fe733fc058973 0x28535ff8c5b49a 0xa9a0b9b2e47f7e7 0x8ecbaded3151d6d, Near 0xddec1ffd15793 0x1429affc62da4d 0xc475c57897ad261 0x11d975bda62a3ada);
  (Near 0x793d4033fd4d9 0x39eb43e7cbeaa9 0xd6a85e2d996d3d 0x668c1c44a48d5b6, Near 0x1bbd83ffa2af26 0x1429affc62da4d 0xc475c57897ad261 0x8ecbaded3151d6d);
  (Near 0x3c83c662ecfa14 0x11a550ca8f0c69 0x217b738de60ac22f 0x9c3633d00ae8aaa, Near 0xf20f198bb3e85 0x11a550ca8f0c69 0x217b738de60ac22f 0x270d8cf402ba2aa8);
  (Near 0x3272499b9dc284 0x11a550ca8f0c69 0xdf4ad13e4adacdb 0x4e1b19e80574555, Near 0x1e41e331767d0a 0x11a550ca8f0c69 0x217b738de60ac22f 0x1386c67a015d1554);
  (Near 0x20ccf8d10eb61b 0x234aa1951e18d2 0x4897dbab22b33c3 0x4e1b19e80574555, Near 0x193924cdcee142 0x11a550ca8f0c69 0xdf4ad13e4adacdb 0x9c3633d00ae8aaa);
  (Near 0x3f1c48de0e097f 0x27da8c40f62b7 0x45d63c8cb152afa 0x2c19f1e71608c9, Near 0xf27a8067fa9b2 0x11a550ca8f0c69 0x43149d6e3ff2231 0x4e1b19e80574555);
  (Near 0x1bbc2c5015001d 0x2ad916da273187 0x997494b199881e1 0xed12ecd681bd8c8, Near 0x1bbc2c5015001d 0x11a550ca8f0c69 0x265d252c66620784 0x1868781881b45aa9);
  (Near 0x377858a02a003a 0x2ad916da273187 0x997494b199881e1 0x7689766b40dec64, Near 0x1bbc2c5015001d 0x78e75450918b5 0x132e9296333103c2 0x539e5824e8356e7);
  (Near 0x193e838c059d66 0x2ad916da273187 0x22eb1e4658a957d 0x3b44bb35a06f632, Near 0x1bbc2c5015001d 0xf1cea8a12316a 0x997494b199881e1 0x539e5824e8356e7);
  (Near 0x23ce7587b35cad 0x2753c630ed471a 0xf7a46e2d92a0d90 0x10ffe0b1cda66e45, Near 0x1bbc2c5015001d 0x13a9e31876a38d 0x2ff46e777ffa8965 0x21ffc1639b4cdc8a);
  (Near 0x23ce7587b35cad 0x2ad916da273187 0x7bd23716c9506c8 0x942bd406111677d, Near 0x1024926f3cb920 0x13a9e31876a38d 0xdf4ad13e4adacdb 0x10ffe0b1cda66e45);
  (Near 0x23ce7587b35cad 0x31e3b82c9b0661 0x3de91b8b64a8364 0x5642b87aac6e419, Near 0x1cc3d4353f87d3 0x38550a939ea6d 0xc6f1344f0314c26 0x18599cef47c60b5);
  (Near 0x23ce7587b35cad 0x269f82dbe1b1d1 0x1358d89b8f7490f4 0x14de726a83f0f1a9, Near 0x1f94e1896ddcf7 0xb443550b9549 0x4441c79482e7ff92 0x18599cef47c60b5);
  (Near 0x23ce7587b35cad 0x297090301006f5 0x9ac6c4dc7ba487a 0xb32061cbc36a92f, Near 0x1f94e1896ddcf7 0x16886aa172a92 0x2220e3ca4173ffc9 0x18599cef47c60b5);
  (Near 0x23ce7587b35cad 0x2f12aad86cb13d 0x4d63626e3dd243d 0x65bcff5d85984f2, Near 0x1e2c5adf56b265 0x2d10d542e5524 0x104da4fda67bcf8a 0x18599cef47c60b5);
  (Near 0x188a4036fa081d 0x2f12aad86cb13d 0x1a84e2bf7b061c4 0x32de7faec2cc279, Near 0x1e2c5adf56b265 0x5a21aa85caa48 0x826d27ed33de7c5 0x18599cef47c60b5);
  (Near 0x218d9e1127e55d 0x260f4cfe3ed3fd 0xb54ba79bf6aaa3e 0xcda5448b3e70af3, Near 0x1f4cc69a9c6e0d 0x1206bbb45bba8 0x2a47b64914b1e78e 0x18599cef47c60b5);
  (Near 0x218d9e1127e55d 0x2a90fbeb55c29d 0x5aa5d3cdfb5551f 0x72ff70bd431b5d4, Near 0x1f4cc69a9c6e0d 0x240d7768b7750 0x1523db248a58f3c7 0x18599cef47c60b5);
  (Near 0x188a4036fa081d 0x2a90fbeb55c29d 0x21261b6f59c7a35 0x397fb85ea18daea, Near 0x1d0bef2410f6bd 0x481aeed16eea0 0x9cf20aacaee4989 0x18599cef47c60b5);
  (Near 0xd6bd8d3a98ef2 0x37fcd4beff518f 0x5aa5d3cdfb5551f 0x17a246da72319bb1, Near 0x6b5ec69d4c779 0x1f5960946a0c84 0xb54ba79bf6aaa3e 0x34eeeaf1c4188c81);
  (Near 0x1ad7b1a7531de4 0x2a90fbeb55c29d 0x5aa5d3cdfb5551f 0x8fbf4cec93e2349, Near 0x6b5ec69d4c779 0x1d252317ac33ab 0x5aa5d3cdfb5551f 0x189b18c1658de2e6);
  (Near 0x35af634ea63bc8 0xfb94a4402a4b9 0x5aa5d3cdfb5551f 0x1a8cbc8f4c46715, Near 0xd6bd8d3a98ef2 0x1d252317ac33ab 0x5aa5d3cdfb5551f 0xc4d8c60b2c6f173);
  (Near 0xabcad76213f28 0x3aac001c87a159 0x5aa5d3cdfb5551f 0x1ef56fe046ab57e5, Near 0x2af2b5d884fca 0x1fd44e75348375 0x5aa5d3cdfb5551f 0x432e1b205d980c5e);
  (Near 0x15795aec427e50 0x2fef52a6666231 0x5aa5d3cdfb5551f 0xca58951b37b0163, Near 0x55e56bb109f94 0x1fd44e75348375 0x5aa5d3cdfb5551f 0x21970d902ecc062f);
  (Near 0x2af2b5d884fca0 0x1a75f7ba23e3e1 0x5aa5d3cdfb5551f 0x37d960a69e2d622, Near 0xabcad76213f28 0x1a75f7ba23e3e1 0x5aa5d3cdfb5551f 0xdf65829a78b5888);
  (Near 0x3b6f73f6e6155f 0x1a75f7ba23e3e1 0x3eb9237aac3ea0e 0x1becb0534f16b11, Near 0x15795aec427e50 0x1a75f7ba23e3e1 0x5aa5d3cdfb5551f 0x6fb2c14d3c5ac44);
  (Near 0x112de2569b9840 0x3cd1bc675b1461 0x5aa5d3cdfb5551f 0x140eb193c821c193, Near 0x44b7895a6e610 0x1ec1704fcac9f1 0x5aa5d3cdfb5551f 0x289239a50291b273);
  (Near 0x225bc4ad373080 0x2ba3da10bf7c21 0x5aa5d3cdfb5551f 0x7322a2b7436363a, Near 0x896f12b4dcc20 0x1a75f7ba23e3e1 0x5aa5d3cdfb5551f 0x1173ee34116e2eaa);
  (Near 0x1913af49aee4df 0x2ba3da10bf7c21 0x2114827259a3a02 0x3991515ba1b1b1d, Near 0x112de2569b9840 0x1a75f7ba23e3e1 0x5aa5d3cdfb5551f 0x8b9f71a08b71755);
  (Near 0xdbe4eabafad00 0x396228bc6f2921 0x5aa5d3cdfb5551f 0x17a7c6a9823cdcb0, Near 0x36f93aaebeb40 0x1de58b650fcf21 0x5aa5d3cdfb5551f 0x314c30bf0b48c9c8);
  (Near 0x1b7c9d575f5a00 0x396228bc6f2921 0x5aa5d3cdfb5551f 0xbd3e354c11e6e58, Near 0x6df2755d7d680 0x1de58b650fcf21 0x5aa5d3cdfb5551f 0x18a6185f85a464e4);
  (Near 0x36f93aaebeb400 0x396228bc6f2921 0x5aa5d3cdfb5551f 0x5e9f1aa608f372c, Near 0xdbe4eabafad00 0x1de58b650fcf21 0x5aa5d3cdfb5551f 0xc530c2fc2d23272);
  (Near 0xafea556262400 0x396228bc6f2921 0x5aa5d3cdfb5551f 0x1d91b853e2cc13dc, Near 0x2bfa955898900 0x1de58b650fcf21 0x5aa5d3cdfb5551f 0x3d9f3ceece1afc3a);
  (Near 0x15fd4aac4c4800 0x396228bc6f2921 0x5aa5d3cdfb5551f 0xec8dc29f16609ee, Near 0x57f52ab131200 0x1de58b650fcf21 0x5aa5d3cdfb5551f 0x1ecf9e77670d7e1d);
  (Near 0x2bfa9558989000 0x396228bc6f2921 0x5aa5d3cdfb5551f 0x7646e14f8b304f7, Near 0xafea556262400 0x186638b9fcbd21 0x5aa5d3cdfb5551f 0xc92a09d43ac147f);
  (Near 0x3d2603e983edbe 0xd679363d69921 0x3f04c64c6b7a547 0xdd086c0c7ed7ec, Near 0x15fd4aac4c4800 0xd679363d69921 0x5aa5d3cdfb5551f 0x37421b031fb5fb0);
  (Near 0x3a22ee2bd9b6da 0x2b39cfe92e0247 0x12b9288eb81daf35 0xdebd3bde4e73202, Near 0x1d117715ecdb6d 0x7142c69a0936d 0x2572511d703b5e6a 0x91e7eed11b0b4cf);
  (Near 0x1dd23c85576926 0x2b39cfe92e0247 0x4cd54d0d3367d33 0x6f5e9def2739901, Near 0x1d117715ecdb6d 0xe2858d34126da 0x12b9288eb81daf35 0x91e7eed11b0b4cf);
  (Near 0x3ba4790aaed24c 0xd679363d69921 0x4cd54d0d3367d33 0x1144a870f9e8de7, Near 0xee91e42abb493 0x1c50b1a6824db4 0x4cd54d0d3367d33 0x91e7eed11b0b4cf);
  (Near 0x2e825823149248 0x13f8a3d7a3b923 0x12b9288eb81daf35 0x80a3466021226e8, Near 0xba09608c52492 0x1f9939e068ddb5 0x12b9288eb81daf35 0x32e1fa26c0664ad5);
  (Near 0x35136896e1b24a 0x13f8a3d7a3b923 0xaaef428b60b884d 0x4051a3301091374, Near 0x17412c118a4924 0x13f8a3d7a3b923 0x12b9288eb81daf35 0x101468cc04244dd0);
  (Near 0x2e3ce5a6d8392b 0x13f8a3d7a3b923 0x4a74cdc347deb1f 0x2028d19808489ba, Near 0x1a89b44b70d925 0x13f8a3d7a3b923 0xaaef428b60b884d 0x80a3466021226e8);
  (Near 0x352f2ffbc6a2bc 0x13f8a3d7a3b923 0x1ac35cf4ba2fd61d 0xa0cc17f8296b0a2, Near 0xd4bcbfef1a8af 0x13f8a3d7a3b923 0x1ac35cf4ba2fd61d 0x283305fe0a5ac288);
  (Near 0x2e747470a21a0f 0x13f8a3d7a3b923 0xbb03ab5764dcd2a 0x50660bfc14b5851, Near 0x1a9797fde3515e 0x13f8a3d7a3b923 0x1ac35cf4ba2fd61d 0x141982ff052d6144);
  (Near 0x2e747470a21a0f 0x27f147af477246 0x5d81d5abb26e695 0x50660bfc14b5851, Near 0xd3de84c7f3076 0x13f8a3d7a3b923 0x6a9d9f5b50274d9 0xa0cc17f8296b0a2);
  (Near 0x6832cc15aa7c9 0x3c59091a7eed31 0x68de4d7cedc722 0x3cbc5d74a8202eb, Near 0x1a7bd098fe60ec 0x13f8a3d7a3b923 0x6a9d9f5b50274d9 0x50660bfc14b5851);
  (Near 0x23dc8766a2c017 0x328934b946cc3e 0xb475c67f9600608 0xfe4deda3dbd9737, Near 0x1e9090e1a3131b 0x19449a5ca3661f 0x267397aa307da347 0x1fc9bdb47b7b2e6e);
  (Near 0x23dc8766a2c017 0x1d595aa548184e 0x5a3ae33fcb00304 0x49d8272445d912f, Near 0xa97ed09ff59f8 0x19449a5ca3661f 0x6a9d9f5b50274d9 0xfe4deda3dbd9737);
  (Near 0x23dc8766a2c017 0x3ab2b54a90309c 0x2d1d719fe580182 0x49d8272445d912f, Near 0x152fda13feb3f0 0xeacad52a40c27 0x6a9d9f5b50274d9 0x49d8272445d912f);
  (Near 0x23dc8766a2c017 0x286dc3c76bd698 0xe193381f7b8078a 0xfe4deda3dbd9737, Near 0x19c11674c7ca71 0xa1b70f1daf5a6 0x287fef2da12286f1 0xfe4deda3dbd9737);
  (Near 0x23dc8766a2c017 0x2cff002834ed19 0x70c99c0fbdc03c5 0x8d8451941e19372, Near 0xfa5a582ecd4cb 0x1436e1e3b5eb4c 0xc4d8829b1b277dd 0xfe4deda3dbd9737);
  (Near 0x1aba0ea5109315 0x2cff002834ed19 0x2a077345aeb3a0c 0x46c228ca0f0c9b9, Near 0x1f4b4b05d9a996 0x4913c60c91681 0xc4d8829b1b277dd 0x1cbab5846058fad);
  (Near 0x37afd2d0a1f4bb 0x3257697c6b70ea 0x1b5d9b27da8a64b5 0x18bd23f37f9f2aa9, Near 0xf420f09361e23 0x192bb4be35b875 0x1dfe125c35759ec1 0x317a47e6ff3e5552);
  (Near 0x55869543683d1 0x3f43f1ab59471d 0x1503b9a2d759d06 0xf8b82bc4167df7f, Near 0x1e841e126c3c46 0x192bb4be35b875 0x1dfe125c35759ec1 0x18bd23f37f9f2aa9);
  (Near 0x55869543683d1 0x3e62f36424606e 0xa81dcd16bace83 0x7aa1d1f30a6315b, Near 0x55869543683d1 0x1cf5c42b9161a6 0x2a077345aeb3a0c 0xe3b472213f24279);
  (Near 0x2c8ca8a6e7f6fc 0x27343f52b1732b 0x1b5d9b27da8a64b5 0x1815062668e45c26, Near 0xb232a29b9fdbf 0x1c111528f7756c 0x1b5d9b27da8a64b5 0x44f67d71c9070be3);
  (Near 0x31e511fb1e7acd 0x27343f52b1732b 0xf531814a61836a2 0xc0a831334722e13, Near 0x1646545373fb7e 0x10edeaff3d77ad 0x1b5d9b27da8a64b5 0x14cc7124f73e5397);
  (Near 0x31e511fb1e7acd 0x1c836caa446b89 0x7a98c0a530c1b51 0x460f708e16612c2, Near 0x55869543683d1 0x1c836caa446b89 0x348950171a6088f 0x1183dc2385984b08);
  (Near 0x2ac34aa1b41e88 0x1c836caa446b89 0x348950171a6088f 0x2307b8470b30961, Near 0xab0d2a86d07a2 0x1c836caa446b89 0x348950171a6088f 0x8c1ee11c2cc2584);
  (Near 0x3077ea1c6f9b8c 0x19a91cece6ad07 0x129bad1617be3f31 0x9da078ec3bf24b2, Near 0xc1dfa871be6e3 0x19a91cece6ad07 0x129bad1617be3f31 0x27681e3b0efc92c8);
  (Near 0x2d9d9a5f11dd0a 0x19a91cece6ad07 0x8c1a58753ff1a7f 0x4ed03c761df9259, Near 0x183bf50e37cdc6 0x19a91cece6ad07 0x129bad1617be3f31 0x13b40f1d877e4964);
  (Near 0x13f47d722b3003 0x335239d9cd5a0e 0x1ea50dff90fc413 0x4ed03c761df9259, Near 0x16cecd2f88ee85 0x19a91cece6ad07 0x8c1a58753ff1a7f 0x9da078ec3bf24b2);
  (Near 0x2d0c475eaceb3f 0x335239d9cd5a0e 0x159e5ffd808e0d77 0x18a112e4e95ddbbd, Near 0x9b19538e31f1c 0x19a91cece6ad07 0x129bad1617be3f31 0x314225c9d2bbb77a);
  (Near 0x3abad255b7ac73 0x645f27b206ecf 0xe17a0bafa8689c8 0x1815973b467e723, Near 0x13632a71c63e38 0x19a91cece6ad07 0x129bad1617be3f31 0x18a112e4e95ddbbd);
  (Near 0x3abad255b7ac73 0xc8be4f640dd9e 0x70bd05d7d4344e4 0x1815973b467e723, Near 0x1a3a6fed4b9ed2 0x645f27b206ecf 0xc964747461ea2a5 0x302b2e768cfce46);
  (Near 0x10c3b8da0b7b23 0x3ed70f84634f07 0xa0e8344e613132a 0x25b249113840bd2d, Near 0x1c488e84a1701c 0xb84d5aa95f4f9 0x43ddd2dfea79f6ab 0x1ba3c5cc522daa03);
  (Near 0x10c3b8da0b7b23 0x3a9f3ba098b182 0x50741a273098995 0x119542876c1a96d9, Near 0x10c3b8da0b7b23 0x1709ab552be9f2 0x141d0689cc262654 0x1ba3c5cc522daa03);
  (Near 0x218771b416f646 0x29db82c68d365f 0x50741a273098995 0x64700727c8886a2, Near 0x10c3b8da0b7b23 0x1d4f9dd04c58c1 0xa0e8344e613132a 0x119542876c1a96d9);
  (Near 0x193360a1a0b62d 0x29db82c68d365f 0x1e3c16934c54644 0x32380393e444351, Near 0x10c3b8da0b7b23 0x1917c9ec81bb3c 0x50741a273098995 0x786bf42860783af);
  (Near 0x3e049ce1742e83 0x38fa565aba707a 0x174086c30a6a69a5 0x155cc559d5a52361, Near 0x10c3b8da0b7b23 0x1c7d2b2d5d383d 0x1924482c3f2fafe9 0x2ab98ab3ab4a46c2);
  (Near 0x50a4686b9be09 0x3f8deb7233749a 0xf1e0b49a62a322 0xbe9fe4bcdcac40d, Near 0x50a4686b9be09 0x1c7d2b2d5d383d 0x3c782d2698a8c88 0x155cc559d5a52361);
  (Near 0x50a4686b9be09 0x3d96420cf842bf 0x78f05a4d315191 0x5c5c9b5e2499fb0, Near 0x50a4686b9be09 0x1fc6f5b919ba4d 0x1e3c16934c54644 0xbe9fe4bcdcac40d);
  (Near 0x319d4a4df68b9c 0x2c9303c73ccd93 0x174086c30a6a69a5 0x14e3d4ff8873d1d0, Near 0xc6752937da2e7 0x13c45ea04187c5 0x174086c30a6a69a5 0x250e46780cfa73f6);
  (Near 0x36a790d4b049a5 0x2c9303c73ccd93 0xcce9c43463080bd 0xa71ea7fc439e8e8, Near 0x18cea526fb45ce 0x13c45ea04187c5 0x174086c30a6a69a5 0x1287233c067d39fb);
  (Near 0x14291a1ae6f824 0x2c9303c73ccd93 0x25cb1c381f697d5 0x538f53fe21cf474, Near 0x50a4686b9be09 0x1d7430330f9378 0x25cb1c381f697d5 0xdcdbfb502900a51);
  (Near 0x37d1e9ed7e0300 0x8ea33f4a5c2b7 0x20b34dd11244c8f9 0x538f53fe21cf474, Near 0x1fc8e264ab062e 0x8ea33f4a5c2b7 0x4a7af7d0232c6c99 0x14e3d4ff8873d1d0);
  (Near 0x3a269c1f1975b6 0x8ea33f4a5c2b7 0x11086e116bedeb9d 0x29c7a9ff10e7a3a, Near 0x1be8f4f6bf0180 0x8ea33f4a5c2b7 0x20b34dd11244c8f9 0xa71ea7fc439e8e8);
  (Near 0x3ed00082505b22 0x8ea33f4a5c2b7 0x932fe3198c27cef 0x14e3d4ff8873d1d, Near 0x1d134e0f8cbadb 0x8ea33f4a5c2b7 0x11086e116bedeb9d 0x538f53fe21cf474);
  (Near 0x35e5cc8daa986b 0x11d467e94b856e 0x3f26070d01d9fe9 0x14e3d4ff8873d1d, Near 0x1f680041282d91 0x8ea33f4a5c2b7 0x932fe3198c27cef 0x29c7a9ff10e7a3a);
  (Near 0x392303e14cdfcd 0x11d467e94b856e 0x14eb7d806efbba62 0x687328fdaa43191, Near 0x181c67f6538e8b 0x8ea33f4a5c2b7 0x234fc87103534333 0xd0e651fb5486322);
  (Near 0x392303e14cdfcd 0x23a8cfd2970adc 0xa75bec0377ddd31 0x687328fdaa43191, Near 0x1e6468035b97a8 0x8ea33f4a5c2b7 0x164163514e0ae011 0x687328fdaa43191);
  (Near 0x157a340eb5d4f1 0x31d76b967840c7 0x1f746182e6cd5d0 0x48fec77ac375bc1, Near 0x157a340eb5d4f1 0x11d467e94b856e 0x7dd1860b9b35740 0x687328fdaa43191);
  (Near 0x128f2a572d9555 0x34c2754e008063 0x87e78a809110761 0x182584273c23f074, Near 0x128f2a572d9555 0x11d467e94b856e 0x21f9e2a024441d84 0x20a3fccf4534f7d5);
  (Near 0x251e54ae5b2aaa 0x34c2754e008063 0x87e78a809110761 0xc12c2139e11f83a, Near 0x128f2a572d9555 0x1119a57b697587 0x10fcf15012220ec2 0xfa70b7f3312e913);
  (Near 0x157a340eb5d4f1 0x34c2754e008063 0x275179e3a080b44 0x6096109cf08fc1d, Near 0x128f2a572d9555 0xfa4209fa555b9 0x87e78a809110761 0x72892d72a01e1b2);
  (Near 0x283f28017c3bcf 0x2e80cea7be5e19 0x17065259e12b0adf 0x1a9a9bc5762bfbb8, Near 0x15affdaa4ea67a 0x18d0d0fd6fb79f 0x31a0ee1f57570697 0x38c980f68158e849);
  (Near 0x21fd815b3a1985 0x2e80cea7be5e19 0x9b9047726150d03 0xd4d4de2bb15fddc, Near 0x1edcae08190860 0x320d353211125 0x234fc87103534333 0x394496b9500f0d9);
  (Near 0x157a340eb5d4f1 0x2e80cea7be5e19 0x3125d85c88a0e15 0x6a6a6f15d8afeee, Near 0x1bbbdab4f7f73b 0x641a6a642224a 0xfddbf82b729292d 0x394496b9500f0d9);
  (Near 0x2af4681d6ba9e2 0x2e80cea7be5e19 0x3125d85c88a0e15 0x3535378aec57f77, Near 0x157a340eb5d4f1 0xc834d4c844494 0x624bb0b91141c2a 0x394496b9500f0d9);
  (Near 0x2dcb208c143a0e 0x2e80cea7be5e19 0x105fab6883a00bf1 0x10a0a15b69db7d53, Near 0x16e590460a1d07 0xbcd9f30da2089 0x20bf56d1074017e2 0x10e1974e5016eeb5);
  (Near 0x3fe8bae13cf66f 0xb5ae1baa240b 0xb6cef67fa18e8fa 0x207af9731db8b1, Near 0x16e590460a1d07 0x179b3e61b44112 0x105fab6883a00bf1 0x10e1974e5016eeb5);
  (Near 0x3fe8bae13cf66f 0x16b5c37544816 0x5b677b3fd0c747d 0x207af9731db8b1, Near 0x1f998662c96932 0xb5ae1baa240b 0xb4c746e86fb3049 0x40f5f2e63b7162);
  (Near 0x122cea327fa99d 0x37f21aced344ed 0x81f9837884129a0 0x19012f85d8581855, Near 0x1b9e3659949071 0x9714c2714e6d4 0x315ff82c711b9535 0x10e1974e5016eeb5);
  (Near 0x122cea327fa99d 0x395d7706278d03 0x40fcc1bc42094d0 0xcd1cb328bf659e5, Near 0x122cea327fa99d 0x12e2984e29cda8 0x103f306f10825340 0x10e1974e5016eeb5);
  (Near 0x122cea327fa99d 0x3c342f74d01d2f 0x207e60de2104a68 0x6ba1908e5c57aad, Near 0x122cea327fa99d 0x13984669d3f1b3 0x81f9837884129a0 0x8c1ff16c7d5c515);
  (Near 0x3eee993e5be0c1 0x2cc1af0bdc3724 0x2328adcb42a98c5d 0x19012f85d8581855, Near 0x1d5d55f576b766 0xb306bc2f70dc9 0x419f289b819de875 0x19012f85d8581855);
  (Near 0x122cea327fa99d 0x352989b2b91b0e 0x513bf22b528ba04 0xed9b1406e06a44d, Near 0x122cea327fa99d 0x1660d785ee1b92 0x144efc8ad4a2e810 0x19012f85d8581855);
  (Near 0x122cea327fa99d 0x33cc54cdf33945 0x289df915a945d02 0x73c128c5e498d47, Near 0x122cea327fa99d 0x1a94c4d95c8d87 0xa277e456a517408 0xed9b1406e06a44d);
  (Near 0x122cea327fa99d 0x3111eb046775b3 0x144efc8ad4a2e81 0x36d4332566b01c4, Near 0x122cea327fa99d 0x10cfb54db9c7d4 0x513bf22b528ba04 0x4b232fb03b53045);
  (Near 0x122cea327fa99d 0x3cb48b8e46f275 0x658aeeb6272e885 0x1532602bd0798cd2, Near 0x1cced289717bd3 0xaa1e856f1d236 0x283c6cedf7d24661 0xed9b1406e06a44d);
  (Near 0x2459d464ff533a 0x3cb48b8e46f275 0x658aeeb6272e885 0xa993015e83cc669, Near 0x122cea327fa99d 0x1543d0ade3a46c 0xcb15dd6c4e5d10a 0xed9b1406e06a44d);
  (Near 0x3058f1a0b70739 0x185ab729479f3b 0x4386e561f8df993 0x220409542e4eef2, Near 0x122cea327fa99d 0x185ab729479f3b 0x658aeeb6272e885 0x88102550b93bbc8);
  (Near 0x307df04e40b6eb 0x184837d282c762 0x152a4d576a3da881 0xa993015e83cc669, Near 0x1e51061bc10d4e 0xc241be94163b1 0x34edcac4bcb8176b 0x1532602bd0798cd2);
  (Near 0x1835b87bbdef89 0x30906fa5058ec4 0x5488ea0c100710c 0xa993015e83cc669, Near 0x1835b87bbdef89 0xc241be94163b1 0x15223a830401c430 0xa993015e83cc669);
  (Near 0x1835b87bbdef89 0x30b56e528f3e76 0x2a4475060803886 0x550a175273c555d, Near 0x1835b87bbdef89 0x184837d282c762 0xa911d418200e218 0xa993015e83cc669);
  (Near 0x1d1c100d1aff52 0x3f1e77ab930e6d 0xfe1beb6a93d3775 0x226fd79219368bc1, Near 0xe8e08068d7fa9 0x184837d282c762 0x1fc37d6d527a6eea 0x34fdf06d892fe00d);
  (Near 0x3a38201a35fea4 0x2202679e780f1b 0xfe1beb6a93d3775 0x9470c6db7fcaa26, Near 0xe8e08068d7fa9 0x13745f97ea8f72 0xfe1beb6a93d3775 0x153a730036b57123);
  (Near 0x306b70f77bdf12 0x2202679e780f1b 0x69ab248f1408d4f 0x4a38636dbfe5513, Near 0x1d1c100d1aff52 0x4e657915d0fc9 0xfe1beb6a93d3775 0x2ac5a24c6bc1cd7);
  (Near 0xe69095903cff7 0x359bc5e3ec4e3f 0xfb96090aa11c1e 0x3a7f02dd15d38f5, Near 0x1835b87bbdef89 0x9ccaf22ba1f92 0x69ab248f1408d4f 0x2ac5a24c6bc1cd7);
  (Near 0x1e16ee5d60cf47 0x25ede0df8f4eef 0xa42a276c29dc644 0xceefc9b8959e31b, Near 0x1e16ee5d60cf47 0x1f5bca08b9fea 0x290a89db0a771910 0x2ac5a24c6bc1cd7);
  (Near 0x1e16ee5d60cf47 0x2dc4d361bdce97 0x521513b614ee322 0x7cdab60280afff9, Near 0x1e16ee5d60cf47 0x3eb7941173fd4 0x148544ed853b8c88 0x2ac5a24c6bc1cd7);
  (Near 0x1e16ee5d60cf47 0x3d72b8661acde7 0x290a89db0a77191 0x53d02c277638e68, Near 0x1e16ee5d60cf47 0x7d6f2822e7fa8 0xa42a276c29dc644 0x2ac5a24c6bc1cd7);
  (Near 0x1e16ee5d60cf47 0x3065a95146551d 0xcd34b14734537d5 0x14a0f6749b5037ce, Near 0x1e16ee5d60cf47 0x139f25eba9c919 0x334d2c51cd14df54 0x217441890e956fa3);
  (Near 0x3c2ddcbac19e8e 0x3065a95146551d 0xcd34b14734537d5 0xa507b3a4da81be7, Near 0x1e16ee5d60cf47 0x9275d79f2c2eb 0x19a69628e68a6faa 0x7cdab60280afff9);
  (Near 0xbc833697b4971 0x3d72b8661acde7 0x14167ed12ce8df7 0x68c4373153c7202, Near 0x1e16ee5d60cf47 0x124ebaf3e585d6 0xcd34b14734537d5 0x7cdab60280afff9);
  (Near 0x1cc8d341b1f666 0x2dc97319e8a35b 0xf561aee98e253c3 0x18652e3bd3bbe1b3, Near 0x1e16ee5d60cf47 0xfb284bc87d414 0x40207766405a1729 0x217441890e956fa3);
  (Near 0x3991a68363eccc 0x11009fd836acf5 0xf561aee98e253c3 0x48789a69d6cc6f8, Near 0xe6469a0d8fb33 0x1f6509790fa828 0xf561aee98e253c3 0x217441890e956fa3);
  (Near 0x2f20cda5ed25c4 0x11009fd836acf5 0x64707a15e08c5d3 0x243c4d34eb6637c, Near 0x1cc8d341b1f666 0x11009fd836acf5 0xf561aee98e253c3 0x90f134d3ad98df0);
  (Near 0x3c405b9b6cf19e 0x11009fd836acf5 0x40342ce0f526257 0x121e269a75b31be, Near 0x179066d2f692e2 0x11009fd836acf5 0x64707a15e08c5d3 0x48789a69d6cc6f8);
  (Near 0x3174a52df479a1 0x11009fd836acf5 0x1077fd58403d8581 0x5a96c1044c7f8b6, Near 0x81d01556f732b 0x191da12da62020 0xace9147fb758ccb 0x217441890e956fa3);
  (Near 0x2fe76ad344ec63 0x11009fd836acf5 0x7f9db3fd9119070 0x2d4b6082263fc5b, Near 0x103a02aadee656 0x11009fd836acf5 0xace9147fb758ccb 0xb52d820898ff16c);
  (Near 0x2fe76ad344ec63 0x22013fb06d59ea 0x3fced9fec88c838 0x2d4b6082263fc5b, Near 0xf73657d871fb7 0x11009fd836acf5 0x5252537b6ad9415 0x5a96c1044c7f8b6);
  (Near 0x172ec870d3200b 0x393008214079f5 0x9a659b03150c0ee 0x17cde7d8dd44aeb5, Near 0x172ec870d3200b 0x1417b42484e680 0x269966c0c54303b8 0x217441890e956fa3);
  (Near 0x172ec870d3200b 0x2cd3b6f00793c9 0x4d32cd818a86077 0x9546150934b8d50, Near 0x172ec870d3200b 0x11009fd836acf5 0x134cb36062a181dc 0xe278e28abf3edc7);
  (Near 0x2e5d90e1a64016 0x2cd3b6f00793c9 0x4d32cd818a86077 0x4aa30a849a5c6a8, Near 0x172ec870d3200b 0xad2773f9a39df 0x9a659b03150c0ee 0x48134787aa32cd9);
  (Near 0x945e9c6bad99e 0x3f5f8a7d7d4705 0x4d32cd818a86077 0x20f94cf9a18da236, Near 0x4a2f4e35d6ccf 0x1d5e4acd0fed1b 0x9a659b03150c0ee 0x3d1f6d1b2a72e3f5);
  (Near 0x128bd38d75b33c 0x3f5f8a7d7d4705 0x4d32cd818a86077 0x107ca67cd0c6d11b, Near 0x4a2f4e35d6ccf 0x1eead845ef4d5c 0x4d32cd818a86077 0x202c600a9680a12b);
  (Near 0x2517a71aeb6678 0x2cd3b6f00793c9 0x4d32cd818a86077 0x5d4bcd25c0f3852, Near 0x945e9c6bad99e 0x1a47e36291e08d 0x4d32cd818a86077 0xdac99993eec205a);
  (Near 0x1d5b9745cf3927 0x2cd3b6f00793c9 0x1e8ce6eeaa0c44e 0x2ea5e692e079c29, Near 0x128bd38d75b33c 0x1a47e36291e08d 0x4d32cd818a86077 0x6d64ccc9f76102d);
  (Near 0xed642d7915c30 0x3ba9f9c798eff9 0x4d32cd818a86077 0x136704e5fece6d44, Near 0x3b590b5e4570c 0x1dfd7418763799 0x4d32cd818a86077 0x2702acd735f6b158);
  (Near 0x1dac85af22b860 0x3ba9f9c798eff9 0x4d32cd818a86077 0x9b38272ff6736a2, Near 0x76b216bc8ae18 0x1dfd7418763799 0x4d32cd818a86077 0x1381566b9afb58ac);
  (Near 0x3b590b5e4570c0 0x3ba9f9c798eff9 0x4d32cd818a86077 0x4d9c1397fb39b51, Near 0xed642d7915c30 0x1dfd7418763799 0x4d32cd818a86077 0x9c0ab35cd7dac56);
  (Near 0x3b590b5e4570c0 0x3b693b0cefbd65 0x181fe0387b49e253 0x18267499e2551d2d, Near 0xed642d7915c30 0x1dbcb55dcd0505 0x181fe0387b49e253 0x305a11f692c0b00e);
  (Near 0x3ff0c9e0739b56 0x102faeaa4ca5 0xcfee779314b5799 0x34a30b3859d6d, Near 0x1dac85af22b860 0x1dbcb55dcd0505 0x181fe0387b49e253 0x182d08fb49605807);
  (Near 0x3fe09a31c94eb1 0x205f5d54994a 0x67dcea43ee2dd16 0x34a30b3859d6d, Near 0x1ff864f039cdab 0x102faeaa4ca5 0xcfee779314b5799 0x69461670b3ada);
  (Near 0x17c0747bd76fa1 0x2fa1485503788c 0xc1195349767bfe0 0x18339d5cb06b92e1, Near 0x17c0747bd76fa1 0xbe8521540de23 0x304654d25d9eff80 0x18339d5cb06b92e1);
  (Near 0x17c0747bd76fa1 0x2fc1a7b25811d6 0x608ca9a4bb3dff0 0xc2208281903d301, Near 0x17c0747bd76fa1 0x17d0a42a81bc46 0x18232a692ecf7fc0 0x18339d5cb06b92e1);
  (Near 0x17c0747bd76fa1 0x3002666d01446a 0x304654d25d9eff8 0x6193d8dcd4ff311, Near 0x17c0747bd76fa1 0x17e0d3d92c08eb 0xc1195349767bfe0 0xc2208281903d301);
  (Near 0x17c0747bd76fa1 0x3083e3e253a992 0x18232a692ecf7fc 0x314d840a7760319, Near 0x17c0747bd76fa1 0x1801333680a235 0x608ca9a4bb3dff0 0x6193d8dcd4ff311);
  (Near 0x17c0747bd76fa1 0x3934e35826012c 0x78afd40dea0d7ec 0x122ad2c264b7b2f1, Near 0x17c0747bd76fa1 0xe4d38d609804b 0x1e2bf5037a835fb0 0x122ad2c264b7b2f1);
  (Near 0x17c0747bd76fa1 0x2b28693cc5b375 0x3c57ea06f506bf6 0x6da56e116c66f0f, Near 0x17c0747bd76fa1 0x1c9a71ac130096 0xf15fa81bd41afd8 0x122ad2c264b7b2f1);
  (Near 0x17c0747bd76fa1 0x3e905dfdb3f749 0x1e2bf5037a835fb 0x4f79790df1e3914, Near 0x17c0747bd76fa1 0x9b3fa607721ea 0x78afd40dea0d7ec 0x314d840a7760319);
  (Near 0x17c0747bd76fa1 0x374417ab4160ca 0x96dbc9116490de7 0x15f05162d4081ee7, Near 0x17c0747bd76fa1 0x19b14028bc1003 0x25b6f2445924379c 0x28cbca85009a3ab5);
  (Near 0x2f80e8f7aedf42 0x1f83a32f69f129 0x96dbc9116490de7 0x6414a68dedf8880, Near 0x17c0747bd76fa1 0x1ba20bd5a0b065 0x12db79222c921bce 0x15f05162d4081ee7);
  (Near 0x3f7e2ebff3cd5b 0x1f83a32f69f129 0x64d175ca6d949a7 0x320a5346f6fc440, Near 0x17c0747bd76fa1 0x1f83a32f69f129 0x96dbc9116490de7 0xc8294d1bdbf1100);
  (Near 0xcb2d62663f5df 0x38e94f7c31dce7 0x64d175ca6d949a7 0x1c3d68bf7ae1688e, Near 0x17c0747bd76fa1 0xb0d9e557379c2 0x2f24aed56f6d4583 0x15f05162d4081ee7);
  (Near 0x1965ac4cc7ebbe 0x38e94f7c31dce7 0x64d175ca6d949a7 0xe1eb45fbd70b447, Near 0xcb2d62663f5df 0x161b3caae6f384 0xc9a2eb94db2934e 0x15f05162d4081ee7);
  (Near 0x32cb58998fd77c 0x1f83a32f69f129 0x64d175ca6d949a7 0x3e8ce818b4bb550, Near 0xcb2d62663f5df 0x1f83a32f69f129 0x64d175ca6d949a7 0xfa33a062d2ed540);
  (Near 0x32cb58998fd77c 0x1076325b652821 0x1f8174cf423e7043 0xa35e5de3224fef7, Near 0x1d290881c91e00 0x1076325b652821 0x48590c480ad26c1f 0x28d79778c893fbdc);
  (Near 0x2255263e2aaf5b 0x20ec64b6ca5042 0xaa5c778880cb8a6 0xa35e5de3224fef7, Near 0x1965ac4cc7ebbe 0x1076325b652821 0x1f8174cf423e7043 0x146bcbbc6449fdee);
  (Near 0x2255263e2aaf5b 0x1f83a32f69f129 0x552e3bc44065c53 0x4e30221ee1ea2a4, Near 0x11def3e2c5873a 0x1076325b652821 0xb15a912ddf47255 0xa35e5de3224fef7);
  (Near 0x2526a94ceb6d8d 0x1f83a32f69f129 0x2e162ab4cf70b01 0x2718110f70f5152, Near 0x168c187605f19 0x1f83a32f69f129 0x6fe19a55e7b9af 0x9c60443dc3d4548);
  (Near 0x2e5fe6e7c81cfb 0x26f1c50b990712 0x11fa4aab6d3aac9c 0xf18e8002043a19b, Near 0xd738230fdccb9 0x1378e285cc8389 0x14dbad56ba31b79d 0x1e31d00040874336);
  (Near 0x2e5fe6e7c81cfb 0x1f83a32f69f129 0x8fd2555b69d564e 0x61bc2aa69a64b4d, Near 0x1ae70461fb9972 0x1378e285cc8389 0x14dbad56ba31b79d 0xf18e8002043a19b);
  (Near 0x2e5fe6e7c81cfb 0x3f07465ed3e252 0x47e92aadb4eab27 0x61bc2aa69a64b4d, Near 0x76e21dc2f15e9 0x1f83a32f69f129 0x2e162ab4cf70b01 0xc378554d34c969a);
  (Near 0x2e5fe6e7c81cfb 0x1f27d0d61405a8 0x1678dd56488957c3 0xf18e8002043a19b, Near 0x1ecbfe7cbe1a27 0x7c9f43585016a 0x3bb1a558e19e1bd6 0xf18e8002043a19b);
  (Near 0xf381611b41753 0x3e4fa1ac280b50 0x3affaab1422db14 0xf18e8002043a19b, Near 0x1ecbfe7cbe1a27 0xf93e86b0a02d4 0x1dd8d2ac70cf0deb 0xf18e8002043a19b);
  (Near 0xf381611b41753 0x3fbeeb117fb954 0x1d7fd558a116d8a 0x7b8f2a9f7fdeb73, Near 0xf381611b41753 0x1f27d0d61405a8 0x75ff5562845b628 0xf18e8002043a19b);
  (Near 0x2824bd235db573 0x18eca711a99e20 0x1850daabd29ac54d 0xf18e8002043a19b, Near 0x1bae699a88e663 0x63b29c46a6788 0x43119aaf09e3d1fe 0xf18e8002043a19b);
  (Near 0xf381611b41753 0x31d94e23533c40 0x49bf955d92b91d9 0xf18e8002043a19b, Near 0x1bae699a88e663 0xc765388d4cf10 0x2188cd5784f1e8ff 0xf18e8002043a19b);
  (Near 0x1e702c23682ea6 0x22a138119f24ed 0x49bf955d92b91d9 0x53e7755238c07e1, Near 0xf381611b41753 0x18eca711a99e20 0x937f2abb25723b2 0xf18e8002043a19b);
  (Near 0x3ce05846d05d4c 0x4310bee36f647 0x49bf955d92b91d9 0x513effa5303b04, Near 0xf381611b41753 0x136921ffeb0d9a 0x49bf955d92b91d9 0x5e0f5546dec7de9);
  (Near 0x33374dc7947801 0xdda166d72db92 0x1363a256543ef870 0x53e7755238c07e1, Near 0x1d122c7f26f2e5 0x6ed0b36b96dc9 0x2c05bc01cc09f8c1 0xa7ceeaa47180fc2);
  (Near 0x33374dc7947801 0x1bb42cdae5b724 0x9b1d12b2a1f7c38 0x53e7755238c07e1, Near 0x1e702c23682ea6 0x6ed0b36b96dc9 0x170bdead3dd9d93d 0x53e7755238c07e1);
  (Near 0x33374dc7947801 0x376859b5cb6e48 0x4d8e895950fbe1c 0x53e7755238c07e1, Near 0x178320ecaec0dd 0xdda166d72db92 0x8e6b3ac0d26e8ae 0x53e7755238c07e1);
  (Near 0x33374dc7947801 0x1553217f799475 0x183c8aebe94eb68c 0xa175feab89bc5fd, Near 0x7790b1206b8e3 0x1ccc2c91804d58 0xe252b0130b2f08f 0x3682aaac13220883);
  (Near 0x33374dc7947801 0x2aa642fef328ea 0xc1e4575f4a75b46 0xa175feab89bc5fd, Near 0xef216240d71c6 0x1553217f799475 0xe252b0130b2f08f 0x142ebfd571378bfa);
  (Near 0x33374dc7947801 0x2215383651d9d3 0x60f22bafa53ada3 0x4083d2fbe48185a, Near 0x1de42c481ae38c 0x1553217f799475 0xe252b0130b2f08f 0xa175feab89bc5fd);
  (Near 0x33374dc7947801 0x110f4dff9476c4 0x1e4bada6e3a2642f 0xa175feab89bc5fd, Near 0x1de42c481ae38c 0x443d37fe51db1 0x46b9d705f37eb2cb 0xa175feab89bc5fd);
  (Near 0x2227ffc800013d 0x221e9bff28ed88 0xa1a26de15834f19 0xa175feab89bc5fd, Near 0x19a058c835c5db 0x887a6ffca3b62 0x1e513b8d9d717667 0xa175feab89bc5fd);
  (Near 0x963c8d713b5 0x3ffc00fcdced0c 0x16379ae73c48e 0x9764cc7ac26b5a5, Near 0x1118b1c86b8a79 0x110f4dff9476c4 0xa1cedd1726ad835 0xa175feab89bc5fd);
  (Near 0x963c8d713b5 0x3ff6d5f7ac8553 0xb1bcd739e247 0x4bac4909a974fae, Near 0x963c8d713b5 0x1ffe007e6e7686 0x2c6f35ce7891c 0x9764cc7ac26b5a5);
  (Near 0x1b533306666764 0x369d0243f5bb13 0xa1a26de15834f19 0x1430d50bf6e532cf, Near 0x6d4ccc19999d9 0x1b49cf3d8f53af 0xa1a26de15834f19 0x285ab8b785878ed8);
  (Near 0x36a6660ccccec8 0x1b49cf3d8f53af 0xa1a26de15834f19 0x50b5716f0b0f1db, Near 0xda999833333b2 0x1b49cf3d8f53af 0xa1a26de15834f19 0x142d5c5bc2c3c76c);
  (Near 0x1b5c96cf3d7b19 0x36939e7b1ea75e 0x28767e392692e9f 0x50b5716f0b0f1db, Near 0x1b533306666764 0x1b49cf3d8f53af 0xa1a26de15834f19 0xa16ae2de161e3b6);
  (Near 0x578eaf63f7f05 0x3c0c89715e2663 0x28767e392692e9f 0x1bc01b5645dde7e6, Near 0x15da481026e85f 0x10615d19e7695a 0x286522c821ebd101 0x1e478339d8471685);
  (Near 0xaf1d5ec7efe0a 0x3c0c89715e2663 0x28767e392692e9f 0xde00dab22eef3f3, Near 0x578eaf63f7f05 0x1b49cf3d8f53af 0x50ecfc724d25d3e 0x1938b372b374b947);
  (Near 0x15e3abd8fdfc14 0x311ab384df2859 0x28767e392692e9f 0x5ac52e3c842e2aa, Near 0x578eaf63f7f05 0x1b3707abe12c45 0x28767e392692e9f 0xc93ac00d766d02c);
  (Near 0x460bbf832cc04 0x3e3ce76d778c65 0x28767e392692e9f 0x23f3d61da089f92f, Near 0x1182efe0cb301 0x1f97c3a413f849 0x28767e392692e9f 0x48fffb927ea6cb58);
  (Near 0x8c177f0659808 0x39dc2b7544c061 0x28767e392692e9f 0x10b6371d07106548, Near 0x2305dfc196602 0x1f97c3a413f849 0x28767e392692e9f 0x247ffdc93f5365ac);
  (Near 0x1182efe0cb3010 0x39dc2b7544c061 0x28767e392692e9f 0x85b1b8e838832a4, Near 0x460bbf832cc04 0x1f97c3a413f849 0x28767e392692e9f 0x123ffee49fa9b2d6);
  (Near 0x2305dfc1966020 0x39dc2b7544c061 0x28767e392692e9f 0x42d8dc741c41952, Near 0x8c177f0659808 0x1f97c3a413f849 0x28767e392692e9f 0x91fff724fd4d96b);
  (Near 0x30b9a6c6ff0047 0x354ae91e21e054 0x1197791cea1ea934 0x133d9f00997993e7, Near 0x16143237ee101d 0xd52ba47887815 0x1fe2a67275877d02 0x133d9f00997993e7);
  (Near 0x30b9a6c6ff0047 0x39dc2b7544c061 0x8cbbc8e750f549a 0xa71e272246a3f4d, Near 0x16143237ee101d 0x1aa5748f10f02a 0xff153393ac3be81 0x133d9f00997993e7);
  (Near 0x30b9a6c6ff0047 0x1245095c8b8034 0x465de473a87aa4d 0x1a625e3af5aeab3, Near 0x1e749d6a738013 0x491425722e00d 0xafee18e2cb2fe68 0x1a625e3af5aeab3);
  (Near 0x30b9a6c6ff0047 0x3e1fca014de6c6 0x15fd576424a65381 0x1c095b8f0e88e881, Near 0x8d4e0e32c0672 0x1f0fe500a6f363 0xff153393ac3be81 0x3812b71e1d11d102);
  (Near 0x3940e3df114d11 0xd66233a4ee67f 0xceb5123c5d27401 0x306021574f14a80, Near 0x11a9c1c6580ce4 0x1f0fe500a6f363 0xff153393ac3be81 0x1c095b8f0e88e881);
  (Near 0x3ce93ad4e70026 0xd66233a4ee67f 0x6df4cf8dbefdf01 0x183010aba78a540, Near 0x15ed6052613349 0xd66233a4ee67f 0x9e54f0e50e12981 0x60c042ae9e29500);
  (Near 0x29a8f2de0efb1f 0x370f16185de19e 0x1780586edf1ef8c1 0x1f0f5da4837a3301, Near 0x710b3e8f00528 0x1b878b0c2ef0cf 0xff153393ac3be81 0x3e1ebb4906f46602);
  (Near 0x38859f47802940 0xd66233a4ee67f 0xff153393ac3be81 0x3c7829ad22d9d20, Near 0xe2167d1e00a50 0x1b878b0c2ef0cf 0xff153393ac3be81 0x1f0f5da4837a3301);
  (Near 0x3b72b1a5c4b884 0xd66233a4ee67f 0x8624e0396688441 0x1e3c14d6916ce90, Near 0x1c42cfa3c014a0 0xd66233a4ee67f 0xff153393ac3be81 0x78f0535a45b3a40);
  (Near 0x33e6b327fef08d 0xd66233a4ee67f 0x3a8eac20faf7fd9 0xf1e0a6b48b6748, Near 0x1db958d2e25c42 0xd66233a4ee67f 0x8624e0396688441 0x3c7829ad22d9d20);
  (Near 0x37efcece3f3fcc 0xd66233a4ee67f 0x13b8d5d40cf15ba1 0x4b9634186b90468, Near 0xdfbf3b38fcff3 0x1b6216eddeb672 0x13b8d5d40cf15ba1 0x269e62da27d56d41);
  (Near 0x3a4710b342e59c 0xd66233a4ee67f 0xa460f50ff7f52d1 0x25cb1a0c35c8234, Near 0x1bf7e7671f9fe6 0xd66233a4ee67f 0x13b8d5d40cf15ba1 0x972c6830d7208d0);
  (Near 0x3ef5947d4a313c 0xd66233a4ee67f 0x58cac0f78c64e69 0x12e58d061ae411a, Near 0x1d238859a172ce 0xd66233a4ee67f 0xa460f50ff7f52d1 0x4b9634186b90468);
  (Near 0x321be6bc5228d6 0x3f8209f6a10f55 0x16158774d04dddd5 0x1bfd4386b8b52357, Near 0x190df35e29146b 0x133a0b4c3bfd75 0x2c2b0ee9a09bbbaa 0x21e4ff98a11c68d9);
  (Near 0x3c0563c9b79e2f 0xd66233a4ee67f 0xd39ed59f3b2f592 0x2f3de08f433a2c1, Near 0x190df35e29146b 0xd66233a4ee67f 0x16158774d04dddd5 0xbcf7823d0ce8b04);
  (Near 0x3c0563c9b79e2f 0x1acc46749dccfe 0x69cf6acf9d97ac9 0x2f3de08f433a2c1, Near 0x174fa047b45bd8 0xd66233a4ee67f 0xa460f50ff7f52d1 0x5e7bc11e8674582);
  (Near 0x295f49f6c0ee4f 0x16b93023ca3e6f 0x16cac20fe1c0131c 0xc84b2bee240c04b, Near 0x1b62b69887ea67 0x16b93023ca3e6f 0x3c58da4c888253fd 0x3212cafb8903012c);
  (Near 0x295f49f6c0ee4f 0x2d726047947cde 0xb656107f0e0098e 0xc84b2bee240c04b, Near 0x9530ce97b57f0 0x16b93023ca3e6f 0xa460f50ff7f52d1 0x1909657dc4818096);
  (Near 0x295f49f6c0ee4f 0x31857698680b6d 0x5b2b083f87004c7 0x6d2023ae9d0bb84, Near 0x12a619d2f6afe0 0x16b93023ca3e6f 0xa460f50ff7f52d1 0xc84b2bee240c04b);
  (Near 0x21391d5519d131 0x31857698680b6d 0x249af668387a705 0x369011d74e85dc2, Near 0x1d2607044642a2 0x4131650d38e8f 0x8076be31cbde557 0x11f51b6f160b6bd);
  (Near 0x3b8d0a1362b9db 0x245b8039439718 0x148112a95e386c17 0xc84b2bee240c04b, Near 0x173189da1f22c3 0x916e00e50e5c6 0x1ff17fa9efdeaf30 0xc84b2bee240c04b);
  (Near 0x173189da1f22c3 0x31857698680b6d 0x3fe2ff53dfbd5e6 0x88682c9a444ea65, Near 0x173189da1f22c3 0x122dc01ca1cb8c 0xff8bfd4f7ef5798 0xc84b2bee240c04b);
  (Near 0x173189da1f22c3 0x34a7d97c91d154 0x1ff17fa9efdeaf3 0x48852d46649147f, Near 0x173189da1f22c3 0xd29f65f247455 0x7fc5fea7bf7abcc 0x48852d46649147f);
  (Near 0x265d041ea8ed2e 0x35887e6332b799 0x1082e2b4203c9631 0x170a4d83258395a3, Near 0x132e820f547697 0x112cfe29ef2081 0x2105c56840792c62 0x1d91b8522aca9515);
  (Near 0x3d8e8df8c80ff1 0xf2b7a4489ca6b 0xd3f2d4c9d991678 0x343b56782a37fb9, Near 0x132e820f547697 0xf2b7a4489ca6b 0x1082e2b4203c9631 0xd0ed59e0a8dfee4);
  (Near 0x3d8e8df8c80ff1 0x1e56f4891394d6 0x69f96a64ecc8b3c 0x343b56782a37fb9, Near 0x173189da1f22c3 0xf2b7a4489ca6b 0x9fb77e51af596bf 0x6876acf0546ff72);
  (Near 0x3111ea327fdeb3 0x2ad3984f5bc614 0x1a662ec1f1aca126 0x170a4d83258395a3, Near 0x1ba81e0ad1fba9 0xab4e613d6f185 0x3b8420017bab5952 0x170a4d83258395a3);
  (Near 0x3111ea327fdeb3 0x2495466c37ad75 0xd331760f8d65093 0x9d736222cad4510, Near 0x1ba81e0ad1fba9 0x1569cc27ade30a 0x1dc21000bdd5aca9 0x170a4d83258395a3);
  (Near 0x3d8e8df8c80ff1 0x2495466c37ad75 0x8477c4fe27fae0b 0x4eb9b111656a288, Near 0x63e51e324189f 0x1e56f4891394d6 0x35be13ecc290b83 0x10528b058d317e9d);
  (Near 0x31f28f1920c4f8 0x2495466c37ad75 0x35be13ecc290b83 0x275cd888b2b5144, Near 0xc7ca3c648313e 0x1818a2a5ef7c37 0x35be13ecc290b83 0x67b54e36084398d);
  (Near 0x2e92963e0b080d 0x2495466c37ad75 0xfa8e4e98401a1d7 0xc4d03aab7d89654, Near 0x27f53f474d6a6 0x1f969e834e0029 0x35be13ecc290b83 0x2a7c4c2d4710424a);
  (Near 0x388fe60fde62a5 0x2495466c37ad75 0x9826314281556ad 0x62681d55bec4b2a, Near 0x4fea7e8e9ad4c 0x1f969e834e0029 0x35be13ecc290b83 0x153e2616a3882125);
  (Near 0x27f53f474d6a60 0x2495466c37ad75 0x35be13ecc290b83 0x31340eaadf62595, Near 0x9fd4fd1d35a98 0x1a97f69a6452dd 0x35be13ecc290b83 0x8f1226bebaf8ad1);
  (Near 0xf4ee78a4dd191 0x33e42df6857f06 0x66f22297a1f3118 0x15cf66bedfeded01, Near 0x14a07f42c8488a 0x19f216fb42bf83 0x22adab11d42c4f31 0x2b9ecd7dbfdbda02);
  (Near 0xf4ee78a4dd191 0x39dba54e218959 0x3379114bd0f988c 0xc28b380a8bf235d, Near 0xf4ee78a4dd191 0x19f216fb42bf83 0xcde4452f43e6230 0x15cf66bedfeded01);
  (Near 0xf4ee78a4dd191 0x367bac730bcc6e 0x19bc88a5e87cc46 0x5b991572e9ff245, Near 0xf4ee78a4dd191 0x15465ee1e9dbe4 0x66f22297a1f3118 0x8f1226bebaf8ad1);
  (Near 0x2fa2e7c956b972 0x2054003f08e7e1 0x1906f7d39cfd858d 0x10fc0d1fc456882f, Near 0x17d173e4ab5cb9 0x1c12ba11da224d 0x320defa739fb0b1a 0x3aff121325aa95eb);
  (Near 0xf4ee78a4dd191 0x315918f3c3fe31 0x4057559ec537eaf 0xcf697c5d8030980, Near 0x17d173e4ab5cb9 0x8828c5a5d8b28 0x1906f7d39cfd858d 0x8f1226bebaf8ad1);
  (Near 0x1e9dcf149ba322 0x315918f3c3fe31 0x4057559ec537eaf 0x67b4be2ec0184c0, Near 0xf4ee78a4dd191 0x110518b4bb1650 0x80aeab3d8a6fd5e 0x8f1226bebaf8ad1);
  (Near 0x3d3b9e29374644 0x315918f3c3fe31 0x4057559ec537eaf 0x33da5f17600c260, Near 0xf4ee78a4dd191 0x12bb49df285b0f 0x4057559ec537eaf 0x4ebad11ff5c0c22);
  (Near 0x161dbe38ff0db1 0x315918f3c3fe31 0x7431b4b6254410f 0x10343db74e03cbe0, Near 0x161dbe38ff0db1 0x1cec94e7b049d1 0x1d0c6d2d8951043c 0x25fd8f9975008f0d);
  (Near 0x2c3b7c71fe1b62 0x315918f3c3fe31 0x7431b4b6254410f 0x81a1edba701e5f0, Near 0x161dbe38ff0db1 0xd9dad5d627840 0xe863696c4a8821e 0x8f1226bebaf8ad1);
  (Near 0x271ddff0383893 0x315918f3c3fe31 0x3360bdd8ed34e17 0x40d0f6dd380f2f8, Near 0x161dbe38ff0db1 0x1b3b5abac4f080 0x7431b4b6254410f 0x8f1226bebaf8ad1);
  (Near 0x7d2c6633e71b7 0x392bdf57026fe8 0x3360bdd8ed34e17 0x17775902b0580cef, Near 0x161dbe38ff0db1 0xe4af7d5c09bfa 0x244f8878eba5454b 0x17775902b0580cef);
  (Near 0xfa58cc67ce36e 0x315918f3c3fe31 0x3360bdd8ed34e17 0xa20a69290c25f6c, Near 0x7d2c6633e71b7 0x1c95efab8137f4 0x66c17bb1da69c2e 0x17775902b0580cef);
  (Near 0x1f4b198cf9c6dc 0x315918f3c3fe31 0x3360bdd8ed34e17 0x510534948612fb6, Near 0x7d2c6633e71b7 0x19e0c5ca08a90c 0x3360bdd8ed34e17 0xa9f298c750ad493);
  (Near 0x2683e61c7ddcfe 0x2a204c643fe80f 0x13c2ca2b3d3c49b1 0x159d1196f6ca2b50, Near 0x1341f30e3eee7f 0x1eb11fb93f6b47 0x278594567a789362 0x3efced592ad0a051);
  (Near 0x22e77fd4bbd1ed 0x2a204c643fe80f 0x8f4415fc1d73409 0xace88cb7b6515a8, Near 0x1341f30e3eee7f 0x16de595600f990 0x13c2ca2b3d3c49b1 0x17775902b0580cef);
  (Near 0x1baeb34537bbcb 0x2a204c643fe80f 0x38cfcfa0424a935 0x5674465bdb28ad4, Near 0x1f4b198cf9c6dc 0x39c6647c20b11 0x100e3b53ca208673 0x1da476bb98de19f);
  (Near 0x375d668a6f7796 0x2a204c643fe80f 0x38cfcfa0424a935 0x2b3a232ded9456a, Near 0x1baeb34537bbcb 0x738cc8f841622 0x719f9f40849526a 0x1da476bb98de19f);
  (Near 0x3fca429e7c3f99 0x86cdc140cc803 0x14749314f3909373 0x2b3a232ded9456a, Near 0x1a7aa3c0af09ea 0x86cdc140cc803 0x21f6be134dceee85 0xace88cb7b6515a8);
  (Near 0x3c2da49c923f1a 0x86cdc140cc803 0x9a60a49782b7dcb 0x159d1196f6ca2b5, Near 0x1baeb34537bbcb 0x86cdc140cc803 0x11c0f0e214b74e09 0x5674465bdb28ad4);
  (Near 0x33c0c888857717 0x10d9b828199006 0x4261c98045f6d8b 0x159d1196f6ca2b5, Near 0x1e16d24e491f8d 0x86cdc140cc803 0x9a60a49782b7dcb 0x2b3a232ded9456a);
  (Near 0x36296d505d27e1 0x10d9b828199006 0x15b5bae2ace3b0bc 0x6c1157f2d1f2d89, Near 0x1f4b24b234f7f2 0x86cdc140cc803 0x322c8b4486e68f01 0xd822afe5a3e5b12);
  (Near 0x36296d505d27e1 0x21b3705033200c 0xadadd715671d85e 0x6c1157f2d1f2d89, Near 0x1ce2d91436cfd8 0x86cdc140cc803 0x17283547d269d8dd 0x6c1157f2d1f2d89);
  (Near 0x36296d505d27e1 0xd3d7350091837 0x56d6eb8ab38ec2f 0x153a6c681e6415a, Near 0x1475fd002a07d5 0x10d9b828199006 0x8338fe452a555aa 0x6c1157f2d1f2d89);
  (Near 0x33460309e994d5 0x1020dd967cab43 0x19b0af36329674ca 0x814bc45af056ee3, Near 0x119292b9b674c9 0x10d9b828199006 0x2337e5e107220bce 0x21c56b7be19be3ad);
  (Near 0x33460309e994d5 0x2041bb2cf95686 0xcd8579b194b3a65 0x814bc45af056ee3, Near 0x119292b9b674c9 0x1020dd967cab43 0x119bf2f0839105e7 0x1029788b5e0addc6);
  (Near 0x130447dcf03e4f 0x2d7f2e7d026ebd 0x261cdaab522e5c1 0x5b2ee9af9e28922, Near 0x130447dcf03e4f 0x1020dd967cab43 0x98736aad48b9704 0x814bc45af056ee3);
  (Near 0x26088fb9e07c9e 0x2d7f2e7d026ebd 0x261cdaab522e5c1 0x2d9774d7cf14491, Near 0x130447dcf03e4f 0xd3d7350091837 0x4c39b556a45cb82 0x35120f044bfa361);
  (Near 0x79b4ff1f9b286 0x3cb5ce60f5d3c9 0x261cdaab522e5c1 0x1302efd8dafc2257, Near 0x3cda7f8fcd943 0x1c741333fc7d43 0x4c39b556a45cb82 0x23a4120700d55eed);
  (Near 0xf369fe3f3650c 0x351a7e6efc2143 0x261cdaab522e5c1 0x850911712ec9e4b, Near 0x3cda7f8fcd943 0x1e488e990f09b1 0x261cdaab522e5c1 0x12f7725c0ce116a6);
  (Near 0x1e6d3fc7e6ca18 0x25e3de8b08bc37 0x261cdaab522e5c1 0x2f761b62ee4dc45, Near 0x79b4ff1f9b286 0x1e488e990f09b1 0x261cdaab522e5c1 0x97bb92e06708b53);
  (Near 0x322cec33ab4093 0x13bfac6bc4767b 0x13a4016122d9248c 0x7bafd0b992aa7c7, Near 0x1b5afc5dbe2901 0x13bfac6bc4767b 0x2ad4f883ee591be1 0x1eebf42e64aa9f1c);
  (Near 0x322cec33ab4093 0x277f58d788ecf6 0x9d200b0916c9246 0x7bafd0b992aa7c7, Near 0xf369fe3f3650c 0x13bfac6bc4767b 0xbe9045589ae7cc5 0xf75fa1732554f8e);
  (Near 0x322cec33ab4093 0x1cd1c57b669959 0x4e9005848b64923 0x2d1fcb350745ea4, Near 0x1e6d3fc7e6ca18 0x13bfac6bc4767b 0xbe9045589ae7cc5 0x7bafd0b992aa7c7);
  (Near 0x396e99d9c68fab 0x159017d54b4a41 0x1c19f77b14364078 0xa8cf9bee99f066b, Near 0x11ef41023da2b5 0x13bfac6bc4767b 0x2319fb78552e741a 0x26a6f139fdd546e3);
  (Near 0x396e99d9c68fab 0x2b202faa969482 0xe0cfbbd8a1b203c 0xa8cf9bee99f066b, Near 0x11ef41023da2b5 0x159017d54b4a41 0x118cfdbc2a973a0d 0x1519f37dd33e0cd6);
  (Near 0x396e99d9c68fab 0x1cd1c57b669959 0x7067ddec50d901e 0x3867be02491764d, Near 0xe4e6a2f2ffb29 0x159017d54b4a41 0x70003fd40f833a2 0xa8cf9bee99f066b);
  (Near 0x396e99d9c68fab 0x11401311090834 0x23207559d943d096 0xa8cf9bee99f066b, Near 0x1f8e7d4039035d 0x45004c442420d 0x4d33faedeb551bd6 0xa8cf9bee99f066b);
  (Near 0x396e99d9c68fab 0x22802622121068 0x11903aaceca1e84b 0xa8cf9bee99f066b, Near 0x1f8e7d4039035d 0x8a0098884841a 0x2699fd76f5aa8deb 0xa8cf9bee99f066b);
  (Near 0x16ee73b7b47f43 0x2e11d88c6fa18d 0x381a077018170f0 0x70b5947e81d957b, Near 0x16ee73b7b47f43 0x11401311090834 0xe0681dc0605c3c0 0xa8cf9bee99f066b);
  (Near 0x16ee73b7b47f43 0x2e46c9a9764494 0x1c0d03b80c0b878 0x389b8d0e69c248b, Near 0x16ee73b7b47f43 0xb91b26a5d9125 0x70340ee0302e1e0 0x389b8d0e69c248b);
  (Near 0x371e42f7b3d90a 0x202fcf3fff59c7 0x1511db23ee23593b 0xc4dc9fa6a5fbee3, Near 0x1ddf785deca326 0x25056e212b6a1 0x2dad6f18c2e2d701 0x389b8d0e69c248b);
  (Near 0x16ee73b7b47f43 0x29712ac84a344b 0x4620894c1e1cd2c 0x7ebc165a87df1b7, Near 0x1b8f217bd9ec85 0x4a0adc4256d42 0x1511db23ee23593b 0x389b8d0e69c248b);
  (Near 0x16ee73b7b47f43 0x3bf3e1d8dfe953 0x231044a60f0e696 0x5babd1b478d0b21, Near 0x16ee73b7b47f43 0x9415b884ada84 0x8c4112983c39a58 0x389b8d0e69c248b);
  (Near 0x354463dc71ad56 0x1e55f024bd2e13 0x1973e3b8b0052667 0xe7ece44cb50a579, Near 0x1c7c11097b025f 0x1e55f024bd2e13 0x3671804246a67159 0x39fb39132d4295e4);
  (Near 0x16ee73b7b47f43 0x3cabe0497a5c26 0x57a8ab9f25a4077 0xe7ece44cb50a579, Near 0x1aa231ee38d6ab 0x1e55f024bd2e13 0x1973e3b8b0052667 0x1cfd9c8996a14af2);
  (Near 0x2ddce76f68fe86 0x25bd6c91c5dce3 0x57a8ab9f25a4077 0x48221c56c7b3281, Near 0x16ee73b7b47f43 0x1e55f024bd2e13 0xaf51573e4b480ee 0xe7ece44cb50a579);
  (Near 0x3b5593e3cab68d 0x1844c01d6424dc 0x237090380eda995f 0xe7ece44cb50a579, Near 0x1cffa3bf0d887a 0x6113007590937 0x4548398842d72a1f 0xe7ece44cb50a579);
  (Near 0x2310d3c66691b1 0x3089803ac849b8 0xa78e0f9a1c4f9f3 0xe7ece44cb50a579, Near 0x16ee73b7b47f43 0xc22600eb2126e 0x1b64b5a1bbc34253 0xe7ece44cb50a579);
  (Near 0x38a8fb186b6b5b 0xd78ac7461b807 0x875ea540cff2430 0x202f6a594c5d5c3, Near 0xacc13a9026cd5 0x1844c01d6424dc 0x672f3ae78394e6d 0xe7ece44cb50a579);
  (Near 0x38a8fb186b6b5b 0x1af158e8c3700e 0x43af52a067f9218 0x202f6a594c5d5c3, Near 0x1598275204d9aa 0xd78ac7461b807 0x672f3ae78394e6d 0x405ed4b298bab86);
  (Near 0x3d7e649f31991e 0x161bef61fd424b 0x16f4b898d84fc9a9 0x840e275300b3d9e, Near 0x1a6d90d8cb076d 0x161bef61fd424b 0x27767d83386644e5 0x210389d4c02cf678);
  (Near 0x38a8fb186b6b5b 0x161bef61fd424b 0xa9364e9103eed3c 0x420713a98059ecf, Near 0x1ebf324f98cc8f 0x161bef61fd424b 0x16f4b898d84fc9a9 0x1081c4ea60167b3c);
  (Near 0x38a8fb186b6b5b 0x2c37dec3fa8496 0x549b274881f769e 0x420713a98059ecf, Near 0x114685db371488 0x161bef61fd424b 0x672f3ae78394e6d 0x840e275300b3d9e);
  (Near 0x1d04f1b9ace41b 0x2c37dec3fa8496 0xd8a94e9b82ab43c 0x14a23624f81c1a0b, Near 0x1990708dd51333 0x161bef61fd424b 0x2fb75ff868718283 0x29446c49f0383416);
  (Near 0x1d04f1b9ace41b 0x3b6acbce482511 0x6c54a74dc155a1e 0xddcebb01c06bfed, Near 0x1d04f1b9ace41b 0x161bef61fd424b 0x1b1529d370556878 0x14a23624f81c1a0b);
  (Near 0x1d04f1b9ace41b 0x3ccbb4293681ec 0x362a53a6e0aad0f 0x717a13b3ff165cf, Near 0x1d04f1b9ace41b 0xf32ed0a4da07b 0xd8a94e9b82ab43c 0x717a13b3ff165cf);
  (Near 0x1d04f1b9ace41b 0x34c9433f635955 0x10ed3a242635614b 0x1eca25d4423c2138, Near 0x14738d3e440f5c 0xbe228c2db3a9d 0x2fb75ff868718283 0x1bb9d760380d7fda);
  (Near 0x3a09e37359c836 0x34c9433f635955 0x10ed3a242635614b 0xf6512ea211e109c, Near 0x1d04f1b9ace41b 0xbe228c2db3a9d 0x21da74484c6ac296 0xddcebb01c06bfed);
  (Near 0x3f4a83a7503717 0x34c9433f635955 0x93ab0af15a658fd 0x7b28975108f084e, Near 0x1d04f1b9ace41b 0x17c45185b6753a 0x10ed3a242635614b 0xddcebb01c06bfed);
  (Near 0x150280cfd9bb84 0x34c9433f635955 0x188273a051750af 0x3d944ba88478427, Near 0x540a033f66ee1 0x1fc6c26f899dd1 0x188273a051750af 0x94476020cc0cde0);
  (Near 0xec25a69729dc5 0x34c9433f635955 0x5616bf48d5ed4d6 0x133e57a4a96594c3, Near 0x1844149eeecca9 0x981ba357c2ee4 0x23629b8251821345 0xddcebb01c06bfed);
  (Near 0xec25a69729dc5 0x3d4b77426ed95b 0x2b0b5fa46af6a6b 0xb2c35b5d5575582, Near 0xec25a69729dc5 0x1303746af85dc8 0xac2d7e91abda9ac 0xddcebb01c06bfed);
  (Near 0x1d84b4d2e53b8a 0x3d4b77426ed95b 0x2b0b5fa46af6a6b 0x5961adaeaabaac1, Near 0xec25a69729dc5 0x17448e6c7e1dcb 0x5616bf48d5ed4d6 0x87b7fbb8ea7eb17);
  (Near 0x1df851256c8265 0x3c643e9d604ba5 0xda83cc9beb9ea02 0x1b852879dac0a9ef, Near 0x1df851256c8265 0x79afb5dfcf250 0x36a0f326fae7a808 0xddcebb01c06bfed);
  (Near 0x1df851256c8265 0x3cd7daefe79280 0x6d41e64df5cf501 0xddcebb01c06bfed, Near 0x1df851256c8265 0xf35f6bbf9e4a0 0x1b5079937d73d404 0xddcebb01c06bfed);
  (Near 0x3bf0a24ad904ca 0x1edf89ca7b101b 0x6d41e64df5cf501 0x38466a59e54e576, Near 0x1df851256c8265 0x1e6bed77f3c940 0xda83cc9beb9ea02 0xddcebb01c06bfed);
  (Near 0x36206a312ca0a7 0x30503217803c84 0x1ed4e0391bc8b97a 0x1b852879dac0a9ef, Near 0x1df851256c8265 0xc140c85e00f21 0x44492ff0b9a1920a 0x1b852879dac0a9ef);
  (Near 0x36206a312ca0a7 0x2a7ff9fdd3d861 0xf6a701c8de45cbd 0xc1ab85d4cdc4d32, Near 0x1df851256c8265 0x1828190bc01e42 0x222497f85cd0c905 0x1b852879dac0a9ef);
  (Near 0x1740e066b1908c 0x2a7ff9fdd3d861 0x34fb7bf41080f8b 0x60d5c2ea66e2699, Near 0x5d03819ac6423 0x1edf89ca7b101b 0x34fb7bf41080f8b 0x1196013c17a87b4e);
  (Near 0x2e81c0cd632118 0x133f19972247d5 0x34fb7bf41080f8b 0x15ed237b2b30b87, Near 0xba0703358c846 0x1edf89ca7b101b 0x34fb7bf41080f8b 0x8cb009e0bd43da7);
  (Near 0x30c0dccbca4593 0x10fffd98bb235a 0x115b55a41c3960c1 0x60d5c2ea66e2699, Near 0x1ca06dcc13eba0 0x87ffecc5d91ad 0x28c40776dee0e81b 0xc1ab85d4cdc4d32);
  (Near 0x1fc0df330f2239 0x21fffb317646b4 0x5a6fcbabae59d14 0x60d5c2ea66e2699, Near 0x1fc0df330f2239 0x87ffecc5d91ad 0x169bf2eaeb967450 0x60d5c2ea66e2699);
  (Near 0x1fc0df330f2239 0x243f172fdd6b2f 0x2d37e5d5d72ce8a 0x339ddd148fb580f, Near 0x1fc0df330f2239 0x10fffd98bb235a 0xb4df97575cb3a28 0x60d5c2ea66e2699);
  (Near 0x13f35deacbefed 0x300c9878209d7b 0x8e0da8c03e0f523 0x1561f25d3c45cbda, Near 0x13f35deacbefed 0x10fffd98bb235a 0x23836a300f83d48c 0x1e42cce94026c0fd);
  (Near 0x27e6bbd597dfda 0x300c9878209d7b 0x8e0da8c03e0f523 0xab0f92e9e22e5ed, Near 0x13f35deacbefed 0xe0c9d46aa56c7 0x11c1b51807c1ea46 0xc8117d13864d6b7);
  (Near 0x3f81be661e4472 0x825dca288bda1 0x710bbe9699f0459 0xe80f514d20f865, Near 0x13f35deacbefed 0x1c193a8d54ad8e 0x8e0da8c03e0f523 0xc8117d13864d6b7);
  (Near 0x3e3666ced7a6a3 0x119710dc581911 0x229b5adec262dc27 0x9c8e9dd5101ed88, Near 0x13f35deacbefed 0x119710dc581911 0x2c6444bc1364c9af 0x2723a7754407b620);
  (Near 0x36108a2c4ee902 0x119710dc581911 0xf098724205f0117 0x4e474eea880f6c4, Near 0x164faaf93fc6c9 0x119710dc581911 0x18d271017160ee9f 0x1391d3baa203db10);
  (Near 0x375be1c39586d1 0x119710dc581911 0x7b2d7be239d8ef1 0x2723a7754407b62, Near 0x1b084516277481 0x119710dc581911 0xf098724205f0117 0x9c8e9dd5101ed88);
  (Near 0x39f290f222c26f 0x119710dc581911 0x407800b253cd5de 0x1391d3baa203db1, Near 0x12e268739eb6e0 0x119710dc581911 0x5409d46cf5d138f 0x4e474eea880f6c4);
  (Near 0x3cd77f6630d379 0x119710dc581911 0x1527194e7300358c 0x61d922a52a13475, Near 0x1c672c7ece47ab 0x119710dc581911 0x277fcfcd6ae3d2eb 0x187648a94a84d1d4);
  (Near 0x3cd77f6630d379 0x232e21b8b03222 0xa938ca739801ac6 0x61d922a52a13475, Near 0x15a03744ec5d34 0x119710dc581911 0xf098724205f0117 0xc3b2454a54268ea);
  (Near 0x3cd77f6630d379 0x984c40b2f90cb 0x549c6539cc00d63 0xd3cbd6b5e12712, Near 0x19a95dad80a157 0x119710dc581911 0x8ebf4f9cdbdcca2 0x61d922a52a13475);
  (Near 0x1a3d8d5e503e59 0x2c1eb6131025eb 0xb67587def6141d8 0x132c8255adc4c471, Near 0x1a3d8d5e503e59 0x119710dc581911 0x2d9d61f7bd850760 0x1e93dad39d260649);
  (Near 0x1a3d8d5e503e59 0x3dffdec7d00d7d 0x5b3ac3ef7b0a0ec 0xd78d616b6142385, Near 0x1a3d8d5e503e59 0x8f0945a5ff3c9 0x16ceb0fbdec283b0 0x7c529d7be638299);
  (Near 0x1a3d8d5e503e59 0x2d471574af5fef 0x2d9d61f7bd85076 0x4eb53b8428b3223, Near 0x1a3d8d5e503e59 0x11e128b4bfe792 0xb67587def6141d8 0x7c529d7be638299);
  (Near 0x1a3d8d5e503e59 0x288b4788835e01 0xe412e9d6b39924e 0x16065875299d14e7, Near 0x1a3d8d5e503e59 0x1dd0fbe8dd0643 0x3904ba75ace64938 0x40c9e44d6b49cbd1);
  (Near 0x1a3d8d5e503e59 0x36d901b2b67da9 0x720974eb59cc927 0xee5c12674004bc0, Near 0x1a3d8d5e503e59 0x726dd15198fd4 0x1c825d3ad673249c 0x7c529d7be638299);
  (Near 0x347b1abca07cb2 0x36d901b2b67da9 0x720974eb59cc927 0x772e0933a0025e0, Near 0x1a3d8d5e503e59 0xe4dba2a331fa8 0xe412e9d6b39924e 0x7c529d7be638299);
  (Near 0x321d33c68a7bbb 0x36d901b2b67da9 0x3672705189cb637 0x3b970499d0012f0, Near 0x1a3d8d5e503e59 0x1c9b7454663f50 0x720974eb59cc927 0x7c529d7be638299);
  (Near 0x3401ec8b68e2e7 0x34f448edd8167d 0x11a855a283d64885 0x11fa9ee70839a53e, Near 0x1a3d8d5e503e59 0x1ab6bb8f87d824 0x23a2f4898c0fedc3 0x2447871294d6a735);
  (Near 0x330f9028f9af51 0x34f448edd8167d 0x8ab062effb975e6 0x8fd4f73841cd29f, Near 0x1fa72a47120dce 0x792e313799cb 0x157e5cc2cafbfdf7 0x52494484635cb9);
  (Near 0x330f9028f9af51 0x36d901b2b67da9 0x45583177fdcbaf3 0x4a7cc5c044017ac, Near 0x1f2dfc15da7403 0xf25c626f3396 0xa9609bf234c509f 0x52494484635cb9);
  (Near 0xa36500831efdd 0x36d901b2b67da9 0x45583177fdcbaf3 0x1746fdcc1540765c, Near 0x1f954c7b05032d 0x155efc72d31350 0x359d937094499301 0x2447871294d6a735);
  (Near 0x146ca01063dfba 0x36d901b2b67da9 0x45583177fdcbaf3 0xba37ee60aa03b2e, Near 0xa36500831efdd 0x165158d54246e6 0x8ab062effb975e6 0x12f17ab49563bb69);
  (Near 0x28d94020c7bf74 0x36d901b2b67da9 0x45583177fdcbaf3 0x5d1bf7305501d97, Near 0xa36500831efdd 0x1836119a20ae12 0x45583177fdcbaf3 0xa46748595aa4583);
  (Near 0x3bfce6e4adcbad 0x1323a6c3e60c39 0x1fd2d200047c7f49 0xa27428a852cd88a, Near 0x1d59f6cc17fc16 0x1323a6c3e60c39 0x3e48999f940308e7 0x289d0a2a14b36228);
  (Near 0x3e8ed97da972af 0x1323a6c3e60c39 0x1097ee303cb93a7a 0x513a14542966c45, Near 0x146ca01063dfba 0x1323a6c3e60c39 0x15ab8f757f4fa6bf 0x144e85150a59b114);
  (Near 0x3e8ed97da972af 0x26474d87cc1872 0x84bf7181e5c9d3d 0x513a14542966c45, Near 0x15b5995ce1b33b 0x1323a6c3e60c39 0xb844ceafa22ce35 0xa27428a852cd88a);
  (Near 0x18478bf5dd5a3d 0x34470f19bad6a7 0x19c2ae96de3187c 0x377765bd4b353c9, Near 0x18478bf5dd5a3d 0x1323a6c3e60c39 0x670aba5b78c61f0 0x513a14542966c45);
  (Near 0x37a561d21a416e 0xa749c9ebef7bb 0x127339a2a38975c7 0x377765bd4b353c9, Near 0x1bd2b0e90d20b7 0x1323a6c3e60c39 0x24e673454712eb8e 0x1962265a4cf01d59);
  (Near 0x2d30c5335b49b3 0x14e9393d7def76 0x77de1a3676b10ff 0x377765bd4b353c9, Near 0x1bd2b0e90d20b7 0xa749c9ebef7bb 0x127339a2a38975c7 0x6eeecb7a966a792);
  (Near 0x18478bf5dd5a3d 0x29d2727afbdeec 0x20335a3c95bde9b 0x377765bd4b353c9, Near 0x18478bf5dd5a3d 0xa749c9ebef7bb 0x80cd68f256f7a6c 0x377765bd4b353c9);
  (Near 0x1f4be82b1cc283 0x22ce1645bc76a6 0xcf88da3057a4363 0xe6cce5b10d1b891, Near 0x185979a6fd7eeb 0x11670b22de3b53 0x285de9a11bc63f57 0x1cd99cb621a37122);
  (Near 0x3e97d056398506 0x3822e1a9fb423 0xcf88da3057a4363 0xba205c05abba97, Near 0x1f4be82b1cc283 0x11670b22de3b53 0x19f11b460af486c6 0xe6cce5b10d1b891);
  (Near 0x3b15a23b99d0e3 0x7045c353f6846 0x61f36a37fe74466 0xba205c05abba97, Near 0x1f4be82b1cc283 0x3822e1a9fb423 0xcf88da3057a4363 0x17440b80b57752e);
  (Near 0x337a52b6077f46 0xe9fabbad1b9e3 0x1aab3ba210a0415d 0x793775b8b3eb994, Near 0x19bd295b03bfa3 0x142e6a8aeabcc3 0x35567744214082ba 0x29d22a59271db485);
  (Near 0x3b15a23b99d0e3 0xe9fabbad1b9e3 0xf4e0898bfc22aff 0x3c9bbadc59f5cca, Near 0x19bd295b03bfa3 0xe9fabbad1b9e3 0x1aab3ba210a0415d 0xf26eeb7167d7328);
  (Near 0x3bac958becba3a 0xe9fabbad1b9e3 0x7ba913d3483716b 0x1e4ddd6e2cfae65, Near 0x163afb40640b80 0xe9fabbad1b9e3 0xb844ceafa22ce35 0x793775b8b3eb994);
  (Near 0x2d0ce9d11b0057 0x1d3f5775a373c6 0x2ead9b328d9e183 0x1e4ddd6e2cfae65, Near 0x1dd64ac5f65d1d 0xe9fabbad1b9e3 0x7ba913d3483716b 0x3c9bbadc59f5cca);
  (Near 0x2c1b6483c98aff 0x1d3f5775a373c6 0xe480cbc79b7f7e1 0x97855326e0e67f9, Near 0x1d5d881f4da271 0xe9fabbad1b9e3 0x26086eab617e57bb 0x12f0aa64dc1ccff2);
  (Near 0xedc0d0e261739 0x3a7eaeeb46e78c 0x267dbc505d4c7f4 0x97855326e0e67f9, Near 0x1d7bb8c8f7d11c 0xe9fabbad1b9e3 0x1317c446856187c9 0x97855326e0e67f9);
  (Near 0xedc0d0e261739 0x398d299df57234 0x133ede282ea63fa 0x4a89da86264d811, Near 0xedc0d0e261739 0x1d3f5775a373c6 0x4cfb78a0ba98fe8 0x97855326e0e67f9);
  (Near 0x20504dcd000427 0x31c48e8bd9f115 0xd141ed9f6cd93e7 0x142498475f0733ec, Near 0xbcb16b6c986d8 0x14853716367d4f 0x1317c446856187c9 0x2138b72155d4c7d3);
  (Near 0xedc0d0e261739 0x31c48e8bd9f115 0x301d2b64749f9f1 0xa124c23af8399f6, Near 0x17962d6d930db0 0x8ba205f6cf677 0x1317c446856187c9 0x710796d6839a005);
  (Near 0x1db81a1c4c2e72 0x31c48e8bd9f115 0x301d2b64749f9f1 0x5092611d7c1ccfb, Near 0xedc0d0e261739 0x117440bed9ecee 0x603a56c8e93f3e2 0x710796d6839a005);
  (Near 0x3b946fa3688be5 0x9f41c825ec9d1 0x1e248fc4ebb748a6 0x5092611d7c1ccfb, Near 0x165c314aa13a56 0x9f41c825ec9d1 0x2d4001fa72fcaf97 0x142498475f0733ec);
  (Near 0x3b946fa3688be5 0x13e83904bd93a2 0xf1247e275dba453 0x5092611d7c1ccfb, Near 0x18d0299084e10a 0x9f41c825ec9d1 0x191b69b313f57bab 0xa124c23af8399f6);
  (Near 0x27ac369eaaf843 0x27d072097b2744 0x50490e84f0cebac 0x5092611d7c1ccfb, Near 0x1db81a1c4c2e72 0x9f41c825ec9d1 0xf091d8f6471e1b5 0x5092611d7c1ccfb);
  (Near 0x27ac369eaaf843 0x27f4ad744b5645 0x2824874278675d6 0x286dd9db03b5725, Near 0x13c3fd99ed64a1 0x13e83904bd93a2 0x4fffbbec6580a5d 0x5092611d7c1ccfb);
  (Near 0x37993108dc3b2b 0xfecfa6a3142e8 0x119490569d621a29 0x5092611d7c1ccfb, Near 0x1fb5b9699256cf 0x3fb3e9a8c50ba 0x281b5cef66fd9ac2 0x5092611d7c1ccfb);
  (Near 0x27ac369eaaf843 0x1fd9f4d46285d0 0x645b52262d02697 0x5092611d7c1ccfb, Near 0x1fb5b9699256cf 0x7f67d3518a174 0x140dae77b37ecd61 0x5092611d7c1ccfb);
  (Near 0x7d241ca487273 0x3fb3e9a8c50ba0 0x9e478845872cce 0x5092611d7c1ccfb, Near 0x17bf3c3479b55b 0xfecfa6a3142e8 0x7824432edde8033 0x5092611d7c1ccfb);
  (Near 0x190738edb4a17 0x3fb3e9a8c50ba0 0x9e478845872cce 0x192dbe5936c900e7, Near 0x117d6df90c8cff 0xfecfa6a3142e8 0x1ba6dc7a4ce5b41f 0x192dbe5936c900e7);
  (Near 0x190738edb4a17 0x3f4551706b3991 0x4f23c422c39667 0xc8103efa575ea68, Near 0x190738edb4a17 0x1fd9f4d46285d0 0x13c8f108b0e599c 0x192dbe5936c900e7);
  (Near 0x320e71db6942e 0x3f4551706b3991 0x4f23c422c39667 0x64081f7d2baf534, Near 0x190738edb4a17 0x1eda6ef0c7f7bd 0x9e478845872cce 0xc31e02b82b25401);
  (Near 0x36b769dddf2184 0x19cb41601446ab 0x1b0894f2075e8751 0xcbe710eacc64ba7, Near 0xdadda7777c861 0x19cb41601446ab 0x1b0894f2075e8751 0x32f9c43ab3192e9c);
  (Near 0x1cec287dcadad9 0x339682c0288d56 0x72511f1ad4c1dd5 0xcbe710eacc64ba7, Near 0x1b5bb4eeef90c2 0x19cb41601446ab 0x1b0894f2075e8751 0x197ce21d598c974e);
  (Near 0x39d850fb95b5b2 0x16aa5a425db27d 0x72511f1ad4c1dd5 0x2ccaf8e7fbd16e9, Near 0x1cec287dcadad9 0x19cb41601446ab 0xe4a23e35a983baa 0xcbe710eacc64ba7);
  (Near 0x3be0108aaffc73 0x14a29ab3436bbc 0x24fa56723467bc0f 0xcbe710eacc64ba7, Near 0x1cec287dcadad9 0x528a6acd0daef 0x4772b370c4f92a52 0xcbe710eacc64ba7);
  (Near 0x273d75d76c90b7 0x2945356686d778 0xc1df2b1c3d0b834 0xcbe710eacc64ba7, Near 0x1cec287dcadad9 0xa514d59a1b5de 0x23b959b8627c9529 0xcbe710eacc64ba7);
  (Near 0x273d75d76c90b7 0x2b4cf4f5a11e39 0x60ef958e1e85c1a 0x6af77b5caddef8d, Near 0x129adb242924fb 0x14a29ab3436bbc 0xb7d7454dadb24c1 0xcbe710eacc64ba7);
  (Near 0x273d75d76c90b7 0x2f5c7413d5abbb 0x3077cac70f42e0d 0x3a7fb0959e9c180, Near 0x1f1e779b0375b3 0x207bf8f1a46c1 0x99bf93e1ffa6a68 0xa07e5ce8f59373);
  (Near 0x273d75d76c90b7 0x30b659db641976 0xf256f5e34c4e641 0x12cd6a678eaea7c1, Near 0x1fcc51628f4eb9 0x185b2cedb20cbb 0x31184923f8387443 0x259ad4cf1d5d4f82);
  (Near 0x3b8923a6ea0ff0 0x978e403f788bf 0xb7d7454dadb24c1 0x1d3fd84acf4e0c0, Near 0xee248e9ba83fc 0x185b2cedb20cbb 0xb7d7454dadb24c1 0x12cd6a678eaea7c1);
  (Near 0x3e3cef3606eb66 0x978e403f788bf 0x6017bc6d3fc8281 0xe9fec2567a7060, Near 0x1dc491d37507f8 0x978e403f788bf 0xb7d7454dadb24c1 0x3a7fb0959e9c180)].

(** 2^64 / k for k = 1, 2, ... *)
Definition parts : list Z := [
  18446744073709551616; 9223372036854775808; 6148914691236517205; 4611686018427387904; 3689348814741910323;
  3074457345618258602; 2635249153387078802; 2305843009213693952; 2049638230412172401; 1844674407370955161;
  1676976733973595601; 1537228672809129301; 1418980313362273201; 1317624576693539401; 1229782938247303441;
  1152921504606846976; 1085102592571150095; 1024819115206086200; 970881267037344821; 922337203685477580;
  878416384462359600; 838488366986797800; 802032351030850070; 768614336404564650; 737869762948382064;
  709490156681136600; 683212743470724133; 658812288346769700; 636094623231363848; 614891469123651720;
  595056260442243600; 576460752303423488; 558992244657865200; 542551296285575047; 527049830677415760;
  512409557603043100; 498560650640798692; 485440633518672410; 472993437787424400; 461168601842738790;
  449920587163647600; 439208192231179800; 428994048225803525; 419244183493398900; 409927646082434480;
  401016175515425035; 392483916461905353; 384307168202282325; 376464164769582686; 368934881474191032;
  361700864190383365; 354745078340568300; 348051774975651917; 341606371735362066; 335395346794719120;
  329406144173384850; 323627089012448273; 318047311615681924; 312656679215416129; 307445734561825860;
  302405640552615600; 297528130221121800; 292805461487453200; 288230376151711744; 283796062672454640;
  279496122328932600; 275324538413575397; 271275648142787523; 267344117010283356; 263524915338707880;
  259813296812810586; 256204778801521550; 252695124297391118; 249280325320399346; 245956587649460688;
  242720316759336205; 239568104853370800; 236496718893712200; 233503089540627235; 230584300921369395;
  227737581156908044; 224960293581823800; 222249928598910260; 219604096115589900; 217020518514230019;
  214497024112901762; 212031541077121282; 209622091746699450; 207266787345051141; 204963823041217240;
  202711473337467600; 200508087757712517; 198352086814081200; 196241958230952676; 194176253407468964;
  192153584101141162; 190172619316593315; 188232082384791343; 186330748219288400; 184467440737095516;
  182641030432767837; 180850432095191682; 179094602657374287; 177372539170284150; 175683276892471920;
  174025887487825958; 172399477324388332; 170803185867681033; 169236184162472950; 167697673397359560;
  166186883546932897; 164703072086692425; 163245522776190722; 161813544506224136; 160406470206170014;
  159023655807840962; 157664479262474800; 156328339607708064; 155014656081592870; 153722867280912930;
  152452430361235963; 151202820276307800; 149973529054549200; 148764065110560900; 147573952589676412;
  146402730743726600; 145249953336295682; 144115188075855872; 142998016075267841; 141898031336227320;
  140814840257324821; 139748061164466300; 138697323862477831; 137662269206787698; 136642548694144826;
  135637824071393761; 134647766961383588; 133672058505141678; 132710389019493177; 131762457669353940;
  130827972153968451; 129906648406405293; 128998210305661200; 128102389400760775; 127218924646272769;
  126347562148695559; 125488054923194228; 124640162660199673; 123803651501406386; 122978293824730344;
  122163868037811600; 121360158379668102; 120566954730127788; 119784052426685400; 119011252088448720;
  118248359446856100; 117495185182863386; 116751544770313617; 116017258325217305; 115292150460684697;
  114576050147264295; 113868790578454022; 113170209041162893; 112480146790911900; 111798448931573040;
  111124964299455130; 110459545351554201; 109802048057794950; 109152331797097938; 108510259257115009;
  107875696337482757; 107248512056450881; 106628578460748853; 106015770538560641; 105409966135483152;
  104811045873349725; 104218893071805376; 103633393672525570; 103054436165975148; 102481911520608620;
  101915713114417412; 101355736668733800; 100801880184205200; 100254043878856258; 99712130128159738;
  99176043407040600; 98645690233740917; 98120979115476338; 97601820495817733; 97088126703734482; 96579811904238490;
  96076792050570581; 95578984837873324; 95086309658296657; 94598687557484880; 94116041192395671; 93638294790403815;
  93165374109644200; 92697206400550510; 92233720368547758; 91774846137858465; 91320515216383918; 90870660461623406;
  90425216047595841; 89984117432729520; 89547301328687143; 89114705670094452; 88686269585142075; 88261933367031347;
  87841638446235960; 87425327363552377; 87012943743912979; 86604432270936862; 86199738662194166; 85798809645160705;
  85401592933840516; 85008037206034800; 84618092081236475; 84231708099130372; 83848836698679780; 83469430197780776;
  83093441773466448; 82720825442643729; 82351536043346212; 81985529216486896; 81622761388095361; 81263189752024456;
  80906772253112068; 80553467570784068; 80203235103085007; 79856034951123600; 79511827903920481; 79170575423646144;
  78832239631237400; 78496783292381070; 78164169803854032; 77834363180209078; 77507328040796435; 77183029597111094;
  76861433640456465; 76542506529915151; 76226215180617981; 75912527052302681; 75601410138153900; 75292832953916537;
  74986764527274600; 74683174387488063; 74382032555280450; 74083309532970086; 73786976294838206; 73493004277727297;
  73201365371863300; 72912031911895460; 72624976668147841; 72340172838076673; 72057594037927936; 71777214294589695;
  71499008037633920; 71222950091542670; 70949015668113660; 70677180359040427; 70407420128662410; 70139711306880424;
  69874030582233150; 69610354995130383; 69348661931238915; 69088929115017047; 68831134603393849; 68575256779589411;
  68321274347072413; 68069166323651481; 67818912035696880; 67570491112489200; 67323883480691794; 67079069358943824;
  66836029252570839; 66594743948409933; 66355194509746588; 66117362271360400; 65881228834676970; 65646776063023315;
  65413986076984225; 65182841249857072; 64953324203202646; 64725417802489654; 64499105152830600; 64274369594806800;
  64051194700380387; 63829564268891182; 63609462323136384; 63390873105531105; 63173781074347779; 62958170900032599;
  62744027461597114; 62531335843083225; 62320081330099836; 62110249406429466; 61901825750703193; 61694796233142313;
  61489146912365172; 61284864032257646; 61081934018905800; 60880343477589279; 60680079189834051; 60481128110523120;
  60283477365063894; 60087114246610917; 59892026213342700; 59698200885791429; 59505626044224360; 59314289626075728;
  59124179723428050; 58935284580541698; 58747592591431693; 58561092297490640; 58375772385156808; 58191621683626345;
  58008629162608652; 57826783930123986; 57646075230342348; 57466492441462777; 57288025073632147; 57110662766902636;
  56934395289227011; 56759212534490928; 56585104520581446; 56412061387490983; 56240073395455950; 56069130923129336;
  55899224465786520; 55730344633563600; 55562482149727565; 55395627848977632; 55229772675777100; 55064907682715079;
  54901024028897475; 54738112978366622; 54576165898548969; 54415174258730240; 54255129628557504; 54096023676567600;
  53937848168741378; 53780594967083240; 53624256028225440; 53468823402056671; 53314289230374426; 53160645745560667;
  53007885269280320; 52856000211202153; 52704983067741576; 52554826420824933; 52405522936674862; 52257065364616293;
  52109446535902688; 51962659362562117; 51816696836262785; 51671552027197623; 51527218082987574; 51383688227603207;
  51240955760304310; 51099014054597095; 50957856557208706; 50817476787078654; 50677868334366900; 50539024859478223;
  50400940092102600; 50263607830271257; 50127021939428129; 49991176351516400; 49856065064079869; 49721682139378845;
  49588021703520300; 49455077945602015; 49322845116870458; 49191317529892137; 49060489557738169; 48930355633181834;
  48800910247908866; 48672147951740241; 48544063351867241; 48416651112098560; 48289905952119245; 48163822646761231;
  48038396025285290; 47913620970674160; 47789492418936662; 47666005358422613; 47543154829148328; 47420935922132523;
  47299343778742440; 47178373590050004; 47058020596197835; 46938280085774940; 46819147395201907; 46700617908125447;
  46582687054822100; 46465350311610961; 46348603200275255; 46232441287492610; 46116860184273879; 46001855545410353;
  45887423068929232; 45773558495557200; 45660257608191959; 45547516231381608; 45435330230811703; 45323695512799881;
  45212608023797920; 45102063749901104; 44992058716364760; 44882588987127862; 44773650664343571; 44665239887916589;
  44557352835047226; 44449985719782052; 44343134792571037; 44236796339831059; 44130966683515673; 44025642180691053;
  43920819223117980; 43816494236839790; 43712663681776188; 43609324051322817; 43506471871956489; 43404103702846003;
  43302216135468431; 43200805793230800; 43099869331097083; 42999403435220400; 42899404822580352; 42799870240625409;
  42700796466920258; 42602180308798040; 42504018603017400; 42406308215424256; 42309046040618237; 42212229001623687;
  42115854049565186; 42019918163347497; 41924418349339890; 41829351641064742; 41734715098890388; 41640505809728107;
  41546720886733224; 41453357469010228; 41360412721321864; 41267883833802128; 41175768021673106; 41084062524965593;
  40992764608243448; 40901871560331600; 40811380694047680; 40721289345937200; 40631594876012228; 40542294667493520;
  40453386126556034; 40364866682077793; 40276733785392034; 40188984910042596; 40101617551542503; 40014629227135686;
  39928017475561800; 39841779856824085; 39755913951960240; 39670417362816240; 39585287711823072; 39500522641776341;
  39416119815618700; 39332076916225056; 39248391646190535; 39165061727621128; 39082084901927016; 38999458929618502;
  38917181590104539; 38835250681493792; 38753664020398217; 38672419441739101; 38591514798555547; 38510947961815347;
  38430716820228232; 38350819280061437; 38271253264957575; 38192016715754765; 38113107590308990; 38034523863318663;
  37956263526151340; 37878324586672590; 37800705069076950; 37723403013720964; 37646416476958268; 37569743530976683;
  37493382263637300; 37417330778315520; 37341587193744031; 37266149643857680; 37191016277640225; 37116185258972940;
  37041654766485043; 36967422993405915; 36893488147419103; 36819848450518067; 36746502138863648; 36673447462643243;
  36600682685931650; 36528206086553567; 36456015955947730; 36384110599032646; 36312488334073920; 36241147492553146;
  36170086419038336; 36099303471055874; 36028797018963968; 35958565445827585; 35888607147294847; 35818920531474857;
  35749504018816960; 35680356041991395; 35611475045771335; 35542859486916284; 35474507834056830; 35406418567580713;
  35338590179520213; 35271021173440825; 35203710064331205; 35136655378494384; 35069855653440212; 35003309437779035;
  34937015291116575; 34870971783950003; 34805177497565191; 34739631023935125; 34674330965619457; 34609275935665200;
  34544464557508523; 34479895464877666; 34415567301696924; 34351478721991716; 34287628389794705; 34224014979052971;
  34160637173536206; 34097493666745936; 34034583161825740; 33971904371472470; 33909456017848440; 33847236832494590;
  33785245556244600; 33723480939139948; 33661941740345897; 33600626728068400; 33539534679471912; 33478664380598097;
  33418014626285419; 33357584220089605; 33297371974204966; 33237376709386579; 33177597254873294; 33118032448311582;
  33058681135680200; 32999542171215655; 32940614417338485; 32881896744580305; 32823388031511657; 32765087164670606;
  32706993038492112; 32649104555238144; 32591420624928536; 32533940165272577; 32476662101601323; 32419585366800617;
  32362708901244827; 32306031652731263; 32249552576415300; 32193270634746163; 32137184797403400; 32081294041234002;
  32025597350190193; 31970093715267853; 31914782134445591; 31859661612624441; 31804731161568192; 31749989799844322;
  31695436552765552; 31641070452331992; 31586890537173889; 31532895852494960; 31479085450016299; 31425458387920871;
  31372013730798557; 31318750549591768; 31265667921541612; 31212764930134605; 31160040665049918; 31107494222107169;
  31055124703214733; 31002931216318574; 30950912875351596; 30899068800183503; 30847398116571156; 30795899956109435;
  30744573456182586; 30693417759916059; 30642432016128823; 30591615379286155; 30540967009452900; 30490486072247192;
  30440171738794639; 30390023185682951; 30340039594917025; 30290220153874468; 30240564055261560; 30191070497069642;
  30141738682531947; 30092567820080834; 30043557123305458; 29994705810909840; 29946013106671350; 29897478239399597;
  29849100442895714; 29800878955912038; 29752813022112180; 29704901890031484; 29657144813037864; 29609541049293020;
  29562089861714025; 29514790517935282; 29467642290270849; 29420644455677115; 29373796295715846; 29327097096517570;
  29280546148745320; 29234142747558718; 29187886192578404; 29141775787850792; 29095810841813172; 29049990667259136;
  29004314581304326; 28958781905352514; 28913391965061993; 28868144090312287; 28823037615171174; 28778071877862015;
  28733246220731388; 28688559990217032; 28644012536816073; 28599603215053568; 28555331383451318; 28511196404496988;
  28467197644613505; 28423334474128739; 28379606267245464; 28336012402011600; 28292552260290723; 28249225227732850;
  28206030693745491; 28162968051464964; 28120036697727975; 28077236033043457; 28034565461564668; 27992024391061535;
  27949612232893260; 27907328401981167; 27865172316781800; 27823143399260258; 27781241074863782; 27739464772495566;
  27697813924488816; 27656287966581036; 27614886337888550; 27573608480881243; 27532453841357539; 27491421868419600;
  27450512014448737; 27409723735081057; 27369056489183311; 27328509738828965; 27288082949274484; 27247775588935822;
  27207587129365120; 27167517045227616; 27127564814278752; 27087729917341485; 27048011838283800; 27008410063996415;
  26968924084370689; 26929553392276717; 26890297483541620; 26851155856928022; 26812128014112720; 26773213459665532;
  26734411701028335; 26695722248494285; 26657144615187213; 26618678317041200; 26580322872780333; 26542077803898635;
  26503942634640160; 26465916891979270; 26428000105601076; 26390191807882048; 26352491533870788; 26314898821268975;
  26277413210412466; 26240034244252562; 26202761468337431; 26165594430793690; 26128532682308146; 26091575776109691;
  26054723267951344; 26017974716092456; 25981329681281058; 25944787726736359; 25908348418131392; 25872011323575808;
  25835776013598811; 25799642061132240; 25763609041493787; 25727676532370364; 25691844113801603; 25656111368163493;
  25620477880152155; 25584943236767755; 25549507027298547; 25514168843305050; 25478928278604353; 25443784929254553;
  25408738393539327; 25373788271952615; 25338934167183450; 25304175684100893; 25269512429739111; 25234944013282560;
  25200470046051300; 25166090141486427; 25131803915135628; 25097610984638845; 25063510969714064; 25029503492143217;
  24995588175758200; 24961764646426998; 24928032532039934; 24894391462496021; 24860841069689422; 24827380987496031;
  24794010851760150; 24760730300281277; 24727538972801007; 24694436510990028; 24661422558435229; 24628496760626904;
  24595658764946068; 24562908220651866; 24530244778869084; 24497668092575765; 24465177816590917; 24432773607562320;
  24400455123954433; 24368222026036395; 24336073975870120; 24304010637298486; 24272031675933620; 24240136759145271;
  24208325556049280; 24176597737496135; 24144952976059622; 24113390946025557; 24081911323380615; 24050513785801240;
  24019198012642645; 23987963684927895; 23956810485337080; 23925738098196565; 23894746209468331; 23863834506739394;
  23833002679211306; 23802250417689744; 23771577414574164; 23740983363847556; 23710467961066261; 23680030903349873;
  23649671889371220; 23619390619346416; 23589186795025002; 23559060119680142; 23529010298098917; 23499037036572677;
  23469140042887470; 23439319026314550; 23409573697600953; 23379903768960141; 23350308954062723; 23320788968027246;
  23291343527411050; 23261972350201200; 23232675155805480; 23203451665043461; 23174301600137627; 23145224684704581;
  23116220643746305; 23087289203641491; 23058430092136939; 23029643038339015; 23000927772705176; 22972284027035556;
  22943711534464616; 22915210029452859; 22886779247778600; 22858418926529803; 22830128804095979; 22801908620160137;
  22773758115690804; 22745677032934095; 22717665115405851; 22689722107883827; 22661847756399940; 22634041808232578;
  22606304011898960; 22578634117147553; 22551031874950552; 22523497037496400; 22496029358182380; 22468628591607249;
  22441294493563931; 22414026821032261; 22386825332171785; 22359689786314608; 22332619943958294; 22305615566758829;
  22278676417523613; 22251802260204525; 22224992859891026; 22198247982803311; 22171567396285518; 22144950868798981;
  22118398169915529; 22091909070310840; 22065483341757836; 22039120757120133; 22012821090345526; 21986584116459537;
  21960409611558990; 21934297352805649; 21908247118419895; 21882258687674438; 21856331840888094; 21830466359419587;
  21804662025661408; 21778918623033709; 21753235935978244; 21727613749952357; 21702051851423001; 21676550027860812;
  21651108067734215; 21625725760503577; 21600402896615400; 21575139267496551; 21549934665548541; 21524788884141833;
  21499701717610200; 21474672961245112; 21449702411290176; 21424789864935600; 21399935120312704; 21375137976488472;
  21350398233460129; 21325715692149770; 21301090154399020; 21276521422963727; 21252009301508700; 21227553594602475;
  21203154107712128; 21178810647198107; 21154523020309118; 21130291035177035; 21106114500811843; 21081993227096630;
  21057927024782593; 21033915705484095; 21009959081673748; 20986056966677533; 20962209174669945; 20938415520669184;
  20914675820532371; 20890989890950794; 20867357549445194; 20843778614361075; 20820252904864053; 20796780240935232;
  20773360443366612; 20749993333756526; 20726678734505114; 20703416468809822; 20680206360660932; 20657048234837123;
  20633941916901064; 20610887233195029; 20587884010836553; 20564932077714104; 20542031262482796; 20519181394560124;
  20496382304121724; 20473633822097171; 20450935780165800; 20428288010752548; 20405690347023840; 20383142622883482;
  20360644672968600; 20338196332645591; 20315797438006114; 20293447825863093; 20271147333746760; 20248895799900715;
  20226693063278017; 20204538963537296; 20182433341038896; 20160376036841040; 20138366892696017; 20116405751046403;
  20094492455021298; 20072626848432591; 20050808775771251; 20029038082203639; 20007314613567843; 19985638216370045;
  19964008737780900; 19942426025631947; 19920889928412042; 19899400295263809; 19877956975980120; 19856559821000593;
  19835208681408120; 19813903408925404; 19792643855911536; 19771429875358576; 19750261320888170; 19729138046748183;
  19708059907809350; 19687026759561954; 19666038458112528; 19645094860180566; 19624195823095267; 19603341204792297;
  19582530863810564; 19561764659289026; 19541042450963508; 19520364099163546; 19499729464809251; 19479138409408185;
  19458590795052269; 19438086484414701; 19417625340746896; 19397207227875448; 19376832010199108; 19356499552685783;
  19336209720869550; 19315962380847698; 19295757399277773; 19275594643374662; 19255473980907673; 19235395280197655;
  19215358410114116; 19195363240072374; 19175409640030718; 19155497480487592; 19135626632478787; 19115796967574664;
  19096008357877382; 19076260676018150; 19056553795154495; 19036887588967545; 19017261931659331; 18997676697950104;
  18978131763075670; 18958627002784739; 18939162293336295; 18919737511496976; 18900352534538475; 18881007240234955;
  18861701506860482; 18842435213186467; 18823208238479134; 18804020462496994; 18784871765488341; 18765762028188760;
  18746691131818650; 18727658958080763; 18708665389157760; 18689710307709778; 18670793596872015; 18651915140252327;
  18633074821928840; 18614272526447579; 18595508138820112; 18576781544521200; 18558092629486470; 18539441280110102;
  18520827383242521; 18502250826188115; 18483711496702957; 18465209282992544; 18446744073709551; 18428315757951600;
  18409924225259033; 18391569365612713; 18373251069431824; 18354969227571693; 18336723731321621; 18318514472402732;
  18300341342965825; 18282204235589248; 18264103043276783; 18246037659455540; 18228007977973865; 18210013893099261;
  18192055299516323; 18174132092324681; 18156244167036960; 18138391419576746; 18120573746276573; 18102791043875909;
  18085043209519168; 18067330140753723; 18049651735527937; 18032007892189200; 18014398509481984; 17996823486545904;
  17979282722913792; 17961776118509787; 17944303573647423; 17926864989027746; 17909460265737428; 17892089305246897;
  17874752009408480; 17857448280454551; 17840178020995697; 17822941134018890; 17805737522885667; 17788567091330329;
  17771429743458142; 17754325383743553; 17737253917028415; 17720215248520222; 17703209283790356; 17686235928772340;
  17669295089760106; 17652386673406269; 17635510586720412; 17618666737067384; 17601855032165602; 17585075380085368;
  17568327689247192; 17551611868420125; 17534927826720106; 17518275473608311; 17501654718889517; 17485065472710475;
  17468507645558287; 17451981148258800; 17435485891975001; 17419021788205431; 17402588748782595; 17386186685871396;
  17369815511967562; 17353475139896097; 17337165482809728; 17320886454187372; 17304637967832600; 17288419937872119;
  17272232278754261; 17256074905247475; 17239947732438833; 17223850675732541; 17207783650848462; 17191746573820644;
  17175739360995858; 17159761929032141; 17143814194897352; 17127896075867735; 17112007489526485; 17096148353762327;
  17080318586768103; 17064518107039363; 17048746833372968; 17033004684865698; 17017291580912870; 17001607441206960;
  16985952185736235; 16970325734783396; 16954728008924220; 16939158929026218; 16923618416247295; 16908106392034419;
  16892622778122300; 16877167496532069; 16861740469569974; 16846341619826074; 16830970870172948; 16815628143764404;
  16800313364034200; 16785026454694769; 16769767339735956; 16754535943423752; 16739332190299048; 16724156005176384;
  16709007313142709; 16693886039556155; 16678792110044802; 16663725450505466; 16648685987102483; 16633673646266502;
  16618688354693289; 16603730039342530; 16588798627436647; 16573894046459615; 16559016224155791; 16544165088528745;
  16529340567840100; 16514542590608372; 16499771085607827; 16485025981867338; 16470307208669242; 16455614695548217;
  16440948372290152; 16426308168931034; 16411694015755828; 16397105843297379; 16382543582335303; 16368007163894899;
  16353496519246056; 16339011579902171; 16324552277619072; 16310118544393944; 16295710312464268; 16281327514306753;
  16266970082636288; 16252637950404891; 16238331050800661; 16224049317246747; 16209792683400308; 16195561083151493;
  16181354450622413; 16167172720166127; 16153015826365631; 16138883704032853; 16124776288207650; 16110693514156813;
  16096635317373081; 16082601633574151; 16068592398701700; 16054607548920410; 16040647020617001; 16026710750399262;
  16012798675095096; 15998910731751562; 15985046857633926; 15971206990224720; 15957391067222795; 15943599026542395;
  15929830806312220; 15916086344874505; 15902365580784096; 15888668452807537; 15874994899922161; 15861344861315177;
  15847718276382776; 15834115084729228; 15820535226165996; 15806978640710841; 15793445268586944; 15779935050222028;
  15766447926247480; 15752983837497482; 15739542725008149; 15726124530016668; 15712729193960435; 15699356658476214;
  15686006865399278; 15672679756762575; 15659375274795884; 15646093361924980; 15632833960770806; 15619597014148646;
  15606382465067302; 15593190256728276; 15580020332524959; 15566872636041815; 15553747111053584; 15540643701524474;
  15527562351607366; 15514503005643020; 15501465608159287; 15488450103870320; 15475456437675798; 15462484554660143;
  15449534400091751; 15436605919422218; 15423699058285578; 15410813762497536; 15397949978054717; 15385107651133904;
  15372286728091293; 15359487155461741; 15346708879958029; 15333951848470117; 15321216008064411; 15308501305983030;
  15295807689643077; 15283135106635916; 15270483504726450; 15257852831852400; 15245243036123596; 15232654065821264;
  15220085869397319; 15207538395473661; 15195011592841475; 15182505410460536; 15170019797458512; 15157554703130280;
  15145110076937234; 15132685868506605; 15120282027630780; 15107898504266627; 15095535248534821; 15083192210719175;
  15070869341265973; 15058566590783307; 15046283910040417; 15034021249967034; 15021778561652729; 15009555796346258;
  14997352905454920; 14985169840543908; 14973006553335675; 14960862995709287; 14948739119699798; 14936634877497612;
  14924550221447857; 14912485104049758; 14900439477956019; 14888413295972196; 14876406511056090; 14864419076317124;
  14852450945015742; 14840502070562792; 14828572406518932; 14816661906594017; 14804770524646510; 14792898214682880;
  14781044930857012; 14769210627469616; 14757395258967641; 14745598779943686; 14733821145135424; 14722062309425021;
  14710322227838557; 14698600855545459; 14686898147857923; 14675214060230351; 14663548548258785; 14651901567680342;
  14640273074372660; 14628663024353331; 14617071373779359; 14605498078946596; 14593943096289202; 14582406382379092;
  14570887893925396; 14559387587773916; 14547905420906586; 14536441350440939; 14524995333629568; 14513567327859600;
  14502157290652163; 14490765179661863; 14479390952676257; 14468034567615334; 14456695982530996; 14445375155606540;
  14434072045156143; 14422786609624356; 14411518807585587; 14400268597743600; 14389035938931007; 14377820790108769;
  14366623110365694; 14355442858917939; 14344279995108516; 14333134478406800; 14322006268408036; 14310895324832856;
  14299801607526784; 14288725076459761; 14277665691725659; 14266623413541803; 14255598202248494; 14244590018308534;
  14233598822306752; 14222624574949538; 14211667237064369; 14200726769599346; 14189803133622732; 14178896290322483;
  14168006201005800; 14157132827098658; 14146276130145361; 14135436071808085; 14124612613866425; 14113805718216948;
  14103015346872745; 14092241461962988; 14081484025732482; 14070743000541229; 14060018348863987; 14049310033289833;
  14038618016521728; 14027942261376084; 14017282730782334; 14006639387782499; 13996012195530767; 13985401117293064;
  13974806116446630; 13964227156479600; 13953664200990583; 13943117213688247; 13932586158390900; 13922070999026076;
  13911571699630129; 13901088224347815; 13890620537431891; 13880168603242702; 13869732386247783; 13859311851021451;
  13848906962244408; 13838517684703339; 13828143983290518; 13817785823003409; 13807443168944275; 13797115986319784;
  13786804240440621; 13776507896721099; 13766226920678769; 13755961277934042; 13745710934209800; 13735475855331013;
  13725256007224368; 13715051355917882; 13704861867540528; 13694687508321864; 13684528244591655; 13674384042779504;
  13664254869414482; 13654140691124760; 13644041474637242; 13633957186777200; 13623887794467911; 13613833264730296;
  13603793564682560; 13593768661539831; 13583758522613808; 13573763115312400; 13563782407139376; 13553816365694012;
  13543864958670742; 13533928153858805; 13524005919141900; 13514098222497840; 13504205031998207; 13494326315808011;
  13484462042185344; 13474612179481045; 13464776696138358; 13454955560692597; 13445148741770810; 13435356208091443;
  13425577928464011; 13415813871788764; 13406064007056360; 13396328303347532; 13386606729832766; 13376899255771973;
  13367205850514167; 13357526483497140; 13347861124247142; 13338209742378562; 13328572307593606; 13318948789681986;
  13309339158520600; 13299743384073216; 13290161436390166; 13280593285608028; 13271038901949317; 13261498255722179;
  13251971317320080; 13242458057221501; 13232958445989635; 13223472454272080; 13214000052800538; 13204541212390516;
  13195095903941024; 13185664098434275; 13176245766935394; 13166840880592113; 13157449410634487; 13148071328374591;
  13138706605206233; 13129355212604663; 13120017122126281; 13110692305408352; 13101380734168715; 13092082380205501;
  13082797215396845; 13073525211700603; 13064266341154073; 13055020575873709; 13045787888054845; 13036568249971414;
  13027361633975672; 13018168012497919; 13008987358046228; 12999819643206167; 12990664840640529; 12981522923089058;
  12972393863368179; 12963277634370731; 12954174209065696; 12945083560497930; 12936005661787904; 12926940486131430;
  12917888006799405; 12908848197137544; 12899821030566120; 12890806480579700; 12881804520746893; 12872815124710084;
  12863838266185182; 12854873918961360; 12845922056900801; 12836982653938449; 12828055684081746; 12819141121410390;
  12810238940076077; 12801349114302256; 12792471618383877; 12783606426687145; 12774753513649273; 12765912853778236;
  12757084421652525; 12748268191920906; 12739464139302176; 12730672238584921; 12721892464627276; 12713124792356686;
  12704369196769663; 12695625652931556; 12686894135976307; 12678174621106221; 12669467083591725; 12660771498771140;
  12652087842050446; 12643416088903051; 12634756214869555; 12626108195557530; 12617472006641280; 12608847623861621;
  12600235023025650; 12591634180006519; 12583045070743213; 12574467671240321; 12565901957567814; 12557347905860824;
  12548805492319422; 12540274693208396; 12531755484857032; 12523247843658894; 12514751746071608; 12506267168616645;
  12497794087879100; 12489332480507482; 12480882323213499; 12472443592771840; 12464016266019967; 12455600319857901;
  12447195731248010; 12438802477214802; 12430420534844711; 12422049881285893; 12413690493748015; 12405342349502052;
  12397005425880075; 12388679700275051; 12380365150140638; 12372061752990980; 12363769486400503; 12355488328003718;
  12347218255495014; 12338959246628462; 12330711279217614; 12322474331135305; 12314248380313452; 12306033404742862;
  12297829382473034; 12289636291611959; 12281454110325933; 12273282816839355; 12265122389434542; 12256972806451529;
  12248834046287882; 12240706087398508; 12232588908295458; 12224482487547747; 12216386803781160; 12208301835678061;
  12200227561977216; 12192163961473596; 12184111013018197; 12176068695517855; 12168036987935060; 12160015869287772;
  12152005318649243; 12144005315147828; 12136015837966810; 12128036866344215; 12120068379572635; 12112110356999048;
  12104162778024640; 12096225622104624; 12088298868748067; 12080382497517715; 12072476488029811; 12064580819953925;
  12056695473012778; 12048820426982071; 12040955661690307; 12033101157018624; 12025256892900620; 12017422849322183;
  12009599006321322; 12001785343987997; 11993981842463947; 11986188481942528; 11978405242668540; 11970632104938060;
  11962869049098282; 11955116055547343; 11947373104734165; 11939640177158285; 11931917253369697; 11924204313968682;
  11916501339605653; 11908808310980988; 11901125208844872; 11893452013997131; 11885788707287082; 11878135269613362;
  11870491681923778; 11862857925215145; 11855233980533130; 11847619828972094; 11840015451674936; 11832420829832938;
  11824835944685610; 11817260777520532; 11809695309673208; 11802139522526904; 11794593397512501; 11787056916108339;
  11779530059840071; 11772012810280505; 11764505149049458; 11757007057813608; 11749518518286338; 11742039512227594;
  11734570021443735; 11727110027787381; 11719659513157275; 11712218459498128; 11704786848800476; 11697364663100540;
  11689951884480070; 11682548495066213; 11675154477031361; 11667769812593011; 11660394484013623; 11653028473600474;
  11645671763705525; 11638324336725269; 11630986175100600; 11623657261316667; 11616337577902740; 11609027107432065;
  11601725832521730; 11594433735832527; 11587150800068813; 11579877007978375; 11572612342352290; 11565356786024797;
  11558110321873152; 11550872932817502; 11543644601820745; 11536425311888400; 11529215046068469; 11522013787451312;
  11514821519169507; 11507638224397724; 11500463886352588; 11493298488292555; 11486142013517778; 11478994445369976;
  11471855767232308; 11464725962529242; 11457605014726429; 11450492907330572; 11443389623889300; 11436295147991042;
  11429209463264901; 11422132553380527; 11415064402047989; 11408004993017657; 11400954310080068; 11393912337065813;
  11386879057845402; 11379854456329149; 11372838516467047; 11365831222248645; 11358832557702925; 11351842506898185;
  11344861053941913; 11337888182980670; 11330923878199970; 11323968123824156; 11317020904116289; 11310082203378020;
  11303152005949480; 11296230296209155; 11289317058573776; 11282412277498196; 11275515937475276; 11268628023035767;
  11261748518748200; 11254877409218762; 11248014679091190; 11241160313046649; 11234314295803624; 11227476612117803;
  11220647246781965; 11213826184625867; 11207013410516130; 11200208909356133; 11193412666085892; 11186624665681959;
  11179844893157304; 11173073333561206; 11166309971979147; 11159554793532699; 11152807783379414; 11146068926712720;
  11139338208761806; 11132615614791521; 11125901130102262; 11119194740029868; 11112496429945513; 11105806185255600;
  11099123991401655; 11092449833860223; 11085783698142759; 11079125569795526; 11072475434399490; 11065833277570216;
  11059199084957764; 11052572842246585; 11045954535155420; 11039344149437194; 11032741670878918; 11026147085301584;
  11019560378560066; 11012981536543015; 11006410545172763; 10999847390405218; 10993292058229768; 10986744534669179;
  10980204805779495; 10973672857649941; 10967148676402824; 10960632248193435; 10954123559209947; 10947622595673324;
  10941129343837219; 10934643789987878; 10928165920444047; 10921695721556868; 10915233179709793; 10908778281318481;
  10902331012830704; 10895891360726256; 10889459311516854; 10883034851746048; 10876617967989122; 10870208646853006;
  10863806874976178; 10857412639028576; 10851025925711500; 10844646721757525; 10838275013930406; 10831910789024986;
  10825554033867107; 10819204735313520; 10812862880251788; 10806528455600205; 10800201448307700; 10793881845353745;
  10787569633748275; 10781264800531590; 10774967332774270; 10768677217577087; 10762394442070916; 10756118993416648;
  10749850858805100; 10743590025456931; 10737336480622556; 10731090211582054; 10724851205645088; 10718619450150814;
  10712394932467800; 10706177639993935; 10699967560156352; 10693764680411334; 10687568988244236; 10681380471169398;
  10675199116730064; 10669024912498294; 10662857846074885; 10656697905089284; 10650545077199510; 10644399350092066;
  10638260711481863; 10632129149112133; 10626004650754350; 10619887204208147; 10613776797301237; 10607673417889333;
  10601577053856064; 10595487693112895; 10589405323599053; 10583329933281440; 10577261510154559; 10571200042240430;
  10565145517588517; 10559097924275644; 10553057250405921; 10547023484110664; 10540996613548315; 10534976626904369;
  10528963512391296; 10522957258248460; 10516957852742047; 10510965284164986; 10504979540836874; 10499000611103899;
  10493028483338766; 10487063145940620; 10481104587334972; 10475152795973623; 10469207760334592; 10463269468922037;
  10457337910266185; 10451413072923258; 10445494945475397; 10439583516530589; 10433678774722597; 10427780708710882;
  10421889307180537; 10416004558842208; 10410126452432026; 10404254976711535; 10398390120467616; 10392531872512423;
  10386680221683306; 10380835156842741; 10374996666878263; 10369164740702389; 10363339367252557; 10357520535491045;
  10351708234404911; 10345902453005917; 10340103180330466; 10334310405439524; 10328524117418561; 10322744305377477;
  10316970958450532; 10311204065796283; 10305443616597514; 10299689600061167; 10293942005418276; 10288200821923899;
  10282466038857052; 10276737645520641; 10271015631241398; 10265299985369811; 10259590697280062; 10253887756369956;
  10248191152060862].
