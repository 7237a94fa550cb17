(** * The files of test_results, character for character (written by scripts/gen_files.py) *)

From Coq Require Import String.
Open Scope string_scope.

(** test_results/binary32_generated_cache.txt *)
Definition binary32_generated_cache_txt : string :=
"static constexpr std::uint64_t cache[] = {
	0xa2425ff75e14fc32,
	0xcad2f7f5359a3b3f,
	0xfd87b5f28300ca0e,
	0x9e74d1b791e07e49,
	0xc612062576589ddb,
	0xf79687aed3eec552,
	0x9abe14cd44753b53,
	0xc16d9a0095928a28,
	0xf1c90080baf72cb2,
	0x971da05074da7bef,
	0xbce5086492111aeb,
	0xec1e4a7db69561a6,
	0x9392ee8e921d5d08,
	0xb877aa3236a4b44a,
	0xe69594bec44de15c,
	0x901d7cf73ab0acda,
	0xb424dc35095cd810,
	0xe12e13424bb40e14,
	0x8cbccc096f5088cc,
	0xafebff0bcb24aaff,
	0xdbe6fecebdedd5bf,
	0x89705f4136b4a598,
	0xabcc77118461cefd,
	0xd6bf94d5e57a42bd,
	0x8637bd05af6c69b6,
	0xa7c5ac471b478424,
	0xd1b71758e219652c,
	0x83126e978d4fdf3c,
	0xa3d70a3d70a3d70b,
	0xcccccccccccccccd,
	0x8000000000000000,
	0xa000000000000000,
	0xc800000000000000,
	0xfa00000000000000,
	0x9c40000000000000,
	0xc350000000000000,
	0xf424000000000000,
	0x9896800000000000,
	0xbebc200000000000,
	0xee6b280000000000,
	0x9502f90000000000,
	0xba43b74000000000,
	0xe8d4a51000000000,
	0x9184e72a00000000,
	0xb5e620f480000000,
	0xe35fa931a0000000,
	0x8e1bc9bf04000000,
	0xb1a2bc2ec5000000,
	0xde0b6b3a76400000,
	0x8ac7230489e80000,
	0xad78ebc5ac620000,
	0xd8d726b7177a8000,
	0x878678326eac9000,
	0xa968163f0a57b400,
	0xd3c21bcecceda100,
	0x84595161401484a0,
	0xa56fa5b99019a5c8,
	0xcecb8f27f4200f3a,
	0x813f3978f8940984,
	0xa18f07d736b90be5,
	0xc9f2c9cd04674ede,
	0xfc6f7c4045812296,
	0x9dc5ada82b70b59d,
	0xc5371912364ce305,
	0xf684df56c3e01bc6,
	0x9a130b963a6c115c,
	0xc097ce7bc90715b3,
	0xf0bdc21abb48db20,
	0x96769950b50d88f4,
	0xbc143fa4e250eb31,
	0xeb194f8e1ae525fd,
	0x92efd1b8d0cf37be,
	0xb7abc627050305ad,
	0xe596b7b0c643c719,
	0x8f7e32ce7bea5c6f,
	0xb35dbf821ae4f38b,
	0xe0352f62a19e306e
};".

(** test_results/binary64_generated_cache.txt *)
Definition binary64_generated_cache_txt : string :=
"static constexpr uint128 cache[] = {
	{ 0xc795830d75038c1d, 0xd59df5b9ef6a2418 },
	{ 0xf97ae3d0d2446f25, 0x4b0573286b44ad1e },
	{ 0x9becce62836ac577, 0x4ee367f9430aec33 },
	{ 0xc2e801fb244576d5, 0x229c41f793cda740 },
	{ 0xf3a20279ed56d48a, 0x6b43527578c11110 },
	{ 0x9845418c345644d6, 0x830a13896b78aaaa },
	{ 0xbe5691ef416bd60c, 0x23cc986bc656d554 },
	{ 0xedec366b11c6cb8f, 0x2cbfbe86b7ec8aa9 },
	{ 0x94b3a202eb1c3f39, 0x7bf7d71432f3d6aa },
	{ 0xb9e08a83a5e34f07, 0xdaf5ccd93fb0cc54 },
	{ 0xe858ad248f5c22c9, 0xd1b3400f8f9cff69 },
	{ 0x91376c36d99995be, 0x23100809b9c21fa2 },
	{ 0xb58547448ffffb2d, 0xabd40a0c2832a78b },
	{ 0xe2e69915b3fff9f9, 0x16c90c8f323f516d },
	{ 0x8dd01fad907ffc3b, 0xae3da7d97f6792e4 },
	{ 0xb1442798f49ffb4a, 0x99cd11cfdf41779d },
	{ 0xdd95317f31c7fa1d, 0x40405643d711d584 },
	{ 0x8a7d3eef7f1cfc52, 0x482835ea666b2573 },
	{ 0xad1c8eab5ee43b66, 0xda3243650005eed0 },
	{ 0xd863b256369d4a40, 0x90bed43e40076a83 },
	{ 0x873e4f75e2224e68, 0x5a7744a6e804a292 },
	{ 0xa90de3535aaae202, 0x711515d0a205cb37 },
	{ 0xd3515c2831559a83, 0x0d5a5b44ca873e04 },
	{ 0x8412d9991ed58091, 0xe858790afe9486c3 },
	{ 0xa5178fff668ae0b6, 0x626e974dbe39a873 },
	{ 0xce5d73ff402d98e3, 0xfb0a3d212dc81290 },
	{ 0x80fa687f881c7f8e, 0x7ce66634bc9d0b9a },
	{ 0xa139029f6a239f72, 0x1c1fffc1ebc44e81 },
	{ 0xc987434744ac874e, 0xa327ffb266b56221 },
	{ 0xfbe9141915d7a922, 0x4bf1ff9f0062baa9 },
	{ 0x9d71ac8fada6c9b5, 0x6f773fc3603db4aa },
	{ 0xc4ce17b399107c22, 0xcb550fb4384d21d4 },
	{ 0xf6019da07f549b2b, 0x7e2a53a146606a49 },
	{ 0x99c102844f94e0fb, 0x2eda7444cbfc426e },
	{ 0xc0314325637a1939, 0xfa911155fefb5309 },
	{ 0xf03d93eebc589f88, 0x793555ab7eba27cb },
	{ 0x96267c7535b763b5, 0x4bc1558b2f3458df },
	{ 0xbbb01b9283253ca2, 0x9eb1aaedfb016f17 },
	{ 0xea9c227723ee8bcb, 0x465e15a979c1cadd },
	{ 0x92a1958a7675175f, 0x0bfacd89ec191eca },
	{ 0xb749faed14125d36, 0xcef980ec671f667c },
	{ 0xe51c79a85916f484, 0x82b7e12780e7401b },
	{ 0x8f31cc0937ae58d2, 0xd1b2ecb8b0908811 },
	{ 0xb2fe3f0b8599ef07, 0x861fa7e6dcb4aa16 },
	{ 0xdfbdcece67006ac9, 0x67a791e093e1d49b },
	{ 0x8bd6a141006042bd, 0xe0c8bb2c5c6d24e1 },
	{ 0xaecc49914078536d, 0x58fae9f773886e19 },
	{ 0xda7f5bf590966848, 0xaf39a475506a899f },
	{ 0x888f99797a5e012d, 0x6d8406c952429604 },
	{ 0xaab37fd7d8f58178, 0xc8e5087ba6d33b84 },
	{ 0xd5605fcdcf32e1d6, 0xfb1e4a9a90880a65 },
	{ 0x855c3be0a17fcd26, 0x5cf2eea09a550680 },
	{ 0xa6b34ad8c9dfc06f, 0xf42faa48c0ea481f },
	{ 0xd0601d8efc57b08b, 0xf13b94daf124da27 },
	{ 0x823c12795db6ce57, 0x76c53d08d6b70859 },
	{ 0xa2cb1717b52481ed, 0x54768c4b0c64ca6f },
	{ 0xcb7ddcdda26da268, 0xa9942f5dcf7dfd0a },
	{ 0xfe5d54150b090b02, 0xd3f93b35435d7c4d },
	{ 0x9efa548d26e5a6e1, 0xc47bc5014a1a6db0 },
	{ 0xc6b8e9b0709f109a, 0x359ab6419ca1091c },
	{ 0xf867241c8cc6d4c0, 0xc30163d203c94b63 },
	{ 0x9b407691d7fc44f8, 0x79e0de63425dcf1e },
	{ 0xc21094364dfb5636, 0x985915fc12f542e5 },
	{ 0xf294b943e17a2bc4, 0x3e6f5b7b17b2939e },
	{ 0x979cf3ca6cec5b5a, 0xa705992ceecf9c43 },
	{ 0xbd8430bd08277231, 0x50c6ff782a838354 },
	{ 0xece53cec4a314ebd, 0xa4f8bf5635246429 },
	{ 0x940f4613ae5ed136, 0x871b7795e136be9a },
	{ 0xb913179899f68584, 0x28e2557b59846e40 },
	{ 0xe757dd7ec07426e5, 0x331aeada2fe589d0 },
	{ 0x9096ea6f3848984f, 0x3ff0d2c85def7622 },
	{ 0xb4bca50b065abe63, 0x0fed077a756b53aa },
	{ 0xe1ebce4dc7f16dfb, 0xd3e8495912c62895 },
	{ 0x8d3360f09cf6e4bd, 0x64712dd7abbbd95d },
	{ 0xb080392cc4349dec, 0xbd8d794d96aacfb4 },
	{ 0xdca04777f541c567, 0xecf0d7a0fc5583a1 },
	{ 0x89e42caaf9491b60, 0xf41686c49db57245 },
	{ 0xac5d37d5b79b6239, 0x311c2875c522ced6 },
	{ 0xd77485cb25823ac7, 0x7d633293366b828c },
	{ 0x86a8d39ef77164bc, 0xae5dff9c02033198 },
	{ 0xa8530886b54dbdeb, 0xd9f57f830283fdfd },
	{ 0xd267caa862a12d66, 0xd072df63c324fd7c },
	{ 0x8380dea93da4bc60, 0x4247cb9e59f71e6e },
	{ 0xa46116538d0deb78, 0x52d9be85f074e609 },
	{ 0xcd795be870516656, 0x67902e276c921f8c },
	{ 0x806bd9714632dff6, 0x00ba1cd8a3db53b7 },
	{ 0xa086cfcd97bf97f3, 0x80e8a40eccd228a5 },
	{ 0xc8a883c0fdaf7df0, 0x6122cd128006b2ce },
	{ 0xfad2a4b13d1b5d6c, 0x796b805720085f82 },
	{ 0x9cc3a6eec6311a63, 0xcbe3303674053bb1 },
	{ 0xc3f490aa77bd60fc, 0xbedbfc4411068a9d },
	{ 0xf4f1b4d515acb93b, 0xee92fb5515482d45 },
	{ 0x991711052d8bf3c5, 0x751bdd152d4d1c4b },
	{ 0xbf5cd54678eef0b6, 0xd262d45a78a0635e },
	{ 0xef340a98172aace4, 0x86fb897116c87c35 },
	{ 0x9580869f0e7aac0e, 0xd45d35e6ae3d4da1 },
	{ 0xbae0a846d2195712, 0x8974836059cca10a },
	{ 0xe998d258869facd7, 0x2bd1a438703fc94c },
	{ 0x91ff83775423cc06, 0x7b6306a34627ddd0 },
	{ 0xb67f6455292cbf08, 0x1a3bc84c17b1d543 },
	{ 0xe41f3d6a7377eeca, 0x20caba5f1d9e4a94 },
	{ 0x8e938662882af53e, 0x547eb47b7282ee9d },
	{ 0xb23867fb2a35b28d, 0xe99e619a4f23aa44 },
	{ 0xdec681f9f4c31f31, 0x6405fa00e2ec94d5 },
	{ 0x8b3c113c38f9f37e, 0xde83bc408dd3dd05 },
	{ 0xae0b158b4738705e, 0x9624ab50b148d446 },
	{ 0xd98ddaee19068c76, 0x3badd624dd9b0958 },
	{ 0x87f8a8d4cfa417c9, 0xe54ca5d70a80e5d7 },
	{ 0xa9f6d30a038d1dbc, 0x5e9fcf4ccd211f4d },
	{ 0xd47487cc8470652b, 0x7647c32000696720 },
	{ 0x84c8d4dfd2c63f3b, 0x29ecd9f40041e074 },
	{ 0xa5fb0a17c777cf09, 0xf468107100525891 },
	{ 0xcf79cc9db955c2cc, 0x7182148d4066eeb5 },
	{ 0x81ac1fe293d599bf, 0xc6f14cd848405531 },
	{ 0xa21727db38cb002f, 0xb8ada00e5a506a7d },
	{ 0xca9cf1d206fdc03b, 0xa6d90811f0e4851d },
	{ 0xfd442e4688bd304a, 0x908f4a166d1da664 },
	{ 0x9e4a9cec15763e2e, 0x9a598e4e043287ff },
	{ 0xc5dd44271ad3cdba, 0x40eff1e1853f29fe },
	{ 0xf7549530e188c128, 0xd12bee59e68ef47d },
	{ 0x9a94dd3e8cf578b9, 0x82bb74f8301958cf },
	{ 0xc13a148e3032d6e7, 0xe36a52363c1faf02 },
	{ 0xf18899b1bc3f8ca1, 0xdc44e6c3cb279ac2 },
	{ 0x96f5600f15a7b7e5, 0x29ab103a5ef8c0ba },
	{ 0xbcb2b812db11a5de, 0x7415d448f6b6f0e8 },
	{ 0xebdf661791d60f56, 0x111b495b3464ad22 },
	{ 0x936b9fcebb25c995, 0xcab10dd900beec35 },
	{ 0xb84687c269ef3bfb, 0x3d5d514f40eea743 },
	{ 0xe65829b3046b0afa, 0x0cb4a5a3112a5113 },
	{ 0x8ff71a0fe2c2e6dc, 0x47f0e785eaba72ac },
	{ 0xb3f4e093db73a093, 0x59ed216765690f57 },
	{ 0xe0f218b8d25088b8, 0x306869c13ec3532d },
	{ 0x8c974f7383725573, 0x1e414218c73a13fc },
	{ 0xafbd2350644eeacf, 0xe5d1929ef90898fb },
	{ 0xdbac6c247d62a583, 0xdf45f746b74abf3a },
	{ 0x894bc396ce5da772, 0x6b8bba8c328eb784 },
	{ 0xab9eb47c81f5114f, 0x066ea92f3f326565 },
	{ 0xd686619ba27255a2, 0xc80a537b0efefebe },
	{ 0x8613fd0145877585, 0xbd06742ce95f5f37 },
	{ 0xa798fc4196e952e7, 0x2c48113823b73705 },
	{ 0xd17f3b51fca3a7a0, 0xf75a15862ca504c6 },
	{ 0x82ef85133de648c4, 0x9a984d73dbe722fc },
	{ 0xa3ab66580d5fdaf5, 0xc13e60d0d2e0ebbb },
	{ 0xcc963fee10b7d1b3, 0x318df905079926a9 },
	{ 0xffbbcfe994e5c61f, 0xfdf17746497f7053 },
	{ 0x9fd561f1fd0f9bd3, 0xfeb6ea8bedefa634 },
	{ 0xc7caba6e7c5382c8, 0xfe64a52ee96b8fc1 },
	{ 0xf9bd690a1b68637b, 0x3dfdce7aa3c673b1 },
	{ 0x9c1661a651213e2d, 0x06bea10ca65c084f },
	{ 0xc31bfa0fe5698db8, 0x486e494fcff30a63 },
	{ 0xf3e2f893dec3f126, 0x5a89dba3c3efccfb },
	{ 0x986ddb5c6b3a76b7, 0xf89629465a75e01d },
	{ 0xbe89523386091465, 0xf6bbb397f1135824 },
	{ 0xee2ba6c0678b597f, 0x746aa07ded582e2d },
	{ 0x94db483840b717ef, 0xa8c2a44eb4571cdd },
	{ 0xba121a4650e4ddeb, 0x92f34d62616ce414 },
	{ 0xe896a0d7e51e1566, 0x77b020baf9c81d18 },
	{ 0x915e2486ef32cd60, 0x0ace1474dc1d122f },
	{ 0xb5b5ada8aaff80b8, 0x0d819992132456bb },
	{ 0xe3231912d5bf60e6, 0x10e1fff697ed6c6a },
	{ 0x8df5efabc5979c8f, 0xca8d3ffa1ef463c2 },
	{ 0xb1736b96b6fd83b3, 0xbd308ff8a6b17cb3 },
	{ 0xddd0467c64bce4a0, 0xac7cb3f6d05ddbdf },
	{ 0x8aa22c0dbef60ee4, 0x6bcdf07a423aa96c },
	{ 0xad4ab7112eb3929d, 0x86c16c98d2c953c7 },
	{ 0xd89d64d57a607744, 0xe871c7bf077ba8b8 },
	{ 0x87625f056c7c4a8b, 0x11471cd764ad4973 },
	{ 0xa93af6c6c79b5d2d, 0xd598e40d3dd89bd0 },
	{ 0xd389b47879823479, 0x4aff1d108d4ec2c4 },
	{ 0x843610cb4bf160cb, 0xcedf722a585139bb },
	{ 0xa54394fe1eedb8fe, 0xc2974eb4ee658829 },
	{ 0xce947a3da6a9273e, 0x733d226229feea33 },
	{ 0x811ccc668829b887, 0x0806357d5a3f5260 },
	{ 0xa163ff802a3426a8, 0xca07c2dcb0cf26f8 },
	{ 0xc9bcff6034c13052, 0xfc89b393dd02f0b6 },
	{ 0xfc2c3f3841f17c67, 0xbbac2078d443ace3 },
	{ 0x9d9ba7832936edc0, 0xd54b944b84aa4c0e },
	{ 0xc5029163f384a931, 0x0a9e795e65d4df12 },
	{ 0xf64335bcf065d37d, 0x4d4617b5ff4a16d6 },
	{ 0x99ea0196163fa42e, 0x504bced1bf8e4e46 },
	{ 0xc06481fb9bcf8d39, 0xe45ec2862f71e1d7 },
	{ 0xf07da27a82c37088, 0x5d767327bb4e5a4d },
	{ 0x964e858c91ba2655, 0x3a6a07f8d510f870 },
	{ 0xbbe226efb628afea, 0x890489f70a55368c },
	{ 0xeadab0aba3b2dbe5, 0x2b45ac74ccea842f },
	{ 0x92c8ae6b464fc96f, 0x3b0b8bc90012929e },
	{ 0xb77ada0617e3bbcb, 0x09ce6ebb40173745 },
	{ 0xe55990879ddcaabd, 0xcc420a6a101d0516 },
	{ 0x8f57fa54c2a9eab6, 0x9fa946824a12232e },
	{ 0xb32df8e9f3546564, 0x47939822dc96abfa },
	{ 0xdff9772470297ebd, 0x59787e2b93bc56f8 },
	{ 0x8bfbea76c619ef36, 0x57eb4edb3c55b65b },
	{ 0xaefae51477a06b03, 0xede622920b6b23f2 },
	{ 0xdab99e59958885c4, 0xe95fab368e45ecee },
	{ 0x88b402f7fd75539b, 0x11dbcb0218ebb415 },
	{ 0xaae103b5fcd2a881, 0xd652bdc29f26a11a },
	{ 0xd59944a37c0752a2, 0x4be76d3346f04960 },
	{ 0x857fcae62d8493a5, 0x6f70a4400c562ddc },
	{ 0xa6dfbd9fb8e5b88e, 0xcb4ccd500f6bb953 },
	{ 0xd097ad07a71f26b2, 0x7e2000a41346a7a8 },
	{ 0x825ecc24c873782f, 0x8ed400668c0c28c9 },
	{ 0xa2f67f2dfa90563b, 0x728900802f0f32fb },
	{ 0xcbb41ef979346bca, 0x4f2b40a03ad2ffba },
	{ 0xfea126b7d78186bc, 0xe2f610c84987bfa9 },
	{ 0x9f24b832e6b0f436, 0x0dd9ca7d2df4d7ca },
	{ 0xc6ede63fa05d3143, 0x91503d1c79720dbc },
	{ 0xf8a95fcf88747d94, 0x75a44c6397ce912b },
	{ 0x9b69dbe1b548ce7c, 0xc986afbe3ee11abb },
	{ 0xc24452da229b021b, 0xfbe85badce996169 },
	{ 0xf2d56790ab41c2a2, 0xfae27299423fb9c4 },
	{ 0x97c560ba6b0919a5, 0xdccd879fc967d41b },
	{ 0xbdb6b8e905cb600f, 0x5400e987bbc1c921 },
	{ 0xed246723473e3813, 0x290123e9aab23b69 },
	{ 0x9436c0760c86e30b, 0xf9a0b6720aaf6522 },
	{ 0xb94470938fa89bce, 0xf808e40e8d5b3e6a },
	{ 0xe7958cb87392c2c2, 0xb60b1d1230b20e05 },
	{ 0x90bd77f3483bb9b9, 0xb1c6f22b5e6f48c3 },
	{ 0xb4ecd5f01a4aa828, 0x1e38aeb6360b1af4 },
	{ 0xe2280b6c20dd5232, 0x25c6da63c38de1b1 },
	{ 0x8d590723948a535f, 0x579c487e5a38ad0f },
	{ 0xb0af48ec79ace837, 0x2d835a9df0c6d852 },
	{ 0xdcdb1b2798182244, 0xf8e431456cf88e66 },
	{ 0x8a08f0f8bf0f156b, 0x1b8e9ecb641b5900 },
	{ 0xac8b2d36eed2dac5, 0xe272467e3d222f40 },
	{ 0xd7adf884aa879177, 0x5b0ed81dcc6abb10 },
	{ 0x86ccbb52ea94baea, 0x98e947129fc2b4ea },
	{ 0xa87fea27a539e9a5, 0x3f2398d747b36225 },
	{ 0xd29fe4b18e88640e, 0x8eec7f0d19a03aae },
	{ 0x83a3eeeef9153e89, 0x1953cf68300424ad },
	{ 0xa48ceaaab75a8e2b, 0x5fa8c3423c052dd8 },
	{ 0xcdb02555653131b6, 0x3792f412cb06794e },
	{ 0x808e17555f3ebf11, 0xe2bbd88bbee40bd1 },
	{ 0xa0b19d2ab70e6ed6, 0x5b6aceaeae9d0ec5 },
	{ 0xc8de047564d20a8b, 0xf245825a5a445276 },
	{ 0xfb158592be068d2e, 0xeed6e2f0f0d56713 },
	{ 0x9ced737bb6c4183d, 0x55464dd69685606c },
	{ 0xc428d05aa4751e4c, 0xaa97e14c3c26b887 },
	{ 0xf53304714d9265df, 0xd53dd99f4b3066a9 },
	{ 0x993fe2c6d07b7fab, 0xe546a8038efe402a },
	{ 0xbf8fdb78849a5f96, 0xde98520472bdd034 },
	{ 0xef73d256a5c0f77c, 0x963e66858f6d4441 },
	{ 0x95a8637627989aad, 0xdde7001379a44aa9 },
	{ 0xbb127c53b17ec159, 0x5560c018580d5d53 },
	{ 0xe9d71b689dde71af, 0xaab8f01e6e10b4a7 },
	{ 0x9226712162ab070d, 0xcab3961304ca70e9 },
	{ 0xb6b00d69bb55c8d1, 0x3d607b97c5fd0d23 },
	{ 0xe45c10c42a2b3b05, 0x8cb89a7db77c506b },
	{ 0x8eb98a7a9a5b04e3, 0x77f3608e92adb243 },
	{ 0xb267ed1940f1c61c, 0x55f038b237591ed4 },
	{ 0xdf01e85f912e37a3, 0x6b6c46dec52f6689 },
	{ 0x8b61313bbabce2c6, 0x2323ac4b3b3da016 },
	{ 0xae397d8aa96c1b77, 0xabec975e0a0d081b },
	{ 0xd9c7dced53c72255, 0x96e7bd358c904a22 },
	{ 0x881cea14545c7575, 0x7e50d64177da2e55 },
	{ 0xaa242499697392d2, 0xdde50bd1d5d0b9ea },
	{ 0xd4ad2dbfc3d07787, 0x955e4ec64b44e865 },
	{ 0x84ec3c97da624ab4, 0xbd5af13bef0b113f },
	{ 0xa6274bbdd0fadd61, 0xecb1ad8aeacdd58f },
	{ 0xcfb11ead453994ba, 0x67de18eda5814af3 },
	{ 0x81ceb32c4b43fcf4, 0x80eacf948770ced8 },
	{ 0xa2425ff75e14fc31, 0xa1258379a94d028e },
	{ 0xcad2f7f5359a3b3e, 0x096ee45813a04331 },
	{ 0xfd87b5f28300ca0d, 0x8bca9d6e188853fd },
	{ 0x9e74d1b791e07e48, 0x775ea264cf55347e },
	{ 0xc612062576589dda, 0x95364afe032a819e },
	{ 0xf79687aed3eec551, 0x3a83ddbd83f52205 },
	{ 0x9abe14cd44753b52, 0xc4926a9672793543 },
	{ 0xc16d9a0095928a27, 0x75b7053c0f178294 },
	{ 0xf1c90080baf72cb1, 0x5324c68b12dd6339 },
	{ 0x971da05074da7bee, 0xd3f6fc16ebca5e04 },
	{ 0xbce5086492111aea, 0x88f4bb1ca6bcf585 },
	{ 0xec1e4a7db69561a5, 0x2b31e9e3d06c32e6 },
	{ 0x9392ee8e921d5d07, 0x3aff322e62439fd0 },
	{ 0xb877aa3236a4b449, 0x09befeb9fad487c3 },
	{ 0xe69594bec44de15b, 0x4c2ebe687989a9b4 },
	{ 0x901d7cf73ab0acd9, 0x0f9d37014bf60a11 },
	{ 0xb424dc35095cd80f, 0x538484c19ef38c95 },
	{ 0xe12e13424bb40e13, 0x2865a5f206b06fba },
	{ 0x8cbccc096f5088cb, 0xf93f87b7442e45d4 },
	{ 0xafebff0bcb24aafe, 0xf78f69a51539d749 },
	{ 0xdbe6fecebdedd5be, 0xb573440e5a884d1c },
	{ 0x89705f4136b4a597, 0x31680a88f8953031 },
	{ 0xabcc77118461cefc, 0xfdc20d2b36ba7c3e },
	{ 0xd6bf94d5e57a42bc, 0x3d32907604691b4d },
	{ 0x8637bd05af6c69b5, 0xa63f9a49c2c1b110 },
	{ 0xa7c5ac471b478423, 0x0fcf80dc33721d54 },
	{ 0xd1b71758e219652b, 0xd3c36113404ea4a9 },
	{ 0x83126e978d4fdf3b, 0x645a1cac083126ea },
	{ 0xa3d70a3d70a3d70a, 0x3d70a3d70a3d70a4 },
	{ 0xcccccccccccccccc, 0xcccccccccccccccd },
	{ 0x8000000000000000, 0x0000000000000000 },
	{ 0xa000000000000000, 0x0000000000000000 },
	{ 0xc800000000000000, 0x0000000000000000 },
	{ 0xfa00000000000000, 0x0000000000000000 },
	{ 0x9c40000000000000, 0x0000000000000000 },
	{ 0xc350000000000000, 0x0000000000000000 },
	{ 0xf424000000000000, 0x0000000000000000 },
	{ 0x9896800000000000, 0x0000000000000000 },
	{ 0xbebc200000000000, 0x0000000000000000 },
	{ 0xee6b280000000000, 0x0000000000000000 },
	{ 0x9502f90000000000, 0x0000000000000000 },
	{ 0xba43b74000000000, 0x0000000000000000 },
	{ 0xe8d4a51000000000, 0x0000000000000000 },
	{ 0x9184e72a00000000, 0x0000000000000000 },
	{ 0xb5e620f480000000, 0x0000000000000000 },
	{ 0xe35fa931a0000000, 0x0000000000000000 },
	{ 0x8e1bc9bf04000000, 0x0000000000000000 },
	{ 0xb1a2bc2ec5000000, 0x0000000000000000 },
	{ 0xde0b6b3a76400000, 0x0000000000000000 },
	{ 0x8ac7230489e80000, 0x0000000000000000 },
	{ 0xad78ebc5ac620000, 0x0000000000000000 },
	{ 0xd8d726b7177a8000, 0x0000000000000000 },
	{ 0x878678326eac9000, 0x0000000000000000 },
	{ 0xa968163f0a57b400, 0x0000000000000000 },
	{ 0xd3c21bcecceda100, 0x0000000000000000 },
	{ 0x84595161401484a0, 0x0000000000000000 },
	{ 0xa56fa5b99019a5c8, 0x0000000000000000 },
	{ 0xcecb8f27f4200f3a, 0x0000000000000000 },
	{ 0x813f3978f8940984, 0x4000000000000000 },
	{ 0xa18f07d736b90be5, 0x5000000000000000 },
	{ 0xc9f2c9cd04674ede, 0xa400000000000000 },
	{ 0xfc6f7c4045812296, 0x4d00000000000000 },
	{ 0x9dc5ada82b70b59d, 0xf020000000000000 },
	{ 0xc5371912364ce305, 0x6c28000000000000 },
	{ 0xf684df56c3e01bc6, 0xc732000000000000 },
	{ 0x9a130b963a6c115c, 0x3c7f400000000000 },
	{ 0xc097ce7bc90715b3, 0x4b9f100000000000 },
	{ 0xf0bdc21abb48db20, 0x1e86d40000000000 },
	{ 0x96769950b50d88f4, 0x1314448000000000 },
	{ 0xbc143fa4e250eb31, 0x17d955a000000000 },
	{ 0xeb194f8e1ae525fd, 0x5dcfab0800000000 },
	{ 0x92efd1b8d0cf37be, 0x5aa1cae500000000 },
	{ 0xb7abc627050305ad, 0xf14a3d9e40000000 },
	{ 0xe596b7b0c643c719, 0x6d9ccd05d0000000 },
	{ 0x8f7e32ce7bea5c6f, 0xe4820023a2000000 },
	{ 0xb35dbf821ae4f38b, 0xdda2802c8a800000 },
	{ 0xe0352f62a19e306e, 0xd50b2037ad200000 },
	{ 0x8c213d9da502de45, 0x4526f422cc340000 },
	{ 0xaf298d050e4395d6, 0x9670b12b7f410000 },
	{ 0xdaf3f04651d47b4c, 0x3c0cdd765f114000 },
	{ 0x88d8762bf324cd0f, 0xa5880a69fb6ac800 },
	{ 0xab0e93b6efee0053, 0x8eea0d047a457a00 },
	{ 0xd5d238a4abe98068, 0x72a4904598d6d880 },
	{ 0x85a36366eb71f041, 0x47a6da2b7f864750 },
	{ 0xa70c3c40a64e6c51, 0x999090b65f67d924 },
	{ 0xd0cf4b50cfe20765, 0xfff4b4e3f741cf6d },
	{ 0x82818f1281ed449f, 0xbff8f10e7a8921a4 },
	{ 0xa321f2d7226895c7, 0xaff72d52192b6a0d },
	{ 0xcbea6f8ceb02bb39, 0x9bf4f8a69f764490 },
	{ 0xfee50b7025c36a08, 0x02f236d04753d5b4 },
	{ 0x9f4f2726179a2245, 0x01d762422c946590 },
	{ 0xc722f0ef9d80aad6, 0x424d3ad2b7b97ef5 },
	{ 0xf8ebad2b84e0d58b, 0xd2e0898765a7deb2 },
	{ 0x9b934c3b330c8577, 0x63cc55f49f88eb2f },
	{ 0xc2781f49ffcfa6d5, 0x3cbf6b71c76b25fb },
	{ 0xf316271c7fc3908a, 0x8bef464e3945ef7a },
	{ 0x97edd871cfda3a56, 0x97758bf0e3cbb5ac },
	{ 0xbde94e8e43d0c8ec, 0x3d52eeed1cbea317 },
	{ 0xed63a231d4c4fb27, 0x4ca7aaa863ee4bdd },
	{ 0x945e455f24fb1cf8, 0x8fe8caa93e74ef6a },
	{ 0xb975d6b6ee39e436, 0xb3e2fd538e122b44 },
	{ 0xe7d34c64a9c85d44, 0x60dbbca87196b616 },
	{ 0x90e40fbeea1d3a4a, 0xbc8955e946fe31cd },
	{ 0xb51d13aea4a488dd, 0x6babab6398bdbe41 },
	{ 0xe264589a4dcdab14, 0xc696963c7eed2dd1 },
	{ 0x8d7eb76070a08aec, 0xfc1e1de5cf543ca2 },
	{ 0xb0de65388cc8ada8, 0x3b25a55f43294bcb },
	{ 0xdd15fe86affad912, 0x49ef0eb713f39ebe },
	{ 0x8a2dbf142dfcc7ab, 0x6e3569326c784337 },
	{ 0xacb92ed9397bf996, 0x49c2c37f07965404 },
	{ 0xd7e77a8f87daf7fb, 0xdc33745ec97be906 },
	{ 0x86f0ac99b4e8dafd, 0x69a028bb3ded71a3 },
	{ 0xa8acd7c0222311bc, 0xc40832ea0d68ce0c },
	{ 0xd2d80db02aabd62b, 0xf50a3fa490c30190 },
	{ 0x83c7088e1aab65db, 0x792667c6da79e0fa },
	{ 0xa4b8cab1a1563f52, 0x577001b891185938 },
	{ 0xcde6fd5e09abcf26, 0xed4c0226b55e6f86 },
	{ 0x80b05e5ac60b6178, 0x544f8158315b05b4 },
	{ 0xa0dc75f1778e39d6, 0x696361ae3db1c721 },
	{ 0xc913936dd571c84c, 0x03bc3a19cd1e38e9 },
	{ 0xfb5878494ace3a5f, 0x04ab48a04065c723 },
	{ 0x9d174b2dcec0e47b, 0x62eb0d64283f9c76 },
	{ 0xc45d1df942711d9a, 0x3ba5d0bd324f8394 },
	{ 0xf5746577930d6500, 0xca8f44ec7ee36479 },
	{ 0x9968bf6abbe85f20, 0x7e998b13cf4e1ecb },
	{ 0xbfc2ef456ae276e8, 0x9e3fedd8c321a67e },
	{ 0xefb3ab16c59b14a2, 0xc5cfe94ef3ea101e },
	{ 0x95d04aee3b80ece5, 0xbba1f1d158724a12 },
	{ 0xbb445da9ca61281f, 0x2a8a6e45ae8edc97 },
	{ 0xea1575143cf97226, 0xf52d09d71a3293bd },
	{ 0x924d692ca61be758, 0x593c2626705f9c56 },
	{ 0xb6e0c377cfa2e12e, 0x6f8b2fb00c77836c },
	{ 0xe498f455c38b997a, 0x0b6dfb9c0f956447 },
	{ 0x8edf98b59a373fec, 0x4724bd4189bd5eac },
	{ 0xb2977ee300c50fe7, 0x58edec91ec2cb657 },
	{ 0xdf3d5e9bc0f653e1, 0x2f2967b66737e3ed },
	{ 0x8b865b215899f46c, 0xbd79e0d20082ee74 },
	{ 0xae67f1e9aec07187, 0xecd8590680a3aa11 },
	{ 0xda01ee641a708de9, 0xe80e6f4820cc9495 },
	{ 0x884134fe908658b2, 0x3109058d147fdcdd },
	{ 0xaa51823e34a7eede, 0xbd4b46f0599fd415 },
	{ 0xd4e5e2cdc1d1ea96, 0x6c9e18ac7007c91a },
	{ 0x850fadc09923329e, 0x03e2cf6bc604ddb0 },
	{ 0xa6539930bf6bff45, 0x84db8346b786151c },
	{ 0xcfe87f7cef46ff16, 0xe612641865679a63 },
	{ 0x81f14fae158c5f6e, 0x4fcb7e8f3f60c07e },
	{ 0xa26da3999aef7749, 0xe3be5e330f38f09d },
	{ 0xcb090c8001ab551c, 0x5cadf5bfd3072cc5 },
	{ 0xfdcb4fa002162a63, 0x73d9732fc7c8f7f6 },
	{ 0x9e9f11c4014dda7e, 0x2867e7fddcdd9afa },
	{ 0xc646d63501a1511d, 0xb281e1fd541501b8 },
	{ 0xf7d88bc24209a565, 0x1f225a7ca91a4226 },
	{ 0x9ae757596946075f, 0x3375788de9b06958 },
	{ 0xc1a12d2fc3978937, 0x0052d6b1641c83ae },
	{ 0xf209787bb47d6b84, 0xc0678c5dbd23a49a },
	{ 0x9745eb4d50ce6332, 0xf840b7ba963646e0 },
	{ 0xbd176620a501fbff, 0xb650e5a93bc3d898 },
	{ 0xec5d3fa8ce427aff, 0xa3e51f138ab4cebe },
	{ 0x93ba47c980e98cdf, 0xc66f336c36b10137 },
	{ 0xb8a8d9bbe123f017, 0xb80b0047445d4184 },
	{ 0xe6d3102ad96cec1d, 0xa60dc059157491e5 },
	{ 0x9043ea1ac7e41392, 0x87c89837ad68db2f },
	{ 0xb454e4a179dd1877, 0x29babe4598c311fb },
	{ 0xe16a1dc9d8545e94, 0xf4296dd6fef3d67a },
	{ 0x8ce2529e2734bb1d, 0x1899e4a65f58660c },
	{ 0xb01ae745b101e9e4, 0x5ec05dcff72e7f8f },
	{ 0xdc21a1171d42645d, 0x76707543f4fa1f73 },
	{ 0x899504ae72497eba, 0x6a06494a791c53a8 },
	{ 0xabfa45da0edbde69, 0x0487db9d17636892 },
	{ 0xd6f8d7509292d603, 0x45a9d2845d3c42b6 },
	{ 0x865b86925b9bc5c2, 0x0b8a2392ba45a9b2 },
	{ 0xa7f26836f282b732, 0x8e6cac7768d7141e },
	{ 0xd1ef0244af2364ff, 0x3207d795430cd926 },
	{ 0x8335616aed761f1f, 0x7f44e6bd49e807b8 },
	{ 0xa402b9c5a8d3a6e7, 0x5f16206c9c6209a6 },
	{ 0xcd036837130890a1, 0x36dba887c37a8c0f },
	{ 0x802221226be55a64, 0xc2494954da2c9789 },
	{ 0xa02aa96b06deb0fd, 0xf2db9baa10b7bd6c },
	{ 0xc83553c5c8965d3d, 0x6f92829494e5acc7 },
	{ 0xfa42a8b73abbf48c, 0xcb772339ba1f17f9 },
	{ 0x9c69a97284b578d7, 0xff2a760414536efb },
	{ 0xc38413cf25e2d70d, 0xfef5138519684aba },
	{ 0xf46518c2ef5b8cd1, 0x7eb258665fc25d69 },
	{ 0x98bf2f79d5993802, 0xef2f773ffbd97a61 },
	{ 0xbeeefb584aff8603, 0xaafb550ffacfd8fa },
	{ 0xeeaaba2e5dbf6784, 0x95ba2a53f983cf38 },
	{ 0x952ab45cfa97a0b2, 0xdd945a747bf26183 },
	{ 0xba756174393d88df, 0x94f971119aeef9e4 },
	{ 0xe912b9d1478ceb17, 0x7a37cd5601aab85d },
	{ 0x91abb422ccb812ee, 0xac62e055c10ab33a },
	{ 0xb616a12b7fe617aa, 0x577b986b314d6009 },
	{ 0xe39c49765fdf9d94, 0xed5a7e85fda0b80b },
	{ 0x8e41ade9fbebc27d, 0x14588f13be847307 },
	{ 0xb1d219647ae6b31c, 0x596eb2d8ae258fc8 },
	{ 0xde469fbd99a05fe3, 0x6fca5f8ed9aef3bb },
	{ 0x8aec23d680043bee, 0x25de7bb9480d5854 },
	{ 0xada72ccc20054ae9, 0xaf561aa79a10ae6a },
	{ 0xd910f7ff28069da4, 0x1b2ba1518094da04 },
	{ 0x87aa9aff79042286, 0x90fb44d2f05d0842 },
	{ 0xa99541bf57452b28, 0x353a1607ac744a53 },
	{ 0xd3fa922f2d1675f2, 0x42889b8997915ce8 },
	{ 0x847c9b5d7c2e09b7, 0x69956135febada11 },
	{ 0xa59bc234db398c25, 0x43fab9837e699095 },
	{ 0xcf02b2c21207ef2e, 0x94f967e45e03f4bb },
	{ 0x8161afb94b44f57d, 0x1d1be0eebac278f5 },
	{ 0xa1ba1ba79e1632dc, 0x6462d92a69731732 },
	{ 0xca28a291859bbf93, 0x7d7b8f7503cfdcfe },
	{ 0xfcb2cb35e702af78, 0x5cda735244c3d43e },
	{ 0x9defbf01b061adab, 0x3a0888136afa64a7 },
	{ 0xc56baec21c7a1916, 0x088aaa1845b8fdd0 },
	{ 0xf6c69a72a3989f5b, 0x8aad549e57273d45 },
	{ 0x9a3c2087a63f6399, 0x36ac54e2f678864b },
	{ 0xc0cb28a98fcf3c7f, 0x84576a1bb416a7dd },
	{ 0xf0fdf2d3f3c30b9f, 0x656d44a2a11c51d5 },
	{ 0x969eb7c47859e743, 0x9f644ae5a4b1b325 },
	{ 0xbc4665b596706114, 0x873d5d9f0dde1fee },
	{ 0xeb57ff22fc0c7959, 0xa90cb506d155a7ea },
	{ 0x9316ff75dd87cbd8, 0x09a7f12442d588f2 },
	{ 0xb7dcbf5354e9bece, 0x0c11ed6d538aeb2f },
	{ 0xe5d3ef282a242e81, 0x8f1668c8a86da5fa },
	{ 0x8fa475791a569d10, 0xf96e017d694487bc },
	{ 0xb38d92d760ec4455, 0x37c981dcc395a9ac },
	{ 0xe070f78d3927556a, 0x85bbe253f47b1417 },
	{ 0x8c469ab843b89562, 0x93956d7478ccec8e },
	{ 0xaf58416654a6babb, 0x387ac8d1970027b2 },
	{ 0xdb2e51bfe9d0696a, 0x06997b05fcc0319e },
	{ 0x88fcf317f22241e2, 0x441fece3bdf81f03 },
	{ 0xab3c2fddeeaad25a, 0xd527e81cad7626c3 },
	{ 0xd60b3bd56a5586f1, 0x8a71e223d8d3b074 },
	{ 0x85c7056562757456, 0xf6872d5667844e49 },
	{ 0xa738c6bebb12d16c, 0xb428f8ac016561db },
	{ 0xd106f86e69d785c7, 0xe13336d701beba52 },
	{ 0x82a45b450226b39c, 0xecc0024661173473 },
	{ 0xa34d721642b06084, 0x27f002d7f95d0190 },
	{ 0xcc20ce9bd35c78a5, 0x31ec038df7b441f4 },
	{ 0xff290242c83396ce, 0x7e67047175a15271 },
	{ 0x9f79a169bd203e41, 0x0f0062c6e984d386 },
	{ 0xc75809c42c684dd1, 0x52c07b78a3e60868 },
	{ 0xf92e0c3537826145, 0xa7709a56ccdf8a82 },
	{ 0x9bbcc7a142b17ccb, 0x88a66076400bb691 },
	{ 0xc2abf989935ddbfe, 0x6acff893d00ea435 },
	{ 0xf356f7ebf83552fe, 0x0583f6b8c4124d43 },
	{ 0x98165af37b2153de, 0xc3727a337a8b704a },
	{ 0xbe1bf1b059e9a8d6, 0x744f18c0592e4c5c },
	{ 0xeda2ee1c7064130c, 0x1162def06f79df73 },
	{ 0x9485d4d1c63e8be7, 0x8addcb5645ac2ba8 },
	{ 0xb9a74a0637ce2ee1, 0x6d953e2bd7173692 },
	{ 0xe8111c87c5c1ba99, 0xc8fa8db6ccdd0437 },
	{ 0x910ab1d4db9914a0, 0x1d9c9892400a22a2 },
	{ 0xb54d5e4a127f59c8, 0x2503beb6d00cab4b },
	{ 0xe2a0b5dc971f303a, 0x2e44ae64840fd61d },
	{ 0x8da471a9de737e24, 0x5ceaecfed289e5d2 },
	{ 0xb10d8e1456105dad, 0x7425a83e872c5f47 },
	{ 0xdd50f1996b947518, 0xd12f124e28f77719 },
	{ 0x8a5296ffe33cc92f, 0x82bd6b70d99aaa6f },
	{ 0xace73cbfdc0bfb7b, 0x636cc64d1001550b },
	{ 0xd8210befd30efa5a, 0x3c47f7e05401aa4e },
	{ 0x8714a775e3e95c78, 0x65acfaec34810a71 },
	{ 0xa8d9d1535ce3b396, 0x7f1839a741a14d0d },
	{ 0xd31045a8341ca07c, 0x1ede48111209a050 },
	{ 0x83ea2b892091e44d, 0x934aed0aab460432 },
	{ 0xa4e4b66b68b65d60, 0xf81da84d5617853f },
	{ 0xce1de40642e3f4b9, 0x36251260ab9d668e },
	{ 0x80d2ae83e9ce78f3, 0xc1d72b7c6b426019 },
	{ 0xa1075a24e4421730, 0xb24cf65b8612f81f },
	{ 0xc94930ae1d529cfc, 0xdee033f26797b627 },
	{ 0xfb9b7cd9a4a7443c, 0x169840ef017da3b1 },
	{ 0x9d412e0806e88aa5, 0x8e1f289560ee864e },
	{ 0xc491798a08a2ad4e, 0xf1a6f2bab92a27e2 },
	{ 0xf5b5d7ec8acb58a2, 0xae10af696774b1db },
	{ 0x9991a6f3d6bf1765, 0xacca6da1e0a8ef29 },
	{ 0xbff610b0cc6edd3f, 0x17fd090a58d32af3 },
	{ 0xeff394dcff8a948e, 0xddfc4b4cef07f5b0 },
	{ 0x95f83d0a1fb69cd9, 0x4abdaf101564f98e },
	{ 0xbb764c4ca7a4440f, 0x9d6d1ad41abe37f1 },
	{ 0xea53df5fd18d5513, 0x84c86189216dc5ed },
	{ 0x92746b9be2f8552c, 0x32fd3cf5b4e49bb4 },
	{ 0xb7118682dbb66a77, 0x3fbc8c33221dc2a1 },
	{ 0xe4d5e82392a40515, 0x0fabaf3feaa5334a },
	{ 0x8f05b1163ba6832d, 0x29cb4d87f2a7400e },
	{ 0xb2c71d5bca9023f8, 0x743e20e9ef511012 },
	{ 0xdf78e4b2bd342cf6, 0x914da9246b255416 },
	{ 0x8bab8eefb6409c1a, 0x1ad089b6c2f7548e },
	{ 0xae9672aba3d0c320, 0xa184ac2473b529b1 },
	{ 0xda3c0f568cc4f3e8, 0xc9e5d72d90a2741e },
	{ 0x8865899617fb1871, 0x7e2fa67c7a658892 },
	{ 0xaa7eebfb9df9de8d, 0xddbb901b98feeab7 },
	{ 0xd51ea6fa85785631, 0x552a74227f3ea565 },
	{ 0x8533285c936b35de, 0xd53a88958f87275f },
	{ 0xa67ff273b8460356, 0x8a892abaf368f137 },
	{ 0xd01fef10a657842c, 0x2d2b7569b0432d85 },
	{ 0x8213f56a67f6b29b, 0x9c3b29620e29fc73 },
	{ 0xa298f2c501f45f42, 0x8349f3ba91b47b8f },
	{ 0xcb3f2f7642717713, 0x241c70a936219a73 },
	{ 0xfe0efb53d30dd4d7, 0xed238cd383aa0110 },
	{ 0x9ec95d1463e8a506, 0xf4363804324a40aa },
	{ 0xc67bb4597ce2ce48, 0xb143c6053edcd0d5 },
	{ 0xf81aa16fdc1b81da, 0xdd94b7868e94050a },
	{ 0x9b10a4e5e9913128, 0xca7cf2b4191c8326 },
	{ 0xc1d4ce1f63f57d72, 0xfd1c2f611f63a3f0 },
	{ 0xf24a01a73cf2dccf, 0xbc633b39673c8cec },
	{ 0x976e41088617ca01, 0xd5be0503e085d813 },
	{ 0xbd49d14aa79dbc82, 0x4b2d8644d8a74e18 },
	{ 0xec9c459d51852ba2, 0xddf8e7d60ed1219e },
	{ 0x93e1ab8252f33b45, 0xcabb90e5c942b503 },
	{ 0xb8da1662e7b00a17, 0x3d6a751f3b936243 },
	{ 0xe7109bfba19c0c9d, 0x0cc512670a783ad4 },
	{ 0x906a617d450187e2, 0x27fb2b80668b24c5 },
	{ 0xb484f9dc9641e9da, 0xb1f9f660802dedf6 },
	{ 0xe1a63853bbd26451, 0x5e7873f8a0396973 },
	{ 0x8d07e33455637eb2, 0xdb0b487b6423e1e8 },
	{ 0xb049dc016abc5e5f, 0x91ce1a9a3d2cda62 },
	{ 0xdc5c5301c56b75f7, 0x7641a140cc7810fb },
	{ 0x89b9b3e11b6329ba, 0xa9e904c87fcb0a9d },
	{ 0xac2820d9623bf429, 0x546345fa9fbdcd44 },
	{ 0xd732290fbacaf133, 0xa97c177947ad4095 },
	{ 0x867f59a9d4bed6c0, 0x49ed8eabcccc485d },
	{ 0xa81f301449ee8c70, 0x5c68f256bfff5a74 },
	{ 0xd226fc195c6a2f8c, 0x73832eec6fff3111 },
	{ 0x83585d8fd9c25db7, 0xc831fd53c5ff7eab },
	{ 0xa42e74f3d032f525, 0xba3e7ca8b77f5e55 },
	{ 0xcd3a1230c43fb26f, 0x28ce1bd2e55f35eb },
	{ 0x80444b5e7aa7cf85, 0x7980d163cf5b81b3 },
	{ 0xa0555e361951c366, 0xd7e105bcc332621f },
	{ 0xc86ab5c39fa63440, 0x8dd9472bf3fefaa7 },
	{ 0xfa856334878fc150, 0xb14f98f6f0feb951 },
	{ 0x9c935e00d4b9d8d2, 0x6ed1bf9a569f33d3 },
	{ 0xc3b8358109e84f07, 0x0a862f80ec4700c8 },
	{ 0xf4a642e14c6262c8, 0xcd27bb612758c0fa },
	{ 0x98e7e9cccfbd7dbd, 0x8038d51cb897789c },
	{ 0xbf21e44003acdd2c, 0xe0470a63e6bd56c3 },
	{ 0xeeea5d5004981478, 0x1858ccfce06cac74 },
	{ 0x95527a5202df0ccb, 0x0f37801e0c43ebc8 },
	{ 0xbaa718e68396cffd, 0xd30560258f54e6ba },
	{ 0xe950df20247c83fd, 0x47c6b82ef32a2069 },
	{ 0x91d28b7416cdd27e, 0x4cdc331d57fa5441 },
	{ 0xb6472e511c81471d, 0xe0133fe4adf8e952 },
	{ 0xe3d8f9e563a198e5, 0x58180fddd97723a6 },
	{ 0x8e679c2f5e44ff8f, 0x570f09eaa7ea7648 },
	{ 0xb201833b35d63f73, 0x2cd2cc6551e513da },
	{ 0xde81e40a034bcf4f, 0xf8077f7ea65e58d1 },
	{ 0x8b112e86420f6191, 0xfb04afaf27faf782 },
	{ 0xadd57a27d29339f6, 0x79c5db9af1f9b563 },
	{ 0xd94ad8b1c7380874, 0x18375281ae7822bc },
	{ 0x87cec76f1c830548, 0x8f2293910d0b15b5 },
	{ 0xa9c2794ae3a3c69a, 0xb2eb3875504ddb22 },
	{ 0xd433179d9c8cb841, 0x5fa60692a46151eb },
	{ 0x849feec281d7f328, 0xdbc7c41ba6bcd333 },
	{ 0xa5c7ea73224deff3, 0x12b9b522906c0800 },
	{ 0xcf39e50feae16bef, 0xd768226b34870a00 },
	{ 0x81842f29f2cce375, 0xe6a1158300d46640 },
	{ 0xa1e53af46f801c53, 0x60495ae3c1097fd0 },
	{ 0xca5e89b18b602368, 0x385bb19cb14bdfc4 },
	{ 0xfcf62c1dee382c42, 0x46729e03dd9ed7b5 },
	{ 0x9e19db92b4e31ba9, 0x6c07a2c26a8346d1 },
	{ 0xc5a05277621be293, 0xc7098b7305241885 }
};".

(** test_results/binary32_negative_k.csv *)
Definition binary32_negative_k_csv : string :=
"e,required_bits
-2,30
-1,31
0,32
1,32
2,33
3,34
4,34
5,35
6,36
7,37
8,37
9,38
10,39
11,39
12,40
13,41
14,41
15,42
16,43
17,44
18,44
19,45
20,46
21,46
22,47
23,48
24,48
25,49
26,50
27,51
28,51
29,52
30,53
31,53
32,54
33,55
34,52
35,54
36,55
37,56
38,53
39,53
40,54
41,53
42,53
43,55
44,52
45,54
46,55
47,56
48,53
49,53
50,53
51,53
52,54
53,55
54,55
55,55
56,55
57,55
58,54
59,55
60,56
61,54
62,55
63,56
64,54
65,54
66,54
67,54
68,51
69,51
70,51
71,51
72,51
73,51
74,52
75,52
76,52
77,52
78,51
79,51
80,51
81,51
82,51
83,52
84,53
85,54
86,56
87,57
88,52
89,53
90,56
91,53
92,53
93,54
94,52
95,53
96,55
".

(** test_results/binary32_positive_k.csv *)
Definition binary32_positive_k_csv : string :=
"e,required_bits
-3,1
-4,1
-5,1
-6,1
-7,3
-8,3
-9,3
-10,5
-11,5
-12,5
-13,7
-14,7
-15,7
-16,10
-17,10
-18,10
-19,10
-20,12
-21,12
-22,12
-23,14
-24,14
-25,14
-26,17
-27,17
-28,17
-29,17
-30,19
-31,19
-32,19
-33,21
-34,21
-35,21
-36,24
-37,24
-38,24
-39,24
-40,26
-41,26
-42,26
-43,28
-44,28
-45,28
-46,31
-47,31
-48,31
-49,31
-50,33
-51,33
-52,33
-53,35
-54,35
-55,35
-56,38
-57,38
-58,38
-59,38
-60,40
-61,40
-62,40
-63,42
-64,42
-65,42
-66,45
-67,45
-68,45
-69,45
-70,47
-71,47
-72,47
-73,49
-74,49
-75,49
-76,52
-77,52
-78,52
-79,52
-80,53
-81,52
-82,52
-83,55
-84,55
-85,54
-86,56
-87,56
-88,54
-89,53
-90,55
-91,53
-92,53
-93,56
-94,55
-95,54
-96,57
-97,54
-98,53
-99,52
-100,56
-101,55
-102,55
-103,55
-104,55
-105,53
-106,55
-107,55
-108,52
-109,57
-110,57
-111,57
-112,57
-113,56
-114,56
-115,56
-116,56
-117,56
-118,53
-119,56
-120,55
-121,54
-122,53
-123,55
-124,55
-125,55
-126,57
-127,53
-128,53
-129,56
-130,56
-131,55
-132,55
-133,54
-134,50
-135,49
-136,58
-137,58
-138,58
-139,61
-140,60
-141,60
-142,59
-143,61
-144,60
-145,59
-146,58
-147,57
-148,53
-149,55
-150,54
-151,53
-152,52
-153,54
-154,53
-155,53
-156,57
-157,57
".

(** test_results/binary64_negative_k.csv *)
Definition binary64_negative_k_csv : string :=
"e,required_bits
-2,62
-1,63
0,64
1,64
2,65
3,66
4,66
5,67
6,68
7,69
8,69
9,70
10,71
11,71
12,72
13,73
14,73
15,74
16,75
17,76
18,76
19,77
20,78
21,78
22,79
23,80
24,80
25,81
26,82
27,83
28,83
29,84
30,85
31,85
32,86
33,87
34,87
35,88
36,89
37,90
38,90
39,91
40,92
41,92
42,93
43,94
44,94
45,95
46,96
47,97
48,97
49,98
50,99
51,99
52,100
53,101
54,101
55,102
56,103
57,104
58,104
59,105
60,106
61,106
62,107
63,108
64,108
65,109
66,110
67,111
68,111
69,112
70,113
71,113
72,114
73,115
74,114
75,115
76,116
77,117
78,114
79,119
80,119
81,119
82,119
83,119
84,114
85,116
86,116
87,119
88,114
89,115
90,116
91,113
92,114
93,115
94,113
95,114
96,115
97,113
98,114
99,115
100,116
101,113
102,114
103,115
104,113
105,113
106,114
107,114
108,114
109,115
110,115
111,111
112,111
113,113
114,113
115,116
116,117
117,115
118,115
119,115
120,115
121,114
122,115
123,116
124,116
125,116
126,120
127,114
128,115
129,116
130,121
131,114
132,115
133,116
134,110
135,113
136,116
137,113
138,117
139,117
140,117
141,115
142,116
143,118
144,111
145,113
146,115
147,111
148,115
149,116
150,117
151,114
152,114
153,114
154,112
155,113
156,114
157,112
158,113
159,114
160,115
161,114
162,115
163,116
164,113
165,114
166,115
167,113
168,116
169,117
170,118
171,115
172,116
173,117
174,115
175,116
176,117
177,115
178,116
179,116
180,116
181,113
182,114
183,115
184,113
185,114
186,115
187,114
188,117
189,117
190,114
191,114
192,114
193,116
194,111
195,111
196,116
197,114
198,115
199,116
200,116
201,116
202,116
203,120
204,112
205,112
206,112
207,110
208,110
209,110
210,110
211,111
212,113
213,115
214,115
215,116
216,117
217,117
218,117
219,117
220,114
221,114
222,115
223,116
224,114
225,114
226,115
227,114
228,114
229,115
230,115
231,116
232,117
233,118
234,117
235,118
236,119
237,117
238,118
239,118
240,116
241,116
242,116
243,118
244,115
245,115
246,115
247,115
248,115
249,115
250,114
251,115
252,116
253,117
254,114
255,114
256,114
257,113
258,114
259,115
260,112
261,115
262,116
263,117
264,116
265,116
266,116
267,112
268,114
269,114
270,112
271,115
272,115
273,115
274,114
275,114
276,114
277,114
278,114
279,115
280,114
281,115
282,116
283,117
284,114
285,115
286,116
287,114
288,115
289,116
290,115
291,115
292,116
293,115
294,115
295,115
296,117
297,111
298,112
299,114
300,115
301,116
302,117
303,115
304,116
305,117
306,118
307,113
308,114
309,114
310,114
311,115
312,116
313,114
314,115
315,116
316,116
317,115
318,116
319,117
320,113
321,114
322,115
323,111
324,113
325,117
326,118
327,114
328,115
329,116
330,114
331,116
332,117
333,117
334,118
335,118
336,118
337,113
338,113
339,115
340,115
341,116
342,117
343,114
344,114
345,115
346,116
347,114
348,115
349,116
350,116
351,116
352,116
353,114
354,118
355,118
356,118
357,118
358,118
359,118
360,114
361,116
362,117
363,115
364,115
365,116
366,117
367,115
368,115
369,116
370,114
371,117
372,117
373,114
374,119
375,120
376,121
377,114
378,115
379,116
380,114
381,115
382,115
383,113
384,114
385,120
386,113
387,114
388,117
389,117
390,114
391,115
392,116
393,117
394,118
395,118
396,118
397,118
398,118
399,118
400,114
401,114
402,116
403,115
404,116
405,116
406,113
407,114
408,117
409,117
410,116
411,116
412,116
413,114
414,115
415,116
416,114
417,115
418,116
419,117
420,114
421,115
422,116
423,114
424,115
425,115
426,114
427,115
428,116
429,116
430,114
431,114
432,114
433,113
434,114
435,117
436,113
437,113
438,115
439,115
440,114
441,114
442,115
443,115
444,115
445,116
446,114
447,115
448,116
449,117
450,115
451,115
452,115
453,112
454,113
455,115
456,115
457,115
458,115
459,115
460,114
461,115
462,116
463,113
464,115
465,116
466,116
467,117
468,118
469,119
470,119
471,120
472,121
473,121
474,122
475,123
476,121
477,122
478,123
479,123
480,120
481,120
482,120
483,118
484,118
485,118
486,112
487,115
488,115
489,115
490,115
491,117
492,118
493,110
494,110
495,112
496,108
497,109
498,111
499,111
500,113
501,115
502,115
503,114
504,114
505,114
506,115
507,116
508,117
509,115
510,115
511,117
512,117
513,114
514,114
515,114
516,114
517,115
518,116
519,113
520,114
521,116
522,125
523,109
524,109
525,109
526,109
527,109
528,110
529,110
530,115
531,116
532,118
533,116
534,116
535,116
536,113
537,114
538,114
539,111
540,112
541,114
542,115
543,111
544,113
545,114
546,114
547,115
548,116
549,113
550,114
551,115
552,117
553,116
554,116
555,116
556,113
557,114
558,116
559,115
560,116
561,117
562,118
563,115
564,116
565,117
566,115
567,115
568,116
569,111
570,111
571,112
572,118
573,113
574,115
575,116
576,113
577,114
578,115
579,113
580,114
581,116
582,112
583,114
584,114
585,115
586,115
587,116
588,117
589,114
590,115
591,118
592,113
593,113
594,115
595,116
596,115
597,115
598,115
599,113
600,116
601,116
602,112
603,114
604,115
605,117
606,115
607,116
608,117
609,115
610,115
611,117
612,115
613,116
614,116
615,116
616,113
617,121
618,121
619,113
620,117
621,117
622,117
623,117
624,117
625,117
626,114
627,115
628,118
629,113
630,113
631,114
632,114
633,114
634,120
635,120
636,113
637,115
638,116
639,112
640,113
641,115
642,114
643,114
644,115
645,117
646,115
647,116
648,117
649,115
650,116
651,117
652,115
653,115
654,115
655,115
656,112
657,112
658,112
659,113
660,114
661,115
662,113
663,113
664,113
665,113
666,112
667,112
668,113
669,113
670,114
671,115
672,115
673,115
674,116
675,116
676,116
677,116
678,117
679,114
680,115
681,116
682,114
683,117
684,117
685,114
686,116
687,116
688,116
689,114
690,114
691,115
692,111
693,112
694,115
695,111
696,112
697,114
698,117
699,111
700,112
701,118
702,113
703,114
704,115
705,113
706,114
707,115
708,117
709,113
710,123
711,124
712,113
713,116
714,117
715,114
716,116
717,117
718,118
719,115
720,115
721,115
722,115
723,115
724,115
725,115
726,116
727,116
728,117
729,116
730,116
731,117
732,111
733,111
734,114
735,113
736,115
737,115
738,115
739,114
740,114
741,114
742,114
743,114
744,114
745,113
746,115
747,115
748,116
749,113
750,114
751,117
752,115
753,116
754,117
755,117
756,117
757,117
758,117
759,114
760,114
761,115
762,114
763,115
764,116
765,113
766,113
767,116
768,116
769,114
770,115
771,116
772,116
773,117
774,117
775,114
776,115
777,116
778,114
779,120
780,120
781,120
782,112
783,112
784,113
785,113
786,114
787,116
788,114
789,118
790,118
791,118
792,113
793,114
794,117
795,113
796,113
797,113
798,114
799,114
800,114
801,114
802,113
803,113
804,113
805,113
806,113
807,119
808,119
809,120
810,121
811,122
812,113
813,115
814,116
815,113
816,114
817,114
818,113
819,114
820,115
821,117
822,115
823,116
824,117
825,115
826,118
827,119
828,114
829,118
830,119
831,120
832,115
833,115
834,115
835,113
836,113
837,114
838,114
839,115
840,117
841,117
842,114
843,115
844,116
845,114
846,115
847,116
848,114
849,115
850,116
851,117
852,114
853,115
854,116
855,114
856,115
857,116
858,114
859,115
860,116
861,117
862,113
863,113
864,116
865,112
866,114
867,116
868,112
869,114
870,115
871,114
872,115
873,116
874,117
875,114
876,116
877,116
878,115
879,116
880,117
881,115
882,115
883,115
884,117
885,116
886,117
887,118
888,113
889,113
890,115
891,115
892,116
893,117
894,117
895,113
896,118
897,119
898,119
899,120
900,121
901,119
902,119
903,119
904,119
905,112
906,112
907,115
908,110
909,112
910,114
911,110
912,112
913,113
914,116
915,115
916,116
917,117
918,114
919,116
920,116
921,112
922,114
923,120
924,121
925,120
926,121
927,121
928,114
929,115
930,116
931,116
932,117
933,117
934,117
935,113
936,122
937,122
938,114
939,114
940,115
941,113
942,114
943,117
944,117
945,113
946,114
947,115
948,112
949,114
950,114
951,114
952,115
953,116
954,117
955,115
956,115
957,116
958,115
959,115
960,115
".

(** test_results/binary64_positive_k.csv *)
Definition binary64_positive_k_csv : string :=
"e,required_bits
-3,1
-4,1
-5,1
-6,1
-7,3
-8,3
-9,3
-10,5
-11,5
-12,5
-13,7
-14,7
-15,7
-16,10
-17,10
-18,10
-19,10
-20,12
-21,12
-22,12
-23,14
-24,14
-25,14
-26,17
-27,17
-28,17
-29,17
-30,19
-31,19
-32,19
-33,21
-34,21
-35,21
-36,24
-37,24
-38,24
-39,24
-40,26
-41,26
-42,26
-43,28
-44,28
-45,28
-46,31
-47,31
-48,31
-49,31
-50,33
-51,33
-52,33
-53,35
-54,35
-55,35
-56,38
-57,38
-58,38
-59,38
-60,40
-61,40
-62,40
-63,42
-64,42
-65,42
-66,45
-67,45
-68,45
-69,45
-70,47
-71,47
-72,47
-73,49
-74,49
-75,49
-76,52
-77,52
-78,52
-79,52
-80,54
-81,54
-82,54
-83,56
-84,56
-85,56
-86,59
-87,59
-88,59
-89,59
-90,61
-91,61
-92,61
-93,63
-94,63
-95,63
-96,66
-97,66
-98,66
-99,66
-100,68
-101,68
-102,68
-103,70
-104,70
-105,70
-106,72
-107,72
-108,72
-109,75
-110,75
-111,75
-112,75
-113,77
-114,77
-115,77
-116,79
-117,79
-118,79
-119,82
-120,82
-121,82
-122,82
-123,84
-124,84
-125,84
-126,86
-127,86
-128,86
-129,89
-130,89
-131,89
-132,89
-133,91
-134,91
-135,91
-136,93
-137,93
-138,93
-139,96
-140,96
-141,96
-142,96
-143,98
-144,98
-145,98
-146,100
-147,100
-148,100
-149,103
-150,103
-151,103
-152,103
-153,105
-154,105
-155,105
-156,107
-157,107
-158,107
-159,110
-160,110
-161,110
-162,110
-163,112
-164,112
-165,112
-166,114
-167,114
-168,114
-169,117
-170,114
-171,114
-172,114
-173,114
-174,114
-175,114
-176,114
-177,113
-178,113
-179,117
-180,117
-181,117
-182,117
-183,117
-184,117
-185,116
-186,115
-187,115
-188,114
-189,117
-190,117
-191,116
-192,116
-193,118
-194,118
-195,114
-196,116
-197,116
-198,116
-199,116
-200,115
-201,114
-202,117
-203,117
-204,116
-205,115
-206,115
-207,115
-208,115
-209,115
-210,115
-211,114
-212,115
-213,115
-214,115
-215,114
-216,116
-217,116
-218,116
-219,116
-220,115
-221,114
-222,118
-223,117
-224,117
-225,110
-226,115
-227,114
-228,114
-229,117
-230,117
-231,117
-232,118
-233,115
-234,114
-235,113
-236,115
-237,114
-238,113
-239,113
-240,111
-241,110
-242,114
-243,114
-244,114
-245,114
-246,117
-247,117
-248,116
-249,115
-250,115
-251,114
-252,117
-253,117
-254,117
-255,117
-256,119
-257,118
-258,118
-259,118
-260,117
-261,114
-262,119
-263,119
-264,119
-265,119
-266,119
-267,115
-268,115
-269,116
-270,115
-271,115
-272,116
-273,116
-274,114
-275,113
-276,118
-277,118
-278,118
-279,118
-280,118
-281,114
-282,117
-283,116
-284,116
-285,116
-286,118
-287,117
-288,117
-289,119
-290,118
-291,117
-292,119
-293,116
-294,115
-295,114
-296,115
-297,115
-298,115
-299,118
-300,118
-301,118
-302,117
-303,115
-304,112
-305,117
-306,115
-307,114
-308,113
-309,115
-310,114
-311,114
-312,115
-313,115
-314,114
-315,117
-316,117
-317,116
-318,114
-319,117
-320,116
-321,114
-322,116
-323,116
-324,115
-325,117
-326,116
-327,115
-328,114
-329,115
-330,114
-331,112
-332,116
-333,115
-334,115
-335,120
-336,116
-337,115
-338,114
-339,117
-340,116
-341,114
-342,116
-343,116
-344,115
-345,121
-346,121
-347,116
-348,116
-349,115
-350,114
-351,114
-352,116
-353,115
-354,115
-355,118
-356,117
-357,117
-358,116
-359,117
-360,115
-361,115
-362,117
-363,117
-364,116
-365,119
-366,119
-367,118
-368,117
-369,117
-370,116
-371,115
-372,115
-373,114
-374,113
-375,119
-376,116
-377,115
-378,114
-379,117
-380,117
-381,114
-382,118
-383,118
-384,117
-385,118
-386,116
-387,114
-388,113
-389,116
-390,114
-391,113
-392,117
-393,115
-394,114
-395,116
-396,115
-397,114
-398,116
-399,116
-400,114
-401,113
-402,116
-403,114
-404,113
-405,115
-406,114
-407,114
-408,119
-409,119
-410,118
-411,114
-412,116
-413,115
-414,115
-415,117
-416,116
-417,115
-418,118
-419,117
-420,116
-421,114
-422,119
-423,114
-424,113
-425,115
-426,115
-427,113
-428,119
-429,115
-430,115
-431,114
-432,115
-433,115
-434,115
-435,118
-436,118
-437,115
-438,116
-439,115
-440,114
-441,114
-442,120
-443,115
-444,113
-445,115
-446,114
-447,114
-448,119
-449,117
-450,116
-451,116
-452,117
-453,114
-454,114
-455,118
-456,115
-457,112
-458,120
-459,119
-460,115
-461,114
-462,119
-463,118
-464,114
-465,115
-466,114
-467,113
-468,119
-469,116
-470,115
-471,114
-472,116
-473,115
-474,114
-475,116
-476,115
-477,115
-478,119
-479,116
-480,116
-481,116
-482,115
-483,114
-484,114
-485,116
-486,114
-487,113
-488,116
-489,115
-490,114
-491,113
-492,116
-493,114
-494,114
-495,116
-496,114
-497,113
-498,119
-499,115
-500,114
-501,116
-502,115
-503,114
-504,114
-505,116
-506,115
-507,115
-508,116
-509,116
-510,114
-511,118
-512,117
-513,114
-514,114
-515,117
-516,116
-517,114
-518,117
-519,117
-520,115
-521,119
-522,118
-523,116
-524,116
-525,118
-526,116
-527,115
-528,116
-529,115
-530,114
-531,117
-532,117
-533,117
-534,117
-535,116
-536,116
-537,116
-538,116
-539,115
-540,115
-541,118
-542,116
-543,115
-544,115
-545,115
-546,115
-547,115
-548,115
-549,114
-550,114
-551,118
-552,116
-553,114
-554,113
-555,118
-556,115
-557,115
-558,116
-559,116
-560,113
-561,117
-562,116
-563,116
-564,114
-565,117
-566,117
-567,116
-568,116
-569,116
-570,114
-571,118
-572,118
-573,115
-574,114
-575,115
-576,115
-577,115
-578,117
-579,116
-580,116
-581,119
-582,119
-583,115
-584,115
-585,117
-586,117
-587,114
-588,115
-589,114
-590,113
-591,118
-592,118
-593,115
-594,116
-595,116
-596,116
-597,114
-598,118
-599,115
-600,114
-601,116
-602,115
-603,114
-604,114
-605,113
-606,113
-607,113
-608,116
-609,115
-610,115
-611,117
-612,116
-613,115
-614,125
-615,124
-616,114
-617,113
-618,118
-619,115
-620,111
-621,115
-622,115
-623,114
-624,118
-625,116
-626,116
-627,114
-628,115
-629,114
-630,113
-631,116
-632,115
-633,111
-634,117
-635,116
-636,114
-637,114
-638,116
-639,114
-640,114
-641,114
-642,113
-643,113
-644,118
-645,117
-646,117
-647,116
-648,118
-649,117
-650,116
-651,116
-652,114
-653,114
-654,118
-655,118
-656,112
-657,112
-658,115
-659,115
-660,114
-661,116
-662,116
-663,115
-664,118
-665,117
-666,116
-667,115
-668,117
-669,116
-670,115
-671,118
-672,117
-673,114
-674,117
-675,117
-676,116
-677,115
-678,115
-679,114
-680,113
-681,115
-682,114
-683,114
-684,116
-685,115
-686,115
-687,119
-688,115
-689,113
-690,113
-691,117
-692,117
-693,114
-694,118
-695,118
-696,117
-697,117
-698,116
-699,116
-700,113
-701,119
-702,114
-703,114
-704,115
-705,114
-706,113
-707,117
-708,115
-709,113
-710,111
-711,116
-712,113
-713,112
-714,116
-715,113
-716,112
-717,116
-718,115
-719,115
-720,114
-721,116
-722,115
-723,114
-724,116
-725,115
-726,115
-727,123
-728,117
-729,116
-730,116
-731,119
-732,119
-733,119
-734,119
-735,119
-736,114
-737,117
-738,116
-739,114
-740,113
-741,117
-742,116
-743,116
-744,116
-745,115
-746,115
-747,116
-748,116
-749,116
-750,113
-751,115
-752,115
-753,113
-754,116
-755,116
-756,115
-757,118
-758,117
-759,116
-760,115
-761,117
-762,116
-763,115
-764,117
-765,116
-766,115
-767,118
-768,117
-769,116
-770,115
-771,115
-772,115
-773,114
-774,116
-775,115
-776,113
-777,119
-778,118
-779,114
-780,114
-781,115
-782,115
-783,115
-784,115
-785,115
-786,113
-787,117
-788,115
-789,115
-790,119
-791,118
-792,116
-793,114
-794,115
-795,114
-796,113
-797,115
-798,114
-799,112
-800,117
-801,117
-802,116
-803,116
-804,115
-805,115
-806,115
-807,116
-808,115
-809,114
-810,115
-811,114
-812,113
-813,112
-814,114
-815,114
-816,114
-817,116
-818,115
-819,115
-820,117
-821,115
-822,114
-823,113
-824,115
-825,115
-826,110
-827,116
-828,116
-829,116
-830,117
-831,116
-832,116
-833,116
-834,116
-835,115
-836,115
-837,115
-838,114
-839,114
-840,117
-841,117
-842,116
-843,114
-844,119
-845,119
-846,119
-847,118
-848,117
-849,117
-850,118
-851,116
-852,115
-853,113
-854,116
-855,115
-856,113
-857,117
-858,117
-859,116
-860,119
-861,119
-862,118
-863,117
-864,119
-865,118
-866,117
-867,117
-868,116
-869,106
-870,120
-871,120
-872,120
-873,120
-874,120
-875,120
-876,120
-877,119
-878,118
-879,118
-880,118
-881,115
-882,115
-883,116
-884,115
-885,115
-886,114
-887,117
-888,117
-889,117
-890,117
-891,115
-892,115
-893,117
-894,116
-895,115
-896,115
-897,117
-898,116
-899,116
-900,116
-901,115
-902,115
-903,116
-904,115
-905,115
-906,115
-907,116
-908,115
-909,114
-910,116
-911,115
-912,115
-913,118
-914,117
-915,116
-916,115
-917,117
-918,117
-919,117
-920,116
-921,115
-922,113
-923,119
-924,116
-925,115
-926,113
-927,117
-928,116
-929,113
-930,116
-931,116
-932,113
-933,116
-934,115
-935,115
-936,113
-937,115
-938,115
-939,115
-940,116
-941,116
-942,114
-943,117
-944,117
-945,115
-946,114
-947,118
-948,115
-949,114
-950,116
-951,115
-952,115
-953,119
-954,119
-955,115
-956,115
-957,118
-958,117
-959,117
-960,116
-961,115
-962,115
-963,117
-964,117
-965,114
-966,113
-967,114
-968,113
-969,112
-970,114
-971,114
-972,114
-973,119
-974,119
-975,115
-976,114
-977,116
-978,116
-979,115
-980,115
-981,114
-982,114
-983,116
-984,116
-985,116
-986,117
-987,117
-988,115
-989,115
-990,119
-991,115
-992,115
-993,116
-994,115
-995,113
-996,115
-997,115
-998,114
-999,114
-1000,116
-1001,115
-1002,113
-1003,117
-1004,116
-1005,116
-1006,118
-1007,115
-1008,115
-1009,114
-1010,115
-1011,115
-1012,114
-1013,116
-1014,116
-1015,115
-1016,117
-1017,117
-1018,115
-1019,114
-1020,114
-1021,114
-1022,114
-1023,117
-1024,116
-1025,116
-1026,117
-1027,115
-1028,114
-1029,113
-1030,116
-1031,114
-1032,114
-1033,117
-1034,117
-1035,117
-1036,118
-1037,118
-1038,117
-1039,117
-1040,117
-1041,114
-1042,114
-1043,117
-1044,115
-1045,115
-1046,116
-1047,115
-1048,114
-1049,114
-1050,115
-1051,115
-1052,113
-1053,116
-1054,114
-1055,114
-1056,116
-1057,116
-1058,114
-1059,113
-1060,119
-1061,115
-1062,115
-1063,118
-1064,114
-1065,113
-1066,116
-1067,115
-1068,114
-1069,114
-1070,114
-1071,114
-1072,114
-1073,116
-1074,116
-1075,115
-1076,117
-1077,116
-1078,114
-1079,117
-1080,116
-1081,116
-1082,116
-1083,116
-1084,114
-1085,113
".
