(** HamsiTab.v -- generated by tools/hamsi.py from /repo/hamsi (sbox.go and the rounds of process and processFinal). *)
From Coq Require Import List NArith.
Require Import Verif.Base.
Import ListNotations.
(** sbox.go:107 *)
Definition hm_ALPHA_N256 : list N := [0xff00f0f0; 0xccccaaaa; 0xf0f0cccc; 0xff00aaaa; 0xccccaaaa; 0xf0f0ff00; 0xaaaacccc; 0xf0f0ff00; 0xf0f0cccc; 0xaaaaff00; 0xccccff00; 0xaaaaf0f0; 0xaaaaf0f0; 0xff00cccc; 0xccccf0f0; 0xff00aaaa; 0xccccaaaa; 0xff00f0f0; 0xff00aaaa; 0xf0f0cccc; 0xf0f0ff00; 0xccccaaaa; 0xf0f0ff00; 0xaaaacccc; 0xaaaaff00; 0xf0f0cccc; 0xaaaaf0f0; 0xccccff00; 0xff00cccc; 0xaaaaf0f0; 0xff00aaaa; 0xccccf0f0]%N.
(** sbox.go:118 *)
Definition hm_ALPHA_F256 : list N := [0xcaf9639c; 0x0ff0f9c0; 0x639c0ff0; 0xcaf9f9c0; 0x0ff0f9c0; 0x639ccaf9; 0xf9c00ff0; 0x639ccaf9; 0x639c0ff0; 0xf9c0caf9; 0x0ff0caf9; 0xf9c0639c; 0xf9c0639c; 0xcaf90ff0; 0x0ff0639c; 0xcaf9f9c0; 0x0ff0f9c0; 0xcaf9639c; 0xcaf9f9c0; 0x639c0ff0; 0x639ccaf9; 0x0ff0f9c0; 0x639ccaf9; 0xf9c00ff0; 0xf9c0caf9; 0x639c0ff0; 0xf9c0639c; 0x0ff0caf9; 0xcaf90ff0; 0xf9c0639c; 0xcaf9f9c0; 0x0ff0639c]%N.
(** sbox.go:435 *)
Definition hm_ALPHA_N512 : list N := [0xff00f0f0; 0xccccaaaa; 0xf0f0cccc; 0xff00aaaa; 0xccccaaaa; 0xf0f0ff00; 0xaaaacccc; 0xf0f0ff00; 0xf0f0cccc; 0xaaaaff00; 0xccccff00; 0xaaaaf0f0; 0xaaaaf0f0; 0xff00cccc; 0xccccf0f0; 0xff00aaaa; 0xccccaaaa; 0xff00f0f0; 0xff00aaaa; 0xf0f0cccc; 0xf0f0ff00; 0xccccaaaa; 0xf0f0ff00; 0xaaaacccc; 0xaaaaff00; 0xf0f0cccc; 0xaaaaf0f0; 0xccccff00; 0xff00cccc; 0xaaaaf0f0; 0xff00aaaa; 0xccccf0f0]%N.
(** sbox.go:446 *)
Definition hm_ALPHA_F512 : list N := [0xcaf9639c; 0x0ff0f9c0; 0x639c0ff0; 0xcaf9f9c0; 0x0ff0f9c0; 0x639ccaf9; 0xf9c00ff0; 0x639ccaf9; 0x639c0ff0; 0xf9c0caf9; 0x0ff0caf9; 0xf9c0639c; 0xf9c0639c; 0xcaf90ff0; 0x0ff0639c; 0xcaf9f9c0; 0x0ff0f9c0; 0xcaf9639c; 0xcaf9f9c0; 0x639c0ff0; 0x639ccaf9; 0x0ff0f9c0; 0x639ccaf9; 0xf9c00ff0; 0xf9c0caf9; 0x639c0ff0; 0xf9c0639c; 0x0ff0caf9; 0xcaf90ff0; 0xf9c0639c; 0xcaf9f9c0; 0x0ff0639c]%N.
(** sbox.go:457 *)
Definition hm_HOFF384 : list nat := [0; 1; 3; 4; 5; 6; 8; 9; 10; 12; 13; 15].
(** sbox.go:461 *)
Definition hm_HOFF512 : list nat := [0; 1; 2; 3; 4; 5; 6; 7; 8; 9; 10; 11; 12; 13; 14; 15].
(** sbox.go:467 *)
Definition hm_iv224 : list N := [0xc3967a67; 0xc3bc6c20; 0x4bc3bcc3; 0xa7c3bc6b; 0x2c204b61; 0x74686f6c; 0x69656b65; 0x20556e69]%N.
(** sbox.go:472 *)
Definition hm_iv256 : list N := [0x76657273; 0x69746569; 0x74204c65; 0x7576656e; 0x2c204465; 0x70617274; 0x656d656e; 0x7420456c]%N.
(** sbox.go:477 *)
Definition hm_iv384 : list N := [0x656b7472; 0x6f746563; 0x686e6965; 0x6b2c2043; 0x6f6d7075; 0x74657220; 0x53656375; 0x72697479; 0x20616e64; 0x20496e64; 0x75737472; 0x69616c20; 0x43727970; 0x746f6772; 0x61706879; 0x2c204b61]%N.
(** sbox.go:484 *)
Definition hm_iv512 : list N := [0x73746565; 0x6c706172; 0x6b204172; 0x656e6265; 0x72672031; 0x302c2062; 0x75732032; 0x3434362c; 0x20422d33; 0x30303120; 0x4c657576; 0x656e2d48; 0x65766572; 0x6c65652c; 0x2042656c; 0x6769756d]%N.
(** sbox.go:3 *)
Definition hm_Tsrc256 : list (list N) := [
  [0x045f0000; 0x9c4a93c9; 0x62fc79d0; 0x731ebdc2; 0xe0278000; 0x19dce008; 0xd7075d82; 0x5ad2e31d];
  [0xe4788000; 0x859673c1; 0xb5fb2452; 0x29cc5edf; 0x045f0000; 0x9c4a93c9; 0x62fc79d0; 0x731ebdc2];
  [0xe6570000; 0x4bb33a25; 0x848598ba; 0x1041003e; 0xf44c4000; 0x10a4e3cd; 0x097f5711; 0xde77cc4c];
  [0x121b4000; 0x5b17d9e8; 0x8dfacfab; 0xce36cc72; 0xe6570000; 0x4bb33a25; 0x848598ba; 0x1041003e];
  [0x97530000; 0x204f6ed3; 0x77b9e80f; 0xa1ec5ec1; 0x7e792000; 0x9418e22f; 0x6643d258; 0x9c255be5];
  [0xe92a2000; 0xb4578cfc; 0x11fa3a57; 0x3dc90524; 0x97530000; 0x204f6ed3; 0x77b9e80f; 0xa1ec5ec1];
  [0xcba90000; 0x90273769; 0xbbdcf407; 0xd0f4af61; 0xbf3c1000; 0xca0c7117; 0x3321e92c; 0xce122df3];
  [0x74951000; 0x5a2b467e; 0x88fd1d2b; 0x1ee68292; 0xcba90000; 0x90273769; 0xbbdcf407; 0xd0f4af61];
  [0xe18b0000; 0x5459887d; 0xbf1283d3; 0x1b666a73; 0x3fb90800; 0x7cdad883; 0xce97a914; 0xbdd9f5e5];
  [0xde320800; 0x288350fe; 0x71852ac7; 0xa6bf9f96; 0xe18b0000; 0x5459887d; 0xbf1283d3; 0x1b666a73];
  [0x14bd0000; 0x2fba37ff; 0x6a72e5bb; 0x247febe6; 0x9b830400; 0x2227ff88; 0x05b7ad5a; 0xadf2c730];
  [0x8f3e0400; 0x0d9dc877; 0x6fc548e1; 0x898d2cd6; 0x14bd0000; 0x2fba37ff; 0x6a72e5bb; 0x247febe6];
  [0xee260000; 0x124b683e; 0x80c2d68f; 0x3bf3ab2c; 0x499e0200; 0x0d59ec0d; 0xe0272f7d; 0xa5e7de5a];
  [0xa7b80200; 0x1f128433; 0x60e5f9f2; 0x9e147576; 0xee260000; 0x124b683e; 0x80c2d68f; 0x3bf3ab2c];
  [0x734c0000; 0x956fa7d6; 0xa29d1297; 0x6ee56854; 0xc4e80100; 0x1f70960e; 0x2714ca3c; 0x88210c30];
  [0xb7a40100; 0x8a1f31d8; 0x8589d8ab; 0xe6c46464; 0x734c0000; 0x956fa7d6; 0xa29d1297; 0x6ee56854];
  [0x39a60000; 0x4ab753eb; 0xd14e094b; 0xb772b42b; 0x62740080; 0x0fb84b07; 0x138a651e; 0x44100618];
  [0x5bd20080; 0x450f18ec; 0xc2c46c55; 0xf362b233; 0x39a60000; 0x4ab753eb; 0xd14e094b; 0xb772b42b];
  [0x78ab0000; 0xa0cd5a34; 0x5d5ca0f7; 0x727784cb; 0x35650040; 0x9b96b64a; 0x6b39cb5f; 0x5114bece];
  [0x4dce0040; 0x3b5bec7e; 0x36656ba8; 0x23633a05; 0x78ab0000; 0xa0cd5a34; 0x5d5ca0f7; 0x727784cb];
  [0x5c720000; 0xc9bacd12; 0x79a90df9; 0x63e92178; 0xfeca0020; 0x485d28e4; 0x806741fd; 0x814681b8];
  [0xa2b80020; 0x81e7e5f6; 0xf9ce4c04; 0xe2afa0c0; 0x5c720000; 0xc9bacd12; 0x79a90df9; 0x63e92178];
  [0x2e390000; 0x64dd6689; 0x3cd406fc; 0xb1f490bc; 0x7f650010; 0x242e1472; 0xc03320fe; 0xc0a3c0dd];
  [0x515c0010; 0x40f372fb; 0xfce72602; 0x71575061; 0x2e390000; 0x64dd6689; 0x3cd406fc; 0xb1f490bc];
  [0x171c0000; 0xb26e3344; 0x9e6a837e; 0x58f8485f; 0xbfb20008; 0x92170a39; 0x6019107f; 0xe051606e];
  [0xa8ae0008; 0x2079397d; 0xfe739301; 0xb8a92831; 0x171c0000; 0xb26e3344; 0x9e6a837e; 0x58f8485f];
  [0x6ba90000; 0x40ebf9aa; 0x98321c3d; 0x76acc733; 0xbba10004; 0xcc9d76dd; 0x05f7ac6d; 0xd9e6eee9];
  [0xd0080004; 0x8c768f77; 0x9dc5b050; 0xaf4a29da; 0x6ba90000; 0x40ebf9aa; 0x98321c3d; 0x76acc733];
  [0x51ac0000; 0x25e30f14; 0x79e22a4c; 0x1298bd46; 0xd98f0002; 0x7a04a8a7; 0xe007afe6; 0x9fed4ab7];
  [0x88230002; 0x5fe7a7b3; 0x99e585aa; 0x8d75f7f1; 0x51ac0000; 0x25e30f14; 0x79e22a4c; 0x1298bd46];
  [0xc8f10000; 0x0b2de782; 0x6bf648a4; 0x539cbdbf; 0x08bf0001; 0x38942792; 0xc5f8f3a1; 0xe6387b84];
  [0xc04e0001; 0x33b9c010; 0xae0ebb05; 0xb5a4c63b; 0xc8f10000; 0x0b2de782; 0x6bf648a4; 0x539cbdbf]]%N.
(** sbox.go:131 *)
Definition hm_Tsrc512 : list (list N) := [
  [0x466d0c00; 0x08620000; 0xdd5d0000; 0xbadd0000; 0x6a927942; 0x441f2b93; 0x218ace6f; 0xbf2c0be2; 0x6f299000; 0x6c850000; 0x2f160000; 0x782e0000; 0x644c37cd; 0x12dd1cd6; 0xd26a8c36; 0x32219526];
  [0x29449c00; 0x64e70000; 0xf24b0000; 0xc2f30000; 0x0ede4e8f; 0x56c23745; 0xf3e04259; 0x8d0d9ec4; 0x466d0c00; 0x08620000; 0xdd5d0000; 0xbadd0000; 0x6a927942; 0x441f2b93; 0x218ace6f; 0xbf2c0be2];
  [0x9cbb1800; 0xb0d30000; 0x92510000; 0xed930000; 0x593a4345; 0xe114d5f4; 0x430633da; 0x78cace29; 0xc8934400; 0x5a3e0000; 0x57870000; 0x4c560000; 0xea982435; 0x75b11115; 0x28b67247; 0x2dd1f9ab];
  [0x54285c00; 0xeaed0000; 0xc5d60000; 0xa1c50000; 0xb3a26770; 0x94a5c4e1; 0x6bb0419d; 0x551b3782; 0x9cbb1800; 0xb0d30000; 0x92510000; 0xed930000; 0x593a4345; 0xe114d5f4; 0x430633da; 0x78cace29];
  [0x23671400; 0xc8b90000; 0xf4c70000; 0xfb750000; 0x73cd2465; 0xf8a6a549; 0x02c40a3f; 0xdc24e61f; 0x373d2800; 0x71500000; 0x95e00000; 0x0a140000; 0xbdac1909; 0x48ef9831; 0x456d6d1f; 0x3daac2da];
  [0x145a3c00; 0xb9e90000; 0x61270000; 0xf1610000; 0xce613d6c; 0xb0493d78; 0x47a96720; 0xe18e24c5; 0x23671400; 0xc8b90000; 0xf4c70000; 0xfb750000; 0x73cd2465; 0xf8a6a549; 0x02c40a3f; 0xdc24e61f];
  [0xc96b0030; 0xe7250000; 0x2f840000; 0x264f0000; 0x08695bf9; 0x6dfcf137; 0x509f6984; 0x9e69af68; 0x26600240; 0xddd80000; 0x722a0000; 0x4f060000; 0x936667ff; 0x29f944ce; 0x368b63d5; 0x0c26f262];
  [0xef0b0270; 0x3afd0000; 0x5dae0000; 0x69490000; 0x9b0f3c06; 0x4405b5f9; 0x66140a51; 0x924f5d0a; 0xc96b0030; 0xe7250000; 0x2f840000; 0x264f0000; 0x08695bf9; 0x6dfcf137; 0x509f6984; 0x9e69af68];
  [0xb4370060; 0x0c4c0000; 0x56c20000; 0x5cae0000; 0x94541f3f; 0x3b3ef825; 0x1b365f3d; 0xf3d45758; 0x5cb00110; 0x913e0000; 0x44190000; 0x888c0000; 0x66dc7418; 0x921f1d66; 0x55ceea25; 0x925c44e9];
  [0xe8870170; 0x9d720000; 0x12db0000; 0xd4220000; 0xf2886b27; 0xa921e543; 0x4ef8b518; 0x618813b1; 0xb4370060; 0x0c4c0000; 0x56c20000; 0x5cae0000; 0x94541f3f; 0x3b3ef825; 0x1b365f3d; 0xf3d45758];
  [0xf46c0050; 0x96180000; 0x14a50000; 0x031f0000; 0x42947eb8; 0x66bf7e19; 0x9ca470d2; 0x8a341574; 0x832800a0; 0x67420000; 0xe1170000; 0x370b0000; 0xcba30034; 0x3c34923c; 0x9767bdcc; 0x450360bf];
  [0x774400f0; 0xf15a0000; 0xf5b20000; 0x34140000; 0x89377e8c; 0x5a8bec25; 0x0bc3cd1e; 0xcf3775cb; 0xf46c0050; 0x96180000; 0x14a50000; 0x031f0000; 0x42947eb8; 0x66bf7e19; 0x9ca470d2; 0x8a341574];
  [0xd46a0000; 0x8dc8c000; 0xa5af0000; 0x4a290000; 0xfc4e427a; 0xc9b4866c; 0x98369604; 0xf746c320; 0x231f0009; 0x42f40000; 0x66790000; 0x4ebb0000; 0xfedb5bd3; 0x315cb0d6; 0xe2b1674a; 0x69505b3a];
  [0xf7750009; 0xcf3cc000; 0xc3d60000; 0x04920000; 0x029519a9; 0xf8e836ba; 0x7a87f14e; 0x9e16981a; 0xd46a0000; 0x8dc8c000; 0xa5af0000; 0x4a290000; 0xfc4e427a; 0xc9b4866c; 0x98369604; 0xf746c320];
  [0xa67f0001; 0x71378000; 0x19fc0000; 0x96db0000; 0x3a8b6dfd; 0xebcaaef3; 0x2c6d478f; 0xac8e6c88; 0x50ff0004; 0x45744000; 0x3dfb0000; 0x19e60000; 0x1bbc5606; 0xe1727b5d; 0xe1a8cc96; 0x7b1bd6b9];
  [0xf6800005; 0x3443c000; 0x24070000; 0x8f3d0000; 0x21373bfb; 0x0ab8d5ae; 0xcdc58b19; 0xd795ba31; 0xa67f0001; 0x71378000; 0x19fc0000; 0x96db0000; 0x3a8b6dfd; 0xebcaaef3; 0x2c6d478f; 0xac8e6c88];
  [0xeecf0001; 0x6f564000; 0xf33e0000; 0xa79e0000; 0xbdb57219; 0xb711ebc5; 0x4a3b40ba; 0xfeabf254; 0x9b060002; 0x61468000; 0x221e0000; 0x1d740000; 0x36715d27; 0x30495c92; 0xf11336a7; 0xfe1cdc7f];
  [0x75c90003; 0x0e10c000; 0xd1200000; 0xbaea0000; 0x8bc42f3e; 0x8758b757; 0xbb28761d; 0x00b72e2b; 0xeecf0001; 0x6f564000; 0xf33e0000; 0xa79e0000; 0xbdb57219; 0xb711ebc5; 0x4a3b40ba; 0xfeabf254];
  [0xd1660000; 0x1bbc0300; 0x9eec0000; 0xf6940000; 0x03024527; 0xcf70fcf2; 0xb4431b17; 0x857f3c2b; 0xa4c20000; 0xd9372400; 0x0a480000; 0x66610000; 0xf87a12c7; 0x86bef75c; 0xa324df94; 0x2ba05a55];
  [0x75a40000; 0xc28b2700; 0x94a40000; 0x90f50000; 0xfb7857e0; 0x49ce0bae; 0x1767c483; 0xaedf667e; 0xd1660000; 0x1bbc0300; 0x9eec0000; 0xf6940000; 0x03024527; 0xcf70fcf2; 0xb4431b17; 0x857f3c2b];
  [0xb83d0000; 0x16710600; 0x379a0000; 0xf5b10000; 0x228161ac; 0xae48f145; 0x66241616; 0xc5c1eb3e; 0xfd250000; 0xb3c41100; 0xcef00000; 0xcef90000; 0x3c4d7580; 0x8d5b6493; 0x7098b0a6; 0x1af21fe1];
  [0x45180000; 0xa5b51700; 0xf96a0000; 0x3b480000; 0x1ecc142c; 0x231395d6; 0x16bca6b0; 0xdf33f4df; 0xb83d0000; 0x16710600; 0x379a0000; 0xf5b10000; 0x228161ac; 0xae48f145; 0x66241616; 0xc5c1eb3e];
  [0xfe220000; 0xa7580500; 0x25d10000; 0xf7600000; 0x893178da; 0x1fd4f860; 0x4ed0a315; 0xa123ff9f; 0xf2500000; 0xeebd0a00; 0x67a80000; 0xab8a0000; 0xba9b48c0; 0x0a56dd74; 0xdb73e86e; 0x1568ff0f];
  [0x0c720000; 0x49e50f00; 0x42790000; 0x5cea0000; 0x33aa301a; 0x15822514; 0x95a34b7b; 0xb44b0090; 0xfe220000; 0xa7580500; 0x25d10000; 0xf7600000; 0x893178da; 0x1fd4f860; 0x4ed0a315; 0xa123ff9f];
  [0xc6730000; 0xaf8d000c; 0xa4c10000; 0x218d0000; 0x23111587; 0x7913512f; 0x1d28ac88; 0x378dd173; 0xaf220000; 0x7b6c0090; 0x67e20000; 0x8da20000; 0xc7841e29; 0xb7b744f3; 0x9ac484f4; 0x8b6c72bd];
  [0x69510000; 0xd4e1009c; 0xc3230000; 0xac2f0000; 0xe4950bae; 0xcea415dc; 0x87ec287c; 0xbce1a3ce; 0xc6730000; 0xaf8d000c; 0xa4c10000; 0x218d0000; 0x23111587; 0x7913512f; 0x1d28ac88; 0x378dd173];
  [0xbc8d0000; 0xfc3b0018; 0x19830000; 0xd10b0000; 0xae1878c4; 0x42a69856; 0x0012da37; 0x2c3b504e; 0xe8dd0000; 0xfa4a0044; 0x3c2d0000; 0xbb150000; 0x80bd361b; 0x24e81d44; 0xbfa8c2f4; 0x524a0d59];
  [0x54500000; 0x0671005c; 0x25ae0000; 0x6a1e0000; 0x2ea54edf; 0x664e8512; 0xbfba18c3; 0x7e715d17; 0xbc8d0000; 0xfc3b0018; 0x19830000; 0xd10b0000; 0xae1878c4; 0x42a69856; 0x0012da37; 0x2c3b504e];
  [0xe3430000; 0x3a4e0014; 0xf2c60000; 0xaa4e0000; 0xdb1e42a6; 0x256bbe15; 0x123db156; 0x3a4e99d7; 0xf75a0000; 0x19840028; 0xa2190000; 0xeef80000; 0xc0722516; 0x19981260; 0x73dba1e6; 0xe1844257];
  [0x14190000; 0x23ca003c; 0x50df0000; 0x44b60000; 0x1b6c67b0; 0x3cf3ac75; 0x61e610b0; 0xdbcadb80; 0xe3430000; 0x3a4e0014; 0xf2c60000; 0xaa4e0000; 0xdb1e42a6; 0x256bbe15; 0x123db156; 0x3a4e99d7];
  [0x30b70000; 0xe5d00000; 0xf4f46000; 0x42c40000; 0x63b83d6a; 0x78ba9460; 0x21afa1ea; 0xb0a51834; 0xb6ce0000; 0xdae90002; 0x156e8000; 0xda920000; 0xf6dd5a64; 0x36325c8a; 0xf272e8ae; 0xa6b8c28d];
  [0x86790000; 0x3f390002; 0xe19ae000; 0x98560000; 0x9565670e; 0x4e88c8ea; 0xd3dd4944; 0x161ddab9; 0x30b70000; 0xe5d00000; 0xf4f46000; 0x42c40000; 0x63b83d6a; 0x78ba9460; 0x21afa1ea; 0xb0a51834];
  [0xdb250000; 0x09290000; 0x49aac000; 0x81e10000; 0xcafe6b59; 0x42793431; 0x43566b76; 0xe86cba2e; 0x75e60000; 0x95660001; 0x307b2000; 0xadf40000; 0x8f321eea; 0x24298307; 0xe8c49cf9; 0x4b7eec55];
  [0xaec30000; 0x9c4f0001; 0x79d1e000; 0x2c150000; 0x45cc75b3; 0x6650b736; 0xab92f78f; 0xa312567b; 0xdb250000; 0x09290000; 0x49aac000; 0x81e10000; 0xcafe6b59; 0x42793431; 0x43566b76; 0xe86cba2e];
  [0x1e4e0000; 0xdecf0000; 0x6df80180; 0x77240000; 0xec47079e; 0xf4a0694e; 0xcda31812; 0x98aa496e; 0xb2060000; 0xc5690000; 0x28031200; 0x74670000; 0xb6c236f4; 0xeb1239f8; 0x33d1dfec; 0x094e3198];
  [0xac480000; 0x1ba60000; 0x45fb1380; 0x03430000; 0x5a85316a; 0x1fb250b6; 0xfe72c7fe; 0x91e478f6; 0x1e4e0000; 0xdecf0000; 0x6df80180; 0x77240000; 0xec47079e; 0xf4a0694e; 0xcda31812; 0x98aa496e];
  [0x02af0000; 0xb7280000; 0xba1c0300; 0x56980000; 0xba8d45d3; 0x8048c667; 0xa95c149a; 0xf4f6ea7b; 0x7a8c0000; 0xa5d40000; 0x13260880; 0xc63d0000; 0xcbb36daa; 0xfea14f43; 0x59d0b4f8; 0x979961d0];
  [0x78230000; 0x12fc0000; 0xa93a0b80; 0x90a50000; 0x713e2879; 0x7ee98924; 0xf08ca062; 0x636f8bab; 0x02af0000; 0xb7280000; 0xba1c0300; 0x56980000; 0xba8d45d3; 0x8048c667; 0xa95c149a; 0xf4f6ea7b];
  [0x819e0000; 0xec570000; 0x66320280; 0x95f30000; 0x5da92802; 0x48f43cbc; 0xe65aa22d; 0x8e67b7fa; 0x4d8a0000; 0x49340000; 0x3c8b0500; 0xaea30000; 0x16793bfd; 0xcf6f08a4; 0x8f19eaec; 0x443d3004];
  [0xcc140000; 0xa5630000; 0x5ab90780; 0x3b500000; 0x4bd013ff; 0x879b3418; 0x694348c1; 0xca5a87fe; 0x819e0000; 0xec570000; 0x66320280; 0x95f30000; 0x5da92802; 0x48f43cbc; 0xe65aa22d; 0x8e67b7fa];
  [0x538d0000; 0xa9fc0000; 0x9ef70006; 0x56ff0000; 0x0ae4004e; 0x92c5cdf9; 0xa9444018; 0x7f975691; 0x01dd0000; 0x80a80000; 0xf4960048; 0xa6000000; 0x90d57ea2; 0xd7e68c37; 0x6612cffd; 0x2c94459e];
  [0x52500000; 0x29540000; 0x6a61004e; 0xf0ff0000; 0x9a317eec; 0x452341ce; 0xcf568fe5; 0x5303130f; 0x538d0000; 0xa9fc0000; 0x9ef70006; 0x56ff0000; 0x0ae4004e; 0x92c5cdf9; 0xa9444018; 0x7f975691];
  [0x0bc20000; 0xdb630000; 0x7e88000c; 0x15860000; 0x91fd48f3; 0x7581bb43; 0xf460449e; 0xd8b61463; 0x835a0000; 0xc4f70000; 0x01470022; 0xeec80000; 0x60a54f69; 0x142f2a24; 0x5cf534f2; 0x3ea660f7];
  [0x88980000; 0x1f940000; 0x7fcf002e; 0xfb4e0000; 0xf158079a; 0x61ae9167; 0xa895706c; 0xe6107494; 0x0bc20000; 0xdb630000; 0x7e88000c; 0x15860000; 0x91fd48f3; 0x7581bb43; 0xf460449e; 0xd8b61463];
  [0x07ed0000; 0xb2500000; 0x8774000a; 0x970d0000; 0x437223ae; 0x48c76ea4; 0xf4786222; 0x9075b1ce; 0xa2d60000; 0xa6760000; 0xc9440014; 0xeba30000; 0xccec2e7b; 0x3018c499; 0x03490afa; 0x9b6ef888];
  [0xa53b0000; 0x14260000; 0x4e30001e; 0x7cae0000; 0x8f9e0dd5; 0x78dfaa3d; 0xf73168d8; 0x0b1b4946; 0x07ed0000; 0xb2500000; 0x8774000a; 0x970d0000; 0x437223ae; 0x48c76ea4; 0xf4786222; 0x9075b1ce];
  [0x1d5a0000; 0x2b720000; 0x488d0000; 0xaf611800; 0x25cb2ec5; 0xc879bfd0; 0x81a20429; 0x1e7536a6; 0x45190000; 0xab0c0000; 0x30be0001; 0x690a2000; 0xc2fc7219; 0xb1d4800d; 0x2dd1fa46; 0x24314f17];
  [0x58430000; 0x807e0000; 0x78330001; 0xc66b3800; 0xe7375cdc; 0x79ad3fdd; 0xac73fe6f; 0x3a4479b1; 0x1d5a0000; 0x2b720000; 0x488d0000; 0xaf611800; 0x25cb2ec5; 0xc879bfd0; 0x81a20429; 0x1e7536a6];
  [0x92560000; 0x1eda0000; 0xea510000; 0xe8b13000; 0xa93556a5; 0xebfb6199; 0xb15c2254; 0x33c5244f; 0x8c3a0000; 0xda980000; 0x607f0000; 0x54078800; 0x85714513; 0x6006b243; 0xdb50399c; 0x8a58e6a4];
  [0x1e6c0000; 0xc4420000; 0x8a2e0000; 0xbcb6b800; 0x2c4413b6; 0x8bfdd3da; 0x6a0c1bc8; 0xb99dc2eb; 0x92560000; 0x1eda0000; 0xea510000; 0xe8b13000; 0xa93556a5; 0xebfb6199; 0xb15c2254; 0x33c5244f];
  [0xbadd0000; 0x13ad0000; 0xb7e70000; 0xf7282800; 0xdf45144d; 0x361ac33a; 0xea5a8d14; 0x2a2c18f0; 0xb82f0000; 0xb12c0000; 0x30d80000; 0x14445000; 0xc15860a2; 0x3127e8ec; 0x2e98bf23; 0x551e3d6e];
  [0x02f20000; 0xa2810000; 0x873f0000; 0xe36c7800; 0x1e1d74ef; 0x073d2bd6; 0xc4c23237; 0x7f32259e; 0xbadd0000; 0x13ad0000; 0xb7e70000; 0xf7282800; 0xdf45144d; 0x361ac33a; 0xea5a8d14; 0x2a2c18f0];
  [0xe3060000; 0xbdc10000; 0x87130000; 0xbff20060; 0x2eba0a1a; 0x8db53751; 0x73c5ab06; 0x5bd61539; 0x57370000; 0xcaf20000; 0x364e0000; 0xc0220480; 0x56186b22; 0x5ca3f40c; 0xa1937f8f; 0x15b961e7];
  [0xb4310000; 0x77330000; 0xb15d0000; 0x7fd004e0; 0x78a26138; 0xd116c35d; 0xd256d489; 0x4e6f74de; 0xe3060000; 0xbdc10000; 0x87130000; 0xbff20060; 0x2eba0a1a; 0x8db53751; 0x73c5ab06; 0x5bd61539];
  [0xf0c50000; 0x59230000; 0x45820000; 0xe18d00c0; 0x3b6d0631; 0xc2ed5699; 0xcbe0fe1c; 0x56a7b19f; 0x16ed0000; 0x15680000; 0xedd70000; 0x325d0220; 0xe30c3689; 0x5a4ae643; 0xe375f8a8; 0x81fdf908];
  [0xe6280000; 0x4c4b0000; 0xa8550000; 0xd3d002e0; 0xd86130b8; 0x98a7b0da; 0x289506b4; 0xd75a4897; 0xf0c50000; 0x59230000; 0x45820000; 0xe18d00c0; 0x3b6d0631; 0xc2ed5699; 0xcbe0fe1c; 0x56a7b19f];
  [0x7b280000; 0x57420000; 0xa9e50000; 0x634300a0; 0x9edb442f; 0x6d9995bb; 0x27f83b03; 0xc7ff60f0; 0x95bb0000; 0x81450000; 0x3b240000; 0x48db0140; 0x0a8a6c53; 0x56f56eec; 0x62c91877; 0xe7e00a94];
  [0xee930000; 0xd6070000; 0x92c10000; 0x2b9801e0; 0x9451287c; 0x3b6cfb57; 0x45312374; 0x201f6a64; 0x7b280000; 0x57420000; 0xa9e50000; 0x634300a0; 0x9edb442f; 0x6d9995bb; 0x27f83b03; 0xc7ff60f0];
  [0x00440000; 0x7f480000; 0xda7c0000; 0x2a230001; 0x3badc9cc; 0xa9b69c87; 0x030a9e60; 0xbe0a679e; 0x5fec0000; 0x294b0000; 0x99d20000; 0x4ed00012; 0x1ed34f73; 0xbaa708c9; 0x57140bdf; 0x30aebcf7];
  [0x5fa80000; 0x56030000; 0x43ae0000; 0x64f30013; 0x257e86bf; 0x1311944e; 0x541e95bf; 0x8ea4db69; 0x00440000; 0x7f480000; 0xda7c0000; 0x2a230001; 0x3badc9cc; 0xa9b69c87; 0x030a9e60; 0xbe0a679e];
  [0x92280000; 0xdc850000; 0x57fa0000; 0x56dc0003; 0xbae92316; 0x5aefa30c; 0x90cef752; 0x7b1675d7; 0x93bb0000; 0x3b070000; 0xba010000; 0x99d00008; 0x3739ae4e; 0xe64c1722; 0x96f896b3; 0x2879ebac];
  [0x01930000; 0xe7820000; 0xedfb0000; 0xcf0c000b; 0x8dd08d58; 0xbca3b42e; 0x063661e1; 0x536f9e7b; 0x92280000; 0xdc850000; 0x57fa0000; 0x56dc0003; 0xbae92316; 0x5aefa30c; 0x90cef752; 0x7b1675d7];
  [0xa8da0000; 0x96be0000; 0x5c1d0000; 0x07da0002; 0x7d669583; 0x1f98708a; 0xbb668808; 0xda878000; 0xabe70000; 0x9e0d0000; 0xaf270000; 0x3d180005; 0x2c4f1fd3; 0x74f61695; 0xb5c347eb; 0x3c5dfffe];
  [0x033d0000; 0x08b30000; 0xf33a0000; 0x3ac20007; 0x51298a50; 0x6b6e661f; 0x0ea5cfe3; 0xe6da7ffe; 0xa8da0000; 0x96be0000; 0x5c1d0000; 0x07da0002; 0x7d669583; 0x1f98708a; 0xbb668808; 0xda878000]]%N.
(** digest256.go:216-347 (process; the copies at 348-611 and processFinal 673-806 are the same statements with their constants): the constants of one round, on (m0, m1, ..., c0, c1, ...) *)
Definition hm_add256 (al : list N) (r : N) (V : list N) : list N :=
  let m0 := at_ V 0 in
  let m1 := at_ V 1 in
  let m2 := at_ V 2 in
  let m3 := at_ V 3 in
  let m4 := at_ V 4 in
  let m5 := at_ V 5 in
  let m6 := at_ V 6 in
  let m7 := at_ V 7 in
  let c0 := at_ V 8 in
  let c1 := at_ V 9 in
  let c2 := at_ V 10 in
  let c3 := at_ V 11 in
  let c4 := at_ V 12 in
  let c5 := at_ V 13 in
  let c6 := at_ V 14 in
  let c7 := at_ V 15 in
  let m0 := (N.lxor m0 (at_ al 0)) in
  let m1 := (N.lxor m1 (N.lxor (at_ al 1) r)) in
  let c0 := (N.lxor c0 (at_ al 2)) in
  let c1 := (N.lxor c1 (at_ al 3)) in
  let c2 := (N.lxor c2 (at_ al 8)) in
  let c3 := (N.lxor c3 (at_ al 9)) in
  let m2 := (N.lxor m2 (at_ al 10)) in
  let m3 := (N.lxor m3 (at_ al 11)) in
  let m4 := (N.lxor m4 (at_ al 16)) in
  let m5 := (N.lxor m5 (at_ al 17)) in
  let c4 := (N.lxor c4 (at_ al 18)) in
  let c5 := (N.lxor c5 (at_ al 19)) in
  let c6 := (N.lxor c6 (at_ al 24)) in
  let c7 := (N.lxor c7 (at_ al 25)) in
  let m6 := (N.lxor m6 (at_ al 26)) in
  let m7 := (N.lxor m7 (at_ al 27)) in
  [m0; m1; m2; m3; m4; m5; m6; m7; c0; c1; c2; c3; c4; c5; c6; c7].
(** digest256.go:216-347 (process; the copies at 348-611 and processFinal 673-806 are the same statements with their constants): the S-boxes of one round, on (m0, m1, ..., c0, c1, ...) *)
Definition hm_sub256 (V : list N) : list N :=
  let m0 := at_ V 0 in
  let m1 := at_ V 1 in
  let m2 := at_ V 2 in
  let m3 := at_ V 3 in
  let m4 := at_ V 4 in
  let m5 := at_ V 5 in
  let m6 := at_ V 6 in
  let m7 := at_ V 7 in
  let c0 := at_ V 8 in
  let c1 := at_ V 9 in
  let c2 := at_ V 10 in
  let c3 := at_ V 11 in
  let c4 := at_ V 12 in
  let c5 := at_ V 13 in
  let c6 := at_ V 14 in
  let c7 := at_ V 15 in
  let t := m0 in
  let m0 := (N.land m0 m4) in
  let m0 := (N.lxor m0 c6) in
  let m4 := (N.lxor m4 c2) in
  let m4 := (N.lxor m4 m0) in
  let c6 := (N.lor c6 t) in
  let c6 := (N.lxor c6 c2) in
  let t := (N.lxor t m4) in
  let c2 := c6 in
  let c6 := (N.lor c6 t) in
  let c6 := (N.lxor c6 m0) in
  let m0 := (N.land m0 c2) in
  let t := (N.lxor t m0) in
  let c2 := (N.lxor c2 c6) in
  let c2 := (N.lxor c2 t) in
  let m0 := m4 in
  let m4 := c2 in
  let c2 := c6 in
  let c6 := (not32 t) in
  let t := m1 in
  let m1 := (N.land m1 m5) in
  let m1 := (N.lxor m1 c7) in
  let m5 := (N.lxor m5 c3) in
  let m5 := (N.lxor m5 m1) in
  let c7 := (N.lor c7 t) in
  let c7 := (N.lxor c7 c3) in
  let t := (N.lxor t m5) in
  let c3 := c7 in
  let c7 := (N.lor c7 t) in
  let c7 := (N.lxor c7 m1) in
  let m1 := (N.land m1 c3) in
  let t := (N.lxor t m1) in
  let c3 := (N.lxor c3 c7) in
  let c3 := (N.lxor c3 t) in
  let m1 := m5 in
  let m5 := c3 in
  let c3 := c7 in
  let c7 := (not32 t) in
  let t := c0 in
  let c0 := (N.land c0 c4) in
  let c0 := (N.lxor c0 m6) in
  let c4 := (N.lxor c4 m2) in
  let c4 := (N.lxor c4 c0) in
  let m6 := (N.lor m6 t) in
  let m6 := (N.lxor m6 m2) in
  let t := (N.lxor t c4) in
  let m2 := m6 in
  let m6 := (N.lor m6 t) in
  let m6 := (N.lxor m6 c0) in
  let c0 := (N.land c0 m2) in
  let t := (N.lxor t c0) in
  let m2 := (N.lxor m2 m6) in
  let m2 := (N.lxor m2 t) in
  let c0 := c4 in
  let c4 := m2 in
  let m2 := m6 in
  let m6 := (not32 t) in
  let t := c1 in
  let c1 := (N.land c1 c5) in
  let c1 := (N.lxor c1 m7) in
  let c5 := (N.lxor c5 m3) in
  let c5 := (N.lxor c5 c1) in
  let m7 := (N.lor m7 t) in
  let m7 := (N.lxor m7 m3) in
  let t := (N.lxor t c5) in
  let m3 := m7 in
  let m7 := (N.lor m7 t) in
  let m7 := (N.lxor m7 c1) in
  let c1 := (N.land c1 m3) in
  let t := (N.lxor t c1) in
  let m3 := (N.lxor m3 m7) in
  let m3 := (N.lxor m3 t) in
  let c1 := c5 in
  let c5 := m3 in
  let m3 := m7 in
  let m7 := (not32 t) in
  [m0; m1; m2; m3; m4; m5; m6; m7; c0; c1; c2; c3; c4; c5; c6; c7].
(** digest256.go:216-347 (process; the copies at 348-611 and processFinal 673-806 are the same statements with their constants): the linear maps of one round, on (m0, m1, ..., c0, c1, ...) *)
Definition hm_lin256 (V : list N) : list N :=
  let m0 := at_ V 0 in
  let m1 := at_ V 1 in
  let m2 := at_ V 2 in
  let m3 := at_ V 3 in
  let m4 := at_ V 4 in
  let m5 := at_ V 5 in
  let m6 := at_ V 6 in
  let m7 := at_ V 7 in
  let c0 := at_ V 8 in
  let c1 := at_ V 9 in
  let c2 := at_ V 10 in
  let c3 := at_ V 11 in
  let c4 := at_ V 12 in
  let c5 := at_ V 13 in
  let c6 := at_ V 14 in
  let c7 := at_ V 15 in
  let m0 := (N.lor (shl32 m0 13%N) (N.shiftr m0 19%N)) in
  let c4 := (N.lor (shl32 c4 3%N) (N.shiftr c4 29%N)) in
  let c3 := (N.lxor c3 (N.lxor m0 c4)) in
  let m7 := (N.lxor m7 (N.lxor c4 (shl32 m0 3%N))) in
  let c3 := (N.lor (shl32 c3 1%N) (N.shiftr c3 31%N)) in
  let m7 := (N.lor (shl32 m7 7%N) (N.shiftr m7 25%N)) in
  let m0 := (N.lxor m0 (N.lxor c3 m7)) in
  let c4 := (N.lxor c4 (N.lxor m7 (shl32 c3 7%N))) in
  let m0 := (N.lor (shl32 m0 5%N) (N.shiftr m0 27%N)) in
  let c4 := (N.lor (shl32 c4 22%N) (N.shiftr c4 10%N)) in
  let m1 := (N.lor (shl32 m1 13%N) (N.shiftr m1 19%N)) in
  let c5 := (N.lor (shl32 c5 3%N) (N.shiftr c5 29%N)) in
  let m2 := (N.lxor m2 (N.lxor m1 c5)) in
  let c6 := (N.lxor c6 (N.lxor c5 (shl32 m1 3%N))) in
  let m2 := (N.lor (shl32 m2 1%N) (N.shiftr m2 31%N)) in
  let c6 := (N.lor (shl32 c6 7%N) (N.shiftr c6 25%N)) in
  let m1 := (N.lxor m1 (N.lxor m2 c6)) in
  let c5 := (N.lxor c5 (N.lxor c6 (shl32 m2 7%N))) in
  let m1 := (N.lor (shl32 m1 5%N) (N.shiftr m1 27%N)) in
  let c5 := (N.lor (shl32 c5 22%N) (N.shiftr c5 10%N)) in
  let c0 := (N.lor (shl32 c0 13%N) (N.shiftr c0 19%N)) in
  let m4 := (N.lor (shl32 m4 3%N) (N.shiftr m4 29%N)) in
  let m3 := (N.lxor m3 (N.lxor c0 m4)) in
  let c7 := (N.lxor c7 (N.lxor m4 (shl32 c0 3%N))) in
  let m3 := (N.lor (shl32 m3 1%N) (N.shiftr m3 31%N)) in
  let c7 := (N.lor (shl32 c7 7%N) (N.shiftr c7 25%N)) in
  let c0 := (N.lxor c0 (N.lxor m3 c7)) in
  let m4 := (N.lxor m4 (N.lxor c7 (shl32 m3 7%N))) in
  let c0 := (N.lor (shl32 c0 5%N) (N.shiftr c0 27%N)) in
  let m4 := (N.lor (shl32 m4 22%N) (N.shiftr m4 10%N)) in
  let c1 := (N.lor (shl32 c1 13%N) (N.shiftr c1 19%N)) in
  let m5 := (N.lor (shl32 m5 3%N) (N.shiftr m5 29%N)) in
  let c2 := (N.lxor c2 (N.lxor c1 m5)) in
  let m6 := (N.lxor m6 (N.lxor m5 (shl32 c1 3%N))) in
  let c2 := (N.lor (shl32 c2 1%N) (N.shiftr c2 31%N)) in
  let m6 := (N.lor (shl32 m6 7%N) (N.shiftr m6 25%N)) in
  let c1 := (N.lxor c1 (N.lxor c2 m6)) in
  let m5 := (N.lxor m5 (N.lxor m6 (shl32 c2 7%N))) in
  let c1 := (N.lor (shl32 c1 5%N) (N.shiftr c1 27%N)) in
  let m5 := (N.lor (shl32 m5 22%N) (N.shiftr m5 10%N)) in
  [m0; m1; m2; m3; m4; m5; m6; m7; c0; c1; c2; c3; c4; c5; c6; c7].
(** digest256.go, the ends of process and processFinal: d.s[i] ^= the variable number i of this list *)
Definition hm_out256 : list nat := [0; 1; 8; 9; 4; 5; 12; 13].
(** digest512.go:339-644 (process; processFinal 825-1130 has the same statements with its constants): the constants of one round, on (m0, m1, ..., c0, c1, ...) *)
Definition hm_add512 (al : list N) (r : N) (V : list N) : list N :=
  let m0 := at_ V 0 in
  let m1 := at_ V 1 in
  let m2 := at_ V 2 in
  let m3 := at_ V 3 in
  let m4 := at_ V 4 in
  let m5 := at_ V 5 in
  let m6 := at_ V 6 in
  let m7 := at_ V 7 in
  let m8 := at_ V 8 in
  let m9 := at_ V 9 in
  let mA := at_ V 10 in
  let mB := at_ V 11 in
  let mC := at_ V 12 in
  let mD := at_ V 13 in
  let mE := at_ V 14 in
  let mF := at_ V 15 in
  let c0 := at_ V 16 in
  let c1 := at_ V 17 in
  let c2 := at_ V 18 in
  let c3 := at_ V 19 in
  let c4 := at_ V 20 in
  let c5 := at_ V 21 in
  let c6 := at_ V 22 in
  let c7 := at_ V 23 in
  let c8 := at_ V 24 in
  let c9 := at_ V 25 in
  let cA := at_ V 26 in
  let cB := at_ V 27 in
  let cC := at_ V 28 in
  let cD := at_ V 29 in
  let cE := at_ V 30 in
  let cF := at_ V 31 in
  let m0 := (N.lxor m0 (at_ al 0)) in
  let m1 := (N.lxor m1 (N.lxor (at_ al 1) r)) in
  let c0 := (N.lxor c0 (at_ al 2)) in
  let c1 := (N.lxor c1 (at_ al 3)) in
  let m2 := (N.lxor m2 (at_ al 4)) in
  let m3 := (N.lxor m3 (at_ al 5)) in
  let c2 := (N.lxor c2 (at_ al 6)) in
  let c3 := (N.lxor c3 (at_ al 7)) in
  let c4 := (N.lxor c4 (at_ al 8)) in
  let c5 := (N.lxor c5 (at_ al 9)) in
  let m4 := (N.lxor m4 (at_ al 10)) in
  let m5 := (N.lxor m5 (at_ al 11)) in
  let c6 := (N.lxor c6 (at_ al 12)) in
  let c7 := (N.lxor c7 (at_ al 13)) in
  let m6 := (N.lxor m6 (at_ al 14)) in
  let m7 := (N.lxor m7 (at_ al 15)) in
  let m8 := (N.lxor m8 (at_ al 16)) in
  let m9 := (N.lxor m9 (at_ al 17)) in
  let c8 := (N.lxor c8 (at_ al 18)) in
  let c9 := (N.lxor c9 (at_ al 19)) in
  let mA := (N.lxor mA (at_ al 20)) in
  let mB := (N.lxor mB (at_ al 21)) in
  let cA := (N.lxor cA (at_ al 22)) in
  let cB := (N.lxor cB (at_ al 23)) in
  let cC := (N.lxor cC (at_ al 24)) in
  let cD := (N.lxor cD (at_ al 25)) in
  let mC := (N.lxor mC (at_ al 26)) in
  let mD := (N.lxor mD (at_ al 27)) in
  let cE := (N.lxor cE (at_ al 28)) in
  let cF := (N.lxor cF (at_ al 29)) in
  let mE := (N.lxor mE (at_ al 30)) in
  let mF := (N.lxor mF (at_ al 31)) in
  [m0; m1; m2; m3; m4; m5; m6; m7; m8; m9; mA; mB; mC; mD; mE; mF; c0; c1; c2; c3; c4; c5; c6; c7; c8; c9; cA; cB; cC; cD; cE; cF].
(** digest512.go:339-644 (process; processFinal 825-1130 has the same statements with its constants): the S-boxes of one round, on (m0, m1, ..., c0, c1, ...) *)
Definition hm_sub512 (V : list N) : list N :=
  let m0 := at_ V 0 in
  let m1 := at_ V 1 in
  let m2 := at_ V 2 in
  let m3 := at_ V 3 in
  let m4 := at_ V 4 in
  let m5 := at_ V 5 in
  let m6 := at_ V 6 in
  let m7 := at_ V 7 in
  let m8 := at_ V 8 in
  let m9 := at_ V 9 in
  let mA := at_ V 10 in
  let mB := at_ V 11 in
  let mC := at_ V 12 in
  let mD := at_ V 13 in
  let mE := at_ V 14 in
  let mF := at_ V 15 in
  let c0 := at_ V 16 in
  let c1 := at_ V 17 in
  let c2 := at_ V 18 in
  let c3 := at_ V 19 in
  let c4 := at_ V 20 in
  let c5 := at_ V 21 in
  let c6 := at_ V 22 in
  let c7 := at_ V 23 in
  let c8 := at_ V 24 in
  let c9 := at_ V 25 in
  let cA := at_ V 26 in
  let cB := at_ V 27 in
  let cC := at_ V 28 in
  let cD := at_ V 29 in
  let cE := at_ V 30 in
  let cF := at_ V 31 in
  let t := m0 in
  let m0 := (N.land m0 m8) in
  let m0 := (N.lxor m0 cC) in
  let m8 := (N.lxor m8 c4) in
  let m8 := (N.lxor m8 m0) in
  let cC := (N.lor cC t) in
  let cC := (N.lxor cC c4) in
  let t := (N.lxor t m8) in
  let c4 := cC in
  let cC := (N.lor cC t) in
  let cC := (N.lxor cC m0) in
  let m0 := (N.land m0 c4) in
  let t := (N.lxor t m0) in
  let c4 := (N.lxor c4 cC) in
  let c4 := (N.lxor c4 t) in
  let m0 := m8 in
  let m8 := c4 in
  let c4 := cC in
  let cC := (not32 t) in
  let t := m1 in
  let m1 := (N.land m1 m9) in
  let m1 := (N.lxor m1 cD) in
  let m9 := (N.lxor m9 c5) in
  let m9 := (N.lxor m9 m1) in
  let cD := (N.lor cD t) in
  let cD := (N.lxor cD c5) in
  let t := (N.lxor t m9) in
  let c5 := cD in
  let cD := (N.lor cD t) in
  let cD := (N.lxor cD m1) in
  let m1 := (N.land m1 c5) in
  let t := (N.lxor t m1) in
  let c5 := (N.lxor c5 cD) in
  let c5 := (N.lxor c5 t) in
  let m1 := m9 in
  let m9 := c5 in
  let c5 := cD in
  let cD := (not32 t) in
  let t := c0 in
  let c0 := (N.land c0 c8) in
  let c0 := (N.lxor c0 mC) in
  let c8 := (N.lxor c8 m4) in
  let c8 := (N.lxor c8 c0) in
  let mC := (N.lor mC t) in
  let mC := (N.lxor mC m4) in
  let t := (N.lxor t c8) in
  let m4 := mC in
  let mC := (N.lor mC t) in
  let mC := (N.lxor mC c0) in
  let c0 := (N.land c0 m4) in
  let t := (N.lxor t c0) in
  let m4 := (N.lxor m4 mC) in
  let m4 := (N.lxor m4 t) in
  let c0 := c8 in
  let c8 := m4 in
  let m4 := mC in
  let mC := (not32 t) in
  let t := c1 in
  let c1 := (N.land c1 c9) in
  let c1 := (N.lxor c1 mD) in
  let c9 := (N.lxor c9 m5) in
  let c9 := (N.lxor c9 c1) in
  let mD := (N.lor mD t) in
  let mD := (N.lxor mD m5) in
  let t := (N.lxor t c9) in
  let m5 := mD in
  let mD := (N.lor mD t) in
  let mD := (N.lxor mD c1) in
  let c1 := (N.land c1 m5) in
  let t := (N.lxor t c1) in
  let m5 := (N.lxor m5 mD) in
  let m5 := (N.lxor m5 t) in
  let c1 := c9 in
  let c9 := m5 in
  let m5 := mD in
  let mD := (not32 t) in
  let t := m2 in
  let m2 := (N.land m2 mA) in
  let m2 := (N.lxor m2 cE) in
  let mA := (N.lxor mA c6) in
  let mA := (N.lxor mA m2) in
  let cE := (N.lor cE t) in
  let cE := (N.lxor cE c6) in
  let t := (N.lxor t mA) in
  let c6 := cE in
  let cE := (N.lor cE t) in
  let cE := (N.lxor cE m2) in
  let m2 := (N.land m2 c6) in
  let t := (N.lxor t m2) in
  let c6 := (N.lxor c6 cE) in
  let c6 := (N.lxor c6 t) in
  let m2 := mA in
  let mA := c6 in
  let c6 := cE in
  let cE := (not32 t) in
  let t := m3 in
  let m3 := (N.land m3 mB) in
  let m3 := (N.lxor m3 cF) in
  let mB := (N.lxor mB c7) in
  let mB := (N.lxor mB m3) in
  let cF := (N.lor cF t) in
  let cF := (N.lxor cF c7) in
  let t := (N.lxor t mB) in
  let c7 := cF in
  let cF := (N.lor cF t) in
  let cF := (N.lxor cF m3) in
  let m3 := (N.land m3 c7) in
  let t := (N.lxor t m3) in
  let c7 := (N.lxor c7 cF) in
  let c7 := (N.lxor c7 t) in
  let m3 := mB in
  let mB := c7 in
  let c7 := cF in
  let cF := (not32 t) in
  let t := c2 in
  let c2 := (N.land c2 cA) in
  let c2 := (N.lxor c2 mE) in
  let cA := (N.lxor cA m6) in
  let cA := (N.lxor cA c2) in
  let mE := (N.lor mE t) in
  let mE := (N.lxor mE m6) in
  let t := (N.lxor t cA) in
  let m6 := mE in
  let mE := (N.lor mE t) in
  let mE := (N.lxor mE c2) in
  let c2 := (N.land c2 m6) in
  let t := (N.lxor t c2) in
  let m6 := (N.lxor m6 mE) in
  let m6 := (N.lxor m6 t) in
  let c2 := cA in
  let cA := m6 in
  let m6 := mE in
  let mE := (not32 t) in
  let t := c3 in
  let c3 := (N.land c3 cB) in
  let c3 := (N.lxor c3 mF) in
  let cB := (N.lxor cB m7) in
  let cB := (N.lxor cB c3) in
  let mF := (N.lor mF t) in
  let mF := (N.lxor mF m7) in
  let t := (N.lxor t cB) in
  let m7 := mF in
  let mF := (N.lor mF t) in
  let mF := (N.lxor mF c3) in
  let c3 := (N.land c3 m7) in
  let t := (N.lxor t c3) in
  let m7 := (N.lxor m7 mF) in
  let m7 := (N.lxor m7 t) in
  let c3 := cB in
  let cB := m7 in
  let m7 := mF in
  let mF := (not32 t) in
  [m0; m1; m2; m3; m4; m5; m6; m7; m8; m9; mA; mB; mC; mD; mE; mF; c0; c1; c2; c3; c4; c5; c6; c7; c8; c9; cA; cB; cC; cD; cE; cF].
(** digest512.go:339-644 (process; processFinal 825-1130 has the same statements with its constants): the linear maps of one round, on (m0, m1, ..., c0, c1, ...) *)
Definition hm_lin512 (V : list N) : list N :=
  let m0 := at_ V 0 in
  let m1 := at_ V 1 in
  let m2 := at_ V 2 in
  let m3 := at_ V 3 in
  let m4 := at_ V 4 in
  let m5 := at_ V 5 in
  let m6 := at_ V 6 in
  let m7 := at_ V 7 in
  let m8 := at_ V 8 in
  let m9 := at_ V 9 in
  let mA := at_ V 10 in
  let mB := at_ V 11 in
  let mC := at_ V 12 in
  let mD := at_ V 13 in
  let mE := at_ V 14 in
  let mF := at_ V 15 in
  let c0 := at_ V 16 in
  let c1 := at_ V 17 in
  let c2 := at_ V 18 in
  let c3 := at_ V 19 in
  let c4 := at_ V 20 in
  let c5 := at_ V 21 in
  let c6 := at_ V 22 in
  let c7 := at_ V 23 in
  let c8 := at_ V 24 in
  let c9 := at_ V 25 in
  let cA := at_ V 26 in
  let cB := at_ V 27 in
  let cC := at_ V 28 in
  let cD := at_ V 29 in
  let cE := at_ V 30 in
  let cF := at_ V 31 in
  let m0 := (N.lor (shl32 m0 13%N) (N.shiftr m0 19%N)) in
  let c8 := (N.lor (shl32 c8 3%N) (N.shiftr c8 29%N)) in
  let c5 := (N.lxor c5 (N.lxor m0 c8)) in
  let mD := (N.lxor mD (N.lxor c8 (shl32 m0 3%N))) in
  let c5 := (N.lor (shl32 c5 1%N) (N.shiftr c5 31%N)) in
  let mD := (N.lor (shl32 mD 7%N) (N.shiftr mD 25%N)) in
  let m0 := (N.lxor m0 (N.lxor c5 mD)) in
  let c8 := (N.lxor c8 (N.lxor mD (shl32 c5 7%N))) in
  let m0 := (N.lor (shl32 m0 5%N) (N.shiftr m0 27%N)) in
  let c8 := (N.lor (shl32 c8 22%N) (N.shiftr c8 10%N)) in
  let m1 := (N.lor (shl32 m1 13%N) (N.shiftr m1 19%N)) in
  let c9 := (N.lor (shl32 c9 3%N) (N.shiftr c9 29%N)) in
  let m4 := (N.lxor m4 (N.lxor m1 c9)) in
  let cE := (N.lxor cE (N.lxor c9 (shl32 m1 3%N))) in
  let m4 := (N.lor (shl32 m4 1%N) (N.shiftr m4 31%N)) in
  let cE := (N.lor (shl32 cE 7%N) (N.shiftr cE 25%N)) in
  let m1 := (N.lxor m1 (N.lxor m4 cE)) in
  let c9 := (N.lxor c9 (N.lxor cE (shl32 m4 7%N))) in
  let m1 := (N.lor (shl32 m1 5%N) (N.shiftr m1 27%N)) in
  let c9 := (N.lor (shl32 c9 22%N) (N.shiftr c9 10%N)) in
  let c0 := (N.lor (shl32 c0 13%N) (N.shiftr c0 19%N)) in
  let mA := (N.lor (shl32 mA 3%N) (N.shiftr mA 29%N)) in
  let m5 := (N.lxor m5 (N.lxor c0 mA)) in
  let cF := (N.lxor cF (N.lxor mA (shl32 c0 3%N))) in
  let m5 := (N.lor (shl32 m5 1%N) (N.shiftr m5 31%N)) in
  let cF := (N.lor (shl32 cF 7%N) (N.shiftr cF 25%N)) in
  let c0 := (N.lxor c0 (N.lxor m5 cF)) in
  let mA := (N.lxor mA (N.lxor cF (shl32 m5 7%N))) in
  let c0 := (N.lor (shl32 c0 5%N) (N.shiftr c0 27%N)) in
  let mA := (N.lor (shl32 mA 22%N) (N.shiftr mA 10%N)) in
  let c1 := (N.lor (shl32 c1 13%N) (N.shiftr c1 19%N)) in
  let mB := (N.lor (shl32 mB 3%N) (N.shiftr mB 29%N)) in
  let c6 := (N.lxor c6 (N.lxor c1 mB)) in
  let mE := (N.lxor mE (N.lxor mB (shl32 c1 3%N))) in
  let c6 := (N.lor (shl32 c6 1%N) (N.shiftr c6 31%N)) in
  let mE := (N.lor (shl32 mE 7%N) (N.shiftr mE 25%N)) in
  let c1 := (N.lxor c1 (N.lxor c6 mE)) in
  let mB := (N.lxor mB (N.lxor mE (shl32 c6 7%N))) in
  let c1 := (N.lor (shl32 c1 5%N) (N.shiftr c1 27%N)) in
  let mB := (N.lor (shl32 mB 22%N) (N.shiftr mB 10%N)) in
  let m2 := (N.lor (shl32 m2 13%N) (N.shiftr m2 19%N)) in
  let cA := (N.lor (shl32 cA 3%N) (N.shiftr cA 29%N)) in
  let c7 := (N.lxor c7 (N.lxor m2 cA)) in
  let mF := (N.lxor mF (N.lxor cA (shl32 m2 3%N))) in
  let c7 := (N.lor (shl32 c7 1%N) (N.shiftr c7 31%N)) in
  let mF := (N.lor (shl32 mF 7%N) (N.shiftr mF 25%N)) in
  let m2 := (N.lxor m2 (N.lxor c7 mF)) in
  let cA := (N.lxor cA (N.lxor mF (shl32 c7 7%N))) in
  let m2 := (N.lor (shl32 m2 5%N) (N.shiftr m2 27%N)) in
  let cA := (N.lor (shl32 cA 22%N) (N.shiftr cA 10%N)) in
  let m3 := (N.lor (shl32 m3 13%N) (N.shiftr m3 19%N)) in
  let cB := (N.lor (shl32 cB 3%N) (N.shiftr cB 29%N)) in
  let m6 := (N.lxor m6 (N.lxor m3 cB)) in
  let cC := (N.lxor cC (N.lxor cB (shl32 m3 3%N))) in
  let m6 := (N.lor (shl32 m6 1%N) (N.shiftr m6 31%N)) in
  let cC := (N.lor (shl32 cC 7%N) (N.shiftr cC 25%N)) in
  let m3 := (N.lxor m3 (N.lxor m6 cC)) in
  let cB := (N.lxor cB (N.lxor cC (shl32 m6 7%N))) in
  let m3 := (N.lor (shl32 m3 5%N) (N.shiftr m3 27%N)) in
  let cB := (N.lor (shl32 cB 22%N) (N.shiftr cB 10%N)) in
  let c2 := (N.lor (shl32 c2 13%N) (N.shiftr c2 19%N)) in
  let m8 := (N.lor (shl32 m8 3%N) (N.shiftr m8 29%N)) in
  let m7 := (N.lxor m7 (N.lxor c2 m8)) in
  let cD := (N.lxor cD (N.lxor m8 (shl32 c2 3%N))) in
  let m7 := (N.lor (shl32 m7 1%N) (N.shiftr m7 31%N)) in
  let cD := (N.lor (shl32 cD 7%N) (N.shiftr cD 25%N)) in
  let c2 := (N.lxor c2 (N.lxor m7 cD)) in
  let m8 := (N.lxor m8 (N.lxor cD (shl32 m7 7%N))) in
  let c2 := (N.lor (shl32 c2 5%N) (N.shiftr c2 27%N)) in
  let m8 := (N.lor (shl32 m8 22%N) (N.shiftr m8 10%N)) in
  let c3 := (N.lor (shl32 c3 13%N) (N.shiftr c3 19%N)) in
  let m9 := (N.lor (shl32 m9 3%N) (N.shiftr m9 29%N)) in
  let c4 := (N.lxor c4 (N.lxor c3 m9)) in
  let mC := (N.lxor mC (N.lxor m9 (shl32 c3 3%N))) in
  let c4 := (N.lor (shl32 c4 1%N) (N.shiftr c4 31%N)) in
  let mC := (N.lor (shl32 mC 7%N) (N.shiftr mC 25%N)) in
  let c3 := (N.lxor c3 (N.lxor c4 mC)) in
  let m9 := (N.lxor m9 (N.lxor mC (shl32 c4 7%N))) in
  let c3 := (N.lor (shl32 c3 5%N) (N.shiftr c3 27%N)) in
  let m9 := (N.lor (shl32 m9 22%N) (N.shiftr m9 10%N)) in
  [m0; m1; m2; m3; m4; m5; m6; m7; m8; m9; mA; mB; mC; mD; mE; mF; c0; c1; c2; c3; c4; c5; c6; c7; c8; c9; cA; cB; cC; cD; cE; cF].
(** digest512.go:339-644 (process; processFinal 825-1130 has the same statements with its constants): the second linear maps of one round, on (m0, m1, ..., c0, c1, ...) *)
Definition hm_lin2512 (V : list N) : list N :=
  let m0 := at_ V 0 in
  let m1 := at_ V 1 in
  let m2 := at_ V 2 in
  let m3 := at_ V 3 in
  let m4 := at_ V 4 in
  let m5 := at_ V 5 in
  let m6 := at_ V 6 in
  let m7 := at_ V 7 in
  let m8 := at_ V 8 in
  let m9 := at_ V 9 in
  let mA := at_ V 10 in
  let mB := at_ V 11 in
  let mC := at_ V 12 in
  let mD := at_ V 13 in
  let mE := at_ V 14 in
  let mF := at_ V 15 in
  let c0 := at_ V 16 in
  let c1 := at_ V 17 in
  let c2 := at_ V 18 in
  let c3 := at_ V 19 in
  let c4 := at_ V 20 in
  let c5 := at_ V 21 in
  let c6 := at_ V 22 in
  let c7 := at_ V 23 in
  let c8 := at_ V 24 in
  let c9 := at_ V 25 in
  let cA := at_ V 26 in
  let cB := at_ V 27 in
  let cC := at_ V 28 in
  let cD := at_ V 29 in
  let cE := at_ V 30 in
  let cF := at_ V 31 in
  let m0 := (N.lor (shl32 m0 13%N) (N.shiftr m0 19%N)) in
  let m3 := (N.lor (shl32 m3 3%N) (N.shiftr m3 29%N)) in
  let c0 := (N.lxor c0 (N.lxor m0 m3)) in
  let c3 := (N.lxor c3 (N.lxor m3 (shl32 m0 3%N))) in
  let c0 := (N.lor (shl32 c0 1%N) (N.shiftr c0 31%N)) in
  let c3 := (N.lor (shl32 c3 7%N) (N.shiftr c3 25%N)) in
  let m0 := (N.lxor m0 (N.lxor c0 c3)) in
  let m3 := (N.lxor m3 (N.lxor c3 (shl32 c0 7%N))) in
  let m0 := (N.lor (shl32 m0 5%N) (N.shiftr m0 27%N)) in
  let m3 := (N.lor (shl32 m3 22%N) (N.shiftr m3 10%N)) in
  let m8 := (N.lor (shl32 m8 13%N) (N.shiftr m8 19%N)) in
  let mB := (N.lor (shl32 mB 3%N) (N.shiftr mB 29%N)) in
  let c9 := (N.lxor c9 (N.lxor m8 mB)) in
  let cA := (N.lxor cA (N.lxor mB (shl32 m8 3%N))) in
  let c9 := (N.lor (shl32 c9 1%N) (N.shiftr c9 31%N)) in
  let cA := (N.lor (shl32 cA 7%N) (N.shiftr cA 25%N)) in
  let m8 := (N.lxor m8 (N.lxor c9 cA)) in
  let mB := (N.lxor mB (N.lxor cA (shl32 c9 7%N))) in
  let m8 := (N.lor (shl32 m8 5%N) (N.shiftr m8 27%N)) in
  let mB := (N.lor (shl32 mB 22%N) (N.shiftr mB 10%N)) in
  let c5 := (N.lor (shl32 c5 13%N) (N.shiftr c5 19%N)) in
  let c6 := (N.lor (shl32 c6 3%N) (N.shiftr c6 29%N)) in
  let m5 := (N.lxor m5 (N.lxor c5 c6)) in
  let m6 := (N.lxor m6 (N.lxor c6 (shl32 c5 3%N))) in
  let m5 := (N.lor (shl32 m5 1%N) (N.shiftr m5 31%N)) in
  let m6 := (N.lor (shl32 m6 7%N) (N.shiftr m6 25%N)) in
  let c5 := (N.lxor c5 (N.lxor m5 m6)) in
  let c6 := (N.lxor c6 (N.lxor m6 (shl32 m5 7%N))) in
  let c5 := (N.lor (shl32 c5 5%N) (N.shiftr c5 27%N)) in
  let c6 := (N.lor (shl32 c6 22%N) (N.shiftr c6 10%N)) in
  let cD := (N.lor (shl32 cD 13%N) (N.shiftr cD 19%N)) in
  let cE := (N.lor (shl32 cE 3%N) (N.shiftr cE 29%N)) in
  let mC := (N.lxor mC (N.lxor cD cE)) in
  let mF := (N.lxor mF (N.lxor cE (shl32 cD 3%N))) in
  let mC := (N.lor (shl32 mC 1%N) (N.shiftr mC 31%N)) in
  let mF := (N.lor (shl32 mF 7%N) (N.shiftr mF 25%N)) in
  let cD := (N.lxor cD (N.lxor mC mF)) in
  let cE := (N.lxor cE (N.lxor mF (shl32 mC 7%N))) in
  let cD := (N.lor (shl32 cD 5%N) (N.shiftr cD 27%N)) in
  let cE := (N.lor (shl32 cE 22%N) (N.shiftr cE 10%N)) in
  [m0; m1; m2; m3; m4; m5; m6; m7; m8; m9; mA; mB; mC; mD; mE; mF; c0; c1; c2; c3; c4; c5; c6; c7; c8; c9; cA; cB; cC; cD; cE; cF].
(** digest512.go, the ends of process and processFinal: d.s[i] ^= the variable number i of this list *)
Definition hm_out512 : list nat := [0; 1; 16; 17; 2; 3; 18; 19; 8; 9; 24; 25; 10; 11; 26; 27].
