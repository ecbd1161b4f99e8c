(** LuffaTab.v -- generated by tools/luffa.py from /repo/luffa (sbox.go and the straight-line parts of processBlock). *)
From Coq Require Import List NArith.
Require Import Verif.Base.
Import ListNotations.
(** sbox.go:3 *)
Definition lf_IV_256 : list N := [0x6d251e69; 0x44b051e0; 0x4eaa6fb4; 0xdbf78465; 0x6e292011; 0x90152df4; 0xee058139; 0xdef610bb; 0xc3b44b95; 0xd9d2f256; 0x70eee9a0; 0xde099fa3; 0x5d9b0557; 0x8fc944b3; 0xcf1ccf0e; 0x746cd581; 0xf7efc89d; 0x5dba5781; 0x04016ce5; 0xad659c05; 0x0306194f; 0x666d1836; 0x24aa230a; 0x8b264ae7]%N.
(** sbox.go:12 *)
Definition lf_RC00_256 : list N := [0x303994a6; 0xc0e65299; 0x6cc33a12; 0xdc56983e; 0x1e00108f; 0x7800423d; 0x8f5b7882; 0x96e1db12]%N.
(** sbox.go:17 *)
Definition lf_RC04_256 : list N := [0xe0337818; 0x441ba90d; 0x7f34d442; 0x9389217f; 0xe5a8bce6; 0x5274baf4; 0x26889ba7; 0x9a226e9d]%N.
(** sbox.go:22 *)
Definition lf_RC10_256 : list N := [0xb6de10ed; 0x70f47aae; 0x0707a3d4; 0x1c1e8f51; 0x707a3d45; 0xaeb28562; 0xbaca1589; 0x40a46f3e]%N.
(** sbox.go:27 *)
Definition lf_RC14_256 : list N := [0x01685f3d; 0x05a17cf4; 0xbd09caca; 0xf4272b28; 0x144ae5cc; 0xfaa7ae2b; 0x2e48f1c1; 0xb923c704]%N.
(** sbox.go:32 *)
Definition lf_RC20_256 : list N := [0xfc20d9d2; 0x34552e25; 0x7ad8818f; 0x8438764a; 0xbb6de032; 0xedb780c8; 0xd9847356; 0xa2c78434]%N.
(** sbox.go:37 *)
Definition lf_RC24_256 : list N := [0xe25e72c1; 0xe623bb72; 0x5c58a4a4; 0x1e38e2e7; 0x78e38b9d; 0x27586719; 0x36eda57f; 0x703aace7]%N.
(** sbox.go:44 *)
Definition lf_IV_384 : list N := [0x6d251e69; 0x44b051e0; 0x4eaa6fb4; 0xdbf78465; 0x6e292011; 0x90152df4; 0xee058139; 0xdef610bb; 0xc3b44b95; 0xd9d2f256; 0x70eee9a0; 0xde099fa3; 0x5d9b0557; 0x8fc944b3; 0xcf1ccf0e; 0x746cd581; 0xf7efc89d; 0x5dba5781; 0x04016ce5; 0xad659c05; 0x0306194f; 0x666d1836; 0x24aa230a; 0x8b264ae7; 0x858075d5; 0x36d79cce; 0xe571f7d7; 0x204b1f67; 0x35870c6a; 0x57e9e923; 0x14bcb808; 0x7cde72ce]%N.
(** sbox.go:55 *)
Definition lf_RC00_384 : list N := [0x303994a6; 0xc0e65299; 0x6cc33a12; 0xdc56983e; 0x1e00108f; 0x7800423d; 0x8f5b7882; 0x96e1db12]%N.
(** sbox.go:60 *)
Definition lf_RC04_384 : list N := [0xe0337818; 0x441ba90d; 0x7f34d442; 0x9389217f; 0xe5a8bce6; 0x5274baf4; 0x26889ba7; 0x9a226e9d]%N.
(** sbox.go:65 *)
Definition lf_RC10_384 : list N := [0xb6de10ed; 0x70f47aae; 0x0707a3d4; 0x1c1e8f51; 0x707a3d45; 0xaeb28562; 0xbaca1589; 0x40a46f3e]%N.
(** sbox.go:70 *)
Definition lf_RC14_384 : list N := [0x01685f3d; 0x05a17cf4; 0xbd09caca; 0xf4272b28; 0x144ae5cc; 0xfaa7ae2b; 0x2e48f1c1; 0xb923c704]%N.
(** sbox.go:75 *)
Definition lf_RC20_384 : list N := [0xfc20d9d2; 0x34552e25; 0x7ad8818f; 0x8438764a; 0xbb6de032; 0xedb780c8; 0xd9847356; 0xa2c78434]%N.
(** sbox.go:80 *)
Definition lf_RC24_384 : list N := [0xe25e72c1; 0xe623bb72; 0x5c58a4a4; 0x1e38e2e7; 0x78e38b9d; 0x27586719; 0x36eda57f; 0x703aace7]%N.
(** sbox.go:85 *)
Definition lf_RC30_384 : list N := [0xb213afa5; 0xc84ebe95; 0x4e608a22; 0x56d858fe; 0x343b138f; 0xd0ec4e3d; 0x2ceb4882; 0xb3ad2208]%N.
(** sbox.go:90 *)
Definition lf_RC34_384 : list N := [0xe028c9bf; 0x44756f91; 0x7e8fce32; 0x956548be; 0xfe191be2; 0x3cb226e5; 0x5944a28e; 0xa1c4c355]%N.
(** sbox.go:97 *)
Definition lf_IV_512 : list N := [0x6d251e69; 0x44b051e0; 0x4eaa6fb4; 0xdbf78465; 0x6e292011; 0x90152df4; 0xee058139; 0xdef610bb; 0xc3b44b95; 0xd9d2f256; 0x70eee9a0; 0xde099fa3; 0x5d9b0557; 0x8fc944b3; 0xcf1ccf0e; 0x746cd581; 0xf7efc89d; 0x5dba5781; 0x04016ce5; 0xad659c05; 0x0306194f; 0x666d1836; 0x24aa230a; 0x8b264ae7; 0x858075d5; 0x36d79cce; 0xe571f7d7; 0x204b1f67; 0x35870c6a; 0x57e9e923; 0x14bcb808; 0x7cde72ce; 0x6c68e9be; 0x5ec41e22; 0xc825b7c7; 0xaffb4363; 0xf5df3999; 0x0fc688f1; 0xb07224cc; 0x03e86cea]%N.
(** sbox.go:110 *)
Definition lf_RC00_512 : list N := [0x303994a6; 0xc0e65299; 0x6cc33a12; 0xdc56983e; 0x1e00108f; 0x7800423d; 0x8f5b7882; 0x96e1db12]%N.
(** sbox.go:115 *)
Definition lf_RC04_512 : list N := [0xe0337818; 0x441ba90d; 0x7f34d442; 0x9389217f; 0xe5a8bce6; 0x5274baf4; 0x26889ba7; 0x9a226e9d]%N.
(** sbox.go:120 *)
Definition lf_RC10_512 : list N := [0xb6de10ed; 0x70f47aae; 0x0707a3d4; 0x1c1e8f51; 0x707a3d45; 0xaeb28562; 0xbaca1589; 0x40a46f3e]%N.
(** sbox.go:125 *)
Definition lf_RC14_512 : list N := [0x01685f3d; 0x05a17cf4; 0xbd09caca; 0xf4272b28; 0x144ae5cc; 0xfaa7ae2b; 0x2e48f1c1; 0xb923c704]%N.
(** sbox.go:130 *)
Definition lf_RC20_512 : list N := [0xfc20d9d2; 0x34552e25; 0x7ad8818f; 0x8438764a; 0xbb6de032; 0xedb780c8; 0xd9847356; 0xa2c78434]%N.
(** sbox.go:135 *)
Definition lf_RC24_512 : list N := [0xe25e72c1; 0xe623bb72; 0x5c58a4a4; 0x1e38e2e7; 0x78e38b9d; 0x27586719; 0x36eda57f; 0x703aace7]%N.
(** sbox.go:140 *)
Definition lf_RC30_512 : list N := [0xb213afa5; 0xc84ebe95; 0x4e608a22; 0x56d858fe; 0x343b138f; 0xd0ec4e3d; 0x2ceb4882; 0xb3ad2208]%N.
(** sbox.go:145 *)
Definition lf_RC34_512 : list N := [0xe028c9bf; 0x44756f91; 0x7e8fce32; 0x956548be; 0xfe191be2; 0x3cb226e5; 0x5944a28e; 0xa1c4c355]%N.
(** sbox.go:150 *)
Definition lf_RC40_512 : list N := [0xf0d2e9e3; 0xac11d7fa; 0x1bcb66f2; 0x6f2d9bc9; 0x78602649; 0x8edae952; 0x3b6ba548; 0xedae9520]%N.
(** sbox.go:155 *)
Definition lf_RC44_512 : list N := [0x5090d577; 0x2d1925ab; 0xb46496ac; 0xd1925ab0; 0x29131ab6; 0x0fc053c3; 0x3f014f0c; 0xfc053c31]%N.
(** digest256.go:184-282, processBlock up to the step loops *)
Definition lf_mi256 (V M : list N) : list N :=
  let V00 := at_ V 0 in
  let V01 := at_ V 1 in
  let V02 := at_ V 2 in
  let V03 := at_ V 3 in
  let V04 := at_ V 4 in
  let V05 := at_ V 5 in
  let V06 := at_ V 6 in
  let V07 := at_ V 7 in
  let V10 := at_ V 8 in
  let V11 := at_ V 9 in
  let V12 := at_ V 10 in
  let V13 := at_ V 11 in
  let V14 := at_ V 12 in
  let V15 := at_ V 13 in
  let V16 := at_ V 14 in
  let V17 := at_ V 15 in
  let V20 := at_ V 16 in
  let V21 := at_ V 17 in
  let V22 := at_ V 18 in
  let V23 := at_ V 19 in
  let V24 := at_ V 20 in
  let V25 := at_ V 21 in
  let V26 := at_ V 22 in
  let V27 := at_ V 23 in
  let M0 := at_ M 0 in
  let M1 := at_ M 1 in
  let M2 := at_ M 2 in
  let M3 := at_ M 3 in
  let M4 := at_ M 4 in
  let M5 := at_ M 5 in
  let M6 := at_ M 6 in
  let M7 := at_ M 7 in
  let a0 := (N.lxor V00 V10) in
  let a1 := (N.lxor V01 V11) in
  let a2 := (N.lxor V02 V12) in
  let a3 := (N.lxor V03 V13) in
  let a4 := (N.lxor V04 V14) in
  let a5 := (N.lxor V05 V15) in
  let a6 := (N.lxor V06 V16) in
  let a7 := (N.lxor V07 V17) in
  let a0 := (N.lxor a0 V20) in
  let a1 := (N.lxor a1 V21) in
  let a2 := (N.lxor a2 V22) in
  let a3 := (N.lxor a3 V23) in
  let a4 := (N.lxor a4 V24) in
  let a5 := (N.lxor a5 V25) in
  let a6 := (N.lxor a6 V26) in
  let a7 := (N.lxor a7 V27) in
  let tmp := a7 in
  let a7 := a6 in
  let a6 := a5 in
  let a5 := a4 in
  let a4 := (N.lxor a3 tmp) in
  let a3 := (N.lxor a2 tmp) in
  let a2 := a1 in
  let a1 := (N.lxor a0 tmp) in
  let a0 := tmp in
  let V00 := (N.lxor a0 V00) in
  let V01 := (N.lxor a1 V01) in
  let V02 := (N.lxor a2 V02) in
  let V03 := (N.lxor a3 V03) in
  let V04 := (N.lxor a4 V04) in
  let V05 := (N.lxor a5 V05) in
  let V06 := (N.lxor a6 V06) in
  let V07 := (N.lxor a7 V07) in
  let V00 := (N.lxor M0 V00) in
  let V01 := (N.lxor M1 V01) in
  let V02 := (N.lxor M2 V02) in
  let V03 := (N.lxor M3 V03) in
  let V04 := (N.lxor M4 V04) in
  let V05 := (N.lxor M5 V05) in
  let V06 := (N.lxor M6 V06) in
  let V07 := (N.lxor M7 V07) in
  let tmp := M7 in
  let M7 := M6 in
  let M6 := M5 in
  let M5 := M4 in
  let M4 := (N.lxor M3 tmp) in
  let M3 := (N.lxor M2 tmp) in
  let M2 := M1 in
  let M1 := (N.lxor M0 tmp) in
  let M0 := tmp in
  let V10 := (N.lxor a0 V10) in
  let V11 := (N.lxor a1 V11) in
  let V12 := (N.lxor a2 V12) in
  let V13 := (N.lxor a3 V13) in
  let V14 := (N.lxor a4 V14) in
  let V15 := (N.lxor a5 V15) in
  let V16 := (N.lxor a6 V16) in
  let V17 := (N.lxor a7 V17) in
  let V10 := (N.lxor M0 V10) in
  let V11 := (N.lxor M1 V11) in
  let V12 := (N.lxor M2 V12) in
  let V13 := (N.lxor M3 V13) in
  let V14 := (N.lxor M4 V14) in
  let V15 := (N.lxor M5 V15) in
  let V16 := (N.lxor M6 V16) in
  let V17 := (N.lxor M7 V17) in
  let tmp := M7 in
  let M7 := M6 in
  let M6 := M5 in
  let M5 := M4 in
  let M4 := (N.lxor M3 tmp) in
  let M3 := (N.lxor M2 tmp) in
  let M2 := M1 in
  let M1 := (N.lxor M0 tmp) in
  let M0 := tmp in
  let V20 := (N.lxor a0 V20) in
  let V21 := (N.lxor a1 V21) in
  let V22 := (N.lxor a2 V22) in
  let V23 := (N.lxor a3 V23) in
  let V24 := (N.lxor a4 V24) in
  let V25 := (N.lxor a5 V25) in
  let V26 := (N.lxor a6 V26) in
  let V27 := (N.lxor a7 V27) in
  let V20 := (N.lxor M0 V20) in
  let V21 := (N.lxor M1 V21) in
  let V22 := (N.lxor M2 V22) in
  let V23 := (N.lxor M3 V23) in
  let V24 := (N.lxor M4 V24) in
  let V25 := (N.lxor M5 V25) in
  let V26 := (N.lxor M6 V26) in
  let V27 := (N.lxor M7 V27) in
  let V14 := (N.lor (shl32 V14 1%N) (N.shiftr V14 31%N)) in
  let V15 := (N.lor (shl32 V15 1%N) (N.shiftr V15 31%N)) in
  let V16 := (N.lor (shl32 V16 1%N) (N.shiftr V16 31%N)) in
  let V17 := (N.lor (shl32 V17 1%N) (N.shiftr V17 31%N)) in
  let V24 := (N.lor (shl32 V24 2%N) (N.shiftr V24 30%N)) in
  let V25 := (N.lor (shl32 V25 2%N) (N.shiftr V25 30%N)) in
  let V26 := (N.lor (shl32 V26 2%N) (N.shiftr V26 30%N)) in
  let V27 := (N.lor (shl32 V27 2%N) (N.shiftr V27 30%N)) in
  [V00; V01; V02; V03; V04; V05; V06; V07; V10; V11; V12; V13; V14; V15; V16; V17; V20; V21; V22; V23; V24; V25; V26; V27].
(** digest384.go:196-399, processBlock up to the step loops *)
Definition lf_mi384 (V M : list N) : list N :=
  let V00 := at_ V 0 in
  let V01 := at_ V 1 in
  let V02 := at_ V 2 in
  let V03 := at_ V 3 in
  let V04 := at_ V 4 in
  let V05 := at_ V 5 in
  let V06 := at_ V 6 in
  let V07 := at_ V 7 in
  let V10 := at_ V 8 in
  let V11 := at_ V 9 in
  let V12 := at_ V 10 in
  let V13 := at_ V 11 in
  let V14 := at_ V 12 in
  let V15 := at_ V 13 in
  let V16 := at_ V 14 in
  let V17 := at_ V 15 in
  let V20 := at_ V 16 in
  let V21 := at_ V 17 in
  let V22 := at_ V 18 in
  let V23 := at_ V 19 in
  let V24 := at_ V 20 in
  let V25 := at_ V 21 in
  let V26 := at_ V 22 in
  let V27 := at_ V 23 in
  let V30 := at_ V 24 in
  let V31 := at_ V 25 in
  let V32 := at_ V 26 in
  let V33 := at_ V 27 in
  let V34 := at_ V 28 in
  let V35 := at_ V 29 in
  let V36 := at_ V 30 in
  let V37 := at_ V 31 in
  let M0 := at_ M 0 in
  let M1 := at_ M 1 in
  let M2 := at_ M 2 in
  let M3 := at_ M 3 in
  let M4 := at_ M 4 in
  let M5 := at_ M 5 in
  let M6 := at_ M 6 in
  let M7 := at_ M 7 in
  let a0 := (N.lxor V00 V10) in
  let a1 := (N.lxor V01 V11) in
  let a2 := (N.lxor V02 V12) in
  let a3 := (N.lxor V03 V13) in
  let a4 := (N.lxor V04 V14) in
  let a5 := (N.lxor V05 V15) in
  let a6 := (N.lxor V06 V16) in
  let a7 := (N.lxor V07 V17) in
  let b0 := (N.lxor V20 V30) in
  let b1 := (N.lxor V21 V31) in
  let b2 := (N.lxor V22 V32) in
  let b3 := (N.lxor V23 V33) in
  let b4 := (N.lxor V24 V34) in
  let b5 := (N.lxor V25 V35) in
  let b6 := (N.lxor V26 V36) in
  let b7 := (N.lxor V27 V37) in
  let a0 := (N.lxor a0 b0) in
  let a1 := (N.lxor a1 b1) in
  let a2 := (N.lxor a2 b2) in
  let a3 := (N.lxor a3 b3) in
  let a4 := (N.lxor a4 b4) in
  let a5 := (N.lxor a5 b5) in
  let a6 := (N.lxor a6 b6) in
  let a7 := (N.lxor a7 b7) in
  let tmp := a7 in
  let a7 := a6 in
  let a6 := a5 in
  let a5 := a4 in
  let a4 := (N.lxor a3 tmp) in
  let a3 := (N.lxor a2 tmp) in
  let a2 := a1 in
  let a1 := (N.lxor a0 tmp) in
  let a0 := tmp in
  let V00 := (N.lxor a0 V00) in
  let V01 := (N.lxor a1 V01) in
  let V02 := (N.lxor a2 V02) in
  let V03 := (N.lxor a3 V03) in
  let V04 := (N.lxor a4 V04) in
  let V05 := (N.lxor a5 V05) in
  let V06 := (N.lxor a6 V06) in
  let V07 := (N.lxor a7 V07) in
  let V10 := (N.lxor a0 V10) in
  let V11 := (N.lxor a1 V11) in
  let V12 := (N.lxor a2 V12) in
  let V13 := (N.lxor a3 V13) in
  let V14 := (N.lxor a4 V14) in
  let V15 := (N.lxor a5 V15) in
  let V16 := (N.lxor a6 V16) in
  let V17 := (N.lxor a7 V17) in
  let V20 := (N.lxor a0 V20) in
  let V21 := (N.lxor a1 V21) in
  let V22 := (N.lxor a2 V22) in
  let V23 := (N.lxor a3 V23) in
  let V24 := (N.lxor a4 V24) in
  let V25 := (N.lxor a5 V25) in
  let V26 := (N.lxor a6 V26) in
  let V27 := (N.lxor a7 V27) in
  let V30 := (N.lxor a0 V30) in
  let V31 := (N.lxor a1 V31) in
  let V32 := (N.lxor a2 V32) in
  let V33 := (N.lxor a3 V33) in
  let V34 := (N.lxor a4 V34) in
  let V35 := (N.lxor a5 V35) in
  let V36 := (N.lxor a6 V36) in
  let V37 := (N.lxor a7 V37) in
  let tmp := V07 in
  let b7 := V06 in
  let b6 := V05 in
  let b5 := V04 in
  let b4 := (N.lxor V03 tmp) in
  let b3 := (N.lxor V02 tmp) in
  let b2 := V01 in
  let b1 := (N.lxor V00 tmp) in
  let b0 := tmp in
  let b0 := (N.lxor b0 V30) in
  let b1 := (N.lxor b1 V31) in
  let b2 := (N.lxor b2 V32) in
  let b3 := (N.lxor b3 V33) in
  let b4 := (N.lxor b4 V34) in
  let b5 := (N.lxor b5 V35) in
  let b6 := (N.lxor b6 V36) in
  let b7 := (N.lxor b7 V37) in
  let tmp := V37 in
  let V37 := V36 in
  let V36 := V35 in
  let V35 := V34 in
  let V34 := (N.lxor V33 tmp) in
  let V33 := (N.lxor V32 tmp) in
  let V32 := V31 in
  let V31 := (N.lxor V30 tmp) in
  let V30 := tmp in
  let V30 := (N.lxor V30 V20) in
  let V31 := (N.lxor V31 V21) in
  let V32 := (N.lxor V32 V22) in
  let V33 := (N.lxor V33 V23) in
  let V34 := (N.lxor V34 V24) in
  let V35 := (N.lxor V35 V25) in
  let V36 := (N.lxor V36 V26) in
  let V37 := (N.lxor V37 V27) in
  let tmp := V27 in
  let V27 := V26 in
  let V26 := V25 in
  let V25 := V24 in
  let V24 := (N.lxor V23 tmp) in
  let V23 := (N.lxor V22 tmp) in
  let V22 := V21 in
  let V21 := (N.lxor V20 tmp) in
  let V20 := tmp in
  let V20 := (N.lxor V20 V10) in
  let V21 := (N.lxor V21 V11) in
  let V22 := (N.lxor V22 V12) in
  let V23 := (N.lxor V23 V13) in
  let V24 := (N.lxor V24 V14) in
  let V25 := (N.lxor V25 V15) in
  let V26 := (N.lxor V26 V16) in
  let V27 := (N.lxor V27 V17) in
  let tmp := V17 in
  let V17 := V16 in
  let V16 := V15 in
  let V15 := V14 in
  let V14 := (N.lxor V13 tmp) in
  let V13 := (N.lxor V12 tmp) in
  let V12 := V11 in
  let V11 := (N.lxor V10 tmp) in
  let V10 := tmp in
  let V10 := (N.lxor V10 V00) in
  let V11 := (N.lxor V11 V01) in
  let V12 := (N.lxor V12 V02) in
  let V13 := (N.lxor V13 V03) in
  let V14 := (N.lxor V14 V04) in
  let V15 := (N.lxor V15 V05) in
  let V16 := (N.lxor V16 V06) in
  let V17 := (N.lxor V17 V07) in
  let V00 := (N.lxor b0 M0) in
  let V01 := (N.lxor b1 M1) in
  let V02 := (N.lxor b2 M2) in
  let V03 := (N.lxor b3 M3) in
  let V04 := (N.lxor b4 M4) in
  let V05 := (N.lxor b5 M5) in
  let V06 := (N.lxor b6 M6) in
  let V07 := (N.lxor b7 M7) in
  let tmp := M7 in
  let M7 := M6 in
  let M6 := M5 in
  let M5 := M4 in
  let M4 := (N.lxor M3 tmp) in
  let M3 := (N.lxor M2 tmp) in
  let M2 := M1 in
  let M1 := (N.lxor M0 tmp) in
  let M0 := tmp in
  let V10 := (N.lxor V10 M0) in
  let V11 := (N.lxor V11 M1) in
  let V12 := (N.lxor V12 M2) in
  let V13 := (N.lxor V13 M3) in
  let V14 := (N.lxor V14 M4) in
  let V15 := (N.lxor V15 M5) in
  let V16 := (N.lxor V16 M6) in
  let V17 := (N.lxor V17 M7) in
  let tmp := M7 in
  let M7 := M6 in
  let M6 := M5 in
  let M5 := M4 in
  let M4 := (N.lxor M3 tmp) in
  let M3 := (N.lxor M2 tmp) in
  let M2 := M1 in
  let M1 := (N.lxor M0 tmp) in
  let M0 := tmp in
  let V20 := (N.lxor V20 M0) in
  let V21 := (N.lxor V21 M1) in
  let V22 := (N.lxor V22 M2) in
  let V23 := (N.lxor V23 M3) in
  let V24 := (N.lxor V24 M4) in
  let V25 := (N.lxor V25 M5) in
  let V26 := (N.lxor V26 M6) in
  let V27 := (N.lxor V27 M7) in
  let tmp := M7 in
  let M7 := M6 in
  let M6 := M5 in
  let M5 := M4 in
  let M4 := (N.lxor M3 tmp) in
  let M3 := (N.lxor M2 tmp) in
  let M2 := M1 in
  let M1 := (N.lxor M0 tmp) in
  let M0 := tmp in
  let V30 := (N.lxor V30 M0) in
  let V31 := (N.lxor V31 M1) in
  let V32 := (N.lxor V32 M2) in
  let V33 := (N.lxor V33 M3) in
  let V34 := (N.lxor V34 M4) in
  let V35 := (N.lxor V35 M5) in
  let V36 := (N.lxor V36 M6) in
  let V37 := (N.lxor V37 M7) in
  let V14 := (N.lor (shl32 V14 1%N) (N.shiftr V14 31%N)) in
  let V15 := (N.lor (shl32 V15 1%N) (N.shiftr V15 31%N)) in
  let V16 := (N.lor (shl32 V16 1%N) (N.shiftr V16 31%N)) in
  let V17 := (N.lor (shl32 V17 1%N) (N.shiftr V17 31%N)) in
  let V24 := (N.lor (shl32 V24 2%N) (N.shiftr V24 30%N)) in
  let V25 := (N.lor (shl32 V25 2%N) (N.shiftr V25 30%N)) in
  let V26 := (N.lor (shl32 V26 2%N) (N.shiftr V26 30%N)) in
  let V27 := (N.lor (shl32 V27 2%N) (N.shiftr V27 30%N)) in
  let V34 := (N.lor (shl32 V34 3%N) (N.shiftr V34 29%N)) in
  let V35 := (N.lor (shl32 V35 3%N) (N.shiftr V35 29%N)) in
  let V36 := (N.lor (shl32 V36 3%N) (N.shiftr V36 29%N)) in
  let V37 := (N.lor (shl32 V37 3%N) (N.shiftr V37 29%N)) in
  [V00; V01; V02; V03; V04; V05; V06; V07; V10; V11; V12; V13; V14; V15; V16; V17; V20; V21; V22; V23; V24; V25; V26; V27; V30; V31; V32; V33; V34; V35; V36; V37].
(** digest512.go:217-559, processBlock up to the step loops *)
Definition lf_mi512 (V M : list N) : list N :=
  let V00 := at_ V 0 in
  let V01 := at_ V 1 in
  let V02 := at_ V 2 in
  let V03 := at_ V 3 in
  let V04 := at_ V 4 in
  let V05 := at_ V 5 in
  let V06 := at_ V 6 in
  let V07 := at_ V 7 in
  let V10 := at_ V 8 in
  let V11 := at_ V 9 in
  let V12 := at_ V 10 in
  let V13 := at_ V 11 in
  let V14 := at_ V 12 in
  let V15 := at_ V 13 in
  let V16 := at_ V 14 in
  let V17 := at_ V 15 in
  let V20 := at_ V 16 in
  let V21 := at_ V 17 in
  let V22 := at_ V 18 in
  let V23 := at_ V 19 in
  let V24 := at_ V 20 in
  let V25 := at_ V 21 in
  let V26 := at_ V 22 in
  let V27 := at_ V 23 in
  let V30 := at_ V 24 in
  let V31 := at_ V 25 in
  let V32 := at_ V 26 in
  let V33 := at_ V 27 in
  let V34 := at_ V 28 in
  let V35 := at_ V 29 in
  let V36 := at_ V 30 in
  let V37 := at_ V 31 in
  let V40 := at_ V 32 in
  let V41 := at_ V 33 in
  let V42 := at_ V 34 in
  let V43 := at_ V 35 in
  let V44 := at_ V 36 in
  let V45 := at_ V 37 in
  let V46 := at_ V 38 in
  let V47 := at_ V 39 in
  let M0 := at_ M 0 in
  let M1 := at_ M 1 in
  let M2 := at_ M 2 in
  let M3 := at_ M 3 in
  let M4 := at_ M 4 in
  let M5 := at_ M 5 in
  let M6 := at_ M 6 in
  let M7 := at_ M 7 in
  let a0 := (N.lxor V00 V10) in
  let a1 := (N.lxor V01 V11) in
  let a2 := (N.lxor V02 V12) in
  let a3 := (N.lxor V03 V13) in
  let a4 := (N.lxor V04 V14) in
  let a5 := (N.lxor V05 V15) in
  let a6 := (N.lxor V06 V16) in
  let a7 := (N.lxor V07 V17) in
  let b0 := (N.lxor V20 V30) in
  let b1 := (N.lxor V21 V31) in
  let b2 := (N.lxor V22 V32) in
  let b3 := (N.lxor V23 V33) in
  let b4 := (N.lxor V24 V34) in
  let b5 := (N.lxor V25 V35) in
  let b6 := (N.lxor V26 V36) in
  let b7 := (N.lxor V27 V37) in
  let a0 := (N.lxor a0 b0) in
  let a1 := (N.lxor a1 b1) in
  let a2 := (N.lxor a2 b2) in
  let a3 := (N.lxor a3 b3) in
  let a4 := (N.lxor a4 b4) in
  let a5 := (N.lxor a5 b5) in
  let a6 := (N.lxor a6 b6) in
  let a7 := (N.lxor a7 b7) in
  let a0 := (N.lxor a0 V40) in
  let a1 := (N.lxor a1 V41) in
  let a2 := (N.lxor a2 V42) in
  let a3 := (N.lxor a3 V43) in
  let a4 := (N.lxor a4 V44) in
  let a5 := (N.lxor a5 V45) in
  let a6 := (N.lxor a6 V46) in
  let a7 := (N.lxor a7 V47) in
  let tmp := a7 in
  let a7 := a6 in
  let a6 := a5 in
  let a5 := a4 in
  let a4 := (N.lxor a3 tmp) in
  let a3 := (N.lxor a2 tmp) in
  let a2 := a1 in
  let a1 := (N.lxor a0 tmp) in
  let a0 := tmp in
  let V00 := (N.lxor a0 V00) in
  let V01 := (N.lxor a1 V01) in
  let V02 := (N.lxor a2 V02) in
  let V03 := (N.lxor a3 V03) in
  let V04 := (N.lxor a4 V04) in
  let V05 := (N.lxor a5 V05) in
  let V06 := (N.lxor a6 V06) in
  let V07 := (N.lxor a7 V07) in
  let V10 := (N.lxor a0 V10) in
  let V11 := (N.lxor a1 V11) in
  let V12 := (N.lxor a2 V12) in
  let V13 := (N.lxor a3 V13) in
  let V14 := (N.lxor a4 V14) in
  let V15 := (N.lxor a5 V15) in
  let V16 := (N.lxor a6 V16) in
  let V17 := (N.lxor a7 V17) in
  let V20 := (N.lxor a0 V20) in
  let V21 := (N.lxor a1 V21) in
  let V22 := (N.lxor a2 V22) in
  let V23 := (N.lxor a3 V23) in
  let V24 := (N.lxor a4 V24) in
  let V25 := (N.lxor a5 V25) in
  let V26 := (N.lxor a6 V26) in
  let V27 := (N.lxor a7 V27) in
  let V30 := (N.lxor a0 V30) in
  let V31 := (N.lxor a1 V31) in
  let V32 := (N.lxor a2 V32) in
  let V33 := (N.lxor a3 V33) in
  let V34 := (N.lxor a4 V34) in
  let V35 := (N.lxor a5 V35) in
  let V36 := (N.lxor a6 V36) in
  let V37 := (N.lxor a7 V37) in
  let V40 := (N.lxor a0 V40) in
  let V41 := (N.lxor a1 V41) in
  let V42 := (N.lxor a2 V42) in
  let V43 := (N.lxor a3 V43) in
  let V44 := (N.lxor a4 V44) in
  let V45 := (N.lxor a5 V45) in
  let V46 := (N.lxor a6 V46) in
  let V47 := (N.lxor a7 V47) in
  let tmp := V07 in
  let b7 := V06 in
  let b6 := V05 in
  let b5 := V04 in
  let b4 := (N.lxor V03 tmp) in
  let b3 := (N.lxor V02 tmp) in
  let b2 := V01 in
  let b1 := (N.lxor V00 tmp) in
  let b0 := tmp in
  let b0 := (N.lxor b0 V10) in
  let b1 := (N.lxor b1 V11) in
  let b2 := (N.lxor b2 V12) in
  let b3 := (N.lxor b3 V13) in
  let b4 := (N.lxor b4 V14) in
  let b5 := (N.lxor b5 V15) in
  let b6 := (N.lxor b6 V16) in
  let b7 := (N.lxor b7 V17) in
  let tmp := V17 in
  let V17 := V16 in
  let V16 := V15 in
  let V15 := V14 in
  let V14 := (N.lxor V13 tmp) in
  let V13 := (N.lxor V12 tmp) in
  let V12 := V11 in
  let V11 := (N.lxor V10 tmp) in
  let V10 := tmp in
  let V10 := (N.lxor V10 V20) in
  let V11 := (N.lxor V11 V21) in
  let V12 := (N.lxor V12 V22) in
  let V13 := (N.lxor V13 V23) in
  let V14 := (N.lxor V14 V24) in
  let V15 := (N.lxor V15 V25) in
  let V16 := (N.lxor V16 V26) in
  let V17 := (N.lxor V17 V27) in
  let tmp := V27 in
  let V27 := V26 in
  let V26 := V25 in
  let V25 := V24 in
  let V24 := (N.lxor V23 tmp) in
  let V23 := (N.lxor V22 tmp) in
  let V22 := V21 in
  let V21 := (N.lxor V20 tmp) in
  let V20 := tmp in
  let V20 := (N.lxor V20 V30) in
  let V21 := (N.lxor V21 V31) in
  let V22 := (N.lxor V22 V32) in
  let V23 := (N.lxor V23 V33) in
  let V24 := (N.lxor V24 V34) in
  let V25 := (N.lxor V25 V35) in
  let V26 := (N.lxor V26 V36) in
  let V27 := (N.lxor V27 V37) in
  let tmp := V37 in
  let V37 := V36 in
  let V36 := V35 in
  let V35 := V34 in
  let V34 := (N.lxor V33 tmp) in
  let V33 := (N.lxor V32 tmp) in
  let V32 := V31 in
  let V31 := (N.lxor V30 tmp) in
  let V30 := tmp in
  let V30 := (N.lxor V30 V40) in
  let V31 := (N.lxor V31 V41) in
  let V32 := (N.lxor V32 V42) in
  let V33 := (N.lxor V33 V43) in
  let V34 := (N.lxor V34 V44) in
  let V35 := (N.lxor V35 V45) in
  let V36 := (N.lxor V36 V46) in
  let V37 := (N.lxor V37 V47) in
  let tmp := V47 in
  let V47 := V46 in
  let V46 := V45 in
  let V45 := V44 in
  let V44 := (N.lxor V43 tmp) in
  let V43 := (N.lxor V42 tmp) in
  let V42 := V41 in
  let V41 := (N.lxor V40 tmp) in
  let V40 := tmp in
  let V40 := (N.lxor V40 V00) in
  let V41 := (N.lxor V41 V01) in
  let V42 := (N.lxor V42 V02) in
  let V43 := (N.lxor V43 V03) in
  let V44 := (N.lxor V44 V04) in
  let V45 := (N.lxor V45 V05) in
  let V46 := (N.lxor V46 V06) in
  let V47 := (N.lxor V47 V07) in
  let tmp := b7 in
  let V07 := b6 in
  let V06 := b5 in
  let V05 := b4 in
  let V04 := (N.lxor b3 tmp) in
  let V03 := (N.lxor b2 tmp) in
  let V02 := b1 in
  let V01 := (N.lxor b0 tmp) in
  let V00 := tmp in
  let V00 := (N.lxor V00 V40) in
  let V01 := (N.lxor V01 V41) in
  let V02 := (N.lxor V02 V42) in
  let V03 := (N.lxor V03 V43) in
  let V04 := (N.lxor V04 V44) in
  let V05 := (N.lxor V05 V45) in
  let V06 := (N.lxor V06 V46) in
  let V07 := (N.lxor V07 V47) in
  let tmp := V47 in
  let V47 := V46 in
  let V46 := V45 in
  let V45 := V44 in
  let V44 := (N.lxor V43 tmp) in
  let V43 := (N.lxor V42 tmp) in
  let V42 := V41 in
  let V41 := (N.lxor V40 tmp) in
  let V40 := tmp in
  let V40 := (N.lxor V40 V30) in
  let V41 := (N.lxor V41 V31) in
  let V42 := (N.lxor V42 V32) in
  let V43 := (N.lxor V43 V33) in
  let V44 := (N.lxor V44 V34) in
  let V45 := (N.lxor V45 V35) in
  let V46 := (N.lxor V46 V36) in
  let V47 := (N.lxor V47 V37) in
  let tmp := V37 in
  let V37 := V36 in
  let V36 := V35 in
  let V35 := V34 in
  let V34 := (N.lxor V33 tmp) in
  let V33 := (N.lxor V32 tmp) in
  let V32 := V31 in
  let V31 := (N.lxor V30 tmp) in
  let V30 := tmp in
  let V30 := (N.lxor V30 V20) in
  let V31 := (N.lxor V31 V21) in
  let V32 := (N.lxor V32 V22) in
  let V33 := (N.lxor V33 V23) in
  let V34 := (N.lxor V34 V24) in
  let V35 := (N.lxor V35 V25) in
  let V36 := (N.lxor V36 V26) in
  let V37 := (N.lxor V37 V27) in
  let tmp := V27 in
  let V27 := V26 in
  let V26 := V25 in
  let V25 := V24 in
  let V24 := (N.lxor V23 tmp) in
  let V23 := (N.lxor V22 tmp) in
  let V22 := V21 in
  let V21 := (N.lxor V20 tmp) in
  let V20 := tmp in
  let V20 := (N.lxor V20 V10) in
  let V21 := (N.lxor V21 V11) in
  let V22 := (N.lxor V22 V12) in
  let V23 := (N.lxor V23 V13) in
  let V24 := (N.lxor V24 V14) in
  let V25 := (N.lxor V25 V15) in
  let V26 := (N.lxor V26 V16) in
  let V27 := (N.lxor V27 V17) in
  let tmp := V17 in
  let V17 := V16 in
  let V16 := V15 in
  let V15 := V14 in
  let V14 := (N.lxor V13 tmp) in
  let V13 := (N.lxor V12 tmp) in
  let V12 := V11 in
  let V11 := (N.lxor V10 tmp) in
  let V10 := tmp in
  let V10 := (N.lxor V10 b0) in
  let V11 := (N.lxor V11 b1) in
  let V12 := (N.lxor V12 b2) in
  let V13 := (N.lxor V13 b3) in
  let V14 := (N.lxor V14 b4) in
  let V15 := (N.lxor V15 b5) in
  let V16 := (N.lxor V16 b6) in
  let V17 := (N.lxor V17 b7) in
  let V00 := (N.lxor V00 M0) in
  let V01 := (N.lxor V01 M1) in
  let V02 := (N.lxor V02 M2) in
  let V03 := (N.lxor V03 M3) in
  let V04 := (N.lxor V04 M4) in
  let V05 := (N.lxor V05 M5) in
  let V06 := (N.lxor V06 M6) in
  let V07 := (N.lxor V07 M7) in
  let tmp := M7 in
  let M7 := M6 in
  let M6 := M5 in
  let M5 := M4 in
  let M4 := (N.lxor M3 tmp) in
  let M3 := (N.lxor M2 tmp) in
  let M2 := M1 in
  let M1 := (N.lxor M0 tmp) in
  let M0 := tmp in
  let V10 := (N.lxor V10 M0) in
  let V11 := (N.lxor V11 M1) in
  let V12 := (N.lxor V12 M2) in
  let V13 := (N.lxor V13 M3) in
  let V14 := (N.lxor V14 M4) in
  let V15 := (N.lxor V15 M5) in
  let V16 := (N.lxor V16 M6) in
  let V17 := (N.lxor V17 M7) in
  let tmp := M7 in
  let M7 := M6 in
  let M6 := M5 in
  let M5 := M4 in
  let M4 := (N.lxor M3 tmp) in
  let M3 := (N.lxor M2 tmp) in
  let M2 := M1 in
  let M1 := (N.lxor M0 tmp) in
  let M0 := tmp in
  let V20 := (N.lxor V20 M0) in
  let V21 := (N.lxor V21 M1) in
  let V22 := (N.lxor V22 M2) in
  let V23 := (N.lxor V23 M3) in
  let V24 := (N.lxor V24 M4) in
  let V25 := (N.lxor V25 M5) in
  let V26 := (N.lxor V26 M6) in
  let V27 := (N.lxor V27 M7) in
  let tmp := M7 in
  let M7 := M6 in
  let M6 := M5 in
  let M5 := M4 in
  let M4 := (N.lxor M3 tmp) in
  let M3 := (N.lxor M2 tmp) in
  let M2 := M1 in
  let M1 := (N.lxor M0 tmp) in
  let M0 := tmp in
  let V30 := (N.lxor V30 M0) in
  let V31 := (N.lxor V31 M1) in
  let V32 := (N.lxor V32 M2) in
  let V33 := (N.lxor V33 M3) in
  let V34 := (N.lxor V34 M4) in
  let V35 := (N.lxor V35 M5) in
  let V36 := (N.lxor V36 M6) in
  let V37 := (N.lxor V37 M7) in
  let tmp := M7 in
  let M7 := M6 in
  let M6 := M5 in
  let M5 := M4 in
  let M4 := (N.lxor M3 tmp) in
  let M3 := (N.lxor M2 tmp) in
  let M2 := M1 in
  let M1 := (N.lxor M0 tmp) in
  let M0 := tmp in
  let V40 := (N.lxor V40 M0) in
  let V41 := (N.lxor V41 M1) in
  let V42 := (N.lxor V42 M2) in
  let V43 := (N.lxor V43 M3) in
  let V44 := (N.lxor V44 M4) in
  let V45 := (N.lxor V45 M5) in
  let V46 := (N.lxor V46 M6) in
  let V47 := (N.lxor V47 M7) in
  let V14 := (N.lor (shl32 V14 1%N) (N.shiftr V14 31%N)) in
  let V15 := (N.lor (shl32 V15 1%N) (N.shiftr V15 31%N)) in
  let V16 := (N.lor (shl32 V16 1%N) (N.shiftr V16 31%N)) in
  let V17 := (N.lor (shl32 V17 1%N) (N.shiftr V17 31%N)) in
  let V24 := (N.lor (shl32 V24 2%N) (N.shiftr V24 30%N)) in
  let V25 := (N.lor (shl32 V25 2%N) (N.shiftr V25 30%N)) in
  let V26 := (N.lor (shl32 V26 2%N) (N.shiftr V26 30%N)) in
  let V27 := (N.lor (shl32 V27 2%N) (N.shiftr V27 30%N)) in
  let V34 := (N.lor (shl32 V34 3%N) (N.shiftr V34 29%N)) in
  let V35 := (N.lor (shl32 V35 3%N) (N.shiftr V35 29%N)) in
  let V36 := (N.lor (shl32 V36 3%N) (N.shiftr V36 29%N)) in
  let V37 := (N.lor (shl32 V37 3%N) (N.shiftr V37 29%N)) in
  let V44 := (N.lor (shl32 V44 4%N) (N.shiftr V44 28%N)) in
  let V45 := (N.lor (shl32 V45 4%N) (N.shiftr V45 28%N)) in
  let V46 := (N.lor (shl32 V46 4%N) (N.shiftr V46 28%N)) in
  let V47 := (N.lor (shl32 V47 4%N) (N.shiftr V47 28%N)) in
  [V00; V01; V02; V03; V04; V05; V06; V07; V10; V11; V12; V13; V14; V15; V16; V17; V20; V21; V22; V23; V24; V25; V26; V27; V30; V31; V32; V33; V34; V35; V36; V37; V40; V41; V42; V43; V44; V45; V46; V47].
(** digest256.go:284-341, the body of the first step loop; the other loops (digest256.go, digest384.go, digest512.go) are the
    same statements on V1x, ..., V4x with their own constants (checked by tools/luffa.py) *)
Definition lf_step (rc0 rc4 : N) (V : list N) : list N :=
  let V00 := at_ V 0 in
  let V01 := at_ V 1 in
  let V02 := at_ V 2 in
  let V03 := at_ V 3 in
  let V04 := at_ V 4 in
  let V05 := at_ V 5 in
  let V06 := at_ V 6 in
  let V07 := at_ V 7 in
  let tmp := V00 in
  let V00 := (N.lor V00 V01) in
  let V02 := (N.lxor V02 V03) in
  let V01 := (not32 V01) in
  let V00 := (N.lxor V00 V03) in
  let V03 := (N.land V03 tmp) in
  let V01 := (N.lxor V01 V03) in
  let V03 := (N.lxor V03 V02) in
  let V02 := (N.land V02 V00) in
  let V00 := (not32 V00) in
  let V02 := (N.lxor V02 V01) in
  let V01 := (N.lor V01 V03) in
  let tmp := (N.lxor tmp V01) in
  let V03 := (N.lxor V03 V02) in
  let V02 := (N.land V02 V01) in
  let V01 := (N.lxor V01 V00) in
  let V00 := tmp in
  let tmp := V05 in
  let V05 := (N.lor V05 V06) in
  let V07 := (N.lxor V07 V04) in
  let V06 := (not32 V06) in
  let V05 := (N.lxor V05 V04) in
  let V04 := (N.land V04 tmp) in
  let V06 := (N.lxor V06 V04) in
  let V04 := (N.lxor V04 V07) in
  let V07 := (N.land V07 V05) in
  let V05 := (not32 V05) in
  let V07 := (N.lxor V07 V06) in
  let V06 := (N.lor V06 V04) in
  let tmp := (N.lxor tmp V06) in
  let V04 := (N.lxor V04 V07) in
  let V07 := (N.land V07 V06) in
  let V06 := (N.lxor V06 V05) in
  let V05 := tmp in
  let V04 := (N.lxor V04 V00) in
  let V00 := (N.lxor (N.lor (shl32 V00 2%N) (N.shiftr V00 30%N)) V04) in
  let V04 := (N.lxor (N.lor (shl32 V04 14%N) (N.shiftr V04 18%N)) V00) in
  let V00 := (N.lxor (N.lor (shl32 V00 10%N) (N.shiftr V00 22%N)) V04) in
  let V04 := (N.lor (shl32 V04 1%N) (N.shiftr V04 31%N)) in
  let V05 := (N.lxor V05 V01) in
  let V01 := (N.lxor (N.lor (shl32 V01 2%N) (N.shiftr V01 30%N)) V05) in
  let V05 := (N.lxor (N.lor (shl32 V05 14%N) (N.shiftr V05 18%N)) V01) in
  let V01 := (N.lxor (N.lor (shl32 V01 10%N) (N.shiftr V01 22%N)) V05) in
  let V05 := (N.lor (shl32 V05 1%N) (N.shiftr V05 31%N)) in
  let V06 := (N.lxor V06 V02) in
  let V02 := (N.lxor (N.lor (shl32 V02 2%N) (N.shiftr V02 30%N)) V06) in
  let V06 := (N.lxor (N.lor (shl32 V06 14%N) (N.shiftr V06 18%N)) V02) in
  let V02 := (N.lxor (N.lor (shl32 V02 10%N) (N.shiftr V02 22%N)) V06) in
  let V06 := (N.lor (shl32 V06 1%N) (N.shiftr V06 31%N)) in
  let V07 := (N.lxor V07 V03) in
  let V03 := (N.lxor (N.lor (shl32 V03 2%N) (N.shiftr V03 30%N)) V07) in
  let V07 := (N.lxor (N.lor (shl32 V07 14%N) (N.shiftr V07 18%N)) V03) in
  let V03 := (N.lxor (N.lor (shl32 V03 10%N) (N.shiftr V03 22%N)) V07) in
  let V07 := (N.lor (shl32 V07 1%N) (N.shiftr V07 31%N)) in
  let V00 := (N.lxor V00 rc0) in
  let V04 := (N.lxor V04 rc4) in
  [V00; V01; V02; V03; V04; V05; V06; V07].
