(** K12.v -- model of package k12: digest.go, sponge.go, xor.go, utils.go and the portable permutation of keccakf.go
    (the amd64 assembly of keccakf_amd64.s is not modelled; the sponge and the tree are modelled over any permutation F
    of 25 words, and instantiated with the portable one). *)
From Coq Require Import List NArith Arith Bool.
From Verif Require Import Base SpecK12.
Import ListNotations.

(** /repo/k12/keccakf.go:45-135 (round 1 of each group of four; k is rc[i]) *)
Definition kf_round1 (k : N) (a : list N) : list N :=
  match a with
  | [a0; a1; a2; a3; a4; a5; a6; a7; a8; a9; a10; a11; a12; a13; a14; a15; a16; a17; a18; a19; a20; a21; a22; a23; a24] =>
    let bc0 := N.lxor (N.lxor (N.lxor (N.lxor a0 a5) a10) a15) a20 in let bc1 := N.lxor (N.lxor (N.lxor (N.lxor a1 a6) a11) a16) a21 in
    let bc2 := N.lxor (N.lxor (N.lxor (N.lxor a2 a7) a12) a17) a22 in let bc3 := N.lxor (N.lxor (N.lxor (N.lxor a3 a8) a13) a18) a23 in
    let bc4 := N.lxor (N.lxor (N.lxor (N.lxor a4 a9) a14) a19) a24 in let d0 := N.lxor bc4 (rotl64 bc1 1) in
    let d1 := N.lxor bc0 (rotl64 bc2 1) in let d2 := N.lxor bc1 (rotl64 bc3 1) in
    let d3 := N.lxor bc2 (rotl64 bc4 1) in let d4 := N.lxor bc3 (rotl64 bc0 1) in
    let bc0 := N.lxor a0 d0 in let t := N.lxor a6 d1 in
    let bc1 := rotl64 t 44 in let t := N.lxor a12 d2 in
    let bc2 := rotl64 t 43 in let t := N.lxor a18 d3 in
    let bc3 := rotl64 t 21 in let t := N.lxor a24 d4 in
    let bc4 := rotl64 t 14 in let a0 := N.lxor (N.lxor bc0 (N.ldiff bc2 bc1)) k in
    let a6 := N.lxor bc1 (N.ldiff bc3 bc2) in let a12 := N.lxor bc2 (N.ldiff bc4 bc3) in
    let a18 := N.lxor bc3 (N.ldiff bc0 bc4) in let a24 := N.lxor bc4 (N.ldiff bc1 bc0) in
    let t := N.lxor a10 d0 in let bc2 := rotl64 t 3 in
    let t := N.lxor a16 d1 in let bc3 := rotl64 t 45 in
    let t := N.lxor a22 d2 in let bc4 := rotl64 t 61 in
    let t := N.lxor a3 d3 in let bc0 := rotl64 t 28 in
    let t := N.lxor a9 d4 in let bc1 := rotl64 t 20 in
    let a10 := N.lxor bc0 (N.ldiff bc2 bc1) in let a16 := N.lxor bc1 (N.ldiff bc3 bc2) in
    let a22 := N.lxor bc2 (N.ldiff bc4 bc3) in let a3 := N.lxor bc3 (N.ldiff bc0 bc4) in
    let a9 := N.lxor bc4 (N.ldiff bc1 bc0) in let t := N.lxor a20 d0 in
    let bc4 := rotl64 t 18 in let t := N.lxor a1 d1 in
    let bc0 := rotl64 t 1 in let t := N.lxor a7 d2 in
    let bc1 := rotl64 t 6 in let t := N.lxor a13 d3 in
    let bc2 := rotl64 t 25 in let t := N.lxor a19 d4 in
    let bc3 := rotl64 t 8 in let a20 := N.lxor bc0 (N.ldiff bc2 bc1) in
    let a1 := N.lxor bc1 (N.ldiff bc3 bc2) in let a7 := N.lxor bc2 (N.ldiff bc4 bc3) in
    let a13 := N.lxor bc3 (N.ldiff bc0 bc4) in let a19 := N.lxor bc4 (N.ldiff bc1 bc0) in
    let t := N.lxor a5 d0 in let bc1 := rotl64 t 36 in
    let t := N.lxor a11 d1 in let bc2 := rotl64 t 10 in
    let t := N.lxor a17 d2 in let bc3 := rotl64 t 15 in
    let t := N.lxor a23 d3 in let bc4 := rotl64 t 56 in
    let t := N.lxor a4 d4 in let bc0 := rotl64 t 27 in
    let a5 := N.lxor bc0 (N.ldiff bc2 bc1) in let a11 := N.lxor bc1 (N.ldiff bc3 bc2) in
    let a17 := N.lxor bc2 (N.ldiff bc4 bc3) in let a23 := N.lxor bc3 (N.ldiff bc0 bc4) in
    let a4 := N.lxor bc4 (N.ldiff bc1 bc0) in let t := N.lxor a15 d0 in
    let bc3 := rotl64 t 41 in let t := N.lxor a21 d1 in
    let bc4 := rotl64 t 2 in let t := N.lxor a2 d2 in
    let bc0 := rotl64 t 62 in let t := N.lxor a8 d3 in
    let bc1 := rotl64 t 55 in let t := N.lxor a14 d4 in
    let bc2 := rotl64 t 39 in let a15 := N.lxor bc0 (N.ldiff bc2 bc1) in
    let a21 := N.lxor bc1 (N.ldiff bc3 bc2) in let a2 := N.lxor bc2 (N.ldiff bc4 bc3) in
    let a8 := N.lxor bc3 (N.ldiff bc0 bc4) in let a14 := N.lxor bc4 (N.ldiff bc1 bc0) in
    [a0; a1; a2; a3; a4; a5; a6; a7; a8; a9; a10; a11; a12; a13; a14; a15; a16; a17; a18; a19; a20; a21; a22; a23; a24]
  | _ => a
  end.
(** /repo/k12/keccakf.go:136-226 (round 2 of each group of four; k is rc[i+1]) *)
Definition kf_round2 (k : N) (a : list N) : list N :=
  match a with
  | [a0; a1; a2; a3; a4; a5; a6; a7; a8; a9; a10; a11; a12; a13; a14; a15; a16; a17; a18; a19; a20; a21; a22; a23; a24] =>
    let bc0 := N.lxor (N.lxor (N.lxor (N.lxor a0 a5) a10) a15) a20 in let bc1 := N.lxor (N.lxor (N.lxor (N.lxor a1 a6) a11) a16) a21 in
    let bc2 := N.lxor (N.lxor (N.lxor (N.lxor a2 a7) a12) a17) a22 in let bc3 := N.lxor (N.lxor (N.lxor (N.lxor a3 a8) a13) a18) a23 in
    let bc4 := N.lxor (N.lxor (N.lxor (N.lxor a4 a9) a14) a19) a24 in let d0 := N.lxor bc4 (rotl64 bc1 1) in
    let d1 := N.lxor bc0 (rotl64 bc2 1) in let d2 := N.lxor bc1 (rotl64 bc3 1) in
    let d3 := N.lxor bc2 (rotl64 bc4 1) in let d4 := N.lxor bc3 (rotl64 bc0 1) in
    let bc0 := N.lxor a0 d0 in let t := N.lxor a16 d1 in
    let bc1 := rotl64 t 44 in let t := N.lxor a7 d2 in
    let bc2 := rotl64 t 43 in let t := N.lxor a23 d3 in
    let bc3 := rotl64 t 21 in let t := N.lxor a14 d4 in
    let bc4 := rotl64 t 14 in let a0 := N.lxor (N.lxor bc0 (N.ldiff bc2 bc1)) k in
    let a16 := N.lxor bc1 (N.ldiff bc3 bc2) in let a7 := N.lxor bc2 (N.ldiff bc4 bc3) in
    let a23 := N.lxor bc3 (N.ldiff bc0 bc4) in let a14 := N.lxor bc4 (N.ldiff bc1 bc0) in
    let t := N.lxor a20 d0 in let bc2 := rotl64 t 3 in
    let t := N.lxor a11 d1 in let bc3 := rotl64 t 45 in
    let t := N.lxor a2 d2 in let bc4 := rotl64 t 61 in
    let t := N.lxor a18 d3 in let bc0 := rotl64 t 28 in
    let t := N.lxor a9 d4 in let bc1 := rotl64 t 20 in
    let a20 := N.lxor bc0 (N.ldiff bc2 bc1) in let a11 := N.lxor bc1 (N.ldiff bc3 bc2) in
    let a2 := N.lxor bc2 (N.ldiff bc4 bc3) in let a18 := N.lxor bc3 (N.ldiff bc0 bc4) in
    let a9 := N.lxor bc4 (N.ldiff bc1 bc0) in let t := N.lxor a15 d0 in
    let bc4 := rotl64 t 18 in let t := N.lxor a6 d1 in
    let bc0 := rotl64 t 1 in let t := N.lxor a22 d2 in
    let bc1 := rotl64 t 6 in let t := N.lxor a13 d3 in
    let bc2 := rotl64 t 25 in let t := N.lxor a4 d4 in
    let bc3 := rotl64 t 8 in let a15 := N.lxor bc0 (N.ldiff bc2 bc1) in
    let a6 := N.lxor bc1 (N.ldiff bc3 bc2) in let a22 := N.lxor bc2 (N.ldiff bc4 bc3) in
    let a13 := N.lxor bc3 (N.ldiff bc0 bc4) in let a4 := N.lxor bc4 (N.ldiff bc1 bc0) in
    let t := N.lxor a10 d0 in let bc1 := rotl64 t 36 in
    let t := N.lxor a1 d1 in let bc2 := rotl64 t 10 in
    let t := N.lxor a17 d2 in let bc3 := rotl64 t 15 in
    let t := N.lxor a8 d3 in let bc4 := rotl64 t 56 in
    let t := N.lxor a24 d4 in let bc0 := rotl64 t 27 in
    let a10 := N.lxor bc0 (N.ldiff bc2 bc1) in let a1 := N.lxor bc1 (N.ldiff bc3 bc2) in
    let a17 := N.lxor bc2 (N.ldiff bc4 bc3) in let a8 := N.lxor bc3 (N.ldiff bc0 bc4) in
    let a24 := N.lxor bc4 (N.ldiff bc1 bc0) in let t := N.lxor a5 d0 in
    let bc3 := rotl64 t 41 in let t := N.lxor a21 d1 in
    let bc4 := rotl64 t 2 in let t := N.lxor a12 d2 in
    let bc0 := rotl64 t 62 in let t := N.lxor a3 d3 in
    let bc1 := rotl64 t 55 in let t := N.lxor a19 d4 in
    let bc2 := rotl64 t 39 in let a5 := N.lxor bc0 (N.ldiff bc2 bc1) in
    let a21 := N.lxor bc1 (N.ldiff bc3 bc2) in let a12 := N.lxor bc2 (N.ldiff bc4 bc3) in
    let a3 := N.lxor bc3 (N.ldiff bc0 bc4) in let a19 := N.lxor bc4 (N.ldiff bc1 bc0) in
    [a0; a1; a2; a3; a4; a5; a6; a7; a8; a9; a10; a11; a12; a13; a14; a15; a16; a17; a18; a19; a20; a21; a22; a23; a24]
  | _ => a
  end.
(** /repo/k12/keccakf.go:227-317 (round 3 of each group of four; k is rc[i+2]) *)
Definition kf_round3 (k : N) (a : list N) : list N :=
  match a with
  | [a0; a1; a2; a3; a4; a5; a6; a7; a8; a9; a10; a11; a12; a13; a14; a15; a16; a17; a18; a19; a20; a21; a22; a23; a24] =>
    let bc0 := N.lxor (N.lxor (N.lxor (N.lxor a0 a5) a10) a15) a20 in let bc1 := N.lxor (N.lxor (N.lxor (N.lxor a1 a6) a11) a16) a21 in
    let bc2 := N.lxor (N.lxor (N.lxor (N.lxor a2 a7) a12) a17) a22 in let bc3 := N.lxor (N.lxor (N.lxor (N.lxor a3 a8) a13) a18) a23 in
    let bc4 := N.lxor (N.lxor (N.lxor (N.lxor a4 a9) a14) a19) a24 in let d0 := N.lxor bc4 (rotl64 bc1 1) in
    let d1 := N.lxor bc0 (rotl64 bc2 1) in let d2 := N.lxor bc1 (rotl64 bc3 1) in
    let d3 := N.lxor bc2 (rotl64 bc4 1) in let d4 := N.lxor bc3 (rotl64 bc0 1) in
    let bc0 := N.lxor a0 d0 in let t := N.lxor a11 d1 in
    let bc1 := rotl64 t 44 in let t := N.lxor a22 d2 in
    let bc2 := rotl64 t 43 in let t := N.lxor a8 d3 in
    let bc3 := rotl64 t 21 in let t := N.lxor a19 d4 in
    let bc4 := rotl64 t 14 in let a0 := N.lxor (N.lxor bc0 (N.ldiff bc2 bc1)) k in
    let a11 := N.lxor bc1 (N.ldiff bc3 bc2) in let a22 := N.lxor bc2 (N.ldiff bc4 bc3) in
    let a8 := N.lxor bc3 (N.ldiff bc0 bc4) in let a19 := N.lxor bc4 (N.ldiff bc1 bc0) in
    let t := N.lxor a15 d0 in let bc2 := rotl64 t 3 in
    let t := N.lxor a1 d1 in let bc3 := rotl64 t 45 in
    let t := N.lxor a12 d2 in let bc4 := rotl64 t 61 in
    let t := N.lxor a23 d3 in let bc0 := rotl64 t 28 in
    let t := N.lxor a9 d4 in let bc1 := rotl64 t 20 in
    let a15 := N.lxor bc0 (N.ldiff bc2 bc1) in let a1 := N.lxor bc1 (N.ldiff bc3 bc2) in
    let a12 := N.lxor bc2 (N.ldiff bc4 bc3) in let a23 := N.lxor bc3 (N.ldiff bc0 bc4) in
    let a9 := N.lxor bc4 (N.ldiff bc1 bc0) in let t := N.lxor a5 d0 in
    let bc4 := rotl64 t 18 in let t := N.lxor a16 d1 in
    let bc0 := rotl64 t 1 in let t := N.lxor a2 d2 in
    let bc1 := rotl64 t 6 in let t := N.lxor a13 d3 in
    let bc2 := rotl64 t 25 in let t := N.lxor a24 d4 in
    let bc3 := rotl64 t 8 in let a5 := N.lxor bc0 (N.ldiff bc2 bc1) in
    let a16 := N.lxor bc1 (N.ldiff bc3 bc2) in let a2 := N.lxor bc2 (N.ldiff bc4 bc3) in
    let a13 := N.lxor bc3 (N.ldiff bc0 bc4) in let a24 := N.lxor bc4 (N.ldiff bc1 bc0) in
    let t := N.lxor a20 d0 in let bc1 := rotl64 t 36 in
    let t := N.lxor a6 d1 in let bc2 := rotl64 t 10 in
    let t := N.lxor a17 d2 in let bc3 := rotl64 t 15 in
    let t := N.lxor a3 d3 in let bc4 := rotl64 t 56 in
    let t := N.lxor a14 d4 in let bc0 := rotl64 t 27 in
    let a20 := N.lxor bc0 (N.ldiff bc2 bc1) in let a6 := N.lxor bc1 (N.ldiff bc3 bc2) in
    let a17 := N.lxor bc2 (N.ldiff bc4 bc3) in let a3 := N.lxor bc3 (N.ldiff bc0 bc4) in
    let a14 := N.lxor bc4 (N.ldiff bc1 bc0) in let t := N.lxor a10 d0 in
    let bc3 := rotl64 t 41 in let t := N.lxor a21 d1 in
    let bc4 := rotl64 t 2 in let t := N.lxor a7 d2 in
    let bc0 := rotl64 t 62 in let t := N.lxor a18 d3 in
    let bc1 := rotl64 t 55 in let t := N.lxor a4 d4 in
    let bc2 := rotl64 t 39 in let a10 := N.lxor bc0 (N.ldiff bc2 bc1) in
    let a21 := N.lxor bc1 (N.ldiff bc3 bc2) in let a7 := N.lxor bc2 (N.ldiff bc4 bc3) in
    let a18 := N.lxor bc3 (N.ldiff bc0 bc4) in let a4 := N.lxor bc4 (N.ldiff bc1 bc0) in
    [a0; a1; a2; a3; a4; a5; a6; a7; a8; a9; a10; a11; a12; a13; a14; a15; a16; a17; a18; a19; a20; a21; a22; a23; a24]
  | _ => a
  end.
(** /repo/k12/keccakf.go:318-407 (round 4 of each group of four; k is rc[i+3]) *)
Definition kf_round4 (k : N) (a : list N) : list N :=
  match a with
  | [a0; a1; a2; a3; a4; a5; a6; a7; a8; a9; a10; a11; a12; a13; a14; a15; a16; a17; a18; a19; a20; a21; a22; a23; a24] =>
    let bc0 := N.lxor (N.lxor (N.lxor (N.lxor a0 a5) a10) a15) a20 in let bc1 := N.lxor (N.lxor (N.lxor (N.lxor a1 a6) a11) a16) a21 in
    let bc2 := N.lxor (N.lxor (N.lxor (N.lxor a2 a7) a12) a17) a22 in let bc3 := N.lxor (N.lxor (N.lxor (N.lxor a3 a8) a13) a18) a23 in
    let bc4 := N.lxor (N.lxor (N.lxor (N.lxor a4 a9) a14) a19) a24 in let d0 := N.lxor bc4 (rotl64 bc1 1) in
    let d1 := N.lxor bc0 (rotl64 bc2 1) in let d2 := N.lxor bc1 (rotl64 bc3 1) in
    let d3 := N.lxor bc2 (rotl64 bc4 1) in let d4 := N.lxor bc3 (rotl64 bc0 1) in
    let bc0 := N.lxor a0 d0 in let t := N.lxor a1 d1 in
    let bc1 := rotl64 t 44 in let t := N.lxor a2 d2 in
    let bc2 := rotl64 t 43 in let t := N.lxor a3 d3 in
    let bc3 := rotl64 t 21 in let t := N.lxor a4 d4 in
    let bc4 := rotl64 t 14 in let a0 := N.lxor (N.lxor bc0 (N.ldiff bc2 bc1)) k in
    let a1 := N.lxor bc1 (N.ldiff bc3 bc2) in let a2 := N.lxor bc2 (N.ldiff bc4 bc3) in
    let a3 := N.lxor bc3 (N.ldiff bc0 bc4) in let a4 := N.lxor bc4 (N.ldiff bc1 bc0) in
    let t := N.lxor a5 d0 in let bc2 := rotl64 t 3 in
    let t := N.lxor a6 d1 in let bc3 := rotl64 t 45 in
    let t := N.lxor a7 d2 in let bc4 := rotl64 t 61 in
    let t := N.lxor a8 d3 in let bc0 := rotl64 t 28 in
    let t := N.lxor a9 d4 in let bc1 := rotl64 t 20 in
    let a5 := N.lxor bc0 (N.ldiff bc2 bc1) in let a6 := N.lxor bc1 (N.ldiff bc3 bc2) in
    let a7 := N.lxor bc2 (N.ldiff bc4 bc3) in let a8 := N.lxor bc3 (N.ldiff bc0 bc4) in
    let a9 := N.lxor bc4 (N.ldiff bc1 bc0) in let t := N.lxor a10 d0 in
    let bc4 := rotl64 t 18 in let t := N.lxor a11 d1 in
    let bc0 := rotl64 t 1 in let t := N.lxor a12 d2 in
    let bc1 := rotl64 t 6 in let t := N.lxor a13 d3 in
    let bc2 := rotl64 t 25 in let t := N.lxor a14 d4 in
    let bc3 := rotl64 t 8 in let a10 := N.lxor bc0 (N.ldiff bc2 bc1) in
    let a11 := N.lxor bc1 (N.ldiff bc3 bc2) in let a12 := N.lxor bc2 (N.ldiff bc4 bc3) in
    let a13 := N.lxor bc3 (N.ldiff bc0 bc4) in let a14 := N.lxor bc4 (N.ldiff bc1 bc0) in
    let t := N.lxor a15 d0 in let bc1 := rotl64 t 36 in
    let t := N.lxor a16 d1 in let bc2 := rotl64 t 10 in
    let t := N.lxor a17 d2 in let bc3 := rotl64 t 15 in
    let t := N.lxor a18 d3 in let bc4 := rotl64 t 56 in
    let t := N.lxor a19 d4 in let bc0 := rotl64 t 27 in
    let a15 := N.lxor bc0 (N.ldiff bc2 bc1) in let a16 := N.lxor bc1 (N.ldiff bc3 bc2) in
    let a17 := N.lxor bc2 (N.ldiff bc4 bc3) in let a18 := N.lxor bc3 (N.ldiff bc0 bc4) in
    let a19 := N.lxor bc4 (N.ldiff bc1 bc0) in let t := N.lxor a20 d0 in
    let bc3 := rotl64 t 41 in let t := N.lxor a21 d1 in
    let bc4 := rotl64 t 2 in let t := N.lxor a22 d2 in
    let bc0 := rotl64 t 62 in let t := N.lxor a23 d3 in
    let bc1 := rotl64 t 55 in let t := N.lxor a24 d4 in
    let bc2 := rotl64 t 39 in let a20 := N.lxor bc0 (N.ldiff bc2 bc1) in
    let a21 := N.lxor bc1 (N.ldiff bc3 bc2) in let a22 := N.lxor bc2 (N.ldiff bc4 bc3) in
    let a23 := N.lxor bc3 (N.ldiff bc0 bc4) in let a24 := N.lxor bc4 (N.ldiff bc1 bc0) in
    [a0; a1; a2; a3; a4; a5; a6; a7; a8; a9; a10; a11; a12; a13; a14; a15; a16; a17; a18; a19; a20; a21; a22; a23; a24]
  | _ => a
  end.
(** /repo/k12/keccakf.go:6-31 *)
Definition k12_rc : list N := [
  1; 32898; 9223372036854808714; 9223372039002292224; 32907; 2147483649; 9223372039002292353; 9223372036854808585;
  138; 136; 2147516425; 2147483658; 2147516555; 9223372036854775947; 9223372036854808713; 9223372036854808579;
  9223372036854808578; 9223372036854775936; 32778; 9223372039002259466; 9223372039002292353; 9223372036854808704; 2147483649; 9223372039002292232]%N.

(** /repo/k12/keccakf.go:35-411: six iterations of four rounds; those with i + nr < 24 are skipped. *)
Definition kf_four (a : list N) (i : nat) : list N :=
  kf_round4 (at_ k12_rc (i + 3)) (kf_round3 (at_ k12_rc (i + 2)) (kf_round2 (at_ k12_rc (i + 1)) (kf_round1 (at_ k12_rc i) a))).
Definition keccakF1600 (nr : nat) (a : list N) : list N :=
  fold_left (fun a j => let i := 4 * j in if 24 <=? i + nr then kf_four a i else a) (seq 0 6) a.

(** /repo/k12/utils.go:8-25 (value is a uint64; when it is not zero one of the eight bytes is not zero) *)
Definition k12_rightEncode (value : N) : list N :=
  let input := be_bytes 8 value ++ [0%N] in
  let offset := if (value =? 0)%N then 8
                else match find (fun o => negb (at_ input o =? 0)%N) (seq 0 9) with Some o => o | None => 9 end in
  skipn offset (upd input 8 (N.of_nat (8 - offset))).

Section K12.
Variable F : list N -> list N.

(** /repo/k12/sponge.go:28-52 (rate is always 168; outputLen is unused by this package) *)
Record sp : Type := mksp { sp_a : list N; sp_ds : N; sp_i : nat; sp_n : nat; sp_st : list N; sp_sq : bool }.
Definition K_rate : nat := 168.
(** /repo/k12/digest.go:29-30: a zero state with the given dsbyte *)
Definition sp_new (ds : N) : sp := mksp (zeros 25) ds 0 0 (zeros K_rate) false.
(** /repo/k12/sponge.go:62-69: the buffer and dsbyte keep their contents *)
Definition sp_Reset (d : sp) : sp := mksp (zeros (length (sp_a d))) (sp_ds d) 0 0 (sp_st d) false.
(** /repo/k12/xor.go:16-27: the first words of the state are xored with the little-endian words of buf
    (buf has 168 bytes; the byte-wise variant for little-endian machines has the same effect) *)
Definition xorIn (a buf : list N) : list N := map (fun i => N.lxor (at_ a i) (le_val (slice buf (8 * i) (8 * i + 8)))) (seq 0 25).
(** /repo/k12/xor.go:30-40, n = len(b) *)
Definition copyOut (a : list N) (n : nat) : list N := firstn n (concat (map (le_bytes 8) a)).
(** /repo/k12/sponge.go:78-93 *)
Definition sp_permute (d : sp) : sp :=
  if sp_sq d then
    let a := F (sp_a d) in mksp a (sp_ds d) 0 (sp_n d) (copy_at (sp_st d) 0 (copyOut a K_rate)) true
  else mksp (F (xorIn (sp_a d) (sp_st d))) (sp_ds d) (sp_i d) 0 (sp_st d) false.
(** /repo/k12/sponge.go:97-117 *)
Definition padAndPermute (d : sp) : sp :=
  let st := upd (sp_st d) (sp_n d) (sp_ds d) in
  let st := fold_left (fun st j => upd st j 0%N) (seq (S (sp_n d)) (K_rate - S (sp_n d))) st in
  let st := upd st (K_rate - 1) (N.lxor (at_ st (K_rate - 1)) 0x80) in
  let d := sp_permute (mksp (sp_a d) (sp_ds d) (sp_i d) K_rate st (sp_sq d)) in
  mksp (sp_a d) (sp_ds d) (sp_i d) K_rate (copy_at (sp_st d) 0 (copyOut (sp_a d) K_rate)) true.
(** /repo/k12/sponge.go:129-149, the loop of Write; every iteration consumes at least one byte *)
Fixpoint sp_wloop (fuel : nat) (d : sp) (p : list N) : sp :=
  match fuel with
  | O => d
  | S fuel =>
      if length p =? 0 then d
      else if (sp_n d =? 0) && (K_rate <=? length p) then
        sp_wloop fuel (mksp (F (xorIn (sp_a d) (firstn K_rate p))) (sp_ds d) (sp_i d) (sp_n d) (sp_st d) (sp_sq d)) (skipn K_rate p)
      else
        let todo := if length p <? K_rate - sp_n d then length p else K_rate - sp_n d in
        let d := mksp (sp_a d) (sp_ds d) (sp_i d) (sp_n d + todo) (copy_at (sp_st d) (sp_n d) (firstn todo p)) (sp_sq d) in
        let d := if sp_n d =? K_rate then sp_permute d else d in
        sp_wloop fuel d (skipn todo p)
  end.
(** /repo/k12/sponge.go:121-152 *)
Definition sp_Write (d : sp) (p : list N) : sp * nat :=
  if sp_sq d then (d, 0) else (sp_wloop (S (length p)) d p, length p).
(** /repo/k12/sponge.go:164-173, the loop of Read; every iteration produces at least one byte *)
Fixpoint sp_rloop (fuel : nat) (d : sp) (n : nat) : sp * list N :=
  match fuel with
  | O => (d, [])
  | S fuel =>
      if n =? 0 then (d, [])
      else
        let o := firstn n (slice (sp_st d) (sp_i d) (sp_n d)) in
        let d := mksp (sp_a d) (sp_ds d) (sp_i d + length o) (sp_n d) (sp_st d) (sp_sq d) in
        let d := if sp_i d =? K_rate then sp_permute d else d in
        let '(d, r) := sp_rloop fuel d (n - length o) in (d, o ++ r)
  end.
(** /repo/k12/sponge.go:155-176, n = len(out) *)
Definition sp_Read (d : sp) (n : nat) : sp * list N :=
  let d := if sp_sq d then d else padAndPermute d in sp_rloop (S n) d n.

(** /repo/k12/digest.go:13-22.  tempChunkOutput is overwritten by each 32-byte Read before it is used, so it is not
    kept.  Everything is held by value: clone (145-154) copies both sponges, so Sum works on a copy. *)
Record kd : Type := mkkd { kd_c : list N; kd_sq : bool; kd_s : sp; kd_n : nat; kd_k : sp; kd_w : nat; kd_h : nat }.
Definition K12_BlockSize : nat := 64 * 128.
(** /repo/k12/digest.go:38-42 *)
Definition k12_Reset (t : kd) : kd :=
  mkkd (kd_c t) false (sp_Reset (kd_s t)) (kd_n t) (sp_Reset (kd_k t)) (kd_w t) (kd_h t).
(** /repo/k12/digest.go:25-35 *)
Definition k12_new (c : list N) (hs : nat) : kd := k12_Reset (mkkd c false (sp_new 0) 0 (sp_new 0x0b) 0 hs).
(** /repo/k12/digest.go:63-77: at a full chunk, start a new one *)
Definition k12_switch (t : kd) : kd :=
  if kd_w t =? K12_BlockSize then
    if kd_n t =? 0 then
      mkkd (kd_c t) (kd_sq t) (fst (sp_Write (kd_s t) [3; 0; 0; 0; 0; 0; 0; 0]%N)) (S (kd_n t)) (kd_k t) 0 (kd_h t)
    else
      let '(k, o) := sp_Read (kd_k t) 32 in
      mkkd (kd_c t) (kd_sq t) (fst (sp_Write (kd_s t) o)) (S (kd_n t)) (sp_Reset k) 0 (kd_h t)
  else t.
(** /repo/k12/digest.go:79-95 *)
Definition k12_part (t : kd) (q : list N) : kd :=
  if kd_n t =? 0 then
    let '(s, w) := sp_Write (kd_s t) q in mkkd (kd_c t) (kd_sq t) s (kd_n t) (kd_k t) (kd_w t + w) (kd_h t)
  else
    let '(k, w) := sp_Write (kd_k t) q in mkkd (kd_c t) (kd_sq t) (kd_s t) (kd_n t) k (kd_w t + w) (kd_h t).
(** /repo/k12/digest.go:61-96, the loop of Write; every iteration consumes at least one byte *)
Fixpoint k12_wloop (fuel : nat) (t : kd) (p : list N) : kd :=
  match fuel with
  | O => t
  | S fuel =>
      if length p =? 0 then t
      else
        let t := k12_switch t in
        let xx := K12_BlockSize - kd_w t in
        let xx := if length p <? xx then length p else xx in
        k12_wloop fuel (k12_part t (firstn xx p)) (skipn xx p)
  end.
(** /repo/k12/digest.go:53-99; the flag says whether an error is returned *)
Definition k12_Write (t : kd) (p : list N) : kd * (nat * bool) :=
  if kd_sq t then (t, (0, true)) else (k12_wloop (S (length p)) t p, (length p, false)).
Definition sp_set_ds (d : sp) (ds : N) : sp := mksp (sp_a d) ds (sp_i d) (sp_n d) (sp_st d) (sp_sq d).
(** /repo/k12/digest.go:117-137: the padding done by the first Read *)
Definition k12_finish (t : kd) : kd :=
  let t := fst (k12_Write t (kd_c t)) in
  let t := fst (k12_Write t (k12_rightEncode (N.of_nat (length (kd_c t))))) in
  if kd_n t =? 0 then mkkd (kd_c t) true (sp_set_ds (kd_s t) 0x07) (kd_n t) (kd_k t) (kd_w t) (kd_h t)
  else
    let '(k, o) := sp_Read (kd_k t) 32 in
    let s := fst (sp_Write (kd_s t) o) in
    let s := fst (sp_Write s (k12_rightEncode (N.of_nat (kd_n t)))) in
    let s := fst (sp_Write s [255; 255]%N) in
    mkkd (kd_c t) true (sp_set_ds s 0x06) (kd_n t) k (kd_w t) (kd_h t).
(** /repo/k12/digest.go:115-143, n = len(out) *)
Definition k12_Read (t : kd) (n : nat) : kd * list N :=
  let t := if kd_sq t then t else k12_finish t in
  let '(s, o) := sp_Read (kd_s t) n in
  (mkkd (kd_c t) (kd_sq t) s (kd_n t) (kd_k t) (kd_w t) (kd_h t), o).
(** /repo/k12/digest.go:101-112: Sum works on a clone, the object is unchanged *)
Definition k12_Sum (t : kd) (inp : list N) : list N := inp ++ snd (k12_Read t (kd_h t)).

(** A client's calls. *)
Fixpoint k12_run (t : kd) (ops : list kop) : list kobs :=
  match ops with
  | [] => []
  | KWrite p :: r => let '(t', (n, e)) := k12_Write t p in KWrote n e :: k12_run t' r
  | KSum i :: r => KSummed (k12_Sum t i) :: k12_run t r
  | KRead n :: r => let '(t', o) := k12_Read t n in KGot o :: k12_run t' r
  | KReset :: r => k12_run (k12_Reset t) r
  end.
End K12.
(** /repo/k12/k12.go:35-41 (and 12-19 with hashSize 32): the one-shot functions *)
Definition k12_SumWithSize (custom data : list N) (hs : nat) : list N :=
  k12_Sum (keccakF1600 12) (fst (k12_Write (keccakF1600 12) (k12_new custom hs) data)) [].
