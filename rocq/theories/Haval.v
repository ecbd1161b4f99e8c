(** Haval.v -- model of haval/digest.go, haval/utils.go, haval/sbox.go, haval/haval.go.
    The pass functions are translated from the Go text by script. *)
From Coq Require Import List NArith Arith.
Require Import Verif.Base Verif.HashAPI Verif.Buf Verif.MD.
Import ListNotations.

(** haval/sbox.go:3-12, iv *)
Definition hvt_iv : list N := [608135816; 2242054355; 320440878; 57701188; 2752067618; 698298832; 137296536; 3964562569]%N.
(** haval/sbox.go:14-23, K2 *)
Definition hvt_K2 : list N := [1160258022; 953160567; 3193202383; 887688300; 3232508343; 3380367581; 1065670069; 3041331479; 2450970073; 2306472731; 3509652390; 2564797868; 805139163; 3491422135; 3101798381; 1780907670; 3128725573; 4046225305; 614570311; 3012652279; 134345442; 2240740374; 1667834072; 1901547113; 2757295779; 4103290238; 227898511; 1921955416; 1904987480; 2182433518; 2069144605; 3260701109]%N.
(** haval/sbox.go:25-34, K3 *)
Definition hvt_K3 : list N := [2620446009; 720527379; 3318853667; 677414384; 3393288472; 3101374703; 2390351024; 1614419982; 1822297739; 2954791486; 3608508353; 3174124327; 2024746970; 1432378464; 3864339955; 2857741204; 1464375394; 1676153920; 1439316330; 715854006; 3033291828; 289532110; 2706671279; 2087905683; 3018724369; 1668267050; 732546397; 1947742710; 3462151702; 2609353502; 2950085171; 1814351708]%N.
(** haval/sbox.go:36-45, K4 *)
Definition hvt_K4 : list N := [2050118529; 680887927; 999245976; 1800124847; 3300911131; 1713906067; 1641548236; 4213287313; 1216130144; 1575780402; 4018429277; 3917837745; 3693486850; 3949271944; 596196993; 3549867205; 258830323; 2213823033; 772490370; 2760122372; 1774776394; 2652871518; 566650946; 4142492826; 1728879713; 2882767088; 1783734482; 3629395816; 2517608232; 2874225571; 1861159788; 326777828]%N.
(** haval/sbox.go:47-56, K5 *)
Definition hvt_K5 : list N := [3124490320; 2130389656; 2716951837; 967770486; 1724537150; 2185432712; 2364442137; 1164943284; 2105845187; 998989502; 3765401048; 2244026483; 1075463327; 1455516326; 1322494562; 910128902; 469688178; 1117454909; 936433444; 3490320968; 3675253459; 1240580251; 122909385; 2157517691; 634681816; 4142456567; 3825094682; 3061402683; 2540495037; 79693498; 3249098678; 1084186820]%N.
(** haval/sbox.go:58-61, wp2 *)
Definition hvt_wp2 : list nat := [5; 14; 26; 18; 11; 28; 7; 16; 0; 23; 20; 22; 1; 10; 4; 8; 30; 3; 21; 9; 17; 24; 29; 6; 19; 12; 15; 13; 2; 25; 31; 27].
(** haval/sbox.go:63-66, wp3 *)
Definition hvt_wp3 : list nat := [19; 9; 4; 20; 28; 17; 8; 22; 29; 14; 25; 12; 24; 30; 16; 26; 31; 15; 7; 3; 1; 0; 18; 27; 13; 6; 21; 10; 23; 11; 5; 2].
(** haval/sbox.go:68-71, wp4 *)
Definition hvt_wp4 : list nat := [24; 4; 0; 14; 2; 7; 28; 23; 26; 6; 30; 20; 18; 25; 19; 3; 22; 11; 31; 21; 8; 27; 12; 9; 1; 29; 5; 15; 17; 10; 16; 13].
(** haval/sbox.go:73-76, wp5 *)
Definition hvt_wp5 : list nat := [27; 3; 21; 26; 17; 11; 20; 29; 19; 0; 12; 7; 13; 8; 31; 10; 5; 9; 14; 30; 18; 6; 28; 24; 2; 23; 16; 22; 4; 1; 25; 15].
(** haval/utils.go:58-60, F1 *)
Definition hvF1 (x6 x5 x4 x3 x2 x1 x0 : N) : N := (N.lxor (N.lxor (N.lxor (N.lxor (N.land x1 x4) (N.land x2 x5)) (N.land x3 x6)) (N.land x0 x1)) x0).
(** haval/utils.go:62-65, F2 *)
Definition hvF2 (x6 x5 x4 x3 x2 x1 x0 : N) : N := (N.lxor (N.lxor (N.land x2 (N.lxor (N.lxor (N.lxor (N.land x1 (not32 x3)) (N.land x4 x5)) x6) x0)) (N.land x4 (N.lxor x1 x5))) (N.lxor (N.land x3 x5) x0)).
(** haval/utils.go:67-70, F3 *)
Definition hvF3 (x6 x5 x4 x3 x2 x1 x0 : N) : N := (N.lxor (N.lxor (N.lxor (N.land x3 (N.lxor (N.lxor (N.land x1 x2) x6) x0)) (N.land x1 x4)) (N.land x2 x5)) x0).
(** haval/utils.go:72-75, F4 *)
Definition hvF4 (x6 x5 x4 x3 x2 x1 x0 : N) : N := (N.lxor (N.lxor (N.lxor (N.land x3 (N.lxor (N.lxor (N.land x1 x2) (N.lor x4 x6)) x5)) (N.land x4 (N.lxor (N.lxor (N.lxor (N.land (not32 x2) x5) x1) x6) x0))) (N.land x2 x6)) x0).
(** haval/utils.go:77-80, F5 *)
Definition hvF5 (x6 x5 x4 x3 x2 x1 x0 : N) : N := (N.lxor (N.lxor (N.lxor (N.land x0 (not32 (N.lxor (N.land (N.land x1 x2) x3) x5))) (N.land x1 x4)) (N.land x2 x5)) (N.land x3 x6)).
(** haval/utils.go:94-101, mix160_0 *)
Definition hv_mix160_0 (x5 x6 x7 : N) : N := (rotl32 (N.lor (N.lor (N.land x5 33030144%N) (N.land x6 4261412864%N)) (N.land x7 63%N)) 13%N).
(** haval/utils.go:103-110, mix160_1 *)
Definition hv_mix160_1 (x5 x6 x7 : N) : N := (rotl32 (N.lor (N.lor (N.land x5 4261412864%N) (N.land x6 63%N)) (N.land x7 4032%N)) 7%N).
(** haval/utils.go:112-116, mix160_2 *)
Definition hv_mix160_2 (x5 x6 x7 : N) : N := (N.lor (N.lor (N.land x5 63%N) (N.land x6 4032%N)) (N.land x7 520192%N)).
(** haval/utils.go:118-122, mix160_3 *)
Definition hv_mix160_3 (x5 x6 x7 : N) : N := (N.shiftr (N.lor (N.lor (N.land x5 4032%N) (N.land x6 520192%N)) (N.land x7 33030144%N)) 6%N).
(** haval/utils.go:124-128, mix160_4 *)
Definition hv_mix160_4 (x5 x6 x7 : N) : N := (N.shiftr (N.lor (N.lor (N.land x5 520192%N) (N.land x6 33030144%N)) (N.land x7 4261412864%N)) 12%N).
(** haval/utils.go:130-132, mix192_0 *)
Definition hv_mix192_0 (x6 x7 : N) : N := (rotl32 (N.lor (N.land x6 4227858432%N) (N.land x7 31%N)) 6%N).
(** haval/utils.go:134-136, mix192_1 *)
Definition hv_mix192_1 (x6 x7 : N) : N := (N.lor (N.land x6 31%N) (N.land x7 992%N)).
(** haval/utils.go:138-140, mix192_2 *)
Definition hv_mix192_2 (x6 x7 : N) : N := (N.shiftr (N.lor (N.land x6 992%N) (N.land x7 64512%N)) 5%N).
(** haval/utils.go:142-144, mix192_3 *)
Definition hv_mix192_3 (x6 x7 : N) : N := (N.shiftr (N.lor (N.land x6 64512%N) (N.land x7 2031616%N)) 10%N).
(** haval/utils.go:146-148, mix192_4 *)
Definition hv_mix192_4 (x6 x7 : N) : N := (N.shiftr (N.lor (N.land x6 2031616%N) (N.land x7 65011712%N)) 16%N).
(** haval/utils.go:150-152, mix192_5 *)
Definition hv_mix192_5 (x6 x7 : N) : N := (N.shiftr (N.lor (N.land x6 65011712%N) (N.land x7 4227858432%N)) 21%N).
(** haval/utils.go:79-90, mix128 *)
Definition hv_mix128 (a0 a1 a2 a3 n : N) : N :=
  let tmp := N.lor (N.lor (N.lor (N.land a0 0x000000FF) (N.land a1 0x0000FF00)) (N.land a2 0x00FF0000)) (N.land a3 0xFF000000) in
  if N.ltb 0 n then rotl32 tmp n else tmp.

(** An assignment to x_k (of the eight variables x0 .. x7) and a sequence of them. *)
Definition hv_asg (v : list N) (a : nat * (N -> N -> N -> N -> N -> N -> N -> N -> N)) : list N :=
  match v with
  | [x0; x1; x2; x3; x4; x5; x6; x7] => upd v (fst a) (snd a x0 x1 x2 x3 x4 x5 x6 x7)
  | _ => v
  end.
Definition hv_body (prog : list (nat * (N -> N -> N -> N -> N -> N -> N -> N -> N))) (v : list N) : list N := fold_left hv_asg prog v.
(** haval/digest.go:191-214, pass31: the loop body, then the loop *)
Definition hv_b31 (inw : list N) (v : list N) (i : nat) : list N := hv_body [
  (7, fun x0 x1 x2 x3 x4 x5 x6 x7 => add32 (add32 (rotl32 (hvF1 x1 x0 x3 x5 x6 x2 x4) 25) (rotl32 x7 21)) (at_ inw (i + 0)));
  (6, fun x0 x1 x2 x3 x4 x5 x6 x7 => add32 (add32 (rotl32 (hvF1 x0 x7 x2 x4 x5 x1 x3) 25) (rotl32 x6 21)) (at_ inw (i + 1)));
  (5, fun x0 x1 x2 x3 x4 x5 x6 x7 => add32 (add32 (rotl32 (hvF1 x7 x6 x1 x3 x4 x0 x2) 25) (rotl32 x5 21)) (at_ inw (i + 2)));
  (4, fun x0 x1 x2 x3 x4 x5 x6 x7 => add32 (add32 (rotl32 (hvF1 x6 x5 x0 x2 x3 x7 x1) 25) (rotl32 x4 21)) (at_ inw (i + 3)));
  (3, fun x0 x1 x2 x3 x4 x5 x6 x7 => add32 (add32 (rotl32 (hvF1 x5 x4 x7 x1 x2 x6 x0) 25) (rotl32 x3 21)) (at_ inw (i + 4)));
  (2, fun x0 x1 x2 x3 x4 x5 x6 x7 => add32 (add32 (rotl32 (hvF1 x4 x3 x6 x0 x1 x5 x7) 25) (rotl32 x2 21)) (at_ inw (i + 5)));
  (1, fun x0 x1 x2 x3 x4 x5 x6 x7 => add32 (add32 (rotl32 (hvF1 x3 x2 x5 x7 x0 x4 x6) 25) (rotl32 x1 21)) (at_ inw (i + 6)));
  (0, fun x0 x1 x2 x3 x4 x5 x6 x7 => add32 (add32 (rotl32 (hvF1 x2 x1 x4 x6 x7 x3 x5) 25) (rotl32 x0 21)) (at_ inw (i + 7)))] v.
Definition hv_p31 (inw v : list N) : list N := fold_left (hv_b31 inw) [0; 8; 16; 24] v.
(** haval/digest.go:216-239, pass32: the loop body, then the loop *)
Definition hv_b32 (inw : list N) (v : list N) (i : nat) : list N := hv_body [
  (7, fun x0 x1 x2 x3 x4 x5 x6 x7 => add32 (add32 (add32 (rotl32 (hvF2 x4 x2 x1 x0 x5 x3 x6) 25) (rotl32 x7 21)) (at_ inw (nth (i + 0) hvt_wp2 0))) (at_ hvt_K2 (i + 0)));
  (6, fun x0 x1 x2 x3 x4 x5 x6 x7 => add32 (add32 (add32 (rotl32 (hvF2 x3 x1 x0 x7 x4 x2 x5) 25) (rotl32 x6 21)) (at_ inw (nth (i + 1) hvt_wp2 0))) (at_ hvt_K2 (i + 1)));
  (5, fun x0 x1 x2 x3 x4 x5 x6 x7 => add32 (add32 (add32 (rotl32 (hvF2 x2 x0 x7 x6 x3 x1 x4) 25) (rotl32 x5 21)) (at_ inw (nth (i + 2) hvt_wp2 0))) (at_ hvt_K2 (i + 2)));
  (4, fun x0 x1 x2 x3 x4 x5 x6 x7 => add32 (add32 (add32 (rotl32 (hvF2 x1 x7 x6 x5 x2 x0 x3) 25) (rotl32 x4 21)) (at_ inw (nth (i + 3) hvt_wp2 0))) (at_ hvt_K2 (i + 3)));
  (3, fun x0 x1 x2 x3 x4 x5 x6 x7 => add32 (add32 (add32 (rotl32 (hvF2 x0 x6 x5 x4 x1 x7 x2) 25) (rotl32 x3 21)) (at_ inw (nth (i + 4) hvt_wp2 0))) (at_ hvt_K2 (i + 4)));
  (2, fun x0 x1 x2 x3 x4 x5 x6 x7 => add32 (add32 (add32 (rotl32 (hvF2 x7 x5 x4 x3 x0 x6 x1) 25) (rotl32 x2 21)) (at_ inw (nth (i + 5) hvt_wp2 0))) (at_ hvt_K2 (i + 5)));
  (1, fun x0 x1 x2 x3 x4 x5 x6 x7 => add32 (add32 (add32 (rotl32 (hvF2 x6 x4 x3 x2 x7 x5 x0) 25) (rotl32 x1 21)) (at_ inw (nth (i + 6) hvt_wp2 0))) (at_ hvt_K2 (i + 6)));
  (0, fun x0 x1 x2 x3 x4 x5 x6 x7 => add32 (add32 (add32 (rotl32 (hvF2 x5 x3 x2 x1 x6 x4 x7) 25) (rotl32 x0 21)) (at_ inw (nth (i + 7) hvt_wp2 0))) (at_ hvt_K2 (i + 7)))] v.
Definition hv_p32 (inw v : list N) : list N := fold_left (hv_b32 inw) [0; 8; 16; 24] v.
(** haval/digest.go:241-264, pass33: the loop body, then the loop *)
Definition hv_b33 (inw : list N) (v : list N) (i : nat) : list N := hv_body [
  (7, fun x0 x1 x2 x3 x4 x5 x6 x7 => add32 (add32 (add32 (rotl32 (hvF3 x6 x1 x2 x3 x4 x5 x0) 25) (rotl32 x7 21)) (at_ inw (nth (i + 0) hvt_wp3 0))) (at_ hvt_K3 (i + 0)));
  (6, fun x0 x1 x2 x3 x4 x5 x6 x7 => add32 (add32 (add32 (rotl32 (hvF3 x5 x0 x1 x2 x3 x4 x7) 25) (rotl32 x6 21)) (at_ inw (nth (i + 1) hvt_wp3 0))) (at_ hvt_K3 (i + 1)));
  (5, fun x0 x1 x2 x3 x4 x5 x6 x7 => add32 (add32 (add32 (rotl32 (hvF3 x4 x7 x0 x1 x2 x3 x6) 25) (rotl32 x5 21)) (at_ inw (nth (i + 2) hvt_wp3 0))) (at_ hvt_K3 (i + 2)));
  (4, fun x0 x1 x2 x3 x4 x5 x6 x7 => add32 (add32 (add32 (rotl32 (hvF3 x3 x6 x7 x0 x1 x2 x5) 25) (rotl32 x4 21)) (at_ inw (nth (i + 3) hvt_wp3 0))) (at_ hvt_K3 (i + 3)));
  (3, fun x0 x1 x2 x3 x4 x5 x6 x7 => add32 (add32 (add32 (rotl32 (hvF3 x2 x5 x6 x7 x0 x1 x4) 25) (rotl32 x3 21)) (at_ inw (nth (i + 4) hvt_wp3 0))) (at_ hvt_K3 (i + 4)));
  (2, fun x0 x1 x2 x3 x4 x5 x6 x7 => add32 (add32 (add32 (rotl32 (hvF3 x1 x4 x5 x6 x7 x0 x3) 25) (rotl32 x2 21)) (at_ inw (nth (i + 5) hvt_wp3 0))) (at_ hvt_K3 (i + 5)));
  (1, fun x0 x1 x2 x3 x4 x5 x6 x7 => add32 (add32 (add32 (rotl32 (hvF3 x0 x3 x4 x5 x6 x7 x2) 25) (rotl32 x1 21)) (at_ inw (nth (i + 6) hvt_wp3 0))) (at_ hvt_K3 (i + 6)));
  (0, fun x0 x1 x2 x3 x4 x5 x6 x7 => add32 (add32 (add32 (rotl32 (hvF3 x7 x2 x3 x4 x5 x6 x1) 25) (rotl32 x0 21)) (at_ inw (nth (i + 7) hvt_wp3 0))) (at_ hvt_K3 (i + 7)))] v.
Definition hv_p33 (inw v : list N) : list N := fold_left (hv_b33 inw) [0; 8; 16; 24] v.
(** haval/digest.go:266-289, pass41: the loop body, then the loop *)
Definition hv_b41 (inw : list N) (v : list N) (i : nat) : list N := hv_body [
  (7, fun x0 x1 x2 x3 x4 x5 x6 x7 => add32 (add32 (rotl32 (hvF1 x2 x6 x1 x4 x5 x3 x0) 25) (rotl32 x7 21)) (at_ inw (i + 0)));
  (6, fun x0 x1 x2 x3 x4 x5 x6 x7 => add32 (add32 (rotl32 (hvF1 x1 x5 x0 x3 x4 x2 x7) 25) (rotl32 x6 21)) (at_ inw (i + 1)));
  (5, fun x0 x1 x2 x3 x4 x5 x6 x7 => add32 (add32 (rotl32 (hvF1 x0 x4 x7 x2 x3 x1 x6) 25) (rotl32 x5 21)) (at_ inw (i + 2)));
  (4, fun x0 x1 x2 x3 x4 x5 x6 x7 => add32 (add32 (rotl32 (hvF1 x7 x3 x6 x1 x2 x0 x5) 25) (rotl32 x4 21)) (at_ inw (i + 3)));
  (3, fun x0 x1 x2 x3 x4 x5 x6 x7 => add32 (add32 (rotl32 (hvF1 x6 x2 x5 x0 x1 x7 x4) 25) (rotl32 x3 21)) (at_ inw (i + 4)));
  (2, fun x0 x1 x2 x3 x4 x5 x6 x7 => add32 (add32 (rotl32 (hvF1 x5 x1 x4 x7 x0 x6 x3) 25) (rotl32 x2 21)) (at_ inw (i + 5)));
  (1, fun x0 x1 x2 x3 x4 x5 x6 x7 => add32 (add32 (rotl32 (hvF1 x4 x0 x3 x6 x7 x5 x2) 25) (rotl32 x1 21)) (at_ inw (i + 6)));
  (0, fun x0 x1 x2 x3 x4 x5 x6 x7 => add32 (add32 (rotl32 (hvF1 x3 x7 x2 x5 x6 x4 x1) 25) (rotl32 x0 21)) (at_ inw (i + 7)))] v.
Definition hv_p41 (inw v : list N) : list N := fold_left (hv_b41 inw) [0; 8; 16; 24] v.
(** haval/digest.go:291-314, pass42: the loop body, then the loop *)
Definition hv_b42 (inw : list N) (v : list N) (i : nat) : list N := hv_body [
  (7, fun x0 x1 x2 x3 x4 x5 x6 x7 => add32 (add32 (add32 (rotl32 (hvF2 x3 x5 x2 x0 x1 x6 x4) 25) (rotl32 x7 21)) (at_ inw (nth (i + 0) hvt_wp2 0))) (at_ hvt_K2 (i + 0)));
  (6, fun x0 x1 x2 x3 x4 x5 x6 x7 => add32 (add32 (add32 (rotl32 (hvF2 x2 x4 x1 x7 x0 x5 x3) 25) (rotl32 x6 21)) (at_ inw (nth (i + 1) hvt_wp2 0))) (at_ hvt_K2 (i + 1)));
  (5, fun x0 x1 x2 x3 x4 x5 x6 x7 => add32 (add32 (add32 (rotl32 (hvF2 x1 x3 x0 x6 x7 x4 x2) 25) (rotl32 x5 21)) (at_ inw (nth (i + 2) hvt_wp2 0))) (at_ hvt_K2 (i + 2)));
  (4, fun x0 x1 x2 x3 x4 x5 x6 x7 => add32 (add32 (add32 (rotl32 (hvF2 x0 x2 x7 x5 x6 x3 x1) 25) (rotl32 x4 21)) (at_ inw (nth (i + 3) hvt_wp2 0))) (at_ hvt_K2 (i + 3)));
  (3, fun x0 x1 x2 x3 x4 x5 x6 x7 => add32 (add32 (add32 (rotl32 (hvF2 x7 x1 x6 x4 x5 x2 x0) 25) (rotl32 x3 21)) (at_ inw (nth (i + 4) hvt_wp2 0))) (at_ hvt_K2 (i + 4)));
  (2, fun x0 x1 x2 x3 x4 x5 x6 x7 => add32 (add32 (add32 (rotl32 (hvF2 x6 x0 x5 x3 x4 x1 x7) 25) (rotl32 x2 21)) (at_ inw (nth (i + 5) hvt_wp2 0))) (at_ hvt_K2 (i + 5)));
  (1, fun x0 x1 x2 x3 x4 x5 x6 x7 => add32 (add32 (add32 (rotl32 (hvF2 x5 x7 x4 x2 x3 x0 x6) 25) (rotl32 x1 21)) (at_ inw (nth (i + 6) hvt_wp2 0))) (at_ hvt_K2 (i + 6)));
  (0, fun x0 x1 x2 x3 x4 x5 x6 x7 => add32 (add32 (add32 (rotl32 (hvF2 x4 x6 x3 x1 x2 x7 x5) 25) (rotl32 x0 21)) (at_ inw (nth (i + 7) hvt_wp2 0))) (at_ hvt_K2 (i + 7)))] v.
Definition hv_p42 (inw v : list N) : list N := fold_left (hv_b42 inw) [0; 8; 16; 24] v.
(** haval/digest.go:316-339, pass43: the loop body, then the loop *)
Definition hv_b43 (inw : list N) (v : list N) (i : nat) : list N := hv_body [
  (7, fun x0 x1 x2 x3 x4 x5 x6 x7 => add32 (add32 (add32 (rotl32 (hvF3 x1 x4 x3 x6 x0 x2 x5) 25) (rotl32 x7 21)) (at_ inw (nth (i + 0) hvt_wp3 0))) (at_ hvt_K3 (i + 0)));
  (6, fun x0 x1 x2 x3 x4 x5 x6 x7 => add32 (add32 (add32 (rotl32 (hvF3 x0 x3 x2 x5 x7 x1 x4) 25) (rotl32 x6 21)) (at_ inw (nth (i + 1) hvt_wp3 0))) (at_ hvt_K3 (i + 1)));
  (5, fun x0 x1 x2 x3 x4 x5 x6 x7 => add32 (add32 (add32 (rotl32 (hvF3 x7 x2 x1 x4 x6 x0 x3) 25) (rotl32 x5 21)) (at_ inw (nth (i + 2) hvt_wp3 0))) (at_ hvt_K3 (i + 2)));
  (4, fun x0 x1 x2 x3 x4 x5 x6 x7 => add32 (add32 (add32 (rotl32 (hvF3 x6 x1 x0 x3 x5 x7 x2) 25) (rotl32 x4 21)) (at_ inw (nth (i + 3) hvt_wp3 0))) (at_ hvt_K3 (i + 3)));
  (3, fun x0 x1 x2 x3 x4 x5 x6 x7 => add32 (add32 (add32 (rotl32 (hvF3 x5 x0 x7 x2 x4 x6 x1) 25) (rotl32 x3 21)) (at_ inw (nth (i + 4) hvt_wp3 0))) (at_ hvt_K3 (i + 4)));
  (2, fun x0 x1 x2 x3 x4 x5 x6 x7 => add32 (add32 (add32 (rotl32 (hvF3 x4 x7 x6 x1 x3 x5 x0) 25) (rotl32 x2 21)) (at_ inw (nth (i + 5) hvt_wp3 0))) (at_ hvt_K3 (i + 5)));
  (1, fun x0 x1 x2 x3 x4 x5 x6 x7 => add32 (add32 (add32 (rotl32 (hvF3 x3 x6 x5 x0 x2 x4 x7) 25) (rotl32 x1 21)) (at_ inw (nth (i + 6) hvt_wp3 0))) (at_ hvt_K3 (i + 6)));
  (0, fun x0 x1 x2 x3 x4 x5 x6 x7 => add32 (add32 (add32 (rotl32 (hvF3 x2 x5 x4 x7 x1 x3 x6) 25) (rotl32 x0 21)) (at_ inw (nth (i + 7) hvt_wp3 0))) (at_ hvt_K3 (i + 7)))] v.
Definition hv_p43 (inw v : list N) : list N := fold_left (hv_b43 inw) [0; 8; 16; 24] v.
(** haval/digest.go:341-364, pass44: the loop body, then the loop *)
Definition hv_b44 (inw : list N) (v : list N) (i : nat) : list N := hv_body [
  (7, fun x0 x1 x2 x3 x4 x5 x6 x7 => add32 (add32 (add32 (rotl32 (hvF4 x6 x4 x0 x5 x2 x1 x3) 25) (rotl32 x7 21)) (at_ inw (nth (i + 0) hvt_wp4 0))) (at_ hvt_K4 (i + 0)));
  (6, fun x0 x1 x2 x3 x4 x5 x6 x7 => add32 (add32 (add32 (rotl32 (hvF4 x5 x3 x7 x4 x1 x0 x2) 25) (rotl32 x6 21)) (at_ inw (nth (i + 1) hvt_wp4 0))) (at_ hvt_K4 (i + 1)));
  (5, fun x0 x1 x2 x3 x4 x5 x6 x7 => add32 (add32 (add32 (rotl32 (hvF4 x4 x2 x6 x3 x0 x7 x1) 25) (rotl32 x5 21)) (at_ inw (nth (i + 2) hvt_wp4 0))) (at_ hvt_K4 (i + 2)));
  (4, fun x0 x1 x2 x3 x4 x5 x6 x7 => add32 (add32 (add32 (rotl32 (hvF4 x3 x1 x5 x2 x7 x6 x0) 25) (rotl32 x4 21)) (at_ inw (nth (i + 3) hvt_wp4 0))) (at_ hvt_K4 (i + 3)));
  (3, fun x0 x1 x2 x3 x4 x5 x6 x7 => add32 (add32 (add32 (rotl32 (hvF4 x2 x0 x4 x1 x6 x5 x7) 25) (rotl32 x3 21)) (at_ inw (nth (i + 4) hvt_wp4 0))) (at_ hvt_K4 (i + 4)));
  (2, fun x0 x1 x2 x3 x4 x5 x6 x7 => add32 (add32 (add32 (rotl32 (hvF4 x1 x7 x3 x0 x5 x4 x6) 25) (rotl32 x2 21)) (at_ inw (nth (i + 5) hvt_wp4 0))) (at_ hvt_K4 (i + 5)));
  (1, fun x0 x1 x2 x3 x4 x5 x6 x7 => add32 (add32 (add32 (rotl32 (hvF4 x0 x6 x2 x7 x4 x3 x5) 25) (rotl32 x1 21)) (at_ inw (nth (i + 6) hvt_wp4 0))) (at_ hvt_K4 (i + 6)));
  (0, fun x0 x1 x2 x3 x4 x5 x6 x7 => add32 (add32 (add32 (rotl32 (hvF4 x7 x5 x1 x6 x3 x2 x4) 25) (rotl32 x0 21)) (at_ inw (nth (i + 7) hvt_wp4 0))) (at_ hvt_K4 (i + 7)))] v.
Definition hv_p44 (inw v : list N) : list N := fold_left (hv_b44 inw) [0; 8; 16; 24] v.
(** haval/digest.go:366-389, pass51: the loop body, then the loop *)
Definition hv_b51 (inw : list N) (v : list N) (i : nat) : list N := hv_body [
  (7, fun x0 x1 x2 x3 x4 x5 x6 x7 => add32 (add32 (rotl32 (hvF1 x3 x4 x1 x0 x5 x2 x6) 25) (rotl32 x7 21)) (at_ inw (i + 0)));
  (6, fun x0 x1 x2 x3 x4 x5 x6 x7 => add32 (add32 (rotl32 (hvF1 x2 x3 x0 x7 x4 x1 x5) 25) (rotl32 x6 21)) (at_ inw (i + 1)));
  (5, fun x0 x1 x2 x3 x4 x5 x6 x7 => add32 (add32 (rotl32 (hvF1 x1 x2 x7 x6 x3 x0 x4) 25) (rotl32 x5 21)) (at_ inw (i + 2)));
  (4, fun x0 x1 x2 x3 x4 x5 x6 x7 => add32 (add32 (rotl32 (hvF1 x0 x1 x6 x5 x2 x7 x3) 25) (rotl32 x4 21)) (at_ inw (i + 3)));
  (3, fun x0 x1 x2 x3 x4 x5 x6 x7 => add32 (add32 (rotl32 (hvF1 x7 x0 x5 x4 x1 x6 x2) 25) (rotl32 x3 21)) (at_ inw (i + 4)));
  (2, fun x0 x1 x2 x3 x4 x5 x6 x7 => add32 (add32 (rotl32 (hvF1 x6 x7 x4 x3 x0 x5 x1) 25) (rotl32 x2 21)) (at_ inw (i + 5)));
  (1, fun x0 x1 x2 x3 x4 x5 x6 x7 => add32 (add32 (rotl32 (hvF1 x5 x6 x3 x2 x7 x4 x0) 25) (rotl32 x1 21)) (at_ inw (i + 6)));
  (0, fun x0 x1 x2 x3 x4 x5 x6 x7 => add32 (add32 (rotl32 (hvF1 x4 x5 x2 x1 x6 x3 x7) 25) (rotl32 x0 21)) (at_ inw (i + 7)))] v.
Definition hv_p51 (inw v : list N) : list N := fold_left (hv_b51 inw) [0; 8; 16; 24] v.
(** haval/digest.go:391-414, pass52: the loop body, then the loop *)
Definition hv_b52 (inw : list N) (v : list N) (i : nat) : list N := hv_body [
  (7, fun x0 x1 x2 x3 x4 x5 x6 x7 => add32 (add32 (add32 (rotl32 (hvF2 x6 x2 x1 x0 x3 x4 x5) 25) (rotl32 x7 21)) (at_ inw (nth (i + 0) hvt_wp2 0))) (at_ hvt_K2 (i + 0)));
  (6, fun x0 x1 x2 x3 x4 x5 x6 x7 => add32 (add32 (add32 (rotl32 (hvF2 x5 x1 x0 x7 x2 x3 x4) 25) (rotl32 x6 21)) (at_ inw (nth (i + 1) hvt_wp2 0))) (at_ hvt_K2 (i + 1)));
  (5, fun x0 x1 x2 x3 x4 x5 x6 x7 => add32 (add32 (add32 (rotl32 (hvF2 x4 x0 x7 x6 x1 x2 x3) 25) (rotl32 x5 21)) (at_ inw (nth (i + 2) hvt_wp2 0))) (at_ hvt_K2 (i + 2)));
  (4, fun x0 x1 x2 x3 x4 x5 x6 x7 => add32 (add32 (add32 (rotl32 (hvF2 x3 x7 x6 x5 x0 x1 x2) 25) (rotl32 x4 21)) (at_ inw (nth (i + 3) hvt_wp2 0))) (at_ hvt_K2 (i + 3)));
  (3, fun x0 x1 x2 x3 x4 x5 x6 x7 => add32 (add32 (add32 (rotl32 (hvF2 x2 x6 x5 x4 x7 x0 x1) 25) (rotl32 x3 21)) (at_ inw (nth (i + 4) hvt_wp2 0))) (at_ hvt_K2 (i + 4)));
  (2, fun x0 x1 x2 x3 x4 x5 x6 x7 => add32 (add32 (add32 (rotl32 (hvF2 x1 x5 x4 x3 x6 x7 x0) 25) (rotl32 x2 21)) (at_ inw (nth (i + 5) hvt_wp2 0))) (at_ hvt_K2 (i + 5)));
  (1, fun x0 x1 x2 x3 x4 x5 x6 x7 => add32 (add32 (add32 (rotl32 (hvF2 x0 x4 x3 x2 x5 x6 x7) 25) (rotl32 x1 21)) (at_ inw (nth (i + 6) hvt_wp2 0))) (at_ hvt_K2 (i + 6)));
  (0, fun x0 x1 x2 x3 x4 x5 x6 x7 => add32 (add32 (add32 (rotl32 (hvF2 x7 x3 x2 x1 x4 x5 x6) 25) (rotl32 x0 21)) (at_ inw (nth (i + 7) hvt_wp2 0))) (at_ hvt_K2 (i + 7)))] v.
Definition hv_p52 (inw v : list N) : list N := fold_left (hv_b52 inw) [0; 8; 16; 24] v.
(** haval/digest.go:416-439, pass53: the loop body, then the loop *)
Definition hv_b53 (inw : list N) (v : list N) (i : nat) : list N := hv_body [
  (7, fun x0 x1 x2 x3 x4 x5 x6 x7 => add32 (add32 (add32 (rotl32 (hvF3 x2 x6 x0 x4 x3 x1 x5) 25) (rotl32 x7 21)) (at_ inw (nth (i + 0) hvt_wp3 0))) (at_ hvt_K3 (i + 0)));
  (6, fun x0 x1 x2 x3 x4 x5 x6 x7 => add32 (add32 (add32 (rotl32 (hvF3 x1 x5 x7 x3 x2 x0 x4) 25) (rotl32 x6 21)) (at_ inw (nth (i + 1) hvt_wp3 0))) (at_ hvt_K3 (i + 1)));
  (5, fun x0 x1 x2 x3 x4 x5 x6 x7 => add32 (add32 (add32 (rotl32 (hvF3 x0 x4 x6 x2 x1 x7 x3) 25) (rotl32 x5 21)) (at_ inw (nth (i + 2) hvt_wp3 0))) (at_ hvt_K3 (i + 2)));
  (4, fun x0 x1 x2 x3 x4 x5 x6 x7 => add32 (add32 (add32 (rotl32 (hvF3 x7 x3 x5 x1 x0 x6 x2) 25) (rotl32 x4 21)) (at_ inw (nth (i + 3) hvt_wp3 0))) (at_ hvt_K3 (i + 3)));
  (3, fun x0 x1 x2 x3 x4 x5 x6 x7 => add32 (add32 (add32 (rotl32 (hvF3 x6 x2 x4 x0 x7 x5 x1) 25) (rotl32 x3 21)) (at_ inw (nth (i + 4) hvt_wp3 0))) (at_ hvt_K3 (i + 4)));
  (2, fun x0 x1 x2 x3 x4 x5 x6 x7 => add32 (add32 (add32 (rotl32 (hvF3 x5 x1 x3 x7 x6 x4 x0) 25) (rotl32 x2 21)) (at_ inw (nth (i + 5) hvt_wp3 0))) (at_ hvt_K3 (i + 5)));
  (1, fun x0 x1 x2 x3 x4 x5 x6 x7 => add32 (add32 (add32 (rotl32 (hvF3 x4 x0 x2 x6 x5 x3 x7) 25) (rotl32 x1 21)) (at_ inw (nth (i + 6) hvt_wp3 0))) (at_ hvt_K3 (i + 6)));
  (0, fun x0 x1 x2 x3 x4 x5 x6 x7 => add32 (add32 (add32 (rotl32 (hvF3 x3 x7 x1 x5 x4 x2 x6) 25) (rotl32 x0 21)) (at_ inw (nth (i + 7) hvt_wp3 0))) (at_ hvt_K3 (i + 7)))] v.
Definition hv_p53 (inw v : list N) : list N := fold_left (hv_b53 inw) [0; 8; 16; 24] v.
(** haval/digest.go:441-464, pass54: the loop body, then the loop *)
Definition hv_b54 (inw : list N) (v : list N) (i : nat) : list N := hv_body [
  (7, fun x0 x1 x2 x3 x4 x5 x6 x7 => add32 (add32 (add32 (rotl32 (hvF4 x1 x5 x3 x2 x0 x4 x6) 25) (rotl32 x7 21)) (at_ inw (nth (i + 0) hvt_wp4 0))) (at_ hvt_K4 (i + 0)));
  (6, fun x0 x1 x2 x3 x4 x5 x6 x7 => add32 (add32 (add32 (rotl32 (hvF4 x0 x4 x2 x1 x7 x3 x5) 25) (rotl32 x6 21)) (at_ inw (nth (i + 1) hvt_wp4 0))) (at_ hvt_K4 (i + 1)));
  (5, fun x0 x1 x2 x3 x4 x5 x6 x7 => add32 (add32 (add32 (rotl32 (hvF4 x7 x3 x1 x0 x6 x2 x4) 25) (rotl32 x5 21)) (at_ inw (nth (i + 2) hvt_wp4 0))) (at_ hvt_K4 (i + 2)));
  (4, fun x0 x1 x2 x3 x4 x5 x6 x7 => add32 (add32 (add32 (rotl32 (hvF4 x6 x2 x0 x7 x5 x1 x3) 25) (rotl32 x4 21)) (at_ inw (nth (i + 3) hvt_wp4 0))) (at_ hvt_K4 (i + 3)));
  (3, fun x0 x1 x2 x3 x4 x5 x6 x7 => add32 (add32 (add32 (rotl32 (hvF4 x5 x1 x7 x6 x4 x0 x2) 25) (rotl32 x3 21)) (at_ inw (nth (i + 4) hvt_wp4 0))) (at_ hvt_K4 (i + 4)));
  (2, fun x0 x1 x2 x3 x4 x5 x6 x7 => add32 (add32 (add32 (rotl32 (hvF4 x4 x0 x6 x5 x3 x7 x1) 25) (rotl32 x2 21)) (at_ inw (nth (i + 5) hvt_wp4 0))) (at_ hvt_K4 (i + 5)));
  (1, fun x0 x1 x2 x3 x4 x5 x6 x7 => add32 (add32 (add32 (rotl32 (hvF4 x3 x7 x5 x4 x2 x6 x0) 25) (rotl32 x1 21)) (at_ inw (nth (i + 6) hvt_wp4 0))) (at_ hvt_K4 (i + 6)));
  (0, fun x0 x1 x2 x3 x4 x5 x6 x7 => add32 (add32 (add32 (rotl32 (hvF4 x2 x6 x4 x3 x1 x5 x7) 25) (rotl32 x0 21)) (at_ inw (nth (i + 7) hvt_wp4 0))) (at_ hvt_K4 (i + 7)))] v.
Definition hv_p54 (inw v : list N) : list N := fold_left (hv_b54 inw) [0; 8; 16; 24] v.
(** haval/digest.go:466-489, pass55: the loop body, then the loop *)
Definition hv_b55 (inw : list N) (v : list N) (i : nat) : list N := hv_body [
  (7, fun x0 x1 x2 x3 x4 x5 x6 x7 => add32 (add32 (add32 (rotl32 (hvF5 x2 x5 x0 x6 x4 x3 x1) 25) (rotl32 x7 21)) (at_ inw (nth (i + 0) hvt_wp5 0))) (at_ hvt_K5 (i + 0)));
  (6, fun x0 x1 x2 x3 x4 x5 x6 x7 => add32 (add32 (add32 (rotl32 (hvF5 x1 x4 x7 x5 x3 x2 x0) 25) (rotl32 x6 21)) (at_ inw (nth (i + 1) hvt_wp5 0))) (at_ hvt_K5 (i + 1)));
  (5, fun x0 x1 x2 x3 x4 x5 x6 x7 => add32 (add32 (add32 (rotl32 (hvF5 x0 x3 x6 x4 x2 x1 x7) 25) (rotl32 x5 21)) (at_ inw (nth (i + 2) hvt_wp5 0))) (at_ hvt_K5 (i + 2)));
  (4, fun x0 x1 x2 x3 x4 x5 x6 x7 => add32 (add32 (add32 (rotl32 (hvF5 x7 x2 x5 x3 x1 x0 x6) 25) (rotl32 x4 21)) (at_ inw (nth (i + 3) hvt_wp5 0))) (at_ hvt_K5 (i + 3)));
  (3, fun x0 x1 x2 x3 x4 x5 x6 x7 => add32 (add32 (add32 (rotl32 (hvF5 x6 x1 x4 x2 x0 x7 x5) 25) (rotl32 x3 21)) (at_ inw (nth (i + 4) hvt_wp5 0))) (at_ hvt_K5 (i + 4)));
  (2, fun x0 x1 x2 x3 x4 x5 x6 x7 => add32 (add32 (add32 (rotl32 (hvF5 x5 x0 x3 x1 x7 x6 x4) 25) (rotl32 x2 21)) (at_ inw (nth (i + 5) hvt_wp5 0))) (at_ hvt_K5 (i + 5)));
  (1, fun x0 x1 x2 x3 x4 x5 x6 x7 => add32 (add32 (add32 (rotl32 (hvF5 x4 x7 x2 x0 x6 x5 x3) 25) (rotl32 x1 21)) (at_ inw (nth (i + 6) hvt_wp5 0))) (at_ hvt_K5 (i + 6)));
  (0, fun x0 x1 x2 x3 x4 x5 x6 x7 => add32 (add32 (add32 (rotl32 (hvF5 x3 x6 x1 x7 x5 x4 x2) 25) (rotl32 x0 21)) (at_ inw (nth (i + 7) hvt_wp5 0))) (at_ hvt_K5 (i + 7)))] v.
Definition hv_p55 (inw v : list N) : list N := fold_left (hv_b55 inw) [0; 8; 16; 24] v.

Section Digest.
Variable passes olen : nat.
(** haval/digest.go:169-189, the switch on the number of passes *)
Definition hv_passes (inw v : list N) : list N :=
  match passes with
  | 3 => hv_p33 inw (hv_p32 inw (hv_p31 inw v))
  | 4 => hv_p44 inw (hv_p43 inw (hv_p42 inw (hv_p41 inw v)))
  | 5 => hv_p55 inw (hv_p54 inw (hv_p53 inw (hv_p52 inw (hv_p51 inw v))))
  | _ => v
  end.
(** haval/digest.go:149-189, processBlock (the state is the list s0 .. s7; inw is scratch, rewritten at every block) *)
Definition hv_block (s data : list N) : list N :=
  let inw := map (fun i => le_val (slice data (4 * i) (4 * i + 4))) (seq 0 32) in
  let v := hv_passes inw s in
  map (fun k => add32 (at_ v k) (at_ s k)) (seq 0 8).
(** haval/digest.go:93-116, Write *)
Definition hv_write : dig (list N) -> list N -> dig (list N) * nat := write_pre 128 hv_block.
(** haval/digest.go:65-83, Reset *)
Definition hv_reset : dig (list N) := mkdig hvt_iv (zeros 128) 0 0.
(** haval/digest.go:491-586, write128 .. write256, writeOutput; [o k] is s_k, each putu32 writes 4 bytes of out *)
Definition hv_writeOutput (s : list N) : list N :=
  let o := at_ s in
  concat (map (le_bytes 4)
  match olen with
  | 4 => [add32 (o 0) (hv_mix128 (o 7) (o 4) (o 5) (o 6) 24); add32 (o 1) (hv_mix128 (o 6) (o 7) (o 4) (o 5) 16);
          add32 (o 2) (hv_mix128 (o 5) (o 6) (o 7) (o 4) 8); add32 (o 3) (hv_mix128 (o 4) (o 5) (o 6) (o 7) 0)]
  | 5 => [add32 (o 0) (hv_mix160_0 (o 5) (o 6) (o 7)); add32 (o 1) (hv_mix160_1 (o 5) (o 6) (o 7)); add32 (o 2) (hv_mix160_2 (o 5) (o 6) (o 7));
          add32 (o 3) (hv_mix160_3 (o 5) (o 6) (o 7)); add32 (o 4) (hv_mix160_4 (o 5) (o 6) (o 7))]
  | 6 => [add32 (o 0) (hv_mix192_0 (o 6) (o 7)); add32 (o 1) (hv_mix192_1 (o 6) (o 7)); add32 (o 2) (hv_mix192_2 (o 6) (o 7));
          add32 (o 3) (hv_mix192_3 (o 6) (o 7)); add32 (o 4) (hv_mix192_4 (o 6) (o 7)); add32 (o 5) (hv_mix192_5 (o 6) (o 7))]
  | 7 => [add32 (o 0) (N.land (N.shiftr (o 7) 27) 0x1F); add32 (o 1) (N.land (N.shiftr (o 7) 22) 0x1F); add32 (o 2) (N.land (N.shiftr (o 7) 18) 0x0F);
          add32 (o 3) (N.land (N.shiftr (o 7) 13) 0x1F); add32 (o 4) (N.land (N.shiftr (o 7) 9) 0x0F); add32 (o 5) (N.land (N.shiftr (o 7) 4) 0x1F);
          add32 (o 6) (N.land (o 7) 0x0F)]
  | 8 => [o 0; o 1; o 2; o 3; o 4; o 5; o 6; o 7]
  | _ => []
  end).
(** haval/digest.go:125-147, checkSum.  (dataLen + 138) &^ 127 = ((dataLen + 138) / 128) * 128. *)
Definition hv_padBuf (currentLength : N) : list N :=
  [N.lor 1 (w8 (N.shiftl (N.of_nat passes) 3)); w8 (N.shiftl (N.of_nat olen) 3)]
  ++ le_bytes 4 (w32 currentLength) ++ le_bytes 4 (w32 (N.shiftr currentLength 32)).
Definition hv_checkSum (d : dig (list N)) : list N :=
  let dataLen := dnx d in
  let currentLength := shl64 (add64 (shl64 (dlen d / 128) 7) (N.of_nat dataLen)) 3 in
  let endLen := (dataLen + 138) / 128 * 128 in
  let d := fst (hv_write d [1%N]) in
  let d := fold_left (fun d _ => fst (hv_write d [0%N])) (seq (dataLen + 1) (endLen - 10 - (dataLen + 1))) d in
  let d := fst (hv_write d (hv_padBuf currentLength)) in
  hv_writeOutput (ds d).
(** haval/digest.go:118-123, Sum (on a copy) *)
Definition hvd_sum (d : dig (list N)) (inp : list N) : dig (list N) * list N := (d, inp ++ hv_checkSum d).
Definition hv_impl : impl (dig (list N)) := mkimpl hv_write hvd_sum (fun _ => hv_reset).
(** haval/haval.go: Sum128_3 .. Sum256_5: New, Write, Sum(nil), copy into an array of 4 olen bytes *)
Definition hv_Sum (data : list N) : list N := copy_at (zeros (4 * olen)) 0 (hv_checkSum (fst (hv_write hv_reset data))).
End Digest.
(** haval/digest.go:41-63, newDigest(outputLength, passes) on any two uint32 values: None for the error. *)
Definition hv_newDigest (outputLength passes : N) : option (nat * nat * dig (list N)) :=
  let olen := N.shiftr outputLength 5 in
  if negb (existsb (N.eqb olen) [4; 5; 6; 7; 8]%N) then None
  else if negb (existsb (N.eqb passes) [3; 4; 5]%N) then None
  else Some (N.to_nat passes, N.to_nat olen, hv_reset).
