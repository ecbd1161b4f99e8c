(** Shabal.v -- model of /repo/shabal (digest.go, sbox.go, shabal.go). *)
From Coq Require Import List NArith Arith Lia Bool.
From Verif Require Import Base Buf MD HashAPI.
Import ListNotations.

(** sbox.go:4-76 *)
Definition sb_iv192 : list N := [
  4252278484; 3080250672; 865094511; 1186834526; 124335284; 1162559576; 2012693799; 4216124517;
  1653808553; 3883452635; 582195598; 2887110585; 1488763588; 3964117134; 2934518706; 3754674212;
  2811512836; 3211115952; 1520256258; 1503107831; 3318654286; 1265336656; 384243977; 2103649049;
  2466608032; 4081869777; 3405321396; 4258685228; 1632962680; 2314152821; 2707819590; 2129888603;
  1922545036; 465991571; 2142357283; 3060778560; 440973084; 4036455703; 143452170; 2757029363;
  470379508; 2893423179; 1377138716; 3445433961]%N.

Definition sb_iv224 : list N := [
  2770343015; 2847463754; 3570325911; 1748475259; 2818339770; 4053947499; 1617396415; 3770481935;
  790968142; 110761119; 1580072741; 4209832033; 3969451480; 4061679823; 3232188104; 567989400;
  890597099; 143431666; 640695872; 2318225333; 4277028022; 2317260147; 2072056090; 3418438128;
  2740009057; 489436718; 2441893902; 3045989276; 3837096865; 1276774528; 512785489; 75529981;
  987287013; 380769026; 38874195; 570739480; 2571132717; 3853928609; 1890262339; 2701927874;
  384936965; 951839574; 2600590432; 2970185091]%N.

Definition sb_iv256 : list N := [
  1392002386; 3846928793; 764339180; 3110359441; 3758590854; 3145483465; 3535126986; 2966612876;
  349067845; 581914844; 4026383467; 3944855370; 3042297582; 1047594390; 2804573487; 2466337119;
  3660104186; 1768937576; 2629222258; 184434690; 2799711765; 1362674132; 3189859078; 3012266128;
  1051244907; 848932068; 814894548; 1439380645; 3020288049; 3290644154; 3010673017; 3235749205;
  3306956974; 2737289441; 1455776103; 3982574643; 2293603680; 1625476794; 1972063115; 2213030527;
  3163981864; 3873442807; 3129187925; 2605259872]%N.

Definition sb_iv384 : list N := [
  3372000049; 3848032334; 4112166; 3144387971; 2063878337; 1102587785; 175937025; 2372246783;
  3068290878; 3394553723; 341900670; 1070305069; 1383240188; 706102623; 2028349413; 2488211103;
  480702486; 2824137253; 2377747134; 4073072193; 806452683; 3478930185; 2473663013; 4193677752;
  2954699030; 859786121; 2995114341; 2256706358; 4150571290; 1981227334; 3472266061; 3335685017;
  4262027105; 1583356084; 1346956533; 1362440801; 1852716764; 1662193069; 2848365526; 512813580;
  2083850043; 685334125; 2855538189; 3409833584]%N.

Definition sb_iv512 : list N := [
  544378365; 1187036499; 3884103321; 1429227058; 1907683216; 246016044; 3686346993; 4207963019;
  3188502080; 2345747472; 1993518508; 682404735; 3238632631; 129205747; 3880004646; 3431650880;
  3949942471; 514333353; 1941558036; 501767432; 1217464922; 2302354139; 3315654468; 3150197326;
  1926427200; 1972641177; 1837883010; 2712096811; 3653200081; 1488639824; 1443007666; 2167731033;
  3050596824; 2484767938; 1099639406; 67446656; 2131220359; 1368667535; 1012979301; 3197622170;
  2500604980; 2933497965; 624417933; 2094750057]%N.

(** digest.go:288-383: the 48 pairs of lines
    Aa = ((Aa ^ ((Ap<<15 | Ap>>17) * 5) ^ Cc) * 3) ^ Bx ^ (By & ^Bz) ^ Mm;  Bt = ^(Bt<<1 | Bt>>31) ^ Aa
    as tuples (a, p, c, x, y, z, m, t), in source order *)
Definition sb_steps : list (nat * nat * nat * nat * nat * nat * nat * nat) := [
  (0, 11, 8, 13, 9, 6, 0, 0); (1, 0, 7, 14, 10, 7, 1, 1); (2, 1, 6, 15, 11, 8, 2, 2); (3, 2, 5, 0, 12, 9, 3, 3);
  (4, 3, 4, 1, 13, 10, 4, 4); (5, 4, 3, 2, 14, 11, 5, 5); (6, 5, 2, 3, 15, 12, 6, 6); (7, 6, 1, 4, 0, 13, 7, 7);
  (8, 7, 0, 5, 1, 14, 8, 8); (9, 8, 15, 6, 2, 15, 9, 9); (10, 9, 14, 7, 3, 0, 10, 10); (11, 10, 13, 8, 4, 1, 11, 11);
  (0, 11, 12, 9, 5, 2, 12, 12); (1, 0, 11, 10, 6, 3, 13, 13); (2, 1, 10, 11, 7, 4, 14, 14); (3, 2, 9, 12, 8, 5, 15, 15);
  (4, 3, 8, 13, 9, 6, 0, 0); (5, 4, 7, 14, 10, 7, 1, 1); (6, 5, 6, 15, 11, 8, 2, 2); (7, 6, 5, 0, 12, 9, 3, 3);
  (8, 7, 4, 1, 13, 10, 4, 4); (9, 8, 3, 2, 14, 11, 5, 5); (10, 9, 2, 3, 15, 12, 6, 6); (11, 10, 1, 4, 0, 13, 7, 7);
  (0, 11, 0, 5, 1, 14, 8, 8); (1, 0, 15, 6, 2, 15, 9, 9); (2, 1, 14, 7, 3, 0, 10, 10); (3, 2, 13, 8, 4, 1, 11, 11);
  (4, 3, 12, 9, 5, 2, 12, 12); (5, 4, 11, 10, 6, 3, 13, 13); (6, 5, 10, 11, 7, 4, 14, 14); (7, 6, 9, 12, 8, 5, 15, 15);
  (8, 7, 8, 13, 9, 6, 0, 0); (9, 8, 7, 14, 10, 7, 1, 1); (10, 9, 6, 15, 11, 8, 2, 2); (11, 10, 5, 0, 12, 9, 3, 3);
  (0, 11, 4, 1, 13, 10, 4, 4); (1, 0, 3, 2, 14, 11, 5, 5); (2, 1, 2, 3, 15, 12, 6, 6); (3, 2, 1, 4, 0, 13, 7, 7);
  (4, 3, 0, 5, 1, 14, 8, 8); (5, 4, 15, 6, 2, 15, 9, 9); (6, 5, 14, 7, 3, 0, 10, 10); (7, 6, 13, 8, 4, 1, 11, 11);
  (8, 7, 12, 9, 5, 2, 12, 12); (9, 8, 11, 10, 6, 3, 13, 13); (10, 9, 10, 11, 7, 4, 14, 14); (11, 10, 9, 12, 8, 5, 15, 15)].
(** digest.go:385-396: Aa += Cx + Cy + Cz as (a, x, y, z) *)
Definition sb_sums : list (nat * nat * nat * nat) := [(11, 6, 10, 14); (10, 5, 9, 13); (9, 4, 8, 12); (8, 3, 7, 11); (7, 2, 6, 10); (6, 1, 5, 9); (5, 0, 4, 8); (4, 15, 3, 7); (3, 14, 2, 6); (2, 13, 1, 5); (1, 12, 0, 4); (0, 11, 15, 3)].
Definition sb_step (C M : list N) (AB : list N * list N) (t : nat * nat * nat * nat * nat * nat * nat * nat) : list N * list N :=
  let '(A, B) := AB in let '(a, p, c, x, y, z, m, bt) := t in
  let v := N.lxor (N.lxor (N.lxor (mul32 (N.lxor (N.lxor (at_ A a) (mul32 (rotl32 (at_ A p) 15) 5)) (at_ C c)) 3) (at_ B x)) (N.land (at_ B y) (not32 (at_ B z)))) (at_ M m) in
  (upd A a v, upd B bt (N.lxor (not32 (rotl32 (at_ B bt) 1)) v)).
Definition sb_sum1 (C A : list N) (t : nat * nat * nat * nat) : list N :=
  let '(a, x, y, z) := t in upd A a (add32 (at_ A a) (add32 (add32 (at_ C x) (at_ C y)) (at_ C z))).
(** digest.go:182-463 core, one iteration of the loop; the state array is A0..AB, B0..BF, C0..CF; W is kept as its 64-bit two's complement *)
Definition sb_one (st : list N * N) (data : list N) : list N * N :=
  let '(state, W) := st in
  let A := firstn 12 state in let B := slice state 12 28 in let C := skipn 28 state in
  let M := map (fun i => le_val (slice data (4 * i) (4 * i + 4))) (seq 0 16) in
  let B := map (fun i => rotl32 (add32 (at_ B i) (at_ M i)) 17) (seq 0 16) in
  let A := upd A 0 (N.lxor (at_ A 0) (w32 W)) in
  let A := upd A 1 (N.lxor (at_ A 1) (w32 (N.shiftr W 32))) in
  let W := add64 W 1 in
  let '(A, B) := fold_left (sb_step C M) sb_steps (A, B) in
  let A := fold_left (sb_sum1 C) sb_sums A in
  let B' := map (fun i => sub32 (at_ C i) (at_ M i)) (seq 0 16) in
  (A ++ B' ++ B, W).
(** core: num blocks *)
Definition sb_core (st : list N * N) (data : list N) (num : nat) : list N * N :=
  fold_left (fun st i => sb_one st (slice data (64 * i) (64 * i + 64))) (seq 0 num) st.
(** digest.go:154-179 getIV *)
Definition sb_ivbuf (outSize o : nat) (buf : list N) : list N :=
  fold_left (fun buf i => upd (upd buf (4 * i) (w8 (N.of_nat (outSize + i + o)))) (4 * i + 1) (w8 (N.shiftr (N.of_nat (outSize + i + o)) 8))) (seq 0 16) buf.
Definition sb_getIV (w : nat) : list N :=
  let outSize := w * 32 in
  let buf := sb_ivbuf outSize 0 (zeros 64) in
  let st := sb_core (zeros 44, 18446744073709551615%N) buf 1 in
  let buf := sb_ivbuf outSize 16 buf in
  fst (sb_core st buf 1).
(** digest.go:35-45 newDigest's check of outSize, 47-71 Reset *)
Definition sb_valid (outSize : nat) : bool := negb ((outSize <? 32) || (512 <? outSize) || negb (outSize mod 32 =? 0)).
Definition sb_iv (w : nat) : list N :=
  if w =? 6 then sb_iv192 else if w =? 7 then sb_iv224 else if w =? 8 then sb_iv256 else if w =? 12 then sb_iv384 else if w =? 16 then sb_iv512 else sb_getIV w.
Section M.
Variable w : nat.
Definition sb_new : dig (list N * N) := mkdig (sb_iv w, 1%N) (zeros 64) 0 0.
(** digest.go:73-75 Size *)
Definition sb_Size : nat := w * 4.
(** digest.go:81-113 Write *)
Definition sb_write (d : dig (list N * N)) (p : list N) : dig (list N * N) * nat :=
  let len := add64 (dlen d) (N.of_nat (length p)) in
  let finish st buf off plen :=
    let num := plen / 64 in
    let '(st, off, plen) := if 0 <? num then (sb_core st (skipn off p) num, off + num * 64, plen mod 64) else (st, off, plen) in
    (mkdig st (copy_at buf 0 (skipn off p)) plen len, length p) in
  if negb (dnx d =? 0) then
    let rlen := 64 - dnx d in
    if length p <? rlen then (mkdig (ds d) (copy_at (dx d) (dnx d) p) (dnx d + length p) len, length p)
    else let buf := copy_at (dx d) (dnx d) (firstn rlen p) in finish (sb_core (ds d) buf 1) buf rlen (length p - rlen)
  else finish (ds d) (dx d) 0 (length p).
(** digest.go:122-152 checkSum (the output loop emits the bytes of each word from the low end: le_bytes) *)
Definition sb_checkSum (d : dig (list N * N)) : list N :=
  let buf := upd (dx d) (dnx d) 0x80%N in
  let ptr := dnx d + 1 in
  let buf := fold_left (fun b i => upd b i 0%N) (seq ptr (64 - ptr)) buf in
  let st := Nat.iter 4 (fun st => let '(s, W) := sb_core st buf 1 in (s, sub64 W 1)) (ds d) in
  concat (map (fun k => le_bytes 4 (at_ (fst st) (44 - w + k))) (seq 0 w)).
(** digest.go:115-120 Sum *)
Definition sb_sum (d : dig (list N * N)) (inp : list N) : dig (list N * N) * list N := (d, inp ++ sb_checkSum d).
Definition sb_impl : impl (dig (list N * N)) := mkimpl sb_write sb_sum (fun _ => sb_new).
(** shabal.go: SumNNN *)
Definition sb_oneshot (data : list N) : list N :=
  copy_at (zeros (w * 4)) 0 (firstn (w * 4) (snd (sb_sum (fst (sb_write sb_new data)) []))).
End M.
