(** Jh.v -- model of package jh (JH-256). *)
From Coq Require Import List NArith Arith Bool.
From Verif Require Import Base HashAPI.
Import ListNotations.

(** /repo/jh/sbox.go:7-16 (x[a][b] is element 2 a + b here and below) *)
Definition jh_h0 : list N := [
  16992961193450903787; 13926733807873871250; 18070645541067395868; 255104834594799654; 5024089152499360676; 8616541486111718368; 8797618054074447309; 12119185563276603478;
  8452463200948364145; 7125396060402947101; 10704814932661466663; 7793901674043987335; 7786036200936529500; 1115209732275078225; 16866583619652805755; 7626596186868933513]%N.

(** /repo/jh/sbox.go:22-65 (row r, column c is element 4 r + c) *)
Definition jh_rc : list N := [
  7491762030385223026; 6274960924865823867; 17764266544375180161; 4624020081185103694; 11311429679295666410; 11140131307014767875; 9967517051387249254; 3576662431685170869;
  15784581894745268995; 1172274588767371072; 2131784290551792924; 15910627452400644975; 4714071452734962192; 14999163753871014108; 5798571674404203530; 15244966496334453311;
  10411984745685200194; 14886578829221913309; 12413094606833933336; 2593165617559625681; 1925535809967779479; 12172222934307636513; 18041858115443618286; 10917151646397470461;
  3400221958728945226; 10766593760332441386; 7811978406114098826; 1459869693013837706; 14149966696208004293; 9276027166186751093; 13585359715016498770; 17628116538726856834;
  1541255444600714382; 9942179778462637994; 18293721175553864118; 3903567572085885494; 4438577044862085582; 12054898648261671507; 9692114113221621200; 11482728448241016078;
  7665747714273314215; 2816923977231371147; 4544273612546733127; 8883489655727497440; 13881492950942897421; 11453092109253862289; 15316003806642337414; 7111436644554284670;
  8800126309698084860; 9568448048927532259; 15606655640059303759; 11913361473981525589; 2913546097336180571; 12881602321829590392; 3374121836399593733; 9176410707767557700;
  5346094584812887920; 7342228716609111646; 16654515179634498503; 9982180349775707764; 17479726425918941565; 13968249161703410653; 16148743176481413917; 13799764772742833370;
  18428572119454115748; 5241337698807198221; 4166880046259940923; 11568386113131487045; 1083589565484485093; 3814988972807188628; 10803366822908752290; 5375098172530899945;
  1582571755180736648; 18424035341632848199; 3514508529036344190; 16612774951232368710; 56945619916608932; 12544845792021880282; 12524902197186418547; 7432448002772346600;
  1648615207704779427; 11140098543900354867; 8900361643153842207; 1767048916079791825; 15211432816787806514; 5094879231248996944; 13432835692596247967; 9146342501351279350;
  8368014292879520031; 17172566482076810729; 8562275781524084509; 103720934736807482; 4816780777163404791; 8748079128091880824; 12167383595327128385; 9452073970011194362;
  17530023076299489447; 11130133793983184985; 18252845002399825639; 17246912851362053560; 15774782570053278605; 968541549125673563; 9535683344653499261; 7318060106701710837;
  5997405156992530592; 6551680232800626700; 5731085984352987281; 5529500018250920027; 8904891843535944675; 6709355685852011125; 7904719891145207396; 8204195918277588076;
  3049373526640452088; 18191689645017062371; 11691289948890901532; 12701250470422887271; 8476101641175239219; 6652686038199776383; 2183534498662333330; 4589149014380082297;
  2393974084428146922; 5847681450647680092; 15149039022407721766; 12526100926925611844; 633304058844552629; 6213959858933029251; 5575604165578389580; 17782302637761159750;
  6806835358218819631; 3091374727787632171; 3950995798803018758; 7143254075080109684; 7622716151961666045; 2763055157479112103; 1655882129756963198; 4583929020217790590;
  923971301691017682; 3462376096804022879; 10967075372961704564; 11166902754045127437; 10554732963484845387; 15233573093179281919; 3559979946510984091; 393231640453113548;
  14874318730132813489; 7107249726874064700; 5122078734941891572; 5218144898981840639; 7306349659702222648; 10254844770719169778; 9712588535502893105; 5640609208577114352;
  9455579895656521829; 13635260180519804663; 8068219628099376929; 16707967519959106723; 15677634441933463691; 13709762189680149820; 9128840062168770520; 16044142576038415699;
  15593998197998888362; 17944719275013174874; 11896621356993699776; 7647672145973497239; 8076433916444587061; 11192797394851798762; 8232746495689085082; 16316338666297193974]%N.


(** Eight uint64 variables m0 .. m7. *)
Inductive oct : Type := mkoct (m0 m1 m2 m3 m4 m5 m6 m7 : N).
(** /repo/jh/utils.go:76-104 *)
Definition jh_SS (o : oct) (cc0 cc1 : N) : oct :=
  let '(mkoct m0 m1 m2 m3 m4 m5 m6 m7) := o in
  let m3 := not64 m3 in
  let m7 := not64 m7 in
  let m0 := N.lxor m0 (N.land (not64 m2) cc0) in
  let m4 := N.lxor m4 (N.land (not64 m6) cc1) in
  let temp0 := N.lxor cc0 (N.land m0 m1) in
  let temp1 := N.lxor cc1 (N.land m4 m5) in
  let m0 := N.lxor m0 (N.land m2 m3) in
  let m4 := N.lxor m4 (N.land m6 m7) in
  let m3 := N.lxor m3 (N.land (not64 m1) m2) in
  let m7 := N.lxor m7 (N.land (not64 m5) m6) in
  let m1 := N.lxor m1 (N.land m0 m2) in
  let m5 := N.lxor m5 (N.land m4 m6) in
  let m2 := N.lxor m2 (N.land m0 (not64 m3)) in
  let m6 := N.lxor m6 (N.land m4 (not64 m7)) in
  let m0 := N.lxor m0 (N.lor m1 m3) in
  let m4 := N.lxor m4 (N.lor m5 m7) in
  let m3 := N.lxor m3 (N.land m1 m2) in
  let m7 := N.lxor m7 (N.land m5 m6) in
  let m1 := N.lxor m1 (N.land temp0 m0) in
  let m5 := N.lxor m5 (N.land temp1 m4) in
  let m2 := N.lxor m2 temp0 in
  let m6 := N.lxor m6 temp1 in
  mkoct m0 m1 m2 m3 m4 m5 m6 m7.
(** /repo/jh/utils.go:107-116 *)
Definition jh_LL (o : oct) : oct :=
  let '(mkoct m0 m1 m2 m3 m4 m5 m6 m7) := o in
  let m4 := N.lxor m4 m1 in
  let m5 := N.lxor m5 m2 in
  let m6 := N.lxor m6 (N.lxor m0 m3) in
  let m7 := N.lxor m7 m0 in
  let m0 := N.lxor m0 m5 in
  let m1 := N.lxor m1 m6 in
  let m2 := N.lxor m2 (N.lxor m4 m7) in
  let m3 := N.lxor m3 m4 in
  mkoct m0 m1 m2 m3 m4 m5 m6 m7.
(** /repo/jh/utils.go:44-71: SWAP1, SWAP2, SWAP4, SWAP8, SWAP16, SWAP32 (t = 0 .. 5) *)
Definition jh_swap (t : nat) (x : N) : N :=
  match t with
  | 0 => N.lor (shl64 (N.land x 0x5555555555555555) 1) (N.shiftr (N.land x 0xaaaaaaaaaaaaaaaa) 1)
  | 1 => N.lor (shl64 (N.land x 0x3333333333333333) 2) (N.shiftr (N.land x 0xcccccccccccccccc) 2)
  | 2 => N.lor (shl64 (N.land x 0x0f0f0f0f0f0f0f0f) 4) (N.shiftr (N.land x 0xf0f0f0f0f0f0f0f0) 4)
  | 3 => N.lor (shl64 (N.land x 0x00ff00ff00ff00ff) 8) (N.shiftr (N.land x 0xff00ff00ff00ff00) 8)
  | 4 => N.lor (shl64 (N.land x 0x0000ffff0000ffff) 16) (N.shiftr (N.land x 0xffff0000ffff0000) 16)
  | _ => N.lor (shl64 x 32) (N.shiftr x 32)
  end.
(** /repo/jh/digest.go:152-221: the body of "for i = 0; i < 2; i++" without / with the four SWAPs.
    The argument order x[0], x[2], x[4], x[6], x[1], x[3], x[5], x[7] is kept. *)
Definition jh_half (x : list N) (r i : nat) : list N :=
  let o := mkoct (at_ x (0 + i)) (at_ x (4 + i)) (at_ x (8 + i)) (at_ x (12 + i)) (at_ x (2 + i)) (at_ x (6 + i)) (at_ x (10 + i)) (at_ x (14 + i)) in
  let '(mkoct m0 m1 m2 m3 m4 m5 m6 m7) := jh_LL (jh_SS o (at_ jh_rc (4 * r + i)) (at_ jh_rc (4 * r + i + 2))) in
  upd (upd (upd (upd (upd (upd (upd (upd x (0 + i) m0) (4 + i) m1) (8 + i) m2) (12 + i) m3) (2 + i) m4) (6 + i) m5) (10 + i) m6) (14 + i) m7.
Definition jh_half_swap (t : nat) (x : list N) (r i : nat) : list N :=
  let x := jh_half x r i in
  let x := upd x (2 + i) (jh_swap t (at_ x (2 + i))) in
  let x := upd x (6 + i) (jh_swap t (at_ x (6 + i))) in
  let x := upd x (10 + i) (jh_swap t (at_ x (10 + i))) in
  upd x (14 + i) (jh_swap t (at_ x (14 + i))).
(** /repo/jh/digest.go:223-228: the last swapping layer exchanges x[i][0] and x[i][1], i = 1, 3, 5, 7 *)
Definition jh_swap6 (x : list N) : list N :=
  fold_left (fun x i => let temp0 := at_ x (2 * i) in let x := upd x (2 * i) (at_ x (2 * i + 1)) in upd x (2 * i + 1) temp0) [1; 3; 5; 7] x.
(** /repo/jh/digest.go:147-230: rounds 7 q + t; the outer loop has 6 iterations *)
Definition jh_round (x : list N) (r t : nat) : list N :=
  if t <? 6 then jh_half_swap t (jh_half_swap t x r 0) r 1 else jh_swap6 (jh_half (jh_half x r 0) r 1).
Definition jh_e8 (x : list N) : list N :=
  fold_left (fun x q => fold_left (fun x t => jh_round x (7 * q + t) t) (seq 0 7) x) (seq 0 6) x.
(** /repo/jh/digest.go:132-144 *)
Definition jh_f8 (x s : list N) : list N :=
  let x := fold_left (fun x i => upd x i (N.lxor (at_ x i) (le_val (slice s (8 * i) (8 * i + 8))))) (seq 0 8) x in
  let x := jh_e8 x in
  fold_left (fun x i => upd x (8 + i) (N.lxor (at_ x (8 + i)) (le_val (slice s (8 * i) (8 * i + 8))))) (seq 0 8) x.

(** /repo/jh/digest.go:16-21; j_nx and j_len count bits *)
Record jdig : Type := mkjdig { j_s : list N; j_x : list N; j_nx : N; j_len : N }.
(** /repo/jh/digest.go:23-34 (Reset leaves s alone) *)
Definition jh_new : jdig := mkjdig (zeros 64) jh_h0 0 0.
Definition jh_reset (d : jdig) : jdig := mkjdig (j_s d) jh_h0 0 0.
(** /repo/jh/digest.go:71-77: "for plen >= 512"; [data] is data[index:] *)
Fixpoint jh_loop (fuel : nat) (x s data : list N) (plen : N) : list N * list N * list N * N :=
  match fuel with
  | O => (x, s, data, plen)
  | S fuel => if (512 <=? plen)%N then let s := copy_at s 0 (firstn 64 data) in jh_loop fuel (jh_f8 x s) s (skipn 64 data) (plen - 512) else (x, s, data, plen)
  end.
(** /repo/jh/digest.go:45-90.  A Go slice is its bytes [data] and the bytes [slack] between its length and its
    capacity: data[:k] is legal, and shows slack bytes, as long as k <= len + len slack, and panics (None) otherwise.
    plen is a multiple of 8, so plen&7 == 0 always takes the first branch. *)
Definition reslice (data slack : list N) (k : nat) : option (list N) :=
  if k <=? length data + length slack then Some (firstn k (data ++ slack)) else None.
Definition jh_write (d : jdig) (data slack : list N) : option (jdig * nat) :=
  let plen := w64 (w64 (N.of_nat (length data)) * 8) in
  let len := w64 (j_len d + plen) in
  let pos := N.to_nat (N.shiftr (j_nx d) 3) in
  if ((0 <? j_nx d) && (w64 (j_nx d + plen) <? 512))%N%bool then
    match reslice data slack (64 - pos) with
    | None => None
    | Some q => Some (mkjdig (copy_at (j_s d) pos q) (j_x d) (w64 (j_nx d + plen)) len, length data)
    end
  else
    match (if ((0 <? j_nx d) && (512 <=? w64 (j_nx d + plen)))%N%bool then
             match reslice data slack (64 - pos) with
             | None => None
             | Some q => let s := copy_at (j_s d) pos q in Some (jh_f8 (j_x d) s, s, skipn (64 - pos) data, (plen - (512 - j_nx d))%N, 0%N)
             end
           else Some (j_x d, j_s d, data, plen, j_nx d)) with
    | None => None
    | Some (x, s, p, plen, nx) =>
        let '(x, s, p, plen) := jh_loop (S (length data)) x s p plen in
        if (0 <? plen)%N then
          Some (mkjdig (copy_at s 0 (firstn (N.to_nat (N.shiftr (N.land plen 0x1ff) 3)) p)) x plen len, length data)
        else Some (mkjdig s x nx len, length data)
    end.
(** /repo/jh/digest.go:100-129 (d.nx&7 is always 0) *)
Definition jh_checkSum (d : jdig) : list N :=
  let x :=
    if (N.land (j_len d) 0x1ff =? 0)%N then
      jh_f8 (j_x d) (copy_at (upd (zeros 64) 0 0x80%N) 56 (be_bytes 8 (j_len d)))
    else
      let k := N.to_nat (N.shiftr (N.land (j_len d) 0x1ff) 3) in
      let s := copy_at (j_s d) k (zeros (64 - k)) in
      let s := upd s k (N.lor (at_ s k) (N.shiftl 1 (7 - N.land (j_len d) 7))) in
      let x := jh_f8 (j_x d) s in
      jh_f8 x (copy_at (zeros 64) 56 (be_bytes 8 (j_len d))) in
  concat (map (le_bytes 8) (slice x 12 16)).
(** /repo/jh/digest.go:93-98 *)
Definition jh_sum (d : jdig) (inp : list N) : jdig * list N := (d, inp ++ jh_checkSum d).
