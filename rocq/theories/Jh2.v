(** Jh2.v -- model of package jh2 (JH-224, 256, 384, 512). *)
From Coq Require Import List NArith Arith Bool.
From Verif Require Import Base HashAPI Buf MD.
Import ListNotations.

(** /repo/jh2/sbox.go:3-47 *)
Definition jh2_initVal224 : list N := [
  3314329792955455660; 12573114295268029671; 11854336260987425302; 13285681327176553620; 7411105978436841583; 14888516754989587164; 1290336678912093712; 17984145992554514113;
  1967821647772139699; 10950117112683921561; 15915601947947344851; 11831493739637086824; 2500810107236295140; 15381108385959472368; 1555446023024487359; 10813667107357911662]%N.

Definition jh2_initVal256 : list N := [
  16976498295681635307; 10578320537882346945; 2059079139475113978; 2738332431195081219; 11827470934450026821; 16211580183748711543; 14822941928297535354; 6264546947827183528;
  8188554064778120565; 2095380029494911586; 2843625104802615188; 9787929851137632620; 6655800376422174060; 5873908626791692815; 8927492802571670250; 9935973304544057193]%N.

Definition jh2_initVal384 : list N := [
  5196656745246833034; 7870988717519701915; 7204328289895230766; 3687545538712928871; 11001951175175223592; 15300392802032108105; 3960165672788969452; 14349887417298992353;
  6240721940002850124; 11456239675024846606; 6386036639410061517; 9277568668444339930; 9978149287023163194; 17598211015375420017; 12228631699679204244; 10911166067862827903]%N.

Definition jh2_initVal512 : list N := [
  8057304316999936535; 7163588758344160579; 9953622086336900875; 16804076287159419745; 9880229909709684766; 3073994181705428352; 6381262963545062054; 12182019798677863415;
  101865376847186537; 5095130896708658778; 1173090742995008548; 4282485301459992985; 14940681784943310934; 12035457121812656470; 16411958030666897403; 6078248131731709259]%N.

(** /repo/jh2/sbox.go:49-135 *)
Definition jh2_C : list N := [
  8274764681471981671; 8900261899357328727; 9343797767171639286; 5665334567067790144; 16904325936630332060; 271854908820593050; 7350603245732713354; 13066653473059873329;
  262152557086445275; 4629614700257166352; 2019048047717029149; 8013007291876363740; 1205297368107281217; 15886558830574381008; 733102922101586000; 4547157683538530771;
  4768566596476894864; 15952488324925528014; 1755461623795631276; 15122918045204806691; 10911777709971519514; 2379384386751360168; 17217546953677496826; 18272959331353985431;
  5372377880443695151; 3055566100828744341; 10015569623379372396; 10000087145802318356; 14264049626897669828; 8450001566304418688; 5971339587713534140; 9419278752055469044;
  10301015699755328277; 12276625825439676809; 13182578308071219453; 3948224596204989494; 14855463409062680637; 5997380132348251047; 15056975398163087750; 1053188660387142303;
  12035032622665327210; 10019146594382321447; 5148748137111752767; 16186076079306197115; 960685800557159616; 10512500627841413534; 9689057548059053524; 9123829134410494050;
  18203303318406832250; 16421278732074142084; 5753230831627441624; 6137981954248889509; 6620135496569744936; 8716013262747321522; 398987411935843118; 4935544445029865855;
  8097306342985052490; 6811176502497305701; 14347191898353508583; 8430250216796751754; 9018995518020687090; 15982001884331301313; 2097323907607174112; 15718769207151461055;
  11882670864483794943; 950897263334964296; 4300651987268784953; 5016943747370945440; 16557772093344581903; 10696106368035778868; 11705338125248425365; 16806182798371035210;
  9817879501398144533; 5170488938381619199; 9131975072163743280; 5075757740701158630; 11877580284709816832; 15752892532628789422; 8311338433895518637; 16764313609346753895;
  11806904347521900822; 3740527943128226202; 2261002866710774907; 15118210663288243480; 3628031724251584979; 5807986283269960774; 11474436723468168122; 17783054301046173310;
  2283740534820839796; 16842889989434266094; 2114348054589002614; 4199258101489954817; 17813356861058242626; 8713880478872725369; 4720725780189600680; 18069351332686539907;
  12051697607645808627; 6431404377087243930; 16662841900606246909; 13329965751735900655; 10203762889136401370; 6603076713971937293; 9023998488799434116; 17700811131292520037;
  11581185611545983827; 911987301695810650; 10477787889321674831; 6606882177667480652; 16409775199656318075; 8492369249240292445; 7254925341233558381; 7797038620990823281;
  17897835923434721578; 16418827038223070716; 2066234073466945442; 7474798062228489136; 3677852971127382389; 9165978963130340188; 10537179318645771550; 8751749545235230527;
  16908998961473927457; 6698117124203947857; 2784108936669838546; 4945822424217605549; 13050656180826982664; 9464663817379855446; 5546319973959753805; 5107713973427292150;
  3429547963116713566; 3158825051525277226; 501226569294009398; 8425814982732489059; 18284981783941597545; 12068902374389340198; 9133603604121319958; 9119981922630737215;
  15188938275065418252; 6893548888281844784; 8370592016427397784; 1002949050113128602; 5459944377427261842; 18397739312981895379; 11178863739989813041; 14764671991374574853;
  12787550961295060174; 4330020297790300770; 17594380340930483527; 18394482645960714824; 4098090974333265253; 17509006383398670478; 3562398178333149830; 17311847559814727502;
  7323114926207613059; 17824940801439578813; 2420599201031518319; 11764789612522757863; 10061286850815169241; 4361164450428633790; 15611706653494718590; 6020606654976796894;
  12260432694512609752; 6554501062033869049; 13862061898042317221; 10902482643454861674; 3869885319717393776; 16869938553999414427; 11155525821506470002; 17759274151707111394]%N.


(** /repo/jh2/digest.go:170-258: the block of doS on h[i], h[4+i], h[8+i], h[12+i] (i = 0 .. 3) *)
Definition jh2_sbox (h : list N) (r i : nat) : list N :=
  let cc := at_ jh2_C (4 * r + i) in
  let x0 := at_ h i in let x1 := at_ h (4 + i) in let x2 := at_ h (8 + i) in let x3 := at_ h (12 + i) in
  let x3 := not64 x3 in
  let x0 := N.lxor x0 (N.land cc (not64 x2)) in
  let tmp := N.lxor cc (N.land x0 x1) in
  let x0 := N.lxor x0 (N.land x2 x3) in
  let x3 := N.lxor x3 (N.land (not64 x1) x2) in
  let x1 := N.lxor x1 (N.land x0 x2) in
  let x2 := N.lxor x2 (N.land x0 (not64 x3)) in
  let x0 := N.lxor x0 (N.lor x1 x3) in
  let x3 := N.lxor x3 (N.land x1 x2) in
  let x1 := N.lxor x1 (N.land tmp x0) in
  let x2 := N.lxor x2 tmp in
  upd (upd (upd (upd h i x0) (4 + i) x1) (8 + i) x2) (12 + i) x3.
Definition jh2_doS (h : list N) (r : nat) : list N := jh2_sbox (jh2_sbox (jh2_sbox (jh2_sbox h r 0) r 1) r 2) r 3.
(** /repo/jh2/digest.go:260-314: the two blocks of doL (i = 0, 1) *)
Definition jh2_lin (h : list N) (i : nat) : list N :=
  let x0 := at_ h i in let x1 := at_ h (4 + i) in let x2 := at_ h (8 + i) in let x3 := at_ h (12 + i) in
  let x4 := at_ h (2 + i) in let x5 := at_ h (6 + i) in let x6 := at_ h (10 + i) in let x7 := at_ h (14 + i) in
  let x4 := N.lxor x4 x1 in
  let x5 := N.lxor x5 x2 in
  let x6 := N.lxor x6 (N.lxor x3 x0) in
  let x7 := N.lxor x7 x0 in
  let x0 := N.lxor x0 x5 in
  let x1 := N.lxor x1 x6 in
  let x2 := N.lxor x2 (N.lxor x7 x4) in
  let x3 := N.lxor x3 x4 in
  upd (upd (upd (upd (upd (upd (upd (upd h i x0) (4 + i) x1) (8 + i) x2) (12 + i) x3) (2 + i) x4) (6 + i) x5) (10 + i) x6) (14 + i) x7.
Definition jh2_doL (h : list N) : list N := jh2_lin (jh2_lin h 0) 1.
(** /repo/jh2/digest.go:316-327 *)
Definition jh2_wgen1 (c n : N) (x : N) : N := N.lor (shl64 (N.land x c) n) (N.land (N.shiftr x n) c).
Definition jh2_doWgen (h : list N) (c n : N) : list N :=
  fold_left (fun h i => upd h i (jh2_wgen1 c n (at_ h i))) [2; 3; 6; 7; 10; 11; 14; 15] h.
(** /repo/jh2/digest.go:329-337 *)
Definition jh2_doW6 (h : list N) : list N :=
  fold_left (fun h i => let t := at_ h i in let h := upd h i (at_ h (i + 1)) in upd h (i + 1) t) [2; 6; 10; 14] h.
(** /repo/jh2/digest.go:135-157: round r + t of the loop *)
Definition jh2_W (h : list N) (t : nat) : list N :=
  match t with
  | 0 => jh2_doWgen h 0x5555555555555555 1
  | 1 => jh2_doWgen h 0x3333333333333333 2
  | 2 => jh2_doWgen h 0x0F0F0F0F0F0F0F0F 4
  | 3 => jh2_doWgen h 0x00FF00FF00FF00FF 8
  | 4 => jh2_doWgen h 0x0000FFFF0000FFFF 16
  | 5 => jh2_doWgen h 0x00000000FFFFFFFF 32
  | _ => jh2_doW6 h
  end.
Definition jh2_e8 (h : list N) : list N :=
  fold_left (fun h q => fold_left (fun h t => jh2_W (jh2_doL (jh2_doS h (7 * q + t))) t) (seq 0 7) h) (seq 0 6) h.
(** /repo/jh2/digest.go:115-168 *)
Definition jh2_block (h data : list N) : list N :=
  let m := map (fun i => be_val (slice data (8 * i) (8 * i + 8))) (seq 0 8) in
  let h := fold_left (fun h i => upd h i (N.lxor (at_ h i) (at_ m i))) (seq 0 8) h in
  let h := jh2_e8 h in
  fold_left (fun h i => upd h (8 + i) (N.lxor (at_ h (8 + i)) (at_ m i))) (seq 0 8) h.

(** /repo/jh2/digest.go:14-23 is the record [dig] of MD.v (hs and initVal are parameters); 25-39: *)
Definition jh2_new (iv : list N) : dig (list N) := mkdig iv (zeros 64) 0 0.
(** /repo/jh2/digest.go:49-71: d.len += uint64(nn), then the copy-and-process loop ([writeA] of Buf.v) *)
Definition jh2_write : dig (list N) -> list N -> dig (list N) * nat := write_pre 64 jh2_block.
(** /repo/jh2/digest.go:80-113 *)
Definition jh2_checkSum (hs : nat) (d : dig (list N)) : list N :=
  let rem := dnx d in
  let bc := (dlen d / 64)%N in
  let numz := if rem =? 0 then 47 else 111 - rem in
  let tmp := upd (zeros 128) 0 0x80%N in
  let tmp := copy_at tmp 1 (zeros numz) in
  let tmp := copy_at tmp (numz + 1) (be_bytes 8 (N.shiftr bc 55)) in
  let tmp := copy_at tmp (numz + 9) (be_bytes 8 (add64 (shl64 bc 9) (shl64 (N.of_nat rem) 3))) in
  let d := fst (jh2_write d (firstn (numz + 17) tmp)) in
  let tmp := fold_left (fun tmp i => copy_at tmp (8 * i) (be_bytes 8 (at_ (ds d) (i + 8)))) (seq 0 8) tmp in
  firstn hs (skipn (64 - hs) tmp).
(** /repo/jh2/digest.go:73-78 *)
Definition jh2_sum (hs : nat) (d : dig (list N)) (inp : list N) : dig (list N) * list N := (d, inp ++ jh2_checkSum hs d).
Definition jh2_impl (hs : nat) (iv : list N) : impl (dig (list N)) := mkimpl jh2_write (jh2_sum hs) (fun _ => jh2_new iv).
(** /repo/jh2/jh2.go: Sum224 .. Sum512 *)
Definition jh2_Sum (hs : nat) (iv data : list N) : list N := jh2_checkSum hs (fst (jh2_write (jh2_new iv) data)).
