(** Lsh.v -- model of /repo/lsh256 (digest.go, lsh256.go, sbox.go) and /repo/lsh512 (digest.go, lsh512.go, sbox.go).
    digest.go is the same text in both packages up to the word type, numStep, the rotation constants, the tables and the
    sizes, which are collected in the record [lcfg]. *)
From Coq Require Import List NArith Arith Bool.
From Verif Require Import Base Buf MD HashAPI.
Import ListNotations.

(** lsh256/sbox.go:4-45 *)
Definition lsh256_iv224 : list N := [
  109447379; 1658386343; 3613807275; 1281362499; 3183741608; 516557672; 3659172286; 826790740;
  1887352057; 4133173346; 1795893950; 1454959626; 3475206790; 3993835303; 862152085; 2344144991]%N.

Definition lsh256_iv256 : list N := [
  1184960287; 4259112070; 3021226920; 428764061; 855914637; 2968888263; 3009438148; 2061227347;
  274551672; 796188244; 1546595733; 4065673150; 2152805754; 327575752; 1202340996; 3759864641]%N.

Definition lsh256_step : list N := [
  2440867728; 1813713058; 1865754947; 3480715843; 753628274; 703164402; 2325455912; 787162690;
  237781025; 2267788046; 2757651634; 1190774290; 408938142; 324624923; 641715378; 437348464;
  980181295; 3000942997; 46866262; 1086314584; 2017887414; 1824226606; 1712094936; 729405578;
  2798489705; 2443204423; 3454694744; 9973912; 3200989998; 674802586; 1921734462; 2773639861;
  1952315919; 838311640; 3093286437; 2563295384; 2315676140; 1625572802; 4259485104; 4155840602;
  3528984963; 697726729; 405664733; 1636917552; 2423281270; 1160382498; 3765978797; 2899145553;
  711036245; 3222110258; 1176621301; 4075983249; 13028614; 1865558631; 1488909453; 2051065085;
  2347688575; 3448615666; 1743963707; 3850642307; 3348353798; 2707198422; 397640165; 3137716855;
  2060542474; 1530963391; 1522074018; 1772595048; 1533467085; 4260259959; 3409274620; 3234347570;
  1278438532; 2615567642; 330998780; 290394065; 3259017000; 3965116532; 10249159; 2298637554;
  2141188304; 2185985973; 3462307855; 1616830690; 48746474; 1127699808; 2634033863; 2339331963;
  529580367; 3452646711; 754888669; 3208627010; 3937909228; 2056041891; 2636837476; 4207860486;
  2958168174; 2566941956; 732859657; 4278388225; 2725357270; 121788701; 3357366017; 3383353856;
  40009502; 2574086557; 3661338164; 34146304; 337149304; 1234925092; 3849607369; 1938547401;
  1692507424; 115281718; 366070542; 185665538; 748025228; 3843136109; 1506615982; 4285443132;
  1182711172; 3857597756; 3885816099; 471403021; 3263922616; 4138469458; 653250823; 1847257403;
  3309060554; 3560145441; 2222325002; 891492137; 1309489786; 2729728840; 381737005; 2298750121;
  25037967; 129344501; 4201842574; 1480212574; 1531425992; 1460642794; 3617129795; 2368261682;
  2139790224; 3176765692; 1836750472; 2457509558; 2734456099; 1723043393; 1889421594; 3052863679;
  170273807; 384996793; 3893436149; 219764040; 2675548357; 440520615; 250045322; 2901917812;
  810695449; 159928015; 4180677853; 644783445; 421160548; 1544648385; 4132105624; 2763535648;
  2190300233; 2446794200; 692384470; 2500588155; 864078461; 1837643805; 1094223502; 1559057860;
  266444235; 1760884329; 1849149695; 2701028880; 3024832432; 4123022730; 2042565839; 1245911584;
  4051658970; 1575706577; 2785069165; 2674687664; 4287821924; 3054887039; 953410632; 2371697258;
  1894269899; 1229664558; 2798204435; 199962447; 2458606947; 3421921333; 213396608; 3935806711;
  1496059707; 2491178871; 1879001529; 4145708634; 501793013; 3260454400; 3303320716; 2185010401]%N.

Definition lsh256_gamma : list N := [0; 8; 16; 24; 24; 16; 8; 0]%N.
(** lsh512/sbox.go:3-95 *)
Definition lsh512_iv224 : list N := [
  882739199114033749; 5359077271053090101; 18380285545928417578; 17879983629656798538; 11957658934172230301; 10797773324213369209; 135732742173950668; 5968567732435879446;
  11411030909726445267; 7396538415529178881; 2502814312383871449; 13921032873111297059; 3594636101215467539; 15358054141034122627; 12078466225798101758; 16144609547754630250]%N.

Definition lsh512_iv256 : list N := [
  7909864882782639139; 15630445569368048025; 8565709425839454916; 4679719734516130362; 4179313858740257997; 4162507398342776136; 9957450367448925656; 18383740564630525470;
  14949799279902645131; 2234669105946906815; 18407858139666752341; 3338996021083285985; 13084794596460817850; 18215435073244579349; 17077438783032439990; 9112814272075716610]%N.

Definition lsh512_iv384 : list N := [
  5986808266668640502; 12881688439405462204; 13279833355376942158; 10911354915476053875; 16072439131270065815; 15727768068564635199; 7303138586167258306; 2511547451525376534;
  13532662601548338490; 14522167234571426622; 8980149288754996288; 11748665817372259377; 13477026556543909424; 11591918602183347885; 1514079353655573591; 3661796069834218643]%N.

Definition lsh512_iv512 : list N := [
  12525934691104524622; 16425699765959887439; 13053662484714293993; 3384137114155676929; 10140299635158983190; 18138787242332949703; 7280722326116786154; 2277239932542877829;
  13141630672290141083; 2002298994558024173; 16101072087310413127; 15847945043077997655; 5296785002541121152; 14991432648272723504; 6733888647349330412; 9890051991402633241]%N.

Definition lsh512_step : list N := [
  10919050430343845930; 13411660949438210901; 14202562019267910659; 11101312970761639857; 18175923960332003371; 180809222287086599; 8787315242624788215; 15523087606219666942;
  2290861394516558529; 15702466295643601167; 16049856431071371208; 12238846134470494539; 4186207156808307751; 9574481980362152713; 7837240362005274224; 4936794877191255253;
  16902312105759441888; 14143629911723247848; 11189174348112390310; 9436964028293321972; 5944083024581098337; 7224907149702882445; 3475669001014349532; 14377686425903090201;
  8909353858431935690; 904304792093028780; 16372476039903809345; 8776281615432485238; 14996323273159040179; 12126730102685626865; 7803217722629352204; 5716596715183858656;
  2307676477023072069; 11045402683393777080; 1868693449501233444; 5001598173583409135; 17132313870286590083; 17516632007001432985; 13178594755111942008; 11872573979197097007;
  2777044236223870053; 16316646354639312465; 638870605368653117; 12585389524977086260; 12679575120780366960; 768871814237683084; 11144686574921150510; 7538740491577914323;
  12724093908571642251; 5967208410235086899; 16615792990067438149; 6264895019939636194; 12023849067673224479; 13132615521989036438; 4939118329755180744; 548178596021061435;
  5018433456321422651; 2492803312524548997; 9060917420425181227; 5211285711755511352; 9522950082523571397; 17774767736043970636; 14974813734831941388; 11754690661445927490;
  16912057188646559872; 13461152812684337319; 4366023761868071848; 11134854614078701184; 12427953478897035849; 11769521957041204546; 11604362520222200795; 14136215976946451685;
  11413840160421257578; 9975131076188538977; 15263462377521368036; 2412304393245703962; 2697319324785783797; 17947858944932655077; 12395371829867794300; 17445667628165966505;
  324613508444490760; 17958004408536394219; 12000087396566642871; 11219674631730714939; 10681535742693026074; 913730420304451038; 12770579597980257320; 977770527232349339;
  9638695375395918860; 3521114566465410532; 3416200608132098141; 5764304856103687382; 15036562963094061998; 13467789133729297386; 16965255634335495385; 11479352540489609128;
  5281005599671230609; 1035983969842477588; 10966584825600296332; 5686822121883527973; 9027170109877645950; 11680665584743276196; 6639096628768132804; 17161295186010839111;
  10606121734708998618; 7993463217583017506; 14507200975424311844; 4220503501012111475; 14139709024861057275; 13558515338074620742; 9147378812131382048; 1681029188202815541;
  14101906984908557421; 6731454737075269776; 2108347794718717677; 14758243484958655405; 18343380942219603135; 16550556027781827074; 8139857356652131230; 7749387672803906892;
  8628256674427140656; 14436668573356032237; 6889805105133446154; 11286040523916358009; 10329163354502343869; 10741762186732686567; 7461260330418393614; 17791016023682048439;
  3852676482628954791; 2428264536880410293; 18239225016888258153; 4373595074104404757; 16710579566636493388; 12068015007577257084; 17529265325443342453; 15945331880027199917;
  12460420129035145692; 15321431545850242006; 2007834618056235110; 17209289622258925649; 14974323524962826035; 2426852564150399267; 4015634653808416360; 2773108803469920138;
  11041248410280013448; 8451419583377701546; 17951406850294529665; 14015599303961055807; 11478378583859555074; 14958554554237408324; 17447181974737665695; 11712687690806514096;
  15248998164402059041; 13745776304051758367; 1825542098306220154; 4893926744628777473; 16910988332086947233; 7425753107427203347; 1366957596159041169; 3341452522617209426;
  8282784624904231156; 9336392062777541853; 7995717421959789203; 3360576357346300740; 11139144024600809355; 8403909016707443834; 819964812392099747; 10203070921983448192;
  7300080123788971366; 1376030551586546270; 7310785261905595905; 15117896447359915890; 3514682897427503909; 1535560669795526382; 7816771973964567214; 2751568482989856013;
  12999440369100927947; 3151714357260910705; 15750660865073434470; 11483131492492544579; 17829789100810027093; 7257466589549696259; 16662037348262199578; 6176825327430033971;
  1995497517509640063; 16780594646543331740; 8082890181480855104; 18132485850765250018; 7463268628208162380; 2047762069607225447; 2498973402769316865; 1024118810497291656;
  14780772009819602586; 14521454987310730884; 11267440385109980848; 11469357071862247645; 18045397857413915315; 9766017825189494659; 15046866005589679395; 4944117265870232982;
  17075871413179783527; 5771628849528410957; 18040103474575025996; 14592459748778937980; 7534486854278780589; 1109387049201107722; 11675052031251316979; 16259540316400366554;
  16620607718040633683; 7569088432037486749; 6173830464684225606; 5573108473148083014; 17901737883853243413; 8411310539041410329; 12115832090641101973; 9737700656535539387;
  10298302509536433465; 8347599294131174918; 254439084824541851; 11889583923421860243; 7507361796605205005; 3437751909624915597; 14715842911558535741; 12278618778844154434]%N.

Definition lsh512_gamma : list N := [0; 16; 32; 48; 8; 24; 40; 56]%N.

Record lcfg := {
  g_wb : nat;                             (* bytes per word: 4 (uint32) or 8 (uint64) *)
  g_numStep : nat; g_aE : N; g_aO : N; g_bE : N; g_bO : N;   (* digest.go:8-16 *)
  g_step : list N; g_gamma : list N;
  g_add : N -> N -> N; g_rotl : N -> N -> N (* + and bits.RotateLeft on the word type *)
}.
Definition lsh256_cfg : lcfg := {| g_wb := 4; g_numStep := 26; g_aE := 29; g_aO := 5; g_bE := 1; g_bO := 17;
  g_step := lsh256_step; g_gamma := lsh256_gamma; g_add := add32; g_rotl := rotl32 |}.
Definition lsh512_cfg : lcfg := {| g_wb := 8; g_numStep := 28; g_aE := 23; g_aO := 7; g_bE := 59; g_bO := 3;
  g_step := lsh512_step; g_gamma := lsh512_gamma; g_add := add64; g_rotl := rotl64 |}.

Section Model.
Variable G : lcfg.
(** BlockSize: lsh256.go:15, lsh512.go:19 *)
Definition lsh_bs : nat := 32 * g_wb G.
(** digest.go:123-148 msgExpansion (lsh512: 123-148): the words of the block, then the rows 2 .. numStep; the array msg is kept
    between blocks.  [lsh_offs]: the second offset (idx - ...) of each of the sixteen assignments; the first one is 16 - k. *)
Definition lsh_offs : list nat := [29; 30; 32; 31; 25; 28; 27; 26; 21; 22; 24; 23; 17; 20; 19; 18].
Definition lsh_load (msg data : list N) : list N :=
  fold_left (fun msg i => upd msg i (le_val (slice data (i * g_wb G) (i * g_wb G + g_wb G)))) (seq 0 32) msg.
Definition lsh_row (msg : list N) (i : nat) : list N :=
  let idx := 16 * i in
  fold_left (fun msg k => upd msg (idx + k) (g_add G (at_ msg (idx - (16 - k))) (at_ msg (idx - nth k lsh_offs 0)))) (seq 0 16) msg.
Definition lsh_expand (msg data : list N) : list N := fold_left lsh_row (seq 2 (g_numStep G - 1)) (lsh_load msg data).
(** digest.go:149-180 step; every entry of the array tcv is written before it is read, so it is local here *)
Definition lsh_col (msg s : list N) (stepidx : nat) (alpha beta : N) (tcv : list N) (c : nat) : list N :=
  let vl := N.lxor (at_ s c) (at_ msg (16 * stepidx + c)) in
  let vr := N.lxor (at_ s (c + 8)) (at_ msg (16 * stepidx + c + 8)) in
  let vl := N.lxor (g_rotl G (g_add G vl vr) alpha) (at_ (g_step G) (8 * stepidx + c)) in
  let vr := g_rotl G (g_add G vl vr) beta in
  upd (upd tcv c (g_add G vr vl)) (c + 8) (g_rotl G vr (at_ (g_gamma G) c)).
Definition lsh_stepf (msg s : list N) (stepidx : nat) (alpha beta : N) : list N :=
  let tcv := fold_left (lsh_col msg s stepidx alpha beta) (seq 0 8) (zeros 16) in
  [at_ tcv 6; at_ tcv 4; at_ tcv 5; at_ tcv 7; at_ tcv 12; at_ tcv 15; at_ tcv 14; at_ tcv 13;
   at_ tcv 2; at_ tcv 0; at_ tcv 1; at_ tcv 3; at_ tcv 8; at_ tcv 11; at_ tcv 10; at_ tcv 9].
(** digest.go:110-121 compress; the state is (s, msg) *)
Definition lsh_compress (st : list N * list N) (data : list N) : list N * list N :=
  let '(s, msg) := st in
  let msg := lsh_expand msg data in
  let s := fold_left (fun s i => lsh_stepf msg (lsh_stepf msg s (2 * i) (g_aE G) (g_bE G)) (2 * i + 1) (g_aO G) (g_bO G)) (seq 0 (g_numStep G / 2)) s in
  (map (fun i => N.lxor (at_ s i) (at_ msg (16 * g_numStep G + i))) (seq 0 16), msg).
(** digest.go:30-57 newDigest, Reset ([iv]: the array chosen by the switch on hs) *)
Definition lsh_new (iv : list N) : dig (list N * list N) := mkdig (iv, zeros (16 * (g_numStep G + 1))) (zeros lsh_bs) 0 0.
(** digest.go:59-81 Write (len is never updated) *)
Definition lsh_write : dig (list N * list N) -> list N -> dig (list N * list N) * nat := write_nolen lsh_bs lsh_compress.
(** digest.go:89-108 checkSum, 83-87 Sum: on a copy; digest[:hs] *)
Definition lsh_checkSum (hs : nat) (d : dig (list N * list N)) : list N :=
  let x := upd (dx d) (dnx d) 0x80%N in
  let x := copy_at x (dnx d + 1) (firstn (lsh_bs - (dnx d + 1)) (zeros lsh_bs)) in
  let s := fst (lsh_compress (ds d) x) in
  let temp := map (fun i => N.lxor (at_ s i) (at_ s (i + 8))) (seq 0 8) in
  map (fun i => w8 (N.shiftr (at_ temp (i / g_wb G)) (N.land (N.of_nat (8 * i)) (8 * N.of_nat (g_wb G) - 1)))) (seq 0 hs).
Definition lsh_sum (hs : nat) (d : dig (list N * list N)) (inp : list N) : dig (list N * list N) * list N := (d, inp ++ lsh_checkSum hs d).
Definition lsh_impl (hs : nat) (iv : list N) : impl (dig (list N * list N)) := mkimpl lsh_write (lsh_sum hs) (fun _ => lsh_new iv).
(** New.. ; Write(data); Sum(nil), then copy into an array of [size] bytes *)
Definition lsh_oneshot (hs : nat) (iv : list N) (size : nat) (data : list N) : list N :=
  copy_at (zeros size) 0 (firstn size (snd (lsh_sum hs (fst (lsh_write (lsh_new iv) data)) []))).
End Model.
(** lsh256.go:29-46 *)
Definition lsh256_Sum256 := lsh_oneshot lsh256_cfg 32 lsh256_iv256 32.
Definition lsh256_Sum224 := lsh_oneshot lsh256_cfg 28 lsh256_iv224 28.
(** lsh512.go:42-80: all four call New(), the 64-byte digest *)
Definition lsh512_Sum := lsh_oneshot lsh512_cfg 64 lsh512_iv512 64.
Definition lsh512_Sum384 := lsh_oneshot lsh512_cfg 64 lsh512_iv512 48.
Definition lsh512_Sum256 := lsh_oneshot lsh512_cfg 64 lsh512_iv512 32.
Definition lsh512_Sum224 := lsh_oneshot lsh512_cfg 64 lsh512_iv512 28.
