(** Shavite.v -- model of /repo/shavite (digest256.go, digest512.go, sbox.go, utils.go).
    The Go text repeats the four-line AES look-up pattern in full everywhere; it is written once here ([sv_t]). *)
From Coq Require Import List NArith Arith Bool.
From Verif Require Import Base Buf HashAPI.
Import ListNotations.

(** shavite/sbox.go:3-28 *)
Definition sv_initVal224 : list N := [
  1735717660; 2567627280; 3363652212; 3377750897; 1655877288; 1264058840; 460335200; 2217685015]%N.

Definition sv_initVal256 : list N := [
  1237007943; 645170701; 2830340780; 35308774; 1083343823; 1645108614; 1838325195; 2529962635]%N.

Definition sv_initVal384 : list N := [
  2212435269; 4188728339; 4102044848; 301866823; 3664564841; 1330904279; 2500143522; 2542829895;
  2963593135; 730935999; 577659005; 1007652220; 1216036623; 70663714; 22399388; 3962446035]%N.

Definition sv_initVal512 : list N := [
  1929170392; 2043299623; 311035771; 1087724268; 3515881990; 1124786951; 2996788433; 3741842428;
  2386941757; 1746580792; 3186124152; 3713498695; 3799378654; 1345167309; 3107287416; 36326298]%N.

(** shavite/sbox.go:29-295 *)
Definition sv_AES0 : list N := [
  2774754246; 2222750968; 2574743534; 2373680118; 234025727; 3177933782; 2976870366; 1422247313;
  1345335392; 50397442; 2842126286; 2099981142; 436141799; 1658312629; 3870010189; 2591454956;
  1170918031; 2642575903; 1086966153; 2273148410; 368769775; 3948501426; 3376891790; 200339707;
  3970805057; 1742001331; 4255294047; 3937382213; 3214711843; 4154762323; 2524082916; 1539358875;
  3266819957; 486407649; 2928907069; 1780885068; 1513502316; 1094664062; 49805301; 1338821763;
  1546925160; 4104496465; 887481809; 150073849; 2473685474; 1943591083; 1395732834; 1058346282;
  201589768; 1388824469; 1696801606; 1589887901; 672667696; 2711000631; 251987210; 3046808111;
  151455502; 907153956; 2608889883; 1038279391; 652995533; 1764173646; 3451040383; 2675275242;
  453576978; 2659418909; 1949051992; 773462580; 756751158; 2993581788; 3998898868; 4221608027;
  4132590244; 1295727478; 1641469623; 3467883389; 2066295122; 1055122397; 1898917726; 2542044179;
  4115878822; 1758581177; 0; 753790401; 1612718144; 536673507; 3367088505; 3982187446;
  3194645204; 1187761037; 3653156455; 1262041458; 3729410708; 3561770136; 3898103984; 1255133061;
  1808847035; 720367557; 3853167183; 385612781; 3309519750; 3612167578; 1429418854; 2491778321;
  3477423498; 284817897; 100794884; 2172616702; 4031795360; 1144798328; 3131023141; 3819481163;
  4082192802; 4272137053; 3225436288; 2324664069; 2912064063; 3164445985; 1211644016; 83228145;
  3753688163; 3249976951; 1977277103; 1663115586; 806359072; 452984805; 250868733; 1842533055;
  1288555905; 336333848; 890442534; 804056259; 3781124030; 2727843637; 3427026056; 957814574;
  1472513171; 4071073621; 2189328124; 1195195770; 2892260552; 3881655738; 723065138; 2507371494;
  2690670784; 2558624025; 3511635870; 2145180835; 1713513028; 2116692564; 2878378043; 2206763019;
  3393603212; 703524551; 3552098411; 1007948840; 2044649127; 3797835452; 487262998; 1994120109;
  1004593371; 1446130276; 1312438900; 503974420; 3679013266; 168166924; 1814307912; 3831258296;
  1573044895; 1859376061; 4021070915; 2791465668; 2828112185; 2761266481; 937747667; 2339994098;
  854058965; 1137232011; 1496790894; 3077402074; 2358086913; 1691735473; 3528347292; 3769215305;
  3027004632; 4199962284; 133494003; 636152527; 2942657994; 2390391540; 3920539207; 403179536;
  3585784431; 2289596656; 1864705354; 1915629148; 605822008; 4054230615; 3350508659; 1371981463;
  602466507; 2094914977; 2624877800; 555687742; 3712699286; 3703422305; 2257292045; 2240449039;
  2423288032; 1111375484; 3300242801; 2858837708; 3628615824; 84083462; 32962295; 302911004;
  2741068226; 1597322602; 4183250862; 3501832553; 2441512471; 1489093017; 656219450; 3114180135;
  954327513; 335083755; 3013122091; 856756514; 3144247762; 1893325225; 2307821063; 2811532339;
  3063651117; 572399164; 2458355477; 552200649; 1238290055; 4283782570; 2015897680; 2061492133;
  2408352771; 4171342169; 2156497161; 386731290; 3669999461; 837215959; 3326231172; 3093850320;
  3275833730; 2962856233; 1999449434; 286199582; 3417354363; 4233385128; 3602627437; 974525996]%N.

Definition sv_AES1 : list N := [
  1667483301; 2088564868; 2004348569; 2071721613; 4076011277; 1802229437; 1869602481; 3318059348;
  808476752; 16843267; 1734856361; 724260477; 4278118169; 3621238114; 2880130534; 1987505306;
  3402272581; 2189565853; 3385428288; 2105408135; 4210749205; 1499050731; 1195871945; 4042324747;
  2913812972; 3570709351; 2728550397; 2947499498; 2627478463; 2762232823; 1920132246; 3233848155;
  3082253762; 4261273884; 2475900334; 640044138; 909536346; 1061125697; 4160222466; 3435955023;
  875849820; 2779075060; 3857043764; 4059166984; 1903288979; 3638078323; 825320019; 353708607;
  67373068; 3351745874; 589514341; 3284376926; 404238376; 2526427041; 84216335; 2593796021;
  117902857; 303178806; 2155879323; 3806519101; 3958099238; 656887401; 2998042573; 1970662047;
  151589403; 2206408094; 741103732; 437924910; 454768173; 1852759218; 1515893998; 2694863867;
  1381147894; 993752653; 3604395873; 3014884814; 690573947; 3823361342; 791633521; 2223248279;
  1397991157; 3520182632; 0; 3991781676; 538984544; 4244431647; 2981198280; 1532737261;
  1785386174; 3419114822; 3200149465; 960066123; 1246401758; 1280088276; 1482207464; 3486483786;
  3503340395; 4025468202; 2863288293; 4227591446; 1128498885; 1296931543; 859006549; 2240090516;
  1162185423; 4193904912; 33686534; 2139094657; 1347461360; 1010595908; 2678007226; 2829601763;
  1364304627; 2745392638; 1077969088; 2408514954; 2459058093; 2644320700; 943222856; 4126535940;
  3166462943; 3065411521; 3671764853; 555827811; 269492272; 4294960410; 4092853518; 3537026925;
  3452797260; 202119188; 320022069; 3974939439; 1600110305; 2543269282; 1145342156; 387395129;
  3301217111; 2812761586; 2122251394; 1027439175; 1684326572; 1566423783; 421081643; 1936975509;
  1616953504; 2172721560; 1330618065; 3705447295; 572671078; 707417214; 2425371563; 2290617219;
  1179028682; 4008625961; 3099093971; 336865340; 3739133817; 1583267042; 185275933; 3688607094;
  3772832571; 842163286; 976909390; 168432670; 1229558491; 101059594; 606357612; 1549580516;
  3267534685; 3553869166; 2896970735; 1650640038; 2442213800; 2509582756; 3840201527; 2038035083;
  3890730290; 3368586051; 926379609; 1835915959; 2374828428; 3587551588; 1313774802; 2846444000;
  1819072692; 1448520954; 4109693703; 3941256997; 1701169839; 2054878350; 2930657257; 134746136;
  3132780501; 2021191816; 623200879; 774790258; 471611428; 2795919345; 3031724999; 3334903633;
  3907570467; 3722289532; 1953818780; 522141217; 1263245021; 3183305180; 2341145990; 2324303749;
  1886445712; 1044282434; 3048567236; 1718013098; 1212715224; 50529797; 4143380225; 235805714;
  1633796771; 892693087; 1465364217; 3115936208; 2256934801; 3250690392; 488454695; 2661164985;
  3789674808; 4177062675; 2560109491; 286335539; 1768542907; 3654920560; 2391672713; 2492740519;
  2610638262; 505297954; 2273777042; 3924412704; 3469641545; 1431677695; 673730680; 3755976058;
  2357986191; 2711706104; 2307459456; 218962455; 3216991706; 3873888049; 1111655622; 1751699640;
  1094812355; 2576951728; 757946999; 252648977; 2964356043; 1414834428; 3149622742; 370551866]%N.

Definition sv_AES2 : list N := [
  1673962851; 2096661628; 2012125559; 2079755643; 4076801522; 1809235307; 1876865391; 3314635973;
  811618352; 16909057; 1741597031; 727088427; 4276558334; 3618988759; 2874009259; 1995217526;
  3398387146; 2183110018; 3381215433; 2113570685; 4209972730; 1504897881; 1200539975; 4042984432;
  2906778797; 3568527316; 2724199842; 2940594863; 2619588508; 2756966308; 1927583346; 3231407040;
  3077948087; 4259388669; 2470293139; 642542118; 913070646; 1065238847; 4160029431; 3431157708;
  879254580; 2773611685; 3855693029; 4059629809; 1910674289; 3635114968; 828527409; 355090197;
  67636228; 3348452039; 591815971; 3281870531; 405809176; 2520228246; 84545285; 2586817946;
  118360327; 304363026; 2149292928; 3806281186; 3956090603; 659450151; 2994720178; 1978310517;
  152181513; 2199756419; 743994412; 439627290; 456535323; 1859957358; 1521806938; 2690382752;
  1386542674; 997608763; 3602342358; 3011366579; 693271337; 3822927587; 794718511; 2215876484;
  1403450707; 3518589137; 0; 3988860141; 541089824; 4242743292; 2977548465; 1538714971;
  1792327274; 3415033547; 3194476990; 963791673; 1251270218; 1285084236; 1487988824; 3481619151;
  3501943760; 4022676207; 2857362858; 4226619131; 1132905795; 1301993293; 862344499; 2232521861;
  1166724933; 4192801017; 33818114; 2147385727; 1352724560; 1014514748; 2670049951; 2823545768;
  1369633617; 2740846243; 1082179648; 2399505039; 2453646738; 2636233885; 946882616; 4126213365;
  3160661948; 3061301686; 3668932058; 557998881; 270544912; 4293204735; 4093447923; 3535760850;
  3447803085; 202904588; 321271059; 3972214764; 1606345055; 2536874647; 1149815876; 388905239;
  3297990596; 2807427751; 2130477694; 1031423805; 1690872932; 1572530013; 422718233; 1944491379;
  1623236704; 2165938305; 1335808335; 3701702620; 574907938; 710180394; 2419829648; 2282455944;
  1183631942; 4006029806; 3094074296; 338181140; 3735517662; 1589437022; 185998603; 3685578459;
  3772464096; 845436466; 980700730; 169090570; 1234361161; 101452294; 608726052; 1555620956;
  3265224130; 3552407251; 2890133420; 1657054818; 2436475025; 2503058581; 3839047652; 2045938553;
  3889509095; 3364570056; 929978679; 1843050349; 2365688973; 3585172693; 1318900302; 2840191145;
  1826141292; 1454176854; 4109567988; 3939444202; 1707781989; 2062847610; 2923948462; 135272456;
  3127891386; 2029029496; 625635109; 777810478; 473441308; 2790781350; 3027486644; 3331805638;
  3905627112; 3718347997; 1961401460; 524165407; 1268178251; 3177307325; 2332919435; 2316273034;
  1893765232; 1048330814; 3044132021; 1724688998; 1217452104; 50726147; 4143383030; 236720654;
  1640145761; 896163637; 1471084887; 3110719673; 2249691526; 3248052417; 490350365; 2653403550;
  3789109473; 4176155640; 2553000856; 287453969; 1775418217; 3651760345; 2382858638; 2486413204;
  2603464347; 507257374; 2266337927; 3922272489; 3464972750; 1437269845; 676362280; 3752164063;
  2349043596; 2707028129; 2299101321; 219813645; 3211123391; 3872862694; 1115997762; 1758509160;
  1099088705; 2569646233; 760903469; 253628687; 2960903088; 1420360788; 3144537787; 371997206]%N.

Definition sv_AES3 : list N := [
  3332727651; 4169432188; 4003034999; 4136467323; 4279104242; 3602738027; 3736170351; 2438251973;
  1615867952; 33751297; 3467208551; 1451043627; 3877240574; 3043153879; 1306962859; 3969545846;
  2403715786; 530416258; 2302724553; 4203183485; 4011195130; 3001768281; 2395555655; 4211863792;
  1106029997; 3009926356; 1610457762; 1173008303; 599760028; 1408738468; 3835064946; 2606481600;
  1975695287; 3776773629; 1034851219; 1282024998; 1817851446; 2118205247; 4110612471; 2203045068;
  1750873140; 1374987685; 3509904869; 4178113009; 3801313649; 2876496088; 1649619249; 708777237;
  135005188; 2505230279; 1181033251; 2640233411; 807933976; 933336726; 168756485; 800430746;
  235472647; 607523346; 463175808; 3745374946; 3441880043; 1315514151; 2144187058; 3936318837;
  303761673; 496927619; 1484008492; 875436570; 908925723; 3702681198; 3035519578; 1543217312;
  2767606354; 1984772923; 3076642518; 2110698419; 1383803177; 3711886307; 1584475951; 328696964;
  2801095507; 3110654417; 0; 3240947181; 1080041504; 3810524412; 2043195825; 3069008731;
  3569248874; 2370227147; 1742323390; 1917532473; 2497595978; 2564049996; 2968016984; 2236272591;
  3144405200; 3307925487; 1340451498; 3977706491; 2261074755; 2597801293; 1716859699; 294946181;
  2328839493; 3910203897; 67502594; 4269899647; 2700103760; 2017737788; 632987551; 1273211048;
  2733855057; 1576969123; 2160083008; 92966799; 1068339858; 566009245; 1883781176; 4043634165;
  1675607228; 2009183926; 2943736538; 1113792801; 540020752; 3843751935; 4245615603; 3211645650;
  2169294285; 403966988; 641012499; 3274697964; 3202441055; 899848087; 2295088196; 775493399;
  2472002756; 1441965991; 4236410494; 2051489085; 3366741092; 3135724893; 841685273; 3868554099;
  3231735904; 429425025; 2664517455; 2743065820; 1147544098; 1417554474; 1001099408; 193169544;
  2362066502; 3341414126; 1809037496; 675025940; 2809781982; 3168951902; 371002123; 2910247899;
  3678134496; 1683370546; 1951283770; 337512970; 2463844681; 201983494; 1215046692; 3101973596;
  2673722050; 3178157011; 1139780780; 3299238498; 967348625; 832869781; 3543655652; 4069226873;
  3576883175; 2336475336; 1851340599; 3669454189; 25988493; 2976175573; 2631028302; 1239460265;
  3635702892; 2902087254; 4077384948; 3475368682; 3400492389; 4102978170; 1206496942; 270010376;
  1876277946; 4035475576; 1248797989; 1550986798; 941890588; 1475454630; 1942467764; 2538718918;
  3408128232; 2709315037; 3902567540; 1042358047; 2531085131; 1641856445; 226921355; 260409994;
  3767562352; 2084716094; 1908716981; 3433719398; 2430093384; 100991747; 4144101110; 470945294;
  3265487201; 1784624437; 2935576407; 1775286713; 395413126; 2572730817; 975641885; 666476190;
  3644383713; 3943954680; 733190296; 573772049; 3535497577; 2842745305; 126455438; 866620564;
  766942107; 1008868894; 361924487; 3374377449; 2269761230; 2868860245; 1350051880; 2776293343;
  59739276; 1509466529; 159418761; 437718285; 1708834751; 3610371814; 2227585602; 3501746280;
  2193834305; 699439513; 1517759789; 504434447; 2076946608; 2835108948; 1842789307; 742004246]%N.


(** t0..t3 of the four-line pattern (digest256.go:157-172 and all its repetitions). *)
Definition sv_t (x0 x1 x2 x3 : N) : N * N * N * N :=
  let t a b c d := N.lxor (N.lxor (N.lxor (at_ sv_AES0 (N.to_nat (N.land a 0xff))) (at_ sv_AES1 (N.to_nat (N.land (N.shiftr b 8) 0xff))))
                          (at_ sv_AES2 (N.to_nat (N.land (N.shiftr c 16) 0xff)))) (at_ sv_AES3 (N.to_nat (N.shiftr d 24))) in
  (t x0 x1 x2 x3, t x1 x2 x3 x0, t x2 x3 x0 x1, t x3 x0 x1 x2).

(** rk[u], rk[u+1], rk[u+2], rk[u+3] = getu32(data[u<<2 ...]) (digest256.go:143-148, digest512.go:172-177). *)
Definition sv_load (rk data : list N) (u : nat) : list N :=
  upd (upd (upd (upd rk u (le_val (slice data (4 * u) (4 * u + 4)))) (u + 1) (le_val (slice data (4 * u + 4) (4 * u + 8))))
    (u + 2) (le_val (slice data (4 * u + 8) (4 * u + 12)))) (u + 3) (le_val (slice data (4 * u + 12) (4 * u + 16))).
(** The body "x0 = rk[u-15]; ...; rk[u+3] = t3 ^ rk[u-1]" with d = 16 (digest256.go:155-176, 186-197) or
    d = 32 (digest512.go:184-195, 210-221). *)
Definition sv_nl (d : nat) (rk : list N) (u : nat) : list N :=
  let '(t0, t1, t2, t3) := sv_t (at_ rk (u - (d - 1))) (at_ rk (u - (d - 2))) (at_ rk (u - (d - 3))) (at_ rk (u - d)) in
  let rk := upd rk u (N.lxor t0 (at_ rk (u - 4))) in
  let rk := upd rk (u + 1) (N.lxor t1 (at_ rk (u - 3))) in
  let rk := upd rk (u + 2) (N.lxor t2 (at_ rk (u - 2))) in
  upd rk (u + 3) (N.lxor t3 (at_ rk (u - 1))).
(** rk[i] ^= v *)
Definition sv_xat (rk : list N) (i : nat) (v : N) : list N := upd rk i (N.lxor (at_ rk i) v).

(** digest256.go:151-216: the expansion; [u] is the Go variable u. *)
Definition sv256_s (c0 c1 : N) (st : list N * nat) : list N * nat :=
  let '(rk, u) := st in
  let rk := sv_nl 16 rk u in
  let rk := if u =? 16 then sv_xat (sv_xat rk 16 c0) 17 (not32 c1)
            else if u =? 56 then sv_xat (sv_xat rk 57 c1) 58 (not32 c0) else rk in
  let u := u + 4 in
  let rk := sv_nl 16 rk u in
  let rk := if u =? 84 then sv_xat (sv_xat rk 86 c1) 87 (not32 c0)
            else if u =? 124 then sv_xat (sv_xat rk 124 c0) 127 (not32 c1) else rk in
  (rk, u + 4).
(** digest256.go:209-215 *)
Definition sv256_l (st : list N * nat) : list N * nat :=
  let '(rk, u) := st in
  let rk := upd rk u (N.lxor (at_ rk (u - 16)) (at_ rk (u - 3))) in
  let rk := upd rk (u + 1) (N.lxor (at_ rk (u - 15)) (at_ rk (u - 2))) in
  let rk := upd rk (u + 2) (N.lxor (at_ rk (u - 14)) (at_ rk (u - 1))) in
  let rk := upd rk (u + 3) (N.lxor (at_ rk (u - 13)) (at_ rk (u - 0))) in
  (rk, u + 4).
Definition sv256_expand (c0 c1 : N) (rk data : list N) : list N :=
  let rk := fold_left (fun rk u => sv_load rk data u) [0; 4; 8; 12] rk in
  fst (Nat.iter 4 (fun st => Nat.iter 4 sv256_l (Nat.iter 2 (sv256_s c0 c1) st)) (rk, 16)).

(** One "x = ... ^ rk[u]; u++ (x4); t = AES..." group; x0..x3 enter as the words before the key. *)
Definition sv_g (rk : list N) (u : nat) (q : N * N * N * N) : N * N * N * N :=
  let '(a, b, c, d) := q in
  sv_t (N.lxor a (at_ rk u)) (N.lxor b (at_ rk (u + 1))) (N.lxor c (at_ rk (u + 2))) (N.lxor d (at_ rk (u + 3))).
Definition sv_x (p t : N * N * N * N) : N * N * N * N :=
  let '(p0, p1, p2, p3) := p in let '(t0, t1, t2, t3) := t in (N.lxor p0 t0, N.lxor p1 t1, N.lxor p2 t2, N.lxor p3 t3).
(** digest256.go:228-299: one iteration; (p0..p3), (p4..p7), u *)
Definition sv256_round (rk : list N) (st : (N * N * N * N) * (N * N * N * N) * nat) :=
  let '(p, q, u) := st in
  let p := sv_x p (sv_g rk (u + 8) (sv_g rk (u + 4) (sv_g rk u q))) in
  let u := u + 12 in
  let q := sv_x q (sv_g rk (u + 8) (sv_g rk (u + 4) (sv_g rk u p))) in
  (p, q, u + 12).
Definition sv_quad (h : list N) (i : nat) : N * N * N * N := (at_ h i, at_ h (i + 1), at_ h (i + 2), at_ h (i + 3)).
Definition sv_list (q : N * N * N * N) : list N := let '(a, b, c, d) := q in [a; b; c; d].
(** digest256.go:136-318 (process): the chaining value and the round-key array (kept in the struct) *)
Definition sv256_process (st : list N * list N) (data : list N) (c0 c1 : N) : list N * list N :=
  let '(h, rk) := st in
  let rk := sv256_expand c0 c1 rk data in
  let '(p, q, _) := Nat.iter 6 (sv256_round rk) (sv_quad h 0, sv_quad h 4, 0) in
  (sv_list (sv_x (sv_quad h 0) p) ++ sv_list (sv_x (sv_quad h 4) q), rk).

(** digest512.go:179-247 *)
Definition sv512_s (c0 c1 c2 : N) (st : list N * nat) : list N * nat :=
  let '(rk, u) := st in
  let rk := sv_nl 32 rk u in
  let rk := if u =? 32 then sv_xat (sv_xat (sv_xat (sv_xat rk 32 c0) 33 c1) 34 c2) 35 0xffffffff
            else if u =? 440 then sv_xat (sv_xat (sv_xat rk 440 c1) 441 c0) 443 (not32 c2) else rk in
  let u := u + 4 in
  let rk := sv_nl 32 rk u in
  let rk := if u =? 164 then sv_xat (sv_xat (sv_xat rk 165 c2) 166 c1) 167 (not32 c0)
            else if u =? 316 then sv_xat (sv_xat (sv_xat rk 316 c2) 318 c0) 319 (not32 c1) else rk in
  (rk, u + 4).
(** digest512.go:240-246 *)
Definition sv512_l (st : list N * nat) : list N * nat :=
  let '(rk, u) := st in
  let rk := upd rk u (N.lxor (at_ rk (u - 32)) (at_ rk (u - 7))) in
  let rk := upd rk (u + 1) (N.lxor (at_ rk (u - 31)) (at_ rk (u - 6))) in
  let rk := upd rk (u + 2) (N.lxor (at_ rk (u - 30)) (at_ rk (u - 5))) in
  let rk := upd rk (u + 3) (N.lxor (at_ rk (u - 29)) (at_ rk (u - 4))) in
  (rk, u + 4).
(** for { 4 x s; if u == 448 break; 8 x l }.  The fuel 7 is exact: u = 64k + 64 after the k-th s-group. *)
Fixpoint sv512_loop (fuel : nat) (c0 c1 c2 : N) (st : list N * nat) : list N * nat :=
  match fuel with
  | O => st
  | S f => let st := Nat.iter 4 (sv512_s c0 c1 c2) st in
           if snd st =? 448 then st else sv512_loop f c0 c1 c2 (Nat.iter 8 sv512_l st)
  end.
Definition sv512_expand (c0 c1 c2 : N) (rk data : list N) : list N :=
  let rk := fold_left (fun rk u => sv_load rk data u) [0; 4; 8; 12; 16; 20; 24; 28] rk in
  fst (sv512_loop 7 c0 c1 c2 (rk, 32)).
(** digest512.go:266-364: one iteration, with the final rotation of the four quads *)
Definition sv512_round (rk : list N) (st : (N * N * N * N) * (N * N * N * N) * (N * N * N * N) * (N * N * N * N) * nat) :=
  let '(a, b, c, d, u) := st in
  let a := sv_x a (sv_g rk (u + 12) (sv_g rk (u + 8) (sv_g rk (u + 4) (sv_g rk u b)))) in
  let u := u + 16 in
  let c := sv_x c (sv_g rk (u + 12) (sv_g rk (u + 8) (sv_g rk (u + 4) (sv_g rk u d)))) in
  (d, a, b, c, u + 16).
(** digest512.go:163-383 (process) *)
Definition sv512_process (st : list N * list N) (data : list N) (c0 c1 c2 : N) : list N * list N :=
  let '(h, rk) := st in
  let rk := sv512_expand c0 c1 c2 rk data in
  let '(a, b, c, d, _) := Nat.iter 14 (sv512_round rk) (sv_quad h 0, sv_quad h 4, sv_quad h 8, sv_quad h 12, 0) in
  (sv_list (sv_x (sv_quad h 0) a) ++ sv_list (sv_x (sv_quad h 4) b) ++ sv_list (sv_x (sv_quad h 8) c) ++ sv_list (sv_x (sv_quad h 12) d), rk).

(** ** The digests.  digest256 and digest512 have the same fields; [v] selects the variant. *)
Inductive sv_variant := V256 | V512.
Definition sv_BlockSize (v : sv_variant) : nat := match v with V256 => 64 | V512 => 128 end.
Definition sv_rklen (v : sv_variant) : nat := match v with V256 => 144 | V512 => 448 end.
(** digest256.go:13-24: s, rk (in that order) are [sst]; x, nx, len, hs, initVal. *)
Record sdig := mkSdig { s_st : list N * list N; s_x : list N; s_nx : nat; s_len : N; s_hs : nat; s_init : list N }.
(** Reset: digest256.go:36-44, digest512.go likewise *)
Definition sv_reset (v : sv_variant) (d : sdig) : sdig :=
  mkSdig (s_init d, zeros (sv_rklen v)) (zeros (sv_BlockSize v)) 0 0 (s_hs d) (s_init d).
(** newDigest256: digest256.go:27-34 *)
Definition sv_new (v : sv_variant) (hs : nat) (iv : list N) : sdig := sv_reset v (mkSdig ([], []) [] 0 0 hs iv).
(** processBlock: digest256.go:130-134, digest512.go:156-161 *)
Definition sv_processBlock (v : sv_variant) (st : list N * list N) (len : N) (data : list N) : list N * list N :=
  match v with
  | V256 => let bitLen := shl64 (add64 (len / 64) 1) 9 in sv256_process st data (w32 bitLen) (w32 (N.shiftr bitLen 32))
  | V512 => let bc := add64 (len / 128) 1 in let bitLen := shl64 bc 10 in
            sv512_process st data (w32 bitLen) (w32 (N.shiftr bitLen 32)) (w32 (N.shiftr bc 54))
  end.
(** Write: digest256.go:54-79 (and digest512.go:54-79).  [Buf.writeA] is the loop "for nx + plen >= BlockSize" and the
    final copy; the inner state carries (s, rk) and d.len, which each iteration increases by a whole BlockSize. *)
Definition sv_write (v : sv_variant) (d : sdig) (p : list N) : sdig * nat :=
  let '((st, len), x, nx, plen) :=
    writeA (sv_BlockSize v) (fun '(st, len) b _ => (sv_processBlock v st len b, add64 len (N.of_nat (sv_BlockSize v)))) (s_st d, s_len d) (s_x d) (s_nx d) p in
  (mkSdig st x nx (add64 len (N.of_nat plen)) (s_hs d) (s_init d), length p).
(** for i := 0; i < dlen; i += 4 { putu32(out[i:], d.s[i>>2]) } *)
Definition sv_out (h : list N) (hs : nat) : list N :=
  fold_left (fun out k => copy_at out (4 * k) (le_bytes 4 (at_ h k))) (seq 0 (hs / 4)) (zeros hs).
(** buf[i] = 0 for i in [a, b) *)
Definition sv_zero (buf : list N) (a b : nat) : list N := fold_left (fun buf i => upd buf i 0%N) (seq a (b - a)) buf.
(** checkSum: digest256.go:88-128 *)
Definition sv256_checkSum (d : sdig) : list N :=
  let ptr := s_nx d in
  let bc := (s_len d / 64)%N in
  let bitLen := add64 (shl64 bc 9) (N.of_nat ptr * 8) in
  let c0 := w32 bitLen in let c1 := w32 (N.shiftr bitLen 32) in
  let '(st, buf, c0, c1) :=
    if ptr =? 0 then (s_st d, sv_zero (upd (s_x d) 0 0x80%N) 1 54, 0%N, 0%N)
    else if ptr <? 54 then (s_st d, sv_zero (upd (s_x d) ptr 0x80%N) (ptr + 1) 54, c0, c1)
    else let buf := sv_zero (upd (s_x d) ptr 0x80%N) (ptr + 1) 64 in
         (sv256_process (s_st d) buf c0 c1, sv_zero buf 0 54, 0%N, 0%N) in
  let buf := copy_at buf 54 (le_bytes 4 (w32 bitLen)) in
  let buf := copy_at buf 58 (le_bytes 4 (w32 (N.shiftr bitLen 32))) in
  let buf := upd buf 62 (w8 (N.of_nat (s_hs d) * 8)) in
  let buf := upd buf 63 (w8 (N.shiftr (N.of_nat (s_hs d)) 5)) in
  sv_out (fst (sv256_process st buf c0 c1)) (s_hs d).
(** checkSum: digest512.go:88-154 *)
Definition sv512_checkSum (d : sdig) : list N :=
  let ptr := s_nx d in
  let bc := (s_len d / 128)%N in
  let bitLen := add64 (shl64 bc 10) (N.of_nat ptr * 8) in
  let c0 := w32 bitLen in let c1 := w32 (N.shiftr bitLen 32) in let c2 := w32 (N.shiftr bc 54) in
  let '(st, buf, c0, c1, c2) :=
    if ptr =? 0 then (s_st d, sv_zero (upd (s_x d) 0 0x80%N) 1 110, 0%N, 0%N, 0%N)
    else if ptr <? 110 then (s_st d, sv_zero (upd (s_x d) ptr 0x80%N) (ptr + 1) 110, c0, c1, c2)
    else let buf := sv_zero (upd (s_x d) ptr 0x80%N) (ptr + 1) 128 in
         (sv512_process (s_st d) buf c0 c1 c2, sv_zero buf 0 110, 0%N, 0%N, 0%N) in
  let buf := copy_at buf 110 (le_bytes 4 (w32 bitLen)) in
  let buf := copy_at buf 114 (le_bytes 4 (w32 (N.shiftr bitLen 32))) in
  let buf := copy_at buf 118 (le_bytes 4 (w32 (N.shiftr bc 54))) in
  let buf := upd (upd (upd (upd buf 122 0%N) 123 0%N) 124 0%N) 125 0%N in
  let buf := upd buf 126 (w8 (N.of_nat (s_hs d) * 8)) in
  let buf := upd buf 127 (w8 (N.shiftr (N.of_nat (s_hs d)) 5)) in
  sv_out (fst (sv512_process st buf c0 c1 c2)) (s_hs d).
Definition sv_checkSum (v : sv_variant) (d : sdig) : list N := match v with V256 => sv256_checkSum d | V512 => sv512_checkSum d end.
(** Sum: digest256.go:81-86: checkSum works on the copy d0, the receiver is unchanged. *)
Definition sv_sum (v : sv_variant) (d : sdig) (inp : list N) : sdig * list N := (d, inp ++ sv_checkSum v d).
Definition sv_impl (v : sv_variant) : impl sdig := mkimpl (sv_write v) (sv_sum v) (sv_reset v).
(** Sum224 .. Sum512: shavite.go:27-65 *)
Definition sv_Sum (v : sv_variant) (hs : nat) (iv m : list N) : list N := sv_checkSum v (fst (sv_write v (sv_new v hs iv) m)).

(** Known answers from shavite_test.go *)
Example sv224_empty : sv_Sum V256 28 sv_initVal224 [] = be_bytes 28 0xb33f761f0d3a86bb1051905aec7a691bd0b5a24c3721f67d8e48d839.
Proof. vm_compute. reflexivity. Qed.
