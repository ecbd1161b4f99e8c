(** KupynaTab.v -- GENERATED by tools/kup.py from /repo/kupyna/sbox.go: the tables T0..T7. *)
From Coq Require Import List NArith.
Import ListNotations.

(** sbox.go: T0 *)
Definition kup_T0 : list N := [
  12119934444870015656; 4851013564486652227; 6863028172737241439; 440796617093814278;
  7771642301915115883; 8483785055692835189; 7836663880764468588; 6422231967962659161;
  8189920919801223537; 16106244144324107231; 9773241427758818951; 10807396504437550741;
  1678461367086308375; 17300561283047417840; 15609432941815547864; 661194926045733897;
  7909567033570666861; 17517018804144827379; 2119257983238239261; 14681958082729937867;
  14540655376879387593; 5576667256193952077; 3214493153323429932; 12621811921543923375;
  8755131743204473209; 16161132436986177504; 10948699072982312599; 18243798121010811901;
  8056499239356768623; 5438742387099447627; 4993442032669559109; 4169552419533874233;
  4523372065595258942; 15964941438205645789; 11751478512401168035; 5723599324541100367;
  12997024352689711796; 13138327058539471542; 11153334508426711706; 1024021840079239182;
  2261686588995894303; 13797269565687383743; 1531529161702331413; 16231783790045668321;
  5291810319019161929; 15185525373078368210; 10657086736370136723; 14337709136104931270;
  10583620633543406226; 8261698172565575026; 11447198644319371934; 7059499271925176673;
  15110370351807030225; 7201927877815996771; 18029592124447313914; 17181775889075052526;
  17583166694748518388; 1836652571269227545; 15395227563321291733; 12476005615931788973;
  6351580683690147160; 11821566709617896100; 13505657229608933051; 11610175806147444385;
  15892038354052470748; 17446367451219816434; 9490636290399286915; 4029375476417289271;
  4780362280079660354; 16452745047939921892; 8831412595597243770; 3673304030141925426;
  11301392476280146588; 14761616704033134540; 12339206784722310827; 5368091102692455754;
  10342955301028365967; 7983596086417139054; 293864411575881732; 2862925031530667047;
  3356921621776087086; 16671454369120500711; 16306938605158576098; 6498512751635952986;
  10877484769969791638; 1607247064140503062; 2571312420037954595; 3136523245047622699;
  14046096524882227138; 7344356208559950181; 7413881661780100454; 1095236143025044495;
  13580249025916160700; 12193400478842265257; 5135870501390385479; 4708585096034785601;
  3811229174111981620; 5221159034746649928; 18170894968138160124; 13209541292832515767;
  7700990948788647274; 9841077893073934984; 11892780943776984741; 5981435214505988435;
  9702027124746297990; 17958940908960728057; 6569164036042944859; 15821386932006112219;
  4096086385359380536; 8902063948723712379; 14116747809087761347; 2190472286050088990;
  2497846385998465058; 3746770064181414963; 2644778729225359396; 2920628742287564840;
  3958161242190960694; 14410612220124675015; 12844462922113086130; 4311980888119438395;
  10271740998015845006; 8626213661852615031; 13432191195501679290; 17656069847621170165;
  1460314858622570516; 11518412947331892895; 587728823151763464; 6132870881945733461;
  11226800611253442203; 5503764172107230540; 18312197536951099390; 6988847918933187936;
  6643193020303371612; 15750735647800578010; 1763186468375257112; 5062967417170232646;
  14834519788186309581; 9048995879631907197; 2424380351823971361; 12703160215994366640;
  4594586299821587519; 1979081177293745179; 9914543995765661321; 18385100689690319871;
  16960814630239439851; 9560724556335491716; 7624710096395876713; 4238514854079948858;
  11372606779158711965; 15541033869068172247; 15256176657283902419; 8119269566809234800;
  7486784814719730023; 4637933811762273600; 13068238586848800437; 16033341060304363486;
  6716096104390093149; 3526371961792938032; 10515784167555366545; 12776626249966616241;
  8684480390212484472; 1248923749197497361; 73466102893970433; 16525648200812573669;
  0; 7554058743403887976; 11007528340120623768; 11536709772175194784;
  14264805914377794501; 146932205787940866; 11962869415467655846; 8410881902886636916;
  3285707387683714093; 803623532070251531; 11678012478293914274; 8553310508912985462;
  12917928956220339891; 13726055331394339518; 14902919410285027278; 13651463260075249341;
  12550597687250879150; 16819512061827843049; 9986884061380022922; 3599837995967431729;
  2048043680158478364; 17040473320262113260; 17371212636106908657; 11080994442812350105;
  10736182201558985364; 12265740750615057066; 17728972863189876726; 2791710797304338470;
  3428135856002415663; 17254679041814273007; 16748860708768352232; 10125934829976619660;
  3882443408472265781; 220398308546907139; 15322324479168116692; 9195928085418008959;
  18100243477372324859; 365078714655642629; 13970941503610889153; 6790125088517088606;
  10442318064863640208; 2350914317649477664; 4452157831502885949; 9417170187572556418;
  17801876015929097207; 16890163277314428906; 730157429311285258; 952807537267389453;
  9123024932478379390; 17888289555901237240; 5768355461781609808; 1905615074534778906;
  14191902830224619460; 512010920039619591; 6275299350666559831; 13286384889756637880;
  4380943597142601788; 7131276524689528162; 16377589958083587043; 14470004092539373512;
  12404791381772700332; 5910783930098996562; 7271453055753751908; 1175457646303526928;
  15039719067467016144; 15680084226155561945; 1395855954850434067; 881593234187628556;
  1322389852091467794; 2994094776462058537; 5839006746054121809; 13359850923728887481;
  14975822494304771023; 15468130785048428502; 8332349525692043635; 10197149132855185037;
  9349333721584516737; 6059967797859011924; 13900290219270875072; 17113376473134765037;
  5650696240320947534; 4920538948582837572; 12034083649760700071; 3063057211008133162;
  9631938859214057093; 2715992963585643557; 16598551216381280230; 14611306798524403658;
  8976092726825708924; 10060350164206753419; 6202396266446406998; 9275867618892790400]%N.

(** sbox.go: T1 *)
Definition kup_T1 : list N := [
  15118089848799350478; 7907108996200709051; 6983688019551972331; 16182247425517458066;
  7343685744458722026; 13892222215825116107; 6850987041229640467; 16339418698444161473;
  7703718653602294249; 15148646369312913978; 12238249198553650902; 4662062940649861810;
  13678240029056422610; 16902277990916460688; 5410996278775256855; 4609596030747932920;
  6287634835562644034; 4689839847896257813; 1393453871258752598; 6824301020846929076;
  17034037946682533221; 7790348056703015964; 10558746602428336264; 5927619570043011907;
  17781731559933724101; 3556958416384384092; 17165098020570150454; 7546548338453297850;
  501582932179416565; 1609899357908326231; 16602272976167069543; 9479263617880591757;
  17668067355894493489; 718010844058744566; 16817574902005326948; 2691176538237130840;
  15897289299650059934; 285119870490113268; 12259376309482299938; 4083139626830834346;
  13579917633348269429; 3679291508768116495; 721156534293758466; 5742618944863121841;
  9574572509741440991; 14154056559749590381; 11705910100564734835; 7227523910016257357;
  10483472927397084284; 13701689308947686950; 10821707784038919726; 934473871589636087;
  2884626137175033864; 3773403868875545949; 5279373824956908612; 14285116222394089022;
  15681406797145874335; 4905722333187019796; 14972232948169296072; 3219539110763081390;
  1825254060304716884; 5769252274350067728; 11518113183517104344; 8555864777141435580;
  8222113164455057946; 15738813403347643243; 15017656937841518953; 1798003949654766579;
  8339964648158576061; 18389188671255098163; 4443700284578245547; 3889565431124458234;
  12885298657303450065; 14815625055900703643; 15377654645601953896; 7732199772817542734;
  5626878798358648342; 18128638153289799061; 17262856206288851345; 8209538060340162286;
  7011078457525095500; 17465873423649563491; 10128037025299992206; 3052282519424686939;
  15838085195733912780; 14716916445932960828; 9014456402183461145; 2279210506507952545;
  13799447217104126337; 8091124288108185929; 9978849806995520379; 11158097900851157465;
  14875213093572538223; 16949197908800714551; 18257636170779156576; 14252237532917910218;
  6694437467941758951; 9739955562680691499; 8451139588054665288; 3386068330251288061;
  17624490055833917078; 5495819277448070469; 3169605268561984764; 6359419793784258881;
  6490408808643826194; 4111056582227528973; 9257693341489396089; 6261546528531539429;
  10919324817800726921; 9695146154677406860; 5252124537330066403; 11538254959560630304;
  17307506680933658672; 10078122421331156188; 5888405476276090807; 13937593515072384108;
  9172260834761853514; 6608400891864069557; 14069216110624653119; 17408607553329731479;
  11805323040612930772; 17825871096983151202; 11037607930100985133; 2163469533759145478;
  1055049573814936740; 839149444832077221; 13079416686266188675; 4494525218326404959;
  9379394922280921642; 10798117768265718490; 14612217665503349193; 0;
  11204629427061620350; 1198654502294692514; 2041699512795878741; 8772890737445879743;
  6129830541496946961; 12021768510116189653; 15464398429027474588; 15334535284144197583;
  3895174028351507982; 2452861166593509898; 14501016368456154429; 599457019381502289;
  10699935972074290557; 16542825675450913683; 8582691397040872219; 2449574737255333630;
  17565286090430465220; 5064019122560517959; 3245204404321913097; 11855238057972369030;
  2813439399179324171; 9912154522795806607; 15248515892230659485; 16098811076681230954;
  1947587014175753991; 7474182838328146361; 5382058321676775600; 14022155867027839128;
  8653878135036581912; 18028628030855328306; 12137675139933892977; 8812245569242221387;
  8426001087871053807; 15509207009712683835; 12497672847694327920; 1918649883321606304;
  6045083466842236132; 6719435093730738240; 2666037764786225151; 16772344753104339907;
  4010774126705682857; 6477974440410867430; 9617691049249831032; 4249598340268030457;
  11352215791301200779; 4847573635910944326; 13438869001731735680; 7358583017536232990;
  15580446524266526776; 4819233667041976801; 7113622215141800120; 3650213503519336616;
  5179231357521879264; 4326939067518290956; 12619936949882069795; 12931689583997187702;
  7574465571412253981; 12764667950671340837; 12980568028148147236; 1226430583296754949;
  1365113079366676977; 14658750014736920174; 18344520690086614164; 9811195077234534440;
  14455046805967248026; 12575268692225066116; 8063716344082196712; 1559215160042103715;
  7948645259467116367; 13148152662832805751; 13318224711963628499; 12359386155428251013;
  5612122262236816098; 527672061159887442; 2158001674561516274; 12718838436332733058;
  959472319327981648; 10338847480329108090; 10605807672269483823; 13363454588671063156;
  167656795640255315; 5022623598397273011; 17897638463018721633; 3003639016072851375;
  15941007199227361593; 16228076662293804341; 9358127074396593886; 16054530665237171661;
  7142700497952841503; 14382734082400229785; 2786613055768407212; 2570712926785547693;
  12065907773898322546; 11253508007577791532; 10294567890834415069; 13245313939969396944;
  11639355555468183431; 8988790832136109758; 4278079731676831326; 335054123934328486;
  8929568591646813420; 1442313068587516932; 17998212248371185350; 1081734766879572739;
  16443976739770610740; 3529567706217708539; 10438102451172924379; 2331161238290651481;
  6104305570966320822; 17132360070197134018; 360578267146879233; 1725110769846579440;
  3412297784944319066; 9146031653336116717; 119154029244098471; 16385809897331451494;
  11898815634521465121; 11421092505897238399; 10991637541367745162; 13485789197178251047;
  18214657683716032455; 16699433981110108352; 10171755752195369257; 12454694633898498007]%N.

(** sbox.go: T2 *)
Definition kup_T2 : list N := [
  10658980035946583013; 15674475266625362330; 11143167585705171656; 13096917609632609627;
  11003551659473803458; 2453842696845009578; 4977185424780117324; 18208953582357380139;
  13454990978250881640; 7671707193165114079; 16120344764148080516; 148632042106651146;
  11496676074371129305; 15901913615148309643; 5887044371988173064; 6481466643701127456;
  5362276337921444479; 1709241838249383755; 3118174095467555719; 14005832501302575853;
  10724301939947115774; 17650454624340341763; 13524798993040391021; 11777455422877967125;
  7077214621427458807; 16461609393719665747; 8191831439871930792; 15343414382253364387;
  14782665937195486686; 8117524257995518125; 1634934630468949582; 16238709897915654466;
  5292481500225816944; 4394819122089442508; 13857218137281315047; 15604667260560005279;
  6690894982634298417; 11217479200122051533; 12466466677265902883; 9609619185298933163;
  6026651536486257410; 11628823381039751455; 8860552423785790095; 14415611473462610127;
  3275786828290796953; 16164398292222926919; 15116011149383029170; 8266129808475452071;
  11986879432349885956; 3205974441224580252; 14154429238778053875; 16378308249409282888;
  8545344309270312627; 8711946804586379397; 13245531956205565777; 13027118408115991646;
  668844189479930157; 4307018638893464535; 1040371277670256182; 4697988722329731416;
  5501909976597941345; 16050545536995876481; 12896492088953320000; 10445052426578858218;
  2681294325272618417; 11908073066206700811; 15561845599972612012; 222939215527346959;
  1263372357906534741; 0; 14075631694095041512; 3345581657530707606;
  10584668421529703136; 17233965944681787252; 5641525954368917099; 1337688378959860314;
  11357068858333437395; 9065485942004743572; 14634025098995813312; 3870208962564797921;
  1189056336853209168; 15413222353958983078; 5711338315531112302; 11422364494313987804;
  5571713593206721892; 12187252382629472567; 6166241211877512476; 14303061229345097465;
  15046203143317672119; 8934868418935094154; 1783513724218775672; 10938211888409319409;
  15264616700131398584; 3940003723085231854; 16601234185031968345; 5222677917976774773;
  6236053641759184403; 9330369500131983807; 10307619737517920137; 8619660270059878326;
  14712857965489867995; 11282766057189448918; 13376167019921652071; 16304005456989446733;
  12396667475749284902; 13306367852764772450; 3415385265683771283; 1560636270321145153;
  11838273864690082830; 8991178725768592529; 15753281693300742805; 4097590290967705816;
  2229356970901380710; 817467315234474791; 371580070906889489; 15492046372820407977;
  1486320283627557956; 7950956809612586699; 7802333632586869953; 9139801902794309275;
  7356428984783365859; 18283265153690369326; 12817668061904613711; 16535920965052654934;
  6928609070947524861; 12615081092558335785; 6830510960405274171; 3712561045369467903;
  9749226332617148321; 14485419479527967178; 17353243385404649495; 6760698599243078964;
  7876640848823020996; 4604229946548633539; 9814495460059547794; 10168012521480228227;
  14372860456497301500; 17864382242432218892; 2155058542034099561; 16797103508974856554;
  17020038395309386875; 17094349966642376062; 9256066733347733690; 2978558168967752077;
  2820892693946116027; 14931289114489638868; 11077854426258053575; 12117453215472592946;
  5817240789739130893; 1114678485450690355; 4009807331238295531; 2611481938206401716;
  2908745747541797000; 3503132628724232432; 10798604741091104251; 15194817507338932925;
  4534426338395569862; 6621073876918688554; 4628185140080689245; 9469994342715458485;
  12966300103742829381; 7597408755842116048; 6305866002921379606; 2303664178681814883;
  520185638835128091; 2080742555340512364; 9954111386290915992; 13585582250480417910;
  2314217853993099424; 16936701929187961696; 14861489887337434833; 10233308157460778636;
  12335884355748211517; 17159663117902212721; 3572945050150187509; 11707647408088457744;
  8340445803624756130; 17986018833461803322; 14564225906203347653; 4237215065100139218;
  1932145697605950066; 18125617253674908464; 966072848802975033; 13927026143346672098;
  18348578304950205985; 18051314461255072309; 17492850550171169309; 8025272770402152398;
  13655381451997035891; 10863900308352177908; 15971721586853928334; 4837595886827815762;
  5956839140964323847; 13175723975775794772; 594528168426604584; 17567153342591005464;
  12545273112128564780; 13734187886859697788; 1857829745272101245; 9888798226843797911;
  3642757471576142586; 2751089085793052350; 12747868894747734090; 16862399136768125541;
  5432088733443378042; 7207805739038172393; 9535316384154944686; 9395682728298578608;
  7746023188314418138; 17724766195673330950; 8786253986462792064; 13803995867289468793;
  74316021053325573; 6900323321567469374; 8471028279761270204; 7151530616576762866;
  2006452871026645879; 2523646270638334895; 4464631509155659209; 7523101573965703381;
  3048370521674230402; 7282112955274323436; 16722791903282129007; 10519355193363108335;
  17790079415652644361; 18422881131729780516; 1411995552380556127; 6411663061452085285;
  17427554991097377042; 5116810215823984454; 743160141813778978; 9214117863583874974;
  14224237210483672566; 12056687412779656961; 16675537011811542876; 7002916252823937528;
  6551261481396754991; 445878431054693918; 5046997854661789251; 4907381808171336777;
  4767783491305882199; 297264084213302292; 11559024213882871834; 15823080886093208464;
  4167402712393660893; 9674914752560006820; 6096437595268731929; 12266076340958702136;
  10093709720336239750; 3800396575498581220; 2384030275419054501; 10028423000707795869;
  17911707227769075775; 891756862109387836; 8396721063525119161; 7430744945572931558]%N.

(** sbox.go: T3 *)
Definition kup_T3 : list N := [
  7452619269426697576; 2020291105891648397; 2199529098727572938; 5959386185285329997;
  13778557251339133555; 7108910233288407627; 5384606569097751374; 5619602452801815082;
  17204338230436340692; 12317806042683672402; 3302531162058440230; 17405637364154582451;
  11161522197193038164; 17313062339466913310; 14435812946919128345; 17888963457548509983;
  994431886197697058; 1732206953872166659; 759365633749435206; 17694277847566108989;
  8497944725514197293; 7683681053382967114; 11743035222589112915; 7795078079206110595;
  10982724008940887827; 2601832718556371082; 15102015299776893367; 16628434913365173973;
  3881816542536904997; 17224987615619022969; 18087848033532577525; 9343021780135932861;
  18072265245293290840; 7341656550696522543; 7506976335337437453; 1156314631883590146;
  4275245991284539117; 12897089258498623569; 9539746898271722654; 9828674371010516241;
  14057675006107852274; 17115010059273684542; 10584503975331306581; 14616862935052335966;
  14329342836759179985; 12714895778440957462; 18269050832324185148; 1677924586167395174;
  12050873791382859120; 15191642551239914589; 14632445791876356339; 1334127657750973509;
  4223775143245143360; 3355848128657677260; 1390102139609051112; 15303173717447999124;
  10009741951329768278; 4625258527534360584; 4512131974215684558; 15013952670674874906;
  14815900390481646138; 16057026399760989650; 6592317281758429921; 13184331184678601951;
  13950230724519222197; 15965446359997798456; 6303095152771517294; 8080630051651859982;
  8891374173992343269; 17510829845996897268; 11181547012543298297; 4914470778281829510;
  1967129123237751529; 4809826952910171727; 18360639668180396502; 6645549633156524933;
  417402703579426595; 3933990051470365903; 10208709038014921266; 13578889844500318105;
  10783473226679973169; 11563111134463804436; 1856447879450602670; 2548668640093172206;
  1047722464517869512; 8839973694966625608; 15478875680922646739; 11358237415345025072;
  7052989678938562465; 16450481150009467026; 3646748125290387521; 16249322800990474161;
  13857655630977333272; 7972046680109675460; 9072717710272273452; 12626768278034950257;
  13200406566826846066; 1911145879612705092; 12141259654312575253; 13489628696217988861;
  11939752742978317111; 11070725031267826878; 14042083318864756319; 4169050754803972266;
  12429343806264692123; 3753643750745215624; 10298098782098202584; 3593158467208822187;
  4328407973803693961; 10696035141808871068; 9450483653910607354; 2836491086449409376;
  236065764605060586; 9921170265591281340; 3986023861893396322; 6928827815488666636;
  4456589527294981156; 6481618445785236646; 3015018777779122856; 3698227803748858860;
  2256066474586662503; 2143960263527800864; 10871754697469563099; 14345488656775287164;
  6769148422317967400; 12030285944794746589; 706893113774057132; 16341201783615072859;
  13670831494740108340; 15499533827939670910; 9250517055068721168; 15788755956926583537;
  18376794181109254779; 866250264121674127; 4564174546405683811; 7631146960486931104;
  2890777783615951109; 11852314589252995226; 2492694089380876867; 11470484363892209271;
  1569196074862748961; 10494823947579652543; 2725510775533189927; 5203415843476155657;
  6246619314968062147; 10116767319190395295; 15677916383465067702; 17782497745435077847;
  6194384233652915497; 6824770033806405058; 810836550373564651; 5672980991782741952;
  5332081272294739620; 3178861935568067979; 1445518086740149900; 16739408623152490781;
  10025254439679111419; 12337830926888150271; 5097086470804595393; 17981529651749732530;
  14723888302643474839; 7918676937221772846; 10604520028914597880; 1099765105562086501;
  16361288274527259126; 10314182994867633269; 4040315025825929991; 2312629263767180292;
  8262946677011869769; 9631679855396650803; 8314355986456663012; 9722204261120056025;
  11651103463675881401; 14905237357737326544; 3067464909475436354; 8550206195108412615;
  5149049981607133548; 17602274590012271248; 0; 289229843203001486;
  6881237041190784623; 13474116276453379408; 578157315941795073; 7396143363038508741;
  11449905416307906010; 184586017561855559; 16537989672748434239; 2779944811586510541;
  8028513756078788713; 8785196529697820834; 4861236330939698658; 17798643496596967290;
  5905717362097062311; 9128348117853731270; 17027510367021163923; 8656531169733456655;
  5781555567231902218; 3464413907744333318; 7164814414987024870; 5042573270183544619;
  14146867881724802198; 8209304242102670755; 16161260103303719964; 1280546795762428335;
  8602169637056733034; 10406831686952311314; 6070776614005026436; 15390682171332746553;
  7739593996848553191; 16827480082538842800; 7218048862194413698; 16936067856388787447;
  11763051345026621950; 11270808160960369565; 5491491199200502151; 15768660773101646172;
  8944606525255696257; 13096058509982032181; 13762473107423920606; 14528379209974570676;
  4753932786839391141; 12912610508682308604; 8369842302197217920; 3123448221954700527;
  1621378379889230027; 12807400434653949371; 9180320321569020523; 10892342475472941942;
  13383292722249099450; 16915972603709632346; 14921391939520402557; 16649093128966931832;
  6357447889220478731; 15877946736599497621; 5436007116708202723; 128744628318708653;
  9738279712122517876; 13004125621441839768; 14238871207863375675; 12516773129503567414;
  523861822816971108; 5724953264352248941; 12606189261865913308; 15211728973297883120;
  17495238227338535001; 2436861496230754217; 6536404407147061580; 13290796896522554135;
  16077675716358938239; 18177038813070749585; 12229260745224250040; 471827943539722953;
  9434962335142188631; 15589844992663451419; 6015290298129729504; 3412385573101500513]%N.

(** sbox.go: T4 *)
Definition kup_T4 : list N := [
  15528300089363834921; 10940388375379723042; 16104979329724604354; 1446244844490851888;
  7425504960556198783; 2546444145648235919; 8437966058048023623; 14668920360953469426;
  4272466277775733167; 17881361862583705526; 3869197393402627916; 6470668353370035676;
  8243095947216361400; 1939617611542687955; 16875629750383532174; 3908882622808131912;
  8295253851121151311; 1217075757308244939; 5643982426421665256; 9244495630032751382;
  10107489103911766278; 12969849388861246802; 16772724616008051837; 14225330462119276305;
  824995981887044079; 8834558203317968979; 6179614439981029324; 3803804448118996411;
  9155995542433460063; 12100100498296294242; 9495287057477289234; 10858148161048623573;
  9564229704899509997; 17593685631669558694; 17099805649104380785; 13830591080173555522;
  11469518937870218441; 10603130172084631257; 8926506760400312996; 2605956967406374512;
  4782114852449755128; 11897039892506066833; 9109467120814593448; 8979513422588862811;
  12385524912149776754; 15421573975292891870; 5611052561963783148; 12567364883151701630;
  5465525596645790436; 3549915618824647351; 7204988227900186244; 6573735249635205423;
  15856439615858856390; 6283807236153303871; 2800341745164221059; 6823129284017778211;
  213630663784658163; 6219299669386533320; 14128200868287665638; 14511880775879863553;
  14813884367694551290; 18400488326656074825; 13620810224820403121; 16231182658445484385;
  17450982212211825838; 1649707190247617219; 3291628316132737900; 12863930040373163941;
  10507765729910538794; 7099564056307295347; 106948922564377335; 12438599338773066381;
  8066873394057354388; 10546893545726004270; 15958107993690450737; 11667477852827109994;
  399138730633957132; 8725624696777436759; 1737281165692503072; 15201227809243211557;
  16486191894432722541; 7534447306307594091; 8544647782022898243; 13950873301630802666;
  6036339274477246148; 8386362308004026032; 14621371747785450245; 18073416081028361029;
  13147185725741843038; 4838705918250870031; 5273580363533477399; 2462690606618709880;
  12615649893159451785; 15093988602657876257; 10360532348415919874; 11230316388861624626;
  13298232722362479805; 12530488918890858618; 3661101028661263539; 10746405337588414417;
  6992882315087014519; 1702108357878515764; 17968428639763277121; 17844477041865544610;
  3725922227898844740; 3230703786103863707; 14383495947099986914; 16157591495775411094;
  10423827869625497821; 539571568033561599; 12714554292802470742; 4925381213237419760;
  14766889908386275853; 12293081178172240773; 15635530491232527421; 17354797258411354205;
  13007196401160828589; 12136985250026538870; 10032316494253175545; 11142446692242504645;
  255863565130173956; 3411689436586866591; 13475283259502410425; 356334083242391035;
  8677398629205677216; 7348263393403969420; 3474562331385006144; 16408382923219948946;
  9072033725718305708; 13112561595788119130; 4521860312158305955; 6718699256376287271;
  15386949845339167962; 16590222928714783390; 5784979377963407552; 9930161502759896586;
  10689596965183737126; 1400313259345870287; 14332569616963150101; 9743531955618230505;
  9420963344111845349; 6503598200580414424; 1267796871172557116; 4091480679033143211;
  4659972084827482891; 4592310993684431956; 7710929374409681263; 11287964852843330253;
  7634813707164556700; 14420380698830231542; 14988942542353519574; 4417430284516815015;
  5703951209189500703; 11375280395602706490; 11037459250977420737; 18311741495708868286;
  15244237638412295634; 11569958755926814877; 4742429571304886780; 9309220468912271841;
  969959988628125927; 7383444954193138056; 434320291423125768; 7242267475765028219;
  0; 7855893381150763111; 8642225821391689908; 16665494145151443049;
  11844805419483972966; 868640582846251536; 17534099560870487641; 2689156352575108231;
  17204793107616968053; 4193181154002013016; 16954278683786388089; 2981318590930843287;
  10177843459571168241; 11753764727002283673; 11407652829223046718; 12183590206266654081;
  14082055296615493145; 5522965558706497819; 1986389296887138852; 12004279047349940629;
  5211913934812749024; 5962370000520735795; 2084572830813581787; 8207914334685731260;
  6902728040262833364; 15812581028372458041; 1078893546910119651; 15344494170030876205;
  16342925533645057893; 6392749650892615467; 5378010339435603987; 1117748731287342100;
  13730301213971396021; 723122422245425944; 13985497448829932782; 2261054950658179039;
  2367710312224848779; 2169349657301419304; 13582051366307807558; 15674608484068581066;
  5176741058010845428; 13898249325540024349; 10282830918083755509; 3146101350814745188;
  648513913784956907; 5092603517766855171; 4338699314602838608; 3324558180590620008;
  1830684105002155735; 3085748566832969875; 18279369062088528058; 6649116361181240016;
  11702102000026240110; 1302978483703187256; 17273628214158579586; 13191002320493787305;
  9850762426474839293; 5851184590684119607; 8112016349083525963; 9962533884640872462;
  14943940462772661257; 17411854396396360362; 4981418125177742343; 6949124662770012288;
  15711484396587962574; 17020584969654425990; 7672247085015438232; 2892489688981703776;
  7817765245616263824; 17789117549834479957; 18134405055347446194; 12756690833787828641;
  10977273196097883958; 14850760331955394302; 3982538264293831615; 685689044394544412;
  2423005325473841532; 16551095130146821274; 13437096147036913742; 6105073419978468667;
  13400220234517532234; 9637999264404161562; 17677374726374270801; 18218934241629186637;
  4160251306791634268; 16067598982841443637; 7964826939432756835; 9677127062972123678;
  1543025466272742599; 2131916262205131564; 16843257368502556298; 2857316812179800180]%N.

(** sbox.go: T5 *)
Definition kup_T5 : list N := [
  5773560634990804638; 492787622917943741; 12361232998424316736; 15668747213105980491;
  12434415388646310726; 5407639853561747072; 8740381950739716202; 9017263917403031228;
  11926633426937518924; 12026926829202492828; 1765365796413308622; 4175596283185265035;
  319705901136273110; 15526881617398264903; 7303738084499634290; 15188382013439120170;
  15210136169212947089; 7733829641132419198; 13782517162328885993; 3164540374957214111;
  2776862133682769731; 6084394004976033864; 11464625921580348439; 15281068967066804887;
  7004159299530614436; 9902672706692504277; 9428345429452828084; 131372648930916795;
  17434549015213898500; 13276989208013538031; 2918727729457602383; 9515698701617404937;
  10935919885799232934; 17942330977056908046; 2417698959542978373; 10771863019347049165;
  18249323045202068579; 17795961781453386498; 17188025510138088908; 8183791120957454811;
  6253658706114088739; 3259496788264974370; 1011060324125773836; 3530454533009432961;
  2836106541459814136; 2209417410416299891; 4958871605195554615; 18314254354469442227;
  7632893817921521429; 17480763901479366100; 14607476168999202276; 18445609339272555272;
  4044241296503095344; 10261835880832291539; 13910849884094995077; 13472586724613746052;
  18034277266751458405; 7804760231507173496; 4757992296145227402; 7891061560203680195;
  12775960438098926309; 8088482593006190688; 3623102850149158634; 1426159749648124335;
  5073333681118695516; 914630310303072103; 196303961956380523; 16423488691557878544;
  1499344347349221801; 11082289081469863338; 8545206094944481757; 15911211961077629734;
  964845443765880540; 16597624570192309373; 413601540254230381; 17808726400221203129;
  7086438298722676852; 14730875902579039321; 15023605462930160705; 12727153779853370206;
  17955091180329654965; 3787918042514800471; 10160840452195877891; 11272891789395878599;
  6780112944262557330; 13037987153059839368; 5720725023931091030; 4665343977394889185;
  11546808888888228897; 16301140906009522859; 9003112900624908039; 3838150836078872300;
  1198361501852721023; 9645645215229781426; 4439810777341241181; 5480822243783745158;
  10357126748950719336; 15108498315872519674; 16518438484307376813; 14543246885566397236;
  14223096148282229843; 14270013058234782339; 14904659651805885234; 15715664123595403931;
  9099542917131964524; 2536666840559347758; 8284786552278216459; 9346066424892062564;
  10961349767112244241; 9442514103916303375; 10640849109912865648; 16176965186012323264;
  10430389723736350112; 3339380488515923698; 2514899439910900117; 1850254236276508533;
  16948534456502348449; 3237724972658311577; 13689886510390699394; 14008050369831619669;
  1618996600809778882; 3716985244660938577; 14101946007070537198; 1303798715467051028;
  6605272828019493375; 6678457425720590841; 12553365613051079725; 9250779972268704479;
  15467659282264772092; 4345932797787676390; 4973040282074941068; 0;
  7486529037813077785; 5310485727570721259; 13135123612238713571; 1929440319477092773;
  8594012755069077606; 1257583834570286788; 17530996696922494063; 6276838997206447768;
  3042197002488016932; 3902380115753586748; 12967056562685080974; 12274931667848770299;
  7992056992061312787; 16030162187093011533; 4714172714726447194; 13898107342534124350;
  7365572065770106530; 14411878654009606799; 4549771458565982262; 13052142582917121075;
  3543219149361338426; 9945794673745267717; 17604181294623595625; 843697512449210209;
  1521098501244008466; 639152403093496241; 4033730687477541255; 17247265504835974263;
  5215194861868204112; 11441450047862115756; 5393466761724145467; 17019467254356206247;
  13230432142069017432; 11667765862810240410; 5610764340021995325; 5168620131862997479;
  9707479191131550562; 15932961701893257885; 14401385704749771576; 8298941984551425712;
  8691570875120034257; 9853848386735072110; 8502084130576066317; 15403429999368837932;
  10814984986936683549; 14917406608324954761; 12050085043356333095; 6518993576529948740;
  12168788009952009616; 11359171042764479356; 1142428557561604535; 9194847029588142551;
  11144123056834761594; 2607597430934102056; 16828864543745836490; 6901052256204265257;
  6013463414601279566; 18128155243889112542; 18199085834263870936; 1951190057876793374;
  17141810624409492252; 1703889456168064889; 14657691304877937759; 15609520463014288880;
  16236209596205278331; 13486737739512828991; 11711585441007801162; 5671900701557748205;
  17303198445905855167; 6395524301888921391; 246523510914275024; 13559922337213930553;
  10714031500134859638; 11769403713466313457; 16496671081779872534; 12191950639064048683;
  12492229246146624253; 8932180102771046145; 14824775954776155618; 5894495531974297381;
  11840336511320171255; 4537011257172291981; 4222513199043391323; 7676015781753065925;
  12674318172014892438; 10075736771862574526; 2332828179244171006; 6418700178023065236;
  6736293362306906178; 16743989350367870065; 7172735211924097487; 7245919809625194953;
  4887938807341692721; 14172876597445295592; 2977967722276431604; 749797457836166874;
  12837096804466510901; 2144486097927707043; 9756307926584052441; 6170677671423793651;
  13733706089125131090; 2022120648251547672; 7511941261373636270; 651899357733525514;
  10146667362237332920; 15838029570855635744; 4272750407565678304; 10554565441049195211;
  2729945218361514387; 8372124374773423798; 505530162062886918; 16926762638479774490;
  11201958991542020801; 13372293322885643092; 5955631892973179381; 3424255683772946249;
  16682495348075206086; 6981001083497733919; 10453570012949652507; 17698063687256319442;
  8015219623589279400; 8802215931473317562; 16115050625077171702; 2268644158628951752]%N.

(** sbox.go: T6 *)
Definition kup_T6 : list N := [
  8544335532290493918; 4889178129585073205; 5952240043902139361; 17200853757307492652;
  6528135621426575343; 9809441052477476078; 668016313613059014; 15563591678138987214;
  15184654052605147905; 13072378376192745739; 6620255739039905831; 577025944264379406;
  5088961860985447930; 6331177669437092398; 6436014438661421994; 8744118146999438226;
  3839963542856573419; 6635798187241665125; 12406057458068749009; 3441527391688504948;
  7679927085713088459; 17867173919517246198; 15473167024736288006; 13160541849438514510;
  10764274874013143347; 13250967052597027462; 15668429546874420042; 8634760185693258262;
  1427023013754606681; 15956377369995328845; 6347285249469215842; 11808967375307111581;
  4127911280079186914; 17310777915599587508; 2864501464603998842; 5177125952707029554;
  7880274815072523657; 6240753016034328038; 10281063893094746468; 3352232469370517948;
  5860118809597376420; 13736437495680328000; 17688585243112964475; 560918948347808322;
  12983083436694957763; 12096915198428019354; 7192760645841247245; 15380481740933378371;
  11720237619179287381; 12694570498923555012; 4018553318773006950; 12385993302389518483;
  14228690585884502367; 18264480803455438197; 16624958111065675042; 16912340819536092971;
  2596616749189707327; 17022265012183734945; 4039181541131166762; 1819807571741154266;
  3264067810713318905; 6908203527802125856; 17488236293983406905; 8831718206402217943;
  10674979934515355387; 12584646203192506716; 8923838324015548447; 865538916396567049;
  4904720526247224951; 0; 3153579568566546547; 13271596374466356426;
  8255822560158305241; 11236462880820517047; 2688172250368752119; 5193233498379414654;
  5664857438509885940; 16824741859645395822; 849996983590879307; 15291187351191404171;
  4616207554115035248; 8346812396931040273; 2400224461606535152; 4800448923212997629;
  2976120021951099902; 11432855185582575992; 5284223317972280246; 4595579245857517160;
  7480708468963203594; 17400637419992057724; 6924311331172536392; 7392544377241621954;
  7769786572925751299; 15579700357682279554; 13827992979679440520; 4415859103201144293;
  4996275477670455743; 4504023761858339232; 472754306870412682; 13940742797123333976;
  1714970802516824670; 5376344500737437683; 16049062602258624776; 12673941125510428308;
  9992550955323346787; 15760549630127486735; 13560109312237757133; 6058772242977291883;
  12296133265421107035; 17112689648406566249; 5754151811072058940; 16156726164509790376;
  8655388957807232090; 3173642624734607921; 1442564826301210139; 9211786112777768472;
  5770259305204840556; 11920587083704924439; 12496482644047394073; 16536794088064096615;
  9612483581525313839; 15275643889377817801; 18352644912356360496; 12963019263835858049;
  11340170503075093821; 9705168315572405610; 7304379254727956871; 14714161578723617433;
  2776336823126603186; 272971125225851973; 16713122202787191530; 7592327026310304654;
  12208534855286223646; 18176316728913789629; 1911928204750493599; 1048649884394850692;
  4307631457095297135; 18156252057838487807; 8366876020034784851; 9505385133928828069;
  10947384811218752190; 10659437022457582777; 4215510789726152615; 11829031582525945567;
  11252005878777631477; 2004048872119638103; 6816648593558761960; 11144342213451437951;
  6723962261783379373; 4327694478903616045; 15868213295453680261; 10386466996743952636;
  11540518610394804440; 13848622662330196112; 7968440023485536716; 8057734396047709700;
  17887803791142388922; 8168222586654869404; 2107755394863111645; 3928128115614428590;
  17776749266114547006; 13360326113414310658; 4708327688908238776; 8943901895579681373;
  2019590770565583381; 8078363082262333524; 1336032627226057617; 14608758509438349075;
  9232415108215193824; 10082410992291758251; 2291996660881858128; 184241369097962381;
  10856959608060239222; 11524410669581688496; 14137135634461337239; 12872028877307374409;
  15092533917812471620; 14121592138288016597; 1137944806712837708; 16733752040052595878;
  7501337206717439046; 14698617996650946779; 3750668603358719523; 2576553641482042493;
  16140617536501923520; 14986565819771856604; 17290148129869600484; 11632639294943756048;
  14897271447209748756; 7104031439469171653; 6043229880674874409; 1243911942677108692;
  6148066632719331747; 16336445173294273317; 2308103777057517624; 17002200306748690659;
  9416655377801003885; 14032862931916006173; 7212824303304726095; 2200441176882680216;
  14425648606592478366; 10963492941006230770; 18064131940225222455; 10370358815412668076;
  3552015719734618092; 10188379210587260193; 3063719531598069691; 3639615143482239913;
  12784430553071838988; 17579226130756076785; 17976532980334529394; 14321375869687407898;
  288512972132189703; 7016431465965739904; 14516638426185278294; 10476327050892236596;
  7789850178849626689; 10097954024608615145; 17599290853370990259; 13648273936535219461;
  12117544485937609942; 9900431421826089766; 9793332957049735842; 9120231178534404560;
  18444199846599659256; 15852669747740752071; 5481746470511602297; 9032065970121395605;
  16425174379666283757; 92120684549017544; 2885129652602420278; 16248846299302928224;
  3730605530010788961; 12008750556950689106; 13540045190918269071; 11052222679954185018;
  8456170409776824731; 1731077832793134098; 380068473311234511; 955964102375278017;
  1531859765799064019; 1154051888528758812; 13447924523549189959; 5466203987950100539;
  16445239136640931503; 2487823885354152885; 5572171106734499249; 10568446635929099121;
  760136946622402435; 15002674413420001420; 9520928080346334951; 1624545599358246294;
  14409539961408924370; 3462155665586268196; 14804586214946448721; 9324535792764145448]%N.

(** sbox.go: T7 *)
Definition kup_T7 : list N := [
  7523497821910926781; 10199953373148054542; 14612709412843179023; 5570218597389958697;
  8319171554696447185; 5425564640294202417; 5642565367147132709; 3038384016823473832;
  15336062766037472887; 5931811710837039957; 2749093693743231640; 12948769992774336246;
  6076509648396333389; 2170284353505221240; 1808614275054718820; 2242620128414031228;
  2459715409734856328; 217033713006545164; 5063808799128276741; 4412904477842912244;
  3255426526189896628; 5353231064676559669; 6004145286454682705; 9476617616977931830;
  1374546849044265292; 9982959243098820882; 13238139479615939302; 15408405137747874163;
  2676740326917340052; 8753168611961172729; 17723079562134614515; 13672211301528048846;
  6365879137383323005; 3400098075470122428; 940470626935513908; 144689142004715016;
  17144498913837103507; 5859473737173936729; 11429815477696986434; 1229857707040077636;
  17506087630034887919; 4485240252482763512; 6148852020106475081; 6799937765692245861;
  15119062038113684835; 1591545377678713432; 4340568703202014448; 7378835067109977989;
  8102166428993277405; 6727590995935071849; 17578421205920179179; 4991479621557143049;
  4629802947379584285; 14757411748987428375; 16782787053942907527; 10706462129338174314;
  6221181197677608773; 578756568018860064; 14902078900759580703; 1880941253871027816;
  4195897152848570088; 15191413206453453935; 16276364063963651491; 16131758486646695771;
  13093472327844834542; 4051225603566774496; 7957521266384639909; 1012806401843800632;
  16565742347969921459; 17650737190155777783; 18012493028369683907; 9693616144538383650;
  16855120629828724099; 5714907738857795617; 15480747509995673727; 9621284768213220398;
  2532059980468251020; 14974421272469460763; 3617228545764138696; 11068097022345209950;
  3544883975030216644; 1446856235675053136; 12587047134815284610; 17216823693093548191;
  14468042261072069127; 5208541923210290493; 15263746782070309739; 3472539404296294592;
  11646624889349161150; 10561750997637257586; 4702136522996701721; 12804102841002176766;
  1736269704052361312; 14178725551864440375; 3183090751548998832; 8174500004878830297;
  8246837978810368981; 4919137249847001357; 1519192010584386388; 18301836128005966291;
  3978907420040791516; 13744560270844566978; 6872280137402908769; 12297704036254839186;
  11212781765766538838; 9838274499678019354; 15625414659621401159; 12370048606988498582;
  9910619070679586846; 11285130734277227338; 18084826603718106319; 6944829214824414621;
  16927454205177146511; 13599875526887936970; 7089500764641506197; 868134852026180656;
  2604404552276442256; 12008290568950207906; 12153019292297166746; 17072156541858266775;
  7451177439089076353; 2315026268267012224; 15842415387009366859; 8970204522917226989;
  2893712467541678240; 15987091334875064659; 12442362390858654602; 6582901854467234929;
  3761882503933627600; 9114893664921413605; 1157513136037720128; 17433736462500425187;
  8897857753964838129; 10344638116568336902; 7161834340527584401; 11574280318616029114;
  361714058918763284; 11140437194764443986; 4846808072277447697; 8608549837630036161;
  2387370839000934276; 13816896045485202118; 2821429468383606172; 651101139021217572;
  14106374383525196587; 11502151252606057030; 13165803704975304162; 15553089881705553787;
  2966057038275600292; 14034040807908340783; 16999787781062437771; 13889356063951190567;
  11863623417179626410; 10055303814100915734; 10127617598239507210; 2097948578596934516;
  18157160179603397579; 18446503279240726491; 13961689639568571683; 12876425422040676850;
  10923465055480955494; 3327762300829747896; 17940159452483867335; 7306505889270408841;
  17795421933577107711; 8463878287811368649; 506403200921900316; 289378284009430032;
  5280875498827407929; 3689573116497533388; 16493399975991084727; 15697748235238782275;
  13382841814687484126; 15046728462496303719; 4774474496659804949; 14395752667532521275;
  7812832124380453293; 10417083846402496378; 0; 10272302341659266306;
  8029863638363738273; 5787140161556819293; 72344571002357508; 14251067923574841651;
  15770081811392511055; 5136151170838939649; 4557576027123138044; 14829754120697829651;
  7595831397796479673; 11718947470387661234; 16348715231498114223; 8825524178078759925;
  12080626343590843046; 14323410295822641215; 10634095568639352438; 1085142176752610620;
  723428117837526568; 434067426013090328; 16638084719412414655; 3110728587556868524;
  10851129280571884898; 11791292041121320630; 2025612803687601264; 12659382909455919750;
  7668186963914066869; 1302202278042435144; 9548948993304673066; 4123570174300696548;
  16710427091390730171; 12731758270269044730; 9404273045975836978; 17867764305555423227;
  18374160907262410975; 11357466509185774670; 9765951919447454246; 6655248624224930157;
  9331950465742643262; 3834218278574525396; 16059416114936815711; 13021136553204722666;
  11935959191819738286; 18229493756027129559; 9259605894741075770; 17289166065071863707;
  14685042988460034827; 13527526558645683926; 7740520539800145073; 8536207465650937797;
  13455181987912024530; 6510568278849592181; 9042546894895804137; 8680835036075619837;
  795772688839356716; 10778797904246721646; 16421048807383405483; 12514698165498766478;
  8391535915832791501; 10995752451343642458; 4268241723581964780; 3906571645400416984;
  7234163517291831693; 7885174496359030441; 15914748963164663383; 17361402886614608615;
  6438212713000440441; 12225363863030298782; 5497876225679817005; 1663881152587523420;
  9187236036900511969; 10489428417404063870; 13310497243954352090; 14540375836689450243;
  6293523569388271681; 1953285824872857964; 16204030488077834919; 7017162790709967513]%N.
