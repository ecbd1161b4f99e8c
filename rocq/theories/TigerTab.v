(** TigerTab.v -- the S-boxes of /repo/tiger/sbox.go:3-269 (generated by tools/gotab.py). *)
From Coq Require Import List NArith.
Import ListNotations.
Definition tiger_t1 : list N := [
  192161084409973854; 12412566003039578348; 8272369121297300691; 7854730284916899642; 14815005489349235091; 8463286011307239906; 12782397079979459523; 5082381371487377520;
  16910140313379794150; 14213758138097816412; 5541490850629862524; 766444128913191948; 1204553577021685498; 14325024777722506090; 1401289229890216703; 1893918052108309022;
  5461170853188208586; 2807403890869420487; 9624326389127268278; 5699452412975025298; 15532482038911174219; 10247451172578640253; 7624427211800470465; 13116673706182362478;
  9043806901924967914; 7231827479902542914; 13778939497803891424; 6875646691050945796; 17492696646193712838; 7786398710221814956; 8167597339425066981; 1830707105885056415;
  18253814936157636059; 14445834393465872395; 9656360342964607310; 11887624205054558387; 10399800464770430483; 15811522062611479537; 1783120314242633559; 248005612187258982;
  7688500634458409525; 17647688304275301531; 8591138587399736033; 15633037317611203077; 13643301300320350067; 5042603696143252264; 2053990370701680515; 10011753445593162089;
  3741955435321465241; 4334407786093429776; 13046945900594209529; 1449859124008718907; 18187146081364455764; 16146959651762660871; 9821796187408409551; 10596140432474060285;
  3847074041673952000; 4649400157396704725; 14173244547020241484; 14606001508420839982; 2909491499011162061; 4458122598401901638; 7071481730398905774; 6725294491764459774;
  12245192337599078954; 14074214025701625255; 1226483701329067140; 15924709066658687059; 14770628265263427446; 13470993037325816321; 16615015929427450229; 10714085159597194772;
  479582384021555544; 8040612334407127321; 15648517004018321088; 17112515522038886866; 8751740296797632830; 6603430683508552489; 8942924799792477540; 3573742753214737511;
  16027224499883949314; 6349030933445924429; 15944798094267651441; 12269290567006146658; 10560886376429385824; 5194369709296555225; 7174555471952375656; 7982812746821821468;
  9739074967177125163; 3232013613859041307; 12699367828500449645; 16215284685696605295; 3112410413624570453; 16110141331589860284; 6658792778814911418; 6126246269502162262;
  12375791606097406863; 4721051187472420532; 12913124649239600434; 13593718485625264257; 2663576151211431276; 928112258657309258; 5664920977038299994; 2704699625848084345;
  2312925355491498803; 17917931256736142540; 2964761606854114992; 4148718494125202372; 4082542483235864459; 5171535286737311423; 2166137813939512309; 8844224567096109974;
  12073497029628754377; 10313129584137200909; 7053919794999990929; 5576291611870337032; 17071918333241912043; 17712290504455390414; 17740771901396443681; 11758017946897781732;
  10978122417803504804; 14919163634504077233; 11490461953836997027; 12165654920579776535; 853355433004222246; 16522522127453838137; 2124075034376372323; 5881355904936746717;
  1033318428544969251; 1692585388818821524; 17200759021255085090; 1107424405919510210; 9235073569857586017; 12471487353192899638; 963191604767572015; 4506934758573727688;
  11934771386322515838; 11732209241253279301; 7421261837586505858; 3318186242040429129; 14044682965315173317; 1910808081503; 4771413979138012118; 15088778931977875125;
  11635083951108444120; 3247421105326436348; 17436899165275233567; 8353265116968520410; 12565337778774156881; 10871874290690996106; 6528592316425799439; 15397071475010590000;
  15142762107613549607; 7320455443630736945; 11094769083352733519; 2539802313181221187; 11139220281097600151; 6084456898448652712; 1615327116689102472; 8126548348642832045;
  17352529224806255890; 6320848846662414801; 17282944389244390251; 3439926484095136410; 11228441527149633512; 4583261464596863494; 5278432013075676693; 672210957064462075;
  13025854346008288483; 14498696732057183809; 3753742208681096767; 13261228611926580032; 17986491732842022258; 111470777923844445; 1951374535466601971; 9571400392277455661;
  13953014824866208278; 4830799035278983864; 13222015508416504078; 6842302225500364445; 11335550205397804100; 15716824796288558584; 12864465832706149959; 18320322304522000518;
  14411022707054136303; 16460574793555246339; 3977519900599801820; 9148781857317432677; 6468933130968205401; 8516219711084257782; 1539015908620793624; 7527026033758878374;
  16798794393021101279; 3088835283432281588; 3651919061693825289; 9461488011709396048; 18023579054726214285; 11414687284771824631; 308165109378616703; 8884692927086426203;
  2438838841395254149; 14896570625953598117; 2823241734971430590; 3896218688877146334; 393786506094771122; 15328770503170608105; 10473175056012527227; 10077980508395331620;
  6934559736714979565; 17857395910652154129; 10891890112678993536; 11568068034921390039; 14648678256067979723; 9344782632198616737; 13887300970038794941; 10781369878360680786;
  10110669637513019833; 4236391428300945648; 555138268555536248; 5351590591369890935; 4306521946498657944; 11295261863032656012; 4901816398460471456; 9412954593909222793;
  7485939926152528684; 13340749930154375154; 6245128712556390173; 13728064239465473455; 18121470962401429929; 7772052866533484500; 639373189613950878; 2515940555210603828;
  16388058205984530442; 9187445612742136046; 12674756240461064247; 16320932256496599612; 15242008505997455568; 15052846203706837274; 1313621308117380133; 3526835097255131285;
  13493710469666597351; 8704164972314360376; 17526606163846348700; 5969067443919232116; 5791404459833380522; 16764031247701565831; 6001456072058810555; 10172882867408301456;
  2241175407069758350; 15484192582789326408; 8359644330926224055; 9923258301097833899; 18441560808156168866; 16657473437411103805; 11975088000835799072; 16988008119788939130]%N.

Definition tiger_t2 : list N := [
  16620180768708174136; 13087780087216503960; 6213947727727520144; 5496303794639560149; 15650762814559589428; 642450021946863605; 15520994653159001329; 14194067837486075289;
  16073846824652113554; 15991021072757504790; 8011611286970690052; 5372247966639775667; 11956475335693613649; 18180761396468528926; 16734845874302321705; 15893194850365545698;
  14791316918028724237; 1788379855404599063; 3792259505844355329; 857793142685420274; 2176386753693503798; 16165556464122449145; 18433866172389203220; 6070247714570225101;
  7358743242340641331; 9743228014385134454; 1522910625901990663; 16311896314355823354; 5235630359010597374; 12672095911739354858; 277273466943670671; 3580831169916433691;
  17414337388161447897; 4657750985732713388; 1177149711660596421; 8685721698255572101; 15219111713807365290; 12097333842433196187; 13637243492043779536; 10523434303980543600;
  11720003357325288028; 13858952002212630691; 17788473056595710763; 3834592178494549117; 14592892671379561684; 9581455899396743388; 8774750272303345432; 10018717713484244012;
  15042560872303683366; 6519077675840655372; 1009372798613472243; 13941815458558040098; 7670504156571609794; 9378295951984427608; 7481699948221361317; 2131352009749933493;
  7854556580946198495; 5848046147829288198; 6811751916476253359; 17810787299410161198; 13709208837769715866; 16831935031467898469; 8245611441321613668; 8087057586628171618;
  5058061449640751271; 13294825889344038590; 7212395796113148780; 8872633840395976086; 8602726521519041395; 12561253256920036340; 6042660761688602872; 1642367900117110883;
  25924001596622557; 7531865058110106323; 4223621278438660202; 3926684511422013614; 16382380113756205527; 5939130201053773422; 8312208923375399755; 5278156969609628584;
  12734421984402844485; 3610014133393185213; 9596519943885996947; 10457528947283767525; 7953444341930717599; 13374154748713552676; 14768757517560628423; 5127306049615917691;
  9121210965518562125; 8462056263389103903; 17703039091829532745; 5658738406708581754; 3084862250275496789; 15607266543450182998; 14480359564937826262; 14959210002597418810;
  18322749590590308156; 17101137515031609645; 9446964496815386772; 14254958291267920036; 1116769798908306816; 1871732813531574911; 12807515078363457603; 2050857069623328786;
  942713319182180155; 9890976159808040074; 16508030273321291366; 7028952989422544417; 9018945159409650955; 9348172371089358427; 512456053301416255; 14393200364208532887;
  14115843866838292311; 16933948646436594152; 15343759105510392346; 11057037641413621675; 11808547772908125699; 11334024907024538672; 4569666897377300404; 11295294635916036800;
  4462677101358564049; 3679240545963649394; 14317631520548985665; 776201060342576796; 17243909456190059557; 17604610864827148760; 10001446825249529526; 3458390008116962295;
  10339343346676942200; 6618311662604863029; 4790267690900900096; 1716087693007726108; 4148457837926911568; 13027786587857474755; 8968309666649857421; 15835383998547979361;
  6968029403465067289; 14862556481213186354; 500987773930853904; 10278571274613639408; 2355660670689429871; 3178293543037890097; 12863151040160441096; 12149618985794982607;
  894835714693979080; 13140917299619429091; 18098692892679743463; 352461093517089771; 5441805419015688358; 15397362850185904124; 3501129463520285556; 13466617900358153333;
  10143225092775386885; 11000396338623494503; 2615208954064994172; 17924140821443864558; 2237558221535645089; 14534824473151846839; 13236032612028143522; 7102368496127332321;
  10727377356684633597; 399232473491847935; 7140013836546489399; 10212002790465040192; 16215351210583878990; 11386546581606838557; 5038446221635409553; 6294769326316815049;
  18058941983678306709; 15096697943663711592; 15779936050728011823; 12285020473469085899; 2783168786742146440; 1986639352536355296; 16458016955501249014; 8799325730492140254;
  7305467695957075406; 2551364576700533681; 12365742766643545018; 13556939551025923470; 11121884478320942796; 11560995779659109437; 5760535140236403614; 1501217875009212803;
  17155111980276651522; 10740590121652346377; 6454505253869455699; 4319683495060363885; 12201821765133472647; 11627976249930647428; 2960027307368769952; 8570410701452901115;
  160427886842421800; 13476805212888794763; 13819301442714769089; 15161096039636807203; 10840625911376688560; 6176075057452006273; 7582622308322968760; 6649763778434249567;
  18263287368680645066; 2699628156079216836; 16679512126457685165; 2945653313023238585; 2813841150172635667; 8163160757531991904; 11234321609599741815; 12522125344893058495;
  649720531103423106; 6394120152722619742; 17511778262592440498; 4753049982369101610; 2408845162401379802; 1253140645631747605; 10647695429742646567; 16862477982545442873;
  17990741204064412777; 8367255505928917714; 91400768704631494; 13982368817729209682; 1938401838693046941; 10926450282100227564; 9810146466437985312; 3990523136699180870;
  7731749711829208666; 4875740361372990282; 9173201802070489451; 7834799413446679311; 12013351936531834174; 3325271250982575439; 9716135266257811596; 16057385208373506132;
  9237091451614363741; 4359958813756723849; 4539467735137059035; 12938212395927242823; 1312945880979454078; 17499315598292792898; 4958176066159770025; 1374196081931091686;
  11528309388770592584; 17351559514427848379; 17035274631238963172; 3145683508650593868; 12407221208356893421; 14642276899857517585; 11883033819604736188; 6868326517302426863;
  6758043032196830276; 5827167051130463242; 4074828688890126937; 3293442170241026694; 10380983089625111273; 5618223731912049521; 15432198388343861625; 2520538699101199374]%N.

Definition tiger_t3 : list N := [
  17627031972844598171; 5224129141031473793; 16763249281696835647; 3214246200928423523; 15726560327778417602; 3432136347919366758; 11602366076889764820; 13748905236245012081;
  14966620937599181975; 13189541385867841559; 15286072487566162144; 10303139529070577017; 10864531730823556037; 7399204607179264370; 2410740665327626235; 12915425045000683329;
  17314732200908842661; 10202635360025484021; 10346713243535852126; 17581701249550998855; 17040480865221710045; 17702999974772413585; 11191718324395673746; 5293216666010209768;
  11760393922366610529; 505172698323928814; 9942580208356683160; 12407545700111804674; 2102395425312436973; 16966062287010644749; 6364975572501938982; 11411085932076284862;
  10424236436870678051; 13966310405599776871; 2328871106231838244; 1378680973804076623; 14859971753385412708; 15691716086439804087; 7519553577929664460; 460638964809724379;
  18346923196617292268; 6562793443469826132; 1580997072160885165; 859005579845670993; 15387787899692562424; 15066929237798940388; 14509772897067631359; 9722885996444150946;
  3784640730692549981; 15931797558562408746; 17728532885004413945; 5877026246039211124; 9823170296600362018; 12063115411652128397; 4036482174343220762; 11995118481713087914;
  12472271790989499929; 14327130824154426887; 14241938299045681464; 1637614953354483776; 1768420517056302872; 12383262458672579103; 4469119677486524438; 6862084742702193339;
  2666591392741323510; 1958911907595193257; 2078226524874004819; 9182514826368667184; 12779288295799455805; 11485631769479599801; 7984583406477441100; 5152724216922222472;
  16434817050700023809; 18234510019709827509; 4838452819165657451; 10009107659229344338; 14082648967264690522; 9603180932220791817; 17494196096204240005; 7192165871822020282;
  9489155661644977250; 4293149567017494192; 6266031685674981260; 3297360663327026118; 11022523844556058157; 1848411117523063487; 4803542876947788811; 11932736566254486873;
  3918859449562378630; 7730455268829558643; 2300310138214025757; 5073098731442674389; 16579416859534749813; 13327030148229826424; 2481833961960165662; 3483465760582650171;
  14647584793672228655; 15832567204901745934; 3683901813415452623; 11860503814910655190; 12166547435894244330; 11567973332241571036; 9797215346402413073; 1263269478536931145;
  11026752283992642452; 12676928707863290380; 7280608515770959015; 7790930297845911262; 13387369097968848820; 11741684142390913187; 8900403996915095151; 8816891275549542045;
  17970260734629539600; 17214461913506212373; 3119849171172694992; 7662494604586420558; 149203013753700084; 5530308158539891708; 4143436129840869576; 15035120613856864378;
  17420391663083337065; 10122251552433275289; 6707891355510602429; 5715986277202524800; 18053537085616071129; 4600951196636466039; 13853232418390755104; 9065747437067558111;
  9545093663071697752; 2592076422926394627; 228032410479194937; 6667480117540136779; 588648581915253038; 16109793598716311100; 3634608293302267354; 1202024298738736502;
  6299068367672194603; 1932346445954743183; 7573861666572117031; 18384928506924659011; 3549459440654955014; 8158286332358861718; 10776371282861455089; 17930787456663004470;
  14483524995628130770; 8464707252757847009; 397230465775035974; 13489606539521972333; 675316509725923312; 2628613740627889320; 15914532455247542225; 5345232712238813773;
  13670086066823634667; 3062009004852183467; 16065515842120794365; 74184876899443393; 16563765655732577159; 9131956796466541322; 8604540880985875509; 22099178757704754;
  16690920901523858194; 11331521809212514546; 2945473010562318822; 15182352039751412520; 2789803412788518275; 13422792374992604543; 15567727576646958478; 1017933909609308228;
  16309966615540910654; 8230916861376446652; 14396504241698491859; 8983610917420146076; 8543542228473779244; 1721876046845854392; 16194459883656067231; 5559864569757380000;
  4937681992884682033; 13005489746079912805; 9379902043379058579; 5670390740934713304; 2219071780988037499; 7008521987288882964; 6028345117330418825; 10946567170512804608;
  7071075452076274675; 16842568984047522312; 1445978213955986826; 10467709131392737444; 951333080223670799; 6099155138413436065; 14140843974652577825; 12209974622899604911;
  15533845830470436847; 16381003300289283813; 14619566180652406020; 1340472571717533606; 14798380781942060739; 12690176289563455943; 4461163794677446508; 12598027068668226835;
  3341940384398866564; 13564145691162448073; 3829921822543532494; 899996630714791418; 6478536468284266291; 2994597028103565543; 6124895672834828926; 10070201468809780037;
  14034091836647305274; 10722043131897179970; 728866099714851926; 339635816873858970; 17293171257415384160; 17854528813163386564; 11296654129530459363; 8700134485486622004;
  12894110748725224554; 17148226315594415145; 8749621007278605595; 12313167596287644540; 4199955888901663150; 13105311278491538903; 18206853885491773239; 8106773277103211697;
  16217424015630281360; 5930619164422717276; 4368075505682949467; 4623369983466747106; 8403817438537116875; 13118988004869881546; 1151085119119418028; 6933250016240323664;
  6814675599201764477; 15451253908724655102; 5778917359701360712; 11112271228158943598; 9234396265040989002; 10660000026621187831; 4025584697920591189; 5446500518121291045;
  10580078819325063104; 18093856480622414774; 8290028954029701554; 9359194341002304104; 7234639242841923679; 2860911103167493259; 14729974056387769779; 7444204691177324181;
  8012224255291120002; 6549509778060988165; 13790479014885986647; 16914047268224035561; 4993489137437819341; 4727924503904151836; 15266142735205863280; 7858325008468642462]%N.

Definition tiger_t4 : list N := [
  6561287832113134677; 1893413629145602549; 12241423297023873018; 7334764389497132503; 421942495471316930; 9361514122259283269; 5948965432456907277; 11573866571256030207;
  4831763938021002582; 14173855499281032303; 5678704711006605406; 4536654317168965104; 802439540090739142; 1728614842704535657; 7852250862810361152; 15476660523196402343;
  6999787169451700297; 327545298748531618; 15682530895364148274; 9213801181845131435; 12496725194737746507; 16259867463176200084; 15345880568547961059; 18251822138640095379;
  2629011484744925146; 679658461659738748; 15377935326821115525; 2845612796809381245; 10724645847535636471; 7273530125705028225; 4410076014410041819; 16142531744609233649;
  18400807702465453034; 12734021026892126223; 8922873767131958175; 15064444873285696908; 15209927617758412081; 14409996395411159111; 5226125132195873799; 2940247444995640068;
  14028725908667580799; 6671397049608501367; 8821388386505911040; 14866556336909964964; 16999697712800573186; 2147098610462912262; 16490478192134913802; 15589826239460328034;
  5141735866072457044; 3265027362719053310; 11995823427747035680; 6017965846669640613; 4287051124723328232; 8655371236021312991; 17289896101590403443; 2365060307249772354;
  1630631832073154105; 1828719980936758421; 2674037562503248056; 11151127292458434926; 17083602979237295729; 204405347605452144; 5797523068258732423; 8122903338174012641;
  8739821670855295734; 961841682317282412; 3487881148722869326; 10451359914320687899; 7665614591556333409; 10615335048481936743; 17623836910915152341; 16755608983150617741;
  3797048810173566205; 15867839772959253853; 15036032900410842080; 577633178325057199; 11067531136919120693; 9410969925345319376; 2754939666238358593; 8444132705799138470;
  10552522441266611941; 3065464070595795438; 11836294715923403837; 3184382822055416328; 5740274767717360273; 6179930651821454089; 13620591815564702195; 5115645765347262247;
  4602739923119569497; 14980942922478280335; 12087144524938010904; 16520591415739429341; 9977754778323748670; 11946163567554916583; 4125629484990072616; 11612073089940694572;
  13601564719816443589; 4230689665262407186; 16597059646647655223; 9047540561879224854; 1112218670439199625; 8426162753992594376; 12455974392228691485; 15942953649737145623;
  4028912247909671416; 18037587660758276778; 10068912122063836921; 17294173404640996964; 12119325820894234776; 14721184867647846348; 1964465731879646024; 16004983352460288019;
  6946242362685775318; 15147764321093464775; 11210460518370038227; 17027551023089054838; 18353008346233291053; 12541344992679135386; 2507248404937789251; 7581261321693772141;
  9610178040610218018; 520172056875071564; 3738403388662150470; 16089237235933099576; 13444004222476132682; 930169001927683533; 6889748805645999668; 17415394646893863865;
  7941113837267854943; 17203533056638157852; 16292115423603831981; 6332043450707792835; 3386824618901547762; 7130458179308482168; 1271522336860346025; 17449709749372114003;
  4823850509807911142; 3107332511049695348; 5437793788182680416; 10131116070914134461; 1494290439970088554; 9837305513065677719; 10238790748255110929; 13014122770789771601;
  1159256241058966379; 1026141471931805870; 10231135287654865684; 17837053010959982172; 7511556330643118785; 14530951735809871833; 3932170512244996561; 6834333685245251200;
  4355290964656419152; 6487547078612259600; 6267880520331323438; 16901268206404951963; 8190919284549556346; 3366895789332200348; 2444540809879438627; 6459524513146455969;
  4077716903750958194; 12277814504276850140; 11473260408293916814; 13249302657669755564; 7734160491610189202; 7910254887717195099; 3836881802794822270; 8311228008842563790;
  730509642500215940; 17796343913904606621; 13322520308326068757; 3579688877020158541; 8591780283260295173; 5028082178778891827; 17947929312755564086; 15737034618683411560;
  5487541034902828271; 8530400576707172340; 10842208886204497163; 17577087322588800898; 4656569414526204412; 491061932033469878; 8035458231926703496; 137019260109594401;
  7421708309958176805; 8223709417363553275; 5401705824239018731; 11284135823146617054; 5308870500428712900; 12937794336414209978; 1376856236535589493; 12790835156597546584;
  11346069089450335244; 1332977380922036690; 3015788518022419172; 11727889587379563708; 6396540069380292132; 2034188120276215631; 16791609835598348582; 17937002894199062475;
  3623665942510192329; 9281808803060841315; 1765784450088366494; 5837777785993897047; 1564973338399864744; 15841348874649115855; 4964475598524693274; 13134700095219650201;
  6706291041494563888; 17656797450059587882; 10355440293737830067; 7456716478970921562; 18111480716034354357; 9931395181607471617; 11397947510903519547; 18213715995450361897;
  284725780453796946; 14614670887385324978; 13525508979215740547; 13357650568845892272; 12839204429038201151; 9535062457613112024; 13702844559136150558; 10782422547259353446;
  13847462387142919467; 2560491659082246267; 8971180328015050686; 2265540171276805379; 6093561527083620308; 12169565841013306; 9128413284208255679; 14268022017174275008;
  9486595659187961990; 14229791298934897290; 13071773666531600249; 11777955427119840489; 15499833483678125794; 9771890684304357024; 10910763655887102767; 12331386150595254155;
  10380906726741623612; 10959706799060127120; 16385370526716955323; 12663551718386818228; 7153300451507295513; 9667256041923175882; 2187906506867626476; 5612681432830855607;
  13793523891730566065; 4688837593722596333; 14631077022245992099; 16667000290047189060; 14796252507804280846; 13917690577461137509; 14425632076328529814; 14096329984509715743]%N.

