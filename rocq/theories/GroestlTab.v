(** GroestlTab.v -- groestl/sbox.go:3-532, the table T, extracted by tools/gotab.py. *)
From Coq Require Import List NArith.
Import ListNotations.
Definition gro_T : list (list N) := [
 [14314014067679048390; 17907697054329040888; 17192992613770223342; 17766128288088750838; 18378597541535541503; 15473726053420894934; 16046791427715765982; 10472058789463616913; 6940259164160561248; 144964032577996546; 14891583041869721294; 6232327157277249878; 16652575478261730535; 13070134028016161717; 5613343524669979725; 17049154524116507116; 10323664108604309647; 2278045966340498207; 9889915503030323593; 18052661043956705530; 17227892824305815791; 12892538163408835762; 10288762798540377742; 18089813037260072699; 4750314849306635841; 12927439421932378803; 6916893634425799519; 5037991028614062149; 2575855417214826787; 6050487156059820371; 16471585378124514788; 11194591796232287899; 8485602336333178997; 16221078706995906017; 4444625026341786685; 5506381438015959628; 7807791422239572588; 9097830637817281918; 17654938497351873525; 9461814126953190019; 7520115157031488616; 5905523166432155217; 15074877658382503377; 17944849004682076665; 16326639015043157218; 12354303507092029099; 7085223196738557794; 3044244512336603946; 579856130311986184; 10759717393765131157; 5072615240255924550; 11339538167903715229; 3470129582080280624; 4008607157484834615; 724820128529718026; 3437758089523424047; 1011370493763851534; 2609352586403937828; 1989243818338594075; 16086195169426643167; 14782645119801272269; 5650219536259741006; 9209296418857825151; 16906459926622785770; 1304676293201968914; 2134207842326520861; 6373913558653912152; 3760057578515744308; 3903895711119786294; 15902953338062049756; 13037484595210722740; 6628091486423895387; 11886779534378378660; 8524730079150317942; 13213972126259942583; 9065458294843847805; 5943525060815740754; 15942357036822601693; 6805427853385256286; 1411639487974519059; 12030617658392355494; 13360044535346364857; 0; 13919669272536462785; 4638849042495889472; 16366042705213637347; 8775530246867991161; 13181322719224699574; 15329887929406918100; 10179825976000268173; 7483239239932450663; 8235927982688808818; 10727067960959692180; 11012474713772916632; 12747574139420906416; 9604508801757502341; 13505008567924360891; 14207327945558506437; 5757181648683957071; 17084054691701774317; 9711193824349704838; 11157438703400581274; 7374025361920596326; 1266675498346853905; 10002230111392940170; 16794144218731829737; 289928065155993092; 18339193799824664318; 11596869147309091744; 8666316343085937784; 2718567606894587941; 5468379569402574155; 11741833171297021090; 6773055510411822173; 9277445313266441088; 399143085646643205; 4588463150355764031; 2430891427587161633; 8090963950110812272; 17367279893050359281; 7196688960598972771; 8629440425986895735; 12643088080088019119; 4783813075073886018; 2319424521247944736; 16508737380017949669; 18234759408931500029; 13793793072199829695; 9316850128735458689; 1735064791040140312; 2753190719007979814; 14064633270754194115; 13754388230960613054; 3864769067831117877; 9857266121765275528; 3330794877570737454; 10617022787681348243; 6193199414460110933; 18195355710170948092; 8811280341303669626; 14460086365094619080; 13467855475092654266; 3615093614658277170; 16615423502138491622; 13880265556595784640; 1844279794350664217; 11443971459268540062; 11781237960995840675; 4928777107651882564; 6088489024673207892; 4299661002353859899; 829531626435155211; 10144924708886661516; 14351166043802287303; 7769789553626187115; 2899280514118872104; 12067770734043933863; 13610550141306896828; 1593478389663478038; 12499249947483977645; 15797410665151174363; 7230187229316554340; 8380891946546275956; 1449640257059436052; 10582121529157805202; 867532395520070156; 5218705172807875656; 13322891485464989624; 11483376300507756703; 13649954939595788221; 4895278838934300995; 14170175943665071556; 4154696978365930041; 3577092819803162161; 15219841656600234707; 17477343732272887026; 15362536262684017621; 10034879535608319627; 7951629520483353966; 15760258671847807194; 111466906339216897; 12782475423714647473; 11300133369614823836; 5323415545414644297; 15615294682220142552; 12464348680370370988; 17512243891268090611; 14926483252405313743; 14605050354722283722; 17622290164074774004; 5181829118267778887; 1159712260623972368; 8058591632907570031; 17332379708284957680; 5363669171025607498; 6661589755141474908; 4045481975055406136; 6337037504113827671; 8342890077932888435; 10903555492008912023; 14637698679409323723; 11636273962778109345; 16761495936995121128; 4476996269786750270; 10870906084973669014; 7051724970971307617; 974495581702560781; 1118333705716538127; 16181674991055227872; 8953992539573500540; 8197926088305223281; 14747744952216005068; 10437157505169875856; 433766197760035078; 17798776595595654391; 2022740987527703068; 14025229580583713986; 7665079155249220458; 12608186770024087214; 7624825529638257257; 1698189836028526359; 11049627763654291865; 4190445973273137978; 2862405696548304679; 15652446632573178329; 16939108251309825771; 3148956010242041131; 2464388553825941282; 15184941497605031122; 12209339474514033065; 542981175300359943; 3722056809430827315; 3293919965509446701; 4333158171542968892; 1554351746374809621; 14492734646831327689; 9748346900001283207; 12321654082876649642; 5798561028237744208; 11923932635800152997; 256430895966882051; 6483127462435965529; 684567602447225353; 1880028789257872154; 7339401150278733925; 15506374360927798487; 9567355700335728004; 15039977473617101776; 9422409337254370434; 3003991986254111273; 6518877556871643994; 2166579085771484446; 8920494270855921019; 12176690093248985000; 7914753508893592685; 3186956779326956076]%N;
 [11932274731345168070; 9577915628265666808; 11081019582303891182; 10229799618170517238; 1001231837162962943; 13670637901905057494; 12801421131715632862; 6069159414800945553; 5818914948986724448; 217304192548012546; 12215979534481018574; 9055761923954529878; 1861441408096593895; 7093633830708557237; 16616648639879335245; 11151956778371640556; 4973609262237388687; 11330701098171440927; 4614430677554268553; 9795208825528711930; 1568729405706006511; 16969324712361767602; 14485617959580372622; 859375037481155579; 17042236631377920321; 7457302820679234483; 18284083410597273439; 16900362239240848709; 13782944227161350947; 17844953833421230931; 10868207994098017508; 6570168410485201819; 14045141477276284277; 2078732406302826977; 12572618247214742845; 7681098530159742028; 6546244132699008108; 4754889993820667518; 211957263239476725; 5700942844065383299; 6688096534267717736; 17627660636158054737; 3799169140624576977; 642070844933274105; 10655427192689582818; 8308461211226123179; 6036219141534736994; 4563344062369442346; 869216770192050184; 5922785821150385557; 7317416345848071750; 6782951410951495069; 2909457474493362224; 11632508262092322615; 1086512166512298506; 13069099453647630127; 656429371612270094; 3911475465864225828; 11184327504522189595; 4442034935990640607; 2774615558667619789; 7610163533148671566; 14843385866490183551; 11515627967398079210; 1955737732932112914; 11401629498012343581; 8408392528960968792; 3344048267133858868; 3273122066349504054; 12872358327783382236; 17182123106225730740; 18137709816948022107; 17749532712498472100; 5615099564754302582; 7022698833697355703; 14914314266331086205; 8909401524646400594; 4512961136775126493; 8195587537927757406; 10891571520995398419; 17678604312657438374; 7523747412402354617; 0; 3213727543391011265; 6953734161536401472; 2296027802622944227; 14479710279349991801; 17111194706384697014; 13741566301746091220; 5044535463021874573; 15694605830623553383; 5468739165446173298; 16011275096667559060; 15288427522014812312; 16752022718870958256; 5337291446550234501; 7741051604950236091; 3067371542195979717; 16545720240038432591; 1639655606490492397; 14201913156444522118; 15505720719277857434; 6182597133298394726; 10674278323732222225; 14920226344674560650; 1209550821022886377; 434608385096025092; 9360618032887955198; 17319449917599228064; 4967694984853878904; 13423776637761103141; 16399364238842612555; 17536751911090037410; 18355011810438176093; 13842758761386311808; 9946909556992902405; 12501689847373840191; 13565651029898174753; 5251434972898160752; 358330856890036721; 16124710616091419491; 13974204281208665975; 8450335603361361839; 7171038354084414018; 3476867080768200736; 1932376405107795429; 1072158037947448829; 7882908404632043455; 5483647447745266049; 1454728737246681112; 3840549265079871014; 3431022939711128515; 16242013121102134974; 11703445458159940917; 14702933147411515528; 4133261267469413934; 6286454811121062803; 17485803836476511573; 9431555228955704572; 5184990381174127226; 12433294722312161480; 16676603913742891706; 3126761667041374770; 10797279594256983782; 11573120336286957760; 10967025511031249177; 15071129926637100702; 9177634000278299555; 7388342546632426564; 9126688124738884692; 12355316253724588859; 9445911556594666251; 14556555155648121996; 2996436545184778183; 15264509841381878635; 4346048666049194024; 8743047605751949223; 16312950317169884348; 2102098132240242198; 8521261804145847725; 4300178136308833243; 6253523334082749540; 5686025765538657396; 2173024333024597012; 15798476702803595922; 727364368623340556; 7822950931728451656; 16459310716479846584; 6712025210167009183; 7953834605416529341; 17259529828641096515; 12003203131186201796; 12138014260233648441; 11845302257841484081; 4016464536944694227; 10087929624147587826; 3652795546974016981; 4831734870102150027; 6475309135687937646; 13236011924356389594; 10088783949129974017; 7240007424359117233; 15142067122704850076; 16182062245351672137; 13018718727093344472; 18033281496772095148; 575626253210153971; 2703689357883133903; 12650587919575206602; 10300728018011550964; 16829425043173230407; 1738433540384100368; 15410865842577698671; 9870627630656778480; 8040246328048699978; 8266522534938827868; 2625717486449080376; 17414866640408893271; 14404291474221003635; 5851850824139184023; 2561814965747895243; 8960338603958182305; 11298334770135034088; 2412912495415868990; 15940346696826525334; 15907417418828243297; 9663195957631388941; 9592267557790486287; 10438125199198773472; 4825824990831737980; 14186998276957827441; 12286916730548767948; 15581174709312786576; 363682184311670278; 141022266228275191; 1312858743224540188; 11790422329777767106; 6905391930587966058; 17962344300704345774; 15047207847890938217; 10461484327983060759; 6352864217937320345; 2843012882769328698; 13352839441693484839; 4082873943760951769; 1426855013570767851; 12922743452451810091; 3694171273316213282; 13528767907882128082; 8091157018678241705; 9875972360925284103; 12062595455104660275; 13140027853488532781; 2483847492426939452; 10532421524050679061; 2344510773200013769; 5266356449539032967; 18396952685798533802; 8692097332098388048; 8813982602763150757; 10306077146393150211; 17920407823457081689; 9228609563103725833; 1672024133566929434; 15765543026691171685; 3581860549962815447; 14272841556285555844; 13311465914391318736; 14060060754877121154; 12705441458960869673; 8625687925281217114; 1241923746213469726; 14697012272840932219; 18179659488535488680; 15481794242418601325; 4204196264480484396]%N;
 [10949559062287009445; 16976183106349889668; 14389169792234745497; 17837787858605635213; 16507677355494342413; 13248672956589463229; 12090108672611376817; 4178307997439725908; 13902701043837329488; 289641071162556931; 9791012370226532009; 12432043318665696893; 15360398629989246745; 8189341437854594402; 11110914855912951270; 14102347911869033626; 418630046812442437; 4520661559489273757; 702632736481446208; 17263009384560786055; 14213102312837082901; 9162269042867876587; 522638836955516617; 17085824784370760459; 9380976237293421036; 9054882501800211303; 13699102464385441789; 9954619997622191594; 5105604074781483967; 11962395149575869431; 15249635432659739798; 3309402376642468699; 16887867883075761602; 15646661949656260892; 8856802461512187310; 11006351907681487978; 15631531337086430298; 18213473626970029633; 17367571241886938370; 2148586257683546959; 15052257991256991836; 11675568871331418612; 13356608166995022132; 16796183713241757960; 16117982493229114003; 5590501597289098099; 14192342114999886419; 6071203322875488831; 1158564284650227724; 3600156170315470162; 10137433092441654885; 2441618274884885854; 6951350521918664744; 7996319228396779425; 1445953521505143311; 6828782792364470197; 2025222469355179529; 5213539280926024758; 3942509732700035995; 11909555117321346877; 9325308217947704614; 11293736746557001321; 18324246711028907981; 14968451934089570975; 2606769640463012379; 4231587845050801566; 12726174863700023412; 7526128995628495918; 7815765668543215149; 11803286792245664946; 8298425650913785070; 13120950637596204027; 5981332267059160310; 17066194901465986637; 8476726276696553313; 18035172996590435790; 11857269243203703419; 11619918444440182078; 13588329380326563441; 2783954244679701399; 6270405981464078069; 7617953909209413992; 0; 11057511864878612780; 9268514277201821792; 15934051186477622047; 17457016771687578056; 8587499365318702829; 12959599242184545470; 128993373931277638; 14875628644656965593; 16491420826003993163; 3709240383374660830; 3127702009367009492; 8873190930349338856; 1287548862353212746; 7907594980338416491; 10483863706369639722; 11399988570351423461; 13923465639955918102; 1681185529015994053; 3414528287577905879; 14771619859077162581; 2497127966435250580; 1101920978810342095; 14497105002506086672; 579282142325113862; 16688230910784372353; 6560601215109996784; 17351319110343489604; 5392421556865803706; 10826340411640597475; 6849679327628534515; 13410028749946969598; 1971380762661912768; 758164418264892810; 9145876175950659501; 4818777796537033148; 16201779754841436232; 17945723069011194116; 14301989282173379551; 17174689763475027905; 5016857836491091829; 9558155348364378723; 4634257138600910896; 15073013791147287834; 16218040682613177614; 7329447551461998445; 1861197020862185804; 3475675260959332372; 5503175953840743989; 11344901101699973935; 7437942417497439969; 7709497347997513122; 815094700599445708; 6650472270725525049; 4465697234261087063; 12253716300275471858; 16401409030418660482; 17638708347198405191; 10083468233870461100; 8012720891273853671; 7240991593081221675; 15538709147064657557; 11239754295932928160; 3653431620147943832; 2839749813801492177; 6737806710131630975; 9847796419526935654; 12142406645750977662; 8567724349161421739; 1629884832283298691; 235816956589804746; 10771248545211598633; 15451519841045539795; 5783814086020573244; 6164154153643255673; 7151120537131728098; 3181543715925005853; 4727221163609927030; 12487702546197764923; 14481983186162443350; 16776558228551267406; 2891907043010286622; 4573083775328752347; 1737837630479666186; 10427078561852049516; 7725894613062957284; 2731254947766050653; 7039810878580833646; 9667802515537871855; 10660485347882091686; 8278646236609329576; 7131349919053459876; 13643997403816383287; 18412557536154808971; 12778456339870766386; 992273807610448707; 15918916175961943641; 12664887146387790519; 184520657936122252; 8767493264978850148; 2552927933435780306; 10537262299088505312; 12378060868176894132; 4834044746268454138; 18233112305832555271; 9614944890828869413; 10370294512081357487; 17548714144200717454; 10241441878021457897; 2317128569300455448; 16025167999756365781; 18123479423636271240; 10714467798706965103; 13300944541451050098; 8100889877420718116; 12540538180674738161; 16596546732376159175; 3887541009157429073; 10188588651626875683; 6450417473310269820; 14681625655878674588; 8963044394047258145; 3998314097779578589; 14015163003928928732; 1914459276555652486; 2203532990994124677; 15828904380710576272; 17926088788094516290; 16309720454131708356; 9504190489860820138; 4284005662810214616; 868918815239833093; 17654956080728897281; 4050444938710359058; 11528832408451465891; 15339647228111907423; 5120866626634166009; 15162441728493447632; 3362097275778570129; 3019761305513466200; 8388279114275633703; 5679243437265070009; 12198061475068762424; 14786746073635089171; 6255134633653644211; 4923898209763467827; 13823442634138636987; 5300860526160095600; 1044986298664159113; 7418176197297910695; 6539709077925998006; 8675659555171744802; 3075275395379303826; 9898947580497873184; 1574933701195171657; 5700148768488991487; 11567628172041146488; 5876769314801296762; 471346936180573071; 12831872525044111864; 1340806719731206528; 3763064497814247959; 14588806764257699290; 13065841178712725297; 1392111814611076294; 13534364521620099256; 2260458875180450499; 5966056521101552048; 13013564100554938999; 4337829777585872401; 17746094884239670219; 5413322490278095100; 15736094285317893590; 6363087431850011706]%N;
 [17628764815332124055; 10918017903827125483; 12725396143894075847; 10127905596783365623; 1661010127064337893; 15906111398054641079; 14461559879017345447; 18182435143125390393; 17316605070122438848; 361137922776367876; 16188716827202726279; 9763108900375526828; 3105561577112672725; 11989327761596834417; 3595615762444576410; 13085971065110043331; 14935571615437505797; 13591226659261881662; 13853283875864264713; 10558568830978394095; 4545609565511554501; 2804377613063351167; 4668333744645392647; 2092799329750944749; 3453187164874075266; 12206911247160141693; 2088856877858291134; 2732037219362925194; 15762557984391282502; 213642055637006246; 11643671208177997523; 17103525103542164269; 6756064819359892202; 2601995117030087897; 16838653154554654330; 13720989162609076888; 17175302372863007448; 14069741929520579068; 432916159054283505; 15082503829411024669; 16455278430203174096; 573091119895803042; 6644037114458617017; 1731661415564511465; 12579589829423174623; 10769115230373638989; 17677742992898806724; 4701548464522805076; 1444551691105471504; 17749519988992332337; 12638701345726424460; 16311723938115575329; 8658302535061219424; 17915874361524855150; 1229220031125655316; 14174451916606518622; 1948118091058514204; 6500482609974621768; 13158311590893427510; 5133337872188784037; 7648918286080222849; 13504531619902286236; 5534163301174332926; 13447671869052985295; 3250241304987310884; 13375332057851207226; 11273808134324909232; 8227639215101587048; 8587651186431503724; 14822134800233312931; 3021398157330542195; 1655941809489836982; 141302249252255315; 15514293379838397932; 11772870210300109173; 5318268699763658490; 10194898171781610404; 4773325909448801953; 10624435506204537276; 11716011837040596774; 357196842072995159; 13288073018107062377; 0; 8371194131363474585; 11556413528843772032; 2386663448460337117; 4884227714308491506; 3237292750151282039; 15690216805233901235; 14575559652697523713; 8131653848015559118; 15946082651244481508; 8781590384726040115; 7481719228443710507; 2587357103155898491; 16017859509360085521; 13649210932293495661; 9091218142742784657; 3811510363855250846; 4185597602771572417; 6108381732774790423; 7122270155594979119; 18398892887005091276; 12075460901299393570; 5390609469804302095; 3463321825938313417; 722275845552735752; 10989232133892899303; 860200360589979739; 14719114557640951024; 15400857103138929226; 4531534323560211350; 1077220870497432415; 1872962276447616698; 6611385251291775003; 9622650338717043210; 17054547755965328766; 16122007048650079298; 15584944728468113632; 865831313187341561; 8853929641893945286; 6395489906733859310; 11490265055760446789; 11917551451620139908; 5778206764421886016; 3322019128409397969; 1300998164324355809; 13217421729606888805; 15297835497980775449; 4329151267530609712; 6860494581304538444; 8155862462793723805; 4098619287260815719; 18276449274150888042; 5750058542653033483; 5420446524455663964; 17967103474555639613; 1004880339897021098; 11349807055108866787; 14503782897661134836; 17270441625210367115; 3667955984346310511; 9019440457837587300; 11859565800998737367; 18131768333849108635; 12941291072396040242; 7552933458509484327; 9331318938709229405; 12278689374396507784; 9403096929045610152; 16621632687596874614; 11422147442914329366; 5028908665861360131; 8874760591446059413; 7985847533814141910; 4916880124502621264; 10050217067361565013; 4459194208476783203; 2818452033581227308; 11130253093020464705; 5565127074875390893; 18038880915675174600; 15154281408508481256; 2458440062251310632; 8564569840458849087; 2164575633765304856; 13000965219949243536; 4027405057195041899; 16671735900855557413; 12857409766866906721; 3093738100615278470; 17412870222511384211; 16404612169099487346; 17844660054149669986; 6428705445888866237; 9694990459695434751; 6211121960325558961; 14214421790050697997; 16958844830156216796; 14030896576102840239; 10343800284228193282; 12422242915729892473; 7913508379725451811; 4314513805062824082; 14390345648951571627; 1583602106184301123; 650499644617590781; 8008930248820204933; 16910992552361635727; 9912011003962625779; 2371462306736892302; 2889103382210943008; 7265823574109181406; 9477969949787982075; 12785633559969427348; 10840893048911327928; 7792472364234056816; 644305427270988206; 5964826535099877350; 17533062437695607093; 7287780423433397133; 9546650607278980185; 13807120941901716683; 7143099736113684860; 8997484977546779959; 9213378706152742082; 10486228881798694426; 10702123483209368862; 12362569319515721947; 14286199472227369720; 6324275599358674146; 16549291748418693763; 8347549330551396411; 1082287816882652428; 216458607757558261; 3896236182117028408; 18348788843756561311; 16239946770223357908; 1223027184968333639; 7768827015316754642; 12146675208674578734; 16742387189355730985; 7577140704254240628; 15040282190512896334; 5203989160688957609; 3824459740124746701; 14894475876311479126; 6139344687198253892; 15473196260966710207; 10407977316187205705; 9262075426091010318; 17485210989890873190; 13958557315195844186; 7359557278820475512; 12507250121300611626; 6926642509246963849; 15801401958063360277; 1945302910127243087; 9833760249005242528; 10266674618658290257; 9984351219969396486; 1438921290992449714; 11205126924416942098; 4113819607550793524; 8492228760641592010; 5994664409028833717; 5892487139954050579; 15256175751059257531; 6828405761199227679; 14677455357814091858; 11058476474345093044; 3679778639410237756; 5101248232805878774; 2304751982975974475; 7049928972698506970; 5636904067162454616]%N;
 [11958238739893164020; 9554228249601829783; 11074455864002332592; 10199662457204373388; 943478833150813463; 13680821685886760924; 12810514286530111432; 6123890065292933628; 5832320261051957488; 217587862202418181; 12240835252958365664; 9045428545345399943; 1813768571333498155; 7108390733004042662; 16587175574043531825; 11147915326742250421; 5030310294124299727; 11366138913646001852; 4665810069017856448; 9768985968874352530; 1531172127256200511; 16944394143254937382; 14501817911809214272; 801050278664858909; 17018942743414342191; 7469530816082050473; 18238526667855085084; 16871997429655439909; 13824635935486068442; 17798878095654495746; 10854033426329555873; 6624081037630320109; 14005394901144103517; 2027963306158643492; 12603838391665982185; 7691851623108876478; 6552317910056622318; 4738839583905676483; 146072275639267590; 5751468923926027729; 6693629326234800356; 17584118177358717447; 3773046520127207772; 583464615485696280; 10641527506870722478; 8328631992928390549; 6049908123254375669; 4558042126717244481; 870351448809672724; 5978075049487380982; 7327331606793129135; 6837167499228619234; 2916160130525978744; 11671306270394117880; 1085678715105383441; 13097852204196650692; 656141320821742619; 3916581519643527258; 11220345853579048630; 4415666046950548807; 2768209423324578154; 7618952911299124411; 14793255498703306316; 11509600767587635130; 1958290759821763629; 11437353173642001081; 8402806888486711452; 3346814663117400178; 3276158955028311159; 12883973749270029261; 17161421254527185705; 18092733607788131862; 17726631734867809025; 5609129391076273367; 7035489822171035043; 14864469758699305545; 8903017583045485709; 4486323954062893378; 8184110753057455251; 10926490341445412514; 17655415275848554244; 7545783072850471352; 0; 3203385078741506420; 6962811590477381792; 2243288373431098657; 14430441924433867331; 17090204795507930924; 13752038144906015705; 5100968201236644298; 15668048836513353328; 5466718428776359133; 16031105571010524025; 15305482889506073447; 16727375828075707171; 5394850032661434846; 7763368736029633981; 3062091254749368702; 16515961314047532596; 1601830034368545082; 14219221398744012628; 15520240608778596194; 6196840277367704831; 10711730423149634215; 14936962815394516810; 1166671902149757232; 435175724404836362; 9338327072730376088; 17297107500229745419; 4957535719334932684; 13462930703431387861; 16374654261421905470; 17514125815408975630; 18309740927851084313; 13860913623125203803; 9981524908192696965; 12532624131669982956; 13609876017190290143; 5249130566573940952; 291887291444820236; 16103211332284696186; 13931937637427441240; 8475546554855671199; 7180399452679799973; 3481405795238690896; 1886669482166505774; 1014136740263158034; 7905797290515588535; 5536143856653572564; 1458080065262989372; 3845925811554438239; 3418710146013961585; 16228869411033933624; 11744763534110780157; 14722205096121994063; 4128504732433603659; 6339215132565388793; 17441694055413230093; 9411786535470293917; 5172862985630643401; 12461222437271145455; 16659528307177910066; 3133747992728396925; 10782816967310301092; 11599930964274355195; 11003325339376562867; 15089581712634619752; 9187662801030569345; 7397987314882218154; 9116084253434488962; 12386831071603029734; 9484181739959162526; 14575277374549132101; 2989190343916361083; 15235120548369651310; 4342714860421533764; 8758142998932968843; 16302328873773851453; 2100701722121677863; 8546204461968015770; 4273237492464594253; 6267495985456793850; 5679785099165362386; 2171357430210766882; 15814078459738275702; 729040032631494686; 7833163039287054516; 16444770587905387319; 6766509592116274663; 7976455197627933106; 17233702661710120490; 12029455198912418801; 12169810557400543971; 11887187656056267511; 3988371587399662937; 10053851804951379846; 3627231504321655126; 4883395732197019077; 6479419198246870251; 13241173182674087874; 10128470221951599247; 7254205748809595308; 15163041175374537581; 16157633747219419707; 13026415463401565127; 18020513635280503573; 507212358717275401; 2697551516212233583; 12675980156543668202; 10270878916223628169; 16798540165938777632; 1740702897619345448; 15376427600995278436; 9836833489772149635; 8048490305582765233; 8257009464867207318; 2624565283286970476; 17368236791696567816; 14362578941385369170; 5905174138654373363; 2550636954284952933; 8972337733758114180; 11294843048315112383; 2405869147857714275; 15959889111991269244; 15888451413988917887; 9696703052580788881; 9625488792584789652; 10424509191691492267; 4811738295715428550; 14147819023089590871; 12314294715698283493; 15597060144559045491; 364520016315747343; 73171364806259971; 1312282641643485238; 11816949279453585406; 6908956592530511073; 17947054172540585744; 15018100034167165547; 10495849037487484584; 6406495374451157480; 2839892549582681193; 13389473439714725584; 4055651829285431624; 1384257565328919861; 12956545151571023566; 3698993657441109077; 13535011033633767382; 8111046329749227920; 9908067644476034688; 12101947574352045810; 13169066464192649921; 2478767859667466342; 10569306301204146861; 2333051291105790304; 5321949121828427227; 18382199076125888282; 8685429720843067528; 8831043909765976462; 10343230140247377546; 17875713093585646099; 9267161225756676763; 1673407331558700089; 15741506100230015605; 3554330593488647507; 14290437857763267409; 13317992718454537171; 14077931938304434014; 12739524637368537803; 8618134154782422169; 1239383929833733171; 14647462438636353094; 18167441356853365535; 15447641860991277665; 4201403444243355726]%N;
 [17596345250573972645; 10912214168407611268; 12708857907035746457; 10122674651272809613; 1722908328384075533; 15855721655905541309; 14417956305117890737; 18189354523388673108; 17334460932536987728; 362260502690399491; 16154076300427387049; 9786698394728433533; 3156152418636737305; 11967108425498863202; 3565810001947275750; 13067736294745159066; 14934094209861668677; 13592742320976870557; 13855756951159947328; 10549958081044779655; 4598439029686746901; 2780043351519340267; 4669826607538979017; 2154686527398812939; 3417740918617419756; 12185249324921104743; 2036576322385222909; 2693228743757538794; 15778681405909162687; 167006281291662071; 11620946083933561238; 17111034925792750939; 6712744393237487042; 2649772312745288732; 16849159441029458350; 13759143702659907178; 17186418340635668058; 14104568688732324673; 501014416233399810; 15083262702008521039; 16468652734830142556; 528699418701072372; 6669217319668505652; 1792988974661834760; 12559662923600866963; 10754221713069544819; 17696721435227387219; 4713907795912835391; 1449042010761597964; 17754198624586298962; 12675739894376345445; 16320936873828672094; 8667230466268493864; 17928609353656367265; 1232589961334886671; 14189486932913734837; 1951481466980145929; 6520689048427190838; 13163207091255948955; 5159119523057846077; 7685337570129046054; 13543817553072929641; 5490872557588335821; 13425488782615886495; 3260344524213595419; 13376848806243121566; 11296250902290144372; 8234326367415071278; 8593209170317834029; 14776834692827303346; 2998751616086256110; 1607041092664301307; 118681993609413110; 15537830439890507597; 11751219325958464353; 5274979042854586830; 10222980193369492859; 4800799670108504638; 10650272453529211761; 11723172279883309719; 334012558389740789; 13259082983927298152; 0; 8409840914605372460; 11592336086092783712; 2432757313365156127; 4844317913159713736; 3214082180866583789; 15640391091125213630; 14575774356912327238; 8077038152445751513; 15974112238531566923; 8785841815173691870; 7493876087129860052; 2563586886765061096; 16022546906820501066; 13620780536664276331; 9132110120037219882; 3781703516681024741; 4240119176737405462; 6112095557685564613; 7131619999767028439; 18417864740820549461; 12084865417292720020; 5386457483119119055; 3520101770985025552; 724521005380798982; 10981745110444120193; 840942368522439664; 14750547137493257284; 15415862368458692026; 4500586191939583715; 1057398833276718835; 1820682807651473918; 6619025367818263488; 9619694325412300170; 17065052955763207341; 16140374543318572988; 15611851735841167432; 936170315035773956; 8798172627652213471; 6354428955481495745; 11470861419034287989; 11954596588783183203; 5796168043046391856; 3372041518177136154; 1364588475434734094; 13189002337649538925; 15300277701388653644; 4333615233134246932; 6879571851329953589; 8192825915225239855; 4073152640037894369; 18286924791412358562; 5748713570481950668; 5432799301558094649; 17972339524008540503; 961612348075412978; 11340623498153532802; 14534095088066545991; 17232963263370358700; 3641365610638553831; 9029490968958893355; 11836276648713888917; 18103275060706671520; 12946187676548248472; 7563407029166368977; 9305179702712697215; 12316857091473582694; 9427815591825670782; 16635517726042285739; 11427051773594345091; 5028704995248391626; 8916221020496821033; 7927860829915344595; 4930359845339546684; 10028574807984278393; 4432031027747306978; 2824062725572536093; 11112541566084946550; 5590897722072583483; 18058981937917786710; 15178947636987744846; 2465179922669773342; 8567133550606776027; 2166807616567123466; 13041378096854381676; 4003621698001385444; 16679256726778013533; 12830682484700197486; 3056047781208009455; 17381014685793644966; 16418498311334585256; 17854011862038017956; 6452202320288373047; 9688635821925566091; 6234061420866131506; 14217454503896925507; 16971092191048690521; 13986169275718550199; 10344206500272181132; 12402264324301237348; 7922285416875781586; 4283566777231883232; 14348425363081381812; 1565472204421010938; 719155315655641351; 8043657423078387493; 16870707176007527087; 9907344086492481934; 2334913306001547497; 2898084021523195928; 7208978154656785621; 9472179357171286920; 12824926047427670383; 10865598603116189298; 7805925867920583716; 603296910319421681; 5918138326453736135; 17538309525045900113; 7327017717113644323; 9522194702092829820; 13787744869978718108; 7159947419159651105; 9001172379954019549; 9159865765061623772; 10492275583602037126; 10708169098335786117; 12343206458846587792; 14319894838319302210; 6279831463863146436; 16512954688136799658; 8350677085852496856; 1083403808283561733; 285125316693000961; 3902962933960291858; 18319731525460950691; 16252200685403431263; 1206593816711598329; 7710841415207644112; 12159462908911069329; 16749337373055772760; 7589473818493872423; 15057546930702700729; 5229200169335605304; 3881799323722003731; 14908369608172293811; 6158428545736791347; 15421682826558297787; 10392524160332566640; 9261378887656308873; 17492318724628607655; 13973593418179985846; 7375273568746628642; 12517778346667060626; 6965320164376666144; 15806657807280102217; 1923224692291738367; 9860719690679093368; 10244463907524677242; 9982513362862770831; 1390021677956600824; 11210032358886644608; 4117163183707535639; 8435353590201742810; 6018172321325732657; 5896764992905236934; 15205226361804018616; 6835481832572542659; 14691350193464593328; 11079798852863433079; 3687636784373314321; 5061337327867414219; 2285480779654569980; 6993084639923036630; 5648125451145072186]%N;
 [3658830161806403060; 8068471982206190743; 6840667228270008752; 8860540406502034828; 16789418371003649303; 781047695717219804; 1647999368269705672; 7895251412693308668; 10403421039176470768; 504968320194511621; 3372860398471522784; 15084339099689516423; 14765024001494030635; 1420240691923411622; 8956900886734562865; 6479814113331878581; 4652094466709997007; 11754148312683158972; 5298917344712605888; 7564633985869055890; 15055514956105454911; 10714823187988146982; 14883990812567324992; 16644172876519115549; 7944703701710531631; 1924078722888591273; 4854704466749619484; 6937027674676521509; 17952231844063395802; 5860119863246386946; 5036401619753866913; 8546595533780507629; 2915365813808382557; 14258925409250057252; 15293447729215811305; 17459413876121430718; 9398005659857738478; 13654489942112551363; 17579226113493041670; 5945740308885098449; 10117451310738726116; 6219842671507665927; 10219179053858698332; 16283319744400459800; 5540239616359961518; 4515891563080283029; 10908389359370982389; 7722030962565005121; 2019873280778046484; 7175805761542836982; 16809200061172901295; 9195679041781391074; 5201710519588235384; 14931464256061219320; 1948380848668610321; 16946816378844001732; 1517165556759464219; 9089429763501209178; 12473593946384538550; 11015768669430431047; 12091546139823318634; 17676151802983836091; 3710825140688047436; 5830730639690342330; 4544714881750604589; 11825640761972072121; 14148155487586907292; 5058725655369363058; 4699002829928869239; 1287146253331575501; 11363906695989947945; 5574150100450999062; 11935846290300204545; 11634616764416347607; 1492863430709961123; 3782317589976960585; 16092015109543394189; 11519606682946780738; 14798369268174123411; 12759563709179926434; 11720238652935435524; 124334322830829752; 0; 13096961588667362420; 16158986246224371872; 14043317789064765217; 4213532830346758211; 11148299058625178924; 996655333081988825; 5155932480226346698; 1686430770642606448; 12642292774270225373; 17119471765609373305; 18417638713160356967; 10642200432021334051; 6594823782527814366; 485187454949485501; 13530437442124786302; 8885408437445649716; 15559352969621804602; 15169960575902205268; 17913800716823222114; 11053634854125000191; 13119286517441205415; 13874054223987658570; 15702337834108063792; 1009936640389023242; 7421649069842923928; 12367061530939486219; 13004276161525335244; 17304278625290664661; 8451932566541230910; 12439684286906299150; 4926196916038532633; 15816783453906255963; 9224785502178478725; 15221955279926898156; 18311954652324674783; 12137324454075713752; 18298671764643513356; 1829415686401351546; 3420334116822368600; 3508215552959018399; 16663954566418883493; 8079493123112185936; 14692401262707481134; 17293256384519998994; 630432949434019255; 6161347929070390484; 2600855259794117692; 8729706938060715359; 12881353968482070385; 9709407721966068024; 14426495953047233277; 14377892220324793423; 7290815670655859019; 7679643792508016633; 6365088149081551373; 7060795954904793757; 12932783729415899081; 2866761806228991215; 9852392637992199986; 5706678839782747005; 4820793982389097892; 4305653039810453755; 12256856002341869747; 17770815800797090152; 2496018385918328705; 17168922886613395114; 15444061925130010242; 15941400913628277734; 10739690394043188126; 14523137697629194821; 13603060180911335803; 390524350277538670; 7793523394674441284; 3217724598347594123; 9348554607027937853; 3537038871896726823; 4012053566475368090; 10870523174945897293; 11413357679565494010; 11994339589856841426; 3896761697337220642; 16470388257607572342; 1300427629897058846; 18178859527002418356; 10356230634329334839; 8691841028265041383; 1134270962950368946; 7584980893449252650; 3874437799171172081; 15724662969585608931; 14281250475473347831; 10003571433673406297; 8427064535865002886; 9499733402708226646; 5659770476831261637; 9614743586720143851; 1790984284295837634; 10232461529212488847; 2139686343073883308; 17409962685858959981; 8235194622498562107; 2294822280632972487; 13379258783878216213; 18083064144458221321; 11587708126306968943; 2362923809891856362; 9076148043866803849; 7441995977690507552; 4039746561556092968; 824000221181957476; 8354441779898189955; 18107367094892982193; 14581631341311718038; 6068662227037856876; 6870056452095537416; 2410397527973218130; 7248428500329386483; 12595384136428233573; 2711626006103620740; 6334568636027477183; 6718876007625072995; 16903864128244604284; 2189138494662630527; 11244658714236520081; 11173166264947606932; 5467616860393148587; 13437752015250145990; 2770120336234497111; 3012007283533392613; 16397765501640759411; 650213814948529423; 17651848852279591171; 3034331113518928438; 4378275795777266686; 10045958878629289953; 13740111898816346384; 173786406234869867; 13769500298029076904; 8185742401661851880; 5997169794928420713; 17809246928304650704; 10509670042827241544; 16063190966226719541; 16513340507939582926; 8584461443306697557; 347571825080187862; 4155038430961627280; 9729753805192464768; 13921527667212068850; 17018308828132914881; 6502138080762667622; 13264531995015090861; 12234531004309577824; 6667446521314363867; 12730175310236679962; 15587046789348882568; 3145101859561044622; 9872738720951209866; 5357412156408330259; 10522952450000519323; 2529362827684681529; 1181462467628620405; 9572356141494776147; 15385568213266974289; 274949069113374931; 15889406209873068894; 16296602563896914123; 14076663055477471129; 3251069040381333811; 4430270774389427014; 13234013306573814815; 895492670470870625; 7074077743793453646]%N;
 [14323317736961602610; 17940235263024600943; 17216867508424388702; 17795567071955618938; 18446477876318246888; 15480769366512753674; 16059468655434516502; 10489257615145892973; 6944639415001084048; 144681453828113671; 14902034618070458414; 6221298115219916753; 16710353345723313100; 13093479731911894547; 5570361864063693180; 17072190452810823001; 10344562760347930432; 2242684032231783587; 9910522865629839433; 18084916716684939880; 17289061431409721296; 12876613215951988372; 10272368833067565262; 18157119435696709094; 4702299529845419886; 12948807143031023898; 6872490549362629699; 4991653641072551264; 2532077726550973177; 6004415020601377361; 16493473571030868293; 11212655950082862454; 8463885386563869992; 16276322247232988357; 4412875052822751700; 5497886449374772978; 7812719341339340418; 9114795249707893693; 17723075142797625075; 9476505030401970514; 7523365229776659596; 5859733566941038422; 15118923394779995277; 18012437981868595425; 16348792186224225868; 12370107578560255294; 7089320868829197719; 3038310529719288171; 578725815312454684; 10778611657720657507; 5063846485937205225; 11357337334923059839; 3472319707500542024; 3978826293794961615; 723407269006348571; 3400135662319813867; 1012756982522256149; 2604266168906046078; 1953325522689439405; 16131680170338502552; 14829551485274450599; 5642563505021893621; 9187288256953011251; 16927517863963507280; 1302133084453023039; 2098006976483998116; 6365966375176150212; 3761682614888329798; 3906359670669670209; 15914791599820950801; 13021294601027070365; 6583132039820285517; 11863878154776347045; 8536095823347177377; 13238156787559015188; 9042611201205225780; 5931939605878902239; 15987003114557162143; 6799997542117512141; 1374608503470531249; 12008555210524132514; 13382842570982864897; 0; 13961489357415937205; 4629806522499637472; 16421003700926882242; 8753248293616108346; 13165971656774855834; 15336092310764968205; 10199885704566590023; 7451163589187563543; 8246737314006162863; 10706426526835833325; 10995771773115721727; 12731931762157429651; 9621177619551280731; 13527524024810978566; 14250843400259141307; 5715038919811478651; 17144384375628380887; 9693651951958709458; 11140453226776060664; 7378679378438651801; 1229927049810192310; 9983019188606683840; 16855021536691630297; 289362907656227342; 18374266361414260838; 11574515316175145899; 8680764082766531764; 2676750384117765616; 5425680410537574005; 11719196769969704620; 6727813493614844228; 9259612057609722843; 361847122867946880; 4557552108570537171; 2387396272890634238; 8102055860178049192; 17433721100222860541; 7161813876007205401; 8608562442177435695; 12659466019450232624; 4774487976327751143; 2314903261249818736; 16565676290076192459; 18301800820536906479; 13816882465432516360; 9331823576708076629; 1736159853750271012; 2748943224687386489; 14106170811109831090; 13744670946233497734; 3834149238181395912; 9838337734946344903; 3327660243235195749; 10633939068839786858; 6149087678436609368; 18229589305800695137; 8825445536460425651; 14468003519949238055; 13455321301504176776; 3617001161328655695; 16638150626778653762; 13889277842612615995; 1808644068894880682; 11429802871505381622; 11791408288967393570; 4919169430155864814; 6076621059438576342; 4268193599028192989; 795873892332969621; 10127691777453999561; 14395520455906261948; 7740513302502141445; 2893629076025394284; 12080757933763824428; 13599993890619932033; 1591491593794037553; 12514788963668892215; 15842321729716964758; 7234002322657311390; 8391418767565836966; 1446814538012697142; 10561745141760751332; 868079926875135506; 5208532337812092156; 13310639847843837839; 11502014390704400248; 13672205409651175951; 4846980983505758825; 14178640681213817141; 4123512145233634266; 3544795126685824966; 15263604848473889162; 17506208631132751476; 15408277437354759811; 10055204319457953102; 7957396396986461061; 15770119010705195544; 72493011640815502; 12804125689337130013; 11285125815891815921; 5280998956743015282; 15625437557044856607; 12442595036556301753; 17578402553916754426; 14974228541055791008; 14612684973609576992; 17650890016207833469; 5136330696686116967; 1157451630624909368; 8029871811776046091; 17361527177338192755; 5353213791505986043; 6655320486470391498; 4051027930089024596; 6293764734050175071; 8319212728728637985; 10923288713367778148; 14684870100165813678; 11646726835273499685; 16782836410303168343; 4485059097030386525; 10851103582583618794; 7017132422346866462; 940555345859088796; 1085232401606874267; 16204110732429667147; 8970118194060773050; 8174531275068299046; 14757357562456892713; 10417063687966192611; 434039963437567753; 17867752198444745716; 2025513965044512298; 14033959296407174716; 7668046683470553483; 12587272092169867454; 7595831848707582722; 1663958216919328959; 11067974496254748785; 4195709383782918483; 2821427439731331319; 15697640275888851089; 16999702990519743966; 3110777153045909221; 2459584715077932407; 15191410925689886212; 12225426124732141625; 506524178481512583; 3689476580346163905; 3255458606572028396; 4340382041383265882; 1519281161305763256; 14540188646337700009; 9765854675198401372; 12297922447708986032; 5787258152050788568; 11936080878116703787; 217174465301154441; 6438450586025726794; 651192438538410898; 1880841307444164899; 7306486533573997840; 15552954493001880452; 9548974896210923989; 15046729471895327491; 9404293511404281564; 2966095699251350498; 6510647828870044099; 2170191020691632941; 8897929747410667069; 12153240994048647095; 7885194756028260620; 3182983187588075106]%N].
