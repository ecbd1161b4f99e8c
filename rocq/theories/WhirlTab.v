(** WhirlTab.v -- whirlpool/sbox.go: the tables C0..C7, rc (3-556), T0..T7, rc0 (560-1626), A0..A7, rc1 (1630-2698), extracted by tools/gotab.py. *)
From Coq Require Import List NArith.
Import ListNotations.
Definition wp_C0 : list N := [
  1736243315775910104; 2532021497559467558; 14323205786664800696; 16782813442224410107; 9765816679524275147; 13310629185344138513; 72343471490662921; 5714823076457127437;
  3906547456148401307; 12008464291771732479; 15191327444544895244; 17723340146390529806; 8753301652875834006; 8029814160345718320; 10489304172601491309; 5931897472728671480;
  6944723661718667335; 13599967885860955445; 11212650923888028471; 10272150609063575946; 11791469062479240146; 868121657887955052; 8897971003671115396; 3834203984925649536;
  2097960673226603253; 16204136041190776243; 15553036005633995553; 14033831900702677404; 3327799684219952195; 5425484375942403625; 18374369814469796189; 6293570848374042325;
  1519212901301299901; 8608561932266827496; 3978890927370104466; 16565844602550409118; 11501989624404321043; 17361631585032994083; 5353149700813853728; 15770004845573286212;
  6365975894395564194; 14540157033879605199; 2966082327036121724; 723434714905580634; 12804295255533780816; 11574456240463044041; 7740475459830994452; 9621147329267177433;
  13672311357082658620; 6727649270040935055; 1157495543850606736; 17651005470993020167; 14684843976859618269; 4485295228068461779; 361717357452790317; 7451066388424609400;
  16493509927152899479; 2821395383521594882; 4702067253759738483; 10055155380039519143; 12080807762993435638; 9042640353392655026; 10778642873117783881; 15625317902593273174;
  18157330603906755440; 17216874270629675469; 8970305677995145403; 7378731713027099761; 15987026463682373499; 1663899844282625711; 5136075304531824197; 11429646152914182426;
  14612509301731068372; 3255456212998249048; 13816980707877675822; 506404300434116159; 12514815813232052140; 6510645244653974704; 9476477979010079727; 3689517041410074294;
  7161727687909885532; 144686942981325842; 12297802992290646419; 8174553880955773662; 14467822358751055302; 1808586787266573009; 5280815025683993147; 15697652577721823071;
  17506318527477184817; 16421157659031952296; 6582979919782524601; 9838142558290709948; 11140307452397365566; 2749051912299891723; 3617173570187846847; 12731951784311553369;
  16855148117621395442; 1085152072358370935; 15408349062652933939; 9259465157262319092; 13744637236655972647; 14829530919842252779; 3761860513703946377; 5208480350555443250;
  18446704489867305812; 8825636328274130061; 10416960701110828388; 6872318620299345565; 2314991083892785213; 7523471433638727695; 1880930258756187338; 12587141692805366199;
  13021290484828370301; 6076566822987606222; 10633973522858589055; 2459678026337240111; 7234062362232866915; 17433966260429979434; 8319223231750006476; 1302182486831932546;
  4629732578631188602; 578747771925303368; 14106166575831227285; 17072187328186533343; 15842339520701836109; 11646799711685271488; 10199824730295568273; 4412951756846758600;
  10923312223374881627; 0; 14974217862822265849; 3110769269479528046; 8536227256869317857; 9404134507519416806; 15480701330504921384; 1953273730246850243;
  13093633956050073460; 12659485164027069374; 7668140784434009117; 5787228122471309546; 4991405954274462295; 17578653202874170168; 3472486627743391917; 17289208946027185092;
  4557638699290164954; 6148901498116680391; 11719125591257012699; 16927500384667552233; 7306397037630376554; 13455298536139155715; 3400143155441655370; 13889144957721615758;
  16059378731533312352; 2025617201736464636; 18302017547424163654; 5570153726198716959; 10561630051367926134; 8463892581472594682; 434060828943977526; 9982811908548856238;
  12876621135105521995; 16638196869597090181; 1012808600868232318; 2242647616206880487; 7089393012512900181; 15336014387523859770; 12153133641495629185; 10850968751884742994;
  18012643661463613282; 14250853518812813219; 2676708441077139984; 6438310569524114091; 9548803857777038800; 8246888556353021125; 4123577870886728428; 5497819051069642774;
  6799983945170271380; 8680966977478848671; 4051234399664500965; 10127481258805429656; 15118975176692383511; 11936138412199466980; 16348822983634966945; 7017058337115652686;
  12948964606327749442; 2387334555115012660; 11284976802656036104; 2170304144716741870; 4846736604017100385; 14395540461793874865; 18229682872026654031; 289373885962651684;
  5859562797599859427; 11067981573629882149; 7885144809550436898; 940465129378093669; 18084995928509770105; 16131713406662386537; 9114975028790426793; 2604364969855436825;
  4268264813330134782; 12370146463512873882; 14901883187693191664; 1229839015341269657; 10344494080553714563; 5642488401328053252; 13238303306844042086; 16999835060064537568;
  4340608285625055425; 9331808628752982013; 10706299401627645248; 17868027088834720540; 13382972656566365976; 1374525958322595467; 3183112741776545873; 15263662119673445125;
  16710531544994599820; 7957479484948208697; 14178518843683739050; 217030414471988763; 6221236173244968156; 4919071279145388126; 9187309704187936416; 12225477112717856648;
  3038425798257300583; 13527642007361383178; 13961479632850165639; 6004232147857221361; 15914691788553299314; 795778186396243539; 11357320274146174721; 7812810134152927275;
  3544830098965619364; 8391557906075085043; 17795692413437210901; 5063740629402750028; 12442472342010348965; 9910486029781372853; 1446869429811161268; 16276470716587761594;
  1591556372792487078; 4195921342107907319; 7595806109035713030; 651091243415966273; 8102219205558788311; 13165959835622338927; 15046640501563833630; 17144522003584042966;
  14757196244713178594; 4774401928888550504; 10995638102139219244; 11863794940977763821; 2893738855813894261; 6655314594911860870; 17940308986066627947; 9693473208034136514]%N.

Definition wp_C1 : list N := [
  15571222512644683824; 2748079282416103238; 13314547325582899601; 18152013968528601037; 14665839311103762707; 1276973743900025453; 648800938026861826; 959072250135473822;
  11184187026879409772; 18421594543311357009; 924032251285388729; 1078038113977829111; 10842831690270736626; 3490130975384391390; 7895251594558369599; 17893454795908974500;
  5143217003496472000; 3872177358564324965; 4006967089757474091; 9984073565550709761; 15178155173990176091; 7785611256322341912; 9546360112239577846; 9238349396170891626;
  17662305698172135738; 12961606739200002013; 2438654650148629683; 11295804325778877849; 4840858018057655900; 2975554653898570390; 6773131127615070689; 15372851791205111470;
  13624819698564088106; 16750989011847198446; 10535951272222518126; 11449810188471326423; 1414023933690960163; 2589834664706512893; 2326753750232498068; 4961517976007120297;
  11698197327481808304; 14972719454264674959; 8946727919793048914; 6488009380268614164; 5814624301376163711; 14528789121312823901; 1471388113023523542; 15674080512985312023;
  4376863108514280295; 10330515827384792250; 10380815008429789216; 573352398386562037; 15982090954166681739; 15221673026487436924; 3244004690134307082; 8676017012631135950;
  10945124472880059349; 155136263792737102; 8304990764571711618; 12072896155037244683; 17773358788654465363; 12861574552631612666; 5302308438491855671; 6257989485318807469;
  8141377604919439595; 14839060192894874049; 13509810341647192568; 8171331297039868876; 8925533388788895399; 12616578565404117806; 4992036782775355022; 1918144500270947361;
  15333290050500609417; 6353784901169682778; 3368621906634832227; 4541606566188030734; 12442792173794042695; 12707568758662246324; 17258782467170284827; 13128894290845892454;
  6657274150270268102; 1297601876053723652; 10640504616514041929; 16028717727517485282; 14323918550598602637; 15067101946064698674; 4272026231931826322; 6906790388984879791;
  3599206164606426617; 12169820945477486811; 13356369662328318646; 13585257923498775053; 4511087656337459241; 803372018449628748; 13777130045502782052; 6462860056033053309;
  17503778179513019087; 8579092565796074270; 3735126159460312759; 17618222731024972317; 2863936156684876897; 16991462454068698759; 9886585150827783272; 3623225328265754000;
  6124895338599490787; 10194595901255159796; 7246450656531507773; 11339887258565230270; 4404556170235060288; 1110252470856570320; 14562981379484709428; 13235708231178333249;
  9058063670697352821; 14867600960965450152; 9192853401890514235; 3396315037072992836; 7161959865857337800; 3094520380297777919; 14732246149486322406; 9372573875269818916;
  8809111365512486272; 5190407504214894608; 10791683724838103195; 16135531702208658373; 5610318879673192619; 13880553366655934303; 10488194200852267783; 14428756900385769850;
  6599910245824000307; 0; 18000833953970705539; 7938486786630977366; 16246303296255931372; 16609981529143423001; 2942775251089402289; 14058860812904724278;
  8409827916040461175; 13740393981128288579; 2119623902039105492; 16884083364728540576; 6288508360808615050; 4103891880197691643; 12479528169451155552; 14190824403879294147;
  15726358776437392254; 14363480360024677546; 15826390928647065689; 16855542459214816713; 7666645581448604874; 268732542020577385; 5345543768007611230; 10286432825876866973;
  6980260975811133857; 18166426264752122936; 5115523838699581159; 2255543828168729754; 8544052463863652409; 18047460589878361322; 3892805628161170956; 12577016721617229833;
  5454618854153601145; 9648652963566279121; 9083213132376061468; 16654064565012161342; 6152588434679003076; 4239246760401085365; 9342902809179796045; 5951109307797140529;
  7132006105019529967; 11801055224740116119; 1163377396954804554; 12346998231147880626; 15025279574958452245; 14227560433895057380; 17021699919009144178; 1606742924502655384;
  10691086354899155900; 11491067479286318576; 16517014169059186800; 10992314767432254981; 1716383159656297151; 16475756981320223575; 11665135229886221785; 5647902719087737026;
  4806383099496711547; 3756320415578170690; 620542692938798629; 17158185131592148540; 7008519186538451590; 12810426724642126995; 5763759627715161061; 2595203752107447304;
  16379962763787765922; 2709365282425325359; 2480759544201856218; 7281490689742354714; 8789613393935021545; 7629061879477208227; 12213338763616033788; 1811613151611696200;
  18319301795060766582; 11145190366463999307; 17352033050304631169; 11029615946456651042; 9479952998970722563; 310271346469399452; 7401586714161009011; 16207306670199234763;
  13924071150435814520; 18267023669051834143; 4653507500464995893; 2087409613877742835; 1781659493849982831; 10021374813296680742; 5849099151219727448; 419911650344614075;
  10153338679157546195; 4138366764399971292; 12305175825680888725; 1946402814080585478; 15876972392145884076; 6792628961749387656; 11565102974600453886; 9847588559129753423;
  7433801036681019988; 773418291970534763; 9782312224936092319; 17389334194968199846; 8276732485122821029; 5983888813688629014; 116422126358811431; 3128995333217436120;
  11831292414794265954; 17542774874287094248; 1582723898286475761; 5496157383716127628; 11938106423844087365; 13081137356918789903; 12976018760537228328; 13466292454791267039;
  11967777627377258028; 17814616045110809204; 462016681840988370; 4686286937634909458; 15524032011926220256; 8049822468817900657; 2220503760597071805; 15487295913193078471;
  16342661550402624389; 7512639787479226244; 3213485849005310509; 17123992735977115221; 8442042169843091536; 9681714923718717880; 7780241894035111917; 14017038373076902929]%N.

Definition wp_C2 : list N := [
  3519589601760559224; 5054766267351893423; 10500361085990108921; 14842713082339791727; 1426382721529629857; 7859265928821254498; 146649566740023301; 11388846233969705582;
  7825908386669964782; 5908624470756972804; 13334264397998251709; 17802436813750926086; 17480292568468680576; 16010419200542597070; 4570469250930703599; 11887341730016700935;
  13855148746702071805; 7292942690637613430; 3114128758825266381; 111057881403360396; 6616530726099841301; 1759794800880279612; 17763458602518708106; 7674192270349153761;
  4248333835833305193; 15975359558707073863; 12907835327516243628; 11068936123450547949; 6648208253122407830; 10820262366055981690; 16239416202001031969; 12598071564908855830;
  3079640901540489281; 17215140931854376886; 7967491403829192171; 15537108539203222358; 2527539322318458073; 18240687833254777623; 10673612799450180223; 12197114322003598997;
  12727832633985792549; 10362723132791916234; 5943670867046782349; 1466495667400232994; 9174027818994098511; 6758109328032426266; 15426072733933076442; 1718551539876191403;
  7439029307424211315; 13443066068505317940; 2346393067840372816; 17656350197098541827; 10078435614061696704; 8994601320962780614; 733247833700116497; 14877755063268745190;
  15391021922550838099; 5621098335988819387; 9399928595104739928; 839793285022821533; 6050207487916200193; 18064639035078201236; 3983879814423895291; 12490409039988559519;
  16965336855182281520; 13965080728198587249; 17923056018053187473; 14731668446616360931; 12068483569133921934; 3363932835765794891; 10251678497068483142; 2385393355205805276;
  9931786047455895237; 6510002935683708313; 7146860489077657977; 1026546967180163099; 5164693833621766435; 13020005867290552879; 2012972158036438197; 7401159335192266239;
  14293408596659224562; 293299133480046602; 5301768835926997304; 16347628431194828712; 10216073566186114767; 3661735568873212029; 10537096332005962352; 12637058606594360986;
  17956400314524549917; 15828151457374489416; 13166655433896354346; 989816136256730258; 2971982791712613576; 5479515318829591998; 7259576318033038842; 9032444801834871114;
  14984296099364805482; 2195239901472978995; 13201130045501204134; 2158491409642976442; 7000773872291060092; 9794148095331477214; 7532609253189926372; 10390446765400160885;
  16380999219026045732; 17621875585493694351; 4423819684190680298; 13735239301810078270; 4628891315967368608; 14992316483603294165; 3803881535985864818; 4735445597743356204;
  8466121563651230046; 12163752364625664537; 4287307631838883045; 4913183250192666026; 14439495213311592425; 18386774449907161874; 16630794465244856226; 2630685002065678426;
  9257782628126308957; 1173196533920186408; 11211082090428978920; 14258375446183555963; 12343763888609400464; 6899692345191653663; 545372666862574723; 8847388804269340105;
  3700718195332074737; 0; 9509860576601257684; 6227962801272079751; 17069054315201992627; 1866322591296414896; 12765689360537812649; 3946027503098517623;
  8607704580810457435; 4881532214529954089; 15284489716908062687; 11595168496711940621; 9968512463018463820; 18102486931176934168; 6966277184553000432; 14106663745223601012;
  9140687937749378499; 12305898331604095516; 6474947708940613904; 14549418364354823013; 14585581829963976684; 7567097110474701160; 6794294869909005715; 11353223642180767463;
  11628539284543159937; 4106187868720652396; 16665286737756273454; 11105680199919686244; 4140658065098859744; 16931974897804349372; 879897400440139806; 697647317910168728;
  8740275983488317760; 15097727204565869401; 2053093934360326198; 4532625770058610787; 14147321980006840311; 13058984078522773155; 5584930455018809650; 3554068628592051444;
  17249624373912509242; 10926794571698759414; 5336806401763521969; 12874482200591594016; 1571901973136168110; 16484707848592471975; 8281056735632414173; 10959030633313884769;
  13588589735204276795; 17338709551443666821; 8134970118845816280; 403226699749921926; 13769705082961643186; 6333369107008012555; 15682064840722105165; 14001235363354456056;
  8881859000647545157; 4770474333126596005; 2668554974297625814; 4390479802945957990; 9683094629154759250; 10642507052968539900; 16523703720731259691; 586598266960093204;
  11737314463690371592; 3397290377917086919; 15718245967237828548; 1901940767992932409; 16823753838157267765; 11775188851148961412; 18206222052103215003; 5195223384604294580;
  8574355869112452567; 5447855452713595197; 9363211009995456209; 2493042634580396117; 253203848516013193; 11242196667363904107; 8315535762463904081; 14691001381379836768;
  8701302187482742220; 2305140976382999743; 3837230247683871998; 17518149295020698380; 8005352545607852391; 2777334568805701727; 6363916318897110428; 13476410364976682680;
  15243813821218253660; 15868836183517583307; 10784648604720328435; 439948700220069903; 12455925597930424851; 9826366496040032841; 18347805069128228766; 5731017071805407543;
  6081876184485481858; 7713183727261299053; 11495369609159198434; 12029487696995131906; 11921834002528120459; 1608641634512885799; 2810700941410278611; 15576662950212814785;
  7107860201712227829; 16785888281151965113; 17372062678368314121; 10109532530090052163; 5018607216835168550; 1131962103369383063; 2932991334800465988; 16121446175359458114;
  3217283269025771598; 8428269252325854674; 15133899500628307920; 1315342501032839213; 16201541814542444461; 8173952745304676692; 13627559115983212215; 14399958463208569726;
  9647498528725675739; 9540948662176328279; 3255144410804434114; 6191786089848785166; 5797584250260184456; 13296416501899516465; 17108041356887495487; 1279733154789606564]%N.

Definition wp_C3 : list N := [
  8660659681433229504; 12629824137369232133; 17983357950936204926; 8056372286187890707; 11606844447612372812; 7092344473251395753; 360860820059717896; 7970823024773517122;
  17180277335662278317; 311310940490606169; 13670972243473060574; 501886333031282171; 9291654429700356591; 14906405071815274335; 17239618370576224764; 550838086898373290;
  18284692966387572775; 8531284153860799625; 14783971343239388076; 10088496985159142916; 1539055297945314161; 4330329840716614752; 10013336487400143871; 16242935972089836981;
  7582642428028657128; 5178492924969082963; 12444327406271715318; 17120887818721149534; 10834608669177949805; 8833293122494614370; 2441335822790688419; 1634478285884839810;
  4695773459736958376; 13181728759167940511; 16964657612209272741; 6257644917493065083; 15646371106708168588; 1728577349720994003; 9193008242814700138; 10784226489471589022;
  2715849075629840634; 14596113382898911494; 10183338223672240469; 2455686695990331984; 5728385975164252641; 1899896309548753001; 15768813596885216127; 12328561672438318428;
  8315682022593838465; 3799506866802351570; 5773773120955486336; 285142900071199987; 13874426944399592214; 14302538780919742189; 1227843347995165992; 16631362859439318815;
  6040901484532982899; 13496727500467480357; 6377786746412286258; 11316322706474306348; 95691217037600593; 10735088913844108751; 18102018134045005276; 11505948112342997134;
  3525035360911096715; 8197059222880382499; 10518363073070070983; 16414619426479236631; 10279320867327696294; 5417459915484305336; 5084077201784129282; 15861988631137918596;
  14234142064719677982; 11050241586770488693; 8746886302374739857; 1949564988114601784; 2542190376615062785; 3437566317701716714; 13050287693357286252; 18403597258324718469;
  17493771384509260607; 721721640119435792; 4055935300639304249; 12169533721931248047; 14955828503218997262; 9021502909306902984; 8111611064794827122; 11146232992022911366;
  2159812415828521667; 5249975487361180491; 3077851197381630946; 10524275198819731508; 14423128115365714596; 13712347223920485933; 18042756229474300557; 5367544946313834729;
  7696637374658504987; 3683512451799453560; 12013127524536276454; 13411144098123513972; 8962488433641701017; 16035044267417390374; 16458555695542842557; 8471326185114912890;
  2658061663564726187; 10373071398929529591; 16878757550516506868; 4521224108874227650; 11547296652771467293; 15406831266342725735; 8229424632573729488; 3189031972035014169;
  6806484626923238601; 1848954508622517402; 16517936330122367980; 12268983108518814221; 16845823689014207495; 1368860030377652699; 11738294275024188351; 6495459576702833296;
  6737519458918416442; 2886886560477743168; 16761155106215019350; 8918780845751790643; 10424511369151503254; 2260737338399170913; 9441675180948491548; 14518136514140192245;
  17380336093591148492; 0; 15313357828918071094; 9752103174812740421; 12964985326207858327; 12689426873297568356; 12227599366474422014; 8590267860447402968;
  6590864903470233025; 2973429840768053009; 16128548508414601847; 982042349433344186; 5515316648691189010; 1800095096485180363; 17321034589354864797; 8413785063654420267;
  14086936649652781029; 2065682548419810706; 1178214269094896249; 7334650663316482563; 17062567121974289679; 7523548753032297145; 10619006537910988645; 16689652752613621838;
  9340853612472950462; 7798259952458407136; 3379748102064045499; 7249140967073729874; 16157075510062650084; 13612968206075000207; 2165164920358307376; 10955479478600632868;
  4645827721487889145; 6472101366268421731; 3899129976229203568; 7151407379169157112; 17853488703852601911; 11796399484738983150; 3624695836486314025; 17595936025834854084;
  4246721799410416027; 17768850924625970534; 12775041044720133429; 2356133955309754866; 12544161604682024020; 12098011594367529655; 15957076160255637973; 7032395335090392154;
  4304478476890889930; 9651389341229742311; 15596217539219175645; 9657292705378241556; 12880039649231491526; 817373257491457345; 5609692806704521795; 17924975647044231471;
  5006668750338307057; 11908137681621885205; 15430749166984928404; 7367024903598907120; 5946547299505226530; 18200085990733498230; 3163022261290007731; 1443443280238871584;
  622309636927214002; 14352731879086397884; 14184687829743398223; 4114712316286864744; 3884770272440482435; 9557599244456288182; 11240045130769858263; 12990660768173139005;
  15525876295768226757; 4416793921675766577; 15096612196934733374; 6134633941015204232; 9872879460729392908; 7754077392790179402; 5869147678644287441; 6974915751787096843;
  14733738645407153405; 13772004918183231868; 18317618066288710868; 933121399138809835; 7453203094287858081; 6856320396762551192; 11265843718037449853; 13311239530966930390;
  6688844799228503915; 14689679231041236567; 17552122884828677230; 1082582460179153688; 1417750246087546506; 5298588608893895706; 11456770971543896031; 3985554457522776353;
  9391244553776278093; 7884407374068759473; 16329920040107491654; 191105374392243106; 10062575235344358574; 2816529923864005464; 15215131642555178396; 13967961988969360455;
  17681875618205282709; 13396224773114918023; 716377966178727651; 4867349161986835978; 2757792507882023945; 10885118426693404988; 4911373391980663968; 4818775605625741659;
  5633059847728010928; 15165017674731764429; 15047096354813340015; 3247729788351416648; 12529251041274589351; 6084767402097293017; 13239772361737621710; 9135506686525828411;
  15818298635434052654; 6306280012011356714; 13991888651212724404; 1032992980944462921; 9822479602635778141; 3582761234819013850; 4606456710939801747; 11822444379856078404]%N.

Definition wp_C4 : list N := [
  13868888757162762264; 409623220726238243; 9149504340774764486; 1400564490963552232; 5521716383006008967; 12205437863008459448; 577870364881781761; 4786937233943765327;
  12533074226903963702; 6414341927736877734; 16050188111746068434; 18088416597008315381; 17258060500180793721; 6903699578414932335; 18225855956817903249; 12251942697724695890;
  2881670749379140960; 9905215711922145980; 12451656062583133851; 327638567499989646; 8148520061043455651; 6934444378581381132; 18413801075325530491; 13105873489505932341;
  16746981513783768093; 6001008793136179168; 17774778787261021143; 6840292307607105474; 7896600440248121390; 7096149266976682315; 11754924296240029694; 9373871905734869335;
  12124018663448990741; 11508648579996041591; 11955771210055801911; 8887527992124093413; 10149181802445489823; 15210904597275142128; 7674015156468856138; 11427225742717112282;
  18025007294933663064; 489361632129516489; 6164674158160094249; 5774200049190447114; 16235335166249270961; 7573468843941608096; 9212911370929680747; 6677457095522332293;
  9327912763793460925; 15146936571663313245; 9245925838108508176; 17511109190669891572; 1639464049085975499; 17133519079101888574; 2887100024595223557; 2298751676345450855;
  8310220585785669604; 2718852571202034727; 3627792931374569793; 3214738523240994443; 5837038910888715943; 14957855906920786301; 15923381696680259221; 10277123463199606744;
  10029775240650542075; 2554035553916854254; 14380548569301839228; 1721444270007027046; 12001714207434036189; 13279759255773600791; 163974864645325127; 9573563306096870046;
  2217329938578149322; 8473903508635890733; 10482518660118202047; 4042840754358787079; 81988025196580525; 16874904998303659354; 7833197842398393987; 9655549058834746419;
  4607963468860199267; 1155740729763563522; 4123126357430014634; 12657616197738682737; 1067227521621690312; 14446759053325067289; 8246251701045639497; 9699257573707432921;
  14059667604645277682; 5424827269592099811; 16297039108811485531; 3788105339967642248; 11873785766420828826; 3296155588050196518; 10230600275869222962; 16810386383283747504;
  1975620028768814057; 8661300005066193935; 16620172908116145109; 8411068190032935552; 11059821608246887102; 2800825465110860749; 13683176506354094132; 8824117590537813320;
  12332231633858976767; 17838745537520268666; 17647985591936121488; 13996834275033309535; 2134776854649798688; 7482115120540728680; 15020125749860001818; 1813897007088960174;
  14510164232197434036; 11104091960390208852; 17070115381740533395; 984674437760714786; 570207157050707300; 15785960203799880689; 13808853173256049011; 10401666430433118226;
  4205658889586220352; 4622962919054254088; 6262426349395454915; 3709776283613042668; 10849359853224938459; 6998417626907131553; 2054494176737562253; 17710822010050704445;
  14767641121602889367; 0; 3950927882067319759; 5010068141643639851; 10931341173657617782; 7255327477516612226; 18350392945658986454; 15597996046022306843;
  13932861215349272245; 1236594058960275119; 8637855833124418922; 13406548593982070096; 1318580898341652805; 14634723211170016243; 11380702555319353392; 3131342891535801327;
  16556216130973203519; 10528477801992243541; 8723571278077932194; 244823761267363818; 1147514563389131109; 13360043759333200570; 7319297492119436335; 5685686291023275968;
  13727430576630030302; 16171363017435148316; 13487972226116211709; 5937039668012722509; 16492245016858751634; 10357411604478675317; 3467222189290690566; 2636868227078689418;
  17960488679981118130; 7158983455716851686; 8085681508717574158; 17898218506481007647; 4032907862335460706; 17195787066514110420; 2968520323666320040; 14192022556534792854;
  11185515832907777017; 7419284165792969669; 3868954988091118629; 17447141405441489241; 6101838530454235780; 13233797566731310450; 15410599858829648953; 6512653757691211084;
  14572448364711798110; 16683004962375531896; 15985651007144648760; 1478875680388942476; 14317716274389541841; 4686936476752391845; 4849771663067361250; 3456726355903879521;
  17385437462946641587; 1559725637615322145; 10724800281546869404; 17322600010132387870; 2473186897678242115; 8573890182376799175; 12910664888497264636; 2311481459527127044;
  12828682635770419537; 13602893038033133209; 5747958865831242093; 7510062874930000909; 9454719702845280250; 13151816486951541727; 15536289144446575998; 4446258004939280420;
  14255993979752148027; 3548075209115014827; 4526541971745808334; 9823796202990289937; 903257063848609423; 5362551323622253902; 15082963512046642871; 819879299072625643;
  18288124958179389500; 8988938554914717313; 15347763131612162708; 16937179604378450935; 11630386714693459641; 10979536795314899987; 9051206456764575788; 15472322153534417875;
  7736290862055275495; 6326392240795985262; 7994898324190934980; 1733611094645345283; 9949486064132834646; 1894195056739618116; 16113596482065523071; 2393469175351320233;
  5585119289958639658; 12784992611018200763; 5107820332811625409; 11674076739513045331; 12577328297112524764; 6352070345352752139; 11300418777895489181; 5170651528212295020;
  10805651338284876849; 9780104198140251508; 16359872198040027126; 739589023043290438; 659290973325265580; 4365975636129947273; 11548400098380894228; 6576064399660917729;
  12704140690705504278; 14831045128067147834; 8057170658345990505; 5200833215216559113; 12082560591213944176; 15660266528894804662; 14895582232601192400; 4287083621231989741;
  3376439554789349324; 3051052855889892674; 13025022741870828184; 5264239493600553636; 6739725306475094056; 15722550661341801820; 10610460295102515192; 4946097817937912454]%N.

Definition wp_C5 : list N := [
  1783557603617937504; 2523615882033439628; 14303143870840882751; 16722832771842107527; 9749344399741388582; 13306274794631117018; 74314900150747396; 5711248902566399777;
  3940067399246952152; 11986616633451259554; 15194790795276374639; 17724768416624408051; 8786383177418111481; 8025360514688184225; 10519545885330870654; 5956581862273077845;
  6928785554005844125; 13585519928005147850; 11217566357373295446; 10233458191540063746; 11777217984670704566; 891778801808968752; 8935012977115626481; 3870247302328563156;
  2155088123638127988; 16164342505094045863; 15561815447792244603; 14005893135184609839; 3345495421214404280; 5432038885918722865; 18348546558665883359; 6305627368431507265;
  1560568922700584276; 8619809349029033921; 4009869903375316956; 16535905940904732083; 11496802693446344518; 17353240165185810663; 5362238580511623733; 15753193100825778767;
  6411478460083492989; 14485487970499021059; 2978442113985358244; 743131409321429544; 12817613422706405886; 11558798908740116666; 7746150497100983217; 9609743823823799598;
  13655322432401948110; 6760523966510357865; 1189038402411958336; 17650455715530470647; 14634095746141113099; 4534498639254273784; 371565704660714772; 7430911684642301825;
  16461593239810794679; 2820866685335447452; 4697914678603497753; 10028563143628393238; 12056419137579624358; 9065628379377401321; 10798782221403919726; 15604585325720557639;
  18125634913053703115; 17159684082409336479; 8991315678551899373; 7356598983548364421; 15971609978504863059; 1709198722465208156; 5116729703507904257; 11422496589657054786;
  14564295440734013967; 3275692917287366068; 13803947799760322502; 520195504962209564; 12466284034284957070; 6551101061063137909; 9470143248040428342; 3712654284445397964;
  7151701667055100817; 148629800301494792; 12265896948781460114; 8191951939558273497; 14415687665091921927; 1857872503500249444; 5292416285475948857; 15674385631127656771;
  17492858333759206127; 16378264578131485611; 6620901366470237041; 9814630075642447898; 11143251457490983506; 2751064181207082648; 3642842984224010952; 12747802122485018874;
  16797136676574587267; 1114697113713708860; 15413190080500979059; 9256227771972091962; 13734145295363522242; 14782747502248316179; 3800444798200198352; 5222615980068849725;
  18422859259491385307; 8860709072383146741; 10445230985180123258; 6900146567490002785; 2314181981302169728; 7523216792134117565; 1932169811196516968; 12545106897783402114;
  13027047255859049706; 6096213258406220877; 10659146461785330550; 2453804581812052616; 7207986775500022925; 17427544070186725859; 8340564147069744081; 1337668202176582216;
  4628114373464834077; 594519201205979168; 14075693440323273515; 17020083506558856343; 15822993406232877899; 11628610208961503678; 10168146127225720078; 4464696134790364660;
  10938382797858379622; 0; 14931355277890408219; 3118047122309196716; 8545496647935096517; 9395828347889680946; 15492006346560558719; 2006484711078828908;
  13096849759987414510; 12614909402180202374; 7671846592368503477; 5816976853479477341; 4977124695251174665; 17567162238760121323; 3503220383177257152; 17233996783234838427;
  4604301143651074044; 6166022359637906761; 11707406684449317554; 16862433347692587663; 7282299476593960329; 13454900161989491410; 3415297925611204540; 13857267767356473383;
  16050408652109962847; 2080782019848838256; 18283258683104034259; 5571626302123625769; 10584831561634583154; 8471197141517563337; 445889400904484376; 9954248243746081298;
  12896409897657348850; 16601211407847319231; 1040391009924419128; 2303700331216707452; 7077397762054185621; 15343380979269293175; 12117271580886214810; 10864076693800654434;
  17986034336666352067; 14224327604244432179; 2681244084825564564; 6481278765490592121; 9535437719766074410; 8266260242068828885; 4167480515860445668; 5501817200623504429;
  6830337465989881445; 8712079272685631741; 4097669215370623200; 10093840023436430346; 15115965733123772771; 11907811361870423470; 16303960673130570415; 7003089459006759321;
  12966221197878735862; 2383993281523556740; 11282878421016550474; 2229394227427417720; 4837519686860227345; 14372952972072568635; 18208945982278532311; 297259600602989584;
  5886777158618141017; 11077948188732791134; 7876730714453798313; 966084905598258484; 18051331008321223375; 16120217753610084187; 9139945478249414373; 2611441580697199760;
  4307085524721155052; 12335708249271282582; 14861546176390286879; 1263353302562705732; 10307764295329353478; 5641439801066278437; 13245457535159744486; 16936737252425067403;
  4394893630393564400; 9330542672122839358; 10724476117346194538; 17864386585197803515; 13376086095120939486; 1411983102327329612; 3205890412890565808; 15264591100415038315;
  16675524108941256635; 7951047813862682277; 14154518503012746295; 222944700452242188; 6235818267199821381; 4907315594019488781; 9214258179074916321; 12187082881376037278;
  3048235821819374248; 13524711462479313878; 13927068072495137059; 6026382167411741521; 15901800877004741719; 817446309203741484; 11357184524805840206; 7802418013628296365;
  3573031683398644164; 8396884440423625933; 17790073884103866111; 5046920602276218373; 12396481529888156810; 9888944975524759838; 1486262818642859088; 16238646410094961059;
  1634892618407482968; 4237274224231332584; 7597520696866597305; 668834101088291108; 8117648034557358301; 13175655031031379682; 15046165427985109095; 17094396207384358291;
  14712938400748194839; 4767719381721563669; 11003633288850479194; 11838008857742058666; 2908630813495535776; 6690714865010236525; 17911730431933872327; 9675038295683663394]%N.

Definition wp_C6 : list N := [
  6924496049530214424; 10097921039849104163; 4595500080134932166; 9793098760635279592; 2776271950002751367; 15760533136184817848; 288520668730425601; 2400210169277271887;
  15579831200470742582; 11720152955368744614; 8057747589754049234; 17579232727843927541; 17976662724730845561; 11632621704616898415; 9120348824893493649; 6148163391123378770;
  11340107832525021280; 14608702432880213180; 6240771705845291931; 184089634136559246; 13160486872655504291; 3462248024765107212; 17400782557582490491; 15291328089565443381;
  8367099221382602013; 12096760167244488928; 8923872408258074583; 3441417439841927874; 13271665644467858990; 3552041009756588875; 16140517480452718334; 4708374969373251415;
  6058933871540245781; 13940786779589736311; 15868334242654205751; 12962902715370759653; 5088940968176230303; 16713090317156610288; 3839998728465304138; 5754085839546407642;
  9032244092475693144; 272756719498545609; 11829079961727936809; 2885206618584779274; 18352697688066142641; 13447864049291862176; 12784452545092545387; 3352187387556496773;
  14897205475064724925; 7592455670726614365; 4616330699686809616; 17867172820006991092; 849797970925571019; 17887996206715715134; 1442603309292389637; 9324456629660837735;
  13250842807533823204; 11252003680406349607; 1819791080161493313; 1624441143614213003; 12008655997552207783; 16824832021694152061; 7968518087224432021; 5177044588121479384;
  14698494851078487035; 11524187467977453294; 17112772113858264188; 9612396721823901286; 6043169406626553309; 6635975208998999831; 92044819442255687; 4800420333806591646;
  1137755689634286282; 12983162602285182253; 14321325290602545087; 2019644646753240839; 10280874775394692525; 8456328740957346394; 3928102825110766467; 14714251739535913779;
  10476287470136484707; 577041337460851202; 10568322389493656234; 15668497718494261617; 560714438207260872; 7213016718259591449; 4127956361277032777; 4889086869412764121;
  17290096452931023602; 12385826176494003171; 8168371022248631131; 1911835843719104648; 5952251037115914906; 10963500638222886438; 14425748662992712242; 18064194611522941104;
  9505158634111429097; 4327809927876120335; 8346831088113669589; 4215497593934086272; 14032822248418033342; 1426839394151288269; 15002825047381980212; 4415914079985748040;
  15852577388288606207; 17688722684106340986; 8831828156163068048; 7016540319208267615; 9232411810219237408; 13648272838762653800; 7501537318269491738; 9416491548750098094;
  16912363908218336436; 5572248073961100372; 8544433387341845395; 9809417963305902626; 10188276957689635940; 16425150190633808369; 15092617482626429811; 5193372037145563666;
  2107748798871257152; 2308165349843404808; 3153459721132164035; 10947181400924613868; 5466128120837692379; 13736367125835063713; 1048525637340466573; 17599493164530941245;
  7392602649672783767; 0; 2003880645578313679; 12406086046095125291; 14228726871752799862; 3639582156380340866; 9211830092608100054; 7790057986998868763;
  17200866950401799605; 9704994590934609839; 13072392671616395882; 6724078811361202256; 667960239682176325; 17002156326408221683; 13848742509903949872; 11236247375813341167;
  18176499248900226879; 5284290389611074901; 12871983796112302754; 10370104827688119018; 9900336865526572389; 15184652951722638010; 13560168686652370735; 2864376119695425728;
  6908168342400458462; 8078578587012963356; 15275571321233669629; 2976125520797715789; 8255912718611419794; 14516667015457568117; 1731124012382553606; 1335920474884835978;
  17488314358341284530; 13827848943306139366; 4039289293506481678; 8944140490121879327; 10764227596659286626; 8634788772463695060; 11144202573953738920; 7104082015302096534;
  14121488784023550457; 3730501075638404549; 10674997527319684389; 8744286373766977881; 3063666753185809540; 15380557609149231730; 16445410661412649273; 3264083205146692684;
  7304498003557244510; 18264602851254696056; 16156907584868399160; 760005002970827916; 7192748550899880401; 12584536250731767205; 12673766303016805090; 11052167706002219361;
  17776817434884486067; 9520914886762438945; 5376335702638763164; 8655619855752240670; 1243875659921572675; 4307542395784906695; 15563511413397781756; 1154082674921702404;
  6436121092651438417; 6816687074677463449; 12208501871763156333; 3750768659134745869; 14986434977602337530; 6620210658051481567; 16536891946709909118; 10386494485136221220;
  17022416745781934907; 10856825466037906347; 2291838329927290574; 4904851368417235217; 472610268506197903; 2688167853626248782; 16624986697220143031; 10082164701164268523;
  17310990122346429500; 4504018262664511873; 7679997452853744788; 18156238863618340855; 16049036212729067961; 5481892705875989267; 12694659560100670508; 7769789871044285395;
  13539908851143075815; 11920561796781010542; 4018458759988430020; 865562006191276803; 4996332653723276886; 955917924032201796; 16248951854545796991; 11432705650497989033;
  12117582969550875178; 15473156028266888123; 2576418400985661889; 5860205672413614931; 6331127090975530204; 3173727287314156299; 5664856337008401821; 12496441963927268460;
  14137245586447151409; 14804607107620631668; 18444178955781404406; 380002503792281158; 9992371733210180780; 2200356512448481673; 5770413237169558548; 11808820040721687009;
  6347454574628312598; 16733913669237684794; 13360332712238803305; 2596686018572781833; 15956437845017063536; 16336483655036679862; 7480706269609644240; 10659241308760501741;
  1714797078500265164; 1531833378631336514; 6528166405948086424; 12296033208548304036; 11540576885183686696; 7880413355075591260; 14409428910547400952; 2487751315632064134]%N.

Definition wp_C7 : list N := [
  1756431069603747864; 2561460795389388323; 14285354791697758406; 16755616108833012712; 9738620007424969607; 13320161885541962168; 73184627900156161; 5701925749970046287;
  3951968793674947382; 12007342457777946534; 15163570324487343314; 17722779417135484661; 8789190217357760121; 8043832866743660655; 10483977498096790929; 5932738974356666450;
  6961826323861882720; 13603892923008890300; 11193305090354788251; 10232897453519112846; 11796795980028564131; 878215534801873932; 8931055873530692731; 3878784234360045621;
  2122354208433435933; 16188154033899156448; 15527241594749264343; 13992616280232402114; 3366491769668387630; 5418194713038956875; 18365677782041714174; 6287402771023844695;
  1536877185232190741; 8629309888871196791; 4025153352721404471; 16551825373417414373; 11477036127687480223; 17359108078154097648; 5347261953839734858; 15731032398079018202;
  6376350478823891544; 14484641857559056329; 3000568699155545129; 731846278733126154; 12825884370057253041; 11581745765011016096; 7760101829812556907; 9596754489027058053;
  13677077482055351485; 6731014275491073885; 1170954046402498576; 17651846589082568692; 14631011113023299019; 4537445815534015294; 365923139366563077; 7458355844616190055;
  16480892545364498404; 2854199306855776807; 4690852171372196673; 10022351044489226123; 12080527016824403623; 9072921254825734781; 10767708535429482901; 15584663142614783704;
  18143872099031937275; 17194723738323635694; 9001988426772822908; 7387423016563274086; 15948334412876708829; 1683246441032494871; 5116448726768829767; 11403851499921545886;
  14560078353824077002; 3293307210621933613; 13818943138160651967; 512292395166875399; 12506123435652918445; 6518215997557878874; 9454888970629148547; 3732414841791886899;
  7174624807685086307; 146369255800312322; 12291073495781708714; 8203713195498724977; 14413709098359834312; 1829615697503899929; 5276329194304977737; 15655595901814005721;
  17505477196447822322; 16405455980111571171; 6589148756757100891; 9807300897922727048; 11120120462454636186; 2781014747809319718; 3659230282611212082; 12752699810876578224;
  16826548936751706857; 1097769418099685135; 15380872339016594389; 9239838824331080832; 13745758579114190782; 14777380369158630349; 3805599675313588532; 5205396435105755720;
  18436610610094626047; 8860123045611998586; 10410792870196634768; 6872879794225061215; 2341907117847362848; 7547303345720921960; 1902800325135616538; 12574804532711765934;
  13036430848343506356; 6074604493224857172; 10625843016494710675; 2488276236208713506; 7245557360658768740; 17430040906072795889; 8345578851403222131; 1317323302202802706;
  4619919412172978752; 585477023201249288; 14063549039431620035; 17048354620298354668; 15801965157278240219; 11654930324191690913; 10164216562618700173; 4464261256487553085;
  10909574053827402647; 0; 14923749624622873039; 3146937817248460331; 8558377060818280822; 9381704342728992386; 15456308835415828694; 1975984953035768603;
  13109615407389963445; 12647989091758227119; 7689169001893862762; 5790873455891114576; 4974583208303286085; 17576410024366520563; 3512861164249853232; 17265656566376547567;
  4610630374580476479; 6145537252558292821; 11723611420847889314; 16901985226858293738; 7316490188711684709; 13462027541647262650; 3439676328714848815; 13846247024499723968;
  16023770909007503582; 2049169580667501596; 18290241492069336829; 5560060231236067149; 10552658388594554514; 8487444232966699637; 439107767400936966; 9949166416589074058;
  12894565466713443250; 16627261663658214886; 1024584790333750798; 2268723463965304607; 7103691979766388066; 15309939579683158740; 12149207839676400040; 10836389426061464214;
  17997502981006648057; 14209918295298515909; 2707830188494426149; 6447283238023113561; 9523569861261119620; 8274646023484523890; 4171522745558035513; 5489127471902627404;
  6801947034891621470; 8718257389439065976; 4098338186377356600; 10091031934852765836; 15088133827953891281; 11938661360987530405; 16334523152192872930; 7032759151780580961;
  12967750025894118067; 2415091677028037665; 11261985981255190684; 2195538836199370270; 4832717689837740355; 14356287551031194055; 18219308664016424956; 292738511600624644;
  5861806215090332497; 11051439571688433049; 7901967210570719853; 951400162567808269; 18072939271113243130; 16094703668340943327; 9143854082945755518; 2634645629447969060;
  4317891863650958907; 12364258054962387627; 14852816865289433294; 1244138674302654737; 10306082081285047183; 5630992990636606542; 13251481063226828471; 16972918054776987883;
  4391076697441091900; 9313023452231236993; 10694523907663544468; 17869148535429209335; 13393346444722641081; 1390507930102958867; 3220122651575472428; 15234503083686561235;
  16698194491711130855; 7972900038690748782; 14138985535965080260; 219553883700468483; 6216470011690409046; 4903650448969850436; 9214786910998667391; 12222392398857078953;
  3073753258067781418; 13535212100827941563; 13917179783698941889; 6003671733555884371; 15877401653543269084; 805030906633278219; 11335170609021125021; 7831034382517807980;
  3586045723430528049; 8416511404913783668; 17798215707376293366; 5045515967435394118; 12432938876606457260; 9880485525822879113; 1463692557466252308; 16259086861817854689;
  1610061813266556438; 4244707304470279994; 7618236173639616105; 658661651101401353; 8132780367580026736; 13178296504180371382; 15017201068754673360; 17119287448351266541;
  14706447609825190604; 4761784930638522434; 10978254943788280984; 11865476801941073316; 2927384139974866216; 6660081516157634140; 17926570153087953912; 9665435379659031174]%N.

Definition wp_T0 : list N := [
  7523465937918824405; 15046647098249191095; 16999717413740863584; 3110717593535999623; 5208650774774166133; 11357439022321107411; 7668150681776627167; 16493362592059987795;
  16421031215144609864; 11791541628709229077; 6221435182860917779; 9331914182988987839; 9042532600267125396; 17433732061094160914; 9621257281750227371; 11429783593338280668;
  3183046771596939676; 10272305642475915916; 8680838332980633477; 14612566479126582469; 1663861359554113355; 12225556277922727991; 7017069335590948600; 15408330369885680550;
  6727787805865578292; 795761692902970151; 10127620898687326342; 4340419168806224332; 8608517952186083510; 5859732119549567752; 2459640645565624234; 4774596543198685271;
  4557433090047597251; 6076759235366669849; 4702254171371500376; 9259574010083341498; 14757251223185711835; 9693601852498952868; 12948914025918448197; 1736181741921556600;
  3327722719091180438; 6293773156708701462; 434045435480389150; 7089411707419186679; 17650734987121723139; 3906408918769572846; 15118987270986012594; 7740488655491241178;
  1953204459393303415; 7306438822765488876; 8463846402736257724; 1157477950862430288; 15770044427841455253; 5280993146534247280; 2749001337188191166; 18012453444330938938;
  14684902253816896960; 7378772398366487011; 16710383110674156636; 13455299634297111400; 12587261539890345772; 5787389747789490701; 5932074491376760839; 12370227827573889597;
  361711859510291729; 17361391888356287255; 940433242755458361; 8319157260567694498; 4268089991282163415; 289369487715607572; 2314955901709925792; 18374158706064710945;
  15987069344234765198; 17723075159993814534; 13021245403063483742; 6872459355581750590; 723423719020583458; 13093585575833859163; 13889204333906398951; 11574529906421909786;
  8174476915024846504; 11936213178087760907; 3255389143390574745; 6944726963829819389; 8246819286853076391; 10634028498323013605; 4123409645741403357; 578738975431215144;
  9476585732369608629; 2387298273637774501; 6655445433971279409; 9765937627223870369; 12804242476535730255; 16204019492757680967; 0; 14106216056294381032;
  1302162694720225882; 10489356948942384623; 9982936155301392024; 144684743857803786; 2025533636914248812; 16638047335848576345; 4991623658546026316; 14033880281604070637;
  14178547433208720115; 18301814135416636974; 13817004896732393081; 4919281286651731529; 11646870079326502943; 5498002669628429921; 3689386201565214463; 14250887606079759350;
  9548917108978798766; 2531978619446961839; 8970190228371782545; 12731902303631137098; 2676667761219145905; 1519189809835851073; 3834075342800519393; 7595808309679949520;
  18446494480890287140; 10706359875469066494; 5570345041522728804; 8102134543263717293; 11719205853851147024; 12659597314614214185; 14829591396056755166; 15480674940805327017;
  7812817832773102529; 13238265921309599313; 17940113271593069375; 651081347360112941; 17578403610743224344; 7451110372215322854; 11863873005317385486; 16927381639049505125;
  17072066383110725499; 13165930146585734996; 15335990197014641315; 15191323045946854589; 1446847438041166916; 2170209584410586726; 16276359665495554626; 2604325389425514932;
  4051067273813550552; 14323232176999414009; 15842380202531769744; 5425673492343433594; 8825523076838428047; 4195752017400821714; 16059413914885972097; 6800121381733962811;
  16131749689710504324; 10778700048240495099; 18229473962544549675; 12297892052715803448; 15553010715629855148; 14901935966707970257; 506383409228562203; 1085104792205293363;
  4412761540599859401; 6366093538580144677; 11140414105626885832; 10995738157931310274; 11285098849549682902; 17506067836051861789; 12080893523563509249; 1229820322791332181;
  9114866176136554907; 10055271930160523165; 4846934516912251218; 217022717740194575; 16348695440453247309; 15914729171363721867; 16565702764932079190; 12876578251060366144;
  5642678617391105131; 14395567951823942140; 7885160204668445380; 16855045864360243818; 2821339310935311035; 4629911799611423325; 15625368480412227231; 3978746892516692715;
  10561692723463878368; 10344641417200829321; 72342371928901893; 2097876008708928873; 6004412465090326786; 4485095116300473286; 6438435910340225824; 13961544506643220450;
  5715016591238892910; 3617048227683876858; 1591523385805940302; 18084789219020208437; 8391504030840910777; 18157124993711566896; 7161749681133804786; 11502119368063194073;
  3761732971006888420; 1880866485510916722; 3038379619654657922; 6510778282435850287; 10199961071458750851; 14540230704434171850; 14974271741532502484; 17795419730910319881;
  10417016776036738282; 2893694876067394952; 9838260207605824658; 11212749880486016973; 3544705855756018933; 1012766818457124406; 13672324550988217459; 5353335518629863551;
  16782705691622374255; 10851044618989228788; 12008557748839644932; 868090870960778300; 14467890531697346255; 8753180704741758592; 13599984378217837942; 13744669122008524668;
  17289086901456454772; 7957493780537883083; 5063957234145971267; 10923380393714146289; 6583116256149420330; 17144406555982812798; 1808524113850454397; 15697708653149052826;
  12442576796099650854; 11068078330836952519; 12153216105018130738; 2966037247995247757; 7234096450870141929; 2242547558158755683; 12514916968870030371; 6149101607260964636;
  1374500668602616671; 13527635409155197549; 17867755505735900172; 8029831754386714830; 13382963859504044135; 5136295207993754950; 3400060692838304403; 17216751126630878577;
  13310623686599446882; 8897861050553042058; 9910600380511466903; 3472363483828170224; 15263658820637164984; 9187204149985386654; 8536179978337247667; 9404249957510473392]%N.

Definition wp_T1 : list N := [
  15377656068898645775; 13245315674168348190; 6983934173788507104; 9739926435720021358; 8451084794526530098; 15248517338183736321; 16098797184058619677; 6045207502773253015;
  5252291423914970024; 1559270184283632082; 1393396767903681244; 13799453251021536509; 10699846310583127986; 1365137208546351914; 12359431616742513881; 15897318280505623578;
  11253418446368308561; 10128189359225832586; 9617569531782621087; 14252426363280891604; 5410819011280353455; 4010923751296672136; 17897693748498280270; 12021749400803403315;
  3773275311088915087; 2813354611592091731; 9695278620217840792; 14716703946115448257; 13148109138153611240; 599350330895413987; 12259398957719489839; 6287661449046600296;
  14069033310403945946; 1825177191711349454; 6359436455694578291; 13438882702031484148; 15838258606896787170; 11855311054456505538; 5022555684030771522; 8653693244480733400;
  10821638022560640323; 1609852120227807957; 2163423311120183350; 17825918741850306389; 285120965657228039; 17164966790865792411; 12885310282778461719; 15738791784078802708;
  8582483395432929475; 17034132969602420586; 13579889579141140474; 5769128921279791248; 10798183247697518148; 8091079411726578235; 13701681153679699211; 4249701600466738018;
  13892420954711135965; 16385897176290760561; 6694573585515441036; 7546549544140978435; 3219703128059025847; 959355713695365866; 527575324247436024; 4443834438765064602;
  1226392035595986989; 1725142599936234275; 4110956427516405861; 11705826942193418188; 15509054944682952190; 1442282230319947812; 11538257842559524157; 2449674660697187165;
  10294627843011683963; 501576326571293454; 6824278079420942717; 4494416374709273245; 2452784071191973978; 6608387876107043188; 16699558927190675086; 1918710452433086921;
  12137607348821209054; 839259367144112612; 11037528251644343640; 18257699131298228039; 12065832342173235141; 16542728208507071615; 15940835351310751212; 2884564460639895624;
  13079442433882025199; 11898828400139506996; 3556819941584919174; 11639420833962740939; 5742566501170274640; 5179386127836468147; 0; 16772464223269181077;
  6490270036439765122; 17262739025646582893; 10991750138121692334; 721141115159973906; 7790132396865413372; 6478118241781244805; 5495875676798718551; 17132469631838936732;
  17565380302127460010; 3386140787211156294; 8772941553967141166; 5279420307294722654; 2279281001423135168; 7011063194607245846; 18389098144521487798; 17781835663041521315;
  12575321820056409296; 12619969498119603494; 10483390941079127995; 5381995952180226393; 12764649878155506960; 4689677947659987133; 16227935515341600128; 15017650686098697990;
  2666130004431383380; 18344450603897246784; 7227518564111241759; 12497612731621156823; 1198699652473453019; 3003812907565257150; 16054713967810848491; 12238204778897341992;
  13937634468979361579; 5888377093327278438; 4609706991856620395; 3245135018219882561; 1798047896014736184; 16602352528614891384; 1055149570458012141; 7343939582358258665;
  8929771825974162399; 6104267313821047151; 11805294039889342010; 13678226378816609804; 4905568142383947956; 7358351973057753326; 4819380736446585786; 12980540072879471897;
  15580264793730768357; 17998291041135460024; 10438177839127762509; 8812220509706674729; 10338710646942594957; 15148484404282838519; 9358161716497727072; 4277961022385146516;
  9574617060231919209; 18128560400583351369; 3169685426297090895; 4083263906954885523; 12454660122631534113; 15118247841296891632; 1947533099216353343; 3679175986528876663;
  14500813751391483336; 2690998532288412322; 14455036050185692222; 14022125345537438764; 15464407541497631752; 2158053304584487729; 119248584364347894; 6129699478859778201;
  11204532021879363497; 11352320669931875495; 5927656049066779233; 1081711655560091675; 5612296832484721569; 10078172482097622642; 6261662863687318430; 4661985152220592459;
  7732204275407473156; 18214746384869652145; 14154089838483361570; 7703944990928018418; 13485790941775865090; 6719441838494530170; 11518194047657152086; 16949076578961958290;
  16182157676696888438; 9912299138732067971; 360570557579986953; 7574242202141452533; 167569924267614961; 14284923522307780051; 2330993149488460459; 16339553535800788615;
  7948659627731599885; 18028527604121374143; 5626709223184183462; 3889696191896978297; 13363434209637140467; 3529690783327226736; 17465913341870489436; 15681428060011858963;
  16443825710065565065; 8221912855032811722; 9379355895319907687; 3412139647448378032; 9479388416903945361; 14612431771850639055; 15334703185031083769; 718031704665219861;
  16902168476656530532; 9811136284767837557; 10558839433473438908; 14815606581995875383; 17667957046541391268; 3895066198432706686; 8340030832139010364; 9172225909686495776;
  8063950382317900795; 17624439838297343058; 335138804858116607; 4326846622240366700; 14972437163240525510; 9257564148982673302; 8555921035452909877; 8988831774460909863;
  8426216404108454852; 14658775549779597113; 4847639883487054412; 17408549617803578459; 3052134247468556985; 9146227186888227798; 9014263802060720337; 11158188656267265631;
  2786792389051025829; 14382695894527491109; 3650353202306623873; 10171706842347820412; 16817677600098420579; 7142461761153923303; 2570902185737126316; 2041632561215345351;
  6850840576839882891; 7907120075951157514; 934487048399416092; 14875230902103727920; 7474209388482765080; 5064095235811181125; 10605747810656806218; 8209761060374258637;
  7113638839492716817; 9978705246962777988; 10919409982463491253; 17307386488961408429; 13318220970246854149; 11420987374203494304; 12931653785829480417; 12718871902071842022]%N.

Definition wp_T2 : list N := [
  1140932879588054375; 2213467335490058190; 16168182057362219019; 7964381931811604293; 3635891751875016058; 131622114890208156; 2152556153600139127; 10904310791534826355;
  12126192561746561099; 15138185647122224497; 15858113644468769674; 18284475405857570684; 12868048013401887951; 3031751516813857499; 15684776935983262556; 1935596344519351428;
  5880623782878289021; 9983511216918531076; 11494726083014067687; 15331883476522288414; 12631214968400202680; 9815500460061701921; 5690405201163450415; 3721897254531213030;
  10318975304107635922; 5991769971599550296; 10990626475875272212; 13964602774109605117; 16768721618120193695; 16359415058839701682; 3434595196961204749; 7518550957479843626;
  15763512661637055461; 14850993970218277274; 8311464863016769586; 17634548580809226868; 16346884450254904110; 14025483052164490308; 4775420564643988977; 15598243801428687040;
  4870130824066799213; 15354556014923290242; 3899560950357171760; 6194527988309227319; 505516912037594099; 11235977727405649581; 1707657906164445894; 1502631536165116543;
  14084756163159357400; 7704644549932870671; 18067444953150504079; 10398829201310371968; 4942096797890418078; 4283003827189805170; 846155726423768621; 7078244612593760923;
  15978995551736414230; 8206515537130742551; 10114213843378330731; 245651491270584505; 13199116674284792857; 16865224488131759546; 17872344162516469674; 11114228210117328177;
  3247382325595803944; 2528754629608478675; 7293875421375707496; 14745475070230241983; 18363211131511363525; 2599707300327592992; 4440584556011102237; 6710925287170646435;
  8903297456676900518; 1010765599056660219; 9033856590988730057; 11330598577918394050; 6494764651191607888; 8384494923540683713; 10297411005445105486; 14491071364328331881;
  16044198405126334639; 16432409797550476097; 6384183620070644085; 5187408313924517159; 14242478183058417591; 9215934474881328620; 17067861081042050517; 5199414600655185984;
  17272856547072128364; 3793474688410297621; 9669611428979159514; 14673158077332037964; 5787039423429431265; 12918541309850961747; 0; 10802098950023407702;
  9392839842260474512; 7921710324453076988; 12580957886576498724; 1299853650163796496; 18188943902233095392; 9608965156426373475; 6290478945662225426; 11307908379416128862;
  12318405753252934510; 5057258695104999099; 3348918628689869201; 6794036575140595994; 13843961496693972833; 1612654034438349146; 13186314529529921413; 11814848123741009510;
  15037101910748606036; 2787485329293291269; 13515720830956114375; 6434149291063790313; 1202783418193391925; 13637204327651426728; 9286762409961578933; 491008262220140655;
  6063252469515756715; 4683344028598861524; 2262017909566825554; 15541201517887401383; 15785295514823692409; 13702676511376484625; 16996248325349826086; 2930109248934685182;
  3152920428275351879; 7372876064889459153; 7728169229995229075; 4696419921130237256; 4042248890717771979; 8711764224116254239; 17081771464998522441; 16818106674830796035;
  16103725391653141299; 8022237732404614361; 4225454884043138030; 918121700247387614; 12989529302383215776; 17178450943421605616; 13421538197056340571; 1852145085607883837;
  16562049444036008157; 13328903127358175614; 5589208873104543894; 2988784091921087074; 10200506347812458487; 17857399494572430029; 6954084346846151102; 10681234702857026506;
  7603448221873964214; 5331019053833518044; 5704931512692779955; 10608416573211949113; 2426551619355651318; 17352878224732770622; 4547235975558273848; 8589225471710802808;
  14468162611301960181; 11683841947161077242; 4524035814922569892; 3225308064799834804; 636868594262398612; 3539252003579502019; 17726633948112945489; 11048756026392270216;
  12221501095620287447; 12077963206950886700; 7012741528120676898; 1949780475178585880; 11623195674608291139; 8253933581581978542; 11409559478553892475; 5422530432345456889;
  318434299102522186; 12825345497779141750; 2505247610721125455; 17468031292299373083; 196794058942167845; 8817274292308827450; 6241946032760463246; 10586616059924048805;
  8566007649900093668; 9478264737479231756; 649926825081898248; 17683697422894459368; 17366534733157302946; 15259952824511809261; 12330954022475866354; 9791601576119493190;
  967798174163889730; 13833424397197834893; 11983539943199100592; 8734163004338877827; 17562196266097883527; 8084238386870300811; 6697524875481051711; 1430349865080052108;
  9936124077376070845; 14587750842751414992; 7458570294872670797; 12695465221173161962; 10485379996503081756; 14973001777459874310; 18002242099760583734; 1516014286142835171;
  7271783499404733172; 8469063253549942877; 13588073145667457588; 4021041135296957868; 11886460879433233813; 9094471951116547696; 4356033887713719169; 2341672016673406826;
  18117955909700841235; 5977568179228439748; 18375995615628100697; 7799121900714343520; 14325889702178639630; 10844801465646153967; 3852474050554918537; 2845358791598177433;
  14156203339262424107; 4164543702153218903; 5495313240177394442; 6625243204395987404; 13342577296420842210; 15456052574065360443; 15095249121903738312; 6889058108041697926;
  11900388924027840009; 2722313385241331644; 9309688823089213993; 8974874890555985237; 7199395862880250119; 16673204464015860728; 12403948761186640641; 14347436340739906706;
  10042766667275263896; 751463128175963569; 2021262973094792427; 3516870884531883615; 1758578387334031265; 4991755610631915010; 5373690661192045413; 14803876156917313827;
  1252766750361543337; 9550581730377435903; 13085078466108954428; 12533570747034038429; 412312270854666454; 11573828277998952159; 16263472931134682007; 16622929722090893412]%N.

Definition wp_T3 : list N := [
  7426388954967468245; 14852510728592412855; 855790495578778464; 5003084855538166663; 8805229174782969973; 11241498818803047891; 8583262112988424927; 8329218278391145555;
  5451687492538917704; 8201641663969927957; 10005893733657761299; 9006565392757195199; 14966187778403433876; 15792455873668772114; 6690567311395554731; 9519163336227266268;
  9030170441392860316; 327228466842799756; 16690205496523126917; 2221617990968003269; 13307937986449053515; 2416242401923737911; 3408935065099657720; 16587785289873937830;
  15172403245246537012; 6364473626789219111; 1484084015429946502; 18285120521182133452; 11522660270851323830; 12890155703824765192; 950165109981192874; 3055788289270628951;
  16562765256020017091; 11154881177037067289; 3635346361517556056; 8427565863793426618; 3378504343128493275; 4954703437751617188; 17384534149721273157; 13895988695131494520;
  7873301698665655958; 9427465959363925782; 3473997173782873630; 3987365047040369399; 17511970026654135299; 12509854306559211246; 14274074158205686194; 9157184097254992858;
  15619458890954775415; 1110960178342094316; 10374811904271939004; 9263992463422394448; 11404404923609373333; 8231296204023744880; 3245897027513099966; 11196576468896774458;
  1647685020208384960; 1689381364189259491; 7749671209883985756; 13331614473154443880; 1852998900457123372; 13468592274211360781; 12319604830832579079; 3574237061804239677;
  2894988848726476049; 15214030289774702615; 7522481480809254201; 13820599973237322658; 14267077318954269655; 2315998115855598612; 2107016260521828512; 11771602380085263905;
  11996339115986181518; 18090404406641227014; 14518864903932064862; 14023433394053013310; 5789977697452952098; 13939867582615172443; 5660716596698398951; 7622653121499340826;
  12672751606657413544; 4747932713236997387; 8455676719703469465; 2830509481205457149; 13242174389343384231; 17041591936993498085; 15414938862426470877; 4631996231711197224;
  7849692251983217589; 1528027735298089381; 15746327419912739889; 5533694170622101409; 16235564281281556815; 6031243357139624007; 0; 6239148786285331432;
  10412984322095452762; 18189457878512734703; 2643217752109845144; 1157999057927799306; 16211951626613955692; 7171236829897156185; 1321608876064195916; 6817585356672320237;
  7974454116645717235; 13494525001870277934; 10461432848892870521; 1900036650357769289; 7043664596275470623; 6491482893235539041; 9635169048175391743; 7396026342352012790;
  6111576578524808366; 371176584757191599; 14392256998043581585; 16814552806505427018; 3823750856737498545; 12158946127776781633; 13078700936528868833; 8000310939234298320;
  12345533160444722980; 15294504248652436734; 5917558718569336164; 12094326022763212973; 8780630189194060304; 1278505178767339305; 2804580168462159326; 18314074624887346857;
  5128405272115834049; 15088837451055413073; 10622654484630075455; 5206492161047726381; 14643481624428737304; 2267815744176220134; 5326930034553889806; 281868511312341605;
  3737842473245469819; 15667834772372567636; 17166213064167642275; 16000372289311593149; 11579955394905904196; 17360925893100445286; 6609668941033693506; 4402748178054259892;
  15989423788022839512; 9131322876620162809; 10830471952849755024; 7073319153576004474; 17838071455289342607; 14841562244550900434; 13718107259186175617; 14597357568719478331;
  13144183084519579524; 15873494981523183099; 12920594221510556715; 4148721987401001528; 17735646850593380268; 4535355510916894417; 4052987906653488923; 8680462946550222643;
  17710626799492742601; 18060038517088081957; 11835117437122222792; 12982965786455152834; 10667011685559672022; 14065056040534929949; 5905909780931979009; 9842991992386294101;
  15540122956809272987; 3217713681445981085; 2477351718883771218; 1736998586891436815; 4873261908645110349; 12570263290652515467; 8907652658378237270; 17963522674945405504;
  5333505842787536491; 8552895102326196220; 5702336052475686340; 2013789536259598698; 2666899706196076475; 4213782931904151645; 10256560955076237471; 11930856985242187755;
  16462592408029991648; 901715600085913481; 578999528963899653; 16786438759857462633; 11741168260445721346; 17137258977709670086; 17486105546328856864; 5082280026311672290;
  4759581668121071470; 10214157573399393018; 12728947253578438222; 9473662643204258357; 9796377524284716217; 10047584627470695216; 4565790630934307826; 10093650469470379993;
  13657698257845630180; 15044962961618508402; 5577569781134797442; 16911068665895344687; 2058571148673322371; 490833852420770250; 3961431336250298324; 16362995777414886921;
  17610458349548966122; 6734438523861477512; 3800073300697516178; 12409613366458358733; 10783012999461548533; 8105975813306977846; 9312445388266585459; 7647252124335491711;
  1439867551992899695; 14146638307133986548; 6484907102249133572; 6947994347565747260; 1064766823180126415; 17264127480789956992; 9886939109956107382; 11035926570582654588;
  3153774212924895092; 6285278430136266443; 742042007723722307; 14725629040004470769; 16337135695135857450; 4311773253605191038; 14470484624468023677; 9682627984316881306;
  695004240575835174; 13557461715791550919; 2990727327520237618; 6159953598265108877; 532525798354871529; 17935413026343690083; 120510518886313251; 10576453402743493916;
  10991983851059090271; 12757129547557682029; 16941430157401716492; 6859209210495856590; 11608142086931921255; 163614233429886790; 7298807976976002963; 2579843432565436017;
  12182627012528420962; 18411993439555910538; 4374569230033914263; 11362001524685287664; 15421935718924604344; 16114053737168863134; 10944225890864363187; 7270692723019711152]%N.

Definition wp_T4 : list N := [
  15377276861933992040; 13244557328974376400; 6920871959264436459; 9747318495337217323; 8465133928901564488; 15248064446763743901; 16102371838086790762; 6013316314047984100;
  5209442424998541539; 1545247137546369187; 1408179809117731414; 13798182357309693569; 10722985588622722941; 1358725973439221489; 12347983609045815941; 15889854920126283678;
  11276258773203448876; 10089341401508515726; 9648856122265208952; 14204024220749022154; 5456303685604161815; 3972606118968551081; 17883599474004173665; 12026356646584607445;
  3806262090148996957; 2835107392583834891; 9661514804267616652; 14771175435773166652; 13159492506585897335; 626812923021488977; 12253502568908613154; 6280947354304693826;
  14115929139177275711; 1845013605545999444; 6355268847062336321; 13435632670210039168; 15793810376896563660; 11836799732523898758; 5039882325139376307; 8701192490391709720;
  10839394190449603118; 1622093107738179927; 2175298122597927430; 17813801372083201634; 284578915030401524; 17198573999411845686; 12882009840931663569; 15744325750648192363;
  8635867201806216475; 17009931881147641701; 13587354288131514229; 5800794993594478608; 10781129968384111578; 8102604033044896585; 13703622152470030886; 4223077081031448313;
  13841494324892352715; 16363672992563505766; 6659570804652979431; 7546066398980264890; 3177772414623739822; 989360411064201296; 552526614635935314; 4409475099836276907;
  1236287648835112709; 1716754468691774960; 4136667553446303501; 11727316952789783923; 15548113488931671355; 1450198748398619652; 11537445578336133152; 2423883425048829950;
  10279039053057587933; 503011206441009909; 6830128155596210612; 4522349867047051615; 2472575297670225418; 6611693665196032693; 16667416396967206336; 1903273433741983136;
  12155178734335398769; 811180146578289317; 11057841874989315885; 18241627969256726624; 12085345448042337906; 16567757753189378195; 15984942887313427257; 2900397496797239304;
  13073087381224265859; 11895471874599117601; 3592331199342503004; 11622888632960390279; 5755970101970063025; 5139648721056710112; 0; 16741733491745708227;
  6525859183421699602; 17292817544902717073; 10963079363109225354; 725099374199309826; 7845548092137677852; 6441138513242372070; 5481539681554648901; 17104280979788422082;
  17541145562609635780; 3367362314033240829; 8759833850655268031; 5267626382934199364; 2261299730004967073; 7014943976730711116; 18412323858766058803; 17755058861230084805;
  12561894708609323396; 12611528865171596579; 10504570889398158460; 5397943805707079088; 12769130671497375525; 4731239495776943893; 16264047334067101493; 15019230774495394665;
  2642298124273392895; 18362373042854994324; 7228874867537205069; 12513207229587951728; 1187220841283386274; 2959355516409605295; 16007741267703057101; 12249272746413287382;
  13927148482414294124; 5895605888365348023; 4581123168470046200; 3262929591710849801; 1786583357005695219; 16582105283974113639; 1029614636978467236; 7278918046703035370;
  8877685013826251244; 6114040378765526966; 11812443347964158420; 13681386727423503314; 4945150595340450836; 7417690708638573086; 4781620225804156641; 12987565161897552932;
  15626898998864398392; 17978010145430853574; 10418600072527442139; 8818656625570864459; 10373915914045918842; 15190069600482643514; 9349015987373899742; 4308418976240558686;
  9562946878180392159; 18148461943291486869; 3148947614808676860; 4051431211387249578; 12463186045033735383; 15077753386391457742; 1961387023034419463; 3708845354319286543;
  14552758537559033661; 2736678004860708952; 14457749735074345882; 14029887953461360024; 15461993138513295772; 2144611852258249714; 95127554119693479; 6163344680694133521;
  11229630681178866302; 11325611458022834315; 5918399866261980483; 1087649061298963715; 5567470920251096034; 10065108162251094492; 6231748605458592485; 4681856028876393394;
  7730996569256677966; 18191923444051301575; 14145563181638858605; 7645971333396375273; 13485187662069852455; 6717816335105048640; 11497222143261308376; 16980139509011667255;
  16205208066089724818; 9875412709758962831; 362549687099654913; 7631619400388126493; 189979126593221971; 14334346037391409726; 2374148109004041049; 16304868908924493505;
  7944927460063170895; 18054297562503075378; 5670214785167669782; 3856058978710197242; 13368921996720905332; 3498012891271598331; 17455772876830647651; 15675926228376730783;
  16482481824467278900; 8273335106892607002; 9389274606888189482; 3452765781758766682; 9447586112518064781; 14557551315397461705; 15291684277197950159; 712436298596878326;
  16930267857803062672; 9826139189642033192; 10535252765868328328; 14820281829987954843; 17696231683821490993; 3922774046068838926; 8323000054159628989; 9181186521427533386;
  8004017420834973160; 17637313251141658518; 313562044519872422; 4350596245195854860; 14920081211254130120; 9290810034826611577; 8541416952373762492; 8978250748869402558;
  8371000338918878447; 14652243458567090798; 4830757402133842502; 17423402151578150039; 3090235885902097755; 9096099713050815213; 9063724585305320217; 11134692247404639961;
  2740903433756010924; 14392420048374970009; 3614562230519522728; 10184183078091062057; 16791499589737032804; 7203762016889020703; 2522486535541877421; 2058926904166448981;
  6888408870521353491; 7904110287429292219; 930868590007485687; 14870658157791654255; 7467276490933655225; 5044670700754291015; 10620977292235469103; 8152585639694315502;
  7109232602484626872; 10015869826607320443; 10897784860781938313; 17338205387558506544; 13318839239380789459; 11448045380403429759; 12941060215175289462; 12710537694124612482]%N.

Definition wp_T5 : list N := [
  7554057267686435000; 15039716111955316845; 16960569255003941664; 3136552006503312253; 5221213700140583128; 11372605015699856826; 7701004858012887742; 16452620957499319345;
  16377423231082292024; 11751423949813294072; 6202453789641168634; 9349328780725944734; 9049085917196549511; 17371187686474379534; 9631894318017250706; 11447169603774357183;
  3214582023501655156; 10271589843235409551; 8684602128778950792; 14611118465273743939; 1678638349144233785; 12193251385062042086; 7059444432124338595; 15395245485729371490;
  6716224456816942567; 803708172669487901; 10125803457514081417; 4381155546321665092; 8626257958117275545; 5839113605052715507; 2497823441699349094; 4780336157105996486;
  4594768772589371201; 6060044983582610684; 4708568881399153091; 9275854976972783773; 14761443755522051145; 9701955100037514903; 12917996373121676232; 1763371290075863080;
  3356990709301128818; 6275346982501832697; 440842822518965770; 7131229377326637734; 17583164581641253889; 3958292007733311066; 15110357504868077934; 7771663834521758653;
  1979288895281109805; 7344262044241454511; 8483814105125582239; 1175580860050575408; 15750669289207290483; 5291855161772820955; 2791718347474347626; 17958837310291835158;
  14681759926905981760; 7413795189495850666; 16671318171217028916; 13432189312925612755; 12550434536094084847; 5768472212139954416; 5910881018198512374; 12339073092594412512;
  365117218817901839; 17300528641246031885; 952907580123712791; 8332433146208547733; 4312132866553887565; 293895215012643852; 2350911156004069472; 18312097180262792735;
  15964880778683080058; 17656075426817504514; 12997047114934826177; 6863136862771306465; 730234437635803678; 13068251449244628418; 13900165150582816861; 11536649707919024381;
  8189989293216854419; 11892671688705680882; 3285786426530934135; 6988785386895990944; 8261774100980200086; 10657184127298802600; 4169724043315460427; 587790430025287704;
  9490611566551466904; 2424367290261774691; 6643331195236801764; 9773177103842772884; 12776678402924065230; 16160977817312485437; 0; 14116628233848079192;
  1322528330117943862; 10515901204034326958; 9986772505996200579; 146947607506321926; 2048259305296895012; 16598407326040778295; 4993386252998100431; 14045986840935318107;
  14191808531287819345; 18243725050634960154; 13797218562223357916; 4920493060137436364; 11610105842176729598; 5503779271791627476; 3746860436007629653; 14264701724148483410;
  9560672314211992721; 2571279575957054309; 8976175140739775620; 12703222268666360013; 2716010396088870255; 1531690879076865343; 3882583918908880223; 7624716244195305915;
  18385007956719566620; 10736251937311986849; 5576672533371768279; 8119330247988506768; 11677967815555588859; 12621638939123363820; 14834337017102191946; 15468173845782255207;
  7836623079855647924; 13209569419442239428; 17888178333782964245; 661264165058971931; 17516974192454791944; 7486706034672101289; 11821467354395878641; 16889910278495070755;
  17040270650036251689; 13138365085132437191; 15322352292868707425; 15185537664868864619; 1460468875271607356; 2190703175468457506; 16231636862540833086; 2644806061779068012;
  4096267840338278472; 14337630221640320599; 15821310750839528304; 5438767430288231389; 8831549581666450062; 4238676663576705614; 16033305470120681087; 6790243601191165666;
  16106198731700821884; 10807473941117244834; 18170814274178186265; 12265616889617230563; 15541067038642919268; 14902761845978746447; 512064826324223753; 1095351587734228753;
  4452359949350944071; 6351758423794145512; 11153345066743536307; 11007558543583254709; 11301383080614075577; 17446315147226444299; 12033989796342245364; 1249054663803736371;
  9123122593627274882; 10060246241029884800; 4850977550018757573; 220421411259482885; 16306764185853944379; 15891987517102939257; 16525531802675569970; 12844540238863971019;
  5650691540307037906; 14410523414500984660; 7909533856312421815; 16819286486358288678; 2862922681784149865; 4637927488486392000; 15609351336189548661; 4029496342043113305;
  10583710323545641643; 10342811778321190796; 73473803753160963; 2119481240382676263; 5981522411111273461; 4523564369560092226; 6422399885426383339; 13970806543495577950;
  5723584801887178705; 3673404301749924438; 1607416345338975802; 18029461239867570707; 8410903259949331612; 18100120216376441616; 7201888422554985381; 11518391538860138428;
  3811379584599077980; 1905815160247425582; 3063095803526130302; 6498670829748509422; 10197025392599862666; 14540441836449286470; 14975655107558887244; 17728951087621666311;
  10442427400281165997; 2920687117726656632; 9840986120274872453; 11226818801777220528; 3599948012873396563; 1024129652648447506; 13651396992129940954; 5368125968655993566;
  16748627509849417765; 10877534860576462503; 11962785462032443127; 881685645037931540; 14469800374817048645; 8755261105287821707; 13580192589100661977; 13726014159194078943;
  17254464195138678572; 7983570670182100658; 5062901728757040842; 10948756864381720484; 6569312291380747245; 17113181426493025578; 1836845025109547307; 15679992797821786486;
  12404612828561714409; 11081032278616938934; 12119795182084860133; 2994143320703838587; 7271351199065203884; 2261925110554238753; 12475817231590993386; 6132938176443274751;
  1396002133871104821; 13505645515902794704; 17801861932797916932; 8056481446638874545; 13359823945809377750; 5135794921617704905; 3428195112330407793; 17181553418681904687;
  13286367742832195797; 8902208558175320973; 9914459855308556678; 3526491878615691344; 15256179057781625704; 9196033370084048769; 8553347112941024922; 9417137762798305947]%N.

Definition wp_T6 : list N := [
  13288105339180640360; 7913026641196470480; 2372095232866053099; 9019451411016395563; 15584835678208608328; 13447136729397173661; 13721024917432920682; 3595090158473700580;
  4099199575620379619; 17916187321210086307; 18038626844597769814; 11421620673542324609; 9763123186984320381; 1076662518431281649; 10558033316717233541; 13807715967508979358;
  8371237869428943916; 10344359345248833166; 9833757016223742072; 4884933482046147274; 4113840041213237015; 16620876516946323881; 11772963782995239265; 7121781893395568085;
  16671539474545794397; 2092809712149400331; 9911444302952041612; 4917030283431918652; 11058508207951869815; 17532804388736225617; 7359631714687787554; 14286076807623426626;
  4701691927983243071; 18182185748274959444; 14069623684588912961; 11349276072458485888; 5317866254438747340; 10918594961836639878; 14461979730918093747; 2889191930618976280;
  8227678965281992238; 17966853989594453847; 722297982654744070; 11989416975051219554; 140741830684964084; 6500645541568722486; 7985360178175463889; 13649243335021980523;
  3250323328953948955; 12638767480247706981; 11490297350878688629; 3463356626555113488; 8348149366272678618; 15801284403531893065; 7649010117815182886; 1655418777077742073;
  4669036643141864395; 12278751123906717286; 3812117226578569191; 15256621831506410170; 17270790109971394222; 17316355663681376336; 17749257512307610194; 16189100568763804587;
  1082290149704926469; 1004328912497930480; 1661046958107200781; 10769130078628639603; 5565279009930427195; 865839156638778372; 6926712274344222752; 2305317044786167550;
  8853389288168938973; 213084232711861749; 13957885364612805812; 16239767786903986015; 2164580299409852938; 14030221100581631413; 6755653765646762176; 18275636329517326496;
  10624458469252034929; 17484393505962567077; 8587688793742060845; 11556514988986032224; 10840911660771144306; 12147305423869154195; 5420607537388796217; 1731678313277556744;
  10989826995196887939; 7143171994482450721; 16455081953128963164; 10702700390675220359; 14893773271824576945; 4458642055912480992; 0; 6396211354376127427;
  3896276204337631762; 12579099101677719953; 9478555649070107274; 432919578319389186; 2602074398276721692; 4028005200703383270; 14935427380901856581; 6612108193548845762;
  5892101869147505860; 1944761995965169149; 15906566073352830911; 14718969859753460804; 18347980861579698593; 15297709073821158476; 6139531666802029363; 5964444202220045765;
  10485697511726941316; 7287861058674303779; 9546665597150002300; 14821428739762204848; 8009002353819723045; 4545611591885853973; 6860637777036391733; 13504554132921411945;
  2089429070392918015; 11643211124236522644; 15514166595237989709; 10408009675242827888; 18132073165299425954; 17054895470056943535; 5390208587779722701; 7482354739991664342;
  13000978735732714604; 14174888311978571703; 1583085171412826360; 1948138102168815881; 644886432742700019; 12206978337857759079; 17412057769993741476; 2587992003352849130;
  3020924912781749484; 14390782952161457846; 7049439560323028180; 7769481068561683154; 4329160598819705876; 2458515631568723486; 4530975661845832161; 7792551429775041572;
  5204147816982132792; 6325017049353012934; 8132252527368395739; 15945973467656637259; 10266676593939151482; 5637049665675475514; 9213944542309506782; 16311540641638866526;
  8998056499498770399; 11715546929226814869; 1872419594206706940; 16404986412584708778; 7266466696912492503; 5750763842457161422; 650518599569180423; 1229257815784361743;
  5133481207745035581; 16742173373142227032; 12941877086956067482; 13085422796425828504; 13374800924675316892; 860783202961060594; 17629060717896378279; 3679816415714808081;
  9403124422561988222; 9262669873733798795; 14214295156526564163; 361148991327372035; 4315096345838740194; 8781046954827963612; 3667432560500598245; 14677865575007433394;
  15154167761794190926; 6109129006273841095; 13217436325567032685; 2803888911278598633; 7577230665708152615; 13853174959534063680; 8491712531094558936; 6428866089461692215;
  12363191198937027218; 10128464773818978191; 216459789159694593; 2818525391074434333; 17677475861210747731; 4773471379821837886; 16958622098465511769; 6827987302625755585;
  15082394907059310415; 6211302322815513138; 4185619424298800662; 1439521869688863482; 11273839760775935092; 1223625099202067451; 11917635392908714851; 13591821396079124383;
  6644186852991710260; 3322093916214401562; 9091222066761443882; 17175092813955553882; 9983780107673898381; 5100830183578585545; 5534875799646425039; 573656873451517686;
  12506754500593881232; 8658320218604972072; 9622101359076739208; 12725991311619759003; 5994842602073305393; 1301037199138360846; 15761881269768797629; 16017755118485064266;
  2731555305613682920; 12076108574883092118; 17844955358079264422; 1444595965309488140; 5028496646331156680; 10050205809964513657; 15689545533531536572; 16122460713267281598;
  3237934388431089647; 12857437561681571438; 14575410955539400262; 11860214003721672599; 17103311163127126875; 3093267314540211693; 3105651719510235417; 8564046068341987801;
  16837874929698778284; 13157767397241231769; 16548531984615516328; 8874779939011635497; 12422309890144953444; 2386736248214724383; 16910210665936039341; 18398643269423355221;
  3824505617345614611; 15040735987685505979; 357768899326703607; 12785664775364177775; 15472511936404896185; 14503638100536084295; 8155899513443397423; 3453822362824339182;
  15400167404074088632; 10194895011528211323; 9694445959892142473; 5778382881935077424; 7553584229388964819; 9331351636244594559; 11130280994000828022; 11205712770264760962]%N.

Definition wp_T7 : list N := [
  7545896441425679720; 15018889820206184400; 16942800595916447979; 3133708775705184043; 5249025035098813768; 11365570141803893661; 7691702721604083562; 16443174761579107300;
  16373086344951908579; 11815372934905730467; 6267416473373512534; 9340045336648728449; 9045336454690149501; 17370085876103254769; 9624902324687842181; 11439036248490695838;
  3203234285596285996; 10272586007078145166; 8685324397895976312; 14574715767075685834; 1673394350533331735; 12242658691304142761; 7035574761456334945; 15376086990599726805;
  6766479446599742557; 800808572355290891; 10126779744618317452; 4342662791820332092; 8618050988200736375; 5905152634215663697; 2478706758675048994; 4811606194033022786;
  4557994408483144511; 6123862062265145684; 4738703079983241281; 9267705146512816768; 14720522098793700300; 9698368362652017798; 12954801441112999347; 1740668162889250840;
  3346788696702817838; 6339193704696583767; 435167040722312710; 7108477875775731554; 17582602718030529524; 3916503224694861366; 15091229967122936529; 7763479918835718763;
  1958251614527780635; 7327187183300439141; 8475622476464438389; 1166450241429327888; 15741165458730292698; 5321928131970035785; 2768067519213977126; 17948807395042015993;
  14645930014086643915; 7397838463446410086; 16660195305677675751; 13462308670083918010; 12605485386466536622; 5832249537345490256; 5978055748267542354; 12385087254582410667;
  364515666086924549; 17297745728917149680; 943237187173169421; 8328690228731355763; 4273137419370288955; 291612560357331972; 2332900479035351072; 18311634030339891710;
  15959311834288983773; 17654942899576375029; 13024889916532547252; 6908908026520747615; 729031332173849098; 13097230072039103413; 13861447327804221376; 11600604250480646816;
  8184009917181372529; 11957801428390775717; 3276137391057312045; 6962671664316808544; 8256913031498671986; 10639916735387395475; 4128457108354817337; 583225120714663944;
  9482473830668547459; 2405803618855068961; 6693576315368780124; 9769582618521346439; 12812372946556309425; 16158317635026765792; 0; 14076216037998979267;
  1312256521605896722; 10497488241365479313; 9980973585238235274; 145806280178665986; 2027776986180250652; 16588981024038672870; 5030315501823675461; 14005001790989069762;
  14146304454360232900; 18238168018142506749; 13825135484968270271; 4957412370593761604; 11672944440346943393; 5536133822952137036; 3698919841507770163; 14218644635636725445;
  9552562168911670916; 2550483998587924259; 8972433323191931260; 12740032756690012848; 2697416144847941925; 1530965770077290773; 3845851850326729013; 7618799538564157545;
  18382848311977846015; 10710005211067383444; 5609036954183099469; 8111106820041846128; 11744158644946276514; 12676699642067298735; 14792862280071241421; 15449553072319670742;
  7833005229282673004; 13241910366409478583; 17876467247856959480; 656128260802948361; 17512514438844389619; 7469615695038834279; 11885461272884219556; 16871586348638234090;
  17017392680891546604; 13170696110809765046; 15303746809323234260; 15162444283388935634; 1458062664347698196; 2171331397823653406; 16230657782212870881; 2624513039387964452;
  4055553968534050872; 14292110717358766534; 15812379705741250779; 5466608511702628939; 8831130678072283002; 4201360179456365114; 16032777847288398302; 6837130795196627806;
  16103992128659096799; 10782345366843554709; 18165827836597709820; 12313872964621908138; 15520767353689320663; 14866328293072753102; 506944246545062663; 1085665698911826703;
  4415565897281358141; 6406467390076495192; 11147423689211824282; 11003869226563584664; 11293229986028770972; 17441300191565127154; 12102481722763248039; 1239353381518660881;
  9115987803554552702; 10052187875466255755; 4883383390996353603; 217583520361156355; 16301872097672646114; 15886971653011442652; 16515514943124952805; 12883587151153545394;
  5679688302777887566; 14363324998728416455; 7905908360780891245; 16800372101896891113; 2839844724767111975; 4665799983113067840; 15597611064267022296; 3988280430247996215;
  10568702445158326418; 10343800262946425231; 72903140089332993; 2100680091908794653; 6049832945230873171; 4486217202928961086; 6479370486947717209; 13933787474720973505;
  5751465534102007375; 3627142601594894898; 1601617144710581782; 18020021641785456122; 8402719344965171572; 18091235889063670011; 7180255073008415331; 11510250504358975903;
  3772948744866751540; 1886474374346338842; 3061931535791260202; 6552273669718028122; 10199119900393440141; 14503501519528118985; 14937542574443451599; 17728408980492192246;
  10425148051229567632; 2916125324871043112; 9837419122592092808; 11218637979439844763; 3554239461772817713; 1013888493090125326; 13680455121878414269; 5394831314738249546;
  16728031954711834600; 10855811404809827478; 12031267467163534502; 870334081444625420; 14431161372610318280; 8758227495034454137; 13608114966370809532; 13753921229367508158;
  17234413156269585647; 7976559709647391598; 5100966781700031302; 10927025660679156119; 6624050866682407515; 17089732862436343533; 1813571302977535257; 15669951211184823001;
  12459679123467740844; 11076209416698447769; 12170318501436797608; 2989028464691809577; 7254284051801172324; 2243108603645354783; 12532019278975345581; 6196765193495059541;
  1384033761788387091; 13533522960044420539; 17799623262131195127; 8048336941238767215; 13391094396768249785; 5172744013023102535; 3418565902257001263; 17163198874631631342;
  13318754206900904632; 8902907875303918203; 9909759312726955913; 3481336321953099824; 15233658530398845139; 9187765035145928319; 8546273756608312182; 9411259540439478402]%N.

Definition wp_A0 : list N := [
  1736181741921556600; 2531978619446961839; 14323232176999414009; 16782705691622374255; 9765937627223870369; 13310623686599446882; 72342371928901893; 5715016591238892910;
  3906408918769572846; 12008557748839644932; 15191323045946854589; 17723075159993814534; 8753180704741758592; 8029831754386714830; 10489356948942384623; 5932074491376760839;
  6944726963829819389; 13599984378217837942; 11212749880486016973; 10272305642475915916; 11791541628709229077; 868090870960778300; 8897861050553042058; 3834075342800519393;
  2097876008708928873; 16204019492757680967; 15553010715629855148; 14033880281604070637; 3327722719091180438; 5425673492343433594; 18374158706064710945; 6293773156708701462;
  1519189809835851073; 8608517952186083510; 3978746892516692715; 16565702764932079190; 11502119368063194073; 17361391888356287255; 5353335518629863551; 15770044427841455253;
  6366093538580144677; 14540230704434171850; 2966037247995247757; 723423719020583458; 12804242476535730255; 11574529906421909786; 7740488655491241178; 9621257281750227371;
  13672324550988217459; 6727787805865578292; 1157477950862430288; 17650734987121723139; 14684902253816896960; 4485095116300473286; 361711859510291729; 7451110372215322854;
  16493362592059987795; 2821339310935311035; 4702254171371500376; 10055271930160523165; 12080893523563509249; 9042532600267125396; 10778700048240495099; 15625368480412227231;
  18157124993711566896; 17216751126630878577; 8970190228371782545; 7378772398366487011; 15987069344234765198; 1663861359554113355; 5136295207993754950; 11429783593338280668;
  14612566479126582469; 3255389143390574745; 13817004896732393081; 506383409228562203; 12514916968870030371; 6510778282435850287; 9476585732369608629; 3689386201565214463;
  7161749681133804786; 144684743857803786; 12297892052715803448; 8174476915024846504; 14467890531697346255; 1808524113850454397; 5280993146534247280; 15697708653149052826;
  17506067836051861789; 16421031215144609864; 6583116256149420330; 9838260207605824658; 11140414105626885832; 2749001337188191166; 3617048227683876858; 12731902303631137098;
  16855045864360243818; 1085104792205293363; 15408330369885680550; 9259574010083341498; 13744669122008524668; 14829591396056755166; 3761732971006888420; 5208650774774166133;
  18446494480890287140; 8825523076838428047; 10417016776036738282; 6872459355581750590; 2314955901709925792; 7523465937918824405; 1880866485510916722; 12587261539890345772;
  13021245403063483742; 6076759235366669849; 10634028498323013605; 2459640645565624234; 7234096450870141929; 17433732061094160914; 8319157260567694498; 1302162694720225882;
  4629911799611423325; 578738975431215144; 14106216056294381032; 17072066383110725499; 15842380202531769744; 11646870079326502943; 10199961071458750851; 4412761540599859401;
  10923380393714146289; 0; 14974271741532502484; 3110717593535999623; 8536179978337247667; 9404249957510473392; 15480674940805327017; 1953204459393303415;
  13093585575833859163; 12659597314614214185; 7668150681776627167; 5787389747789490701; 4991623658546026316; 17578403610743224344; 3472363483828170224; 17289086901456454772;
  4557433090047597251; 6149101607260964636; 11719205853851147024; 16927381639049505125; 7306438822765488876; 13455299634297111400; 3400060692838304403; 13889204333906398951;
  16059413914885972097; 2025533636914248812; 18301814135416636974; 5570345041522728804; 10561692723463878368; 8463846402736257724; 434045435480389150; 9982936155301392024;
  12876578251060366144; 16638047335848576345; 1012766818457124406; 2242547558158755683; 7089411707419186679; 15335990197014641315; 12153216105018130738; 10851044618989228788;
  18012453444330938938; 14250887606079759350; 2676667761219145905; 6438435910340225824; 9548917108978798766; 8246819286853076391; 4123409645741403357; 5498002669628429921;
  6800121381733962811; 8680838332980633477; 4051067273813550552; 10127620898687326342; 15118987270986012594; 11936213178087760907; 16348695440453247309; 7017069335590948600;
  12948914025918448197; 2387298273637774501; 11285098849549682902; 2170209584410586726; 4846934516912251218; 14395567951823942140; 18229473962544549675; 289369487715607572;
  5859732119549567752; 11068078330836952519; 7885160204668445380; 940433242755458361; 18084789219020208437; 16131749689710504324; 9114866176136554907; 2604325389425514932;
  4268089991282163415; 12370227827573889597; 14901935966707970257; 1229820322791332181; 10344641417200829321; 5642678617391105131; 13238265921309599313; 16999717413740863584;
  4340419168806224332; 9331914182988987839; 10706359875469066494; 17867755505735900172; 13382963859504044135; 1374500668602616671; 3183046771596939676; 15263658820637164984;
  16710383110674156636; 7957493780537883083; 14178547433208720115; 217022717740194575; 6221435182860917779; 4919281286651731529; 9187204149985386654; 12225556277922727991;
  3038379619654657922; 13527635409155197549; 13961544506643220450; 6004412465090326786; 15914729171363721867; 795761692902970151; 11357439022321107411; 7812817832773102529;
  3544705855756018933; 8391504030840910777; 17795419730910319881; 5063957234145971267; 12442576796099650854; 9910600380511466903; 1446847438041166916; 16276359665495554626;
  1591523385805940302; 4195752017400821714; 7595808309679949520; 651081347360112941; 8102134543263717293; 13165930146585734996; 15046647098249191095; 17144406555982812798;
  14757251223185711835; 4774596543198685271; 10995738157931310274; 11863873005317385486; 2893694876067394952; 6655445433971279409; 17940113271593069375; 9693601852498952868]%N.

Definition wp_A1 : list N := [
  8653693244480733400; 12619969498119603494; 17998291041135460024; 8063950382317900795; 11639420833962740939; 7113638839492716817; 360570557579986953; 7948659627731599885;
  17164966790865792411; 335138804858116607; 13678226378816609804; 501576326571293454; 9257564148982673302; 14875230902103727920; 17262739025646582893; 527575324247436024;
  18257699131298228039; 8555921035452909877; 14815606581995875383; 10128189359225832586; 1559270184283632082; 4326846622240366700; 9978705246962777988; 16227935515341600128;
  7574242202141452533; 5179386127836468147; 12454660122631534113; 17132469631838936732; 10821638022560640323; 8812220509706674729; 2449674660697187165; 1609852120227807957;
  4689677947659987133; 13148109138153611240; 16949076578961958290; 6261662863687318430; 15681428060011858963; 1725142599936234275; 9172225909686495776; 10798183247697518148;
  2690998532288412322; 14612431771850639055; 10171706842347820412; 2452784071191973978; 5742566501170274640; 1918710452433086921; 15738791784078802708; 12359431616742513881;
  8340030832139010364; 3773275311088915087; 5769128921279791248; 285120965657228039; 13892420954711135965; 14284923522307780051; 1226392035595986989; 16602352528614891384;
  6045207502773253015; 13485790941775865090; 6359436455694578291; 11352320669931875495; 119248584364347894; 10699846310583127986; 18128560400583351369; 11518194047657152086;
  3529690783327226736; 8209761060374258637; 10483390941079127995; 16385897176290760561; 10294627843011683963; 5410819011280353455; 5064095235811181125; 15897318280505623578;
  14252426363280891604; 11037528251644343640; 8772941553967141166; 1947533099216353343; 2570902185737126316; 3412139647448378032; 13079442433882025199; 18389098144521487798;
  17465913341870489436; 721141115159973906; 4083263906954885523; 12137607348821209054; 14972437163240525510; 9014263802060720337; 8091079411726578235; 11158188656267265631;
  2158053304584487729; 5252291423914970024; 3052134247468556985; 10558839433473438908; 14455036050185692222; 13701681153679699211; 18028527604121374143; 5381995952180226393;
  7703944990928018418; 3679175986528876663; 12021749400803403315; 13438882702031484148; 8988831774460909863; 16054713967810848491; 16443825710065565065; 8451084794526530098;
  2666130004431383380; 10338710646942594957; 16902168476656530532; 4494416374709273245; 11538257842559524157; 15377656068898645775; 8221912855032811722; 3219703128059025847;
  6824278079420942717; 1825177191711349454; 16542728208507071615; 12259398957719489839; 16817677600098420579; 1365137208546351914; 11705826942193418188; 6490270036439765122;
  6719441838494530170; 2884564460639895624; 16772464223269181077; 8929771825974162399; 10438177839127762509; 2279281001423135168; 9479388416903945361; 14500813751391483336;
  17408549617803578459; 0; 15334703185031083769; 9739926435720021358; 12931653785829480417; 12718871902071842022; 12238204778897341992; 8582483395432929475;
  6608387876107043188; 3003812907565257150; 16098797184058619677; 959355713695365866; 5495875676798718551; 1798047896014736184; 17307386488961408429; 8426216404108454852;
  14069033310403945946; 2041632561215345351; 1198699652473453019; 7343939582358258665; 17034132969602420586; 7546549544140978435; 10605747810656806218; 16699558927190675086;
  9358161716497727072; 7790132396865413372; 3386140787211156294; 7227518564111241759; 16182157676696888438; 13579889579141140474; 2163423311120183350; 10991750138121692334;
  4661985152220592459; 6478118241781244805; 3895066198432706686; 7142461761153923303; 17825918741850306389; 11805294039889342010; 3650353202306623873; 17624439838297343058;
  4249701600466738018; 17781835663041521315; 12764649878155506960; 2330993149488460459; 12575321820056409296; 12065832342173235141; 15940835351310751212; 7011063194607245846;
  4277961022385146516; 9617569531782621087; 15580264793730768357; 9695278620217840792; 12885310282778461719; 839259367144112612; 5612296832484721569; 17897693748498280270;
  5022555684030771522; 11898828400139506996; 15464407541497631752; 7358351973057753326; 5927656049066779233; 18214746384869652145; 3169685426297090895; 1442282230319947812;
  599350330895413987; 14382695894527491109; 14154089838483361570; 4110956427516405861; 3889696191896978297; 9574617060231919209; 11204532021879363497; 12980540072879471897;
  15509054944682952190; 4443834438765064602; 15118247841296891632; 6129699478859778201; 9912299138732067971; 7732204275407473156; 5888377093327278438; 6983934173788507104;
  14716703946115448257; 13799453251021536509; 18344450603897246784; 934487048399416092; 7474209388482765080; 6850840576839882891; 11253418446368308561; 13318220970246854149;
  6694573585515441036; 14658775549779597113; 17565380302127460010; 1081711655560091675; 1393396767903681244; 5279420307294722654; 11420987374203494304; 4010923751296672136;
  9379355895319907687; 7907120075951157514; 16339553535800788615; 167569924267614961; 10078172482097622642; 2813354611592091731; 15248517338183736321; 13937634468979361579;
  17667957046541391268; 13363434209637140467; 718031704665219861; 4847639883487054412; 2786792389051025829; 10919409982463491253; 4905568142383947956; 4819380736446585786;
  5626709223184183462; 15148484404282838519; 15017650686098697990; 3245135018219882561; 12497612731621156823; 6104267313821047151; 13245315674168348190; 9146227186888227798;
  15838258606896787170; 6287661449046600296; 14022125345537438764; 1055149570458012141; 9811136284767837557; 3556819941584919174; 4609706991856620395; 11855311054456505538]%N.

Definition wp_A2 : list N := [
  15598243801428687040; 2787485329293291269; 13328903127358175614; 18117955909700841235; 14673158077332037964; 1252766750361543337; 649926825081898248; 967798174163889730;
  11235977727405649581; 18375995615628100697; 918121700247387614; 1010765599056660219; 10844801465646153967; 3516870884531883615; 7921710324453076988; 17872344162516469674;
  5187408313924517159; 3852474050554918537; 4021041135296957868; 9983511216918531076; 15138185647122224497; 7799121900714343520; 9550581730377435903; 9286762409961578933;
  17683697422894459368; 12918541309850961747; 2426551619355651318; 11307908379416128862; 4870130824066799213; 2988784091921087074; 6710925287170646435; 15354556014923290242;
  13637204327651426728; 16768721618120193695; 10586616059924048805; 11409559478553892475; 1430349865080052108; 2528754629608478675; 2341672016673406826; 4942096797890418078;
  11683841947161077242; 14973001777459874310; 8974874890555985237; 6494764651191607888; 5787039423429431265; 14491071364328331881; 1502631536165116543; 15684776935983262556;
  4356033887713719169; 10318975304107635922; 10398829201310371968; 505516912037594099; 15978995551736414230; 15259952824511809261; 3247382325595803944; 8711764224116254239;
  10904310791534826355; 196794058942167845; 8311464863016769586; 12077963206950886700; 17726633948112945489; 12868048013401887951; 5331019053833518044; 6241946032760463246;
  8084238386870300811; 14803876156917313827; 13515720830956114375; 8206515537130742551; 8903297456676900518; 12631214968400202680; 4991755610631915010; 1935596344519351428;
  15331883476522288414; 6384183620070644085; 3348918628689869201; 4547235975558273848; 12403948761186640641; 12695465221173161962; 17272856547072128364; 13186314529529921413;
  6697524875481051711; 1299853650163796496; 10608416573211949113; 16044198405126334639; 14325889702178639630; 15095249121903738312; 4283003827189805170; 6889058108041697926;
  3539252003579502019; 12126192561746561099; 13342577296420842210; 13588073145667457588; 4524035814922569892; 846155726423768621; 13833424397197834893; 6434149291063790313;
  17468031292299373083; 8589225471710802808; 3721897254531213030; 17634548580809226868; 2845358791598177433; 16996248325349826086; 9936124077376070845; 3635891751875016058;
  6063252469515756715; 10200506347812458487; 7271783499404733172; 11330598577918394050; 4440584556011102237; 1140932879588054375; 14587750842751414992; 13199116674284792857;
  9033856590988730057; 14850993970218277274; 9215934474881328620; 3434595196961204749; 7199395862880250119; 3031751516813857499; 14745475070230241983; 9392839842260474512;
  8817274292308827450; 5199414600655185984; 10802098950023407702; 16103725391653141299; 5589208873104543894; 13843961496693972833; 10485379996503081756; 14468162611301960181;
  6625243204395987404; 0; 18002242099760583734; 7964381931811604293; 16263472931134682007; 16622929722090893412; 2930109248934685182; 14084756163159357400;
  8384494923540683713; 13702676511376484625; 2152556153600139127; 16865224488131759546; 6290478945662225426; 4042248890717771979; 12533570747034038429; 14156203339262424107;
  15763512661637055461; 14347436340739906706; 15785295514823692409; 16818106674830796035; 7704644549932870671; 245651491270584505; 5373690661192045413; 10297411005445105486;
  6954084346846151102; 18188943902233095392; 5057258695104999099; 2262017909566825554; 8566007649900093668; 18067444953150504079; 3899560950357171760; 12580957886576498724;
  5422530432345456889; 9608965156426373475; 9094471951116547696; 16673204464015860728; 6194527988309227319; 4225454884043138030; 9309688823089213993; 5977568179228439748;
  7078244612593760923; 11814848123741009510; 1202783418193391925; 12330954022475866354; 15037101910748606036; 14242478183058417591; 17067861081042050517; 1612654034438349146;
  10681234702857026506; 11494726083014067687; 16562049444036008157; 10990626475875272212; 1707657906164445894; 16432409797550476097; 11623195674608291139; 5690405201163450415;
  4775420564643988977; 3793474688410297621; 636868594262398612; 17178450943421605616; 7012741528120676898; 12825345497779141750; 5704931512692779955; 2599707300327592992;
  16359415058839701682; 2722313385241331644; 2505247610721125455; 7293875421375707496; 8734163004338877827; 7603448221873964214; 12221501095620287447; 1852145085607883837;
  18363211131511363525; 11114228210117328177; 17352878224732770622; 11048756026392270216; 9478264737479231756; 318434299102522186; 7372876064889459153; 16168182057362219019;
  13964602774109605117; 18284475405857570684; 4683344028598861524; 2021262973094792427; 1758578387334031265; 10042766667275263896; 5880623782878289021; 412312270854666454;
  10114213843378330731; 4164543702153218903; 12318405753252934510; 1949780475178585880; 15858113644468769674; 6794036575140595994; 11573828277998952159; 9815500460061701921;
  7458570294872670797; 751463128175963569; 9791601576119493190; 17366534733157302946; 8253933581581978542; 5991769971599550296; 131622114890208156; 3152920428275351879;
  11886460879433233813; 17562196266097883527; 1516014286142835171; 5495313240177394442; 11900388924027840009; 13085078466108954428; 12989529302383215776; 13421538197056340571;
  11983539943199100592; 17857399494572430029; 491008262220140655; 4696419921130237256; 15541201517887401383; 8022237732404614361; 2213467335490058190; 15456052574065360443;
  16346884450254904110; 7518550957479843626; 3225308064799834804; 17081771464998522441; 8469063253549942877; 9669611428979159514; 7728169229995229075; 14025483052164490308]%N.

Definition wp_A3 : list N := [
  13895988695131494520; 371176584757191599; 9131322876620162809; 1439867551992899695; 5533694170622101409; 12182627012528420962; 578999528963899653; 4759581668121071470;
  12509854306559211246; 6484907102249133572; 16000372289311593149; 18090404406641227014; 17264127480789956992; 6859209210495856590; 18189457878512734703; 12319604830832579079;
  2830509481205457149; 9886939109956107382; 12409613366458358733; 327228466842799756; 8201641663969927957; 6947994347565747260; 18411993439555910538; 13078700936528868833;
  16786438759857462633; 6031243357139624007; 17735646850593380268; 6817585356672320237; 7873301698665655958; 7073319153576004474; 11771602380085263905; 9427465959363925782;
  12158946127776781633; 11522660270851323830; 11930856985242187755; 8907652658378237270; 10093650469470379993; 15214030289774702615; 7647252124335491711; 11404404923609373333;
  18060038517088081957; 490833852420770250; 6159953598265108877; 5789977697452952098; 16235564281281556815; 7622653121499340826; 9157184097254992858; 6690567311395554731;
  9312445388266585459; 15172403245246537012; 9263992463422394448; 17511970026654135299; 1647685020208384960; 17137258977709670086; 2894988848726476049; 2267815744176220134;
  8329218278391145555; 2666899706196076475; 3635346361517556056; 3217713681445981085; 5905909780931979009; 14966187778403433876; 15873494981523183099; 10256560955076237471;
  10047584627470695216; 2579843432565436017; 14392256998043581585; 1689381364189259491; 11996339115986181518; 13307937986449053515; 163614233429886790; 9519163336227266268;
  2221617990968003269; 8455676719703469465; 10461432848892870521; 4052987906653488923; 120510518886313251; 16911068665895344687; 7849692251983217589; 9635169048175391743;
  4565790630934307826; 1157999057927799306; 4148721987401001528; 12672751606657413544; 1064766823180126415; 14470484624468023677; 8231296204023744880; 9682627984316881306;
  14065056040534929949; 5451687492538917704; 16337135695135857450; 3800073300697516178; 11835117437122222792; 3245897027513099966; 10214157573399393018; 16814552806505427018;
  2013789536259598698; 8680462946550222643; 16587785289873937830; 8427565863793426618; 11035926570582654588; 2804580168462159326; 13657698257845630180; 8805229174782969973;
  12345533160444722980; 17838071455289342607; 17610458349548966122; 14023433394053013310; 2107016260521828512; 7426388954967468245; 15044962961618508402; 1852998900457123372;
  14518864903932064862; 11154881177037067289; 17041591936993498085; 950165109981192874; 532525798354871529; 15792455873668772114; 13820599973237322658; 10412984322095452762;
  4213782931904151645; 4631996231711197224; 6239148786285331432; 3737842473245469819; 10830471952849755024; 7043664596275470623; 2058571148673322371; 17710626799492742601;
  14725629040004470769; 0; 3961431336250298324; 5003084855538166663; 10944225890864363187; 7270692723019711152; 18314074624887346857; 15619458890954775415;
  13939867582615172443; 1278505178767339305; 8583262112988424927; 13468592274211360781; 1321608876064195916; 14643481624428737304; 11362001524685287664; 3153774212924895092;
  16562765256020017091; 10576453402743493916; 8780630189194060304; 281868511312341605; 1110960178342094316; 13331614473154443880; 7298807976976002963; 5660716596698398951;
  13718107259186175617; 16211951626613955692; 13494525001870277934; 5917558718569336164; 16462592408029991648; 10374811904271939004; 3473997173782873630; 2643217752109845144;
  17963522674945405504; 7171236829897156185; 8105975813306977846; 17935413026343690083; 3987365047040369399; 17166213064167642275; 2990727327520237618; 14146638307133986548;
  11196576468896774458; 7396026342352012790; 3823750856737498545; 17486105546328856864; 6111576578524808366; 13242174389343384231; 15414938862426470877; 6491482893235539041;
  14597357568719478331; 16690205496523126917; 15989423788022839512; 1484084015429946502; 14274074158205686194; 4747932713236997387; 4873261908645110349; 3408935065099657720;
  17384534149721273157; 1528027735298089381; 10667011685559672022; 17360925893100445286; 2477351718883771218; 8552895102326196220; 12920594221510556715; 2315998115855598612;
  12890155703824765192; 13557461715791550919; 5702336052475686340; 7522481480809254201; 9473662643204258357; 13144183084519579524; 15540122956809272987; 4402748178054259892;
  14267077318954269655; 3574237061804239677; 4535355510916894417; 9842991992386294101; 901715600085913481; 5333505842787536491; 15088837451055413073; 855790495578778464;
  18285120521182133452; 9006565392757195199; 15294504248652436734; 16941430157401716492; 11608142086931921255; 10991983851059090271; 9030170441392860316; 15421935718924604344;
  7749671209883985756; 6285278430136266443; 7974454116645717235; 1736998586891436815; 10005893733657761299; 1900036650357769289; 16114053737168863134; 2416242401923737911;
  5577569781134797442; 12757129547557682029; 5082280026311672290; 11741168260445721346; 12570263290652515467; 6364473626789219111; 11241498818803047891; 5128405272115834049;
  10783012999461548533; 9796377524284716217; 16362995777414886921; 742042007723722307; 695004240575835174; 4374569230033914263; 11579955394905904196; 6609668941033693506;
  12728947253578438222; 14841562244550900434; 8000310939234298320; 5206492161047726381; 12094326022763212973; 15667834772372567636; 14852510728592412855; 4311773253605191038;
  3378504343128493275; 3055788289270628951; 12982965786455152834; 5326930034553889806; 6734438523861477512; 15746327419912739889; 10622654484630075455; 4954703437751617188]%N.

Definition wp_A4 : list N := [
  8701192490391709720; 12611528865171596579; 17978010145430853574; 8004017420834973160; 11622888632960390279; 7109232602484626872; 362549687099654913; 7944927460063170895;
  17198573999411845686; 313562044519872422; 13681386727423503314; 503011206441009909; 9290810034826611577; 14870658157791654255; 17292817544902717073; 552526614635935314;
  18241627969256726624; 8541416952373762492; 14820281829987954843; 10089341401508515726; 1545247137546369187; 4350596245195854860; 10015869826607320443; 16264047334067101493;
  7631619400388126493; 5139648721056710112; 12463186045033735383; 17104280979788422082; 10839394190449603118; 8818656625570864459; 2423883425048829950; 1622093107738179927;
  4731239495776943893; 13159492506585897335; 16980139509011667255; 6231748605458592485; 15675926228376730783; 1716754468691774960; 9181186521427533386; 10781129968384111578;
  2736678004860708952; 14557551315397461705; 10184183078091062057; 2472575297670225418; 5755970101970063025; 1903273433741983136; 15744325750648192363; 12347983609045815941;
  8323000054159628989; 3806262090148996957; 5800794993594478608; 284578915030401524; 13841494324892352715; 14334346037391409726; 1236287648835112709; 16582105283974113639;
  6013316314047984100; 13485187662069852455; 6355268847062336321; 11325611458022834315; 95127554119693479; 10722985588622722941; 18148461943291486869; 11497222143261308376;
  3498012891271598331; 8152585639694315502; 10504570889398158460; 16363672992563505766; 10279039053057587933; 5456303685604161815; 5044670700754291015; 15889854920126283678;
  14204024220749022154; 11057841874989315885; 8759833850655268031; 1961387023034419463; 2522486535541877421; 3452765781758766682; 13073087381224265859; 18412323858766058803;
  17455772876830647651; 725099374199309826; 4051431211387249578; 12155178734335398769; 14920081211254130120; 9063724585305320217; 8102604033044896585; 11134692247404639961;
  2144611852258249714; 5209442424998541539; 3090235885902097755; 10535252765868328328; 14457749735074345882; 13703622152470030886; 18054297562503075378; 5397943805707079088;
  7645971333396375273; 3708845354319286543; 12026356646584607445; 13435632670210039168; 8978250748869402558; 16007741267703057101; 16482481824467278900; 8465133928901564488;
  2642298124273392895; 10373915914045918842; 16930267857803062672; 4522349867047051615; 11537445578336133152; 15377276861933992040; 8273335106892607002; 3177772414623739822;
  6830128155596210612; 1845013605545999444; 16567757753189378195; 12253502568908613154; 16791499589737032804; 1358725973439221489; 11727316952789783923; 6525859183421699602;
  6717816335105048640; 2900397496797239304; 16741733491745708227; 8877685013826251244; 10418600072527442139; 2261299730004967073; 9447586112518064781; 14552758537559033661;
  17423402151578150039; 0; 15291684277197950159; 9747318495337217323; 12941060215175289462; 12710537694124612482; 12249272746413287382; 8635867201806216475;
  6611693665196032693; 2959355516409605295; 16102371838086790762; 989360411064201296; 5481539681554648901; 1786583357005695219; 17338205387558506544; 8371000338918878447;
  14115929139177275711; 2058926904166448981; 1187220841283386274; 7278918046703035370; 17009931881147641701; 7546066398980264890; 10620977292235469103; 16667416396967206336;
  9349015987373899742; 7845548092137677852; 3367362314033240829; 7228874867537205069; 16205208066089724818; 13587354288131514229; 2175298122597927430; 10963079363109225354;
  4681856028876393394; 6441138513242372070; 3922774046068838926; 7203762016889020703; 17813801372083201634; 11812443347964158420; 3614562230519522728; 17637313251141658518;
  4223077081031448313; 17755058861230084805; 12769130671497375525; 2374148109004041049; 12561894708609323396; 12085345448042337906; 15984942887313427257; 7014943976730711116;
  4308418976240558686; 9648856122265208952; 15626898998864398392; 9661514804267616652; 12882009840931663569; 811180146578289317; 5567470920251096034; 17883599474004173665;
  5039882325139376307; 11895471874599117601; 15461993138513295772; 7417690708638573086; 5918399866261980483; 18191923444051301575; 3148947614808676860; 1450198748398619652;
  626812923021488977; 14392420048374970009; 14145563181638858605; 4136667553446303501; 3856058978710197242; 9562946878180392159; 11229630681178866302; 12987565161897552932;
  15548113488931671355; 4409475099836276907; 15077753386391457742; 6163344680694133521; 9875412709758962831; 7730996569256677966; 5895605888365348023; 6920871959264436459;
  14771175435773166652; 13798182357309693569; 18362373042854994324; 930868590007485687; 7467276490933655225; 6888408870521353491; 11276258773203448876; 13318839239380789459;
  6659570804652979431; 14652243458567090798; 17541145562609635780; 1087649061298963715; 1408179809117731414; 5267626382934199364; 11448045380403429759; 3972606118968551081;
  9389274606888189482; 7904110287429292219; 16304868908924493505; 189979126593221971; 10065108162251094492; 2835107392583834891; 15248064446763743901; 13927148482414294124;
  17696231683821490993; 13368921996720905332; 712436298596878326; 4830757402133842502; 2740903433756010924; 10897784860781938313; 4945150595340450836; 4781620225804156641;
  5670214785167669782; 15190069600482643514; 15019230774495394665; 3262929591710849801; 12513207229587951728; 6114040378765526966; 13244557328974376400; 9096099713050815213;
  15793810376896563660; 6280947354304693826; 14029887953461360024; 1029614636978467236; 9826139189642033192; 3592331199342503004; 4581123168470046200; 11836799732523898758]%N.

Definition wp_A5 : list N := [
  1763371290075863080; 2571279575957054309; 14337630221640320599; 16748627509849417765; 9773177103842772884; 13286367742832195797; 73473803753160963; 5723584801887178705;
  3958292007733311066; 11962785462032443127; 15185537664868864619; 17656075426817504514; 8755261105287821707; 8056481446638874545; 10515901204034326958; 5910881018198512374;
  6988785386895990944; 13580192589100661977; 11226818801777220528; 10271589843235409551; 11751423949813294072; 881685645037931540; 8902208558175320973; 3882583918908880223;
  2119481240382676263; 16160977817312485437; 15541067038642919268; 14045986840935318107; 3356990709301128818; 5438767430288231389; 18312097180262792735; 6275346982501832697;
  1531690879076865343; 8626257958117275545; 4029496342043113305; 16525531802675569970; 11518391538860138428; 17300528641246031885; 5368125968655993566; 15750669289207290483;
  6351758423794145512; 14540441836449286470; 2994143320703838587; 730234437635803678; 12776678402924065230; 11536649707919024381; 7771663834521758653; 9631894318017250706;
  13651396992129940954; 6716224456816942567; 1175580860050575408; 17583164581641253889; 14681759926905981760; 4523564369560092226; 365117218817901839; 7486706034672101289;
  16452620957499319345; 2862922681784149865; 4708568881399153091; 10060246241029884800; 12033989796342245364; 9049085917196549511; 10807473941117244834; 15609351336189548661;
  18100120216376441616; 17181553418681904687; 8976175140739775620; 7413795189495850666; 15964880778683080058; 1678638349144233785; 5135794921617704905; 11447169603774357183;
  14611118465273743939; 3285786426530934135; 13797218562223357916; 512064826324223753; 12475817231590993386; 6498670829748509422; 9490611566551466904; 3746860436007629653;
  7201888422554985381; 146947607506321926; 12265616889617230563; 8189989293216854419; 14469800374817048645; 1836845025109547307; 5291855161772820955; 15679992797821786486;
  17446315147226444299; 16377423231082292024; 6569312291380747245; 9840986120274872453; 11153345066743536307; 2791718347474347626; 3673404301749924438; 12703222268666360013;
  16819286486358288678; 1095351587734228753; 15395245485729371490; 9275854976972783773; 13726014159194078943; 14834337017102191946; 3811379584599077980; 5221213700140583128;
  18385007956719566620; 8831549581666450062; 10442427400281165997; 6863136862771306465; 2350911156004069472; 7554057267686435000; 1905815160247425582; 12550434536094084847;
  12997047114934826177; 6060044983582610684; 10657184127298802600; 2497823441699349094; 7271351199065203884; 17371187686474379534; 8332433146208547733; 1322528330117943862;
  4637927488486392000; 587790430025287704; 14116628233848079192; 17040270650036251689; 15821310750839528304; 11610105842176729598; 10197025392599862666; 4452359949350944071;
  10948756864381720484; 0; 14975655107558887244; 3136552006503312253; 8553347112941024922; 9417137762798305947; 15468173845782255207; 1979288895281109805;
  13068251449244628418; 12621638939123363820; 7701004858012887742; 5768472212139954416; 4993386252998100431; 17516974192454791944; 3526491878615691344; 17254464195138678572;
  4594768772589371201; 6132938176443274751; 11677967815555588859; 16889910278495070755; 7344262044241454511; 13432189312925612755; 3428195112330407793; 13900165150582816861;
  16033305470120681087; 2048259305296895012; 18243725050634960154; 5576672533371768279; 10583710323545641643; 8483814105125582239; 440842822518965770; 9986772505996200579;
  12844540238863971019; 16598407326040778295; 1024129652648447506; 2261925110554238753; 7131229377326637734; 15322352292868707425; 12119795182084860133; 10877534860576462503;
  17958837310291835158; 14264701724148483410; 2716010396088870255; 6422399885426383339; 9560672314211992721; 8261774100980200086; 4169724043315460427; 5503779271791627476;
  6790243601191165666; 8684602128778950792; 4096267840338278472; 10125803457514081417; 15110357504868077934; 11892671688705680882; 16306764185853944379; 7059444432124338595;
  12917996373121676232; 2424367290261774691; 11301383080614075577; 2190703175468457506; 4850977550018757573; 14410523414500984660; 18170814274178186265; 293895215012643852;
  5839113605052715507; 11081032278616938934; 7909533856312421815; 952907580123712791; 18029461239867570707; 16106198731700821884; 9123122593627274882; 2644806061779068012;
  4312132866553887565; 12339073092594412512; 14902761845978746447; 1249054663803736371; 10342811778321190796; 5650691540307037906; 13209569419442239428; 16960569255003941664;
  4381155546321665092; 9349328780725944734; 10736251937311986849; 17801861932797916932; 13359823945809377750; 1396002133871104821; 3214582023501655156; 15256179057781625704;
  16671318171217028916; 7983570670182100658; 14191808531287819345; 220421411259482885; 6202453789641168634; 4920493060137436364; 9196033370084048769; 12193251385062042086;
  3063095803526130302; 13505645515902794704; 13970806543495577950; 5981522411111273461; 15891987517102939257; 803708172669487901; 11372605015699856826; 7836623079855647924;
  3599948012873396563; 8410903259949331612; 17728951087621666311; 5062901728757040842; 12404612828561714409; 9914459855308556678; 1460468875271607356; 16231636862540833086;
  1607416345338975802; 4238676663576705614; 7624716244195305915; 661264165058971931; 8119330247988506768; 13138365085132437191; 15039716111955316845; 17113181426493025578;
  14761443755522051145; 4780336157105996486; 11007558543583254709; 11821467354395878641; 2920687117726656632; 6643331195236801764; 17888178333782964245; 9701955100037514903]%N.

Definition wp_A6 : list N := [
  2889191930618976280; 7287861058674303779; 6325017049353012934; 2731555305613682920; 10702700390675220359; 15400167404074088632; 216459789159694593; 15082394907059310415;
  6500645541568722486; 17844955358079264422; 7769481068561683154; 213084232711861749; 10050205809964513657; 12785664775364177775; 12579099101677719953; 17749257512307610194;
  11556514988986032224; 15689545533531536572; 12725991311619759003; 10344359345248833166; 17916187321210086307; 1444595965309488140; 10194895011528211323; 6860637777036391733;
  2818525391074434333; 4458642055912480992; 7266466696912492503; 6612108193548845762; 8227678965281992238; 15945973467656637259; 2305317044786167550; 17966853989594453847;
  4545611591885853973; 11058508207951869815; 6428866089461692215; 3667432560500598245; 13591821396079124383; 1004328912497930480; 16017755118485064266; 8348149366272678618;
  16742173373142227032; 5100830183578585545; 8874779939011635497; 2164580299409852938; 14893773271824576945; 18275636329517326496; 13649243335021980523; 10558033316717233541;
  15761881269768797629; 16671539474545794397; 3463356626555113488; 140741830684964084; 4669036643141864395; 4773471379821837886; 1082290149704926469; 12206978337857759079;
  3595090158473700580; 7577230665708152615; 14069623684588912961; 9262669873733798795; 17629060717896378279; 9763123186984320381; 11715546929226814869; 8491712531094558936;
  1223625099202067451; 3453822362824339182; 9546665597150002300; 12278751123906717286; 8853389288168938973; 4113840041213237015; 14503638100536084295; 13807715967508979358;
  4884933482046147274; 8587688793742060845; 15906566073352830911; 650518599569180423; 16910210665936039341; 17175092813955553882; 10989826995196887939; 6139531666802029363;
  11917635392908714851; 432919578319389186; 16404986412584708778; 10624458469252034929; 5028496646331156680; 3105651719510235417; 15801284403531893065; 8564046068341987801;
  860783202961060594; 4099199575620379619; 17103311163127126875; 9622101359076739208; 12941877086956067482; 7649010117815182886; 6211302322815513138; 14821428739762204848;
  2803888911278598633; 1229257815784361743; 7121781893395568085; 11349276072458485888; 16122460713267281598; 5390208587779722701; 6644186852991710260; 15584835678208608328;
  2089429070392918015; 10266676593939151482; 12506754500593881232; 16239767786903986015; 6926712274344222752; 13288105339180640360; 3322093916214401562; 17270790109971394222;
  13957885364612805812; 18182185748274959444; 12147305423869154195; 7359631714687787554; 12422309890144953444; 1076662518431281649; 10769130078628639603; 3896276204337631762;
  13853174959534063680; 1731678313277556744; 6396211354376127427; 3020924912781749484; 8132252527368395739; 18347980861579698593; 9983780107673898381; 5133481207745035581;
  11860214003721672599; 0; 5534875799646425039; 9019451411016395563; 11130280994000828022; 11205712770264760962; 7482354739991664342; 3250323328953948955;
  14030221100581631413; 17054895470056943535; 13721024917432920682; 17316355663681376336; 14935427380901856581; 644886432742700019; 5778382881935077424; 3237934388431089647;
  4701691927983243071; 18398643269423355221; 18132073165299425954; 2587992003352849130; 12638767480247706981; 15256621831506410170; 8155899513443397423; 6755653765646762176;
  9213944542309506782; 2602074398276721692; 1944761995965169149; 15514166595237989709; 12363191198937027218; 11490297350878688629; 722297982654744070; 9478555649070107274;
  14677865575007433394; 4028005200703383270; 1301037199138360846; 2386736248214724383; 11989416975051219554; 7049439560323028180; 16548531984615516328; 12076108574883092118;
  1655418777077742073; 5964444202220045765; 8009002353819723045; 16958622098465511769; 10485697511726941316; 10840911660771144306; 5420607537388796217; 15297709073821158476;
  16311540641638866526; 9833757016223742072; 5204147816982132792; 9911444302952041612; 7985360178175463889; 17484393505962567077; 4315096345838740194; 11772963782995239265;
  14461979730918093747; 7143171994482450721; 13374800924675316892; 2458515631568723486; 14214295156526564163; 6109129006273841095; 1872419594206706940; 865839156638778372;
  17532804388736225617; 13157767397241231769; 13217436325567032685; 1661046958107200781; 1439521869688863482; 8998056499498770399; 9403124422561988222; 7792551429775041572;
  5565279009930427195; 16189100568763804587; 5750763842457161422; 3679816415714808081; 10128464773818978191; 15154167761794190926; 14174888311978571703; 2372095232866053099;
  4917030283431918652; 11421620673542324609; 11643211124236522644; 357768899326703607; 15472511936404896185; 3824505617345614611; 8371237869428943916; 7553584229388964819;
  3812117226578569191; 12857437561681571438; 5892101869147505860; 361148991327372035; 18038626844597769814; 14718969859753460804; 9331351636244594559; 16620876516946323881;
  9091222066761443882; 15040735987685505979; 6827987302625755585; 17677475861210747731; 8781046954827963612; 2092809712149400331; 13447136729397173661; 13000978735732714604;
  5994842602073305393; 11273839760775935092; 573656873451517686; 14575410955539400262; 16837874929698778284; 9694445959892142473; 4329160598819705876; 4530975661845832161;
  4185619424298800662; 5637049665675475514; 13504554132921411945; 1948138102168815881; 10408009675242827888; 14390782952161457846; 7913026641196470480; 3093267314540211693;
  5317866254438747340; 14286076807623426626; 13085422796425828504; 17412057769993741476; 8658320218604972072; 16455081953128963164; 1583085171412826360; 10918594961836639878]%N.

Definition wp_A7 : list N := [
  1740668162889250840; 2550483998587924259; 14292110717358766534; 16728031954711834600; 9769582618521346439; 13318754206900904632; 72903140089332993; 5751465534102007375;
  3916503224694861366; 12031267467163534502; 15162444283388935634; 17654942899576375029; 8758227495034454137; 8048336941238767215; 10497488241365479313; 5978055748267542354;
  6962671664316808544; 13608114966370809532; 11218637979439844763; 10272586007078145166; 11815372934905730467; 870334081444625420; 8902907875303918203; 3845851850326729013;
  2100680091908794653; 16158317635026765792; 15520767353689320663; 14005001790989069762; 3346788696702817838; 5466608511702628939; 18311634030339891710; 6339193704696583767;
  1530965770077290773; 8618050988200736375; 3988280430247996215; 16515514943124952805; 11510250504358975903; 17297745728917149680; 5394831314738249546; 15741165458730292698;
  6406467390076495192; 14503501519528118985; 2989028464691809577; 729031332173849098; 12812372946556309425; 11600604250480646816; 7763479918835718763; 9624902324687842181;
  13680455121878414269; 6766479446599742557; 1166450241429327888; 17582602718030529524; 14645930014086643915; 4486217202928961086; 364515666086924549; 7469615695038834279;
  16443174761579107300; 2839844724767111975; 4738703079983241281; 10052187875466255755; 12102481722763248039; 9045336454690149501; 10782345366843554709; 15597611064267022296;
  18091235889063670011; 17163198874631631342; 8972433323191931260; 7397838463446410086; 15959311834288983773; 1673394350533331735; 5172744013023102535; 11439036248490695838;
  14574715767075685834; 3276137391057312045; 13825135484968270271; 506944246545062663; 12532019278975345581; 6552273669718028122; 9482473830668547459; 3698919841507770163;
  7180255073008415331; 145806280178665986; 12313872964621908138; 8184009917181372529; 14431161372610318280; 1813571302977535257; 5321928131970035785; 15669951211184823001;
  17441300191565127154; 16373086344951908579; 6624050866682407515; 9837419122592092808; 11147423689211824282; 2768067519213977126; 3627142601594894898; 12740032756690012848;
  16800372101896891113; 1085665698911826703; 15376086990599726805; 9267705146512816768; 13753921229367508158; 14792862280071241421; 3772948744866751540; 5249025035098813768;
  18382848311977846015; 8831130678072283002; 10425148051229567632; 6908908026520747615; 2332900479035351072; 7545896441425679720; 1886474374346338842; 12605485386466536622;
  13024889916532547252; 6123862062265145684; 10639916735387395475; 2478706758675048994; 7254284051801172324; 17370085876103254769; 8328690228731355763; 1312256521605896722;
  4665799983113067840; 583225120714663944; 14076216037998979267; 17017392680891546604; 15812379705741250779; 11672944440346943393; 10199119900393440141; 4415565897281358141;
  10927025660679156119; 0; 14937542574443451599; 3133708775705184043; 8546273756608312182; 9411259540439478402; 15449553072319670742; 1958251614527780635;
  13097230072039103413; 12676699642067298735; 7691702721604083562; 5832249537345490256; 5030315501823675461; 17512514438844389619; 3481336321953099824; 17234413156269585647;
  4557994408483144511; 6196765193495059541; 11744158644946276514; 16871586348638234090; 7327187183300439141; 13462308670083918010; 3418565902257001263; 13861447327804221376;
  16032777847288398302; 2027776986180250652; 18238168018142506749; 5609036954183099469; 10568702445158326418; 8475622476464438389; 435167040722312710; 9980973585238235274;
  12883587151153545394; 16588981024038672870; 1013888493090125326; 2243108603645354783; 7108477875775731554; 15303746809323234260; 12170318501436797608; 10855811404809827478;
  17948807395042015993; 14218644635636725445; 2697416144847941925; 6479370486947717209; 9552562168911670916; 8256913031498671986; 4128457108354817337; 5536133822952137036;
  6837130795196627806; 8685324397895976312; 4055553968534050872; 10126779744618317452; 15091229967122936529; 11957801428390775717; 16301872097672646114; 7035574761456334945;
  12954801441112999347; 2405803618855068961; 11293229986028770972; 2171331397823653406; 4883383390996353603; 14363324998728416455; 18165827836597709820; 291612560357331972;
  5905152634215663697; 11076209416698447769; 7905908360780891245; 943237187173169421; 18020021641785456122; 16103992128659096799; 9115987803554552702; 2624513039387964452;
  4273137419370288955; 12385087254582410667; 14866328293072753102; 1239353381518660881; 10343800262946425231; 5679688302777887566; 13241910366409478583; 16942800595916447979;
  4342662791820332092; 9340045336648728449; 10710005211067383444; 17799623262131195127; 13391094396768249785; 1384033761788387091; 3203234285596285996; 15233658530398845139;
  16660195305677675751; 7976559709647391598; 14146304454360232900; 217583520361156355; 6267416473373512534; 4957412370593761604; 9187765035145928319; 12242658691304142761;
  3061931535791260202; 13533522960044420539; 13933787474720973505; 6049832945230873171; 15886971653011442652; 800808572355290891; 11365570141803893661; 7833005229282673004;
  3554239461772817713; 8402719344965171572; 17728408980492192246; 5100966781700031302; 12459679123467740844; 9909759312726955913; 1458062664347698196; 16230657782212870881;
  1601617144710581782; 4201360179456365114; 7618799538564157545; 656128260802948361; 8111106820041846128; 13170696110809765046; 15018889820206184400; 17089732862436343533;
  14720522098793700300; 4811606194033022786; 11003869226563584664; 11885461272884219556; 2916125324871043112; 6693576315368780124; 17876467247856959480; 9698368362652017798]%N.

Definition wp_rc : list N := [
  0; 1739452583106838863; 3938066875928252754; 6970617360185850677; 2152957850883456599; 1546766456395418330; 6397689871562992517; 13645081089570375015;
  16440181032805570008; 18153583929214846878; 14568510409307489075]%N.

Definition wp_rc0 : list N := [
  0; 7552795146234718948; 16403049381977228702; 3210636393737445845; 6704606661598847554; 4563344343876154136; 3339144670792307051; 1974112726913984249;
  14656656826298290859; 427856753162723582; 15993887971970760864]%N.

Definition wp_rc1 : list N := [
  0; 1739452583106838863; 3938066875928252754; 6970617360185850677; 2152957850883456599; 1546766456395418330; 6397689871562992517; 13645081089570375015;
  16440181032805570008; 18153583929214846878; 14568510409307489075]%N.

(** whirlpool/sbox.go:539-542, 1614-1617, 2686-2689 *)
Definition wp_c : list (list N) := [wp_C0; wp_C1; wp_C2; wp_C3; wp_C4; wp_C5; wp_C6; wp_C7].
Definition wp_c0 : list (list N) := [wp_T0; wp_T1; wp_T2; wp_T3; wp_T4; wp_T5; wp_T6; wp_T7].
Definition wp_c1 : list (list N) := [wp_A0; wp_A1; wp_A2; wp_A3; wp_A4; wp_A5; wp_A6; wp_A7].
