(** Neighbouring fractions p0/q0 < x < p1/q1 with q0 + q1 >= 10^17, around the ratios of powers
    of ten to powers of two (produced by the continued fraction algorithm; ExactGap.v checks
    them). *)
From Coq Require Import ZArith List.
Import ListNotations.
Open Scope Z_scope.

(** Around 5^k / 2^(c - k) with c = k * 332 / 100 - 54, for k from 118 to 308. *)
Definition fracs_up : list (Z * Z * Z * Z) :=
  [ (5539161620849279895688582611131669, 155078851454628231, 1038475303976736969785022217923251, 29073995024542420);
    (3072547774039523571135980800236074, 137634454439902779, 1038475303976736969785022217923251, 46518392039267872);
    (248899291521512407891484091097393, 8919534072273407, 6934671560534271704165499727298006, 248510306662985337);
    (5325453316161459982069866841022201, 152673997626700565, 1360318952851299314204148795178412, 38998620445868979);
    (1812527312548667919657340423524593, 83140577655491473, 1700398691064124142755185993973015, 77997240891737958);
    (56064310742271888451077214775789, 2057334705501406, 4391157504515990078015658021872010, 161137818547229431);
    (3321400283758128502737282123791902, 97505625010538221, 1013692910015589686827298683304319, 29758762062844199);
    (1984203757810801533639312251191767, 93199740362370506, 1175444717981458327962634277952227, 55211639477520683);
    (5143852233603061395241258780335761, 193288896161809356, 1377634477938794129381803771262112, 51766931758986511);
    (5488260853087759927586709723151289, 164984503281244787, 1722043097423492661727254714077640, 51766931758986511);
    (2044174658240774604132200294996009, 49160511810617412, 2152553871779365827159068392597050, 51766931758986511);
    (1560225797065228758855867245647267, 60035182152088534, 5031031035322050422232636359217213, 193586636746105823);
    (1472637386033637722439608590078414, 45331927663702783, 3383216827225230626960510458001093, 104144945617245787);
    (4855854213258868349400119048079507, 119581498624758856, 587130374087387021650548786441736, 14458821648676645);
    (26774575156165736589015427582774913, 1054971976209072034, 73391296760923377706318598305217, 2891764329735329);
    (6675295964851203302827277246117424, 210416042375867341, 366956483804616888531592991526085, 11567057318941316);
    (8344119956064004128534096557646780, 210416042375867341, 2035780475017417714238412303055441, 51336854330326521);
    (10430149945080005160667620697058475, 420832084751734682, 2060905232016709373185968221233568, 83152691939434685);
    (54211654957416735176524071706525943, 1749850492558486476, 515226308004177343296492055308392, 16630538387886937);
    (54598074688419868183996440748007237, 1409858717079521343, 644032885005221679120615069135490, 16630538387886937);
    (1332389746380102432817346989785563, 55049012162468265, 1610082212513054197801537672838725, 66522153551547748);
    (2345700202236343355456258838494797, 77531955984041401, 1013310455856240922638911848709234, 33492746254066789);
    (412867259225990985748945532715473, 10917134641176487, 3771877917318575263844116219919504, 99736896431663039);
    (884351998890812893729460060205411, 37414794712214987, 2357423698324109539902572637449690, 99736896431663039);
    (5746379320674652911645518464364508, 194492331461879465, 147179925135620938110913129259717, 4981461401446613);
    (1436594830168663227911379616091127, 38898466292375893, 48143529021243991211630092977305776, 1303575233254190921);
    (7454535957824162129365141238254349, 322952592718639613, 271561806980845989808243157798714, 11764862379632469);
    (3116253913205177587614023514080068, 108004284804117401, 678904517452114974520607894496785, 23529724759264938);
    (879222439150473819286403862543249, 24377934114235010, 3016094952355998165231125530056836, 83626350689882391);
    (879222439150473819286403862543249, 39004694582776016, 1445448125647261943626251525013898, 64124003398494383);
    (800973250987052395549764812525099, 28426678512809283, 6817513318066364441264688062635141, 241954720848225898);
    (9523108211316771046018066093950300, 270381399361035181, 3008270033539656022857461625055021, 85411216934166646);
    (1125791091408266238798626320352683, 51141785043908950, 2694523543184424392180989074271298, 122405253419540353);
    (1125791091408266238798626320352683, 40913428035127160, 2805258883276397370826923182662781, 101948539401976773);
    (1125791091408266238798626320352683, 32730742428101728, 3788021376947563273233310558416647, 110131225009002205);
    (8036276273918568526656576377669986, 186914457440704815, 3788021376947563273233310558416647, 88104980007201764);
    (4018138136959284263328288188834993, 149531565952563852, 1721423118464990894045422056394564, 64061285549980639);
    (3157426577726788816305577160637711, 94000738542058826, 2151778898081238617556777570493205, 64061285549980639);
    (39678557529770067533908482093277677, 945026240899577378, 1327301368952006858465588682782729, 31612404818407893);
    (1475653597722240438266389969355046, 56233147942602325, 8112160442482274730594333383268691, 309132386489865469);
    (737826798861120219133194984677523, 22493259177040930, 22862794902219607593452015904543058, 696991180099374193);
    (737826798861120219133194984677523, 17994607341632744, 28947407027205069601381617373017584, 705988483770190565);
    (70708115904967395493272751760417, 2759161979023839, 3618425878400633700172702171627198, 141197696754038113);
    (8176812284353909523135216262041404, 255259518948878139, 869252411647674727296539167026591, 27135874559198087);
    (3219153730529280034271068963994111, 80395107932192786, 7001861624913106869647951363557644, 174864411016685353);
    (7736205787063608528077491925109994, 309126261769113723, 1016121244077775058982447279337061, 40602560264256983);
    (409869580649239543545702062271907, 13102180036714365, 6310214962336593925549342583501026, 201716781167171027);
    (409869580649239543545702062271907, 10481744029371492, 7682833912596122635163827198240329, 196475909152485281);
    (10922532512887753223952751702068371, 446921441776587707, 806653146331050500565840126428076, 33006135412874161);
    (10317542653139465348528371607247314, 337733472173545669, 1008316432913813125707300158035095, 33006135412874161);
    (3142138460742106422849585487553467, 82283572208819610, 949721851913479602843457651311004, 24870484721338517);
    (977493072925128459647631711707356, 40956373045717171, 2164645387816977963201953775846111, 90697342488394205);
    (1221866341156410574559539639634195, 40956373045717171, 2164645387816977963201953775846111, 72557873990715364);
    (1693255864486694268880746707740153, 45405698814573014, 7951497266272486311326004501225507, 213224296203290249);
    (1334289655385143830795276160489522, 57247678151402581, 3129120700892896021222628896742677, 134254877910973788);
    (9490663821463669841550667442468595, 325757433973350157, 1230987936600162052912495408248958, 42252415534108999);
    (1360115085081389275265971348549663, 37347659414300265, 3077469841500405132281238520622395, 84504831068217998);
    (1360115085081389275265971348549663, 59756255062880424, 1753404265302579548267527656820289, 77035299185357945);
    (3891899187979961029416873756712440, 136791554248238369, 1753404265302579548267527656820289, 61628239348286356);
    (4864873984974951286771092195890550, 136791554248238369, 780429468307589290913309217642179, 21944280628981411);
    (3258440754577418819621664538096823, 73297220297350457, 2386862698705121758062736875435906, 53691447604425367);
    (2145472728594923894958406294143129, 77218374835935475, 1273894672722626833399478631482212, 45849138527255331);
    (2145472728594923894958406294143129, 61774699868748380, 1592368340903283541749348289352765, 45849138527255331);
    (2145472728594923894958406294143129, 49419759894998704, 5745037701170221243363896376441432, 132333718343503063);
    (2863602441241201550378893341198308, 105538359500698539, 727046121990186726723541894077587, 26795358842804524);
    (5022449783851989052291881905875049, 148082318475081866, 1442946732300487114318265229377164, 42543958974383327);
    (4300976417701745495132749291186467, 101448271190312162, 1803683415375608892897831536721455, 42543958974383327);
    (624323250581534150558729438616253, 23561724886371534, 8567309667218994210876320192809282, 323327047658948279);
    (6737643875705012733436604863915088, 203420918549917581, 1205342540932447326880985890277941, 36391339668143815);
    (8422054844631265916795756079893860, 203420918549917581, 1205342540932447326880985890277941, 29113071734515052);
    (2555599296270501055357915584821227, 98762093742338507, 305171370707078174563032760582417, 11793462130481134);
    (410021296037316632917204325768494, 12676341470179021, 3985984629759290670318389757523049, 123231897342998662);
    (2095497638888974493388495960203648, 51828027231235269, 24120918426574402338368940708022541, 596583643834465186);
    (1309686024305609058367809975127280, 51828027231235269, 24906730041157767773389626693098909, 985630646473885459);
    (1637107530382011322959762468909100, 51828027231235269, 25234151547234170037981579186880729, 798870122625355421);
    (2046384412977514153699703086136375, 51828027231235269, 24824874664638667207241638569653454, 628730492654037283);
    (2457382375381206181057678281664111, 99579554934942105, 134130854454248681422600768008477, 5435332703371244);
    (2457382375381206181057678281664111, 79663643947953684, 782009161913112397042670530426624, 25351243690359665);
    (15805953105515036691980408795240363, 409919053077109530, 195502290478278099260667632606656, 5070248738071933);
    (15928142037063960504018326065619523, 660940733661447181, 122188931548923812037917270379160, 5070248738071933);
    (15836500338402267644989888112835153, 525710437686314585, 152736164436154765047396587973950, 5070248738071933);
    (7727329963655940366185698321450139, 205213926336453901, 381840411090386912618491469934875, 10140497476143866);
    (918186194070694181695900856439408, 39014685772062007, 23027484519077900742098177047780759, 978461752566577089);
    (1147732742588367727119876070549260, 39014685772062007, 23486577616113247832946127476000463, 798375276362086474);
    (1434665928235459658899845088186575, 39014685772062007, 22625778059171972037606220423088518, 615291409626431975);
    (9243109335381642156651167826238567, 201087653469410409, 2069779694204343862151942385305692, 45028910381162381);
    (1775607588159848267866663133323957, 61806519936971089, 2587224617755429827689927981632115, 90057820762324762);
    (684899536681028743977515354584939, 19072347809717701, 4768640720713068875468223539110151, 132791992889578150);
    (4432604961386087586573061847563787, 98747543543464591, 336035759326981288895161691546364, 7486050768197929);
    (2174298010777171132174635712338598, 77500824681132087, 6942938731490240007642859251448749, 247474575579792119);
    (1420701158503515043571500727037471, 40511654194120909, 2594342709935897743293587826771553, 73978340974022356);
    (1003760967109853196716272138452256, 22897999033628653, 180599795057024972568085386255384517, 4119879202512074475);
    (627350604443658247947670086532660, 22897999033628653, 180599795057024972568085386255384517, 6591806724019319160);
    (784188255554572809934587608165825, 22897999033628653, 180599795057024972568085386255384517, 5273445379215455328);
    (3920941277772864049672938040829125, 91591996134514612, 1823547644866095393135381212684298, 42597518556704603);
    (592809905236860479984933110901339, 22156574639566166, 3168649413937909961396626182207381, 118429899072758455);
    (1533174735030553090330322934178519, 45842554454117857, 3168649413937909961396626182207381, 94743919258206764);
    (13850053692993755608518242007925999, 331297836368726569, 1993193376695794198464888903110906, 47677840664100487);
    (2440341748931340857713120971963461, 93398042704219502, 1271320846404072319224550642906902, 48656659976091223);
    (266680239662616189438147503801554, 8165221096033067, 3711662595335413176937671614870363, 113643762144248580);
    (2189181597245976825266520187187124, 53622725953732499, 3711662595335413176937671614870363, 90915009715398864);
    (2129478997323453691627150830833572, 83456552963065591, 1522480998089436351671151427683239, 59667654018666184);
    (2661848746654317114533938538541965, 83456552963065591, 990111248758572928764363719974846, 31042812622319829);
    (588340936758228860693696479289848, 14756933611834339, 4240300932171118903991998737806659, 106356426080142675);
    (367713085473893037933560299556155, 14756933611834339, 4240300932171118903991998737806659, 170170281728228280);
    (3639867055970705475410949427800188, 116859102648771307, 600433876200413428581049310006471, 19277122733811317);
    (6060234460156471641697473451706753, 155652621365574622, 1510400640193089797433786666956518, 38793518716803315);
    (7764093155219725776801065148003006, 319063946474509907, 755200320096544898716893333478259, 31034814973442652);
    (808222808660114096124926286783363, 26571011326770799, 5392447217802952685834319240958021, 177281282547312206);
    (1550167506615766695489811381935346, 40770458774816601, 276539204654153201403031228696380811, 7273168992934721585);
    (3875418766539416738724528454838365, 81540917549633202, 136331892943806892332153350120771223, 2868497138399072033);
    (3702359737807590119525814904481253, 124639458414649138, 432647571829566547996783875892780, 14565024161909963);
    (3810521630764981756525010873454448, 102624571564101303, 540809464786958184995979844865975, 14565024161909963);
    (4763152038456227195656263591818060, 102624571564101303, 1493439872478203624127232563229587, 32176933642348231);
    (1039462078181983386307482565316979, 35833196024582197, 4914477969888300608262846924455596, 169415947103620409);
    (4725320555598208842504617758658676, 130316125081838003, 1417776906762166917823940896910819, 39099822021782406);
    (2126213509936489714054522422083188, 46909817431676877, 3780437184561271339076249776240157, 83406307650161126);
    (2687548658506819312308570796401274, 94870936579135027, 34967914331674858229751838122013851, 1234373477244536624);
    (2000770608337010899361219212902311, 56502041261168507, 4718101037930037381410207778100874, 133239831897101547);
    (1821630653023007003689276874828248, 41154483133981899, 2717330429593026482048988565198563, 61390232508746432);
    (1138519158139379377305798046767655, 41154483133981899, 4083553419360281734815946221319749, 147609751774772570);
    (2444037302514294655336234113789506, 70676433488936413, 1639516116845987079479712107530243, 47411367930881643);
    (2652786035308714531242031639107251, 61370407265714505, 1848264849640406955385509632847988, 42758354819270689);
    (2652786035308714531242031639107251, 98192651625143208, 2481558548679611612736959340083618, 91854680631842293);
    (3358789415793168893678807623639972, 99460245823803391, 3187561929164065975173735324616339, 94389869029162659);
    (4198486769741461117098509529549965, 99460245823803391, 2347864575215773751754033418706346, 55619846058569449);
    (338344953458900244733729700745223, 12824381388759374, 3104003195749167312059406623755544, 117651882811518585);
    (22643746338601380580069643214076037, 686617692737237855, 776000798937291828014851655938886, 23530376562303717);
    (10351872170629075505016257037114411, 251116700532591425, 1940001997343229570037129139847215, 47060753124607434);
    (81482772989115956853826417234792, 3162586981910851, 10270389397639959548162430619879619, 398624133870235429);
    (101853466236394946067283021543490, 3162586981910851, 10250018704392680558948974015570921, 318266789699806173);
    (254633665590987365168207553858725, 6325173963821702, 5099545985637241542957666252399588, 126674198483540299);
    (2039646577409459261193228621579208, 81064658261181541, 6374432482046551928697082815499485, 253348396967080598);
    (2549558221761824076491535776974010, 81064658261181541, 5354609193341822298100468504709881, 170252854269191862);
    (3059201402293193023055721245836582, 77815243162450029, 3314694152111367168173118196598443, 84314073359913053);
    (2422147426628981839850489409758367, 49288677976455227, 18995618187185817680716080392750582, 386544971416107439);
    (1497244632699018698491120868866449, 48748285255805434, 1768915416740981750126887696654231, 57593523092639397);
    (6123286262582945362535165231342863, 159492817092023519, 2721290821121963388099273251928292, 70881275278534069);
    (6803608967863436209559983544324936, 141770508729325629, 3401613526402454235124091564910365, 70881275278534069);
    (4252255604914647630974989715203085, 141770508729325629, 850260163453665656539097735788514, 28347735208059133);
    (1913562761593907401352720423654414, 51038656450118425, 19347715262979330753522228152361011, 516043378467184091);
    (956781380796953700676360211827207, 20415462580047370, 48847678847846803734143750486816131, 1042294488224391867);
    (956781380796953700676360211827207, 32664740128075792, 30410201607304633121255299027781681, 1038211395708382393);
    (1726068060944140301280687308369848, 47142693857314699, 3057838843040628202101113750766187, 83516266654988469);
    (2157585076180175376600859135462310, 47142693857314699, 3489355858276663277421285577858649, 76241552095453715);
    (2220829637181775429730858354128606, 77639314695496185, 1268526221094887847690427223730043, 44347168657229759);
    (1110414818590887714865429177064303, 31055725878198474, 10389011873577989765851357710243077, 290556555522749599);
    (456387782730443774417090809366064, 10211285827486723, 4639298527493551025492964266589387, 103800331857820450);
    (285242364206527359010681755853790, 10211285827486723, 4639298527493551025492964266589387, 166080530972512720);
    (2676202219004934711509834328111931, 76643498216491811, 1963096308488616313983129938477456, 56220926561518365);
    (20742622251856984734985908909850115, 475236772550522339, 490774077122154078495782484619364, 11244185312303673);
    (9941883808446607548809144780883114, 364447558603192729, 613467596402692598119728105774205, 22488370624607346);
    (338334364702227793783237825011061, 9922073971737977, 3405672346715690784381878353882086, 99875556470167361);
    (1020585269030036592987088500976052, 23943940882728663, 10555351404849300146928872886657319, 247638994705792048);
    (1275731586287545741233860626220065, 47887881765457326, 4129517274765858906353961879730601, 155012102175722045);
    (562285164167967449953835312842431, 16885461330312917, 4129517274765858906353961879730601, 124009681740577636);
    (5864753048667282945384746490716290, 140895143070890553, 610665445565489139123113985300827, 14670659549927777);
    (2046616031858858819738501437693402, 78668822022563221, 8522034526091630904246361913710519, 327574106215872549);
    (2390484840495475712026948715648297, 73509294772315355, 2726055239151671337319304878585208, 83828349272811087);
    (2390484840495475712026948715648297, 58807435817852284, 3407569048939589171649131098231510, 83828349272811087);
    (2047134682482635148925757132382026, 40288644181703131, 10566057304831608078048584877960801, 207945342727325305);
    (7841947005519097975181488854457933, 246933562545266506, 1362055149656255051433548011751434, 42889492909226991);
    (1537376990861102647582035406663957, 38728134945188815, 4942514865001740276165905436042542, 124507120763642797);
    (1537376990861102647582035406663957, 30982507956151052, 5409455085821624021416364091721199, 109015866785567271);
    (8683540095853408336247999372981445, 279996749483436646, 99665514154789509833782233966166, 3213668583422823);
    (4366686426465401545582445244982264, 112641433510059223, 249163785386973774584455584915415, 6427337166845646);
    (5458358033081751931978056556227830, 112641433510059223, 2432506998619674547375678207406547, 50198443137500206);
    (5532526037562052286631394073904672, 182675203063106519, 2580843007580275256682353242760231, 85215327914023854);
    (2951683029981777029949040831144441, 77967900119266132, 1012291486989011298391160930091958, 26739402824574255);
    (8644571933690706697861553240476050, 182675203063106519, 506145743494505649195580465045979, 10695761129829702);
    (1908070111675423849867598077596023, 64513472321378846, 6035539637924823747657946356605005, 204066725322765923);
    (9929512187000309496906930542751285, 268580197644144769, 77832325724638049513788030954234, 2105261671725877);
    (4789633360619719137047442201728616, 103642608048551329, 194580814311595123784470077385585, 4210523343451754);
    (2993520850387324460654651376080385, 103642608048551329, 1391989154466524908046330627817739, 48193880568943338);
    (5186275852814249145005142378029447, 143648681885838930, 295611653253062565871085126843208, 8187806731655737);
    (5186275852814249145005142378029447, 114918945508671144, 369514566566328207338856408554010, 8187806731655737);
    (1342758284024353312168642645576613, 47605139549799605, 270818201505310836264244312782284238, 9601384276436343553);
    (1342758284024353312168642645576613, 38084111639839684, 337851372739626368674221069655066991, 9582342220616423711);
    (2480755705670284794364343887318944, 56288538820410889, 4233035714451481766478869340564121, 96047907738947847);
    (1550472316043927996477714929574340, 56288538820410889, 1442185545572411372818982467330309, 52357282505576955);
    (1938090395054909995597143661967925, 56288538820410889, 5318366335682231364013269791266159, 154462903645283342);
    (123976212370624655694540298659404, 2880542563189865, 8946594701050802043818476517883201, 207870899902504366);
    (30994053092656163923635074664851, 1152217025275946, 22505959991543957847202549130699832, 836668576223759221);
    (154970265463280819618175373324255, 4608868101103784, 5502513785515364806106096984015554, 163646620763868817);
    (1453113579110481611335611932666016, 34572871393215277, 22474965938451301683278914056034981, 534730469887029296);
    (1816391973888102014169514915832520, 34572871393215277, 23564801122784162891780623005534493, 448528098745552603);
    (1135244983680063758855946822395325, 34572871393215277, 23110703129312137388238244276576363, 703815809435598054);
    (1885227857512396025218079982024353, 45930343636242885, 3790997060887922769061654129952272, 92361141936618223);
    (1885227857512396025218079982024353, 36744274908994308, 4738746326109903461327067662440340, 92361141936618223);
    (1534957219519935945274923448817219, 47867648314519091, 5923432907637379326658834578050425, 184722283873236446);
    (9322987658946644089917197533584555, 232589932187755537, 2194237844058721690691955564616603, 54741854223486942) ].

(** Around 2^(c - k) / 5^k with c = 54 + k * 3322 / 1000, for k from 120 to 341. *)
Definition fracs_down : list (Z * Z * Z * Z) :=
  [ (542898255432388133125979694446639, 46683177203316412, 64279490496120330996291903793503808, 5527317163654048305);
    (542898255432388133125979694446639, 58353971504145515, 51640751699069220050283914912581702, 5550658752255706511);
    (4343186043459105065007837555573112, 291769857520727575, 230242788771424733913560665808855, 15467425296271702);
    (8824517760181064970363811510631537, 741025212774022714, 92097115508569893565424266323542, 7733712648135851);
    (1654387013425929121794253182538057, 173655734221301902, 368388462034279574261697065294168, 38668563240679255);
    (2463497203610012600216633281670947, 161615908253808978, 772943557126321313472887114860613, 50708389208172179);
    (1168920899315479034740825123058323, 95857736586270644, 251310809958109061469966071108602, 20608824289439869);
    (32735531896608557772192167724783, 3355609857127792, 1136185367418870476968632955333540, 116466560875710513);
    (32735531896608557772192167724783, 2097256160704870, 1850632119766801320922004896258447, 118563817036415383);
    (2227305650099483296660844309055093, 178370039594799292, 720611528768755393705486657868509, 57708966397679039);
    (314433037024789003699948397327230, 31476053399720607, 1912872613074694292960895911727863, 191486496093778508);
    (503092859239662405919917435723568, 31476053399720607, 2164419042694525495920854629589647, 135417086758471871);
    (1067004760773675160736308826125286, 83446570079096239, 594321422681187929264628367740793, 46479721619342841);
    (521338571927967510588859622127013, 50964997154486469, 2182664755382830600589796815993092, 213372861777535319);
    (1081601330924319244471462575248042, 66084464733005447, 618649039598928068823217949612053, 37798668946297445);
    (4326405323697276977885850300992168, 330422323665027235, 340050074104649462658936104972019, 25970783419825723);
    (778421921985892295709319026475214, 74313419863123587, 290889187216352777463212696706431, 27770248618002514);
    (136835256464545251805799992566227, 8164511734029954, 1710897774723592117076050757090632, 102083668481126101);
    (766460263768163997913900298375989, 57165218041085516, 2792170542143565488044001208371502, 208249592829267179);
    (766460263768163997913900298375989, 71456522551356895, 394231800671258795441840250594828, 36753938706010631);
    (1077445036790300315673416458289118, 62780876590020329, 705216573693395113201356410507957, 41091761686678914);
    (7848070500083058348552737010873, 571617030000979, 1433977358887039401448371032048533, 104444255306700222);
    (863525643532256864208443714033469, 78618999995025656, 277377787177308210271410921996659, 25253638281673587);
    (863525643532256864208443714033469, 49136874996891035, 5970368578090137067368297245008856, 339729638261776211);
    (360272442740034942101539236258473, 25625559177560776, 2373285245908922630529157147358457, 168807697451772847);
    (360272442740034942101539236258473, 32031948971950970, 1826573708179131116003017870635071, 162401307657382653);
    (1523228857299729319024593468022669, 84644256750778247, 1605367943639318869643029991011446, 89208641071679069);
    (625719360187809637733524691806823, 43463224455614329, 9550068575496323667239743423079899, 663359327636466990);
    (342575981576849962392740205888583, 29744678141147733, 1817725477597538626148618355450126, 157826765995776179);
    (116061278688082222120112617153991, 12596495248064488, 1022120090243153183210622972092359, 110933904961545201);
    (116061278688082222120112617153991, 7872809530040305, 1705028911601894426409064325640169, 115657590679569384);
    (1456872152231981318823341554235328, 123530400209609689, 248156759369913107585722771404841, 21041588139852041);
    (923754643213171412811149486822165, 97908197192170277, 638793893564274614384680190813843, 67705379297143494);
    (1478007429141074260497839178915464, 97908197192170277, 1008295750849543179509139985542709, 66792911358757253);
    (93942335658306216197739838674551, 7778821458353256, 5348375702614459744804917683614550, 442868057210731849);
    (93942335658306216197739838674551, 9723526822941570, 4278700562091567795843934146891640, 442868057210731849);
    (375769342633224864790959354698204, 24308817057353925, 1617537889178320902139833820082105, 104639810038344481);
    (52261764797560684362992590681783, 4226068812106286, 1294030311342656721711867056065684, 104639810038344481);
    (3654641930637975231411023311392985, 369408886743285398, 507159771577550551812148304289917, 51263387816145669);
    (1178465615227684035222317378255957, 74449097758549938, 566782314055012114684183892602474, 35806247854542823);
    (3744149376457993029199045854588457, 295668939497101533, 462406048667541652918137032692181, 36515398366908896);
    (2717875871965869431608354464055457, 268282390721919861, 462406048667541652918137032692181, 45644247958636120);
    (4718526234079424412907876768642476, 291104514701237921, 462406048667541652918137032692181, 28527654974147575);
    (1702448074164753103995895894380118, 131288429863545173, 73588060252706753838326118194303, 5674922503596351);
    (651544005564818540063027910474326, 62806753679974411, 472948123287822777708166191625769, 45590683098978083);
    (1977783288441221870788772282208709, 119157480892075199, 899593703082113054216955281680076, 54198718389476247);
    (1078189585359108816571817000528633, 81198453128248690, 1150950796609333970002291025555514, 86678099640775723);
    (3624833580149688581262952061756140, 341232752050575859, 244742401571911824686553010116479, 23039436538325689);
    (951188140230254025325006186471289, 55964042836698169, 969709117601849540939143422467707, 57053741842775538);
    (574417079612471518317831159082057, 42245456879042969, 1939418235203699081878286844935414, 142634354606938845);
    (732533894808222727366356064436317, 67342681311016938, 632467260783004836194099621417040, 58143440848852907);
    (959093980990041585777432431739002, 55106631214344719, 985520799121424661843995913003133, 56625036031598813);
    (388922956022293249524285668948427, 27932916811485883, 5108852064552578395948840658857813, 366923930592451714);
    (67213863951905419478231741284033, 6034226192087662, 1421264096185362159140679193225642, 127596131673254091);
    (662605048006812450925796115087903, 37178980836390227, 1718959688212815674864461380127577, 96451377028951526);
    (1905251788975702500632205996172384, 133630357865341753, 766333793724964424548358382041385, 53749042353518531);
    (2058518547720695385541877672580661, 180475207920056824, 613067034979971539638686705633108, 53749042353518531);
    (332953791104300922505801704525778, 36488561606509881, 1725564756616394463036075968054883, 189105448293561149);
    (4395559288543809479189810197867143, 301069623210970196, 557044386204837416212109705411642, 38154221671762817);
    (433476348744891962868274275244115, 37113184130979732, 3962082939798917516321535922623028, 339223844882733013);
    (86695269748978392573654855048823, 9278296032744933, 16021722298693626850433453400589758, 1714675816479154931);
    (693562157991827140589238840390584, 46391480163724665, 2666833787295059336130030578815249, 178381079933007751);
    (3360395945286886476719269419205833, 280965700120915520, 789308651721292878216316695369866, 65994799884641543);
    (1384790645795097583458508295227607, 144729475206045097, 590814653696691309802252828750619, 61748174739054206);
    (871506655157401542845905504681838, 56927693918258997, 745875979814681848181552905160319, 48721371464688259);
    (373728797131504556071232721777039, 30515427572522183, 1991111432103587947098691131619196, 162576759301206253);
    (472968045847018500633984770679247, 48273046718432109, 19315678828742795803610399022778712, 1971436917748401881);
    (30404420393985088953190630028166, 1939499426828647, 1876669973191081458059343767702905, 119712867082665949);
    (405738415032201380565059383568747, 32352591054202296, 1501335978552865166447475014162324, 119712867082665949);
    (405738415032201380565059383568747, 40440738817752870, 957625733822971304818944381188611, 95448423792014227);
    (3736271933788043242962198664606853, 232750942214873311, 301902610522748245814565875761695, 18807013595784448);
    (15971556610929517007618318636017175, 1243684518856450459, 60380522104549649162913175152339, 4701753398946112);
    (12777245288743613606094654908813740, 1243684518856450459, 60380522104549649162913175152339, 5877191748682640);
    (20443592461989781769751447854101984, 1243684518856450459, 60380522104549649162913175152339, 3673244842926650);
    (8092904253849543199072500696427519, 615414080953103592, 120761044209099298325826350304678, 9183112107316625);
    (1425363180035349762493177978798019, 135487296023642648, 483044176836397193303305401218712, 45915560536583125);
    (1425363180035349762493177978798019, 84679560014776655, 1057943318945305461783924237709543, 62851472539538456);
    (717113216450157625280972687954598, 53253823745007427, 1775056535395463087064896925664141, 131818164419430497);
    (648947195951128057980382378003609, 60239650448905373, 921611277947246327182743617807565, 85550167378321016);
    (25467025682448443661863418615795302, 1477513053696440835, 184322255589449265436548723561513, 10693770922290127);
    (4761625076428680054586896020748337, 345317278848957423, 737289022357797061746194894246052, 53468854611450635);
    (804867210814176598568140225300457, 72962106059376697, 534554456988658451280358901082837, 48457954879123084);
    (8691351666660631695876873683774455, 492425422465619687, 750804660049072969110583960456933, 42538297389578734);
    (1224126686517033771018997592138983, 86694096021889591, 277482633581112167202170328774883, 19651647452057244);
    (1034797875929849450255632139466163, 91607007884903902, 277482633581112167202170328774883, 24564559315071555);
    (7066678619680815949159518218623256, 390992590854687163, 731871778990354537034247415189651, 40493767785606852);
    (5799717251542723666734464057936535, 401116032801088876, 731871778990354537034247415189651, 50617209732008565);
    (552343234964216051903688774003317, 47750975940773832, 607600215344328681443204037583990, 52528032259498387);
    (1038423407239678997058252004070509, 112216752185465677, 486080172275462945154563230067192, 52528032259498387);
    (1051676019777429618408077112857734, 71030556074224661, 472827559737712323804738121279967, 31934934203877879);
    (536440099918915306283898643458647, 45289183504699026, 1524503579515141942212815234137701, 128706862847628175);
    (2580420435304651759452836381807347, 272316365404665558, 502513411822273715628346364963351, 53031135547639331);
    (315078722332020865639228730376129, 20781761788673362, 9061366851890523575254430605724872, 597663866356970447);
    (630157444664041731278457460752258, 51954404471683405, 3561530996289805256973926496214723, 293636492731316883);
    (674040179002930757417821114412023, 69465489114300143, 498509241647374652860366499772963, 51375555015516596);
    (638933991531819536506330191484211, 41154688934089646, 3552754449422027451746053765482770, 228838199505754329);
    (495700194826647628820569068259525, 39910983749959008, 782167788236991444192091314708897, 62975738585265107);
    (99140038965329525764113813651905, 9977745937489752, 3822651425705272457117161954398923, 384722914488753799);
    (19828007793065905152822762730381, 1247218242186219, 30838975506952036423923991550686337, 1939828409592189842);
    (79312031172263620611291050921524, 6236091210931095, 6159863898273180922723669205045115, 484333493276954351);
    (317248124689054482445164203686096, 31180456054655475, 1152660748482372563933442790087499, 113288259305574719);
    (1175927098537141637102885595018876, 72234357680115097, 2599303271599030537142606978929717, 159668913551997173);
    (1225416913442091089690252752797269, 94092996648085616, 197959259619797810349468631113572, 15200198191766979);
    (331799357680998187596526196228050, 31846300132275829, 893617555761092902093726556569219, 85769945677831191);
    (2450833826884182179380505505594538, 147020307262633775, 959977427297292539613031795814829, 57587003565178973);
    (1278504810671050799705696944193757, 95868479555680588, 853801632839373119582143413021853, 64022179423404759);
    (1278504810671050799705696944193757, 119835599444600735, 427340344137288335724575341578731, 40055059534484612);
    (766399642054467638329812350407767, 44897152396868638, 1621080330329044309778963033565229, 94965976814974403);
    (731087223566424025082077017307889, 53535604485467234, 801712060542511251577547683507645, 58707276506704361);
    (10030947125859554543381630145996571, 918175014954047277, 641369648434009001262038146806116, 58707276506704361);
    (3755830990970218216847836799676182, 214866934611835729, 687563098250926896624234187386373, 39334723960843038);
    (1089794537437531148764594207438649, 77932424335285586, 3554715271376916090777656789650044, 254201658572678767);
    (103826243861777171959369174554091, 9280913300410392, 1971936587151507953610450065769116, 176269234237393181);
    (103826243861777171959369174554091, 5800570812756495, 3300455280848900766519836949606313, 184390033375252274);
    (701621553714491022087715059742899, 48997793750191316, 6600910561697801533039673899212626, 460975083438130685);
    (701621553714491022087715059742899, 61247242187739145, 5140404138615343022014196107421521, 448725635000582856);
    (4673620553863867235281528933731536, 509972877188322001, 466783584751475786732667173689985, 50934166562406569);
    (4953690704714752707321129237945527, 337833360703603714, 746853735602361258772267477903976, 50934166562406569);
    (691996646702006037955318856427515, 58991256894697644, 9215384762727499376686939619463539, 785592144864311641);
    (138399329340401207591063771285503, 14747814223674411, 38937528991016015620613715047136701, 4149177937676674370);
    (1107194634723209660728510170284024, 73739071118372055, 535380940766179846351001394066983, 35656326384247336);
    (671603331472095790042407578600426, 55910907926248387, 535380940766179846351001394066983, 44570407980309170);
    (375717520742074285287163310253567, 39098055958201486, 86734356610725296738175237525947242, 9025782778420711733);
    (1502870082968297141148653241014268, 97745139895503715, 1104596289948677590597695073710007, 71841817940669903);
    (398273793019619550550958167304261, 32379152443542265, 1042986549166789892698539325889710, 84793478918086809);
    (189676483186261572011250302126319, 19275570824906129, 834389239333431914158831460711768, 84793478918086809);
    (561367475556886652077032946836290, 35655047848201299, 1206080231704056994224614105421739, 76603740406439224);
    (449093980445509321661626357469032, 35655047848201299, 1206080231704056994224614105421739, 95754675508049030);
    (2350582009245506318268955932746743, 233275543817210967, 61578454162607670180272278096735, 6111144952911608);
    (18829287455629093614223756373212638, 1167905505324282737, 12315690832521534036054455619347, 763893119113951);
    (3719057865962236893507744343289009, 288347884015279417, 49262763330086136144217822477388, 3819465595569755);
    (714253915194395697015018175171369, 69222371807142538, 3768320629292323029651962165766397, 365209187013561465);
    (27417610096982484092300134863586606, 1660746934512812227, 1364477468678050072457781231272285, 82649500277497549);
    (400956217157092657636066484395363, 30358536272950946, 1091581974942440057966224985017828, 82649500277497549);
    (677206520271231617768129884644349, 64093652343461984, 552500606228277920264126800497972, 52290964004546603);
    (677206520271231617768129884644349, 40058532714663740, 2373855314561954231512488627014323, 140419735976806831);
    (677206520271231617768129884644349, 50073165893329675, 1492760339486824414549112970824849, 110375836440809026);
    (514095756428113058411933267408249, 47515789729792256, 652443055372474237424786468944400, 60302670547479351);
    (514095756428113058411933267408249, 29697368581120160, 1558004645024071838291591617719289, 90000039128599511);
    (514095756428113058411933267408249, 37121710726400200, 1349222867304880082315659947657081, 97424381273879551);
    (514095756428113058411933267408249, 46402138408000250, 976559142558281454170141304644015, 88143953592279501);
    (1685966727498050803416102832981067, 95109301699209782, 1562494628093250326672226087430424, 88143953592279501);
    (485359864785370732775872661256985, 34225347585197867, 962191196736910291352111001568383, 67849302220942196);
    (388287891828296586220698129005588, 34225347585197867, 962191196736910291352111001568383, 84811627776177745);
    (1580040410528652359625374279599089, 87044679648604727, 459122643926890964105130298050236, 25293140095489939);
    (6014909097295065372473454967907233, 414202883673677483, 815665221782217329492201831059730, 56168909872047333);
    (6178042141651508838371895334119179, 531795832060108687, 652532177425773863593761464847784, 56168909872047333);
    (2210203985690293989911253547708558, 237813461094030677, 199962362006400732231896155841289, 21515544133102994);
    (524149342664596277947088338569103, 35248378123766801, 1848148133354795484821761300503362, 124285616580291087);
    (474459495203878352553769927814493, 39883498676014472, 8341511523826938644394585057642434, 701195080253484379);
    (474459495203878352553769927814493, 49854373345018090, 6483425420979999574494160074988150, 681253330915477143);
    (727846298035148638078725464706191, 47799550655584858, 1169991682780364772136354246551781, 76836382706960367);
    (904704451933235091701776977444427, 74267854345168827, 353716307796172907246103025476472, 29036832051375509);
    (220395257654824873782269580787182, 22615511146896659, 1478816017384232872730149583708081, 151746369142577079);
    (931368661961504698394543666382285, 59731827321828487, 654104195535806601106672673077228, 41949917850943551);
    (745094929569203758715634933105828, 59731827321828487, 26546152998065637216474986598504751, 2128118396747219362);
    (949566808768184129916336118388005, 95154587692394273, 131679291972262645113531377259297, 13195373531959616);
    (1519306894029094607866137789420808, 95154587692394273, 131679291972262645113531377259297, 8247108457474760);
    (1189109656828823157270203956084787, 93092810578025583, 131679291972262645113531377259297, 10308885571843450);
    (3064550043544795809630139698218364, 299896202877763649, 554651437914886849976200408789493, 54278069467895379);
    (280119145960027051940307694369977, 17132749309259689, 7798641254839419423093295602755668, 476983339050593163);
    (1615752080159889295006720659425129, 123529022089963213, 495275496319781087245489881945221, 37865275543664768);
    (1193546564863955218556278551151059, 114062703204047021, 495275496319781087245489881945221, 47331594429580960);
    (1711564305254415914791849729063606, 102229804596651781, 495275496319781087245489881945221, 29582246518488100);
    (1468306543467488949282577759639929, 109625366226273806, 495275496319781087245489881945221, 36977808148110125);
    (682873727552580934671350703005869, 63730120595650292, 1570865631829816029222454113268120, 146603174374383931);
    (1939566233016433758049313993620365, 113132912559473398, 573818777911271888706612587608627, 33470261814910533);
    (775826493206573503219725597448146, 56566456279736699, 759724309219257025803362376493181, 55392426397407983);
    (3220436797463295483272644190993, 293507470582179, 3096865099231367421912357101410598, 282245266457519137);
    (1862627671055269066823995962713749, 106098793958329083, 612288058891854234319271603061935, 34877085535139396);
    (8185256354891301348479109774529318, 582809598094354509, 122457611778370846863854320612387, 8719271383784849);
    (1416627569777192745340884177803567, 126084038910072717, 489830447113483387455417282449548, 43596356918924245);
    (926797122663709357885466895354019, 51554801244467795, 1525166413512540906237041168202492, 84840197914498481);
    (251044990895717433483871903571913, 17456051454726226, 1949873554384815397154764256412685, 135581646039255393);
    (1030994412649643592345777606136987, 89610887338035479, 528904430858208725378033798993161, 45970758701219914);
    (496727091978080095285685808773959, 53967503279918369, 518178651231499182013917802253427, 56298133344322718);
    (302326567037531874517057883960269, 20529142488019932, 2072714604925996728055671209013708, 140745333360806795);
    (302326567037531874517057883960269, 25661428110024915, 1476775743718278257734302236834805, 125348476494791846);
    (5034980365229898522237022478424953, 534210357130531710, 590710297487311303093720894733922, 62674238247395923);
    (421862910193769379729841550225715, 27974728743610603, 1715848430030753268159869569365697, 113781973326863406);
    (337490328155015503783873240180572, 27974728743610603, 1547103265953245516267932949275411, 128240102286773956);
    (888833568905310609534271771854622, 92094779886997581, 658269697047934906733661177420789, 68205347971469864);
    (1553787649658083956601567070451553, 100620448383431314, 658269697047934906733661177420789, 42628342482168665);
    (47449651112442828626848943121995, 3840940854773496, 3012675997091282255949436254659116, 243869239249031293);
    (9489930222488565725369788624399, 960235213693374, 12117133499922548983875333539007257, 1226067842741010083);
    (37959720889954262901479154497596, 2400588034233435, 4844955413924521880405059457878023, 306396931283540849);
    (5829130385065407961646663011252666, 460795690942427991, 946215250250931818340124398877047, 74798791795210136);
    (499957206948226368620783053943126, 49402336068772243, 946215250250931818340124398877047, 93498489744012670);
    (10739832729104183780288341801841, 663272799191477, 3795600833732831457140785937310029, 234409497159223152);
    (3045072533169548512736859423289496, 235072769958414629, 750528300563282944403926514020533, 57939101490614311);
    (1676937859789072518761330351169591, 161819802096157394, 441725114154686419618125234970847, 42625235118971387);
    (7219829056775979146644837568900621, 435433289282156006, 512077617619689071599516164222257, 30883784041762521);
    (1249283246327386629539483302049026, 94181508474027919, 399513612075684828429290677420001, 30118705867392343);
    (169953926850340360222038524925805, 16015700651658894, 3297593716806142915937547958938054, 310750535853550655);
    (135963141480272288177630819940644, 8007850325829447, 6561196648242217759830688212890947, 386436207235480957);
    (543852565921089152710523279762576, 40039251629147235, 1230661444760280179059559150613803, 90603164064498154);
    (463673315320491696896121142027791, 42670416830698156, 2924996204841052055015239443255397, 269178326991943541);
    (927346630640983393792242284055582, 53338021038372695, 2061792974680546625874518869387643, 118587757184459962);
    (659037419153354779717780106733874, 47382163484515409, 866137132551934618007814408010353, 62271807369158624);
    (1913049347405779212586727138203664, 171925778222832657, 866137132551934618007814408010353, 77839759211448280);
    (3234106382359633663740326302727933, 181655748124263692, 866137132551934618007814408010353, 48649849507155175);
    (554644417332684809431692728820195, 38942112078887419, 1339730982513474427154316786953869, 94063786538221098);
    (443715533866147847545354183056156, 38942112078887419, 1117873215580400503381639695425791, 98108677133332663);
    (2988345962550246170686730654489967, 163917665883469447, 269663072685701062334514204947854, 14791641263611311);
    (871742697797257193473275215858562, 59771371046317757, 975197494270030721405666017824989, 66864788682187156);
    (307315160529793466216353765556854, 26338976705224179, 975197494270030721405666017824989, 83580985852733945);
    (1282512654799824187622019783381843, 137399953197447655, 267152933496094902075724900907254, 28621004573754883);
    (4114690897895567464941784251052783, 275513040103811155, 416794291057621778769838897220721, 27907870864839038);
    (728928918831459072683068126535527, 61009875173598223, 833588582115243557539677794441442, 69769677162097595);
    (3125035001893405260445491841953938, 326948880839239545, 20931932656756896971321933581183, 2189950497124843);
    (578956748533815878752190114512185, 37857428171358284, 1904325706855502812027145812186019, 124522036999699067);
    (115791349706763175750438022902437, 9464357042839571, 8312050925662590302611211386158698, 679396327255532761);
    (463165398827052703001752091609748, 47321785214197855, 1222403056246817992670577790202479, 124893385860395228);
    (1718987083120738718939265578737580, 109768478144395469, 362909514686448633200945000833689, 23174127090549283);
    (668482735185994598162614346408859, 53358699745109998, 706706931310596376988798116581205, 56409778399285471);
    (1516531052758710250549172086306305, 151313042280315704, 565365545048477101591038493264964, 56409778399285471);
    (303306210551742050109834417261261, 18914130285039463, 34550239205010279773601915254984551, 2154547790215334192);
    (1213224842206968200439337669045044, 94570651425197315, 1086568598408608592611562239580699, 84697820712886436);
    (101324995038687686262220343571476, 9872830712310879, 1187893593447296278873782583152175, 115745106603418924);
    (135112433477078148769335826303742549, 8228116507298093436, 475157437378918511549513033260870, 28936276650854731);
    (135112433477078148769335826303742549, 10285145634122616795, 380125949903134809239610426608696, 28936276650854731);
    (489695392176820068942357483461529, 46596270743578919, 1520503799612539236958441706434784, 144681383254273655) ].
