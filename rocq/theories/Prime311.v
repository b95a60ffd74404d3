(** A 311-bit prime, 1237 * 2^300 + 1, used as the witness modulus of C50. *)
From Verif Require Import Prelude Pocklington.

Lemma prime_2 : prime 2. Proof. apply trial_ok. vm_cast_no_check (eq_refl true). Qed.
Definition hy_2519813502725759288714067316562400785220666402964763142036905735851369667807247505548862554113 : list Z := [0; 0; 0; 0; 0; 0; 0; 0; 0; 0; 356433122186164746428573146339838396064052358513669984; 2; 1759883694549282333884899891204142025465353414786396385794327171568818101915267197186186009693; 21287617504317107906535115615774310408848902132269512825682805399217670937187978438760449351; 1; 3638826368635221336146184826109712722913918535178975643142497678679729668322828364160298874; 1295666639806458128946437077395528047933089780307505687122494171148242593162707833838075630768; 2421152727815678137116406122887931906078756600599949815610432346895815266041974677776902393986; 1160670290978112454279496157536432103440307634700877004755366901610747887381562016131470827166; 78981751370713550896402825428896019960465642718619755046779656427235109198848868703416592430; 1401409491884721978473532648684436374502850111072249036355074393582899271019019957599333139945; 1922376854374054246316125348490908383650198836589640559151730724108825320297415420154400858779; 30748763228783106547378607111949236752040887960554878168333686575160303748319241937007669719; 552902477509592740627956869512394347318850945893113193572096873841795491785886978076019221117; 307724788590061639673649619808375534074932815583317929761115391408768596449044451120290206425; 1004592440537280811152846353809024737717658753765639920147371447899058013144212252935729115234; 57693861809341391537091172815271654718194466227185867224716685650418443993961810812841553465; 513846748844938201856533175207050838438230599413123840961490583479631473683777847948996465229; 4233450662650834821370344123643355659288308549925010615415711123789489168422617708588885193; 1164293197727460808675785030568952988900356043913575676670544129238647679604499321549346199304; 2086010964201748233420237100222007374174197449820032707964358719830185792602035811225784881493; 264547668909474167683156679378535198921712745144742001636584391607505583574804122428571005418; 604301235323748873538052566246507102100965825653553942156694194821664503134443675041895767905; 7218628894594768482200676764710761591884685875771333664293057616797784125548442812205827809; 766564108505203625848299280765721540523609129300710465476549694932387876338601979217547352166; 715865478855263406244633849863586321654886097333131445598878865816869013296145379844246114285; 94845892003866820162153318673016421669524635798166183650104911010254144886933736959137055869; 1890936123824134471079315586599024263104710243486464260786075707269682905026421009714705789948; 2517070721632816817398266000250501029290429109833266864994919322072776278697417797538637310779; 1535852798250647897004217808406845350175861153488058044291007009399220106102785888288084316783; 1183181012228947811668840360356465145185888526313189847353147008541456148366491031399020988215; 86780799664265178330174373177318246980260436446403780190474519640620810989150420226272664284; 38188849509474043872033278676142435891386527672046599279626633568286381513405624838638231541; 489532859225856751807675291987484657420762471855882903204697448552963076473636040817714697195; 109483720085108505889873815997645593138590194388018115044674870828851387780285366389436901870; 418802999386072118855576593158367735394868518351774837899818102151437986928022734991773837772; 1045644007270709998804025621854588214010402117576302327112800434711107461635154453208458409033; 1262887918880651805965705544541802702692463801213621947502894185465855287083284319221426529852; 1180492062111612786490901186777895135611240733363106550153624631516725866311527394013194458855; 526472883411224630058052321638495106791832855252854539139442426827815048213481032735977082647; 142863305654236858894840782225013788776657760396187476798009555607597188052464838208570472118; 503148860829751826377628792421709500708614544564233826375084915816562956275527570372456005933; 1490538955297691241914445863069070379751853916149705774994692064289591548168812970633746400565; 579859601698736962082759595779655283208573279723614247781940993781670006462482253324556140459; 7737049731398662228504990211343550210677518501732020148437856967712947885834217209276063502; 608598531016751747727915800601926055903703124873289426953181892914126770008203539063806085834; 233773079837612152903950485472773750547257689539616885136311919675925398169139913763096809425; 2232687387250480600005658012534454265329788544286430881723946309261900136164861975324932091028; 21087013603808940063901942636831748075030252300591285056332157664976883014764679388006149779; 1175315203144719350457469489342571389235771473985327626009988361011243637126003430845467337914; 963593233290296508177023244999316785023367447147643393254527521894714047639715412949409501860; 469139182585911359423124798472119510368688058140825839460304016298067536303215873781130820659; 2089087853913410954449935070770101372936945532859274604945684479496813101182443999737647511528; 385866464495230997169934330308642170146763266511503208315238974019963080227403624453868192092; 448521487805727180939434787688199889618548571089302635754306706676157140590803675090450399563; 290416333651462064071477127074751248459140813031839463495167458738105648823422328186465703931; 607778693823440718063028763888382028544504194274430523089459931537502929871748053750725428157; 164009830204947707412992116589565355429138274344226689054676126556352956083991914447458373281; 1976572591930066089162847455260677471218033897942865097963030454553030648412770223128994402229; 464932610641012105038756544221475498281577160049619993564474955235476027083309978882690827100; 81774568279562725713611065150814195396354698646681039197716610819720391467937854435108223; 2054104611162175910803511123540205384575678214009100134317194872413610310396428414940396112935; 1513587518517971775398018924426246251767012128497565079669384396256977668360120993423542809556; 1996675047795418324842898734183102060610019119123239464831961101099415788855064677366302837310; 69282679162813744785625785056690065132846117830206589221260480311928967047022846447242693562; 354150886684317577844935256027435098980210330874954254885129754716271012622185924652093749016; 1407875247535466254726179485883722241088202582260541146702703671838989340109272975608111333061; 588442470633918125039427912278393632082454208438831246902018254166849202954745766486737113277; 367466377754168156531988526028596142347691753450982136753410380682552449320891362074557638117; 666161605708399610144173661349165128803990021734690173098982242532994522453124605343330287051; 69694577103910877972994035585505706135365386810225095622391719863844472554218666737365386; 4724213396705693990092276649809533608707204621154588678838346349004768642169963324097752352; 16326663443449933720331128262229129684663881794475936973788762016937726053275112296755508431; 1424969210351701496310490216816524805362855799212258501128259719210304507128681317313551778709; 1319494536223648218803485869830912806716417319896269973837289901833488302394669462878796628292; 1053648778027450839549900565949125763536645794883249437434008045685070862607478133582367048618; 1030364747985754924240674028004992982566401467818174773551832612797421780137728697469733274303; 834576837231690610869383943321466813575846588302591364383151869710840526094512593570703545877; 635845971706818074442860931961060570398906264436377970307720489749397644478485687823416367537; 4489280608185408721110740741509410821198420231026561392086438857125711734269810498077988427; 2382318582401553421712252247492291539713973409327586881646564994210921261542290339327425136203; 821033420023643506076899550958437141720001926694347446398196943517819965405271561340107275678; 928704714598436943129978410640024484551337961018286209610439338295437556709806242793569754554; 797575439957841404894759575099811900486825095511593649140931697629014293190980131818029771275; 2197213965865024347301868829575735885813301745686064397352833452042766374361120276539056578621; 192779187227943824514058079681654805775506549183648733085628948477754959997671990742079319137; 293313376417988734641562872243446533108307842203188221601125233135079118718464250992460260612; 290155254036245428723281709897803908502277582578916309732807509488370336946808319098403842458; 839697734578612966239141571470491794733246972789579492841323657796136698352084807475363794403; 88640213547430312454332109404148451013507090456430998938714870305936310687964638992121877812; 14249934657767657732413719440297521507632871790274981934616704797850227833496638441371128414; 184029153594368970530255496191413296513034280107173059429398581491110610410930696472624008603; 1098049680947149675476976522448406750033355468811062260394857489871276017304389021586025242462; 715307825637155112422833506012417506627780592701687354803481673902628347384376250687947466922; 423807220712454140815191845010028531837207317429062270232761435459154386359508359101960221998; 257521095507003633821904103486159406291814343834454546137974613113097498120482821482340322801; 1963160401532658393216008721881922477456995199163884025498754520344402201978717449870334991750; 1775409294947138319089802687815744473902673653064471682111525041284416394608772620593873676878; 168373549734858150787762847724852708508592714997880701115292236522563663982011546677826674346; 101368409427311794367585568555026347443086473506984847693911534207578079200507329398928557544; 13024348199277918927889036541386636534605847309199715217674870328003040225723341072927906061; 160692016144732847270651766506711793710249353303146208897231972369249279132851596337211886794; 793312680208793744288774112351479554337278664419429463432238648211375891075690559107801228794; 6772066059068254874235575575366038253557331615663600864566108612756708444031959090006664168; 173617305695939084683217168770154547397031035575861749129434496666069791994147721652647998501; 47738532205441700122317669396724286983662106147556674786531763866683864834557528825920209531; 888491912860630220169455957493635697391978080221192289464231330691793644242479045688035448733; 8856579786992837872317605837191283530374205537441743380999171631800949726350041525523979712; 50626791350866142055985088460130850402954451799310917609083038329064903873734849484503906837; 873720869014277612134304020750070489432588216959253026744183688264722291593308355974653971133; 2185072014714458491900240902245891731733918100309168215576715834504520255646772820581819509753; 2038413568057689258656875916315803695213324264985402204328345782605348792558747847566604858805; 474237998589063441776278825582283789064700322491897107846067703445248666315176991546017478189; 703037552618080565421284478406445311148084735115386201669441603256408270398091003374789858207; 1365732825706122410564595909955113775039372559613094078463263166166341157445880815177232744327; 2330464722998949732612186529764477748901130698308592713546809401438577162294946469919095661; 5523802590821078858196233685935736707838982660563789912719619636686261233588610149533816493; 2083133985217011739692263304103849961996815231333852464849029077783770047069508660800802607546; 843863818337281683591368163460854362014209674539617504145796101066124289854131361846347420359; 87317226948253996256793960278641948279213280545873150023857144600439296724965453230906936061; 726460830212560565461433571308334026544653916755057797532779820107708518586668503348014877692; 284903461553893234565580570912552968901856781739149606855933782296531249145347242505655617835; 241909037098416321549867141358588988765761063732527375948732959129428517542833477639238257112; 367061827401173470550463071691379138666551066004455968452904376316447477829738057453866491068; 128724117716837933850724631125540890002878131964000401040278361463509993587826089415523205938; 179050295026350440428082940913118037710157927842736558942385395199299489271790244302436850078; 2268569269693957182691616044080183576388718841656311956729426594590165905102631337627807895207; 1709978731257226464870320911684789991826543785511403680032098411559901328786278456589615364240; 75420396071288362765890403729960920299299289560865762890361671636980114479200779617372231579; 554169877426817468670414404835267433512201785050264685076164913347997176612528208892133125873; 31848670932382307133199894418567746839693245102651935867719266973704129847670836442103860867; 482922213376088711086753530480476371623530134658032776449761857318470601053105568569212473724; 1214420225921859696173964769361243282338392850917742869964426384317289534318312916899344250; 799547521889482456898888245122712744159944592905956840589638995602040513078727225505503995203; 13771743734743490156177475490244780940798193860220471770801797491525926659507310220800271291; 2352976518406845111960217915932273089049735373587184437288132135665597597423174812724168817948; 600156242206301794852311202585053811982789901788317973187467930432346940083292565612488263762; 1695548948813650195842884948842408955464421270987702262043234591433140927033389578135863311388; 452001342216849543916728929002977223631747577451408857977164817325236071856120837166121724033; 442715460448919774793972942491271222471359052914974479675484088536211680801729226245329904514; 17662206548270307335046142644828374509337440838856540075595191937512873648636574923192868940; 24812324562614817609101176576948926996528169193892871327843243868224124274238064634043818464; 1490181580746200773893911172375674221192735707620636679276159981551957514449415982618760861896; 258991613217535313762054005177337206906262100893426200155210377035871244507080056102844354917; 209635340867137188127287397305258599661544108523234787340498741986547112076415045214256588375; 1759356864789575917477946573009626459235037411756327978679474913853144655975721601537740835379; 556424126101902731270653394448162507039206541377480384475221917910554330928704836280191004897; 78077041070492594892247396392685343839965124335725434364456374102816476151931814810250332920; 1166291192021012216241901427341907142519724515659349073331054705079143301507954362968835938003; 1569364121731731392661643184072673712582686729611905444872275253395883761172355827280804959171; 320898968265345059332097226360053263266444048112735487706885008606059496559864173682132032795; 1436582043711007562593045789411620937595948370941577700044812038701293557760574869033438587573; 102562446467572730519844900622987472070441592496146637494721442131921150078794672859718116615; 51080894049222879150587421689048565538227000019752880009192050663443975497506635707989825; 2448001797026541673967335221033350223776084327048734859836899600593467744934487835507820096637; 2254238821515063678063535741653665300101968026370623124384883177860242015668869056059007170; 395956263294242111076676223791526121603602806270538597726771257360872405658698528609014934102; 114732114601831939476486743041396115581929290970744141822865187159451517365577726029436116072; 2108104866303856519601415501340325735417526287521004881582375802730829001072294787097996253; 140163358594652198020246910601876599178184263019808432542571071275635100725695816331533617680; 1334895060655677259501000968938503235500032083190739093880797136804263444524316696796081110028; 932342084144161960400456951127577497137554401050234580726005989771365856104043950610359001004; 918358888517706082047448812454436699463081641798163953252144727786169583783299845854060961544; 2216199003029609090084173435410860414971394580697480371776141652790006253067402004192262204614; 1353036528286604097563806357017575351187669879653409130219147477573610436467286390653951923149; 744583082028405512542961152749166569281794336064281674442508210415433991004185049558682085397; 11000250292058552933773199726568065704106503527823522654458405967072789665214078455837997783; 889742998250877963934278550054352605930085666915197637148276974649525857448479744560332225031; 1331433860820817887236269594556596657995303386553991588784637986782744672322656959754944486670; 1587240364433941668472645142713869662672321215496737029680769392488610534143801294489736496891; 86930054328133854476961960431831318082042060554969986157284413901157623808080206452940403661; 2112223003087404518332987460454522907577219713148702986867331731620871730343690922259424057002; 180540359322642861781602598630424235150407580254187841727665213151339255048874673554174572252; 8308957392676571145606886046831973063856254866345071506485835325831809333597845810613410409; 1593738444080410434490445107135152919219051203791764378912943004571792869477472053507704818059; 156226443209362243721669796220059768958852052747505691433727814325297858538033284714772014160; 551113800860539839580643386715987141605462459128331758423053499489615793403128261998990811511; 1059153236040975987857383405647003929626434850167537693242173259770889022516145139257395978329; 1399215977536629612407007078249283866383774671989448463103380675469122421165769933628207955846; 2441933887190272513088875448575798128453565401953440185000075818485227549297937543101648630182; 24020363891621509906831461892352640937855352482840609940414816277441249125185401676463481892; 2090302628782301966803902070096671371889999115075841448235177125235736603409820716836784957593; 36032511175834537999883486382392061141897323566670254653528881450403550679472318401159655655; 1093658336449383149007331295700477415694593092029278477980471258464852797425523632349497281022; 1590274932278501542487624259663654968954277618540210899391747460843599638920605541995690016526; 1742139375248000358383223661851810338460417729837839928430594156706906836748435561233891199635; 301593501464962745339911936418568797395760826968451195311795553557111932022224169029271970346; 196365259609312530622510822946119092822869149628121540864934827847225342281117131824418176896; 310123325094175859539431306813698134139405588391957509687111651662422847735977985539965462283; 581383445786038493554856848568732473960807835176974102439058890613413030517239383492714948213; 1156553898497338752716532107378235281997776541126051449279556785142332089408395669308490368019; 808084813334955815209970463674114714342792469446917169669874796206913451539762283606070369839; 1962620602405722376503575222397051613304504493210062099466990149342827029050788668797587351985; 2080320182316486852522544284082164423617481219348822691731629063272577590068669505664799344456; 777574887433366211265274602422747996049562168882807801926448067311132108980137751710899012771; 838921352666951522988980309806891339316195680853134011656631746414733362429901742533928166089; 600250096505214847153573631105289386822933915419533592718018016730946372103510551700766447147; 474893485055427474180897318952367284084653813232366594545523257725878780945436756995663682514; 902157552841415554977828371060488704990769600866788532871221301574026572888231848939085459293; 55515595175426287602271557599823014174513351786638629435196612380185961390071264710213640439; 420449962598624617108890162915856786732995003369909216146919690698212784759656878645058434; 1313458454073476101765363012213797884510460241989952133077927083128644995767243929305978892672; 1511483312237094876919078536185234061874853696430336299349368617213312869687101367039470918058; 980578130115225175967607702223847766022912492933340707892349596909049381436175549491066671170; 165742607528566538601795231373638854932393727171533136962190006419591755833266149929761347322; 478344734601728654070390285041476613849593993238854577717456720142963466384288345790823249933; 974533571935550711549898534331707863559745468828974816703962849298649106871319333102617640958; 993196269731792986761639205735765305804227176065394044667022070116481053675011127702015630021; 55886522026978586159071865548948377438880582590060774657593075072206132626437072737807959816; 1722671104906602150452553907504914406543906474781891702337010726814067539581267153997495379695; 1695780140369851175529583639867658940679012731645819474127673925080245279446327326710028184826; 561529090670505806720415134097816800150447857257352421174073987011481949647758227864387380675; 166352291642244274883876422109492228802503754990782486727752097346820456597424291972176437456; 1859017173484646144650133647716971165745793496357007036527890774525650888188154936595498477481; 646547108554053133005015747659705705621057155313222931751993276772621061262856417570699743967; 4628567831438044508184890990517749650870999090361979869280645710221303958778375634669497567; 1530106572541679992460948761689831078094597172417728905763279111154783904333871747944055141679; 14059399484174770523699866527421062101134638367326611686799826472908469200464027385160177; 2405473441146715447293212680509185323045529507154196687198669042426958755585813608032961450286; 1218140760409483326670020794536780485855696131507619737626152802215369061315205897173627521507; 2083348373952178872114802464111784171317511916554162293750597682899143143411840651296602946183; 108044407165697559585742503683534705545054969850446582319101942232755985377178895501442131069; 114499459288633930368803435787177518870851967141316940765345038182954227599419235873820683037; 678631613254189784830046473440667309287936561756592551441240457607631453022736637037052020867; 1602717201280690124691667647945773542058416915210683413095404172302572958532085920896838599127; 11416182641670330631265923659377797113624714024327871730861082252422495251012182576039927347; 1216480453812305651689815431940970310390868733403338424892275317342360364128179027759542682246; 288260534808672025815673453260606006049157871002482380149694659458617004644027690444353028179; 1243181807147731476472334835528533525990864459983004086247575943994437726333926384285320669430; 2495081407178563539119238951369845969912584799087404490911685289998242433361655506510435145763; 2016290749474412859085954872118741226309678889925508627891826660882650277500578442890488771458; 45872406650092090334469684096581275124195587842881980315194336157545243266398544795133972188; 1195787975439622638566667157845679970533062688591494037796468472217468106208693275146467674382; 1017584267035541140589784919160643566714685771432633736514263111353133760113333536720102106908; 1609545684576910677494524894151884644536049987646311717355466574728793735287479441474826834237; 68319842426053275695027512883120544002681788677958831281987214550326819715342717139077868459; 146795890769953597891923854723466813806293987567001045363259765683074969134322553121613704972; 662392428944808207905997710489532633424844979363447913285795393893616074218355999004681497584; 478923127344244546458821885015220847688642309388721632594861538020907495770847822262016375648; 512992012439448959487654446272301336147631792532612663986337028026781952138393985311864243997; 1943435323358277898638747527611611870340890518779425459177864382415160675581782157092132876055; 918763121529565998065026038982137557272353460827650970702188990729351994781432706849102035; 146825617575996594448012374904341502724377000087048372487568996447102004775104346167267322755; 1607776217451123793350633664410479072263965759530478174071730603187016348541843909337758008035; 123432221882522251116634788734904987641161469156709004414230232551339314635067617366831397741; 19674553684797459977308160358630750296420276780053852752208191774929161489347898540362041326; 1091255304589505445097195223838761905670534048471148285894592858226697548689019052883608256216; 53748984164254559673932316956062735282861614736577436759395245047323605939131036670363514805; 1106899763223247166565631348946217303544918952036076904932872281644445772082939182647948722323; 986860597168027320127357996621914225966322333218571671617809562335746210826015318284662554284; 217658673696312189337434072362658760901469537917062712985813736601538208899404924612928113783; 293659146806317951659727688216994893397524706129510496035158929167636637156021398748164829629; 2220588477431048690461900929509044240713391211679719666255256990466132074737473711132796041549; 2180166264666125244586046467520382672770148650917522703306892937729636007038810110569565521260; 1452736111892698372012303641558726818963327084394226985537518064981826339534845781678509467; 1384209684728218471529893583826902656020316164423776734588419012723459231881834127938861972332; 245594472848127651949222536839263684633631043700311664942309315734257398121907127601701879226; 612225400892048301195551508062944390950148577497583730227513905981117609832015197457807085756; 1480633559888919420283380488550048011486640599175375430400031417259921714962545055859614359414; 244645349927310980674533238056292458260720101112282376051400363560478184017563653904317781192; 762212144976581629162688269463551896770750898356957323052052644252609386129768146438221178492; 2145667393121642756289013720755110836764241617693131325456522483757327958086928125250190387943; 2063526372492294950940350087584029380973044924408675546340946585283342777101010750856133699256; 296960829223316344502025287812700184267093105791893735607571769891177287524304758295179706; 453702143759294657568993362344240153607195365818425026237748728726738759849080872714697508379; 2469746650183281337232857062144279228253576770503458926128364943647829223394400240849173538202; 342311237200480240993204128730080737069205686991862015360723316315068559274284554703847368602; 2271180924530177893702675514099604777962277633840057407181833034992629116431435028344590482115; 1485432857272609551185081116026220989936427050943963949427727597432368759833137444786041136897; 1452747488315608216246424828886785234311347807820435869725218894139414889706388966067015042572; 56553807056637776168940910061928698966757130104487022677922356543858659559562501828470222809; 174842741742930297379444798688069403375062600740823192776940301464739846407343562723346225279; 1758880171167952377956145275745514271974483435011678831716759243638001647566384548859487516; 2384674990661612490158518245255869170808626925051601499204042572170151290753519918352543666742; 2505409351984113355563196689613765529561482990568893124553539523115820889371589468880905958773; 401214636436466810886105198055628498121506071739217225264011565713404683598289276701333133991; 224754963245938698980365246221105035249279565137811190082434535931143819731011977583485992493; 102911531123752513674435596664205167785509251991732317396390456416085756621292543783340761794; 917132616192469769243114396464726265836307840472158638719746254315613717663229388712933639634; 26550650042767571514860852425507272509381016350083649046066111024830855502052361209435769926; 1271545026439302568904166321709539508403493998786130121261665255199041477874744533743034700722; 2035635878459173659222186263672215418375704379993302757915030676255165881055557531377028790195; 1480012365174259062308398706090113667108819170463850437254643659181609809129322889303665196109; 410186114211674069670486069695162525529433127526264879619814296012140271224786592048899771366; 36417330962273515242881165155868988063828981611672333128790487410340582980172746769996294676; 1212595107987443748362502045502109481522218708083240961802721363569912128321679157611445987874; 88085313182639181784069614838506921486334497760609252278338792553144502580752254449744353122; 638053613463354638522750706855721177033253544273896753266941761700610407300374792797944659057; 78204345692077367206233171590434436536361372479920072794290313568722974687416220882820216203; 1860474431597544991765367788650377046236632818938836903843609783509518657538444089927974507613; 1107885098182530258637276607548685631693170349243571725642277311698271640493838625922426935411; 115996947410247565315685395631998038065553727092915093293370121118949672037789206395913402762; 965311943337980699671034432738745648722795892423561359721261735400927025390667988344328507953; 2190500460039427905870904176364205051627365614739104547680352161334209579982365617228812103817; 46256362548082356531037104513757011389708282711854044765807760053438873559512416962222008866; 302458833165887949218230012565334152692282499445377072180740043736452582555290417371286052672; 734981919466909359909682960313571699032636479536146140080960911768076540935024625992136513910; 399818959564887566809693670035045910311585195527129093327634083663434356863026451294660492395; 618404831347422599846549704967565222731446543511915702157230971450073897889103487324179304393; 1427628151041358279367644495525067174976610420717440839296672643797653683071085495159271217450; 355432608379351204199442909642881439384916969090174082487347214263553160835189635196274884418; 975214143586483386435228476660343425965890266092114947878009703282844224939112319047389146947; 67163035520588127243690452795006056785853121887238347405900633473322773048570598037380878583; 426094440791626678744730876533543557854915880516921285363111281937571610542415522924182539876].
Definition hf_2519813502725759288714067316562400785220666402964763142036905735851369667807247505548862554113 : list Z := [2519813502725759288714067316562400785220666402964763142036905735851369667807247505548862554111].
Definition hz_2519813502725759288714067316562400785220666402964763142036905735851369667807247505548862554113 : list Z := [].
Definition hq_2519813502725759288714067316562400785220666402964763142036905735851369667807247505548862554113 : list qh := [].
Lemma prime_w311 : prime 2519813502725759288714067316562400785220666402964763142036905735851369667807247505548862554113.
Proof.
  apply (pocklington2 _ 3 hy_2519813502725759288714067316562400785220666402964763142036905735851369667807247505548862554113 hf_2519813502725759288714067316562400785220666402964763142036905735851369667807247505548862554113 2 300 hz_2519813502725759288714067316562400785220666402964763142036905735851369667807247505548862554113 hq_2519813502725759288714067316562400785220666402964763142036905735851369667807247505548862554113); [vm_cast_no_check (eq_refl true)|].
  apply Forall_cons; [exact prime_2|]. apply Forall_nil.
Qed.
Definition w311 : Z := 2519813502725759288714067316562400785220666402964763142036905735851369667807247505548862554113.
Lemma w311_prime : prime w311.
Proof. exact prime_w311. Qed.
