(** Quotients for computing xi^((p-1)/6) modulo p without divisions
    (generated; [pmh] in PairingFacts.v checks whatever they are). *)
From Coq Require Import ZArith List.
Import ListNotations.
Local Open Scope Z_scope.

Definition bn_hints : list (Z * Z) :=
  [(0, 0);
   (0, 0);
   (0, 0);
   ((-1), 0);
   (21888242871839275222246405745257275088696311157297823662689037083554123448134, 4007016174551039);
   ((-4449099755272690697298876694528), 43776485743678550444492811490514550177392622303646437234514275442489437190798);
   ((-17301168384660326188651675639101959915379721084), 124927269706565752102284264793224199694530625766);
   (136793425027505822968456148853810355250711942367620594530106796743218606104, 546764220241045485076064093176973943142001933796021097192315761275307224278);
   ((-2327159590284810863807517359938459071014851329805288523337297357064231543809), 24903397418145687359399831902344657190149247600407772320210698667149283856467);
   (690980808142754486078041439448058191563000901857411591416395188199982844986, 100242638646967722352558291205918314073432974278126102911176441446008779130);
   ((-5609305668237878475945882722846673652268348703514425510155103805031405627353), 22584356699325400727928918721860084892329172909180162652915187692231812514010);
   ((-22508944262970197778874193922764155783756734920282570070387750218788074508665), 367178958980934907191099393483441259337953074399561939728691094507372584722116);
   (3340122500627828810987425195340172990816629244892594153012755131571170248482, 7427498484211450854659385857616136175413249494172547746174980339073424508217);
   ((-85837471980313914112691885308316721413278277264146730488382024830267252003676), 129421291536763399800101519890008249337776765766306707645777879573120085944023);
   (91949266564711353503208066603974657399059393771806198535176399059213085017105, 150092853183371779454375511820170401894262980830277392100739152102612568904988);
   (7974754064101837882235012137477731564390026581293639920273942515621056904780, 14237061611512764344154770266616353760546288352791078919039927648606508762917);
   (5816515990960095535533319119536820506807785763671997093034230103827212344507, 90694300203944083598191461344250106679550413073299846570071683634772482209428);
   (81466451288302267726768224646056189077431785490527736203050862540393973885986, 99748551586551080625790662088465317201255623064044792644293376841208939255666);
   (139160093259477559322168707248195089741394374321737773640031018289388549581822, 142088915387175995878222803347870420905835215442435746130200491400981798660376);
   ((-185833745512534751771207254654499166035574958399771423504865906407319733390795), 41505851105721009080042171179788416681787897630008946641566334349626247945655);
   (6533572628467360869291538922787642343887389497101215293171370345600965361334, 2970535647319963681717200182283788928166189524224160090043399976391958825799);
   ((-25359051816642080032668033397198718015730517557968185953608774566014555577814), 49261162112872029129919957855597034854006342773827277497297153615408100173227);
   ((-22381109208439015347244305052311282666656199428434197361662580952660164501651), 137852616617175787287287888497152420510650487284159716502170894585695995261203);
   ((-143882558609878809196682718892534093162599220413140235090890184989988943129143), 166876984492969703491654838318272350149391796541423111815546667197422350778851);
   ((-135789647887151052020798251294143965460353366226986773372410024816355048940077), 236947087975127922724416884316801636512933508229182504416536537601449982683164);
   ((-10290098971095128412000395368235834068616879013038396378966586802483148168880), 15576839184852664220680548611487883426341883936721812610776992122638044425479);
   (1372681049138512608356919260253236198851792260132652523113197202411764044224, 28639131804141140328444170433740735472542934142876142623133769075690370324098);
   (102449754444259741747257392077482123642337953853848743601203540598658211997623, 97809127150635515625000233271239690385851265683266385729210031896872252108138);
   ((-123973223392298039553918274557713902401727500951231179661898294266918819711715), 54872471031691137456968719454799944156979415933795197676897235040771908088844);
   ((-5769044502386417714338627359107337682157155475039519533218316377965602078068), 2134475565029587920559783190229551563131239319994414886002117447644509802741);
   ((-41978841608478144045802203233940266650831113140176024796780684284316190619067), 68661330048196806064136715605851025883202494113405775803553520213902999602573);
   (12691842104269783338092905873406202023386059880194303312878442323591285156131, 8553295009529139562027596827935496877933879817639197297119042035012509261111);
   (16730417494725922137559381559910996537821014895259976592440511708897796933763, 4407226711006760581479764555278488990364812924371756759609265633821971726777);
   (3185959159352794928208969206779568984333385721813475400611929571870709890469, 1739171919753297252092243714162331541004687107566308279490947320332215820832);
   (1718405259052826441796032148838221279415649689720940150531701787070968991329, 14423820262474758875881502278054483295110459924860568946135737805367709716046);
   (6721723525112743862062441370244051340754498249006072488048312736632275337589, 6907864207916142312543858904392167078132665180224910986816164331778636955666);
   ((-9417286470593272712158807756400352386503616635363111454445934944354216980617), 3373667606851632654444995165868547368969248736123867305916571659823514074212);
   ((-14319889503688628621219636705426751063831484250143296920520406895424521953648), 30017463303863827243874065083237780581960570454963231122984931921952718255007);
   (2836990766332547827217626122128163816757585051837735900439499537675615266633, 25364120863796889019571808642237856637263107018073364585664697367048941660324);
   (3331370963497040656469535156978168044670632959612768336059925798244720722286, 18072645858598206730229099251568613862411184191985085646760968360036514718911);
   (132115893657891999524520855803919297528323113974105024681546277278745369929, 17235566987229622199497684598960172586969239859689689754306865591044282218132);
   ((-74216224919336000284921003364514502977534954636847212473588734354581584211134), 245184150610993871211954510139641517363897766068512991660383419469952730314559);
   ((-6913691113900108118472589957489981672537953085523386924447568061188272054193), 27006735408811812597624564669372663593796264367117621314871938301596005217289);
   ((-129766169346984981560794632882010650414348456431705445430692735069013846809044), 98891809423373999537821754663502406698484097207241129425951847899694443504391);
   ((-69411755321814267714731351186351915792395062655311778668215102191459124583868), 140255830202625212602283071283054847950425573117517201785124742970829041825168);
   (17938905547780037441703056528028153986261409952024184206966804992216902239176, 76558704779182605359405313224276963015300713837208651097301751222200617974066);
   ((-39010193774225255524032269655219346713507520177752686579877073730669385109390), 8056893441805492911850653247236142079981043316086709685253272160850099802476);
   (10623833661317733576022021123544283924030114263113637386896593021227508026487, 21255196353021780947100338294697075992783763294857392308959385472485986869751);
   ((-1165824843854262054358110914073652626606936922180612324280080635325330779528), 7783220431596188563087994572168143775099975389488034629201296376628443824289);
   ((-2554173492383967054970030155548249428895738361873750637824415050091412076630), 12558424985543851618074938138933049021238530777857971931970856474780885470012);
   ((-13142064757916557512773193809800615013086646001489593047823063953297800361814), 23875167459859210318127163416165149217952767472101001438693821255004785296289);
   (7357036097129640135452184889666834463031870577085380047360870753782486666066, 9437591755744866302222819072096258910774859708367092032000127500979664029773);
   ((-10602746024712131128845203831248013311240308576386485930736929838458983778917), 9267258146026261461102609887765233262692687272651000125163548703356406010093);
   ((-8490575231325892741104137288264540374392994175360960761301175011238281487619), 11102586839300051111596857302492578160989226922124560730903676158881905036114);
   ((-5148323347370326356128302634816488231172275364089318133709400060757694830807), 2936468855798272875586527044312098789056766575496573223663374262551109144987);
   (13984016957318698497684781997584194684697107749688012926196852558252842268561, 7574448205836516547149532161175672860601713519306226184169680352258458103503);
   (67056261657059642419294304083990719188420062255150833514108233832068225412496, 36930911508916820602062302216129529191258114280849527738914958519928552852870);
   ((-46288025532462182247578505613388125542709547510984975122188381295935800478359), 267748243182963908681871774808745446794460204772125156214106250639430024917194);
   (650449767282236886510161731838402278311573381874324364231747939662876594008, 101424727321902860065332022602231731769418389946569761455248329987255360281);
   (71551795474964971510176176059045060167811834573226007412710254821507546207727, 108281650522530358270120727067346423676588612575660354036412097084204863510756);
   ((-7657939163735283356244771244434067383464970881772574169085100671475384846564), 9209402893705173913899937507761532990812570250267038144157931761617453965484);
   ((-24438827929589307539681188362594314831097784546984317855060310619551679744805), 186959011781638751616088761626485461325351677780246445626795757600399559213561);
   ((-36985378870828727924917466385456051553186922211860604829788152602149196156005), 273794862434908475556781872750644773339782328852018007468369334946747433781902);
   (8055673122052589323613848475290062550173889362684085559520114284359987640026, 17516943017050393606062677979477478954284759610330171132103355435896254088508);
   (3607849948174114620863968989665699330599021160564326457704471149591713154178, 94972449896478479149788681299696506778805589298848798201364260152551062804587);
   ((-4163504080060765150761184559432290359573759193133782677743473894814132509307), 1183208519206594736653874463751289724491326485559434178590431994125620882717);
   (7189035922166587102492420372386805177358740812606561228247342827813803143039, 22586206440192746807281609544852457411854162655236556380440038649292252708263);
   (5352307208981510815794486173395306181700019737114685280974674976866222745440, 28578404309172499718088814295362902746249880743158384754182964560972694818942);
   ((-9596771179051023666766102459660216597401129326809789823552077946308477917554), 18877393921766416416724781480203829332998330063066099477425180464133092852684);
   ((-3927898966690227464415805624037224599909657731459400726546254618918966684865), 31076577846551573056983910247581400284772711105122245509393035076646346200711);
   (2531816376978666122366458028880980176500437354797424992231343073276840361811, 6831049767877183621403303836658971668720002558079262201107744820186345545130);
   ((-27394634295800578695474389333026649355627482997813314531274145059140944164929), 121515215878100901047363760809285765683030769242111673803217897204401302233557);
   (80447816246644512333474192867268147928020514514486097365728662519263484965705, 104871643400016857084712115394874461768163253687016494582023587947408433773106);
   ((-14172714967063946986012575960074906187636173064481185769940677978641967544335), 14840853175095828352348782344130314873829172711746192327933871178340359913199);
   ((-97360864355025139142807862751937491622404886514015369162819779406170855044704), 45768903264951337856248487094434142604739150936356142351321629106236600614399);
   (10083559248315192852288338819518055509447822894826496747304357145681534470648, 1512517421078945187530520826841756287788693504717964031502809206117019357959);
   ((-279389019329104687107221612142163993836441042817572953550678551326763300606), 33574516979443343726421760115936388127503008338876658073023859984509851417114);
   ((-528529847305355034588412835563450134380599300963656367833165798498041472044), 229434164661982141165312877334587356320283792514087773438929170041691834591);
   (8727484000223437904654789320446959973177335297658287646533227079216368987524, 4803539940848778514538428422933906474744926247538845438943541341634853802511);
   (2373300501752604704085094797127489545779348845761020541275384816498496940902, 3548201177158950140195342916426426017791202175755949994351669217307998298115);
   (98614417986264942250866747532649750947317385786611700412175965432376103146, 26263508076892792366686268377228163174908337343324207163666515259300904264539);
   (5691732402236255897258076660047709217867202094896546299516153565073488275574, 1135701146249024301212418384955819476258744215142372002618655722177261058129);
   (7846090424847695321408147568674811208814288823335837533140325696506838709106, 8700051435031346492734354104100322432396958985001872545579495048875780353320);
   (137252223458156445746136661394229493488671648166488742427714417581194768801361, 193119331623871680243994859991787530569065110447194725617150611426068290435369);
   ((-98362991134818797153230979879700735771050825962979821923309490544172582548481), 161981742645437896002976245863562872104740859520159136434428459341016596507654);
   (12889063819287484691816942477093649399131471775279013107136254955339979007362, 17008555902914806323802228375617099096535733197438222261954359949164819270646);
   ((-12641272847658344685383892225651369523552899734365876919065762560192529401701), 55342349894197837742923144572115902023610972323158606577555050679267315067288);
   ((-289225002479192139240485479164524299004845517156010435964785548472923281683), 4553745103734983257221169490272332070649891408092257129747744561176741103231);
   (5406366209566935681089829017015423189757902432300077484712262004667135538008, 15571265966431601433664570055599952661264164361713424093179706195386908698063);
   (445814484712815272202270618806598960964948380151647148742373012997912359678, 6184400235309765692707212528479373922280784136225195852637866802715659142098);
   ((-44725291328141692216891845332180176350102377970358882013327950537373659067157), 17410449382666441046836535779225712583056229490373527214947805676418917433785);
   (171396812002762406467612076064985195948424410000692189925506600807813898020613, 66045401901655275075048217793089531889484402664108333610227394399504312725138);
   (23167661026340292239823698066548963232579240794297916200130217873398897427920, 11367249548603707952112186622607732958002402366568554972908289985549405772899);
   ((-15118455302340173727160444450726451709165325276314779499209853535597220346639), 24140835324940169505721894064799038626027407058049044750450145712651786762299);
   (7342921911102816927525862744196896194049349479632882472483016976670335964132, 14811816824587275289553096391454952865753355198068905830263989026055885829655);
   ((-14700710129420422280961906151127608289768064186040562606959926437460167286410), 2219649265575751201405820483103097459578307863308335499596010467675665469214);
   (433296796147987283202532482603456250504925628667903174941347268118444701951, 2846438368833516362020723313648989874094787511965496306245666908367991243794);
   ((-3621580530700884921168165859587297331293048913900214012706329211335620507829), 2068831364847590752224933447225856285543800777924960276069084630075553943531);
   ((-1157082401515299619641620368590279085168344338449832528692690632167478906586), 38622410724185290281632932708639318464260656851594604039998797362412940032342);
   (1095033871031244828641362132073797595041760091693745357992709671384120432261, 5575905836273846423092335185334320053294171241228684383846889166238093882253);
   (9691399262580452421095622624880504967767441450519438541029969875502988538164, 12980649281862431514793447145029451461333046733335766255006619486840244218314);
   (10186819386823960617451076640938659772608411062035464659029824447124688328178, 29961787837554761370215782188056225100721578163145253065978081974373748545461);
   ((-13698311594271341401356667901146411853745709453738256842250677232651942843730), 23899937556525810664342977709242738641382488697077283672849619031609943093091);
   ((-9295656891279032468140430165795199687186193701209416534299780026659484809543), 18324858292296670078744979206249963226595234696126603532935293170735866442186);
   (3468972772084786808800112184779296091566803587894006321754969714962866430189, 9197790201071830028446643279696689835804102102354096909164336448222802675061);
   (3179929535282120306234664064683223585001146217119615202308147123380813493028, 16540406120921639425102256426981238049524290876712041884419071200856159002872);
   (7111624759410655801892804798122708836418644384686861338704129510959758521879, 20029372550813646005892039919445960161706009156186421349606093214055352470287);
   ((-4517199413659108935781399774104594564954544623809666558179437730928696509996), 5050433964912187850411485241336681806493508925978721269416473476501446526570);
   ((-7863070102025030912425210714816369871152821999798633048860709459718947649936), 27513706948634179209594087154329739851095865678405429384497857163765825727776);
   (33721582547232360151441820688780242900512353269593824820908247079908760712333, 24510127883213067861789075712501273608601349332656415682814381315571143099586);
   (18358881291990311312485918399674181613517472288361627360031055116922342831296, 164474472009221040948855059785737598274769247813127809104130067924458033376580);
   (76488258297589638105756919398721192029928593252486798506530910714904671360193, 91908632274216383829942632882532628771023901745896574470258011685477624566482);
   ((-5988027802073794751763163334019065091379016189563924443986943677537503226662), 3572280144030173564309989232183301003957662455893680002072180234332050510579);
   ((-16214118436774768380126670630112557403282214044767203890411791882314354397872), 3198239809708729854778306486022868730457734777351903215908401674959280166577);
   ((-106935668236766342105690529236771288471915583406087459422383994288737675923280), 3942740996278291014633762435996480927186775438127206229494523214671734136344);
   (3659094102028872391245717420926905050658713799240520349238094651488472285550, 2637046912188156437069811634263395703599595334398694072679682420276285020472);
   (84647065212091231604383917030449182057705153127802666380455794421639094444056, 74647156265944812667073603503719301645820861732044463015819129598758701033422);
   ((-131104239104904644943389661070699982536707564650059389691626568024335299275657), 79284649231736184896618621078577030945273621171603870522310108848145056866232);
   (16060850110472532137816709518828465171811318555074759180894832125849969350122, 18817927829017738219267566212052784905407872538399310287713538305722043894337);
   (250740698906280811529089234507572319140177953268231810379994028301963101553, 230498442441757293136874942696947251182328730540189928111122266940264960881);
   (112527791164462583022494223299889020924090364572845298227109549555018029500086, 28788857961673860520041390858462755950803799904624873909915711054368910778333);
   (11534556069528151779550712281876112476602913437500426301534747097952066456470, 22994898407741050440651382227870720250993741054037468643326033181406158174259);
   ((-10609179308376766249049956558518274651098260652215597752327760404654560793064), 3056488674429000546573574409501210057450108174985958557385671669669103471074);
   (105109912592633770614738293287091393489346768669570597392900979906626598590101, 101807261697866604940757945077762968058598233110506017077725289101941224554814);
   ((-118442077136776756824655302508435674347483971264807512588067250501016926521372), 58847260207412351731638183973799078128829998304857161096690298640346946107582);
   ((-53564710531595700271500780661955432654467882236763842416716768742570989784437), 40178868505394011115707486794138220451105961620380403384868839439265955975623);
   ((-5664932305794693570580317488074862412563099180808141833117678668466556477280), 8662957965052522813003669755885942060990068320974287387820910157656721817959);
   (22943837018729904160953536454250176918811540118908731463916488491663094921434, 13729620355002024734780371323986090866547442148451448841044483975793882228820);
   ((-74924560522139613416327473188878195246378933904328889973768139862519926034130), 78517289617588502059775845089868412128563171132993480736136368850535020951142);
   ((-30008557248295312328456192124082080961841582637859165762799374976184917757724), 75461182618478306198661108355859122987418828240346928732454961540866900991008);
   (154526016637776808525870823531380623969014677274354356321755542662644988412, 889600827035076274712622513604356988725048532740700892320120158312568682895);
   (88069007412133382976952455810271500111236695499193622257102442268550926111791, 215630282157437332379096605258750344245996417994960931773574765271100797704466);
   ((-7344765585676207319037386961597241049119945853666184138380582945201481041436), 24931386490623412053413218673562633208299841343262484884721603428428244424725);
   (1426230121010877116802322839647070211499790921342405409907896487410066349748, 2393575923457156491216647516993704362299612105099229373111976848402558709667);
   ((-10388814121924341076257509549647869555958552381204498009249451213575150117992), 1034138287040421712145477430854572290470719702297122711244066301547058986916);
   (2183694894700311327470522933530970893835167646641555515050044668632951141755, 1280607651839391751528405498934841876497534028257978911887513836781079496416);
   ((-5405545196795399783705285391315080462129573538147857786308996155118406420195), 13651918985416527476996443504856870317335224559000164447580862699786179912098);
   ((-14081273057719524594462829679462220159443299461122532889091545761464305746371), 17896273464806662469898567969569605494375055094282946783796002229782122207326);
   ((-113219686751450628127249878678107083348528226258335287648427195682504880876739), 90994748867851197184774003472750814107690513833952217530158035564002837600926);
   (36997767588633367084235915201635828924969290083064391343773594356364682844538, 297820925295366583160377386714618231053511270825841932227508247282445173857541);
   (16228722732505642432812910917491429238252085541915929716487057257469864597030, 12922755123324886272765766060980708173354404982474402306530084752427093004925);
   ((-2712607973466421415592092728668856624942176346625896059470582015673439576982), 4103132457378438765872056601554286171034499567464376195797489938585313436358);
   ((-14693975267263647927769344863169255523906378547296023815224921133595271880995), 81137036007655397556477638586046993585297125693501551219372114756881395614996);
   ((-3834795193089887324054463109222948718073812600321340958638298154349231647962), 30145138776342627167773015109135709473351422564969282461799018263031683908009);
   (14847284987969161036787191696431326659484027405211976304239215018092934047843, 15308707402580562801407281438699232032730142157722428303494378319220075558175);
   ((-8488053112224643138803780550953168327119315566602448922294437632043417091531), 16772845464554731257956144481750551115546354935465245455922418855547271615868);
   (2613462617709421741120548035744924605820101448660333674041631182878322371248, 9086847668072028421178809388117883678201337460231308311757623667889532129724);
   ((-67524406819527660241490418741634257127116856875243752713658458204685766246712), 252959555616090408045106862048854463841141377273487411733625563318194158325608);
   ((-37023658995964837559424318088531316933678312019050788639089024931228483084324), 186368319481182639188926669981345029351537151467788802778274320832654623963687);
   ((-5609601959346815021531613031256456933332330028966071521090440221784480113459), 3725935998394515271338584157308064691248642272049297958801445796374569437112);
   ((-7909069810687345163087254847344233351683985971234079396999998449708483642672), 4050721078334554958571452829365867974438716825920038323955406404571804808475);
   (9863223800562647588106063525272704354556565046982492038119217969288209814083, 12288581679713557249058114761981858681531493775304925496930033156375933209067);
   ((-1786775821151207514836949947785845816668097844054710382641896144931949117775), 33757098742200082836259568196552516869407393816987932655050086955230122011260);
   ((-54348854641862458437233207123619495072017988151677442539113732287013724439020), 44948424567172391705049458604564118967499553378946274342561792361426000063459);
   (16373598334725525640475738213016967118606487391740995135265352012578858125478, 11339912878541350016848634915913699766536766234580208750191237560827420750466);
   (29479619064205218109601705805534347826909332300219525955774129498269011203605, 53450920129316787951291871051913374327247499541933418974976033758323021629871);
   ((-65895195618730626140147525683323770326431158169877494068369716490371060038515), 219277738396451544761106907904284229711141513586739955563349292925835617513502);
   ((-49856896725214522778174053936976631524776592501761305389042191518616389216678), 352779939432175091090861397759989776724408862263969698903107890629078328807744);
   (11702257895825287288952078016116349377896986448588516841823274776807744114153, 22143032755667743378231841402498448326867529821143623953321496454259064814183);
   ((-917647002577683975112048835324404500976007321888079431030839119270224463571), 13764500158635534566651036410400405319197775326767892333972572498798398378620);
   ((-67229033723295639058920733582099582514090716700625598412130579741136708748738), 24060078442932198168136154119532981714750189054064091472138322747571844584870);
   ((-111780466075136214945863975072015716038913760525195036578033468364596259260316), 87220038482868477168224814099365699451040150175169880323349522258770419890490);
   (2874826990149038710115268683709689259810754572738960031762522422621070677472, 8125742508419426456858515930385881713401841390348762218500576887439982129742);
   ((-47993421967787212856503638217633154131830633276064660170598655267318796795397), 19529469771404960660361995252677063328171724147179586001399893001947040204677);
   ((-1165796223530679028676050259216198557377461668394543775160229950588463182434), 37683994069981959679896769989836219904183201797286807762627277388225000298877);
   (82826393430288350238133281869836101755718328378050000449992102441826445408654, 15362101339944906616854328549883053835393079048127455041020820638252409526259);
   (31421452022320135234646228602693724671416817003089652786434411811109749138442, 26562357867531360164625412154152579101573166911291973402496413445918932555104);
   ((-5923268855156655347995349597027832206313802143884010800063070648621153346029), 4749026217959501920394110710457837901420416875227691258911185567329418639743);
   ((-30243194031480806745838178680924288724953308618004501254871687686842453821460), 90640985694027722079044423615129174348078242089417109628236459780620908830990);
   ((-6331681386977266655826380867948744802580203846953750434144043024880019412529), 8986769468959871718250894708798137096025670905606101459521652564013215056305);
   ((-9386015984799813738184919621439471100020213573906110394710108168045080541891), 57661367706958928128246602364191478758569587570111443040855430365627975525708);
   ((-104868718679747034070728637311612048601150907146955006142481973025423514755132), 2645950795093612742202761145376104070080909696486162486739828221569631366349);
   ((-6572467906633095701720722692638546184549358404230691881796407278488393610084), 21900544336065713736265129762935232511990435978113896258633351861515887070965);
   ((-5527297085501024434707724634180837713595717738791578318253541266115243109360), 2230332853158371395935760983328396755104354747128981216508216311847348953563);
   (70967770114638895501660285496966000955977845419831577720546105119555792727, 4452969761793678529506053791542451316986724234548529432119808201481614952056);
   ((-2697340957012540815676515362090722831649325815961705286562781422842163258027), 8646936194836854003328453209944601360559126878909378643699827539897460453859);
   (14771127580697563293096866226084408158260108962319309518672353348785778230206, 378038801559865951225632248535451088400447674711901617528441267906475203331);
   (5156816321405186626886957128955358136289487755348895504938072631212193439957, 7855510322833181605837374095475103640687921524358881537540129397401889011132);
   (139064511499120575630015860599625883987131641040488904863903290173575525259582, 180297091773522826126783397334153720438010575220431473492046292448633152951771);
   (106862351329920477325647707638442145071294466668516406071083515712835682539418, 160848756896435953073228683735947741826923337596138240315775310025183315778426);
   (86909935199913820094909442349021789029351865599027722949221842351200759148339, 74169444187888275919207580742369802914238707795623788881882090993787944194862);
   (1831722797451000036176463564477227782095508013859656814243445398531064174881, 1507088840079732258123316869494764348289118844919376504594136526076870173720);
   ((-7586065233125558219961257724952188807916092181224754483513414064634227166159), 5640769258926421304863285429023186333433930097776793667136184105176798816944);
   (3204636644785071277481472703731098313629216342543766170094155866981712853642, 2554885739561281058272080249209603812749648549842351990998193077824612701841);
   (17793373796627107352924099819815160197401868206104391359251433099964474574220, 6767746771393161277112620833374550731100058870677975070141311602836845037385);
   (143676515215000683599802613215695556876941147620288897204667377207714794946733, 87360538988440520116095312817753686134217619467304102752294127811102885145267);
   ((-569143336901132835725041629800057488781752880896455042346886336705811718853), 17778920542267083136887671759376298525984481711844083087618029810085546395017);
   ((-2332934895989512107800532802786988625827893723281969941908854030920724160149), 4207085602249650895297622779118671009052343957529263606019558839308232477136);
   ((-17356921051847221014830507423516836351296176827808690070462042887955222085684), 13591424330471588519829328340985927936054050112979650961123281996266463224380);
   ((-98206117954399031068827460456033252133697155983774482066523753132489219307669), 250986372242628565638803305583886238866316124841182240241711549737006035564986);
   ((-35859681432855284690637840863555332023335168797835314960309985132011626305480), 1357391818146883704170703999531108103770029385045267717974835192005473158857);
   (16305622606084203361887020926068998881043140836897960580766489775681259245206, 14376240608459868655445724531451785469608679256930511025164286797139365359251);
   (76701336236192642946507845208462096974846075209814880358034992606633469792187, 40558180218148059026343819401035845963374856482687580167728062667614612966045);
   ((-3627085600708570881676003799799189403003270263077881862844881330817473035617), 12108150638206702356935117888897752790772108904043194594493369605794714277716);
   ((-6349738178216173830462985373108897836718737382178877369756366029112670380144), 338550051883012521106457993729201542371900565345019182338362445299370894230);
   ((-137191611744498868480016321203619373554803382594945207517696116924172317311724), (-2752775200279575699054757989246773897595401311187008303676130847889533745511));
   (10782006376836873083777494589540582959064543150194628150181230767783229270122, 5704794979094748020535131475076241523872451513936566626716603696852748589051);
   (104606480834663430320009493189325338375852395058941586180682718511849412535639, 42106823558232524894619792426535951745923857920294862787536492343742417823973);
   (42707270320083931076226928245924946442643499386380835133457028476519357272848, 106348602348675941583516586060605355007676600966943853261706187784259611939516);
   ((-9949135977531688539481226803624284822691567491137384677211417676956491964779), 3375943204418570744953284833602311658885553780443757757340424429566952225439);
   (2740357027096335347257099794574702164834366838705212872993068930300300251554, 4846523682425043922072558706314662531528698258869396581609545816851439542436);
   ((-1168193617042196642820847985406785674449290716550583323154038725901552797092), 5322437789211662739791649990333883668465871841232649720047896166906476475191);
   (11798409878566820132932616636132895201386236353540813126504656180448704398646, 6478379717516735760838635934767806553835993093754867852020793074139593184090);
   (4496994212116721556000855127456242830131965927377725812663606710788768299394, 15248772550805188776711101410880957754605611578512314614120531539041734743057);
   (2276601561301719987638826972987434279266658125523975580528069064055778227065, 8172697290948993946048762822031064584726733485708242934181095658103156591550);
   (165071969657922441299160714318515815955825903404733093342021865894006349367, 4718081781865915903370154525184318852978136213911378524355152629325457805665);
   (4635238837709363348530037048493638869143873009655071735413651853193793576, 14061920255792886719112919119754037912543053327832310636270283310138961100);
   ((-1554695719507801575294214899513056150044709718829081648885705941488364158721), 1485971928417087628849848299846043467174409159939714099296870276900207585956);
   (27507164310674371405092804495496502865137769304075824292557407388585349853568, 95309555018241956522358989410093561861100328338575837037971146289483944771896);
   (77064193817273527429507597569052429217568006655838221666530089084077162160533, 106041168325452073144503910037864480107808996247336700374288248262942248924774);
   ((-43311702980674674092657822006053846659139956010728206475894170638482603070351), 55698155502621353575095355094263839433651428649152781891128566379741240408069);
   ((-4765652352069080061513757606101955547793955166985776320911241612390291000410), 2696005560010338460025145871702570057254451162033490945263496032205967359615);
   ((-134102350866856477107871898335987976071427942080666211388391932396649520502114), 12200856417160416845112387872647490662994211887296693502538324212975427564694);
   ((-16141415992692897944503206546822759558305026703104465229476828883945089201929), 21143634101558594138256242070407146772712626401228144241841099947896765296464);
   (164393226944270187616130944943700325271251380975118297002454433200761821552, 45578784591056739020888785166919786070603596296812059390205319894978089060724);
   ((-86445613406547030330102895887756435027297833751882126315656323774971808013413), 67582135259829925943465546103701225228587050735394237877873080143586568158626);
   ((-7793555510902346808817542409471819104855097239621428229539322786611715258125), 26874872506311002526145311290604847043159341324754074484037413984084847260550);
   (2215289282259696267386116112136196884074396407899953582881114202656368466372, 17448357996879238870961336059148231281405977474040218134393572516901632112944);
   ((-10983625196269953512651994075044969996654934158787790249687325443899708003568), 342893315549631878556299056939648980275812337166870091500150897709637909800313);
   (4123123235946348865698875965514389700532890403502559156280384612199625246316, 13009537336124774768249328127665792757152386381200187279321044963454635304018);
   ((-39511495813867899079426171840856968242762271159906029600609386769233531842), 288645878214948557230071713845559117543013636481880863450384580444166753804);
   (16780550373742191508896251529413449662603895502439435997101111968829070658234, 254848474451046345505100580073490611669700523694928101639384871002634821029647);
   ((-14586519921538988968092850926594425613402208096235456847343996649614997421718), 1408247549857539677188462535282031933756579840359656558430463887206675781631);
   ((-8861240892069881203524086708961167340940656415003023342764558653548705754158), 10607396159615268603533104321293129788915102538697270979572465395241869083241);
   ((-107437056518886711854087771617514031489691798311640776513108296102691113907603), 13406266845560339646618262163776285570422731312101173790128789176761722722326);
   (5811526103742000497776963895817565420058762248035783349292333696800181657131, 14305958660111192331607135846340846550479305079699520844867234209722877974634);
   (5699319539254154637461654187323409983626638839401080465609288677830349116739, 3932300918623484250927978747656326688669741785384350997076267530029972046419);
   ((-2228413716393184441329632806073521979912549493620536221184829209181288200144), 33972324620429267188398290942480587817583812486448732731907669804026508950573);
   ((-1890595286797034564588981802932811884054737447949568533167043770187059022420), 6268345448766853150987113483404274387374171496901825938611422042158088392322);
   (1283852707110692156552589311851088831245882718983651431082902943083037907309, 707823433517797307611339408046091111141074854454808320590543531733037378922);
   ((-56972419060599521594935398843466106725204250738667330638956154579292684914055), 180706141300972496803590660525324784366241433171552762427782198381559540730216);
   (4750489423731712367256643762438135445653475936994292522080628878216846603092, 31652261372741762252061306720670294878361034516520169014060613419794705463357);
   ((-169368735292663960105118980218110746248069907660705046747872084436183677782712), 93825121647310738340181587826619395742693376065153991231808734224989633091285);
   ((-1698420895220387204883629445509499457125157747648665571780823471208073278962), 1679768343588413826131402285137869584016546230450826120739528140468838486426);
   (9841672272292515578499274566091119610538649014117503280447430554497970182673, 18812172231876238205928622403940822174437038507343889051869601337191450456532);
   (22618461334494915299069274770384086553778143648699224443443708788112099300794, 93088506166745371859288449325239638720172614916944282909090301278570972102858);
   ((-17253347421928148319757894764776239133724083312343982452768256290768973020689), 8046595248190609801200169974393095228772265359829927865224421527803718443662);
   ((-10000393910674810748544623957053470769039851588697253063065285157613151925443), 22846155539413970872955018195144241164097188089671763950428049353201194958169);
   (9216956374369316660257443336159915756465387266568973079999698876946302126210, 236353056604939487650298834319615180642809972801635607483572791515946635259745);
   ((-9479426372986541679697510723607670938818288735885359307531406298288377004282), 31846615365258954615276825497796486041595663560534218910395112889791798211309);
   ((-24457920055643754475153376876032829125265284759197430266344971353157174775139), 178308642002367478114122322950016698837103977456143289386797283437939878243552);
   ((-6152294467716178276143249152753667269397968235368896625686906078320300474889), 7259596402221573433279098975699045833150548964060233173332717165326349900064);
   ((-17657815610152914355549864094664222220776614056340325913762575043152143808310), 17596841616908095935189533846758239405796386773731476814416253538232045587082);
   ((-14210552111312774695702376983922902274856550380196774646416941952175980018777), 125971337447049997280269795031960047955861097526436696071746271812467136080583);
   (2264929157744329424969182287039429332908770601487129611449770522729710597283, 7668870061128921608462488987739499647444497034292895702455607987930124082962);
   ((-329084556095589900436591662273282552825807539554542787785197393413409507986), 6741584106816145809826841262169149699255514728756080343793060370274772292571);
   ((-3693548700965258866914812356814381307090077774100870609882457384215203454271), 15162234515715450963127172002404238775860967579807030229751844882169507162283);
   (9326042837581036428705791978695481475452774699640122651871999607812035114924, 17905722810271752212903244541219498771015981459476178971564016102551389714290);
   (4877634734177814255195533824294198114848632497315549722986108683898039596531, 10946061747742686271123186658204121890618029903569404312097070999851916615404);
   (2391935062349170877888681731367688292096116479667615430404792200847860228976, 35421932409607183918494403440319880590020959111687631270740627130750457223888);
   ((-91050869264962340757979247240845519177208406595693946005888315856016929657360), 35255422105580115958601332400089778045334710311040705370882972810181544846348)].

Definition bls_hints : list (Z * Z) :=
  [(0, 0);
   ((-1), 0);
   (4002409555221667393417789825735904156556882819939007885332058136124031650490837864442687629129015664037894272559779, 0);
   (0, 0);
   (0, 0);
   ((-1), (-1));
   (0, 8004819110443334786835579651471808313113765639878015770664116272248063300981675728885375258258031328075719825642838);
   ((-1), (-1));
   (0, 8004819110443334786835579651471808313113765639878015770664116272248063299587879153977211311912048936035265950995798);
   ((-14733165627916536694166835936691500774349155616194523), (-14733165627916536694166835936691500774349155616194523));
   ((-1919345422376916851832464311511361382053907831309990275380306193440713933103788537545451193749090683859778947213432), 1919345422376916851832464311511361382053907831309990275380306193440713933103788537545451193749090683859778947213431);
   (2788567264463891779931499734244484093307184299596719389285559847540133253864102058752405280998088845472671830051425, 1029776531556568439872127802102985021642789118436540999509189191182966055600903675706050508923233032238520703275230);
   ((-640056398480373365027329868107886038690908905533245100073750186043027366566855249328654190788139719874855610207306), 0);
   (878944187808597447292692636672545366431135560462320438149612192960359468585598258992661543143356698001604603561042, 0);
   (2653558068738653537006225891491536324743424159535127450873419847736333537952980871169943344641417531803938832408162, 0);
   (1500049550182225732545718375279692112843635122727157360473605831958477610255216472593671141488639072782815170912981, 0);
   (2460980853904070997625201266567362558072183095528326397683643911365876254731783288179246723838698391096977818827876, 2460980853904070997625201266567362558072183095528326397683643911365876254731783288179246723838698391096977818827876);
   (0, 506454577239623847076534695889303909766168499846348109418411000619134144291542401065673492664723238524171073457927);
   ((-497406169351209840403783899148374876595433922362023065966421987325164520228571269336599061638663601373753895931097), (-497406169351209840403783899148374876595433922362023065966421987325164520228571269336599061638663601373753895931097));
   ((-7548420244289639343267092818095490810968658899555544548831631565821646333084439448343547127678740113615343780527556), 7548420244289639343267092818095490810968658899555544548831631565821646333084439448343547127678740113615343780527555);
   (3716559288721929778594577678317570705471756832317861276581320767891638411499420468716109849801732475006750554627354, 3999811036105388875165377174210719126785622246597818600948481206373694173569775995612484125021790776617456435888159);
   ((-3645798158356864070617649902639328792953010175660314897547787900455681821877176828605492124833421138834406026351544), (-979902886895335692295572956907955332121515082150041627738053584266783273036514643551020279642639034803680610780027));
   (2141350913218901696105772580697694779456813174319739093237411160732714781661487443683313376622961972626401660135521, 3879476657722456388027094299600330119619538127138687103472148116432623569004606684871801994847775264042664419799948);
   ((-3829144483609635985827770655499379759172563751023244768000176008553941047296284017004603587872071731846630513122140), (-1820293081170812402595358759902810944590267050106981953442365446601632742410370431077431358460337666825683954594051));
   (3465452045175805285849534049057860641855788760182913264102444435318964558198563712733722581563980268480810078900699, 500938786372456856442391156957202113049773632207966950006964385595030498904809359535824598592152947669609458940124);
   ((-3173626240051281967429148613310190613074317662424308787055654313390182117996536498610853440522628469188608163499624), 0);
   (2694805561420397614431265601452203662742600765502128648603771759595118016850321308596975185218888267685122790905369, 0);
   (2964621592596877805746167404418323422660945157000116555035809276170878746901204579583546919164287901786373410677531, 2964621592596877805746167404418323422660945157000116555035809276170878746901204579583546919164287901786373410677531);
   (0, 3314634197360196270250966482316716586749090986379434495746169197940198475012823081776828835291947609899509699581135);
   ((-3255204836444982275808529790205813226641327009026393674682446040129226725823737798937494028166157758765000086725749), (-3255204836444982275808529790205813226641327009026393674682446040129226725823737798937494028166157758765000086725749));
   ((-5329621740519130049297611805997963971252907345091658095201141759450593467310806968279112399338962876423928208944420), 5329621740519130049297611805997963971252907345091658095201141759450593467310806968279112399338962876423928208944419);
   ((-3848439427722935337155600098365647322101535674600531519504359012161272322788763247677099647648207525163462490558740), (-1936016632190826996813987974569223529947510977278642512067029719298696289549541789751881404243149883246854504177203));
   (753755992136397814796786663925201532067153758183770854145892790636626854197662690094089622740734184304970409427741, 3581967003166517641649902257756204032165612030019971361222382959618239991612970006857820309632997685357969015820440);
   (2132844340640269802425602870231695598391125406867355461468278302081204099591546016805367334649650561852056461886025, 1432918983936067398640457310178433059792808250657490329923256175221983224758652564584457089657510812094659036331290);
   ((-3703698019360781222599582844556564603674624257230652482238484439022538131159537282705350515962989032517409882753767), (-3703698019360781222599582844556564603674624257230652482238484439022538131159537282705350515962989032517409882753767));
   ((-5942952849941152969668968858158117253038638119452827177701962927795381200032762565396506639616455248805749286779326), 5942952849941152969668968858158117253038638119452827177701962927795381200032762565396506639616455248805749286779325);
   ((-3334335303070607170198863657334597031734285816508587455425945279819072363724843344927719145880862298366134980242502), (-45415790223597716610039024629233338308825016894085461721971861898425346371473409289184589261068159876804987312625));
   ((-535086621675832843197065029274139448334530948937819461339780594193102291714071721883821274303381498602889246210201), 1965436612366110434699197658988882669218261623787434651336128103075885271298039319404913331261633160676265300939662);
   ((-981188652890931887950623163413613168736715850481043164272548530995323280499500949142507960296308343209246883932016), (-981188652890931887950623163413613168736715850481043164272548530995323280499500949142507960296308343209246883932016));
   (0, 6409821086383170427743553276086584202641877182580799817829819474926878957752809161263084000017014134480029161799872);
   ((-45091257464431719603890689657812558964591607404681613165420458941021421334954975971794493138510154469671651266667), (-45091257464431719603890689657812558964591607404681613165420458941021421334954975971794493138510154469671651266667));
   (0, 7315504991179673962926988422503372201872376075697932778397526750670022775895242432522204728038665775241863077029547);
   ((-420980420792563451198169967558014547904442809984316865502854747353047473396736873052661232687379483045409724776196), (-420980420792563451198169967558014547904442809984316865502854747353047473396736873052661232687379483045409724776196));
   (0, 1996121578674309089298681802029624553379979627263513075969129387392772258665346801788164355738008444544948887222082);
   ((-1185741126330410860128599242307440910371214403708046842379836227088438935759111156396608682087648251507754633582192), (-1185741126330410860128599242307440910371214403708046842379836227088438935759111156396608682087648251507754633582192));
   (0, 54789120240298913552471866506560317964409274660417383644606219906884166150540137308119748421057568744115173447178);
   ((-2768256547320106276323080610627655716391672293814774828564521881165419543417405933521333257825071020561853776677680), 0);
   (29577821368388806540211437985867587650307303915396939564803695234532998942329298310401801761385454496867553080485, 29577821368388806540211437985867587650307303915396939564803695234532998942329298310401801761385454496867553080485);
   ((-6221856460219564813017488440950910084160589250983420219034123863008698801225631664389610131545555219411110863714562), 6221856460219564813017488440950910084160589250983420219034123863008698801225631664389610131545555219411110863714561);
   ((-3727534226916890983308965097899257523574647915399117759920292660721865237227400269215746752998460936728545261028803), 265436458410504178876482222622888760683443635396601964767070011208893165649743279964759284036528724433393724587473);
   ((-3261825236732201529717824649324009067452721334726693302381558932449625146117843185359371867027959190033887859690817), 0);
   (249074620443760179538661055914048596970882205321107070631336690783351575909352786289198837878325150342224539288175, 249074620443760179538661055914048596970882205321107070631336690783351575909352786289198837878325150342224539288175);
   ((-4789709215811777986507667421549486204083020412135734968866611137659040326042487964138860197286279489341097088793), 4789709215811777986507667421549486204083020412135734968866611137659040326042487964138860197286279489341097088792);
   (1280703307635545808767085457010596817896342203560990074436700219418105878810729708128963927175442753963656524775351, 1796303087821395414134779423389250082815510424745604546893737916723340816957593690883232194940268135998069109165832);
   ((-499560087075861379042323341926925850707961711832863323610837412671903629493670376893308247311206285327899703109474), (-499560087075861379042323341926925850707961711832863323610837412671903629493670376893308247311206285327899703109474));
   ((-6772426616816304459362731424206235072763343056298541874899519831154810241193953310346963599111256259667109718317310), 6772426616816304459362731424206235072763343056298541874899519831154810241193953310346963599111256259667109718317309);
   (2207155620141305558922339017475330072103805514570350381223178473318400240491657363924959750559479612335101483997219, 3888584972248285616274666122503471967043807597539014393062802119662901995980796778863749723675035183319000309867534);
   ((-2715424657446706385504359770740605028917755351750699313653771724245859342035251308483387481791316071220961510150352), 1129976639115423514598995617345735429654841624351163327690244392435188994355490237360790833349433171186498644965681);
   ((-2568265165772279467474300772109671847188731030539517259439335994292263248230224441928430373524411701197180273968173), 1177202901901489224389558522840166575341981000861648437342613722091717224400158672448627972124083864295376017076742);
   ((-38695120089986007113695392470789881316193375079830356617270546465788725218209955291588661298381468514003446220185), 0);
   (1076803245549325672549473480966857998299570783065342690630907548580061887907290175385219646828278553308121888842737, 0);
   (1627827419762316339344816757720477859349880467689648811100574383285776232791977143254148554208955322571496719444933, 0);
   (119778556766480216495201552406883272166768036748463826645575383962763709494068501904434611758254737177788423431706, 119778556766480216495201552406883272166768036748463826645575383962763709494068501904434611758254737177788423431706);
   ((-2208888139143441786581502749952057822703258488812483005567423163355437888573539354960362213131272553562473626410423), 2208888139143441786581502749952057822703258488812483005567423163355437888573539354960362213131272553562473626410422);
   (1617100411581940520014625585657753238985284618011818069605931037827870678734096098136372577139968398528017726202859, 1674524848300894192941522456785038633319805119927048869855757769952027403464198353104776483297881804030895541556723);
   ((-3713635525371261607732901860396243364624035784441471731601056580602346257930642455310043078356681209485415469480401), 0);
   (2582769369016881738467395287999489952274392640773258560348812321164293037282432092418222704671394423414087167290129, 2582769369016881738467395287999489952274392640773258560348812321164293037282432092418222704671394423414087167290129);
   (0, 6113936631793117366256389034314796907753487465892931618584474647724418918305705215338670940973763972727437926113217);
   ((-408920784762230091521534880255848144438991712172672166753878990617572816392134335539078543961857092841533177034348), 0);
   (27246220189941876730896642517173866899153406843535842707296915029483318371855220307626986458580861934643243248478, 0);
   (3669188429559458651695182795378027592585550609798505466808475174441900489896730640573443918443410901903463211092415, 0);
   (2039597493074689948875898002129653944002897240771421588923077554974525492008380825759500182339050287536713935845545, 2039597493074689948875898002129653944002897240771421588923077554974525492008380825759500182339050287536713935845545);
   (0, 372753469306155921700062089363432218377237951487611088215835299547897304529854210576156118188527007072025066956935);
   ((-3902870692938008472901708438192602127831695235210318218449545862447704753008557987681250652482043055487132844348147), 0);
   (196104958224533797384765274499457421328355544665553610104560703564224205200815332728550350467271330342650675626266, 196104958224533797384765274499457421328355544665553610104560703564224205200815332728550350467271330342650675626266);
   (0, 122023962047597399863984483586291049632403739664639952292943026404822615962589987421917840361810842703927712949719);
   ((-1522510101705525051266189776845392828725103511469700630077259182193940464383360170062743832785921641038892539579372), 0);
   (3465538971083395694373671887972568329182804756098236192498298411753796480393468721400108352892402685293631643166569, 3465538971083395694373671887972568329182804756098236192498298411753796480393468721400108352892402685293631643166569);
   ((-7118957912984367345248515405590151407186719224800313528430926291883737344490208929955977901142599586937038837179520), 7118957912984367345248515405590151407186719224800313528430926291883737344490208929955977901142599586937038837179519);
   ((-3556091012365604663891416314536512496641111948477634403884558163088673805400899085017319792866714485321648982476603), 421433503113281246541858550388843973137310701840239418626691896272358370531818466321760642503257589849731280502548);
   ((-3738055578339729941341790526002335566886746765907795502338731181102255158037610989067746739383763189179520149109944), (-3738055578339729941341790526002335566886746765907795502338731181102255158037610989067746739383763189179520149109944));
   ((-256043408131098371105170679261857475137986757637994922979568338557211250194079597968637136213438200274611467898241), 256043408131098371105170679261857475137986757637994922979568338557211250194079597968637136213438200274611467898240);
   ((-3720951281520976218780381037516421902951513379621893339821909567053159542000457263272066907948889961178233401788695), (-1281853459795066480156446437054334993791653245757417577572331182983333676000977445828297856154005340662448609116564));
   ((-3990146305444077814450982616115257147551593127222657476799657868307456925636722190824777728856155838672915228048749), (-3388046612837489649802366428068355428327428764029608473061239408159522072761304748409348477124418322092315052506514));
   (2724428296497875618785387093925362776150639333701367604965461208758772447472366960520707968457099069573259751444622, 3946871996811020648877095800838396878641409061561795208632706508939686421983967842561344168914947029332729149736851);
   ((-3543931676822868130959286784930356447893162237975524320698865686138778307137500394772726357132632811764845588011192), (-629421665681400895354763416631380648308019074358492782434919358055697387193258234981463055252487687442256650562763));
   ((-1628309892286316639297828131393444974537157948816498763715533344052017459379397208642684682501311975837930475962217), 1669980165444596663117980958890871496519698589208528638408797740385170934476766970233050423697257416106255990997024);
   ((-190718282705958425290115478937945735570530104534112617679056042920177917881193128008208646190920724794290574965395), 0);
   (2918690906507381782138657783830321285725275524038933723678858942244823183455667014819027327382408830377898998483646, 2918690906507381782138657783830321285725275524038933723678858942244823183455667014819027327382408830377898998483646);
   ((-3930848087151987433636204731481830287108265948120912009153484952168177330402608643294028429745028194862527383161016), 3930848087151987433636204731481830287108265948120912009153484952168177330402608643294028429745028194862527383161015);
   ((-536869589941786541460016710537836583988748050146453741406251385675068894828662714923271606584748177254097828543250), 3065999509577821027792569401768145159039573959492301860942321156870071037483651215513356012643744093691208759993555);
   (967014631065650790286604114280168237858208358892216572031038895412949384929728544173424623555552101211712859848575, 1884385486157382395069521769646340698781702479270943861646740691294753908433315465879651551654881406279922430951095);
   ((-1354869172637697662670007745013869288730647098204171084185547321530004373161755551426680701733286896817407418273141), (-1354869172637697662670007745013869288730647098204171084185547321530004373161755551426680701733286896817407418273141));
   ((-405766729235152642193074154534908648153737607945074260225433818051001827573455547295409117963816564047579214474510), 405766729235152642193074154534908648153737607945074260225433818051001827573455547295409117963816564047579214474509);
   (630384912483024251918899897812354935819647884675590559299880376040323006316755495424323157543847642214051213857657, 1951561539905713140760815796018890121224136915002635610182650513633613230278262146612109215208353777504509901213365);
   ((-1343231704762943923925330326362406263059441233626143152985937626949037950969934670468605668687280427479281577999404), (-1343231704762943923925330326362406263059441233626143152985937626949037950969934670468605668687280427479281577999404));
   (0, 1067692531001183326642882447910401591675098172519091296211607931706609541313234563838094558001891097198038637619135);
   ((-699294022493270354789072063136142293253920762424664131371467088303969008933913689430453949255284004565790610187159), (-699294022493270354789072063136142293253920762424664131371467088303969008933913689430453949255284004565790610187159));
   ((-3576201377080719221113123974072897107236819133389067553730055720041978954146485373172076306063940847377102216704161), 3576201377080719221113123974072897107236819133389067553730055720041978954146485373172076306063940847377102216704160);
   (1780877903087977301455902361556821754495577481412705764486629567019057735256346969681453878978070020329397108541968, 3822266826435974459608893696071572776620164379942196769741659230533806921685558898774260317561640043736109459573317);
   ((-2934287684959279697688712876756049495787859716958873129951530343917693943572490544836227345305122644894326817529467), 777587027269390062352351510199158636329743414223709199928289973288578378423114217280132578303392628757304359514952);
   (2611214116762584658289326372865511130654720878872973754337948982243544574543993800318862484791663668418356401357433, 1149412991999506350222549306577903297210443129087718119024034113249314700887097232126579014641637213012118693354559);
   ((-11364257704904373863616263391543026515699848054357057648070983663814622207825181637810573421270638356071177848477), 0);
   (114793769468773043526741197936876891575619941280580920400898682349742463625986038689244503192588646245470711921052, 0);
   (1323368226045537355008976724276329517273640609776300035586628361431877213078372877771907008083766830943556740087312, 0);
   (119155945975747161467500420072431571545769546552089545422696148162665408751154699215271655201333021815406371505302, 119155945975747161467500420072431571545769546552089545422696148162665408751154699215271655201333021815406371505302);
   ((-926459746312524537336880608637312892627648744540481788230477005952995340303059956388725280247447307245855031558882), 926459746312524537336880608637312892627648744540481788230477005952995340303059956388725280247447307245855031558881);
   (3997218215983924230984701754769471247726146383362085616184583447452918935604967066625640119251727858285700562340906, 4002408713268053203877985181742162932271910528417476555861788501303424542025604760833014349858181857517125331072055);
   ((-2824475600106042703338244076975645879345706784710867822241115960247527622092330539828695442254151984308482790473336), 961040123584188929337437822388838326292869123358888044276442324282157719795308287481818118626084097431690609719845);
   ((-2237063960934415053640928312713807636697790057659023710856803372891085432096196983700689833087016275817927880439086), 1750561723219322351316393392540564093001655455951600623812400066586191105415498854594099406262014414706999319483291);
   (2743466555408531571125769642004080925265061691250811578380920748405744525594244857453931165980239538755660707710939, 1060945086942033112191443812225181603565708361767959412434846341587190638956434605931202996293215053058366516656466);
   ((-787918851037472642441471695699917093337638591401552663369305198505186847919953603936485896795217933915784902595706), 0);
   (932735858693046457900854461214594412400274535406182584999218212651444624345238539885921500322713560729663115145631, 932735858693046457900854461214594412400274535406182584999218212651444624345238539885921500322713560729663115145631);
   (0, 5435619793906522894433888488872662818850057518872819675692985482378680538104538319634068957146396623091249244549866);
   ((-490185709711035961697603652504483426641052343385503449767491618527414208720111668492702112233545192878849553102527), 0);
   (306219160320177684109898153531416845932918820058325407777672815785622440242796248080033476437214859306803954286802, 0);
   (3709873285762361473762527258117571359852371692462252515442678975471717377578207531957812763424811641645405917692682, 3709873285762361473762527258117571359852371692462252515442678975471717377578207531957812763424811641645405917692682);
   (0, 7053104790796330625608147918141338829152056953923768111540077179592761543209898444722454119757513227158692610834458);
   ((-1624154362633218797447913440076593724230487331707071033509850077624843594520844503343286933761087445419691430259938), 0);
   (2014857632476696844868759465470658698767806514219531754694925448816920121561818905379270544505915088548060978505807, 0);
   (7002885387859166291933556900084571277256431385272743198114706655393378910756028400985821104403162650046019246676, 7002885387859166291933556900084571277256431385272743198114706655393378910756028400985821104403162650046019246676);
   ((-6119498034491047971853007384428838453988623045773212766605712440282014822891396821311503811987191735349765744405259), 6119498034491047971853007384428838453988623045773212766605712440282014822891396821311503811987191735349765744405258);
   ((-3964223168998365709905624565820726837661617861642383067712027840852551823940527694459688201302675638965618012530899), (-2934838076089166334187479436199379675677286434742732945558928269093773017582765877680629622580326855950972563078632));
   ((-1350980464128067667753149052837975955224774768521637800328170743436638097274385419824933617033576880858371642677958), 2560109532043768699355940255123637912112310170702991978430673047170166996689623880259520189337898490350104497491927);
   ((-3948614562366009049344133949118210306912527747757562569977657949304547647012445881226469919121739080727179931100685), (-2743772931790768008084061785929251459283378915281546113032073493910652158030929403075030577415206529712353395460614));
   (2612036162176633118779410087573223228495398703480051954188234799778409185355468859700962383164871871977973508800709, 1148876596500871338188818664824738389422508619126787843281711520140862404968647131197453769838144049447631390003223);
   ((-2283404930992451713803601065005668828195422784055677797005227900765168988155656079080295948024872280310293492277789), 0);
   (2261438677899788229708470162269401198659977658251939749866806675243165532435034409460588566761630974254534704602033, 2261438677899788229708470162269401198659977658251939749866806675243165532435034409460588566761630974254534704602033);
   ((-324540766375933043579925455744069720166356152611405506185759854047004832339340649105790660611233406813369910660), 324540766375933043579925455744069720166356152611405506185759854047004832339340649105790660611233406813369910659);
   ((-1092705835999750406448394788164339460996992060735694956523076520289427993013581156319996992415645907708919269725847), 1852043874965304057206459289886833335047011534613059034655577454727941257737510331206480785909403089137715273551864);
   ((-1847516309646914860031876952183103225522119456740399998373326836330701372025024993861128670481247488486809636377586), 0);
   (1868348356443053967379452057794230106508725697004725230523012072929482214569150125113475562909087956774238226393202, 0);
   (1979997087509943219618030055325332902278321416535662528946628175038141200902729273918184353243278532443586981372145, 0);
   (3813434392384042461777353824027815540477385419154631764363428079822599460153983761514796240472153171587425922847981, 3813434392384042461777353824027815540477385419154631764363428079822599460153983761514796240472153171587425922847981);
   (0, 7477578191806451151981162101722592716655481887465234955171396884308810886299632333710901397548670182274540256042919);
   ((-3836346090830875336710720025458944464294541400594659311870923110061027496311127124469906105021834314320254943742879), 0);
   (330749409487326142241378564693686727133903733284713804507288706643325543116736675087485701325573837613910982107586, 330749409487326142241378564693686727133903733284713804507288706643325543116736675087485701325573837613910982107586);
   ((-3046688879073427351597014428122574560433695130219056732738778862616477003010783104677313197872505790494249163740245), 3046688879073427351597014428122574560433695130219056732738778862616477003010783104677313197872505790494249163740244);
   (3967848825128274016726747925728617398188754585894867896524382397124272719784395521954087442786032213666619263714406, 4002372170568513471054936371701823633853215763677717915447688778374065426879744830527370703281865816737457192710207);
   ((-1663143111504084339690851728097808334190263781751740988879994730190635622008454848173691747456686728817201667228651), 2312896141401212729497931890286196909203054826835348589502441998366576564826130501142404876316592267897014109691184);
   ((-3057710299751787959434900717098680834351752214843120052673422143727482519192396190881743381251927396223653213206947), 552762698282778643823532226526177282018009338777714538031964662123529342158170732810070917533581981535420718437076);
   (1445277124594010807798978258241521136016950382478353887760656497621212276982119332618932709041810127091942044171957, 1740258722733767851734468311749554540629595706430737202655388286478636606663629899108011057074556987326473013109056);
   ((-377587245769355388962183202309118201626998576913253709936873278795686624136794508824396626541107262571637514487373), 0);
   (1876384693632362369074771205652632636250804152766953024800257312343495127254748742964613560185204689331348245657518, 0);
   (3189835119736953862047141188507844122457067362814294499203864638388264558252070124205533666207995795862190240732841, 0);
   (2558506336135307741910492468785840132659800873929240229758583424507631229891036432687116618790144423961260216674848, 2558506336135307741910492468785840132659800873929240229758583424507631229891036432687116618790144423961260216674848);
   ((-11624789418544951695421623005521792921394083131460067786791079798300161169167850602693365767632550476687607609563), 11624789418544951695421623005521792921394083131460067786791079798300161169167850602693365767632550476687607609562);
   ((-3739752103932555191990172265474443336914686030027351174859974643644593755836705138890157082796927250975301525325323), (-1365049499267470092758875566135733550851984988242172798037125638149716892054997835798872399969536723336365608822440));
   ((-315063937487826967676757013932478671906547186200925917210602518864903278531263765123767088279353167476927170139889), 3176069170856668738345938893124265103833800481193310829521485013404199579633758628494103559346263869276160366705314);
   (932200731122037402211831870368016853540743627981328313264653936187338279289033126819925022484108603549992366806761, 1892645397178271626941619185077882177493568244327865851773103492168634873418420708697214012211500832606788600086603);
   ((-983415882239338967584027375349726088133833450604578974640195572535931761990560942397113720648597645905617934239269), (-983415882239338967584027375349726088133833450604578974640195572535931761990560942397113720648597645905617934239269));
   (0, 267745274308698635593432196796343874691251490642961583917170422493346785893258763389003239769763271092831758134068);
   ((-2678610646692733396950764752197687483245965239491208915692295107397219691815911951527896446107389255480446023103937), (-2678610646692733396950764752197687483245965239491208915692295107397219691815911951527896446107389255480446023103937));
   ((-296791786314249859711841352503348962621217853521254136572029306258130929569492271594374469788741498852698201339345), 296791786314249859711841352503348962621217853521254136572029306258130929569492271594374469788741498852698201339344);
   (1190713534847150504770143003938302236398785428584878088907238629776897668714123927627816765267421389669344070157607, 1824086631340858376326441808349869270139742736336264123877685105681389897063639563689125317328551106295279925272538);
   ((-1981068285900772857028147678715672585238106826696423721750877065230878079105358581350025515711847519520915285260818), (-1981068285900772857028147678715672585238106826696423721750877065230878079105358581350025515711847519520915285260818));
   ((-1226380349636865699558927771823892414657209425223921632065788173481269855405489631174767644540042878613749972541819), 1226380349636865699558927771823892414657209425223921632065788173481269855405489631174767644540042878613749972541818);
   (2691991256028958886452827155285111301336893991341762192064991441811560552337216248822579382876060774499885605613844, 3943881904983503440558644186389319935986843085238355384069187685048851027796250902128281050943971709689052357216793);
   ((-856234933127746225499099560970032987672666697660112165470469306528231414070404991191105089622776280926069620230763), 2888259697076252756685437515351442175658902795829055240148184502944736043786414926273194270289537371194882753027272);
   (2864277009352504173257828418524414478369275588038360514822899834288175893054441215764906154890561973994371837065066, 3958794335360325106666250276537653413642383184169309909083708918623964592474061408060408726160358634355016749331335);
   (3450488424027707595022352801772652429784511778069117092523493282677169073009620539063365962979954010057593546075735, 513866937731798048698040527730108509131966463131131948963177293460718752831465249900411322803249000231477729797464);
   ((-2141171874148120747521554602591367710893469551609897215483408727181746624002140808539123917007183177875788789122433), (-2141171874148120747521554602591367710893469551609897215483408727181746624002140808539123917007183177875788789122433));
   ((-4571449835258415125915054661950581301277396450852193625351190975347194469453296708651125507584043563039991062750816), 4571449835258415125915054661950581301277396450852193625351190975347194469453296708651125507584043563039991062750815);
   ((-2186288929806666309262735422436838459314344114671192456920304279764807916995766283863814978698653344554085940618625), 1807141485306549093538969945842219475180146163499575077047641408229718991042211679699465316345588824686931699419618);
   ((-3905878351561444655805551272417328097665777266053235658159177163863380891606839911681414017360379766966103634955063), (-2340856774752066420073070857389404136650045277373948606197736063111607141409138001651497422407257988323862728453176));
   (1309243012983716131083043760374970020989575087185154104175601776582669402081487072871804932248749204345166607898861, 1787069112157708261099339566683354680260548396959496438431064338843823902714727910924079921342915566459097122881485);
   ((-1006045084336725499996241525869970161343097631595038554570421830277523096341162167476626148984660903756790224180000), (-1006045084336725499996241525869970161343097631595038554570421830277523096341162167476626148984660903756790224180000));
   (0, 7071790570701969513670467838189286110237849462702784090260503376855227966469307042592130845388784691508419704508940);
   ((-3854870054625146875357069430688590381978085483683739143514710759834493670183495991637620225029190052455433908703915), (-3854870054625146875357069430688590381978085483683739143514710759834493670183495991637620225029190052455433908703915));
   ((-2205243261011628898829232661265192151559111163182876098016178962957295293320963022919928506409001561359999757815160), 2205243261011628898829232661265192151559111163182876098016178962957295293320963022919928506409001561359999757815159);
   ((-3747931293783230467563106590312843435912977443888537784929228684585559126175576601150749772526699062464632671796331), (-1402380888761841145466834153171501281869644828785677052570547521334364969182033976467837477024825420596807883973652));
   (3733748366122936787783340994521743795125827971098808469877520637330111067595525075143316531281670227561410315594085, 259644266475984871990786010009388635983803164675129469742736284004638218794212141159022145014986733760826171466466);
   ((-38082701333586772468804604808588109082829915454846958095087519075261367941330222456946567998581473155227786075), 0);
   (3252463039383260654995200028213206802209207213363592748937053003606005983516419868270268658050258175677291284706118, 0);
   (212602173978989478921363287634332185428092478652096995805684041894113861797893620942925343971100150215706761913478, 0);
   (1076306643899252301535543164521759862508178409076398368437265250082858108430028435593711569763510049143935327284371, 0);
   (2055279196855220325529712806152836715428891980094314259361664167936778742136307361603360188080278659668466183456036, 2055279196855220325529712806152836715428891980094314259361664167936778742136307361603360188080278659668466183456036);
   ((-1772289913450234625224206902412659485813654952954898686081817579299905248991836892644344350953128272200591438470527), 1772289913450234625224206902412659485813654952954898686081817579299905248991836892644344350953128272200591438470526);
   ((-1599153831987686967818161788973756002992672986420259588143053986254593931555146196719026202880083705664078259247425), 1681735599972006133116786174819931424056240643460770853843334375057259028211166114205504264423279899328953175922055);
   ((-836120366494898917018280828236369128971854267617406699910440748400891524835339099494127409934677775074297134087484), 0);
   (62644540435129779124532856520800958516317731638738463711027770353248555151724120666215736340818974615069815413856, 0);
   (3094367252578376177506236175467243297691342153245898970350281183344698942966741465215716632138656848721126862495643, 3094367252578376177506236175467243297691342153245898970350281183344698942966741465215716632138656848721126862495643);
   ((-1349448031223120666683760389950943284027203888237623579581300249596641254767496706135365679718563172791148989084445), 1349448031223120666683760389950943284027203888237623579581300249596641254767496706135365679718563172791148989084444);
   (3590269078666907412807805709733376359077735783451885577372987715086840448563883851383392918101763354864249609186700, 3996963507572405187993744966033605511819733164956743195264797020593191739112016634242979021018984322316646033093785);
   ((-3121645807132136821264046788872933435817239623262438569314273763613848506043359025113164419433680714736283617391039), 427327419781784920240281337562965498351030460858592430901167524329384061989445115279083630520361982698711577400188);
   ((-3646831031061973885829786509188073298791758862919034267489095850111559128967606291995196603899748083647259665070076), (-983767123097228277371620058573872881873196694839575169702389795973395203072604680499858306202397355400376590862115));
   ((-3936912441271066089062405947120445935672804256448368707265613216522479761190347043105841198054359637269590698884457), (-2619745698243058679178789424338810948381850764513964786431762187675998509684591921891692687577258327840591253259618));
   ((-3980430383336806743130675139394116728613779825616874530305485026329194576438727224338246910914253488170843022019849), (-3185486360592637740714153192796124307187007818110731388229947485414330182724182869206403606639848336831200730793566));
   ((-3820384735871391287579075162010991383251501396354310942002581564213967419914175273287889975589809801394027277214208), (-1770246517332920858844572110248394221867866490481414941700372531329787747722987419089476639727014193647480226025391));
   ((-2480046674256671022408945503806779376462336025247476052954218033762488229619386590254619199675895018827477182382989), 1232838694426359201664300297400386143435410140981988863504530744162448362340616729483055788808598946505115696770550);
   ((-1992653569170481739756464710134013719926320329934466743220534594687988857278564748781393796786413220266315517747481), 0);
   (1833804074203715744765444909742108568434664804358668646230024392785365438871414518070314014723533911508348430045017, 1833804074203715744765444909742108568434664804358668646230024392785365438871414518070314014723533911508348430045017);
   ((-3515611954970294187914427486388140942009964837383675327760637171698177769885043092540353934716822834707523512202350), 3515611954970294187914427486388140942009964837383675327760637171698177769885043092540353934716822834707523512202349);
   ((-1365560748005705058913734974848945796709027036733892190745396772860550137407273189986622390982616178342524876606663), 1768250587045667506886197271175288696286395352246267544847455240705282488004466551356973552327061376669164588471895);
   ((-2277348625843735752219151493606937866443862329145699539759575239280920294071817108930977743119328208835124981122510), (-2277348625843735752219151493606937866443862329145699539759575239280920294071817108930977743119328208835124981122510));
   (0, 2162521786685015268849927012887223460263792401151724400611056629430660914607204680956993417383305708189580704864559);
   ((-523563624631587611424044765354549218653528058702883507644350342354230292879207979354435245946173071027855537655236), 0);
   (2991774599793810395019352891095002569287459370069850941350152112797838853819694262451511080177096647054608771193, 0);
   (3130483546036606163914324579519096447971196943286564950784510050020415941870216583527655417739797509351386621743858, 3130483546036606163914324579519096447971196943286564950784510050020415941870216583527655417739797509351386621743858);
   (0, 4628936236493818686908576151485996030227875104807533571524406553877168043680305018543840123253758449826639049972522);
   ((-629575925312949696440949953216474631067023715471080261106774806512048205747261173375461493056387683427602508707907), 0);
   (2682698807083331062516041823473624308783142010292370083697311743231824804399047347123505543605274126158939950179906, 0);
   (12188250741400712562518858595180706671029437569606664852409036923859056181192014301251168983688162244585096511, 0);
   (103166656902063750887703171548712264180960122722252485330907538459659848330002045880258908678842820656616281965010, 0);
   (210393247637239286039464039152374020137235958882845354671155262824879969334297337801197872084164596005594650470997, 210393247637239286039464039152374020137235958882845354671155262824879969334297337801197872084164596005594650470997);
   (0, 1363611947849791792729694695352885071853203030606140704865734276874068417328110617426872152529705458193214351738765);
   ((-1459117165551683429057930081210158947506056067117049640160081174596825697873102802557586053660102407252321021276729), 0);
   (13159798219611808762001737211291557004020633795426016533768534831619026904286340983172088071293935209628528205488, 0);
   (196969133084438445905549228065547387044711430169434606774798794074997839306062634847677288121618570164712059380737, 196969133084438445905549228065547387044711430169434606774798794074997839306062634847677288121618570164712059380737);
   ((-3028754432626237284573099700954957325158494551072075682588937349657213163049641815483298542399365316062661032222987), 3028754432626237284573099700954957325158494551072075682588937349657213163049641815483298542399365316062661032222986);
   (2648872860105402474939208729527649903720146302554977458072926480955486646372278914939595935489265986663172272710307, 1124666865611173861531428083058058280002447926842766864246912761742822700805169775138008683332093404223552638287812);
   ((-3126389385856699290856635168676674778046763605883245327274160303231603602531758320869288581552987519411142645233295), 0);
   (247626720577431085639885568314332194896841284602309497172039000842027853757994827179275046757754185264332390024402, 0);
   (2422924152114453886130432460804226547865868836563010795958978875324392866358011501889498972433171220069727707571480, 2422924152114453886130432460804226547865868836563010795958978875324392866358011501889498972433171220069727707571480);
   ((-862587032253451632340670676144470346208674381561900111353101857659839663220204966447721041086177169560502761728484), 862587032253451632340670676144470346208674381561900111353101857659839663220204966447721041086177169560502761728483);
   (728780653923684838479328604194457147521899193712887990091034035074963097037411117675462561820368677640863465984745, 1934854591028788828547636596023684345967173798890354753425719638743795998158724744632614229955789584438134699928404);
   ((-2434274086602524696587568922865560995425485995941825890302493503168245280484166383399077044837512590578472436487768), (-2434274086602524696587568922865560995425485995941825890302493503168245280484166383399077044837512590578472436487768));
   (0, 3218053747688914803368309126376095522070351706277401739598604722993639044691838622777991517180991433086026399554371);
   ((-64368116977483711704945034047302924400558909482029247846135245998481852754156718095404665795959588489441999941474), (-64368116977483711704945034047302924400558909482029247846135245998481852754156718095404665795959588489441999941474));
   ((-669651153715156495919532070694256504983371557128218513092738179600471383126313395240736680038814450140610076591109), 669651153715156495919532070694256504983371557128218513092738179600471383126313395240736680038814450140610076591108);
   (905886560669107454253083660814694753941671670029990100557644502021231092951390168003213577480172817126702784525855, 1898687725135496109117998593855107107212491712163690837171297975348515341125558429168782962430613625411939987092175);
   ((-464180483059329731533253365967659669991272577460134370842569292202653762941511286279089262767229957346715305922007), (-464180483059329731533253365967659669991272577460134370842569292202653762941511286279089262767229957346715305922007));
   (0, 5037848933061732785397892305319301126139096033450020487551830297977250940861028972206440190402957858164545846150103);
   ((-206425512843262110502229973185558194187169101193979281657275876425998336145361430155955911502001613151619629945), 0);
   (142936791548392880451335651084246125891529958552679618097123463402267071458733820429996563488698357492201055964887, 142936791548392880451335651084246125891529958552679618097123463402267071458733820429996563488698357492201055964887);
   ((-804840845957548485910698712272177487268836558726025495732062324399499118483749966927383694717641764807160501419718), 804840845957548485910698712272177487268836558726025495732062324399499118483749966927383694717641764807160501419717);
   (294424928303672687004854047662781220783130045182169142943908920996289286788614795684194905267842890753554837922518, 3430271345638753012715809244886214657367926886052415663896024481910668363363100073801220956848715451499270403525459);
   ((-3753947360150613457290654834101451965446452260372862657533337236901064846958428549083836052150847387556664681100714), (-1430308028390681201810957995563285394130909833663353180803671393559371939492745894230755731962448309969757006658649));
   ((-3860422775490074348677825337681349403037718967169605599512229403768096914095469989982421532600525963275352904583453), 139468266153660191641692051373593465122983687711961728117546061489803748709236260890407238611599909198787443178074);
   ((-2776088592999422528454677739913995140949149937532586479029903080246230973878426040589319580428813369124718530279289), 0);
   (3278926436010833186999351432900886681492308914340029947959003452526601052992001542607205788192865544211576295501560, 3278926436010833186999351432900886681492308914340029947959003452526601052992001542607205788192865544211576295501560);
   (0, 4868834330341530938210848220760112276089509021096939174623386594589096448675375876712063535977465334384385027060697);
   ((-33791120149997949384895694571475753312883287673477054364795660067412683239884054833949283084784927894714840933082), 0);
   (2827610495882617831404849208575475630382776766618089491209739247860144230312262331820975926797688450159725728958746, 0);
   (31244536829091683041381483287688129490044378052063947811647209392081341858930605557438535300438821431317537111002, 0);
   (319585915889666610091629683653618631484136782933255670713815024662073022919982988981145469282350056928331351171987, 0);
   (171887236212171378015185593841831777086281189630038080680045797497609979648520709378996748535099741140661641065428, 171887236212171378015185593841831777086281189630038080680045797497609979648520709378996748535099741140661641065428);
   (0, 2003460520503353406815346976356627035016010766284146832129277106684748309297885888955392111456172921698830114006548);
   ((-3883221120223454337771693856544797560317684417352488727784771292969346493114989671781241800437408424058632127787559), (-3883221120223454337771693856544797560317684417352488727784771292969346493114989671781241800437408424058632127787559));
   (0, 1413178249591061983498945065058657732016758738399545554478711000673911197903806551804294902681600167882392605549390);
   ((-2034905313811561907954845765887984966661659713576795409661241688115508939583695670174302412393136165430992699826051), 0);
   (1651210595772371874042731010111114970202392254545783901270354866255340360567932580132282383431350542697723229065273, 1651210595772371874042731010111114970202392254545783901270354866255340360567932580132282383431350542697723229065273);
   (0, 2657789656325734586261226666824257075314132536360125830210283119578365091638634522853372930159425598799661737426421);
   ((-3012438689250058907909673191219851416808657374260663517631604395848846522340098322003480696329955295754138242161730), 0);
   (3618678049517763064909553814543997332617509308096880882730710367247981930178667242101958411552235806331461057916221, 0);
   (746872405724071582275060291495655800537828661790979882277523616756569056535034097392002939712662163347022185537927, 0);
   (641266325893694003135816993636436019617004504255473843540115238675627581537787077828031135511139270189907083598623, 0);
   (1499415671444547554709477687249620201210008310946910142462569114205058346196866239048091185560404902792471270635245, 1499415671444547554709477687249620201210008310946910142462569114205058346196866239048091185560404902792471270635245);
   ((-2042164328205485865641867198246957158027345970174353203468096426972165440946081265443886524323414343986189731251952), 2042164328205485865641867198246957158027345970174353203468096426972165440946081265443886524323414343986189731251951);
   ((-3898577309190065751638264233832927665657649254904222758858799232691028946936092042342995828428683049787902145809423), 102485415432781282173538422808036738438561505214291675012129141988200311464893881692315167612369518214278099726184);
   ((-145379926815014210121586807413223633211705244494611479880465193024718779617598935296160077683617202749117549362220), 0);
   (1930265225082055122274326185823669286260877179862808730923771607980455680695515790334279450301597040769241968768617, 0);
   (1048924336709635362255107784522690667245286081696355833712865918726719933920316708114243585053503220153311079818710, 0);
   (77786837858432639877707542017371112331988797914573671743300399628923549898739609491187851136977267535138153669484, 0);
   (102890617637772047552413454908448913512653337100226016028563018395723813783171962619316360698200742404519287922240, 0);
   (3778203375898510307313677597660092137442575538902679285257061505685722461978333338965003181720794391056695621497645, 3778203375898510307313677597660092137442575538902679285257061505685722461978333338965003181720794391056695621497645);
   (0, 1710925830285289993261611526509521248307362088577724232809059351830039063601699610664520031984087050621186079843316);
   ((-2235041614115570120278025453112444597744549801461923210901247906541142440490749877413052093272845523548666903588213), (-2235041614115570120278025453112444597744549801461923210901247906541142440490749877413052093272845523548666903588213));
   (0, 1299038842426504037818354213462545822055596271135199930074063685227242211557089849237608415209398340894915628032162);
   ((-149957535453513365124286471697993485538736779934896317206842231386157956317989101734699272213796019865696230711525), 0);
   (1845906042957238179887790095078619916324423724380273982149396108518067334152734089788643892850586108485948510454741, 0);
   (342042507947759018970245743051472454189521882121102007488323604739260961927535174750847621165791228089555072530124, 342042507947759018970245743051472454189521882121102007488323604739260961927535174750847621165791228089555072530124);
   ((-162688528647521660461600555412693404544745699126638343719252902077358901263709195904939334301078188824841583128), 162688528647521660461600555412693404544745699126638343719252902077358901263709195904939334301078188824841583127);
   (3793201417482032217995411995165433096168687916366188402639610307171516687999496087818363819989602666454811641562279, 4001024467501455127867305433845661295685781412297307150646489936695851425412368577255625128402477853812133381062178);
   (955093385521489289812711036717062169260417713052094900504173616528453030957790796734117206736166353053645993424585, 1887248002013392474261217904683653230053693112751677700483398189986673627884808276536629531170788243983094162347153);
   ((-12952568847541532300467934578485922928361894331032974730254972986346892229063133435207655343180616908283775787450), 0);
   (596745796397409052048428704747429119181211230547315240277730023587661624178615190942364590795211615060633626287611, 596745796397409052048428704747429119181211230547315240277730023587661624178615190942364590795211615060633626287611);
   (0, 133825532239293322135759836867417803330083524115538009793408744283026614745454192096534763451949370086853550410475);
   ((-74314287651982235594208464917036876392861874864458591562753324861254259339758388088534558576527159287429334029488), (-74314287651982235594208464917036876392861874864458591562753324861254259339758388088534558576527159287429334029488));
   (0, 1126193575827404518300958259938613912018455419711656734994653377135917472972180562842471753059010768353275890709746);
   ((-1394382449477210761071429602867130667803462358041591131147536489480035261306495828554766954600694165847827232768678), (-1394382449477210761071429602867130667803462358041591131147536489480035261306495828554766954600694165847827232768678));
   (0, 1445425898814176036437025337439942395093505385590542355914497830479387568293730585218500626751565103018160961214682);
   ((-2904785587830286514516384766471771203174774963253140575558677418152738873219226323816682828616829046119602628607733), (-2904785587830286514516384766471771203174774963253140575558677418152738873219226323816682828616829046119602628607733));
   (0, 1175284246032904653755150821654613839570736874338427676852636846268799537477728022715236006564954829872492680361);
   ((-3036620150673757358115583080637344573790023133601978884063221212436155441114359539301536092673947498467547320326651), (-3036620150673757358115583080637344573790023133601978884063221212436155441114359539301536092673947498467547320326651));
   (0, 3281964178102665632210518485806868101958601229634082315339033629874080237271630320774149626731806577876865435561068);
   ((-161206985348188009610988399408079854818011930384398172734832005038106511810720228260053009438822950070696804142232), (-161206985348188009610988399408079854818011930384398172734832005038106511810720228260053009438822950070696804142232));
   (0, 4257629355298969175233752115121422523880565563891216376740812743461460695616362535697267839445279952794731466324752);
   ((-115417301524639717876044621332224267433182570875010500595391661616502489588301305496880627851978874066977573453893), (-115417301524639717876044621332224267433182570875010500595391661616502489588301305496880627851978874066977573453893));
   (0, 7931898993437217299256211823564866180674062680829481152246480757888339313669543753125145356886518384848677880874836);
   ((-1941956534151947216290644556289574646042050918982171625916306332464185768868057935416880976430541701081200473615932), (-1941956534151947216290644556289574646042050918982171625916306332464185768868057935416880976430541701081200473615932));
   (0, 7916170238101267876435652471978794820341265995257325496411799635247855445278248361802575525451499575094498993196177);
   ((-124327136202861542065182771498218153044731670770724268136200654131797036775381715688901086325959488337414847368933), 0);
   (1240159778329110826977061522770096454389491783997742405531229690978560412747898891971621349837079315486840106063817, 1240159778329110826977061522770096454389491783997742405531229690978560412747898891971621349837079315486840106063817);
   ((-5819335577954975777961780285932066637541757764214171211942018646150141067345088997210392459813228150876885411443524), 5819335577954975777961780285932066637541757764214171211942018646150141067345088997210392459813228150876885411443523);
   ((-2115611418658959002487979431588554504931273500806003054883514606410919970821499627857733860534351227108910676221903), 1883430928685777294940121293065820390336129489702674252225435119745502821343889755738282069671306852073584211025952);
   ((-924385054718279239592299579048143377205282622846436779424507252551573836203365776154055860961505505445091140377859), 1894458114432433454919354568823377864470798770483403783722846747877648953606060891101957456596322375103417336110814);
   ((-311099175182931985402369510162572462714168942281650319064643431556003462266834934917741041995782865854721738183476), 0);
   (1347050482312377815889794675329238645048405405929888947127101887552177029610376901508945273775461047514001792143655, 1347050482312377815889794675329238645048405405929888947127101887552177029610376901508945273775461047514001792143655);
   (0, 143123603648413435971452420688515210494735657677898699543052257139848418333029991079385719302846031237576950319108);
   ((-471418776533197263198339684665138961722266495099771558163925840931544321931404409426447641179895384678671924565389), (-471418776533197263198339684665138961722266495099771558163925840931544321931404409426447641179895384678671924565389));
   ((-5297631987104713154908841006755761361104265932965431609914559207079786132416970025615694138533057955439850243223195), 5297631987104713154908841006755761361104265932965431609914559207079786132416970025615694138533057955439850243223194);
   ((-2193270537278017867109790833021188902403420313545232401310830581343345483370760253649093117795825689261235441605012), 1799451514677019425863406344529419004550718172499251039036344106742326684472639788802701733011094814089206856013465);
   (3654556319685508405616353524556002150824928919600954811708712880135571590484783288691928644434635582103135895566559, 332737107138565129307780690671581161644207097233783006227739450297586594839561806376378283930569690638028750621276);
   ((-212974847990240672082371589324807210793004868079983003092008942705796380619561618488971778951507463971660694754694), 0);
   (120055650733727056750797145762932662392940484627674508518935107558718812915794761789516115381992421192620961208323, 0);
   (2656920553848118979856246420699367607124048043221161137520308480431784999486744062578583741770840070914426471477480, 2656920553848118979856246420699367607124048043221161137520308480431784999486744062578583741770840070914426471477480);
   ((-146409825293195833257213093465091149783986142766900050035423753344061975305222565156213861507772958343513670376213), 146409825293195833257213093465091149783986142766900050035423753344061975305222565156213861507772958343513670376212);
   (3011650675276402420598982357967497804071492688917988781079578240351477487599583572748794835838564036639974192548575, 868132354017931261112110574004542610538274441574406315428011661142698854717957225814083318243871026780617158138673);
   ((-268643300118772776053588776074028258241652486327149009448141300374298743666118078673445525280617549282503750918174), (-268643300118772776053588776074028258241652486327149009448141300374298743666118078673445525280617549282503750918174));
   (0, 639774511806898845276307778898688377035492982185597706714534691533755411331115945826013358720312711871231405414501);
   ((-3919576878745010769454304702961435817040923877240198661265032138620998117287837739586402114726282989907234929119618), (-3919576878745010769454304702961435817040923877240198661265032138620998117287837739586402114726282989907234929119618));
   (0, 2188721307290826500393740205891316522609579487973205428274814707791553557268745697150057622960817058695654879742590);
   ((-409237571246334900856712830271073012937620528535639475758589532117730853846616202793301523051866183033947443556307), (-409237571246334900856712830271073012937620528535639475758589532117730853846616202793301523051866183033947443556307));
   (0, 7972410023395782160248322250822272957217860700311854377900500693801110355223245898712441060855385659944617757513);
   ((-3181409853326975661510013843471602795897618681254692053335578847718871007577205059293635136773707887810212706895872), (-3181409853326975661510013843471602795897618681254692053335578847718871007577205059293635136773707887810212706895872));
   (0, 2826270264343476243277865062743189536903793210791579368922011763842653151175053519855268251560227960666898246639892);
   ((-1418174387183602055471675549811860642024189771873890933133918757535559215652008551909773037582581444877138607681132), (-1418174387183602055471675549811860642024189771873890933133918757535559215652008551909773037582581444877138607681132));
   (0, 1089969231854338999469515746796233576317247898072872287638469829262665509794827211045496568471578191706840894233586);
   ((-861985023419738698952498780849253416681831631376550650897531370110142358067521514038137576291816130378992025780931), (-861985023419738698952498780849253416681831631376550650897531370110142358067521514038137576291816130378992025780931));
   (0, 2567299961214744236033532010697824089534486978149921168367118467182747587238040274116677262947435097654638979576179);
   ((-3994558842618358086989225430850381012908828739694853337633204383796149226854228655552791609992628680710952462520481), (-3994558842618358086989225430850381012908828739694853337633204383796149226854228655552791609992628680710952462520481));
   (0, 3880564519792354635315920015529688087440724358373783364751393269995817290912958751427049884486325383293849232256520);
   ((-2575364678743920498552586596490978936361764517293996099342436763851983217979376017213110912782772171485427519673366), (-2575364678743920498552586596490978936361764517293996099342436763851983217979376017213110912782772171485427519673366));
   (0, 1563308711162079518174762265433999146863219456838448594012980794967158462048027748370678309173197774252512838572554);
   ((-3233989007969923894552935205755990728817973601775806213458662559936142802097909579813172211940412566836264309418648), (-3233989007969923894552935205755990728817973601775806213458662559936142802097909579813172211940412566836264309418648));
   (0, 4985533732484495006060785655089934691118136537945537688434448966974405760455864040658642675567011744977502081139600);
   ((-3336139512728465363996195135189030236505723219767803192908915989417146915886864354559348644360347645825531762166), 0);
   (63007929545869028095479854835887632024925730213239636136227861047186733722407158008622606186034304483354396925174, 63007929545869028095479854835887632024925730213239636136227861047186733722407158008622606186034304483354396925174);
   (0, 475606522387068773332180448286130663643658638032214252031925891589901472526280490581909053561446197245131337190595);
   ((-3376232341941996172975622567263661862875453193444914782968753844505030253796833009695584244610719541206367720327008), 0);
   (24732951150088785646480310323961846063140820739131189545351781530703938467611515484030155590863462517174131552, 24732951150088785646480310323961846063140820739131189545351781530703938467611515484030155590863462517174131552);
   ((-6138336081269467444685996785846035573367839307087009670012880726656067680000313637673477892153740003770188805829976), 6138336081269467444685996785846035573367839307087009670012880726656067680000313637673477892153740003770188805829975);
   ((-1499718819462625303129878005101886477402219738157489814456452368068503585123995692267638293911735390194647921266463), 1720229466811361504988925775845462090316433355397513221771249397263704634665526848833378515844304556615337214728153);
   ((-3914805106647560527835765943230810230501597184908729464063739830355377930814353657051496837024760756020472802854948), (-3914805106647560527835765943230810230501597184908729464063739830355377930814353657051496837024760756020472802854948));
   (0, 6308327633037693798572668392901908899960581320711862891699235371555573642418049085256264204074992718545220002709647);
   ((-967358522695001408733376687305855366973335550506898936580776710468583451179978415560343760552246658493239243363364), (-967358522695001408733376687305855366973335550506898936580776710468583451179978415560343760552246658493239243363364));
   (0, 328655951383891355476906188109157617513315319805759192673827407933456699674159827199206439959900788754267459466842);
   ((-3751528453620801301357917096819525929758801242911084261227115704545452782561133407091644189114386600712138923781127), (-3751528453620801301357917096819525929758801242911084261227115704545452782561133407091644189114386600712138923781127));
   (0, 848726987837873419684203077360570911744209028458323944558331092097369792388039542754602715359645175138838507459096);
   ((-1993610163189838947544612153297771040171766795359266353484994540060963633187821069538849017943918752708024604904139), 0);
   (83751165728316074790131677187296715718510773636661104949190790342872307896706614746587757501393020064793138976975, 83751165728316074790131677187296715718510773636661104949190790342872307896706614746587757501393020064793138976975);
   ((-1297350087158748444337177297341857962808890147219736007259272182334328243626091000025148066290020759799153311279700), 1297350087158748444337177297341857962808890147219736007259272182334328243626091000025148066290020759799153311279699);
   ((-3062657140323483106418779608652416121888752123904487359628913236968821454755351604987492667941859633719621238337066), 543290824267229442050353331767912458399906904377267430689071831109176327359679309561088763854808663257038604868803);
   (1013043325427266165641844909400260790944895855707614932072561197171938673852681124019116116751862464039810781946870, 3654594794918802234681957515808768660889678192044587110931777619814325394280614807632323961634928169392767823312519);
   (1218012182565230035226077621865849731008216679680566161895885549331392966721132366887069795190481533519200648378135, 3705978658601113039601721309408815591531576568264542614312776656038999140887617401289474486341192827041651925350702);
   ((-2085237707386654792345823932183073033950626760223182572787992825620877738939510375673807526173550842635938387695225), 1915369482699699772464140416397048723793701661772527370953743341168498827325467083309335162127579483063154917866066);
   ((-2326510854075115095445141665616089058750463237792305315156951019955032880079607589393258927961161816598630899140807), 1647062983399792213175710719146509130889465427256927297692731025252987841633669769199804904203239682759207554474584);
   (2746416322673714210347425380185783746691434969496018912319285293226539713191004179260479089584407270759212337054331, 3948850329956779617292687626399588634617360274119063014976858602540693118536631133520207492689467648504857679615006);
   ((-2696624347421056664721023636005874883785032768878814922227984781428390787616345390428758066327650277056109141572330), 1157893509043468998108226973694468430906981416380943570903742027790017139058236833584070410080269486357374802433163);
   ((-1109629019685354319289923801859709608652509484345400204639821877340855969660280820639367029762794995850952321139055), 2728984661017796226662301693581136851486634337089635388064741217732023509272223101257769521633734462238094497576076);
   ((-2248539644332466366472369745884258149008888816785439791090715055181712877481812941580226740854247883137067317811245), 1737561039242157844084772954753877875665415278996312800530228276622195253463565222708279199018019195653491143028942);
   ((-2581567372244856696177184826058439628642020609698414027396749746688997880657748866028082991023820610395767084432597), 1321697382207635016507582205677591417043955436388504077299205306429167918873931749951987326041268838777813071191798);
   (2850412252295918493893639001742949458725718010466880149935705390062993393655941534056863601056904846728262688600893, 3957681782929239089711009439459339394574845399095673606508123085429200156562114499199615729908166360731785604674500);
   (154359318738625670735974196905062877269099399506782432557876615932588890978511618825959264026667791813733480959377, 3377577253413276948395016974171978646929256287385465317919796053080465441274326027270819393341504553835018303480920);
   (2790860745008701192450575117907732999409221298974565252141029124346985167824257070566138097728490258331312786002575, 3952730217730928633175160167712489210326963697432438549665410372441978229921005378328858459963386372344281924173770);
   ((-2566568575937145863438900485557332365342523356860263402685534560480817290317286426510513503318306422336437128216318), 1342205883917104894998172778788041493400539648161742877754823999036900785333389547109397432298155435560884315672367);
   ((-3997439375678288130113214064806955596471987853348265171300335253294600962298052689114389370670022794991938440690013), (-3608454237002986557207570687439371956081637574238386745173051875014716440352989717279230317599870515343368326859286));
   ((-1258132480504991075677025871384275545428059523993553482993021954031901031563957962146736366263325960252544814631422), 2627200839418984117051384873098678243030929560432347238358287068447899902643383186510023758937064446180121676157383);
   ((-671223306292970069934064087811819998395222271264536794101708988909904558370068192253116022166046128399051125770923), 2994142253308390197800942743474746439129701596467206661499779234144471992657061999273807753497261891484876052381976);
   ((-713709894032554937372949350961856711943685660504586427268282635426603590320235968552923818266248465217478850965101), 2970556515115486870933439298776839983171037638075998266699315785576831445585403078754398544349214257479152979234846);
   (737572340296437030804836004408791731102106358177304216083696947217814520753726531185360754397395349250804071773351, 3577137381224337759963034968227654014613126586631188476976257544955468382438845859292790718166391289735248262170746);
   ((-3862497997807544191522872480637532150213167463019891679926729592925469098265426303805636640478626391045634380932714), (-2025751521471386427939322974063806663946369718260219138649070475554517983268627675031894941956670757857463450411493));
   ((-1128006671698374785535389223207548923877298114028874928464741422942872395763629859136109357986327982545033676570486), 2716742717325323329094395662568350255230002774833693099108176304962595945607911192748829159056871661447682711964819);
   ((-1917520963078318681725282286637768991351319948118385950583843289453914032251529181299913495729391012278774373868018), 2083174555125183700532182608298635176585165588582597519395787192688279108196094917708125398564811252760456780109127);
   (3007748786275122152433092206369208083896201449720068624448507333674833548364375368083957200901918001786766657332038, 3969427892794668406393601852548062688235701063403570068008972219750264994117799757950815865977306528032995778849503);
   (1378150249181578579873436720438136817411955764463745729838739842761318656415911334801709728622141030324063909583652, 3742640408636575649235993844418345323284737183442011786652130112744238980797770254877700317271027216649536656554401);
   ((-3631443553331349937957946410050749059807613171997915909616252267308314655772991040783891743456539118776049093680790), (-926918976067406289567866195409098766168900666069385599830792877687625517917454718299330879642636950142873306495565));
   ((-3820844388611574959340004681057122813955389732109168070763549766865610788062713616513288208024790091119667808954442), (-1772836969258260770502753024135868723673618482981759011627146001246555610469278359655183147481659902881549508555489));
   ((-3912856630565431129212656715240334759894131194881024453235783466348150171940391593627868425982795762599069787394123), (-2398616723472163400633047534456191816124002825790126098640547772365983704713757031830878732561579721936784077868144));
   ((-2444923447607738019603766349965401654114140538555740880792869439535421038203108004169229430136548389753403932482371), 1501943915766564066539700429114740510191452777874739037968416161728353151296306302952146685678908977003250849651956);
   ((-2083444520999727097765857973458028401055668558296901541493935423108382462357016797995528067041211737267085574276302), 1917239568227972873316312243606463195542175503936681878494729378394487485907431121633836163078302418275682482027959);
   ((-563630081028395290248461605164399956745647648700982841380983470154495836916359495361427690700264419144013916608710), 3052010225649759203122215661659089018130040727158614928044445143188241085445010096848012849377758276516786009217267);
   ((-1465669416679170361021829059604433136622982628720372904277676647767956398216528822646455002088499609422004690386906), 2473318545122151436600739193355508298415523191656336823652327707854247392983409874879963266873774613451330399209647);
   ((-4000051318893173663431015626188081441935955298752033371486227594762214109296132627925779744046297115552288536629425), (-3729978743520452810480169734237305967093595064037458291405053256897901665475421375215435469627086673616819850913610));
   ((-2836117245773819531443099127502090066379607251972642405865886539777357826809820467352878723787662046097215882106532), 942258441871912138795341603002812806817769557344664119062252135251608571785275437352372752896726407368667461961181);
   ((-1723676863736664277248497153827255048286687041635132569360396213543524537126183024825771254608267140127199138972613), 1630045618410730879669681718946601184730713101736893651242882489127425961707338422169348279192197139059429641664837);
   ((-2783258615606998745130073699919880649974616233618983699668345572896202342019310368392885618542710056629206092), 0);
   (3204819980994981537931115449643446669428446769788063905466454426413780938808480758153439319777898049315418009220736, 0);
   (2520277741850877379363309547888743849278789407858622997408528333131608712959698249561919533580451614023944073169977, 2520277741850877379363309547888743849278789407858622997408528333131608712959698249561919533580451614023944073169977);
   ((-11659660877071068992547215496060390809038425395534247855747164438482558710086282575273154479653650566729919951387), 11659660877071068992547215496060390809038425395534247855747164438482558710086282575273154479653650566729919951386);
   ((-3908445595779493275023281360249979143299726080152763598819701849834060950313156288753239589590454731824700646444813), (-2361825160497100140249085557671728673752805835660923167650904860243337290547498035745630216421594412725037525577286));
   ((-551041586432523061286039661226670141610775103811130604570771889811554453819307928297784569752662071909384525068219), 1963271774280136975495078824040159699190823310140640368675252365589897983171558754297306118133276305802043792944368);
   ((-775214511176605264595274675092509408975371078371131516994937090207886482709088423783738367472132346663064395732159), 0);
   (1298624697926006946502514274313111887294467619170939770858773482651483460305203368428076456191928637946486265878049, 0);
   (769400935496953536642540790229329909295576032007041821843662146349880514251973951063980023295008212525272979327125, 769400935496953536642540790229329909295576032007041821843662146349880514251973951063980023295008212525272979327125);
   ((-13994240226741292823910073003693620168687777053769013379051185304395729042619490086006848598156532745763414781299), 13994240226741292823910073003693620168687777053769013379051185304395729042619490086006848598156532745763414781298);
   ((-3318282418299039089233389722703247052655072279376888352888290469057039785085125651144076121281274491598977517554381), (-6231582598064843380495338583162403047405930319271004785121456129267340616834323179637790977326966574677989965710))].
