(** Concrete instances of the ate pairings: the generators of both curves have the lines of
    SpecAte.v, and a product e(P, Q) e(-P, Q) is one.  The slopes below are only checked. *)
From Coq Require Import Znumtheory Setoid Morphisms.
From Verif Require Import Prelude FieldZ ModArith SpecTower TowerRing Frobenius Cyclotomic Moduli PairingConsts PairingChip PairingFacts PairingExp SpecPairing
  PairingProofs SpecAte PairingCurve PairingAte TowerField PairingBridge SpecPairingRep.
Add Ring F2r : F2_ring.

(** Generators of G2 (y^2 = x^3 + 3/(9+u), y^2 = x^3 + 4(1+u)) and the slopes along the loops. *)
Definition bn_gen : G2 :=
  ((10857046999023057135944570762232829481370756359578518086990519993285655852781, 11559732032986387107991004021392285783925812861821192530917403151452391805634),
   (8495653923123431417604973247489272438418190587263600148770280649306958101930, 4082367875863433681332203403145435568316851327593401208105741076214120093531)).
Definition bn_slopes : list F2 :=
  [(16053038067190296367468596356094192129022731063914732179120945019446884619221, 8255536868292620944764013913115571796604549141481799957648719094616980280887);
   (2866671387143057312758457891194409217641192444825929176264257573564190519667, 3890232258320546922215479227857414964620855826958773252291666032355197288862);
   (13653021335857057497738316946631856599762099348894342724956986106610726935992, 263253999207685837260987206412553605669041817913210783746116602090146382570);
   (15260523180258139194726563426748558006756859427476543159681729357052622988171, 10363917381803769724909852020564711434732148656379605723802283262282760125772);
   (8154802137101202625170021372747387048190228225731727940097005576135938104459, 7167033369431369416912267964078849827563481953476182225319804880139323618057);
   (7255254398189042515608097300212647431872470395242230982827061414444176421646, 3410311501342033036394373331845894327866555916982208837558238832279740082800);
   (4843107182243846221749754851079590504846774392314103027724596490129104309191, 1013683479492830206839918216987054402729923011024328151706606124871376860386);
   (10933414188981000962154279362539082135433838471876508759317795948085636583710, 13144247120593376500866993966960493880059900916926249715685108044300928773058);
   (8625858370470638966644166883178282034670469537207935078693477767013481896832, 7295448101871427797754776313940352998400964496297856470595466355745302620205);
   (17183171772056908753067463272364144872617260799172751224312216784935079046425, 13057261934742873092330580629339596631953129402947929487417906137401533044387);
   (21079412205461817171524248949866145802900124531953569973230942878343422879480, 12404555776006644751918340186267948678664849242767776278927889396472290610976);
   (14123617870999952343838859239646064338788368586237621297864633015322104829170, 5698712959783337228494293624498480071148350667319917039901646929570135194415);
   (16710045548084843871684740142810208587851427447139259681469812276054297566856, 10672422461465397210554781664898124189576965505790862581507585998575049973463);
   (395728444037914637751841480397278807252759406095909910022575090018730738154, 8686000704958980244544613720360507961922097207592272555048609342482408367966);
   (19464288186863865801133299633773479745293953872251740314732018434403664944680, 201892208224217278732612436921056541150160122415271808120644242283722961535);
   (18588845282187844387199516326528891991729748147247476088100911235450126797725, 19185872260986254821931758651065959149001314569232921109414027910136542718655);
   (15630046327679064119924479790846995305879737119923390223710791183681145453643, 18882581969309940374027649752252416509910614832025453917849784775964608311379);
   (9467352818619766623438814590760895485886832932332596575575214960345817516710, 4584874993852860710771313444477319954276940506086955146574565359027466130146);
   (6607452958440456885981748877681938430345900785722928893958992509249512698943, 2801366661542167076879019648716477008458415656080553930598738341213470021709);
   (12208520499242351969022251956361956202704607512219028399794739669734640871864, 7374019124529430658560073456170646957365530607088354509977304978906315518566);
   (10817978260075971163153029603136426185211517811244187553738672025607799639005, 16321622187595290074072020487424284383188793502751620091110661817438707666487);
   (3841043765901572350153399749155066915659509799826304224165697527334240505440, 20987949069830739078091248118659675419325800332202607532125390961834638863143);
   (13225866605458707318748368333290125661334503619940295168545975527521884234097, 3774468783740435729580689445091854010395830983055468411472567767466244351649);
   (11347297989450138019936535084420109646963416155383300361072337090833589122700, 20036388007042420037843065436480995038780884218570642588270202696786952036612);
   (15373944151157043980510126730481518924029915630923489173309088270220469374356, 8306597428890081681684635457580532926413821257483633876766565384805235938425);
   (18565773261145946558554579797933943647280685616331127542038035240204972889531, 19945462338969119738224929014220082458491865022003339109259547074336519706009);
   (17433382569005081224324378101580133262360833471391880501807318229428829892560, 8427822491703967118983309283728343715905727536089832755862197881224715781181);
   (20080082346264216463328580262369085100215456714234444465676399197126703002568, 3914203298322269045142504973210459908053585038100678362899264962712983834822);
   (7670996581118239624710483149038813502228955824788403481402627592103612366889, 18980148893960949348448436304204860282582244938748263896995751626836194755193);
   (481707942337318503074569847652659825547837105386078112682886871795268819940, 11608460942834147783105916951328693842187853737431505892082659493870985057811);
   (16317375969251829883513875153570074977146582395669699646638344926207519456982, 11612394812861904432811400210447347177627132677792511826575975068899959029202);
   (3002772733765390357764285414053965462184555838115412013850142407644423756687, 12266117136919116424403263859469023430433068902945047953959973131115472834174);
   (13971155985525101544231423604758960525362425239923441986640901045338636238283, 9626608937668140868224372429250821125303944461574122553307085961941368446169);
   (19055365100870189555946218015500463112978066041469384920581239784390782843175, 17872344435256972470907743567785490659366836340397253970732699676976922133440);
   (4139278189106208725768731607953202823046948457670851277908751510460822976607, 19049587303398826100431227614833150798044140081654954522237707137974228595698);
   (9079873601367894670784346802247480516530748875120780838663471836417558369864, 8037304936454076126696774682301265201508432620769148052656897785076188822493);
   (9430570754980454074675987929543652608755689634565726676259986955054628869532, 3489257266623909903298568339546272447941250408351892483204272602990221014800);
   (1730502933790775430421295106073334220194065151206295275045968200468882157559, 19059563847666594949637155570358699449417457340012637125735538220215962567189);
   (3084879969268092061711415170388308553195088381557191496127035250962895004528, 19654394961553887642689475326390450623668447406772329122084473761844003356736);
   (8025241402867424532472475301759168466914703806251501921855927573860925323121, 9356760442459449574412299740641562480147796827653128886199149500938344947348);
   (12234876797693951926523702504502267692113734561373608673154049991266914330286, 1552702206417263994583554201756263035082161998000955098816228300838914630430);
   (3678799182932096319580275373418426259675007842574581622280663565387720334285, 4875377642808320410317778303086009643869654182999172741733435657218200939013);
   (52187723816013807842902457170185333736289877817724242193281989867155173727, 8736494156435081321471295807222247773324254198093409932665945984071431805141);
   (15243129872838352250984826460455760992768130628099338088331878232805586685443, 10243858221935651207503871277686649220761006983002369559377394069092812259153);
   (80998659444074765941278397556946432325412039891849196793427459170767808397, 7125673987500677866975459709966406865110484784087036544002204586382022174872);
   (15609567206428280226815524342709231731348207022813257251544080952739566151528, 20308750357925795579221999085675496652420147110567790191801256261098297787242);
   (5940765322562911209865378577710395632096850114548461831535557833822353626673, 4299213625001774729823821205760395769271458429941940831013310996106565757526);
   (6234065130645116484971249974023052105239553857148199863641510790705520622176, 5988674089523442572899782106245435043913148410293167834021594028472324366434);
   (7255835178368216332518265667565665100925047223965658030347470282844160399561, 10616221435980691724776854251856033981619281551023744998525401924027805359335);
   (10368318992497396710865911498902757675138924063828442887073232335014336813039, 20480659601955476022776119488664359613998780535670367375745895126818467747949);
   (8304593527676039593972583685802059002045152184940695065161746841010295568977, 20307939213593249725728526913428225138968092896156552538368133417080721438045);
   (3416835632863862499326889168984011837807746046412041038313876593742319583326, 20184450016385866922213374397547131673630410353283501124048014955900134826653);
   (12955723165254861424424099330000635832655621899128762288252126631645228215441, 21494720497325689034157694318348407651034811642459078759959614700152444613909);
   (10310456101599253588005243226953830655850583489372851184377093585865049325135, 8891666806601203779688651866675710069257778976161311770604234417139507527826);
   (18826359730099959620031842188955152819719844045070920036506034628780525411022, 3010665109925731329692043861704294290398674188890221644225075846649461395364);
   (5017800929907748246126905304598466374723421421719811699747375909287122047452, 15887132939588340562974952842144397927653366804876398977051724417369027636486);
   (3338303549527499717164440801213560560123383192024113774456430499560678002583, 1488423879969480388922389754402142766590813529204185090676741646295701538393);
   (17139252715652872654057137541342214567725132821604037331900355157789944444746, 20579119412254028702899437760572971494199555119765049846648104445733198581084);
   (1421026771513752576250029659760883468943042324967385906345993322633363268038, 7001140481024740517654840579155992933443118692825430430488703794795674149606);
   (18953695284545432260794000566100310335053783631815733458303623298861767875628, 8499361404440227169552142505183202532192631484345464630118653001192650143062);
   (21426744656142271080786442612376281093996361566897997980141211669320774810820, 15987931918627463733064093718851632263323830906494997551646405967827758981345);
   (7353273539733185998783247701355801943209019841806776289946507348763302971451, 17064406337389501210174783855137961532119778537929034334576823354097641859627);
   (14566477886420422528484028756057239254943308733628835776396492238471887460851, 9128935173746952848429169367389753927225598287643469408717457622423779384622);
   (10035472091217771390824526099601925088396693047948000654619708336881736565487, 7761089013574419099442076430232054566864246472001357877209892546669543583564);
   (18386781817146202620182244303721332284162755933404521529499557427240732828849, 19509741099455383385063667866285309076406036455090239999805916256613628282751);
   (4387362664429733977423168926404877876456186221425817077091451639439866513513, 4377003427728917465623582833972355624817881029815498872974175473247949460418);
   (7356647834734723598910640322896019350912577352762936353352476712259203313974, 8194950833596935083928738689260330138454210596664257085260702567544667606652);
   (21673814201888344983208903744116928412298086567934330829314779641938606983488, 12187760090398092256370812724279423615024789505036874505571298897415767375971);
   (14082356285758905325658479175945549060743096135400605880692293482989469656584, 17412297210261153049279440894189594048339792935510647225824438795329480829976);
   (17939616912652543591362974532483224290318951787568650570222532550772494392370, 19529996690420504118953104411684542521368854933805767534800978387424013017151);
   (13947589790153153967685830846381440095523637965096271108099690097625208452008, 5914097736633776770786647817752110452645382787927858131703148551347973401910);
   (14281635712390279807219467508783429414993239601093661782933172218129400664991, 12932173933833219522279358908146803384560765760149633920508595097566531331530);
   (9836994604858668631128919493759603011435388791863287319608040216064366115744, 20786294824937866537476760980021107886944484331539586214385546238987752336700);
   (3708929703823747371913817464882863528627984041302452155840141643970112421664, 19359455954084497999810923709736501925589049169316314452172573703087507884851);
   (8044234267018363838480121762109247910913978517751659590755848917641713237545, 9423232158789798412402501963035952707093858257890226807303496458670602604563);
   (14481999641797234152561940532232097772772209808791080831576844194098671249611, 13898657574557187935717050547183028009987933727874323765510824143940820351294);
   (2516057668935943010032945055589201697459035155617992667281217354415686207345, 16271777566004303490564959222628346467304599082135514019564617212661375154452);
   (20710892772107505847318650515885362406591057148099731363021056740750263315672, 9104686472890964728168377178177030041661190671749622683233799805697053979963);
   (402164876557010775121917286779823824248020585941203941592802243486750618513, 7628948539345428708061597436499943644833434881443383781009950545537901602696);
   (8775606253056208637108943661081444589179665503875698940065070285026853074364, 15281680679295703607410002487993054622215885244244365611501462458576073431900);
   (14894488302909067106554094010922164586121237212498626943445057708122400016083, 13244059049125835195804547867354032041761943659419991368157982026934979015722);
   (19950264744776381034003866209756476421106086083395136687906444764438626363576, 4769229474604261010109082452258495569162716875756905580787826906270080915745);
   (20851051638583033197654555354968814458699447990252858339483039676174747916290, 18381412940759837971124113008342405051602785313976506237138317714959472142412);
   (16563918046683761063758890339976880406817033138281983503144228303039067951251, 12784888275650830629432806922969596840550402277030421472115601435544328377055);
   (11623452174678094322429742097045976699956059199177058865782973083979048708937, 1629490703313558582841043151136718527066154706926578759617803157503664762069);
   (7796006651306711499973211751912205013135869808864906455687000217306772625779, 10390655351549656624082252070275829956373139970374397491354455252961276214215);
   (14514684344151654660824253582265358495206389952859538213387792769131470888269, 10667039755043069988416205126815525689402646555446499946757064208357009235907);
   (17524905452728902002931530389846927322753983033648130650904383053832500299903, 7759721023932563375595390495473606128489672390303055001118953767035252665254);
   (12526022898296400651795766806094385957250154948087538066400573970250310727599, 19721949927173216285937830292900680227211435498850903538587495844925581063472);
   (20104567537200129406375761077955221407411501954223062873514755051330266215887, 19936613403335477047005137977473534700837859710018446422525495772468316209541);
   (15791963443602895652091472564507695934870048386461417862904431549904453295916, 6914580857447184432985869088510180207489833304563801582067229326516479756849)].
Definition bls_gen : G2 :=
  ((352701069587466618187139116011060144890029952792775240219908644239793785735715026873347600343865175952761926303160, 3059144344244213709971259814753781636986470325476647558659373206291635324768958432433509563104347017837885763365758),
   (1985150602287291935568054521177171638300868978215655730859378665066344726373823718423869104263333984641494340347905, 927553665492332455747201965776037880757740193453592970025027978793976877002675564980949289727957565575433344219582)).
Definition bls_slopes : list F2 :=
  [(3332861143247501252331813356350180290120410449433266709578959859012632855668058597588311837045174983880847490166441, 3516835588938255501384233873790750418022269115436832732619708066978573403439322037195960057048468096398901266407270);
   (3189596540030649039210095012179962536879863174769706510404754980944451585751266623566316842163013971035925555596939, 580214565589815709051526780480716613387032385643896639236992400453316698644585507760300331204980096169520193780951);
   (835054165972735690735869444519384738334801451954355879620440187592048863251652865010757053254899940799360780660622, 555142427958551797775714860016806413547569925891195578716122061702030876843929942740921223089649544971155378437064);
   (66282772145972952687249891670166914227707873393770627591040006437953926325221236660570674876140361828743944120893, 267749903485706736292119693786236889685270373072431997125887093903971556404785429056352638207407551059702955972425);
   (1373654580883985535664857649879157749870736491129998772997953754676272631933888785347303694928529982338307006840583, 3132309387881346984658517051682319282605814402877875392405652632236786320342638410198279020955277831152704908331135);
   (1129723295392853571516013315654256049849269870008886127854455100819257795184689317256823387010739423098617771087875, 3081945992084619973465532855104758304295072920225267728575004195828215035340392354900888493845342473998391455154583);
   (287790361477781973831957117604734891753008614607369954939364340379970611597379763748055733200690235429073181373586, 1198659424898486456630442159591271248566493184056769238670946354722400541131339156641727589543051551068547221866249);
   (2293632049115617235982856040839178643521032714122670668990183812560547630609073686166796175570533671639768554517933, 2445023039238630452748326796302055600633057924628866562861504543292174268376550325297172375635174454330881129948852);
   (3193425049041839249022257947001607574125266314169376068589888502503341846154301108502609048242039729565556305213453, 2350724718932516373877582458264691302155052213927915004506280696782582766580786016722068804869983759758280597157454);
   (3380061675462461625406767578267154475701196520815922466047784079847897220579452257941453661154249445393527848041051, 2501668806032205367148724736080790878479687375595314633883064083803357094295650929286019287824086093923402142937730);
   (2318601599841370864238325548379753573146196822653947040376726073096261164302114090593886575526222979376068507706802, 1282850744430475304567422617808544812045656899993556526216142764195586909094833599042437985287909741145058482554236);
   (3626630487490878749106864672261082345108597814090470674356107352160180279446574544450581952942765508620243174403617, 268443032063551976629766394744587349553053699586853263621543652854673589451796078718083019485944235350415729160254);
   (3374729667121391035060612885728638580950440182424857206220598058476704328028992370646455604174109469049162859816797, 2361935547756063585824568708420090387925532742103074755960789406917457818103796777344862700588808662576012800881422);
   (352113325015497061955841655323238720110134118721004054054170882469967372737326331479727075863452043677760046495773, 1592848339282779496452253565788600538738520361699108330923958639466884871262824303333581433963127153225606852121416);
   (36466409209144380980903701800002896915039940989418701946617403053381578738815163594000331120309011264704482988631, 220821967333837273739775797809425927314227676770693272817491281515273269474197418852290862681552425888294658214144);
   (1485884564331616278859959653110951309934185853197152616473133383435019012440703766105396029828668614275263023060778, 1164131830781183851167527923247578546760196964625623160580312873496788733326022695799012407469790386008248262028889);
   (2982062635302212704072103527710239664136304249229604035253653859170282213219209258834096595175438113316581617665036, 1967176514647900102563586736257414222931239596097267091259544218399175789221743832384889734640632268443292624058077);
   (3161447040478922134951544812578359333132025179254591409341629854665511363953243700006541157553098810085245273311486, 2423935108382078215380762389001082365761727665274708907616207100107616479785982887815772311627658314604319236289966);
   (2071750587408325157043779609730554505053935030777030484062804437723726121805278571734766909377350030597621539869314, 2369705794018167345260414114229424261175387636228364527705582089955734813862703679190563508181355464175728276056737);
   (2650181032624226232279881669630193657842278366005610255923285263930691796693963248958633082680623123228501506184919, 2330017544150555244075653794635841222886241365159700504737504871316327955532711199816620186898446171172431010500229);
   (531388585889799054143044401468230281071985679380292825822599227106561347273797169195279570922216937565747094436664, 1183362229600768914050245298981759171198159155733052235200482646046632099085170522719541308232184943236795689702078);
   (3803997154585659590606717676853784540934403835228223211127520092292119685848904277433552993978130959229195099571120, 2766871433464272719482520634791958711453575792448863103619917860950828866781095359266256883768204354833873476749484);
   (459416940739610156858722590130252626556993547067828891468931582462044764917680940549590323636435629746675858086773, 417881601731572777810103911338800232317520072659045342643460075917620224886836225800950589942376696404244817365496);
   (2573904035363252668454001240655449135777739851395611178589709397693127704433683420116763070723902420750244425012759, 3746939986416573339473978386491066023135540855482577539935942747931239289635078205067477171288684778487989007393613);
   (2840596035678566560969304802009685938645375919958256821763076035679421410207682405764601769771253777727117001179569, 1977865997702913375192549800552896946414303477037242021863149111910899665438587844620134612553968473400569301387416);
   (338471407591257044826944295851798470044083722384314399870794585284422000030932507292940185947908763362672088938285, 2835055863338130817505552633670147072260411538786467824298931728804180355358326726389378210264535685074110402167741);
   (580261818855283641663615756087107475399156605855653314738585052680606392293004294309768945881279287742853379220204, 3991071628015464512592918466945704103752545344950751326775318898890023377846304891372559239590480817759642670658205);
   (389411585029621033139843653321308662851082147517922426692439587416218259461400918394623002890904075821080343198155, 2123992928430894078367262640718800654798889447566999776568331744780849895806566981099155763436471740071127657110213);
   (2266744698331460083248536621336379977743556334627582530083689112179174052311724112667893527785162826124092786156853, 3744421797532507940513074184451519003728415103952490285154376614592679115128663325695327255311955103265580414470065);
   (2600889097237419613474310017317763556240441380740888157827302640677257321026194903389329758627930784752054318616520, 200778370369180058572699429596624550490726384965420633873137861592734820635154363913012151255215514854339429191240);
   (2616203128849945962534528625512391775069133049481019163448900389159611490008374480125823701868847164791163475769062, 3897150876888538726896435085332316361380642382561506367699811149165689715060983143495594816173088577200417296375379);
   (3359032856681507756859011774009237133512139297598371408971578633730296360400037017979132579688516003376296563056972, 3729257424740720216568863549128427619950905341903437421378904810696796924649319776773566096056523402070243760214282);
   (1647015463749622457137964226375944218201408132293699119920370676037410413624695411924534100215700469405763849168349, 2487863726652067973860430909810341772598771497223956080239921406255406534552168459766304127655453578667203554416394);
   (1345324669267022994671605046919372362192929996213480783711502643751526374834468927176559912975264145779646018394605, 1051542232763767517171101191695502141911738020612841435771956766008319329592083355387694314592598140471375910422911);
   (870346325620749722803898689145981591967915401444940676764855477130444037769727118109578025634688144261941196455126, 2727036387697602657044177711142286979339264918306206730390547747732023425886931479800767082896075647389570160275435);
   (3916356114978849339049735831477824025055774622425465463534172569138033913094758274059464947574433086013128718554212, 771774744111942505464724947463866236822536345041079448393837155930798301303843330224764492913054774840358409769373);
   (3438803453259400305085522092907183115513300232913761531751941789136141042407506847709277201767319714466929045038998, 2554699044777504386623216269245850698217769041784920556094765112667776677150304703591844611499541246944319598204623);
   (3449304747021468956780690030537655698697088029653822580424050549311320668987793566406375668605613297807327489556134, 1998454263502221745619423040602182194843787834706874689669179255948189508855097685121790460788783927909510139025433);
   (2224664381504000294075033706689439899405010238083861585000674179541164338667634659912905973516279054263849003848129, 2961121798693388529721876760836687450910112497153111682953396910042389457653649912915197485410536882528255682739885);
   (3849472377858554857518781728123424029713912910229505584802711227721101614651363451079521566263761955988336328181365, 3104813272595357488355320156499017491216871400444023512949844352950947073732354351124541631758855653535034546732655);
   (381843048515507588709689586247276842687192911113241366555500056416899013616789919784177222035274340848653960633560, 3414583989117840442984372558177139317022059169083162716466198863905630943272900663344812713277115245537614223382094);
   (3022854514553981248683468756018159553619276735932038402844022090060718420996263272812630027492035963371979470355933, 2919081043216297606895642916668885350473685017335271309356186143586100829657984381192136423325347168727253523223645);
   (979103616178379827041013985553506690283680187339001213417984108902857995447348982262024077802737337471681342036182, 3791063974443165863139271757917823735183246594874297696182444169465018807546120000942640174282597046527292969064405);
   (477900656980906198307994227972789789464738038682352270229475232023363375941146832079903065832288164816910702407346, 3848300456621756480418408230873007527613126020085750362428312149860684908683952370395623587917851961718090718026151);
   (3094394576422775803227077497527968837175485606345696105252799880379669359468996470717556387113399636867136516114194, 3801770384620383209416015201900532804034843013886239440914308534328805806862644456746466271966768853619380129727944);
   (1641948206375307587034872419793086690020395585090693610422013674488941072492848558821495358555849817292287159482946, 3055067617292525509295342299715133164820886523997848922813863577914239950763985643193452789751263758881963542566446);
   (2429759401659087221738328762125413598318490106087521650230001153056591550970603882293224004911373792066289502961736, 1383429045330215512368780470756741596613575742158563861200366833346314426215575458367249749659859010667730530783435);
   (880761145135388113229850635315578948337642486317216648146997826463109992860293202109207307792167765006268928302399, 1574789197533450325916231653402116963515094915217838455980273082566320244586275980380696202508701121803559415195405);
   (1485184318664116458567356415667573691733820223454010665688434191691307834351522188400065360999504241332341861181328, 1685931599442927882641995426077686481837529028093609643757096211644625701498682940434823996633943374545673020701765);
   (2131397065342940168541194320677238367699297298368021232296197797219777948620232709514704754400884482400297852084344, 2101249370153538417626335658543094322477435485737259738477151054875587461299075988632195711333434592090702392271624);
   (2253795768227128782791876368099959405464041821451452375644645693873222633857720671532378363598528763954748052521949, 880041514352450760996837904450114502568432028828895985927483514519988459639763092877231863131205557456509400684526);
   (2656449097763842748591874089526180885733060351152359824440555251650990019850595010419913277842497790312123442049272, 1162994539896157597205489641965602281331048696265969197068399478140141936459839181135193237072295115617067459627870);
   (1546160829834119996155264711092863322500413422745988521030991538050266069369694196201706213498804859129949442814843, 2959396655034069252843078370163358404850258425871662673432910893252177408985006714248635559227977714185928935163215);
   (2418501943276540990448447667065652699000966554816295461393865381349754461898082733723654457422018735296561096204528, 2522365800489019485889687234066050532449705635332201420563895895319183176849637920878555321714116723375656493851907);
   (390926557089605589396934705901628499856764594617945548322178595365410062260634610488770649054700595969130225224735, 1656239340358588833312927013957624501138783393106366012342195947095893465861039669685347899179132403809674286124436);
   (2827306120252551729952546346999373168128788031878944255061262675405120642548218897228634625840481825854053970765621, 1848532775503557830698259577155521524855546545343090739104834508576476609988723274902070242513378980955657060886522);
   (3713830046304130177385572648889332130444584478200549050885708632700001812323968445931047903433593290701260016203282, 9476035499068160037725903603185774744063770475135838439187253107587697436045541422231572784330265833408698173364);
   (3328360423578746676644496827460269031126697331554788386080484804719400638129530062914172914428955889704876365655716, 1016367863576189514724196479991457116597424586006593129095163797210865939837258399510534158896705199056967650045327);
   (3098429470081940309758120578351982432330406620889701680112012167789427288659552935841440405499145604223289828537577, 2654582016586359158077378569705261491832028922140468720308752444435121613061114701185900727975880732202868968791950);
   (2551121047282992176597125633983902712894941160966667548967919517071572489571054854055165886856032705380812551970730, 3222317710378913348360477178716470431255997990495759219477258041640084761700273555294853167769237599603736759894822);
   (894150035496411771256924432866918172614951673027280066637700774783015252809233601761210052304570665317145520375934, 1256096754288286754698738162047025620597078777025305018588185660626654259480017014659069250617272474099741796840190);
   (3004007843644636591917966809187812251895014584604182132459441865033294509807222142147020294627305033859983902150599, 888829166949872281443981607732065407441540163831378947089679008714080293496076162132552976675663670851454392149831);
   (1160938544783235613450534871348929655009895817168399075870585616983018113026874598391458375397744895515386115560171, 3305842660718254854775099745982137087253969483809836778853535383685225799203658039184372873011391040957084534304373);
   (1375687333320120867967294694189409791059189257745571321906225589850416125305494211639558921617219013983484691908180, 1103893654270188029512720367188009031730553072313899621838285838303700242336980870094656776608420113878648512907626);
   (80807174005797413733458199303257609840372898330290537610676018274992629467950258118399002827145121285200489087860, 1478707191081135434222728246163658077349537228930535393124771301350953737416516182640456234108619131476168440566152);
   (2321951042632599821521155119355484943307835479891856832949159621516233143239898728635387765261438623719332682166202, 2968463219381830832012919630900278480194680091371598444279811633472026611869391605880036544848491383541662757205482);
   (436960595964292593219369975287324033586721146996409768015783414427547968083207319315068123998558745874851471893574, 656657763587056073677952361566430797374268140536488933295695029592168175365918252010232209041178953806577613266839);
   (981016188357399796637010460654889484642283246680775457057890543261337754212644818700628099343052345080194395941189, 1227699790923042902823616358068675957377678417636580018223897644241598823793843784281059987628518333259565748809153)].

(** The multiples of p to take off along the way, so that checking needs no division: they are
    only checked as well. *)
Definition bn_quots : list (F2 * F2 * F2) :=
  [((11541065289451573896520453549235001975817770474465979205287186339258277123597, (-22006615354811049574561999306099791708824209707553791194847725107669868121294)), (8659724004012498191872984369196574395151882295241937169106974854608626194947, 12109372907434133677103576205808824229496549810518094840764727347068049817007), ((-4119913650069459078666924704391463519877752592359135376961524567773880266277), (-4923154781865566313969159280870934723900915984527551592956026978811022357532)));
   (((-401922690203605797137099841547001787028051051596297178303913796076916675938), (-1670861318038430469353137246597430276963308377757657445047052951787620004522)), ((-315973384538377982720661232595231973188275317310712952557849001931953346778), 1018996140491136969242026741288846985330849636631679297209517212633821118252), (705104124815054851324823247904375593623990410703436363128767834421368468057, 3677584915779014792805318923213182563972800411429501654846961782220129483760));
   ((9344104997150224145826174470691870730901776870518791905993292632902158600248, (-4177513252148320167467027614761972153585755213350967813457826469183600219366)), (8513049221004525068860879277233879965099085895886282445099200124793944775748, 328414892778481762020036888416162372563775238093960365070568134744615457432), ((-4596056721857173949111125847654423312382151906239106874116297322792370458445), (-3253795840821287174932596983893543261807012981685964249495496579534667786100)));
   ((16920787396591198259553287612337281233829028608371159468833613308095777600124, 581101516962540969615878421970519567536211319353915817325110503871478793816), (5732428362249718223881579294990120772071570039199698182323605687387123721288, 14451484513339242081471770169047170120143597380042075465170696785670971013857), ((-804979822183670289153296141672515508112429480704106809671618566545493392842), 9945474660070571220508252134243547312202269293187356611418499184984147819711));
   (((-691136083545837245004189247575585467837360040297522297004783155610128249016), 5674408265663900667323939337822243791291219016231178253747261353578790018822), (691441093071890923099688182950828911783372938454188044001145866139326942985, 5340377423617590958427467299317836105146189329605129190289218571895391730466), ((-4969300641791937993389581153145480665917899135602385302820627816490704155895), (-3201182400696050377387745265733879194781738690596123924238474624728282667212)));
   (((-33133125413346351062484260834784809327403785134646910501834264769823793762960), 14235664526381545870381104458937527864040095758530357491135965931565471072122), (1873539693723699026025634019770117503953351720501613623310269817184214732971, 2260818985258941233960913178530139236698990598085184860008282583504848007845), (2339053497044070813399553802311083819216773449843363537036716165262057549374, 943737097483281816796041012593682103764558214831761460330281391624014792799));
   (((-5592945875998166883302300328286425200279910024375713563619909297677581779032), 7264418700004414698430263993569475516870310486165499905247128383162014088752), (1024665758390344214998786971245702497611002195510908913345342095583211340785, 448585824709566755877082186933871762335345303718461690085321449738030231079), (573784446700352674167891485528231945838849152524232903816381006881715430215, (-1712574923895486349931987833872669601539778065915795326601548187617097112942)));
   (((-8126816038352121216528705113622509985824940015085793451804796039142399021719), (-9143654452198372156459525077213313992218544873853056767138481107423629590956)), ((-2431976237247550080304965812721377063890032211312718631162071919488588969531), 13131387367476900714428233484628066299484057533347799559809823576234991958745), ((-1393158029899512647258842060268410811989646866705729259648759975990867880192), 8223934824342185552506509363706408993786743070733485140818310093923863894287));
   ((49132798771363002555111291731697506392529180798977639307978415978081175051, 7520159416409976485390165204994605643893459173613016693928297317614688119623), (967728188340366757569350771765646883079289534854166185153167885514250011327, 5750073447588148630576822332091149188059096662620614034358709223918089378846), (4552427005429295241173952486031232492345518344486578647898900206517794716289, (-5163308235671675354405000795306859886468334787152073600909025616441943574558)));
   ((7467779712152720299777812214114695604394393304931819637611946416442882357849, 21651039565011832650716387738233140101538428655894942977002841034097754918088), (5700288673059838382972756445412876111964234586575576453077443044463838699910, 20500976347086142011541657115726239180312075671049531591004100925628377270081), ((-3767875530810397463191054745767622648051823236861763497632385495431557214200), (-4863784721065179634371263332267870512183141577423586649747274661090382506967)));
   ((37156783255787158818419061528839968597626421009179696213625354923396872867097, 4833588357662035983402341447334981351749345431348020250326994326248838591092), (13270531427692654200727630546284279848738963503426819784329147494775941432506, 23892346768913026932297236527406358364834350762852310267537120440178396527864), (2005320311760326578516705072625150528323993205295370583216879984761888186261, 487104366096623636442944666873649723450078350040273612020153690612649525496));
   ((4697660107558342122235174759930119499880690256525101266336145511274031056252, (-1421505990123535210006878721228895179769028335646346578142065540677120184108)), (7629724018773805776657301824785653580728085278470421442187266254841813780429, 7354308399423537261005304440639599166113800418446920960356780710895424760674), ((-541267561213042443592802733389880580938924641706636485262424069261774831684), 9452096029180074905664723971509907386404064354185465563110254030765591438298));
   ((9391385783019247049776121374826282850593645902280402097164676920445322412497, 6944360000855142844059769056899126282072678178229162957010736418003018841528), (7553142661614969291018657131435822536645346917110647357712848689785522092802, 16295201627987497888928085320981401653793269780897950111261666711782348885697), (1240657312182854822463940791162119897610352877807947816561205123720176794600, (-7680854234232625498580089914520354494579401763528007121498131586958365749694)));
   (((-115410215390208822690594690995234677644200124889432999104787811525645541715), 2569481179825243679337544871131951919425823702563057430650039099679500057948), ((-3439746519899639266627298253734493711189839408366478187360199662428482647448), 314077065391847036291186288059883665468349115341459753470141364920762120381), (3026146797259904248885795411401617867390978582330426536585876464626209152280, (-6455665489164079167251138548488527296882911065934808084745755548154365258115)));
   ((14757806687417374833882038213551649525407621734046096249791107222090278828252, (-107177162132234146262721412177188481873541180618424379205436703272757616687286)), (17306905646817433316170744011254107449096856239871621555161816572973168162613, 359068395445694302122381545683057610208972534684917962414795924905772140688), (6064832552320957279305318123400162815656594363412648595779795546714938745926, 15712859665057563934382156596544002617236696441173657571910340596940602556028));
   (((-28053953642903719634987194971540542091052540884634287747533761934101479344750), 51515890790575639450861651944962258578166811824453472202426576194955865080678), ((-1030348832558867278149728108429836454053830482268975982798525358201155891046), 32587651110372035488293186639642530601134184981119118592226318328130202551118), (1744718789522185176738512474114948239974186867661097392547615322071879577191, (-1676871815063687760876729063902849388415959556151592122736095291140899518284)));
   (((-16569701934711127520646591537848352108426795525112412242862609434119055587884), 19503072351663163104568363834854558098407136556504989683978966219379109541296), ((-5128486296482800768017835401549947674264478250332890017017853697689835409376), 26967503302535441380494002249329315394193805884249660241750838185402196110925), (8689937561187400410663831793019407001703242010045290917389482655600053310106, (-12534449312944373869014796493828163818767390941256541650700068648275590668956)));
   (((-5032959352874949397958395333617679994553669854285284562007307162610913741843), (-63542057070695638510737203422015584268708562136742658633703562732846710729704)), (3134545385150191295456855761383859455452881399933687981099459473534086715513, 3966205003318724115275187844356412742186146174060695359336436476002308162249), ((-3087773549118494245857543064549963128184207928702429674699741322080250918525), 2256471232829993146679298193456396045381090128758454796494002816851724836401));
   (((-3195489803007662682161765989097305683611460450389824020199220472900626270393), (-727598837219437848769079713808192671443779518534570225537097396058729452596)), (1636073742204161210848156188343494025229869055396602848154512750270171083797, 1691309671942420834780854817213175483377956685085629539889538437568077208170), (832066182781759493997281204846843565224804540903027002312855350094955301120, 1206398238552982551116735706506294694994884158071583363940728622560908245947));
   (((-27481856128482736338680846448402113843811625746754701177314947115702167214508), (-24326838670416877442815637894802823190999557719116853930590538899950835078194)), (4325235939943663312043876947313807924453424294311875516724511412172886377846, 8225956205872253030596487738990561343652574441264971638102278726230735892979), (5545213890159646525745618178790751309458290885255382289068260691194233711813, (-3490097319880692767534939903510233086193501395570988603582517320171906013969)));
   (((-7350561485418933748682699699517893469872548312184912491375202879645100250781), (-25256945284858434794944991070886044307221709670896017603734956598285535419142)), ((-6824060664608990618917766677006040402286780756480917261240902311869973193586), 16133497332647469054310829937365277802293919610627986222779520361020266409001), ((-4193346853880353459468866924355954663472684251086786670381436976509716958751), (-4163689022469801857506579781738132499770081378016647202178152165330013092029)));
   (((-37816449313753424197804731630702188800064747805796035047660269911436888280241), (-41503709952994380967372250957056204079378630527948711960810748696157420649424)), ((-19450642586481066754651738706476922470074419941878708672131011741119300204130), 7366112611757483692750184409321829347040141160441007282328143041762006716338), ((-3895613921837962363506124415272283187099258765534729876401923383489067566740), 483016533921714190343355239755681654027855073147205840453992855101195867934));
   (((-5077744817323514391514921376671758381003728094703044799971324678721220026755), (-1103020804094910908609239429038228872988715557785732023256566971827047337255)), (7340787189120544397070412085143770160101128416575084435831621018499583096505, 4561409605377256902363261224274432061241424792660951337997754347229446935065), (3935169803809674239783510953759744577859633515404760196128457748239914633303, 5947707154061162911727650348728100174184878591875864228072687927146060087440));
   (((-13356941226325072872353150760280061538356078049272803778858174310295803293976), 8467535012674723143835275970462731703881914734892835633687698849945906059842), ((-12458545635849821955705871493798215145086058837563756521028188173539660636029), 20774519606657697980302181113822913778942213194955129184518329509935820926046), (2003555351589672934006618518584144541084827289559489332485284074221557995893, (-11875859622941144203513492425280633290781768735171300024321155929198472708730)));
   (((-6245113965646302411634038407790730746729743801549548985212944780129130087862), (-2745726953970431094526503566650106927398358619724834092166775994057472735494)), (7646049931791047226454416166005163764905771322042575518539632197156516316598, 11668836617506858812122168791676494347755956827587840477660105246413740554791), (8956090457735066616002458764142402450612532253820974852448072015933963531027, 10592469048794115881752934527732389693716454103997070647827138291666101402364));
   (((-26434891425059027533766454436763891768716394079647405065422855342043781386034), 39930882895194391433124122116732530088989928187735362095504723715344574899512), ((-2427491847658253234978620521899032261859323332651534729716040982989454506639), 33835784219156895106035582489918128050581163912791163670244085264894895802898), (10735819371856091163563049883607198193500000492773316344262150586295489071017, (-6261885829852253985365479941710792517036817138301763543750338534089588071541)));
   ((28231146833418336269508542016605183361750121332241193521669449454148692046869, 7767761938363824910553915075687680382452679598615301741954499053125845363988), (10640170488296886243315433526802332909364736769724203510118800944766961531174, 13425056966136882400131018293561492405766512577601454166042302622746363348721), ((-105700870658473479637472474418963473265203850822761481238483510213711623818), (-6756163208385782179498653327717645048547372685588639533024512239356352100355)));
   ((88701125152421580714552785879721611704651647937226487593229414153104271729232, (-19207428751992605633498827053630848204000414913148908130725954795319771551242)), (17721327465312454839488694305673710088470368129879298431173920585959101413719, 7181711662332773710431394410555208675601024982310043388561062956199486444596), (47318271446471376297155658725680197224579010645546018805829908973280820474, 8930365527230672287800154324436762362051535708782496659241831258194992989114));
   ((3048894085912421737077088282442680258687300880177704688370114936858063410627, 7140464736332694204672393716219053992396940638915820233306790391807578302637), ((-13770034682737072726845941601492920864557570989215303297982500971383534315816), 13303640509399652097731589287215955525853095906350345500170650431547849877257), (2407791198988142360131640321719643218830141694562452421108419855857062477574, (-11058828743239747332314094629417271843925010946850409713774721788182481968889)));
   ((16544214297241960014472451631977677148246965855109850257989928728910769007279, (-48756239748833030640144597629308001058470063641956518361593335947588621402310)), ((-6145962638813268116775668071005349205897157906344783101803019343168106744433), 510948993687393028474721004847929513343706688784016186163938683002690972302), ((-5408335924649028959626261910631578215336411459203315712122875036943277079071), (-853112584768819307561133297045185473061485629644196714180745585829996327296)));
   (((-2017092294450319893406174242656620931264381396317820359444566169348883868500), (-12229766634068338922266047941164969007582984717818824954344563284850342967336)), (6003636107364368400380159558531760353614818573542107029780033591841578516074, 17313752700418118246837694863820948301522422688092024306852136027531256426144), (6501269875516145172211237109453807275593338444922081148756023595344877349153, (-8265424033936582511698979352152351388205356286883788903552537434473843076017)));
   ((22478865757458155385358727403475763530884903316777456689897125693358483753748, (-58047022166659568384066140791878931813977009255803969984833998949333617653792)), ((-6461961627260152023022792573947010276754135561867076225896128246259176709782), 3365492817635030603476993923852967478490005085657086155411330357489821531087), ((-3130048837157602861739716160962421064305542086669816379155539794024849710758), 557918271052473652118301665466100504427143337351226789934975154959613211204));
   (((-977233210911667877933888832149585482558536423522057442443556613667236987244), (-51006848863947649962195876832279147012275498713455874888772586890806926711642)), (4683866152864321756081793827984700130089929761322620357928140329991406920617, 12289232705184255372461043745906334942147887902506726725533731764013479556059), ((-535000858171585725246866738353898060553024997500710975098938420609097365281), (-6925864494275861932552173115989659035441328483166455313702569070078797495986)));
   (((-9671412916794973564805380718129867079437845311036731043695217993340283277564), (-64164084255528526189078087207417699102515908964364425508205599050970251294000)), (1995877136908328346774201779511368701354941455724285661874284035114979478005, 31118445680305041057352579344941519486400409372172059018383128994487886348358), ((-7189679554651528185814518034455472636093162579593948115721597736782435320115), 26476525153032967352375822071063274070821275111710007421921351276601353844251));
   (((-27452887692549812523190111595307286087929730315013478530523221484989535365492), 37892651852435821782931855800027843565843188269190463052702508723268790722358), ((-15796295505649679839968420162324391835186361267532734450225979750256307286749), 7204921993796151768388102174398869597239988642481341969959502191017960643092), (15151969167202396146992234413966348581106733010852850264953329294707346911830, (-5538361256581662149007060015402579883740643598655657651897180769649059917721)));
   ((2386836085542539623212377728432421874079320376819559598544605662916532130614, (-3403911447393222689686490909413616271084264816087928277752915309064954151282)), (815315970302413328074397507284923828646934843978393699765219565883059865476, 6668211180399872109498443473534950860377516817222553496431618988623724754183), (18583708242504495555185490400377253333998461437494483291730912768961997322, 1705072209207739952148639651938913466979057612412618639443169799615748709734));
   ((22756325715999913630622721299278077278276828099065795701274236120239197949025, (-32453345896160816026123736901672222006624373025902864407264857667859318113900)), (3506939727480949005553317320328905258612446610630710350936923426925873502829, 3006699781969424697906565447782420881102599057764962236045918026655423154028), (1831106596014530068418595465062255445549550300886617745589494967222438970358, 4999926213247458135814169592883445919677370966510378279050755905974971193581));
   ((993029131036817999888763126745102332850013075627675580512222189327869979803, 8953900176729198901267933339115595048859910480709588267863017911136065352100), ((-16459627927600165134096327643915807910805714593382723428295037303533531421557), 3013730370983233043120041704404559409900658234000376954980891106373855410071), ((-555907309110671002349604792252566950478076916930708268953524564110859718218), (-11818764456872373112607517317242550557686077793996917938415255968379597488153)));
   (((-42742968524607062516282462222448744491947186366688629503326693092806766124528), (-12441948715053070087680214389286780390110107128085072481873451682683976685914)), ((-17213750737603292807005702902838827887115362371427199701907055231269153014907), 5540092887308721879296068263679722179911043981670475244641216470011524072411), (5516705191740286874158406918667474989706740649324806820103693469366243367245, 5492018383149694091076299828667530237332913399963956439530384479984966743373));
   ((1633004179307866930385244674466494995933404032612043628691474790562614804471, 175670005359705543754052971822350437162862338062091232447815332863843936192), ((-1057392616611239675230796679458400283630626543179652225243397087060158022647), 6861241602554261236251539263902723944646609809549441955284359834172276769317), ((-7723052922759421767273781225498887140001371231159133475506666587310566174260), (-22116166025513519614482434256893298818885584125220519260281578295469573904)));
   (((-38953638005065309440018750196705055840823554619134655145144007224037103256188), 3187421421439963373997046435932105466917465624028705681114379809467363427892), (6728787092472566327875331832897164891173160208920913200678082302019996639410, 1735828710441063839166513701511299522493033215501318154647721616377160658408), (6136780788172876712350775971739771048748090302234892566188853276145494341838, (-545099456433754643048184133255666048193612657915999408488795151201873986333)));
   (((-6553993869894360526487928141886620681639436438510180011339658533637853235016), (-2976706237096745049298804882823974322597957098928446287232317592100056412596)), ((-467636611654302370366124545075016398025411061312908740888352261093768509960), 1638828241614949768376407777563169223635673816070196741814147938113217981955), (459786839492081639330591631149337613193414283996028887189916696443699785977, 1313394514676869919668411244538508215634593463890850105393689001605140725549));
   (((-346167007133548467317125643655361471238200055240030840354014564115722180435), 458986169378221617786521509479095551094408344472834900701301065149930382320), ((-3486968188072455011878347767244154216577787298655446145254287689568486949126), 41660515814437321988242817200869237584247204071665598888319269429957019732), (2731861106179222899799222132960587898997931848742510934528348528934454326904, (-2766038408156934214791063814814400810432747626390479606574629477261343687120)));
   ((868862105481781116410345504381358033662987446729929517593884913832231686468, 1280462002104970249562754481685867139905317797149343492802538622488961563343), (5821224563120515360641370257093200091763312420122920951915954030772969823695, 14267793188351705541749467748721815152119796629546482739926256264129291045830), (1404814142934748469643069196680817205041442492236815030032165486745766829818, 5196131357003633772303334981368060469298781990357312281586598536180388597869));
   (((-1850826949324227473015684485502868026825220383258786777787585510291523369626), 2206696057018572871261477558753101692239315294227064917405563167380707191780), ((-2319449271948158344652686019373151275746680169632620177177559154329197806031), 52737905367967064747849566164133644590510621420875246136507708289509399678), (4353763498944422062868735691344312560995383529264104989154655008756902158126, (-3338846038364108097212248091631429285388389711383869584969100536338366576395)));
   ((5442838818296856499466097932053733733719990116300185779915976109820787359465, (-9420481504702077527512255985964103222373635912762475573854064043922951325298)), ((-7711297508750950149136823103866231202068165187324514970386911438530925642600), 28966309031454802184746798015818281110431051485310013553143489930388183581431), ((-10584572448851514374110712360520368334110553653461238768748117107416896846439), 15786257919143110777005155412239097524767555242061131650631695343526109538270));
   (((-10266627745217877421935433549053004882315511562778341510199826271058523096840), (-1116267813819995345722268979486212005125069617817432181479015280604781199920)), (767967302025491767297538015493116286580288780091754149287442284754434248181, 2333729515635107315468705394669883220849622915149571967142457030698356930036), (2942658975325407094411933858638191487703735420051476479027203848021245289273, (-337659581632221437009252722422766348709904067763185508520113495600624194527)));
   ((2096229651255907713302767297167645706025891714171974730706281219012462434796, 2469782762562647583231483655604588760575583163207875959960743818002814509594), (137030218467410632962430326484750817393248191444074721496799688189024118267, 3411309399196082258462710958496564848724567951864167879513594180424326038490), ((-5712884974198877103282922274169174124080289029402837278860203205800550956379), 29161803920277563807080026078005534770070783253764645391297476166171141881));
   (((-16929427292717343694128304127398871339001876783203777721138337472693158343674), 19821409069598913904369047251991391924447359351757260154179161734766294906858), ((-2743802405418192746186682390973951467886921881844071220286803508261004704473), 7038440993876145619187212460208714713402081004164264835528542461121221151793), (8307812676417492017452716804445094843888849135891054226959105211663139845064, (-3627731043591307695923573465982438891919383668472567402772646662687101703864)));
   ((37067029727504885403628333183491107929713161368043661662517286212424616030962, (-9620587418712042174266017926097670864907602070545305305352518546708033906380)), ((-14252189215349980602725110153866611800488857194644196312289092716165665561803), 19403111814245444153418075729777037838098709402706634001530885774595096507426), ((-8648696294865369341300173207017966326468149140843396992800515289519889494963), 13022173104021279815976925585883619604591815299403586391669769035048126841495));
   (((-3809774525605863094856364089423426752885141254949474127609230321990605105419), 21989720052627574396604357509738661062255700071575109970486181867192353739890), ((-15690895036848600896760655344239873281787466634493291095172258365808807622552), 15410024600067251067833340834879468233958680376083282341264394538485881472520), ((-920738967421915312041433290534500614781435687230068405092070124381244041625), (-3314353929945014103717714297091290580778056833291694222829758438874682326201)));
   (((-13796605831443010885924812395963921404111090628097260332887073795692857444660), 16700596007814318872665511617469869444829044719291798053809773740681190128658), ((-18079900658956701278575357831210757460045080628178051558742364779056604082801), 6301734538451920174883192045171536276885699869869624465663245779437990362564), (8822185032347247142630324909673475244643386597372841035642405293067677310000, (-1715946145775184095451253115988254221255220588734776833390192282590549225818)));
   ((13387082244253575737715061642194323537259261032597306635327157868308603512842, 6125460954607641445454582883346383355205889749005085516661362909772172887870), ((-13439737865020879783904922246473074333146289311738431380873223196959094231273), 25445591947096318167007451517197798535658626447906502677476752789176518707754), ((-7394458997576509849437654919585251391981990313837048464375778952531872200213), 8838332721668847529336932166329750530570290141566419166170733538665025289862));
   ((266475680714262104183689618073112383628111991205256671187004499953358559109, 6971564438585461891414319603741905955725908519669199047517700555729184331432), (1244675809881596376408624704811843814242395644503990208396577095233823414844, 8376838727192474346443360399035554144853707305915970036729235538493564144071), ((-8354808601886581124778455209476924740258764865245437901537718080972959204250), (-5816563993172130615997897119852703383414177222955117913335969756526855804247)));
   (((-18301038662776321746447680032349645244233283186769705568535811836222405917092), 11132336871888590349469790596891991721204772132096864476305393914090050989538), (15778686224618996193858193162112381241467745205323707743941469188789242369009, 5179023708590632204112255319026695643270858291620263881158696118101799460516), (5844672140139856161560098082382483074366495174321000391845990060387017675575, (-15925187066839246687973731167017140941539941080436226854285748086154763910402)));
   ((18950816914414860511927899770784351306988913252330962748866683539180409173155, (-63842453899087343166883586258210332096256354888561376420364637750797679871972)), ((-10381037354090553335599018665387717834209574576490498203121321575432506408474), 7284136136884488769412101849223367310477753669215381870379531117889576863323), ((-880439540180958821620432968010819165409810228528843653401624172389309851023), 7980166574777436731951916230185881135530636770252708365737170899896817168618));
   ((1061806410684224133035801745318432312188829537306030213740634831311697609307, (-432385348841184303487987206077901533155056398979847188534752602502029464482)), (407929727141875712996101661555906754961942275272807972362699903921546120915, 454016409704254986028402022575053535081992059471845096360015237701546614098), ((-592356875501137654625014066025923795177604609502943166015094078085002455019), 2605540597651669200455660007186351333426130466621767920294543442250702343060));
   ((13064702528441278835762225337601620910815732492781586067707854645769362838201, 44370158806937656005411028456868268966481048205506107508812171947598399016712), ((-5927665043397502390900279524191372354610198072760383275912226954971921826232), 32228327357058536516828432479617667117294337787141746109445241146267452671268), (5266343108929613049637797096773503839932091049357809241165302188684351833667, (-22916214613398261359880212018109421372030486613898952562029175380618453857168)));
   (((-2863687033456584956234812825722321297268993463215998554651838071863986271532), (-59427239687956714185423465386216531518774611458947519359221631606233239181832)), ((-2147118488444266537646443455156398762708571607869147111706988248836323748378), 909054976492850529190899326865595957928023913514852135390332266866888804332), ((-419116682009333998351329005460231555073968677343754159623525959471912188263), (-379696373026078425049795524240631945364077136950312682962878476391376743065)));
   ((2451861804839838543561370231709699052634277521953018404845800301177690425292, (-18705652790168441237161593373036877074189458146375276008301377582353228105512)), (13112218387587483177523260257164103992917829707737467299772074270815753160712, 14719711135903471111668301906342699891067608306410580541725248100726801984158), (5733828166853456314351907139166032349376493499740183208934129034309223299807, 14499496902636863383154174028259084139259801544229455253778288036560016837176));
   ((657473946976889047954915773021497038861907326187455373577442230794041179161, 12596418115782358441575734499261903369693644130572054881050441200244919157976), (9296836695222355031472459542799622802182142275381528175728719565385613916728, 31301675224095433104414068746266599880786783103253603414914366030354615086343), ((-5481596811525269184336960873878896890327942490420334248875552477116908333467), (-24315449581758496885885084431318684394492166659805360453227407228281560911217)));
   (((-18755168246083054125491252150023561902035979510600674403682079161119342654191), (-57278424554050847042739189532052029348634715354011858555419955533653211435560)), ((-10833365349873478081357031054542318594452034597605145288101976959674622569829), 11465447302160481995957584332152187613817025312285278156733919043364566193041), (5110362582173391941854653816238609590679621723701264971869302277134615855980, 12664390178476940891611138853756747303612823255091937130811116813794976963418));
   ((32492562573526977433055279718268728994241881075131218358368236261785590356388, 7557949809689325490180194673109336863356116607262540025413331636718640412714), (5886485332034969562450420958348488894369167729811684436174899709933261794254, 12150489476342010208939252620575924423570327723683949527535864112276993192085), ((-13798733040679963859706303003150521771774442254833011705101542706226482473451), (-2687057087972709977984758933395747680651478441848600611308050343842640300561)));
   (((-4891309175677866158811769773294009661818369087943315129550628922385742386595), (-2699577798776723850099812517825446987735885818187301528832882857899796004319)), (1849220956382051225511928061902402489095623882979800336241143527638435328275, 7116714909389905492625881885617662194903733988853107439331280855383851152113), (2400730464596482181685945057875687667788950754607550256427397584672983103608, (-4199710774398364382883817253485902254603496098973535562235211622166009042740)));
   ((6970454814331959892924563266263410865939666023788113907998012803416158485140, (-70193826595292797889190835997585525255273750346316447109082533030283942286072)), ((-1944251643478968989005500391350253361029792803938813461357017115028592602727), 32777537695016699221295168664116658171012218823032436871167897940125151220840), ((-2617304481485098359451426415739330123267612875626602740852606787899285173484), 13176203417701866477178724957166612422387295533919291187698904530473286214816));
   (((-1294660415493907780613201377297400026507843150163804016780368175628453110241), (-433309047057548401291616082898246239784957666473193328938851166185007314754)), (4147986817073014468365615760277046337702414716728639812904103687203393950, 1754686434478981661000973833926145923468661700773381485286963697189832907083), ((-586535546705430886779648922388634365867723297971226349704373313316268016506), 1844686234280950574473280673812139165225988314803908978202065732756372714553));
   (((-11561707656015530283469561652630586787160999433221769812147167192214350371460), 128873817706577078748017442123910688574984585212851271857292411754985771742), ((-595614361422174103342576018473381965324222769356032918208398379303196702307), 5508652993183134047015573638414640736559127386498705661594144665119587398366), ((-567401374197716815557811129450511235771528585499876437313328019241378984245), (-3495367728172979321823503032875580514681639906461578094000215114916333702546)));
   (((-46914396939771762193310175659441781554811588930003211131208497440862960783535), (-5064830341371934567978860948147647796045287455264485110347629818812625544428)), (14675126181560174123232375861714133791057745017476161592094744592046335449675, 24136724842023019022562643789971686034245686336438398381971539073809932911319), (6945009149029015727445382807055789606316545584257743843654507246268666052721, (-11226625560023109947912634512172692864794961287601421751621420328856157418268)));
   (((-13909872646286264260036050946309625624770059434470264314048385759648471117739), (-61195277077778440917410674976855175183585049301141222329656517577527814610536)), ((-4791400396709974805878581630807671489292441246827673199186731900168940763088), 22405286208140348210116227004573405840242410466405653670846400986468860387844), ((-7376870765072140917073523270900213339378562423589715673471074874863450375381), 11204937555357625600196137910782616942717280416687389166439095068059086052832));
   (((-6894911605902064405661929464136966627964168893366003778744000094982260192987), 1990459695131962997443589716131646147893970157138215115806232881943274039948), ((-2722507973985178231190648826941243450769818919270036578601138730109025275891), 32013593871646853968961013631775319016344164052358719725484719219146308633272), (6176898501781768192789403120407128238932017344810512557495559957535626819051, 2985062302877368077433770687325544919824787140690939097354627922521604225501));
   ((20291957024430008904448980320620709976532984956866913960314411564656597510307, (-4817951758848505725028814762027793893640158336552011279193586979463173317864)), (7289699307988351875881775427656141988193686004564813730944478791547146118540, 7537143085666949302177014347854978434860184048224221109128836096331906147600), ((-3658669859430294352727158135850641383881351566056928800225487515080993504994), (-1639501218553397602832084287557626866532793277687080132552324116961068191476)));
   (((-2479475948667926196407707416156681133506081950092446425801996223743694987984), (-12171443845877917018559876798680909645123229685501672933156527425836027158372)), (1677795526188810020595476145335950908648107323862245804357899757612155887485, 16875963792406094432530893756611217235337979769214579980046910722700383946949), (5634268661343991205378058111645277153858705189712930730630119359084618471819, (-6376943439541436228475722633616332575103942579374235065262495040256913845321)));
   ((30684345072952959736523701819159034877381387590112539004899967626692471516689, (-40733212578191713033125546114000046918541319739118491058949413453493381194964)), ((-15318890221407915247087508645482147119568640833598961185224205938140373929751), 18683516191332666155711725962437201785876547937137470830179413655554976854904), (2019411904199593085137354299524618978878629885008351634248189636671042182949, 10583697065602061307189688304506012984228334346754046838885857943485166310055));
   ((4661070326851757967769401659950889640313019253292661364427506120375293686588, 5197161111709750659935761964509218046908666575682733272157867148973164745952), ((-16494351666516114365430990195258461496961734762505066293228870792111913298181), 6560861158055843985149982715163324944824534290836411148059599484333855505100), ((-6043650981593732568107086135827258283765457682319979274483240036608030199959), (-9460245917495226984797666259076991468488645468069075912783282911740937231824)));
   (((-31310299524624654733543819035030058859878798514563542160728570511939080546478), (-30252069907808780276598549033920316987311771885668626526658681426177144221970)), ((-1100481181464233426821169812619450567923811931701098428118732658409611358241), 6926338261289277002613211573647012334250387202911919613620875877634509527774), (16517821080711708948037489923400327661585683400520175783394210284351446180, 7746904883416443970293198369452378023771173125006300487109552090422295231453));
   (((-2387830191470460942007110003554357641532434290029068607529773108253820295548), 9758691552574713937739212669984882521965238808801833839714734181790884992623), (756370958927876233782937365844479628740315552753841521130984395157890299753, 18391641137641119932599600938673706739473395801162775082769645124692411773351), ((-3845068241261490287987319306617932375562755910682796083341331092982217578067), (-7061981254743312529679568689192788723616261352660847843564776858086505014339)));
   (((-46157133112152685413970974108448026321298435561345432357227171388630453617499), 18750400418331521051813746813056824738875795062069188084344626288034787616392), ((-11807261116268523980674831692439721080161086168150339263313591030342507290793), 3740887833882546757497318387584658614146574511179622339897327713966810707602), (11037348113443874882028639810749218059567392180642829823718480198919117545975, 8164212237605058975341137522133862278674240721848803608453134712666449377087));
   ((28203785629154219564765870651849512655923180056265586536629361638396427840156, 30808497887386109580397219698155422218783213692244628965989405507007697035046), (15809663922054830946442753195291101927490483209360259989150193403642115978468, 17229906152613628471904982459171547600324957492160397506650417899565283236713), ((-21628184736285716691977895799162533707382771457573411105150559691456996440649), (-1936736621937817604489550321405458329955231411600597949032373131600256751608)));
   (((-56610937895432283504716085842341336590175854139060675514805659152690472271246), (-57708597361642214293126529784266862950481761743978379919307399002130478315952)), ((-2651611624006417602516703363610660865388235602238993080302450817636863971893), 280341840644774341923409641165999546580983133272589605964712785316441836506), ((-1141057435740566413479753762010778519814664670249255304648401706823555113569), 4223519448558692595354019140662213753513442195099963351082432179473059906799));
   (((-2364051191337991997920191540938487066208595800727153712938659365229429548143), 3309601988954948797037898046524233839708719601546012071896411002384745174602), ((-7150802382435738838475983376404980464663419510283069406230071973408707778961), 12253702895354126760824106233834477453546325796071629858261260681887031920838), (7152746350410482766905784942566423028979004157466204142126064266261077643671, (-5799812717257272261654881820900142267294561119678420945488008561530285111739)));
   ((19189873676494815474716427070570083867187022041379729953125458280972008622644, (-26391810678642768036511917217477494143059522036245392046081000950801897219580)), (2121718128800198042674926680315427723366084000424740071160892365858032567241, 18024606520063309952404998792372396430500975013191249293129478219798931114857), ((-3349512935976971623197161026743991152388445075076980606143525045214004391379), 18151029258495444781203372358634553268340343610037619142161058745723711000932));
   ((23582602953293079247157021588412274204183427104647087420988783664090843305799, 26274825833672267049740040251899416733283232672982578470570453582817163316862), (17144707128960120559355922016453660238926964978292157212757787980051848023600, 8693926799337502875581468975497971703089493208100432247338653771425177609383), ((-14179851300752721688584853320058398669274168314020774534844193580268016915352), (-12364990676737205420752290239096335998977879312941005119158675032367534010575)));
   (((-7790257096155747001781869707335800922597132217952187911105514624011719837923), (-4620466593099325905209375435076694491440578170871137731539129902786157967756)), (4426577926032546071504120831657437701272638075850087388644098869990488839541, 35020791085154415942707044601666473478851488954767597138986431203434618395567), (18628549474826290815712771869494817649598307926105974232659476068134075159048, (-1608628588360151881264281231846386624484263408931592602039479556598366298603)));
   ((45314187027170722555591726611305669250083813651715297254336866241245330143461, (-27035414956143264163357885107307734946845179582208717293085281735331646706758)), (5067104448985955239873163417081855814952069219794691666571345198365141763856, 19349917019272686204629366583158778417941607690113915965790954412674301743190), ((-16706475422738150734174128158989772572505643370012791766909714278418173016595), 6544801895331441156885219939479966083203785426702378420517863342915952650245));
   (((-21549346471935375596957088315264174468502715720062742918863904900373630370602), (-13540843049605504434076496279746240014648111036223155490318710311841552869022)), (6051166431237330465804214517153356944820165332423057693983301033348054290621, 1730637527182752842558397619310039279013281837891058814961703703493157010332), (9504359811535114673670164116315797506331841292961678816558281252169838917968, (-3820333302637480420304533533707125686981832340469659378324269438394079570434)));
   ((4888333696296288044443288689326173876059612497128990828425073215718460613890, 3804288115352966734202074202431230125061436688188126125657695186544828992666), ((-2155860532239416431404397552805920923285087469189644505206732405615411746351), 7401747020665243078826185438253188693231796717451910876206167704105030376690), ((-7384416374166262903697404678179484281531001900918488215265217148620358964138), (-8508569707888945160552740801945323320119762707466672197040724314891574497899)));
   (((-24321299914480130873524368540267173887788112747297666843316193947725806025017), (-37162892440676111579184410322307494532471519288381343836399199831926858402028)), (4426592168316437797357165241383032905899302953652756440451332382298443717114, 14147203668885153293849931240697949034641729564817154257301789538516552617694), (3975877836566234340871592417691286079972533047443009200133616414953729947468, 11123595219611210520288460100081312957391469314881642374128173066530218183000));
   ((14834650781766346955920164072529167630475705089988596097057690029557843519686, 5564797405294785107202203353414572728829978692265328521964287068056895548198), (11280441385977655480298141375086558603786706950798531632734047836663967424538, 12425700690568382465890949285287889961373009579662791738689138450707908610796), (6146745108427866859434278532930389362022401032864746296460871784579553270629, (-12001484732408486223545947480809411796297370097469718472450245693766764795088)));
   ((13636562034301828611155613154773565471314220331294656113993208320722774238401, (-13000847216533544145228525403787180664183711842803653512124787119792671943150)), ((-10601767379867450365329099526744820039935350957052925434185173643970675257588), 22572629318240756483351730450143416957736444681573170995489797533508376657701), ((-3033526206631211500612896364604915368192432290782694826226698106782259089759), 3310330625163483785429612462055125886523101123549998437721694706247491682251))].
Definition bls_quots : list (F2 * F2 * F2) :=
  [((8597384369926665813330385162416803788676910053135971860872528716986458839661833656949525409521766508550894856486306, 3415924990430719073862130567893955656231842818499303965611852440244622959061730127427780723907526892376128134762712), ((-314852626166052813451952675693708255306445747932990904101124869740520633149428980587760422880131074613187501647490), 5857034128988879477632970244409984977000448569008218351399523461479762107611510395838087845771837492032609999335595), ((-3848089755208420488042159516916566835015319552297839083531305659502608963810964011723307957114433736207918479374373), (-1468909265817050366048345872865005628966893950186683531334730083954638582277863454232741686726543801854647071783548)));
   (((-2657843469056843466473755469240592799963616803325726199304552643528374842266374557556971031737869688114912612566614), 728879110127368099127444174253395964126876341277762378512681271508239153431887653699203179997214686428994931700863), (2457738772190220957046086649365007812869318312723382471932841116950018245040800500302368212274785109534131454762893, 924768115479959568986320222306786452721761665669020403302742519048441205074586728235243154716884857778133851302139), (473625319381559289508597541672738643588143791671053366381548145718586117841119393742168414042680778905183847871165, 224188346782327892322421417102655885573728026163741758820101042855116079454071176536006531197730083814923927219328));
   (((-4014095918119165505728483221874133790214961117446901850487621008608009289056286510155354274426716001814440689427740), (-4895619626480575425990689561635550449578460672128719444207450800634750418481186471855597123837832087967600773391932)), (97224519235177027607727167102824253663260436185895824258285378267778519819578151724173168575778959731534441784523, 231647456752752847779355500886911062968185602015672472898410429320242579086171089575070582486206534983760133209989), ((-360525266361392175983810189919619061552561961161124195819180538600725298690747775721912090747583253405903901909980), 4019795093271696515696797846453126914394650592885325281911491048859861885377885699396451082499837398021646089496));
   (((-11678464036066774198505234031324639652649515547824838032127676973837676610942351046310576732725529045767490226485166), (-3106660241379763955419429005474196136722732069356491906747454004131268676962747928909624912646597553059724726268376)), ((-16814022654291605551348968409709194049339240040292277548303967123061207734475400625758645261974558788112724228798), 8868260781406437916755223607597493123570969021679899159113438760595905518416421142500778084220719266026184461899), (208958682255435465187138771604060583167401073061267592048067684074460542998286456039874511872128399921423486276333, 215292482994493068754120562165879914170325114754794660900918724071010235172817795843228168121231621503616472093471));
   (((-157419268448027866166994804230153305433124168031946503576266120960080721386243410804709984300244206655835861034860), 189489900900066979051003138711686793265655564956504727125134265833349081790406940555402236067542562619921927547834), ((-1979916119150674431851792759266752918037430711783054382854095228600192069858132449679449224231290437051287975912344), 2150060397390204527517206855697353490045358800087006591215616439998082784622607728715701278698816261229503640771850), ((-1790301771802532469363086109474656718190667173540804463156464934411667442010018053202774306916494570487966509511161), (-2040785553415633226116711930021646568227730202917365490621688912744143653345283248069770052343831206051835992900212)));
   (((-7074408298923380597632711930418125635916916042964033360461972853389541361826474972862522575199067533275012366732023), (-6135670564164581994337478756654115755901584171868612409134798500458604869139094855054532962647819573889179498877828)), ((-2054291611223628084125980093259604163013185458916249151117042447778438837251879035971072759689724237660701913990030), 1739825040072793372410500997867046580843641189535481499899980396670572549946588798650831311876756239656205577446677), (879134815143556213927631554982144562284332409665882243572263795278031045046069452862047324678886625014752400058747, 2496381331028047686524063307210054926054620040013535908855262015274342185766948973891072330478984140696778542299307));
   ((2131598627515201942122890203070394057052343688979120921732487526103398692614188074120910403412495143114658693831521, 1049899269273903737313089965433010060234377862914400006162189587621008105788283429088233861375132300869399555528728), ((-338286501183278029709128944738790770741132298471803295773523794670268975662048635146342137406414367643562246208180), 172377476328096782567655161251818422377380974801146700430841377878344456312829807387502928386565205516529908921359), (254612388633646143072313532938826132911669073908619362051841681883525222357015643285911846570360932759203229333956, (-412938405490127788211171066265535623103653633328011587510268088007974898926971548395604907030706548480787151261821)));
   ((6660866665724330433270098273937187399332658668278713192402695034825834906365318617549003519883850198630552438496376, 1742373167594418642179355179101821138684946359936568345704605779185713550590665482697887747465591905395007666733090), ((-179239449581434124943365971280438582303534333256054626606791731132101424261131366637858334218725397211739402432221), 2802303525538732385904614540784077163361740231830327336917939636014653808254569169629722022010003227271282180835898), ((-503911705268082977339916025538975638309942453452165055436975199811897676912457136066395185946087213646932932373641), 292697378540855988815245998878966636653068196178228518529850214803844316893422992460462839887252518399461018839362));
   (((-1231212903692990461688693460169720286317513003366275816589739824304216669917040750458988644903865285519523511095045), 101749728653837373894790140849898946591683640747984376848079748355016023511439041680989767385136056205428486269361), (1167311034812068479940474004801293088080753010980083738316956986938756751971649357072295144259803321236182594618222, 3751171936438762890738373765887849191020880070499882779882341744743631610643199804322000570586991908937029825026905), ((-1402085511872908343274720243099892698985791822365217649388671417803323978479237852512302715312689227473181818945443), 1251435495418909234956071952959419276846603193718659895234386274897905342891627122878387603426791382331605995552232));
   ((1205228821032577187554347190115370895140820188670338547334602676214173010448955650251296531979188949864781370464872, 5885266619430592050763630643143637730223036217938131476595621078721259122481038354723090490981496292561425347634762), (1290839941183721807239894996745635727193865504654654992021343923057111948762701326583169970376058426876447178257235, 4225352123166756033685523391221423815475749609609602171299411833886297402832474628052055610229771500798435968527486), (1483661846098204119916878667092874195440881045510901125772745326209627916626903011920523986261263271520017226970030, (-3288203651575118778071697429765784507781968474013176924992523439040038307479758095332995625859669167747778071779169)));
   ((9118091645770940915233063140766138126366118486241188023431515682752813434922154523419937626291177663438502724994456, (-9071574822134978614110399030419439280239450104917409240587737740367685591880905933048499185103618836379709542678944)), (931990415981941636204097796924743961293184266216062230915152915491800945994663902223219208648194245502557556020502, 1486314554947868091641700196874893407676336230319916721755926189816992078502533947751919176276513319309529492671210), ((-539773832950274122820095353067592382579411611062174110894911522154005628671552439721595323428587451397811093235234), 1205496174081115095620775604926580061381167611353587451348538596903923647825801900714302055609633136105044094862751));
   (((-660833250833904396134411986410139105247487256902038284177244192929383795319512974890731827311961132841306987231950), (-3861354190223256756233332124880975287749407216310866949843016981892914282214090660098888041231285876478448851061518)), (3268128074067227289780324060783595647520520872918043126025015477066729461432673323271507140404066062497725023868707, 486478792739265713036535839272757177758463109028858189494660635086866018765520682516973048811902011069768125133496), ((-282954430970171183943165451054571317072771191963223116504458344381042119278739186915648105901785953101892753997380), 26731958093104082180027437314208610246342494639666461864860036428929565016057850813781553421999003297057021763248));
   (((-5226227840483705621519732206113574390104881699057059684743468238920375270169968186821920476352156584592850450284878), (-2142653513002945896546780939018221026339490861428406532755949765520127565541748989637547541522608284800397890320662)), (1451640746463722949848529953436768572700243762579913221322624020076400326947212024297791732734466713552911989382077, 3983047639111257802850612986243135731845680509664983921255584854841708846965397064471970298892399369364658567830336), (200098315426198003973559276567500767354597708708979658824186310240543229107736218401697845692156114504962133102191, (-2086039494689189315398456196430640514280636974097895494736681274247629003932155413448606024926473219525678810246511)));
   (((-1506781071401741186815775224623446661997955131458889328314826566515791001115678017557647833474055492762017046366980), (-16436381439576200610368292132600296787605936715862743901801885086047682734617919842406346599387971712545032985354608)), ((-602932309901700981963825816009063546558237562669614900891880962754781952318859118513754016002950362681955713865750), 280262735360779198483585246600960173504340670575088409986825506204635381387387968698762156304096874868945415756013), (169838180292684878438571216529660393276375300057847439357206051442868052027714709654732472670706955128519120558490, 595164037928920027461770598906497700078429357823894463923229599122877698183337219027837436638429897989860901093051));
   ((6368820792077212449232633407689614570046860464970685697444538230590250712261738505275202510015685292882936911913554, (-10728025467939199264652522805361171051339753931698545875954899609955128490771238773386159912502099330401639917589730)), ((-11850996656425518239084788151107013529897402642454373468726098829403204415817315581714243022215480487611790832688), 4023868178436848171763329491513434701394250889333802280201548440609429560859322850204262469092510219181594589786), ((-163304900447361158673748415821242895849308106356604222293731061204092106512305121121792191946522685797176022065439), 9762468919475943398700652053543651972753296231473634571588265105880988800758148765464711388825127257565936087911));
   (((-3071049126132032575095447121590660152056689220060709757633434154782139735027441752586013584912616478813115193916329), 2766813100237447298411271756576472697265484696983684943930094195693067208041850227526922990741730741233820679576056), (213034175367838764951950874930924936316968066363511604771742337882739696805421836588876651061176973973968805871132, 864362077063383268695038917617313848611379111445500122660479593523392231515160582286937572465208831286998983277460), (93976382543594718342816616563504028407387120730039017632538118784895225978464491387910054598828440668953295577173, 58034767098924119629450355701517634097121945775088883629434586060430121963469066334069762204113034868469474613052));
   (((-3406653480461093977588249911455481523639563257750767682053310813954724366291914143309058222029758118994632277254813), (-777360918495331158738177998295927689508788436414948016444878760163517449114894750730874736191740141456008346855714)), (1254972548856292951225629915903491679443913443879491270878189537836980579986213640126368624421852330049499598315116, 2931355974663940053433490971035064553449776198665529274797858541690953164989457142750687315903393900984441801554075), ((-185506291334065876889298215420953209209386854595933942638832915733381011734427181437069205167853904205891431548634), (-1914109703305728741402392048301570242291484741057006166358061829534830990848122274163798987970971393834915176731841)));
   (((-2092712903781332234161099710131108661850948796474515508414220432459709170538277460809999507581677947545400553672196), (-3872905641877644925505899281145455665316499748172211256380295354926417280876905065631345080449416061686567392712970)), (1029201515554936218956716378367936478140287663195383833799611904442121574531721293708583137879042393878460108465085, 3829264531267123160002426999488902378390431287198661353828340376643020965092353587974384397764807468090935534498381), (2283226689845658149615527134769848805436538664504864794893295082008869275917674830864287283238194823229330381686670, 2552351825035192537705835457004711667441936244808770229862682794716994207384820948656380466253599291887289280502205));
   (((-655620278452629344465607850965102835155204229890400298916477862917247627116722706377365019127886504444871874292456), 855696341112199536799016705071976541611231885330738101188453243033989982165152496196102671653561908637039889850035), ((-330639589856575937005810660576108501086590330651630033334123276640544306700097143951272594880821990121580990189467), 2453241879925577936126172649840781499277607608587218248973723699678346793105649858809904432659426584166963475290407), ((-1653183692994869139809782689719251155654839454586090665358298484444325554217800751704344407536347929206595805476252), (-1838756456257172806710580442054610588948533264624045363852604179435343212372438910819722687247017470002657498568456)));
   (((-2059502713002212344546203798930815020132692615110366530787866691218256761559584957210358795077096158288300512594715), (-1877123811437151265651072582083224104366122814082297747066215554711295565369168119463239669153633876788942542624790)), (398379458082099664874932328876390041243369028465074486062278706543919646416683658914626226335932483546198671241057, 3085625404393424631738242968771251492972551409798708493770072358627251458561018824386704251005014764523503220852831), (1167484624188086910888191322982011914621056640082056603566749672059250322526121388312232166987593172368407454234892, 166153546112746213304523374092885379895050402766558085846059598659093402995358467449294646495548327016807808012360));
   ((1038947727650595844013929933230593134310049471672555640929300113803052552459258602710649725884695803114853092264684, (-5066457971081925650074003891251677963037189111613382313561212682562456575879460413264239365810912656378002784540270)), ((-279324822161990209465617457271840640176028201082282110807424151819038223028372921034433285666985771659335784157640), 314223306289366366520366236905040554823463448549329014898575137958614575649147790169842657048156491201420082054286), ((-421381612401138791726525418525804796809399253482215113750451425614314933517041744081910525510016294921346427139563), 796987598457009442552402301490206277881647490677121339117407566694975951071766909155676155028645948449296897222282));
   (((-1377973133677179289765565127877045293458409280154171138239045953075731571152719122515834645246537277884248800322892), 9404393942055529880887601646924814228309497639273360882751246010740120024854567684832888231812807852476289112302088), (1702678531207365883308006661755857562778789045325483413588402606410237735202542416978926479165910058133709710547890, 5259417315887113363100550774901559976057031802805204679913310628311404653938203176817122123593037193724103175368252), ((-164953042132659756539768381494023156037564275361582543119177496915610304572105853130141448501031753897987101755159), (-804203137736519890289636222217983738176413369322864745067423111426119522378775387954358932954085731567256082548001)));
   (((-123729576963877017568712921630177031777756840290779620110033787090629773913949757268642984444749973275094533388032), 676968281710563348196371489613793589622571623647255286396076822149081769049203320598818297242291894573285172746128), (9104238801663451696139155252519598979843773946658866657867495865522736092457729359903843553252859964310296873102, 95933154471121942855196251091403395702540747789292061576921053655277076697768982805270125781290883870059981654064), (111236802239400547723618363659273022277549806752110938838121600023394166203200918611474139600960317157056353413185, 60282000444693103570985015672026971845282336529319284378052322488355830126751643559199689315304924662929702922718));
   ((2633769155361746573690488827314926827202319253486193439292254008586563889045869483361577884214530821106746381330303, 4020051567094987798912969988117462945066591284301467488682797869290926835544046768119757198920053200341655605866824), ((-1852528377280857611248108975161371051997891013094503645325634181237995299781979501738775557003731736025367699186978), 4819228926094953968688881819848603183171560350462241650165767957978631266802953768511534886569872743811669845147771), (515949769680951892476471913516882436515096671469887137255780935253346202857154277681420409311011900322193218309683, (-2161075169740356477679789234123341278638853843966816112865966124720920748135425200861310382633745783780386088453630)));
   ((5710478357542871457634397306266082796749618287024194469917193393895151067753893364334774150945829929459582196338779, (-1556984246956479817516562309013487327294414605612651395342364916220133096752682996300696520602715024885463984846328)), (1038632322776677044521818213565458022765524362002934868319728645935750268501810426583865405255317776134908849912880, 2807467968813184844730081799074707616149808338755848423756751462631025643603051325033270498310704461407195914917337), ((-823566162367274911821008789281132576663132618774061683321514330072630313845476038219223444010900057277266336190025), (-1722401667931187703713952272131103955364744671722080358437084918719391644209292414329754092961150271311044226705902)));
   (((-3607432064128896078763434076443053778983327720878934912579400267542904769687114556607229049762531106216608658028238), (-14321278330421086399317533127791942178331194508226458467625265804383996605603004573220214548614059546567729873335532)), ((-1979552253505527431495847913660284847883626444567464637890449433074148678891977043606397521821118328430972021093824), 479503826594656640299881750514231307991483002033717215267226689521280804801625015379576924388707573751821291989099), (293471790076851454234905939988625447212723817798487223846604060998460429353893685786740146516927220046784495429670, 760866996232796121173901400811841363572744342103072798941728017513135599604720213926670635682429800183495275359738));
   ((4876103967165795594764441274382067717814547583567724924110559223584488906901968950648666634520538770673292909504927, (-12094708322260924587881677184087751471203615221264346625585671785017179373186060022675060142348208388962266886060912)), ((-3895640550124868929385717325714746410957791330273040760273927719986335785330144308086313105365561391278146048401231), 1157236134934077573448724954064808120255268990313678792782048682001931831024464741492312879470991348571440040317290), ((-3848570155268035130385500201397206084451378122040040352149689788976059650225536421962193065094182850835615226606920), (-765085194203761558921646871833557387256260231602987032056861737124878065969326974173155430967070461963509171587990)));
   (((-13204895393456312252170301066414605990578420542397955888628836506845452288217616737138402530452732334200039227713780), 2274086115391913510155729203385816088380778437465457759134484086324688363092715785723731341618259016983889533682960), ((-1089269980325066389995545273605239066263020930184098528688371043804437953055406513742876159820400322560432964779358), 413304756267589310680350557974718640142361083353849305850750687009555979555153981045693239034619658242124792408747), (2270528828850755515009987669731465514317271615043977061874548989441622658062894757985976281942471899519654216213156, 825168030484266225601693881678901302662922848997476408003757750284554725102293926160171598025565901477491563981692));
   ((3957170935152707997589284104002765614835549392406570520796449561514629860794607782753060372045525653317591424611493, (-2397734295715995540888959859122347106668598875500347480197362357305620171483348015955602819439558999029912770588636)), ((-2219303883790285575738107953045201617970059348808883173074888437130450836178293826952741237437192037986518965310706), 4241269235828362232352357720494851473818537844357052326918478669683208823153902063071191927475085320596527495556202), ((-3045256392943510948580245055196774064410310033361610527160149938311125214636181035193758765533103975768260436190061), 268779242995061564316100336300122980293399708837052904974337722262697346463313175100520334178242016647077471888088));
   (((-1912658879014649756440025719712291491563170411947681056748678347256365000535610567519974571844763576801587856788400), (-3225264009326126603940584304471937230390361513134175153284075995151550532907740650287147652131026965488912825250968)), (1680065982589820218734362640264238589023248136359358308829622778330276187066632124620629320566401732156175137035771, 260943947514324590363808220034180000707179465332828099411543124065131963458053427312894635166630026944321584309862), (289303001010417391431261549675998119326478289368270475176165902437530125063646994595716698517321195720343371053669, (-1479721696838150036099773805891260215898607905458548469058395112464302932868819819444021362902989212823618068013753)));
   ((6238419396474845022643169687953927794057236362649951518651176672406635276656618067996497951992804072501419782842311, (-8830636492754113365330580636260229946622445981310663685061740101245354681787627990846000188570471515509872613648130)), ((-2084560820354822537080244925944280547775657852504729118274065447692222172796128062905399537190559918134454777539065), 5094800108306972122376098323695627207346189941368355527131724429898950834743907160665774448716764953768557034436966), ((-2088011726181280758276556822424371264116470992293777292379774316240228513295001424458745978690700870641956455011666), 1614087527722016824251548776317281521614685875042360352295514587331754410298251509501275162122940944665565426507853));
   (((-349312703818822881102191380121486029488531886112785800049269326573168902413616042290797476172154703184048431402492), 853324199942642190749916242824244859564390877564231145582370909574737816915991246654301875890687158093273905348404), ((-655669833761556982083433560469929406776581904192861458983033318708830649073512466383685813019576181072287127605684), 6259578410402716588447176131685916278227453219354725089355161124410871124404955751365390059853965684945779095338962), ((-423014703917972369754297507685701491245230392345102909000448139490985670391898916293770024153720853156051375648206), 1719671354639295671687024013214206219796996099993841541385562310438839959076071680851935465984678944708570137823838));
   (((-3737279184764229188122614790513226708804319466360089447910223473554717690046820020554889906703468525234156581022354), 5546945387476181299347597726734966061288418124892473946821545956986093349174582494946577346910716108906058654405660), ((-868678214108494459881382377083522540240809178094742246294449166871234026661991978066844036201040551795405213587570), 2047541598611231123314276741838937743282552788408158465496783022235602106763871513637256227366177286034001545176604), (780839227146813089730014402559449668406554592338573431890678404174489005259213668193156419961681206322676388802941, (-1496022576104856838070713170983000721487358392329157285931567216225100064862736319578338937317888539425017739076075)));
   (((-452047734223921979350527522428689191915554394984530753368703685802785774357374160820739920710188078511561027820273), (-4433199678030293804854939054105760391425097918749160164588096960763927680001669714691586888748845973006193921014380)), (175933369320975621513802313095566086361956532605451833349967491849049775577336825298554146249241650513632329098751, 706907020381063090855582046212538172477703060781708358375391195076598371022022519741919123824137939728308528185710), (128718413917565410863072280411309182474933522291931771016127175049117928930398847310439818613555240793176164884463, 1229368873768149095140429379079093649386910044901108061054769043882095973524351473105050753139480478016099762974068));
   (((-2277131254617234460292506100454964264256666802697388425172761538653708224319134517781815661438583853873113859586195), 2711196875721339158719244564948749283519859712261536641125604741908539430165936163766627668817559106898112561482040), ((-1668800916335842240843430894907707249003139777554911197728055259384460781807863666895664454736939467426384708415557), 1186018605602314448394141967183957793481172632926134329044635523953352420539317428006285617702983818503253865344694), (512261062612924359057639740338840099007260485421119843108414339385861125350174797059467130554284996481973623894288, (-2363759248353146476492671551468674780161614069402687361940902065198522538014039702460972850317284923673926353576245)));
   (((-3129139655830140219518453974214634213525729742149390692217659180599560860595651937970398030070350182322099043109650), (-8063706736171082783027303337418984665810693785129550098919413801609970085409645753263565471727138527370893177463996)), (3683333442088661245987435188036420317309685917054408019159705701101083545338200914680055481866830049555044332234529, 1510362543756041810552481414597043920350827633977081040018818224050203646537855598977219655583730840807311494715211), ((-170732827694862416773956936293190906009538742252346780367065130724588718988249813040180239387027045867832398263961), (-1377804545761340319299111019391254866337894064784405920170046220191373720080656993955457023539760559868053468751849)));
   (((-2138044931202876354912064025230053851884663398404501368219272600921772047981740096546200667903810333339577605622291), (-11162463368888657212792710600512811032031544230511656003769728410535178716052862312964326076345074796301248738144372)), (1323922978808752274207166492372692765934009571523173563675358740613580731052032048190172612159674511645641677206676, 4389909516260298610622747278359493628733490248309376396457991561020138260706074168034684473910236334960283226167133), (1870196474871291962374628370674521810913486119598012262139010176323690993267669170625284311128120867738856752974485, 3845409367489279672364256048477641425329107990269003866448321697150166559776830819107624216020273988845817024039478));
   ((936153734725760056570534757445044065082473596066342793249672793632978392411286539006625524509510823428093232881682, 2119969501581161758432576185871427282764393226139680054101438477461952540736759879695350643417804344457168977661944), (1974781362442776742429144300608678220123541022222367222941017795337520289301445720188633917491078165599218255292887, 3444563922155504292154045991929014817230476544046540284695472441056797681112887569692328033111319365194952970258940), ((-1886263264980881687347126953778105040317011227287342702433609530618800448658514558009298382883272738029804771493942), (-690571315732071059753045710956046678987954414993520797701988595292919457162008735434619647710912552592000617093095)));
   (((-5948191424580669087152535202247597949862811808027052586773630771653992718957201567344064813043020588616593388261426), 1255745991065178873274983270099681851201413849986520392905571703993961731740992223888003233983251247579731612178502), ((-954202872962378972430313674255494005376946090198113363179268327369349434239354396861868782257589475218601372388411), 3291768173126601095306136334703731913819914534643727521219440078271832739881386308757221200316365279044883072312398), (2591736161221160582897028222346623803829004754282074414649053076406520607289042312029669852207055168582929150897983, 582041474300958998970441170212701545326046395368409961047662424279545241690720848918058540449591214824192648392686));
   ((5904151073845005860841471187489657567650342780860363914641822213915046877055621076870623079098177513117069731604035, 3451219593510363229168502605857582998391336989527291242995193283915774099275899112844863636392364896523091256392348), (1293863623590338825772260138905061585582111593818214057417625633739977623414767001573591228232142798747838548583828, 5972348789579338675327273747897345792721810192960741391803212992450835091664784784102751038391183799034931704526030), ((-2002514459228069556332758974522046347834946943524181964659308515665398412255604914060349351987920304505382813628176), 1252799207189757222896679552777356320973202724552627364594932026696392722346926327774563823135497970392237814355614));
   (((-2589873057212517509045898912328633099826354274526210070343162032311370201800177369039295924325144896236347372150480), 723071621380777357002249872950559370141095491286863061727363760104092099472997310236241158834695380462003668806772), ((-2876662057239823334031108431477633000185710801820473874521323908744555365726521831231187787894490118840600143433430), 651525108476705127360479186535855807574206497919938440535767344067082175225765657736547476759904508783052614628123), (829927044508862295561539456660165222480150086008041098823699838457545123216984573636504796265869575345159628655938, (-519556415006842390334614444909234477987021091892579567983913156026704771932419021343467114909467858741611841103250)));
   (((-798383065899426648011534493644368588548441696464426274081342115655608874452990426015543184934487586907329725725667), 1308816807274575380395672649716856030551019987826466363512278104031009949719468063727926433000867777005874207427440), (154061015192756052730520566550182242869104860755956472465319996133251961413667023472913221011257501536482179870044, 4409322528387092532262429198354765361787642449341044055070893665242793220437066916721651704766290091395442847896872), (1480407686543359632767041325881870479612147605032061804441427593807759830069386470262483027444066021151452159545844, (-575578755010045157067724955036188253184725014477367488998189519118264905352829580750378109906496661510116167872841)));
   ((7719542591454223679411399197046787270582421209714967782065064209957050706108815769087321816900511704853899252375146, 4008976356761941521337296544320513411022513714258734817616442974808087171882242530679377951921213829508985781997420), ((-3351361718994383425278456017584653626845260674826677550575682882202209616551467370368638504819410946013551049886140), 1854804909556693147735620620671181610745636172996830666654547939929898121131420604457174556150397507931202995368864), ((-712690583094080515530882051128822054996219579338105865431272846575519271672309989962879918592821989080319923009962), (-666392835543393202115042001332590938878458705360892967338903077994345628739244913490273206708058749693110948373440)));
   ((2445628850700355782340362685151490585350382202943761182668287040091824316182964589354899459081779154330188901041655, (-1003408936747978321155397910986727265438381026772338118183789707363238248823239275190023337568868083697153200979208)), ((-3643062301675144171469473446640629342816334084199592850593787990103226620722340120361217804575624493117946658780057), 918999063491693404793091966847419877644528637885900874896556347589126109491911552515859654799349082811803818536417), ((-1532101030768636649495429340062246453296575981641688571832696230280640307896873647819708447268549968381042381141496), (-1167549260593267153069185849286409189958575425778844618061695534433834591036792488625451266021474454192301174088800)));
   (((-2086885668230055472225469262364265165165877604803474939194094739047998262155478681387667378601345165619309695625483), 2718594028469866489968635943577867562294613157447259882355710990367778979065384306001303747840945159186305160069812), ((-1218810867672875064365406809244538489224045071716989395779702714850756679160887798930939867683141875875881024594533), 5878547658185621627152575496989194507074069663856680730720971915758420531411423134547687156762371716505060954906944), ((-1454627606182931114691904096827793185212002400627842622208520679736155119278248347985572777739170119713899711237331), 124441172020581545948720223370472627003826673869466876697013205310544904276856500684330293306400702393013671208974));
   (((-11315706670635985447723542038687181532095590722624279011134931580136620552458303678306334383969241948243488793779817), 4902765359403669592099189590867666729852507562662221166306780885699656441122053129879947115287900487087794215832464), ((-1658362079700445507287342773501419123114745330235451228155110905559062339252306727162798935209499619528252580581938), 2506621436591552796652243556784949757209690147283093398134533727538077971548402358302975148376779192031047267794899), (1003346411201620623578970184533098713976672059838282457846613251083858435842103860618107787429437004508056068102890, 1147341667661374097705896488892262601836211850628798721638317056590982746688546802034004560094960140258881628726042));
   ((45765146314515234020240886131691692611188938851791514655659058148518713770199429056471748877207280952931854552071, 1337710709017885385806316548742065280696587833846251471496928036144918737068269627510853351379880029090093586764744), (996863207385202734932126298400123094690481884139697948164931801072605902006513813755387491208190482088008174545383, 1679688039438123249115735774454383381415006768495963512167114837292650927776517294946867600682605075279699631878069), ((-582318884940494619944603616560895956100418206822675707774444601074360933149700045125617946971431480985963425996927), (-1987921530816560507492962617887597391865300291868223075240398103726481767517299095022963530804667291109757619986981)));
   (((-5465202520807452245202442503409324117101299131816178691215965486187723614519820357594762876908096013033210918486529), (-15086961448995195533794630355091542084545783783127060385409913600966795489968776336094896270267256925302818015947190)), ((-425798709096241535387502685309721866290402797104125972896082729701095059275526605908967894116003417509067771646457), 693089059392665276825938339232514341026859433071579502638870728298862375810579089849117684961861645623656385588336), (374820952731043703122941256860427745786685457900762874273607557442253901012653834158455296218984964259851943017826, 821946458868218309423119360532965972785624267216537712386208034239404939327742553497415794013505792309158020434836));
   ((3746818530024140463711354963896817303127723871479518312417325904893480713447981404976868464898485212309938979785983, (-4805253094867346253939609621958321773934958058194082243798585005017566319949980233351586182660434708401627526112830)), ((-159052413005529233156182437460111311961054986019894652151424975001812714363778366738212949328641913142587911808963), 1251205874504401225925248285794528322520554305283427939071956835462773785901562482842015814685173418736444612190320), ((-661012940582724377962163302904501935481481846802457368056012318095261575032955385851754540989950152989694646253146), 604368924586129777379355809110749408059088137209914742567526049832784406531662728159761267527071888951680868384635));
   (((-5027247265565152045533648752883769647077066971750404938550092646217338793793544244509693870777419648827275221713748), 919985528644634292173122976096049989106578986159127172460604860905301336195521988625334889667247386430175268240848), (31881928328743576549505051883650581007070598387279502115902390550306205438893400517020292284021583211392970313405, 2237950254369164824811988901506406091206645699841902348805161319560661846988917707964774014812742982640714230705010), (1177010940257201611332115606031613494829489912578835533560358466809557714174800953496190629678365068509118492163152, (-111259331090702358876974352438827000770675188917207324049205920661374558565688359181639426668588061415390292547826)));
   ((6636008858952285535148188685622410004365992041672660103754353405269492562343531160402792112412678867833428168025481, 1381872211892088541270400668268988414712461856159617072221346845718402477467379226298667534029574027577932541043500), (1075632625421394718770477523831730138891638300835992976565422829154598074620589508305376358869357907464163362282452, 991119880934772585130191078852770713394384544629049419809701824933772222971498692584050597848339625502369604227612), ((-343613865175299729916822664300933899334498927404311586739798990817860499845077981308897715673215210922860977911757), (-874450177849289096071256772095559829130198539019346293903706180109500016833346268216506212426299664227032301847429)));
   (((-836629671910237596084287659096337562773804578913516657963055732718215567481579729141302060691611856900235562329303), (-750441271995911807067286487209454980468062797822348939847088785556667893540557816233295585120743207595680870705419)), (1425182863093115490426585103179912952542150350268184374512504147704263974592517922698343195176526556609037028736165, 1543787937534203465475346317475153090854164476562844033101913108445849605597859752821748921721018934444302833260121), ((-770141459514113759421909219007776751235656551408919491974385410978163872084177822883445840293218998765578458249621), 167474987410814823494462044926472160964209635495366284111272239862727568827685790324127633588817873231588489775519));
   ((2546799932017995676760480775889089250615064521367496619715665861287826538608766518594461461478963960814726052190155, (-7537300515058708727635161603899320298807259160364978422357684940955729090715775956492021027056773694824846952290870)), ((-1590895474903705517089655312663074922790808346040729444055072257782311877796939590008269487501852813629210160085093), 2286474247487337448383377880663238675980083405734449182655669172320760517118960581203860446449676807397867262425825), ((-1294917494083199444470784449904713399530594751214632039956494005740572546608733358985735229664374091108719850642949), 2682381087239663999656477457307639157842025773971454364174569624040954570645521865723484674188800858668392992467248));
   (((-4771387214964202506737098629220199669203405225101571318273041457207233951105667240370033921676642823609242575345706), 5212135705160357126929701812000007339827196428725052568625836232957813997126787300047388368817975096004312897908348), ((-128217158879880146550458786575611917671233692943674378532032528921595137347711715238899543340123361508967465724754), 3048337010977939789466831017298189343233272095311124040548969988983140978216717274998544230771425295073682526725462), (1503496966907222129566702821235013231986440405297599133423240092588634951993567883541817690872221045499053254020975, (-1487512771356691382710102608716481251416866582536733020050075362340418388125568746261166300763650420669903402217968)));
   ((1802424277576363451315944988627858314792121742007209648756281308814364002232354793948981126866843784956499509536013, (-1126708059340436694282244648788324605712987199437626721558554047453198532430920841790301896500429742774703886540914)), ((-647186437013705529369726829789340795266198713394792118990278833326127267257803670861671399247685122169034661256353), 323539075204353267903496961218265848865878820182460801896878923578453241211979621046720287025867938038993876088626), (165746118502068729580188578969319751036633960885559998869330342449487883610231913974545102301110158400888118892702, (-220156565606186834812529132379936821653468532211486652275853126317174202373133937880401461284073518323640536304794)));
   ((3980231399436585793460226024567305994243009412898970388738406426392288930911385220953745279758337809347305944002816, 1109004757137236064118502099434072496409933851071634521375062873269261812279164398265911504132021944312156905021734), (1143457812690831000453026674208186909416915011905076785445147544476180355877966249818887613758046929016746313569540, 2611610809718442622710815191230448162281206346198363477983679014446354853785782715695390858603332677852402082055882), ((-2146095553746443261783029433183153141119560911827118587992363755270392336161110498286925573559118629728266868043386), 427329984569656459914185047906741249251978969966931482417902970780736784681191435643661346858072019054615253763600));
   (((-3754552208030942826523427851138402013714374508124326679647989982032969655914191170685413929907818770906904298757785), 80993096557950552536361647325181034623448504959468822342382077002537950299904851826784923035097111521124965929152), (3446035101427466105207137758431355341470095095067949353733705046123894365459429450321637727364532518178714961790796, 17585599309981064207668245156867773011700846625924193111214513582374030941027150062719822966497123540297298869845), (1330879562358773555644825155947396108395625491717996407566304002644928615809417893894444184804409508517590415364142, (-309539168141247565339006819774658720792253464887523506103573729198778733653176717933421559023144152029632945313147)));
   ((3182055389598337003678661787213362781114795009766562561352986419196050150789450754263765738019942047972143963855809, (-107209610650374643237034572393199265713429017049134621129889402909556916216634929725470022742714914226903212477110)), (2509733033699631030311789323498747878479182964815754904683212422394540258256880786158162263209686140667307584392107, 1690401007818360835704944662639584176422654763529289542530508297513706867289390373295050032088056188936113726619176), (929577839911984992411036991698846657124235786426808218109620138722566162437884025311080317797308872615766369540164, (-724245120477285097920083927215885064512171884277054721809534537787484222390943160459242490021962212160853477990406)));
   ((8664108234994822371493324581001745709302872090559309515045606152576450867984375980011363674258579940831440466802152, 3434588773569536486323831276580079136341468525439086981996689392767163854286320273611090976163327195055686918653096), (637980562223381146349572501523486993266270569459080263529525115148328739065800961063234271971929361621226781758502, 4110041732341002353661219585052584811626086530884706115936107746662618765704952368837913275563061899742773528594617), ((-3545692921481793672548320860819267007178888031150327434302776645926302875962885632941225751015135562689771701655311), (-198467330254976413136075695660715721597903674138524424990542063218857459890358441142909006872347905232861625079670)));
   (((-8400298671413270385953108143256277517711814638414221337382134835206188856786566825508372853222922093248182601002260), (-234395244771991895821594910871090563438553900252650542905379051788077867467576064386678741827312733145506019328290)), ((-968194977367006216923381429239207903126235005009855776063509358427545199629066982459754940139917885887629106618609), 4107786781218148324296068366173290146289043846669876602015835278522743011318984980551927206674247279537453940565922), (566515691189922578507206363014544660497821908393807514814194691957208978974155084303151495387997943600967154160241, 1227381472228119625497818733700874636428210784167879768123942336363327848983219060681797045127129000954232262576477));
   (((-3005211101835826264534477865027634317094657948906144800117521436040949841015646734707285057308840542790069333481653), 743978867492096145470698412955269346100020981972516306278913915610688733566925888287316379292720909648740383477436), ((-194451557097642055108924583441587929785241493411781219890807014374165180509680598873143646828106983358378715158619), 561231399204770220366548736432615311625336215610441173327923106426086033897378724369875192600178922196916443343931), (398851283213755773543168547957828130692252334916858914555137678858613213016347438579065943366136792330900421693572, 169080303686093401506049757574972574120038112804003510168077127303609063653909338800633117095129525556884481736675));
   (((-934027172255991924540869651090055132586702853230385989540730699509045461341197182944303278168829727458659745432244), 3200071290971254426025627603141240742537108482460472879692721096772591890474640202022395671033059459198451677969670), (2057272181432633350554795804013540019458528926274099937051097426360631626242026626741158843963813213833751828565648, 1334221174689189378205843410275381110587402591251796229640030976512327212941537583667023723405711694547968107173945), (831657783589551514104690183475291767675326562487862357025819158438188404342958007090932799290104123916343571066701, (-1082569240637417967504239666831871389911613428454160232848411582794903654395648920302032883462458939793674644606062)));
   ((2873200034808727318710109196328344539742633994944248558428722474255419822559719222883357835815741004372533581635471, 3301981356102271969849572517363605327336697665307976380356133401975775024614569282269770556564559273094879604661490), ((-2393762372509305797988368812547167619549924763481326299851744283189669122597405065000405496166141862915088583411825), 1917784831794424050270449779072958187547147574656882755524467954604738101635386866072396978167056182482506389471468), ((-1441273091019958496734278757658562922882643787548355503047982659600119947268964420455002774603264273047600088022998), (-860261051554417041782075253650853822586369111043158653899790857001653753956831552307365498743281115069501792137952)));
   (((-3140448588897455976499664035342909105282183118294028121252992038369536269852630004326017918108307291170152173498809), (-907701607840801563017830425280811816991794939090879545886039250854823921074513472495843216642106451705975697354532)), (168382178240655104155699573648406489817841105745148355674725406397287954084146747479936580801234246081028782069163, 758849136531132617402190141894762439674586607790082588492498148825758162440493133703391408898697626996137582831049), ((-701311808725083570203258214135460646132047912396527815601598987539371018575558249385896639273788194316327897983469), (-282313507981285445225196623243993362221378558284737501059179261457412482268038087025016193207118579707467060038471)));
   (((-10252817207881078080321057315645567412998851833976125593060381324698748433995066350672815813832757650046505499391136), (-2486133111898395948017332448499152286728033205689931789613414525537741012817293750918813247318680118609909466105546)), ((-544683178346929530914374591947914247860235646616424518327740238511635352371889373663912287531831713650999539951417), 59709106549291883010256016125877398311300363727576204827983775397981637954801979377731337661093936417967559516700), (509147432098716342759253795230318179819330112691197116687733298059566524168653308164290747767444379186364677919685, 584889623392032003430120411804579293906199195155993561768533869957986383849801608244770690728566317736581198722212));
   ((3455227778761886678532860667696737356581896640534720819485011051276153432228064463644445623619434635294496686752571, (-872534575957547450242403740769821172931014327374724684557906487031507125261946017775164324360361589967593100878908)), ((-854564530003651022363533030993506525290530986622016142775947617633306844358710786954441369217736766223645807232735), 3444238362997026339507443181867938819923780787656815688619237611963649360255595398082987259281730073967741327804106), ((-970414970057956733629563742881664713174595228721869055272606971937818977660421732205738029143640892537769907987788), 411797419726413537120609141599283758498742574164086635992994804657945527303869621445508100867623780696983139501702));
   (((-3793432550846567429948885172304723558999082830659575581331651242254019912278831549752687943516178718218651217440515), (-1790769923341509207363522687335408684208241852160178854412588730995276638869140077125976318058806200185712367612810)), ((-60030052581757231926166701003092941787977260033495028626956973098019635287740426364225704884796959772229035421098), 143380413105019280186881531545779629070411693066964783356480658382435974949816774584106287380946457686955386915206), ((-179725457348481619459698030109176238842537684941282474129987185497415765105730459611799526512649669693310148827194), (-231192743839468349120831843810465295854765931576675717086578838008524187770701621075237159788073838706227080406013)))].

Section Walk.
Variable p : Z.
Notation "x == y" := (eq2 p x y) (at level 70).
Notation eqb := (eq2b p).
Lemma eq2b_iff x y : eqb x y = true <-> x == y.
Proof.
  split; [apply eq2b_ok|]. intros [H1 H2]. unfold eq2b. rewrite andb_true_iff, !Z.eqb_eq. split; assumption.
Qed.
Lemma eq2b_no x y : eqb x y = false -> ~ x == y. Proof. intros H K. apply eq2b_iff in K. congruence. Qed.
Definition same (P Q : G2) : Prop := fst P == fst Q /\ snd P == snd Q.
Definition redp (P : G2) : G2 := (red2 p (fst P), red2 p (snd P)).
Definition tangent_b (P : G2) (lam : F2) : bool := eqb (mul2 (smul2 2 (snd P)) lam) (smul2 3 (mul2 (fst P) (fst P))).
Definition chord_b (P Q : G2) (lam : F2) : bool := eqb (mul2 (sub2 (fst Q) (fst P)) lam) (sub2 (snd Q) (snd P)).
Definition small_nz (d : Z) : bool := (0 <? Z.abs d) && (Z.abs d <? p).
Definition differ (x y : F2) : bool := (small_nz (fst x - fst y) || small_nz (snd x - snd y))%bool.
Definition vanish (x q : F2) : bool := same2 (sub_mult p x q) zero2.
Definition sum_h (lam : F2) (P Q : G2) (qx qy : F2) : G2 :=
  let x3 := sub_mult p (sub2 (sub2 (mul2 lam lam) (fst P)) (fst Q)) qx in
  (x3, sub_mult p (sub2 (mul2 lam (sub2 (fst P) x3)) (snd P)) qy).
Definition tangent_h (P : G2) (lam q : F2) : bool :=
  vanish (sub2 (mul2 (smul2 2 (snd P)) lam) (smul2 3 (mul2 (fst P) (fst P)))) q.
Definition chord_h (P Q : G2) (lam q : F2) : bool :=
  vanish (sub2 (mul2 (sub2 (fst Q) (fst P)) lam) (sub2 (snd Q) (snd P))) q.
Fixpoint walk (Q : G2) (ds : list Z) (T : G2) (hs : list F2) (qs : list (F2 * F2 * F2)) : option (G2 * list F2) :=
  match ds with
  | [] => Some (T, hs)
  | d :: ds =>
    match hs, qs with
    | lam :: hs, (qt, qx, qy) :: qs =>
      if negb (differ (snd T) zero2) || negb (tangent_h T lam qt) then None else
      let D := sum_h lam T T qx qy in
      if d =? 0 then walk Q ds D hs qs else
      if negb ((d =? 1) || (d =? -1)) then None else
      match hs, qs with
      | mu :: hs, (qt, qx, qy) :: qs =>
        let R := if d =? 1 then Q else neg_pt Q in
        if negb (differ (fst D) (fst R)) || negb (chord_h D R mu qt) then None else walk Q ds (sum_h mu D R qx qy) hs qs
      | _, _ => None
      end
    | _, _ => None
    end
  end%bool.
Lemma differ_no x y : differ x y = true -> ~ x == y.
Proof.
  assert (K : forall d, small_nz d = true -> d mod p <> 0).
  { intros d H E. unfold small_nz in H. apply andb_prop in H as [H1 H2]. apply Z.ltb_lt in H1, H2.
    assert (P0 : p <> 0) by lia. apply Z.mod_divide in E; [|exact P0]. destruct E as [k E]. rewrite E, Z.abs_mul in H1, H2. assert (Z.abs k <> 0) by (intros Z0; rewrite Z0 in H1; lia). nia. }
  intros H [E1 E2]. assert (P0 : p <> 0).
  { intros Z0. unfold differ, small_nz in H. rewrite Z0 in H. apply orb_prop in H as [H|H]; apply andb_prop in H as [H1 H2]; apply Z.ltb_lt in H1, H2; lia. }
  unfold differ in H. apply orb_prop in H as [H|H]; apply K in H; apply H; rewrite Zminus_mod;
    [rewrite E1|rewrite E2]; rewrite Z.sub_diag; apply Z.mod_0_l; exact P0.
Qed.
Lemma vanish_ok x q : vanish x q = true -> x == zero2.
Proof. intros H. apply same2_ok in H. rewrite <- H. symmetry. apply sub_mult_ok. Qed.
Lemma sub_zero x y : sub2 x y == zero2 -> x == y.
Proof.
  intros H. assert (E : x = add2 (sub2 x y) y) by (destruct x, y; unfold sub2, add2; apply pair_eq; ring).
  rewrite E, H. destruct y. unfold add2, zero2. cbn. reflexivity.
Qed.
Lemma same_red P Q : same P Q -> same P (redp Q).
Proof. intros [H1 H2]. split; cbn [fst snd redp]; [rewrite H1|rewrite H2]; symmetry; apply red2_eq. Qed.
Lemma same_tangent P Q lam : same P Q -> tangent_b Q lam = true -> tangent p P lam.
Proof. intros [H1 H2] H. apply eq2b_iff in H. unfold tangent. rewrite !smul2_mul in *. rewrite H1, H2. exact H. Qed.
Lemma same_chord P P' Q Q' lam : same P P' -> same Q Q' -> chord_b P' Q' lam = true -> chord p P Q lam.
Proof. intros [H1 H2] [H3 H4] H. apply eq2b_iff in H. unfold chord. rewrite H1, H2, H3, H4. exact H. Qed.
Lemma same_sum P P' Q Q' lam : same P P' -> same Q Q' -> same (sum_by lam P Q) (sum_by lam P' Q').
Proof. intros [H1 H2] [H3 H4]. unfold sum_by. split; cbn [fst snd]; rewrite H1, ?H2, H3; reflexivity. Qed.
Lemma same_refl P : same P P. Proof. split; reflexivity. Qed.
Lemma same_tangent_h P Q lam q : same P Q -> tangent_h Q lam q = true -> tangent p P lam.
Proof. intros [H1 H2] H. apply vanish_ok, sub_zero in H. unfold tangent. rewrite !smul2_mul in *. rewrite H1, H2. exact H. Qed.
Lemma same_chord_h P P' Q Q' lam q : same P P' -> same Q Q' -> chord_h P' Q' lam q = true -> chord p P Q lam.
Proof. intros [H1 H2] [H3 H4] H. apply vanish_ok, sub_zero in H. unfold chord. rewrite H1, H2, H3, H4. exact H. Qed.
Lemma same_sum_h P P' Q Q' lam qx qy : same P P' -> same Q Q' -> same (sum_by lam P Q) (sum_h lam P' Q' qx qy).
Proof.
  intros [H1 H2] [H3 H4]. unfold sum_by, sum_h. split; cbn [fst snd]; rewrite !sub_mult_ok, H1, ?H2, H3; reflexivity.
Qed.
Lemma walk_ok Q ds : forall T T2 hs qs T2' hs', walk Q ds T2 hs qs = Some (T2', hs') -> same T T2 ->
  exists T' ls, steps p Q ds T T' ls /\ same T' T2'.
Proof.
  induction ds as [|d ds IH]; intros T T2 hs qs T2' hs' H S; cbn [walk] in H.
  - injection H as <- <-. exists T, []. split; [constructor|exact S].
  - destruct hs as [|lam hs]; [discriminate|]. destruct qs as [|[[qt qx] qy] qs]; [discriminate|].
    destruct (differ (snd T2) zero2) eqn:E0; [|discriminate]. cbn [orb negb] in H.
    destruct (tangent_h T2 lam qt) eqn:E1; [|discriminate]. cbn [negb] in H.
    assert (N0 : ~ snd T == zero2). { intros K. apply (differ_no _ _ E0). rewrite <- (proj2 S). exact K. }
    pose proof (same_tangent_h _ _ _ _ S E1) as T1. pose proof (same_sum_h _ _ _ _ lam qx qy S S) as SD.
    set (D2 := sum_h lam T2 T2 qx qy) in *. destruct (Z.eqb_spec d 0) as [->|Nd].
    + destruct (IH _ _ _ _ _ _ H SD) as (T' & ls & H1 & H2). exists T', (line_by lam T :: ls). split; [|exact H2].
      apply steps_zero; assumption.
    + destruct ((d =? 1) || (d =? -1))%bool eqn:Ed; [|discriminate]. cbn [negb] in H.
      destruct hs as [|mu hs]; [discriminate|]. destruct qs as [|[[qt' qx'] qy'] qs]; [discriminate|].
      set (R := if d =? 1 then Q else neg_pt Q) in *.
      destruct (differ (fst D2) (fst R)) eqn:E2; [|discriminate]. cbn [orb negb] in H. destruct (chord_h D2 R mu qt') eqn:E3; [|discriminate]. cbn [negb] in H.
      destruct (IH _ _ _ _ _ _ H (same_sum_h _ _ _ _ mu qx' qy' SD (same_refl R))) as (T' & ls & H1 & H2).
      exists T', (line_by lam T :: line_by mu R :: ls). split; [|exact H2].
      apply steps_add; try assumption.
      * apply orb_true_iff in Ed. rewrite !Z.eqb_eq in Ed. exact Ed.
      * intros K. apply (differ_no _ _ E2). rewrite <- (proj1 SD). exact K.
      * exact (same_chord_h _ _ _ _ _ _ SD (same_refl R) E3).
Qed.
Lemma same_trans P Q R : same P Q -> same Q R -> same P R.
Proof. intros [H1 H2] [H3 H4]. split; [rewrite H1; exact H3|rewrite H2; exact H4]. Qed.
Lemma same_sym P Q : same P Q -> same Q P.
Proof. intros [H1 H2]. split; symmetry; assumption. Qed.
(** Ends of the two loops. *)
Definition bn_walk (ds : list Z) (Q : G2) (hs : list F2) (qs : list (F2 * F2 * F2)) : bool :=
  match walk Q ds Q hs qs with
  | Some (T, mu :: nu :: _) =>
    let Q1 := redp (bn_q1 Q) in let Q2 := redp (bn_q2 Q) in let R := redp (sum_by mu T Q1) in
    negb (eqb (fst T) (fst Q1)) && chord_b T Q1 mu && negb (eqb (fst R) (fst Q2)) && chord_b R Q2 nu
  | _ => false
  end.
Lemma bn_walk_ok ds Q hs qs : p = bn256_fq_p -> bn_walk ds Q hs qs = true -> exists ls, bn_ate_lines p ds Q ls.
Proof.
  intros E H. unfold bn_walk in H. destruct (walk Q ds Q hs qs) as [[T2 [|mu [|nu hs']]]|] eqn:EW; try discriminate.
  destruct (walk_ok Q ds Q Q hs qs T2 _ EW (same_refl Q)) as (T & l1 & S1 & S2).
  rewrite !andb_true_iff, !negb_true_iff in H. destruct H as [[[C1 C2] C3] C4].
  destruct (bn_twist_gen p Q E) as [A1 A2]. fold (same (bn_q1 Q) (twist_frobenius p bn_xi Q)) in A1.
  fold (same (bn_q2 Q) (neg_pt (twist_frobenius p bn_xi (twist_frobenius p bn_xi Q)))) in A2.
  pose proof (same_red _ _ (same_sym _ _ A1)) as B1. pose proof (same_red _ _ (same_sym _ _ A2)) as B2. clear A1 A2.
  set (q1 := redp (bn_q1 Q)) in *. set (q2 := redp (bn_q2 Q)) in *. clearbody q1 q2.
  set (Q1 := twist_frobenius p bn_xi Q) in *. set (Q2 := neg_pt (twist_frobenius p bn_xi Q1)) in *.
  exists (l1 ++ [line_by mu Q1; line_by nu Q2]), T, l1, mu, nu. split; [exact S1|]. cbv zeta. fold Q1. fold Q2. clearbody Q1 Q2.
  split; [intros K; apply (eq2b_no _ _ C1); rewrite <- (proj1 S2), <- (proj1 B1); exact K|].
  split; [exact (same_chord _ _ _ _ _ S2 B1 C2)|].
  pose proof (same_red _ _ (same_sum _ _ _ _ mu S2 B1)) as S3.
  split; [intros K; apply (eq2b_no _ _ C3); rewrite <- (proj1 S3), <- (proj1 B2); exact K|].
  split; [exact (same_chord _ _ _ _ _ S3 B2 C4)|reflexivity].
Qed.
Definition bls_walk (ds : list bool) (Q : G2) (hs : list F2) (qs : list (F2 * F2 * F2)) : bool :=
  match walk Q (map (fun b : bool => if b then 1 else 0) ds) Q hs qs with
  | Some (T, lam :: _) => negb (eqb (snd T) zero2) && tangent_b T lam
  | _ => false
  end.
Lemma bls_walk_ok ds Q hs qs : bls_walk ds Q hs qs = true -> exists ls, bls_ate_lines p ds Q ls.
Proof.
  intros H. unfold bls_walk in H. destruct (walk Q (map (fun b : bool => if b then 1 else 0) ds) Q hs qs) as [[T2 [|lam hs']]|] eqn:EW; try discriminate.
  destruct (walk_ok Q _ Q Q hs qs T2 _ EW (same_refl Q)) as (T & l1 & S1 & S2).
  rewrite !andb_true_iff, !negb_true_iff in H. destruct H as [C1 C2].
  exists (l1 ++ [line_by lam T]), T, l1, lam. split; [exact S1|].
  split; [intros K; apply (eq2b_no _ _ C1); rewrite <- (proj2 S2); exact K|].
  split; [exact (same_tangent _ _ _ S2 C2)|reflexivity].
Qed.
End Walk.
Lemma bn_gen_walk : bn_walk bn256_fq_p bn_digits bn_gen bn_slopes bn_quots = true. Proof. vm_compute. reflexivity. Qed.
Lemma bls_gen_walk : bls_walk bls12_381_fq_p bls_digits bls_gen bls_slopes bls_quots = true. Proof. vm_compute. reflexivity. Qed.
Lemma bn_gen_lines : exists ls, bn_ate_lines bn256_fq_p bn_digits bn_gen ls.
Proof. exact (bn_walk_ok bn256_fq_p bn_digits bn_gen bn_slopes bn_quots eq_refl bn_gen_walk). Qed.
Lemma bls_gen_lines : exists ls, bls_ate_lines bls12_381_fq_p bls_digits bls_gen ls.
Proof. exact (bls_walk_ok bls12_381_fq_p bls_digits bls_gen bls_slopes bls_quots bls_gen_walk). Qed.

(** ** e(P, Q) e(-P, Q) = 1 *)
Section Real.
Variable w : Z.
Variable xi : F2.
Add Ring F6r : (F6_ring xi).
Add Ring F12r : (F12_ring xi).
Notation mul := (mul12 xi).
Notation "x == y" := (eq12 w x y) (at level 70).
Ltac rg := apply eq_subrelation; [typeclasses eauto|ring].
Definition real (f : F12) : Prop := conj12 f = f.
Lemma conj_mul12 f g : conj12 (mul f g) = mul (conj12 f) (conj12 g).
Proof. destruct f as [f0 f1], g as [g0 g1]. unfold conj12, mul12. apply pair_eq; ring. Qed.
Lemma real_mul f g : real f -> real g -> real (mul f g).
Proof. intros H K. unfold real. rewrite conj_mul12, H, K. reflexivity. Qed.
Lemma conj_conj12 f : conj12 (conj12 f) = f.
Proof. destruct f as [f0 f1]. unfold conj12. apply pair_eq; [reflexivity|ring]. Qed.
Lemma real_norm f : real (mul f (conj12 f)).
Proof. unfold real. rewrite conj_mul12, conj_conj12. ring. Qed.
Lemma real_neg f : real f -> real (neg12 f).
Proof. unfold real. intros H. rewrite <- H at 2. destruct f as [f0 f1]. unfold conj12, neg12. apply pair_eq; ring. Qed.
Lemma real_one : real one12. Proof. reflexivity. Qed.
Lemma real_conj f : real f -> real (conj12 f). Proof. unfold real. intros H. rewrite !H. reflexivity. Qed.
Lemma real_pow f e m : prime w -> (forall x, pow12 xi x (w ^ 6) == conj12 x) -> (exists y, mul f y == one12) -> real f ->
  0 <= m -> e = (w ^ 6 - 1) * m -> pow12 xi f e == one12.
Proof.
  intros P p6 [y E] R L ->. pose proof (prime_ge_2 _ P) as W2. assert (L6 : 0 <= w ^ 6 - 1) by nia.
  assert (F : pow12 xi f (w ^ 6) == f) by (rewrite p6, R; reflexivity).
  assert (G : pow12 xi f (w ^ 6 - 1) == one12).
  { transitivity (mul (pow12 xi f (w ^ 6)) y).
    - replace (w ^ 6) with (1 + (w ^ 6 - 1)) at 2 by ring. change (pow12 xi) with (@pw F12 one12 (mul12 xi)).
      rewrite (pw_add (F12_ring xi)) by lia. rewrite (pw_1 (F12_ring xi)).
      set (q := pw f (w ^ 6 - 1)). clearbody q. transitivity (mul one12 q); [rg|]. rewrite <- E. rg.
    - rewrite F. exact E. }
  change (pow12 xi) with (@pw F12 one12 (mul12 xi)) in *. rewrite (pw_mul (F12_ring xi)) by lia.
  assert (K : forall a b n, a == b -> 0 <= n -> @pw F12 one12 (mul12 xi) a n == @pw F12 one12 (mul12 xi) b n).
  { intros a b n Hab Ln. pattern n. apply natlike_ind; [reflexivity| |exact Ln].
    intros x Hx IH. rewrite !pw_succ by lia. rewrite IH, Hab. reflexivity. }
  etransitivity; [apply K; [exact G|exact L]|]. rewrite (pw_one (F12_ring xi)). reflexivity.
Qed.
End Real.
Lemma bn_line_neg c x y : bn_line c (x, - y) = neg12 (conj12 (bn_line c (x, y))).
Proof.
  destruct c as [[c0 c1] c2]. unfold bn_line, conj12, neg12, neg6. cbn [fst snd]. rewrite !smul2_mul.
  replace (- y, 0) with (neg2 (y, 0)) by (unfold neg2; apply pair_eq; ring). repeat apply pair_eq; ring.
Qed.
Lemma bls_line_neg c x y : bls_line c (x, - y) = conj12 (bls_line c (x, y)).
Proof.
  destruct c as [[c0 c1] c2]. unfold bls_line, conj12, neg6. cbn [fst snd]. rewrite !smul2_mul.
  replace (- y, 0) with (neg2 (y, 0)) by (unfold neg2; apply pair_eq; ring). repeat apply pair_eq; ring.
Qed.
Definition opposite (x y : Z) (cs : list F6) : list ((Z * Z) * list F6) := [((x, y), cs); ((x, - y), cs)].
Lemma bn_lines_real x y cs j : real (lines bn_xi bn_line (opposite x y cs) j).
Proof.
  cbn [lines opposite]. rewrite bn_line_neg. set (l := bn_line _ _). clearbody l. unfold real.
  rewrite !conj_mul12. destruct l as [l0 l1]. unfold one12, conj12, neg12, mul12.
  Add Ring F6bn : (F6_ring bn_xi). apply pair_eq; ring.
Qed.
Lemma bls_lines_real x y cs j : real (lines bls_xi bls_line (opposite x y cs) j).
Proof.
  cbn [lines opposite]. rewrite bls_line_neg. set (l := bls_line _ _). clearbody l. unfold real.
  rewrite !conj_mul12. destruct l as [l0 l1]. unfold one12, conj12, mul12.
  Add Ring F6bls : (F6_ring bls_xi). apply pair_eq; ring.
Qed.
Lemma bn_miller_real ds x y cs : real (fst (bn_miller ds (opposite x y cs))).
Proof.
  unfold bn_miller. set (ts := opposite x y cs).
  assert (K : forall b f j, real f -> real (fst (bn_steps_from ts b (f, j) ds))).
  { induction ds as [|d ds IH]; intros b f j H; cbn [bn_steps_from]; [exact H|].
    unfold bn_step. destruct (d =? 0), b; apply IH; repeat first [assumption|apply bn_lines_real|apply real_mul]. }
  specialize (K true one12 0%nat real_one). destruct (bn_steps_from ts _ _ _) as [f j]. cbn [fst] in *.
  repeat first [assumption|apply bn_lines_real|apply real_mul].
Qed.
Lemma bls_miller_real ds x y cs : real (fst (bls_miller ds (opposite x y cs))).
Proof.
  unfold bls_miller. set (ts := opposite x y cs).
  assert (K : forall f j, real f -> real (fst (fold_left (bls_step ts) ds (f, j)))).
  { induction ds as [|d ds IH]; intros f j H; cbn [fold_left]; [exact H|].
    unfold bls_step at 2. destruct d; apply IH; repeat first [assumption|apply bls_lines_real|apply real_mul]. }
  specialize (K one12 0%nat real_one). destruct (fold_left (bls_step ts) _ _) as [f j]. cbn [fst] in *.
  apply real_conj. repeat first [assumption|apply bls_lines_real|apply real_mul].
Qed.

