(** The concrete moduli are prime.  The constants are those of the pairing
    crates the project depends on (halo2_proofs::pairing::bn256 and the
    bls12_381 code in /repo/src/utils.rs tests); the certificates were produced
    by an untrusted factoring script and are checked here by computation. *)
From Verif Require Import Prelude Pocklington.

Lemma prime_1637 : prime 1637. Proof. apply trial_ok. vm_cast_no_check (eq_refl true). Qed.
Lemma prime_853 : prime 853. Proof. apply trial_ok. vm_cast_no_check (eq_refl true). Qed.
Definition hy_639533339 : list Z := [0; 0; 0; 0; 0; 0; 112672146; 0; 541547996; 227235585; 1; 147871872].
Definition hf_639533339 : list Z := [96851492; 223506056; 103886036; 314681730; 332368330; 242225274; 572623278; 84591911; 469075630; 51423588; 184149217; 75359704; 33815864; 141891806; 11837596].
Definition hz_639533339 : list Z := [507913234; 7692877; 520143836; 187572527; 424272271; 527587850; 147978686; 261886318; 3736775; 148807713; 37950679; 156111814; 59914396; 292943582].
Definition hq_639533339 : list qh := [(853, 1, [507913234; 7692877; 520143836; 187572527; 354404942; 525845277; 124507983; 87201989; 32483561; 147367522; 440079875; 533839613; 34355526; 316452586; 482433106])].
Lemma prime_639533339 : prime 639533339.
Proof.
  apply (pocklington2 _ 2 hy_639533339 hf_639533339 1637 1 hz_639533339 hq_639533339); [vm_cast_no_check (eq_refl true)|].
  apply Forall_cons; [exact prime_1637|]. apply Forall_cons; [exact prime_853|]. apply Forall_nil.
Qed.
Definition hy_65865678001877903 : list Z := [0; 0; 0; 0; 0; 0; 0; 4811499094384; 17211256487011155; 12930852755642900; 13235593593922684; 0; 22959468805616302; 0; 53274365038912886; 1; 575084049936949; 20337008570530909; 17909831465362696; 8957812574859433; 19982056655505539; 182767627022369; 95778260879514; 1; 21989241239295389; 0; 6492325303965923; 45322285505446117; 63288597996882220; 30608288383751529; 0; 21570288074556196; 2052153612894387; 1; 13656337543951966].
Definition hf_65865678001877903 : list Z := [1121638219535948; 5612054531243013; 49272871693409161; 426470486169982; 5259093418759782; 3585931294155095; 29039037011862199; 35635434184421551; 63791688952762989; 40002140595916967; 57025191431651969; 4270546016108860; 51896123270387331; 5485567026732897; 9611470876657096; 5350194041969359; 28442793311971879; 406908343749735; 4684008398454788; 46458408286782710; 1765544575825524; 15757161600212; 2286816488902135; 55555497738486739; 40057151456145759; 18805961086870182; 26498279738793255; 22456438028403256; 3745239219771056; 17601064792557961; 62465572167997396; 778313152257439; 16595046700215247; 5742637791927834; 31494405804500891; 7125586537081813; 55804294176725281; 49359749193896012; 2978180442825847; 40033264313372528; 2203555839839122].
Definition hz_65865678001877903 : list Z := [].
Definition hq_65865678001877903 : list qh := [].
Lemma prime_65865678001877903 : prime 65865678001877903.
Proof.
  apply (pocklington2 _ 2 hy_65865678001877903 hf_65865678001877903 639533339 1 hz_65865678001877903 hq_65865678001877903); [vm_cast_no_check (eq_refl true)|].
  apply Forall_cons; [exact prime_639533339|]. apply Forall_nil.
Qed.
Definition hy_13818364434197438864469338081 : list Z := [0; 0; 0; 0; 0; 0; 5; 1; 3014698192670529509244424516; 0; 884363669090863434061195624; 2563291666511285396685562157; 0; 666143645808619438670563865; 0; 2161914732453046151362086970; 463013859354695514139124629; 14032855247567947294659998; 700974893036921157766940887; 1; 8571759601582902866370189423; 0; 177442666977171268995158131; 17433735933106304079783531; 1; 945686430957463357797433800; 3474059279683071211899348013; 3245432489987611769912184118; 1; 4424728726368345116139345134; 7338807080283696779741952602; 0; 1054195553459691712114827947; 1; 8106338909904167689167892180; 0; 274705599358989201090276; 13589480510090179710026265941; 0; 10229149557443025403805724764; 3245425016279739676961324794; 0; 5996009746119188294764522344; 4624403104769690972397348741; 12375866806841661028364915781; 43646702781833428882705256; 0; 34685572868172718843708685; 6003843200305748308873229536; 13296058849542891426351952643; 7023287948338256667858150105; 9530329830701529986281943625].
Definition hf_13818364434197438864469338081 : list Z := [4556884203790953644048480649; 5017657867678860257462704564; 2626658154666458512022102589; 6235455413640637301026581811; 12148439916717187945993007246; 12292607985911379118920501901; 3227929667924232023739200777; 6282347664290678482172820614; 879999424871565427703033557; 2197877579159553238824627821; 5823353613936214452629922993; 12318834183271586178204503029; 218066780238875881708645688; 375489476416926927519801274; 7913059196821277262825356721; 9707709772458610131767890683; 1427181835548658164227207531; 5068570390649222222447822820; 6208243277799203197439006991; 7846986668837679889618568807; 9640372273245219505906826722; 4232418328815130299746654555; 1210080557208763680525159596; 2969750500085756279170655275; 1109055515733298309438705; 494339535377795531552937444; 1155513444986667017935628325; 7430160050756767463919612841; 3765259175111960399778577035; 5176402487340607091201894021; 776027583842131564554195909; 4383902044145152776301274455; 10660309049614580476033707195; 41053714139785103145534241; 6503711526842239666776851284; 5759109270696129881246703817; 7692654319156573966798222008; 4588823360639311893639651885; 712834170252007700279149200; 11277697636925491626123609344; 6894810689246460346796757791; 376660300561203939319250238; 5145553972584220841260386703; 6241283026006494625360125555; 3909398619257669835214187983; 9144376109008709814932628929; 4120599904576697068930787866; 7971741213603122672321489891; 4520553294387153840190844953; 255347119878347713289285475; 3766904424235236668690114342; 5080565997746519261641650059; 12049782734103079186712343744; 3762405420424563936962765370; 8162792658097975055380754810; 471428557447292700283853517; 637796668980676221542498; 5496380835655396344463637913; 2486550643226126051195222874; 4038791758188599709026623487; 2364435928482029727391501744; 6280386855539157330383867780; 3478086896138170026909664475; 6702650521794682898868994983; 688184901375131755302615449; 6561976397748665609295550381; 706351639730284556117162526; 3997114070369800377347964494; 676687891952362932159807334; 1078013469197015318761326081; 2823370130928126115010642214; 4207146032464250442699538742; 6742851248411215048459293869; 2394195495074076269275954810; 2670737281591122951914177504; 6163454577781994231476112614; 5472251716154324542910593800; 3765483389889942359474483577; 6401066542102789263873037327].
Definition hz_13818364434197438864469338081 : list Z := [].
Definition hq_13818364434197438864469338081 : list qh := [].
Lemma prime_13818364434197438864469338081 : prime 13818364434197438864469338081.
Proof.
  apply (pocklington2 _ 2 hy_13818364434197438864469338081 hf_13818364434197438864469338081 65865678001877903 1 hz_13818364434197438864469338081 hq_13818364434197438864469338081); [vm_cast_no_check (eq_refl true)|].
  apply Forall_cons; [exact prime_65865678001877903|]. apply Forall_nil.
Qed.
Lemma prime_93001 : prime 93001. Proof. apply trial_ok. vm_cast_no_check (eq_refl true). Qed.
Lemma prime_661 : prime 661. Proof. apply trial_ok. vm_cast_no_check (eq_refl true). Qed.
Definition hy_12048837557 : list Z := [0; 0; 0; 0; 0; 23361; 0; 1439800116; 56010071].
Definition hf_12048837557 : list Z := [1870218883; 3465634398; 2010625881; 737881852; 1411553568; 7779489238; 3011350981; 4343901025; 6985631890; 8961066522; 2953073581; 11270979783; 4611961945; 3811507752; 5534154801; 2860231872; 2742597457; 4432669750; 5018995671; 49987386; 24083522; 167780394; 3317483033; 2136285297].
Definition hz_12048837557 : list Z := [7200333683; 6976096726; 6554374640; 1369190469; 6792320543; 3591301559; 4607932241; 2143554363; 169096855; 3268472862; 5902303712; 1349123826; 900747188].
Definition hq_12048837557 : list qh := [(661, 1, [7200333683; 6976096726; 6554374640; 1369190469; 6993352157; 4746376791; 4550122; 1620280646; 636349209; 3646048306; 766066262; 1493149496; 1548447319; 9996177; 2001240499; 6633242984; 9649327563; 2007586995; 11686954864; 8729082110; 9160571; 8429539591; 991622471; 1314760262])].
Lemma prime_12048837557 : prime 12048837557.
Proof.
  apply (pocklington2 _ 2 hy_12048837557 hf_12048837557 93001 1 hz_12048837557 hq_12048837557); [vm_cast_no_check (eq_refl true)|].
  apply Forall_cons; [exact prime_93001|]. apply Forall_cons; [exact prime_661|]. apply Forall_nil.
Qed.
Definition hy_5156902474397 : list Z := [0; 0; 0; 0; 0; 0; 873; 0; 2045119142008; 1; 2871755203662; 4951325238643].
Definition hf_5156902474397 : list Z := [4369150446462; 4605743306237; 1018672198500; 2575462907225; 135601785514; 443732931357; 1171932332389; 365127773534; 3439159853927; 3080175724160; 1176144808748; 2421878289748; 3954785533653; 853522610811; 3025003284539; 1616150624214; 4635425388923; 4253963980711; 272807969526; 4586425455909; 601449376933; 2413620445116; 62832713746; 176276279244; 3623900179975; 216501551336; 1413214248302; 1707345295202; 3444018970921; 2310361631121; 779767962901; 928733794385; 888601500861; 1309698949379; 4661863137560; 2836412097932; 1098077606457; 856954590666; 3906228154820; 4069821359763; 1103373106199; 990972431638; 3122911189830; 4737180105883; 2085029806743; 444435663950; 2200830814060; 1406937929298; 4051014018134; 3008221664621; 3753924555033].
Definition hz_5156902474397 : list Z := [].
Definition hq_5156902474397 : list qh := [].
Lemma prime_5156902474397 : prime 5156902474397.
Proof.
  apply (pocklington2 _ 2 hy_5156902474397 hf_5156902474397 12048837557 1 hz_5156902474397 hq_5156902474397); [vm_cast_no_check (eq_refl true)|].
  apply Forall_cons; [exact prime_12048837557|]. apply Forall_nil.
Qed.
Definition hy_1670836401704629 : list Z := [0; 0; 0; 0; 0; 0; 723545296; 0; 1440421346422070; 38423932328576].
Definition hf_1670836401704629 : list Z := [73028471780; 1654036018330008; 35438673154916; 10853422038609; 527306363254709; 406486203270633; 7180036666394; 42750618833187; 1283952977951; 1466012482274; 56532370343248; 12146621982035; 703987899885447; 698689778473497; 1988614695399; 357586067288026; 394077482055311; 8588792235391; 1373125202328496; 742317748643371; 8334130030852; 1336000120418039; 9902930375915; 1293986319017825; 3988192508960; 272037258986466; 9744670128330; 1113918697692395; 1059037886064036; 4732639056889; 20688346657414; 928470017180417; 10921362234358; 589503762811; 169900892267813; 8271939620721; 68683252083679; 9351334430174; 1045167912822373; 3857302049231; 192319203764044; 443302343429816; 1633043246272839; 1557210257421042; 5940702904004; 148462955437748; 409321499632189; 447872900467765; 10188888484609; 49527963361216; 68041948065140; 2604228954898; 1281812676413979; 1354811767048762; 1661247520266744; 3689140552335; 205408197741881; 8292423610938; 541436199049513; 1646308411716; 1669451143454768; 8981672714641; 4130113614431].
Definition hz_1670836401704629 : list Z := [].
Definition hq_1670836401704629 : list qh := [].
Lemma prime_1670836401704629 : prime 1670836401704629.
Proof.
  apply (pocklington2 _ 2 hy_1670836401704629 hf_1670836401704629 5156902474397 1 hz_1670836401704629 hq_1670836401704629); [vm_cast_no_check (eq_refl true)|].
  apply Forall_cons; [exact prime_5156902474397|]. apply Forall_nil.
Qed.
Definition hy_21888242871839275222246405745257275088548364400416034343698204186575808495617 : list Z := [0; 0; 0; 0; 0; 0; 0; 0; 0; 0; 0; 439488472207055725348041461617657648; 0; 558286239778091231326408125391359842112779388273182467081518108104915356973; 0; 21333683720818527156003354368735233161125425829670563203412289692842477122; 1; 797587820703727152162671161265532529780136708424587197467038877986428160814; 0; 1715889502758077895557451290307126389188235578158521164820050222880423228667; 839660591804559902771458680694781155016782307916419283475292811248623388457; 1; 18174359810665779694358004392813451677550403563386627097586458740214735352864; 0; 218058496603096710291712248199105787341181211070213587042919176857700614952; 0; 2668847855276145276470491348583194417312605401766728541958710375574739742577; 540305655084057966383488388989783641326354955738210717880935492787521579519; 2680137126703686909270535760119283533375457458962072448252827506238871616079; 16084418790476281866956817838468600750093560312888054917254242852850776090061; 1; 2887376076223272812683687941122475724064579907961134488068586631042091576067; 3734751798406611914713520721708453837156281881695725417566212781006784298909; 1; 17360537461999627823122691059595057754410081986024015833111454404632184022069; 1; 13734918356810737306774701010999568195617938284733618613734845880285943239812; 0; 1406483520842468468672706709242463976112929849216678987825822978992042666786; 112848597049345917045729401006763147287653165102035252719147896067090913912; 19304218985746013940255158471323424315713813791401958319699968664213675497381; 0; 2578402782155299617180582640237466303265320372526058507721273484344302550633; 6328015237339947885716322425383841776148790667334630023457045339351876380463; 263754274578687991255956122673536663785456393785889281733774547733991635585; 11865276554113390287203282205467724453579636308164052223448521454181994318970; 15717341324280277504037077286932808993013724278164957546277343133637240765939; 2572714402805273502118783313532115061400349142822553346412138970570457483; 2577425476718837840252564997695848515249814525163393116405452567417138465111; 9740509291794630872963816957268684358869365178263518545902449672692131124211; 0; 9661925771679871863797486982622162451541561101476811114449318216095631373752; 16199600795690266199062537505133860737033225262946368480082049933907939138521; 1; 1140549564660901146913035833651525212996604908267009671584443856733683509373; 17328375744128708696400915855542592867952951370328988589594906006767254484; 0; 20978481023772737475073821257555314444493512238437164575889812695562792807363; 379429307961636021927799216612475990071551632954621755145299259220526252771; 43490933598370968881725477391774939823552540754962739363870307746705917095; 1; 5305359313917534114985146076202324037252779024438326055715565519992535233165; 560000432984335807221535460782559941013436755499945095491192821893652483028; 1; 8262888789207516375524224205734854975246876961655969218202004902620360865948; 0; 9879749803605841971439893911760505100253888844132584314941223976279209847378; 670580678277140032100810207938831890078559713958258449373529385030982347065; 16514042091271179436682854496780856670725978826274382385817776537084756020881; 2133158080772872466738654796060144680808917641876140547695202804915016819001; 1; 2819663294829104020788719019419147246752768387412032465890522515324788822057; 1797866934136507413386919176924128111214701263417913267853204945751693247967; 1; 308888409287535370705770653506020691378777714129698493517550665022644984120; 15357472004618192982331961058177905479213692458070960535495979836164550737105; 1; 98244763402567926868594316757928303417396859309503812870035871302838923832; 445286855781150757106248449155191995278843784132967645638941100549057394993; 1; 1435145579005970684037075739635033701559482599975480285374994181458559320425; 12711864974376139843355462444511499993508623747107763241432547640090725823481; 1397863839898816353469927766552381744381197558790314726088471417749385994307; 4750968029852468823262163228659754033612808543186001904300362079260419888347; 1; 12703492493269723661337373224130574279798020627203039729811569358627559809395; 1; 4224401815954334397326590387342362560400702138727864382919823282272279845861; 20997978068130375774575957579249601799120165480668939329975611918212026544029; 5533945160662375202310257391750544548755945189311956488738083954709703068040; 0; 4229721407007762885874905597306009018743437483264318952520588277956574214596; 1; 20067544308401326242314016794390679771750424485153039043376526932331579623938; 1; 3918202495646839141099572352957150001755336569421334982219436599288320371798; 8225035063995837291803399284440242651604607698562533461391583962481347013384; 342264538696730350374475885672149162847198332620330858382541616420268447160; 4269925971401925797996081411453210832766461692372550124222374069083628350186; 0; 84161026669283906043658175473364449140086158499774907163636203471393796523; 0; 1141597107513773644557420037415182915237881739682985281401445555045494336642; 3759107451858662706134221971584797587428751753513473894427149703041506080457; 1; 19499272818294772882573557014759028816055369704747104842390140960774915870; 4754530734407424768006924422899033053456867640703923242661853955115234406252; 1; 11326328678060792632428697840821791001569396046747308727322828014159601043109; 10545454596327252260893782939018844354455575918994980455888617861311103476153; 21480147054225226766181634619898179899386652738787324327124748408184312879664; 822141591883857465735800137410066228775912529637484434868989632481245140869; 13583150870887511935593964048739721552148811227994705555770181796896697812438; 3305280011650702725912289965729304021898564749183767734405798545765422791687; 11669731479779367663641217636555202002985879953075030094846459075764350600468; 0; 3019900077787523758950068194160775280103699555636342403467799979372130868014; 0; 6519653880876689219133178554044827658000456699875175009190218821075877081862; 15215313039707358370342555055489408520938840998631322785852304373416838701555; 482071547987167927617292792261687820302775052229379851594634496016221863560; 324983035938690355174732004677587869327836744287204726076561927442655932; 1597894126598969286612962971942850520514228845366702398245928472148164205086; 7724832221811057284561881384640109000797083270840663163907202164335739148826; 5368091561967844399549895522194149892296258341420180941775979366950925436413; 9391767173282683263398083385269053269511794677266934136926619563687450717421; 11858630913715101229746724153475488749171812534271760347510941739454828019885; 3303388447242004350475254257565963990153335841045653278987053591937893302485; 5049432897325073667657159569445038946143040846070278622629728196006590556649; 18597723079965292313228615416691070620279978233189754629244899989650703048194; 8953696004185015638772717311556053933380455453796626400428614895990629267136; 5665355681680383785969041481581460617065028270066539926890008837058272823734; 4573863595761505059155466485791919087491994913748255531353788869360028167717; 5028628705698177799966886710260607315599022009694694193752026645235434217; 8201103159037590796340775972098170160689405547774084226650403461485510918498; 16853345238552477971465955591970722337677866011576749567860060926659422188602; 7106529451254352442016961912593746219714490771637097011525238937043631408864; 5506671198013368169077878569796922947221384851664977932719580929562905374750; 543376997070496323595556082288424923696248398234707187257875824563486397936; 333866280441575862267129470909142099464811788664270521880445145637301004763; 1680186961709056773486905088255799366902635891116277350406918431181626591341; 5449280835314947454761019639189620311449856882678451822114527675782023647362; 2087216495897979337223086553822183581919604258096022964105705842780011643780; 9317564885699819261379486528406649135043323653044047299486233322178294480190; 3621341867835070531320227769063779451072926906423643855007635141126648867571; 5269052070011396822297011056999970439871432076570999197374926626254250125945].
Definition hf_21888242871839275222246405745257275088548364400416034343698204186575808495617 : list Z := [16165587288362616707920763639162090134193059927275503713066419440776747514958; 3771395013950787002268134367743755588826109318081692324372043765197340430082; 15519811117607095879998092674667399375640143197388920738719532985862578126608; 911341215618652005137420345027206622979839573017459824326505336229837275880; 3216560399354472255912688325387478303424380436284573302904162918481323257956; 2426842926767541311626789636639200531515174708218646150036372641114102423189; 12153940865779239510031226977251839677690878650351456811375368740009898863110; 15789232719067613696551283370135861429302168974356987293062113843438204733063; 8484019797316921114000445929253229626309111235607606888771757480740919470823; 582378630146065902894608831416026079250985044495071087512893244922072084841; 21770960606586310882524703146249678386185646007908940985950994434108090694298; 15541532629983139364520358542681159857345098545938235434430744919055504253785; 3680106249697180029076657033249580364464634904213392239054211851518805910644; 7113014244201506168504204569478467019710498849538043398615622540046940827769; 15547822603683422451051869491161387902086375451316154145199059268047079546375; 13300886912984480952761928661264914736157994234782855583182942458411965080903; 14975329670102781472015968848271696765339112657517628025876478478584554484182; 6217026091781225891109006903994424820551570776715448430557966986915194196366; 21447369400191579579991368237037903734061533038263226048078092457283566232694; 6940099303696332963636943761681770646062289649791083469354465070920694381209; 8256535628803336664417254433324988240522602832708060024891683897762001988462; 2031847347851771920487702869889095631793837876092946143172544216571752371127; 16357097262839765889303433318050677465945563063911755349047410329040147195258; 11762630284496405185508292194685564354881853556668286914760706256663766070298; 296384847170753674941240559321564754865381022830422149383608925688325747738; 6667414825177090833808853446819389043799720513958804015240941996717063336377; 8628914313531304047534734275065139648607415286848936412766034625815795393669; 3904075724676737642219686105299520169828401213899959479170237814808089629553; 8081574667471349621926412993758431402780796641124328093204937921154345156027; 11646412378807362054253403256438198174365215823680990224085140686966649342621; 16641929106344635685984984078360757688310234858492233260867896983389257761519; 4942611565843206230977617443761563966368812115360605552649308688557258019623; 159011103523412245436607713173189704703000955583029507066152576612051946079; 17656255607278982402466520253316257351360588396545516456310675226773002496839; 7996633481970165216751668100432495815310743233650628265404197083899690361164; 13917853514345097954212840714337268562077314311171321343575017109163872221297; 5888550724099541576883547767475487789513303685080660720472950489395461768094; 3608644921798307121767745166259491959964940598456169689437802006032601044274; 8331794354828773150025246640423761777533608604812926713687542492227752830282; 17922219340621389611429480212215078534730090450171855943518715687895901667954; 1252344895627958267363493706156095119909780195743128733412896367489175899115; 13865820855922064058356895157517978689816666554941036873654389120032443565; 761915495104638361879212621355096783759787922601730437354472840174162603345; 17247028811022200693049494250247081033863702869119007202405151405708757179614; 11219861391826587861077850229730342453758541559825899419718489874857590219806; 6782717654364702449211159429841820541495303896607658331771654756084199003999; 2783698037632911834472311364612918678432338371099115578114311032884418699597; 11153043000735863555140672373884633812489928587082465194454718112924027279864; 2829293641071140280370524532298254256667029220277697137143992924284249520684; 10950722848328347169859961869485672276423657635680853552808128251154452703651; 9330795494043962216497208833137032782738688299322656286342707702033511664274; 2929043526531709798649416089966502553188731459046322744781822967133374944228; 1238379887654668451567617143593623636927584392306041531921921130960159198396; 7261642288391197596152455675007240970957607803723803760746218463530932349410; 9161434269660672399031902016002724177848930836628092323816924321041857221204; 12830697363262136353817184232089687902146710326771542286018517374749058858176; 21887923479055428325165119310323208245807268505016009575706837542570065452798; 1879185634143104249763634532372404838294428499272825193813080079633312474819; 16754457409347662792587752302818273884202824045428752394230044088275573726265; 11642599777823248190274714291796517986528536312899535635074036100474633687445; 6096682584705130830368985332043033808394824174104281898430550164656090274937; 1166955920744280506288609444211575475255546565829550055758509173435723670462; 8631652757722592570991214273479754470088418199143808204072434301043166881722; 410418457194825452280761692980795497732548183225762155842326499520578499513; 61355648409021102071083692638449745128461023957535654751450209891654285762; 524911285034674982657748571000430660098810107963838005110002155086015494129; 11070424309786411015739733790173224298728408343921146789174980981515355445204; 11621685009253443644971230658357375424064495795910483681147378491322911061153; 18290364652995598267184074214688138541314707880616468756164614393495454261959; 3734683364198543138282117290146260604832430178586425496982427695251436593519; 11555138774731153286161219469588189932515424725567212638293444793669852192819; 5461755877684689825601811728851465899020332063550965770516836914077906977722; 11505742291410259869167850136400207352309151629235686211718190071152185158199; 12385528211069385124017167275177156398893732455794125582117560967301842335; 20474040632333995284581804604997899166529881873729586611353604277090575348961; 15238534964170777061808643166221350131054404996372756916798325319718171757951; 3019720831225005547094232470628248828234061490518361149546099927808837560013; 18610470446447138580589612050744221915871880903869242542345963370792951581169; 7243603089514082583840080736260828207273696189514419833931723719818498891724; 15820547111000921634681616064056013888094066478756192614549600691753798797301; 5581220668978239862858952676201552271443220671179692548489085738292038165585; 3935949421747015593148536016949531370582101947425335419603828299171793679220; 6569446108463759039331443088601521166249448111184382463771228040480899556349; 12656045235416216708841520912472818952890881739207300309235566691318999361741; 269168110320117786234587425765623136667875639165864516494194438961322022663; 2952095081644961293485023851521963068924975086041687275365328802904251792577; 15931850204084047155344343519310809226446584634842888077779395214063563482963; 13784410577245235549159378572637687035068958765476082158219475590596454412707; 14916306110633922502307248417966736072765872174175629081371304040891786529068; 7325645275053417323134842811890177309846708341490866249922260266639486420311; 2531821701773309252851457485969339493673773135481970766027095384789234319652; 1317488520051628841112233621611967593070996214153997133751244271251000657264; 5474921289983950448834336394183595870957566037436124138343799133193731348430; 16188474696434765338971484987368579472880186979335508564218022207255658696696; 13554430964945722527787893210104601763525937814436829012505358887084181981579; 20710356730396599206496257084562054730393422130554858629091839835385338594914; 8655761948127716689790027140138236497932974430773977599066825646767708690594; 61389051300458513013694486103888845476876140601059068147264198915079617587; 15669788657105111316313653966204204813604382748598666950604291464529515317093; 740759550539710721782323044809234283053201906698356930495936538552512053301; 11914690423927625128654993935689581182402576383376946177922702755702709485598; 19667778789477614948389879650687839790769064437748288135991768227163632969798; 5114572790229371577651991347645218832896418562480838851512501039536811240387; 84802535685680121793939041974074006322247128113790685347690616557374614660; 15637014361855230429633551544874059543822966803045813727210168968950522503675; 21629932382043948849679912622636575656141409232911495145122697903810895464810; 1716269025989581274533871752924916579857310419320606888659265758168864964528; 18236266330470042761915414172652783329383925645310043955212348205303402910634; 18594298349173563291024338133736443978120459572249153369470657640866191067997; 25575435354571661081566239045145436101040718725026000341992420830491836011; 14707559699738262923285110895770166514566680483213106287543280675298318579403; 10289057003028625429852172612806119411159418586173208659105699148284696372279; 1614159068388552169931835828601321855843163065590648941101127513137590836308; 17528019806502624102114683286300760130997545645739216606465126175672409688320; 11735746102388818172859498694968645287729795183389184574613248985201366889800; 57513011892752776962328868284857583012770508564194364207145979607338296; 13477470057957058177421965011213507988751787845236011456181322912393103369405; 16007549311442685490580757715774910965444354983283477742306090332490172985004; 9391527842076055093935820154573845197121055110231824512060247572633298342374; 7360401978227345062479407227191430739038117809217953605470938385213643392913; 4352819183099198957555369587581414792136223782067670113302348946629336429537; 13073122206411076468252622847766218861604958836508904199667315634396877448612; 642554541735277395697236792577142911445915097991100602623205107955250463968; 2870733524408428056177735199473157241037482568717490934753628613294960145905; 4736110802233047067357934937341934211238535857768661318549689569749260912562; 5983272170578872141141474219282647242548194453356412052513881177069284667111; 144072615256196675356280341032133157352579184578093936141344206662226748644; 14089055085116565984460202745967130468690255184073583032947906372017706137744; 9269535134210294826282127096542739066348060566751072589197375400620171073564; 7552217121585559463992630574679884701160798220029344838268624283758611723252; 10245254565077664903228153999007247418994447751291042262059173913129255300177; 5352196588145240248669124543433936453901743666413166800959812748503013027654; 14364149507596140210945774173263882572808159230806300592850812744353875397549; 3035375744673626321207023792307746919197098551416039638808228603612837902146; 8001348093749302557284265149018403039013618504238086914216423782174627871; 10405949048456815536825402638649134808531759039770239439439286703664692904139; 3722493127069020511451937664586127890516367301343543155603530534662067981773; 1593034933270393094089505262047765471362562134506684932607242725009065065248; 1983838725571585187814529848561581238862665888399718445442553752470577648485; 131489516100919203375034960463920269589835809010794528461264380810026069584; 13231368708663678652623418735523578136013185743167822885014883102895407703403; 31020717452500581225536528621486575053039252315858113139694046186227422639].
Definition hz_21888242871839275222246405745257275088548364400416034343698204186575808495617 : list Z := [755759892493212219161355350478857297975545783892963330486261659317423185600; 1863220954136931894536426172244779275588476929236230482656370878595393387483; 3335422404465506098530415886781445942983915852574793271020294020103183958132; 8007243201364591571605929920178460383036622315235017012631662238606055114576; 1065465751679868233010760488508524553345909221092618151387553341223726902278; 15191856921537972504066914786283018315370890443017852617319080545763642837169; 239518191036803760359147949000461712606805431529260416213788697603208082375; 1495384690889122173287300005003341240747062297142528720041625978869798950301; 2069114708210562870344789152649303922014042862500321131668327584023490954978; 7497306004834105809959308907776932410592719206964886694256884467291082228988; 11006839581449244254862783196156929873820999150351776335913392233683562824105; 3441868982256085413435232718072854298220550071446617536346929403856393778962; 18734273536743156167061596220487846486426350642578997072266172508491025354984; 2500650387414225802576314154420855797350709950485707205191329066789085095106; 246971918559707428078976691837216366653414932795735171410348822249584802992; 3941604250988587445827828793233898560005876513104242193524326852049001226553; 192395268057531773657320879730981855810605174192498089474499326326881267793; 3754030226013206968178790213167512328770575529433373072384590524063485809252; 1286013814143358124124503417765833002169073362166876912255528001510841434560; 1122627040519211060196240545016115783190752605849994461834431498937153095457; 2733614577333707678566809402051942482183476698305001671179205002107280782243; 8619924187975162940848868867115328830508169316662922082013740450880064335588; 9726957775737281330857474818347222235084210378574704570064144636018211264720; 2644902253853831229500326711538217373850029354797693575397719718560616595567; 4139242071349733199590106503201230229294372448742280245828453382380226161834; 2333798053307259615438621549679275082120793730585004280416191978839817006104; 3973426506494784693574579286969225821832274708046116134801808297785159328789; 4001987292484350676499382787170552401364421147603743224045572498913847081122; 2055470822490225164877075877888992772906545987068013413108709476917964667900; 558326350150759767250023203617191891037302132677488950527237794406803985684; 959623827493958943807779902606190422355571064186695434935050466079410464996; 14597681337852233572639305220494461655073734631019948622859758144616186832438; 2475024721065007461401559895880576445481243921194524499955683576500976225279; 6255631751855162657717614571621847148469655504839417107700989239859833347735; 1741677381526139185873163196972232410023884300804602619829475850438537987912; 2643640003062833982602696233537066622255596656439017071879436543058209440118; 1860558235949167766585691383985505601457713977023563377616488169409773887883; 2704906898346781540329881841935542059555642005194250771795181998403986445682; 3441616163414875604904305262064691086077348403918496543527815763568113935503; 1824173186404414343639500076187971776177294423596890648046476476227167449392; 7427551920662255250310952875712171844541713659586996034655121224346458233; 18355931337182992603982635677230043301804839401157141809303762679691489511435; 3296410190222464825668284678726209978944317207597549116611375013088489206383; 3096479453265291116516328491375007611368949438328303967636690117332479467736; 3402579794325949419892304837890444219387549224492858636537209873018390629122; 14770192603595861997536736266518786409330578725487402790174692136921244918643; 5535954258626042322932931029096133624924903208003799552844859023871343184206; 2189724856704542335402493218355712118884994764497898422366901256700391542733; 5817993104689374132959810092078050491304816361537996207416305046320782597879; 4025727224744355453122839403396970991454898160790137610810433426390164880346; 8661209436850295092981824398215856442264247734008232503856631703546851675042; 3016437689369315873898226693902896983900902300098024513471083685293667676966; 10570454656055982744081644854065052828208193138865057771062095276134048923420; 3994557292005478827253396322817869247109112869590813958113576894743006364766; 10041136522097081475574349873873364137035303311904868469916557510313364823534; 651422990574374401438688174313074171382811153686346203277294803129515286061; 5958788662682832768691414632705910886212606797096060276636774600437379972825; 959699900718322290726690591164763712656296606754896537304572073221058181301; 15630977654003247756491915272908194903257242477622854299337616440018586740606; 228627508160886990210166906559846578992972611716350915171174422681799349135; 368294569212472559774571549054839045644826683823042142356805439003688608480; 98004510069958466193392314296258347399422408472887480077953544321638520708; 3859128193141534970835485935758986124555633314079788278441578539966607561561; 16355744016579347049058316561534293081426492614010492259972373228208475088293; 1276760591954587821064884701786913741056845318387410859143604387963706538696; 21625645205592701184918853132651952098707860340039052885488353357245375094822; 52633964028536899758179947876081181039946133719029196276046426687720103152; 271289684533961513979550714951304925360005421628547368821372370174683272212; 13820074567178710153887726201295728397130099175067860554506711049507803226418; 2836534897906850941652826025572109420961045821961680677072569504669354298015; 12909212607644088002383558924982171791835043993642643807434464846825372504437; 15872750302430661658310300376577841680860309293732416873297464825840988542998; 151044073395053733486365775325909564829209030639143882519851193927833511765; 1994389064074302017707282530338048570445963990161893735211554369553529956355; 1073462648080163652470289729610053993034328321503869410783363161243121839778; 744016904381670424357870844285681563606316293118944266133196736322196929496; 10217189675778428074292079221190945109982116001395824708665112392537633543530; 988561830623266376685734993028923430924902875369303966371475510937247637430; 10507842414973721420219154067759547107903626534493414903254645566524454023671; 3098781569116433325347919448571905511348330544223191206517362586041806036466; 2975778145120187113557663556995593272300275993582620965195124014301938074704].
Definition hq_21888242871839275222246405745257275088548364400416034343698204186575808495617 : list qh := [(1670836401704629, 1, [755759892493212219161355350478857297975545783892963330486261659317423185600; 1863220954136931894536426172244779275588476929236230482656370878595393387483; 3335422404465506098530415886781445942983915852574793271020294020103183958132; 8007243201364591571605929920178460383036622315235017012631662238606055114576; 1065465751679868233010760488508524553345909221092618151387553341223726902278; 15191856921537972504066914786283018315370890443017852617319080545763642837169; 75908981685023824864003884973499462831046081196414037970592238773396371408; 11248073840462985479400761568107677882455668695346821452539117829920497187904; 1833028241566850078689264629624165608851131292719401950715782857577457922466; 7928265537331574790672397604211487440001021257945914271222157391056989009564; 4745197603566968095873565691645637790700200531134577153193442527696780761; 1632588579353187586387899705392246896875900746420818991144618461805821366233; 230275042865020646138976782851317716387271783046071588153898347850797170314; 3170959371812042034190523278286786122377229559096023413441059156077245153198; 7330605514538092976127142220949119333513591175312689653086862400863922906973; 1626861085276336904860029338568190925205237830300116585441524330480393274911; 11445599162624044769605575042026708499048568851000488572743426458784386992212; 3239186227627921618928810898316887856457588206973512383280010788490381581458; 779037763633357290908837899906997439763422245525789367342568368759612607283; 4996835551287921372683674672752451455198670207484313964005393615724955289116; 6328371107045676982505214081612113398042765419763123944462772674877951131462; 1417174361472916403793506945962514595041966570560313318280695617057607697478; 12828462971643533330069359978348768886201803256924211649813904181805625100833; 2202725430437683972980216186321173710858682390382173718162413121119344308273; 3693258189967005382632729534944355482814260491292699021622144919874277860994; 1245170723043168217116555039946983109029412386263592873218064051469273112197; 13603690667100077086408955688975107058710499186260015760541049742470416384961; 7583624064760730370926271528706841969991280686524858718740901332378122772854; 4361680162012687076989094612451958645110884353079372779585294139776671916541; 6684156139218207709778294882946266915337190718383314791999642173766826288323; 4129822787849039457739435403397694695345224208597260665118326721536819789218; 872483561035058353237434943594839281622783561467688444656011309316720194048; 14691250795791717457236489873758379203890739566185549324127215383115762173181; 2050105136066922561330892645769746752891072192949130155348245560496256288455; 6923008457586622476085047356294308851938231405750985945483957919199598294060; 374895069602925206252181700086279555739931735202117417432328819190079994933; 1870101942405583936724083574961685432794570188510576606373310151915053372192; 3033927418267296054933572560907342012029213138651520929357773564641981843582; 473600527192812519973419404092989572921068012370152697319018703886657485859; 139426683706329434778528153171787458169003872516884742337657816413210924536; 2229253407083271824753917518395406605605003017767222296085614322508919541740; 10944143734495517108405276971242264209022140308735573988570552994276536810861; 4859983039801541905526323870541967811815628012873230377976913885181250197675; 2630293265480749424795855383887292490487487522895493167769518904154710865861; 14134295072949151897704853467655486351933864094459285235206120299453335959078; 513383152797702886733697909949935344594518319663416614767550368526592951335; 10504793864136264456993724371217324904142311519780636243895917981347264235860; 1648407723230436043779024460263942203273201906269080178958064205931479892498; 3517344457827368099481004528768874813352984427982744696654728906381102485306; 3115226272241799375203646333976737635077318706723405464320864043584405620462; 868526924698763782280643571170151452999153161946731538964575983066390423330; 613867946905263716371703842873701179506783657766145460749302512229308783324; 12102747464168666920409671564002033775216426522574854694130205611580627205565; 1232173881311325255254957105378066292368595869650338032872396825540239910647; 7613139068279067529611422193235215655026465852067097532770290137955920753764; 11478914655064340868991249884722016428200933607615473779463237345948013849573; 1613463924652134947965322921088563210783798713599052689743668931609845467894; 1294940357254493097002488619499230795235377186542937433817329268173759047006; 3113831927229117651404060060673780330721720308808348639539206039728335960144; 766715387172221221108391407776284706042841165146818936050312481824631049184; 3645964149621571234976858054040029352811727731359781006500824142811688158512; 19367931669949857061769801271719827758943564254966335000573553768262391808833; 680077451380081374597097516304470927952360000844357472048785784933741079987; 3237658816449307059699076824796666876298894688003055642139412723919304223433; 952784232924481350206636370426110564739043490080419922141540432857230822196; 3604225828272598385175115452968292127728308759292208258327325785847093003540; 4239099768331897349152563329301526245722958751942323987953843008903990265820; 4008031017816221486872001563219536450899651338726834299585853681438751920926; 13258739971450191271881842870513088458687331565026348227175621222420773187247; 1279123227444036400535735110715001245000972912158325630652873984923358290066; 4065713921460138964804593946877343340750651331976471099480837016940293990219; 891859080754710703422994299006495964238162937316606040751582707737915688743; 8066623399687938985085314367036018143455962380762625867050239074218763792507; 1031164903463347101205823847458369616048974677296474694438306863912559543055; 7762685633801595649629907494301873174116142660744644424882163358895666598964; 1527171139501853481761095385814607153380753046740189645698764296865541531309; 11437128444450023542782093345209424936882050285680379186782588822249796737968; 632093632364773538303258990724975590838820565458001960370329888284774010376; 1958089758897680493928955516169716409825708310713227528365542123775742579877; 12421262560586802625869502536595456919650719540968677136352578567635462048173; 8454955096530553330015490662862401071288557161659869712751068399806173116238; 1807186003496420296635141863240063599933725863819219637756569780783594680865; 79103545697970926522856086321997679061046346286200377613441874187003276280; 582734976428009268963512677922725707507429394115928388017514155515222205328; 10286605153857883773399593092281642343268822179581736285792145121939269301192; 1543107989531359325290750146522534798510361095387719016929698438548713718696; 16847240340647525467036527463746621665781648916372204544947140235571432782736; 1676947472122090564316227763091048258065396473349812971956377511759873744478; 16895944714715132885641179602038991879899871113616388765637263139867461876592; 297809593076653943628250808438841003028893597632960072400780768279329493134; 2764393844614812922789570907067713674174864301214879917013020938021059799028; 10724163947290531987991911394125161718909557056618707286011551202919461788541; 637522994146450591058830770177979780527660006740816764168293390098890707251; 1444132496377222146121969267430293241223443334632688231701143979639017000726; 16224471779468883815145335952422934684189552612295118748277429514828677814601; 2586153041556551421817340540507048612090011195420626650286981405377971629579; 694224185316417768902251242340720742579321769882164798653931083025444986324; 3261255594626340931535017660874618326607162404975443235209762491968732503597; 2481584011506809038660340681151045368763093224466528553362063749422705977971; 282231612464283707234297669735234836651496302909455148980497163658828095129; 458260499305498660228717755016472894253619021453333603038870276893877197013; 142135952719320430716254169954139970061475415786385322390419291302705714135; 1032611890878881980755407440209226694389101058884082190315764359872800703068; 19567800954586060660929615840306713822009298042892827330523078287921740853212; 685660170544824928939642590705782640099398714542855322840297607991681887459; 3394393701561316877710108475781920645953554424871521374570527954184447258502; 5172143548605012917831080839088692415356131956566420917583589171752156069981; 612512172402845511125563803183502761208967586714492207879660418775854107952; 8484860745872681016676477024373162503456339444989229008373893595213537390549; 99880712380792410248481182382807349858518147969777961870752036156136177192; 7156078804438190069894876268906378213098076714467586700894346375880525310712; 1416117048936552810696543932906749879574209684786924079368251114498929261137; 1941958941963729233717017348585554542448589651549923136284835570432859291337; 12930598323225260337235734797207169287127248166552085800386871270321944341308; 1493833232868751534026844847542291437034433240412302544643102878267021344132; 1090701693070632031825924901851450154532320287382019184396559007927832129400; 5350826713176094655957765295337082552007934008405200143839881844762794689858; 1976713213979587684568526777515953713586813735572149806514343176880042865532; 1779402687899309009196361900574306032549999097081772488548790406973344434211; 44917211866055616831228763847226731810073903507512905593268885449082197577; 8641160814549773436265496514301613798025539723700866316600850682709999127444; 239460317700580299070360021741128191146228657606191185753080260738089986197; 5678746329289495939893887024714068274840502027951891375571730425819363053; 4546110422917773883460739497300368497658260001134007707793216101558510216533; 17622357033907260907192813761436997394747250056915201726714259465820883659424; 572254385935158056677506963704276882180906491045598570384944974728860869552; 13421232083108915859464739860240027639596426501025419798880867230779587110817; 2764236820678771147479027169767409869169990515857270142591816965978913973810; 38184602333451367039328047521162453431489586048976877814458641982256792971; 1172082126301185611924865033208614694337642327820438496768040262381907995183; 1502608471717618355896938218290020994472879736246557327136985078943170441603; 3841612253965439032024380057304960389190477270483365503359242834902137730084; 120691151673087530637228872727697990604042031004191281852153912035594927962; 3892934416790417335311033662191108866922420984923280325911081113606964797040; 10643251944843268070089336770041409422900222867282248739982832401741367022158; 2475607508217943879491611940903688432174898478720546801430922636905655653343; 2599190238487543478203154902819335936683904931870833032453868036834932253259; 5372189902361402569745439062897255554246229319039353350495285658370099567097; 5164500260296447197948113761992086487956413676030907777850354631737629619646; 632059391104197167897004674572938372204472716430032232300379285567704111190; 5134092272193040450362913395039837798983670548980151997198691601147509503576; 2455250469584756062381429368708506177465203912602595187083050734955953727029])].
Lemma prime_bn256_fr : prime 21888242871839275222246405745257275088548364400416034343698204186575808495617.
Proof.
  apply (pocklington2 _ 2 hy_21888242871839275222246405745257275088548364400416034343698204186575808495617 hf_21888242871839275222246405745257275088548364400416034343698204186575808495617 13818364434197438864469338081 1 hz_21888242871839275222246405745257275088548364400416034343698204186575808495617 hq_21888242871839275222246405745257275088548364400416034343698204186575808495617); [vm_cast_no_check (eq_refl true)|].
  apply Forall_cons; [exact prime_13818364434197438864469338081|]. apply Forall_cons; [exact prime_1670836401704629|]. apply Forall_nil.
Qed.
Lemma prime_3557 : prime 3557. Proof. apply trial_ok. vm_cast_no_check (eq_refl true). Qed.
Lemma prime_911 : prime 911. Proof. apply trial_ok. vm_cast_no_check (eq_refl true). Qed.
Definition hy_1263766531 : list Z := [0; 0; 0; 0; 0; 222727; 1865956; 1; 375991548; 1; 226218374].
Definition hf_1263766531 : list Z := [16104439; 40576059; 338083406; 254418781; 93188586; 496865855; 90578244; 1060022906; 6799446; 128486302; 11483864; 1242498785; 967774210; 903230387; 56500920; 92247148; 1486780; 70000696].
Definition hz_1263766531 : list Z := [108794; 1914809; 52857708; 4042556; 82687780; 37400127; 677774184; 1137627942; 3834757; 1116333264; 2314003; 73316384; 10895727; 439683422; 2422011].
Definition hq_1263766531 : list qh := [(911, 1, [108794; 1914809; 52857708; 150212663; 10014689; 124440343; 697415; 411677973; 1735785; 1250353958; 6998182; 1071203908; 1018789242; 223834905; 2958628; 513861075; 795801159; 8057107])].
Lemma prime_1263766531 : prime 1263766531.
Proof.
  apply (pocklington2 _ 2 hy_1263766531 hf_1263766531 3557 1 hz_1263766531 hq_1263766531); [vm_cast_no_check (eq_refl true)|].
  apply Forall_cons; [exact prime_3557|]. apply Forall_cons; [exact prime_911|]. apply Forall_nil.
Qed.
Definition hy_35385462869 : list Z := [0; 0; 0; 0; 0; 0].
Definition hf_35385462869 : list Z := [2036361; 8639407313; 9115939780; 212669273; 30133052545; 23423611479; 199202723; 15348816193; 268210955; 11950083396; 21992220941; 198032136; 1713687460; 20103875589; 109934353; 1550493047; 16379087074; 8350256991; 26804015; 9211475; 97645190; 4681788107; 12326923; 12419611568; 2146456374; 1330138798; 25731522893; 38893319; 923866081; 22127314; 8345857354; 11734998422; 6932029925; 6343911114; 7470102245; 12100283940; 4103613096; 32001932832; 11140833924; 197042300; 17484923477; 132174595].
Definition hz_35385462869 : list Z := [].
Definition hq_35385462869 : list qh := [].
Lemma prime_35385462869 : prime 35385462869.
Proof.
  apply (pocklington2 _ 2 hy_35385462869 hf_35385462869 1263766531 1 hz_35385462869 hq_35385462869); [vm_cast_no_check (eq_refl true)|].
  apply Forall_cons; [exact prime_1263766531|]. apply Forall_nil.
Qed.
Definition hy_2480874801745591 : list Z := [0; 0; 0; 0; 0; 0; 118969; 203704466057039; 684460284469436; 0; 389970867165020; 0; 815045941491405; 0; 562265657047094; 1592162831079750; 0; 47520858832021; 0; 1281398780975655; 1; 1909337472578938; 1; 1272215333734492].
Definition hf_2480874801745591 : list Z := [621232861014706; 1075906577909810; 1870390321689641; 48208584167697; 65641838402524; 2390698760709875; 157874694998027; 1562302929398960; 1178403356069424; 1114245255142746; 48573106783375; 331938757224863; 1226805456855436; 1706838145914348; 2167777304624643; 617579125006967; 28306323640371; 222640235082119; 4102978077041; 1037524068168237; 751166739999942; 142409781772823; 1105896470287056; 919068957770264; 43361887169691; 408769570555928; 703166652495078; 1122973915689145; 242730993130998; 123123028934267; 160808515544361; 98352039886245; 689675959196148; 221328718085025; 116475545923975; 1961914031446933; 497005923833550; 61146061769367; 302099633647428; 740838977379995; 439839399093100; 533493880257184; 319284492886333; 192691133245412; 158001472205462; 274548083745688; 3172991321215; 34603329765254; 401908083226763].
Definition hz_2480874801745591 : list Z := [].
Definition hq_2480874801745591 : list qh := [].
Lemma prime_2480874801745591 : prime 2480874801745591.
Proof.
  apply (pocklington2 _ 2 hy_2480874801745591 hf_2480874801745591 35385462869 1 hz_2480874801745591 hq_2480874801745591); [vm_cast_no_check (eq_refl true)|].
  apply Forall_cons; [exact prime_35385462869|]. apply Forall_nil.
Qed.
Lemma prime_13327 : prime 13327. Proof. apply trial_ok. vm_cast_no_check (eq_refl true). Qed.
Definition hy_173171039 : list Z := [0; 0; 0; 0; 0; 0; 6501663; 166700101; 1; 116977776; 0; 133072171; 4312273; 118749893; 13572357; 6612521; 1; 78846340].
Definition hf_173171039 : list Z := [1545572; 13765822; 154886597; 5735388; 6402213; 10607719; 104667247; 32965544; 13280087; 147029519; 172733204; 1699111; 1489134; 13260549; 2659398; 48220196; 5499980; 32228178; 10743746].
Definition hz_173171039 : list Z := [].
Definition hq_173171039 : list qh := [].
Lemma prime_173171039 : prime 173171039.
Proof.
  apply (pocklington2 _ 2 hy_173171039 hf_173171039 13327 1 hz_173171039 hq_173171039); [vm_cast_no_check (eq_refl true)|].
  apply Forall_cons; [exact prime_13327|]. apply Forall_nil.
Qed.
Definition hy_13427688667394608761327070753331941386769 : list Z := [0; 0; 0; 0; 0; 0; 0; 0; 0; 0; 0; 501946897469691483218857432; 7849522438029016931631988954976072146813; 7320231109761890239549238168156146575146; 334306941714124577195963564312780828995; 4535091940097805534240006851648353309824; 0; 3554899232344487064876265674827232858017; 3716687749802514646391004728488062096696; 0; 12313869611060984679031709069360337360880; 6157148752647816379087207523977257547433; 7052033105772991739933095296798818469034; 1; 9334912863609893406944214092998710932105; 4057088621625428432416699939059066523678; 1; 463901935592365573813950583500654308361; 1; 687331107130795130356776305507342879225; 0; 9184102265294085950194905052046295924399; 1166263736565772577505360004406550306499; 0; 10045321516412295558475140274661948269937; 4461330742326007135411171649191176572186; 0; 10608524265772340944489875843042768571405; 1; 6179906218556790551472674404031328442879; 390672443818796938695231265342140152724; 9237283590528647701971816629204278889707; 0; 1731151010505668487501782897082002392033; 1; 961396503711364985782617170811911337365; 0; 11238339212819922595889481886623667742651; 2557825361040146576536296170187454856; 1; 7069420829499079820315626292940750552598; 2448709588452144722345130104098317335154; 8321312106701840829539681550347403656097; 1; 3947342385061652569250106974835386620237; 1; 2419895524184898625749137621655289500674; 0; 306724512821658810083081509967651315; 0; 4756032788414733935790261536705030631489; 0; 1470527829694164889966264428972947811; 0; 9796651881473757588329662237919526240459; 7853568172087604001985529637239892130423; 7161388320220517178652627603526576206542; 0; 5766353764757059866546524426218522973559; 0; 4300244019134519421331269792494470119300; 0; 3999874135630057374284397985512330859371; 1; 355894532945267454307581099327169206191; 0; 403232434786494923560430950783530494001; 4158307656678669053288665830494848104298; 8707168300953242308589440287582814435706; 0; 4480588780879153141673268758262725354043; 13410721374003922061463816943039368697275; 2768507179590462045279763147006000956237; 4206697106792028491686752938784316505479].
Definition hf_13427688667394608761327070753331941386769 : list Z := [9142191389670395144015446400242595837569; 148536654181491706743341001206609668129; 2272805594650753690836647412032428085764; 49346645564942485667245810358841552058; 8352577592796259916095285138184621028952; 74618904335511985787391341351440486109; 8762192531740775611800554031572208732895; 1430592663249443116131840150909779041470; 447445464436311838790734409143668883039; 10690497364946128661126474023237161942955; 4178097188562246003271391862560952059099; 146273567018397684170891818474941359624; 12566066542665552336168088976098959049063; 199350949837499622686642920378439087844; 6034454135264078967134728746046347023129; 8560001988985252695322513308588147775883; 2460779469180654481483620367520624397710; 3167133804850208390926813001607825098580; 8199725332105965828512475733899721848471; 8906341727177637941519696001701963488016; 13234318517632224931662339278572247464464; 9828018598011723975116941940380657739504; 10868983752310668805327020564980223943348; 74430029777535818168432020188594317295; 312381649473727935665717810022763376799; 6310217559820925235455515622792584885051; 60075639057781548792140103862468091202; 223485440946783550451813834273374451739; 8659978790606626245901939910388759275469; 8415201862627063351677150519903632054889; 23908630041444252242663206814765718469; 3742103488036588350223488274951019703043; 3103611311970783916072765290745346026899; 6037774171043637881325769286980203031154; 7525562152465616432028636092781053422916; 111460045463603242485429048173347536061; 10485101370321614654422342382944887996109; 538252128777985212283990615101456799543; 6824280599932195045091861246518336917; 2330266726718601048591235828767330687303; 30911258239692733546481073260684445526; 463760152046918744575075203055699538459; 6879103009434915800982178121849019634629; 2862444082589124843589159407098499825328; 4521231478884798367967936337626865906; 9014308144062262551101375364046614505870; 9455039464275073725841962893781610803518; 1575487849645940716738018708328286109901; 7518139272315568766823594855238995569238; 4933310532280242895610090537870021172475; 13025599586602640746509307793827475811810; 6797136716768409205984126574793692357917; 100560208078511560475349251405620127740; 1241610031201243645864466880036870530728; 5768584087167342287189575678397932849922; 951555771496187578890182670359029325001; 1538253242319832530707443713185460973127; 9565587413689039589865888697899235009642; 4153864296094511350752490870540040083519; 5617687876377321779814684977255554510154; 1237137378365523879433370984605979518347; 7836561351841278260393820651193964797628; 11408694341575047413209158883062664767694; 1421040863185690293382569182287096022512; 2564481811146018808607205013814401361284; 10185782245048179605045779215853157858467; 11948534664827230729410898642135358383545; 9847173447877849505042602587190029617554; 10421659457233801247316683913951683021410; 11043427814222293621885947309073675724766; 5246883860805363142767985956486525156787; 6684135105184322103629677404140193389470; 169918791444928492585075744842636658605; 3383188900852732943229235942689021967646; 183205400277693637252080876200267305694; 13363971160600629365800061596085530856629; 7702641817969804814882625026579070078621].
Definition hz_13427688667394608761327070753331941386769 : list Z := [170768181221491012048872772419496816995; 2532031960816503371480848312270410518991; 44670353409433570301113307826675246028; 3025422825805820408305290434631843701124; 1281461805582825656273790710951575592115; 662871390482540184784200800781157353; 951728702178118788815706654401767129905; 2673752517426570623620133779134613492872; 3119639302865563899057480194632973061964; 1265185838028272366822867750445184199922; 4307089358396918859560239856618432618650; 11329493317250689950995915832533036724518; 1950479237132694546162591126272905700104; 498571989513049896666747478246678188572; 374363372871551218765848687302881339426; 8450539229869631698190841785413570900318; 170535359542983996956351815411204571697; 17731727983729599652931668209724490087; 10036082916128157234222498233305753185770; 1511834605636104250692946716208638819856; 8859248218436254022374766310204824582847; 5413913860092221750758125227932395809113; 1732964187683248127644917840419655543622; 175088264787141337056075591395792760314; 3654880065566490966746875667137957566027; 1213762231912420967344166074767954265080; 10798254584607035154493482445030189580979; 5046929812084058008798228375589116368942; 793184332119566503638775986907922353115; 25858271746478421716496993192357496881; 978485742062589057441528556916787006798; 88178737958379188682280513850745899; 6509922784071738105823528144198441693971; 607732199998828760529924869535974642778; 12174931696909254418728441390779089046638; 1180911334430255160631201032803106586866; 1973404617151833332791344074638095276101; 1407364731730230707343847038417156292915; 7978956192078512096464543085148948677619; 216465912734519152889473051945243323154].
Definition hq_13427688667394608761327070753331941386769 : list qh := [(173171039, 1, [170768181221491012048872772419496816995; 2532031960816503371480848312270410518991; 11685083599593722943551439958633859305; 6599592004075180809117827843753501764662; 1278985763799158409700197267851270972357; 6368774118332328149147655526701350130563; 160047693739585307138195897764315975723; 6866317371850062597762962272269770733745; 9718291213781649571928128652894585750487; 265337127440098266250068145419964393626; 372555379020269250083305959001456809354; 11349765286477276031675843895632507949325; 644760963903373987945658196955053170432; 9565546026220104757860813160868148640715; 4151812146809842532981911546253407466442; 4565653839938635943275857145767641918308; 166570028754376788833149132832356302615; 10784911293002528262368630442620431390273; 114730833883143204320756800912018090807; 258414900494438761971980549024369731765; 12225905834444947030069397724062045828887; 1378165622431017112422968036154985513994; 1175047049290230450323179093879988386355; 2799945285463918334420252658054878507281; 1462307061490458929531595558365255513522; 128485532290431395849383754828917081638; 1037994161906531437323669468288553891210; 163527938802841635104452170192140004766; 57269177778962153342688378225973716339; 5051091112236665023557423320220625641158; 472252253602468071681320674493314512033; 553487025933500167692148544881005139689; 37523560259797033999897767459606986095; 8983986772034213788584702215916915569199; 1432677972616165246679269211248475621488; 7688310475731177039274667611400342810053; 121011640568875106513619720404056853007; 3395524192628484955548646715481874201395; 12498577281038297766596261606067836552084; 1383284742009499798970881759007579778498; 2864603350745075361094549946149211130679; 4596932548469664751085965745902123849354; 718346411790423078397256003247720281625; 2292659864033546469261255311478493303639; 10625134277409025608883495256644264997901; 7464600427471522330672537245077462218824; 506103374776325368574310891880269616793; 12723469099364910485005593112797296950696; 622131440376293355430459289937601959095; 1234888039891296856277656361139260151699; 7556480041652194134602405754157715412182; 5032080184307540662414409676486465815007; 1039934002225340077250784814393583401583; 1175602207323103259397106144367641192688; 6069781056326865711855008786370196232877; 7202069090387197829270701793282599334208; 8617255433826099289957137030148308831799; 8096538308825483529038743406084531821; 3334190972498528157568908680224533088130; 618650341654350155340920951844083849682; 5995479627158589363148970393105673949866; 1098715358850017710179968792761133581094; 1246994507512944791385594393987307323133; 6046233212809709585943040393253909041071; 931788345976639738372162235653772118818; 269936297075631125730071185525593271534; 8380330693344224599836604712585484928488; 666788806018167565386525100656404182789; 12594851723985003952972899377601269266950; 364574601221555231364259254692548606883; 4866493883015478865574112565454018506954; 7359873737470765595818069549904053249051; 853783610873749623804936102230538772427; 11873020992328746437769600666235815494612; 607902234473825697037718812332648940419; 9723658133273664108233054007678685652007; 1153354622387357956930780725254897435929])].
Lemma prime_13427688667394608761327070753331941386769 : prime 13427688667394608761327070753331941386769.
Proof.
  apply (pocklington2 _ 2 hy_13427688667394608761327070753331941386769 hf_13427688667394608761327070753331941386769 2480874801745591 1 hz_13427688667394608761327070753331941386769 hq_13427688667394608761327070753331941386769); [vm_cast_no_check (eq_refl true)|].
  apply Forall_cons; [exact prime_2480874801745591|]. apply Forall_cons; [exact prime_173171039|]. apply Forall_nil.
Qed.
Definition hy_21888242871839275222246405745257275088696311157297823662689037894645226208583 : list Z := [0; 0; 0; 0; 0; 0; 0; 0; 0; 0; 381195485079380042; 0; 20109635302069903238363856042069930295466354700289337620199437627998973785703; 0; 14147364093408905578416366268098978555569716297774334254952901477887391898282; 1; 4482589926117521849444948801302969549920114624693681649393428631217870769074; 0; 18219157348536518741804505634804954715451970780372037264614878430486676940386; 0; 7385112616351544202841149930519556858374520192131146500415549505393571489; 1922631805167991317259252615074187925558252599643854887303475711529203600576; 773375028134599283216930644923585146858396723235186371849510370522498496407; 9490138660344298781412013733741079445832035960058318854891484678973616898781; 1; 3422249178439633872725986759998106747607223867972638968251651273341557085448; 284133256841906747583970992388339136589020255321116665340408401061621379546; 0; 649190215485552284974095970788679472486619196450222573729208631898627378662; 10066040927010811984337214233546154138381326390179489063203129760367901440575; 14517686298629007837812753112358190889882083421200281404161467033378012764774; 0; 5678584911867753816533269843704990987244088977035898888472812461078278611219; 13241734760417478652250455325111457872732218100393280365018735739223623220613; 990698708675281135672445226622159332642349973949579841194176185631573300548; 9769298895751990732432883012020724121087438360262921913781304667714151780531; 19666027109207744661286775127787883791495764752655055316444909573142082275241; 7077841004889313526543183675679004033383392433819907919122781338705661614046; 5053670048275325045596131911189945434596928069570874633932396553072573321349; 1; 8836228719858160004530951966135672973108010268402667911801729914902201053772; 0; 20941419678341848714306633399928661278692817463017839662945298998528197055436; 1; 9256908831318283222902581522492569377665501278650313144548590617312493224886; 10783610462772175516332869090695414435185542980227351800260705025050138256850; 5261270782018966622356487034938651197550666923524288117977498085343792408493; 95343988408357168253784442311656744679995861791756301334421870331892153264; 0; 1690472862170799305458312085205602424381760134455266270218495739270048919575; 9631814729836653616936913256139488894386456544606624371957662948734856553282; 0; 13456369318203952313655630179408281938968756755993955747588087383416646659474; 21238057481115245504581187622863196377509540267724470673462480791007008055969; 2462501549037849006006104111732649544032486794865484210515281775314914021; 81933317243755920801701048141768288529498801822227196795546435874123379901; 9858167099472320569475434931269267529888043407902954982654649605074127730046; 85108434126759135887529472364161948114368464664110220716844995233866768899; 1; 3347420754233615080794330629218803808588866565309431696236975776750011259535; 10269531487507332730361989157581423378745705656908977902779495004539176589717; 1; 2129304461105111469912413685249611038206701396354071413574040327084737574177; 0; 14229890338971084141779331586388506310361565541275454819829231469362523229587; 0; 1878997107563591212563283386464549895202082955706013343331976753095231786861; 1; 3658614732633328929748135518585161214578138496898897621214706982725238198546; 1; 4410485687592367130430657342855147554549519440184601245702608970195817823805; 1; 4590048331002350516918688344018147359642477841691669609651089568407520019341; 1; 423623184925983473306956787707765050324203908745065050435858826452714051592; 0; 11893874317536849813414469388886538946765606102395635311302851723680607481832; 7096030542877438981215494892857131312418761277849857579752840063942824799792; 1; 2956065309925635691174356604925657075535625255232759000626733875294266427596; 6780661103165742617592110446277722121466908844381824229280673901023522130781; 19426641831931730329489339127032451126985811242424433186878430025411764237490; 0; 6373628410320348062063519587989800775698675123989485974506756506581119001646; 2323712129647310459073667225892136369243423461698213493663180396588045490069; 1259320691931507389484748258022593238975742129493536780686998346812291314166; 5084157334696481242774446705798536136525630351323955708925911709301361363368; 0; 4928494808423604534573280775097976196502970536747939250303884677358211849990; 4742784423664809102065307773727445723167864444612269277609545430020537120634; 1284230233981785742904890229990789609634422386092797058748419205948863444268; 1; 18435079889428526856972430018100250835849604929181268312025093781429815377751; 8080087786997464188313358361925466704374560024066445348424725209990847663152; 1; 15699436178959316466526695097700541935847798758583448252356808461402662809709; 2788411511342350539043580910262600084063385458345297911662584272604677714037; 0; 4969882664576084350341526337210644883982786783629379994667279031298319114284; 21368392428442712450831026476134017477461232386019066515751514032797176540863; 0; 1085031335437300257744081606496531269215706355915792488202273568006676888301; 1; 625686282090693402172500325225644053545117228485230002626013379762749853986; 7866631133795377783441082776933651837134165859918067714820543286885452827290; 884183842966706371367050716641302708330495619301468163809311994185528169937; 14582679185081764817594001572063536806881799806544466365220761599190073094963; 1; 9227610664852373888484883514759352079444793828940830447367332737330467014625; 1; 1629304508843840793123460893521791087680058280776864770474334355702748989551; 0; 6350183687602098947024112242273338900925655703713914061910178822363812978274; 2975937256705961034872359260313948905854537789249555212406356773109305789636; 0; 16486491062680947335266114880537209793208782655664836279694314347041854119488; 1; 1943602101214982456247574213690904357380825176960181529409397748698318540849; 44311977742570285155084983240139366328083298296482910528154869708329226899; 12095450200543944244150990756514502134035339050688317345620698211915330631111; 3146785768101455353806349413085125638644704946823757682185980746031561889281; 1; 9968198838723358866413068421690127117097606550915016272618279035836388749694; 7944281528915733170144410862112760251695829108896627964050185612359495840825; 0; 1625406568653250287376725078369929298742397295312206987202948649381429140687; 0; 8277779611583778086260322444524345020136661391588955621538238298348649762701; 5088276276612555477154618800956175652013808860108693787946852819257278047436; 19279238341068848212751669378298053413001941609354898706725843754031874157173; 541556607643652839814097881469667107760649532673367143410780928663134977658; 0; 21869562427248709667561721945531605189670576849766660444835915663354310757745; 0; 17464366370546244700261526909535290050815566540928460900406162636271954449512; 3000130563465970954309615420440211919841435646213366112847820246884573179518; 0; 304843584224295666813868733952172067733247674000549159284089313228336294633; 235190591496254754438406959136513591760332965608752792125220136028047323107; 1; 3888678830605861599010538613337233405767262711713564855559225582826883926237; 5997401226760889049672393544376959830704692054460543361018644406547697078611; 1; 16853986063696086166375475209553976025512216488410522296888583008319815815906; 20602971632986919987461581092258152090689779451564060697132255262313044233614; 972066036332615498374839597219739948134780638320246620342215335910909431015; 0; 6152012188717478020674926900204218445526168405047124398282396990075814188005; 0; 10551747971872001153948733424223556738988932355200972723864752923817494475397; 21069092650096693746371510500418500553335991311079081699399806730229465346646; 0; 11750225509188976751525904115275420086335919427644543092492963163562541775023; 1; 8196955453838524145774885524102720584463511442663421881862276974672376999264; 15793686112599824514737366488683832644945546372085066721669220621348329434845; 11399814992911803829926930339257228504103204320182779316164031759303832111854; 4873344850343981680899616587869976198532193627383684552949159791937444019588; 0; 13787022578151437578586944470443300155875909950673166339674475655597698649052; 123585579733760976149036135017082104205853642984537511731849245038829496770; 1588761445392065211389890017935142308534705662484341870334575246957559393624; 0; 5167263620524888224883145569732647870454705490510379737268716118146900170813; 145705351297365923443463837627402269470222122241992081705724371564955511487; 1; 3930053723043244804518195036741299576774995462311005275296461545195433565200; 0; 17208720234478704483906503733879073025291800727587790613661753373327136920128; 0; 11212595989764263438296435919555632395418281090242883840502073870426108488940; 7368503971328255326331646383203037989277723779849702032132886586836958116892; 5898115650095494491996968915570362745731896681023164142327528449516006262079; 1; 12352098782815931650143536369103737184400897655564144000613590442279880067175; 1; 16805593025594984021758706143130892635778648387595961801831277599814200027200].
Definition hf_21888242871839275222246405745257275088696311157297823662689037894645226208583 : list Z := [19238074203850603232075934733970503619080248404937198273859482994282858037284; 62364246092568038487843797424838160046389053177325094074683747031571159708; 6672240505728306605573235773690991160564166835151540889568402418069339256107; 1620682096871819815405055300783697389587096132150360566998608716917243440679; 172673695976629647393611546709552966557130308767821777230812719950591596253; 6193728292163846686812800520056982624145203360743723426857896631072321168465; 349937087453244938650308336451998425223665288634199571804742323686370281678; 7464155399221504890751328277347198580542443196201023125577143987089850818388; 19854764971115567279117329503899493399406501039129702697745576689544002590458; 5663891875708295668181057207827350864117154958506018584890447652899248371; 19965117554832470942377181727841006688349343770633454679777441340208259975795; 279837445587586118661721248579251909492847035076450117132476337806636222088; 17986484502493965288937086377846749084862141476873496206633107193652807344359; 687608210074462491014855789301031763240037691955976282778192760406524298936; 4123943877081162673224691745315925051670549548939246087960999641294192346018; 5897967110490847702481916213442917428185585319778630810893887287616108168628; 6108959828353281685381564891707885821262293835797632271754686220033393691784; 12892141837262942356407921950708442964700299733257772819870889751282751014321; 6239438180570536747078891855689180623657337318819025567727433179191053618605; 9962555380739875074534934224330088226105587402163586868248156122687682612206; 6702178885118583806937770743407644043415873567183889947765163420881781550853; 3458227012184922284839528414708959601758887928437408207787552373576743595516; 8699285425420821982834053381504210660900895074042192060081083882090107941930; 19315116356108265395111629224126942476013670638973219919201155389444419246110; 15571906855963755085423840116431251471986654786130596036371447950086047280038; 21194005487510731422657742217138350790254362867380875197387139333402698328017; 9144506496054763573867296889749153565710618951847533894936078956727863421217; 2180824995227846006036871873198812429684194158939589129640818385817678241637; 4938949011945588468428300545805630932285149671954375090282214673115073357175; 15280706256013004918913276455819825321429940390872571712418529819865842360938; 7556482818583578235286014967001956778792188161380629686475687497912593279386; 18790229951942331125431476357133814641550061072947714122585734347101003582088; 4926104180925075392735345686188998595640290508588358927729261845262335609151; 1469990874840138926947989365116606997307946882740236001837698184206611057664; 9568166621942434385609363193396710752876752596361220734232758990171812299436; 20924644415637126657506760525399810180320619555548884225654586933325434554709; 8987701339351765350350096006393673971466405543969388229482586698500360100080; 4958422739241743980627100800745221126273732440669513901839709751192645120774; 15102125094109034397389531952369932062205854058431131586119289732206317684689; 450066030900351227892106830109971744467914419011059414580099453239902766627; 963413879485533681182588712563871455351703194006315502318617029392071353383; 4892827911436993069150673133420649373922118871360394634363504552822454710564; 19499271224132938553250126003188317863309648437382547047151077544790567991380; 5129195836748225869769082037913243307568850468412546617561568613502978349495; 16032858394347992172847972846626207653612161560000781415336737773026004153987; 907860766308439626582391642477264449123918873367780896749832541878605193206; 6723870951407384282487541732196194806198985071103615595150091138730434053609; 7404112142926461850110519060004694102588577797240888114441798879800628299362; 9137188512645844943217837957960918890213554409874081787930850223840070902158; 11482734788550941509660666627336260106068880517722434841841362909354419157048; 2321071780105949499890967879767790742486383036561060660251528666414901835963; 12662643479188283631359183689376182912141768940011044409225083520376807523828; 6613717529882038894412730327731415040616910173672918870282798166615644668267; 1829365289923200008393811304950479233114588640613105560196853665248654795870; 12354120776248382891055493941639267625312916870295669747538152181767137814836; 9767993500666202015141802842052170594987904431806262095675085544658258904598; 4700205758184492240987341554931100619864109980272996424361905717364446603526; 4415738324402897667567198305437252281908639273062632948811110424498344473032; 851701382177683740956011396666044351898481962507251339152800067540271984297; 10067156740665155007684768432670727184752317421216746194054381285232807639648; 18572115173250787427024658120035435782165731058139924106095178496769594173278; 9392393087026615753691017082759978613235945007963194130504501553843809908119; 17415469201697549817141237992086921883081925338346866568329622204441673640810; 19064661624599511254826792748089232416028843853139935312167439641320036007272; 7301415809677176279163021061459419448440617767102737028794028159269230331666; 5444691450178891479644867054834576829764523345372610353879728445299734467263; 40509366634872029770443794777074180924923682225529808705602215545448844596; 18858178837886826085379285979636893057061120301528351183767177068236892831696; 955171540853169302162730554104992885723520114362382528040954753135176740270; 4365556191721658214282253983072585607385799004976928644246979644860316132722; 7788071482708632741787624447571197023910315396237013001726800323698818564603; 21561373594126230540149537856979812758925909584033190926355999117114872046405; 19254198186371387250483390240733781795283427753976275108715386113840314176306; 6283494016837552361838597309692007265318914215434323170786912529641310596798; 15395906436259847249666911523846107585828288165495049268466475548699459003434; 1850526430632738935288379929160135609874316287158722562263665130473600475117; 11554792879921464037571689325855731782631569866938519325911827651190745523501; 677290036752732995294574402146561265706280722812869556942536901065701776001; 12783002693209350560933676849164065705166384565282207595337440753693032577964; 76171978195010040657450954022198031595497735187743186442926197317276166015; 20302976931999738977773237868125410999569228460172420719455684475101312380136; 32983854089765381702750112081150083665697814665664491387319612268850459384; 3182581322879502704319461452935494540426496531127194630299055963510714370673; 2433861866104323029454944885587996571420341828786385559948572827279626042861; 1592677727509604847314900013954799997281953773149953433056867908160791902377; 16709189603306564056393206128225529765630063901596020018046100875316653125876; 4384421002997996663833707556679490580748641463215037186124302118046052694596; 21505987595168315945517948898248131345487949195524684993633379211208953633905; 2678765064663627614501543220170773684886367454307520077391103778866803117184; 10682616688371192115214523616028420625612141415223203328722661353644718784107; 2386350723827135845020757122342868980068125409588939410835479923344438874396; 18495164869162363597908255687173546117068407246763522236393366997830568061825; 1295747388819023334798808239414364408735133612246713365803921160540456062505; 745034740852984266489079209528652416605513233664805342817726045022700935021; 12240347738538345450654531373809669101196247704561648173666111913396571214897; 5322921740442825163500216020777836637336675798717771679715164968731312993566; 7978645153318837242997818644362297053620749598870608895034982027964787740331; 2175059641960013375317264288928714209949038776174526500276569040368180091903; 9535331770943615501440808578201244279339607112751828398777838249236737048249; 3659292321267958452121918862028843841402966501978301948402503536154524839757; 823953617861042566618496833581890983308040934151629774983674737356257637383; 963880109071351654930592705854705844042450112492046285691606478143951959669; 1218296115757117053000603741203788498437853104064499575688101749993856945228; 14785163984819280263102475327028275371875702510387846363389832663620802224826; 3909479627983390655988601633494928893704392045402078763544697977998111256875; 5450929252189867467675342252833644798321782417832353754808804404235223540473; 11303853372227129695438648374890368636995761288218205234035784675120239499950; 7120715964694917635992131446528931594481228767561731927987953351956133273917; 18546636347373520104485140633419213514635367982889900528611420966712544562282; 3787096976699209870762188009325060500417415445656008241337511840812206734561; 16715512805194495141792168073427551564795367097859177724047493203348792188884; 8554154729014748311369961734273684593733185496451035845171623277413825792977; 185620808055645200174682363459428113350878400289229466007211219902767515352; 526337382526921626704996982628151946256812218816037210893624670674892188; 8523824738791789153919151067235307523631218332366883300404615633021592846970; 5904166835943583084908341912148361507357367200126943805053730559753699829399; 17072236266671437927908503627433000330329010614370675342194650592396890526348; 16333151554714923648973898793674199649181026852841238574525999203311337946822; 19033774931408586328590657012650909417139505508439406342777376478276651495023; 6523216273066527575602857276549263082816687190248130035343760683545133275724; 2199278233803547575884468412030535620987976982722701269354967935154639982645; 3416224906134977451830711586968265498220480881415308306556391818366557112989; 11668054268917501472572933044014163507726741308885896217484100109252847590925; 5212592348175796062563310966875455804880926791856826954637046511084994428949; 5019539951369711161215805878736585252958966730779872718478754469270962675922; 2890174081503141114608465737613288490163315514887643572009804580085615124403; 16252506390490135405993103841417790112661898686886457734333296728498434173960; 2408047988674285325925982512805957437989486813744520086676161955352436226351; 1718755486910044796608690407539220283690013760082362903772320571101997132533; 10708839126935610345385959449386548882647503017350290631154147377007835821937; 10620919825552019306693935448814117507408878477314990827142712678069108956337; 13655675902901194979197592046431184905954620242036505923267751941573351840995; 5725725428790796351459267976252958661421855653836454929406564034205282156990; 3454798889529573106887873420343300320665263365484166065471591711953653735680; 17489274388757531908865743796447719013074622347467783732695172089998522809263; 2618000173571616838433891175299141640088154947299929106806198910807971297448; 21671572047955157856291648727172512520279883525453656153511330613336939409340; 688769857737741063596562408189700140638438447326989646988709736969541764564; 311987515755451206885961714427397115587633588949679624329465508361341280871; 7102475173608369904749770043673829852113953090559332351698164920210305674868; 13292950980049415244627683364637424374143748470972165549609460785696984374772; 8010357146591422839749691643429541583475046176961193565006916367017735844711; 133517368051772554852429096783763136864217058726685332089306973155506767; 1066663422942203665218290409288589960220476504786800792474279466703887066446; 168150082308829478584639528919322886666491355271736020360296063193601039556; 9655686347774374026281927638470838173248469585487151318243607650422770423868; 4101175662373667187651981581651254160756762745515951661644363202455674075416; 8540839258896610928106735260749794291712858101437881347228361479897290467780; 13885960405131746003602347562748184940109860229408243622811386945293098825199; 1685224918023440742267936951875119150722068153273506057705919428738766332901; 93251216014653473933867272712523088248610329518626801648453679697649504745; 9510807493150587967163484469724788048859317779295491328911814166230918731724; 2994849673734582452181355406382343169415165509809169252616725928817621769959; 20107619275393065740999202706174162895508846328415833558169986901956445599159; 8603412903470251371062279865971035188840889995792712998547915207045779290281; 18500001262220718912597828774489444619388264172971051496616756600861358920526; 8671177651641391839759268920993010087502380363977451159063881816640826785971; 19126265659414755275084729830065677893252764179751225139495310987983687683839; 53215320132522112559814836234283067823282020628744430759498730406177162710; 17935001786536119495631075654644037769318467546105025737688882380970293688198; 15262667509675788151924604910758561268356434310987674712855252453398067676414; 3416630241611980719111548291052145103851931104319690712841552389683821458651; 14956431528598659751191806750566807432062823831880598012581318370127986793389; 755656361680585840350306939258471452247215846012662140587008157158526905376; 8966643223593238630165603056282073885380013748700399932415113486684389788438; 7028270164127046157053033086865275620635277549119812653173110337954298904049; 9845892671694128103872225093346830921972162147108690209485619896730590966400; 352288315014795760943081401432589218156818234043364646364073299154932511570; 57072605584174843100654519568595943636054719103765580814662554803417136881; 13613887308318445796373270115465867295590550635568688509717348514360219246438; 419688013354223935447004355898314198517871884088799918285900916321320437467; 156264995040666383025236983757878171932804491399449968822042152458431457629; 331587507122853437160336184056892400177988366665167313932671049409591473464; 179721599251832338961716297542650636346864036778577625937486548978550337589; 12389441919696980030106987417106485159537664283706006246556901580528593797427; 699538150407637626109669288684771194050315576242991743495931434948164848386; 15363979470037798579658459979905344018366134499033012780550712294351277644861; 16947306086640453144223232824226598343026565172982692944698055051448357584206; 5651474360768321710305338293459694466340423398197956337050269957150900356276; 11471228337974495983648186100306632273564861582216511502524952715249748499143; 4568286480865395551264295841621856160306412964883492514906413095687059175693; 17156754443111089301058063097859230659437927445104809505300604977937365664511; 16006992898113474160611250365742257709631458706215110925025541800392095925262; 11883882668078120241938128956579845405102002003977683314278682845564117760225; 10001743184678426699824874721294157629927942981102145951602175267503365002912; 459041016850928043757344223505840925311637389904675239839110644544864946562; 5478744315521327809963852810526287202476199693461451919913284635371489759795; 11797030081693659673634948062571002639905453841843137363312605358757386072636; 3696237385951330120328038913009976660879206132691367710895447337598683347774; 571386820176648375601120324894201389603744155232952989479521362015802004821; 7975628175663656077914145389512817919650687663466810797432486412924774450014; 1268124104188175900228147410610557532388015127599390454492538017530420036020; 20640130296094514229340867760989529319617262028296508058712044149234174122695; 4157751069980098114560835425361435139478456644670710280123052455280621371933; 807706780728004634186289179490024930730219207764371874200941797143508517788; 7767014481816712324395367008780593448643405055076675212451459320561158913616; 3640922097980666094516011571895792265579596148601278263011623489930139288459; 4071909010538316902090147926377709276541058872909308670776918893023291830549; 10045334125319058982299502594446416921053576633424456009920151963599505590964].
Definition hz_21888242871839275222246405745257275088696311157297823662689037894645226208583 : list Z := [].
Definition hq_21888242871839275222246405745257275088696311157297823662689037894645226208583 : list qh := [].
Lemma prime_bn256_fq : prime 21888242871839275222246405745257275088696311157297823662689037894645226208583.
Proof.
  apply (pocklington2 _ 2 hy_21888242871839275222246405745257275088696311157297823662689037894645226208583 hf_21888242871839275222246405745257275088696311157297823662689037894645226208583 13427688667394608761327070753331941386769 1 hz_21888242871839275222246405745257275088696311157297823662689037894645226208583 hq_21888242871839275222246405745257275088696311157297823662689037894645226208583); [vm_cast_no_check (eq_refl true)|].
  apply Forall_cons; [exact prime_13427688667394608761327070753331941386769|]. apply Forall_nil.
Qed.
Lemma prime_110573 : prime 110573. Proof. apply trial_ok. vm_cast_no_check (eq_refl true). Qed.
Definition hy_2653753 : list Z := [0; 0; 0; 0; 6].
Definition hf_2653753 : list Z := [275273; 683317; 2651305; 845795; 99307; 1802089; 190702; 828708; 529468; 333729; 37122; 768389; 2368424; 698191; 2158667; 118199; 854376; 409005; 181018; 272503; 962; 2342388; 597140; 9908; 590112; 52478; 2642103; 694233].
Definition hz_2653753 : list Z := [].
Definition hq_2653753 : list qh := [].
Lemma prime_2653753 : prime 2653753.
Proof.
  apply (pocklington2 _ 2 hy_2653753 hf_2653753 110573 1 hz_2653753 hq_2653753); [vm_cast_no_check (eq_refl true)|].
  apply Forall_cons; [exact prime_110573|]. apply Forall_nil.
Qed.
Definition hy_63690073 : list Z := [0; 0; 0; 0; 0].
Definition hf_63690073 : list Z := [4419448; 1889804; 8711448; 27329205; 51868540; 44833870; 1806065; 8505225; 10275902; 50738187; 11507447; 1036960; 14810750; 13880439; 460812; 49437545; 10386341; 153622; 1628574; 39970324; 9339886; 14406653; 3359262; 8455623; 28440403; 12355503; 34496211; 6970274; 48762712; 8225597; 42628564; 5430551].
Definition hz_63690073 : list Z := [].
Definition hq_63690073 : list qh := [].
Lemma prime_63690073 : prime 63690073.
Proof.
  apply (pocklington2 _ 2 hy_63690073 hf_63690073 2653753 1 hz_63690073 hq_63690073); [vm_cast_no_check (eq_refl true)|].
  apply Forall_cons; [exact prime_2653753|]. apply Forall_nil.
Qed.
Definition hy_254760293 : list Z := [0; 0].
Definition hf_254760293 : list Z := [0; 0; 0; 1; 734062; 14; 99707285; 4238726; 48084490; 1; 227324119; 173494994; 11; 168359654; 0; 169413461; 13; 8076135; 11; 153003320; 41854160; 5; 83761968; 2272739; 6; 164312586; 204119407; 9; 40312342; 219568135; 13; 179136231; 174133891; 2; 92900883; 10; 193374309; 35109216; 15922518; 3].
Definition hz_254760293 : list Z := [].
Definition hq_254760293 : list qh := [].
Lemma prime_254760293 : prime 254760293.
Proof.
  apply (pocklington2 _ 2 hy_254760293 hf_254760293 63690073 1 hz_254760293 hq_254760293); [vm_cast_no_check (eq_refl true)|].
  apply Forall_cons; [exact prime_63690073|]. apply Forall_nil.
Qed.
Lemma prime_1607 : prime 1607. Proof. apply trial_ok. vm_cast_no_check (eq_refl true). Qed.
Definition hy_906349 : list Z := [0; 0; 0; 0; 0; 18955; 0; 2518; 334366; 0; 116209; 99736].
Definition hf_906349 : list Z := [48850; 38361; 452875; 151782; 8521; 97938; 283898; 113; 794918; 39356; 109682; 91862; 78788; 8; 2840].
Definition hz_906349 : list Z := [].
Definition hq_906349 : list qh := [].
Lemma prime_906349 : prime 906349.
Proof.
  apply (pocklington2 _ 2 hy_906349 hf_906349 1607 1 hz_906349 hq_906349); [vm_cast_no_check (eq_refl true)|].
  apply Forall_cons; [exact prime_1607|]. apply Forall_nil.
Qed.
Lemma prime_2 : prime 2. Proof. apply trial_ok. vm_cast_no_check (eq_refl true). Qed.
Definition hy_52435875175126190479447740508185965837690552500527637822603658699938581184513 : list Z := [0; 0; 0; 0; 0; 0; 0; 0; 1368270885797377582764; 4; 5889981035749121395546196515096900325825584784513173908399051155681337031525; 4634009759934451136168787395928406899060342250824960574266598867847001748553; 2; 38283213957479704260499783490687345485278100687503546552181979047419914870532; 2211763334305554408557404738024840925950458619951370224911664755650702193514; 2; 43608074426097269417344100230938344758583656395883419303691090137914343935271; 10054890052338605943040932943862160030094370031174144807047006880110680818665; 9526851644157736274252876732821777300747444499115321315836250658044127846889; 8254356972842353092307973396790868856586905591800062893879061150597039334116; 2; 48283485204843607008056368703656308377619667961324352497502120571060126793047; 4; 24569552163158105514525305316046993681717518353075538560922309424238035216035; 0; 2669547226173725786051128829084384218667089386296727606163350975097772982392; 27856228724657568902543154286533056886571054840431954461151489996800924814670; 22977293903727518836888040495976186496751335084822831247756746735032514702709; 1; 14126726849621560472246311130548569247906901928333300472259200010311485991392; 3; 31133950585108127739567815326809533327672578303059770461241961794425105291; 83248393156177105528380386956768802849362520161705811421824357151034980420; 46267138822488353354507538282219678675965552683449704898242539448873505281091; 1; 28744628662300846993816475181797169296595469871342294072943600597993089617705; 0; 12930166056608503141198379448558339759147252626779465814759163723162745800245; 27637948734561141936786134813769298074792041190896405005122323749026931570554; 3006480498668897930110584217811292429880059415291942198513221375087171896755; 1; 976327659430535728720766221861124252615345108357850446922074392940703508337; 1; 35520307558982660230620681863995967462089626905233713538974283599890599126096; 3; 26201153758846059834487187704173201821821983650616261858702413653868653573312; 3623086583386550977645104755200040076902975574509435045352253995804635002878; 651446336136508429636916406521235016663869555965523827196042623782693737536; 2; 2168229132436876382760280930120239720290836232280029156632286955518058055553; 0; 32517756044489971482858475140069076947406800581809457027795259360836007692030; 2; 38327850578994535761890996301422341495607748802796644509773265032549024096670; 40027518283068068763464082111473953989418418400290369873915288218994984379202; 2; 5108707112950875532038597339097903255908472108057431140608882137425102669166; 2; 2700975495625232713900088242224452247406474287790024534846817985177109142320; 3337954512785197581937878583535432582248589172712288242904804430296186193022; 3694212002593448280770922793938486357798242344727991022030260127841656706120; 27358510708925259035501156477425698815512004229399113133402966341256640620761; 24518364757580431831700752883547012633944252642395074854324643923096134069485; 21076284523202196795670005834530706353339353057185394198409065784849651740460; 8197093419159000714027795542257548678100845754806861543379633020481099043986; 1907833929668647039755138783139756788158950110287779541451578487600396043484; 2; 19130017987316818487685216003233543118304539603364161184224841437220197442330; 1; 15955399508257136670476024113335297959514380629232862134253560826105770218114; 26983676270619114974496880172704052913739712533860383843170729872961288832087; 50860729550962497608388266752869249314794243881275316203845822071646255050821; 494188776997207577468943738739325169385193444190187502251716781910149389729; 31314224600683353730900499134621925567834430045046027682037826003690004976676; 28091368775786287811494631094705317526658445658554860293187937429788579655992; 1; 2997216419307767388879009640721941158345758543280818219918974211748089116966; 3193088221994091347972076344125349081837551079541348312121205458675020341831; 22975171579523821908241407673576438968012985366443308778857887103268606775091; 3; 6801946623778037495319811210402620337981861331447344080827514744797094210797; 0; 669572043788267252130778199732774411179314434024928061438717394360630331699; 9561523161783121070565376063786030295015555441406640156158377577545142419454; 0; 296421362156226096040113104284540336439553012893349859329170331185952551050; 12188731117291535451466061499931476050590537863859345070235928668246613962430; 37384988762603956409438058161764395489210781708574173322627392031186990872839; 1362412421367176154122593487037323760838981088736049868285976523149425292562; 12356269470400785417632260568227646817422798028150708414691914421089592917705; 0; 4836182978204265144683871663779920149865318240362277103507053057328222183259; 1; 30994064308681970015900404318576380132335388739201846773874401448475700675177; 2; 11769365381744096625995032132716026883800898365628061365042686185980597637939; 13121426699080064928040113831058606243881327333291936435849561717905686906815; 2; 46133013878996567141325921971974967924350512994309450053081781697708403922048; 3; 25960896294859031410300650457204610912962063039393284543721306658766135068611; 7579776754126167691440857549779391226897302250380909838925563020571110635756; 3861839821969148696076115736970886054705192269961558951918021992212599048997; 12887073020222341646563956105746614167966727637229746908744466691768668147849; 2500998183314105442125283371957351385108658301021472920163835578416958856182; 34555888350905913015397437925818670737043398362374605392893203283244374738232; 13218888680953523151206067667182716036279072368469278137589041995396301704254; 7864587899620580441017796280582435702818958679185088941286276560325575558789; 32764510374451158198361894225348052747828911929167849145110299334410760989422; 3; 13438897011179814920088761569257877507067081975189080541137604356399758145591; 1; 51695946114041116645488383788923000287780626241921195789983191941590273807581; 10993078529005577831160547318811144838930672189569336170339381185983407479973; 17850280116942166095793157947620097629306818696738720280298295203669690054419; 19591245044702700049058830192988646689280222746831830693952315227508571555039; 11660614475412018896254883719560344450347335661342835133547229110018314224480; 18373032462738954269358861305271775066067868214105766622869884423636746881983; 19561787951505450531007002768803837955660581347355274678322591554614382142064; 23813420243458922375951923574102754830622390013078125105302681902832601865990; 29670670367664643093184180129709384250376230338883574565704606160977213695301; 436056722075227572122738179990208616463634071503576653469997800245888314058; 2129420547849460677719807527041237103727634667016023101325061986257299909875; 16559927562224249918828638087412829030378906252513834564142727686371476967811; 5693004620646251068489930795652709726945207558020115099871550938762569734425; 50790218104356478611165498860789274518409240744097906110939901031574887420306; 25381690292388748332338016452098405078016887490727260541876596869306788346608; 2; 5130554750535759303346864807912765352671637980634272456675243165108868000554; 50861910164519763643198088544686845156730747122864205168532622598403776150475; 38747121416724837131235631261051795013739649828490563353716315523705213285450; 4; 32535907091488015307994838651966036257528909205743349007375786939008539847049; 1; 21704690459854947470053478178258897900263824016389558660541168954131560646975; 0; 19066580037773220884832405504935981348513411296280505189050194017304731215687; 23592883831201456283175146935016207137674398197463737294746037098069322136768; 0; 6224125533676853037620926039331517026540490223176122651705917642385848380915; 2; 28040285326903219668311016312394305514361725397799225863484888221208950705506; 18230282046134655743461733017581817788144305632042515554051736718608803373425; 23087686638518992412291994430126181525031549894978692383512647935744667590161; 18490563774072139990085102909258484078416549587237427467701008795498616364008; 18128915861831650566525517762840156557920002587068892634256887846983292953979; 17321097890786012181325015231527496478359194905456268060123558337687885789959; 490524571306743355083597292583621526306374929300919041671176133362970836; 1002674132356913079824903027249962512292000064633254575084800591806128615867; 4; 39102939413529487932023624311591653405326024102787953740959251982192193921500; 2712869338236144590977554474709515233997774249003392696588626376112870944; 4; 10841735038167381391807697556760248458589689178624496554162767580310683855670; 2; 8105733313302059385845215906819003331468182612134444958921005656822263838815; 0; 12720275036381300646029246941912704137146941591467489923314831905846196504235; 4; 29926085888256214743907861905042724034710959060172914483289543100724879695736; 4; 3822977687889866585166388531005848899057810294120790869542455806611633144802; 0; 23944747905825123332060775408875714785473865746198950917282865760437077029054; 1; 7899582526526088231660127468406909503683457755071165594662504159613634916; 2; 15801166323781271119379737028799740118809961622742985618635964224999868609447; 2; 48779841259043789856176868613429486704857349014525179121445275415159229692190; 1; 18741373191097787845351709845904651877588283650873151206038346832763042473193; 3; 4077956513858222761273130658878769606959774397263649998526963813583619533208; 1; 856857511802466186926549321321640085534090418193196774969578064394739763027; 1; 45287933913603934993124215247966259665816277260298054047839382327171215435237; 4; 24496586011912703842452666596615874501281870115514392535847433200812963621466; 1; 17735224094940796210756353257798923783399571159821091726653444987696590502549; 3; 6850985576560245318881619677283755758430336229138693091975318102000965217019; 112669787050972518994823387437792001219861939454062478554048168828802978355; 12997434061633831767009719161393147258700057906047764943407826239498808622947; 0; 1429705469268714708759382895998064963902752722664380475388309861393547082286; 3599695409411551027311036157476226927951905455834339796111616439922963208560; 4; 2444981170573953774139036627932925345272562146162525391030010887915485976238; 2; 40794295202039354077381067637885552077876361817789538719516412167233646107458; 49247139919768589575762140720343310057151847374081491476931672110597104229060; 2; 16272781728822727556029146555980998309694692449094348626703685358544551679; 2; 7159692214923269823076666845407043520703732767105573335509180676828821434673; 2; 24421492805526002430492342235463744061981412099187401274557093979111948325149; 1; 14887460371973625490892195095304348550635748025453240545372414147522226140197; 2; 60372828522080998631259880365146616597802363860944135928059184315396014569; 3; 1345134235557399998432639867894761025375299009542067934463451480754148644817; 3; 35140393977526526824356292838142933449289292639753336241970727351055351367491; 4; 19755856408844202341018094302197071564165590985322544237688693985234584731842; 3; 1379740129135126592788638891311787726180149066065505023984708056060565640056; 4; 28961336185061977194029128194908763831040455385328717282723654351930931805701; 1; 13707439227941470146681142195775141525007761376009200391684896137470247152679; 2; 9245258655672783317053485359234836164259142398479201064027518183527452600384; 3; 30027217412474766756690259835248824627392439645092208228542212857960912524012; 0; 5203804985927513291571378902656860834080131905318649501888768942498684727601; 1; 191985670349117634166956456100874050959002735836646548664774405735944417626; 2; 35669803392740984529121986084197990060737796443112129069864504110577715145; 4; 210065709382200014317421319231758087122463386672137628699799762651085769443; 3; 5713815174011850818960851971217440896531399721158656134531600651709761647179; 0; 62190507729024446564729489924193991649787645680290323763495910580676385492; 2; 3080029795817425826246982249455044763033084542303587046930617166335921341772; 1; 26788139920416602791058620022420217293062743109578388582623061736910504459230; 4; 14546642165972365691340068956635880248209296996101638722324553560699145613015; 4; 29102857676633198647865918317441869618105863020482827914637325700080534967577; 3; 4011932953842780839233028130766354522520533015499390352800369462413920460001; 3; 115311851194171825795602229995688329717959867014526537165815487511423794843; 2; 37241881715165655889814073668618696771359057715696928769455680786473652643557; 1; 47276497883974194103227548013321366420477218122878154933743392890128528967485; 0; 2591894436356735955261192467481977799174327275430303427289226006337346202939; 2; 26282749403831463366655287973986148507212961105625749650812096755259646335948; 2; 40659409067830857283856796432930476478135137634805359823481950888339655178159; 3; 4652717084427304635215001855210321357971712901755266957580565780027216971231; 3; 88692308649372488254348770529753429337704870325816467123476619605921247203; 3; 11116004417849629813951901461813267199571689930117893689948608563323585702139; 1; 4872237792947068971131937599392785623046357406310990676856993270038476290908; 1; 12530454700733898196604730298840134204971328448079647738377807993698692860956; 3; 11530881858442069873136465785225988726599997826370708953974053250109248742346; 4; 34804179810735769104118479692604323913121725371104814035584404895143570539592; 0; 41612056381554707502930501460489986459170733501737558479573177771019228253643; 4; 33137749807075204637249783619271949689695524675108824914510889741800530310094; 4; 25324574072506415948497197651545911262450222215035499039891529405488404789790; 2; 34725852268007989129618275997207298074629702472483237393866075996877011078493; 1756906466420886891769586844524989780549178445657757838635233917213707374638; 1760565762378503272866006868526844729390005727643251553985865819895973822230; 5184103995861835549163214562829710338399477477978282212287094349226216069168; 20186485854360789861383764348686945224470381082014449629427231642965064736; 51090373523626219624353756049450784772398654807133430406381815976103392295017; 2212033327042902533951961828961282483006763144046496351217785244043022222079; 2434458716586341113332698678261151057043291345954918882043887971659908619090; 1902225661570005168901579533528032258977115304240718259901283208866225585957; 66715679553898190301664877122072535715632977995395978335607854316255456097; 12574176722641154120088408840955820485456623313096956973806129169020780764687; 29665273260044159908435690818556085653479186522654204444170407017447616010053; 857103488094079007328152523451120316599103266361917917383132551883281641; 34979730841165941940182417857790921505782457445124651203861474619726045084870; 12172271975126064652873908833599075268377353393248171914821463064676173261693; 22016268877134772024999407916752506042783073970286832519967685028753567498932; 14455439994310639318567661327894048573187707151749760612337226903404251471653; 22832989597686185407000944016054811609970652573203427086324903158028715792190; 1395154380360429505672961237417011751504125328180231548065283642300808995077; 30793836159982861639899514625016349714166876231582014099222962690862377697749; 836856425417699860937362777761844928346706537234343723159592486389345923092; 1092310194726364254406263050648877330140576712889651933655165036260070508699; 8013141438741192231125626213186324059228575249739268970785457007315168537372; 29698626614788952599537697284993570040789573558221307863262706339695820551783; 77324035994686042105855916168793514384271004579662285428514119904335265913; 7667248471700461565841110910465412057212888093886403970355145067900905550916; 18451338366701680977091402559366996800483437750017325100991705899102242660867; 319817116756349910887107466117669121895047021460785971128183050127621747228; 28536168194456817199616778650516287565016480847839465716875309074099594518108; 1227816857027646735961596000771316145798834019923018679425019509921974082324; 2342743906616237122291423371479850530864166919373349046946360564497092135456].
Definition hf_52435875175126190479447740508185965837690552500527637822603658699938581184513 : list Z := [36259249312263163837960127608279937350015443974530841958536014595626785281951; 28621710624976085080153114068291873774048715219021190394116095735755995191797; 14755569238028650128778644715390849190898822753490247058138237794770810011893; 6117109752310764052288136223218154457874400615430393007793590765944841743478; 51644735689504395586438263021945085550696786266953581829782545654840647947889; 23501316137412946208491091085519910927452333621298377210187165792149423494272; 23667379955889774899996320306391632188813181296966755905221642940013387444933; 17177350725215070309315338287039042895413987770537577416488898925743152739429; 685010609648615492364611424151926045534161027321824245080221914724466976229; 11388917025147232265879760153968221875210785476899534813211225382799197345807; 17188604035187759539854225175156833262657408365029125348409074499007164799771; 45734727472848671284549979212184399976150497833890034730528128858249929392; 17455105114653401434369543246177474480847610575466998435075901542764980136851; 17777832596607581079494688660571654695658028290767249532048952316733681497163; 38672909783843779298379073935775933649379745598020099482701538279127975705759; 2136686210736746789561344093901435275099251725842912245704285444824835077182; 33149487931553705488050878612581047919726196763975539753262150322751434712223; 2626905222595262433834700853289177132663682426348839281704956730232686292332; 20663376516829780167665973233386943682190226523960388181780872959791466926082; 9260983060700748550607592642184348685918841201160222601156114552638885785259; 30489820536939932341153110247032955845451749140864095983214952564560334015945; 41357542589628139892449059037975123723268479733347876952351169240857761862431; 274522084030573291294688426207904566253493694473125314886600596900830472169; 3850187718369779817464206538335188013699968891452019285298868449365097667270; 6644687269673935468765799184796965886902539887984250248934893876334250868739; 10175806227683185107092559192724600757929716946766941468803122593714324065509; 31119362731045194870441463688044682291516803508389474675197432218152798960765; 31341695724788410113582194166916453896238076578582076963601642556213374661263; 4687319460060783998871668807024713081772873274419994213225990227321739316536; 1638092833440875134134530683460038258902878888426079953212756050951543079156; 10515318642559388750233825066544340063578847199071056523035242749603227147286; 786460608494521170326586290113160167713863879804482177762993234133434795814; 44709969392035272302666253829148783644519344592119940747573413726949112067038; 37643569445934155264628779393569222637172283003621104786282562590189316033094; 44658595245249905796785119315410402921394217161529486638729510774052640074068; 17715782449647067954409125915567495583802581539077245867628983221499947770958; 35858524693676743138976821093992608490137388188693187541921585856684654427631; 49304043513704750459469639428470547386651738579556085140645612340460412325258; 11740442211057663983111840422876058097935807084151534342706355675360503651247; 2699394661090110002697230959390868381018403071487138813359884795093745201063; 4208256334893821837813069996788831709749222851234740012125079839303470155441; 2465681677999293783905345959619669084177359162545687687615589819229739168441; 9280085864434008675047290727612759051620497230802084321467071916787881510873].
Definition hz_52435875175126190479447740508185965837690552500527637822603658699938581184513 : list Z := [706939144292864539507286270309384815647164572149540021685621707381130865688; 5074226138188940004515102356779452605177889395645914401183451528668093767063; 34888501215060255875930578971401331248368535548417829627943869939257530618793; 42048342637042838705813311808555424852372941515746146462765317267296898556211; 49702589587595365234859037439258668298818701886908866753748375059402160395; 1188863539473802618013244232892638862979331223846026230897362643573345446900; 3889597018545905010600241709716046096700246523918470910103268941262155235648; 9303846837455660278423727488813717460089051204565841146824986849844875118134; 5525545163391723522282017932023513807565841527923374508175046703176349020721; 5347276716509930399022171366448792682382385040144514611633358131049798633712; 203605903949372664924801962466069646421000461806851879027221044151810004426; 1538217094350396777138852368557930187072113971490983195759989607538593232312; 21687772508003987977397344395675642848193283294527381192823128468886520378021; 3419876885495362594631924896772975767719415622499361687746388646362488516300; 3718166658975910898554085875650789563499650187492023213417915767000631075139; 27879128922240359421294682438493205301016054277949962016667113830071202326611; 36755679813437911050950651206033482320554252073875212169988942139101515099; 885213576960339924884851833538852472835160935692803885530429717169389581442; 4849392086038838426736430204220818134787542397684219828800876252357482236; 5051213553985296060017814807015272003825774084025454176364563100182938161016; 1152711757661728205477654744379601739541775170999366840101111434675794121791; 2376666542057701560310213054760163387508318937263703523934828190794669021802; 44261441129416738830451989776878711226158488355449684859749054791135607707180; 8937822715436074118409614967698394961012575419626734972585258179461040526113; 5963597960178064071394147667633576233770411581946048931164448887668511087925; 9488767157381718425408162033335276349909376933854320092315492103847152046; 5491308700517937273286024278012930215023534083641560156760119662683680798767; 9822992021843429174710791843715256663396917607401337207575622571717437587652; 37937147380873076016333436487001087169001019871339238523140953858743542262146; 2288336987936666432374774168555068814263987895487805361051703663631710051204; 6034171616409318836450381223856664811028770279339894681037005826584524329422].
Definition hq_52435875175126190479447740508185965837690552500527637822603658699938581184513 : list qh := [(906349, 2, [706939144292864539507286270309384815647164572149540021685621707381130865688; 5074226138188940004515102356779452605177889395645914401183451528668093767063; 34888501215060255875930578971401331248368535548417829627943869939257530618793; 5452120629880105247180260748546338926445881666702828100350705696422844282852; 7701702091991453425156130296712793694020716839437783678908445721570986; 5038083752085516521342806366060203660294047799535919569358773233824571012978; 26547392963461716838279734197923640404972028023013567264638373301991318945028; 37080916818896929891567341053627016682341950867928088768957439585958256281503; 31536234728450706406009112388342802460593954221033751581952338785267848428165; 4159242859729134582682258847740322860687436928859180050529701281848981640240; 48106052490419140907252216944128791045512163850333831942464508259095227100688; 759623376965024639678363074178091802466136970598763799120440141268844298824; 3971828899563914505107428424176718784883624315994405409026871491805223822947; 8915011964221180066993216149030291615702541516030317462226416815636032210960; 3914678165108390007218375025016585875235320649892540193467534690959785934147; 6987647728202224445672271066180042831926941369826826008932134899413706038011; 3194156224905649251703332381212046732701572867494267558697273220461937460498; 1073590434929110558661410763332207690286176706932348196603879216541240005860; 6058224451124293921398703699542735398323337501284545132395306868236664103498; 2587719205306855957066002710423220665660581572023639512831813073446383092663; 35177368464669382003734339320697946391219611817768506868739863791964270724103; 991894740357225687145901527414629153030016505276629754083862575004796807065; 5181135631605381410144596801593894014386176480774882016668046535335749869420; 17049934930825085766622465686896435723815495931526734847060242147183945775577; 5021602258181333953712702913880337661604229413683767239819794862393841819275; 15429133553612777117432403288152136962784713276379353361093749400876273460342; 163247750845571475991411246256066741134240255841054969674205899481856730566; 4534378524453638242903514471284735240594086337044208663080964799604030132056; 27595948929223813151135486929831464372113653331857398670817651355521751806204; 5553877225800961769499362971564994236236451748029178996458679456722594129878; 2479694732869135894920779610832118683876016071694998567351701261800035226875; 7033876335678653654843450438502087910462601408879918383604575041455826833909; 38063083248370705609887293942892485495051484167491153671253465591250608267015; 5239520744586565485477229123469674538510390698092736129891663523733031830895; 1992963914435566219770927355959382895325483949409677476987338807367051725892; 4638004110548354671393563127028508209106097056170322246990158411862604173715; 3202530309967250177759916892855988332174673743194721939615217976352230705223; 691097164895945597104875637638540776822114386613963901520165273628788577289; 10875693461349266254193219542478935991963119011715237594362151019870840298449; 3218489562422935090885317898923878524725820168374397745507199486348865596331; 45733797621088602966162415238192071207178774123272203368508986426312006239799; 19596337086415710451776233750681022832714909717300044727852506848403984040477; 2954418676370299097806659198867250944613289344712724278582250092385324283115; 9396914715673406641531885106301706502126482339760803529604658389973342122183]); (2, 32, [706939144292864539507286270309384815647164572149540021685621707381130865688; 5074226138188940004515102356779452605177889395645914401183451528668093767063; 34888501215060255875930578971401331248368535548417829627943869939257530618793; 42048342637042838705813311808555424852372941515746146462765317267296898556211; 49702589587595365234859037439258668298818701886908866753748375059402160395; 1188863539473802618013244232892638862979331223846026230897362643573345446900; 21400660988739504006533253790067013404976922430834460576308532133277737037237; 3581286524420498486296177922996841674682978505277291993626003772224259585041; 1565298889047019294900425388124743571447559878417019430362638708261149700671; 2227203761719958430767411165201369568720417769064940211318937523475278174056; 13407887112923606139477452668422508479472017518042873417303764052737507840391; 46308541883582985548597807703671693497373597905245569346958676864281711562031; 39899182271927611250630568631121036339839401630001420114918419366806975188138; 999173030271167846364008001340196634268606815561055553454960823240415395231; 18896509901515709625599210188910180115450684825321849851589323907542262769906; 10095988537081143932109130183908799852287126668974741020851026551918173300125; 47594554773318115008153361768722190451199085006977175002778383782644897592606; 2125121956570654636512774920912207255544645117958921986069216223500362481962; 3660991811397382672688208388276957912302320966244495310162099588445905810407; 34154572111117750233681378508613661350106921446414019553311117379825132604284; 1025240315355002387096715549928722094097123851615152587079983848131379426651; 31337717648847805258848744732848589356446231235703557593219745599384452975552; 48494148021601437561481823044860733239601435308101798827863937093309498812113; 8983777615086117115204641082205043863619164412147782736274527896475876093392; 8254809589271478600082422033265356260349111771280741656465460826741209220914; 5857858164243633455251732723274652920430782481887852139605644406041454406760; 23290444201589071255734363324721316501051735385080368423348745380727254466570; 10295165850205820812343900808680685342180005673698884778092360576816815744421; 21053523535914474382430415349373625156712358513821743172042671550907660114984; 51638073403474646916175621586546771771947343738070968836805333712809939918545; 19488464965210073802271252794070295929996709338042008904280044079117378661693; 14868119589864308640824507724297622419087325034625419701238253153293581216613; 45805895424053570501476689975073605886722485499429832617002063454329285329629; 41354146806790019369022881636516644411770205835454896609276924271721245798197; 7652822383580971839538069516733783559763285242324499189908994730154713458708; 1913008841253907986206831432233439779302886393672298568024993424489462583847; 21339024819198443163876774311223189575146357147812744887669371696272277097612; 878524487439332709446643526609181086452250411789308737452242014875395014859; 2818791355599363186396042133901070798787174922891549580869484156190767314272; 14208736011091086748919885305875568232805516698488921413176362044826817603785; 14676453831840373808115226783748695850494857881438471124278024369701333211621; 22347749326773500676354492684716850060211964809486238793139149685628618776299; 19933831707577052288823786744876541441423999311813577391154090378920201349492; 25650169754556380540509922892156357006727045238861841818439839044230221118526; 442110562356148120526812974197334178031742191263249393204458038097304441416; 14111578434021885957435821243994509053882605653210805926292728831937328383996; 28220883293580855179891551359892034009212599095119324549920294818412295888962; 25706373810803591301228281546776003385040361760456866120659494058749581176292; 13716160660685650796312313602235442076497987952341914896684517341903146268479; 129222128335062111474405118648950068954109863905808307442704239401288517624; 5261040173184443964884401743271619211667281808387792380538802085895207043718; 1564744363048652017381973628838508316011531787296312095905988394469794839123])].
Lemma prime_bls12_381_fr : prime 52435875175126190479447740508185965837690552500527637822603658699938581184513.
Proof.
  apply (pocklington2 _ 5 hy_52435875175126190479447740508185965837690552500527637822603658699938581184513 hf_52435875175126190479447740508185965837690552500527637822603658699938581184513 254760293 2 hz_52435875175126190479447740508185965837690552500527637822603658699938581184513 hq_52435875175126190479447740508185965837690552500527637822603658699938581184513); [vm_cast_no_check (eq_refl true)|].
  apply Forall_cons; [exact prime_254760293|]. apply Forall_cons; [exact prime_906349|]. apply Forall_cons; [exact prime_2|]. apply Forall_nil.
Qed.
Lemma prime_1327 : prime 1327. Proof. apply trial_ok. vm_cast_no_check (eq_refl true). Qed.
Definition hy_421987 : list Z := [0; 0; 0; 0; 0; 1; 24800; 1; 342; 0; 15679; 0; 330729].
Definition hf_421987 : list Z := [70270; 59091; 102060; 65052; 18995; 267469; 3582; 1247; 103856; 116111; 118246; 142661; 3384; 63525; 245853; 143516].
Definition hz_421987 : list Z := [].
Definition hq_421987 : list qh := [].
Lemma prime_421987 : prime 421987.
Proof.
  apply (pocklington2 _ 2 hy_421987 hf_421987 1327 1 hz_421987 hq_421987); [vm_cast_no_check (eq_refl true)|].
  apply Forall_cons; [exact prime_1327|]. apply Forall_nil.
Qed.
Definition hy_13090036741 : list Z := [0; 0; 0; 0; 0; 0; 0; 88076261; 11197679364; 1; 8329484336; 5248451840; 319975892; 0; 731178701; 5532899902; 0; 2545771; 0; 10618851158; 599829594].
Definition hf_13090036741 : list Z := [7153180680; 4703861597; 5785245176; 10445613103; 416120773; 3448055560; 456341962; 7243180758; 50508345; 9073418695; 1901984803; 234459130; 7920903405; 1834739335; 12211574602; 6978919; 2344901487; 3262325492; 7131408860; 1505683943; 4151570683; 551121768; 10975977515; 3783991424; 4580286435; 9009217269].
Definition hz_13090036741 : list Z := [].
Definition hq_13090036741 : list qh := [].
Lemma prime_13090036741 : prime 13090036741.
Proof.
  apply (pocklington2 _ 2 hy_13090036741 hf_13090036741 421987 1 hz_13090036741 hq_13090036741); [vm_cast_no_check (eq_refl true)|].
  apply Forall_cons; [exact prime_421987|]. apply Forall_nil.
Qed.
Lemma prime_1151 : prime 1151. Proof. apply trial_ok. vm_cast_no_check (eq_refl true). Qed.
Definition hy_755057 : list Z := [0; 0; 0; 0; 1; 114101; 1; 377875; 21336; 130019; 39589].
Definition hf_755057 : list Z := [1899; 721588; 86236; 35828; 25148; 131640; 36644; 90078; 26544; 492668; 11320; 32200; 35404; 74237; 11890; 63; 17331].
Definition hz_755057 : list Z := [].
Definition hq_755057 : list qh := [].
Lemma prime_755057 : prime 755057.
Proof.
  apply (pocklington2 _ 2 hy_755057 hf_755057 1151 1 hz_755057 hq_755057); [vm_cast_no_check (eq_refl true)|].
  apply Forall_cons; [exact prime_1151|]. apply Forall_nil.
Qed.
Definition hy_3819663927398918131021 : list Z := [0; 0; 0; 0; 0; 0; 0; 0; 0; 5185545; 549046716002343245781; 542347571929906502771; 0; 167601782917310267584; 35072589194459631; 0; 668518360428323298306; 0; 2438537266316010821777; 1570002949020157092170; 2660747388289273642937; 1; 777928730294722510383; 1; 935997951793404867905; 1; 3479706551454989879606; 2336279479626564881254].
Definition hf_3819663927398918131021 : list Z := [1309720198750659135808; 25704350842906073413; 3383758128198975540353; 197387730421060531931; 1111084660772337110792; 3516607811371919936508; 2894940674886177352782; 307477498342251450202; 25724376287727841319; 379870650717493037425; 212198604867178244601; 3025694952897975636996; 1486489580512044231517; 914669587882535538194; 1370158708177361333910; 594635228059463464509; 412574733045467168115; 1386037689839470378850; 479216170700487398620; 1009846580307577846569; 2655268418793838508032; 892567401043096078606; 704939138130415914226; 228018019207127112236; 125136549188292595108; 255233632825466176994; 2087552260413228609276; 1769264122400936664961; 550570191637343140508; 439521472127462607234; 1379831665945751494643; 82668575195054568179; 249295392297410330325; 204857453001288471553; 235907935577129714945; 1819408760260917831134; 1048742796012919346886; 30502095632744755878; 746875561329404886623; 844994507383936618477; 3393668905559729415; 1787233570008951010094; 2272855962257268361792; 3722959823520546163303; 256732531454909520905].
Definition hz_3819663927398918131021 : list Z := [782263072630339661830; 125727077008550266097; 1203553354535505466377; 1975487525990799154480; 1453476090034254396628; 3398450472543496488246; 1253359893898028034474; 7458518860081293996; 19766093800746066510; 2052099380656137530839; 940076982287432337965; 637701778565097353444; 506324930206314676115; 745975268162949291; 2395243611246155396754; 927834107664440240058; 36254626478676900061; 3405053651881569348624; 1228457006568308239153; 1660322019948495425212; 468502714803240974642; 325061755830714060277; 500990811330966192516; 1688821917959128928526; 2585583561799735670974; 354142257672480659939; 1678590380799651850826; 856150500980775992139].
Definition hq_3819663927398918131021 : list qh := [(755057, 1, [782263072630339661830; 313610665592769444363; 1333581074027629070393; 272017054451351944669; 2907279754616154152140; 376881798113975345450; 2883179253659322442509; 778918611654368363935; 66084739284088786108; 531326960145372377783; 1749066677380893647514; 9118255267292564717; 874215387120637501583; 224995771759894603132; 63484291722677779289; 790265575671505806507; 1161772821053818353662; 1541321353146290207849; 1379904536880056577354; 1461450990926907264788; 1593358271157955205162; 1983919722787735695803; 910009446208274121109; 722381707233909968495; 1284462403733380250174; 3292713889618810051337; 162214699408338793181; 619654314399979145808; 81012376262443690678; 998412624561109329692; 564236334011011369384; 7514256689576858496; 533538660580223395786; 3397870075447566688311; 1035473059793872302702; 1067600600248229015171; 3668176540475525369449; 496684701420888142068; 1566746564224892205197; 1624514002965524945520; 1889304818754799027925; 919154826862942683298; 2891991532175221823129; 3186508949948057858936; 1672769882851253306963])].
Lemma prime_3819663927398918131021 : prime 3819663927398918131021.
Proof.
  apply (pocklington2 _ 2 hy_3819663927398918131021 hf_3819663927398918131021 13090036741 1 hz_3819663927398918131021 hq_3819663927398918131021); [vm_cast_no_check (eq_refl true)|].
  apply Forall_cons; [exact prime_13090036741|]. apply Forall_cons; [exact prime_755057|]. apply Forall_nil.
Qed.
Definition hy_1125266252156850182658904441386709967 : list Z := [0; 0; 0; 0; 0; 0; 0; 4838; 0; 818128701106489446170048419135082579; 0; 458691388854489204349250932581911130; 1; 489140948659927890071075780483997668; 0; 1516710391782329288157767107377409; 1; 10106317693328371083625355899715990; 635264872774640849477353496554783749; 0; 93382524933691035151376777203958133; 1; 1088306018919074885383894684873219964; 1; 4660252717715797129899495172535383; 0; 405017546130081276598100069023106893; 404400144424879641094865658131843717; 0; 256104627370900596805280745167526563; 1; 284078940476744829707160203788125923; 0; 612114649273566827130030911011536097; 1; 95607448979030076354712024696737275; 0; 932334187359452653740198739436051120; 0; 2990139468687530120961567444503575; 1; 327847743862051510222370952701483436; 85383308356726175892604527757670026; 60063672519710137126421361358997762; 1; 14092729132199039385949614672869200; 8908434541837862176451433569752825; 0; 282256226470390942646166333953118601; 14727241305098546550887103313962850; 91767074624859704912670597995132493; 1; 244480927289540505441253225756415498; 601249550827167145093631878738564551; 0; 478343060578062081509338989471321543; 0; 264978361881302625776257187332667824; 1; 330630844522524349476717113314630; 129978276048593017783449810048873833; 0; 1010351307707994454035943452984574100; 207564410992482596346608310087068346; 28482376378000463430080912328002717; 326282588630778992211349896172423497; 173711468128001507874498883254187353; 399578647236172415541472375596710043; 1075783059761969248066394361532413846; 22996275195008385722687856804793189; 1; 158511943677934332652951129051214531; 1; 642597523254115210872306342103395838].
Definition hf_1125266252156850182658904441386709967 : list Z := [287814800689754855801408542954448517; 543420436519582241927445573122184910; 27400132984564621221917358245412457; 100407783544261997321445579635963267; 733552807281845201848261575154770232; 285431471302019453927492491207056724; 871830731315850978257223735522528127; 422581353674976992444055195095486355; 30010108475396706599899960881487905; 328823219905325872969883792317932344; 627939383527019651416932383984300002; 402804052993063597043400569602841098; 1110307286296673860751701606631939355; 110322978376161571459837546304542122; 71165975418932146008527645296026597; 25594613958917274964584775156819499; 355502667435528751044679280965651336; 19823288742265417442900628341839736; 585892109827442819519193329334372096; 56904504690579025430001460256488413; 95487746338666082993482419468568800; 926156238315810137430013821371023965; 3035041682017371422898912939751; 258599997848372799510725323359536754; 830186358209096067243338644965831997; 118126737967029671257486350709133067; 930086454233865930641916480173927496; 448641842559074685104575397178155116; 897812378422705535305816396344650862; 462593773498853958745445303270040891; 21120937302456013708350842589546139; 221847618760779057313589230951924525; 275518355391874922150133577920448751; 47598343171733083533786809127325077; 167004101244700818970296056274017013; 417600399164376680298122181345208323; 547559787714809226955271308782237992; 849043329921096435526293102104418025; 16330208677696473514295726493980229; 514679557860249240802221821983808217; 356185529904709748173882040727978485; 55138313727661246027819453416298163; 55726938162051192958739479250231321; 285587520730360169810468637568970; 142661487988434451301718283372260264; 482667513296448745174552974318251990; 352253961481616581214551478742956187; 820882450941447583667437216235749808; 14773782514099335460181561861240991; 762670386839360133601928485585956332; 147696941124659723822392247783369388; 366536478206196566821310869614546842; 278168626225052640672366537609515178; 57416694861344426627698291153441713; 50364171031548369805722908589493427; 83385158151067097308898547756135152; 245179368564638896142712985298554444; 69737662555749425861667698809590691; 386583516260024804125903177058257840; 48191760443756285276133785941205490; 343241865670058488855612174625356396; 39085499111658247944189504484052269; 205065362936458084820401543772644303; 323595619075290341906663050767923805; 202079218251903040162630414043896330; 400054347663734014316460914944817959; 168028540987654515025404815293341887; 362144323475327149006543505695725385; 504745636185317151240349959884803415; 141635637958682745486027583126631185; 733674252759486381184523747207077530; 376102965295906382483831657226337179; 198829823951721934025174529220987027; 128131089228782853139911556463807616; 15730237455132198447943908388783701; 42194321479065719898672528673844673; 180705352632071535852481481606685268; 135579810483774987609779179842001325; 82809122404989773441199554993967785; 616785083299762864167350145006880630; 843820010598446953807284234271074112; 908784278881210144699230307903446618; 519022810078496118675590495495505059; 485885798834540709754386715411763359; 432624689388927138795256707529821276; 104183248044093450351788110448655662; 101992834273028190262926311709298375; 218265202518286767049275082215776123; 389937799613785795684359502085413163; 982800991929878616732675687074521104; 272436163495169570123460277751461644; 66074831224777171160428322927291068; 916543528372830671078694537273825736; 410941627293564641155159896526522541; 55917277555009675167815508174390334; 561018636979524532353843779527789107; 321108260053566060836321074555838544; 418934829127445646754332429773386559; 630107636724612017991914106682357052; 103197489486599962174377002844014127; 362945271143077037085178779348484729; 3020804577486432075126833203137820; 274222483438641031490544057683966262].
Definition hz_1125266252156850182658904441386709967 : list Z := [].
Definition hq_1125266252156850182658904441386709967 : list qh := [].
Lemma prime_1125266252156850182658904441386709967 : prime 1125266252156850182658904441386709967.
Proof.
  apply (pocklington2 _ 2 hy_1125266252156850182658904441386709967 hf_1125266252156850182658904441386709967 3819663927398918131021 1 hz_1125266252156850182658904441386709967 hq_1125266252156850182658904441386709967); [vm_cast_no_check (eq_refl true)|].
  apply Forall_cons; [exact prime_3819663927398918131021|]. apply Forall_nil.
Qed.
Definition hy_15778400344354997994418419698270088123916926905054652752758194827714659 : list Z := [0; 0; 0; 0; 0; 0; 0; 0; 0; 0; 2271200824718951980422787259356727; 1; 9445399735943979462980412847975445467163800259832039200860449455915357; 1; 3674540587534291594696807176435087829852125717985333467451577158007850; 8743531395714086388907946114662112302274209362210220756026930672123155; 0; 10895255452753503928635557602805583531785222991669497041944819739692560; 4014580937557445223335274371646168693336617071137784158989539879611949; 1; 167722575743811840354804328018307959945513213423484423318207126929611; 2330169502700686093259217994031608819723232460964906443122304825435822; 1; 1088648499028896137230553522635377064573611535007438165420193630705844; 24331673028759873793524978981929414517715266219922489851657934350789; 0; 441982605926876585289861225689824056055784978139715608612805663371823; 1; 7779743228369361317160518345446051664649689331181064806220209680642583; 5025566442475956844493956668953067321644523856748361685804773827288809; 1009927877172506913005294873725191673368279105950656613880115313482517; 0; 14143833028039022310759736726861291018937820662495921748171445745085536; 1638672372395061847525176075567762633465677365616079469262549827491313; 0; 26958728869009551319179451674736226881579291916255725562921706531139; 0; 4047018063568138577960276537452973396752078927309906072849943023657130; 0; 1399682879331777625961060997035912132771667872170600639464696219132532; 7596545747950974419149827589449292395899204909564278499111030447049142; 211605161763836365188748687905897799202444470516213294662056117243690; 1; 731623976219071785720181520915953541388122377016811998508330533062597; 109816612413965426293255347236808939558354595128913980585726560967995; 2939479415242373592389576930450075113020111486334272895129667924262168; 2271205619609633219940698171052974069186023661054852461936914053319290; 68762352687221586325358966127890424345187527947985318330656353771228; 10644479741635277597377620594580277621737225184824130313564892565550009; 49239386660421209726016663185907091816618141388688593998888482315641; 12292114084187962880010055014357235702680625852760868256290143570831965; 0; 20954865870095658914929510565960899950774372378955920839009605621681; 0; 265882557464573497872354014550368154534905920440185687501225170925190; 5881233795212823986265339044590861907031697373065172965899100068002968; 0; 3917741940454256301902870554445690947427780337698340272873204110679551; 0; 14600913415177784178773220453181462137955684947670218975801097948251972; 1; 108460258506097969672660471733957223234833561563982571914193974867157; 1512993396376807393043548503434244719793928225696141637769330656662600; 0; 10727300794378065455448593798886519104962517771807100614303794132917345; 1; 7895112332567696958944911338166323868230884420704850594665157920751252; 5180809248732664521720958551757874558240587087707117217958864618476067; 5389948343017949703755622315090617928505934917761571728521826454386338; 15060738818991185041420078840602979244739593760995758203795242038817; 0; 2105690839419349430855386551327247246493114267718069048166797096217826; 7104253528849858558456150635506460813854716384336347785596997357295333; 34900613670281525779955888992131848708855982980761718309884669277867; 0; 10994337891259542300720738402749373512983371437207912829561592223957280; 1; 1154749731841294842399090313750869997015232896270746577647043645520827; 842264414684345629577599560473988764315790313578125991717693487226880; 0; 13333580808425251561434812626855079476019659009363824121915559884049; 9629845410606598769203772304775914233485833655077264156208363812865915; 1; 3397483849217018047196135860865460849798179675550352023000700267065587; 133506828413396543419302334878918153035319140418076202010362244248972; 10439365855588166064533702657377264583187694467494950844282631698526486; 1; 870889386669488550426870229907824317577954544326010832365100902997931; 12927850930599885741381057497705979372799623474532703899298141146013127; 15492052000745836485796188557937701330786935026973234702030809924041765; 1; 27351621777700478586458034740572896092518242902275025784071150379; 1; 3143897817951075805568821600380640622089279626445154558896880278494846; 1; 3229550187790939333547649001853795014248642144569238848546008604362526; 7772467561683005456190461155991080765030506762273871023125510657593040; 1511533607067452718377548325384037815007452677381451726149518379219020; 12548390544715970004025112187454515417535480059383898768309460119401103; 1; 58150660393115641914802782221830420438646787038020347975860939527231; 13033807859235935397928674296774045675257057965028672644616625170170377; 7997823777581430733804541888950311465306657894863916750216478956630692; 0; 9573566058490437444752470364076793311202438868756322462507416711746572; 2264413968078937688768378863285827012573909723262284524408724910269322; 10028795857093441105772963004638648633322843664437561464804084295523556; 0; 6467243505094551938387483507913330642219843495036649431966141803621375; 0; 313068043205259022630433428644873915542834506345963172931786608552975; 0; 1032977286045448496476813585530359563092122065408674769075238896034239; 3651905274514091900004908856779850562307399634334483326898503063092867; 1; 3720617664608369491554937572640560830161579154595873719903077454700954; 1792245553331626890787865702549215319887092112031557023860059677082; 0; 7009074772286037190486925797702837941961672730501329525975816815589567; 1; 1112093877464866551314566080851489611400596385979796371945390071925315; 9581747371646796190116710901794581541626038867659210833297474168915076; 15683453943253140155575228534911325979190106836000087841763737394030849; 0; 7423374833623588434067450852286723305034339120082516860112004710210456; 1; 6127694718677725805759919533538882917283070842349346453956515194930621; 1309901185447421914417972968369113345738320081484626153492522277943261; 245812476537923021844983232766174547663593227873614822096612249897799; 0; 13529604559310704120119291217072034698799558864996930461049184006774883; 1; 4339980137053682346378706857899337456477066564011618789139162224324043; 8937990846540402362102278296184640459494990089613015888098664954752570; 0; 2880574032823600319300790439059319383661152191501972215648605108873093; 2852583444965836448332617331870549558084805903408076463351665479314374; 0; 1238141791664211571698634899187315621343406522840729492049342354888647; 517492935695061514833204410521378452351101755721656164795401241218747; 1; 8158287467796095474592886905546214247713781003987902431736950024714590; 2669051060461398069348563123485267554356538782534343812211752964609343; 3335352021602702774525510484358436706060474774298630092724423367559125; 0; 78545018011343392908212218614336537686882390533353710169159356981994; 9875452151945874882509797231493898701645469195824181292459641325816898; 1; 612500717153424187250070956753688053434068949477705836876383502679695; 0; 5539005094548713166778705356150393857239672052445851444665317879974582; 15643736785697126626890103010627949879778143990061348916433497097937536; 1; 13961840354024294549283841555129112012031261455095472277617141087479415; 1; 7920318972723347193045028783814021473082186772497200560007761947718220; 1; 1332240891456723935962578605064071024969334780085977740285147297780649; 1; 6468051167368525918969575166642348096683117673883612605939544003595332; 1; 701694694018379595950438234104744435077065669943255933152745007015238; 1; 2128194438260139258527298339362945388887771154593821798236321912984148; 0; 5434443259915423177776353453922693759459828167772832223152075524985419; 1; 2127909125845558245443691742097576149509616833897499080342557478361446; 0; 10258008800456913896139619620072555912902804429006057653936072166651871; 1; 15018053309954433213273778300068567037973614412930572487446484680470460].
Definition hf_15778400344354997994418419698270088123916926905054652752758194827714659 : list Z := [21659994081614734286422467510955855064545554779645826630382430577318; 450722233283022849431867857104298927214391832440222033110635465306643; 13596986290270118146286389178233041814370369919172015540165266696595747; 1719465843255367586831310073453706630897722772500841445159556004241279; 58992946324310454975488082726476263145006486211596631712086330714166; 613715811520689855724099637833497493607908417507037539313201458824353; 490921689264678128094715266401679891334721272614900084171580051021484; 841598136808456508093602747301462082895512482582830465518210402335649; 746771396970745895049746806088616168530287040140477738825898538882565; 2508974967062386671179040999238235026994581973976081875782208871962231; 8700172327333968032800613293256551113460941216027641367605929472879810; 201504718537333139223505486926631328651471826569953071337567122459293; 3229474980818944652623065772603485246412449658268003040771282529114361; 15129896549454565967859984535100053577264552339551435138219301142623389; 204344933662802369516898585656206918474039639741467071276048603231512; 492119183903665484918064031613635388657265584905992003393340866221951; 310146894662982171110148137350622278931850434473963712495849974873706; 4626542472816185243296186553370298603914898253649085387928462068575557; 6428887883709427786704636369120605988148217725517151377395197724552252; 269277336802213966022000442897622749377903070541075066365494268323424; 6848441328640602718696765162479765728828378521788266177194871036640220; 269260290725562053298599765748854932636972760060148968396552149088470; 3163679100650957542689810091674947821340971758730894428491708552049156; 450138286195004182056034978879439346864803243260983648055984654259544; 1102532290966557347481451864999780248343078268530302999453885551713458; 491949264782595382063685833898726840012399645509883971745644782567285; 2150366913494120241009871340178204809976533067551536294353750748056320; 122110292198373755356816640969815147745669453515504256895535645638094; 546290757166465903706743114185444606816402031283645536668661895960; 241043865010706425100866413457591851192613870952309285104075686027851; 15775429040955334649350802477286075185233694021841525202657124737257301; 12433809361792797364752226955909944350113686265687637199004108345348866; 383473088046621778738837890507301899967009379105875228463329796238313; 3712470620374880493686177839265253613169516026664759519816620978475283; 8565570619398906485161258038312850576375277673284090460101355930461238; 420126303134466694019024042314370095311017693330461218416022519786529; 32110278245992582973998233010550132986236319473681787942886045242; 106473752300426988606631433511692524823334658145552236806473923420331; 462342513063688897951198623856610405408808754709878275049356462320365; 439634267448592461185921566313307961009671480096733479773437325525295; 569552718165806969708495627722079419496758595613337555257855823012708; 9763582488720318336986573616878542779815979722256068125886583651177017; 199852126676375653649493939406970411375698037971617689476389846693171; 212191854080215703374131336887436328040074557959787090339190423502522; 225123166754035704929482584009073981734885319204153184764105786031099; 3407583380538928316820894846653833421121160993504086591263911066642696; 481208563368331315781144784996767849122500802160000699904523892404673; 964033376884204002031199945186732234375249034935638589451154684711532; 558076918324897722939171699076203611634749868754442436866747987660767; 32825999584288787626574657023109875825350088774864685544262419341836; 38909740991546492140263817446404205602422907627325247494401771695980; 10993890051786340409911386468643795337032611157691667243760655844455461; 501727943150876923085296907987885572554790181129970512687006557963153; 11616274309470803106575956259668977778334489763117662232468965551109256; 24391115710121489764150262172498645491632894956780915261794477913446; 8845432419138195750318536322610298443723369371545464317927990031419816; 536893027426231710448980534566856200688491464009473597993928265328070; 10718954839294176530134965647970415130733267272232324543246099994282463; 3654304726314688280388171736889984441790187039362061130039226628151455; 1624765483801750311630052711035365347485300878613846193854404030787651; 14961285914249733043096983681097149687847637051364730717027491046459167; 9181299535598970132451050354383117849499372390513132108084355349308385; 415435807293928620518042430259029049581999057913406924520777007458746; 2659722092507354533629201989932010714285107059357648694532726082685775; 73818407391391404836613666618982927252011206790035307101027064664; 366150435420646560064384660532546411185617414190768238027144538367670; 10519361916111194791824102313633124627654733629246177072552595763377281; 134827646200237959880835152076217152986290386052798685798457021663852; 8933740843164710741146045819908820770911421029981688198579977084242232; 4350517743277317012917502273021477981041638352882297842384268927301065; 281736191321419311156368146987239348286237669433627119746232589968525; 2755505576334449530166393793696428880094936479791792339588288437898598; 353073763827455695888314135275246987131558080539157459307836162139669; 14154919216595543677023821384214972708410383481328426214907316773320781; 54779646996927377604610982328450125557528261727120178047776392530477; 1849775069415855041049378036604955303328234601080220455598351455585905; 463798539661768766820440275171204974804601966511485737865499703779575; 5684614662706774961715537271671652834737920024224532920936360328657252; 2330805049649367014492914029401566829083973564209155553328911015955; 14813757657103708678576943358988202648425696837763743642534958493455957; 1187975633697258947427164167817529405607876551563906318733688486623216; 8667548807061893571981575937800367138869703731190454849525993964001160; 13846425014354096583219905879977250195825212426787230009817335700559005; 4427739813100778214015524032754469094128470644278249178085845430900247; 113156371793837660708831320682342288905672474088105723283547464002160; 5692340468866843435085286569196855612728008983946426359057181135198769; 84361354250632777759686630310453945014680289269765851477601517803472; 8112622110625731339543610502141790013766340583410578544869505771835328; 2021972444886516432460898336805246872373828076685804528944252734504541; 13583465538699643912918836875364377051710628327443953559863053151000049; 2217672194369681867880154105793404921899432957285009737862243689269886; 2292340207400142074398772702681189710724259232886866574470692605065553; 358544879897777527201811117788077493729441738612673508789343739913611; 5095149495379691550320606602370929445491142548474958908562127050764613; 11605218299204970766497303709308353153897472655020448516783223765054; 13155605721123176284513723798615222749211683900150703568690400356793389; 580317677287367987471882269339953882857314823135882375424321264726218; 1213377518641358122840370171842459858749341380008436355986850799482141; 10375220296362263076322695406469968418078020455805046671442642243252835; 1778731123951334540200482606505567858008938830192116675418423873265432; 9425588250038433084816545854002961153845070298838148653411751211097466; 421669360274315760375772819003092117312784482063634502997826989767856; 1224972092897883799750119470046024370219585660387112814418579001698087; 4246083078135561848903408995806570362605389599807533708858452952276154; 4756135907265636320380490456341845647017067890742860212141390217659537; 76403773409304400326908383461484279041269331503296496029378712720792; 3426393928639544461270766288315781177436525027431996056386034513844934; 4508993778915804616850404543274235741201305708415001482502645994424102; 562604936354215518642709918652145318334191529820794075059600605335856; 3028616369929506041096388021773265604039938254037720510527712083153850; 6113958973265587792041500238937053987948560476892567001604440659910973; 7134813738602313052939499670939123076213496937890113087952526563565579; 243534571670791596107406767397641544506246813335563169700078043697051; 5217546580372906755532196685096717794662198192672629757460405326212368; 41730868653856446417976113008168322855797629115691138907635535195461; 3989261901446502470896764556400188403844923787889844815939571069014038; 420408438021876706283743763656546246374990370314881904267140731982831; 7704633945933403696654940246592690795101500035071944415353511946155271; 64881681074901021697547068219606697455482148070108769771150620897363; 711368070411671340157870080188106333703468862624484964143840448375343; 2214218813202931532207636535887015949868851850878584152948818740139102; 145642693470863386590552666319607642258833863334591050554865998208892; 215777491498520273053924361512825524760210071231717043318058282042933; 8946490144850347579686492396511906517732644375180327351752931632911233; 264423552015635691037208972539688452827398002692722536649683987838324; 2863704768681251899318564138678134489978287447357381772051980960736725; 267008242022132798508344391233041479409161292756618686102158431784; 13845570784812983612434859648147436788094819715178732759737889657723358; 539526776260140541563899210636356744594514632938428439146012390458866; 61640609562846494838037903630182991151576757591259325785758825705946; 2625289839770460064423186912696813025177373528251271026329188061334019; 264980783901512428540249282933254272961983226285144047171805888382800; 6353073964055398704833059087635412693683591747180801108462526340793958; 384983098407734326630221153978807771405416396928852438565485793030983; 3508147558746986826104058558118851149832971035049044965013328444407; 276411701952107308051688373348970722198303979432899813224378397644180; 159949465150028074459791530844531336223657476371150331705456519190632; 580865468244406802447480048754335375304886014257419138279298341446046; 1713217779235363230586338618079750966511746100566701959275798388976136; 1252040455449393592558119453399551505526169341204944177834363959470162; 1294509724537802391561963378026672363376781846991222917758904459823334; 496330710578125642882886916988987777090040043788486813027028728872836; 510378041458162639045411306682050939164341997432403710238455963774358; 50212010720537998721382059813669156633142784561786337037515115456428; 8291206349682334712361503027921135627242072491692067470174008176167422; 906933547392759616709630257768873041289480482238487665689519570765804; 2683568910498661842410631632894309259141449908164603756716774925743572; 11562387398377788888649234767079409403265751134237038229042188383567274; 10869428868503649983531493579384002361519453245533980530927924113582584; 10667879977000664109504890668871993185198800134804968947895605402931527; 6143461475715080572221062764319490459542221221366178615484296116253683; 36433450570509372269003803508976121835662435525195804225656799260331; 11930302193080389109037211123566594846638253958779342860308046008097659; 13793180771994188593863532967749967907189776238105148898998952155580; 399065104564841169946259239317208977642652688396074130130178352538520; 831874861210508905964729051848289784334029969770411980062785923828797; 4962066184350863771320250846854170248078274302681309517156067274589704; 195374827437320746940066617860175402856573219998394442561548559651555; 2543140509061909120376445877987151244102383372355355683385354334120576; 263428906149693930547486838180974797677237916498672402702987787897648; 94470128614714726216892847040728044556772550829294474925641233073360; 297096320288882177844429318298425593528296899753468780596574030008854; 14609258505761889635905944033102627587197875107900479157730747910754439; 332376511683755375319521051340553669216453719006648082193810294518496; 8653062116860521183588143375824506911226486952083287154041126002214249; 3839160266698609508454186969001651874280518400693722616467610037318; 743840192103554172003359567648181303657419181353870220489406955294639; 319110646258488634902354548213527793460947590332745671477718947494399; 1036644970202394888700177191096789276409555751370654404700826703290768; 204172823993404409770459375754821146836366905490270925881788358498546; 12095883262973821919437240743822346421212824583639219623307568754788849; 48630949516865763584601855621689008619705031166624096600279335016515; 4777771599548346176769391730535426340137968300604272811529082675783110; 484510730085713702127537431673334790397338227688792330050585519731911].
Definition hz_15778400344354997994418419698270088123916926905054652752758194827714659 : list Z := [].
Definition hq_15778400344354997994418419698270088123916926905054652752758194827714659 : list qh := [].
Lemma prime_15778400344354997994418419698270088123916926905054652752758194827714659 : prime 15778400344354997994418419698270088123916926905054652752758194827714659.
Proof.
  apply (pocklington2 _ 2 hy_15778400344354997994418419698270088123916926905054652752758194827714659 hf_15778400344354997994418419698270088123916926905054652752758194827714659 1125266252156850182658904441386709967 1 hz_15778400344354997994418419698270088123916926905054652752758194827714659 hq_15778400344354997994418419698270088123916926905054652752758194827714659); [vm_cast_no_check (eq_refl true)|].
  apply Forall_cons; [exact prime_1125266252156850182658904441386709967|]. apply Forall_nil.
Qed.
Definition hy_4002409555221667393417789825735904156556882819939007885332058136124031650490837864442687629129015664037894272559787 : list Z := [0; 0; 0; 0; 0; 0; 0; 0; 0; 0; 0; 0; 0; 88197307139143265396945738553108099021229249135132652091268535097204573830714409077912636239297026259073; 1; 3838350609771503251057105555898058860162008332823332266063324843178430248138729736067190965473439185346658292292768; 1; 2714534959189536681821537134667736788782492373273871513627643457028627917563636107101235100762655505675464423719772; 0; 1795068052525724807685259035180613867479197045067660739760945811342810961638981958701943377962318434325366945278753; 1; 2590643889659306766011385930480723727485353468824924086700655087199581070689273986423618890805919689443131418380450; 0; 134591388043797423732180147751637091527349910010078814258575489442351546308812491163244070774085373063593109205424; 1; 1021672886947448511244048932542999155637670657823690528329406911665883280235774748384058382416160422255682750397788; 2046722821779297060681274817824710821994577927510748988047238837083065268959856159824228999778414333651482017079407; 0; 246361845752044349872348546018467157053094827949766366894773854233621038964377711621722307931263962972142729089519; 2192009069230508895649245963121802365248327158646629032407204129991685727997915929161200178002142301999990311391735; 1; 1391341365325169219165970231758890085826683017109247544972696163454449372929079460740834082128011052075819038408317; 1; 716771588591804271735298006710191090171364750537947388978904070452858286881936413735015351605065870087291246213101; 1484884292006815509547522657828589387986361202898143077828069077614993630736138287190983490591198346083127388779733; 40121117986804295808242305020281824032932021184399504527435387654139073371806569028202883096630792702280381479432; 1123220894041799598303980447385701166458260165933353609308647672556773717483543524811615106400940034747465247752603; 2927948606377480910938651928999842215354299994483028497879220855884152238710123524840861230514221884886180454935749; 942429693550220448834031433805895006193388873062857773402497885346396938696101940912597582129479619478023326766356; 2728344306010852730039918066598235941437105849332859305528688879250578871026719491450734891345874330485299167659811; 1; 1536666537402439223649532093358862063358810250560393241620548091060642965160312585094355193085770275353034221387428; 1; 3005054676403681960856580720750959471933341851675307287805874501559968447416404678805966637757105643567686266725318; 0; 218439906404799785192330128235781125080945534562545135308897311004967231377734575407875448935438596792928213344210; 1; 3123323631348640363065958634105458381580170167550183892874819248307680987788930174890714567271404682777106249338530; 1; 3597691750034194328960626406067680267546297778945368477502727896171444404556606486738185518542960206010340636344944; 413254174328907508765853359141657453735056491522962379206758340166344038455961179627498547468742510844770735518302; 3677762721267877778310853661844496383670411554447433228748102011421129984875670746932616661518376232602497695473004; 12585378849151366793083574294607862118337330305454746476037310256647005482848670045695229212222011945764611254145; 0; 19477693748311169052265758782846621201353185604292945257471303943352789598629360798467823873457417918502603992166; 3615919068320166393004223457923661470032518406072122715287695059470128843865847571747755391093318676935440594075849; 1; 930355138539115200731358882446257956731532243536196336386293409940062477980650973034973329267740314700648529767178; 0; 9851636263039935805667020944648052139118361923223307586981649962647870295885904913917765240990950055717479389702; 3465409581670597087525028846909841625607831340716294108110082789105954631470877428248199391974181535986525550555544; 82989800359247320084544922331283606687670919955502274665097867941360258860288736208307894117333524557143531458258; 418384102005501873256759362649856075347111064224503020455261502652320939394589828923382074733314566491417467661560; 1; 60037785706166784197823192185348307116339328365700399996862917622291701109447225888562622112982621078967710530659; 1846226121927699635694544781046989832770116425622844512160559063808353920996272121167725844457323940000545758631365; 0; 393813284847654790398467660353184959097526707219869978371321264811148181045110479947338121782730607187180355761033; 0; 73975108811471968853573749543365237142055962124115103778107134458863283246310797403070243598828894073247444356006; 0; 2554921302215965158800035954385641360203299091500513330644698824892590817896228770840052638776711098721732437514559; 362631300244111355913790594153821245360363646497793148130152184793713001332987797221856319956277281814989633488443; 2055122561452256398717629509140851138736975052105001733202313643589403752400542426533414099900954893844135097465292; 1; 1967356911419401734971568115789601857556734563193543632521070043016996454348421208235537706837249830033206033589; 0; 873436559607692329563254538372030360772916631053175320721526691330271669800292185697449566839643223047210678254244; 0; 1167928202264751110629085123535842353319591791995377984970508238799532032489134426514651861214620332052268521828788; 2808293749259602868790522354381647117453918858631899061283750895058780697646673940657553795590108127144827820484307; 1; 1698243894732265166969593918052922915841937437621715842119241996683703192173397503873828098858624172518133253684185; 1; 442472600744972459476026433019080891136557759635265694964328766131221244960388101073628798065322761911382504152115; 1528505599970084069033516949082733535356119512982183338551500906538401709635525316671663325159043976756552318625; 3689844919924720972362026058250585232980723641398963590975333927106613327576302469100114698561872657542568687843689; 1; 51135214369110473088326435419396459306740468592148304102557769925410432820239228534360280935171067630961248773163; 2348591584686130650662254575241991605589449740508671487548942173367808052534073511309786346740620749200334291125900; 0; 34114672526627184049966655085696126911681230968649938421622024831859082109643088917451491011723603130967914075645; 3249110518286005789517571724001219670731631658761450955426988164055515069243276128961542779722351616520455270992096; 0; 3439097750527244852196804007674672117286989154607599181577772626262750123615728952522422313232514871844415977494638; 2415710492683370665075298165472953592893037508278820191390540357730747868592717266055494939779096329155222445206398; 1; 22068245343764115164336320844156597342699018041291371767086059531477872982943160253848391895920441681473470180623; 1114714830329218495546212374056478422629831307264011194182834263496294617094234925424615547933902129071458120232779; 0; 2811717185362707671741257054329022111042959434091652331911420242235320087826410196682140677909701808804970913764932; 1; 1137245278617168881104472136322928865850703075097285233906077094395708080587039934319784424973420675501112120307936; 350295249333189707396680109905963438870443496297261978241104312676486082282115315822274679849937564576965618188726; 1; 3258121102278944067656336818563925983199331185188836320363391758032240330942134273012962966126805296996761083292775; 0; 2149793830738103518893926514499420878668699774024697932517065374658072041874299789820593883979246790998847852765876; 1; 775819127423278039932547250899163508514227949383932775455731233245520785488959269704236459451530272970629756201534; 298282687584069927040601955806575726898207486742866957091528847593639594559695564615426253198965065389920466490567; 0; 167629724998922818239394860596833490111787392507265410307776999597071354932443071722411790140985155548318634031060; 1; 6830644247203030414520374090359885364416950693371763754457271126918286668189904707055351590233244341273849522764; 36638027427134114241325967383305337377857658275301381439697917456397295097608898121386051823039353691796529039634; 0; 970435662560453683209593331595020615973242411935145100538017549887202720044783196042458337728161838471838960098094; 1; 16651511966515528589889384712758080954160807956811475003667320006971046449116717268841568610644598174545972476258; 0; 1848052572036168724029835562795499817826341745717222154063580465938035697348771044189586605290722948431614058342652; 275299377559179253904141764382095632633443832674994412021655365859165845492008765382101454248154849128618356610473; 196978173074287286279774416609865649228278884420281320259724066475196907232593677698154396594014109255514003437756; 1134846155956553471008677743595736969589336643293349673843610041339063896655018527375830757558474510281201449958410; 1; 1768231900935118079431481451504188364653068738857107681672399451117262582132159713312494981524914432490231207230238; 13659036228021414154607571643759362063099940875691164357850296030561844637214038297135532218192661325357489885968; 392592134317330704460725734537969606295023166851492507879127803554103753727767318273097654791454578359942801035065; 0; 200141141876008766944963883063971975032325035271739458608300229472867531439181434153363846537502483512214657070051; 3303328481593873222701675792150482181828677264176861401588147607171436770364676912064947951346115994858742715740185; 1931454185317608332928864500343281629296928169811592245183498628932285727461900254764746272325443065182215799642010; 1; 78540288136087083095735754806446593111224839657607764619057477224548986247920959171728488871410127715517430221739; 50424969654486755255939889300607319549432493244493354996662308733727916795041106345463617708828192890682555955394; 3268919552333205158523391091897170130445094356331020467500297940390212510675228681448602821887676610960491585432937; 0; 978952734192458533776289828165726736697281232643376642726978621317108351946306097694226897534885308164218434592291; 2980276455057435846353439095425134527380179525433279895499798261682618676083108341582375932504009290919411069117; 1; 73520040909879193325566950166375706341399998598597307800473008291258131049863757655514774018086101780578644652823; 549293644084405765663992818337677584750346073595213382385011443561244313277727682077733070477528368905023605336766; 0; 242232257245360180304523711684122256722673792932179739789653343605836855911162780892108093063099923396312003483624; 0; 2934410428429239380376125360126847144859281273860095708378817460423414728072470122278848577791469164013179890798825; 171837511938096046771072847629548848762986856560095143597787944975083464398338792092392072936807242491216316271300; 0; 1786079276273743536956208502753802115362271451059877482744336049925617437359116365370139378392784418338609693841978; 0; 580381650863228476356449516497459405557745681106080317852821840801422637612156132859100231613900288672396033088943; 3440308118295648724657778811880776955222965346869735604472418447097549381862475859597433404522763382072600837752140; 0; 351092716735899968705190292896433915523971482698657565123148423902697184515380115251489937890009748684947535405125; 3243567886087419651746826488791452060857286316454018007764008354736901483324001240820645206161294452630922777769925; 1207660009857774829301048468175975721448669266150499925740023180229114485214399837635911387047300959343369470808681; 1980470005246372376491212759198544989568616966398877054628264788555523722869092563255974559703038149191091314075; 1113983608894677284962667959262424450811684767989881239392887553447213236228393920915408024518233204559478933040880; 303252216456960793836581629348163340791597760661491266908298008715819848361276307017266998391201195152782093985995; 1; 11803579991581164571353078051554885807606188837267175198765735285467165501637176022768444875628737748118303695321; 1; 62469944612426425204180588722292209961160776271961083606997316033605339917919889281226149348214344118001940662829; 3760159129601224336859710904279502223830856662631652610328269421931007787563651963708210196482647379513940053094739; 3037113147732329174441800282498247725188999232421839661447865651152916481120239246113628397028066616758390073957553; 887931420738941090584187036157980436560831021029353905277254902239107412235371178565123957388716716666028724513764; 0; 1734692571730879654787136829599870738790801225470376005983482440899055401181039414843515094748918319442706469465585; 258305145654522809532426139119142320949745363955066816125051334824740936693336591778438417457339724414188460159406; 1; 548494488178000145596085635044473063666249639501932037669362317998757552794453402740525589041688173339118277632251; 1564029536656499210228451211446242349072310471038807395275545819693657108710638420865349399836601952129428545378434; 0; 1516789176167002817956763330584201910706758033591605104616421579422232842861836500426848217536071581198511120494256; 2554536654106737420897007592948772731588742030595719283385150469868845208078807030000195496253350826813225322005; 1024142693402549700003288499227715784110802303249284604908778546981090825635719026608787617970676277789806006973597; 3117761799678984431567388862816943795338477245978072132442105170042308134196645580476590182665798806130943549358127; 790338036524649562661526239346177210813552750388839016203656560828681224443173006492773817665833558618914121381417; 1; 2729197665798793605416142994596659984380588233281357846648476639270255055210053374298858274617117459834032480744527; 1209904038361436111496541764359916515257813272193615505779262406573188461148263075231624390003507967636988845456913; 240161261004333730372321203157057558963151731400405487488346064830548546664922899339292464312656311259491425686061; 1; 2541828440950915409713785810392697042680041597241246497441391894362172790256409919748425298486579296086471340639922; 304402350235793899559630965127410118534861966744070512906402466015035770659794743323627003838551541154278796838569; 2938651248564729460582273585989608435828316436154771668642946055427281729317222864214274647462532739716103164994017; 3582284279948608398003247281445604318612855588840118419209427122895609069588047590828079640670706573035570509661942; 110623578192510100374321860049645792950170401834739238836795139318289749995899417167140693771441469903726144845684; 0; 555137241622972270880244157631095067448344506007118627506109607191896509902722430114867256496053888230920842148108; 1; 36802577800488679174116525727319101153962922468899068319874996193619819807285781177773747857078522404141745704428; 296770679327030968116791493016664584731728118948473236105717053761034788540533166456774815315777414210510732145895; 44115117199610249733019976403227037885291611513373004977454121090906495645136607313955267625459675186685221580703; 482273517812042937871492292074549263950917569095476309537999741423786800445898700509156567501094758604137736215192; 1; 296951735934444314470151868612501969850503230400273811847701212347514168227441629934683902541411183842459537128031; 0; 2358104827156588057818308248099550627463339320938838870869116065094615831319603403362470342943844428331175015260044; 0; 937094563147419547304114717901212605764215880167048470340827384518577392302050273579141660631617020520162752191366; 48140767821191024693406144698486613297055934349451381443140641203459022045402256278025307499895613566571288323385; 1; 3487066214500825941656481778503532047817363885348052250115737598865772453445077473068404725282215744843251992596464; 2214534414440778721026261862174067683058863991255378762753906893579426673704754344566096264779848635197092832184056; 3910970902013809739046728091410482117058279016586056266694746436280223347214629735629487134093394341339496967160227; 0; 1087142762444215444066576265254719468991533696476893998267342536426123878599833955573755639055488036149280084920932; 1; 787164140513921678365379325480692052440829177097926642976254832016232223558126159054091316870990863275150889666318; 1; 2203239177786329223944677539099004644205819026427014680752447597648832970318636384992702545753119068129708883615468; 1268186116882397953291109182216694937440923167574183280647395182738721037515678226702028429697740245423705286234730; 991337237717735737673915958008423577968376613462858887413999039776049476944670746453368993965413945801199895461411; 1; 3632907923595764592901143862110657972045977739382526946834544843892563474491961417435042714063324869406516888763311; 0; 2718108879327021119510933370595750884048279067112026182574187218427841767835226640300612636257395798935194554346038; 0; 525687928830338124459478870892902026598250504977924885259811980871555623920638884032675117535703308853311543194286].
Definition hf_4002409555221667393417789825735904156556882819939007885332058136124031650490837864442687629129015664037894272559787 : list Z := [3718130420968242890684179242431482807006921848246815408021833195760226494799423239378012628068220179832018579043510; 2803812233713127269214211081493601547853146144623956391576182308662762935124454455622951103024488653350488719231249; 2650625015117690505421549547405672921967191530029658510563279166362414865517692441781775964488592864645072396619024; 693407233359520023607832553781451425307617979877918893419285169207916188975272370958502979415811882887898018653309; 2687137987142433004826826526734781223067528969373227346581047509503543232522458818742689844640343626267302771260593; 1257865931938705986684140278756279778524067108868985446823394391821045509518075352197407063909386324773360691842053; 304904247048882488125505671871668270160634853437649815042992630201060322599814356865637993953399772702818384142329; 8932985343606462849456814114851188804221294941559550134697928860185192155772085972425490719877618865922030471304; 1777665860795962521492559042684004909950493391454062444681933424674565439102590767303981531593118754351588837757275; 3746879409484488864124173697320371357437375196044332859136829744308141981305043701596839341195672063575560961930391; 861788203179388999230261695523087048803533056794801293707661911244197482543886963284558037948590883428963648891727; 613937169117403225709236616785304868288330408344085133058079343136900487516997602481254195812976066102554428894246; 3160211266590189102896066746902320219382507348424069424748380362907142835228666060285883201751935433977271520382579; 789646956420560114460017717539740897586269767209454701160674088417065327117108240508554354265098065639956405229960; 2282041448291856427989144497385121270876747677104601154999915911722565859043358774483711763464453771787580110075943; 1169670765285910873221447070681408247392748030039590106783493175160750944652184042279509973771577202607168022107889; 3702190508427768700318741549701335409049299645033719106661235074749968186874400740588897688304253045385458874816668; 2907356385425638142314150559348667475847512522707489792008449068225837006297697619114110555978408822821057854570264; 2079210208696994901083265190339028459689527063515004340447993177306278680591774023640248180751419638721263332479902; 522570282412440946169601016099819661676929404274572248559822089137744926662822325304364823399676561431043236484886; 910820369793607749109541162630598503093326618965506796281830267848916060593310024820732326424840042466123722551683; 1048963468413239882077784399686944324232554202791588860415190918702856671134136730527862490901863865723913004948469; 3623406359754499628880009163157785945502609323871879072499112209576583342953357242274006044870303602969632868198047; 95121272460499206989066974778688144678475076416549118327433344244434638590850308471505937761776417707096996963585; 88774615308442303077981028375203380800022677354188495425281903224524501992028757428706689596257746190585092197458; 283407714826796974802844733924232366648272799353553810994158552804905283365086812299645068591294684388443571878401; 26089333812770598447568128775211836697639086355391358428933695736829030054302737824881239729938895807701704568409; 1792769392981154021729454377178262274399864326959106774419430433788535230580187432756473730711675475609413666323698; 3613350194891315289130600766177519947469548958791582985370669262524132484451209412074238414095219344280300656723798; 1912987575902512591469974216961175109146884929527046083369062040414110718288564150391184390666891486934576804559665; 576389581414076635882288579751503779607503195383800435168051830884855245664689925696066131882473306108042109287394; 134206881413248661769150624076271739693421705546736578518443486560887078050711253962322331985483313243283391280794; 158249364066294686715468383744952839223595573617455077409631489789865079704005996102157938327752693116924467965490; 2562991063181368008651531465109125735649337630694084277384260589942402344432906991368813390456077939096583953526692; 180122054831410247395233092208086165391875162541438829272489254862218513571353526030422606234428202415794848146369; 1770694845189459048657684912294229680200817455552809678047887880592087839457778059486076814275530859183639831571375; 2398848880459021997084056596076122382757243495801191713994928703302275460184229837513598793656697206250713788176921; 251062269535927312625182644255649170388997081274171167800557912723923713122470431975129295409276564840967413021232; 1650924352682251443404960277558580490381320851633873393222770701246456718369715533707954313369815517191899661908966; 3624299058265106997199028593070573817036184383847618681205665540074459952535760426145140571332559328808692312932; 2029124781769174282916909320986357332140980875939109701984860369950013568701406900789311415924374955289127406120693; 4625410924337394203565846246880772907046830797280064521558868166426685886628655854671337149895458774133667504271; 1809017736696551948041211727628160942210959331382652718377744430315227626735478056130780238113165460078893250422424; 172723871763585939642055608159409207411692497455657870040084473076188641806629957145159623377552979591272735525988; 1340425403976682873050159233705405619671022976807883256593931071038949809232056880997379835257990141916423651452245; 3275674868453272121229031076493272902213801158202065039325864175245772791193578147190198718197563324233437575192816; 897612792872242607691533043609498767387446960778407306171542339141523149336132338892233928052828995868904280101590; 2854849111339875571834340016340823270871512582545864663509574434226210115807159033701778318723645860079808445753490; 2012064627418000222669493421240747270181770712550033890938139613695015222637639500138405115660750343197468060877; 122261507164009862441699938384535567220593306502848669939584267892527632270590799515096953036347652792660089216969; 3682439847922402724948888434750838878077215179581388886867009688978110648562634720518531992624257047662487163185946; 164167099150457542750269062029826361787009300099955873443406761355079195878099583699031940584283633279262949471987; 3123090142317090046284667314645469790094195342297361639468643861846151747988977650939934294897469282763202401079220; 298104871555219182296142984434328579941824339744022606022818717876593487389897560956441385016642422107990017881634; 2207141912187016684542858509853703834301462918383525368134626048630080402282815889615925991584868298557238834574553; 3249801767303659657542608495808707920020197064009508305256036176428340014248671354755370576069298294644630658429089; 2380057619981547746169352287030902144054043269620680869647657053708829026354867423709317469473236430247165177527942; 1662339561713496965451183947893729664476307951292381599143655459476625458700398613656383253822680726190523737169554; 2110139196116741423307335248411981840194190103653411943590423579050252037085532738582681779371608725556362653502652; 2046298381015088481579559951209400188321277035798286045619000144206557169473405196307077723450157687705129855964027; 1899805087863310981889560177098454018649769879630941175537439113864672850069185844367419583013525654275059399820387; 3350215990464432072171113063886353719065536258645930991201045022039942107073445076939815056547709154150369439897695; 1526779559467973459793383039209075746737124602857404664690499644156272852687685662111146626713893728503305181277539; 1941540965321744210810856018678776581821553577333178743628799603042584798295799449373891054515994127024561057073208; 2249558640843165816533130261541554894176822925820870674472663990178757074105028756757289886213446404119486683447812; 2810900535910610558014269615708854672067808490553542305151604641836980172772830498293010773044397482809223340168337; 2649514934115016307030725820049689408766839349498743208687178992007995727711012777351668456985355045453946482708685; 277872647079325134683242531473507519106724302774841342453958031211024301612636011405326237998560603784538779585856; 2346479048898671376430373218181532542863318088139635697489451884933085212170659494708550570492010263271563550959954; 3182188463193647083879415817347472997663739117961699686791452906306127000243882785657474426177387577335022585781523; 226445182145961918815813526971740868682326449727674215073438492290918097224938029062218691088097932658909064540872; 3058691520063869090993293952736383891612115314535006739144264950772704995580191786078009778437801326857437337662209; 677931938972635636006188719907786233665749079089428411428339683920791329027719804098215905327748793228448243332753; 1652354288415315695681215234974209958129683462685764349058227489682170073306853646734113875738855483777007533730932; 163573773983004026438238617849739530314885043324128029641617663447703713855824864330552824462390635605212545598762; 643090227337233566981810408601449515646742022384707985393331688591256410211964478423747105139439675499840836848894; 2959737818077032622997390326021418725002199816249441406872861085383016973752770875421716694566457669957632285768138; 1836267806386720138468460320597494523843386516717830328774402135669550081512541217329088989406441469576363563854279; 1853075523726246985961504299930713673683899666729504918306630216668130451873815024191296856636161371332979446838735; 1734947373579941443889215036725306352285412831322576117140217764465564280867299411683779763349946968006223303397424; 2138809782900201564676181278264237555164147650170814767901377043975722365822416252202968067754581191358774422794391; 3497948076011467008774969151823529269275284144706886564910209067572018645010399715218588798596151853978236921783251; 499023984753047285846058536360492835306640282534957268707568028057220864198940350694902481220791459958690590853998; 12177966421174381172347735548332481287947568116698604199478349804771206598342523260069527269669279690959022846256; 2580147992204939511737192173449992869515427454799479940219289097676105093452906088877465177828200095521943977145554; 487916840650405567121101675188375891992986073613168218722088291944834654744412978013179168463958269093596356106; 3522049674762200228980817946580361390460214790315268825863321386172487048647781853400674716736968563951288273487523; 71098097923302498242911037858851037083466154586336062804068232070946401045503792295277685403253015972076462804670; 1083023376135591157231975936720386654203289819717571159479481235915402169872270675741584468048534306925772848416113; 3282629451559253987573698393380052869549829950542008243827736113118018890103334586748309883060565783508756257509433; 491276832012439950097979242947293808780366192552027577939448147567941237633191144359207106717263769476397029377216; 915201615619356933393674153739814333034708090620102380513475226349102075704548596485399683393318150488875819247035; 3510180723868839642491985778867521651536228885439085850009137493290420392740282210818831535320092130257887534350713; 3779461402823666975578882981089777230953205069570946618109524451474385522327842388980007451557244570096299031397912; 3473891855983612952725787500942743010490052947193371969443826217119263653285610401302470368974450025570468507866434; 877829278248885745705863534655280599541252885960869177000928790202325140753705271896722169105310125998454545016478; 3516348344229885886429732295516736051612963890071427094931693370982562761487150178458318989110790632269271956964099; 3410581375165398043436721565918850126975293886043653231905192487852353500182761369009141427628407816735353757830800; 2490970028659039245726342733872946052446482323942300906250875309122281338962984421171050546868278654071396193229397; 174128750466612805427772991150471966375939988428334845543530925916057241693331527653635893740167025489149776514056; 1055449126150323632366554910617799510681734816601495896585542993840463075674850339233958533105944465045893511752487; 2248063223140078196667064566704937166170353396780054970720962237774852114374190708997203669160209742278652800866581; 194068141646292076001911072515142226006740293303561782453767670430226023399124994048709420375199594291706380913279; 581740926186664622075999405952248096942493189212860770262181161136679303139723443977043784749391790967975891024333; 16232461688732330966523695085851770575525733182593819173193719054501520917799794012157131239861032879880526451949; 3706571869953338463320930815818898508216468280755274600333154262343700798718101770978660726876992507844659674152627; 2187790805338082321575554583170860426918207203139620075647928230608544945531526320901005386115530014506361595585050; 372274292346194700897163671344415056494068597212712160649250196032582080249249316200552522910457862256304541245172; 2079060765149016280389925837425369687694486315983430214886562986131235703951695002096896295929426477343597320368460; 917425313574208043202540394639361383935078801881178340108883695510683072629147445311730774105465316892702624119855; 561400527022890582969422413773903624354233056126112539770549017991094394297486002719768439492667394732036561301690; 527263230594721901272470803408981808219475064740717710494465246648850917081705195462094327710014824021251437693362; 207810475478370590286493431143783153180309839367562856664437410628217990703708615963086221026802420048439954406610; 3037201454152154433811134964590793329824317122183448780077563756006284648649149363872731743758841777111930016411263; 2127185430216297575899548084174696783979529783476184919825792814842370110686315992752844031495302851095875527110483; 381218087132677394016474527163449511748707253157067116316417876602129910388449092383369403631807986031771215144; 2404527728809885712117394372765059315637362841100075816621495808979812201848850828669103839296989997073237979594056; 474126155281537198999047776226100341883659394057827952590959940876862969407404418155038837732695535493013077970025; 777392504156817987806369888333356057749000874209410532894552167230197215514343963434910440594508892613600889818410; 557579776966417536538346304187898805122694451345485143034906275743645987975272140653374203488232555965335075217039; 3598897293485438916356936486857934851888640153865108423134039545812381836785383908258611527147737305917277638854908; 1144272489956563092349159634261695013863261698109444986960079213600163026445684985711974178494750246287698847326204; 1748971317662388820185003122206249191766625153252598483662326705627503662095195434907204542996965418117931594725798; 3759120551152932370988808692532200885259960687797637779498960418806582058158894497325674894683453750740815004408676; 718999923089814176585502244940622077942087400509411181417522271445318711454727695413089017684139394894352329219835; 3256057580204788574170928665065728154427460869464245267517911227365910894102149106378007532292015536030504414060652; 1795534050334426736719044158695999185004052116355774381996840397825554841897385064003793921704823104639887262281067; 3045385341120192352367229346404533656889505039670929188932795160650604478348111760494935757319152101187147293126953; 481583176876629639522537523803973303336351644022227873821556886290405135057926703487028991757533722859889950020794; 1766722254272099631158276386391543707813151101134468428879818630782144769625943772694649942690339080356662176639919; 2556608252493982244258785130653170602239161010945439384612636884318499913857634565045811356169740088236965997830276; 715397911523998875553622475508927432945011264482076842499981493938820457011438070709415978816489834581807038404364; 3573333042413396180047742069686268889221426487914372953486136728635721998665104001341251886642761609263374595959183; 1431161368442313137109188243502141344070083298087576509766072948469900447283356934540748160251025894238601905151598; 2043444919907995007417387764507308575747076063962711163602976340653422596022188250452847923209954359569458462249200; 3303144619923431462957851385261996691706985494015347839549661365762404693666625444319355830818351777835877529927856; 232108891691866219279688728833897917350650374615398409498714853927373652588259102937354252367157547857768204423964; 1395527149226194183012157305620369650410182788802953794901858962790419790433651933265686165434371930139791836516080; 462548350494457324046632829578145246121773955849995902115874079871122769844225595157308216253805234928230474657665; 2192971261817432431696234964665898835525806784568524461112942160358005458039718566694253776294159995692110002683468; 141912429516603836515714327568287866186384583312629207093810780316951778791804184018891573734030058205929850230654; 3450431220830187136741738935307120531988601007611171621765146479431956589774195851629992084540327878590281172191205; 3452016938421229235902152030588902645507856049001812103227134996401796510371029385231696776967153777281942170063078; 3926697926403628357200738792550869124333193697471263340743095133692158214618145805951151763912599678498319323740972; 3554986817067190348834303806821089462795129345715695347187756324339009308393109377773176789608437137499087296296607; 537950673222321065511003024972137058433164726912588784899210312635625526884126664178482998173343523801257781203539; 1603101711488938757424674942709681774234420242560091355097235935359909697321934220443022627682678438837025232206110; 3149476510117891578389361959539003336461376351427086895866897958939656669889634953248183262648440802066392137955918; 169336245378938031066847188022397309499575490606247527344820666044608265662440590970653213150420177666324204068068; 3339798910866200654438385860403007060329544555379560364738141821716740091320680362795959528210373923342456081516184; 252373571116801728459033905383957795221634338341524255173672560282087315106157032432201662173250922360472846628643; 640927195016391031080899461392623344883459750612891863820767287731150042816329911176919468653100350339097538858790; 258973643410190048620794601147510453536777567410554744353966726121893260674748809673857981485376621579937148433135; 932368794575905216102625797743647781412313264262669654855398364594911937245209458974687847672703354254198903426914; 123597941237091117843697750005586309238769380515267643183606664516560672808691044810925179578641052781993608274469; 379590881980525914449912082493576347873824248947575051666045243796052666830590204086341684468500501323223795039826; 1029201550072564504876421095533386824242483481977232490232920911857829163995917186872077847987386232729134992209902; 482341060570240576317581347969555712376338259745011652752272682643486928614027819442825475900277102577345928433781; 1043979243912392451751455688851796405509664802452033441379100519500123915829563606647777709602314570609356034254378; 1047018546605141567830878490606389574696780482910256092370929312813048959464261893215225318443778403585649900427434; 1230174595668762398398955645005191026335983873611090730692569691713182867532116234104304617639345631906384123653759; 3318790738492669660225468691383860285217710163408048343002594636340488216773266055665137893792233909358332925034018; 875494226869096318194015891433848210467977556619165892820894673398267299265148904864472293503576066792021391950144; 2115022149933755953309301349164852671020501946898447615813692020896543787020379984145449070673772533760214422218817; 551137126427131759794175192832265786899309717332033488479657389195847146266461510409054100138202744387497510938716; 3300873395331705869969967452857289267765411184694367749099493931568974490797025538497599243609683988368843103648472; 1203641395420188791688234980831801373843522939656629315646325093425656849338573091741774927661527241580738160727191; 608176077745334237906867506376995705516383738069079777915061318911852561497159689061797386027786980946675097259948; 831781164752894418503533033777985298444877524729087172097733819453237883361579113842256592016341962344140773271724; 2085019082303674003513829896600030386705687760395347306683125405269867443699905266877138953331256215477229152667035; 863699417270998987539645083775990726154749372366746030896936384149935943291631560994690458280321440470478188575378; 1869565303124391349436085229137369775039918942633143385321913500057996342315842705867511877078998159915907094556733; 512204151864934266022086954354032931342539291705463483993850360734324426122309932190308563399020074802485927566997; 957223646695073828216816698034832528386506677554129556506930612385858130123444098518996533177279432958379764588899; 2261160270143139959435146108923163439074366136243074608539277481194048801386557409474342670757963900298900863428661; 2753385703868534865601029991370246924485943127096637801046639689442471111126571964126911585018173827293483661998; 233934504556120783322733614501943136582257101555401538976106245978651197287940734442687889282186092757790673183466; 1478122311962957298629610714669464022026806565619742969780772266461317450140577892497092387661478476490915828542734; 1082783285664275299890488439089589782980500177080717150108905840048843875242030382494256755812539536974293046032101; 6190674330762831871137374019733749652335850419219278734253336039294716456423747525313392102062373151431907784162; 1392296152033854544591988751974224601438487957445791825474013740157033635404579597531157711521454935646651848970329; 1113026171458868123986860192052846947025432409319942155436550313384667531177239121614768147026810882873926741254000; 1306996801359650618493409033083390150435838672907623323848182408151560076210956023682955532503761549286125233795942; 3682702837731723779601727406949442771940610040826787490701949318412040952384757208358710963049937172491177025901103; 17714773931098694148643145730229190167590371643139377999365266976751453315903864886834181669123690951477455383106; 3852834634550342141479012648759790946190348749170310502563211529497298166771925676841554330554824423654455256693059; 1888280113379778954046781306792136324740730822447280071630042382290938722150003775395573182687935776827249164987279; 1581940174007170234684915557642476018649241381031987259820151912054087915185255537953170671791610565386211522883347; 2277537660080871571247299864014590089858907095539767528803146116559517510394345873611364871854645903317135751158832; 1718950311095727369473606246850613285288517303789985945993243719831537974166857493821924537149796122780005523903499; 206134460388092040277285678172748512834920104783080392573835910990843065397422266883807645201223046643383139783635; 1616986722905034059748567938208490044804843633756904983729451836622719699628195397313515055292890864283819648755303; 2735523832499644307445905387122652114864661237296954752822737846612736316745724950396566626415966709981154302118552; 2427309038725105904555051533230774181038961242650688462594204723784214249786652404087598439694978566273047068373198; 313754648203569568893861321912656587033735848049060304625744872871189032173059227279140801271424637350483120322717; 2294008493179607805818082150770404195969925777550348434786228066597108005191539306547609847053128193285364167899051; 978682986774059113906645473808661068031845207149072911035525634354136414393409863354809141699387133170114264288938; 3570802233882209792460431796764609031978552888707606013295098122253825708634308071815961186678706925565343594907822; 930611958707400430464908022028252464025624650966839206226362959420004611520700007675407131888662203858909552901006; 2657923387133849598835955172646600769271565668766160833586123598486692581681168363149057975780494978094671553056997; 3140175106561987259718048620730428461021373126964209437725148566778342420878285782925247141383896468134181416121727; 1970505084387480909817497992680955239843124579763931491403537752621770233666645703192844698858044560751157343796944; 262843897137358859586764991614829823853426170691778678533822124605189229233797834318913935995649832830545504707672; 2319039800154580437011532791065554463978241187693024363270888481688034214385148511297814751338367583736823964994950; 17849783602775614112444020572698063175531992567791918892637775982937880922660357343422561493868038813049927981013; 2419269510368883136551055181466831765430657966692451035650933645673407631839985474454334289305888952092864430240746; 781109287161317902146712718792562724545614726716892107019979834185571048345595398728363963594806040898237545944287; 669235127225744787237628820479972928779276878521453831890198505980682467213410911710415822493392691252875756151157; 634292999578347747255126367871142185500450841829042443776021932283470608951455740865286109380657630952157333283; 1246328465430541148282555800326664008894598079770982374677836717057615373349388027730263675334953856334509098232272; 2563369651391119699367796337846750191335333858334211333596106920729748011120782789489043698522572196764987017269013; 2665267770561045076970285835582182892108351445728730080197919486924080730439352571438999371012175950295123235320105; 2528354113154975078261045823198240710106495348412901102226546068147888200087739799107198119205768487508337823843914; 3048617829182664787335689505661110879873570246697898574409790202961344190452227262822047531080167106309433357074583; 2718161502377958809635213309230936045595157441716028003598313859546273436542426340817835081224147668324269805838; 2498612053008719923367302418963437304407938002787605670618134444532095305670353795420841716621774144587603167978872; 1851911919541299364569993373897818282638516811059355449866202823790221592146633881991748317960454631224635310634137; 1766664880868237607982016492406956760982236794789354838701056751965388314685698247313100247061371295130112449014894; 127646124966322390746384159062909730593020260664903791257695141847926899450220602611633728630740702755424465909267; 1645638099910151782211143467237082432249946985366138166428241538285328262177904984642500140400486101749775815788631; 2181708478169404260169649487949664388420545813391868778086353067790079658057452349003967409481358581615955918025273; 3135202790969520736154361103105448933126392504093297924519539452420403424056608366566197462668885418137863033615638; 1134462115856334601068905859260653969699437980715724214061215060532842314718240649090933403831676901371056125569740; 2524492454680939647233421331573107972117498836761485001223386516013629497460110069050095169842507605592566779142730; 2281916170548700081159227673744092313524743924728251299209391755156290122809139592544240244532240452733088451189545; 198419570830499910795556530076590840482484859806325215547673372432490566396979635704058914290182190016445390909414; 3570454518609445596240949083931698324983488853133491670604587705845183531206478518993161996493438097740867446752576; 399530319060867491621785919454244692276446012092180536075215251757470355325215067740128723394106016226727859051563; 2405796911463775971042365333744733390114650978995531145351191938879024522835609456134298071702805875335392816837499; 1830189193679385070821625107258277565062890680925556453677972779350433142588117815908100353731068049119203216230889; 7697265450890699391301307373409769984626621404560299312491501309436998741659833033410705274951941349102520003923; 3066431328563074781091377942197987552578897042409475827030813744374770561460642858394305274926155847490317650589034; 1778932320718599502999713960889411617882751289342941936551563332881293519759969257058119404205372615700352541065524; 3562634781662953510806782942307430347924115351236877891425591203761037025386096619336550657052084963453712828970420; 3069001772333648258425739215919728589866201787837863707381668805047919748070740722730128282251770319397927282906441; 1711229800211692574306755891875022302801045616876815149557583455050820181349365875393439959926923574757117491913248; 456607340241123096485185548040840525578509218383287428701608240104581782582540953888918527106267320973242362158950; 136489312690334856334646380005506050727169513005985098161924548667771328577831731280250583388442583637108353576937; 423571592400914372641354791756341623084544349876888704396720296195004574597773970677889183047003495363092274133997; 2300019626656735517380317252193449225502530863300583875590399327013250843065344816654019166284408543294316688175093; 3122878935499207130866671062519042887401406267000453249962506375733826395795984871200471953082843079360797897800916; 2340973070176099302452321166155278560120247073980179309946220083740575389515253618733173435766340132778390859275021; 561075910042451231743725672308194114255057241199871658034922841710072673607405406525860130697049426548045605119125; 7487271580001152035073784082897036893849735383595558207191990849753789493192520379570142502380447812928378128222; 2284834828417221706862562021442616618940145121238426266260262104499801512804864549974249830508047763106779284002662; 1543243275316116738505159414048385467928134986613761634512192318937326543308464502593951256086770462635563794442284; 8067672049518518797171967553332099703085002756700227398654419100205331999902248726926317177928284731601033362; 1186677208321719837430707810068289860786948854980288033124356079090474170793408413472614466489236579747846546149968; 611346173880569172925052255620714482061323965276250877805147987485888876293223517629141313722008480932768823954813; 607562228332566012445823121815892362070902795097363409693439437794394767134914047257605196107838133488839471182607; 846045014526672887584293665907041156773455626137921141361451618256552573721332685332815282097189547985978790571281; 509320609465071336925906699753149425293213968288908198103199045817730540981055215155527895733298794202602340570346; 1817456992578208425445755113168325529634557030587268101321360548881030346587448616576499200952810809203664224415074; 3762812684028729508713029541495940594888279059879071443446252942132816700798377366780734474047013399608120344258317; 1734582005969911260874099602016090160106257613351103868823572850222557820703422606077421581798151933701214212853712; 149810785701354509195496860919023319960776345385815459478271905964192603926256416993600639549931091805844164352173; 125732964258994743086760797836541472468242284460044768614932560743780707021670719739976895009052106332378548430121; 188502599137540631504069788112060677204877425520105741204448334870441649008094449704798384028415119748414429355; 2632120891255395414948752249230407201860223010788216794182933756478170265255457243406297673038184159205201379629597; 1131538834439024709133360011369138761465818516032011569624751938947820169580590808336690231419990592721627164793732; 1012845737186431014485819993915657093962681121541891082551388015510524983117621439931436371307462885448449605275102; 1252555113376611721649520713113779766775272875599302916308256769147593963891526054849269367694258890494580845220832; 85543250236925724294806469203008909162396151768275875626325700203659488795979513730912767995416848932905004363569; 716705704550493237872450311514159181625973736114580685140427639060421734051452805019122963177693920297535600909362; 461079444320661539103854827832723755674842846281053165333677071862151165307845017638418387053292787488555431463850; 65468138912475918726750361380012382578649492186345040696184190910690484571496701813637860718627928729406264076623; 175208204670228542499404565145861895500335368592430103597308154502763594101348863122910562124136612698131126218663; 1014301273232530315908044606372751430942773692433065257400572836152403215637308997389539594317896503890472784738133; 42215099377751372810713403701779606265872994783083678097046639219404160685461900572193666474824426745195078684; 608728970072455681831569935188325935855777789664609992348562216265225008922955489545621350222887150709120379223470; 1674413061326507973818709674965470599652516615073746779896936817057891882236386393779859410664868901521307698928085; 1598474944751202268236573898378576539238833076351424301684796869284954627883328970905190399566096066288818033619696; 34558516343455210185361707146385780738182139905171449403207210763178311008063533644717348175426589317084716588133; 2702328339781630474501971003082916450008386971440341867328435143158128233644322813507222376683255686591226028936918; 629026581729014863072184322266719306471493266783615209202680471907067107672440961515607408004536204171775176620213; 655371094885130729978830353269207925076864987980497861138028600389605664301136520353888166831326944917389075130050; 1934583654298545105381209053488777840020759724723977928848001819285648849932613641545867535622576948406567918393334; 633661643789905857385578965882348873133787468768329645123236805124037458285329834549360978541973733388913397254744; 2675253704355342165952492063575949277335156631577171732400761816154758022915006150209525926921481853155563669636165; 1007988661208071816747435846054302221757976174282540459791041285519600393365774146086401658848803425793573181776556; 3380142205320922548720767651242781789359357163823682010453276505549267259639990516444231647452272553739068504037666; 1110701426742735678760833518127193365505726930566694246223205413234324093905926288606326844521389283589009783387360; 360302870134945664619321365470744763447217528183578999885077885429194116898784103343158711134586713182970100039014; 2329870249354383387283273376872031626598629714160736258702753516638823394540741105582679762963317585753380538741604; 25942140590926986933226181332970538763597063602919121521212613227623575341646168798900351626638464590443596290449; 2252035123013326765563475991290732610103821889980609903122662573125393288990341253088378625858476617265247613054564; 799895562168411247579193166967387122397277766028227445873722638167254156335482992386126618585295122944328178923793; 240826355574656592765463564921617604729267599959170622481502217701763039113414110087446444171536637733375587033881; 600691079847506022174990166517043436460785182250104526629887195761502948582389852541155283251843382784181567014606; 2254933074505883421235068466133165163631372310203763588661940859475408164901209483026939874590479311400880094760763; 1551051050034925534843460236137748527265896306401630263210182814555873622667117104242042831416882289350496613660855; 3502733706097784943889131473114323049244109683368966566796104664097796818319002488884460921585460219570113113621821; 1071290637347753731736735307825626433092812086242966778544993698836775024989949684351594091800280656643830229683425; 2971594013686583934870128623743628511495682994298807084108303091852736725216271199465528896805808855993708920300; 2726736285418564753279931170699038512527901002301087591433606429479942049930835913029261296377092004998183188825039; 3696663072659829127662884791713296571226023675462176779178889376877197758930009036098856884338566859953085986914377; 411162119325663154322543032963715879757982592944933070069455667305430683443615705590813148019536051904870984819812; 28341059219859249480287854470776434346284092670770777558955679718818682928275977885552472445038153540202987694993; 3642856417968965393719770565606447383321037045657375844945514235473227702033654375048189695581398263453114948806581; 1230569262307397112035073473259477274252368928928633320654983277367289135302486727172005866358262618916114354699637; 1734358760890723033627746936201587686179882462759786973044237138132712163222539164200409482269041525022340156201; 2125399517164867232453228443979760216183603794480637045950320171874844694564960357883952579693954603171931515851757; 48323787012756100631581560703819541877778734595775731438902951496383330235676934667060072252411374248175062174648; 2101772322335206073801373258530787954277725071785815902259284306960082870543920358875894892843624020929570746129103; 3346933647175348571713055571873866294014916943959437298267888245238462011517929183601710709568274505608130335532103; 592465607710155265316083068162312322636910008997394168967925605735036540970776458804771162493657088513146065322132; 2539693177491605093444744401813135063585020290856765595242174815570428305105667092129902053295038926864806603742273; 539643396814779138649365405678122248688972332505749091935303729095710336374348777331502852257147792806964440117353; 1406936980522521904506796653852432210399384336951173294896806420155519832188787108726222016989447493458044527181356; 163596894040803737598930098446886383875959239075015341283692420608577375618285866962397101323910740380826799791602; 1700956413371631774494106778685823051834175766241633985068433085366968208473393412841405380931820192710792894806917; 2356940948763242992773683906869605230684361380404151601847456130635193576019944855949995127386329487541825020654559; 2787658198913952650241446707895741886059871809106649215725633962774537869253866063495633980069955410440729730540593; 3209955027704100144298501080214647260519429393216053179459438273157674166001769372351433161911628738383376079885707; 211249868234413364439466720082899537961829816412563338787774930200499581705822956923589432456951132803373353872788; 3468253242021143734969509458430146083894060176625597266292936817302964488439491571798763059441696033906545266665411; 775347320868629849471686851802034685813519196049285344383868246126115511360722502288378489553190324005497491484261; 2281866507760403395744861735881822797651426516020356121201511493927196374961970778649499870884032860378610542644923; 2732754702290015923981749825739539886703888408996021839466742472591988623934761728582874647009406323336266907285309; 1301728301976004497947044920737003305135640144398805768701999538482780052654118915423715247131489615714523919733966; 410011835480452776101925684428231216224051885851573911577446462436636958776309060241852239284649067491753275071312; 669665437927632595073136724873416460225823039374417872878441753103816208006356710635764742860547533272372108167945; 386033865047184542137952459743283359221196625178095724210636230370104937642703019841221546692300435009137276627381; 3686670016648136263121665381889961003983450693074973884645945435028304740911107549212184477668446716316095888500600; 3306221031933221641587123731024393231369295401083035922016891335605773055039210204861970493659562856005689885354882; 1742426469593564117886354318833183394108163802768212973395999071822212142929018387205597845799091305389858493438515; 2084083907296705701864737548678020137605317953505617754766367444274714729292120710166999064143580305128994832950511; 3945283425847821926962290573440034633686869898054156723998953745868273083324078419143683167548158131563514194456927; 3275302777972258948379423981840947141985180151013480973400653473320743695939435227760262295807419369449038127316366; 977236790381568420179146984340213127920213797953292044961859689879339517707134909362378165985427275431027719487352; 195522176127808874369606353529898222203414538583006389883828712066959288754296806876626370985941828918345596666226; 46785659259881594535371082700544332586735544271422649108022669236881774796709102458289415367922752736093195597529; 271035911942926859405914048966196231729398156697617058912498442167628218918857635048439279241645052636415515861185; 758124282164628835897320733582787084916175112814152127952401462121897239608501659848757203976961892526387461282763; 132663186981226717894077239355522901361856424799559128261336245801983774660569435955463564196847812370957127319496; 1987767476095417916486256234260049203043878932348521246959931778098414744330149487510110743487191083606177512532031].
Definition hz_4002409555221667393417789825735904156556882819939007885332058136124031650490837864442687629129015664037894272559787 : list Z := [].
Definition hq_4002409555221667393417789825735904156556882819939007885332058136124031650490837864442687629129015664037894272559787 : list qh := [].
Lemma prime_bls12_381_fq : prime 4002409555221667393417789825735904156556882819939007885332058136124031650490837864442687629129015664037894272559787.
Proof.
  apply (pocklington2 _ 2 hy_4002409555221667393417789825735904156556882819939007885332058136124031650490837864442687629129015664037894272559787 hf_4002409555221667393417789825735904156556882819939007885332058136124031650490837864442687629129015664037894272559787 15778400344354997994418419698270088123916926905054652752758194827714659 1 hz_4002409555221667393417789825735904156556882819939007885332058136124031650490837864442687629129015664037894272559787 hq_4002409555221667393417789825735904156556882819939007885332058136124031650490837864442687629129015664037894272559787); [vm_cast_no_check (eq_refl true)|].
  apply Forall_cons; [exact prime_15778400344354997994418419698270088123916926905054652752758194827714659|]. apply Forall_nil.
Qed.
