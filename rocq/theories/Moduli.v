(** The two moduli of the curve are prime; generated certificates for [Primality]. *)
From Coq Require Import Znumtheory Zpow_facts.
From Verif Require Import Base AlgInst Primality.
Local Open Scope Z_scope.

Lemma prime_906349 : prime 906349.
Proof. apply (prime_by_trial 906349 951); vm_compute; reflexivity. Qed.

Lemma prime_2653753 : prime 2653753.
Proof. apply (prime_by_trial 2653753 1628); vm_compute; reflexivity. Qed.

(** 63690073 is prime. *)
Lemma F63690073_0 : (2 ^ 1) mod 63690073 = 2 mod 63690073.
Proof. vm_compute. reflexivity. Qed.
Lemma F63690073_1 : (2 ^ 24) mod 63690073 = 16777216 mod 63690073.
Proof.
  apply (powc_fact 63690073 2 1 2 24 [0; 0; 0; 0; 0]);
    [exact (Pos2Z.is_pos _)|exact (Pos2Z.is_nonneg _)|vm_compute; reflexivity|exact F63690073_0|vm_compute; reflexivity].
Qed.
Lemma F63690073_2 : (2 ^ 63690072) mod 63690073 = 1 mod 63690073.
Proof.
  apply (powc_fact 63690073 2 24 16777216 2653753 [4419448; 1889804; 8711448; 27329205; 51868540; 44833870; 1806065; 8505225; 10275902; 50738187; 11507447; 1036960; 14810750; 13880439; 460812; 49437545; 10386341; 153622; 1628574; 39970324; 9339886; 14406653; 3359262; 8455623; 28440403; 12355503; 34496211; 6970274; 48762712; 8225597; 42628564; 5430551]);
    [exact (Pos2Z.is_pos _)|exact (Pos2Z.is_nonneg _)|vm_compute; reflexivity|exact F63690073_1|vm_compute; reflexivity].
Qed.
Lemma prime_63690073 : prime 63690073.
Proof.
  apply (pocklington 63690073 2653753); [vm_compute; reflexivity|vm_compute; reflexivity|exact (Pos2Z.is_pos _)|]. intros s Hs Ds.
  assert (D0 : (2653753 | s - 1)).
  { apply (pock_check 63690073 63690072 24 2 16777216 2653753 1 2653753 24 34981479 s);
      [vm_compute; reflexivity|exact prime_2653753|exact (Pos2Z.is_pos _)|vm_compute; reflexivity|vm_compute; reflexivity|vm_compute; reflexivity|vm_compute; reflexivity|exact F63690073_2|exact F63690073_1|vm_compute; reflexivity|exact Hs|exact Ds]. }
  exact D0.
Qed.

(** 254760293 is prime. *)
Lemma F254760293_0 : (2 ^ 1) mod 254760293 = 2 mod 254760293.
Proof. vm_compute. reflexivity. Qed.
Lemma F254760293_1 : (2 ^ 2) mod 254760293 = 4 mod 254760293.
Proof.
  apply (powc_fact 254760293 2 1 2 2 [0]);
    [exact (Pos2Z.is_pos _)|exact (Pos2Z.is_nonneg _)|vm_compute; reflexivity|exact F254760293_0|vm_compute; reflexivity].
Qed.
Lemma F254760293_2 : (2 ^ 127380146) mod 254760293 = 254760292 mod 254760293.
Proof.
  apply (powc_fact 254760293 2 2 4 63690073 [0; 0; 0; 0; 1; 0; 11745006; 99707285; 4238726; 1; 138673710; 227324119; 3; 23072296; 3; 16142357; 3; 17471850; 0; 129218171; 153003320; 1; 98341026; 83761968; 0; 36363830; 164312586; 3; 85831126; 40312342; 3; 129679490; 179136231; 3; 24012783; 2; 43978350; 193374309; 35109216; 0]);
    [exact (Pos2Z.is_pos _)|exact (Pos2Z.is_nonneg _)|vm_compute; reflexivity|exact F254760293_1|vm_compute; reflexivity].
Qed.
Lemma F254760293_3 : (2 ^ 4) mod 254760293 = 16 mod 254760293.
Proof.
  apply (powc_fact 254760293 2 2 4 2 [0]);
    [exact (Pos2Z.is_pos _)|exact (Pos2Z.is_nonneg _)|vm_compute; reflexivity|exact F254760293_1|vm_compute; reflexivity].
Qed.
Lemma F254760293_4 : (2 ^ 254760292) mod 254760293 = 1 mod 254760293.
Proof.
  apply (powc_fact 254760293 2 127380146 254760292 2 [254760291]);
    [exact (Pos2Z.is_pos _)|exact (Pos2Z.is_nonneg _)|vm_compute; reflexivity|exact F254760293_2|vm_compute; reflexivity].
Qed.
Lemma prime_254760293 : prime 254760293.
Proof.
  apply (pocklington 254760293 254760292); [vm_compute; reflexivity|vm_compute; reflexivity|exact (Pos2Z.is_pos _)|]. intros s Hs Ds.
  assert (D0 : (4 | s - 1)).
  { apply (pock_check 254760293 254760292 127380146 2 254760292 2 2 4 63690073 127380146 s);
      [vm_compute; reflexivity|exact prime_2|exact (Pos2Z.is_pos _)|vm_compute; reflexivity|vm_compute; reflexivity|vm_compute; reflexivity|vm_compute; reflexivity|exact F254760293_4|exact F254760293_2|vm_compute; reflexivity|exact Hs|exact Ds]. }
  assert (D1 : (63690073 | s - 1)).
  { apply (pock_check 254760293 254760292 4 2 16 63690073 1 63690073 4 220792254 s);
      [vm_compute; reflexivity|exact prime_63690073|exact (Pos2Z.is_pos _)|vm_compute; reflexivity|vm_compute; reflexivity|vm_compute; reflexivity|vm_compute; reflexivity|exact F254760293_4|exact F254760293_3|vm_compute; reflexivity|exact Hs|exact Ds]. }
  assert (E1 : (254760292 | s - 1)) by (apply (divide_times 4 63690073); [exact D0|exact D1|vm_compute; reflexivity|vm_compute; reflexivity]).
  exact E1.
Qed.

(** 52435875175126190479447740508185965837690552500527637822603658699938581184513 is prime. *)
Lemma Fq_0 : (7 ^ 1) mod 52435875175126190479447740508185965837690552500527637822603658699938581184513 = 7 mod 52435875175126190479447740508185965837690552500527637822603658699938581184513.
Proof. vm_compute. reflexivity. Qed.
Lemma Fq_1 : (7 ^ 37848621886927146393886933327191985119287925064143343018049536) mod 52435875175126190479447740508185965837690552500527637822603658699938581184513 = 49385646055949372776104053188214108438062701096713539810613929439219839297911 mod 52435875175126190479447740508185965837690552500527637822603658699938581184513.
Proof.
  apply (powc_fact 52435875175126190479447740508185965837690552500527637822603658699938581184513 7 1 7 37848621886927146393886933327191985119287925064143343018049536 [0; 0; 0; 0; 0; 0; 0; 0; 0; 524; 5003803940060051406769259188508047277324824393597500560590189304898121321060; 11375667458671926988359698149653880855975623357997644840635337993564655341047; 43465495182663648901552324404048735260105634501161082873657219133816980655503; 4; 3305289104229501933371752309621526149322255556436119282791404959764545125863; 6; 7175364764379505035215007605394853615304073010843267140973836583753249063729; 13228875651154183526555771115457270742177989367194476106033337923811636898665; 2; 12564190396118504390097747491259555387383195960992215093388198464138541419377; 2; 29724054343705136812630462101861728199821750225181582257256754895191785039548; 10283168809490284590817032845344231794834332854297860340199752703341841945921; 0; 12137102009003775228982318415573650461163545996623968249031846510542655555810; 44570589628520156689828691260198968464129079037991929924271233950736401415380; 8929031582285961568880368787275926545781997683716159673617877598706398735308; 6695497251607989999823742995440025165399140828440120667312362412437889756823; 1; 34881030188468533922178753826341494448445967015842465508924771887769643330661; 43492881835248736756539471305083391229456893291215068263381027996012731653473; 2336767192662659731012984336758791017897459371051536290444203134500850692949; 4330275696978190296253397399853024107092179691836532271026090175649670198; 6; 45789484970958771328188939118805570630480603382785550614003354509474756195810; 10123384680157353973316748457255403002152838545135652561245771194662438355291; 14520791695604543290600714981919970239254376109216581204099599569460233344886; 48161354007944652063840296577994287863742799585682531453563603574792742335726; 1; 38751770237884840167539029859461646584915368541720348768454323136329201432524; 3185469443105812733235758809163694986785522265202675726207119621687529605523; 331051594256823705969981739895586819021003899845294288082588551413566453211; 2; 14944158902152585217468448459949678024881903195575482268018738912329842702798; 6; 44870565269574349768427189340594092590392535028414844491594744855353432403205; 4543480678000318492387573678379616507076090645845482105063006561391923951988; 5; 510173704689790280730640903862879800581011376584306663740012299012029405818; 5897538457862265165607093274780500151927763562713491700507471815244512446062; 32502662623703798857388996749831087605861705708425678881954973161527371407088; 3; 171708855640096378274438749895659570251483135082535792760554991817007477790; 592800064538753742223803553021334800906797454513687637604935297335943068129; 14648955544736142968684357162195287026172343046805378105791344558957606167538; 14159359822946751832358383952550209420219497998776891728688125706980614036203; 11191674593476682409147810609236963380431740978922152801131121726335281894544; 32919744812844634458314108388003849338614751459237376839144916392095048010913; 26478325078071150213059020624415993115099912026341755180786597330260657678719; 20186079365227132141992420748380039115962244036002525220202072191650665714276; 2677152126379069385278196697846360930970199672542539628151529475611614541494; 1; 13109755433696823670578820632452755449540443112432436212645541752479705222665; 23464461027164524614111709652988684943143218921217324266745448646674717903471; 18441454288709948281286302326705320666152598953473085585055987968519167845735; 868450386102836657854423415197086427441371937919520825465835345977947798563; 184483170727783671049055298453005321241723373992242807094373354796611870033; 2358204429507874304815525277794026298129244650929800886604988195356491981820; 32008121643237048627848724323359208371754462581638100710662997977580488092989; 20689084657790496181888169473484381347398055601202131217409586937138435479693; 6; 30492906330386354382681889305219127635162350148813571692987222672444636947707; 4; 8827179673074782053964800599786881940921710177563214993986056910075623252320; 8853224465750426914290146743249137234762970089768709325378013357457858885439; 5257346696601539618299404730973301304482518875173155763598967605430384832004; 4; 7155149640782035076556730297361713819382879117456172464517041422424390025193; 2; 15086549028289702424223437711489922364290500703490627796481468137721999744855; 24861625278454427179627638414751009361751925365452749067365269039333482001950; 1; 36190278177715490220904932600351149115555182016170405445049376159839712985291; 1871865854855935206793249860195434051844768234807027825019711321674150727276; 2; 29972092145506338976159832143450640181238082021980985993389101444150422886520; 6; 40573821386997748360604911127092003956647954047562038941100698272070460283484; 3; 62583726136276413814973793555406192795209119112809223294877194535909573037; 0; 46578306612717693093902075721889314560015421428277246898762850991409474636384; 4; 31632448682987146464298768422535128356553279264605742906807089139128603141691; 11020566387525124326379976648102872182099706221903460489645608663007549432771; 302566524219680089568642246592937135302138471825005475498090180252574516; 0; 43459351440440112099537232760834398639860253910228923487629478231511611579975; 3402434655689998059956625912024849445676712847100234126583516354754523245834; 6; 42910429849186725029434554206376660919881641811878136567916935653069574372831; 25732888499116872410315770677400176245793970533233376446266719631233189099697; 2; 27348072036797369086989184305188402406900975467408618534364614241893021749858; 31423716787559258564768937837260536933210730037649567677552862710666514839833; 3; 5127253072556843198345831011797048046216803708208632033152347545633237608632; 3; 356422128025494789799788476330332094224356110916887049448295091006476534027; 18157940078248932075924502861386482301152942919425199685373942847888322254954; 10923038775019897767629374606019532357827710531531335074107866451153302637641; 2; 23117875988692245516104503162938934531145928413585820300342954310909372171884; 1158640249166483497684900876307070988781677372577337848512026361630912893985; 4; 42296283507523493202720452469384330899288707447946552142897305284918942861518; 564990390565952636612187169321797203814337154932843713460175512730345582242; 0; 8401728765992562530996295668283242493863246746350700885559576887393508326232; 13708179129018206785289603138175429239426663287024047652497953437592602095241; 0; 36964119744182737370038986430733368459490165812866447749534992627556384285109; 682380966124278084694902597487725225687893066358606972885902862500300125272; 2; 3173284223957874012141138966641048897022138531999807558186400090497095651541; 49487336285622970064936265555156781331806578313740402301428009772139945468387; 4; 39839617197756418723471483756148385219188648870527362109863859097622364561674; 31571166246621886836166507243083297945931561791837529875760099376169109874170; 5; 488162944801015632843744317900543738944906857372985839810257915609337410686; 5; 33129701289830432543160341025503492995566269947886691057339256493808452455611; 32302439641079916559458217849166883595933142380012887219989297115114461678130; 5308258182401914688122701358354505437886731118120450811143628543505041736511; 21145212508231532159103944197947234994059588414342596133893485829654365936706; 4; 5293116716536421791540423684006996613954860275880381657893407994907784333607; 21488998602133210767546138688121567720582234493770417910902844476803510576; 11720250346827644789972934751339300959202412131546079288305591379318947430649; 0; 1909060539143490108946224993991481877920339763572669211045237615382856509038; 1; 12904688872443847968613646255991545730894024120982887228640251911882792283607; 2; 6914298140830775096244542516040729574174136073049650227214551884663549358697; 23955473296506872029527609478077889447143813922735725362481228743529843350683; 4; 51649853465111095284838926684242778358970460272575511121205877374898034165398; 5016248294144032174021522420082736055935219760876120166186133061688259088003; 6; 31256624269564523288387555187950804177403013616384115175505915171411770743472; 27561640658035876545958650537228659275262861830311270573156598686183295568109; 5; 2571209219966004158787610766623200332860939823975686895977047988106665659298; 5; 13535881868205117396389504828827583778534264426456332563714310732094366122509; 20077010688240560763146555029534393689714730960672226025689147175310674713725; 8205495620483314100404865910861210696682524029742586071771783527790174674393; 0; 34458772933016115106779128527465884654092646680265217286976973741528894240464; 35875807381623617231713135549420786594562819903205514565465739532377476997723; 4; 30590344657094891750183287169486866320995593366249547686771660765397718144141; 48277296900681460643478813868258706440088288595970775106877388730034820963316; 0; 1063617585217973062115267500139883227006024197587171269801993716526062140291; 1366114533980147409075133708818775255530529270500479169516311345084904310225; 5; 11381283919333559651581992567236833699943540649675906547985206064093861669952; 33671775900047030353790660478077969292484391623701089069433943202422831620243; 0; 172262576907422496388374394368005894650831409327016141244853845064677521910; 23719155363336148169922927789065389178766241363910485269561381480454629899403; 5; 6698032899694133946876322753175975681196999207956153120192816739822858354745; 22891303533067089896652272975941930687006734889961078939888009110422881937057; 4; 4291379387384039142656757147835059759931850886701932705925692820833090830586; 16977514862255388617405578242833299900753178759423891487057589494659841162310; 2; 8229892431458744007353915303281641250013196921875886092296588641936635877951; 172624062149571053504914690224653961431703590613766767821153141773762184654; 202307645134054366767674236218612296324535786144716383354235928450458274412; 20434591949093680529300678324999374603455824634076172667224392387827914604829; 27837097612294399068315808496693117368675436999017806566777245407286923810269; 5; 44112144505834663247072463235593959042801033526264034175839601609533673773147; 6; 4292917824465046392171977369826153320139083217055296510192879866664828410213; 5; 25025617636951060911895523774012360008979846554574845992737381061934351808257; 5; 5472664935173936268316489748935029638901682430026434893787528791340146956704; 994370395744588096113256558124401846490694572291042575708359948307915071; 0; 10593995765507114818897426121331690180050931646919030716610018871333989317140; 42924089074087689991677118741510264435085742942263830351944341641771217486033; 4; 50009386596862064060557781271085501068014811930044025903779019723508131992997; 25014667676952622798603733136158166062569659545048679276427266001862836864464; 0; 16694431512866433440620228990609420158036027371083916234810810692620944783357; 51363759885231880252780653253808526482299948460854045002118257582604229842649; 4; 25552002371458574197311072178422185736895630953730792885364443754972016110; 6899935217529311806656598432575735697708020668966795905341359549154295315776; 1; 6303639035814811807989900171881384978478847002733427227566623129308515690299; 9376457670693837882762158380620667242450705266460193355907044354994535039010; 0; 21690819118204495187426198757120898349454889217962377606715704138085040514611; 20047026017087340556615493044698758520295479554728660636244314604602966028244; 0; 3937477238191056852612085511448634741730916958707099247266855987865978634664; 38128830460773550332659463796712709417702002999602674439665543679980529218157; 2; 12477358828666168192227375012892790682372991508057085120980111724597575811569; 142611495172511250349749594073140793199169811571151435748049155497243976270; 6; 49603952071036217184777044189422156804344000536437752111897923835609396960934; 5830009146462959486542491038961061709202420592619565246184188620593103481663; 3; 428236966384721594749722390967572004613079468120336083986635224029460018056; 5922186266566542016754760999056488016840484573659003286817291677135700208114; 6; 6483448450194944381974556438118774764903486308097650198308265813062147920316; 36654883181020834974231414953230002277264879180733869777548887176554479592549; 1; 1875735077686408126952977636285720092201812710014633249137768406570917944160; 1109228905816623059706051979038836844213790003355497186767295859643912343426; 5; 44268922159145245613911870332211919204665543576952677241506130216927608688509; 51886750542899967646253555185312261434805698657267138976210953002622269867131; 4; 3349640625083054999633554675999562126203668829730107297920054503310411; 13578474720891465557525432390489979240644419644070460662705407962128156955414; 6; 2281594451333936764769647249587376488872048892136662099901372952977748086308; 8022119951148114547839840959284544851928535057688229296972059982746553844743; 4; 41453262146580320903966070294080473002059927282286828652652448564185701351; 50690562987429368626233307128037805860250257531309848847011482115164138972374; 4; 4186692018583565007180304468008340342655067917625275209003522193305211191153; 610759142466413959771133768534974851774927311301226128920220583896312463836; 2; 4783517280590141498200216374704867262012887801399278720727113190162380015212; 48075550423740830503713636638993749459196266979769042216807855491875245979884; 1; 1288864837980700407192243861212925364903980571332906845660714309817322758200; 23676797532655030678533487214959406145988560805180500823016658182716418034486; 3; 36803446063148599149277501192562965222913523506987790907947638343695119998592; 35626348357699654444436734638622458366490413180877529980628444535943554789506; 6778977080348084073055603232275868115898561138535360828384079555586128842995; 27045707203313501308057754092741456304520942056303474553930247839009035044513; 13562815011944045127185659246309884806938514054903685599227333834733587626841; 9424461459777145810357848370664905966201363612975429254722290525885963755071; 272880071367595394857963297157294021203544640351783518664256057522094014302; 5530001097435194163453269405906021908385146036826643872581813635119564872203; 28724490962508258942562658697428937073613604220683879069728307767307062995435; 841832136980777067071206309252950304312211446475621210512481774718002847647; 6990804268202971108977085795127943957831063357574640755018041185276832491699; 15621638406325387754290478546386731319134574861530537736928990989739612512093; 5348450553503900321284253578877961285421003679985116511285523625822206361090; 19633146131662369133774409827013886007371348073109195194871774757331876194257; 30432762009376885533637842602110790141140739442477017954690994884866835765805; 8803933868738824465877740390094501778491353911622939302368592996955539904277; 34162793462339928271078543372070576586320983283235670864280207458965357253005; 19366066806507031671272211352963188302770553744042206319510716360327780008138; 1903686989385378713453042406394143335154278290584975360081471938424970965812; 5452488503865275304749578548198786895401701558748000850063557653839222890103; 8660895048327779362529952811689131640956184931133447659749735842771262165000; 1925145254623827518707879849496577299223256491987726127084513001298292353414; 11175107526582644267142129410808577269632503365440689750108647083539293849023; 8404013039336488796457644363340131071762256489428768299652474978065725882576; 23734384246642154772700775862065108304237513313376741650563184973139616135620; 34090746849400028990041299258985109205657254498785479376883618731264289408361; 22732631522091519262651937645506655318700806918173524089360704782171494782263; 4788951283770333077049091090193466377948807010607956874390663372274018446902; 32086783880523778913300766402534286527543148677649282815636062012289234047830; 48203899412789918413332578733043883977419342065497961749483364856851058280919; 24420181581133795499855053471657619707277626454630542993888055018234687587405]);
    [exact (Pos2Z.is_pos _)|exact (Pos2Z.is_nonneg _)|vm_compute; reflexivity|exact Fq_0|vm_compute; reflexivity].
Qed.
Lemma Fq_2 : (7 ^ 8739312529187698413241290084697660972948425416754606303767276449989763530752) mod 52435875175126190479447740508185965837690552500527637822603658699938581184513 = 228988810152649578064853576960394133504 mod 52435875175126190479447740508185965837690552500527637822603658699938581184513.
Proof.
  apply (powc_fact 52435875175126190479447740508185965837690552500527637822603658699938581184513 7 37848621886927146393886933327191985119287925064143343018049536 49385646055949372776104053188214108438062701096713539810613929439219839297911 230901736800257 [46512850757575600241293707148801179070311336111686974615651758572877634856113; 20000897698871224421159285436465677120325658480061814955678227288918842084554; 27552450667623907747005893234711732402362763306982087305592609615896575350938; 8410743119276497669120760751569034946005957549865796290810851248414424824828; 38762337209073104118130430041435944053545515237956748484269136481162890390092; 3922245146221839363388083075739125302408628941268607719749800920731410974844; 1592449908021983537737265749424509947324959537757204901572563492213432154312; 807690778452636326767206405657491482228595150773363093556304176597597628394; 2767998425870810872873367608828704780726262914302876860533536991440407780256; 51745576765649104564244754451522299823910077596274313821831758119037681669308; 18339376485548418750146514994458836354751201822069969384252899669367453842374; 1519479759109327126290802760057368336262287403511281507388926478016907485385; 145925418893474766040640316045398359783495742327842835585318663726083306373; 23321772372964073498840170491368290287504052623032297131674024902617490548528; 2243870629338430301483916968908124865445602579027017488198259135078381460993; 16646750447108350029227280120510552170613686028871921902002609589243323349573; 26974730847710732005243617919436707614808725081251464660195407086922999303738; 31734295986203393706954912127753795186818220257671822618250611347379134140813; 42892959101706263443006465005862227460159022790031021596878523355904490240152; 1480203812929821529593244032313787830826297282008210282493362561731213479026; 45353600213217770324921880443471165993756120728867541403262727839018109688328; 871610133922531441200994380748052759503269276079089723660646332602749446281; 39979587166815381047814327271597514137575894795943970431870870858997332048987; 19698687698062297743973442636676067349201825146924554720787161587229177306733; 2172557480604867905946763870183362773124751695940124983055014452312689258102; 51414093304950076576669099722970225349919748002367677866498782842668606129725; 16554554792836356347836938847145835250807144983824408647748091921209831634415; 571134312940738314254960938466094428562133299513291633170224920345582873929; 1583045873430611568080255261952799834262079581454477833142970295622153842110; 3242870648640855821233184759344005803411031549892502763766432556460341649978; 4673010628963657728892269035910497009438072103177211517764886951132714626797; 29991772323247270567139294804344628040239089719762465178316461582320465736061; 18022485375084660936360016588219960692631771261213005319330291988256413285422; 1988884537344065194288333341924583633023587695995012422593366436619106459729; 11859742991661821177373362721999556117211444938989382339596227916521809787665; 9268361916114653980916110773128892013646203159564934150491384553307871111; 213774838799066177423390091730964245871713348302329160549165736665278320589; 39137485668559700412890812556936964214605460585064105011066390582519783794925; 84424967732076701342216044725828853998166442598124681860511957391417783167; 1757171376199866926265831046979366772036525182141097255206878099061993598715; 10355202793849112446108981345006560037416668317199364442118912303506462868053; 7641738603291083747701274009584843906261215470928576683610220357768122884560; 395120326302248119339346509719152545152383652212478158981485507028652356008; 21240206374896560218896553440313462948734095815783753880184028172359893253802; 5757505102015423300791705732145366806791590975555434595904185765442034405611; 18305357955806644014008440239027042917203155712633530105743206823800750742072; 46624357077189766501628498531847875721864350617834896331814707668378263510304; 49700770242186708440765205126911525371169756211055927925304772705707170100551; 21672408912774130184497899359515925468322837924714754787830928401122727671925; 37427277776941626985782684195307993486848171117831299891443752203088559900628; 45490197843036585746533334687307047307202011235477414455354688133281480684026; 42306576897193579422460111647838533861967120880940223972665407340923341751354]);
    [exact (Pos2Z.is_pos _)|exact (Pos2Z.is_nonneg _)|vm_compute; reflexivity|exact Fq_1|vm_compute; reflexivity].
Qed.
Lemma Fq_3 : (7 ^ 26217937587563095239723870254092982918845276250263818911301829349969290592256) mod 52435875175126190479447740508185965837690552500527637822603658699938581184513 = 52435875175126190479447740508185965837690552500527637822603658699938581184512 mod 52435875175126190479447740508185965837690552500527637822603658699938581184513.
Proof.
  apply (powc_fact 52435875175126190479447740508185965837690552500527637822603658699938581184513 7 8739312529187698413241290084697660972948425416754606303767276449989763530752 228988810152649578064853576960394133504 3 [1; 0]);
    [exact (Pos2Z.is_pos _)|exact (Pos2Z.is_nonneg _)|vm_compute; reflexivity|exact Fq_2|vm_compute; reflexivity].
Qed.
Lemma Fq_4 : (7 ^ 17478625058375396826482580169395321945896850833509212607534552899979527061504) mod 52435875175126190479447740508185965837690552500527637822603658699938581184513 = 228988810152649578064853576960394133503 mod 52435875175126190479447740508185965837690552500527637822603658699938581184513.
Proof.
  apply (powc_fact 52435875175126190479447740508185965837690552500527637822603658699938581184513 7 8739312529187698413241290084697660972948425416754606303767276449989763530752 228988810152649578064853576960394133504 2 [1]);
    [exact (Pos2Z.is_pos _)|exact (Pos2Z.is_nonneg _)|vm_compute; reflexivity|exact Fq_2|vm_compute; reflexivity].
Qed.
Lemma Fq_5 : (7 ^ 227091731321562878363321599963151910715727550384860058108297216) mod 52435875175126190479447740508185965837690552500527637822603658699938581184513 = 21000587523505953660663019333288440374163614632845588826670699885347279141706 mod 52435875175126190479447740508185965837690552500527637822603658699938581184513.
Proof.
  apply (powc_fact 52435875175126190479447740508185965837690552500527637822603658699938581184513 7 37848621886927146393886933327191985119287925064143343018049536 49385646055949372776104053188214108438062701096713539810613929439219839297911 6 [46512850757575600241293707148801179070311336111686974615651758572877634856113; 20000897698871224421159285436465677120325658480061814955678227288918842084554; 27552450667623907747005893234711732402362763306982087305592609615896575350938]);
    [exact (Pos2Z.is_pos _)|exact (Pos2Z.is_nonneg _)|vm_compute; reflexivity|exact Fq_1|vm_compute; reflexivity].
Qed.
Lemma Fq_6 : (7 ^ 57853956009358636109763171259841369977448590444219211167666824479244288) mod 52435875175126190479447740508185965837690552500527637822603658699938581184513 = 47009375709878424687795209168006564057444627941356163587161684439552631655798 mod 52435875175126190479447740508185965837690552500527637822603658699938581184513.
Proof.
  apply (powc_fact 52435875175126190479447740508185965837690552500527637822603658699938581184513 7 227091731321562878363321599963151910715727550384860058108297216 21000587523505953660663019333288440374163614632845588826670699885347279141706 254760293 [8410743119276497669120760751569034946005957549865796290810851248414424824828; 16483167077587045429964639583496933422371015267899748362061999150971251033170; 758294986450439844625581370377231365332696524589331927906821205271877780841; 10036884042873023708663405477348369080772333500857212055483549737548811440298; 18566198454887634995116527056768265348613176199542229533121704256280989855467; 15720807887171897741247752866788400739264513075340737947182819986015969688511; 24869361123278062589044366202670004033593970537329010094358839432476401604272; 43215759517418548127482485774954288961829396486657407007763831771210641467887; 29656621815768185423503100643632669939640195876582149556682532155506878892803; 9724934091945253076663215370313219815762074987268960240607909769491257686261; 206263905061613441416460810758701164410701481930195751638273727815606737563; 13418501390146425140684219716384629331016055585012742145618304029689164387122; 4813181086359253567189057140487107907991104848381043549170300871539264528790; 7082968929231989587735148085837655852281354914801471884704398735981611211860; 20841032233573118707239158408307971094372717551665430030138997002278711350128; 37214292089707507574815546403515239324736879636998819335784120083145913469176; 7085254866038917219562545987354079514083207384632949384949143785551759837443; 1476878410415091466799371696268704744116602855275294875661963513951782905456; 19821028979132415905427636984477532486443682602836078779068198385218770061437; 23142669453727892490344017080980502237397704684122697816274955175581119644866; 2819989104046370122848182285074235119624823319832402354854723833369734924511; 1753318364981918904570633590576898467324006152071290021927265254950733899612; 7492922307434114111751766326979659548619230003905123548765021863694756324278; 12205941212787534874998945547619119668972388638685862324612124996724781722712; 18507656352682799351811373024858756016436921861665284023937303264027662403936; 4425437068579612931630437564676524624519306217899007377858256610697597064201; 6015524516991644224280839977032715084098491605937939416982372321802955941723; 13423082508964746363297649203207790101270773873932842950640826052701930731971; 432796457860741710736751552734887527311268690202443746414160433581490853028; 18780704812996865258811736650192972483608177865393772900908174009876603735284; 2230055369529645516247525840116950562511861851046670652425234492309769619052; 5551788785167680897013289729282800492728055835249516043015205908753748576939; 29094135866367175082194061760861971021165641851105704208041054151980744011376; 8700788515705205156109936799684235466485844229803844303202278628416383881748; 46031322371974847630537180284480151793092381107276147543002741783928675511195; 1263598465008163356702974837679383489002883236229198871220915930102425862673; 42655155468576781675589133438467694448238086792036580428430535093632769406989; 45495582365178498454755309639479224704506311648913843434821860632542405790837; 33899432414935221510523121453679155693522743097049870449579034534099840428618; 19586134957441082776645987951861482042847464038145547265326717676419374171267; 26219277867152933091454284288892412001846312442689334424483743319753387305436; 4546343418123995534485507577318072400728897801161617857839435061952361942714; 3439511288449175945871075240618164827432193090365589585799449463105022545568]);
    [exact (Pos2Z.is_pos _)|exact (Pos2Z.is_nonneg _)|vm_compute; reflexivity|exact Fq_5|vm_compute; reflexivity].
Qed.
Lemma Fq_7 : (7 ^ 205824363591567193241718168805002771125288949563767528806397073424384) mod 52435875175126190479447740508185965837690552500527637822603658699938581184513 = 33687332884818246042130531625579405929702965388080887080561063062884226819407 mod 52435875175126190479447740508185965837690552500527637822603658699938581184513.
Proof.
  apply (powc_fact 52435875175126190479447740508185965837690552500527637822603658699938581184513 7 227091731321562878363321599963151910715727550384860058108297216 21000587523505953660663019333288440374163614632845588826670699885347279141706 906349 [8410743119276497669120760751569034946005957549865796290810851248414424824828; 16483167077587045429964639583496933422371015267899748362061999150971251033170; 758294986450439844625581370377231365332696524589331927906821205271877780841; 11977424570154370357079923605616698810215099588075078795249269865735322313137; 1629347355163834839703417016724215956174922053758881479985719160083702450797; 48764820380812182398740870262947305069596461742701021829959547539783353276448; 13131457482356307516713897068686563956975812596347705668132227076017424040720; 30648873163541190711342131284191785587973467945762132405165426193738138157798; 17371772214294617737075089287950912884176312297457211348785732156331896011783; 102027838258656333067277596890313259473135988066884547223994696625639233361; 47434856330173733060485073191462236080259423631169841392589830883391420095795; 17159717315407239569165856760402121095529929252954756470536598448120602999519; 15065209592257246334018601192498868790421340373699051087865434942851300859956; 36976533445906468367089125000431553566408579628550244110828104642851854718841; 17696059146643766829997596577601406456364728284921139711632837166150011686099; 464191583548707788435111312461238404760575081382077447158640132548391698490; 10008594835265310528374060857898829062231225515303787214763628046529036035783; 44837212233566862851268987763427283357901377496294436483593157198332006515571; 34523925689744271848458901852038158913954227115995497723255614090349234644962; 18681454313753367475857317343152318111938745924020587621519434406697480469403; 14788457110465276513309312365757936014351341704127558441704290952199177906946; 501419323644000098436793572869458646570996973244626680336717487026450234102; 36348813748779471464292428217122253499596270715096635800034482273833255080217; 578207816859304971479777275589483600777895429678023102458412598127677936172; 7849589787483855677864519557711914532137781723573030557993062288596337682115; 49657660961580161348906574682328616196755161645089801177207335064171491820736; 5600904821192604236952510516552591598330505836539210037625745230143883674714; 7025318155750574612580643919621807295233682274491013599783538618097518260010; 12722211298615966700309693550469909759509463397403431958667303531706451678962; 3841169135825606156148162996238821975161589202242726446427626683544462191781]);
    [exact (Pos2Z.is_pos _)|exact (Pos2Z.is_nonneg _)|vm_compute; reflexivity|exact Fq_5|vm_compute; reflexivity].
Qed.
Lemma Fq_8 : (7 ^ 52435875175126190479447740508185965837690552500527637822603658699938581184512) mod 52435875175126190479447740508185965837690552500527637822603658699938581184513 = 1 mod 52435875175126190479447740508185965837690552500527637822603658699938581184513.
Proof.
  apply (powc_fact 52435875175126190479447740508185965837690552500527637822603658699938581184513 7 26217937587563095239723870254092982918845276250263818911301829349969290592256 52435875175126190479447740508185965837690552500527637822603658699938581184512 2 [52435875175126190479447740508185965837690552500527637822603658699938581184511]);
    [exact (Pos2Z.is_pos _)|exact (Pos2Z.is_nonneg _)|vm_compute; reflexivity|exact Fq_3|vm_compute; reflexivity].
Qed.
Lemma prime_q : prime 52435875175126190479447740508185965837690552500527637822603658699938581184513.
Proof.
  apply (pocklington 52435875175126190479447740508185965837690552500527637822603658699938581184513 686966430457948734194560730881182400512); [vm_compute; reflexivity|vm_compute; reflexivity|exact (Pos2Z.is_pos _)|]. intros s Hs Ds.
  assert (D0 : (4294967296 | s - 1)).
  { apply (pock_check 52435875175126190479447740508185965837690552500527637822603658699938581184513 52435875175126190479447740508185965837690552500527637822603658699938581184512 26217937587563095239723870254092982918845276250263818911301829349969290592256 7 52435875175126190479447740508185965837690552500527637822603658699938581184512 2 32 4294967296 12208678567578594777604504606729831043093128246378069236549469339647 26217937587563095239723870254092982918845276250263818911301829349969290592256 s);
      [vm_compute; reflexivity|exact prime_2|exact (Pos2Z.is_pos _)|vm_compute; reflexivity|vm_compute; reflexivity|vm_compute; reflexivity|vm_compute; reflexivity|exact Fq_8|exact Fq_3|vm_compute; reflexivity|exact Hs|exact Ds]. }
  assert (D1 : (3 | s - 1)).
  { apply (pock_check 52435875175126190479447740508185965837690552500527637822603658699938581184513 52435875175126190479447740508185965837690552500527637822603658699938581184512 17478625058375396826482580169395321945896850833509212607534552899979527061504 7 228988810152649578064853576960394133503 3 1 3 17478625058375396826482580169395321945896850833509212607534552899979527061504 34957250116750793652965160338790643891717372063634208689047487940972256078507 s);
      [vm_compute; reflexivity|exact prime_3|exact (Pos2Z.is_pos _)|vm_compute; reflexivity|vm_compute; reflexivity|vm_compute; reflexivity|vm_compute; reflexivity|exact Fq_8|exact Fq_4|vm_compute; reflexivity|exact Hs|exact Ds]. }
  assert (D2 : (821468509801 | s - 1)).
  { apply (pock_check 52435875175126190479447740508185965837690552500527637822603658699938581184513 52435875175126190479447740508185965837690552500527637822603658699938581184512 57853956009358636109763171259841369977448590444219211167666824479244288 7 47009375709878424687795209168006564057444627941356163587161684439552631655798 906349 2 821468509801 63831874928265641722739442819312836421123199169656733959729446912 29151262252276627170863686650079642517799996839957025940997617530301678876505 s);
      [vm_compute; reflexivity|exact prime_906349|exact (Pos2Z.is_pos _)|vm_compute; reflexivity|vm_compute; reflexivity|vm_compute; reflexivity|vm_compute; reflexivity|exact Fq_8|exact Fq_6|vm_compute; reflexivity|exact Hs|exact Ds]. }
  assert (D3 : (64902806889445849 | s - 1)).
  { apply (pock_check 52435875175126190479447740508185965837690552500527637822603658699938581184513 52435875175126190479447740508185965837690552500527637822603658699938581184512 205824363591567193241718168805002771125288949563767528806397073424384 7 33687332884818246042130531625579405929702965388080887080561063062884226819407 254760293 2 64902806889445849 807913828202290508598677772776006232357759729707044766220288 24675323886831622127612097416448099851529718468688737594381699456767149257066 s);
      [vm_compute; reflexivity|exact prime_254760293|exact (Pos2Z.is_pos _)|vm_compute; reflexivity|vm_compute; reflexivity|vm_compute; reflexivity|vm_compute; reflexivity|exact Fq_8|exact Fq_7|vm_compute; reflexivity|exact Hs|exact Ds]. }
  assert (E1 : (12884901888 | s - 1)) by (apply (divide_times 4294967296 3); [exact D0|exact D1|vm_compute; reflexivity|vm_compute; reflexivity]).
  assert (E2 : (10584541152867451404288 | s - 1)) by (apply (divide_times 12884901888 821468509801); [exact E1|exact D2|vm_compute; reflexivity|vm_compute; reflexivity]).
  assert (E3 : (686966430457948734194560730881182400512 | s - 1)) by (apply (divide_times 10584541152867451404288 64902806889445849); [exact E2|exact D3|vm_compute; reflexivity|vm_compute; reflexivity]).
  exact E3.
Qed.

Lemma prime_311 : prime 311.
Proof. apply (prime_by_trial 311 16); vm_compute; reflexivity. Qed.

Lemma prime_5 : prime 5.
Proof. apply (prime_by_trial 5 1); vm_compute; reflexivity. Qed.

Lemma prime_850631 : prime 850631.
Proof. apply (prime_by_trial 850631 921); vm_compute; reflexivity. Qed.

Lemma prime_28771 : prime 28771.
Proof. apply (prime_by_trial 28771 168); vm_compute; reflexivity. Qed.

(** 5188382954213 is prime. *)
Lemma F5188382954213_0 : (2 ^ 1) mod 5188382954213 = 2 mod 5188382954213.
Proof. vm_compute. reflexivity. Qed.
Lemma F5188382954213_1 : (2 ^ 212) mod 5188382954213 = 781318130209 mod 5188382954213.
Proof.
  apply (powc_fact 5188382954213 2 1 2 212 [0; 0; 0; 0; 0; 0; 868; 0; 5339688068; 3526850602435]);
    [exact (Pos2Z.is_pos _)|exact (Pos2Z.is_nonneg _)|vm_compute; reflexivity|exact F5188382954213_0|vm_compute; reflexivity].
Qed.
Lemma F5188382954213_2 : (2 ^ 6099452) mod 5188382954213 = 5098662998488 mod 5188382954213.
Proof.
  apply (powc_fact 5188382954213 2 212 781318130209 28771 [117658628127; 463040400878; 1926655218283; 497829648428; 1481032988879; 1651840808466; 4315896400716; 388111575166; 2516320027339; 5006017870751; 143708461240; 97247706678; 428017854862; 2028129468974; 6575457616; 4097320887472; 4284571891930; 396958849518; 4197313601614; 51040204346]);
    [exact (Pos2Z.is_pos _)|exact (Pos2Z.is_nonneg _)|vm_compute; reflexivity|exact F5188382954213_1|vm_compute; reflexivity].
Qed.
Lemma F5188382954213_3 : (2 ^ 180333772) mod 5188382954213 = 2735110855275 mod 5188382954213.
Proof.
  apply (powc_fact 5188382954213 2 212 781318130209 850631 [117658628127; 463040400878; 1926655218283; 2106384910299; 470177157513; 644580228858; 39848692524; 607652855368; 2272854363236; 138525650; 4432264363282; 9342737489; 643795664176; 84556970140; 252504430004; 3755883225214; 436156155113; 4764686772530; 345433572836; 120550663365; 366161305178; 535978166441; 2271319788251; 369227511146; 1282870921935; 3682999113954; 19519884283; 202561157204; 342963450950; 141946798288; 714588299605]);
    [exact (Pos2Z.is_pos _)|exact (Pos2Z.is_nonneg _)|vm_compute; reflexivity|exact F5188382954213_1|vm_compute; reflexivity].
Qed.
Lemma F5188382954213_4 : (2 ^ 5188382954212) mod 5188382954213 = 1 mod 5188382954213.
Proof.
  apply (powc_fact 5188382954213 2 6099452 5098662998488 850631 [5010494522390; 4678097590444; 2339432117662; 3051398897138; 664994028841; 3533395100082; 167137770279; 3344036560096; 67172049517; 4050963454643; 823514298513; 2231291655114; 769212814; 4137003339675; 656239832188; 402860747117; 2927437310534; 2597485915608; 2884751465519; 581892545445; 1402515517819; 4658517136467; 923989612232; 40686587766; 405072861505; 2546442112873; 3025716976357; 2844284980883; 3358216323906; 35839750063; 3996478210379]);
    [exact (Pos2Z.is_pos _)|exact (Pos2Z.is_nonneg _)|vm_compute; reflexivity|exact F5188382954213_2|vm_compute; reflexivity].
Qed.
Lemma prime_5188382954213 : prime 5188382954213.
Proof.
  apply (pocklington 5188382954213 24473504501); [vm_compute; reflexivity|vm_compute; reflexivity|exact (Pos2Z.is_pos _)|]. intros s Hs Ds.
  assert (D0 : (850631 | s - 1)).
  { apply (pock_check 5188382954213 5188382954212 6099452 2 5098662998488 850631 1 850631 6099452 467491972074 s);
      [vm_compute; reflexivity|exact prime_850631|exact (Pos2Z.is_pos _)|vm_compute; reflexivity|vm_compute; reflexivity|vm_compute; reflexivity|vm_compute; reflexivity|exact F5188382954213_4|exact F5188382954213_2|vm_compute; reflexivity|exact Hs|exact Ds]. }
  assert (D1 : (28771 | s - 1)).
  { apply (pock_check 5188382954213 5188382954212 180333772 2 2735110855275 28771 1 28771 180333772 4530062124555 s);
      [vm_compute; reflexivity|exact prime_28771|exact (Pos2Z.is_pos _)|vm_compute; reflexivity|vm_compute; reflexivity|vm_compute; reflexivity|vm_compute; reflexivity|exact F5188382954213_4|exact F5188382954213_3|vm_compute; reflexivity|exact Hs|exact Ds]. }
  assert (E1 : (24473504501 | s - 1)) by (apply (divide_times 850631 28771); [exact D0|exact D1|vm_compute; reflexivity|vm_compute; reflexivity]).
  exact E1.
Qed.

(** 48407612962807291 is prime. *)
Lemma F48407612962807291_0 : (2 ^ 1) mod 48407612962807291 = 2 mod 48407612962807291.
Proof. vm_compute. reflexivity. Qed.
Lemma F48407612962807291_1 : (2 ^ 155651488626390) mod 48407612962807291 = 6408034257961959 mod 48407612962807291.
Proof.
  apply (powc_fact 48407612962807291 2 1 2 155651488626390 [0; 0; 0; 0; 0; 0; 0; 24388; 14788413321540220; 0; 8401598998980105; 0; 25117704842869384; 12284166741187; 1382971723998984; 0; 14024136769802135; 5349705124728000; 1320839243045195; 16323414178975952; 649420497871031; 9315078913458425; 1; 45595361104684304; 1; 2517920101184392; 15024282610760553; 0; 4432678664774778; 0; 64609851219087; 1; 2184964072898048; 1; 41309630912015965; 1; 42720279544664953; 19456343256938195; 1; 32926133639735131; 1; 23611432814919959; 3752653549178370; 25681749920865815; 18576930536653888; 23426071577384861; 264852841370069; 892932493382121; 0; 17767343783597; 0; 795071886233749; 45707945664238995; 0; 35703259047558; 0; 34734861653206973; 7303642077419174; 1; 28023689923228894; 0; 678793444306014; 93046843354793; 1; 1144543513825719; 1327958736313884; 1; 22625604020994122; 1; 95847060628470]);
    [exact (Pos2Z.is_pos _)|exact (Pos2Z.is_nonneg _)|vm_compute; reflexivity|exact F48407612962807291_0|vm_compute; reflexivity].
Qed.
Lemma F48407612962807291_2 : (2 ^ 9681522592561458) mod 48407612962807291 = 22759512151971315 mod 48407612962807291.
Proof.
  apply (powc_fact 48407612962807291 2 1 2 9681522592561458 [0; 0; 0; 0; 0; 0; 6097; 924275832596263; 1; 13395149358216868; 0; 15900630419600692; 4139299516272912; 14510409701943053; 1; 412105021209428; 16897736316079488; 1; 26302612525935267; 32402530302056607; 1; 824516502991077; 1438491550380843; 686364933878695; 1; 40114887819622303; 3276167165018970; 0; 32911508030828526; 0; 19980453599012804; 8181786490451; 39422504015257713; 0; 9628749908317280; 8469101970474163; 29745074489103737; 20020787206798928; 0; 6511581947526478; 0; 2260603749261908; 845530146932585; 1157744740523986; 556918839436444; 19535986859629854; 256830669592537; 35992600971891818; 1; 40430657104327247; 1; 26097910271930798; 1; 20554137054373788; 12002113453677114; 1; 8145165527659118; 1; 9179437056655923; 1; 10843769210963374; 47050731316602195; 42347171350415630; 0; 16472073392071758; 15243105815612048; 35875481783840060; 0; 44489301036652380; 1; 9513068842258668; 3522609499199935; 13607150233305816; 0; 3784474145014935]);
    [exact (Pos2Z.is_pos _)|exact (Pos2Z.is_nonneg _)|vm_compute; reflexivity|exact F48407612962807291_0|vm_compute; reflexivity].
Qed.
Lemma F48407612962807291_3 : (2 ^ 16135870987602430) mod 48407612962807291 = 45763714499174221 mod 48407612962807291.
Proof.
  apply (powc_fact 48407612962807291 2 1 2 16135870987602430 [0; 0; 0; 0; 0; 0; 1; 0; 46217656324702861; 42392438365927469; 0; 1277040200286086; 24907651332124452; 0; 13017041072803341; 47503517693173983; 23992116445542155; 1; 21316034505698237; 1; 52873561738427; 359727952865155; 1; 22219719576389178; 1; 44216292030757080; 0; 34580563386660283; 0; 17440936142065186; 1; 153589921953855; 626260556761995; 1; 5846159515276208; 28417821273670133; 11397422115785934; 0; 6993324730109250; 1; 4729618363508754; 0; 3847758660978791; 28972049804567203; 1; 35490167663206189; 2096131063911317; 2060923807025536; 1; 131259340066118; 11876210770931740; 0; 10803550408452254; 1; 4882551710059884; 3025592089951102; 0; 45355910411541096; 1; 34457543438510053; 1; 26348428597163470; 27722529044675685; 41235711356445724; 30750546725149543; 1; 6515694610124003; 12787920789281518; 5947507594125989; 1; 14060124748679405; 0; 427653929178925; 1; 37257830467155276; 0; 1202668604179383; 0; 38891355966316009; 1; 8722548385119874; 1; 23655008935326390; 0; 43264218922983093]);
    [exact (Pos2Z.is_pos _)|exact (Pos2Z.is_nonneg _)|vm_compute; reflexivity|exact F48407612962807291_0|vm_compute; reflexivity].
Qed.
Lemma F48407612962807291_4 : (2 ^ 24203806481403645) mod 48407612962807291 = 48407612962807290 mod 48407612962807291.
Proof.
  apply (powc_fact 48407612962807291 2 1 2 24203806481403645 [0; 0; 0; 0; 0; 0; 0; 399582047; 1; 11057628394644687; 1; 5187306675467589; 1; 25546180946906764; 0; 12566483236346539; 1; 18450761630269766; 0; 5255682189965254; 1; 478300509861008; 37196927179652316; 0; 46347302909038034; 42713647408853049; 34942127219576909; 0; 925598056616284; 0; 38094468550191424; 0; 8597170021056153; 23840248183380511; 1; 28556514976175; 0; 41840750500402380; 1; 12262027141765826; 0; 9448141341591455; 117109197282044; 1; 34418633211279773; 1098080382126335; 1; 3651738313292690; 1; 36471956269706395; 0; 39656570045481014; 1; 9997750260781502; 21981444108488462; 42838725051847396; 44124689977017793; 0; 319133853212789; 22321586936695312; 23419083085132600; 1; 28010744266160622; 14237011295137216; 0; 9986165615439140; 1252241719002608; 2251641086659695; 0; 8224854627810171; 1; 14861711967572301; 0; 628069409086645; 32942958791972742; 1; 5711652216274846; 0; 23512958976822955; 0; 13452495052046860; 0; 105034533124651; 1; 10958107322074373; 1; 3282297636211396; 16659809329052244; 0]);
    [exact (Pos2Z.is_pos _)|exact (Pos2Z.is_nonneg _)|vm_compute; reflexivity|exact F48407612962807291_0|vm_compute; reflexivity].
Qed.
Lemma F48407612962807291_5 : (2 ^ 9330) mod 48407612962807291 = 13532956757731731 mod 48407612962807291.
Proof.
  apply (powc_fact 48407612962807291 2 1 2 9330 [0; 0; 0; 0; 0; 0; 97554; 2152577522424431; 0; 21450525381510824; 0; 7946977139199699; 1; 46312705437808273; 4112932346165579; 23565766373282669; 0; 142383760486759]);
    [exact (Pos2Z.is_pos _)|exact (Pos2Z.is_nonneg _)|vm_compute; reflexivity|exact F48407612962807291_0|vm_compute; reflexivity].
Qed.
Lemma F48407612962807291_6 : (2 ^ 48407612962807290) mod 48407612962807291 = 1 mod 48407612962807291.
Proof.
  apply (powc_fact 48407612962807291 2 155651488626390 6408034257961959 311 [848273660648453; 16244143040111908; 774029893817644; 5954296828715043; 7580425386608751; 897027541574473; 1155281895703865; 23184767820595819; 4766035994580557; 858922782156239; 3426357937129515; 2658000512539497; 5854744064145422]);
    [exact (Pos2Z.is_pos _)|exact (Pos2Z.is_nonneg _)|vm_compute; reflexivity|exact F48407612962807291_1|vm_compute; reflexivity].
Qed.
Lemma prime_48407612962807291 : prime 48407612962807291.
Proof.
  apply (pocklington 48407612962807291 48407612962807290); [vm_compute; reflexivity|vm_compute; reflexivity|exact (Pos2Z.is_pos _)|]. intros s Hs Ds.
  assert (D0 : (311 | s - 1)).
  { apply (pock_check 48407612962807291 48407612962807290 155651488626390 2 6408034257961959 311 1 311 155651488626390 2154207737701267 s);
      [vm_compute; reflexivity|exact prime_311|exact (Pos2Z.is_pos _)|vm_compute; reflexivity|vm_compute; reflexivity|vm_compute; reflexivity|vm_compute; reflexivity|exact F48407612962807291_6|exact F48407612962807291_1|vm_compute; reflexivity|exact Hs|exact Ds]. }
  assert (D1 : (5 | s - 1)).
  { apply (pock_check 48407612962807291 48407612962807290 9681522592561458 2 22759512151971315 5 1 5 9681522592561458 2922279852029625 s);
      [vm_compute; reflexivity|exact prime_5|exact (Pos2Z.is_pos _)|vm_compute; reflexivity|vm_compute; reflexivity|vm_compute; reflexivity|vm_compute; reflexivity|exact F48407612962807291_6|exact F48407612962807291_2|vm_compute; reflexivity|exact Hs|exact Ds]. }
  assert (D2 : (3 | s - 1)).
  { apply (pock_check 48407612962807291 48407612962807290 16135870987602430 2 45763714499174221 3 1 3 16135870987602430 33153041463082550 s);
      [vm_compute; reflexivity|exact prime_3|exact (Pos2Z.is_pos _)|vm_compute; reflexivity|vm_compute; reflexivity|vm_compute; reflexivity|vm_compute; reflexivity|exact F48407612962807291_6|exact F48407612962807291_3|vm_compute; reflexivity|exact Hs|exact Ds]. }
  assert (D3 : (2 | s - 1)).
  { apply (pock_check 48407612962807291 48407612962807290 24203806481403645 2 48407612962807290 2 1 2 24203806481403645 24203806481403645 s);
      [vm_compute; reflexivity|exact prime_2|exact (Pos2Z.is_pos _)|vm_compute; reflexivity|vm_compute; reflexivity|vm_compute; reflexivity|vm_compute; reflexivity|exact F48407612962807291_6|exact F48407612962807291_4|vm_compute; reflexivity|exact Hs|exact Ds]. }
  assert (D4 : (5188382954213 | s - 1)).
  { apply (pock_check 48407612962807291 48407612962807290 9330 2 13532956757731731 5188382954213 1 5188382954213 9330 1919120092530624 s);
      [vm_compute; reflexivity|exact prime_5188382954213|exact (Pos2Z.is_pos _)|vm_compute; reflexivity|vm_compute; reflexivity|vm_compute; reflexivity|vm_compute; reflexivity|exact F48407612962807291_6|exact F48407612962807291_5|vm_compute; reflexivity|exact Hs|exact Ds]. }
  assert (E1 : (1555 | s - 1)) by (apply (divide_times 311 5); [exact D0|exact D1|vm_compute; reflexivity|vm_compute; reflexivity]).
  assert (E2 : (4665 | s - 1)) by (apply (divide_times 1555 3); [exact E1|exact D2|vm_compute; reflexivity|vm_compute; reflexivity]).
  assert (E3 : (9330 | s - 1)) by (apply (divide_times 4665 2); [exact E2|exact D3|vm_compute; reflexivity|vm_compute; reflexivity]).
  assert (E4 : (48407612962807290 | s - 1)) by (apply (divide_times 9330 5188382954213); [exact E3|exact D4|vm_compute; reflexivity|vm_compute; reflexivity]).
  exact E4.
Qed.

Lemma prime_37 : prime 37.
Proof. apply (prime_by_trial 37 5); vm_compute; reflexivity. Qed.

Lemma prime_31 : prime 31.
Proof. apply (prime_by_trial 31 4); vm_compute; reflexivity. Qed.

Lemma prime_175543 : prime 175543.
Proof. apply (prime_by_trial 175543 417); vm_compute; reflexivity. Qed.

Lemma prime_19 : prime 19.
Proof. apply (prime_by_trial 19 3); vm_compute; reflexivity. Qed.

Lemma prime_11 : prime 11.
Proof. apply (prime_by_trial 11 2); vm_compute; reflexivity. Qed.

Lemma prime_7 : prime 7.
Proof. apply (prime_by_trial 7 1); vm_compute; reflexivity. Qed.

(** 55538253751298627 is prime. *)
Lemma F55538253751298627_0 : (5 ^ 1) mod 55538253751298627 = 5 mod 55538253751298627.
Proof. vm_compute. reflexivity. Qed.
Lemma F55538253751298627_1 : (5 ^ 216254114) mod 55538253751298627 = 11791907099450601 mod 55538253751298627.
Proof.
  apply (powc_fact 55538253751298627 5 1 5 216254114 [0; 0; 0; 0; 1; 0; 7443309270607614; 3; 27011036157118112; 4; 175130303370064; 50381458040274926; 9269653036561744; 45506367793188126; 0; 1574939386586757; 3; 1307614668519335; 3; 26412463722992021; 4; 30663790153559487; 18110531027642409; 35528471288395520; 1830830926622721; 0; 7199965191735495; 4; 7462266381542242; 42329031923116677; 0; 8969954494449028; 743524879359413; 4; 282620400196715; 25387960900971814; 17473273990651096; 49204084361905965; 4; 20744418505236009]);
    [exact (Pos2Z.is_pos _)|exact (Pos2Z.is_nonneg _)|vm_compute; reflexivity|exact F55538253751298627_0|vm_compute; reflexivity].
Qed.
Lemma F55538253751298627_2 : (5 ^ 316379768782) mod 55538253751298627 = 16174118510675513 mod 55538253751298627.
Proof.
  apply (powc_fact 55538253751298627 5 216254114 11791907099450601 1463 [2503663036737487; 23989154269026573; 3836060985215414; 50542695530417278; 5333467329951832; 39346652319359216; 44729591029172563; 3087803683265414; 2584454612365708; 2977205994998894; 21964148215853006; 19644058077499141; 9206268661365635; 6501308542952509; 1614821114993883; 6039976708418; 9575306077495835]);
    [exact (Pos2Z.is_pos _)|exact (Pos2Z.is_nonneg _)|vm_compute; reflexivity|exact F55538253751298627_1|vm_compute; reflexivity].
Qed.
Lemma F55538253751298627_3 : (5 ^ 2923065986910454) mod 55538253751298627 = 43539632086690062 mod 55538253751298627.
Proof.
  apply (powc_fact 55538253751298627 5 216254114 11791907099450601 13516811 [2503663036737487; 7749887665376520; 18247715760597504; 40083029883968508; 2095365174652323; 8636847654159566; 24110460549610756; 7987867771978889; 1726529166782504; 5300660909062984; 2856006000545537; 20251130452692664; 977704782004331; 7479411696367388; 17812946449392035; 17177844909659837; 3817391161223358; 3093885395832079; 15014988287328563; 34294551424163609; 12618103609559468; 2131170933168588; 15485258691568804; 14713174297017164; 33405421783682890; 3139113936841057; 33040834109366; 36407603937886963; 10405870721390954; 7832127210210103; 2911307314036866]);
    [exact (Pos2Z.is_pos _)|exact (Pos2Z.is_nonneg _)|vm_compute; reflexivity|exact F55538253751298627_1|vm_compute; reflexivity].
Qed.
Lemma F55538253751298627_4 : (5 ^ 5048932159208966) mod 55538253751298627 = 18118659836891512 mod 55538253751298627.
Proof.
  apply (powc_fact 55538253751298627 5 216254114 11791907099450601 23347219 [2503663036737487; 23989154269026573; 3836060985215414; 50542695530417278; 5333467329951832; 39346652319359216; 44729591029172563; 3808232755958990; 8602411842798936; 728935355442344; 22645947277893811; 41284749518563564; 34124645688357533; 734809384436183; 710115353240571; 336782280497383; 42486872867491755; 4352004761208765; 16847432547434723; 33870915023514030; 8010430885125334; 51695724238817038; 25474394758679254; 1390384586640606; 10508721096278648; 19060105306012275; 21142172839799214; 38966867301653838; 1140766663766940; 903648013999853; 2121790894758478]);
    [exact (Pos2Z.is_pos _)|exact (Pos2Z.is_nonneg _)|vm_compute; reflexivity|exact F55538253751298627_1|vm_compute; reflexivity].
Qed.
Lemma F55538253751298627_5 : (5 ^ 7934036250185518) mod 55538253751298627 = 20723536875281217 mod 55538253751298627.
Proof.
  apply (powc_fact 55538253751298627 5 216254114 11791907099450601 36688487 [2503663036737487; 23989154269026573; 5877533704163075; 14306791664762649; 6758610516959548; 39209525745477044; 32779958763523443; 4232433285889494; 6166183162561204; 10937690519424035; 47102603336556120; 3338172438670272; 117416175708074; 10141229553337025; 6738425513054384; 2053366469051576; 2973087810136670; 527543319337484; 34154432639500244; 29344538517261648; 4704129538045871; 7308437224232; 3170445528569448; 779512013679274; 9767204705726103; 2886816449; 45771712529525642; 20064192643723359; 9018466509702739; 10203862503011413; 137571412992649; 47673405188312596; 1406531054073606; 26557987311455055; 7645994179292284; 662564498224027; 5092274995996779; 1892208814955662; 7370219970563715]);
    [exact (Pos2Z.is_pos _)|exact (Pos2Z.is_nonneg _)|vm_compute; reflexivity|exact F55538253751298627_1|vm_compute; reflexivity].
Qed.
Lemma F55538253751298627_6 : (5 ^ 55538253751298626) mod 55538253751298627 = 1 mod 55538253751298627.
Proof.
  apply (powc_fact 55538253751298627 5 316379768782 16174118510675513 175543 [4710304914678008; 25653113247219863; 12567632137291606; 31791437123785722; 3705160803494749; 2628297441202996; 2949554592762023; 37352353061610942; 7655857902989939; 6256649690383049; 6997271270003776; 37025650476990814; 40633555387385290; 14247481869057296; 24509939614408339; 2474903651088162; 31670698159002187; 18083339431267591; 3253382991380444; 9464569789204068; 14873651611024005; 910279842598436; 43733321891386538; 15514549911220330; 3838431100407983; 11483901618394390; 6817248018441849; 15579304752590375]);
    [exact (Pos2Z.is_pos _)|exact (Pos2Z.is_nonneg _)|vm_compute; reflexivity|exact F55538253751298627_2|vm_compute; reflexivity].
Qed.
Lemma prime_55538253751298627 : prime 55538253751298627.
Proof.
  apply (pocklington 55538253751298627 256819409); [vm_compute; reflexivity|vm_compute; reflexivity|exact (Pos2Z.is_pos _)|]. intros s Hs Ds.
  assert (D0 : (175543 | s - 1)).
  { apply (pock_check 55538253751298627 55538253751298626 316379768782 5 16174118510675513 175543 1 175543 316379768782 12097862307662711 s);
      [vm_compute; reflexivity|exact prime_175543|exact (Pos2Z.is_pos _)|vm_compute; reflexivity|vm_compute; reflexivity|vm_compute; reflexivity|vm_compute; reflexivity|exact F55538253751298627_6|exact F55538253751298627_2|vm_compute; reflexivity|exact Hs|exact Ds]. }
  assert (D1 : (19 | s - 1)).
  { apply (pock_check 55538253751298627 55538253751298626 2923065986910454 5 43539632086690062 19 1 19 2923065986910454 32792595103867360 s);
      [vm_compute; reflexivity|exact prime_19|exact (Pos2Z.is_pos _)|vm_compute; reflexivity|vm_compute; reflexivity|vm_compute; reflexivity|vm_compute; reflexivity|exact F55538253751298627_6|exact F55538253751298627_3|vm_compute; reflexivity|exact Hs|exact Ds]. }
  assert (D2 : (11 | s - 1)).
  { apply (pock_check 55538253751298627 55538253751298626 5048932159208966 5 18118659836891512 11 1 11 5048932159208966 10952181730263890 s);
      [vm_compute; reflexivity|exact prime_11|exact (Pos2Z.is_pos _)|vm_compute; reflexivity|vm_compute; reflexivity|vm_compute; reflexivity|vm_compute; reflexivity|exact F55538253751298627_6|exact F55538253751298627_4|vm_compute; reflexivity|exact Hs|exact Ds]. }
  assert (D3 : (7 | s - 1)).
  { apply (pock_check 55538253751298627 55538253751298626 7934036250185518 5 20723536875281217 7 1 7 7934036250185518 53404631940246143 s);
      [vm_compute; reflexivity|exact prime_7|exact (Pos2Z.is_pos _)|vm_compute; reflexivity|vm_compute; reflexivity|vm_compute; reflexivity|vm_compute; reflexivity|exact F55538253751298627_6|exact F55538253751298627_5|vm_compute; reflexivity|exact Hs|exact Ds]. }
  assert (E1 : (3335317 | s - 1)) by (apply (divide_times 175543 19); [exact D0|exact D1|vm_compute; reflexivity|vm_compute; reflexivity]).
  assert (E2 : (36688487 | s - 1)) by (apply (divide_times 3335317 11); [exact E1|exact D2|vm_compute; reflexivity|vm_compute; reflexivity]).
  assert (E3 : (256819409 | s - 1)) by (apply (divide_times 36688487 7); [exact E2|exact D3|vm_compute; reflexivity|vm_compute; reflexivity]).
  exact E3.
Qed.

(** 2038476065687664805409 is prime. *)
Lemma F2038476065687664805409_0 : (3 ^ 1) mod 2038476065687664805409 = 3 mod 2038476065687664805409.
Proof. vm_compute. reflexivity. Qed.
Lemma F2038476065687664805409_1 : (3 ^ 16) mod 2038476065687664805409 = 43046721 mod 2038476065687664805409.
Proof.
  apply (powc_fact 2038476065687664805409 3 1 3 16 [0; 0; 0; 0]);
    [exact (Pos2Z.is_pos _)|exact (Pos2Z.is_nonneg _)|vm_compute; reflexivity|exact F2038476065687664805409_0|vm_compute; reflexivity].
Qed.
Lemma F2038476065687664805409_2 : (3 ^ 55093947721288237984) mod 2038476065687664805409 = 1115678103016805003687 mod 2038476065687664805409.
Proof.
  apply (powc_fact 2038476065687664805409 3 16 43046721 3443371732580514874 [0; 1684436662; 13487278; 1210440609371189734624; 38579159; 1941891949151889818396; 19798275; 1408541626197327249502; 17622177; 18598815410235802434; 17077863; 583066970421864236949; 6690404; 1691770628827322616735; 325131298714297101534; 1115296117621803228385; 29385427; 950421892308033525029; 1513729285685098627390; 1760267016152899414860; 6187910; 424555579238056092153; 11260096432298018257; 34692014; 599924809475890314083; 338231966152153620783; 40765697; 224257062273378792016; 15801713415064375704; 1782746815328145134263; 1677535642966131570948; 195349875443785777655; 1880390847686277788467; 7842550; 1744709981046813294090; 1052925795191615696908; 3712512; 1435704522093776232722; 11142949; 1230950713589705991963; 1518858326204062455863; 1469035397317142634172; 1912289956041736974112; 26394506; 32487801064948933845; 19985478; 848011527285892002983; 19747774290032460088; 9665855; 790776223660502048213; 226628996028315905702; 23600976; 272126351039358123818; 42302022; 1462378526122105839824; 1651375822317710167174; 315280872067287624843; 68871028643595364191; 1887979938500758061260; 8459886; 106129102046996251218; 139047359072974385994; 28070924; 668563845391003280047; 1389627414294809833114; 14556633; 264017394618888746816; 1522127694105715928539; 22757111741233455083; 14232036; 168522116557450262773; 30159519; 1742993174915923736322; 30551956; 351225387675034181299; 8555001; 622331009376054509639; 1610907276926467638224; 7386012170239736234; 478189219650401247532; 1076308981774519831499; 18983925; 2021390452639858255673; 41245967; 261455919029590829057; 35337451; 1289513572441229818074; 2185522683279306099; 3707441; 142880335168683577657]);
    [exact (Pos2Z.is_pos _)|exact (Pos2Z.is_nonneg _)|vm_compute; reflexivity|exact F2038476065687664805409_1|vm_compute; reflexivity].
Qed.
Lemma F2038476065687664805409_3 : (3 ^ 1019238032843832402704) mod 2038476065687664805409 = 2038476065687664805408 mod 2038476065687664805409.
Proof.
  apply (powc_fact 2038476065687664805409 3 16 43046721 63702377052739525169 [0; 39; 34678023670192566145; 2825671943803924116; 37805887; 1203055762805577208870; 42042441; 1422687295797216297913; 14700621; 67187478853946684750; 310852867013455517137; 38742969; 1396389332274413765855; 374220944014875751205; 1840340052377848713910; 466616016798847224891; 291012860066342210894; 1424795446073797232893; 446029211490710605316; 16309654; 5386649321065027586; 36262341; 579980706617301430622; 1447587050150551444904; 1244832001855377956386; 98889088492994182107; 20209396; 944228756479771885060; 589598654803172276433; 594374676456080232983; 19294404; 846308008411765901653; 12866908; 145856957117669122763; 30709043; 23646755589317364842; 1899297893269727305900; 105026536450911275004; 25780759; 1075829695546963427084; 5208412; 732501954798520213210; 26855543824707430410; 19011529; 1719838903353750949474; 371674733835967467081; 34522701; 1992407261569950997487; 4284839; 126391527728972736136; 1748847361061330901322; 19057688; 1343040335350129416342; 33677531; 698877164265101171069; 10319819; 481486936418203022; 29077473; 881343261487052136259; 873482154335024902281; 7863443246278873180; 785397833489176927776; 5611803; 320608119031508456392; 460869748925542247921; 61078674801634482318; 313548941845859718633; 3058619; 1228520167436059198671; 1856938257858475825476; 82005958542166724127; 4041094931021279861; 39380530; 799476745986843300604; 13065846; 810268040679420009318; 346011124727381982354; 35999475; 926735922861979564515; 16875351; 319741081193273151136; 465777443349130099596; 35156448; 383721473651011896406; 455048499177535941184; 1250936380864259264098; 1952699904892610908114; 29464781; 298867607662214459543; 9816334; 1201802986168892212738; 29968330483589905443; 1729607963815043446811; 395782930927927185334; 31357774]);
    [exact (Pos2Z.is_pos _)|exact (Pos2Z.is_nonneg _)|vm_compute; reflexivity|exact F2038476065687664805409_1|vm_compute; reflexivity].
Qed.
Lemma F2038476065687664805409_4 : (3 ^ 65757292441537574368) mod 2038476065687664805409 = 870139031193988095906 mod 2038476065687664805409.
Proof.
  apply (powc_fact 2038476065687664805409 3 16 43046721 4109830777596098398 [0; 39; 34678023670192566145; 1602684; 1541848193017299288118; 990350688309766836411; 335291891147482165429; 9399005; 721881406752907635778; 246657992055132773049; 840944204341298770448; 439157032837187310604; 1536165821253928623561; 39260732; 545542359283624429225; 679486913759218198881; 879584497820429464780; 31668910; 384470290567936101605; 39613302390286982885; 80727849454157903916; 192554656441249320312; 885508952973516857160; 33723022; 33767532705754054203; 34561231; 1414869682201336680; 1767709784311792501608; 36122763; 443823030121131993167; 4571850290329669455; 41800787; 62309265995976594375; 364205524583959679316; 3149470; 1016341946172199653980; 604383449361449211392; 1796700562698564262321; 1555454206391208103564; 40249852; 1881781926843978015663; 328862173249566635657; 36936003; 433336707946327719065; 741544094361639957565; 302732661373621667744; 96236255474108587312; 93464389189144281359; 1250200864413717619933; 11816672; 797410995569640807046; 7934052; 156218832963827497544; 186458142060153055546; 1952571378772626775; 5459590; 599471831052640261231; 138667674263606254408; 10382284; 6646428666588995315; 301470684582213351304; 8536028; 221453777941238504264; 475838492967994200328; 1662567826790111444306; 8845279; 735156843165661965989; 5682372; 95997381132475501872; 20600399607834907557; 7040736; 475598109858304038689; 33310005; 262153712177566362867; 7050783; 21826699203128671210; 826248707670374745141; 6264391; 2056699110871516133; 1662676582503509460586; 18750864; 989119007868030876537; 5298889; 874818942827898867002; 17410170; 875606182306309064937; 22962584; 1127576893039696999487]);
    [exact (Pos2Z.is_pos _)|exact (Pos2Z.is_nonneg _)|vm_compute; reflexivity|exact F2038476065687664805409_1|vm_compute; reflexivity].
Qed.
Lemma F2038476065687664805409_5 : (3 ^ 36704) mod 2038476065687664805409 = 1730458758563587893326 mod 2038476065687664805409.
Proof.
  apply (powc_fact 2038476065687664805409 3 16 43046721 2294 [0; 1684436662; 200112461376642049496; 522788838403351845949; 5417358; 36425139525671169392; 18485099; 770952869213332604975; 37383414; 117035709639644268659; 21362088; 617717332472549198620; 142278821684431532059; 41406379; 1487385183943759210420; 32687774; 740330004571128594211]);
    [exact (Pos2Z.is_pos _)|exact (Pos2Z.is_nonneg _)|vm_compute; reflexivity|exact F2038476065687664805409_1|vm_compute; reflexivity].
Qed.
Lemma F2038476065687664805409_6 : (3 ^ 2038476065687664805408) mod 2038476065687664805409 = 1 mod 2038476065687664805409.
Proof.
  apply (powc_fact 2038476065687664805409 3 55093947721288237984 1115678103016805003687 37 [610621655315473883912; 384528722639526177601; 232243189771325000531; 519372235877665345698; 49675119520682809875; 506510700006653246289; 36604053218796512356]);
    [exact (Pos2Z.is_pos _)|exact (Pos2Z.is_nonneg _)|vm_compute; reflexivity|exact F2038476065687664805409_2|vm_compute; reflexivity].
Qed.
Lemma prime_2038476065687664805409 : prime 2038476065687664805409.
Proof.
  apply (pocklington 2038476065687664805409 2038476065687664805408); [vm_compute; reflexivity|vm_compute; reflexivity|exact (Pos2Z.is_pos _)|]. intros s Hs Ds.
  assert (D0 : (37 | s - 1)).
  { apply (pock_check 2038476065687664805409 2038476065687664805408 55093947721288237984 3 1115678103016805003687 37 1 37 55093947721288237984 1485312397890770464883 s);
      [vm_compute; reflexivity|exact prime_37|exact (Pos2Z.is_pos _)|vm_compute; reflexivity|vm_compute; reflexivity|vm_compute; reflexivity|vm_compute; reflexivity|exact F2038476065687664805409_6|exact F2038476065687664805409_2|vm_compute; reflexivity|exact Hs|exact Ds]. }
  assert (D1 : (32 | s - 1)).
  { apply (pock_check 2038476065687664805409 2038476065687664805408 1019238032843832402704 3 2038476065687664805408 2 5 32 63702377052739525169 1019238032843832402704 s);
      [vm_compute; reflexivity|exact prime_2|exact (Pos2Z.is_pos _)|vm_compute; reflexivity|vm_compute; reflexivity|vm_compute; reflexivity|vm_compute; reflexivity|exact F2038476065687664805409_6|exact F2038476065687664805409_3|vm_compute; reflexivity|exact Hs|exact Ds]. }
  assert (D2 : (31 | s - 1)).
  { apply (pock_check 2038476065687664805409 2038476065687664805408 65757292441537574368 3 870139031193988095906 31 1 31 65757292441537574368 790968572333855778157 s);
      [vm_compute; reflexivity|exact prime_31|exact (Pos2Z.is_pos _)|vm_compute; reflexivity|vm_compute; reflexivity|vm_compute; reflexivity|vm_compute; reflexivity|exact F2038476065687664805409_6|exact F2038476065687664805409_4|vm_compute; reflexivity|exact Hs|exact Ds]. }
  assert (D3 : (55538253751298627 | s - 1)).
  { apply (pock_check 2038476065687664805409 2038476065687664805408 36704 3 1730458758563587893326 55538253751298627 1 55538253751298627 36704 238021027999430834235 s);
      [vm_compute; reflexivity|exact prime_55538253751298627|exact (Pos2Z.is_pos _)|vm_compute; reflexivity|vm_compute; reflexivity|vm_compute; reflexivity|vm_compute; reflexivity|exact F2038476065687664805409_6|exact F2038476065687664805409_5|vm_compute; reflexivity|exact Hs|exact Ds]. }
  assert (E1 : (1184 | s - 1)) by (apply (divide_times 37 32); [exact D0|exact D1|vm_compute; reflexivity|vm_compute; reflexivity]).
  assert (E2 : (36704 | s - 1)) by (apply (divide_times 1184 31); [exact E1|exact D2|vm_compute; reflexivity|vm_compute; reflexivity]).
  assert (E3 : (2038476065687664805408 | s - 1)) by (apply (divide_times 36704 55538253751298627); [exact E2|exact D3|vm_compute; reflexivity|vm_compute; reflexivity]).
  exact E3.
Qed.

(** 13108968793781547619861935127046491459309155893440570251786403306729687672801 is prime. *)
Lemma Fr_0 : (7 ^ 1) mod 13108968793781547619861935127046491459309155893440570251786403306729687672801 = 7 mod 13108968793781547619861935127046491459309155893440570251786403306729687672801.
Proof. vm_compute. reflexivity. Qed.
Lemma Fr_1 : (7 ^ 66423116707113316625381595663610875600) mod 13108968793781547619861935127046491459309155893440570251786403306729687672801 = 11467305520484684067970293459418483358976574861197525588066017156153318616778 mod 13108968793781547619861935127046491459309155893440570251786403306729687672801.
Proof.
  apply (powc_fact 13108968793781547619861935127046491459309155893440570251786403306729687672801 7 1 7 66423116707113316625381595663610875600 [0; 0; 0; 0; 0; 0; 0; 5035462; 5; 4542595466185305693445279126859478508169959491627106431875766670373274793123; 3; 62380915818339663432555587994753699250382174281021049462479925402815955076; 3; 5280722500723080356075674684818393407107918964004494113990213531442144639189; 0; 4748118025552078708012537971900139022983156207464583325946701885225694970540; 1; 149599419330935215998646216093789584798800151669078385555762024488813884662; 1156475379776238002385115837463046725762922004700368061313563691913240281969; 9593348905700120935590756718743743341297758198464203379280152341470291235652; 3669321977278303390017797175718221882867492768006263578235353141694511181145; 4; 7238718299541812241448767964596079933855002419527924490863792301234758399099; 2639808866621792320745980812787810348332889257880485605066573363105818980184; 5; 10136174776507245759289915953335171266547282604398805110351166413288951528964; 3677252543905084158046789456523333229125443383193699465212145344375815980334; 167151813550090365675132470051003651586325990510215295035190612878112070745; 25357829147074213070085553059173956424315482262257573112587239436923679469; 1044070899846582336699102330236370279024602137671771797164181393969456633966; 460447513494404400695372121183065579235870000028685515756865694947262942933; 1324001291844662788063666574616568200981947813502581801853034203668099433221; 5; 12982601484520893761953792287502925610774987783938437201114152417984828748787; 6; 1859886483056862672703576859381009279745095185079511469113211259952719890537; 6; 11337850435103658747272292807308583097905518132988062777144157818533398809961; 3; 4350807622922363727621369260986510068860653491981029003426101983304821047755; 2; 25150710641469702434303718840410639507030362822875103303945624084486293537; 6; 1493313509616073470893896892921157432064917516245709956480061866973178581348; 0; 8554064232099308825322675741043005355502782538987894980292676283063991756794; 1; 837481396595605313536383398113753694765401741828485042175069785853226714265; 8164465390959545663551420017975994614056231677907299535448108776496172870371; 3475120330790152899546780458090230221486539072214374046220146519640500433958; 0; 6509480495642204755041336205548445268098296126701402289624934456548106967947; 3174630656973957032893809578141697364836424097937888713177044271405323502100; 10130160923644090836017737780718738922466286400424257966104187535209094970080; 2; 1044886861798497977553294664900098480982489166636147382969866783277174089063; 475430204326348816145628488359167334986802901540059686195226033184948238785; 558553032267173603562280333564340008111326175106921089382633299146115245152; 3233506787605650833985206621813270667744992888089258691592882277156416015646; 5080945126873793746560563352950431340682168529008436548311204725566096875259; 3; 2189547246854338454353203658973464861988960432670825746178727853374864852183; 0; 902387067347493212455149855200915036717622905686534308777458044625688505053; 0; 10868625820394468910446550536614381047482488962564696742977312586756038130353; 6; 5401272445661234344459963947420105977122753562976296378578194825243896265844; 3; 397944487035816921919720362814943918151001141008285988532078629774329944942; 29844379671067765493275702287700030673487268438699268725799215552915691360; 9235106551856067676534164811647151614907316590111047880035842569776262183297; 2; 9320658774310260425911071343613944492451103475034822698255786745289741354600; 0; 1155851690716863599394386421913961524749859563561285355185441837178134497168; 3; 255385352769700008091252322510206740876239775761844138506895605166664311383; 1; 2910586696718091029514040832640784455841800819208957238127703977439434097846; 885638074808355172470825459499754476511642026475762126716740773628810586547; 1; 12458181016329296035318243504203926152094857317282368398639452285555585085265; 11869816759113571339270354556130503591410571324669282774948277840402937648100; 5; 6017526278755438876438850690145249563625775380346448432464866740250112021102; 6; 7454476976214076433923659059483597461877935813312158877235483052831685338548; 897339094061026836661068400823393890756062571581287907572042039325235857012; 12293490498018193460105680835327153829080872144181741550570559145571234482871; 104999081441546421055264440151647248087834818615436311266999899153802464079; 2; 200501568151475858673591305940935212833894598176842703133282081302255516558; 2511548344612725061605873625723224482095919274453193837609801341492060576307; 2; 824779378370750084315118888890865300660898200915135050244697240134242869723; 1; 13063440627160642573572639835632670235740054002376449733840341791839948269585; 1922343118649666688291248619382510353207596139107963407301924923572310675135; 3; 6992885219988060371514910692354821568045355503958840161679895798052965756; 4; 898565771968376241976349294896038686567833794847086022392710585751132138638; 1; 29146418556794701730811078771702331115844645018536311464891746029674086984; 1697592032898113137717348216685994743719404141210591737982630457961567156804; 2269169942264119287364935548265077246406888088092071638738048793986337781901; 4; 10683670269236936397926933275491706673857278138883320721361082682015565712049; 4; 4186629318969915762644317965302958899170814551808729438488125554633428458317; 1; 2471090040367240429976868609732187364002719786692766038816747604210701443283; 5451303304907055491791478031264074597670166049708963738804506421042785642381; 5; 6841518759359229086010821958118603617715171905278832309042560008765210110722; 0; 9182807271631705767379584982416601981314399367052309671980297801551021245001; 6; 1789568077153113480726460205932995417063048348973363796658442535577384114712; 0; 145007757799003719890463312373661282659803374764091714481555675336578035164; 6966768328879437235252884999859568768071346290607982468158363436576526815439; 40428497817619107049529818875279240619978180899141633206472356534046392684; 9498667220572551734879061983385556124756158313538304610278124636292206286639; 1; 2688563891041393191104812340076857549766885386154979423149348159111453215369; 0; 32446935261338113653793589101776770926052443745159757955856184931803783705; 57228253027602997955249860610872729883524652210159211572396651345726994311; 3; 1221960991162783667558885919129020034619926337295511728407497607597192928; 8208943019849055939102470085647077658042497912868452331487443872152246967994; 0; 6380747715449458774765229173711113020062011520554637071823529105309198135754; 1; 1943037806645475556966547129679559225078866719438482484163832666100359992796; 2; 11396590829813243904408691475762490547445532413223861853321284963401647433838; 1; 1631851144009995115994599114390246270037489879062943137227980576004875103261; 6; 613898711489687010500623047677148949444145658229567588253486624631379313394; 1323208001741164092105099749940192970694848108844030014898398928698026087069; 3; 2611139227489962043608616656349020401739291907098954484989957799667997641756; 374778180841697194341511669060892484249262295402827895809727504568311923651; 2423593133262946584828199499672253724855122486942247065931002095780095756493; 2178212570939304196493633622583333696365431343782256284630826092839472573054; 1; 2386560130323533730026387903381963444961227450605203179719196457488032394179; 2; 7134080861624888933778347027331126655035823708189871379614994588013024280071; 2; 2156021809860844509064606085856532900789983458684939814640198437646468848459; 2032533331186142138691863020103640562235005271949411260503973283397180556632; 3; 542175890227733878558947638539308168410403593995470910721684020179834616063; 94137462542312013934036354969463827565339462011682793934660631055145472578; 2; 3937131834879660485690635372173597450453271559686064914578185825866230321956; 5; 274577219405258164245035709483490285122763517193412724649260145834909767341; 3; 4423622280588118634437692630743881928251352459502631027699593573237436995952; 2; 2008604713322097221627297539009295140894879949086189097916185580588685906233; 4; 2277955938949292258529654800078841038905920762861715728477706830236096427121; 3; 613769389304906486828136037221267363139911285762608488212998013926791804489; 4; 9951409496184986924752128583144007284675503887126842469283330462856781547786; 2; 1854993001747101820362446027764503945342443034916255074616386634885461933844; 715642034462700332382052341572989901892326424574716827918398614730461395512; 2931087311041848104367920606581621828411966234617275740428864824728805326946; 1296027289521902625225732924733450823970962208267405386936134989269274325823; 249482405826695679420979798839156786309214242375373262590550777238791528884; 4; 6836927517479937707420947101451736979409432138301179916955067769508794959207; 0; 3596884660673385971313626106283917985294079701213773180176008485400164992224; 6; 3775306296160976979281180123928931530285504679838832751589853272285231418791; 461232055686246795086588298003732172053327115992028705955937785249621169119; 0; 328089021624500180147867438137471431717703550543855867499951120482945372941; 0; 9792898583742529312259803829501521288876819359004261877632581903443730202596; 6656593723877550568403836327334693625843130370368506442676814160237629310824; 0; 9840880781892396493247659076320135680324159711693457270733119096906265923404; 8171782872847973302565358939998988011769571536588848811124232627271696260019; 241013079384093697293045515892899059153720530638257546367048366502065331489; 12786683379567971032777889196933280113035463738587449702818414251234348487647]);
    [exact (Pos2Z.is_pos _)|exact (Pos2Z.is_nonneg _)|vm_compute; reflexivity|exact Fr_0|vm_compute; reflexivity].
Qed.
Lemma Fr_2 : (7 ^ 3215384525341320127787234444933873747163601614573999600) mod 13108968793781547619861935127046491459309155893440570251786403306729687672801 = 9342974475902069569500387188457662183495727481844719798261364553033699741848 mod 13108968793781547619861935127046491459309155893440570251786403306729687672801.
Proof.
  apply (powc_fact 13108968793781547619861935127046491459309155893440570251786403306729687672801 7 66423116707113316625381595663610875600 11467305520484684067970293459418483358976574861197525588066017156153318616778 48407612962807291 [10031231134100894656029945665762724896201070450214968005844825039403238617928; 3437559645789739606201865576911473071367083559513734527835474151569221917463; 10445255062193647512082175535989958644984054051202199769603963561217727472161; 5367070406316835811388359718085053905141849376194534516571781947597764910088; 11393849932250710859314112957491381132095444499095100903282722516847001809809; 4079628045569963793486591972498923101316651879245128064630068733716660886019; 5957544119234797199399103432421036602123092319023934112030366265118871974549; 8057586741690458116054908282280912810144573684636123172019188687896777954792; 5157093184142922451615041797068443145068570993429365165313768044402597284214; 3953634719829717012792547488049412307233091758295888971092003330890643214954; 6268331200083378981823560811040196002501725292379763819642209328606768387470; 10956076362156656737546428948702220255298368854794457917070087037182172124866; 9214268415516320306515367623767243933793854554866050186109884948467593644201; 685353372686684468744725060508441059358702163454034135026034617166379579833; 2489735804821371420298204232545129637109297701529728049983838304803500622843; 5312812680164220558849779937424955640583948748954471449492864566524649839528; 3009285363042838801508874902664170242820296516394172824865408161730406615496; 3826803790108598215679008680654247994848850594527566651761163625952624759158; 5393977357388797664909828383360796354293913475485085720976974236252995564571; 423846173205449113025801705045627396343095539454897245401672519207338701303; 5021434541155955089914954598751278854841330822878692634112598576817382397468; 6731240110715019883700641752721407444141251575989392011253524059465648757078; 10781670939604337115561371488347838156308395734860541217375465640925449754359; 6229442748295835573779339428327057589111413252116362949329646898931533985752; 6503385862746211580439003154313293269898078902768370462041051830584754302912; 866143132229607976700750961444448945518338798261503792977174630586235394822; 680269340600005453008656163656707984597859283845937506170533436770089530475; 5623250517532617900040955321865291695401383105348608514454856944039204629548; 2092535193667091501932762688945173656205044171237904412442405086206284045802; 4829695330503409727062372071330303643069280175747686704703454351658856506647; 11417646475279604358649554666587663338055171881355268456193873625421270412081; 10680547053172770840484187816087431598557836441521778364442137512199596352959; 7371224099136224271317546386336489981397645675174421276856562575283685682700; 8200126911052643353205242281002892329858356230286179826516550747775443274179; 7565610683737749347466928852463037469021531314963434028316863624217242885048; 433839668195588316828604559732665824446879483847854880711601745402881957083; 1084912204938003297498789901414514992927935002619480876400475068735621711750; 12352313161750691962839242187626612216091831635367516099115360783398211485517; 5819320864731811182071626311534212560630956096418067373048996031394054359647; 3193805892252177738620917241865949019389090316632173717076321857753410808709; 1997061442450201280931055985606699802114240822052696240017247564040928981535; 12476829304480076154844456269888998973616477117048529519746074303489851531242; 116137251810259368817670046388746633340042883356535276535986098993893972678; 9559087425378110465616359954780467054673155073269144084445661470813996250003; 1692602879318279701942316767980052366201341315660679356189680498882388179700; 9776644672737406615579991997243844957027491579451592802751791797126017100; 10681708672745646779833655608450899426456188722657024922394601136326324751278; 2897036637838468233126716087321243241269514911880716092226307529776118821591; 9267815521794576123677221645991136088288653097101986596358898319930465488513; 3483899516688074886251753303722164329938614443671007980792130977923042474884; 3533803849589693377271089868231087143171213940641643172463325669046292591171; 6211601228557664230466113617382747073012142516793608356726157303112783657807; 10209360557529960905240307696480046919788588827322784092653183786195053440254; 476284214171988661261270934286470837531670375463116104470078224126742283020; 365040810816288772808940688802999795889476103573088044344178869126035347; 4173701191078782143969492772380386649123800705754636946322543258085383378730; 11094586339666467985681049715244487127277882734013802274488030205936821269292; 3253010366340643099026934488070533607630756083826179502124469087170376178161; 1606565911766648862544277507855914112428721464951327084610921051731652546230; 4923645506081620824042132072813872984553457483878413828294707819284788518171; 7260336386778939934192439993354964854877451724911969431432795729793676379619; 4282817886416825612340110481694591736937420670884924246524590831883048970984; 19836982910559527539286624059038736334585775623669367711589250240638605987; 1793859181621039424108524534398392227748734645056784410625813313245738483262; 7402794870581081305288727585804790972036062648885502417597169497567391247081; 4812095092345047094108169583430327771240631004927514924050108821318147114464; 10250839484491428266234119239079608769084563399737221421888343408401122286339; 3314862561022349130703482170872291748167914703031232231787385663720779801296; 10372393965056428695082397465030696113194938947188721629631733454877214543775; 9122245182130774461606753743457342437291341913331493582675924996159332676811; 6249857732980482288197438016363989721292931496263827429065360170149492622885; 9567264187560577865026325286508835313857514465721473588589775771050761994568; 5090956276945793542557837166431688639806149318290887441116148341233575419583; 11340270670231480834693537357222668810780563154911483790156410598661764004894; 1302119893616751928984987298319525395026920555324822018709326575190252219689; 7472725638804219738389046857574778689929616246806106080424726595021373598104; 10825355639544463342573871658869792528753166723324074578244708490369871612274; 6048217601054970489952706323349015405652648009552831380358816895107921850670; 1613631340730842187116776879885875500519564380970744897350725206487798797439; 158683126192821412115085357890534339263150111865682822628908796468355538419; 5527644828942794372002995185925468769134331079009950098220724297643294787362; 5128751426438274639258753655281540600353754287265632251695399658002365232317; 1952126426183766638670475066648219511499563901666802042751168282542690824647; 2471061608741877552417942643042776358584631621677073701259385407644936370761; 847381012237670744144326171735816000112014991593448525617956702531025470267; 415351359127569965813812980494921454083170381277872649155902648572232372486; 7484143230635999920500795238562411413096149673416788732236757961467208317200; 5148481794033418494425864472119227655227703111077016872949844829768179702353; 4656182796417039475747573111183755601924086593824482150771404901604482967884; 8713715822013857917438431122377383675790290087730250974401610958395724142443; 1694830757532289336674910855590469198063447494886641998967772174100451280098]);
    [exact (Pos2Z.is_pos _)|exact (Pos2Z.is_nonneg _)|vm_compute; reflexivity|exact Fr_1|vm_compute; reflexivity].
Qed.
Lemma Fr_3 : (7 ^ 135401933615828950808663329975084200916679404991770106120400) mod 13108968793781547619861935127046491459309155893440570251786403306729687672801 = 4537180703035029896592853268466381340186333684569838961281405450305654649990 mod 13108968793781547619861935127046491459309155893440570251786403306729687672801.
Proof.
  apply (powc_fact 13108968793781547619861935127046491459309155893440570251786403306729687672801 7 66423116707113316625381595663610875600 11467305520484684067970293459418483358976574861197525588066017156153318616778 2038476065687664805409 [10031231134100894656029945665762724896201070450214968005844825039403238617928; 5872218945524330443562378845194819494980479783250994763764169246616317065932; 1699692989378244076745730522887926544632023720604445369163702035570790999957; 110898552771372465725079575778616337523179656946358470199959030038506127853; 3885906828344179352519792076873161432103892181045004486936666059448002071412; 2316450064881299088943568129156271008080653824141338285653931349302793261730; 7043172403961475153244859502485777814495421900405019025515068209489137455073; 4640508014624868714970028734197608712241483869025651343698558640167612532376; 4195771565808776707943005613828298899459176558659746249613044603216210937014; 12366427708527651696817398261213794141485516353735094399398706061820427909432; 260482757969742830483779854984017614006697733366228349466597353554202105752; 596662596851972785332493559282025001695873255811256821930602390750121414885; 5787140555118520137612588442522280183015388760831447267432802277547355914528; 4178872968744310937079803850452554693748373975832597341077081205877707524454; 36879533197421931183841341082275401572622050402960406872383459256787537248; 5021457721840994151290361036571648630700306467781732188478958715380601033912; 599455244230458010529234754452037442011445816486662076281535489529398854683; 1561124550250543410873803640250609628237271105558442995815068960448168228859; 72023263539739920690366828190571933616068508760529980544370436338202823100; 6911495022218289529528135206330139932675837184753445686836022239825039948361; 6210161926821447265494374814533830810557140962865291558071917289528900217193; 2503745219890155688422284337086587363158095684678610319939682533615631382870; 12049429708559827325982783345374520526679731716569767626862632036356619930169; 118125353094115497948751322729087771683000408135494775569970492652725319914; 8640053202571096360167618571917526379777003582058194553332095871449145730660; 62008621496720736827431178273178613646868448068901877117251665723347094000; 7271950270972577731236039701550671479411741438197286440920620366142299254192; 303272435757275344820125078609030413702231184646899920701032407741656184721; 12888535118850244611411980607394169030680620295132108343224929287580236048383; 6855097170344911528924095300131550237847737687273842049319302934491611985780; 9945566350624581534928071608155677488356842984772541896914253048869728075951; 678033263610318033607868918426634207687491366114605896793420052302167651; 4156088350226349736164054840491072681707341004513261626275893781424112081979; 1514031970137379459895371113705312888785773014169831945085852122411311534144; 1955488270625002999395308977822204746384198726766890155730854482768180989556; 35626837025490053505778361582889090376148917119483498762025809493841415693; 9504143745857525313405109461309207238030952968413594441875950088758829478806; 1108387562790818602218475564391346567008382910944972550822225486828324690836; 10041582023969737806037109752290357948501181150409456805086759223918791283347; 3144346554999035694904148050623855562404247676391023739723159869811362916943; 6887803350409047393321095109242944353769055859650091878783100251568682737579; 11462220663018773753785657515373811106599406021542433064510045478001719150907; 2334999712335715828710550194508832893587373213049067451863446245180489567452; 6408189294969725502184024183464553285943989143953950821497492091851049116708; 2724116512518073721149507162420051795308692753460738786412957900492699645730; 3595487306989720413321992118822909775022790924442861611978407415113533706913; 4903558198454790906123840271959485570897251277442906060212777988254637438236; 11342437711092249419543961380740342856380666421863695613246982415330699039387; 9525594847676462765571883791042836645500877320521106348216959104981531143472; 11128706094545439839844716468871289275614922898110312853184018719385764049580; 8083447521099266010572424682132723955638492310477741127437851971564218145500; 3491906930650993397752136411522000565862439450954314566033797790999747530132; 379952620860818681715504475626154830217378090463893542143094936280667898941; 10050739829576975606026734770129700930593998045110424581123462539090359461825; 1537499220825188155831985733956752602919024054937596665964581936169399069678; 2153122965876283616847916636563174900268321065362032881246793459211757892273; 2436624864841318026594566998893099866043884464844148465827948759815459267718; 1012227162192029054772953817766300111780323977639987110735396557111148575841; 253668839873198403261429593819757789366315466938314423248048455904349143172; 6468551832993261879050114793511460668510863251325568910147894896161911074380; 20585213735258965966144890419079753809579781102481016353556280274552746; 1076334602458304898390263807999359234185204809228212865650095686570382675283; 2756467263388295330468941107443602076548413269255411972657386126840974037446; 754254122696538385896643916190800116095962722801264388666043299759354130071; 9909458946591047020728096108376662662701677868639497274792465261014451621895; 2145845808936062562630173813828661789506860871527697504263959443398691305496; 12594364607164365045966153459638670942551659607644586352225940046554608234278; 950688815249474834368295801421718137844688167316170685752951324296381685709; 553782481267645708384471304583822994139943255647816584558104105668239933988; 180780888822017342865325846177371233524801935768133132877090764646218025677; 6144770512164774582796458813529369012200914166877671379858407901626597863681; 12095787298629517677920007225847128685858640929252292103243769332220491700314; 3652222865292098970704949012837269985750647778756700159174070085126252887052; 3785840543200659229553018030455499720233163057516763697956435546179828015937; 8916761622321815017134776767901145327820314690069704597274969061506675461548; 15212465976708924670421981415228130677662226440117361050959496639429792817; 577525754666100169666694017682953541897633022701166134135680654247316607778; 5419523223820994358058866787885224692125974799809023413960387514599194593313; 133423644343605650591677103817350643629336414653081137170979340547379120984; 9184428650910097869888581991382894142294345219668060176108707066310411832895; 8733118249079191565030820718189608555964523077056971381344722279732656271478; 2009261393574762808391154137661377405126221825970848992018308657693798358481; 4043197210355240636414501810237650027361133878602719108352608121595317703881; 4711113320565225289771820074066108402810982185720053127417066723746600099701; 605878850098316675873099579419549566371104892057639191421234643087601204458; 992563682176938280405120605219922253937899873887724609761756132221566059782; 7651407954967689398568853459768001103549351636281578205198383952411847221001; 3433094724154581332681430614507876433463336141927124514109389844335356064986; 4165026434779603224770131563119604022521561574749778377363323778947430750894; 10982005568134135680192945304802104634158748986798174938211261753161201252688; 7895764371096669537147062582697399491095616675204944116949873484710865832368; 321457418570295380872052665650488302045755174800488838776540594737003528513; 567513039704442627883943566716098475029639527867102907135009747303682466869; 4004011776807754661706923773244963496736530977165911174999482175509348906138; 6521090245297101823650336943345473326137373253544538140306048737865367238342; 12725230982603453410305061958003325107693303597723469313272909995123537435024; 31675542147001064904123000408127456227261635598679748467162007255940295466; 2361108468698055913687296769325131090907317225644953782546753343089236116872; 3556349145511931514529509165069995275538264378411672619800033468857846789427; 2774523678444816153694285997817270905191395048129530784248788794117486629871; 848565061892298983394211856158391988955883361070465889972854767624837228414]);
    [exact (Pos2Z.is_pos _)|exact (Pos2Z.is_nonneg _)|vm_compute; reflexivity|exact Fr_1|vm_compute; reflexivity].
Qed.
Lemma Fr_4 : (7 ^ 6554484396890773809930967563523245729654577946720285125893201653364843836400) mod 13108968793781547619861935127046491459309155893440570251786403306729687672801 = 13108968793781547619861935127046491459309155893440570251786403306729687672800 mod 13108968793781547619861935127046491459309155893440570251786403306729687672801.
Proof.
  apply (powc_fact 13108968793781547619861935127046491459309155893440570251786403306729687672801 7 3215384525341320127787234444933873747163601614573999600 9342974475902069569500387188457662183495727481844719798261364553033699741848 2038476065687664805409 [6658889301709646114814056707042262725448808289050467385189097621360883837399; 763577517242014604918593701363181807610425284150365586585252581173722715514; 146655388305138312091810140752620877713231276066429689774026390930469602722; 8881662973175472115897939121701774714957566912426252255912642603567416115921; 2494965896818431086653745363989516949742538639035684078879485126663370435716; 7875619804702137055233100163884417056223105480547171996473244867638991381725; 3839617567743659417741846805633003554463068039390970923367420623657457625467; 4691575327245514134261083219647529863771116766632284385743985898391526113194; 1584297852907530014394786382975326363004170492917202853693868160334267625880; 46272666096949817558277857382800717876720244236239628869582081240425369631; 9152679602478825193161800005365209339482524092176281858316338150590836390823; 2798572457299428328042654940400974512803685443394614395785972109860976233554; 3046633745699727157850180628619454477888226206279371002491004768433304468126; 2004308516617700802594303931310188887449721714620383364184630914078017406544; 3746057303420101282153331405592599411184033943163209400494683975816296395837; 5653339172769328631335145087633534512927985261722070910679997381006850022211; 607268561938840863712532802500697503158991924454007480325389160026783496553; 814177368200568916234026272677779953261006174427732985004546525964132321131; 2026783647418037722430989039645339938634018893164539357670770519380566320373; 8460887395961117247960578675569117995846896285075784328279496040519039463530; 5523499201841881110909567506582198823197562334264231950605078149603299138337; 8764146228164795081963614690403539073240732684240384447208171267933393483571; 2441514541167102210092081918643982915225295935269545173214445765137699260079; 6560903299844956653313568517198893785120559102214250829138235303104294819; 12368089494845621366064396612486831546988410381260283659309487906276658712177; 6892523594101865894252975569030344101037277286638183561050778654782902654; 4846722606419280465748904570457107687350868741621138072375424861704362545990; 1802871990515364971157653235115899743741708932989830224600552597409325765454; 3673393825302533992590529666885518687046545926018698425781841218169514941654; 1224839124747536489389797499101546950363005529510191465264114871241193493493; 8696924092384512661573268793447465943534857609033885250535086428946107452066; 2861313045588802054162484135778058671978871962503218532448130520912366688; 1017020983091673029602345146308042779196522892272335279946929003607685691303; 2230476877432334828782340579135219042704968003830534431942185329165003479227; 3521998388065977423670457611018911613428590138917182101087418421134768883360; 1695333659169749453011210238996489991496931505761713585943798091485559849151; 744488319532738693397132734555061348529284999711373108408048449778643865503; 12894579250665511069666684007217154657756979820524211399774442522713025278583; 3673822382531217410335460179916914669944957603267996456262869905467406901908; 3729352366635172629486692034149610084768255700720274821613911241951291795213; 3120305544441003963885711275849206793262520707116851853006757654631351901553; 10111762388366717816436385685991779066714695837273973569689769433192001699724; 218464139360495986689228981728663947251014602630722611149696625033440719576; 371528032873116066034137886407426758052232439211219482933825329237559970583; 3594459945858920472960280047073544570588829081785305966507333547359996287; 1494563815223745923783422896115373244555733564942216088870610977010193850823; 8411278632548890006313866451210818864345597450854624569387455283447601787851; 1007451663197193789490962334437604233926792537888519705206934389838086816521; 22828228866547459908717930953218189498004167658227175301145097634554446265; 11378188691182850475498579489422534015730242831385168487689278564277676778495; 332610994165719645402403748349660538278118609585454881920842747263282549114; 8735405638868367461185623258684158366784230567045874923808104471309890584865; 1601358560672637408118760078504658668455734157097766405640503243883893835221; 5248555342714779189160163452561819643095620669582142237323695651129142415686; 885292297926958500181326802536100439990378857986862771592230693633785046253; 4312865469168611751596751908626284969958886829515418534081069493066563062527; 29443054965790089614325654946704532676195581089270407527403816226417725514; 3891903048654063591053590078586609803030619802590233766909063990497802696187; 11959059459506211389960445801773844383157487099565686521214212103466600179205; 5981714075741879494127101909161060989703509931210222508085394588621355409709; 6822697171570891274209731910879528962520334926319348947585228710574055392827; 210647071937913084319161658881920367799170890861495037850324272505753626274; 8918430668944175810589726120717690266580502453700973723340575352535571972263; 9892250458125375052192280525811016241707627338076205963965928359968335587660; 10824964245900613660940545341436488235741945403501838632431067011829236726539; 58240023865446542264921361049439447546016366319685986851890288185858049249; 8369360035759464543465019494064705798903406957107494197892591799378386058530; 4637607658692632286485514470379513313896036464906883169956629361452495194350; 2914149659724079717828049392483958566991013380357937769718755035622042142803; 9029009580361102513899404674538403084215290086334996687493903906241074513603; 11569378212061226653270047041284585362075517560628992700045790361242859911989; 1897827051481080518134020899146434551830259782638725214163329985903810282087; 4810530678693359946404845430551638067607460334214548757397278151748751581016; 4875106340495146100823716078721860922086941151261573676170474916958198704672; 7655406781878261496070170649082708110803836972388545648306013239494764088625; 4276670634055287745748112343998686009034902601183915658628512838934038566510; 1651836096076887691107306626885906989255217219910938821895825503004711466029; 8733560743169414512422532080378916583733079959056957672202277962080390918462; 820475042542523315271255560483475666546919720139881121606895497696284063669; 3884268378870774597039258159554877020972305387330570987154137101153264883338; 8885583420923899335274821823401835334072820390865670321075544293932217507071; 2308737940932333259451939147327872881823590336718695255183138311810811766344; 6118876463530282035916199596324651679743725493198677114310896534235807722289; 12809970544831769432126024465341370268976809135141926145810921749122233942905; 3670371779841656364940099610431377722920741134579702046014644704094057666590; 9012631926914945796590234707158382868173799245439474425514212151270085875742; 9166150748316441644720458449088207189350695422826329933067994030596141974945; 7921538012119694538734239443649545021294280551496117323743878699614763382606; 3447849910355903758520981775197922798941450129342325703029144556674157699826; 5128288271492774226301909927411682519529762806566016602871461280926377246927; 786040577864742346327197530305852991123391185065928012700791886303195447796; 9720283112044688089993517726368616135034458142789188040804445155857319904033; 5856144171821815153884013771511870632907715150741758875890029216377353024233; 12534712633474443263256585231052952426096963829606953013122402143256547965204; 2949714180915371459827205490476585131446923266067281716015285724218144922838; 44965142940572167233440962175590601795705352016533222361297358728086177383; 448892410377809893145669495446411762511503371342970332373945098787887312974; 7573321632567344634665895204781769642771863294850348778888280229868661928074; 7263704125510771223048781186744830143900328903840226039315866547156379928548; 4243252130226077681060919884748032253723249742326908442723539963468764794826; 481986385704250476667406140263337482316446059558094596914733785912959147144]);
    [exact (Pos2Z.is_pos _)|exact (Pos2Z.is_nonneg _)|vm_compute; reflexivity|exact Fr_2|vm_compute; reflexivity].
Qed.
Lemma Fr_5 : (7 ^ 270803867231657901617326659950168401833358809983540212240800) mod 13108968793781547619861935127046491459309155893440570251786403306729687672801 = 4822084988331702396223070858714712474608803272326549144826261634096494528106 mod 13108968793781547619861935127046491459309155893440570251786403306729687672801.
Proof.
  apply (powc_fact 13108968793781547619861935127046491459309155893440570251786403306729687672801 7 135401933615828950808663329975084200916679404991770106120400 4537180703035029896592853268466381340186333684569838961281405450305654649990 2 [1570375904911662916941947668215052139227201037251429894418208654125709868794]);
    [exact (Pos2Z.is_pos _)|exact (Pos2Z.is_nonneg _)|vm_compute; reflexivity|exact Fr_3|vm_compute; reflexivity].
Qed.
Lemma Fr_6 : (7 ^ 6430769050682640255574468889867747494327203229147999200) mod 13108968793781547619861935127046491459309155893440570251786403306729687672801 = 1071362644838256120324101545546173673866268544854873728203465510451043570505 mod 13108968793781547619861935127046491459309155893440570251786403306729687672801.
Proof.
  apply (powc_fact 13108968793781547619861935127046491459309155893440570251786403306729687672801 7 3215384525341320127787234444933873747163601614573999600 9342974475902069569500387188457662183495727481844719798261364553033699741848 2 [6658889301709646114814056707042262725448808289050467385189097621360883837399]);
    [exact (Pos2Z.is_pos _)|exact (Pos2Z.is_nonneg _)|vm_compute; reflexivity|exact Fr_2|vm_compute; reflexivity].
Qed.
Lemma Fr_7 : (7 ^ 13108968793781547619861935127046491459309155893440570251786403306729687672800) mod 13108968793781547619861935127046491459309155893440570251786403306729687672801 = 1 mod 13108968793781547619861935127046491459309155893440570251786403306729687672801.
Proof.
  apply (powc_fact 13108968793781547619861935127046491459309155893440570251786403306729687672801 7 6554484396890773809930967563523245729654577946720285125893201653364843836400 13108968793781547619861935127046491459309155893440570251786403306729687672800 2 [13108968793781547619861935127046491459309155893440570251786403306729687672799]);
    [exact (Pos2Z.is_pos _)|exact (Pos2Z.is_nonneg _)|vm_compute; reflexivity|exact Fr_4|vm_compute; reflexivity].
Qed.
Lemma prime_r : prime 13108968793781547619861935127046491459309155893440570251786403306729687672801.
Proof.
  apply (pocklington 13108968793781547619861935127046491459309155893440570251786403306729687672801 3157688333496147509099935255036205984608); [vm_compute; reflexivity|vm_compute; reflexivity|exact (Pos2Z.is_pos _)|]. intros s Hs Ds.
  assert (D0 : (32 | s - 1)).
  { apply (pock_check 13108968793781547619861935127046491459309155893440570251786403306729687672801 13108968793781547619861935127046491459309155893440570251786403306729687672800 6554484396890773809930967563523245729654577946720285125893201653364843836400 7 13108968793781547619861935127046491459309155893440570251786403306729687672800 2 5 32 409655274805673363120685472720202858103411121670017820368325103335302739775 6554484396890773809930967563523245729654577946720285125893201653364843836400 s);
      [vm_compute; reflexivity|exact prime_2|exact (Pos2Z.is_pos _)|vm_compute; reflexivity|vm_compute; reflexivity|vm_compute; reflexivity|vm_compute; reflexivity|exact Fr_7|exact Fr_4|vm_compute; reflexivity|exact Hs|exact Ds]. }
  assert (D1 : (48407612962807291 | s - 1)).
  { apply (pock_check 13108968793781547619861935127046491459309155893440570251786403306729687672801 13108968793781547619861935127046491459309155893440570251786403306729687672800 270803867231657901617326659950168401833358809983540212240800 7 4822084988331702396223070858714712474608803272326549144826261634096494528106 48407612962807291 1 48407612962807291 270803867231657901617326659950168401833358809983540212240800 11461846161326229460375914911858661783628727013183642040338333928144033703958 s);
      [vm_compute; reflexivity|exact prime_48407612962807291|exact (Pos2Z.is_pos _)|vm_compute; reflexivity|vm_compute; reflexivity|vm_compute; reflexivity|vm_compute; reflexivity|exact Fr_7|exact Fr_5|vm_compute; reflexivity|exact Hs|exact Ds]. }
  assert (D2 : (2038476065687664805409 | s - 1)).
  { apply (pock_check 13108968793781547619861935127046491459309155893440570251786403306729687672801 13108968793781547619861935127046491459309155893440570251786403306729687672800 6430769050682640255574468889867747494327203229147999200 7 1071362644838256120324101545546173673866268544854873728203465510451043570505 2038476065687664805409 1 2038476065687664805409 6430769050682640255574468889867747494327203229147999200 9926494464114522958668530322728883513792774699017779959614383120602465920885 s);
      [vm_compute; reflexivity|exact prime_2038476065687664805409|exact (Pos2Z.is_pos _)|vm_compute; reflexivity|vm_compute; reflexivity|vm_compute; reflexivity|vm_compute; reflexivity|exact Fr_7|exact Fr_6|vm_compute; reflexivity|exact Hs|exact Ds]. }
  assert (E1 : (1549043614809833312 | s - 1)) by (apply (divide_times 32 48407612962807291); [exact D0|exact D1|vm_compute; reflexivity|vm_compute; reflexivity]).
  assert (E2 : (3157688333496147509099935255036205984608 | s - 1)) by (apply (divide_times 1549043614809833312 2038476065687664805409); [exact E1|exact D2|vm_compute; reflexivity|vm_compute; reflexivity]).
  exact E2.
Qed.
