(* GENERATED by tools/gen_tables.py from /repo/panels/core/src/legendre_gauss_quadrature.cpp -- do not edit *)
From Coq Require Import ZArith List.
Import ListNotations.
Open Scope Z_scope.

(* cases of switch(n): (n, list of (point, weight)) with decimals (mantissa, decimals) *)
Definition lit_gauss : list (nat * list ((Z * nat) * (Z * nat))) := [
  (2%nat, [(((-577350269189625764509148780501957455647601751270126876),54%nat),(1,0%nat));
    ((577350269189625764509148780501957455647601751270126876,54%nat),(1,0%nat))]);
  (3%nat, [(((-774596669241483377035853079956479922166584341058318165),54%nat),(555555555555555555555555555555555555555555555555555556,54%nat));
    ((0,0%nat),(888888888888888888888888888888888888888888888888888889,54%nat));
    ((774596669241483377035853079956479922166584341058318165,54%nat),(555555555555555555555555555555555555555555555555555556,54%nat))]);
  (4%nat, [(((-861136311594052575223946488892809505095725379629717638),54%nat),(34785484513745385737306394922199940723534869583389354,53%nat));
    (((-339981043584856264802665759103244687200575869770914353),54%nat),(65214515486254614262693605077800059276465130416610646,53%nat));
    ((339981043584856264802665759103244687200575869770914353,54%nat),(65214515486254614262693605077800059276465130416610646,53%nat));
    ((861136311594052575223946488892809505095725379629717638,54%nat),(34785484513745385737306394922199940723534869583389354,53%nat))]);
  (5%nat, [(((-906179845938663992797626878299392965125651910762530863),54%nat),(236926885056189087514264040719917362643260002212414016,54%nat));
    (((-538469310105683091036314420700208804967286606905559956),54%nat),(47862867049936646804129151483563819291229555334314154,53%nat));
    ((0,0%nat),(568888888888888888888888888888888888888888888888888889,54%nat));
    ((538469310105683091036314420700208804967286606905559956,54%nat),(47862867049936646804129151483563819291229555334314154,53%nat));
    ((906179845938663992797626878299392965125651910762530863,54%nat),(236926885056189087514264040719917362643260002212414016,54%nat))]);
  (6%nat, [(((-932469514203152027812301554493994609134765737712289825),54%nat),(171324492379170345040296142172732893526822501484043982,54%nat));
    (((-661209386466264513661399595019905347006448564395170071),54%nat),(360761573048138607569833513837716111661521892746745482,54%nat));
    (((-23861918608319690863050172168071193541861063014002135),53%nat),(467913934572691047389870343989550994811655605769210535,54%nat));
    ((23861918608319690863050172168071193541861063014002135,53%nat),(467913934572691047389870343989550994811655605769210535,54%nat));
    ((661209386466264513661399595019905347006448564395170071,54%nat),(360761573048138607569833513837716111661521892746745482,54%nat));
    ((932469514203152027812301554493994609134765737712289825,54%nat),(171324492379170345040296142172732893526822501484043982,54%nat))]);
  (7%nat, [(((-949107912342758524526189684047851262400770937670617784),54%nat),(129484966168869693270611432679082018328587402259946664,54%nat));
    (((-74153118559939443986386477328078840707414764714139026),53%nat),(279705391489276667901467771423779582486925065226598765,54%nat));
    (((-405845151377397166906606412076961463347382014099370126),54%nat),(381830050505118944950369775488975133878365083533862735,54%nat));
    ((0,0%nat),(417959183673469387755102040816326530612244897959183673,54%nat));
    ((405845151377397166906606412076961463347382014099370126,54%nat),(381830050505118944950369775488975133878365083533862735,54%nat));
    ((74153118559939443986386477328078840707414764714139026,53%nat),(279705391489276667901467771423779582486925065226598765,54%nat));
    ((949107912342758524526189684047851262400770937670617784,54%nat),(129484966168869693270611432679082018328587402259946664,54%nat))]);
  (8%nat, [(((-960289856497536231683560868569472990428235234301452038),54%nat),(1012285362903762591525313543099621901153940910516849571,55%nat));
    (((-796666477413626739591553936475830436837171731615964832),54%nat),(222381034453374470544355994426240884430130870051249565,54%nat));
    (((-525532409916328985817739049189246349041964243120392858),54%nat),(313706645877887287337962201986601313260328999002734938,54%nat));
    (((-183434642495649804939476142360183980666757812912973782),54%nat),(362683783378361982965150449277195612194146039894330541,54%nat));
    ((183434642495649804939476142360183980666757812912973782,54%nat),(362683783378361982965150449277195612194146039894330541,54%nat));
    ((525532409916328985817739049189246349041964243120392858,54%nat),(313706645877887287337962201986601313260328999002734938,54%nat));
    ((796666477413626739591553936475830436837171731615964832,54%nat),(222381034453374470544355994426240884430130870051249565,54%nat));
    ((960289856497536231683560868569472990428235234301452038,54%nat),(1012285362903762591525313543099621901153940910516849571,55%nat))]);
  (9%nat, [(((-96816023950762608983557620290367287004940480049192533),53%nat),(812743883615744119718921581105236506756617207824107507,55%nat));
    (((-836031107326635794299429788069734876544106718124675996),54%nat),(180648160694857404058472031242912809514337821732040484,54%nat));
    (((-613371432700590397308702039341474184785720604940564693),54%nat),(260610696402935462318742869418632849771840204437299952,54%nat));
    (((-324253423403808929038538014643336608571956260736973089),54%nat),(312347077040002840068630406584443665598754861261904646,54%nat));
    ((0,0%nat),(330239355001259763164525069286974048878810783572688335,54%nat));
    ((324253423403808929038538014643336608571956260736973089,54%nat),(312347077040002840068630406584443665598754861261904646,54%nat));
    ((613371432700590397308702039341474184785720604940564693,54%nat),(260610696402935462318742869418632849771840204437299952,54%nat));
    ((836031107326635794299429788069734876544106718124675996,54%nat),(180648160694857404058472031242912809514337821732040484,54%nat));
    ((96816023950762608983557620290367287004940480049192533,53%nat),(812743883615744119718921581105236506756617207824107507,55%nat))]);
  (10%nat, [(((-973906528517171720077964012084452053428269946692382119),54%nat),(666713443086881375935688098933317928578648343201581451,55%nat));
    (((-865063366688984510732096688423493048527543014965330453),54%nat),(149451349150580593145776339657697332402556639669427368,54%nat));
    (((-679409568299024406234327365114873575769294711834809468),54%nat),(21908636251598204399553493422816319245877187052267709,53%nat));
    (((-433395394129247190799265943165784162200071837656246497),54%nat),(269266719309996355091226921569469352859759938460883796,54%nat));
    (((-148874338981631210884826001129719984617564859420691696),54%nat),(295524224714752870173892994651338329421046717026853601,54%nat));
    ((148874338981631210884826001129719984617564859420691696,54%nat),(295524224714752870173892994651338329421046717026853601,54%nat));
    ((433395394129247190799265943165784162200071837656246497,54%nat),(269266719309996355091226921569469352859759938460883796,54%nat));
    ((679409568299024406234327365114873575769294711834809468,54%nat),(21908636251598204399553493422816319245877187052267709,53%nat));
    ((865063366688984510732096688423493048527543014965330453,54%nat),(149451349150580593145776339657697332402556639669427368,54%nat));
    ((973906528517171720077964012084452053428269946692382119,54%nat),(666713443086881375935688098933317928578648343201581451,55%nat))]);
  (11%nat, [(((-978228658146056992803938001122857390771422408919784415),54%nat),(556685671161736664827537204425485787285156256968981483,55%nat));
    (((-887062599768095299075157769303927266631675751225314385),54%nat),(125580369464904624634694299223940100197615791395403501,54%nat));
    (((-730152005574049324093416252031153458049643062026130312),54%nat),(186290210927734251426097641431655891691284748040203412,54%nat));
    (((-519096129206811815925725669458609554480227115119928489),54%nat),(233193764591990479918523704843175139431798172316958509,54%nat));
    (((-269543155952344972331531985400861524679621862439052282),54%nat),(262804544510246662180688869890509195372764677603144556,54%nat));
    ((0,0%nat),(272925086777900630714483528336342189156041969894783748,54%nat));
    ((269543155952344972331531985400861524679621862439052282,54%nat),(262804544510246662180688869890509195372764677603144556,54%nat));
    ((519096129206811815925725669458609554480227115119928489,54%nat),(233193764591990479918523704843175139431798172316958509,54%nat));
    ((730152005574049324093416252031153458049643062026130312,54%nat),(186290210927734251426097641431655891691284748040203412,54%nat));
    ((887062599768095299075157769303927266631675751225314385,54%nat),(125580369464904624634694299223940100197615791395403501,54%nat));
    ((978228658146056992803938001122857390771422408919784415,54%nat),(556685671161736664827537204425485787285156256968981483,55%nat))]);
  (12%nat, [(((-98156063424671925069054909014928082296015519981373151),53%nat),(471753363865118271946159614850170603170290739948470896,55%nat));
    (((-904117256370474856678465866119096192537596709213297547),54%nat),(10693932599531843096025471819399622421457017347032488,53%nat));
    (((-769902674194304687036893833212818075984925750018931638),54%nat),(160078328543346226334652529543359071872011730490864178,54%nat));
    (((-587317954286617447296702418940534280369098514048052482),54%nat),(203167426723065921749064455809798376506518147274590146,54%nat));
    (((-367831498998180193752691536643717561256360141335409621),54%nat),(233492536538354808760849898924878056259409972199754875,54%nat));
    (((-125233408511468915472441369463853129983396916305444273),54%nat),(249147045813402785000562436042951210830460902569618831,54%nat));
    ((125233408511468915472441369463853129983396916305444273,54%nat),(249147045813402785000562436042951210830460902569618831,54%nat));
    ((367831498998180193752691536643717561256360141335409621,54%nat),(233492536538354808760849898924878056259409972199754875,54%nat));
    ((587317954286617447296702418940534280369098514048052482,54%nat),(203167426723065921749064455809798376506518147274590146,54%nat));
    ((769902674194304687036893833212818075984925750018931638,54%nat),(160078328543346226334652529543359071872011730490864178,54%nat));
    ((904117256370474856678465866119096192537596709213297547,54%nat),(10693932599531843096025471819399622421457017347032488,53%nat));
    ((98156063424671925069054909014928082296015519981373151,53%nat),(471753363865118271946159614850170603170290739948470896,55%nat))]);
  (13%nat, [(((-984183054718588149472829448807109611064990561925874909),54%nat),(404840047653158795200215922009860600419865457449888681,55%nat));
    (((-917598399222977965206547836500719512390474790111683296),54%nat),(921214998377284479144217759537971209236839998622368391,55%nat));
    (((-80157809073330991279420648958285989030561572479050003),53%nat),(138873510219787238463601776868871467621862718263298228,54%nat));
    (((-642349339440340220643984606995515650071697398261576857),54%nat),(178145980761945738280046691996097995512812650661016503,54%nat));
    (((-448492751036446852877912852127639867801921667441757879),54%nat),(207816047536888502312523219306052763386582609199503549,54%nat));
    (((-230458315955134794065528121097988835211542375883531163),54%nat),(22628318026289723841209018603977661843475773761555702,53%nat));
    ((0,0%nat),(232551553230873910194589515268835948156627477306797986,54%nat));
    ((230458315955134794065528121097988835211542375883531163,54%nat),(22628318026289723841209018603977661843475773761555702,53%nat));
    ((448492751036446852877912852127639867801921667441757879,54%nat),(207816047536888502312523219306052763386582609199503549,54%nat));
    ((642349339440340220643984606995515650071697398261576857,54%nat),(178145980761945738280046691996097995512812650661016503,54%nat));
    ((80157809073330991279420648958285989030561572479050003,53%nat),(138873510219787238463601776868871467621862718263298228,54%nat));
    ((917598399222977965206547836500719512390474790111683296,54%nat),(921214998377284479144217759537971209236839998622368391,55%nat));
    ((984183054718588149472829448807109611064990561925874909,54%nat),(404840047653158795200215922009860600419865457449888681,55%nat))]);
  (14%nat, [(((-986283808696812338841597266704052801676091407239225882),54%nat),(351194603317518630318328761381917806197056092771272766,55%nat));
    (((-928434883663573517336391139377874264477039210409837619),54%nat),(801580871597602098056332770628543095836977853945947652,55%nat));
    (((-827201315069764993189794742650394961039701101475081182),54%nat),(121518570687903184689414809072476625956669345690074672,54%nat));
    (((-687292904811685470148019803019334137538401212747170676),54%nat),(157203167158193534569601938623842156605668037337323375,54%nat));
    (((-515248636358154091965290718551188662308885282569306037),54%nat),(185538397477937813741716590125157036248922602937331659,54%nat));
    (((-319112368927889760435671824168475466834261203533843957),54%nat),(205198463721295603965924065661218055710339061309419452,54%nat));
    (((-108054948707343662066244650219834747611951605474237557),54%nat),(2152638534631577901958764433162600352749975580541288,52%nat));
    ((108054948707343662066244650219834747611951605474237557,54%nat),(2152638534631577901958764433162600352749975580541288,52%nat));
    ((319112368927889760435671824168475466834261203533843957,54%nat),(205198463721295603965924065661218055710339061309419452,54%nat));
    ((515248636358154091965290718551188662308885282569306037,54%nat),(185538397477937813741716590125157036248922602937331659,54%nat));
    ((687292904811685470148019803019334137538401212747170676,54%nat),(157203167158193534569601938623842156605668037337323375,54%nat));
    ((827201315069764993189794742650394961039701101475081182,54%nat),(121518570687903184689414809072476625956669345690074672,54%nat));
    ((928434883663573517336391139377874264477039210409837619,54%nat),(801580871597602098056332770628543095836977853945947652,55%nat));
    ((986283808696812338841597266704052801676091407239225882,54%nat),(351194603317518630318328761381917806197056092771272766,55%nat))]);
  (15%nat, [(((-98799251802048542848956571858661258114697281712376149),53%nat),(307532419961172683546283935772044177217481448334340743,55%nat));
    (((-937273392400705904307758947710209471243996273515304458),54%nat),(703660474881081247092674164506673384667080327543307198,55%nat));
    (((-848206583410427216200648320774216851366256174736992634),54%nat),(107159220467171935011869546685869303415543715758101981,54%nat));
    (((-724417731360170047416186054613938009630899294584102564),54%nat),(139570677926154314447804794511028322520850275315511243,54%nat));
    (((-570972172608538847537226737253910641238386396282749605),54%nat),(166269205816993933553200860481208811130900180098412907,54%nat));
    (((-394151347077563369897207370981045468362752776158698255),54%nat),(186161000015562211026800561866422824506226012277928403,54%nat));
    (((-20119409399743452230062830339459620781283645446263768),53%nat),(198431485327111576456118326443839324818692559957541993,54%nat));
    ((0,0%nat),(202578241925561272880620199967519314838662158009477357,54%nat));
    ((20119409399743452230062830339459620781283645446263768,53%nat),(198431485327111576456118326443839324818692559957541993,54%nat));
    ((394151347077563369897207370981045468362752776158698255,54%nat),(186161000015562211026800561866422824506226012277928403,54%nat));
    ((570972172608538847537226737253910641238386396282749605,54%nat),(166269205816993933553200860481208811130900180098412907,54%nat));
    ((724417731360170047416186054613938009630899294584102564,54%nat),(139570677926154314447804794511028322520850275315511243,54%nat));
    ((848206583410427216200648320774216851366256174736992634,54%nat),(107159220467171935011869546685869303415543715758101981,54%nat));
    ((937273392400705904307758947710209471243996273515304458,54%nat),(703660474881081247092674164506673384667080327543307198,55%nat));
    ((98799251802048542848956571858661258114697281712376149,53%nat),(307532419961172683546283935772044177217481448334340743,55%nat))]);
  (16%nat, [(((-98940093499164993259615417345033262742627407165764513),53%nat),(27152459411754094851780572456018103512267375566760798,54%nat));
    (((-944575023073232576077988415534608345091139272591072601),54%nat),(622535239386478928628438369943776942749865083529068579,55%nat));
    (((-865631202387831743880467897712393132387335384847526708),54%nat),(951585116824927848099251076022462263552635031837126582,55%nat));
    (((-75540440835500303389510119484744226835381365645750301),53%nat),(12462897125553387205247628219201642014488685922220268,53%nat));
    (((-617876244402643748446671764048791018991882217765657794),54%nat),(149595988816576732081501730547478548970491068207836467,54%nat));
    (((-458016777657227386342419442983577573540031613035523491),54%nat),(169156519395002538189312079030359962211639473416028282,54%nat));
    (((-281603550779258913230460501460496106486069490770599801),54%nat),(182603415044923588866763667969219939383556223654649282,54%nat));
    (((-950125098376374401853193354249580631303530556890654567),55%nat),(189450610455068496285396723208283105146908988395902975,54%nat));
    ((950125098376374401853193354249580631303530556890654567,55%nat),(189450610455068496285396723208283105146908988395902975,54%nat));
    ((281603550779258913230460501460496106486069490770599801,54%nat),(182603415044923588866763667969219939383556223654649282,54%nat));
    ((458016777657227386342419442983577573540031613035523491,54%nat),(169156519395002538189312079030359962211639473416028282,54%nat));
    ((617876244402643748446671764048791018991882217765657794,54%nat),(149595988816576732081501730547478548970491068207836467,54%nat));
    ((75540440835500303389510119484744226835381365645750301,53%nat),(12462897125553387205247628219201642014488685922220268,53%nat));
    ((865631202387831743880467897712393132387335384847526708,54%nat),(951585116824927848099251076022462263552635031837126582,55%nat));
    ((944575023073232576077988415534608345091139272591072601,54%nat),(622535239386478928628438369943776942749865083529068579,55%nat));
    ((98940093499164993259615417345033262742627407165764513,53%nat),(27152459411754094851780572456018103512267375566760798,54%nat))]);
  (17%nat, [(((-990575475314417335675434019940665276507789850459564303),54%nat),(241483028685479319601100262875653246916973159450252783,55%nat));
    (((-950675521768767761222716957895803021443385046559108708),54%nat),(55459529373987201129440165358244660512846251953228847,54%nat));
    (((-8802391537269859021229556944881556926234168179344279),52%nat),(850361483171791808835353701910620738504913892185054758,55%nat));
    (((-781514003896801406925230055520476050223972472740568513),54%nat),(11188384719340397109478838562635592673584342426307705,53%nat));
    (((-657671159216690765850302216643002335147805891475973244),54%nat),(13513636846852547328631998170235019737212585323448902,53%nat));
    (((-512690537086476967886246568629551874582923722411172906),54%nat),(154045761076810288081431594801958611940483058471017934,54%nat));
    (((-351231763453876315297185517095346005040539751575675023),54%nat),(168004102156450044509970663788323155021198128965074014,54%nat));
    (((-178484181495847855850677493654065557475419332691525644),54%nat),(176562705366992646325270990113197239150924418000748118,54%nat));
    ((0,0%nat),(179446470356206525458265644261885621448780319897668524,54%nat));
    ((178484181495847855850677493654065557475419332691525644,54%nat),(176562705366992646325270990113197239150924418000748118,54%nat));
    ((351231763453876315297185517095346005040539751575675023,54%nat),(168004102156450044509970663788323155021198128965074014,54%nat));
    ((512690537086476967886246568629551874582923722411172906,54%nat),(154045761076810288081431594801958611940483058471017934,54%nat));
    ((657671159216690765850302216643002335147805891475973244,54%nat),(13513636846852547328631998170235019737212585323448902,53%nat));
    ((781514003896801406925230055520476050223972472740568513,54%nat),(11188384719340397109478838562635592673584342426307705,53%nat));
    ((8802391537269859021229556944881556926234168179344279,52%nat),(850361483171791808835353701910620738504913892185054758,55%nat));
    ((950675521768767761222716957895803021443385046559108708,54%nat),(55459529373987201129440165358244660512846251953228847,54%nat));
    ((990575475314417335675434019940665276507789850459564303,54%nat),(241483028685479319601100262875653246916973159450252783,55%nat))]);
  (18%nat, [(((-991565168420930946730016004706150770252578936845439693),54%nat),(216160135264833103133427102664524693876852314755899455,55%nat));
    (((-955823949571397755181195892929776309972844134811306479),54%nat),(497145488949697964533349462026386416808662461289102022,55%nat));
    (((-892602466497555739206060591127145515407895271352298214),54%nat),(764257302548890565291296776166365256053179062083582874,55%nat));
    (((-803704958972523115682417455014590797103298921611922482),54%nat),(100942044106287165562813984924834607062801138887678902,54%nat));
    (((-691687043060353207874891081288848389452270572817507759),54%nat),(122555206711478460184519126800201555228163897333439097,54%nat));
    (((-559770831073947534607871548525329136927626485770709417),54%nat),(14064291467065065120473130375194722809550241033097256,53%nat));
    (((-411751161462842646035931793833051637078989682120025511),54%nat),(154684675126265244925418003836374772193218396267354173,54%nat));
    (((-251886225691505509588972854877911230162861765659640458),54%nat),(164276483745832722986053776465927590412338953997352953,54%nat));
    (((-8477501304173530124226185293578381173331738690608992),53%nat),(16914238296314359184065647013498661033410581937034388,53%nat));
    ((8477501304173530124226185293578381173331738690608992,53%nat),(16914238296314359184065647013498661033410581937034388,53%nat));
    ((251886225691505509588972854877911230162861765659640458,54%nat),(164276483745832722986053776465927590412338953997352953,54%nat));
    ((411751161462842646035931793833051637078989682120025511,54%nat),(154684675126265244925418003836374772193218396267354173,54%nat));
    ((559770831073947534607871548525329136927626485770709417,54%nat),(14064291467065065120473130375194722809550241033097256,53%nat));
    ((691687043060353207874891081288848389452270572817507759,54%nat),(122555206711478460184519126800201555228163897333439097,54%nat));
    ((803704958972523115682417455014590797103298921611922482,54%nat),(100942044106287165562813984924834607062801138887678902,54%nat));
    ((892602466497555739206060591127145515407895271352298214,54%nat),(764257302548890565291296776166365256053179062083582874,55%nat));
    ((955823949571397755181195892929776309972844134811306479,54%nat),(497145488949697964533349462026386416808662461289102022,55%nat));
    ((991565168420930946730016004706150770252578936845439693,54%nat),(216160135264833103133427102664524693876852314755899455,55%nat))]);
  (19%nat, [(((-992406843843584403189017670253260493589316401403210787),54%nat),(194617882297264770363120414644384357529066090692866408,55%nat));
    (((-960208152134830030852778840687651526615091503274138106),54%nat),(448142267656996003328381574019942119517542274678576021,55%nat));
    (((-903155903614817901642660928532312487809393934057355818),54%nat),(690445427376412265807082580060130449618480316876131311,55%nat));
    (((-822714656537142824978922486712713901774538486206830041),54%nat),(914900216224499994644620941238396526609116512965987847,55%nat));
    (((-720966177335229378617095860823781629657141832908666775),54%nat),(111566645547333994716023901681765997481331853839893776,54%nat));
    (((-600545304661681023469638164946239279868322082732292568),54%nat),(128753962539336227675515784856877117055839577093463035,54%nat));
    (((-464570741375960945717267148104102367976285714624136597),54%nat),(142606702173606611775746109441902972475668344824473861,54%nat));
    (((-316564099963629831990117328849844917892285219132887245),54%nat),(152766042065859666778855400897662998461008267236428624,54%nat));
    (((-160358645640225375868096115740743549504873500470875379),54%nat),(158968843393954347649956439465047201678780158195126096,54%nat));
    ((0,0%nat),(161054449848783695979163625320916735039902558578516902,54%nat));
    ((160358645640225375868096115740743549504873500470875379,54%nat),(158968843393954347649956439465047201678780158195126096,54%nat));
    ((316564099963629831990117328849844917892285219132887245,54%nat),(152766042065859666778855400897662998461008267236428624,54%nat));
    ((464570741375960945717267148104102367976285714624136597,54%nat),(142606702173606611775746109441902972475668344824473861,54%nat));
    ((600545304661681023469638164946239279868322082732292568,54%nat),(128753962539336227675515784856877117055839577093463035,54%nat));
    ((720966177335229378617095860823781629657141832908666775,54%nat),(111566645547333994716023901681765997481331853839893776,54%nat));
    ((822714656537142824978922486712713901774538486206830041,54%nat),(914900216224499994644620941238396526609116512965987847,55%nat));
    ((903155903614817901642660928532312487809393934057355818,54%nat),(690445427376412265807082580060130449618480316876131311,55%nat));
    ((960208152134830030852778840687651526615091503274138106,54%nat),(448142267656996003328381574019942119517542274678576021,55%nat));
    ((992406843843584403189017670253260493589316401403210787,54%nat),(194617882297264770363120414644384357529066090692866408,55%nat))]);
  (20%nat, [(((-993128599185094924786122388471320278222647130901655896),54%nat),(176140071391521183118619623518528163621431055433367325,55%nat));
    (((-963971927277913791267666131197277221912060327806188856),54%nat),(406014298003869413310399522749321098790906399899515368,55%nat));
    (((-912234428251325905867752441203298113049184797423691775),54%nat),(626720483341090635695065351870416063516010765784363641,55%nat));
    (((-839116971822218823394529061701520685329629365065637373),54%nat),(832767415767047487247581432220462061001778285831632907,55%nat));
    (((-746331906460150792614305070355641590310730679569176444),54%nat),(101930119817240435036750135480349876166691656023392556,54%nat));
    (((-636053680726515025452836696226285936743389116799368464),54%nat),(118194531961518417312377377711382287005041219548968775,54%nat));
    (((-510867001950827098004364050955250998425491329202426833),54%nat),(131688638449176626898494499748163134916110511146983527,54%nat));
    (((-373706088715419560672548177024927237395746321705682712),54%nat),(142096109318382051329298325067164933034515413392020303,54%nat));
    (((-227785851141645078080496195368574624743088937682927472),54%nat),(149172986472603746787828737001969436692679904081368316,54%nat));
    (((-765265211334973337546404093988382110047962668134975008),55%nat),(152753387130725850698084331955097593491948645112378597,54%nat));
    ((765265211334973337546404093988382110047962668134975008,55%nat),(152753387130725850698084331955097593491948645112378597,54%nat));
    ((227785851141645078080496195368574624743088937682927472,54%nat),(149172986472603746787828737001969436692679904081368316,54%nat));
    ((373706088715419560672548177024927237395746321705682712,54%nat),(142096109318382051329298325067164933034515413392020303,54%nat));
    ((510867001950827098004364050955250998425491329202426833,54%nat),(131688638449176626898494499748163134916110511146983527,54%nat));
    ((636053680726515025452836696226285936743389116799368464,54%nat),(118194531961518417312377377711382287005041219548968775,54%nat));
    ((746331906460150792614305070355641590310730679569176444,54%nat),(101930119817240435036750135480349876166691656023392556,54%nat));
    ((839116971822218823394529061701520685329629365065637373,54%nat),(832767415767047487247581432220462061001778285831632907,55%nat));
    ((912234428251325905867752441203298113049184797423691775,54%nat),(626720483341090635695065351870416063516010765784363641,55%nat));
    ((963971927277913791267666131197277221912060327806188856,54%nat),(406014298003869413310399522749321098790906399899515368,55%nat));
    ((993128599185094924786122388471320278222647130901655896,54%nat),(176140071391521183118619623518528163621431055433367325,55%nat))]);
  (21%nat, [(((-993752170620389500260242035937940929193338454782329186),54%nat),(160172282577743333242246168584710152658904221179024825,55%nat));
    (((-96722683856630629431662221490769516142469368732984685),53%nat),(369537897708524937999506682993296661889443081487298374,55%nat));
    (((-920099334150400828790187133714968894159147609648221697),54%nat),(571344254268572082836358264724479574912875968262560414,55%nat));
    (((-853363364583317283647250638587567670276105803179343971),54%nat),(761001136283793020170516533001831792261543524239660285,55%nat));
    (((-768439963475677908615877851306228034820976705771369551),54%nat),(934444234560338615532897411139320884835266473615928449,55%nat));
    (((-667138804197412319305966669990339162597029343311402842),54%nat),(108797299167148377663474578070105642033699595793856331,54%nat));
    (((-551618835887219807059018796724313286622060224230679665),54%nat),(12183141605372853419536717712573359835633762556153745,53%nat));
    (((-424342120207438783573668888543788052096445231839634584),54%nat),(132268938633337461781052574496775604329011540143156823,54%nat));
    (((-288021316802401096600792516064600319909018263646033229),54%nat),(139887394791073154722133423867583110892793160954919604,54%nat));
    (((-145561854160895090937030982338686330116326024437937757),54%nat),(144524403989970059063827166553752543609949962197099835,54%nat));
    ((0,0%nat),(146081133649690427191985147683371188244809576941965444,54%nat));
    ((145561854160895090937030982338686330116326024437937757,54%nat),(144524403989970059063827166553752543609949962197099835,54%nat));
    ((288021316802401096600792516064600319909018263646033229,54%nat),(139887394791073154722133423867583110892793160954919604,54%nat));
    ((424342120207438783573668888543788052096445231839634584,54%nat),(132268938633337461781052574496775604329011540143156823,54%nat));
    ((551618835887219807059018796724313286622060224230679665,54%nat),(12183141605372853419536717712573359835633762556153745,53%nat));
    ((667138804197412319305966669990339162597029343311402842,54%nat),(108797299167148377663474578070105642033699595793856331,54%nat));
    ((768439963475677908615877851306228034820976705771369551,54%nat),(934444234560338615532897411139320884835266473615928449,55%nat));
    ((853363364583317283647250638587567670276105803179343971,54%nat),(761001136283793020170516533001831792261543524239660285,55%nat));
    ((920099334150400828790187133714968894159147609648221697,54%nat),(571344254268572082836358264724479574912875968262560414,55%nat));
    ((96722683856630629431662221490769516142469368732984685,53%nat),(369537897708524937999506682993296661889443081487298374,55%nat));
    ((993752170620389500260242035937940929193338454782329186,54%nat),(160172282577743333242246168584710152658904221179024825,55%nat))]);
  (22%nat, [(((-994294585482399292073031421161298980393054198396031535),54%nat),(146279952982722006849910980471854451902119491243237309,55%nat));
    (((-97006049783542872712395098676526871080596892313780297),53%nat),(337749015848141547933022468659129013491693144744746604,55%nat));
    (((-926956772187174000520692939259053196635329653372051982),54%nat),(522933351526832859403120512732112561121500935692363161,55%nat));
    (((-865812577720300136536425637019378729084796755588446156),54%nat),(697964684245204880949614189302176573987750529550805274,55%nat));
    (((-787816805979208162004277955408351521388178671331563158),54%nat),(859416062170677274144436813727028661891444053490797833,55%nat));
    (((-694487263186682780050689835762256771267342289977435161),54%nat),(100414144442880964932078837830536282350811088767699626,54%nat));
    (((-58764040350691159295887692763864734887761560357371784),53%nat),(112932296080539218393400607421784319114263332120994704,54%nat));
    (((-469355837986757026406330710966406346095343791130736548),54%nat),(123252376810512424285560986154814471959444999004967972,54%nat));
    (((-341935820892084225158147420427379619559173299170687344),54%nat),(131173504787062370732964992530307445875741894188030653,54%nat));
    (((-20786042668822128547884653391954573421567510909793365),53%nat),(136541498346015171352573831231517396586367652988686168,54%nat));
    (((-697392733197222212138417961186280818222962994802314747),55%nat),(139251872855631993375410248341809957873920217457425858,54%nat));
    ((697392733197222212138417961186280818222962994802314747,55%nat),(139251872855631993375410248341809957873920217457425858,54%nat));
    ((20786042668822128547884653391954573421567510909793365,53%nat),(136541498346015171352573831231517396586367652988686168,54%nat));
    ((341935820892084225158147420427379619559173299170687344,54%nat),(131173504787062370732964992530307445875741894188030653,54%nat));
    ((469355837986757026406330710966406346095343791130736548,54%nat),(123252376810512424285560986154814471959444999004967972,54%nat));
    ((58764040350691159295887692763864734887761560357371784,53%nat),(112932296080539218393400607421784319114263332120994704,54%nat));
    ((694487263186682780050689835762256771267342289977435161,54%nat),(100414144442880964932078837830536282350811088767699626,54%nat));
    ((787816805979208162004277955408351521388178671331563158,54%nat),(859416062170677274144436813727028661891444053490797833,55%nat));
    ((865812577720300136536425637019378729084796755588446156,54%nat),(697964684245204880949614189302176573987750529550805274,55%nat));
    ((926956772187174000520692939259053196635329653372051982,54%nat),(522933351526832859403120512732112561121500935692363161,55%nat));
    ((97006049783542872712395098676526871080596892313780297,53%nat),(337749015848141547933022468659129013491693144744746604,55%nat));
    ((994294585482399292073031421161298980393054198396031535,54%nat),(146279952982722006849910980471854451902119491243237309,55%nat))]);
  (23%nat, [(((-994769334997552123523925715445574360573627372458870421),54%nat),(134118594871417720813094934586150649766183341057372334,55%nat));
    (((-972542471218115231956024076820777375181613795353973942),54%nat),(309880058569794443106942196418845053837725289999280664,55%nat));
    (((-932971086826016102349196989038422978235701820151390771),54%nat),(480376717310846685716410716320339965612163083035116113,55%nat));
    (((-876752358270441667378156885934145671638929029960650635),54%nat),(642324214085258521271696151589109980391582757548068305,55%nat));
    (((-804888401618839892151118406996778557941430139730308023),54%nat),(792814117767189549228925247420432269137119919384065026,55%nat));
    (((-718661363131950194461624483748618848329929745131292796),54%nat),(929157660600351474770186173697646486034600717431298937,55%nat));
    (((-619609875763646156385097311649595653387180658807092296),54%nat),(104892091464541410074086185014743854858471583193975006,54%nat));
    (((-509501477846007549689793047866846430544842769184857623),54%nat),(114996640222411364941643512933961301491410522929585607,54%nat));
    (((-390301038030290831421488872880605458578050850692503481),54%nat),(123049084306729530467578400672009654815852812546470574,54%nat));
    (((-264135680970344930533869538283309602979013250194139605),54%nat),(128905722188082149978595339399793653259715497191783492,54%nat));
    (((-133256824298466110931742682241766137010405276253382157),54%nat),(132462039404696617371642464703316925805035669474223524,54%nat));
    ((0,0%nat),(133654572186106175351457110545844338583152807636883317,54%nat));
    ((133256824298466110931742682241766137010405276253382157,54%nat),(132462039404696617371642464703316925805035669474223524,54%nat));
    ((264135680970344930533869538283309602979013250194139605,54%nat),(128905722188082149978595339399793653259715497191783492,54%nat));
    ((390301038030290831421488872880605458578050850692503481,54%nat),(123049084306729530467578400672009654815852812546470574,54%nat));
    ((509501477846007549689793047866846430544842769184857623,54%nat),(114996640222411364941643512933961301491410522929585607,54%nat));
    ((619609875763646156385097311649595653387180658807092296,54%nat),(104892091464541410074086185014743854858471583193975006,54%nat));
    ((718661363131950194461624483748618848329929745131292796,54%nat),(929157660600351474770186173697646486034600717431298937,55%nat));
    ((804888401618839892151118406996778557941430139730308023,54%nat),(792814117767189549228925247420432269137119919384065026,55%nat));
    ((876752358270441667378156885934145671638929029960650635,54%nat),(642324214085258521271696151589109980391582757548068305,55%nat));
    ((932971086826016102349196989038422978235701820151390771,54%nat),(480376717310846685716410716320339965612163083035116113,55%nat));
    ((972542471218115231956024076820777375181613795353973942,54%nat),(309880058569794443106942196418845053837725289999280664,55%nat));
    ((994769334997552123523925715445574360573627372458870421,54%nat),(134118594871417720813094934586150649766183341057372334,55%nat))]);
  (24%nat, [(((-995187219997021360179997409700736811874597692596002877),54%nat),(123412297999871995468056670700372915759100408913665168,55%nat));
    (((-97472855597130949819839199300816906174118305304017872),53%nat),(285313886289336631813078159518782864491977979319081166,55%nat));
    (((-938274552002732758523649001708721449654819658077451347),54%nat),(442774388174198061686027482113382288593128418338578967,55%nat));
    (((-88641552700440103421315434198219675508733304330892004),53%nat),(59298584915436780746367758500108584541200126565213491,54%nat));
    (((-820001985973902921953949872669745208076126477667855587),54%nat),(733464814110803057340336152531165181193365098484994714,55%nat));
    (((-740124191578554364243828103099978425523292487014185457),54%nat),(861901615319532759171852029837426671850805882379330056,55%nat));
    (((-64809365193697556925249578691074762666965829861895678),53%nat),(976186521041138882698806644642471544279189688536859441,55%nat));
    (((-545421471388839535658375617218372370010783992587618175),54%nat),(107444270115965634782577342446606222794628690134220022,54%nat));
    (((-433793507626045138487084231913349712452421510927968808),54%nat),(115505668053725601353344483906783559862270311376496471,54%nat));
    (((-315042679696163374386793291319810240786478260824817269),54%nat),(121670472927803391204463153476262425607029559203805779,54%nat));
    (((-191118867473616309158639820757069631840405103314753356),54%nat),(125837456346828296121375382511183688726403325581345404,54%nat));
    (((-640568928626056260850430826247450385909991954207473934),55%nat),(127938195346752156974056165224695371851711239541667882,54%nat));
    ((640568928626056260850430826247450385909991954207473934,55%nat),(127938195346752156974056165224695371851711239541667882,54%nat));
    ((191118867473616309158639820757069631840405103314753356,54%nat),(125837456346828296121375382511183688726403325581345404,54%nat));
    ((315042679696163374386793291319810240786478260824817269,54%nat),(121670472927803391204463153476262425607029559203805779,54%nat));
    ((433793507626045138487084231913349712452421510927968808,54%nat),(115505668053725601353344483906783559862270311376496471,54%nat));
    ((545421471388839535658375617218372370010783992587618175,54%nat),(107444270115965634782577342446606222794628690134220022,54%nat));
    ((64809365193697556925249578691074762666965829861895678,53%nat),(976186521041138882698806644642471544279189688536859441,55%nat));
    ((740124191578554364243828103099978425523292487014185457,54%nat),(861901615319532759171852029837426671850805882379330056,55%nat));
    ((820001985973902921953949872669745208076126477667855587,54%nat),(733464814110803057340336152531165181193365098484994714,55%nat));
    ((88641552700440103421315434198219675508733304330892004,53%nat),(59298584915436780746367758500108584541200126565213491,54%nat));
    ((938274552002732758523649001708721449654819658077451347,54%nat),(442774388174198061686027482113382288593128418338578967,55%nat));
    ((97472855597130949819839199300816906174118305304017872,53%nat),(285313886289336631813078159518782864491977979319081166,55%nat));
    ((995187219997021360179997409700736811874597692596002877,54%nat),(123412297999871995468056670700372915759100408913665168,55%nat))]);
  (25%nat, [(((-995556969790498097908784946893901617257562649404808171),54%nat),(113937985010262879479029641132347736033205262929096964,55%nat));
    (((-976663921459517511498315386479594067745370555314406745),54%nat),(263549866150321372619018152952991449359632817033224688,55%nat));
    (((-942974571228974339414011169658470531905201570608990142),54%nat),(409391567013063126556234877116459536608457833641043465,55%nat));
    (((-894991997878275368851042006782804954174554849753583903),54%nat),(54904695975835191925936891540473324160109985553111349,54%nat));
    (((-833442628760834001421021108693569569460964113823520786),54%nat),(680383338123569172071871856567079685547094943546365626,55%nat));
    (((-759259263037357630577282865204360976387522018898334121),54%nat),(801407003350010180132349596691113022902257328536758937,55%nat));
    (((-673566368473468364485120633247622175883416728072749317),54%nat),(91028261982963649811497220702891653380992558959334311,54%nat));
    (((-577662930241222967723689841612654067395735039291518257),54%nat),(100535949067050644202206890392685826988466094528141907,54%nat));
    (((-473002731445714960522182115009192041331817738461627291),54%nat),(108519624474263653116093957050116619340077587986722016,54%nat));
    (((-36117230580938783773582173012764066742207834704337507),53%nat),(11485825914571164833932554586955580864093619166818015,53%nat));
    (((-243866883720988432045190362797451586405633156325984476),54%nat),(119455763535784772228178126512901047390176701413726426,54%nat));
    (((-122864692610710396387359818808036805532205346049783738),54%nat),(122242442990310041688959518945851505835059247563059041,54%nat));
    ((0,0%nat),(123176053726715451203902873079050142438233627518151665,54%nat));
    ((122864692610710396387359818808036805532205346049783738,54%nat),(122242442990310041688959518945851505835059247563059041,54%nat));
    ((243866883720988432045190362797451586405633156325984476,54%nat),(119455763535784772228178126512901047390176701413726426,54%nat));
    ((36117230580938783773582173012764066742207834704337507,53%nat),(11485825914571164833932554586955580864093619166818015,53%nat));
    ((473002731445714960522182115009192041331817738461627291,54%nat),(108519624474263653116093957050116619340077587986722016,54%nat));
    ((577662930241222967723689841612654067395735039291518257,54%nat),(100535949067050644202206890392685826988466094528141907,54%nat));
    ((673566368473468364485120633247622175883416728072749317,54%nat),(91028261982963649811497220702891653380992558959334311,54%nat));
    ((759259263037357630577282865204360976387522018898334121,54%nat),(801407003350010180132349596691113022902257328536758937,55%nat));
    ((833442628760834001421021108693569569460964113823520786,54%nat),(680383338123569172071871856567079685547094943546365626,55%nat));
    ((894991997878275368851042006782804954174554849753583903,54%nat),(54904695975835191925936891540473324160109985553111349,54%nat));
    ((942974571228974339414011169658470531905201570608990142,54%nat),(409391567013063126556234877116459536608457833641043465,55%nat));
    ((976663921459517511498315386479594067745370555314406745,54%nat),(263549866150321372619018152952991449359632817033224688,55%nat));
    ((995556969790498097908784946893901617257562649404808171,54%nat),(113937985010262879479029641132347736033205262929096964,55%nat))]);
  (26%nat, [(((-995885701145616929003216959322906025956857855119559667),54%nat),(105513726173430071556511876852519779043457371796946146,55%nat));
    (((-978385445956470991100580354311926305446916563747318502),54%nat),(244178510926319087896158275197884002404959261972703421,55%nat));
    (((-94715906666171425013591528351803675452071033768431527),53%nat),(379623832943627639503031412488504946907704217440489577,55%nat));
    (((-902637861984307074217665599231210251341124005372905373),54%nat),(509758252971478119983199007240733795258793185429719348,55%nat));
    (((-845445942788498018797507061467838161572075102091329569),54%nat),(632740463295748355394536899070450957222228420126945107,55%nat));
    (((-776385948820678856192967247242283866976218256255194872),54%nat),(746841497656597458870757961028483386387471618810406808,55%nat));
    (((-696427260419957264863813913729424697860753317790819152),54%nat),(850458943134852392104477650799816965839203167766782762,55%nat));
    (((-60669229301761806323197874691688705443526457226590989),53%nat),(942138003559141484636648830673031985491657459142072799,55%nat));
    (((-508440714824505717695703064725569175376306754185750814),54%nat),(10205916109442542323841407025343079232720881135424201,53%nat));
    (((-403051755123486306481077377098883103659937409699316183),54%nat),(108471840528576590656579426727997582289438203421306645,54%nat));
    (((-292004839485956895142835382077830296884719386962990378),54%nat),(113361816546319666549440718442598145245950362925015214,54%nat));
    (((-176858820356890183969057748418344749977383763801264261),54%nat),(116660443485296582044662507540362213631964881221924216,54%nat));
    (((-592300934293132070937185751984033607902347353890355822),55%nat),(118321415279262276516371085700468684649890270828905318,54%nat));
    ((592300934293132070937185751984033607902347353890355822,55%nat),(118321415279262276516371085700468684649890270828905318,54%nat));
    ((176858820356890183969057748418344749977383763801264261,54%nat),(116660443485296582044662507540362213631964881221924216,54%nat));
    ((292004839485956895142835382077830296884719386962990378,54%nat),(113361816546319666549440718442598145245950362925015214,54%nat));
    ((403051755123486306481077377098883103659937409699316183,54%nat),(108471840528576590656579426727997582289438203421306645,54%nat));
    ((508440714824505717695703064725569175376306754185750814,54%nat),(10205916109442542323841407025343079232720881135424201,53%nat));
    ((60669229301761806323197874691688705443526457226590989,53%nat),(942138003559141484636648830673031985491657459142072799,55%nat));
    ((696427260419957264863813913729424697860753317790819152,54%nat),(850458943134852392104477650799816965839203167766782762,55%nat));
    ((776385948820678856192967247242283866976218256255194872,54%nat),(746841497656597458870757961028483386387471618810406808,55%nat));
    ((845445942788498018797507061467838161572075102091329569,54%nat),(632740463295748355394536899070450957222228420126945107,55%nat));
    ((902637861984307074217665599231210251341124005372905373,54%nat),(509758252971478119983199007240733795258793185429719348,55%nat));
    ((94715906666171425013591528351803675452071033768431527,53%nat),(379623832943627639503031412488504946907704217440489577,55%nat));
    ((978385445956470991100580354311926305446916563747318502,54%nat),(244178510926319087896158275197884002404959261972703421,55%nat));
    ((995885701145616929003216959322906025956857855119559667,54%nat),(105513726173430071556511876852519779043457371796946146,55%nat))]);
  (27%nat, [(((-996179262888988566938887208381229990260688055565871188),54%nat),(979899605129436026115005509125909809822581893509159217,56%nat));
    (((-979923475961501222855873355661047184567642221389950763),54%nat),(226862315961806231960342064467614888127677202881663556,55%nat));
    (((-950900557814705006851908030643882893092589933484417651),54%nat),(352970537574197110225782893047116411361388895229418116,55%nat));
    (((-909482320677491104300645018209689254948044335594960959),54%nat),(474494125206150627040967101141847182247256201661847285,55%nat));
    (((-856207908018294490302737222706842797764286998603505827),54%nat),(589835368598335991103008337195316331652405907064121625,55%nat));
    (((-791771639070508227144397344107270732919401065747863512),54%nat),(697488237662455929843228883566672761328246932569520004,55%nat));
    (((-717013473739423699294816211642339549750672052098563143),54%nat),(796048677730577712630749590098424029761466729870029514,55%nat));
    (((-632907971946495140927734637634488612103076017569336697),54%nat),(884231585437569501943228028537491110565367500510991098,55%nat));
    (((-54055156457945689490030094155998282095918044898718169),53%nat),(960887273700285075656526465581058591602116295370293344,55%nat));
    (((-441148251750026880585974155689281452447684595163099388),54%nat),(10250163781774579867124771153266380932440989491471733,53%nat));
    (((-335993903638508899730319034207284541790020018907594191),54%nat),(107578285788533187212162984426657404818966099063764666,54%nat));
    (((-226459365439536858857239107360230171179446732928203677),54%nat),(111252488356845192672163096042848674832920380085083267,54%nat));
    (((-113972585609529966932894983869976627173280533978140995),54%nat),(113476346108965148620369948092099257920524518810472026,54%nat));
    ((0,0%nat),(11422086737895698904504573690183524868072144335016533,53%nat));
    ((113972585609529966932894983869976627173280533978140995,54%nat),(113476346108965148620369948092099257920524518810472026,54%nat));
    ((226459365439536858857239107360230171179446732928203677,54%nat),(111252488356845192672163096042848674832920380085083267,54%nat));
    ((335993903638508899730319034207284541790020018907594191,54%nat),(107578285788533187212162984426657404818966099063764666,54%nat));
    ((441148251750026880585974155689281452447684595163099388,54%nat),(10250163781774579867124771153266380932440989491471733,53%nat));
    ((54055156457945689490030094155998282095918044898718169,53%nat),(960887273700285075656526465581058591602116295370293344,55%nat));
    ((632907971946495140927734637634488612103076017569336697,54%nat),(884231585437569501943228028537491110565367500510991098,55%nat));
    ((717013473739423699294816211642339549750672052098563143,54%nat),(796048677730577712630749590098424029761466729870029514,55%nat));
    ((791771639070508227144397344107270732919401065747863512,54%nat),(697488237662455929843228883566672761328246932569520004,55%nat));
    ((856207908018294490302737222706842797764286998603505827,54%nat),(589835368598335991103008337195316331652405907064121625,55%nat));
    ((909482320677491104300645018209689254948044335594960959,54%nat),(474494125206150627040967101141847182247256201661847285,55%nat));
    ((950900557814705006851908030643882893092589933484417651,54%nat),(352970537574197110225782893047116411361388895229418116,55%nat));
    ((979923475961501222855873355661047184567642221389950763,54%nat),(226862315961806231960342064467614888127677202881663556,55%nat));
    ((996179262888988566938887208381229990260688055565871188,54%nat),(979899605129436026115005509125909809822581893509159217,56%nat))]);
  (28%nat, [(((-996442497573954449950436390483310991750130432096425905),54%nat),(912428259309451773881615392295170624034449109829099942,56%nat));
    (((-98130316537087275369455994580783027644415495325313831),53%nat),(211321125927712597515003809932654344513693507232856378,55%nat));
    (((-954259280628938197254101839705215589003403874087951675),54%nat),(329014277823043799776308191705320459815308174200971879,55%nat));
    (((-915633026392132073869689423329927146352496795209121509),54%nat),(442729347590042278395878776532073906149941127085668437,55%nat));
    (((-865892522574395048942254567379686804341862830784226337),54%nat),(551073456757167454314829182269455912190579642256653884,55%nat));
    (((-805641370917179171447885955425277658671701414808311668),54%nat),(652729239669995957933975667755046363536354311626070263,55%nat));
    (((-735610878013631772028144510292534368016061019993041893),54%nat),(746462142345687790239318871730220380216358612063334474,55%nat));
    (((-656651094038864961219898176506742821569601690249929962),54%nat),(83113417228901218390396498244332479861134413443851333,54%nat));
    (((-569720471811401719308003283356430933124712685656647228),54%nat),(905717443930328409421860313367841298228574854544848724,55%nat));
    (((-475874224955118261034411847667434042627216145378655951),54%nat),(96930657997929915850489006095440601765033123356461605,54%nat));
    (((-37625151608907871022135720955608698287169397704322291),53%nat),(102112967578060769814216638505712135046580002357920541,54%nat));
    (((-272061627635178077676826356125769734824761296693522952),54%nat),(106055765922846417910416436996810828789922962685159517,54%nat));
    (((-164569282133380771281471777891165457145725415601168176),54%nat),(108711192258294135253571519303673367875278454666043968,54%nat));
    (((-550792898840342704265165273418799778507959910608336837),55%nat),(110047013016475196282376265601817613956625529491231633,54%nat));
    ((550792898840342704265165273418799778507959910608336837,55%nat),(110047013016475196282376265601817613956625529491231633,54%nat));
    ((164569282133380771281471777891165457145725415601168176,54%nat),(108711192258294135253571519303673367875278454666043968,54%nat));
    ((272061627635178077676826356125769734824761296693522952,54%nat),(106055765922846417910416436996810828789922962685159517,54%nat));
    ((37625151608907871022135720955608698287169397704322291,53%nat),(102112967578060769814216638505712135046580002357920541,54%nat));
    ((475874224955118261034411847667434042627216145378655951,54%nat),(96930657997929915850489006095440601765033123356461605,54%nat));
    ((569720471811401719308003283356430933124712685656647228,54%nat),(905717443930328409421860313367841298228574854544848724,55%nat));
    ((656651094038864961219898176506742821569601690249929962,54%nat),(83113417228901218390396498244332479861134413443851333,54%nat));
    ((735610878013631772028144510292534368016061019993041893,54%nat),(746462142345687790239318871730220380216358612063334474,55%nat));
    ((805641370917179171447885955425277658671701414808311668,54%nat),(652729239669995957933975667755046363536354311626070263,55%nat));
    ((865892522574395048942254567379686804341862830784226337,54%nat),(551073456757167454314829182269455912190579642256653884,55%nat));
    ((915633026392132073869689423329927146352496795209121509,54%nat),(442729347590042278395878776532073906149941127085668437,55%nat));
    ((954259280628938197254101839705215589003403874087951675,54%nat),(329014277823043799776308191705320459815308174200971879,55%nat));
    ((98130316537087275369455994580783027644415495325313831,53%nat),(211321125927712597515003809932654344513693507232856378,55%nat));
    ((996442497573954449950436390483310991750130432096425905,54%nat),(912428259309451773881615392295170624034449109829099942,56%nat))]);
  (29%nat, [(((-996679442260596586163191532549353885651773453250880002),54%nat),(851690387874640965426381330224980300239888979851848605,56%nat));
    (((-982545505261413174870926015786376956106781948906431559),54%nat),(197320850561227059838598016403956311496065681903615877,55%nat));
    (((-957285595778087725798208036980823563737559553954097071),54%nat),(307404922020936226444085253746167497471162609687095103,55%nat));
    (((-921180232953058785093753436083106425408839343312293598),54%nat),(414020625186828361048300101140769215334907803885743973,55%nat));
    (((-874637804920102790417793421256578546910616863119041371),54%nat),(515948269024979239125943811795425979196221106461420677,55%nat));
    (((-818185487615252444989572214578784975630021561882293771),54%nat),(612030906570791385421098480239070449240645397791302083,55%nat));
    (((-752462851734477133912610077212138190212591968228986608),54%nat),(701179332550512785695814869488791731023948886747735819,55%nat));
    (((-678214537602686515156185005391985926388262930014645163),54%nat),(782383271357637838281448886596803313668790769596697095,55%nat));
    (((-596281797138227820379586211188989780078186810385577638),54%nat),(854722573661725275453448492972080713816982566135933953,55%nat));
    (((-507592955124227642102627919627520153351223840384584164),54%nat),(917377571392587633479664110771108068982290209819545713,55%nat));
    (((-41315288817400866389070658603161682332343851873631392),53%nat),(969638340944086063019000748826887591763562779218035643,55%nat));
    (((-314031637867639934948195923191047448258448819090827481),54%nat),(101091273759914966121820546907497363647567278852525199,54%nat));
    (((-211352286166001074506375728902937499056650817712095148),54%nat),(104073310077729373913328471285120068910652220675467692,54%nat));
    (((-106278230132679230170982392430376980917195439295607136),54%nat),(10587615509732094140659132785218789307483131374227804,53%nat));
    ((0,0%nat),(10647938171831424424651112690967756833018503161299598,53%nat));
    ((106278230132679230170982392430376980917195439295607136,54%nat),(10587615509732094140659132785218789307483131374227804,53%nat));
    ((211352286166001074506375728902937499056650817712095148,54%nat),(104073310077729373913328471285120068910652220675467692,54%nat));
    ((314031637867639934948195923191047448258448819090827481,54%nat),(101091273759914966121820546907497363647567278852525199,54%nat));
    ((41315288817400866389070658603161682332343851873631392,53%nat),(969638340944086063019000748826887591763562779218035643,55%nat));
    ((507592955124227642102627919627520153351223840384584164,54%nat),(917377571392587633479664110771108068982290209819545713,55%nat));
    ((596281797138227820379586211188989780078186810385577638,54%nat),(854722573661725275453448492972080713816982566135933953,55%nat));
    ((678214537602686515156185005391985926388262930014645163,54%nat),(782383271357637838281448886596803313668790769596697095,55%nat));
    ((752462851734477133912610077212138190212591968228986608,54%nat),(701179332550512785695814869488791731023948886747735819,55%nat));
    ((818185487615252444989572214578784975630021561882293771,54%nat),(612030906570791385421098480239070449240645397791302083,55%nat));
    ((874637804920102790417793421256578546910616863119041371,54%nat),(515948269024979239125943811795425979196221106461420677,55%nat));
    ((921180232953058785093753436083106425408839343312293598,54%nat),(414020625186828361048300101140769215334907803885743973,55%nat));
    ((957285595778087725798208036980823563737559553954097071,54%nat),(307404922020936226444085253746167497471162609687095103,55%nat));
    ((982545505261413174870926015786376956106781948906431559,54%nat),(197320850561227059838598016403956311496065681903615877,55%nat));
    ((996679442260596586163191532549353885651773453250880002,54%nat),(851690387874640965426381330224980300239888979851848605,56%nat))]);
  (30%nat, [(((-99689348407464954027163005091869528334088203811775079),53%nat),(796819249616660561546588347467362245048069658715172123,56%nat));
    (((-983668123279747209970032581605662801940317854709711364),54%nat),(184664683110909591423021319120472690962065339681814034,55%nat));
    (((-960021864968307512216871025581797662930359217403923399),54%nat),(287847078833233693497191796112920436395888945462874965,55%nat));
    (((-926200047429274325879324277080474004086474536825329061),54%nat),(387991925696270495968019364463476920332009767663953521,55%nat));
    (((-882560535792052681543116462530225590056689147146484232),54%nat),(484026728305940529029381404228075178152718091973727363,55%nat));
    (((-829565762382768397442898119732501916439068696170341679),54%nat),(574931562176190664817216894020561287971206707217631345,55%nat));
    (((-767777432104826194917977340974503131694883617232908453),54%nat),(65974229882180495128128515115962361237442953656660379,54%nat));
    (((-697850494793315796932292388026640068382353800653954656),54%nat),(737559747377052062682438500221907341537705260370494389,55%nat));
    (((-620526182989242861140477556431189299207364692829528133),54%nat),(807558952294202153546949384605297308758928037084392999,55%nat));
    (((-536624148142019899264169793311072794164178006930297105),54%nat),(86899787201082979802387530715125702576753328743545344,54%nat));
    (((-44703376953808917678060990032285400016240759386142441),53%nat),(921225222377861287176327070876187671969132344182341075,55%nat));
    (((-352704725530878113471037207089373860653631008021425627),54%nat),(963687371746442596394686263518098650964064614301602459,55%nat));
    (((-254636926167889846439805129817805107882789303302518426),54%nat),(995934205867952670627802821035694765298692636667042772,55%nat));
    (((-153869913608583546963794672743255920418551971244338462),54%nat),(101762389748405504596428952168554044632706289487126841,54%nat));
    (((-514718425553176958330252131667225737491414536665695643),55%nat),(102852652893558840341285636705415043868375557064928223,54%nat));
    ((514718425553176958330252131667225737491414536665695643,55%nat),(102852652893558840341285636705415043868375557064928223,54%nat));
    ((153869913608583546963794672743255920418551971244338462,54%nat),(101762389748405504596428952168554044632706289487126841,54%nat));
    ((254636926167889846439805129817805107882789303302518426,54%nat),(995934205867952670627802821035694765298692636667042772,55%nat));
    ((352704725530878113471037207089373860653631008021425627,54%nat),(963687371746442596394686263518098650964064614301602459,55%nat));
    ((44703376953808917678060990032285400016240759386142441,53%nat),(921225222377861287176327070876187671969132344182341075,55%nat));
    ((536624148142019899264169793311072794164178006930297105,54%nat),(86899787201082979802387530715125702576753328743545344,54%nat));
    ((620526182989242861140477556431189299207364692829528133,54%nat),(807558952294202153546949384605297308758928037084392999,55%nat));
    ((697850494793315796932292388026640068382353800653954656,54%nat),(737559747377052062682438500221907341537705260370494389,55%nat));
    ((767777432104826194917977340974503131694883617232908453,54%nat),(65974229882180495128128515115962361237442953656660379,54%nat));
    ((829565762382768397442898119732501916439068696170341679,54%nat),(574931562176190664817216894020561287971206707217631345,55%nat));
    ((882560535792052681543116462530225590056689147146484232,54%nat),(484026728305940529029381404228075178152718091973727363,55%nat));
    ((926200047429274325879324277080474004086474536825329061,54%nat),(387991925696270495968019364463476920332009767663953521,55%nat));
    ((960021864968307512216871025581797662930359217403923399,54%nat),(287847078833233693497191796112920436395888945462874965,55%nat));
    ((983668123279747209970032581605662801940317854709711364,54%nat),(184664683110909591423021319120472690962065339681814034,55%nat));
    ((99689348407464954027163005091869528334088203811775079,53%nat),(796819249616660561546588347467362245048069658715172123,56%nat))]);
  (31%nat, [(((-997087481819477074055626554223102508251445334117069631),54%nat),(74708315792487758586968750322124070221508524840480397,55%nat));
    (((-984685909665152484002465166734684710938518269514643671),54%nat),(173186207903105824631579960868211413662728627679957766,55%nat));
    (((-962503925092949661789052404105858301897219485152558377),54%nat),(270090191849794218006087080919321561423566460021166459,55%nat));
    (((-930756997896648164956945759729263512813397687258082036),54%nat),(364322739123854640243920104678034423271453320476676859,55%nat));
    (((-88976002994827104337419200898215926154359741186519095),53%nat),(454937075272011029023158578946296772635527193100289649,55%nat));
    (((-839920320146267340086904535940178356054737301074749523),54%nat),(541030824249168537116662590866200427203894625962118077,55%nat));
    (((-78173314841662494040636002019468449109541037201339888),53%nat),(621747865610284269103435436866966671587287993646513153,55%nat));
    (((-715776784586853283905970865366485955890193476169588433),54%nat),(696285832354103661677561262551257105150857073973433937,55%nat));
    (((-642706722924260346184418203232501453991690683336206757),54%nat),(763903865987766164263576749013306449257569136942086541,55%nat));
    (((-563249161407149262720944923595161427948602273166887031),54%nat),(823929917615892639038233674319617706157682665566462778,55%nat));
    (((-478193782044902480440594039356485748439523371497423125),54%nat),(875767406084778761261980696953330922292581597712042515,55%nat));
    (((-388385901608232943061351461287520101985106267893544036),54%nat),(918901138936414782153628716071501254973108253791578042,55%nat));
    (((-294718069981701616617903897671704338752855185278358557),54%nat),(952902429123195128072041974875966845413247382469590227,55%nat));
    (((-19812119933557062877241299603283393777479481216155488),53%nat),(977433353863287250934740109789967038357287886760951145,55%nat));
    (((-995553121523415203251747901189407338389953587775273061),55%nat),(992250112266723078748755144286150140175432199555630698,55%nat));
    ((0,0%nat),(997205447934264514275338337343494396432534115002043515,55%nat));
    ((995553121523415203251747901189407338389953587775273061,55%nat),(992250112266723078748755144286150140175432199555630698,55%nat));
    ((19812119933557062877241299603283393777479481216155488,53%nat),(977433353863287250934740109789967038357287886760951145,55%nat));
    ((294718069981701616617903897671704338752855185278358557,54%nat),(952902429123195128072041974875966845413247382469590227,55%nat));
    ((388385901608232943061351461287520101985106267893544036,54%nat),(918901138936414782153628716071501254973108253791578042,55%nat));
    ((478193782044902480440594039356485748439523371497423125,54%nat),(875767406084778761261980696953330922292581597712042515,55%nat));
    ((563249161407149262720944923595161427948602273166887031,54%nat),(823929917615892639038233674319617706157682665566462778,55%nat));
    ((642706722924260346184418203232501453991690683336206757,54%nat),(763903865987766164263576749013306449257569136942086541,55%nat));
    ((715776784586853283905970865366485955890193476169588433,54%nat),(696285832354103661677561262551257105150857073973433937,55%nat));
    ((78173314841662494040636002019468449109541037201339888,53%nat),(621747865610284269103435436866966671587287993646513153,55%nat));
    ((839920320146267340086904535940178356054737301074749523,54%nat),(541030824249168537116662590866200427203894625962118077,55%nat));
    ((88976002994827104337419200898215926154359741186519095,53%nat),(454937075272011029023158578946296772635527193100289649,55%nat));
    ((930756997896648164956945759729263512813397687258082036,54%nat),(364322739123854640243920104678034423271453320476676859,55%nat));
    ((962503925092949661789052404105858301897219485152558377,54%nat),(270090191849794218006087080919321561423566460021166459,55%nat));
    ((984685909665152484002465166734684710938518269514643671,54%nat),(173186207903105824631579960868211413662728627679957766,55%nat));
    ((997087481819477074055626554223102508251445334117069631,54%nat),(74708315792487758586968750322124070221508524840480397,55%nat))]);
  (32%nat, [(((-997263861849481563544981128665040727138537663729461159),54%nat),(701861000947009660040706373885318251337722072893960323,56%nat));
    (((-985611511545268335400175044630901978632395714335806318),54%nat),(162743947309056706051705622063866181795429637952095664,55%nat));
    (((-964762255587506430773811928118274960388895220443018719),54%nat),(253920653092620594557525897892240292875540475469487209,55%nat));
    (((-934906075937739689170919134835409325528671432282837218),54%nat),(342738629130214331026877322523727069948402029116274338,55%nat));
    (((-896321155766052123965307243719212268478996496795759577),54%nat),(428358980222266806568786466061255284928108575989407396,55%nat));
    (((-849367613732569970133693004967742538954886793049759233),54%nat),(509980592623761761961632446895216952601847767397628437,55%nat));
    (((-794483795967942406963097298970428902095479401638835453),54%nat),(586840934785355471452836373001708867501204674575467587,55%nat));
    (((-732182118740289680387426665091267146630270483506629101),54%nat),(658222227763618468376500637069387728775364473732465154,55%nat));
    (((-663044266930215200975115168663238368977022285960505301),54%nat),(723457941088485062253993564784877916043369833018248707,55%nat));
    (((-587715757240762329040745476401826858450940115454420573),54%nat),(781938957870703064717409188283066710397867984821591903,55%nat));
    (((-506899908932229390023747474377821230180283699599435464),54%nat),(833119242269467552221990746043486115387468839428344598,55%nat));
    (((-421351276130635345364119436172426478335877288632443331),54%nat),(876520930044038111427714627518022875484497217017572223,55%nat));
    (((-331868602282127649779916805730187996195775136805059836),54%nat),(911738786957638847128685771116370625448614132753900053,55%nat));
    (((-239287362252137074544603209165501520608855421960253016),54%nat),(938443990808045656391802376681172600361000757462364501,55%nat));
    (((-144471961582796493485186373598810652203845991315635552),54%nat),(95638720079274859419082002204131100594890508162005551,54%nat));
    (((-483076656877383162348125704405021636908472517308488972),55%nat),(965400885147278005667648300635757947368606312355700687,55%nat));
    ((483076656877383162348125704405021636908472517308488972,55%nat),(965400885147278005667648300635757947368606312355700687,55%nat));
    ((144471961582796493485186373598810652203845991315635552,54%nat),(95638720079274859419082002204131100594890508162005551,54%nat));
    ((239287362252137074544603209165501520608855421960253016,54%nat),(938443990808045656391802376681172600361000757462364501,55%nat));
    ((331868602282127649779916805730187996195775136805059836,54%nat),(911738786957638847128685771116370625448614132753900053,55%nat));
    ((421351276130635345364119436172426478335877288632443331,54%nat),(876520930044038111427714627518022875484497217017572223,55%nat));
    ((506899908932229390023747474377821230180283699599435464,54%nat),(833119242269467552221990746043486115387468839428344598,55%nat));
    ((587715757240762329040745476401826858450940115454420573,54%nat),(781938957870703064717409188283066710397867984821591903,55%nat));
    ((663044266930215200975115168663238368977022285960505301,54%nat),(723457941088485062253993564784877916043369833018248707,55%nat));
    ((732182118740289680387426665091267146630270483506629101,54%nat),(658222227763618468376500637069387728775364473732465154,55%nat));
    ((794483795967942406963097298970428902095479401638835453,54%nat),(586840934785355471452836373001708867501204674575467587,55%nat));
    ((849367613732569970133693004967742538954886793049759233,54%nat),(509980592623761761961632446895216952601847767397628437,55%nat));
    ((896321155766052123965307243719212268478996496795759577,54%nat),(428358980222266806568786466061255284928108575989407396,55%nat));
    ((934906075937739689170919134835409325528671432282837218,54%nat),(342738629130214331026877322523727069948402029116274338,55%nat));
    ((964762255587506430773811928118274960388895220443018719,54%nat),(253920653092620594557525897892240292875540475469487209,55%nat));
    ((985611511545268335400175044630901978632395714335806318,54%nat),(162743947309056706051705622063866181795429637952095664,55%nat));
    ((997263861849481563544981128665040727138537663729461159,54%nat),(701861000947009660040706373885318251337722072893960323,56%nat))]);
  (33%nat, [(((-997424694246455217266168017580404161078229010881361921),54%nat),(660622784758737805864923520847385503105916250321107135,56%nat));
    (((-9864557262306424881103756982646259215891711142156511),52%nat),(153217015129346761279457685336618667575353547807562368,55%nat));
    (((-9668229096899927689283777066785922452183143365799866),52%nat),(239155481017494803505332575291862420660083611445149192,55%nat));
    (((-938694372611168350355835124363553712614434484096546826),54%nat),(323003586323289532815614472494312880682527230506729272,55%nat));
    (((-902316767743433583040531331518761607475205558190918115),54%nat),(404015413316695915634097905273984961668627883826539169,55%nat));
    (((-858009652676504064643061480146068473327351068896720066),54%nat),(481477428187116956701468801381196497417511486769690613,55%nat));
    (((-806162356274166589796200870782777175697710618135446112),54%nat),(554708466316635612849444954392591104205084071502204403,55%nat));
    (((-747230496449562157859055124897948268854288086463824479),54%nat),(623064825303174800316277257708976114217684275793131068,55%nat));
    (((-681731959969742786268215946919328134668935180714294029),54%nat),(685945728186567128059550730149586524873610929403886977,55%nat));
    (((-610242345836379027307287513538097431406342930888033949),54%nat),(742798548439541493424721759184720467100983931962553235,55%nat));
    (((-533389904786347643548894264995492125452665092224422469),54%nat),(793123647948867383639083849419975880886880293922986427,55%nat));
    (((-451850017272450695725993277240767053798771734390531177),54%nat),(836478760670387076139280145176605974203276865458260165,55%nat));
    (((-366339257748073341070220623253871111296934681100140172),54%nat),(872482876188443376072816709454464565666960712939022884,55%nat));
    (((-277609097152497029403248067298321005754758329278243219),54%nat),(90081958660638577239743705500223621187370682079491485,54%nat));
    (((-186439298827991572335798759218823987837344302823165342),54%nat),(921239866433168462132409777173630607214710032039817206,55%nat));
    (((-936310658547333856707429241225377213215057781526368813),55%nat),(93356426065596116160999126274275464952003986088630805,54%nat));
    ((0,0%nat),(937684461602099965673045415463487843844733639818266813,55%nat));
    ((936310658547333856707429241225377213215057781526368813,55%nat),(93356426065596116160999126274275464952003986088630805,54%nat));
    ((186439298827991572335798759218823987837344302823165342,54%nat),(921239866433168462132409777173630607214710032039817206,55%nat));
    ((277609097152497029403248067298321005754758329278243219,54%nat),(90081958660638577239743705500223621187370682079491485,54%nat));
    ((366339257748073341070220623253871111296934681100140172,54%nat),(872482876188443376072816709454464565666960712939022884,55%nat));
    ((451850017272450695725993277240767053798771734390531177,54%nat),(836478760670387076139280145176605974203276865458260165,55%nat));
    ((533389904786347643548894264995492125452665092224422469,54%nat),(793123647948867383639083849419975880886880293922986427,55%nat));
    ((610242345836379027307287513538097431406342930888033949,54%nat),(742798548439541493424721759184720467100983931962553235,55%nat));
    ((681731959969742786268215946919328134668935180714294029,54%nat),(685945728186567128059550730149586524873610929403886977,55%nat));
    ((747230496449562157859055124897948268854288086463824479,54%nat),(623064825303174800316277257708976114217684275793131068,55%nat));
    ((806162356274166589796200870782777175697710618135446112,54%nat),(554708466316635612849444954392591104205084071502204403,55%nat));
    ((858009652676504064643061480146068473327351068896720066,54%nat),(481477428187116956701468801381196497417511486769690613,55%nat));
    ((902316767743433583040531331518761607475205558190918115,54%nat),(404015413316695915634097905273984961668627883826539169,55%nat));
    ((938694372611168350355835124363553712614434484096546826,54%nat),(323003586323289532815614472494312880682527230506729272,55%nat));
    ((9668229096899927689283777066785922452183143365799866,52%nat),(239155481017494803505332575291862420660083611445149192,55%nat));
    ((9864557262306424881103756982646259215891711142156511,52%nat),(153217015129346761279457685336618667575353547807562368,55%nat));
    ((997424694246455217266168017580404161078229010881361921,54%nat),(660622784758737805864923520847385503105916250321107135,56%nat))]);
  (34%nat, [(((-997571753790841919243372437454629231400509882684929773),54%nat),(622914055590868471860646107143778612452732842980484594,56%nat));
    (((-987227816406309485049750431099684972948770148660132219),54%nat),(144501627485950354152022103287469906875404335846560601,55%nat));
    (((-968708262533344281764646573055993510967808745353473336),54%nat),(225637219854949700840940887149542612490345883881878338,55%nat));
    (((-942162397405107091631676025460572903006205692337117558),54%nat),(304913806384461318094423876813175910306268453895807875,55%nat));
    (((-907809677718324468800899889019287460162397572803152094),54%nat),(381665937963875163217659202899765588239470061266673516,55%nat));
    (((-865934638334564469263572090671299844696635301736783069),54%nat),(455256115233532724538225633952706029982384189963153821,55%nat));
    (((-816884227900933664591578906586973258393149910974253902),54%nat),(525074145726781061682459748424675996587196809469698659,55%nat));
    (((-761064876629873014187408968978736833604499366726196922),54%nat),(59054135827524493193960972350526190828486182346504483,54%nat));
    (((-69893911321626290793300010657577718263776403145575631),53%nat),(651115215540764113785444300648937735836372460728131919,55%nat));
    (((-631021727080528545317775755519008277810897254073443531),54%nat),(706293758142557249990387965676853550011627204909059651,55%nat));
    (((-557875500669746642736459886216274581337441378045353895),54%nat),(755619746600319312708339742284357240588192694813414625,55%nat));
    (((-480106545190327034194102680507397108587354948903905784),54%nat),(798684443397718447388188328064379935505558719721942996,55%nat));
    (((-398359277758645940631494752932351529342462129655648215),54%nat),(835130996998456551870202280461493905807155938575466916,55%nat));
    (((-313311081339463247458316765650977994771229865584492941),54%nat),(864657397470357497842468562807475803140706909018175725,55%nat));
    (((-225666691616449483868641180934347244352189721047980553),54%nat),(88701897835693869287076457364880712744283006703804131,54%nat));
    (((-136152357259182975894428824331117831497280617764536282),54%nat),(902030443706407295739422420174939288410295000506306357,55%nat));
    (((-45509821953102542749075670851930163831084150187205402),54%nat),(909567403302598736153376039485779599246056162602594401,55%nat));
    ((45509821953102542749075670851930163831084150187205402,54%nat),(909567403302598736153376039485779599246056162602594401,55%nat));
    ((136152357259182975894428824331117831497280617764536282,54%nat),(902030443706407295739422420174939288410295000506306357,55%nat));
    ((225666691616449483868641180934347244352189721047980553,54%nat),(88701897835693869287076457364880712744283006703804131,54%nat));
    ((313311081339463247458316765650977994771229865584492941,54%nat),(864657397470357497842468562807475803140706909018175725,55%nat));
    ((398359277758645940631494752932351529342462129655648215,54%nat),(835130996998456551870202280461493905807155938575466916,55%nat));
    ((480106545190327034194102680507397108587354948903905784,54%nat),(798684443397718447388188328064379935505558719721942996,55%nat));
    ((557875500669746642736459886216274581337441378045353895,54%nat),(755619746600319312708339742284357240588192694813414625,55%nat));
    ((631021727080528545317775755519008277810897254073443531,54%nat),(706293758142557249990387965676853550011627204909059651,55%nat));
    ((69893911321626290793300010657577718263776403145575631,53%nat),(651115215540764113785444300648937735836372460728131919,55%nat));
    ((761064876629873014187408968978736833604499366726196922,54%nat),(59054135827524493193960972350526190828486182346504483,54%nat));
    ((816884227900933664591578906586973258393149910974253902,54%nat),(525074145726781061682459748424675996587196809469698659,55%nat));
    ((865934638334564469263572090671299844696635301736783069,54%nat),(455256115233532724538225633952706029982384189963153821,55%nat));
    ((907809677718324468800899889019287460162397572803152094,54%nat),(381665937963875163217659202899765588239470061266673516,55%nat));
    ((942162397405107091631676025460572903006205692337117558,54%nat),(304913806384461318094423876813175910306268453895807875,55%nat));
    ((968708262533344281764646573055993510967808745353473336,54%nat),(225637219854949700840940887149542612490345883881878338,55%nat));
    ((987227816406309485049750431099684972948770148660132219,54%nat),(144501627485950354152022103287469906875404335846560601,55%nat));
    ((997571753790841919243372437454629231400509882684929773,54%nat),(622914055590868471860646107143778612452732842980484594,56%nat))]);
  (35%nat, [(((-997706569099600297260163139312094725193274637171013317),54%nat),(588343342044308497575389624011262403075431779823297371,56%nat));
    (((-987935764443851498035117089185485985313008295714174355),54%nat),(13650828348361492266404002920516383973994037841424921,54%nat));
    (((-970437616039229833215070482584770142524881239312376607),54%nat),(213229799114835808834379839662050783238096447199362073,55%nat));
    (((-945345148207827329538725985529974644862811251247873154),54%nat),(288292601088942540487160397144849162615277266295949997,55%nat));
    (((-912854261359317614464937063555764230488061013625558005),54%nat),(361101158634633805327169696475499383085357789699869432,55%nat));
    (((-873219125025222331523282349141385266644338902279374947),54%nat),(431084223261702187823064593749082034228065871639902087,55%nat));
    (((-826749899092225406834050612748557579046890617982307341),54%nat),(497693704013535298051996760849949585944949531945731637,55%nat));
    (((-773810252286912555267423009209887481011810072971545926),54%nat),(560408162123701285783277471651009644403485349045563455,55%nat));
    (((-714814501556628783264408631224446746962043968521730512),54%nat),(618736719660801888870141387886886522653712258040964351,55%nat));
    (((-650224364665890388675792808984559263369762325928374001),54%nat),(672222852690869039643055087481485585470931191496048085,55%nat));
    (((-580545344749764509934502008189690070932070203564332434),54%nat),(720447947725600646654619097852777561472673930274272606,55%nat));
    (((-506322773241488615024297555837327376586087938636369248),54%nat),(763034571554420535386585378842262255270800818956365344,55%nat));
    (((-428137541517814254187620613001479858784718446488533844),54%nat),(799649422423242629326620809850457563288354994300888474,55%nat));
    (((-346601554430813945876979834930238231808408769377292109),54%nat),(8300059372885658837992652821617700348517450381345112,53%nat));
    (((-262352941209296057970895200455580513486304398645781284),54%nat),(853866533920991252259439873911175676411909882837507511,55%nat));
    (((-176051061165989569974303656445059929675429712329757047),54%nat),(871044469971835342433220316055409366850567150938549314,55%nat));
    (((-883713432756592636009294334975488034241174347650981414),55%nat),(881405304302754629707388075930966414254543172744908372,55%nat));
    ((0,0%nat),(884867949071042906382073877776156691824091500106054233,55%nat));
    ((883713432756592636009294334975488034241174347650981414,55%nat),(881405304302754629707388075930966414254543172744908372,55%nat));
    ((176051061165989569974303656445059929675429712329757047,54%nat),(871044469971835342433220316055409366850567150938549314,55%nat));
    ((262352941209296057970895200455580513486304398645781284,54%nat),(853866533920991252259439873911175676411909882837507511,55%nat));
    ((346601554430813945876979834930238231808408769377292109,54%nat),(8300059372885658837992652821617700348517450381345112,53%nat));
    ((428137541517814254187620613001479858784718446488533844,54%nat),(799649422423242629326620809850457563288354994300888474,55%nat));
    ((506322773241488615024297555837327376586087938636369248,54%nat),(763034571554420535386585378842262255270800818956365344,55%nat));
    ((580545344749764509934502008189690070932070203564332434,54%nat),(720447947725600646654619097852777561472673930274272606,55%nat));
    ((650224364665890388675792808984559263369762325928374001,54%nat),(672222852690869039643055087481485585470931191496048085,55%nat));
    ((714814501556628783264408631224446746962043968521730512,54%nat),(618736719660801888870141387886886522653712258040964351,55%nat));
    ((773810252286912555267423009209887481011810072971545926,54%nat),(560408162123701285783277471651009644403485349045563455,55%nat));
    ((826749899092225406834050612748557579046890617982307341,54%nat),(497693704013535298051996760849949585944949531945731637,55%nat));
    ((873219125025222331523282349141385266644338902279374947,54%nat),(431084223261702187823064593749082034228065871639902087,55%nat));
    ((912854261359317614464937063555764230488061013625558005,54%nat),(361101158634633805327169696475499383085357789699869432,55%nat));
    ((945345148207827329538725985529974644862811251247873154,54%nat),(288292601088942540487160397144849162615277266295949997,55%nat));
    ((970437616039229833215070482584770142524881239312376607,54%nat),(213229799114835808834379839662050783238096447199362073,55%nat));
    ((987935764443851498035117089185485985313008295714174355,54%nat),(13650828348361492266404002920516383973994037841424921,54%nat));
    ((997706569099600297260163139312094725193274637171013317,54%nat),(588343342044308497575389624011262403075431779823297371,56%nat))]);
  (36%nat, [(((-997830462484085836198828345580750238649816462396631313),54%nat),(556571966424504536125598439054783741722459189417851018,56%nat));
    (((-988586478902212238073395107877107446607162520065287056),54%nat),(129159472840655744045034114977916491919612128514796719,55%nat));
    (((-972027691049697949335605048431108327616046396265951741),54%nat),(201815152977354715320989289582211274195865102408615653,55%nat));
    (((-948272984399507545202474114945227846289376525333673633),54%nat),(272986214985687790944171808679833579904568281420508554,55%nat));
    (((-917497774515659066075867223026156399936909467813654856),54%nat),(342138107703072299212450615627145540700969113267764835,55%nat));
    (((-879929800890397131982427337465835588773292842080756928),54%nat),(408757509236448954741145451432631915479370611190781462,55%nat));
    (((-835847166992475306418820872498600653346779379392325144),54%nat),(472350834902659784166168296166748320731517874343696303,55%nat));
    (((-785576230132206512827768965080292603302330505839601361),54%nat),(532447139777599190920256282862196496889296110589429207,55%nat));
    (((-729489171593556582090260479006108985565843046905197004),54%nat),(588601442453248173096753998189200359427540957825592892,55%nat));
    (((-668001236585521062097191344340917639164702490212637653),54%nat),(640397973550154895563847986258563397460214705508407249,55%nat));
    (((-60156765813598053507994497507359475174295415598675191),53%nat),(687453238357364426136896393636132083417307646421384912,55%nat));
    (((-530680285926245161640709080121569817661222872646822076),54%nat),(729418850056530613538733769412742182869469526169905444,55%nat));
    (((-455863944433420267207217669327440925957842388296857473),54%nat),(765984106458706745287577337215016417279275568319918338,55%nat));
    (((-377672547119689216322736389669907622166172804885287866),54%nat),(796878289120716019087246655018639073275341575147260202,55%nat));
    (((-296684995344028270503239047745170452700241822959825327),54%nat),(82187266704339709517223473544942302864963072934622121,54%nat));
    (((-213500892316865578943226228902713916758461731272768195),54%nat),(840782189796619349334576242915958212039359139576060455,55%nat));
    (((-128736103809384788651993388005152301177289724599373134),54%nat),(853466857393386274918505430764897709987865854972912941,55%nat));
    (((-430181984737086072269689782283634345542947948060091898),55%nat),(859832756703947474900851747905265541600549156034958523,55%nat));
    ((430181984737086072269689782283634345542947948060091898,55%nat),(859832756703947474900851747905265541600549156034958523,55%nat));
    ((128736103809384788651993388005152301177289724599373134,54%nat),(853466857393386274918505430764897709987865854972912941,55%nat));
    ((213500892316865578943226228902713916758461731272768195,54%nat),(840782189796619349334576242915958212039359139576060455,55%nat));
    ((296684995344028270503239047745170452700241822959825327,54%nat),(82187266704339709517223473544942302864963072934622121,54%nat));
    ((377672547119689216322736389669907622166172804885287866,54%nat),(796878289120716019087246655018639073275341575147260202,55%nat));
    ((455863944433420267207217669327440925957842388296857473,54%nat),(765984106458706745287577337215016417279275568319918338,55%nat));
    ((530680285926245161640709080121569817661222872646822076,54%nat),(729418850056530613538733769412742182869469526169905444,55%nat));
    ((60156765813598053507994497507359475174295415598675191,53%nat),(687453238357364426136896393636132083417307646421384912,55%nat));
    ((668001236585521062097191344340917639164702490212637653,54%nat),(640397973550154895563847986258563397460214705508407249,55%nat));
    ((729489171593556582090260479006108985565843046905197004,54%nat),(588601442453248173096753998189200359427540957825592892,55%nat));
    ((785576230132206512827768965080292603302330505839601361,54%nat),(532447139777599190920256282862196496889296110589429207,55%nat));
    ((835847166992475306418820872498600653346779379392325144,54%nat),(472350834902659784166168296166748320731517874343696303,55%nat));
    ((879929800890397131982427337465835588773292842080756928,54%nat),(408757509236448954741145451432631915479370611190781462,55%nat));
    ((917497774515659066075867223026156399936909467813654856,54%nat),(342138107703072299212450615627145540700969113267764835,55%nat));
    ((948272984399507545202474114945227846289376525333673633,54%nat),(272986214985687790944171808679833579904568281420508554,55%nat));
    ((972027691049697949335605048431108327616046396265951741,54%nat),(201815152977354715320989289582211274195865102408615653,55%nat));
    ((988586478902212238073395107877107446607162520065287056,54%nat),(129159472840655744045034114977916491919612128514796719,55%nat));
    ((997830462484085836198828345580750238649816462396631313,54%nat),(556571966424504536125598439054783741722459189417851018,56%nat))]);
  (37%nat, [(((-997944582477913648940803074317363283669007849486729154),54%nat),(527305727949793935172205423353038918308830590652726543,56%nat));
    (((-98918596321431918668409906058427230896245291758067398),53%nat),(122387801003075565263048524363465759422909531112660823,55%nat));
    (((-973493030056485744328890475665759344815384616708608268),54%nat),(191290444890839660435019479401061741302952357462103257,55%nat));
    (((-950972343262094821328576096816325933997548579804577386),54%nat),(258860369905589335227594813624872980294841825751032704,55%nat));
    (((-921781437412463742668143686700713488781595267162329661),54%nat),(324616398475214810672342535014587287990945591225246664,55%nat));
    (((-886124962155486078946149509016886440106813234826896308),54%nat),(388096025019345444889623703284760199673891892736854008,55%nat));
    (((-844252987340555967987456276174860231690634495897622184),54%nat),(44885364662437166657410304110196360194723306514413933,54%nat));
    (((-796459200509902293393046335500324523485631158940521608),54%nat),(506462976548246016038758630867163440527057629453541097,55%nat));
    (((-743078833981965262547047417473812879089901853263012602),54%nat),(560519879982749178085392396642526664267538552877670788,55%nat));
    (((-684486309130959357445523212431153708044343810970077687),54%nat),(610645165232259861309881045004965856779940090623631049,55%nat));
    (((-621092608408924483148152591595057310041726400604135159),54%nat),(656487228727512494840237662979712181966773211497249265,55%nat));
    (((-553342391861581781235098358229264473472286552240982324),54%nat),(697724515557003448850813567930192911860236786977560874,55%nat));
    (((-481710877803205554147192868882639171989522434347350396),54%nat),(734067772484881727246266315197954649834699421976482146,55%nat));
    (((-4067005093183261101009315916139666085224712793505589),52%nat),(765262075705292378858879912066225154953633155315440516,55%nat));
    (((-328837429883706999498471801339940483680022575292308038),54%nat),(79108861837529380767212187396645238516006935064182366,54%nat));
    (((-248667792791365758805567751487716218531677651682945158),54%nat),(811366245084650305098776017997922635664600449746249385,55%nat));
    (((-166753930239851976968671730411824437466648396031276349),54%nat),(825952722364372508912303011528384707733064526020397682,55%nat));
    (((-836704089547699019430483317363991775635216320351522936),55%nat),(834745736258627872522530094845186990204353102030260501,55%nat));
    ((0,0%nat),(837683609931389047970173663694593917168752800684767192,55%nat));
    ((836704089547699019430483317363991775635216320351522936,55%nat),(834745736258627872522530094845186990204353102030260501,55%nat));
    ((166753930239851976968671730411824437466648396031276349,54%nat),(825952722364372508912303011528384707733064526020397682,55%nat));
    ((248667792791365758805567751487716218531677651682945158,54%nat),(811366245084650305098776017997922635664600449746249385,55%nat));
    ((328837429883706999498471801339940483680022575292308038,54%nat),(79108861837529380767212187396645238516006935064182366,54%nat));
    ((4067005093183261101009315916139666085224712793505589,52%nat),(765262075705292378858879912066225154953633155315440516,55%nat));
    ((481710877803205554147192868882639171989522434347350396,54%nat),(734067772484881727246266315197954649834699421976482146,55%nat));
    ((553342391861581781235098358229264473472286552240982324,54%nat),(697724515557003448850813567930192911860236786977560874,55%nat));
    ((621092608408924483148152591595057310041726400604135159,54%nat),(656487228727512494840237662979712181966773211497249265,55%nat));
    ((684486309130959357445523212431153708044343810970077687,54%nat),(610645165232259861309881045004965856779940090623631049,55%nat));
    ((743078833981965262547047417473812879089901853263012602,54%nat),(560519879982749178085392396642526664267538552877670788,55%nat));
    ((796459200509902293393046335500324523485631158940521608,54%nat),(506462976548246016038758630867163440527057629453541097,55%nat));
    ((844252987340555967987456276174860231690634495897622184,54%nat),(44885364662437166657410304110196360194723306514413933,54%nat));
    ((886124962155486078946149509016886440106813234826896308,54%nat),(388096025019345444889623703284760199673891892736854008,55%nat));
    ((921781437412463742668143686700713488781595267162329661,54%nat),(324616398475214810672342535014587287990945591225246664,55%nat));
    ((950972343262094821328576096816325933997548579804577386,54%nat),(258860369905589335227594813624872980294841825751032704,55%nat));
    ((973493030056485744328890475665759344815384616708608268,54%nat),(191290444890839660435019479401061741302952357462103257,55%nat));
    ((98918596321431918668409906058427230896245291758067398,53%nat),(122387801003075565263048524363465759422909531112660823,55%nat));
    ((997944582477913648940803074317363283669007849486729154,54%nat),(527305727949793935172205423353038918308830590652726543,56%nat))]);
  (38%nat, [(((-99804993053568761981284707655158099749046537027458809),53%nat),(500288074963934567589954209189937046383927186262170591,56%nat));
    (((-989739454266385571944425891105679347324381246908022206),54%nat),(116134447164686741776683012004374273572367478601123297,55%nat));
    (((-974846328590153507640885540946388642591975358766073516),54%nat),(181565777096132368988761257547822022629123390397971224,55%nat));
    (((-95346633093352959567054215311744121738577897072292871),53%nat),(245797397382323758952012054467062874459591622272020467,55%nat));
    (((-925741332048584396825109562213050911480917876481105521),54%nat),(308395005451750546587310863133086889204118954971985188,55%nat));
    (((-891855739004632216794937031973917511579899053234515361),54%nat),(3689408159402473816494016233681495034735611724058349,53%nat));
    (((-852035021932362188859649711247276280440385037327630969),54%nat),(427031585046744342358784343588077086784174845681521442,55%nat));
    (((-806544167605316815551565375979698325731772981329319621),54%nat),(482280618607586833743521799114202241893610027852761323,55%nat));
    (((-755685903753970680737738096779387413503837570746703927),54%nat),(534320199103323199737569906312487560769153103387560856,55%nat));
    (((-699798680379184355912825840627415875638207015300590438),54%nat),(582803991469972060223058682581400559151277021585559865,55%nat));
    (((-639254415829681707180344869500260271701170395409661429),54%nat),(627409333921330540529696715251370643209038889969087583,55%nat));
    (((-574456021047807081132927500924472510210199597853798765),54%nat),(667839379791404119350461515290192599559521560352792417,55%nat));
    (((-505834717927931103240533716467652002793846550637187645),54%nat),(703825070668989547392829675936588408392617017624612065,55%nat));
    (((-433847169432376484373256162517842204005923800406839124),54%nat),(735126925847434571452064448483364785766371950924317554,55%nat));
    (((-358972440479435013256717621456534291796062949211368074),54%nat),(761536635484463960659935411044725279963452188325545188,55%nat));
    (((-281708809790165261360114071418700076769670508783611332),54%nat),(782878446582109480753754033357362625649037448578418256,55%nat));
    (((-202570453892116703203977781514607057371655085753703517),54%nat),(79901033243527821586027683925185696550301239589681579,54%nat));
    (((-122084025337867419869612381329407116568118141499300009),54%nat),(809824937705971006232694699490581419365151697840887541,55%nat));
    (((-407851479045782399133164323297849207847736426836548117),55%nat),(815250292803857866992187698858300556016426514704967984,55%nat));
    ((407851479045782399133164323297849207847736426836548117,55%nat),(815250292803857866992187698858300556016426514704967984,55%nat));
    ((122084025337867419869612381329407116568118141499300009,54%nat),(809824937705971006232694699490581419365151697840887541,55%nat));
    ((202570453892116703203977781514607057371655085753703517,54%nat),(79901033243527821586027683925185696550301239589681579,54%nat));
    ((281708809790165261360114071418700076769670508783611332,54%nat),(782878446582109480753754033357362625649037448578418256,55%nat));
    ((358972440479435013256717621456534291796062949211368074,54%nat),(761536635484463960659935411044725279963452188325545188,55%nat));
    ((433847169432376484373256162517842204005923800406839124,54%nat),(735126925847434571452064448483364785766371950924317554,55%nat));
    ((505834717927931103240533716467652002793846550637187645,54%nat),(703825070668989547392829675936588408392617017624612065,55%nat));
    ((574456021047807081132927500924472510210199597853798765,54%nat),(667839379791404119350461515290192599559521560352792417,55%nat));
    ((639254415829681707180344869500260271701170395409661429,54%nat),(627409333921330540529696715251370643209038889969087583,55%nat));
    ((699798680379184355912825840627415875638207015300590438,54%nat),(582803991469972060223058682581400559151277021585559865,55%nat));
    ((755685903753970680737738096779387413503837570746703927,54%nat),(534320199103323199737569906312487560769153103387560856,55%nat));
    ((806544167605316815551565375979698325731772981329319621,54%nat),(482280618607586833743521799114202241893610027852761323,55%nat));
    ((852035021932362188859649711247276280440385037327630969,54%nat),(427031585046744342358784343588077086784174845681521442,55%nat));
    ((891855739004632216794937031973917511579899053234515361,54%nat),(3689408159402473816494016233681495034735611724058349,53%nat));
    ((925741332048584396825109562213050911480917876481105521,54%nat),(308395005451750546587310863133086889204118954971985188,55%nat));
    ((95346633093352959567054215311744121738577897072292871,53%nat),(245797397382323758952012054467062874459591622272020467,55%nat));
    ((974846328590153507640885540946388642591975358766073516,54%nat),(181565777096132368988761257547822022629123390397971224,55%nat));
    ((989739454266385571944425891105679347324381246908022206,54%nat),(116134447164686741776683012004374273572367478601123297,55%nat));
    ((99804993053568761981284707655158099749046537027458809,53%nat),(500288074963934567589954209189937046383927186262170591,56%nat))]);
  (39%nat, [(((-998147383066432906005472302851820441832009740049664212),54%nat),(475294469163510137077621315490694198569508454183706144,56%nat));
    (((-990251536854685983639775117247078204709693821040191796),54%nat),(110347889391645942426768054521772894535071393731181559,55%nat));
    (((-976098709333471053844850319889518494290747412680101703),54%nat),(172562290937249190408054711833550472137159018904623154,55%nat));
    (((-955775212324652277110891897191082203001771790638876136),54%nat),(233693848321781645947123444429246988911975554637566659,55%nat));
    (((-929409148486738229697816964357734561844102809507703527),54%nat),(293349559839033785921559863562514256114114671016045653,55%nat));
    (((-897167119292992887848291090860813651065692077975623002),54%nat),(351151114981313307610651852972328163666614876197266856,55%nat));
    (((-859252937999906153913797439126042370535084445319822061),54%nat),(406732768479338439390565560822614036875724359960629048,55%nat));
    (((-815906297430143104353232678409629827727814060520923857),54%nat),(459743011089166318841766393992327805988616930339994639,55%nat));
    (((-767401242931063499832272404228342945472834113459010662),54%nat),(509846652921294052140210336765813350176130838812849053,55%nat));
    (((-714044435894534679133867036151830789664345281893698215),54%nat),(556726903409162999073911397896814827069609480735800684,55%nat));
    (((-656173213432010910734425934976256184880107611576970431),54%nat),(600087360885961495749417735488194997366782270918463043,55%nat));
    (((-594153454957277988692890074619106068165591544678126535),54%nat),(639653881386823889867064044100636448557769168899798797,55%nat));
    (((-528377268660437473896343635808222505340717653485424776),54%nat),(675176309662312653630213280464485937751527080834770358,55%nat));
    (((-459260512309136048663246633109572362938749153696017238),54%nat),(706430059706087607701149315281311364674296841590281693,55%nat));
    (((-387240163971561455853881965636962696012576172716826616),54%nat),(733217534142686173811539328650483064478934242509751308,55%nat));
    (((-31277155924818592253599691178562873960190560997753935),53%nat),(755369373228360577047844469908093990941879785900218443,55%nat));
    (((-236325512461835767336006327332650448065719224794057596),54%nat),(772745525446820167285116367331172991204952514887911509,55%nat));
    (((-15838533999783779992270106136139938446682623686514314),53%nat),(785236132873711767250633009855234715225814764092488609,55%nat));
    (((-794438046087554775819170831926406468850031651067419333),55%nat),(792762225683684710101557717545079305238041486782664247,55%nat));
    ((0,0%nat),(795276221394428524174181966058509938456067747658648143,55%nat));
    ((794438046087554775819170831926406468850031651067419333,55%nat),(792762225683684710101557717545079305238041486782664247,55%nat));
    ((15838533999783779992270106136139938446682623686514314,53%nat),(785236132873711767250633009855234715225814764092488609,55%nat));
    ((236325512461835767336006327332650448065719224794057596,54%nat),(772745525446820167285116367331172991204952514887911509,55%nat));
    ((31277155924818592253599691178562873960190560997753935,53%nat),(755369373228360577047844469908093990941879785900218443,55%nat));
    ((387240163971561455853881965636962696012576172716826616,54%nat),(733217534142686173811539328650483064478934242509751308,55%nat));
    ((459260512309136048663246633109572362938749153696017238,54%nat),(706430059706087607701149315281311364674296841590281693,55%nat));
    ((528377268660437473896343635808222505340717653485424776,54%nat),(675176309662312653630213280464485937751527080834770358,55%nat));
    ((594153454957277988692890074619106068165591544678126535,54%nat),(639653881386823889867064044100636448557769168899798797,55%nat));
    ((656173213432010910734425934976256184880107611576970431,54%nat),(600087360885961495749417735488194997366782270918463043,55%nat));
    ((714044435894534679133867036151830789664345281893698215,54%nat),(556726903409162999073911397896814827069609480735800684,55%nat));
    ((767401242931063499832272404228342945472834113459010662,54%nat),(509846652921294052140210336765813350176130838812849053,55%nat));
    ((815906297430143104353232678409629827727814060520923857,54%nat),(459743011089166318841766393992327805988616930339994639,55%nat));
    ((859252937999906153913797439126042370535084445319822061,54%nat),(406732768479338439390565560822614036875724359960629048,55%nat));
    ((897167119292992887848291090860813651065692077975623002,54%nat),(351151114981313307610651852972328163666614876197266856,55%nat));
    ((929409148486738229697816964357734561844102809507703527,54%nat),(293349559839033785921559863562514256114114671016045653,55%nat));
    ((955775212324652277110891897191082203001771790638876136,54%nat),(233693848321781645947123444429246988911975554637566659,55%nat));
    ((976098709333471053844850319889518494290747412680101703,54%nat),(172562290937249190408054711833550472137159018904623154,55%nat));
    ((990251536854685983639775117247078204709693821040191796,54%nat),(110347889391645942426768054521772894535071393731181559,55%nat));
    ((998147383066432906005472302851820441832009740049664212,54%nat),(475294469163510137077621315490694198569508454183706144,56%nat))]);
  (40%nat, [(((-998237709710559200349622702420586492335770381595045907),54%nat),(45212770985331912584717328781853327278311101997059907,55%nat));
    (((-990726238699457006453054352221372154962222081351086538),54%nat),(104982845311528136147421710672796523767926213157967797,55%nat));
    (((-977259949983774262663370283712903806978667932037986096),54%nat),(16421058381907888712863484882363927292342293346957762,54%nat));
    (((-957916819213791655804540999452759285094883490602747032),54%nat),(222458491941669572615043241842085732070331966793544279,55%nat));
    (((-932812808278676533360852166845205716434753575282692449),54%nat),(279370069800234010984891575077210773025508620507663984,55%nat));
    (((-902098806968874296728253330868493103584488081057669468),54%nat),(334601952825478473926781830864108489772417866537643504,55%nat));
    (((-865959503212259503820781808354619963570546553011101649),54%nat),(387821679744720176399720312904461622534592112320258578,55%nat));
    (((-8246122308333116631963202306660987739072403842429878),52%nat),(438709081856732719916746860417154958110068371702368898,55%nat));
    (((-778305651426519387694971545506494848020691316126891794),54%nat),(486958076350722320614341604481463880678430273771197751,55%nat));
    (((-727318255189927103280996451754930548557378673533328138),54%nat),(532278469839368243549964797722605045553211718220064508,55%nat));
    (((-67195668461417954837935451496149410997032598138385115),53%nat),(574397690993915513666177309104259856001048358544536265,55%nat));
    (((-612553889667980237952612450230694877380123781683149611),54%nat),(61306242492928939166537996408398595902593763511174322,54%nat));
    (((-549467125095128202075931305529517970233975101595651465),54%nat),(648040134566010380745545295667527300326929642084889064,55%nat));
    (((-483075801686178712908566574244823004599022395533114101),54%nat),(679120458152339038256901082319239859841972383792859547,55%nat));
    (((-413779204371605001524879745803713682974099624052918238),54%nat),(706116473912867796954836308552868323595591039955860973,55%nat));
    (((-341994090825758473007492481179194310066953620027325796),54%nat),(728865823958040590605106834425178358575590809857986305,55%nat));
    (((-268152185007253681141184344808596183424804373236246981),54%nat),(747231690579682642001893362613246731912029344203598217,55%nat));
    (((-192697580701371099715516852065149894814092021105208875),54%nat),(761103619006262423715580759224948230125595538450711071,55%nat));
    (((-116084070675255208483451284408024113768728530854215949),54%nat),(770398181642479655883075342838102485244397541639404155,55%nat));
    (((-387724175060508219331934440246232946793646343831415992),55%nat),(775059479784248112637239629583263269636686527881064357,55%nat));
    ((387724175060508219331934440246232946793646343831415992,55%nat),(775059479784248112637239629583263269636686527881064357,55%nat));
    ((116084070675255208483451284408024113768728530854215949,54%nat),(770398181642479655883075342838102485244397541639404155,55%nat));
    ((192697580701371099715516852065149894814092021105208875,54%nat),(761103619006262423715580759224948230125595538450711071,55%nat));
    ((268152185007253681141184344808596183424804373236246981,54%nat),(747231690579682642001893362613246731912029344203598217,55%nat));
    ((341994090825758473007492481179194310066953620027325796,54%nat),(728865823958040590605106834425178358575590809857986305,55%nat));
    ((413779204371605001524879745803713682974099624052918238,54%nat),(706116473912867796954836308552868323595591039955860973,55%nat));
    ((483075801686178712908566574244823004599022395533114101,54%nat),(679120458152339038256901082319239859841972383792859547,55%nat));
    ((549467125095128202075931305529517970233975101595651465,54%nat),(648040134566010380745545295667527300326929642084889064,55%nat));
    ((612553889667980237952612450230694877380123781683149611,54%nat),(61306242492928939166537996408398595902593763511174322,54%nat));
    ((67195668461417954837935451496149410997032598138385115,53%nat),(574397690993915513666177309104259856001048358544536265,55%nat));
    ((727318255189927103280996451754930548557378673533328138,54%nat),(532278469839368243549964797722605045553211718220064508,55%nat));
    ((778305651426519387694971545506494848020691316126891794,54%nat),(486958076350722320614341604481463880678430273771197751,55%nat));
    ((8246122308333116631963202306660987739072403842429878,52%nat),(438709081856732719916746860417154958110068371702368898,55%nat));
    ((865959503212259503820781808354619963570546553011101649,54%nat),(387821679744720176399720312904461622534592112320258578,55%nat));
    ((902098806968874296728253330868493103584488081057669468,54%nat),(334601952825478473926781830864108489772417866537643504,55%nat));
    ((932812808278676533360852166845205716434753575282692449,54%nat),(279370069800234010984891575077210773025508620507663984,55%nat));
    ((957916819213791655804540999452759285094883490602747032,54%nat),(222458491941669572615043241842085732070331966793544279,55%nat));
    ((977259949983774262663370283712903806978667932037986096,54%nat),(16421058381907888712863484882363927292342293346957762,54%nat));
    ((990726238699457006453054352221372154962222081351086538,54%nat),(104982845311528136147421710672796523767926213157967797,55%nat));
    ((998237709710559200349622702420586492335770381595045907,54%nat),(45212770985331912584717328781853327278311101997059907,55%nat))]);
  (41%nat, [(((-998321588574771441519188508088377567931504351513670166),54%nat),(430614035816488768400447790465448618636220399530170482,56%nat));
    (((-991167109699016308250158894573169657692756013570003047),54%nat),(999993877390594533849629662969883955022493577115020595,56%nat));
    (((-978338673561083384469170706673967198375636781918654282),54%nat),(156449384078185885308268444795336774408178893696463564,55%nat));
    (((-959906891730346226099441696068686582066951090829466351),54%nat),(212010633687795530756970334933766265717170543273583082,55%nat));
    (((-935976987497853825682318275284766266271237118087344775),54%nat),(26635899207110445467548575258713277044690492005248138,54%nat));
    (((-906685944758101172958340413230722973354307185322284854),54%nat),(319182117316992817870669468571455437011877532975110126,55%nat));
    (((-872201511692441408833670574234329460282042655539533002),54%nat),(370177167035079884352612515801606686062715463218675428,55%nat));
    (((-832721200401361331244272779048543799976975992978582133),54%nat),(419051951959096894293402743110488379362663774320223833,55%nat));
    (((-78847114504740937273622178146677028899471207909872721),53%nat),(46552648369014342060756586864611423130990198580590185,54%nat));
    (((-739704803069926181060168744468559000395254439052568965),54%nat),(509334542946174947811703571156886314208034467868703288,55%nat));
    (((-686701502034951289584603856529134812066438460149673129),54%nat),(550225192425787418801468101714222699737753366053695905,55%nat));
    (((-629764839072196320488649091695103501078514780739470874),54%nat),(587964209498719449911858533807342740008812386027269409,55%nat));
    (((-569220941610215869654747215282980251610456923979545244),54%nat),(622335425809663164715734170833464854301598699449434294,55%nat));
    (((-505416599199406032708336070202694764951075546015180246),54%nat),(653141964535274104361637126537963404198592367210681263,55%nat));
    (((-438717277051407088517119856728039248421785758759468643),54%nat),(680207367608767667355332397262489282566991201385941654,55%nat));
    (((-369505022640481441428366913299935205624086971331876079),54%nat),(703376606208174974816589899698814560012333801678102797,55%nat));
    (((-298176277341824865922982880478924304139955868446148526),54%nat),(722516968610230733963463983487873548852947705248725489,55%nat));
    (((-225139605633422775605786256655472330299912420644243222),54%nat),(737518820272234699392808183248486794779162804283396427,55%nat));
    (((-150813354863992163574377967884582375775630945329497831),54%nat),(748296231762215518913050726335053229456830673780307176,55%nat));
    (((-756232589891629969237661936512002674810506356066569488),55%nat),(754787470927158240272470626746167490736063609030627762,55%nat));
    ((0,0%nat),(756955356472983723187799610763602558911188813952312331,55%nat));
    ((756232589891629969237661936512002674810506356066569488,55%nat),(754787470927158240272470626746167490736063609030627762,55%nat));
    ((150813354863992163574377967884582375775630945329497831,54%nat),(748296231762215518913050726335053229456830673780307176,55%nat));
    ((225139605633422775605786256655472330299912420644243222,54%nat),(737518820272234699392808183248486794779162804283396427,55%nat));
    ((298176277341824865922982880478924304139955868446148526,54%nat),(722516968610230733963463983487873548852947705248725489,55%nat));
    ((369505022640481441428366913299935205624086971331876079,54%nat),(703376606208174974816589899698814560012333801678102797,55%nat));
    ((438717277051407088517119856728039248421785758759468643,54%nat),(680207367608767667355332397262489282566991201385941654,55%nat));
    ((505416599199406032708336070202694764951075546015180246,54%nat),(653141964535274104361637126537963404198592367210681263,55%nat));
    ((569220941610215869654747215282980251610456923979545244,54%nat),(622335425809663164715734170833464854301598699449434294,55%nat));
    ((629764839072196320488649091695103501078514780739470874,54%nat),(587964209498719449911858533807342740008812386027269409,55%nat));
    ((686701502034951289584603856529134812066438460149673129,54%nat),(550225192425787418801468101714222699737753366053695905,55%nat));
    ((739704803069926181060168744468559000395254439052568965,54%nat),(509334542946174947811703571156886314208034467868703288,55%nat));
    ((78847114504740937273622178146677028899471207909872721,53%nat),(46552648369014342060756586864611423130990198580590185,54%nat));
    ((832721200401361331244272779048543799976975992978582133,54%nat),(419051951959096894293402743110488379362663774320223833,55%nat));
    ((872201511692441408833670574234329460282042655539533002,54%nat),(370177167035079884352612515801606686062715463218675428,55%nat));
    ((906685944758101172958340413230722973354307185322284854,54%nat),(319182117316992817870669468571455437011877532975110126,55%nat));
    ((935976987497853825682318275284766266271237118087344775,54%nat),(26635899207110445467548575258713277044690492005248138,54%nat));
    ((959906891730346226099441696068686582066951090829466351,54%nat),(212010633687795530756970334933766265717170543273583082,55%nat));
    ((978338673561083384469170706673967198375636781918654282,54%nat),(156449384078185885308268444795336774408178893696463564,55%nat));
    ((991167109699016308250158894573169657692756013570003047,54%nat),(999993877390594533849629662969883955022493577115020595,56%nat));
    ((998321588574771441519188508088377567931504351513670166,54%nat),(430614035816488768400447790465448618636220399530170482,56%nat))]);
  (42%nat, [(((-998399618990062415022868126847050276177876083522781252),54%nat),(410599860464908461060277949683596265701677337480229036,56%nat));
    (((-991577288340860919792361253280868833452693264737104018),54%nat),(953622030174850241182010029269799818868479873501257251,56%nat));
    (((-979342508063748193708982566542856095586474980129062929),54%nat),(149224436973574941446776781058657676200927474901078966,55%nat));
    (((-961759365338204488746927157853322681171721288914031999),54%nat),(202278695690526447570557190793541850826714265524220962,55%nat));
    (((-938923557354988178533173433625591970251387818450171871),54%nat),(254229595261130478867424429094308643861354103739789549,55%nat));
    (((-910959724904127452583847879208506542318900351339455604),54%nat),(304792406996034683629047335233923977917696542444008948,55%nat));
    (((-878020569812172742711985103478623534062819716243918599),54%nat),(353690710975921108326621811265075419057485217806414501,55%nat));
    (((-840285983261816900925439995086099817823398575193568357),54%nat),(400657351806922617605961248300369345537337018657456151,55%nat));
    (((-797962053255487413232705952546376660132375511290654134),54%nat),(445435777719658778743163659852342413185954660371275812,55%nat));
    (((-751279935689480489568472175914658655502564519829540925),54%nat),(48778140792803245027449363128402723921117696934226903,54%nat));
    (((-700494590556171213741569929055465534300175941800093181),54%nat),(527462956991740703439425390440974770315659878271861196,55%nat));
    (((-645883388869247833957496303718411701169086543840143865),54%nat),(564263693580183816464268551396956893988731585762885074,55%nat));
    (((-587744597485109322840711345473995719905431304828001646),54%nat),(597982622275866543128315457535348515098534186959439095,55%nat));
    (((-526395749931192287592867558791901461435739764929909929),54%nat),(628435580450025764093182513237798891527970439218897387,55%nat));
    (((-462171912070421929759075029930635985109664908473608631),54%nat),(655456243649089789270051078517944256097822940857930823,55%nat));
    (((-395423852042975057677093954594371980799178576486353488),54%nat),(678897033765219448553634022137663072661347346585931979,55%nat));
    (((-326516124465411512197156589375465669058411470498584524),54%nat),(698629924925941597661547863814822044439273130474320937,55%nat));
    (((-255825079342879083966414791018708448768766456465400955),54%nat),(714547142651709829218104441174621550225898638775037186,55%nat));
    (((-1837368065648545508527556393807429409333239616225151),52%nat),(7265617524380410488790576149253303127678368396842723,53%nat));
    (((-110645027208519868349122545002641004867344024483630807),54%nat),(734608134534675282640282570543039387336557834504052394,55%nat));
    (((-369489431653517758130959800375594266417084522492225313),55%nat),(738642342321728799963855611497914131284705205020709081,55%nat));
    ((369489431653517758130959800375594266417084522492225313,55%nat),(738642342321728799963855611497914131284705205020709081,55%nat));
    ((110645027208519868349122545002641004867344024483630807,54%nat),(734608134534675282640282570543039387336557834504052394,55%nat));
    ((1837368065648545508527556393807429409333239616225151,52%nat),(7265617524380410488790576149253303127678368396842723,53%nat));
    ((255825079342879083966414791018708448768766456465400955,54%nat),(714547142651709829218104441174621550225898638775037186,55%nat));
    ((326516124465411512197156589375465669058411470498584524,54%nat),(698629924925941597661547863814822044439273130474320937,55%nat));
    ((395423852042975057677093954594371980799178576486353488,54%nat),(678897033765219448553634022137663072661347346585931979,55%nat));
    ((462171912070421929759075029930635985109664908473608631,54%nat),(655456243649089789270051078517944256097822940857930823,55%nat));
    ((526395749931192287592867558791901461435739764929909929,54%nat),(628435580450025764093182513237798891527970439218897387,55%nat));
    ((587744597485109322840711345473995719905431304828001646,54%nat),(597982622275866543128315457535348515098534186959439095,55%nat));
    ((645883388869247833957496303718411701169086543840143865,54%nat),(564263693580183816464268551396956893988731585762885074,55%nat));
    ((700494590556171213741569929055465534300175941800093181,54%nat),(527462956991740703439425390440974770315659878271861196,55%nat));
    ((751279935689480489568472175914658655502564519829540925,54%nat),(48778140792803245027449363128402723921117696934226903,54%nat));
    ((797962053255487413232705952546376660132375511290654134,54%nat),(445435777719658778743163659852342413185954660371275812,55%nat));
    ((840285983261816900925439995086099817823398575193568357,54%nat),(400657351806922617605961248300369345537337018657456151,55%nat));
    ((878020569812172742711985103478623534062819716243918599,54%nat),(353690710975921108326621811265075419057485217806414501,55%nat));
    ((910959724904127452583847879208506542318900351339455604,54%nat),(304792406996034683629047335233923977917696542444008948,55%nat));
    ((938923557354988178533173433625591970251387818450171871,54%nat),(254229595261130478867424429094308643861354103739789549,55%nat));
    ((961759365338204488746927157853322681171721288914031999,54%nat),(202278695690526447570557190793541850826714265524220962,55%nat));
    ((979342508063748193708982566542856095586474980129062929,54%nat),(149224436973574941446776781058657676200927474901078966,55%nat));
    ((991577288340860919792361253280868833452693264737104018,54%nat),(953622030174850241182010029269799818868479873501257251,56%nat));
    ((998399618990062415022868126847050276177876083522781252,54%nat),(410599860464908461060277949683596265701677337480229036,56%nat))]);
  (43%nat, [(((-998472332242507713517636187318392411962050717847609143),54%nat),(391949025384412728296716519257643543366036457269087234,56%nat));
    (((-991959557593244146420718341329618016387053225958952728),54%nat),(910399663740140331886860829589672381301797555982670408,56%nat));
    (((-980278220980255331505529382181136390180867596519573484),54%nat),(142487564315764861085416017220041935720739931441623353,55%nat));
    (((-963486613014079993410194963574243939867618912278712546),54%nat),(193199014236839003961246108920713523170235590882569686,55%nat));
    (((-941671956847637861818477390397938271466476089813827758),54%nat),(242904566138388159020183242542492484552370393358121375,55%nat));
    (((-914947907206138729456102870799285616745780103108423057),54%nat),(29134413261498494915940424825781193787550569840192032,54%nat));
    (((-883453765218616863337678011642167417862166694242451599),54%nat),(338264920868602923449684757538020910533016106471323669,55%nat));
    (((-847353716209315048999086085821792517512596547477239884),54%nat),(383422221941326575721284246628491148800725628683971755,55%nat));
    (((-806835964136938635279074740877512126060886243481752597),54%nat),(426580571979820837638072053385138941049470912367672507,55%nat));
    (((-762111747194955121460328463029046187807595258685957756),54%nat),(467514947543465800106467663371029339328630959356638568,55%nat));
    (((-713414235268957054851920877990904102642529167113636116),54%nat),(50601192784390156523850398953014745749898009098012191,54%nat));
    (((-660997313751498133165134763741345394113156812534213293),54%nat),(541870803188817868633731783262654135883905526707112847,55%nat));
    (((-605134259639600935725083071123955221438369807894527289),54%nat),(574904619569105194276089168444165119278688681945654327,55%nat));
    (((-546116316660084719140405047179660836654854224124755803),54%nat),(604941152499912945196787419913627933585088798704285874,55%nat));
    (((-484251176785734724069633434748513777993577081871723296),54%nat),(631823804493961123256298177734082642566962346394688467,55%nat));
    (((-419861376029269252487279394560568026074988907714570948),54%nat),(655412421263227974912337642492078302249625337784548263,55%nat));
    (((-353282612864303806645476364143467871780445030142565542),54%nat),(675584022293651691924079047562655921429462925857296083,55%nat));
    (((-28486199803291362710572289483833793178587981775426117),53%nat),(692233441936566842822994791226351478093049895709278238,55%nat));
    (((-214956244860518209014878381473674953737224286385453044),54%nat),(705273877650850281262863554779407431837361667849641501,55%nat));
    (((-143929809510713310770299937610744688682788883471342648),54%nat),(714637342525141412975811177029102485809000193677956732,55%nat));
    (((-721529908745862354223272509555610948576552766606143055),55%nat),(720275019714219743453075516708570877535042459474147016,55%nat));
    ((0,0%nat),(72215751693798987977462331713736880147070690525250349,54%nat));
    ((721529908745862354223272509555610948576552766606143055,55%nat),(720275019714219743453075516708570877535042459474147016,55%nat));
    ((143929809510713310770299937610744688682788883471342648,54%nat),(714637342525141412975811177029102485809000193677956732,55%nat));
    ((214956244860518209014878381473674953737224286385453044,54%nat),(705273877650850281262863554779407431837361667849641501,55%nat));
    ((28486199803291362710572289483833793178587981775426117,53%nat),(692233441936566842822994791226351478093049895709278238,55%nat));
    ((353282612864303806645476364143467871780445030142565542,54%nat),(675584022293651691924079047562655921429462925857296083,55%nat));
    ((419861376029269252487279394560568026074988907714570948,54%nat),(655412421263227974912337642492078302249625337784548263,55%nat));
    ((484251176785734724069633434748513777993577081871723296,54%nat),(631823804493961123256298177734082642566962346394688467,55%nat));
    ((546116316660084719140405047179660836654854224124755803,54%nat),(604941152499912945196787419913627933585088798704285874,55%nat));
    ((605134259639600935725083071123955221438369807894527289,54%nat),(574904619569105194276089168444165119278688681945654327,55%nat));
    ((660997313751498133165134763741345394113156812534213293,54%nat),(541870803188817868633731783262654135883905526707112847,55%nat));
    ((713414235268957054851920877990904102642529167113636116,54%nat),(50601192784390156523850398953014745749898009098012191,54%nat));
    ((762111747194955121460328463029046187807595258685957756,54%nat),(467514947543465800106467663371029339328630959356638568,55%nat));
    ((806835964136938635279074740877512126060886243481752597,54%nat),(426580571979820837638072053385138941049470912367672507,55%nat));
    ((847353716209315048999086085821792517512596547477239884,54%nat),(383422221941326575721284246628491148800725628683971755,55%nat));
    ((883453765218616863337678011642167417862166694242451599,54%nat),(338264920868602923449684757538020910533016106471323669,55%nat));
    ((914947907206138729456102870799285616745780103108423057,54%nat),(29134413261498494915940424825781193787550569840192032,54%nat));
    ((941671956847637861818477390397938271466476089813827758,54%nat),(242904566138388159020183242542492484552370393358121375,55%nat));
    ((963486613014079993410194963574243939867618912278712546,54%nat),(193199014236839003961246108920713523170235590882569686,55%nat));
    ((980278220980255331505529382181136390180867596519573484,54%nat),(142487564315764861085416017220041935720739931441623353,55%nat));
    ((991959557593244146420718341329618016387053225958952728,54%nat),(910399663740140331886860829589672381301797555982670408,56%nat));
    ((998472332242507713517636187318392411962050717847609143,54%nat),(391949025384412728296716519257643543366036457269087234,56%nat))]);
  (44%nat, [(((-998540200636774224936056720606650349056030033175414598),54%nat),(374540480311277751517377883176153847769791634328217317,56%nat));
    (((-992316392138515808483338003613538568811897784352210077),54%nat),(870048136752484412256562342431314020846842115836189609,56%nat));
    (((-98115183307791396666274900535048782880567555553965774),53%nat),(136195867555799855202050663900613788732667197548707233,55%nat));
    (((-965099650422493139394398050580234974716877138589885093),54%nat),(184714817368147491720422237433998441155207383139018773,55%nat));
    (((-944239509118194099203254653026989251072454934759922975),54%nat),(232314819020192106289582629387314174882219020356579972,55%nat));
    (((-918675259984175774323001086694252048937985263045053006),54%nat),(278757828212810100811142917793870643220588398929903486,55%nat));
    (((-8885342382860432023383679101903223247583324582094259),52%nat),(323812228120698208808469395401116011469480517800294205,55%nat));
    (((-85396659500471037872830224129268389036116906202906845),53%nat),(367253478138088736429092923487017997107087879997468729,55%nat));
    (((-815144539645135010487437635751940550299400574508594244),54%nat),(40886512310346218908447169283068486854079289026702596,54%nat));
    (((-77226147924875589901775854923198801372809643956544711),53%nat),(448439840819700314462431864030511071809630216557339997,55%nat));
    (((-72553105366071700260696493671995361101246580020809526),53%nat),(485780464483520375276394366912927376150513991068246759,55%nat));
    (((-675186070666122365333699038563899923328255401123770875),54%nat),(520700960917044618812318029931987510562641747411169266,55%nat));
    (((-621477345903575847802424699121766747144405880017163559),54%nat),(553027355637280525487466326431529914715348464176177601,55%nat));
    (((-564672453185470768424636819382075219490745479604266115),54%nat),(582598598775954953342106898442771680047561691033535674,55%nat));
    (((-505054391388202317982798352291177238612073295505348613),54%nat),(609267367015619680385578368743741006725724894816501122,55%nat));
    (((-442920174525411483834826593647313549538478460308117949),54%nat),(632900797332038549501388710197149306380242882440941854,55%nat));
    (((-378579352014707132511764672772197856742820848495670373),54%nat),(653381148791814349842408948456221894960108011296769286,55%nat));
    (((-312352466502785812236545163572978535519263621753288636),54%nat),(67060638906293652395704919351719350780713013072761568,54%nat));
    (((-244569456928201251507302434740518620530487259280049604),54%nat),(684490702693666609854586607043498724451555436359000409,55%nat));
    (((-175568014775516785746507749380976590647374506724513315),54%nat),(694964918615725780370840909250112567820934753811742274,55%nat));
    (((-105691901708653247117305848915121752383385998859597614),54%nat),(701976854735582125871420419443993876688266862156284579,55%nat));
    (((-352892369641353590581967046314163558850021975895270768),55%nat),(705491577893540688113382874802998849910634255089236448,55%nat));
    ((352892369641353590581967046314163558850021975895270768,55%nat),(705491577893540688113382874802998849910634255089236448,55%nat));
    ((105691901708653247117305848915121752383385998859597614,54%nat),(701976854735582125871420419443993876688266862156284579,55%nat));
    ((175568014775516785746507749380976590647374506724513315,54%nat),(694964918615725780370840909250112567820934753811742274,55%nat));
    ((244569456928201251507302434740518620530487259280049604,54%nat),(684490702693666609854586607043498724451555436359000409,55%nat));
    ((312352466502785812236545163572978535519263621753288636,54%nat),(67060638906293652395704919351719350780713013072761568,54%nat));
    ((378579352014707132511764672772197856742820848495670373,54%nat),(653381148791814349842408948456221894960108011296769286,55%nat));
    ((442920174525411483834826593647313549538478460308117949,54%nat),(632900797332038549501388710197149306380242882440941854,55%nat));
    ((505054391388202317982798352291177238612073295505348613,54%nat),(609267367015619680385578368743741006725724894816501122,55%nat));
    ((564672453185470768424636819382075219490745479604266115,54%nat),(582598598775954953342106898442771680047561691033535674,55%nat));
    ((621477345903575847802424699121766747144405880017163559,54%nat),(553027355637280525487466326431529914715348464176177601,55%nat));
    ((675186070666122365333699038563899923328255401123770875,54%nat),(520700960917044618812318029931987510562641747411169266,55%nat));
    ((72553105366071700260696493671995361101246580020809526,53%nat),(485780464483520375276394366912927376150513991068246759,55%nat));
    ((77226147924875589901775854923198801372809643956544711,53%nat),(448439840819700314462431864030511071809630216557339997,55%nat));
    ((815144539645135010487437635751940550299400574508594244,54%nat),(40886512310346218908447169283068486854079289026702596,54%nat));
    ((85396659500471037872830224129268389036116906202906845,53%nat),(367253478138088736429092923487017997107087879997468729,55%nat));
    ((8885342382860432023383679101903223247583324582094259,52%nat),(323812228120698208808469395401116011469480517800294205,55%nat));
    ((918675259984175774323001086694252048937985263045053006,54%nat),(278757828212810100811142917793870643220588398929903486,55%nat));
    ((944239509118194099203254653026989251072454934759922975,54%nat),(232314819020192106289582629387314174882219020356579972,55%nat));
    ((965099650422493139394398050580234974716877138589885093,54%nat),(184714817368147491720422237433998441155207383139018773,55%nat));
    ((98115183307791396666274900535048782880567555553965774,53%nat),(136195867555799855202050663900613788732667197548707233,55%nat));
    ((992316392138515808483338003613538568811897784352210077,54%nat),(870048136752484412256562342431314020846842115836189609,56%nat));
    ((998540200636774224936056720606650349056030033175414598,54%nat),(374540480311277751517377883176153847769791634328217317,56%nat))]);
  (45%nat, [(((-998603645181936638156547676900820548092288527214475417),54%nat),(358266315528355893114302865935139257058563635818394461,56%nat));
    (((-992649998447203741748617120597735344975001643303639351),54%nat),(832318929621824164573585312223385375615793129294822189,56%nat));
    (((-981968715034540568239318473634341481538365249220461808),54%nat),(130311049915827843206310824696869260271411715826389911,55%nat));
    (((-966608310396894604736425160892478097116679030609415414),54%nat),(17677535257937590617092546669577088520651278126465788,54%nat));
    (((-946641690995629061784720596953837078450468344167135051),54%nat),(222398475505787323939507585521689933448757087012999707,55%nat));
    (((-922163936719000388097467360960527319265362877250661168),54%nat),(266962139675776648056747787931075277878249105658915236,55%nat));
    (((-893291671753241738464649051493057346365401240413792686),54%nat),(310253749345154671625079388937680638859211521239748004,55%nat));
    (((-860162475960664225339078870567134387783414423577022101),54%nat),(352066922016090162476997982615750908100880747127146413,55%nat));
    (((-822934220502086337035775260026502029993415258056270434),54%nat),(392202367293024475641871853439293382181301245963066698,55%nat));
    (((-781784312593906291312363188098602817660273516839061523),54%nat),(430468807091649711516911130811669417883192361631913202,55%nat));
    (((-736908848945490352623738848594892019879605680837617081),54%nat),(466683877183733652677684757416541012049861414878535825,55%nat));
    (((-688521680771200525232019825880438235955233005618527781),54%nat),(500674992379520297991321024748743173914986929351464372,55%nat));
    (((-636853394453223359271223845903383150692031243465676441),54%nat),(53228016731268951945904044019310403798482216940175516,54%nat));
    (((-582150212569353186680967334444177131000088825983227146),54%nat),(561348787597864766439239403748697632414801849461630158,55%nat));
    (((-524672820462916067091134100460162402607108270800282587),54%nat),(587742327188417385743615176318314225312657254609802081,55%nat));
    (((-464695123919635098579601502309748510839812667237190883),54%nat),(611335008310665225018863705363255732601242342652421201,55%nat));
    (((-402502943858541914077974508548346455970299357569396439),54%nat),(63201440073819937749963730290666881866300237275822817,54%nat));
    (((-338392654250602161643404100031872989532341443137422698),54%nat),(649681957507234308538265703590756950838497254875832731,55%nat));
    (((-27266976975237756060876539161564518189821175427664206),53%nat),(66425348449842528082914715639103737613174546750674816,54%nat));
    (((-205647489783263745719787225471543930703236385699429831),54%nat),(67565954163607536270910223873648630979472580923946462,54%nat));
    (((-13764520598325302875659004142306555310676555654152506),53%nat),(683845773786696745316920993343160970734849130546449464,55%nat));
    (((-689869801631441724904146141038117296939206669309696827),55%nat),(688773169776613228820028482980557888845241301106485452,55%nat));
    ((0,0%nat),(690418248292320201107985551594047407233228922750047781,55%nat));
    ((689869801631441724904146141038117296939206669309696827,55%nat),(688773169776613228820028482980557888845241301106485452,55%nat));
    ((13764520598325302875659004142306555310676555654152506,53%nat),(683845773786696745316920993343160970734849130546449464,55%nat));
    ((205647489783263745719787225471543930703236385699429831,54%nat),(67565954163607536270910223873648630979472580923946462,54%nat));
    ((27266976975237756060876539161564518189821175427664206,53%nat),(66425348449842528082914715639103737613174546750674816,54%nat));
    ((338392654250602161643404100031872989532341443137422698,54%nat),(649681957507234308538265703590756950838497254875832731,55%nat));
    ((402502943858541914077974508548346455970299357569396439,54%nat),(63201440073819937749963730290666881866300237275822817,54%nat));
    ((464695123919635098579601502309748510839812667237190883,54%nat),(611335008310665225018863705363255732601242342652421201,55%nat));
    ((524672820462916067091134100460162402607108270800282587,54%nat),(587742327188417385743615176318314225312657254609802081,55%nat));
    ((582150212569353186680967334444177131000088825983227146,54%nat),(561348787597864766439239403748697632414801849461630158,55%nat));
    ((636853394453223359271223845903383150692031243465676441,54%nat),(53228016731268951945904044019310403798482216940175516,54%nat));
    ((688521680771200525232019825880438235955233005618527781,54%nat),(500674992379520297991321024748743173914986929351464372,55%nat));
    ((736908848945490352623738848594892019879605680837617081,54%nat),(466683877183733652677684757416541012049861414878535825,55%nat));
    ((781784312593906291312363188098602817660273516839061523,54%nat),(430468807091649711516911130811669417883192361631913202,55%nat));
    ((822934220502086337035775260026502029993415258056270434,54%nat),(392202367293024475641871853439293382181301245963066698,55%nat));
    ((860162475960664225339078870567134387783414423577022101,54%nat),(352066922016090162476997982615750908100880747127146413,55%nat));
    ((893291671753241738464649051493057346365401240413792686,54%nat),(310253749345154671625079388937680638859211521239748004,55%nat));
    ((922163936719000388097467360960527319265362877250661168,54%nat),(266962139675776648056747787931075277878249105658915236,55%nat));
    ((946641690995629061784720596953837078450468344167135051,54%nat),(222398475505787323939507585521689933448757087012999707,55%nat));
    ((966608310396894604736425160892478097116679030609415414,54%nat),(17677535257937590617092546669577088520651278126465788,54%nat));
    ((981968715034540568239318473634341481538365249220461808,54%nat),(130311049915827843206310824696869260271411715826389911,55%nat));
    ((992649998447203741748617120597735344975001643303639351,54%nat),(832318929621824164573585312223385375615793129294822189,56%nat));
    ((998603645181936638156547676900820548092288527214475417,54%nat),(358266315528355893114302865935139257058563635818394461,56%nat))]);
  (46%nat, [(((-998663042133817981128268417390888774584155607434631726),54%nat),(343030086810704828601878314804340444117294580521133124,56%nat));
    (((-992962348906174364073095444666193409121102830908384025),54%nat),(796989822972462245161303892632496542628877099259653938,56%nat));
    (((-982733669804166863477979579659188720219563370298428801),54%nat),(124798837709886842067345717509833751775225473853508905,55%nat));
    (((-968021391853991942737748066371815508522311826353630101),54%nat),(169335140078362380462307136717604313337264438256941511,55%nat));
    (((-948892363446089795622213539436914139525771383293245333),54%nat),(213099987541365010544793610708784018288437765205240164,55%nat));
    (((-925433798806753950977491357699124258882343756438955848),54%nat),(25589286397130010634699512200344028102879560738616994,54%nat));
    (((-89775271153394196570131995131978128945462964530135109),53%nat),(297518295522027557990517292357229370930287538189488675,55%nat));
    (((-865975394866858062915888776816598438687304744337904484),54%nat),(33778627999106896520603893881145328727799480475200311,54%nat));
    (((-830246837066066053032385304790806117995806253970380608),54%nat),(37651305357386071327660799228459117026955119454260672,54%nat));
    (((-79073005707527425518914414742030241114796951308471111),53%nat),(413521901096787297042201758702314784242062241137726262,55%nat));
    (((-747605359615666054000336505268002868905722180002546495),54%nat),(448643952773181267670946135627748564422867005184251784,55%nat));
    (((-701069512020405697512122089426500450249575983149938646),54%nat),(481718951017122005304688632232209366819754923674621692,55%nat));
    (((-651334846201997715106477155816859367227604057318475939),54%nat),(512595980071430213353652993714480334641815016265305325,55%nat));
    (((-598628289712715153177172533600167310148466334564629948),54%nat),(541134153858567544916376432592230752598974690411350662,55%nat));
    (((-543190330261802635270962691028876836033978470384916085),54%nat),(567203258439912358168744036032867145864270226091147547,55%nat));
    (((-485273918388164662772320193708454808319667559283038704),54%nat),(590684345955463148075507226369077370982169484922302968,55%nat));
    (((-425143313282828397322146863428567419169337769107934692),54%nat),(611470277246504810153566079041910377727816328578536076,55%nat));
    (((-363072877020995710123706978514651689847388842857642471),54%nat),(629466210643945081789519522471109312332461650317862209,55%nat));
    (((-299345822701870015483439256577903929356092317554238349),54%nat),(644590034671390695882794391082550639237956450450184925,55%nat));
    (((-234252922206269768626056115573792492574088821990498026),54%nat),(656772742677812073787575656855557676217161397738117155,55%nat));
    (((-168091179467103528606796737427702127447489281836469397),54%nat),(665958747684548873757619664227337019443637088009921093,55%nat));
    (((-10116247530558423951585965700864939088187136050149374),53%nat),(672106136006781758623741548270975961765396811656452022,55%nat));
    (((-337721900160520415195578318914397638159161159962019207),55%nat),(675186858490364588202141891643010802121482695398182551,55%nat));
    ((337721900160520415195578318914397638159161159962019207,55%nat),(675186858490364588202141891643010802121482695398182551,55%nat));
    ((10116247530558423951585965700864939088187136050149374,53%nat),(672106136006781758623741548270975961765396811656452022,55%nat));
    ((168091179467103528606796737427702127447489281836469397,54%nat),(665958747684548873757619664227337019443637088009921093,55%nat));
    ((234252922206269768626056115573792492574088821990498026,54%nat),(656772742677812073787575656855557676217161397738117155,55%nat));
    ((299345822701870015483439256577903929356092317554238349,54%nat),(644590034671390695882794391082550639237956450450184925,55%nat));
    ((363072877020995710123706978514651689847388842857642471,54%nat),(629466210643945081789519522471109312332461650317862209,55%nat));
    ((425143313282828397322146863428567419169337769107934692,54%nat),(611470277246504810153566079041910377727816328578536076,55%nat));
    ((485273918388164662772320193708454808319667559283038704,54%nat),(590684345955463148075507226369077370982169484922302968,55%nat));
    ((543190330261802635270962691028876836033978470384916085,54%nat),(567203258439912358168744036032867145864270226091147547,55%nat));
    ((598628289712715153177172533600167310148466334564629948,54%nat),(541134153858567544916376432592230752598974690411350662,55%nat));
    ((651334846201997715106477155816859367227604057318475939,54%nat),(512595980071430213353652993714480334641815016265305325,55%nat));
    ((701069512020405697512122089426500450249575983149938646,54%nat),(481718951017122005304688632232209366819754923674621692,55%nat));
    ((747605359615666054000336505268002868905722180002546495,54%nat),(448643952773181267670946135627748564422867005184251784,55%nat));
    ((79073005707527425518914414742030241114796951308471111,53%nat),(413521901096787297042201758702314784242062241137726262,55%nat));
    ((830246837066066053032385304790806117995806253970380608,54%nat),(37651305357386071327660799228459117026955119454260672,54%nat));
    ((865975394866858062915888776816598438687304744337904484,54%nat),(33778627999106896520603893881145328727799480475200311,54%nat));
    ((89775271153394196570131995131978128945462964530135109,53%nat),(297518295522027557990517292357229370930287538189488675,55%nat));
    ((925433798806753950977491357699124258882343756438955848,54%nat),(25589286397130010634699512200344028102879560738616994,54%nat));
    ((948892363446089795622213539436914139525771383293245333,54%nat),(213099987541365010544793610708784018288437765205240164,55%nat));
    ((968021391853991942737748066371815508522311826353630101,54%nat),(169335140078362380462307136717604313337264438256941511,55%nat));
    ((982733669804166863477979579659188720219563370298428801,54%nat),(124798837709886842067345717509833751775225473853508905,55%nat));
    ((992962348906174364073095444666193409121102830908384025,54%nat),(796989822972462245161303892632496542628877099259653938,56%nat));
    ((998663042133817981128268417390888774584155607434631726,54%nat),(343030086810704828601878314804340444117294580521133124,56%nat))]);
  (47%nat, [(((-998718728584212109183947714787108491627090651231490809),54%nat),(328745384252801488324996420833617985136062240707094616,56%nat));
    (((-993255210987768634692189684632463608145712084110630735),54%nat),(763861629584883361410435677113165550442058982256510536,56%nat));
    (((-983451003071623708764901034036169851931654219108093774),54%nat),(119628484643123209639434548499485125233929083624680225,55%nat));
    (((-969346787326564497145744277560270805338302946979504136),54%nat),(162353331464330596707256874078986210158929190439750067,55%nat));
    (((-951003969257708442589802923851442422653601515387379029),54%nat),(204369381476684276420347606862553864272310490241569037,55%nat));
    (((-92850269301236064819718492461132098137541878694303399),53%nat),(245492116596588185378341571525057671376631521648313099,55%nat));
    (((-90194132943852535686717130197743563963863448643228478),53%nat),(285541507006433865047399246258110816068752178326918684,55%nat));
    (((-871436015796896316940985464555606171051926526115779609),54%nat),(324342355151847567676174631741701586930886808732865899,55%nat));
    (((-837120139899902121277598948566352364181868949463442594),54%nat),(361724965841749516134599297663112486734452822013805724,55%nat));
    (((-799143754167741942915562069203593012040520856198734943),54%nat),(397525861225310037809013801419610165916494688156830593,55%nat));
    (((-757672918445438633573996523569682201213419910433653433),54%nat),(431588486484795382683017934465031395477193777824471417,55%nat));
    (((-712888973409064301661879327771018811704250245755917143),54%nat),(463763890865059112044018482427450925486960452628959105,55%nat));
    (((-664987747390332729136702648572089061430514814533270926),54%nat),(49391137747361169604570485862004923119994023790494317,54%nat));
    (((-61417869995637360859546254260425368624817994509020475),53%nat),(521899117800571448722119417096760777217349799620321767,55%nat));
    (((-560684005934664194483058317418268791143523454591137439),54%nat),(54760472781530225957125176888504805903795366348507213,54%nat));
    (((-504737583863577919774289025351301090273203119224602529),54%nat),(570915802932315402220166053083827729103294259652469968,55%nat));
    (((-446584073104855702725182142349407959393417005198721099),54%nat),(591730409423388759761545563857412924638323514930740505,55%nat));
    (((-386477764084667139583302387606023270201837608014830015),54%nat),(609957530087396453307105781334375211810932043020158768,55%nat));
    (((-324681486337735902210761299179996836399628916007062326),54%nat),(625517462209216626405643814499535367534158434584604253,55%nat));
    (((-261465459214974570306982966205170974233322733796879725),54%nat),(638342166057170306312937798558135334823363436906859726,55%nat));
    (((-197106110279111807961491358370504617554862870422339665),54%nat),(648375562389457267026039391108060188849947526018283188,55%nat));
    (((-131884866554514897053823530724127241363335153438488913),54%nat),(655573777665497402511430023260759122819998908087335979,55%nat));
    (((-660869239163556751604737774741337085922762739362204089),55%nat),(659905335888104745335706553304982595773582776265029979,55%nat));
    ((0,0%nat),(661351296236554796534403543310549711953604527179312406,55%nat));
    ((660869239163556751604737774741337085922762739362204089,55%nat),(659905335888104745335706553304982595773582776265029979,55%nat));
    ((131884866554514897053823530724127241363335153438488913,54%nat),(655573777665497402511430023260759122819998908087335979,55%nat));
    ((197106110279111807961491358370504617554862870422339665,54%nat),(648375562389457267026039391108060188849947526018283188,55%nat));
    ((261465459214974570306982966205170974233322733796879725,54%nat),(638342166057170306312937798558135334823363436906859726,55%nat));
    ((324681486337735902210761299179996836399628916007062326,54%nat),(625517462209216626405643814499535367534158434584604253,55%nat));
    ((386477764084667139583302387606023270201837608014830015,54%nat),(609957530087396453307105781334375211810932043020158768,55%nat));
    ((446584073104855702725182142349407959393417005198721099,54%nat),(591730409423388759761545563857412924638323514930740505,55%nat));
    ((504737583863577919774289025351301090273203119224602529,54%nat),(570915802932315402220166053083827729103294259652469968,55%nat));
    ((560684005934664194483058317418268791143523454591137439,54%nat),(54760472781530225957125176888504805903795366348507213,54%nat));
    ((61417869995637360859546254260425368624817994509020475,53%nat),(521899117800571448722119417096760777217349799620321767,55%nat));
    ((664987747390332729136702648572089061430514814533270926,54%nat),(49391137747361169604570485862004923119994023790494317,54%nat));
    ((712888973409064301661879327771018811704250245755917143,54%nat),(463763890865059112044018482427450925486960452628959105,55%nat));
    ((757672918445438633573996523569682201213419910433653433,54%nat),(431588486484795382683017934465031395477193777824471417,55%nat));
    ((799143754167741942915562069203593012040520856198734943,54%nat),(397525861225310037809013801419610165916494688156830593,55%nat));
    ((837120139899902121277598948566352364181868949463442594,54%nat),(361724965841749516134599297663112486734452822013805724,55%nat));
    ((871436015796896316940985464555606171051926526115779609,54%nat),(324342355151847567676174631741701586930886808732865899,55%nat));
    ((90194132943852535686717130197743563963863448643228478,53%nat),(285541507006433865047399246258110816068752178326918684,55%nat));
    ((92850269301236064819718492461132098137541878694303399,53%nat),(245492116596588185378341571525057671376631521648313099,55%nat));
    ((951003969257708442589802923851442422653601515387379029,54%nat),(204369381476684276420347606862553864272310490241569037,55%nat));
    ((969346787326564497145744277560270805338302946979504136,54%nat),(162353331464330596707256874078986210158929190439750067,55%nat));
    ((983451003071623708764901034036169851931654219108093774,54%nat),(119628484643123209639434548499485125233929083624680225,55%nat));
    ((993255210987768634692189684632463608145712084110630735,54%nat),(763861629584883361410435677113165550442058982256510536,56%nat));
    ((998718728584212109183947714787108491627090651231490809,54%nat),(328745384252801488324996420833617985136062240707094616,56%nat))]);
  (48%nat, [(((-998771007252426118600541491563113640088937650276721039),54%nat),(31533460523058386326773115438914875782839388316936223,55%nat));
    (((-99353017226635075754792875084907411835661474959467193),53%nat),(732755390127626210238397962178655005870790255920135327,56%nat));
    (((-98412458372282685774458360002659883058923922341738473),53%nat),(114772345792345394895926676090916280864205063087476407,55%nat));
    (((-970591592546247250461411983800660057302433911630883706),54%nat),(155793157229438487281769558344603139763762689915524695,55%nat));
    (((-952987703160430860722960666025718343208541331823918737),54%nat),(196161604573555278144607196522127096958130377341322392,55%nat));
    (((-93138669070655433311417438010160126771999708561895043),53%nat),(235707608393243791405193013784492302217297385221885987,55%nat));
    (((-905879136715569672822074835671011788312262199827410845),54%nat),(27426509708356948200073836262505820451184155161650976,54%nat));
    (((-876572020274247885905693554805096754561648533729961993),54%nat),(311672278327980889020657568463544194542853414835695355,55%nat));
    (((-843588261624393530711089844519656049870887011737552402),54%nat),(347772225647704388925485859638024105972813969070680987,55%nat));
    (((-807066204029442627082553043024538445973013029460415387),54%nat),(382413510658307063172172565237156178638239683549822889,55%nat));
    (((-767159032515740339253855437522969053622642330848207372),54%nat),(415450829434647492140588223610647977534728260340380631,55%nat));
    (((-724034130923814654674482233493665246585092812280722363),54%nat),(446745608566942804194485871258503949884627868625020084,55%nat));
    (((-677872379632663905211851280675909058849954679026048613),54%nat),(476166584924904748259066234789298301579980667434496854,55%nat));
    (((-628867396776513623995164933069994652024908999790161771),54%nat),(503590355538544749578076190878656060329940930259063307,55%nat));
    (((-577224726083972703817809238540478772853997286140195528),54%nat),(528901894851936670955050562646989146617264856331091864,55%nat));
    (((-523160974722233033678225869137508526289187621811884108),54%nat),(551995036999841628682034951916354390044509256075610005,55%nat));
    (((-466902904750958404544928861650798509236812104258516944),54%nat),(572772921004032157051502346847005762415271230041120775,55%nat));
    (((-408686481990716729916225495814633286459922842994888065),54%nat),(591148396983956357464748174335199106596556025570549986,55%nat));
    (((-348755886292160738159817937270407916134309649968392576),54%nat),(607044391658938800529692320278204778852608642564777551,55%nat));
    (((-287362487355455576735886461316797687851558305801039779),54%nat),(620394231598926639041977841375985183063833996650914616,55%nat));
    (((-224763790394689061224865440174692277438561804041654806),54%nat),(631141922862540256571260227502333181274136433711007912,55%nat));
    (((-161222356068891718056437390783497694774374379741895118),54%nat),(639242385846481866239062018255154089189740849826429999,55%nat));
    (((-970046992094626989300539558536245201527362293009369864),55%nat),(644661644359500822065041936577050657256919244555303088,55%nat));
    (((-323801709628693620333222431521344420459628023615180924),55%nat),(6473769681268392250302493873659155355208191894663651,53%nat));
    ((323801709628693620333222431521344420459628023615180924,55%nat),(6473769681268392250302493873659155355208191894663651,53%nat));
    ((970046992094626989300539558536245201527362293009369864,55%nat),(644661644359500822065041936577050657256919244555303088,55%nat));
    ((161222356068891718056437390783497694774374379741895118,54%nat),(639242385846481866239062018255154089189740849826429999,55%nat));
    ((224763790394689061224865440174692277438561804041654806,54%nat),(631141922862540256571260227502333181274136433711007912,55%nat));
    ((287362487355455576735886461316797687851558305801039779,54%nat),(620394231598926639041977841375985183063833996650914616,55%nat));
    ((348755886292160738159817937270407916134309649968392576,54%nat),(607044391658938800529692320278204778852608642564777551,55%nat));
    ((408686481990716729916225495814633286459922842994888065,54%nat),(591148396983956357464748174335199106596556025570549986,55%nat));
    ((466902904750958404544928861650798509236812104258516944,54%nat),(572772921004032157051502346847005762415271230041120775,55%nat));
    ((523160974722233033678225869137508526289187621811884108,54%nat),(551995036999841628682034951916354390044509256075610005,55%nat));
    ((577224726083972703817809238540478772853997286140195528,54%nat),(528901894851936670955050562646989146617264856331091864,55%nat));
    ((628867396776513623995164933069994652024908999790161771,54%nat),(503590355538544749578076190878656060329940930259063307,55%nat));
    ((677872379632663905211851280675909058849954679026048613,54%nat),(476166584924904748259066234789298301579980667434496854,55%nat));
    ((724034130923814654674482233493665246585092812280722363,54%nat),(446745608566942804194485871258503949884627868625020084,55%nat));
    ((767159032515740339253855437522969053622642330848207372,54%nat),(415450829434647492140588223610647977534728260340380631,55%nat));
    ((807066204029442627082553043024538445973013029460415387,54%nat),(382413510658307063172172565237156178638239683549822889,55%nat));
    ((843588261624393530711089844519656049870887011737552402,54%nat),(347772225647704388925485859638024105972813969070680987,55%nat));
    ((876572020274247885905693554805096754561648533729961993,54%nat),(311672278327980889020657568463544194542853414835695355,55%nat));
    ((905879136715569672822074835671011788312262199827410845,54%nat),(27426509708356948200073836262505820451184155161650976,54%nat));
    ((93138669070655433311417438010160126771999708561895043,53%nat),(235707608393243791405193013784492302217297385221885987,55%nat));
    ((952987703160430860722960666025718343208541331823918737,54%nat),(196161604573555278144607196522127096958130377341322392,55%nat));
    ((970591592546247250461411983800660057302433911630883706,54%nat),(155793157229438487281769558344603139763762689915524695,55%nat));
    ((98412458372282685774458360002659883058923922341738473,53%nat),(114772345792345394895926676090916280864205063087476407,55%nat));
    ((99353017226635075754792875084907411835661474959467193,53%nat),(732755390127626210238397962178655005870790255920135327,56%nat));
    ((998771007252426118600541491563113640088937650276721039,54%nat),(31533460523058386326773115438914875782839388316936223,55%nat))]);
  (49%nat, [(((-998820150606635379361831272704110655123680997864501964),54%nat),(302727898892290507748069817582714097283004200383177339,56%nat));
    (((-993788661944167790760113859257953618841307394938650168),54%nat),(703509959008645147345067831134841086286385703902733685,56%nat));
    (((-984757895914213004359298995368574710353307462145252953),54%nat),(11020551031593580497508288166833332752193560544957745,54%nat));
    (((-971762200901555380139972421504774133497862547180905693),54%nat),(149621449356246510295843191202015040362810163727672786,55%nat));
    (((-954853658674137233555243679668184419054694451900273792),54%nat),(188435958530894584444506533911073492677499020192522803,55%nat));
    (((-934100294755810149058982460636544902460422952810191994),54%nat),(22649201587446676498770964216042887326797499023264776,54%nat));
    (((-909585655828073285213019640355800071042771231116718039),54%nat),(263636189270660169609457452397420476944609717657405082,55%nat));
    (((-88140844557300891003703153581700492615924003726239134),53%nat),(299718846205838253506905580741472100620720359508768289,55%nat));
    (((-849682119844165701034881872242979333326604332464716249),54%nat),(334594667916221743424871508916892018494798678602284556,55%nat));
    (((-814534427359855431539500787764777044494672135822753352),54%nat),(368123209630006898194672366988822950013615524059829569,55%nat));
    (((-776106894345446635018142812248456071264450461829181865),54%nat),(400169457663730213686050367431033214278646074650014685,55%nat));
    (((-734554254237402696213674212858524884652835453323701834),54%nat),(430604369812595979883454840010384958067135812398217601,55%nat));
    (((-690043824425132113504751807274941927633505126189035751),54%nat),(459305393555958535424996199721276710088243223546234087,55%nat));
    (((-642754832419237664056856948583900109540335472253277533),54%nat),(486156958878282402776511972878685308813689286185930726,55%nat));
    (((-59287769410890071245586433679262853463300101531884759),53%nat),(511050943301445906746228060493185613896124493297433889,55%nat));
    (((-540613246991726066558225467229435916924101346238365847),54%nat),(533887107082589685279429337301762061655860694482272094,55%nat));
    (((-486171941452492042176976096058575062075115194334936605),54%nat),(554573496748035886904315814826980672042515240737943838,55%nat));
    (((-42977299334157652465858414180742303306341789787807201),53%nat),(573026815301874754851645923508165363505804388031196816,55%nat));
    (((-371643501262284888863734540946960527614744786733926977),54%nat),(589172757600272660245276507424925162624961138594794598,55%nat));
    (((-31201753211974876220786067650641626509683340799438725),53%nat),(602946309531520173031061168755415904977765089197254878,55%nat));
    (((-251135178612577273507155942824611274582984174573664251),54%nat),(614292009791929362968266461403010749431900091920979337,55%nat));
    (((-189241592461813586485310173859986511179678877678819089),54%nat),(623164173200572674010768252159497042241335362213208338,55%nat));
    (((-126585997269672051067985288575536190324487121066866714),54%nat),(629527074651956994743995557828910063637254277695700414,55%nat));
    (((-634206849826867860288348208784849731527868727788803875),55%nat),(633355092964917485908369274000905201479714165648258204,55%nat));
    ((0,0%nat),(634632814047905977182534678795296349996295223082522192,55%nat));
    ((634206849826867860288348208784849731527868727788803875,55%nat),(633355092964917485908369274000905201479714165648258204,55%nat));
    ((126585997269672051067985288575536190324487121066866714,54%nat),(629527074651956994743995557828910063637254277695700414,55%nat));
    ((189241592461813586485310173859986511179678877678819089,54%nat),(623164173200572674010768252159497042241335362213208338,55%nat));
    ((251135178612577273507155942824611274582984174573664251,54%nat),(614292009791929362968266461403010749431900091920979337,55%nat));
    ((31201753211974876220786067650641626509683340799438725,53%nat),(602946309531520173031061168755415904977765089197254878,55%nat));
    ((371643501262284888863734540946960527614744786733926977,54%nat),(589172757600272660245276507424925162624961138594794598,55%nat));
    ((42977299334157652465858414180742303306341789787807201,53%nat),(573026815301874754851645923508165363505804388031196816,55%nat));
    ((486171941452492042176976096058575062075115194334936605,54%nat),(554573496748035886904315814826980672042515240737943838,55%nat));
    ((540613246991726066558225467229435916924101346238365847,54%nat),(533887107082589685279429337301762061655860694482272094,55%nat));
    ((59287769410890071245586433679262853463300101531884759,53%nat),(511050943301445906746228060493185613896124493297433889,55%nat));
    ((642754832419237664056856948583900109540335472253277533,54%nat),(486156958878282402776511972878685308813689286185930726,55%nat));
    ((690043824425132113504751807274941927633505126189035751,54%nat),(459305393555958535424996199721276710088243223546234087,55%nat));
    ((734554254237402696213674212858524884652835453323701834,54%nat),(430604369812595979883454840010384958067135812398217601,55%nat));
    ((776106894345446635018142812248456071264450461829181865,54%nat),(400169457663730213686050367431033214278646074650014685,55%nat));
    ((814534427359855431539500787764777044494672135822753352,54%nat),(368123209630006898194672366988822950013615524059829569,55%nat));
    ((849682119844165701034881872242979333326604332464716249,54%nat),(334594667916221743424871508916892018494798678602284556,55%nat));
    ((88140844557300891003703153581700492615924003726239134,53%nat),(299718846205838253506905580741472100620720359508768289,55%nat));
    ((909585655828073285213019640355800071042771231116718039,54%nat),(263636189270660169609457452397420476944609717657405082,55%nat));
    ((934100294755810149058982460636544902460422952810191994,54%nat),(22649201587446676498770964216042887326797499023264776,54%nat));
    ((954853658674137233555243679668184419054694451900273792,54%nat),(188435958530894584444506533911073492677499020192522803,55%nat));
    ((971762200901555380139972421504774133497862547180905693,54%nat),(149621449356246510295843191202015040362810163727672786,55%nat));
    ((984757895914213004359298995368574710353307462145252953,54%nat),(11020551031593580497508288166833332752193560544957745,54%nat));
    ((993788661944167790760113859257953618841307394938650168,54%nat),(703509959008645147345067831134841086286385703902733685,56%nat));
    ((998820150606635379361831272704110655123680997864501964,54%nat),(302727898892290507748069817582714097283004200383177339,56%nat))]);
  (50%nat, [(((-998866404420071050185459444974218505996243512904078525),54%nat),(290862255315514095840072434285548080667299645994632062,56%nat));
    (((-99403196943209071258510820042069472815747797106832359),53%nat),(675979919574540150277887817798503180187383240646681055,56%nat));
    (((-985354084048005882309009625632489404015592630945405809),54%nat),(105905483836509692635696814992410223394018190864591295,55%nat));
    (((-972864385106692073713344104606252053669173407049954202),54%nat),(143808227614855744193789089273243499370317861705878928,55%nat));
    (((-956610955242807942997745644156622094051434124626046543),54%nat),(181155607134893903512599434223546198446673170497340354,55%nat));
    (((-936656618944877933780874947272496602153731598095202922),54%nat),(21780243170124792981592069062690341227313462357934296,54%nat));
    (((-91307855665579189308973564277165709478418819169778239),53%nat),(253606735700123904401948783854427234601612599757121373,55%nat));
    (((-885967979523613048637540982466753634194290310755808362),54%nat),(288429935805351980299063731132324325178468655935374578,55%nat));
    (((-855429769429946084611362643934757467654833039486905963),54%nat),(322137282235780166481658273230039534485890588334252172,55%nat));
    (((-821582070859335948356254110873939537760741383343485749),54%nat),(354598356151461541607346110009757970969600004969844709,55%nat));
    (((-784555832900399263905305196340991200847316272556444353),54%nat),(385687566125876752447701502363859348647717050005189265,55%nat));
    (((-744494302226068538260536252682194242870187931329584579),54%nat),(415284630901476974224119789640670178089779754858409901,55%nat));
    (((-701552468706822251089546257883655728149719228484695643),54%nat),(443275043388032754920222868303941974607612983554531657,55%nat));
    (((-655896465685439360781624864003679819041410528382331827),54%nat),(4695505130394843296563301363498768251406430618605273,53%nat));
    (((-607702927184950239180381796391832893604205020675994356),54%nat),(494009384494663149212435807514327286922870509666131248,55%nat));
    (((-557158304514650054315522909625801607815898382237750261),54%nat),(516557030695811384899052958400952796498254493954396451,55%nat));
    (((-504458144907464201651459131849141192635378678270679238),54%nat),(53710621888996246523458797255664552768023213529922153,54%nat));
    (((-449806334974038789147131467778375817315064513465173666),54%nat),(555577448062125176235674256122694975951352999839026758,55%nat));
    (((-393414311897565127394229253823817270246139468672656003),54%nat),(571899256477283837230293150659931630115753722570917549,55%nat));
    (((-335500245419437356836988257291071697841218593036795762),54%nat),(586008498132224458351224366308484662097675134440254733,55%nat));
    (((-276288193779531990327645278521130185714801587131996151),54%nat),(597850587042654575095764053125852307966660420726690046,55%nat));
    (((-216007236876041756847284532617101333705755972510133273),54%nat),(607379708417702160317500153848110016097992732354035357,55%nat));
    (((-154890589998145902071628620941109501201850220054937632),54%nat),(614558995903166637564067860839153750972675757640075143,55%nat));
    (((-931747015600861408544503776396003478856713839221386147),55%nat),(619360674206832433840875097808306885728770566912449049,55%nat));
    (((-31098338327188876112328989665949194247296222959998043),54%nat),(621766166553472623210331073606134308676824692010266331,55%nat));
    ((31098338327188876112328989665949194247296222959998043,54%nat),(621766166553472623210331073606134308676824692010266331,55%nat));
    ((931747015600861408544503776396003478856713839221386147,55%nat),(619360674206832433840875097808306885728770566912449049,55%nat));
    ((154890589998145902071628620941109501201850220054937632,54%nat),(614558995903166637564067860839153750972675757640075143,55%nat));
    ((216007236876041756847284532617101333705755972510133273,54%nat),(607379708417702160317500153848110016097992732354035357,55%nat));
    ((276288193779531990327645278521130185714801587131996151,54%nat),(597850587042654575095764053125852307966660420726690046,55%nat));
    ((335500245419437356836988257291071697841218593036795762,54%nat),(586008498132224458351224366308484662097675134440254733,55%nat));
    ((393414311897565127394229253823817270246139468672656003,54%nat),(571899256477283837230293150659931630115753722570917549,55%nat));
    ((449806334974038789147131467778375817315064513465173666,54%nat),(555577448062125176235674256122694975951352999839026758,55%nat));
    ((504458144907464201651459131849141192635378678270679238,54%nat),(53710621888996246523458797255664552768023213529922153,54%nat));
    ((557158304514650054315522909625801607815898382237750261,54%nat),(516557030695811384899052958400952796498254493954396451,55%nat));
    ((607702927184950239180381796391832893604205020675994356,54%nat),(494009384494663149212435807514327286922870509666131248,55%nat));
    ((655896465685439360781624864003679819041410528382331827,54%nat),(4695505130394843296563301363498768251406430618605273,53%nat));
    ((701552468706822251089546257883655728149719228484695643,54%nat),(443275043388032754920222868303941974607612983554531657,55%nat));
    ((744494302226068538260536252682194242870187931329584579,54%nat),(415284630901476974224119789640670178089779754858409901,55%nat));
    ((784555832900399263905305196340991200847316272556444353,54%nat),(385687566125876752447701502363859348647717050005189265,55%nat));
    ((821582070859335948356254110873939537760741383343485749,54%nat),(354598356151461541607346110009757970969600004969844709,55%nat));
    ((855429769429946084611362643934757467654833039486905963,54%nat),(322137282235780166481658273230039534485890588334252172,55%nat));
    ((885967979523613048637540982466753634194290310755808362,54%nat),(288429935805351980299063731132324325178468655935374578,55%nat));
    ((91307855665579189308973564277165709478418819169778239,53%nat),(253606735700123904401948783854427234601612599757121373,55%nat));
    ((936656618944877933780874947272496602153731598095202922,54%nat),(21780243170124792981592069062690341227313462357934296,54%nat));
    ((956610955242807942997745644156622094051434124626046543,54%nat),(181155607134893903512599434223546198446673170497340354,55%nat));
    ((972864385106692073713344104606252053669173407049954202,54%nat),(143808227614855744193789089273243499370317861705878928,55%nat));
    ((985354084048005882309009625632489404015592630945405809,54%nat),(105905483836509692635696814992410223394018190864591295,55%nat));
    ((99403196943209071258510820042069472815747797106832359,53%nat),(675979919574540150277887817798503180187383240646681055,56%nat));
    ((998866404420071050185459444974218505996243512904078525,54%nat),(290862255315514095840072434285548080667299645994632062,56%nat))]);
  (51%nat, [(((-99890999084890349516899587727338563708424992188818879),53%nat),(279680717108989557554421688180904822421769963401154217,56%nat));
    (((-994261260436752574621084897949263128231784390279014997),54%nat),(650033778325260029210937519853752883309494300542583879,56%nat));
    (((-985915991735902996583885707558309632652115778087196917),54%nat),(101851912978217299392375917866067283858116360842121004,55%nat));
    (((-973903368019323867231755486394186639013106506315712867),54%nat),(138326340064778222966884530218564159560185520765720385,55%nat));
    (((-958267848613908194557707038316323727612444018555868847),54%nat),(174287147234010522595036464332924355683567782936189403,55%nat));
    (((-939067544002962383435367806390905144165163822150168441),54%nat),(209599884017032105797926184015141720730404851884300961,55%nat));
    (((-916373862309780230823571294251475879366042671731375653),54%nat),(244133005737814342731415654168982087436831704720281841,55%nat));
    (((-890271218029527303277795370736726893557799798870588831),54%nat),(277757985941624771959956656322089163683512486485378396,55%nat));
    (((-860856711182292371473495743716111323577344925510962628),54%nat),(310349712901600084544255029565473772961089781662175129,55%nat));
    (((-82823976382306483285481842401656236426238778158632526),53%nat),(341786932041883362362093385947675290488258635830977047,55%nat));
    (((-792541712099381205234410878375875730157322463748367714),54%nat),(3719526892326029284290827581187102513411271037373731,53%nat));
    (((-753895354485375525763960025452473987630637363814676515),54%nat),(400734762854964531868091159213959112011643310287352421,55%nat));
    (((-712444457577036644580524855400145643036944790217248147),54%nat),(428026079978800866536095142442857008371752740218520776,55%nat));
    (((-668343221175370086864460419403988875929608511773375996),54%nat),(453725114076500687481668149884378513138299567195096436,55%nat));
    (((-621755704600723273755042745403315950054387566870162836),54%nat),(477736262406231019999953537073536173405392804756578877,55%nat));
    (((-572855216351303836522394702590190907420943120723799457),54%nat),(499970201500574097795488553620057855687367493859867075,55%nat));
    (((-521823669366185842514087784826818024569350245869358049),54%nat),(52034421936697087564136447468662373215483974714382203,54%nat));
    (((-46885090428604106361045725881162246880672263543008758),53%nat),(538782523130455614340993016969719837600599677404453317,55%nat));
    (((-414133983226303877936871809744657907923977170469394563),54%nat),(555216520957386930167370590936241607808637054155963884,55%nat));
    (((-357876456688409509775201088519666356896383922095968334),54%nat),(569585077202586621000777267342771648784094503250927945,55%nat));
    (((-300287606335331939530245649644420333331338380513049916),54%nat),(581834739825921405984378776617759326678012576445445826,55%nat));
    (((-241581666447798703846733114869262423738793246472413578),54%nat),(591919939229615437835390077491546088709300460360711795,55%nat));
    (((-181977026957077545323998701169214449923920116534003313),54%nat),(599803157775032520900639879965171161730620955454330036,55%nat));
    (((-121695421018888766963820420963181108745303287484469844),54%nat),(605455069347377951381252514677541627536849343772409734,55%nat));
    (((-609611001505787247341947068432054046970304642695197844),55%nat),(608854648448563438811986142226962197280760102802736524,55%nat));
    ((0,0%nat),(609989248412058801597976430983560505571218015265784498,55%nat));
    ((609611001505787247341947068432054046970304642695197844,55%nat),(608854648448563438811986142226962197280760102802736524,55%nat));
    ((121695421018888766963820420963181108745303287484469844,54%nat),(605455069347377951381252514677541627536849343772409734,55%nat));
    ((181977026957077545323998701169214449923920116534003313,54%nat),(599803157775032520900639879965171161730620955454330036,55%nat));
    ((241581666447798703846733114869262423738793246472413578,54%nat),(591919939229615437835390077491546088709300460360711795,55%nat));
    ((300287606335331939530245649644420333331338380513049916,54%nat),(581834739825921405984378776617759326678012576445445826,55%nat));
    ((357876456688409509775201088519666356896383922095968334,54%nat),(569585077202586621000777267342771648784094503250927945,55%nat));
    ((414133983226303877936871809744657907923977170469394563,54%nat),(555216520957386930167370590936241607808637054155963884,55%nat));
    ((46885090428604106361045725881162246880672263543008758,53%nat),(538782523130455614340993016969719837600599677404453317,55%nat));
    ((521823669366185842514087784826818024569350245869358049,54%nat),(52034421936697087564136447468662373215483974714382203,54%nat));
    ((572855216351303836522394702590190907420943120723799457,54%nat),(499970201500574097795488553620057855687367493859867075,55%nat));
    ((621755704600723273755042745403315950054387566870162836,54%nat),(477736262406231019999953537073536173405392804756578877,55%nat));
    ((668343221175370086864460419403988875929608511773375996,54%nat),(453725114076500687481668149884378513138299567195096436,55%nat));
    ((712444457577036644580524855400145643036944790217248147,54%nat),(428026079978800866536095142442857008371752740218520776,55%nat));
    ((753895354485375525763960025452473987630637363814676515,54%nat),(400734762854964531868091159213959112011643310287352421,55%nat));
    ((792541712099381205234410878375875730157322463748367714,54%nat),(3719526892326029284290827581187102513411271037373731,53%nat));
    ((82823976382306483285481842401656236426238778158632526,53%nat),(341786932041883362362093385947675290488258635830977047,55%nat));
    ((860856711182292371473495743716111323577344925510962628,54%nat),(310349712901600084544255029565473772961089781662175129,55%nat));
    ((890271218029527303277795370736726893557799798870588831,54%nat),(277757985941624771959956656322089163683512486485378396,55%nat));
    ((916373862309780230823571294251475879366042671731375653,54%nat),(244133005737814342731415654168982087436831704720281841,55%nat));
    ((939067544002962383435367806390905144165163822150168441,54%nat),(209599884017032105797926184015141720730404851884300961,55%nat));
    ((958267848613908194557707038316323727612444018555868847,54%nat),(174287147234010522595036464332924355683567782936189403,55%nat));
    ((973903368019323867231755486394186639013106506315712867,54%nat),(138326340064778222966884530218564159560185520765720385,55%nat));
    ((985915991735902996583885707558309632652115778087196917,54%nat),(101851912978217299392375917866067283858116360842121004,55%nat));
    ((994261260436752574621084897949263128231784390279014997,54%nat),(650033778325260029210937519853752883309494300542583879,56%nat));
    ((99890999084890349516899587727338563708424992188818879,53%nat),(279680717108989557554421688180904822421769963401154217,56%nat))]);
  (52%nat, [(((-998951111103950278090961440716592561278013261115357562),54%nat),(269131695004711111895217986884521802366937376106490042,56%nat));
    (((-994477590929216029245043271799571706631911776097882171),54%nat),(625552396297327689971610216981454661641170465313125936,56%nat));
    (((-986446195651549840645322859118397368022739035827326233),54%nat),(980263457946275206195116811668950232783841185727930527,56%nat));
    (((-974883884221744503140706470399645554459923663945938398),54%nat),(133151149823409606566003444777991485546764997333043912,55%nat));
    (((-959831826933086552532025153425065442787847476037677415),54%nat),(16780023396300735677921536870520162083415809163818516,54%nat));
    (((-9413438536413590568435791838505670058287655454363192),52%nat),(201848915079807922029890342094782372367124670848078202,55%nat));
    (((-919486128916424539893596376541881585029520272702472057),54%nat),(235175135539844615903225199100546094292291290029855012,55%nat));
    (((-894336890534495322520844088263527555345580995562376493),54%nat),(267659537465040134494930802860183788552618844990582873,55%nat));
    (((-865986162846067585244358517624206940898338952624290824),54%nat),(299185811471439466412820687399708879321233155105875175,55%nat));
    (((-834535432326734534961726389621238685245936312669226053),54%nat),(329641090897187979150100447786951961767273925745843488,55%nat));
    (((-800097283430468324334758754225807651197641858607701581),54%nat),(358916348350972329419423932852807387853385030651726363,55%nat));
    (((-762794995193744960279211163089050840791830574507621547),54%nat),(386906783104239789851012067403526469280782659935645861,55%nat));
    (((-72276209974998319367681667607193595478399390521472002),53%nat),(413512195005602716790402864239551629382699693154642277,55%nat));
    (((-680141904227167702092238779736641007900996710165775916),54%nat),(43863734259000407995129665578764450164160666530204816,54%nat));
    (((-635086977695245924298124579288809653593598988954989663),54%nat),(462192283727847935076457053352846392239010216264228405,55%nat));
    (((-58775860497957906990202578155720422388122016653804349),53%nat),(484092697440748968539602492860462780097495217284633973,55%nat));
    (((-538326209285827438375951167975356763823490141403080973),54%nat),(50426018566342377218211254082858754462577958765539797,54%nat));
    (((-486966745698096077782458241346465556850455039719023688),54%nat),(522622553839069930343941444263921437081990780858669849,55%nat));
    (((-433864067718761670309086568209780260743745852418403386),54%nat),(539114069327572647508368248937999595766012469593051259,55%nat));
    (((-379208269116093669246681766939448880462121591351196609),54%nat),(553675696693026525490410934512185822901540032510420234,55%nat));
    (((-323195003434807825501099066601447179054047533806579458),54%nat),(566255309023685971908082404783701505672200728147146762,55%nat));
    (((-266024783605001827472971730598839884455924374962184668),54%nat),(576807874525268276539319976634035195394398350513375845,55%nat));
    (((-207902264156366059686466128122345518272662810828204647),54%nat),(585295617718138685502905989716236936380687327423255988,55%nat));
    (((-149035508606949180488634040018113570322269761888233532),54%nat),(591688154660429703693320023948709783254170522175978798,55%nat));
    (((-896352446489005654888546911223993031698512871901984205),55%nat),(595962601712481582583108787484149536622772803819419155,55%nat));
    (((-299141097973387660436807760707999268188436082499469816),55%nat),(598103657452918602477853788114774609444808036304140629,55%nat));
    ((299141097973387660436807760707999268188436082499469816,55%nat),(598103657452918602477853788114774609444808036304140629,55%nat));
    ((896352446489005654888546911223993031698512871901984205,55%nat),(595962601712481582583108787484149536622772803819419155,55%nat));
    ((149035508606949180488634040018113570322269761888233532,54%nat),(591688154660429703693320023948709783254170522175978798,55%nat));
    ((207902264156366059686466128122345518272662810828204647,54%nat),(585295617718138685502905989716236936380687327423255988,55%nat));
    ((266024783605001827472971730598839884455924374962184668,54%nat),(576807874525268276539319976634035195394398350513375845,55%nat));
    ((323195003434807825501099066601447179054047533806579458,54%nat),(566255309023685971908082404783701505672200728147146762,55%nat));
    ((379208269116093669246681766939448880462121591351196609,54%nat),(553675696693026525490410934512185822901540032510420234,55%nat));
    ((433864067718761670309086568209780260743745852418403386,54%nat),(539114069327572647508368248937999595766012469593051259,55%nat));
    ((486966745698096077782458241346465556850455039719023688,54%nat),(522622553839069930343941444263921437081990780858669849,55%nat));
    ((538326209285827438375951167975356763823490141403080973,54%nat),(50426018566342377218211254082858754462577958765539797,54%nat));
    ((58775860497957906990202578155720422388122016653804349,53%nat),(484092697440748968539602492860462780097495217284633973,55%nat));
    ((635086977695245924298124579288809653593598988954989663,54%nat),(462192283727847935076457053352846392239010216264228405,55%nat));
    ((680141904227167702092238779736641007900996710165775916,54%nat),(43863734259000407995129665578764450164160666530204816,54%nat));
    ((72276209974998319367681667607193595478399390521472002,53%nat),(413512195005602716790402864239551629382699693154642277,55%nat));
    ((762794995193744960279211163089050840791830574507621547,54%nat),(386906783104239789851012067403526469280782659935645861,55%nat));
    ((800097283430468324334758754225807651197641858607701581,54%nat),(358916348350972329419423932852807387853385030651726363,55%nat));
    ((834535432326734534961726389621238685245936312669226053,54%nat),(329641090897187979150100447786951961767273925745843488,55%nat));
    ((865986162846067585244358517624206940898338952624290824,54%nat),(299185811471439466412820687399708879321233155105875175,55%nat));
    ((894336890534495322520844088263527555345580995562376493,54%nat),(267659537465040134494930802860183788552618844990582873,55%nat));
    ((919486128916424539893596376541881585029520272702472057,54%nat),(235175135539844615903225199100546094292291290029855012,55%nat));
    ((9413438536413590568435791838505670058287655454363192,52%nat),(201848915079807922029890342094782372367124670848078202,55%nat));
    ((959831826933086552532025153425065442787847476037677415,54%nat),(16780023396300735677921536870520162083415809163818516,54%nat));
    ((974883884221744503140706470399645554459923663945938398,54%nat),(133151149823409606566003444777991485546764997333043912,55%nat));
    ((986446195651549840645322859118397368022739035827326233,54%nat),(980263457946275206195116811668950232783841185727930527,56%nat));
    ((994477590929216029245043271799571706631911776097882171,54%nat),(625552396297327689971610216981454661641170465313125936,56%nat));
    ((998951111103950278090961440716592561278013261115357562,54%nat),(269131695004711111895217986884521802366937376106490042,56%nat))]);
  (53%nat, [(((-998989947776328227121054267032199522587309515651732544),54%nat),(259168372056703181159923943851093098476299769302276968,56%nat));
    (((-994681919308007078636035893483993904182826594387975161),54%nat),(602427622694867328124170681629985910095415207448441756,56%nat));
    (((-986947035023371521720373081310578188412199510179296258),54%nat),(944120228494034438666217882032514328370781491404681093,56%nat));
    (((-975810233714984581632983858106362093512798003573911897),54%nat),(128260261442403791791501829692037317681640087345531042,55%nat));
    (((-961309694623136332369858193682639747050422671972138),51%nat),(161667252566874639280608284040399014377347313970191805,55%nat));
    (((-943495353464441879021070667696192775681857500148015665),54%nat),(194517211076368953880469222274969404194473647164936671,55%nat));
    (((-922428603042812128267819100082516551349942542412314707),54%nat),(226696730570702083987892752398278094682488078051167845,55%nat));
    (((-898182057875426625925520029973081195567045739001750682),54%nat),(258094825107575177139618881666294409037504184422655036,55%nat));
    (((-870839297558241351601700086888594089821280167981174041),54%nat),(288603236178237362627995530435832618626692062898485273,55%nat));
    (((-840494576545801375430127509829946796899962493735098169),54%nat),(318116784590193230632358620310809202606800700870432844,55%nat));
    (((-807252498416895478220485638025907210177632560655530226),54%nat),(34653372583534237958387720513010713571317935430580936,54%nat));
    (((-771227654925532307866035875626039741261354413619946772),54%nat),(373756098034829156741719727853942222098480943725185586,55%nat));
    (((-73254423080751025378213558672175023156563327376066931),53%nat),(399690058435403821270935457878636259190084633749648655,55%nat));
    (((-691335575601366723540748823138944565415495376404183951),54%nat),(424246206345200135922816375684503988065642079754230073,55%nat));
    (((-647743743916510068751106189938633421813560044836402242),54%nat),(447339891036728102127656459185636061376018837171479008,55%nat));
    (((-601919005713769327464294371964623613092953365731746375),54%nat),(468891503407503140218726395651049478658255358333036262,55%nat));
    (((-554019328277067881014734990810049287255760837824321594),54%nat),(488826750326991404204484075835840834065845146462682929,55%nat));
    (((-504209831657133437039116972887958033395462227703774726),54%nat),(507076910692927152964854826345305375999903733365938147,55%nat));
    (((-452662219461845791383144760753315883620479588499372561),54%nat),(523579072298727181997015209893607044544197086972156836,55%nat));
    (((-399554186953952977392563136238397571894511656706946257),54%nat),(538276348687310290420814416354026743128101996789120203,55%nat));
    (((-345068808495722356694310646069500914856093345832935451),54%nat),(551118075239335990023497047658673875514124884898266221,55%nat));
    (((-289393906451626206426547006594012767796057401466450231),54%nat),(562059983817397098086550620914449937514572251748036418,55%nat));
    (((-232721403724272593643363642199916218526209311521638329),54%nat),(571064355362671917733833392984188413388344954246130617,55%nat));
    (((-175246662155325750729791009132895245828916149942189115),54%nat),(57810014991713196319683076097252062860029011238475865,54%nat));
    (((-117167809071955150140256808779323767923321052344431879),54%nat),(583143113622560075562757563376972560520799512442547357,55%nat));
    (((-586850543002594650227119458332315377355912839026442383),55%nat),(586175862327202633180719370499889415345994806622769869,55%nat));
    ((0,0%nat),(587187941511643645254869444421341262749937170978526623,55%nat));
    ((586850543002594650227119458332315377355912839026442383,55%nat),(586175862327202633180719370499889415345994806622769869,55%nat));
    ((117167809071955150140256808779323767923321052344431879,54%nat),(583143113622560075562757563376972560520799512442547357,55%nat));
    ((175246662155325750729791009132895245828916149942189115,54%nat),(57810014991713196319683076097252062860029011238475865,54%nat));
    ((232721403724272593643363642199916218526209311521638329,54%nat),(571064355362671917733833392984188413388344954246130617,55%nat));
    ((289393906451626206426547006594012767796057401466450231,54%nat),(562059983817397098086550620914449937514572251748036418,55%nat));
    ((345068808495722356694310646069500914856093345832935451,54%nat),(551118075239335990023497047658673875514124884898266221,55%nat));
    ((399554186953952977392563136238397571894511656706946257,54%nat),(538276348687310290420814416354026743128101996789120203,55%nat));
    ((452662219461845791383144760753315883620479588499372561,54%nat),(523579072298727181997015209893607044544197086972156836,55%nat));
    ((504209831657133437039116972887958033395462227703774726,54%nat),(507076910692927152964854826345305375999903733365938147,55%nat));
    ((554019328277067881014734990810049287255760837824321594,54%nat),(488826750326991404204484075835840834065845146462682929,55%nat));
    ((601919005713769327464294371964623613092953365731746375,54%nat),(468891503407503140218726395651049478658255358333036262,55%nat));
    ((647743743916510068751106189938633421813560044836402242,54%nat),(447339891036728102127656459185636061376018837171479008,55%nat));
    ((691335575601366723540748823138944565415495376404183951,54%nat),(424246206345200135922816375684503988065642079754230073,55%nat));
    ((73254423080751025378213558672175023156563327376066931,53%nat),(399690058435403821270935457878636259190084633749648655,55%nat));
    ((771227654925532307866035875626039741261354413619946772,54%nat),(373756098034829156741719727853942222098480943725185586,55%nat));
    ((807252498416895478220485638025907210177632560655530226,54%nat),(34653372583534237958387720513010713571317935430580936,54%nat));
    ((840494576545801375430127509829946796899962493735098169,54%nat),(318116784590193230632358620310809202606800700870432844,55%nat));
    ((870839297558241351601700086888594089821280167981174041,54%nat),(288603236178237362627995530435832618626692062898485273,55%nat));
    ((898182057875426625925520029973081195567045739001750682,54%nat),(258094825107575177139618881666294409037504184422655036,55%nat));
    ((922428603042812128267819100082516551349942542412314707,54%nat),(226696730570702083987892752398278094682488078051167845,55%nat));
    ((943495353464441879021070667696192775681857500148015665,54%nat),(194517211076368953880469222274969404194473647164936671,55%nat));
    ((961309694623136332369858193682639747050422671972138,51%nat),(161667252566874639280608284040399014377347313970191805,55%nat));
    ((975810233714984581632983858106362093512798003573911897,54%nat),(128260261442403791791501829692037317681640087345531042,55%nat));
    ((986947035023371521720373081310578188412199510179296258,54%nat),(944120228494034438666217882032514328370781491404681093,56%nat));
    ((994681919308007078636035893483993904182826594387975161,54%nat),(602427622694867328124170681629985910095415207448441756,56%nat));
    ((998989947776328227121054267032199522587309515651732544,54%nat),(259168372056703181159923943851093098476299769302276968,56%nat))]);
  (54%nat, [(((-999026666867340983851071106983958493198042785796960332),54%nat),(249748183576158577594603875726602987918509746682711194,56%nat));
    (((-994875117018338884918889995948702659484126758886999829),54%nat),(580561101523998487882588774587527341152465198940366679,56%nat));
    (((-987420637397343558552145720403546261534036290839238588),54%nat),(909936945550939694803352106241926172187472240798218021,56%nat));
    (((-976686328857903237200010071988306857467805973240003412),54%nat),(12363328128847644166467824260188096463994498948433693,54%nat));
    (((-96270764578592358325699392690538994353691817470203757),53%nat),(155863030359241317029689097058367654685878223576398962,55%nat));
    (((-945530975164995853763837022906180412563436588500986407),54%nat),(187575276214693779120079842840711626886355747427113428,55%nat));
    (((-925213359866651486256276060479791386855584193566834244),54%nat),(218664514228530859455104265388793009815703165629724421,55%nat));
    (((-901822286284701580757467231388427964363928404788918474),54%nat),(249027414672087730500549712733890425756231328791233604,55%nat));
    (((-875435454065568939417909335722610822486547484807016172),54%nat),(278563093105958702870020347639151512373099356257426966,55%nat));
    (((-846140515970772949425887510872842500396632380214141657),54%nat),(307173424978706760540046099161549110199622120771604655,55%nat));
    (((-814034785913567835469638304075198944827590183233613975),54%nat),(33476336464372645716040444835610792714878607423683773,54%nat));
    (((-779224915346254021535948614840532655748889094829050259),54%nat),(361241258403835525828870742074248459785730799301673299,55%nat));
    (((-741826538809184316285766268753578000939729144982815603),54%nat),(38651914782102516836857139051579876239011509355728554,54%nat));
    (((-701963889719172919385570976969670601268811110489679439),54%nat),(410513061366449742217182108776043341937827974464546888,55%nat));
    (((-659769387631983124692289822856220474788958248594975049),54%nat),(433143293095970154419257603705081181962891240438496887,55%nat));
    (((-615383198331127370729937820161728300595972694129498622),54%nat),(454334667282767139748521807515445715337756390176710815,55%nat));
    (((-568952768195209429731624834177153942773841437174211619),54%nat),(474016788064449910585764101153236036382065889832506088,55%nat));
    (((-52063233438593307332701713874976411887936685525087922),53%nat),(492124273245288860687906303688116280775041129800626816,55%nat));
    (((-470582412481382283683212136327742602431446639814420044),54%nat),(508596971461881443197092069761187459120602653893317148,55%nat));
    (((-418969263255204528036102697462510005200790183425047583),54%nat),(523380161982987446655886947526850131804317669734681029,55%nat));
    (((-3659643403721911819843321081654874061220373897036416),52%nat),(536424736475536112721006277252465768628158596085654399,55%nat));
    (((-311743720834468228882550390152123771392948497110182017),54%nat),(547687362130579863062226347171090207246210665623550486,55%nat));
    (((-256487520069997300077411214453008302726921873090774152),54%nat),(557130625605899876833698174273711106847117171157984779,55%nat));
    (((-200379293606213569778602462829298030454143186091550919),54%nat),(564723157306259650310442646817612479537373621270836423,55%nat));
    (((-143605427316256153947089762898789161294705016260067741),54%nat),(570439735587945985678284342542272120992117362125463539,55%nat));
    (((-863545182632482152854431777687496363694015374870635879),55%nat),(574261370541121148592901317732068293892190570504253857,55%nat));
    (((-288167481993417776562358475002270529894545421779078484),55%nat),(576175367071470246723761288058714771729017447215605723,55%nat));
    ((288167481993417776562358475002270529894545421779078484,55%nat),(576175367071470246723761288058714771729017447215605723,55%nat));
    ((863545182632482152854431777687496363694015374870635879,55%nat),(574261370541121148592901317732068293892190570504253857,55%nat));
    ((143605427316256153947089762898789161294705016260067741,54%nat),(570439735587945985678284342542272120992117362125463539,55%nat));
    ((200379293606213569778602462829298030454143186091550919,54%nat),(564723157306259650310442646817612479537373621270836423,55%nat));
    ((256487520069997300077411214453008302726921873090774152,54%nat),(557130625605899876833698174273711106847117171157984779,55%nat));
    ((311743720834468228882550390152123771392948497110182017,54%nat),(547687362130579863062226347171090207246210665623550486,55%nat));
    ((3659643403721911819843321081654874061220373897036416,52%nat),(536424736475536112721006277252465768628158596085654399,55%nat));
    ((418969263255204528036102697462510005200790183425047583,54%nat),(523380161982987446655886947526850131804317669734681029,55%nat));
    ((470582412481382283683212136327742602431446639814420044,54%nat),(508596971461881443197092069761187459120602653893317148,55%nat));
    ((52063233438593307332701713874976411887936685525087922,53%nat),(492124273245288860687906303688116280775041129800626816,55%nat));
    ((568952768195209429731624834177153942773841437174211619,54%nat),(474016788064449910585764101153236036382065889832506088,55%nat));
    ((615383198331127370729937820161728300595972694129498622,54%nat),(454334667282767139748521807515445715337756390176710815,55%nat));
    ((659769387631983124692289822856220474788958248594975049,54%nat),(433143293095970154419257603705081181962891240438496887,55%nat));
    ((701963889719172919385570976969670601268811110489679439,54%nat),(410513061366449742217182108776043341937827974464546888,55%nat));
    ((741826538809184316285766268753578000939729144982815603,54%nat),(38651914782102516836857139051579876239011509355728554,54%nat));
    ((779224915346254021535948614840532655748889094829050259,54%nat),(361241258403835525828870742074248459785730799301673299,55%nat));
    ((814034785913567835469638304075198944827590183233613975,54%nat),(33476336464372645716040444835610792714878607423683773,54%nat));
    ((846140515970772949425887510872842500396632380214141657,54%nat),(307173424978706760540046099161549110199622120771604655,55%nat));
    ((875435454065568939417909335722610822486547484807016172,54%nat),(278563093105958702870020347639151512373099356257426966,55%nat));
    ((901822286284701580757467231388427964363928404788918474,54%nat),(249027414672087730500549712733890425756231328791233604,55%nat));
    ((925213359866651486256276060479791386855584193566834244,54%nat),(218664514228530859455104265388793009815703165629724421,55%nat));
    ((945530975164995853763837022906180412563436588500986407,54%nat),(187575276214693779120079842840711626886355747427113428,55%nat));
    ((96270764578592358325699392690538994353691817470203757,53%nat),(155863030359241317029689097058367654685878223576398962,55%nat));
    ((976686328857903237200010071988306857467805973240003412,54%nat),(12363328128847644166467824260188096463994498948433693,54%nat));
    ((987420637397343558552145720403546261534036290839238588,54%nat),(909936945550939694803352106241926172187472240798218021,56%nat));
    ((994875117018338884918889995948702659484126758886999829,54%nat),(580561101523998487882588774587527341152465198940366679,56%nat));
    ((999026666867340983851071106983958493198042785796960332,54%nat),(249748183576158577594603875726602987918509746682711194,56%nat))]);
  (55%nat, [(((-999061419564818541479431839519384423155541278929420157),54%nat),(240832361997978881917019348912527870416962754170570552,56%nat));
    (((-99505797784741187504318911650620237159410074640539225),53%nat),(559863226656076735408341687185985724515129524166676,53%nat));
    (((-98786894119888919852238568447347353064860155505648643),53%nat),(87757461070585281773896006833178381644564407606959352,55%nat));
    (((-977515735503989208859216606340730211542135462755569801),54%nat),(119251607198486121707525531575898882926403474479889492,55%nat));
    (((-964031328593135198778536631377369222637489674164126656),54%nat),(150364583335117882131508989019372817118222494995358176,55%nat));
    (((-947458868041210741859979847645291837175186326297240787),54%nat),(180996145207290624079682026434122304027784945375529721,55%nat));
    (((-927851424720791696816271269232586379194499280569601184),54%nat),(211048016680164541202093056236983344809343740619170514,55%nat));
    (((-905271800744000025781911424629624392227608588470290593),54%nat),(240423880097256220077915729286034584992461505618308091,55%nat));
    (((-879792322419895506067590906824086395299913621625734477),54%nat),(269029614563962706671200286537790971433766611326800207,55%nat));
    (((-851494606617154471460245320967007027816463989402732402),54%nat),(296773577651610412212965061868853602298586405943297351,55%nat));
    (((-820469298559320912454241285034722365392967480105130606),54%nat),(323566892261858316847055918757768657576683950311935041,55%nat));
    (((-786815781127622365897636250938041383509091146272250529),54%nat),(34932372873589887407268226802706487974287461289662762,54%nat));
    (((-750641856348021908674987682707310917922063464462257535),54%nat),(37396157867965545282915598582457549515103401503920991,54%nat));
    (((-712063399986637838909350192121167515172653723145173514),54%nat),(397401518743371796094638319033998358680268513816859788,55%nat));
    (((-671203990319826395796326728006015600573927277436610607),54%nat),(419568463177187623952073166921441225765663582207783523,55%nat));
    (((-628194512249928140090636215032975432911010309006757968),54%nat),(440391404216065898951680856532928731346290449452904751,55%nat));
    (((-583172738026032102974304815587686486221861136254785674),54%nat),(459803639462838381039048608720746681221111540908620405,55%nat));
    (((-536282885908343296720599572843597553538275608838743915),54%nat),(477742985512006955500367147160559256338183071442882368,55%nat));
    (((-487675158187474097208263673539355611507554019569348864),54%nat),(494151977115517394807585390160392756818815553283152874,55%nat));
    (((-437505260037174591808481024297466584242516289220592545),54%nat),(508978051244939792247752742880834388216855409146710738,55%nat));
    (((-385933900740979429755848543912589975450407086515743056),54%nat),(522173715456320845643935632812950099667420858053508795,55%nat));
    (((-333126278890023885189471490232961963047398261922712874),54%nat),(533696700016054727235705156360978537270000631466828584,55%nat));
    (((-279251553200806538549862451175671025558185946282972635),54%nat),(543510093299111020703221181537721488058133091086900951,55%nat));
    (((-22448230064784548340018906240292645440811700470895206),53%nat),(551582460025086875966511395606667214325306373972057271,55%nat));
    (((-168993963646873208282842493511702229345893529573876111),54%nat),(557887941952840871029360071099197146724675353885833224,55%nat));
    (((-112964288059329266588437923888712184012038893009333007),54%nat),(562406340710843680282790880901978272760612597138630147,55%nat));
    (((-565727538183367763273376108931084341626757424523121837),55%nat),(565123182497720014006583676351890541396881831582519156,55%nat));
    ((0,0%nat),(566029764445604254401057619812440040389691501015994589,55%nat));
    ((565727538183367763273376108931084341626757424523121837,55%nat),(565123182497720014006583676351890541396881831582519156,55%nat));
    ((112964288059329266588437923888712184012038893009333007,54%nat),(562406340710843680282790880901978272760612597138630147,55%nat));
    ((168993963646873208282842493511702229345893529573876111,54%nat),(557887941952840871029360071099197146724675353885833224,55%nat));
    ((22448230064784548340018906240292645440811700470895206,53%nat),(551582460025086875966511395606667214325306373972057271,55%nat));
    ((279251553200806538549862451175671025558185946282972635,54%nat),(543510093299111020703221181537721488058133091086900951,55%nat));
    ((333126278890023885189471490232961963047398261922712874,54%nat),(533696700016054727235705156360978537270000631466828584,55%nat));
    ((385933900740979429755848543912589975450407086515743056,54%nat),(522173715456320845643935632812950099667420858053508795,55%nat));
    ((437505260037174591808481024297466584242516289220592545,54%nat),(508978051244939792247752742880834388216855409146710738,55%nat));
    ((487675158187474097208263673539355611507554019569348864,54%nat),(494151977115517394807585390160392756818815553283152874,55%nat));
    ((536282885908343296720599572843597553538275608838743915,54%nat),(477742985512006955500367147160559256338183071442882368,55%nat));
    ((583172738026032102974304815587686486221861136254785674,54%nat),(459803639462838381039048608720746681221111540908620405,55%nat));
    ((628194512249928140090636215032975432911010309006757968,54%nat),(440391404216065898951680856532928731346290449452904751,55%nat));
    ((671203990319826395796326728006015600573927277436610607,54%nat),(419568463177187623952073166921441225765663582207783523,55%nat));
    ((712063399986637838909350192121167515172653723145173514,54%nat),(397401518743371796094638319033998358680268513816859788,55%nat));
    ((750641856348021908674987682707310917922063464462257535,54%nat),(37396157867965545282915598582457549515103401503920991,54%nat));
    ((786815781127622365897636250938041383509091146272250529,54%nat),(34932372873589887407268226802706487974287461289662762,54%nat));
    ((820469298559320912454241285034722365392967480105130606,54%nat),(323566892261858316847055918757768657576683950311935041,55%nat));
    ((851494606617154471460245320967007027816463989402732402,54%nat),(296773577651610412212965061868853602298586405943297351,55%nat));
    ((879792322419895506067590906824086395299913621625734477,54%nat),(269029614563962706671200286537790971433766611326800207,55%nat));
    ((905271800744000025781911424629624392227608588470290593,54%nat),(240423880097256220077915729286034584992461505618308091,55%nat));
    ((927851424720791696816271269232586379194499280569601184,54%nat),(211048016680164541202093056236983344809343740619170514,55%nat));
    ((947458868041210741859979847645291837175186326297240787,54%nat),(180996145207290624079682026434122304027784945375529721,55%nat));
    ((964031328593135198778536631377369222637489674164126656,54%nat),(150364583335117882131508989019372817118222494995358176,55%nat));
    ((977515735503989208859216606340730211542135462755569801,54%nat),(119251607198486121707525531575898882926403474479889492,55%nat));
    ((98786894119888919852238568447347353064860155505648643,53%nat),(87757461070585281773896006833178381644564407606959352,55%nat));
    ((99505797784741187504318911650620237159410074640539225,53%nat),(559863226656076735408341687185985724515129524166676,53%nat));
    ((999061419564818541479431839519384423155541278929420157,54%nat),(240832361997978881917019348912527870416962754170570552,56%nat))]);
  (56%nat, [(((-99909434380146558435315382509090426217601897845975637),53%nat),(232385537577321550110227644339586473759320991735859403,56%nat));
    (((-995231226081069747216308760098940945548538455233990375),54%nat),(540252224601533776131126094412087284162781818411397736,56%nat));
    (((-988293715540161511089925163523486216764541143224616165),54%nat),(846906316330788766162711237500816017607748757412691595,56%nat));
    (((-978301709140256383376990551538188131227013897750228424),54%nat),(115098243403833821737727593244971192748559048179691436,55%nat));
    (((-965285901905490183626194976055095698217551218657663428),54%nat),(145150892780214718077707405330129910240961984992442576,55%nat));
    (((-949286479561962635646737602794928066889563522588144522),54%nat),(1747551291140094650495936890545715023078028057687649,53%nat));
    (((-930352880247496300547272723291600853026814305996895027),54%nat),(203819298824025726348059836669333475071194643986120085,55%nat));
    (((-908543620420655490846107289957241779532211068809586916),54%nat),(232253515625653169372581575767885265557220198245790044,55%nat));
    (((-883926108327827540789012285809286727505981410232089252),54%nat),(259969870583919521918194322072723514480102520506943594,55%nat));
    (((-856576433762748635402991386766870604073674174709864281),54%nat),(286882684738227417298858844303942726041341370468452294,55%nat));
    (((-826579132142881651672126974456850323343042175963860086),54%nat),(312908767473104478678354777930253469778460131872277166,55%nat));
    (((-794026922893866498030008308486000477657203301683242045),54%nat),(337967671156117612954266312254470498176070716782671452,55%nat));
    (((-759020422705128902202413294445893867364837249273649469),54%nat),(361981938723151860358844682888862454006302346723142169,55%nat));
    (((-721667834450188083522593787047553457344048519285738254),54%nat),(384877342592476624868255916233812793438196346814820133,55%nat));
    (((-682084612694470455501561477969836333105109367461210194),54%nat),(406583113847445178801250227788527630755422730490527223,55%nat));
    (((-640393106807006894267938596062813078923806572947805831),54%nat),(427032160846670865110385723624770808934709459666175749,55%nat));
    (((-596722182770663320104135217138408383220500869241944365),54%nat),(446161276526922832134151929276237403258464384162967042,55%nat));
    (((-551206824855534618754363514576316602525662578352490243),54%nat),(463911333730018967621901910664960342346098061005004903,55%nat));
    (((-503987718384381714195224401218638137709305949354017502),54%nat),(480227467936002581207355056669997121440168767700242701,55%nat));
    (((-45521081487845957894883158132460955990722690550390788),53%nat),(49505924683047578919966046430845556418718849071317996,54%nat));
    (((-405026880927091278118866962602922894655371382368290726),54%nat),(508360826177984805601240184701986559829916379320842155,55%nat));
    (((-353591032174954520969707327033232405634678794381171976),54%nat),(520091091517413998430522648274847216705325853129013584,55%nat));
    (((-301062253867220669053094233125234343925071846124383471),54%nat),(530213785240107639679915586076914687273814340810240065,55%nat));
    (((-247602909434337203972966554970526972879663243142767006),54%nat),(538697618657144857089544104066979942479245356718882474,55%nat));
    (((-193378238635275258240184723012684161816167392763801259),54%nat),(545516368708894210617506548900901799440607237809163526,55%nat));
    (((-138555846810376242012886580438490595351490508462528551),54%nat),(550648959017624257963045975478503253413555128006590126,55%nat));
    (((-833051868224353744402873554406624481839874141890305459),55%nat),(55407952503245123217793391843910018909562031380663018,54%nat));
    (((-277970352872754370940611967749205218883766031467744878),55%nat),(55579746306514395846273426835161170144066622556342959,54%nat));
    ((277970352872754370940611967749205218883766031467744878,55%nat),(55579746306514395846273426835161170144066622556342959,54%nat));
    ((833051868224353744402873554406624481839874141890305459,55%nat),(55407952503245123217793391843910018909562031380663018,54%nat));
    ((138555846810376242012886580438490595351490508462528551,54%nat),(550648959017624257963045975478503253413555128006590126,55%nat));
    ((193378238635275258240184723012684161816167392763801259,54%nat),(545516368708894210617506548900901799440607237809163526,55%nat));
    ((247602909434337203972966554970526972879663243142767006,54%nat),(538697618657144857089544104066979942479245356718882474,55%nat));
    ((301062253867220669053094233125234343925071846124383471,54%nat),(530213785240107639679915586076914687273814340810240065,55%nat));
    ((353591032174954520969707327033232405634678794381171976,54%nat),(520091091517413998430522648274847216705325853129013584,55%nat));
    ((405026880927091278118866962602922894655371382368290726,54%nat),(508360826177984805601240184701986559829916379320842155,55%nat));
    ((45521081487845957894883158132460955990722690550390788,53%nat),(49505924683047578919966046430845556418718849071317996,54%nat));
    ((503987718384381714195224401218638137709305949354017502,54%nat),(480227467936002581207355056669997121440168767700242701,55%nat));
    ((551206824855534618754363514576316602525662578352490243,54%nat),(463911333730018967621901910664960342346098061005004903,55%nat));
    ((596722182770663320104135217138408383220500869241944365,54%nat),(446161276526922832134151929276237403258464384162967042,55%nat));
    ((640393106807006894267938596062813078923806572947805831,54%nat),(427032160846670865110385723624770808934709459666175749,55%nat));
    ((682084612694470455501561477969836333105109367461210194,54%nat),(406583113847445178801250227788527630755422730490527223,55%nat));
    ((721667834450188083522593787047553457344048519285738254,54%nat),(384877342592476624868255916233812793438196346814820133,55%nat));
    ((759020422705128902202413294445893867364837249273649469,54%nat),(361981938723151860358844682888862454006302346723142169,55%nat));
    ((794026922893866498030008308486000477657203301683242045,54%nat),(337967671156117612954266312254470498176070716782671452,55%nat));
    ((826579132142881651672126974456850323343042175963860086,54%nat),(312908767473104478678354777930253469778460131872277166,55%nat));
    ((856576433762748635402991386766870604073674174709864281,54%nat),(286882684738227417298858844303942726041341370468452294,55%nat));
    ((883926108327827540789012285809286727505981410232089252,54%nat),(259969870583919521918194322072723514480102520506943594,55%nat));
    ((908543620420655490846107289957241779532211068809586916,54%nat),(232253515625653169372581575767885265557220198245790044,55%nat));
    ((930352880247496300547272723291600853026814305996895027,54%nat),(203819298824025726348059836669333475071194643986120085,55%nat));
    ((949286479561962635646737602794928066889563522588144522,54%nat),(1747551291140094650495936890545715023078028057687649,53%nat));
    ((965285901905490183626194976055095698217551218657663428,54%nat),(145150892780214718077707405330129910240961984992442576,55%nat));
    ((978301709140256383376990551538188131227013897750228424,54%nat),(115098243403833821737727593244971192748559048179691436,55%nat));
    ((988293715540161511089925163523486216764541143224616165,54%nat),(846906316330788766162711237500816017607748757412691595,56%nat));
    ((995231226081069747216308760098940945548538455233990375,54%nat),(540252224601533776131126094412087284162781818411397736,56%nat));
    ((99909434380146558435315382509090426217601897845975637,53%nat),(232385537577321550110227644339586473759320991735859403,56%nat))]);
  (57%nat, [(((-999125565625262850572009849554249884999127586007013575),54%nat),(224375387225066290973478682263501388626751860515453919,56%nat));
    (((-995395523678430311135125027362419005975068868913413964),54%nat),(521653347471877939050662987142008532303141539042764462,56%nat));
    (((-988696577650222048849758398383855438510084086698944006),54%nat),(817816006782123262621099813037940186470942609118705156,56%nat));
    (((-979047226709468713798820875366507757360931223767780685),54%nat),(111157637323359901456754487681900391395904333631786221,55%nat));
    (((-96647608517188667911485858394233318896849009450238562),53%nat),(140202707907535561702471513381502513228268482238128456,55%nat));
    (((-951020626447876741911904110605190328637799339662690428),54%nat),(168829590234415490350008215668332764463059650200004404,55%nat));
    (((-932726961067101696100754154297356638067488635116634849),54%nat),(196952706994885203824224522735148584246970405778395012,55%nat));
    (((-911649678521391212728430561619670310918248410397413302),54%nat),(224488078907764380796892388450908804387962019606627317,55%nat));
    (((-887851678882221329513000147641861716134275787267035282),54%nat),(251353509909181226472737881409554879758809126073346053,55%nat));
    (((-861403983262046944722241881805214754221933005613239618),54%nat),(277468814021801923212579500383637591696208463159952618,55%nat));
    (((-832385521150439120829010895865203218252265650096639455),54%nat),(302756048426939994584905988331372111851184545053376682,55%nat));
    (((-800882894547218242076008718794948567701803620155421602),54%nat),(327139743663715685424901099103934982845747686389306711,55%nat));
    (((-766990119359450195491716144018132355236648415822398243),54%nat),(350547127823126175057509705965500644569012556759409018,55%nat));
    (((-730808344744523322827344670736778316263122119509612203),54%nat),(372908343244173173547352639956989655539698724087680564,55%nat));
    (((-69244555119951773904048368844401044565667663461414289),53%nat),(394156654754801140899527208010555042508151727322945731,55%nat));
    (((-65201622828097689124936184079570828367066055697215481),53%nat),(414228648708011103631969052736104309601351140912015419,55%nat));
    (((-609641032908715365423848901924740624324000572923964614),54%nat),(433064422162151965964321083284261257043646513427258084,55%nat));
    (((-565446429269236759018985552805240429370022074221579729),54%nat),(450607761613811577972135295258329703541113366416026742,55%nat));
    (((-519564311391187606315153819806214351080631108269511806),54%nat),(466806310736415037838408927788335708830549965242929779,55%nat));
    (((-472131609517975709588060082049234749822237925699326685),54%nat),(481611726616877512688510517568167367162428543195299778,55%nat));
    (((-42328988145156395096002435347152437901405095213458829),53%nat),(494979824020196789938379444993879262646728960762586854,55%nat));
    (((-373184890086594458552134396144889010556460146092633534),54%nat),(506870707249274086566404255636365795531047987116499536,55%nat));
    (((-321966168395378640590207915805397239372739467662806316),54%nat),(517248889205178247206239086651469806258692764894542553,55%nat));
    (((-269786573161838765763345609799643344299057994351474759),54%nat),(526083397291774324402313816408841896252559164289825928,55%nat));
    (((-216801828796124036413613975979559274256583295504472438),54%nat),(533347865848191584265769779914406250959470462378439373,55%nat));
    (((-163170062591264251043280378321512062185909989303105714),54%nat),(539020614832985746428094817306014534866276745873407168,55%nat));
    (((-109051332808787800978526521310979049455045137501671027),54%nat),(543084714524986431387467729547915602633775761284777724,55%nat));
    (((-546071510016468242198305597373324454104423343597207808),55%nat),(545528036047618864801389953641965144760153482295025391,55%nat));
    ((0,0%nat),(546343287565840240628413879880520765362287641485429065,55%nat));
    ((546071510016468242198305597373324454104423343597207808,55%nat),(545528036047618864801389953641965144760153482295025391,55%nat));
    ((109051332808787800978526521310979049455045137501671027,54%nat),(543084714524986431387467729547915602633775761284777724,55%nat));
    ((163170062591264251043280378321512062185909989303105714,54%nat),(539020614832985746428094817306014534866276745873407168,55%nat));
    ((216801828796124036413613975979559274256583295504472438,54%nat),(533347865848191584265769779914406250959470462378439373,55%nat));
    ((269786573161838765763345609799643344299057994351474759,54%nat),(526083397291774324402313816408841896252559164289825928,55%nat));
    ((321966168395378640590207915805397239372739467662806316,54%nat),(517248889205178247206239086651469806258692764894542553,55%nat));
    ((373184890086594458552134396144889010556460146092633534,54%nat),(506870707249274086566404255636365795531047987116499536,55%nat));
    ((42328988145156395096002435347152437901405095213458829,53%nat),(494979824020196789938379444993879262646728960762586854,55%nat));
    ((472131609517975709588060082049234749822237925699326685,54%nat),(481611726616877512688510517568167367162428543195299778,55%nat));
    ((519564311391187606315153819806214351080631108269511806,54%nat),(466806310736415037838408927788335708830549965242929779,55%nat));
    ((565446429269236759018985552805240429370022074221579729,54%nat),(450607761613811577972135295258329703541113366416026742,55%nat));
    ((609641032908715365423848901924740624324000572923964614,54%nat),(433064422162151965964321083284261257043646513427258084,55%nat));
    ((65201622828097689124936184079570828367066055697215481,53%nat),(414228648708011103631969052736104309601351140912015419,55%nat));
    ((69244555119951773904048368844401044565667663461414289,53%nat),(394156654754801140899527208010555042508151727322945731,55%nat));
    ((730808344744523322827344670736778316263122119509612203,54%nat),(372908343244173173547352639956989655539698724087680564,55%nat));
    ((766990119359450195491716144018132355236648415822398243,54%nat),(350547127823126175057509705965500644569012556759409018,55%nat));
    ((800882894547218242076008718794948567701803620155421602,54%nat),(327139743663715685424901099103934982845747686389306711,55%nat));
    ((832385521150439120829010895865203218252265650096639455,54%nat),(302756048426939994584905988331372111851184545053376682,55%nat));
    ((861403983262046944722241881805214754221933005613239618,54%nat),(277468814021801923212579500383637591696208463159952618,55%nat));
    ((887851678882221329513000147641861716134275787267035282,54%nat),(251353509909181226472737881409554879758809126073346053,55%nat));
    ((911649678521391212728430561619670310918248410397413302,54%nat),(224488078907764380796892388450908804387962019606627317,55%nat));
    ((932726961067101696100754154297356638067488635116634849,54%nat),(196952706994885203824224522735148584246970405778395012,55%nat));
    ((951020626447876741911904110605190328637799339662690428,54%nat),(168829590234415490350008215668332764463059650200004404,55%nat));
    ((96647608517188667911485858394233318896849009450238562,53%nat),(140202707907535561702471513381502513228268482238128456,55%nat));
    ((979047226709468713798820875366507757360931223767780685,54%nat),(111157637323359901456754487681900391395904333631786221,55%nat));
    ((988696577650222048849758398383855438510084086698944006,54%nat),(817816006782123262621099813037940186470942609118705156,56%nat));
    ((995395523678430311135125027362419005975068868913413964,54%nat),(521653347471877939050662987142008532303141539042764462,56%nat));
    ((999125565625262850572009849554249884999127586007013575,54%nat),(224375387225066290973478682263501388626751860515453919,56%nat))]);
  (58%nat, [(((-999155200407386606442737044184605761045813585872715631),54%nat),(216772324962744994305434292498451143103544022457861832,56%nat));
    (((-995551476597290902602771526179946141276967280242974881),54%nat),(503998161265024308501750117462242355333087943674126262,56%nat));
    (((-989079008248442636499910255275442056883205365501321505),54%nat),(790197384999867475401674567484775950725497451144570023,56%nat));
    (((-979755014694350309107816334392598034869875945691289139),54%nat),(107415535328787741168563619136618737235674500177416583,55%nat));
    (((-96760620250292409015330078462120619491287277499442596),53%nat),(135502371129888121451789664017618618308308531829865017,55%nat));
    (((-952667557518869091442845510022930333705587628975491226),54%nat),(163198742349709650521208304195708874821816105277690602,55%nat));
    (((-934982137588259348480843234766247495409147422744563944),54%nat),(190424654618934086557876594821076039333641329342966622,55%nat));
    (((-914600928564352540686505649897521820495615095425406115),54%nat),(21710156140146235766916809495118289922602934077950337,54%nat));
    (((-891582692022030176399882820812797546482551849941030649),54%nat),(243152527249639525402587606257985097442911865134363059,55%nat));
    (((-865993794074807479275071232512087657694274148605561063),54%nat),(268502431819818684759074786781449555910274646571860066,55%nat));
    (((-837908013339373316352097920621624361286867305697942394),54%nat),(293078180441604907183940268884438100349616013719531896,55%nat));
    (((-807406327913088141048997152207395227983283424010130542),54%nat),(316808912538093273202920396219502966872861645240879873,55%nat));
    (((-774576681749652745266140046496826665648970000627280787),54%nat),(339626204934160107977275551845847994387837763949648006,55%nat));
    (((-73951373102004226784661723485103279097065744804820353),53%nat),(361464268670872705407808569758552272333427912991269834,55%nat));
    (((-702318571153908113479757301458201383660685816647606889),54%nat),(382260138458584332294590344571485400659427639863191565,55%nat));
    (((-663098445332125266433016299753565691960643624304121991),54%nat),(401953854098677968880767508268822923579140402207077844,55%nat));
    (((-621966435263079111033984058745491120232235253849255085),54%nat),(420488633295821259945699819172542314622665402355190603,55%nat));
    (((-579041135130225030489977117136083403820176816683960341),54%nat),(437811035336402510390256923483360732427561176600973783,55%nat));
    (((-534446309648847586399802417425204355788763287356337084),54%nat),(453871115148198025039805360888660491491617686449521352,55%nat));
    (((-488310537216718463615552572736785420894228720802451279),54%nat),(468622567290263469184180780379200348509136109749744945,55%nat));
    (((-440766839186839565193703062214304414122414801908176397),54%nat),(482022859454177484065704061098669065750307136268468626,55%nat));
    (((-391952296330753150371216941213010702185017624423004215),54%nat),(494033355089623928665108657127013196506444226693611684,55%nat));
    (((-342007653597995261248368267483996950877672821629287289),54%nat),(504619424799531252976598215676317780474879663625451496,55%nat));
    (((-291076914311109189533025268314303302189517100857549348),54%nat),(513750546182857254745148206110653803029581080956232019,55%nat));
    (((-239306924966153454428948509085334787700528828035330307),54%nat),(521400391836698189712605560600718257610216901342433444,55%nat));
    (((-186846951835761321374383881464022406061547888441217035),54%nat),(527546905263708334296457672315231717649335929173374798,55%nat));
    (((-13384825059546685702237684787454091195295752427056042),53%nat),(532172364465790141034809843773847932124579233045218451,55%nat));
    (((-804636302141427293098477923805031948893348968318648099),55%nat),(535263433040582521006108138861701805419674894903239215,55%nat));
    (((-2684701236594235580333868951737998584342117663189361),53%nat),(536811198633348488639059553057246129006819920023619436,55%nat));
    ((2684701236594235580333868951737998584342117663189361,53%nat),(536811198633348488639059553057246129006819920023619436,55%nat));
    ((804636302141427293098477923805031948893348968318648099,55%nat),(535263433040582521006108138861701805419674894903239215,55%nat));
    ((13384825059546685702237684787454091195295752427056042,53%nat),(532172364465790141034809843773847932124579233045218451,55%nat));
    ((186846951835761321374383881464022406061547888441217035,54%nat),(527546905263708334296457672315231717649335929173374798,55%nat));
    ((239306924966153454428948509085334787700528828035330307,54%nat),(521400391836698189712605560600718257610216901342433444,55%nat));
    ((291076914311109189533025268314303302189517100857549348,54%nat),(513750546182857254745148206110653803029581080956232019,55%nat));
    ((342007653597995261248368267483996950877672821629287289,54%nat),(504619424799531252976598215676317780474879663625451496,55%nat));
    ((391952296330753150371216941213010702185017624423004215,54%nat),(494033355089623928665108657127013196506444226693611684,55%nat));
    ((440766839186839565193703062214304414122414801908176397,54%nat),(482022859454177484065704061098669065750307136268468626,55%nat));
    ((488310537216718463615552572736785420894228720802451279,54%nat),(468622567290263469184180780379200348509136109749744945,55%nat));
    ((534446309648847586399802417425204355788763287356337084,54%nat),(453871115148198025039805360888660491491617686449521352,55%nat));
    ((579041135130225030489977117136083403820176816683960341,54%nat),(437811035336402510390256923483360732427561176600973783,55%nat));
    ((621966435263079111033984058745491120232235253849255085,54%nat),(420488633295821259945699819172542314622665402355190603,55%nat));
    ((663098445332125266433016299753565691960643624304121991,54%nat),(401953854098677968880767508268822923579140402207077844,55%nat));
    ((702318571153908113479757301458201383660685816647606889,54%nat),(382260138458584332294590344571485400659427639863191565,55%nat));
    ((73951373102004226784661723485103279097065744804820353,53%nat),(361464268670872705407808569758552272333427912991269834,55%nat));
    ((774576681749652745266140046496826665648970000627280787,54%nat),(339626204934160107977275551845847994387837763949648006,55%nat));
    ((807406327913088141048997152207395227983283424010130542,54%nat),(316808912538093273202920396219502966872861645240879873,55%nat));
    ((837908013339373316352097920621624361286867305697942394,54%nat),(293078180441604907183940268884438100349616013719531896,55%nat));
    ((865993794074807479275071232512087657694274148605561063,54%nat),(268502431819818684759074786781449555910274646571860066,55%nat));
    ((891582692022030176399882820812797546482551849941030649,54%nat),(243152527249639525402587606257985097442911865134363059,55%nat));
    ((914600928564352540686505649897521820495615095425406115,54%nat),(21710156140146235766916809495118289922602934077950337,54%nat));
    ((934982137588259348480843234766247495409147422744563944,54%nat),(190424654618934086557876594821076039333641329342966622,55%nat));
    ((952667557518869091442845510022930333705587628975491226,54%nat),(163198742349709650521208304195708874821816105277690602,55%nat));
    ((96760620250292409015330078462120619491287277499442596,53%nat),(135502371129888121451789664017618618308308531829865017,55%nat));
    ((979755014694350309107816334392598034869875945691289139,54%nat),(107415535328787741168563619136618737235674500177416583,55%nat));
    ((989079008248442636499910255275442056883205365501321505,54%nat),(790197384999867475401674567484775950725497451144570023,56%nat));
    ((995551476597290902602771526179946141276967280242974881,54%nat),(503998161265024308501750117462242355333087943674126262,56%nat));
    ((999155200407386606442737044184605761045813585872715631,54%nat),(216772324962744994305434292498451143103544022457861832,56%nat))]);
  (59%nat, [(((-999183353909294683756424019504678184974225970330022709),54%nat),(209549228454122340270073148864005976798129321037713635,56%nat));
    (((-995699640383245964687201823433448307661855776908591227),54%nat),(487223916826528476858200113292406855604266062886634061,56%nat));
    (((-989442365133730931782183935022705793473255280023299343),54%nat),(76395294534875751427006829747543652575516412084065115,55%nat));
    (((-980427573956715688449607981403267775462557851139703011),54%nat),(103858855009958621937978744109830403674448291493380061,55%nat));
    (((-968680221681781531353633339672562057664889443329818486),54%nat),(13103366306345191018319546484216966965564839234007091,54%nat));
    (((-954233009376951055863233112185649937073908138274547126),54%nat),(157843473130814661473204803972491703730725538689579519,55%nat));
    (((-93712619035345385940513847104328988491060212647114706),53%nat),(184213427536100293606157510564453183105268487171122401,55%nat));
    (((-917407438788155281352541485215245826873143490003803993),54%nat),(210069982884371873504614732186692650506890277865110939,55%nat));
    (((-895131711743472085364296829462459275029537139409999277),54%nat),(235341053937133634252753600783577002987844850383689152,55%nat));
    (((-870361094292882260963426233104145201284186947396187658),54%nat),(259956197312985001866505068017079327139848097316180231,55%nat));
    (((-843164625816872201470350953972236638470225960817232193),54%nat),(283846802005347979051528693353884987703141837630423358,55%nat));
    (((-813618107288211571435089773821200447410704065089647454),54%nat),(306946278361116832397503281924808053595267480058283296,55%nat));
    (((-781803889862360905632678812767482628029666956950394431),54%nat),(329190242710452777575112643535988080802698765574078253,55%nat));
    (((-747810645278640231889257579013212387920894933985514491),54%nat),(350516696364001087837183589610782511167250811878572546,55%nat));
    (((-711733118677197731595915721965909353910762452802312234),54%nat),(370866198188709226918379170352773582789499639491344915,55%nat));
    (((-673671864504937227024027212755253684415064275115545886),54%nat),(39018203016160009503030777211285513419091837939024417,54%nat));
    (((-633732966238850097512580930175007912551898376438962263),54%nat),(408410355386867076602021080894693086860064759028936405,55%nat));
    (((-592027740704030144464176159756534339804248169680693676),54%nat),(425500368110676386673082004847131274457234133459328312,55%nat));
    (((-548672427808396384372256300387005857440673318324009302),54%nat),(441404435302973806907980847330809685891863326681307177,55%nat));
    (((-503787866557717978768087280457308892150980648897875859),54%nat),(456078229405097698318682131583742114179944597204615576,55%nat));
    (((-457499158253266690226215260434961508176425775912334218),54%nat),(46948085186962019193159736482928952238545917474570698,54%nat));
    (((-409935317810418966722823693755879121014721462678233417),54%nat),(481574947146064403881468292859357839604642187210079111,55%nat));
    (((-361228914169794809992312452334048957953413960174839404),54%nat),(492326806793619857796936200150241883828630358705233273,55%nat));
    (((-311515700803013700318360149105749750125659237602980342),54%nat),(501706463429969028107204304421656821438441057158682953,55%nat));
    (((-260934237342811711610616267414278380003544483433130362),54%nat),(509687774253939168502479689936810100983096097852119893,55%nat));
    (((-209625503392036544923366790631491096332050474314493175),54%nat),(516248493908914821464399397734228085937643377492687371,55%nat));
    (((-157732505587857968115217856271554304124174624202703188),54%nat),(521370336483753913839872083078182338745975798794849498,55%nat));
    (((-105399879016344143836914387761869287053925410936822292),54%nat),(525039026478287390509413220142884653607880584859075305,55%nat));
    (((-527734840883100039516803286033385378247007695091781053),55%nat),(52724433859127931961304248870612502871883937503544267,54%nat));
    ((0,0%nat),(527980126219904214155123324308552672990156744026711684,55%nat));
    ((527734840883100039516803286033385378247007695091781053,55%nat),(52724433859127931961304248870612502871883937503544267,54%nat));
    ((105399879016344143836914387761869287053925410936822292,54%nat),(525039026478287390509413220142884653607880584859075305,55%nat));
    ((157732505587857968115217856271554304124174624202703188,54%nat),(521370336483753913839872083078182338745975798794849498,55%nat));
    ((209625503392036544923366790631491096332050474314493175,54%nat),(516248493908914821464399397734228085937643377492687371,55%nat));
    ((260934237342811711610616267414278380003544483433130362,54%nat),(509687774253939168502479689936810100983096097852119893,55%nat));
    ((311515700803013700318360149105749750125659237602980342,54%nat),(501706463429969028107204304421656821438441057158682953,55%nat));
    ((361228914169794809992312452334048957953413960174839404,54%nat),(492326806793619857796936200150241883828630358705233273,55%nat));
    ((409935317810418966722823693755879121014721462678233417,54%nat),(481574947146064403881468292859357839604642187210079111,55%nat));
    ((457499158253266690226215260434961508176425775912334218,54%nat),(46948085186962019193159736482928952238545917474570698,54%nat));
    ((503787866557717978768087280457308892150980648897875859,54%nat),(456078229405097698318682131583742114179944597204615576,55%nat));
    ((548672427808396384372256300387005857440673318324009302,54%nat),(441404435302973806907980847330809685891863326681307177,55%nat));
    ((592027740704030144464176159756534339804248169680693676,54%nat),(425500368110676386673082004847131274457234133459328312,55%nat));
    ((633732966238850097512580930175007912551898376438962263,54%nat),(408410355386867076602021080894693086860064759028936405,55%nat));
    ((673671864504937227024027212755253684415064275115545886,54%nat),(39018203016160009503030777211285513419091837939024417,54%nat));
    ((711733118677197731595915721965909353910762452802312234,54%nat),(370866198188709226918379170352773582789499639491344915,55%nat));
    ((747810645278640231889257579013212387920894933985514491,54%nat),(350516696364001087837183589610782511167250811878572546,55%nat));
    ((781803889862360905632678812767482628029666956950394431,54%nat),(329190242710452777575112643535988080802698765574078253,55%nat));
    ((813618107288211571435089773821200447410704065089647454,54%nat),(306946278361116832397503281924808053595267480058283296,55%nat));
    ((843164625816872201470350953972236638470225960817232193,54%nat),(283846802005347979051528693353884987703141837630423358,55%nat));
    ((870361094292882260963426233104145201284186947396187658,54%nat),(259956197312985001866505068017079327139848097316180231,55%nat));
    ((895131711743472085364296829462459275029537139409999277,54%nat),(235341053937133634252753600783577002987844850383689152,55%nat));
    ((917407438788155281352541485215245826873143490003803993,54%nat),(210069982884371873504614732186692650506890277865110939,55%nat));
    ((93712619035345385940513847104328988491060212647114706,53%nat),(184213427536100293606157510564453183105268487171122401,55%nat));
    ((954233009376951055863233112185649937073908138274547126,54%nat),(157843473130814661473204803972491703730725538689579519,55%nat));
    ((968680221681781531353633339672562057664889443329818486,54%nat),(13103366306345191018319546484216966965564839234007091,54%nat));
    ((980427573956715688449607981403267775462557851139703011,54%nat),(103858855009958621937978744109830403674448291493380061,55%nat));
    ((989442365133730931782183935022705793473255280023299343,54%nat),(76395294534875751427006829747543652575516412084065115,55%nat));
    ((995699640383245964687201823433448307661855776908591227,54%nat),(487223916826528476858200113292406855604266062886634061,56%nat));
    ((999183353909294683756424019504678184974225970330022709,54%nat),(209549228454122340270073148864005976798129321037713635,56%nat))]);
  (60%nat, [(((-999210123227436022034229585797649266398798978711325671),54%nat),(202681196887375849643171020989232469531166822555894991,56%nat));
    (((-995840525118838173876746713377440652774890294977139102),54%nat),(471272992695356864089482171407723594808497019371506012,56%nat));
    (((-989787895222221717367278987016096042577393153786939041),54%nat),(738993116334545553151695602208606088222818020622509209,56%nat));
    (((-981067201752598185618576799826770033880538579221891743),54%nat),(100475571822879843578857643770572564996517474876773843,55%nat));
    (((-969701788765052733721544098913794272540934344868247072),54%nat),(126781664768159601314953792695142349883383643026329456,55%nat));
    (((-95572225583999610739723184582969950248009374476661422),53%nat),(152746185967847993067260380988253351779093841150728645,55%nat));
    (((-939166276116423249495419011609705096419403420401198032),54%nat),(178299010142077202603962612483485676338592195833932469,55%nat));
    (((-92007847617762755285665686251989682878376887601370604),53%nat),(203371207294572867750321474171063014620171125053439038,55%nat));
    (((-898510310810045941937789329572628330164458442747073825),54%nat),(227895169439978198637834581929002078101673842152082582,55%nat));
    (((-874519922646898315129308099912435805159182294435782076),54%nat),(251804776215212483795709659723612791317808329441895486,55%nat));
    (((-848171984785929632490515494994375601297528716506778197),54%nat),(275035567499247916352231976386222476484034707541621773,55%nat));
    (((-81953752616214575936851810851972357189949051896959251),53%nat),(29752491500788945240836484673487710332475158124107232,54%nat));
    (((-78869373993226405456994479977721573524633292787922762),53%nat),(31921219019296328949458899536760476766697292282991421,54%nat));
    (((-755723775306585686868842066602373105928900199564707725),54%nat),(34003892724946422834914401555258741187276223552858876,54%nat));
    (((-720716513355730399436021061013521077764773994733239043),54%nat),(359948980510845030665786462880623385942424200210035839,55%nat));
    (((-68376632738135543722293023922429715908759460433887498),53%nat),(378888675692434440309407942092760318100842810638063715,55%nat));
    (((-644972828489477067813447896420444717165190019346660996),54%nat),(396806954523807994701228348117100087628035112941742187,55%nat));
    (((-604440597048510363444208776311201720650421053591059838),54%nat),(413655512355847556131638368066588968801870085215107142,55%nat));
    (((-5622789007539445391782725874859987290631882376593954),52%nat),(42938892835935641954231220656382806949211771964916479,54%nat));
    (((-518601400058569747417889348484721301329846676288685573),54%nat),(443964787957871133277841640913773696638849857340142985,55%nat));
    (((-47352584176170711110816305375279463800786800509983689),53%nat),(457343797161144866471964552909093330079349742586849544,55%nat));
    (((-42717374158307838930745285353031192335344213618423209),53%nat),(469489888489122048470131563947015662755749025834444429,55%nat));
    (((-379670056576797977154952670521887704056374433162389866),54%nat),(480370318199711809636666527287336536025000292469219569,55%nat));
    (((-331142848268448194252352965350552704800121496376311203),54%nat),(489955754557568353894756868578942983575838959990902425,55%nat));
    (((-281722937423261691690694860339441598308263060795377424),54%nat),(498220356905501810111592308937033124792155972437847697,55%nat));
    (((-231543551376029338010344631346755440743539051939585732),54%nat),(505141845325093745982387357416536432399561627374166281,55%nat));
    (((-180739964873425417240876941261852631231772168639045493),54%nat),(510701560698556274045491207344910353661970831136710547,55%nat));
    (((-129449135396945003146444164649575774759873524366472143),54%nat),(514884515009809339950443971770543117339238266595808248,55%nat));
    (((-77809333949536569419285507082225287577594782897723955),54%nat),(517679431749101875438036430288237329323469454992015641,55%nat));
    (((-259597723012477985891703854003448256603147607172752255),55%nat),(519078776312206397328649383622696801801515955656409356,55%nat));
    ((259597723012477985891703854003448256603147607172752255,55%nat),(519078776312206397328649383622696801801515955656409356,55%nat));
    ((77809333949536569419285507082225287577594782897723955,54%nat),(517679431749101875438036430288237329323469454992015641,55%nat));
    ((129449135396945003146444164649575774759873524366472143,54%nat),(514884515009809339950443971770543117339238266595808248,55%nat));
    ((180739964873425417240876941261852631231772168639045493,54%nat),(510701560698556274045491207344910353661970831136710547,55%nat));
    ((231543551376029338010344631346755440743539051939585732,54%nat),(505141845325093745982387357416536432399561627374166281,55%nat));
    ((281722937423261691690694860339441598308263060795377424,54%nat),(498220356905501810111592308937033124792155972437847697,55%nat));
    ((331142848268448194252352965350552704800121496376311203,54%nat),(489955754557568353894756868578942983575838959990902425,55%nat));
    ((379670056576797977154952670521887704056374433162389866,54%nat),(480370318199711809636666527287336536025000292469219569,55%nat));
    ((42717374158307838930745285353031192335344213618423209,53%nat),(469489888489122048470131563947015662755749025834444429,55%nat));
    ((47352584176170711110816305375279463800786800509983689,53%nat),(457343797161144866471964552909093330079349742586849544,55%nat));
    ((518601400058569747417889348484721301329846676288685573,54%nat),(443964787957871133277841640913773696638849857340142985,55%nat));
    ((5622789007539445391782725874859987290631882376593954,52%nat),(42938892835935641954231220656382806949211771964916479,54%nat));
    ((604440597048510363444208776311201720650421053591059838,54%nat),(413655512355847556131638368066588968801870085215107142,55%nat));
    ((644972828489477067813447896420444717165190019346660996,54%nat),(396806954523807994701228348117100087628035112941742187,55%nat));
    ((68376632738135543722293023922429715908759460433887498,53%nat),(378888675692434440309407942092760318100842810638063715,55%nat));
    ((720716513355730399436021061013521077764773994733239043,54%nat),(359948980510845030665786462880623385942424200210035839,55%nat));
    ((755723775306585686868842066602373105928900199564707725,54%nat),(34003892724946422834914401555258741187276223552858876,54%nat));
    ((78869373993226405456994479977721573524633292787922762,53%nat),(31921219019296328949458899536760476766697292282991421,54%nat));
    ((81953752616214575936851810851972357189949051896959251,53%nat),(29752491500788945240836484673487710332475158124107232,54%nat));
    ((848171984785929632490515494994375601297528716506778197,54%nat),(275035567499247916352231976386222476484034707541621773,55%nat));
    ((874519922646898315129308099912435805159182294435782076,54%nat),(251804776215212483795709659723612791317808329441895486,55%nat));
    ((898510310810045941937789329572628330164458442747073825,54%nat),(227895169439978198637834581929002078101673842152082582,55%nat));
    ((92007847617762755285665686251989682878376887601370604,53%nat),(203371207294572867750321474171063014620171125053439038,55%nat));
    ((939166276116423249495419011609705096419403420401198032,54%nat),(178299010142077202603962612483485676338592195833932469,55%nat));
    ((95572225583999610739723184582969950248009374476661422,53%nat),(152746185967847993067260380988253351779093841150728645,55%nat));
    ((969701788765052733721544098913794272540934344868247072,54%nat),(126781664768159601314953792695142349883383643026329456,55%nat));
    ((981067201752598185618576799826770033880538579221891743,54%nat),(100475571822879843578857643770572564996517474876773843,55%nat));
    ((989787895222221717367278987016096042577393153786939041,54%nat),(738993116334545553151695602208606088222818020622509209,56%nat));
    ((995840525118838173876746713377440652774890294977139102,54%nat),(471272992695356864089482171407723594808497019371506012,56%nat));
    ((999210123227436022034229585797649266398798978711325671,54%nat),(202681196887375849643171020989232469531166822555894991,56%nat))]);
  (61%nat, [(((-999235597631363471731862259569130862853442048503000831),54%nat),(196145336167028267177306446192684809414929406187149776,56%nat));
    (((-995974599815120234268012760712288276286848864789131725),54%nat),(456092400601241718453893257974278827081304337831533151,56%nat));
    (((-990116745232517050965531685699916501628756781176497313),54%nat),(715235499174908958583399309169417557127328166702841504,56%nat));
    (((-981676011284037079685172540751319422160074062094926546),54%nat),(972546183035613373613667175557011832684334637992202658,56%nat));
    (((-97067425883318290824740845354791027256833637675753032),53%nat),(122732635078121046292778003595261313544926604914256755,55%nat));
    (((-95714015191298409137208028742121526110444034092702351),53%nat),(147890658849379145461785157814882612603715285337802068,55%nat));
    (((-941108986681361147477543860977789008280474711058459422),54%nat),(172662929876137435944332127724366211841880545205192719,55%nat));
    (((-922622581382955261257551500555845445450635161298717512),54%nat),(19698477746101181330517830212684566665796636136043834,54%nat));
    (((-901729162474001170642040042683511164653117521087263577),54%nat),(220792731483190440024757656281816274361721240829312286,55%nat));
    (((-878483237214881032478947513893352631459554520280417946),54%nat),(244024671875442029153406597324675323257701985040236008,55%nat));
    (((-852945450847663445564846904674170538339953259984460132),54%nat),(266619985241508896628107068449680195640554191241206074,55%nat));
    (((-825182428108659950664281892450847527006394659959583126),54%nat),(288519720881834015043417755455902525435071199346938874,55%nat));
    (((-795266599282359649152048802752546264873236870205831179),54%nat),(309666743683973948246979466124893837667092710275253843,55%nat));
    (((-763276011172312197145914668494350371044519151098621473),54%nat),(330005882759074106327236834410044928074089398081505862,55%nat));
    (((-729294123449465109688956690135531798576371014538177349),54%nat),(349484075165333510908519192092192782550094709415075836,55%nat));
    (((-69340959089449115549918436396023173728437756854618546),53%nat),(368050504231548173843210428640674608759007235916177133,55%nat));
    (((-655716032095070871699185777836306887000847346441682259),54%nat),(385656732070081727461520476296538028292229332149573981,55%nat));
    (((-616311785197921724709616859328591035895671683961232725),54%nat),(402256825909982473676399837575115791559285285247384514,55%nat));
    (((-575299651350830618600369981944972878997331925337729135),54%nat),(417807477908884920666755723510730075126973740835647877,55%nat));
    (((-532786626502925265638481716373071640324819910945474154),54%nat),(432268118124960979010436458226828733502967443538131357,55%nat));
    (((-488883622262252118820698511425829597516530924724996168),54%nat),(445601020350834882715414198310883529333563351947651631,55%nat));
    (((-443705176538531601995589301065822559382324637472238324),54%nat),(45777140053145959371339833846824791961534814552092104,54%nat));
    (((-39736915472575660917829184736858922181287289269372192),53%nat),(468747507508090659764294455885907359337142723543964814,55%nat));
    (((-349996442204066834533434477062093849787504617404883983),54%nat),(478500705850956071618334275186996627134012529702368159,55%nat));
    (((-301710628963030712604486525456977125241197632870037328),54%nat),(487005550564115260875300883147056067586983721814505763,55%nat));
    (((-252637687169053495833690863334405106227510747560059222),54%nat),(494239853467355899399687766511164994166596566677484811,55%nat));
    (((-202905642518058499226947203343057054501439051858363433),54%nat),(50018474108178253425051615006358625442055919236672434,54%nat));
    (((-152644240230815300529506761773477416883538976617459301),54%nat),(504824703867974046481444651881512691728991520000886696,55%nat));
    (((-10198460656227406895720840476436564197678981705575171),53%nat),(508147636688183432077005292234786973478423438565676647,55%nat));
    (((-510589067079743493668875006189007980701842540412565385),55%nat),(510144870386972635437350805738520107682023754233863468,55%nat));
    ((0,0%nat),(510811194407862179779210956063098528020576264040892788,55%nat));
    ((510589067079743493668875006189007980701842540412565385,55%nat),(510144870386972635437350805738520107682023754233863468,55%nat));
    ((10198460656227406895720840476436564197678981705575171,53%nat),(508147636688183432077005292234786973478423438565676647,55%nat));
    ((152644240230815300529506761773477416883538976617459301,54%nat),(504824703867974046481444651881512691728991520000886696,55%nat));
    ((202905642518058499226947203343057054501439051858363433,54%nat),(50018474108178253425051615006358625442055919236672434,54%nat));
    ((252637687169053495833690863334405106227510747560059222,54%nat),(494239853467355899399687766511164994166596566677484811,55%nat));
    ((301710628963030712604486525456977125241197632870037328,54%nat),(487005550564115260875300883147056067586983721814505763,55%nat));
    ((349996442204066834533434477062093849787504617404883983,54%nat),(478500705850956071618334275186996627134012529702368159,55%nat));
    ((39736915472575660917829184736858922181287289269372192,53%nat),(468747507508090659764294455885907359337142723543964814,55%nat));
    ((443705176538531601995589301065822559382324637472238324,54%nat),(45777140053145959371339833846824791961534814552092104,54%nat));
    ((488883622262252118820698511425829597516530924724996168,54%nat),(445601020350834882715414198310883529333563351947651631,55%nat));
    ((532786626502925265638481716373071640324819910945474154,54%nat),(432268118124960979010436458226828733502967443538131357,55%nat));
    ((575299651350830618600369981944972878997331925337729135,54%nat),(417807477908884920666755723510730075126973740835647877,55%nat));
    ((616311785197921724709616859328591035895671683961232725,54%nat),(402256825909982473676399837575115791559285285247384514,55%nat));
    ((655716032095070871699185777836306887000847346441682259,54%nat),(385656732070081727461520476296538028292229332149573981,55%nat));
    ((69340959089449115549918436396023173728437756854618546,53%nat),(368050504231548173843210428640674608759007235916177133,55%nat));
    ((729294123449465109688956690135531798576371014538177349,54%nat),(349484075165333510908519192092192782550094709415075836,55%nat));
    ((763276011172312197145914668494350371044519151098621473,54%nat),(330005882759074106327236834410044928074089398081505862,55%nat));
    ((795266599282359649152048802752546264873236870205831179,54%nat),(309666743683973948246979466124893837667092710275253843,55%nat));
    ((825182428108659950664281892450847527006394659959583126,54%nat),(288519720881834015043417755455902525435071199346938874,55%nat));
    ((852945450847663445564846904674170538339953259984460132,54%nat),(266619985241508896628107068449680195640554191241206074,55%nat));
    ((878483237214881032478947513893352631459554520280417946,54%nat),(244024671875442029153406597324675323257701985040236008,55%nat));
    ((901729162474001170642040042683511164653117521087263577,54%nat),(220792731483190440024757656281816274361721240829312286,55%nat));
    ((922622581382955261257551500555845445450635161298717512,54%nat),(19698477746101181330517830212684566665796636136043834,54%nat));
    ((941108986681361147477543860977789008280474711058459422,54%nat),(172662929876137435944332127724366211841880545205192719,55%nat));
    ((95714015191298409137208028742121526110444034092702351,53%nat),(147890658849379145461785157814882612603715285337802068,55%nat));
    ((97067425883318290824740845354791027256833637675753032,53%nat),(122732635078121046292778003595261313544926604914256755,55%nat));
    ((981676011284037079685172540751319422160074062094926546,54%nat),(972546183035613373613667175557011832684334637992202658,56%nat));
    ((990116745232517050965531685699916501628756781176497313,54%nat),(715235499174908958583399309169417557127328166702841504,56%nat));
    ((995974599815120234268012760712288276286848864789131725,54%nat),(456092400601241718453893257974278827081304337831533151,56%nat));
    ((999235597631363471731862259569130862853442048503000831,54%nat),(196145336167028267177306446192684809414929406187149776,56%nat))]);
  (62%nat, [(((-999259859308777029698408465035798938019634460510221853),54%nat),(189920567951369048039734386093514017087884977236897663,56%nat));
    (((-996102296316267132885148430476171492632140217279841958),54%nat),(441633345693090481327412425549064072971198213049489617,56%nat));
    (((-99042997118929035242807106186068064500231531367714058),53%nat),(692604190183096087170282409925706711954721309845612182,56%nat));
    (((-982255949097236649491103128009792471563001203053950845),54%nat),(941857942842038763793756340656642815543364295156699935,56%nat));
    (((-971600723371651806447179482540305835154160553929264677),54%nat),(118873901170105019448189389667979365274285962699907244,55%nat));
    (((-958491172973927092029560475165970943317106647782847211),54%nat),(143261918238065177674028823094145960770999460756654786,55%nat));
    (((-942960401392328503826364811623351587241418158740212175),54%nat),(167288117901773162885504717840924583631319372334291324,55%nat));
    (((-925047635636203755227300130757048619448630524042658125),54%nat),(190891766585731987325037124822838057744426750473217115,55%nat));
    (((-904798122521093465758485602428375624398449892610323052),54%nat),(214013222776699688411790899649052776408375205805733304,55%nat));
    (((-88226301283189736307268662435582975601712579191938624),53%nat),(236594072086827925745168006505345647014315294308404535,55%nat));
    (((-857499231512070922818403320544675506891508937511621746),54%nat),(258577269540246980270955665535105155948598700257474233,55%nat));
    (((-830569333604004851345931109477208222919811239495206516),54%nat),(279907281633146375412382927540413048736838088959792964,55%nat));
    (((-801541346103976371538505514495386347306189483107850394),54%nat),(300530225739898700770094692270623794862287815545353735,55%nat));
    (((-770488596055419318990944694995048188453809265505423986),54%nat),(320394005816246781063392372781563731304930348629342626,55%nat));
    (((-737489525283156749860784276501439460280103435631180086),54%nat),(339448443794105450911174772542360577864065417327114703,55%nat));
    (((-702627492222297055120972765059986723144031285289579655),54%nat),(357645406227681412855873783617220425845980677311738019,55%nat));
    (((-665990561335479446997546034082388079933208584475695868),54%nat),(374938925822800299856185635187930282343318531675349904,55%nat));
    (((-627671280646885180726954764916162788587208438303692503),54%nat),(391285317519630841233108018226088606261799149434694791,55%nat));
    (((-587766447953087338002149550121987763858197496847643018),54%nat),(406643288824174409682850175166634173129867186716685745,55%nat));
    (((-546376866300251095816100384523633707232171091578385675),54%nat),(420974044103850966430226269038388460100870864191350467,55%nat));
    (((-503607089344755955917020805931616276965841967296053744),54%nat),(434241382580474195800692304339443041957713299146806061,55%nat));
    (((-459565157240113395207143978075752651418602087013646598),54%nat),(446411789771244142936446918091377844103487557080767163,55%nat));
    (((-414362323717126048129588750657611345135889299571842248),54%nat),(457454522145701807772322722976961876704039463776258646,55%nat));
    (((-368112775046564529663021830952507922017235455535164745),54%nat),(467341684784155248022070550794847787621597834290144551,55%nat));
    (((-320933341594194004074101601003456385085858702159362965),54%nat),(476048301841012322704500882678663730607374180494971446,55%nat));
    (((-272943202696726343188683627973480980854861620343509936),54%nat),(483552379634776728348031814784589867622005024623890562,55%nat));
    (((-224263585604165531668991393344882700608965256717494693),54%nat),(489834962205178371048511270262173725653489027963997494,55%nat));
    (((-17501745924901562855568742390423603170050770944644704),53%nat),(494880179196992925278658109047740184636337882109571078,55%nat));
    (((-125329223615896808619648999499726257796755400789475805),54%nat),(498675285949523942447613106348428168881959590452746142,55%nat));
    (((-753243954962343327638269391178708775768458123144207998),55%nat),(50121069569043288074804100101530968004895319933921361,54%nat));
    (((-25129291421820614727088275999146962314504918024814949),54%nat),(502480003752562816884029489951356683165047234765657809,55%nat));
    ((25129291421820614727088275999146962314504918024814949,54%nat),(502480003752562816884029489951356683165047234765657809,55%nat));
    ((753243954962343327638269391178708775768458123144207998,55%nat),(50121069569043288074804100101530968004895319933921361,54%nat));
    ((125329223615896808619648999499726257796755400789475805,54%nat),(498675285949523942447613106348428168881959590452746142,55%nat));
    ((17501745924901562855568742390423603170050770944644704,53%nat),(494880179196992925278658109047740184636337882109571078,55%nat));
    ((224263585604165531668991393344882700608965256717494693,54%nat),(489834962205178371048511270262173725653489027963997494,55%nat));
    ((272943202696726343188683627973480980854861620343509936,54%nat),(483552379634776728348031814784589867622005024623890562,55%nat));
    ((320933341594194004074101601003456385085858702159362965,54%nat),(476048301841012322704500882678663730607374180494971446,55%nat));
    ((368112775046564529663021830952507922017235455535164745,54%nat),(467341684784155248022070550794847787621597834290144551,55%nat));
    ((414362323717126048129588750657611345135889299571842248,54%nat),(457454522145701807772322722976961876704039463776258646,55%nat));
    ((459565157240113395207143978075752651418602087013646598,54%nat),(446411789771244142936446918091377844103487557080767163,55%nat));
    ((503607089344755955917020805931616276965841967296053744,54%nat),(434241382580474195800692304339443041957713299146806061,55%nat));
    ((546376866300251095816100384523633707232171091578385675,54%nat),(420974044103850966430226269038388460100870864191350467,55%nat));
    ((587766447953087338002149550121987763858197496847643018,54%nat),(406643288824174409682850175166634173129867186716685745,55%nat));
    ((627671280646885180726954764916162788587208438303692503,54%nat),(391285317519630841233108018226088606261799149434694791,55%nat));
    ((665990561335479446997546034082388079933208584475695868,54%nat),(374938925822800299856185635187930282343318531675349904,55%nat));
    ((702627492222297055120972765059986723144031285289579655,54%nat),(357645406227681412855873783617220425845980677311738019,55%nat));
    ((737489525283156749860784276501439460280103435631180086,54%nat),(339448443794105450911174772542360577864065417327114703,55%nat));
    ((770488596055419318990944694995048188453809265505423986,54%nat),(320394005816246781063392372781563731304930348629342626,55%nat));
    ((801541346103976371538505514495386347306189483107850394,54%nat),(300530225739898700770094692270623794862287815545353735,55%nat));
    ((830569333604004851345931109477208222919811239495206516,54%nat),(279907281633146375412382927540413048736838088959792964,55%nat));
    ((857499231512070922818403320544675506891508937511621746,54%nat),(258577269540246980270955665535105155948598700257474233,55%nat));
    ((88226301283189736307268662435582975601712579191938624,53%nat),(236594072086827925745168006505345647014315294308404535,55%nat));
    ((904798122521093465758485602428375624398449892610323052,54%nat),(214013222776699688411790899649052776408375205805733304,55%nat));
    ((925047635636203755227300130757048619448630524042658125,54%nat),(190891766585731987325037124822838057744426750473217115,55%nat));
    ((942960401392328503826364811623351587241418158740212175,54%nat),(167288117901773162885504717840924583631319372334291324,55%nat));
    ((958491172973927092029560475165970943317106647782847211,54%nat),(143261918238065177674028823094145960770999460756654786,55%nat));
    ((971600723371651806447179482540305835154160553929264677,54%nat),(118873901170105019448189389667979365274285962699907244,55%nat));
    ((982255949097236649491103128009792471563001203053950845,54%nat),(941857942842038763793756340656642815543364295156699935,56%nat));
    ((99042997118929035242807106186068064500231531367714058,53%nat),(692604190183096087170282409925706711954721309845612182,56%nat));
    ((996102296316267132885148430476171492632140217279841958,54%nat),(441633345693090481327412425549064072971198213049489617,56%nat));
    ((999259859308777029698408465035798938019634460510221853,54%nat),(189920567951369048039734386093514017087884977236897663,56%nat))]);
  (63%nat, [(((-999282984029123780378936140928944461072796718186242813),54%nat),(183987459557708411709244555404392385263847233884024248,56%nat));
    (((-996224012777970108602193361146311353293076971857523298),54%nat),(42785083468637618660784110826227855171274726708752114,55%nat));
    (((-99072854689218946681089466720470345305426226535032778),53%nat),(671029176596013625190693072972880397343602855571611024,56%nat));
    (((-982808810593727234862511405691611739202599161956207342),54%nat),(912596867632665635405864542175995484969241778837534967,56%nat));
    (((-972484034697570022801960678576810948164976541203097838),54%nat),(115193760768800417507506061486180648415887939453889832,55%nat));
    (((-959779449758941927070354166258988969165416503161655427),54%nat),(138846126161156108248660863676244349192776582534906475,55%nat));
    (((-944726134041009802966375319627500663744580688957766982),54%nat),(16215878410338338882283672975130914915815603829930901,54%nat));
    (((-927360920621843205447031381325121569456054361068601918),54%nat),(185074644601612704092605458051579631102389214176312854,55%nat));
    (((-907726302778531558036953132915953225547793928275658208),54%nat),(207537612580390907753419534214731533478132648784418211,55%nat));
    (((-885870328507853426290298457313369875149868469487853717),54%nat),(229492710048899331489423195617705058910474999190868284,55%nat));
    (((-861846482364123719539611839431059953996536225216268314),54%nat),(250886205533449866186301380684433561023538074476335724,55%nat));
    (((-835713554319502843471807769615705452823614477583885981),54%nat),(271665743590979332251898394394127266066426839866291275,55%nat));
    (((-8075354957734567600514659863632431345941923607774963),52%nat),(291780472082805269455515021540288022829409459208054268,55%nat));
    (((-777381262990372335563330189911042755759799142048102003),54%nat),(311181166222198175082159885571885820249111895329151127,55%nat));
    (((-745324648317847417829321661037587632314602947261940726),54%nat),(329820348837793417656831796724593071377942161572778556,55%nat));
    (((-711444099584845807851431537704014879128282511787012492),54%nat),(347652406453558776971805046427881571070733024941471943,55%nat));
    (((-675822528114986090131103315969544508779811254723799706),54%nat),(364633700854572896304524097875417918318329502542965112,55%nat));
    (((-63854710582136538500030695387337648123329492461318164),53%nat),(380722675843495567636383249278892186273033572541754295,55%nat));
    (((-599709051877625235739008926868799861071169523997529146),54%nat),(395879958915440939848079281492023644541949391141024388,55%nat));
    (((-559403409486285013267697800070054696540528415606657527),54%nat),(410068457596663986351100370090723507401779662124993039,55%nat));
    (((-51772881329003324812447758452631553557737395502174835),53%nat),(423253450208158229825054854030274564828433789141963751,55%nat));
    (((-47478724799480439992221230985149474928601795896973317),53%nat),(435402670830275907989643157044011396409312119283805381,55%nat));
    (((-430683798795111600662088933918629982066481417200037325),54%nat),(446486388259413953703326695168133932341005635625203337,55%nat));
    (((-385526394212247892477615022274398150275045705437133427),54%nat),(456477478762926086858859926085425224266073239389639298,55%nat));
    (((-339425541974584402468834431594315085043918046718704485),54%nat),(465351492453836965103954187469531872278224771737984217,55%nat));
    (((-29249405858625144003615715555066692368934587193884237),53%nat),(473086713122689190806049883388440623866200019726457181,55%nat));
    (((-244846793245953362748404593924829370148342175358214833),54%nat),(479664211379951314110527561951322536106849214321465806,55%nat));
    (((-19660034679150668455762745706571769792078300580349276),53%nat),(48506789097883847864090099145801582027591769247826655,54%nat));
    (((-147872786357871968569839096552972943441463664083963029),54%nat),(489284528205119899447093615492148212325258099816152682,55%nat));
    (((-987833564469452795297036694539221034395586011789432173),55%nat),(492303804237475607850431169881445875918765328199142233,55%nat));
    (((-494521871161596272342338180518076098977554568999159461),55%nat),(494118330399181789670396461167048596977283900845409696,55%nat));
    ((0,0%nat),(494723666239310208886693604209259446135322539423832672,55%nat));
    ((494521871161596272342338180518076098977554568999159461,55%nat),(494118330399181789670396461167048596977283900845409696,55%nat));
    ((987833564469452795297036694539221034395586011789432173,55%nat),(492303804237475607850431169881445875918765328199142233,55%nat));
    ((147872786357871968569839096552972943441463664083963029,54%nat),(489284528205119899447093615492148212325258099816152682,55%nat));
    ((19660034679150668455762745706571769792078300580349276,53%nat),(48506789097883847864090099145801582027591769247826655,54%nat));
    ((244846793245953362748404593924829370148342175358214833,54%nat),(479664211379951314110527561951322536106849214321465806,55%nat));
    ((29249405858625144003615715555066692368934587193884237,53%nat),(473086713122689190806049883388440623866200019726457181,55%nat));
    ((339425541974584402468834431594315085043918046718704485,54%nat),(465351492453836965103954187469531872278224771737984217,55%nat));
    ((385526394212247892477615022274398150275045705437133427,54%nat),(456477478762926086858859926085425224266073239389639298,55%nat));
    ((430683798795111600662088933918629982066481417200037325,54%nat),(446486388259413953703326695168133932341005635625203337,55%nat));
    ((47478724799480439992221230985149474928601795896973317,53%nat),(435402670830275907989643157044011396409312119283805381,55%nat));
    ((51772881329003324812447758452631553557737395502174835,53%nat),(423253450208158229825054854030274564828433789141963751,55%nat));
    ((559403409486285013267697800070054696540528415606657527,54%nat),(410068457596663986351100370090723507401779662124993039,55%nat));
    ((599709051877625235739008926868799861071169523997529146,54%nat),(395879958915440939848079281492023644541949391141024388,55%nat));
    ((63854710582136538500030695387337648123329492461318164,53%nat),(380722675843495567636383249278892186273033572541754295,55%nat));
    ((675822528114986090131103315969544508779811254723799706,54%nat),(364633700854572896304524097875417918318329502542965112,55%nat));
    ((711444099584845807851431537704014879128282511787012492,54%nat),(347652406453558776971805046427881571070733024941471943,55%nat));
    ((745324648317847417829321661037587632314602947261940726,54%nat),(329820348837793417656831796724593071377942161572778556,55%nat));
    ((777381262990372335563330189911042755759799142048102003,54%nat),(311181166222198175082159885571885820249111895329151127,55%nat));
    ((8075354957734567600514659863632431345941923607774963,52%nat),(291780472082805269455515021540288022829409459208054268,55%nat));
    ((835713554319502843471807769615705452823614477583885981,54%nat),(271665743590979332251898394394127266066426839866291275,55%nat));
    ((861846482364123719539611839431059953996536225216268314,54%nat),(250886205533449866186301380684433561023538074476335724,55%nat));
    ((885870328507853426290298457313369875149868469487853717,54%nat),(229492710048899331489423195617705058910474999190868284,55%nat));
    ((907726302778531558036953132915953225547793928275658208,54%nat),(207537612580390907753419534214731533478132648784418211,55%nat));
    ((927360920621843205447031381325121569456054361068601918,54%nat),(185074644601612704092605458051579631102389214176312854,55%nat));
    ((944726134041009802966375319627500663744580688957766982,54%nat),(16215878410338338882283672975130914915815603829930901,54%nat));
    ((959779449758941927070354166258988969165416503161655427,54%nat),(138846126161156108248660863676244349192776582534906475,55%nat));
    ((972484034697570022801960678576810948164976541203097838,54%nat),(115193760768800417507506061486180648415887939453889832,55%nat));
    ((982808810593727234862511405691611739202599161956207342,54%nat),(912596867632665635405864542175995484969241778837534967,56%nat));
    ((99072854689218946681089466720470345305426226535032778,53%nat),(671029176596013625190693072972880397343602855571611024,56%nat));
    ((996224012777970108602193361146311353293076971857523298,54%nat),(42785083468637618660784110826227855171274726708752114,55%nat));
    ((999282984029123780378936140928944461072796718186242813,54%nat),(183987459557708411709244555404392385263847233884024248,56%nat))]);
  (64%nat, [(((-999305041735772139456905624345636311969712191675608776),54%nat),(178328072169643294729607914497193317995934727192795567,56%nat));
    (((-996340116771955279346924500676399123209857506340226612),54%nat),(414703326056246763528753572855141531330281925368480246,56%nat));
    (((-991013371476744320739382383443303113641349445390790485),54%nat),(65044579689783628561173603999812667711317610549523401,55%nat));
    (((-983336253884625956931299302156831116945247506623740384),54%nat),(88467598263639477230309146597306476951762660792204998,55%nat));
    (((-973326827789910963741853507352272668026145294455174176),54%nat),(111681394601311288185904930192081350727787978168272872,55%nat));
    (((-961008799652053718918614121897157206762114611037845949),54%nat),(134630478967186425980607666859556841084257719773496708,55%nat));
    (((-94641137485840281606248149134726479527939497179523319),53%nat),(157260304760247193219659952975397944260290098431565122,55%nat));
    (((-929569172131939575821490154559225607347427014429715498),54%nat),(179517157756973430850453020011193688971673570364158573,55%nat));
    (((-910522137078502805756380668008329861013488084888364029),54%nat),(201348231535302093723403167285438970895266801007919519,55%nat));
    (((-889315445995114105853404038272851622429194461510452189),54%nat),(222701738083832541592983303841550024229592905997594051,55%nat));
    (((-865999398154092819760783385070157502412501918758249643),54%nat),(24352702568710873338177550409068987649978415513378412,54%nat));
    (((-840629296252580362751691544695873302982489823801755354),54%nat),(263774697150546586716917926252251856755993308422457184,55%nat));
    (((-813265315122797559741923338086303340698141822565597217),54%nat),(28339672614259483227511305200237351981207584125754336,54%nat));
    (((-783972358943341407610220525213768284056414124989825933),54%nat),(302346570724024788679740598195486591582813977684812416,55%nat));
    (((-752819907260531896611863774885693985551714271322087193),54%nat),(320579283548515535854675043478987169662215738813980623,55%nat));
    (((-719881850171610826848940217831947244758138003314901953),54%nat),(338051618371416093915654821107254310210499263140045347,55%nat));
    (((-685236313054233242563558371031376301935641078539671868),54%nat),(354722132568823838106931467152459479480946310024100947,55%nat));
    (((-648965471254657339857761231993404885529690433473201173),54%nat),(370551285402400460404151018095833750834649453056563022,55%nat));
    (((-611155355172393250248852971018548918696124559307971844),54%nat),(38550153178615629128962496946808991012787112201718032,54%nat));
    (((-571895646202634034283878116659188643183191006091250993),54%nat),(399537411327203413866569261283360739186769506703336301,55%nat));
    (((-531279464019894545658013903544455247408525588734180238),54%nat),(412625632426235286101562974736380477399306355305474105,55%nat));
    (((-489403145707052957478526307021921390849373297463739837),54%nat),(424735151236535890073397679088173661655466481806496697,55%nat));
    (((-446366017253464087984947714758915189206750757826250176),54%nat),(435837245293234533768278609737374809227888974971180151,55%nat));
    (((-402270157963991603695766771260158848713265205615020808),54%nat),(445905581637565630601347100309448432940237999912217256,55%nat));
    (((-357220158337668115950442615046202531626264464640909112),54%nat),(454916279274181444797709969712690588873234618023998968,55%nat));
    (((-311322871990210956157512698560156883557715357868050127),54%nat),(462847965813144172959532492322611849696503075324468008,55%nat));
    (((-264687162208767416373964172510020117980413136295093244),54%nat),(46968182816210017325326285754581075199897528473812565,54%nat));
    (((-217423643740007084149648748988822617578485831141222349),54%nat),(475401657148303086622822069442231716408252512625387522,55%nat));
    (((-169644420423992818037313629748269844199990266734377851),54%nat),(479993885964583077281261798713460699543167134714936209,55%nat));
    (((-121462819296120554470376463492247878218683638337191294),54%nat),(483447622348029571697695271580178097036925506095010806,55%nat));
    (((-729931217877990394495429419403374932441261816687788534),55%nat),(485754674415034269347990667839781136875565447049294857,55%nat));
    (((-243502926634244325089558428537156614268871093149758092),55%nat),(486909570091397203833653907347499124426286922838743305,55%nat));
    ((243502926634244325089558428537156614268871093149758092,55%nat),(486909570091397203833653907347499124426286922838743305,55%nat));
    ((729931217877990394495429419403374932441261816687788534,55%nat),(485754674415034269347990667839781136875565447049294857,55%nat));
    ((121462819296120554470376463492247878218683638337191294,54%nat),(483447622348029571697695271580178097036925506095010806,55%nat));
    ((169644420423992818037313629748269844199990266734377851,54%nat),(479993885964583077281261798713460699543167134714936209,55%nat));
    ((217423643740007084149648748988822617578485831141222349,54%nat),(475401657148303086622822069442231716408252512625387522,55%nat));
    ((264687162208767416373964172510020117980413136295093244,54%nat),(46968182816210017325326285754581075199897528473812565,54%nat));
    ((311322871990210956157512698560156883557715357868050127,54%nat),(462847965813144172959532492322611849696503075324468008,55%nat));
    ((357220158337668115950442615046202531626264464640909112,54%nat),(454916279274181444797709969712690588873234618023998968,55%nat));
    ((402270157963991603695766771260158848713265205615020808,54%nat),(445905581637565630601347100309448432940237999912217256,55%nat));
    ((446366017253464087984947714758915189206750757826250176,54%nat),(435837245293234533768278609737374809227888974971180151,55%nat));
    ((489403145707052957478526307021921390849373297463739837,54%nat),(424735151236535890073397679088173661655466481806496697,55%nat));
    ((531279464019894545658013903544455247408525588734180238,54%nat),(412625632426235286101562974736380477399306355305474105,55%nat));
    ((571895646202634034283878116659188643183191006091250993,54%nat),(399537411327203413866569261283360739186769506703336301,55%nat));
    ((611155355172393250248852971018548918696124559307971844,54%nat),(38550153178615629128962496946808991012787112201718032,54%nat));
    ((648965471254657339857761231993404885529690433473201173,54%nat),(370551285402400460404151018095833750834649453056563022,55%nat));
    ((685236313054233242563558371031376301935641078539671868,54%nat),(354722132568823838106931467152459479480946310024100947,55%nat));
    ((719881850171610826848940217831947244758138003314901953,54%nat),(338051618371416093915654821107254310210499263140045347,55%nat));
    ((752819907260531896611863774885693985551714271322087193,54%nat),(320579283548515535854675043478987169662215738813980623,55%nat));
    ((783972358943341407610220525213768284056414124989825933,54%nat),(302346570724024788679740598195486591582813977684812416,55%nat));
    ((813265315122797559741923338086303340698141822565597217,54%nat),(28339672614259483227511305200237351981207584125754336,54%nat));
    ((840629296252580362751691544695873302982489823801755354,54%nat),(263774697150546586716917926252251856755993308422457184,55%nat));
    ((865999398154092819760783385070157502412501918758249643,54%nat),(24352702568710873338177550409068987649978415513378412,54%nat));
    ((889315445995114105853404038272851622429194461510452189,54%nat),(222701738083832541592983303841550024229592905997594051,55%nat));
    ((910522137078502805756380668008329861013488084888364029,54%nat),(201348231535302093723403167285438970895266801007919519,55%nat));
    ((929569172131939575821490154559225607347427014429715498,54%nat),(179517157756973430850453020011193688971673570364158573,55%nat));
    ((94641137485840281606248149134726479527939497179523319,53%nat),(157260304760247193219659952975397944260290098431565122,55%nat));
    ((961008799652053718918614121897157206762114611037845949,54%nat),(134630478967186425980607666859556841084257719773496708,55%nat));
    ((973326827789910963741853507352272668026145294455174176,54%nat),(111681394601311288185904930192081350727787978168272872,55%nat));
    ((983336253884625956931299302156831116945247506623740384,54%nat),(88467598263639477230309146597306476951762660792204998,55%nat));
    ((991013371476744320739382383443303113641349445390790485,54%nat),(65044579689783628561173603999812667711317610549523401,55%nat));
    ((996340116771955279346924500676399123209857506340226612,54%nat),(414703326056246763528753572855141531330281925368480246,56%nat));
    ((999305041735772139456905624345636311969712191675608776,54%nat),(178328072169643294729607914497193317995934727192795567,56%nat))])
].
