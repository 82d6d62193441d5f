{
"837987995621412318723376562387865382967460363787024586107722590232610251879607410804876779383055508762141059258497448934987052508775626162460930737942299": {
"-1": {
"2": 1,
"3": 1,
"143291": 1,
"7447165497053341": 1
},
"+1": {
"2": 2,
"5": 2,
"2179": 1,
"125453": 1,
"808876865324789": 1,
"57188279": 1,
"259982535760753375231345823": 1,
"2548976895085716329697587681830411627347998276648179122037187115488620176814788894639353942333": 1
}
},
"2462625387274654950767440006258975862817483704404090416747124418612574880605944350369924877650606926799392131911201": {
"-1": {
"2": 5,
"3": 1,
"5": 2,
"131": 1,
"18539": 1,
"531909186161701": 1,
"794313638957499499270577370679308530064362143769221875328034265471314993172778690817396407": 1
},
"+1": {
"2": 1,
"18793": 1,
"24593": 1
}
},
"794313638957499499270577370679308530064362143769221875328034265471314993172778690817396407": {
"-1": {
"2": 1,
"3": 1,
"13": 1,
"23": 1,
"61": 1,
"151": 1,
"191": 1,
"70627": 1
},
"+1": {
"2": 3,
"211": 1,
"907": 1,
"518814721046350592855056622974095979443952345219920546439772194066760238412125471463": 1
}
},
"518814721046350592855056622974095979443952345219920546439772194066760238412125471463": {
"-1": {
"2": 1,
"3": 3,
"17": 1,
"37": 1,
"634573": 1
},
"+1": {
"2": 3,
"23": 1,
"6449": 1,
"559133": 1,
"12381039564955637": 1,
"1313568410713628615625067": 1,
"48081405927762079532376987730897": 1
}
},
"2462625387274654950767440006258975862817483704404090416746934574041288984234680883008327183083615266784870011007447": {
"-1": {
"2": 1,
"3": 2,
"13": 1,
"43": 1,
"59": 1,
"173": 1,
"23978163906116309806674273528410869974800147232588444606571758029980837570993229680578504611504832152780419": 1
},
"+1": {
"2": 3,
"17": 1,
"631": 1
}
},
"23978163906116309806674273528410869974800147232588444606571758029980837570993229680578504611504832152780419": {
"-1": {
"2": 1,
"3": 3,
"80629": 1,
"251969987": 1,
"2582420664331010792443772203": 1,
"138897064261279495097010689063": 1,
"60934327561511008916380516463943361": 1
},
"+1": {
"2": 2,
"5": 1,
"167": 1,
"397": 1,
"19541": 1,
"278789693770034911": 1
}
},
"7237005577332262213973186563042994240857116359379907606001950938285454250989": {
"-1": {
"2": 2,
"3": 1,
"11": 1
},
"+1": {
"2": 1,
"5": 1,
"7": 1,
"103": 1,
"684245902131068969": 1,
"1466936914520620440380580414586728830413895967152734051": 1
}
},
"1466936914520620440380580414586728830413895967152734051": {
"-1": {
"2": 1,
"3": 1,
"5": 2,
"9779579430137469602537202763911525536092639781018227": 1
},
"+1": {
"2": 2,
"7": 1,
"173": 1,
"1091": 1
}
},
"9779579430137469602537202763911525536092639781018227": {
"-1": {
"2": 1,
"3": 4,
"102551": 1,
"230003": 1,
"21239192336081849": 1,
"120501864231524812752109": 1
},
"+1": {
"2": 2,
"17": 1,
"73": 1,
"112843": 1
}
},
"421249166674228746791672110734682167926895081980396304944335052891": {
"-1": {
"2": 1,
"5": 1,
"250162337": 1,
"3398045597": 1,
"168650669431260323389": 1,
"293832518631314000633668609": 1
},
"+1": {
"2": 2,
"3": 1
}
},
"168650669431260323389": {
"-1": {
"2": 2,
"3": 4,
"41": 1,
"12695774573265607": 1
},
"+1": {
"2": 1,
"5": 1,
"113": 1,
"997": 1,
"149697472444999": 1
}
},
"12695774573265607": {
"-1": {
"2": 1,
"3": 2,
"705320809625867": 1
},
"+1": {
"2": 3,
"11": 2,
"17": 1,
"157": 1,
"2411": 1,
"2038159": 1
}
},
"705320809625867": {
"-1": {
"2": 1,
"7": 1,
"50380057830419": 1
},
"+1": {
"2": 2,
"3": 1,
"97": 1
}
},
"293832518631314000633668609": {
"-1": {
"2": 10,
"3": 1,
"17": 1,
"449": 1,
"1931539": 1,
"6487537818497": 1
},
"+1": {
"2": 1,
"5": 1,
"3739": 1,
"250575995177": 1,
"31362085087": 1
}
},
"1716199415032652428745475199770348304317358825035826352348615864796385795849413675475876651663657849636693659065234142604319282948702542317993421293670108523": {
"-1": {
"2": 1,
"311": 1,
"443": 1,
"274641681901431937": 1,
"22678127291974494752999082758512529677847838471000074610295040629304883810213774415831891245381957284486015221359371338545320928049961": 1
},
"+1": {
"2": 2,
"3": 1,
"7841": 1,
"2927955869": 1
}
},
"22678127291974494752999082758512529677847838471000074610295040629304883810213774415831891245381957284486015221359371338545320928049961": {
"-1": {
"2": 3,
"5": 1,
"2247646472029713793": 1,
"252243041490141992091916747959634815169496193136845853336769661422832941962389811668187387649516185742186371754593": 1
},
"+1": {
"2": 1,
"3": 1,
"7": 1,
"6004517": 1,
"499183": 1,
"368599699847": 1
}
},
"5288447750321988791615322464262168318627237463714249754277190328831105466135348245791335989419337099796002495788978276839289": {
"-1": {
"2": 3,
"3": 1,
"11": 1,
"3346351": 1,
"7005507114193524029414407471112866694107408372181827430432047949693881095742546770048184168812214569007093": 1,
"854502269": 1
},
"+1": {
"2": 1,
"5": 1,
"353": 1,
"1033": 1,
"322709": 1
}
},
"7005507114193524029414407471112866694107408372181827430432047949693881095742546770048184168812214569007093": {
"-1": {
"2": 2,
"3": 1,
"11": 1,
"13903": 1,
"24317": 1,
"19467793": 1,
"44546539": 1,
"181015782627525661863876044430183339290714113279526328477904366773136146558252253": 1
},
"+1": {
"2": 1,
"7": 1,
"20509": 1
}
},
"2462625387274654950767440006258975862817483704404090416745738034557663054564649171262659326683244604346084081047321": {
"-1": {
"2": 3,
"5": 1,
"11": 1,
"313": 1
},
"+1": {
"2": 1,
"3": 1,
"1297": 1,
"316451476133982902951354408411587749012783822205614291537617326465903759260427804068704616638813236230542801471": 1
}
},
"316451476133982902951354408411587749012783822205614291537617326465903759260427804068704616638813236230542801471": {
"-1": {
"2": 1,
"5": 1,
"247362776489783": 1
},
"+1": {
"2": 6,
"3": 2,
"127": 1,
"2251": 1,
"61294612097": 1,
"1141898440733348174687": 1,
"27457161967136632372853627203548351065399521153702532326641964625665699": 1
}
},
"904625697166532776746648320380374280092339035279495474023489261773642975601": {
"-1": {
"2": 4,
"3": 2,
"5": 2,
"7": 1,
"17": 1,
"5662229": 1,
"53308853141": 1,
"152435752726607681": 1
},
"+1": {
"2": 1,
"13": 1,
"517061": 1,
"13346626583": 1,
"735114407490991711": 1,
"6858471625525161133929809698864618938289": 1
}
},
"152435752726607681": {
"-1": {
"2": 6,
"5": 1,
"11": 1,
"43305611570059": 1
},
"+1": {
"2": 1,
"3": 1,
"61": 1,
"416491127668327": 1
}
},
"1684996666696914987166688442938726735569737456760058294185521417407": {
"-1": {
"2": 1,
"163": 1
},
"+1": {
"2": 6,
"3": 1,
"7": 1,
"417861945727750881991": 1,
"1294037573909": 1,
"2318569232226713703170973455453": 1
}
},
"417861945727750881991": {
"-1": {
"2": 1,
"3": 2,
"5": 1
},
"+1": {
"2": 3,
"1291": 1,
"3581": 1,
"11298278398919": 1
}
},
"2318569232226713703170973455453": {
"-1": {
"2": 2,
"5743": 1
},
"+1": {
"2": 1,
"3": 2,
"1277": 1,
"103007": 1,
"979241763145207050077": 1
}
},
"979241763145207050077": {
"-1": {
"2": 2,
"7": 1,
"34972920112328823217": 1
},
"+1": {
"2": 1,
"3": 1,
"19": 1,
"8589840027589535527": 1
}
},
"34972920112328823217": {
"-1": {
"2": 4,
"3": 1,
"13049": 1,
"21089": 1,
"2647630897": 1
},
"+1": {
"2": 1,
"11": 2,
"17": 1,
"8500952871251537": 1
}
},
"21239192336081849": {
"-1": {
"2": 3,
"29": 1,
"263": 1,
"348092178053": 1
},
"+1": {
"2": 1,
"3": 2,
"5": 2,
"13": 1,
"41": 1,
"88551979721": 1
}
},
"120501864231524812752109": {
"-1": {
"2": 2,
"3": 1,
"10041822019293734396009": 1
},
"+1": {
"2": 1,
"5": 1,
"12050186423152481275211": 1
}
},
"10041822019293734396009": {
"-1": {
"2": 3,
"29": 1,
"41": 1,
"101": 1,
"251": 1,
"41643342688559": 1
},
"+1": {
"2": 1,
"3": 1,
"5": 1,
"173839": 1,
"1925502336317653": 1
}
},
"181015782627525661863876044430183339290714113279526328477904366773136146558252253": {
"-1": {
"2": 2,
"3": 1,
"6299": 1,
"2394768781123004469808382870696186422325158931040989687224220336205960556679": 1
},
"+1": {
"2": 1
}
},
"2394768781123004469808382870696186422325158931040989687224220336205960556679": {
"-1": {
"2": 1,
"7": 1,
"38861": 1,
"28800823": 1,
"45265241663": 1,
"3376384040438327312767543585515740988479041826522993": 1
},
"+1": {
"2": 3,
"3": 1,
"5": 1,
"67": 1,
"130136753": 1
}
},
"3376384040438327312767543585515740988479041826522993": {
"-1": {
"2": 4,
"7": 2,
"11": 1,
"661": 1,
"592299861982871449195634528262215319398393153": 1
},
"+1": {
"2": 1,
"3": 1,
"37": 1
}
},
"592299861982871449195634528262215319398393153": {
"-1": {
"2": 6,
"61": 1,
"877": 1,
"35537": 1,
"4868010057124911294296551654477037": 1
},
"+1": {
"2": 1,
"3": 1,
"7": 2,
"47": 1,
"1987": 1,
"11287": 1
}
},
"4868010057124911294296551654477037": {
"-1": {
"2": 2,
"61": 1,
"271": 1,
"560513308871": 1,
"131342845410725759": 1
},
"+1": {
"2": 1,
"3": 2,
"11": 1,
"39047": 1,
"51730213": 1,
"21455059": 1,
"567315467269": 1
}
},
"131342845410725759": {
"-1": {
"2": 1,
"4723": 1,
"13904599344773": 1
},
"+1": {
"2": 7,
"3": 4,
"5": 1,
"7": 1,
"751": 1,
"14009": 1,
"34403": 1
}
},
"252243041490141992091916747959634815169496193136845853336769661422832941962389811668187387649516185742186371754593": {
"-1": {
"2": 5,
"3": 1,
"73": 1,
"397": 1,
"16657196583967": 1,
"139862065649": 1,
"38916407753682983861283783766663832991809018999410768212336775108672551624633480899": 1
},
"+1": {
"2": 1,
"61": 1,
"6761": 1
}
},
"38916407753682983861283783766663832991809018999410768212336775108672551624633480899": {
"-1": {
"2": 1,
"139": 1,
"9743": 1
},
"+1": {
"2": 2,
"3": 3,
"5": 2,
"5651": 1,
"2550607742561656334918354913693665034166946459781668810655392038686863133017": 1
}
},
"2550607742561656334918354913693665034166946459781668810655392038686863133017": {
"-1": {
"2": 3,
"251": 1,
"7499": 1
},
"+1": {
"2": 1,
"3": 2,
"211": 1,
"6287": 1,
"70258120606036366544140183498310321834404388245296763": 1
}
},
"70258120606036366544140183498310321834404388245296763": {
"-1": {
"2": 1,
"3": 2,
"7": 1,
"13": 1,
"12391": 1,
"25343": 1
},
"+1": {
"2": 2,
"307": 1,
"443": 1,
"3034093": 1,
"2619810189515269": 1,
"16247843220936739491319423": 1
}
},
"2619810189515269": {
"-1": {
"2": 2,
"3": 4,
"5987": 1,
"6353": 1,
"212587": 1
},
"+1": {
"2": 1,
"5": 1,
"23": 1,
"37": 1,
"307850786077": 1
}
},
"16247843220936739491319423": {
"-1": {
"2": 1,
"3": 1,
"7": 1,
"13": 1,
"1423": 1,
"2477": 1,
"5456777": 1,
"1547162621": 1
},
"+1": {
"2": 7,
"17": 1,
"66173": 1
}
},
"27457161967136632372853627203548351065399521153702532326641964625665699": {
"-1": {
"2": 1,
"3": 1,
"11": 1,
"52301": 1,
"362382481777": 1,
"79827568214232247": 1,
"274967663196021973118692602986121187": 1
},
"+1": {
"2": 2,
"5": 2,
"103": 1,
"2371": 1,
"27731377": 1
}
},
"274967663196021973118692602986121187": {
"-1": {
"2": 1,
"3": 1
},
"+1": {
"2": 2,
"80489": 1,
"23756729": 1,
"6562774997": 1,
"5477860160821": 1
}
},
"1313568410713628615625067": {
"-1": {
"2": 1,
"3": 1,
"13": 1,
"17": 1,
"3617": 1
},
"+1": {
"2": 2,
"11": 1,
"29": 1,
"19697": 1,
"52263914715209269": 1
}
},
"52263914715209269": {
"-1": {
"2": 2,
"3": 2,
"1489": 1,
"93719": 1,
"10403443": 1
},
"+1": {
"2": 1,
"5": 1,
"43": 1,
"191707": 1,
"634009127": 1
}
},
"48081405927762079532376987730897": {
"-1": {
"2": 4,
"3": 2,
"149": 1,
"72925815043": 1,
"30728906504060587": 1
},
"+1": {
"2": 1,
"41": 1
}
},
"30728906504060587": {
"-1": {
"2": 1,
"3": 1
},
"+1": {
"2": 2,
"187513": 1,
"40969034819": 1
}
},
"2548976895085716329697587681830411627347998276648179122037187115488620176814788894639353942333": {
"-1": {
"2": 2,
"19": 1,
"47": 1,
"1279": 1,
"557935382898549033026744298638969333051699622869949998125720050809707545704447171563589": 1
},
"+1": {
"2": 1,
"3": 1,
"13": 1,
"17": 1
}
},
"557935382898549033026744298638969333051699622869949998125720050809707545704447171563589": {
"-1": {
"2": 2,
"13": 1,
"199": 1,
"53917219066346060400729058623789073545776925287007150959192119328344370477816696131": 1
},
"+1": {
"2": 1,
"3": 1,
"5": 1,
"18597846096618301100891476621298977768389987428998333270857335026990251523481572385453": 1
}
},
"53917219066346060400729058623789073545776925287007150959192119328344370477816696131": {
"-1": {
"2": 1,
"3": 1,
"5": 1,
"7": 1,
"41": 1,
"809": 1,
"16061": 1,
"481951380909394163830556360717830606579326875406533211634727376676402717": 1
},
"+1": {
"2": 2,
"11": 2
}
},
"481951380909394163830556360717830606579326875406533211634727376676402717": {
"-1": {
"2": 2,
"3": 1
},
"+1": {
"2": 1,
"1069": 1,
"1283": 1,
"175698830905040208406599491194059834979306596008147565317608540217": 1
}
},
"175698830905040208406599491194059834979306596008147565317608540217": {
"-1": {
"2": 3,
"11": 2,
"571133": 1,
"629573887": 1,
"123182867545057": 1,
"16068203": 1,
"255030389469389683584271007": 1
},
"+1": {
"2": 1,
"3": 1,
"59": 1
}
},
"123182867545057": {
"-1": {
"2": 5,
"3": 2,
"11": 1,
"907": 1,
"919": 1,
"46649": 1
},
"+1": {
"2": 1,
"34367": 1,
"1792167887": 1
}
},
"255030389469389683584271007": {
"-1": {
"2": 1,
"23": 1,
"61": 1,
"311": 1,
"6779": 1,
"29633": 1
},
"+1": {
"2": 5,
"3": 5,
"53": 1
}
},
"138897064261279495097010689063": {
"-1": {
"2": 1,
"907": 1,
"5651": 1,
"18947": 1,
"715138273065985889": 1
},
"+1": {
"2": 3,
"3": 1,
"8929": 1
}
},
"715138273065985889": {
"-1": {
"2": 5,
"7": 2,
"19": 1,
"24004372753289": 1
},
"+1": {
"2": 1,
"3": 1,
"5": 1,
"11": 1,
"79": 1,
"9791": 1,
"2801701997": 1
}
},
"60934327561511008916380516463943361": {
"-1": {
"2": 6,
"3": 1,
"5": 1,
"7": 1,
"31327": 1,
"289450259140102639080071069": 1
},
"+1": {
"2": 1,
"17299": 1
}
},
"289450259140102639080071069": {
"-1": {
"2": 2,
"61": 1,
"1091": 1,
"2269": 1,
"479208894057626693": 1
},
"+1": {
"2": 1,
"3": 1,
"5": 1,
"563": 1,
"15803": 1
}
},
"479208894057626693": {
"-1": {
"2": 2,
"119802223514406673": 1
},
"+1": {
"2": 1,
"3": 1,
"13": 1,
"83": 1,
"74020527349031": 1
}
},
"119802223514406673": {
"-1": {
"2": 4,
"3": 2
},
"+1": {
"2": 1,
"37": 1,
"1618948966410901": 1
}
},
"1618948966410901": {
"-1": {
"2": 2,
"3": 2,
"5": 2,
"11701": 1,
"153733201": 1
},
"+1": {
"2": 1,
"7": 1,
"17443": 1,
"6629548351": 1
}
}
}