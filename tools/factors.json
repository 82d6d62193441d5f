{
 "3369993333393829974333376885877453834204643052817571560137951281149": {
  "2": 2,
  "7": 1,
  "439": 1,
  "3943": 1,
  "2298041": 1,
  "9361973132609": 1,
  "671165898617413417": 1,
  "4815314615204347717321": 1
 },
 "6739986666787659948666753771754907668409286105635143120275902562187": {
  "2": 1,
  "3": 3,
  "1010536301839123457339": 1,
  "123513195593586463868249598285337146648031981": 1
 },
 "3618502788666131106986593281521497120414687020801267626233049500247285301239": {
  "2": 1,
  "19": 1,
  "3121": 1,
  "30510656070643106182115999270826633842178510774222732476374386585332681": 1
 },
 "57896044618658097711785492504343953926634992332820282019728792003956564819949": {
  "2": 2,
  "3": 1,
  "65147": 1,
  "74058212732561358302231226437062788676166966415465897661863160754340907": 1
 },
 "19701003098197239606139520050071806902539869635232723333974146702122860885748605305707133127442457820403313995153221": {
  "2": 2,
  "3": 1,
  "5": 1,
  "10211": 1,
  "575131529129": 1,
  "1631235845567066729": 1,
  "34275585315876169535825731013955432020686980960977076060073381689104960386232837": 1
 },
 "42307582002575910332922579714097346549017899709713998034217522897561970639123926132812109468141778230245837569601494931472367": {
  "2": 1,
  "431": 1,
  "25583": 1,
  "4994337311": 1,
  "30406113761": 1,
  "2249645791783395932842367": 1,
  "9632869229268961407429404857": 1,
  "582976264895657809930367649386427562549872079": 1
 },
 "6703903964971298549787012499102923063739682910296196688861780721860882015036773488400937149083451713845015929093243025426876941405973284973216824503041861": {
  "2": 2,
  "3": 1,
  "5": 1,
  "31": 1,
  "1063": 1,
  "99436943": 1,
  "72371792138339": 1,
  "471155737497642486266649722911997034941785580633861408520357030668404527002692877857903580176417856629449583072727858932500851": 1
 },
 "30510656070643106182115999270826633842178510774222732476374386585332681": {
  "2": 3,
  "5": 1,
  "31": 1,
  "11783": 1,
  "42853": 1,
  "2151858718037429125511251": 1,
  "22645347980446549950250344634517843": 1
 },
 "74058212732561358302231226437062788676166966415465897661863160754340907": {
  "2": 1,
  "3": 1,
  "353": 1,
  "57467": 1,
  "132049": 1,
  "1923133": 1,
  "31757755568855353": 1,
  "75445702479781427272750846543864801": 1
 },
 "1010536301839123457339": {
  "2": 1,
  "163": 1,
  "2011": 1,
  "1541424468855533": 1
 },
 "123513195593586463868249598285337146648031981": {
  "2": 2,
  "3": 3,
  "5": 1,
  "228728139988123081237499256083957678977837": 1
 },
 "1541424468855533": {
  "2": 2,
  "53": 1,
  "337": 1,
  "3319": 1,
  "6500537": 1
 },
 "228728139988123081237499256083957678977837": {
  "2": 2,
  "3": 1,
  "137": 1,
  "104123": 1,
  "5336643803": 1,
  "250381879990652588256601": 1
 },
 "250381879990652588256601": {
  "2": 3,
  "3": 1,
  "5": 2,
  "59": 1,
  "127727": 1,
  "3224909": 1,
  "17171153": 1
 },
 "31757755568855353": {
  "2": 3,
  "3": 1,
  "31": 1,
  "107": 1,
  "223": 1,
  "4153": 1,
  "430751": 1
 },
 "575131529129": {
  "2": 3,
  "13": 1,
  "1049": 1,
  "5271793": 1
 },
 "1631235845567066729": {
  "2": 3,
  "11": 1,
  "929": 1,
  "19953467139239": 1
 },
 "34275585315876169535825731013955432020686980960977076060073381689104960386232837": {
  "2": 2,
  "13": 1,
  "1583": 1,
  "22017043": 1,
  "134384519429": 1,
  "140731847223860698993672433903061203299016858671554230293": 1
 },
 "19953467139239": {
  "2": 1,
  "31": 1,
  "1471": 1,
  "2549": 1,
  "85831": 1
 },
 "134384519429": {
  "2": 2,
  "839": 1,
  "40043063": 1
 },
 "140731847223860698993672433903061203299016858671554230293": {
  "2": 2,
  "3": 2,
  "11": 1,
  "69697": 1,
  "62417726963": 1,
  "3788735183": 1,
  "21561596637519154364530566979": 1
 },
 "62417726963": {
  "2": 1,
  "191": 1,
  "2237": 1,
  "73043": 1
 },
 "21561596637519154364530566979": {
  "2": 1,
  "3": 1,
  "23": 1,
  "67": 1,
  "14875631": 1,
  "156765911253115553": 1
 },
 "156765911253115553": {
  "2": 5,
  "137": 1,
  "38713": 1,
  "923685781": 1
 },
 "72371792138339": {
  "2": 1,
  "7": 2,
  "11": 1,
  "2467": 1,
  "27213313": 1
 },
 "471155737497642486266649722911997034941785580633861408520357030668404527002692877857903580176417856629449583072727858932500851": {
  "2": 1,
  "5": 2,
  "349": 1,
  "17683": 1,
  "23311": 1,
  "235251347": 1,
  "1130119423": 1,
  "235404890147362182521": 1,
  "1046598874349470040812238544166825597307092300404591085307326405812564486341": 1
 },
 "235404890147362182521": {
  "2": 3,
  "5": 1,
  "7": 1,
  "13": 1,
  "73": 1,
  "89": 1,
  "3559": 1,
  "2796876191": 1
 },
 "1046598874349470040812238544166825597307092300404591085307326405812564486341": {
  "2": 2,
  "5": 1,
  "7": 1,
  "35511557": 1,
  "1435773091665945871": 1,
  "146621177686829237856559365192161554600556965873": 1
 },
 "9361973132609": {
  "2": 6,
  "19": 1,
  "73": 1,
  "105465631": 1
 },
 "671165898617413417": {
  "2": 3,
  "3": 1,
  "7": 1,
  "19": 1,
  "41": 1,
  "53": 1,
  "73": 1,
  "1325514287": 1
 },
 "1435773091665945871": {
  "2": 1,
  "3": 3,
  "5": 1,
  "17": 1,
  "229": 1,
  "879331": 1,
  "1553407": 1
 },
 "146621177686829237856559365192161554600556965873": {
  "2": 4,
  "3": 1,
  "127": 1,
  "211": 1,
  "2810390965640035542416767": 1,
  "111032963": 1,
  "365300797": 1
 },
 "2810390965640035542416767": {
  "2": 1,
  "3": 1,
  "71": 1,
  "107": 1,
  "151": 1,
  "1234853": 1,
  "330659614771": 1
 },
 "2151858718037429125511251": {
  "2": 1,
  "3": 1,
  "5": 4,
  "28145939": 1,
  "20387630040577": 1
 },
 "20387630040577": {
  "2": 9,
  "3": 1,
  "17": 1,
  "401": 1,
  "1947073": 1
 },
 "30406113761": {
  "2": 5,
  "5": 1,
  "11": 1,
  "83": 1,
  "208147": 1
 },
 "2249645791783395932842367": {
  "2": 1,
  "11": 1,
  "17": 1,
  "6015095699955604098509": 1
 },
 "9632869229268961407429404857": {
  "2": 3,
  "3": 1,
  "17": 1,
  "197": 1,
  "40927": 1,
  "2928325597569402103": 1
 },
 "6015095699955604098509": {
  "2": 2,
  "7": 1,
  "214824846426985860661": 1
 },
 "2928325597569402103": {
  "2": 1,
  "3": 2,
  "41": 1,
  "101": 1,
  "39286345187279": 1
 },
 "214824846426985860661": {
  "2": 2,
  "3": 2,
  "5": 1,
  "7": 1,
  "8741": 1,
  "19505309445451": 1
 },
 "39286345187279": {
  "2": 1,
  "7": 1,
  "29": 1,
  "107": 1,
  "904340159": 1
 },
 "19505309445451": {
  "2": 1,
  "3": 5,
  "5": 2,
  "17": 1,
  "131": 1,
  "720869": 1
 },
 "73772877462174271275190544236719752617642791980199852706432606976654958697962983688247": {
  "2": 1,
  "3": 4,
  "11": 1,
  "17": 1,
  "3485993918719416799": 1,
  "698575703735456133599723797762201889328894814259077172352301391": 1
 },
 "3485993918719416799": {
  "2": 1,
  "3": 1,
  "211": 1,
  "571": 1,
  "887": 1,
  "1013": 1,
  "5366903": 1
 },
 "698575703735456133599723797762201889328894814259077172352301391": {
  "2": 1,
  "5": 1,
  "7": 1,
  "9979652910506516194281768539460026990412783060843959605032877": 1
 },
 "9979652910506516194281768539460026990412783060843959605032877": {
  "2": 2,
  "3": 1,
  "83": 1,
  "708913047977": 1,
  "14133936265457239151185988243933396434546137803": 1
 },
 "708913047977": {
  "2": 3,
  "7": 2,
  "17": 1,
  "106379509": 1
 },
 "14133936265457239151185988243933396434546137803": {
  "2": 1,
  "3659": 1,
  "39367": 1,
  "2295895498713967": 1,
  "21369102717792255206551": 1
 },
 "2295895498713967": {
  "2": 1,
  "3": 1,
  "1831": 1,
  "208983751931": 1
 },
 "208983751931": {
  "2": 1,
  "5": 1,
  "2351": 1,
  "8889143": 1
 }
}