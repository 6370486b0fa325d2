(** The bytes of the four lookup files in the repository are [go_file] of the tables of LookupTables.v, so what
    C73_go_generate says is written is what is there. *)
From Coq Require Import NArith List Bool String.
From Verif Require Import Base DagModel LookupTables GenModel GenSpec.
Import ListNotations.
Open Scope N_scope.

Definition same_text (a b : list N) : bool := if list_eq_dec N.eq_dec a b then true else false.
Definition lines (l : list string) : list N := flat_map (fun s => txt s ++ [10]) l.

(** ethash/ethash_lookup.go, all of it *)
Definition ethash_lookup_go : list string := [
"package ethash";
"";
"var cacheSizes = []uint64{";
"	16776896, 16907456, 17039296, 17170112, 17301056,";
"	17432512, 17563072, 17693888, 17824192, 17955904,";
"	18087488, 18218176, 18349504, 18481088, 18611392,";
"	18742336, 18874304, 19004224, 19135936, 19267264,";
"	19398208, 19529408, 19660096, 19791424, 19922752,";
"	20053952, 20184896, 20315968, 20446912, 20576576,";
"	20709184, 20840384, 20971072, 21102272, 21233216,";
"	21364544, 21494848, 21626816, 21757376, 21887552,";
"	22019392, 22151104, 22281536, 22412224, 22543936,";
"	22675264, 22806464, 22935872, 23068096, 23198272,";
"	23330752, 23459008, 23592512, 23723968, 23854912,";
"	23986112, 24116672, 24247616, 24378688, 24509504,";
"	24640832, 24772544, 24903488, 25034432, 25165376,";
"	25296704, 25427392, 25558592, 25690048, 25820096,";
"	25951936, 26081728, 26214208, 26345024, 26476096,";
"	26606656, 26737472, 26869184, 26998208, 27131584,";
"	27262528, 27393728, 27523904, 27655744, 27786688,";
"	27917888, 28049344, 28179904, 28311488, 28441792,";
"	28573504, 28700864, 28835648, 28966208, 29096768,";
"	29228608, 29359808, 29490752, 29621824, 29752256,";
"	29882816, 30014912, 30144448, 30273728, 30406976,";
"	30538432, 30670784, 30799936, 30932672, 31063744,";
"	31195072, 31325248, 31456192, 31588288, 31719232,";
"	31850432, 31981504, 32110784, 32243392, 32372672,";
"	32505664, 32636608, 32767808, 32897344, 33029824,";
"	33160768, 33289664, 33423296, 33554368, 33683648,";
"	33816512, 33947456, 34076992, 34208704, 34340032,";
"	34471744, 34600256, 34734016, 34864576, 34993984,";
"	35127104, 35258176, 35386688, 35518528, 35650624,";
"	35782336, 35910976, 36044608, 36175808, 36305728,";
"	36436672, 36568384, 36699968, 36830656, 36961984,";
"	37093312, 37223488, 37355072, 37486528, 37617472,";
"	37747904, 37879232, 38009792, 38141888, 38272448,";
"	38403392, 38535104, 38660672, 38795584, 38925632,";
"	39059264, 39190336, 39320768, 39452096, 39581632,";
"	39713984, 39844928, 39974848, 40107968, 40238144,";
"	40367168, 40500032, 40631744, 40762816, 40894144,";
"	41023552, 41155904, 41286208, 41418304, 41547712,";
"	41680448, 41811904, 41942848, 42073792, 42204992,";
"	42334912, 42467008, 42597824, 42729152, 42860096,";
"	42991552, 43122368, 43253696, 43382848, 43515712,";
"	43646912, 43777088, 43907648, 44039104, 44170432,";
"	44302144, 44433344, 44564288, 44694976, 44825152,";
"	44956864, 45088448, 45219008, 45350464, 45481024,";
"	45612608, 45744064, 45874496, 46006208, 46136768,";
"	46267712, 46399424, 46529344, 46660672, 46791488,";
"	46923328, 47053504, 47185856, 47316928, 47447872,";
"	47579072, 47710144, 47839936, 47971648, 48103232,";
"	48234176, 48365248, 48496192, 48627136, 48757312,";
"	48889664, 49020736, 49149248, 49283008, 49413824,";
"	49545152, 49675712, 49807168, 49938368, 50069056,";
"	50200256, 50331584, 50462656, 50593472, 50724032,";
"	50853952, 50986048, 51117632, 51248576, 51379904,";
"	51510848, 51641792, 51773248, 51903296, 52035136,";
"	52164032, 52297664, 52427968, 52557376, 52690112,";
"	52821952, 52952896, 53081536, 53213504, 53344576,";
"	53475776, 53608384, 53738816, 53870528, 54000832,";
"	54131776, 54263744, 54394688, 54525248, 54655936,";
"	54787904, 54918592, 55049152, 55181248, 55312064,";
"	55442752, 55574336, 55705024, 55836224, 55967168,";
"	56097856, 56228672, 56358592, 56490176, 56621888,";
"	56753728, 56884928, 57015488, 57146816, 57278272,";
"	57409216, 57540416, 57671104, 57802432, 57933632,";
"	58064576, 58195264, 58326976, 58457408, 58588864,";
"	58720192, 58849984, 58981696, 59113024, 59243456,";
"	59375552, 59506624, 59637568, 59768512, 59897792,";
"	60030016, 60161984, 60293056, 60423872, 60554432,";
"	60683968, 60817216, 60948032, 61079488, 61209664,";
"	61341376, 61471936, 61602752, 61733696, 61865792,";
"	61996736, 62127808, 62259136, 62389568, 62520512,";
"	62651584, 62781632, 62910784, 63045056, 63176128,";
"	63307072, 63438656, 63569216, 63700928, 63831616,";
"	63960896, 64093888, 64225088, 64355392, 64486976,";
"	64617664, 64748608, 64879424, 65009216, 65142464,";
"	65273792, 65402816, 65535424, 65666752, 65797696,";
"	65927744, 66060224, 66191296, 66321344, 66453056,";
"	66584384, 66715328, 66846656, 66977728, 67108672,";
"	67239104, 67370432, 67501888, 67631296, 67763776,";
"	67895104, 68026304, 68157248, 68287936, 68419264,";
"	68548288, 68681408, 68811968, 68942912, 69074624,";
"	69205568, 69337024, 69467584, 69599168, 69729472,";
"	69861184, 69989824, 70122944, 70253888, 70385344,";
"	70515904, 70647232, 70778816, 70907968, 71040832,";
"	71171648, 71303104, 71432512, 71564992, 71695168,";
"	71826368, 71958464, 72089536, 72219712, 72350144,";
"	72482624, 72613568, 72744512, 72875584, 73006144,";
"	73138112, 73268672, 73400128, 73530944, 73662272,";
"	73793344, 73924544, 74055104, 74185792, 74316992,";
"	74448832, 74579392, 74710976, 74841664, 74972864,";
"	75102784, 75233344, 75364544, 75497024, 75627584,";
"	75759296, 75890624, 76021696, 76152256, 76283072,";
"	76414144, 76545856, 76676672, 76806976, 76937792,";
"	77070016, 77200832, 77331392, 77462464, 77593664,";
"	77725376, 77856448, 77987776, 78118336, 78249664,";
"	78380992, 78511424, 78642496, 78773056, 78905152,";
"	79033664, 79166656, 79297472, 79429568, 79560512,";
"	79690816, 79822784, 79953472, 80084672, 80214208,";
"	80346944, 80477632, 80608576, 80740288, 80870848,";
"	81002048, 81133504, 81264448, 81395648, 81525952,";
"	81657536, 81786304, 81919808, 82050112, 82181312,";
"	82311616, 82443968, 82573376, 82705984, 82835776,";
"	82967744, 83096768, 83230528, 83359552, 83491264,";
"	83622464, 83753536, 83886016, 84015296, 84147776,";
"	84277184, 84409792, 84540608, 84672064, 84803008,";
"	84934336, 85065152, 85193792, 85326784, 85458496,";
"	85589312, 85721024, 85851968, 85982656, 86112448,";
"	86244416, 86370112, 86506688, 86637632, 86769344,";
"	86900672, 87031744, 87162304, 87293632, 87424576,";
"	87555392, 87687104, 87816896, 87947968, 88079168,";
"	88211264, 88341824, 88473152, 88603712, 88735424,";
"	88862912, 88996672, 89128384, 89259712, 89390272,";
"	89521984, 89652544, 89783872, 89914816, 90045376,";
"	90177088, 90307904, 90438848, 90569152, 90700096,";
"	90832832, 90963776, 91093696, 91223744, 91356992,";
"	91486784, 91618496, 91749824, 91880384, 92012224,";
"	92143552, 92273344, 92405696, 92536768, 92666432,";
"	92798912, 92926016, 93060544, 93192128, 93322816,";
"	93453632, 93583936, 93715136, 93845056, 93977792,";
"	94109504, 94240448, 94371776, 94501184, 94632896,";
"	94764224, 94895552, 95023424, 95158208, 95287744,";
"	95420224, 95550016, 95681216, 95811904, 95943872,";
"	96075328, 96203584, 96337856, 96468544, 96599744,";
"	96731072, 96860992, 96992576, 97124288, 97254848,";
"	97385536, 97517248, 97647808, 97779392, 97910464,";
"	98041408, 98172608, 98303168, 98434496, 98565568,";
"	98696768, 98827328, 98958784, 99089728, 99220928,";
"	99352384, 99482816, 99614272, 99745472, 99876416,";
"	100007104, 100138048, 100267072, 100401088, 100529984,";
"	100662592, 100791872, 100925248, 101056064, 101187392,";
"	101317952, 101449408, 101580608, 101711296, 101841728,";
"	101973824, 102104896, 102235712, 102366016, 102498112,";
"	102628672, 102760384, 102890432, 103021888, 103153472,";
"	103284032, 103415744, 103545152, 103677248, 103808576,";
"	103939648, 104070976, 104201792, 104332736, 104462528,";
"	104594752, 104725952, 104854592, 104988608, 105118912,";
"	105247808, 105381184, 105511232, 105643072, 105774784,";
"	105903296, 106037056, 106167872, 106298944, 106429504,";
"	106561472, 106691392, 106822592, 106954304, 107085376,";
"	107216576, 107346368, 107478464, 107609792, 107739712,";
"	107872192, 108003136, 108131392, 108265408, 108396224,";
"	108527168, 108657344, 108789568, 108920384, 109049792,";
"	109182272, 109312576, 109444928, 109572928, 109706944,";
"	109837888, 109969088, 110099648, 110230976, 110362432,";
"	110492992, 110624704, 110755264, 110886208, 111017408,";
"	111148864, 111279296, 111410752, 111541952, 111673024,";
"	111803456, 111933632, 112066496, 112196416, 112328512,";
"	112457792, 112590784, 112715968, 112852672, 112983616,";
"	113114944, 113244224, 113376448, 113505472, 113639104,";
"	113770304, 113901376, 114031552, 114163264, 114294592,";
"	114425536, 114556864, 114687424, 114818624, 114948544,";
"	115080512, 115212224, 115343296, 115473472, 115605184,";
"	115736128, 115867072, 115997248, 116128576, 116260288,";
"	116391488, 116522944, 116652992, 116784704, 116915648,";
"	117046208, 117178304, 117308608, 117440192, 117569728,";
"	117701824, 117833024, 117964096, 118094656, 118225984,";
"	118357312, 118489024, 118617536, 118749632, 118882112,";
"	119012416, 119144384, 119275328, 119406016, 119537344,";
"	119668672, 119798464, 119928896, 120061376, 120192832,";
"	120321728, 120454336, 120584512, 120716608, 120848192,";
"	120979136, 121109056, 121241408, 121372352, 121502912,";
"	121634752, 121764416, 121895744, 122027072, 122157632,";
"	122289088, 122421184, 122550592, 122682944, 122813888,";
"	122945344, 123075776, 123207488, 123338048, 123468736,";
"	123600704, 123731264, 123861952, 123993664, 124124608,";
"	124256192, 124386368, 124518208, 124649024, 124778048,";
"	124911296, 125041088, 125173696, 125303744, 125432896,";
"	125566912, 125696576, 125829056, 125958592, 126090304,";
"	126221248, 126352832, 126483776, 126615232, 126746432,";
"	126876608, 127008704, 127139392, 127270336, 127401152,";
"	127532224, 127663552, 127794752, 127925696, 128055232,";
"	128188096, 128319424, 128449856, 128581312, 128712256,";
"	128843584, 128973632, 129103808, 129236288, 129365696,";
"	129498944, 129629888, 129760832, 129892288, 130023104,";
"	130154048, 130283968, 130416448, 130547008, 130678336,";
"	130807616, 130939456, 131071552, 131202112, 131331776,";
"	131464384, 131594048, 131727296, 131858368, 131987392,";
"	132120256, 132250816, 132382528, 132513728, 132644672,";
"	132774976, 132905792, 133038016, 133168832, 133299392,";
"	133429312, 133562048, 133692992, 133823296, 133954624,";
"	134086336, 134217152, 134348608, 134479808, 134607296,";
"	134741056, 134872384, 135002944, 135134144, 135265472,";
"	135396544, 135527872, 135659072, 135787712, 135921472,";
"	136052416, 136182848, 136313792, 136444864, 136576448,";
"	136707904, 136837952, 136970048, 137099584, 137232064,";
"	137363392, 137494208, 137625536, 137755712, 137887424,";
"	138018368, 138149824, 138280256, 138411584, 138539584,";
"	138672832, 138804928, 138936128, 139066688, 139196864,";
"	139328704, 139460032, 139590208, 139721024, 139852864,";
"	139984576, 140115776, 140245696, 140376512, 140508352,";
"	140640064, 140769856, 140902336, 141032768, 141162688,";
"	141294016, 141426496, 141556544, 141687488, 141819584,";
"	141949888, 142080448, 142212544, 142342336, 142474432,";
"	142606144, 142736192, 142868288, 142997824, 143129408,";
"	143258944, 143392448, 143523136, 143653696, 143785024,";
"	143916992, 144045632, 144177856, 144309184, 144440768,";
"	144570688, 144701888, 144832448, 144965056, 145096384,";
"	145227584, 145358656, 145489856, 145620928, 145751488,";
"	145883072, 146011456, 146144704, 146275264, 146407232,";
"	146538176, 146668736, 146800448, 146931392, 147062336,";
"	147193664, 147324224, 147455936, 147586624, 147717056,";
"	147848768, 147979456, 148110784, 148242368, 148373312,";
"	148503232, 148635584, 148766144, 148897088, 149028416,";
"	149159488, 149290688, 149420224, 149551552, 149683136,";
"	149814976, 149943616, 150076352, 150208064, 150338624,";
"	150470464, 150600256, 150732224, 150862784, 150993088,";
"	151125952, 151254976, 151388096, 151519168, 151649728,";
"	151778752, 151911104, 152042944, 152174144, 152304704,";
"	152435648, 152567488, 152698816, 152828992, 152960576,";
"	153091648, 153222976, 153353792, 153484096, 153616192,";
"	153747008, 153878336, 154008256, 154139968, 154270912,";
"	154402624, 154533824, 154663616, 154795712, 154926272,";
"	155057984, 155188928, 155319872, 155450816, 155580608,";
"	155712064, 155843392, 155971136, 156106688, 156237376,";
"	156367424, 156499264, 156630976, 156761536, 156892352,";
"	157024064, 157155008, 157284416, 157415872, 157545536,";
"	157677248, 157810496, 157938112, 158071744, 158203328,";
"	158334656, 158464832, 158596288, 158727616, 158858048,";
"	158988992, 159121216, 159252416, 159381568, 159513152,";
"	159645632, 159776192, 159906496, 160038464, 160169536,";
"	160300352, 160430656, 160563008, 160693952, 160822208,";
"	160956352, 161086784, 161217344, 161349184, 161480512,";
"	161611456, 161742272, 161873216, 162002752, 162135872,";
"	162266432, 162397888, 162529216, 162660032, 162790976,";
"	162922048, 163052096, 163184576, 163314752, 163446592,";
"	163577408, 163707968, 163839296, 163969984, 164100928,";
"	164233024, 164364224, 164494912, 164625856, 164756672,";
"	164887616, 165019072, 165150016, 165280064, 165412672,";
"	165543104, 165674944, 165805888, 165936832, 166067648,";
"	166198336, 166330048, 166461248, 166591552, 166722496,";
"	166854208, 166985408, 167116736, 167246656, 167378368,";
"	167508416, 167641024, 167771584, 167903168, 168034112,";
"	168164032, 168295744, 168427456, 168557632, 168688448,";
"	168819136, 168951616, 169082176, 169213504, 169344832,";
"	169475648, 169605952, 169738048, 169866304, 169999552,";
"	170131264, 170262464, 170393536, 170524352, 170655424,";
"	170782016, 170917696, 171048896, 171179072, 171310784,";
"	171439936, 171573184, 171702976, 171835072, 171966272,";
"	172097216, 172228288, 172359232, 172489664, 172621376,";
"	172747712, 172883264, 173014208, 173144512, 173275072,";
"	173407424, 173539136, 173669696, 173800768, 173931712,";
"	174063424, 174193472, 174325696, 174455744, 174586816,";
"	174718912, 174849728, 174977728, 175109696, 175242688,";
"	175374272, 175504832, 175636288, 175765696, 175898432,";
"	176028992, 176159936, 176291264, 176422592, 176552512,";
"	176684864, 176815424, 176946496, 177076544, 177209152,";
"	177340096, 177470528, 177600704, 177731648, 177864256,";
"	177994816, 178126528, 178257472, 178387648, 178518464,";
"	178650176, 178781888, 178912064, 179044288, 179174848,";
"	179305024, 179436736, 179568448, 179698496, 179830208,";
"	179960512, 180092608, 180223808, 180354752, 180485696,";
"	180617152, 180748096, 180877504, 181009984, 181139264,";
"	181272512, 181402688, 181532608, 181663168, 181795136,";
"	181926592, 182057536, 182190016, 182320192, 182451904,";
"	182582336, 182713792, 182843072, 182976064, 183107264,";
"	183237056, 183368384, 183494848, 183631424, 183762752,";
"	183893824, 184024768, 184154816, 184286656, 184417984,";
"	184548928, 184680128, 184810816, 184941248, 185072704,";
"	185203904, 185335616, 185465408, 185596352, 185727296,";
"	185859904, 185989696, 186121664, 186252992, 186383552,";
"	186514112, 186645952, 186777152, 186907328, 187037504,";
"	187170112, 187301824, 187429184, 187562048, 187693504,";
"	187825472, 187957184, 188087104, 188218304, 188349376,";
"	188481344, 188609728, 188743616, 188874304, 189005248,";
"	189136448, 189265088, 189396544, 189528128, 189660992,";
"	189791936, 189923264, 190054208, 190182848, 190315072,";
"	190447424, 190577984, 190709312, 190840768, 190971328,";
"	191102656, 191233472, 191364032, 191495872, 191626816,";
"	191758016, 191888192, 192020288, 192148928, 192282176,";
"	192413504, 192542528, 192674752, 192805952, 192937792,";
"	193068608, 193198912, 193330496, 193462208, 193592384,";
"	193723456, 193854272, 193985984, 194116672, 194247232,";
"	194379712, 194508352, 194641856, 194772544, 194900672,";
"	195035072, 195166016, 195296704, 195428032, 195558592,";
"	195690304, 195818176, 195952576, 196083392, 196214336,";
"	196345792, 196476736, 196607552, 196739008, 196869952,";
"	197000768, 197130688, 197262784, 197394368, 197523904,";
"	197656384, 197787584, 197916608, 198049472, 198180544,";
"	198310208, 198442432, 198573632, 198705088, 198834368,";
"	198967232, 199097792, 199228352, 199360192, 199491392,";
"	199621696, 199751744, 199883968, 200014016, 200146624,";
"	200276672, 200408128, 200540096, 200671168, 200801984,";
"	200933312, 201062464, 201194944, 201326144, 201457472,";
"	201588544, 201719744, 201850816, 201981632, 202111552,";
"	202244032, 202374464, 202505152, 202636352, 202767808,";
"	202898368, 203030336, 203159872, 203292608, 203423296,";
"	203553472, 203685824, 203816896, 203947712, 204078272,";
"	204208192, 204341056, 204472256, 204603328, 204733888,";
"	204864448, 204996544, 205125568, 205258304, 205388864,";
"	205517632, 205650112, 205782208, 205913536, 206044736,";
"	206176192, 206307008, 206434496, 206569024, 206700224,";
"	206831168, 206961856, 207093056, 207223616, 207355328,";
"	207486784, 207616832, 207749056, 207879104, 208010048,";
"	208141888, 208273216, 208404032, 208534336, 208666048,";
"	208796864, 208927424, 209059264, 209189824, 209321792,";
"	209451584, 209582656, 209715136, 209845568, 209976896,";
"	210106432, 210239296, 210370112, 210501568, 210630976,";
"	210763712, 210894272, 211024832, 211156672, 211287616,";
"	211418176, 211549376, 211679296, 211812032, 211942592,";
"	212074432, 212204864, 212334016, 212467648, 212597824,";
"	212727616, 212860352, 212991424, 213120832, 213253952,";
"	213385024, 213515584, 213645632, 213777728, 213909184,";
"	214040128, 214170688, 214302656, 214433728, 214564544,";
"	214695232, 214826048, 214956992, 215089088, 215219776,";
"	215350592, 215482304, 215613248, 215743552, 215874752,";
"	216005312, 216137024, 216267328, 216399296, 216530752,";
"	216661696, 216790592, 216923968, 217054528, 217183168,";
"	217316672, 217448128, 217579072, 217709504, 217838912,";
"	217972672, 218102848, 218233024, 218364736, 218496832,";
"	218627776, 218759104, 218888896, 219021248, 219151936,";
"	219281728, 219413056, 219545024, 219675968, 219807296,";
"	219938624, 220069312, 220200128, 220331456, 220461632,";
"	220592704, 220725184, 220855744, 220987072, 221117888,";
"	221249216, 221378368, 221510336, 221642048, 221772736,";
"	221904832, 222031808, 222166976, 222297536, 222428992,";
"	222559936, 222690368, 222820672, 222953152, 223083968,";
"	223213376, 223345984, 223476928, 223608512, 223738688,";
"	223869376, 224001472, 224132672, 224262848, 224394944,";
"	224524864, 224657344, 224788288, 224919488, 225050432,";
"	225181504, 225312704, 225443776, 225574592, 225704768,";
"	225834176, 225966784, 226097216, 226229824, 226360384,";
"	226491712, 226623424, 226754368, 226885312, 227015104,";
"	227147456, 227278528, 227409472, 227539904, 227669696,";
"	227802944, 227932352, 228065216, 228196288, 228326464,";
"	228457792, 228588736, 228720064, 228850112, 228981056,";
"	229113152, 229243328, 229375936, 229505344, 229636928,";
"	229769152, 229894976, 230030272, 230162368, 230292416,";
"	230424512, 230553152, 230684864, 230816704, 230948416,";
"	231079616, 231210944, 231342016, 231472448, 231603776,";
"	231733952, 231866176, 231996736, 232127296, 232259392,";
"	232388672, 232521664, 232652608, 232782272, 232914496,";
"	233043904, 233175616, 233306816, 233438528, 233569984,";
"	233699776, 233830592, 233962688, 234092224, 234221888,";
"	234353984, 234485312, 234618304, 234749888, 234880832,";
"	235011776, 235142464, 235274048, 235403456, 235535936,";
"	235667392, 235797568, 235928768, 236057152, 236190272,";
"	236322752, 236453312, 236583616, 236715712, 236846528,";
"	236976448, 237108544, 237239104, 237371072, 237501632,";
"	237630784, 237764416, 237895232, 238026688, 238157632,";
"	238286912, 238419392, 238548032, 238681024, 238812608,";
"	238941632, 239075008, 239206336, 239335232, 239466944,";
"	239599168, 239730496, 239861312, 239992384, 240122816,";
"	240254656, 240385856, 240516928, 240647872, 240779072,";
"	240909632, 241040704, 241171904, 241302848, 241433408,";
"	241565248, 241696192, 241825984, 241958848, 242088256,";
"	242220224, 242352064, 242481856, 242611648, 242744896,";
"	242876224, 243005632, 243138496, 243268672, 243400384,";
"	243531712, 243662656, 243793856, 243924544, 244054592,";
"	244187072, 244316608, 244448704, 244580032, 244710976,";
"	244841536, 244972864, 245104448, 245233984, 245365312,";
"	245497792, 245628736, 245759936, 245889856, 246021056,";
"	246152512, 246284224, 246415168, 246545344, 246675904,";
"	246808384, 246939584, 247070144, 247199552, 247331648,";
"	247463872, 247593536, 247726016, 247857088, 247987648,";
"	248116928, 248249536, 248380736, 248512064, 248643008,";
"	248773312, 248901056, 249036608, 249167552, 249298624,";
"	249429184, 249560512, 249692096, 249822784, 249954112,";
"	250085312, 250215488, 250345792, 250478528, 250608704,";
"	250739264, 250870976, 251002816, 251133632, 251263552,";
"	251395136, 251523904, 251657792, 251789248, 251919424,";
"	252051392, 252182464, 252313408, 252444224, 252575552,";
"	252706624, 252836032, 252968512, 253099712, 253227584,";
"	253361728, 253493056, 253623488, 253754432, 253885504,";
"	254017216, 254148032, 254279488, 254410432, 254541376,";
"	254672576, 254803264, 254933824, 255065792, 255196736,";
"	255326528, 255458752, 255589952, 255721408, 255851072,";
"	255983296, 256114624, 256244416, 256374208, 256507712,";
"	256636096, 256768832, 256900544, 257031616, 257162176,";
"	257294272, 257424448, 257555776, 257686976, 257818432,";
"	257949632, 258079552, 258211136, 258342464, 258473408,";
"	258603712, 258734656, 258867008, 258996544, 259127744,";
"	259260224, 259391296, 259522112, 259651904, 259784384,";
"	259915328, 260045888, 260175424, 260308544, 260438336,";
"	260570944, 260700992, 260832448, 260963776, 261092672,";
"	261226304, 261356864, 261487936, 261619648, 261750592,";
"	261879872, 262011968, 262143424, 262274752, 262404416,";
"	262537024, 262667968, 262799296, 262928704, 263061184,";
"	263191744, 263322944, 263454656, 263585216, 263716672,";
"	263847872, 263978944, 264108608, 264241088, 264371648,";
"	264501184, 264632768, 264764096, 264895936, 265024576,";
"	265158464, 265287488, 265418432, 265550528, 265681216,";
"	265813312, 265943488, 266075968, 266206144, 266337728,";
"	266468032, 266600384, 266731072, 266862272, 266993344,";
"	267124288, 267255616, 267386432, 267516992, 267648704,";
"	267777728, 267910592, 268040512, 268172096, 268302784,";
"	268435264, 268566208, 268696256, 268828096, 268959296,";
"	269090368, 269221312, 269352256, 269482688, 269614784,";
"	269745856, 269876416, 270007616, 270139328, 270270272,";
"	270401216, 270531904, 270663616, 270791744, 270924736,";
"	271056832, 271186112, 271317184, 271449536, 271580992,";
"	271711936, 271843136, 271973056, 272105408, 272236352,";
"	272367296, 272498368, 272629568, 272759488, 272891456,";
"	273022784, 273153856, 273284672, 273415616, 273547072,";
"	273677632, 273808448, 273937088, 274071488, 274200896,";
"	274332992, 274463296, 274595392, 274726208, 274857536,";
"	274988992, 275118656, 275250496, 275382208, 275513024,";
"	275643968, 275775296, 275906368, 276037184, 276167872,";
"	276297664, 276429376, 276560576, 276692672, 276822976,";
"	276955072, 277085632, 277216832, 277347008, 277478848,";
"	277609664, 277740992, 277868608, 278002624, 278134336,";
"	278265536, 278395328, 278526784, 278657728, 278789824,";
"	278921152, 279052096, 279182912, 279313088, 279443776,";
"	279576256, 279706048, 279838528, 279969728, 280099648,";
"	280230976, 280361408, 280493632, 280622528, 280755392,";
"	280887104, 281018176, 281147968, 281278912, 281411392,";
"	281542592, 281673152, 281803712, 281935552, 282066496,";
"	282197312, 282329024, 282458816, 282590272, 282720832,";
"	282853184, 282983744, 283115072, 283246144, 283377344,";
"	283508416, 283639744, 283770304, 283901504, 284032576,";
"	284163136, 284294848, 284426176, 284556992, 284687296,";
"}";
"";
"var datasetSizes = []uint64{";
"	1073739904, 1082130304, 1090514816, 1098906752, 1107293056,";
"	1115684224, 1124070016, 1132461952, 1140849536, 1149232768,";
"	1157627776, 1166013824, 1174404736, 1182786944, 1191180416,";
"	1199568512, 1207958912, 1216345216, 1224732032, 1233124736,";
"	1241513344, 1249902464, 1258290304, 1266673792, 1275067264,";
"	1283453312, 1291844992, 1300234112, 1308619904, 1317010048,";
"	1325397376, 1333787776, 1342176128, 1350561664, 1358954368,";
"	1367339392, 1375731584, 1384118144, 1392507008, 1400897408,";
"	1409284736, 1417673344, 1426062464, 1434451072, 1442839168,";
"	1451229056, 1459615616, 1468006016, 1476394112, 1484782976,";
"	1493171584, 1501559168, 1509948032, 1518337664, 1526726528,";
"	1535114624, 1543503488, 1551892096, 1560278656, 1568669056,";
"	1577056384, 1585446272, 1593831296, 1602219392, 1610610304,";
"	1619000192, 1627386752, 1635773824, 1644164224, 1652555648,";
"	1660943488, 1669332608, 1677721216, 1686109312, 1694497664,";
"	1702886272, 1711274624, 1719661184, 1728047744, 1736434816,";
"	1744829056, 1753218944, 1761606272, 1769995904, 1778382464,";
"	1786772864, 1795157888, 1803550592, 1811937664, 1820327552,";
"	1828711552, 1837102976, 1845488768, 1853879936, 1862269312,";
"	1870656896, 1879048064, 1887431552, 1895825024, 1904212096,";
"	1912601216, 1920988544, 1929379456, 1937765504, 1946156672,";
"	1954543232, 1962932096, 1971321728, 1979707264, 1988093056,";
"	1996487552, 2004874624, 2013262208, 2021653888, 2030039936,";
"	2038430848, 2046819968, 2055208576, 2063596672, 2071981952,";
"	2080373632, 2088762752, 2097149056, 2105539712, 2113928576,";
"	2122315136, 2130700672, 2139092608, 2147483264, 2155872128,";
"	2164257664, 2172642176, 2181035392, 2189426048, 2197814912,";
"	2206203008, 2214587264, 2222979712, 2231367808, 2239758208,";
"	2248145024, 2256527744, 2264922752, 2273312128, 2281701248,";
"	2290086272, 2298476672, 2306867072, 2315251072, 2323639168,";
"	2332032128, 2340420224, 2348808064, 2357196416, 2365580416,";
"	2373966976, 2382363008, 2390748544, 2399139968, 2407530368,";
"	2415918976, 2424307328, 2432695424, 2441084288, 2449472384,";
"	2457861248, 2466247808, 2474637184, 2483026816, 2491414144,";
"	2499803776, 2508191872, 2516582272, 2524970368, 2533359232,";
"	2541743488, 2550134144, 2558525056, 2566913408, 2575301504,";
"	2583686528, 2592073856, 2600467328, 2608856192, 2617240448,";
"	2625631616, 2634022016, 2642407552, 2650796416, 2659188352,";
"	2667574912, 2675965312, 2684352896, 2692738688, 2701130624,";
"	2709518464, 2717907328, 2726293376, 2734685056, 2743073152,";
"	2751462016, 2759851648, 2768232832, 2776625536, 2785017728,";
"	2793401984, 2801794432, 2810182016, 2818571648, 2826959488,";
"	2835349376, 2843734144, 2852121472, 2860514432, 2868900992,";
"	2877286784, 2885676928, 2894069632, 2902451584, 2910843008,";
"	2919234688, 2927622784, 2936011648, 2944400768, 2952789376,";
"	2961177728, 2969565568, 2977951616, 2986338944, 2994731392,";
"	3003120256, 3011508352, 3019895936, 3028287104, 3036675968,";
"	3045063808, 3053452928, 3061837696, 3070228352, 3078615424,";
"	3087003776, 3095394944, 3103782272, 3112173184, 3120562048,";
"	3128944768, 3137339264, 3145725056, 3154109312, 3162505088,";
"	3170893184, 3179280256, 3187669376, 3196056704, 3204445568,";
"	3212836736, 3221224064, 3229612928, 3238002304, 3246391168,";
"	3254778496, 3263165824, 3271556224, 3279944576, 3288332416,";
"	3296719232, 3305110912, 3313500032, 3321887104, 3330273152,";
"	3338658944, 3347053184, 3355440512, 3363827072, 3372220288,";
"	3380608384, 3388997504, 3397384576, 3405774208, 3414163072,";
"	3422551936, 3430937984, 3439328384, 3447714176, 3456104576,";
"	3464493952, 3472883584, 3481268864, 3489655168, 3498048896,";
"	3506434432, 3514826368, 3523213952, 3531603584, 3539987072,";
"	3548380288, 3556763264, 3565157248, 3573545344, 3581934464,";
"	3590324096, 3598712704, 3607098752, 3615488384, 3623877248,";
"	3632265856, 3640646528, 3649043584, 3657430144, 3665821568,";
"	3674207872, 3682597504, 3690984832, 3699367808, 3707764352,";
"	3716152448, 3724541056, 3732925568, 3741318016, 3749706368,";
"	3758091136, 3766481536, 3774872704, 3783260032, 3791650432,";
"	3800036224, 3808427648, 3816815488, 3825204608, 3833592704,";
"	3841981568, 3850370432, 3858755968, 3867147904, 3875536256,";
"	3883920512, 3892313728, 3900702592, 3909087872, 3917478784,";
"	3925868416, 3934256512, 3942645376, 3951032192, 3959422336,";
"	3967809152, 3976200064, 3984588416, 3992974976, 4001363584,";
"	4009751168, 4018141312, 4026530432, 4034911616, 4043308928,";
"	4051695488, 4060084352, 4068472448, 4076862848, 4085249408,";
"	4093640576, 4102028416, 4110413696, 4118805632, 4127194496,";
"	4135583104, 4143971968, 4152360832, 4160746112, 4169135744,";
"	4177525888, 4185912704, 4194303616, 4202691968, 4211076736,";
"	4219463552, 4227855488, 4236246656, 4244633728, 4253022848,";
"	4261412224, 4269799808, 4278184832, 4286578048, 4294962304,";
"	4303349632, 4311743104, 4320130432, 4328521088, 4336909184,";
"	4345295488, 4353687424, 4362073472, 4370458496, 4378852736,";
"	4387238528, 4395630208, 4404019072, 4412407424, 4420790656,";
"	4429182848, 4437571456, 4445962112, 4454344064, 4462738048,";
"	4471119232, 4479516544, 4487904128, 4496289664, 4504682368,";
"	4513068416, 4521459584, 4529846144, 4538232704, 4546619776,";
"	4555010176, 4563402112, 4571790208, 4580174464, 4588567936,";
"	4596957056, 4605344896, 4613734016, 4622119808, 4630511488,";
"	4638898816, 4647287936, 4655675264, 4664065664, 4672451968,";
"	4680842624, 4689231488, 4697620352, 4706007424, 4714397056,";
"	4722786176, 4731173248, 4739562368, 4747951744, 4756340608,";
"	4764727936, 4773114496, 4781504384, 4789894784, 4798283648,";
"	4806667648, 4815059584, 4823449472, 4831835776, 4840226176,";
"	4848612224, 4857003392, 4865391488, 4873780096, 4882169728,";
"	4890557312, 4898946944, 4907333248, 4915722368, 4924110976,";
"	4932499328, 4940889728, 4949276032, 4957666432, 4966054784,";
"	4974438016, 4982831488, 4991221376, 4999607168, 5007998848,";
"	5016386432, 5024763776, 5033164672, 5041544576, 5049941888,";
"	5058329728, 5066717056, 5075107456, 5083494272, 5091883904,";
"	5100273536, 5108662144, 5117048192, 5125436032, 5133827456,";
"	5142215296, 5150605184, 5158993024, 5167382144, 5175769472,";
"	5184157568, 5192543872, 5200936064, 5209324928, 5217711232,";
"	5226102656, 5234490496, 5242877312, 5251263872, 5259654016,";
"	5268040832, 5276434304, 5284819328, 5293209728, 5301598592,";
"	5309986688, 5318374784, 5326764416, 5335151488, 5343542144,";
"	5351929472, 5360319872, 5368706944, 5377096576, 5385484928,";
"	5393871232, 5402263424, 5410650496, 5419040384, 5427426944,";
"	5435816576, 5444205952, 5452594816, 5460981376, 5469367936,";
"	5477760896, 5486148736, 5494536832, 5502925952, 5511315328,";
"	5519703424, 5528089984, 5536481152, 5544869504, 5553256064,";
"	5561645696, 5570032768, 5578423936, 5586811264, 5595193216,";
"	5603585408, 5611972736, 5620366208, 5628750464, 5637143936,";
"	5645528192, 5653921408, 5662310272, 5670694784, 5679082624,";
"	5687474048, 5695864448, 5704251008, 5712641408, 5721030272,";
"	5729416832, 5737806208, 5746194304, 5754583936, 5762969984,";
"	5771358592, 5779748224, 5788137856, 5796527488, 5804911232,";
"	5813300608, 5821692544, 5830082176, 5838468992, 5846855552,";
"	5855247488, 5863636096, 5872024448, 5880411008, 5888799872,";
"	5897186432, 5905576832, 5913966976, 5922352768, 5930744704,";
"	5939132288, 5947522432, 5955911296, 5964299392, 5972688256,";
"	5981074304, 5989465472, 5997851008, 6006241408, 6014627968,";
"	6023015552, 6031408256, 6039796096, 6048185216, 6056574848,";
"	6064963456, 6073351808, 6081736064, 6090128768, 6098517632,";
"	6106906496, 6115289216, 6123680896, 6132070016, 6140459648,";
"	6148849024, 6157237376, 6165624704, 6174009728, 6182403712,";
"	6190792064, 6199176064, 6207569792, 6215952256, 6224345216,";
"	6232732544, 6241124224, 6249510272, 6257899136, 6266287744,";
"	6274676864, 6283065728, 6291454336, 6299843456, 6308232064,";
"	6316620928, 6325006208, 6333395584, 6341784704, 6350174848,";
"	6358562176, 6366951296, 6375337856, 6383729536, 6392119168,";
"	6400504192, 6408895616, 6417283456, 6425673344, 6434059136,";
"	6442444672, 6450837376, 6459223424, 6467613056, 6476004224,";
"	6484393088, 6492781952, 6501170048, 6509555072, 6517947008,";
"	6526336384, 6534725504, 6543112832, 6551500672, 6559888768,";
"	6568278656, 6576662912, 6585055616, 6593443456, 6601834112,";
"	6610219648, 6618610304, 6626999168, 6635385472, 6643777408,";
"	6652164224, 6660552832, 6668941952, 6677330048, 6685719424,";
"	6694107776, 6702493568, 6710882176, 6719274112, 6727662976,";
"	6736052096, 6744437632, 6752825984, 6761213824, 6769604224,";
"	6777993856, 6786383488, 6794770816, 6803158144, 6811549312,";
"	6819937664, 6828326528, 6836706176, 6845101696, 6853491328,";
"	6861880448, 6870269312, 6878655104, 6887046272, 6895433344,";
"	6903822208, 6912212864, 6920596864, 6928988288, 6937377152,";
"	6945764992, 6954149248, 6962544256, 6970928768, 6979317376,";
"	6987709312, 6996093824, 7004487296, 7012875392, 7021258624,";
"	7029652352, 7038038912, 7046427776, 7054818944, 7063207808,";
"	7071595136, 7079980928, 7088372608, 7096759424, 7105149824,";
"	7113536896, 7121928064, 7130315392, 7138699648, 7147092352,";
"	7155479168, 7163865728, 7172249984, 7180648064, 7189036672,";
"	7197424768, 7205810816, 7214196608, 7222589824, 7230975104,";
"	7239367552, 7247755904, 7256145536, 7264533376, 7272921472,";
"	7281308032, 7289694848, 7298088832, 7306471808, 7314864512,";
"	7323253888, 7331643008, 7340029568, 7348419712, 7356808832,";
"	7365196672, 7373585792, 7381973888, 7390362752, 7398750592,";
"	7407138944, 7415528576, 7423915648, 7432302208, 7440690304,";
"	7449080192, 7457472128, 7465860992, 7474249088, 7482635648,";
"	7491023744, 7499412608, 7507803008, 7516192384, 7524579968,";
"	7532967296, 7541358464, 7549745792, 7558134656, 7566524032,";
"	7574912896, 7583300992, 7591690112, 7600075136, 7608466816,";
"	7616854912, 7625244544, 7633629824, 7642020992, 7650410368,";
"	7658794112, 7667187328, 7675574912, 7683961984, 7692349568,";
"	7700739712, 7709130368, 7717519232, 7725905536, 7734295424,";
"	7742683264, 7751069056, 7759457408, 7767849088, 7776238208,";
"	7784626816, 7793014912, 7801405312, 7809792128, 7818179968,";
"	7826571136, 7834957184, 7843347328, 7851732352, 7860124544,";
"	7868512384, 7876902016, 7885287808, 7893679744, 7902067072,";
"	7910455936, 7918844288, 7927230848, 7935622784, 7944009344,";
"	7952400256, 7960786048, 7969176704, 7977565312, 7985953408,";
"	7994339968, 8002730368, 8011119488, 8019508096, 8027896192,";
"	8036285056, 8044674688, 8053062272, 8061448832, 8069838464,";
"	8078227328, 8086616704, 8095006592, 8103393664, 8111783552,";
"	8120171392, 8128560256, 8136949376, 8145336704, 8153726848,";
"	8162114944, 8170503296, 8178891904, 8187280768, 8195669632,";
"	8204058496, 8212444544, 8220834176, 8229222272, 8237612672,";
"	8246000768, 8254389376, 8262775168, 8271167104, 8279553664,";
"	8287944064, 8296333184, 8304715136, 8313108352, 8321497984,";
"	8329885568, 8338274432, 8346663296, 8355052928, 8363441536,";
"	8371828352, 8380217984, 8388606592, 8396996224, 8405384576,";
"	8413772672, 8422161536, 8430549376, 8438939008, 8447326592,";
"	8455715456, 8464104832, 8472492928, 8480882048, 8489270656,";
"	8497659776, 8506045312, 8514434944, 8522823808, 8531208832,";
"	8539602304, 8547990656, 8556378752, 8564768384, 8573154176,";
"	8581542784, 8589933952, 8598322816, 8606705024, 8615099264,";
"	8623487872, 8631876992, 8640264064, 8648653952, 8657040256,";
"	8665430656, 8673820544, 8682209152, 8690592128, 8698977152,";
"	8707374464, 8715763328, 8724151424, 8732540032, 8740928384,";
"	8749315712, 8757704576, 8766089344, 8774480768, 8782871936,";
"	8791260032, 8799645824, 8808034432, 8816426368, 8824812928,";
"	8833199488, 8841591424, 8849976448, 8858366336, 8866757248,";
"	8875147136, 8883532928, 8891923328, 8900306816, 8908700288,";
"	8917088384, 8925478784, 8933867392, 8942250368, 8950644608,";
"	8959032704, 8967420544, 8975809664, 8984197504, 8992584064,";
"	9000976256, 9009362048, 9017752448, 9026141312, 9034530688,";
"	9042917504, 9051307904, 9059694208, 9068084864, 9076471424,";
"	9084861824, 9093250688, 9101638528, 9110027648, 9118416512,";
"	9126803584, 9135188096, 9143581312, 9151969664, 9160356224,";
"	9168747136, 9177134464, 9185525632, 9193910144, 9202302848,";
"	9210690688, 9219079552, 9227465344, 9235854464, 9244244864,";
"	9252633472, 9261021824, 9269411456, 9277799296, 9286188928,";
"	9294574208, 9302965888, 9311351936, 9319740032, 9328131968,";
"	9336516736, 9344907392, 9353296768, 9361685888, 9370074752,";
"	9378463616, 9386849408, 9395239808, 9403629184, 9412016512,";
"	9420405376, 9428795008, 9437181568, 9445570688, 9453960832,";
"	9462346624, 9470738048, 9479121536, 9487515008, 9495903616,";
"	9504289664, 9512678528, 9521067904, 9529456256, 9537843584,";
"	9546233728, 9554621312, 9563011456, 9571398784, 9579788672,";
"	9588178304, 9596567168, 9604954496, 9613343104, 9621732992,";
"	9630121856, 9638508416, 9646898816, 9655283584, 9663675776,";
"	9672061312, 9680449664, 9688840064, 9697230464, 9705617536,";
"	9714003584, 9722393984, 9730772608, 9739172224, 9747561088,";
"	9755945344, 9764338816, 9772726144, 9781116544, 9789503872,";
"	9797892992, 9806282624, 9814670464, 9823056512, 9831439232,";
"	9839833984, 9848224384, 9856613504, 9865000576, 9873391232,";
"	9881772416, 9890162816, 9898556288, 9906940544, 9915333248,";
"	9923721088, 9932108672, 9940496512, 9948888448, 9957276544,";
"	9965666176, 9974048384, 9982441088, 9990830464, 9999219584,";
"	10007602816, 10015996544, 10024385152, 10032774016, 10041163648,";
"	10049548928, 10057940096, 10066329472, 10074717824, 10083105152,";
"	10091495296, 10099878784, 10108272256, 10116660608, 10125049216,";
"	10133437312, 10141825664, 10150213504, 10158601088, 10166991232,";
"	10175378816, 10183766144, 10192157312, 10200545408, 10208935552,";
"	10217322112, 10225712768, 10234099328, 10242489472, 10250876032,";
"	10259264896, 10267656064, 10276042624, 10284429184, 10292820352,";
"	10301209472, 10309598848, 10317987712, 10326375296, 10334763392,";
"	10343153536, 10351541632, 10359930752, 10368318592, 10376707456,";
"	10385096576, 10393484672, 10401867136, 10410262144, 10418647424,";
"	10427039104, 10435425664, 10443810176, 10452203648, 10460589952,";
"	10468982144, 10477369472, 10485759104, 10494147712, 10502533504,";
"	10510923392, 10519313536, 10527702656, 10536091264, 10544478592,";
"	10552867712, 10561255808, 10569642368, 10578032768, 10586423168,";
"	10594805632, 10603200128, 10611588992, 10619976064, 10628361344,";
"	10636754048, 10645143424, 10653531776, 10661920384, 10670307968,";
"	10678696832, 10687086464, 10695475072, 10703863168, 10712246144,";
"	10720639616, 10729026688, 10737414784, 10745806208, 10754190976,";
"	10762581376, 10770971264, 10779356288, 10787747456, 10796135552,";
"	10804525184, 10812915584, 10821301888, 10829692288, 10838078336,";
"	10846469248, 10854858368, 10863247232, 10871631488, 10880023424,";
"	10888412032, 10896799616, 10905188992, 10913574016, 10921964672,";
"	10930352768, 10938742912, 10947132544, 10955518592, 10963909504,";
"	10972298368, 10980687488, 10989074816, 10997462912, 11005851776,";
"	11014241152, 11022627712, 11031017344, 11039403904, 11047793024,";
"	11056184704, 11064570752, 11072960896, 11081343872, 11089737856,";
"	11098128256, 11106514816, 11114904448, 11123293568, 11131680128,";
"	11140065152, 11148458368, 11156845696, 11165236864, 11173624192,";
"	11182013824, 11190402688, 11198790784, 11207179136, 11215568768,";
"	11223957376, 11232345728, 11240734592, 11249122688, 11257511296,";
"	11265899648, 11274285952, 11282675584, 11291065472, 11299452544,";
"	11307842432, 11316231296, 11324616832, 11333009024, 11341395584,";
"	11349782656, 11358172288, 11366560384, 11374950016, 11383339648,";
"	11391721856, 11400117376, 11408504192, 11416893568, 11425283456,";
"	11433671552, 11442061184, 11450444672, 11458837888, 11467226752,";
"	11475611776, 11484003968, 11492392064, 11500780672, 11509169024,";
"	11517550976, 11525944448, 11534335616, 11542724224, 11551111808,";
"	11559500672, 11567890304, 11576277376, 11584667008, 11593056128,";
"	11601443456, 11609830016, 11618221952, 11626607488, 11634995072,";
"	11643387776, 11651775104, 11660161664, 11668552576, 11676940928,";
"	11685330304, 11693718656, 11702106496, 11710496128, 11718882688,";
"	11727273088, 11735660416, 11744050048, 11752437376, 11760824704,";
"	11769216128, 11777604736, 11785991296, 11794381952, 11802770048,";
"	11811157888, 11819548544, 11827932544, 11836324736, 11844713344,";
"	11853100928, 11861486464, 11869879936, 11878268032, 11886656896,";
"	11895044992, 11903433088, 11911822976, 11920210816, 11928600448,";
"	11936987264, 11945375872, 11953761152, 11962151296, 11970543488,";
"	11978928512, 11987320448, 11995708288, 12004095104, 12012486272,";
"	12020875136, 12029255552, 12037652096, 12046039168, 12054429568,";
"	12062813824, 12071206528, 12079594624, 12087983744, 12096371072,";
"	12104759936, 12113147264, 12121534592, 12129924992, 12138314624,";
"	12146703232, 12155091584, 12163481216, 12171864704, 12180255872,";
"	12188643968, 12197034112, 12205424512, 12213811328, 12222199424,";
"	12230590336, 12238977664, 12247365248, 12255755392, 12264143488,";
"	12272531584, 12280920448, 12289309568, 12297694592, 12306086528,";
"	12314475392, 12322865024, 12331253632, 12339640448, 12348029312,";
"	12356418944, 12364805248, 12373196672, 12381580928, 12389969024,";
"	12398357632, 12406750592, 12415138432, 12423527552, 12431916416,";
"	12440304512, 12448692352, 12457081216, 12465467776, 12473859968,";
"	12482245504, 12490636672, 12499025536, 12507411584, 12515801728,";
"	12524190592, 12532577152, 12540966272, 12549354368, 12557743232,";
"	12566129536, 12574523264, 12582911872, 12591299456, 12599688064,";
"	12608074624, 12616463488, 12624845696, 12633239936, 12641631616,";
"	12650019968, 12658407296, 12666795136, 12675183232, 12683574656,";
"	12691960192, 12700350592, 12708740224, 12717128576, 12725515904,";
"	12733906816, 12742295168, 12750680192, 12759071872, 12767460736,";
"	12775848832, 12784236928, 12792626816, 12801014656, 12809404288,";
"	12817789312, 12826181504, 12834568832, 12842954624, 12851345792,";
"	12859732352, 12868122496, 12876512128, 12884901248, 12893289088,";
"	12901672832, 12910067584, 12918455168, 12926842496, 12935232896,";
"	12943620736, 12952009856, 12960396928, 12968786816, 12977176192,";
"	12985563776, 12993951104, 13002341504, 13010730368, 13019115392,";
"	13027506304, 13035895168, 13044272512, 13052673152, 13061062528,";
"	13069446272, 13077838976, 13086227072, 13094613632, 13103000192,";
"	13111393664, 13119782528, 13128157568, 13136559232, 13144945024,";
"	13153329536, 13161724288, 13170111872, 13178502784, 13186884736,";
"	13195279744, 13203667072, 13212057472, 13220445824, 13228832128,";
"	13237221248, 13245610624, 13254000512, 13262388352, 13270777472,";
"	13279166336, 13287553408, 13295943296, 13304331904, 13312719488,";
"	13321108096, 13329494656, 13337885824, 13346274944, 13354663808,";
"	13363051136, 13371439232, 13379825024, 13388210816, 13396605056,";
"	13404995456, 13413380224, 13421771392, 13430159744, 13438546048,";
"	13446937216, 13455326848, 13463708288, 13472103808, 13480492672,";
"	13488875648, 13497269888, 13505657728, 13514045312, 13522435712,";
"	13530824576, 13539210112, 13547599232, 13555989376, 13564379008,";
"	13572766336, 13581154432, 13589544832, 13597932928, 13606320512,";
"	13614710656, 13623097472, 13631477632, 13639874944, 13648264064,";
"	13656652928, 13665041792, 13673430656, 13681818496, 13690207616,";
"	13698595712, 13706982272, 13715373184, 13723762048, 13732150144,";
"	13740536704, 13748926592, 13757316224, 13765700992, 13774090112,";
"	13782477952, 13790869376, 13799259008, 13807647872, 13816036736,";
"	13824425344, 13832814208, 13841202304, 13849591424, 13857978752,";
"	13866368896, 13874754688, 13883145344, 13891533184, 13899919232,";
"	13908311168, 13916692096, 13925085056, 13933473152, 13941866368,";
"	13950253696, 13958643584, 13967032192, 13975417216, 13983807616,";
"	13992197504, 14000582272, 14008973696, 14017363072, 14025752192,";
"	14034137984, 14042528384, 14050918016, 14059301504, 14067691648,";
"	14076083584, 14084470144, 14092852352, 14101249664, 14109635968,";
"	14118024832, 14126407552, 14134804352, 14143188608, 14151577984,";
"	14159968384, 14168357248, 14176741504, 14185127296, 14193521024,";
"	14201911424, 14210301824, 14218685056, 14227067264, 14235467392,";
"	14243855488, 14252243072, 14260630144, 14269021568, 14277409408,";
"	14285799296, 14294187904, 14302571392, 14310961792, 14319353728,";
"	14327738752, 14336130944, 14344518784, 14352906368, 14361296512,";
"	14369685376, 14378071424, 14386462592, 14394848128, 14403230848,";
"	14411627392, 14420013952, 14428402304, 14436793472, 14445181568,";
"	14453569664, 14461959808, 14470347904, 14478737024, 14487122816,";
"	14495511424, 14503901824, 14512291712, 14520677504, 14529064832,";
"	14537456768, 14545845632, 14554234496, 14562618496, 14571011456,";
"	14579398784, 14587789184, 14596172672, 14604564608, 14612953984,";
"	14621341312, 14629724288, 14638120832, 14646503296, 14654897536,";
"	14663284864, 14671675264, 14680061056, 14688447616, 14696835968,";
"	14705228416, 14713616768, 14722003328, 14730392192, 14738784128,";
"	14747172736, 14755561088, 14763947648, 14772336512, 14780725376,";
"	14789110144, 14797499776, 14805892736, 14814276992, 14822670208,";
"	14831056256, 14839444352, 14847836032, 14856222848, 14864612992,";
"	14872997504, 14881388672, 14889775744, 14898165376, 14906553472,";
"	14914944896, 14923329664, 14931721856, 14940109696, 14948497024,";
"	14956887424, 14965276544, 14973663616, 14982053248, 14990439808,";
"	14998830976, 15007216768, 15015605888, 15023995264, 15032385152,";
"	15040768384, 15049154944, 15057549184, 15065939072, 15074328448,";
"	15082715008, 15091104128, 15099493504, 15107879296, 15116269184,";
"	15124659584, 15133042304, 15141431936, 15149824384, 15158214272,";
"	15166602368, 15174991232, 15183378304, 15191760512, 15200154496,";
"	15208542592, 15216931712, 15225323392, 15233708416, 15242098048,";
"	15250489216, 15258875264, 15267265408, 15275654528, 15284043136,";
"	15292431488, 15300819584, 15309208192, 15317596544, 15325986176,";
"	15334374784, 15342763648, 15351151744, 15359540608, 15367929728,";
"	15376318336, 15384706432, 15393092992, 15401481856, 15409869952,";
"	15418258816, 15426649984, 15435037568, 15443425664, 15451815296,";
"	15460203392, 15468589184, 15476979328, 15485369216, 15493755776,";
"	15502146944, 15510534272, 15518924416, 15527311232, 15535699072,";
"	15544089472, 15552478336, 15560866688, 15569254528, 15577642624,";
"	15586031488, 15594419072, 15602809472, 15611199104, 15619586432,";
"	15627975296, 15636364928, 15644753792, 15653141888, 15661529216,";
"	15669918848, 15678305152, 15686696576, 15695083136, 15703474048,";
"	15711861632, 15720251264, 15728636288, 15737027456, 15745417088,";
"	15753804928, 15762194048, 15770582656, 15778971008, 15787358336,";
"	15795747712, 15804132224, 15812523392, 15820909696, 15829300096,";
"	15837691264, 15846071936, 15854466944, 15862855808, 15871244672,";
"	15879634816, 15888020608, 15896409728, 15904799104, 15913185152,";
"	15921577088, 15929966464, 15938354816, 15946743424, 15955129472,";
"	15963519872, 15971907968, 15980296064, 15988684928, 15997073024,";
"	16005460864, 16013851264, 16022241152, 16030629248, 16039012736,";
"	16047406976, 16055794816, 16064181376, 16072571264, 16080957824,";
"	16089346688, 16097737856, 16106125184, 16114514816, 16122904192,";
"	16131292544, 16139678848, 16148066944, 16156453504, 16164839552,";
"	16173236096, 16181623424, 16190012032, 16198401152, 16206790528,";
"	16215177344, 16223567744, 16231956352, 16240344704, 16248731008,";
"	16257117824, 16265504384, 16273898624, 16282281856, 16290668672,";
"	16299064192, 16307449216, 16315842176, 16324230016, 16332613504,";
"	16341006464, 16349394304, 16357783168, 16366172288, 16374561664,";
"	16382951296, 16391337856, 16399726208, 16408116352, 16416505472,";
"	16424892032, 16433282176, 16441668224, 16450058624, 16458448768,";
"	16466836864, 16475224448, 16483613056, 16492001408, 16500391808,";
"	16508779648, 16517166976, 16525555328, 16533944192, 16542330752,";
"	16550719616, 16559110528, 16567497088, 16575888512, 16584274816,";
"	16592665472, 16601051008, 16609442944, 16617832064, 16626218624,";
"	16634607488, 16642996096, 16651385728, 16659773824, 16668163712,";
"	16676552576, 16684938112, 16693328768, 16701718144, 16710095488,";
"	16718492288, 16726883968, 16735272832, 16743661184, 16752049792,";
"	16760436608, 16768827008, 16777214336, 16785599104, 16793992832,";
"	16802381696, 16810768768, 16819151744, 16827542656, 16835934848,";
"	16844323712, 16852711552, 16861101952, 16869489536, 16877876864,";
"	16886265728, 16894653056, 16903044736, 16911431296, 16919821696,";
"	16928207488, 16936592768, 16944987776, 16953375616, 16961763968,";
"	16970152832, 16978540928, 16986929536, 16995319168, 17003704448,";
"	17012096896, 17020481152, 17028870784, 17037262208, 17045649536,";
"	17054039936, 17062426496, 17070814336, 17079205504, 17087592064,";
"	17095978112, 17104369024, 17112759424, 17121147776, 17129536384,";
"	17137926016, 17146314368, 17154700928, 17163089792, 17171480192,";
"	17179864192, 17188256896, 17196644992, 17205033856, 17213423488,";
"	17221811072, 17230198912, 17238588032, 17246976896, 17255360384,";
"	17263754624, 17272143232, 17280530048, 17288918912, 17297309312,";
"	17305696384, 17314085504, 17322475136, 17330863744, 17339252096,";
"	17347640192, 17356026496, 17364413824, 17372796544, 17381190016,";
"	17389583488, 17397972608, 17406360704, 17414748544, 17423135872,";
"	17431527296, 17439915904, 17448303232, 17456691584, 17465081728,";
"	17473468288, 17481857408, 17490247552, 17498635904, 17507022464,";
"	17515409024, 17523801728, 17532189824, 17540577664, 17548966016,";
"	17557353344, 17565741184, 17574131584, 17582519168, 17590907008,";
"	17599296128, 17607687808, 17616076672, 17624455808, 17632852352,";
"	17641238656, 17649630848, 17658018944, 17666403968, 17674794112,";
"	17683178368, 17691573376, 17699962496, 17708350592, 17716739968,";
"	17725126528, 17733517184, 17741898112, 17750293888, 17758673024,";
"	17767070336, 17775458432, 17783848832, 17792236928, 17800625536,";
"	17809012352, 17817402752, 17825785984, 17834178944, 17842563968,";
"	17850955648, 17859344512, 17867732864, 17876119424, 17884511872,";
"	17892900224, 17901287296, 17909677696, 17918058112, 17926451072,";
"	17934843776, 17943230848, 17951609216, 17960008576, 17968397696,";
"	17976784256, 17985175424, 17993564032, 18001952128, 18010339712,";
"	18018728576, 18027116672, 18035503232, 18043894144, 18052283264,";
"	18060672128, 18069056384, 18077449856, 18085837184, 18094225792,";
"	18102613376, 18111004544, 18119388544, 18127781248, 18136170368,";
"	18144558976, 18152947328, 18161336192, 18169724288, 18178108544,";
"	18186498944, 18194886784, 18203275648, 18211666048, 18220048768,";
"}"]%string.
Check (eq_refl true <: same_text (lines ethash_lookup_go) (go_file (txt "ethash") ethash_cacheSizes ethash_datasetSizes) = true).

(** kawpow/kawpow_lookup.go, all of it *)
Definition kawpow_lookup_go : list string := [
"package kawpow";
"";
"var cacheSizes = []uint64{";
"	16776896, 16907456, 17039296, 17170112, 17301056,";
"	17432512, 17563072, 17693888, 17824192, 17955904,";
"	18087488, 18218176, 18349504, 18481088, 18611392,";
"	18742336, 18874304, 19004224, 19135936, 19267264,";
"	19398208, 19529408, 19660096, 19791424, 19922752,";
"	20053952, 20184896, 20315968, 20446912, 20576576,";
"	20709184, 20840384, 20971072, 21102272, 21233216,";
"	21364544, 21494848, 21626816, 21757376, 21887552,";
"	22019392, 22151104, 22281536, 22412224, 22543936,";
"	22675264, 22806464, 22935872, 23068096, 23198272,";
"	23330752, 23459008, 23592512, 23723968, 23854912,";
"	23986112, 24116672, 24247616, 24378688, 24509504,";
"	24640832, 24772544, 24903488, 25034432, 25165376,";
"	25296704, 25427392, 25558592, 25690048, 25820096,";
"	25951936, 26081728, 26214208, 26345024, 26476096,";
"	26606656, 26737472, 26869184, 26998208, 27131584,";
"	27262528, 27393728, 27523904, 27655744, 27786688,";
"	27917888, 28049344, 28179904, 28311488, 28441792,";
"	28573504, 28700864, 28835648, 28966208, 29096768,";
"	29228608, 29359808, 29490752, 29621824, 29752256,";
"	29882816, 30014912, 30144448, 30273728, 30406976,";
"	30538432, 30670784, 30799936, 30932672, 31063744,";
"	31195072, 31325248, 31456192, 31588288, 31719232,";
"	31850432, 31981504, 32110784, 32243392, 32372672,";
"	32505664, 32636608, 32767808, 32897344, 33029824,";
"	33160768, 33289664, 33423296, 33554368, 33683648,";
"	33816512, 33947456, 34076992, 34208704, 34340032,";
"	34471744, 34600256, 34734016, 34864576, 34993984,";
"	35127104, 35258176, 35386688, 35518528, 35650624,";
"	35782336, 35910976, 36044608, 36175808, 36305728,";
"	36436672, 36568384, 36699968, 36830656, 36961984,";
"	37093312, 37223488, 37355072, 37486528, 37617472,";
"	37747904, 37879232, 38009792, 38141888, 38272448,";
"	38403392, 38535104, 38660672, 38795584, 38925632,";
"	39059264, 39190336, 39320768, 39452096, 39581632,";
"	39713984, 39844928, 39974848, 40107968, 40238144,";
"	40367168, 40500032, 40631744, 40762816, 40894144,";
"	41023552, 41155904, 41286208, 41418304, 41547712,";
"	41680448, 41811904, 41942848, 42073792, 42204992,";
"	42334912, 42467008, 42597824, 42729152, 42860096,";
"	42991552, 43122368, 43253696, 43382848, 43515712,";
"	43646912, 43777088, 43907648, 44039104, 44170432,";
"	44302144, 44433344, 44564288, 44694976, 44825152,";
"	44956864, 45088448, 45219008, 45350464, 45481024,";
"	45612608, 45744064, 45874496, 46006208, 46136768,";
"	46267712, 46399424, 46529344, 46660672, 46791488,";
"	46923328, 47053504, 47185856, 47316928, 47447872,";
"	47579072, 47710144, 47839936, 47971648, 48103232,";
"	48234176, 48365248, 48496192, 48627136, 48757312,";
"	48889664, 49020736, 49149248, 49283008, 49413824,";
"	49545152, 49675712, 49807168, 49938368, 50069056,";
"	50200256, 50331584, 50462656, 50593472, 50724032,";
"	50853952, 50986048, 51117632, 51248576, 51379904,";
"	51510848, 51641792, 51773248, 51903296, 52035136,";
"	52164032, 52297664, 52427968, 52557376, 52690112,";
"	52821952, 52952896, 53081536, 53213504, 53344576,";
"	53475776, 53608384, 53738816, 53870528, 54000832,";
"	54131776, 54263744, 54394688, 54525248, 54655936,";
"	54787904, 54918592, 55049152, 55181248, 55312064,";
"	55442752, 55574336, 55705024, 55836224, 55967168,";
"	56097856, 56228672, 56358592, 56490176, 56621888,";
"	56753728, 56884928, 57015488, 57146816, 57278272,";
"	57409216, 57540416, 57671104, 57802432, 57933632,";
"	58064576, 58195264, 58326976, 58457408, 58588864,";
"	58720192, 58849984, 58981696, 59113024, 59243456,";
"	59375552, 59506624, 59637568, 59768512, 59897792,";
"	60030016, 60161984, 60293056, 60423872, 60554432,";
"	60683968, 60817216, 60948032, 61079488, 61209664,";
"	61341376, 61471936, 61602752, 61733696, 61865792,";
"	61996736, 62127808, 62259136, 62389568, 62520512,";
"	62651584, 62781632, 62910784, 63045056, 63176128,";
"	63307072, 63438656, 63569216, 63700928, 63831616,";
"	63960896, 64093888, 64225088, 64355392, 64486976,";
"	64617664, 64748608, 64879424, 65009216, 65142464,";
"	65273792, 65402816, 65535424, 65666752, 65797696,";
"	65927744, 66060224, 66191296, 66321344, 66453056,";
"	66584384, 66715328, 66846656, 66977728, 67108672,";
"	67239104, 67370432, 67501888, 67631296, 67763776,";
"	67895104, 68026304, 68157248, 68287936, 68419264,";
"	68548288, 68681408, 68811968, 68942912, 69074624,";
"	69205568, 69337024, 69467584, 69599168, 69729472,";
"	69861184, 69989824, 70122944, 70253888, 70385344,";
"	70515904, 70647232, 70778816, 70907968, 71040832,";
"	71171648, 71303104, 71432512, 71564992, 71695168,";
"	71826368, 71958464, 72089536, 72219712, 72350144,";
"	72482624, 72613568, 72744512, 72875584, 73006144,";
"	73138112, 73268672, 73400128, 73530944, 73662272,";
"	73793344, 73924544, 74055104, 74185792, 74316992,";
"	74448832, 74579392, 74710976, 74841664, 74972864,";
"	75102784, 75233344, 75364544, 75497024, 75627584,";
"	75759296, 75890624, 76021696, 76152256, 76283072,";
"	76414144, 76545856, 76676672, 76806976, 76937792,";
"	77070016, 77200832, 77331392, 77462464, 77593664,";
"	77725376, 77856448, 77987776, 78118336, 78249664,";
"	78380992, 78511424, 78642496, 78773056, 78905152,";
"	79033664, 79166656, 79297472, 79429568, 79560512,";
"	79690816, 79822784, 79953472, 80084672, 80214208,";
"	80346944, 80477632, 80608576, 80740288, 80870848,";
"	81002048, 81133504, 81264448, 81395648, 81525952,";
"	81657536, 81786304, 81919808, 82050112, 82181312,";
"	82311616, 82443968, 82573376, 82705984, 82835776,";
"	82967744, 83096768, 83230528, 83359552, 83491264,";
"	83622464, 83753536, 83886016, 84015296, 84147776,";
"	84277184, 84409792, 84540608, 84672064, 84803008,";
"	84934336, 85065152, 85193792, 85326784, 85458496,";
"	85589312, 85721024, 85851968, 85982656, 86112448,";
"	86244416, 86370112, 86506688, 86637632, 86769344,";
"	86900672, 87031744, 87162304, 87293632, 87424576,";
"	87555392, 87687104, 87816896, 87947968, 88079168,";
"	88211264, 88341824, 88473152, 88603712, 88735424,";
"	88862912, 88996672, 89128384, 89259712, 89390272,";
"	89521984, 89652544, 89783872, 89914816, 90045376,";
"	90177088, 90307904, 90438848, 90569152, 90700096,";
"	90832832, 90963776, 91093696, 91223744, 91356992,";
"	91486784, 91618496, 91749824, 91880384, 92012224,";
"	92143552, 92273344, 92405696, 92536768, 92666432,";
"	92798912, 92926016, 93060544, 93192128, 93322816,";
"	93453632, 93583936, 93715136, 93845056, 93977792,";
"	94109504, 94240448, 94371776, 94501184, 94632896,";
"	94764224, 94895552, 95023424, 95158208, 95287744,";
"	95420224, 95550016, 95681216, 95811904, 95943872,";
"	96075328, 96203584, 96337856, 96468544, 96599744,";
"	96731072, 96860992, 96992576, 97124288, 97254848,";
"	97385536, 97517248, 97647808, 97779392, 97910464,";
"	98041408, 98172608, 98303168, 98434496, 98565568,";
"	98696768, 98827328, 98958784, 99089728, 99220928,";
"	99352384, 99482816, 99614272, 99745472, 99876416,";
"	100007104, 100138048, 100267072, 100401088, 100529984,";
"	100662592, 100791872, 100925248, 101056064, 101187392,";
"	101317952, 101449408, 101580608, 101711296, 101841728,";
"	101973824, 102104896, 102235712, 102366016, 102498112,";
"	102628672, 102760384, 102890432, 103021888, 103153472,";
"	103284032, 103415744, 103545152, 103677248, 103808576,";
"	103939648, 104070976, 104201792, 104332736, 104462528,";
"	104594752, 104725952, 104854592, 104988608, 105118912,";
"	105247808, 105381184, 105511232, 105643072, 105774784,";
"	105903296, 106037056, 106167872, 106298944, 106429504,";
"	106561472, 106691392, 106822592, 106954304, 107085376,";
"	107216576, 107346368, 107478464, 107609792, 107739712,";
"	107872192, 108003136, 108131392, 108265408, 108396224,";
"	108527168, 108657344, 108789568, 108920384, 109049792,";
"	109182272, 109312576, 109444928, 109572928, 109706944,";
"	109837888, 109969088, 110099648, 110230976, 110362432,";
"	110492992, 110624704, 110755264, 110886208, 111017408,";
"	111148864, 111279296, 111410752, 111541952, 111673024,";
"	111803456, 111933632, 112066496, 112196416, 112328512,";
"	112457792, 112590784, 112715968, 112852672, 112983616,";
"	113114944, 113244224, 113376448, 113505472, 113639104,";
"	113770304, 113901376, 114031552, 114163264, 114294592,";
"	114425536, 114556864, 114687424, 114818624, 114948544,";
"	115080512, 115212224, 115343296, 115473472, 115605184,";
"	115736128, 115867072, 115997248, 116128576, 116260288,";
"	116391488, 116522944, 116652992, 116784704, 116915648,";
"	117046208, 117178304, 117308608, 117440192, 117569728,";
"	117701824, 117833024, 117964096, 118094656, 118225984,";
"	118357312, 118489024, 118617536, 118749632, 118882112,";
"	119012416, 119144384, 119275328, 119406016, 119537344,";
"	119668672, 119798464, 119928896, 120061376, 120192832,";
"	120321728, 120454336, 120584512, 120716608, 120848192,";
"	120979136, 121109056, 121241408, 121372352, 121502912,";
"	121634752, 121764416, 121895744, 122027072, 122157632,";
"	122289088, 122421184, 122550592, 122682944, 122813888,";
"	122945344, 123075776, 123207488, 123338048, 123468736,";
"	123600704, 123731264, 123861952, 123993664, 124124608,";
"	124256192, 124386368, 124518208, 124649024, 124778048,";
"	124911296, 125041088, 125173696, 125303744, 125432896,";
"	125566912, 125696576, 125829056, 125958592, 126090304,";
"	126221248, 126352832, 126483776, 126615232, 126746432,";
"	126876608, 127008704, 127139392, 127270336, 127401152,";
"	127532224, 127663552, 127794752, 127925696, 128055232,";
"	128188096, 128319424, 128449856, 128581312, 128712256,";
"	128843584, 128973632, 129103808, 129236288, 129365696,";
"	129498944, 129629888, 129760832, 129892288, 130023104,";
"	130154048, 130283968, 130416448, 130547008, 130678336,";
"	130807616, 130939456, 131071552, 131202112, 131331776,";
"	131464384, 131594048, 131727296, 131858368, 131987392,";
"	132120256, 132250816, 132382528, 132513728, 132644672,";
"	132774976, 132905792, 133038016, 133168832, 133299392,";
"	133429312, 133562048, 133692992, 133823296, 133954624,";
"	134086336, 134217152, 134348608, 134479808, 134607296,";
"	134741056, 134872384, 135002944, 135134144, 135265472,";
"	135396544, 135527872, 135659072, 135787712, 135921472,";
"	136052416, 136182848, 136313792, 136444864, 136576448,";
"	136707904, 136837952, 136970048, 137099584, 137232064,";
"	137363392, 137494208, 137625536, 137755712, 137887424,";
"	138018368, 138149824, 138280256, 138411584, 138539584,";
"	138672832, 138804928, 138936128, 139066688, 139196864,";
"	139328704, 139460032, 139590208, 139721024, 139852864,";
"	139984576, 140115776, 140245696, 140376512, 140508352,";
"	140640064, 140769856, 140902336, 141032768, 141162688,";
"	141294016, 141426496, 141556544, 141687488, 141819584,";
"	141949888, 142080448, 142212544, 142342336, 142474432,";
"	142606144, 142736192, 142868288, 142997824, 143129408,";
"	143258944, 143392448, 143523136, 143653696, 143785024,";
"	143916992, 144045632, 144177856, 144309184, 144440768,";
"	144570688, 144701888, 144832448, 144965056, 145096384,";
"	145227584, 145358656, 145489856, 145620928, 145751488,";
"	145883072, 146011456, 146144704, 146275264, 146407232,";
"	146538176, 146668736, 146800448, 146931392, 147062336,";
"	147193664, 147324224, 147455936, 147586624, 147717056,";
"	147848768, 147979456, 148110784, 148242368, 148373312,";
"	148503232, 148635584, 148766144, 148897088, 149028416,";
"	149159488, 149290688, 149420224, 149551552, 149683136,";
"	149814976, 149943616, 150076352, 150208064, 150338624,";
"	150470464, 150600256, 150732224, 150862784, 150993088,";
"	151125952, 151254976, 151388096, 151519168, 151649728,";
"	151778752, 151911104, 152042944, 152174144, 152304704,";
"	152435648, 152567488, 152698816, 152828992, 152960576,";
"	153091648, 153222976, 153353792, 153484096, 153616192,";
"	153747008, 153878336, 154008256, 154139968, 154270912,";
"	154402624, 154533824, 154663616, 154795712, 154926272,";
"	155057984, 155188928, 155319872, 155450816, 155580608,";
"	155712064, 155843392, 155971136, 156106688, 156237376,";
"	156367424, 156499264, 156630976, 156761536, 156892352,";
"	157024064, 157155008, 157284416, 157415872, 157545536,";
"	157677248, 157810496, 157938112, 158071744, 158203328,";
"	158334656, 158464832, 158596288, 158727616, 158858048,";
"	158988992, 159121216, 159252416, 159381568, 159513152,";
"	159645632, 159776192, 159906496, 160038464, 160169536,";
"	160300352, 160430656, 160563008, 160693952, 160822208,";
"	160956352, 161086784, 161217344, 161349184, 161480512,";
"	161611456, 161742272, 161873216, 162002752, 162135872,";
"	162266432, 162397888, 162529216, 162660032, 162790976,";
"	162922048, 163052096, 163184576, 163314752, 163446592,";
"	163577408, 163707968, 163839296, 163969984, 164100928,";
"	164233024, 164364224, 164494912, 164625856, 164756672,";
"	164887616, 165019072, 165150016, 165280064, 165412672,";
"	165543104, 165674944, 165805888, 165936832, 166067648,";
"	166198336, 166330048, 166461248, 166591552, 166722496,";
"	166854208, 166985408, 167116736, 167246656, 167378368,";
"	167508416, 167641024, 167771584, 167903168, 168034112,";
"	168164032, 168295744, 168427456, 168557632, 168688448,";
"	168819136, 168951616, 169082176, 169213504, 169344832,";
"	169475648, 169605952, 169738048, 169866304, 169999552,";
"	170131264, 170262464, 170393536, 170524352, 170655424,";
"	170782016, 170917696, 171048896, 171179072, 171310784,";
"	171439936, 171573184, 171702976, 171835072, 171966272,";
"	172097216, 172228288, 172359232, 172489664, 172621376,";
"	172747712, 172883264, 173014208, 173144512, 173275072,";
"	173407424, 173539136, 173669696, 173800768, 173931712,";
"	174063424, 174193472, 174325696, 174455744, 174586816,";
"	174718912, 174849728, 174977728, 175109696, 175242688,";
"	175374272, 175504832, 175636288, 175765696, 175898432,";
"	176028992, 176159936, 176291264, 176422592, 176552512,";
"	176684864, 176815424, 176946496, 177076544, 177209152,";
"	177340096, 177470528, 177600704, 177731648, 177864256,";
"	177994816, 178126528, 178257472, 178387648, 178518464,";
"	178650176, 178781888, 178912064, 179044288, 179174848,";
"	179305024, 179436736, 179568448, 179698496, 179830208,";
"	179960512, 180092608, 180223808, 180354752, 180485696,";
"	180617152, 180748096, 180877504, 181009984, 181139264,";
"	181272512, 181402688, 181532608, 181663168, 181795136,";
"	181926592, 182057536, 182190016, 182320192, 182451904,";
"	182582336, 182713792, 182843072, 182976064, 183107264,";
"	183237056, 183368384, 183494848, 183631424, 183762752,";
"	183893824, 184024768, 184154816, 184286656, 184417984,";
"	184548928, 184680128, 184810816, 184941248, 185072704,";
"	185203904, 185335616, 185465408, 185596352, 185727296,";
"	185859904, 185989696, 186121664, 186252992, 186383552,";
"	186514112, 186645952, 186777152, 186907328, 187037504,";
"	187170112, 187301824, 187429184, 187562048, 187693504,";
"	187825472, 187957184, 188087104, 188218304, 188349376,";
"	188481344, 188609728, 188743616, 188874304, 189005248,";
"	189136448, 189265088, 189396544, 189528128, 189660992,";
"	189791936, 189923264, 190054208, 190182848, 190315072,";
"	190447424, 190577984, 190709312, 190840768, 190971328,";
"	191102656, 191233472, 191364032, 191495872, 191626816,";
"	191758016, 191888192, 192020288, 192148928, 192282176,";
"	192413504, 192542528, 192674752, 192805952, 192937792,";
"	193068608, 193198912, 193330496, 193462208, 193592384,";
"	193723456, 193854272, 193985984, 194116672, 194247232,";
"	194379712, 194508352, 194641856, 194772544, 194900672,";
"	195035072, 195166016, 195296704, 195428032, 195558592,";
"	195690304, 195818176, 195952576, 196083392, 196214336,";
"	196345792, 196476736, 196607552, 196739008, 196869952,";
"	197000768, 197130688, 197262784, 197394368, 197523904,";
"	197656384, 197787584, 197916608, 198049472, 198180544,";
"	198310208, 198442432, 198573632, 198705088, 198834368,";
"	198967232, 199097792, 199228352, 199360192, 199491392,";
"	199621696, 199751744, 199883968, 200014016, 200146624,";
"	200276672, 200408128, 200540096, 200671168, 200801984,";
"	200933312, 201062464, 201194944, 201326144, 201457472,";
"	201588544, 201719744, 201850816, 201981632, 202111552,";
"	202244032, 202374464, 202505152, 202636352, 202767808,";
"	202898368, 203030336, 203159872, 203292608, 203423296,";
"	203553472, 203685824, 203816896, 203947712, 204078272,";
"	204208192, 204341056, 204472256, 204603328, 204733888,";
"	204864448, 204996544, 205125568, 205258304, 205388864,";
"	205517632, 205650112, 205782208, 205913536, 206044736,";
"	206176192, 206307008, 206434496, 206569024, 206700224,";
"	206831168, 206961856, 207093056, 207223616, 207355328,";
"	207486784, 207616832, 207749056, 207879104, 208010048,";
"	208141888, 208273216, 208404032, 208534336, 208666048,";
"	208796864, 208927424, 209059264, 209189824, 209321792,";
"	209451584, 209582656, 209715136, 209845568, 209976896,";
"	210106432, 210239296, 210370112, 210501568, 210630976,";
"	210763712, 210894272, 211024832, 211156672, 211287616,";
"	211418176, 211549376, 211679296, 211812032, 211942592,";
"	212074432, 212204864, 212334016, 212467648, 212597824,";
"	212727616, 212860352, 212991424, 213120832, 213253952,";
"	213385024, 213515584, 213645632, 213777728, 213909184,";
"	214040128, 214170688, 214302656, 214433728, 214564544,";
"	214695232, 214826048, 214956992, 215089088, 215219776,";
"	215350592, 215482304, 215613248, 215743552, 215874752,";
"	216005312, 216137024, 216267328, 216399296, 216530752,";
"	216661696, 216790592, 216923968, 217054528, 217183168,";
"	217316672, 217448128, 217579072, 217709504, 217838912,";
"	217972672, 218102848, 218233024, 218364736, 218496832,";
"	218627776, 218759104, 218888896, 219021248, 219151936,";
"	219281728, 219413056, 219545024, 219675968, 219807296,";
"	219938624, 220069312, 220200128, 220331456, 220461632,";
"	220592704, 220725184, 220855744, 220987072, 221117888,";
"	221249216, 221378368, 221510336, 221642048, 221772736,";
"	221904832, 222031808, 222166976, 222297536, 222428992,";
"	222559936, 222690368, 222820672, 222953152, 223083968,";
"	223213376, 223345984, 223476928, 223608512, 223738688,";
"	223869376, 224001472, 224132672, 224262848, 224394944,";
"	224524864, 224657344, 224788288, 224919488, 225050432,";
"	225181504, 225312704, 225443776, 225574592, 225704768,";
"	225834176, 225966784, 226097216, 226229824, 226360384,";
"	226491712, 226623424, 226754368, 226885312, 227015104,";
"	227147456, 227278528, 227409472, 227539904, 227669696,";
"	227802944, 227932352, 228065216, 228196288, 228326464,";
"	228457792, 228588736, 228720064, 228850112, 228981056,";
"	229113152, 229243328, 229375936, 229505344, 229636928,";
"	229769152, 229894976, 230030272, 230162368, 230292416,";
"	230424512, 230553152, 230684864, 230816704, 230948416,";
"	231079616, 231210944, 231342016, 231472448, 231603776,";
"	231733952, 231866176, 231996736, 232127296, 232259392,";
"	232388672, 232521664, 232652608, 232782272, 232914496,";
"	233043904, 233175616, 233306816, 233438528, 233569984,";
"	233699776, 233830592, 233962688, 234092224, 234221888,";
"	234353984, 234485312, 234618304, 234749888, 234880832,";
"	235011776, 235142464, 235274048, 235403456, 235535936,";
"	235667392, 235797568, 235928768, 236057152, 236190272,";
"	236322752, 236453312, 236583616, 236715712, 236846528,";
"	236976448, 237108544, 237239104, 237371072, 237501632,";
"	237630784, 237764416, 237895232, 238026688, 238157632,";
"	238286912, 238419392, 238548032, 238681024, 238812608,";
"	238941632, 239075008, 239206336, 239335232, 239466944,";
"	239599168, 239730496, 239861312, 239992384, 240122816,";
"	240254656, 240385856, 240516928, 240647872, 240779072,";
"	240909632, 241040704, 241171904, 241302848, 241433408,";
"	241565248, 241696192, 241825984, 241958848, 242088256,";
"	242220224, 242352064, 242481856, 242611648, 242744896,";
"	242876224, 243005632, 243138496, 243268672, 243400384,";
"	243531712, 243662656, 243793856, 243924544, 244054592,";
"	244187072, 244316608, 244448704, 244580032, 244710976,";
"	244841536, 244972864, 245104448, 245233984, 245365312,";
"	245497792, 245628736, 245759936, 245889856, 246021056,";
"	246152512, 246284224, 246415168, 246545344, 246675904,";
"	246808384, 246939584, 247070144, 247199552, 247331648,";
"	247463872, 247593536, 247726016, 247857088, 247987648,";
"	248116928, 248249536, 248380736, 248512064, 248643008,";
"	248773312, 248901056, 249036608, 249167552, 249298624,";
"	249429184, 249560512, 249692096, 249822784, 249954112,";
"	250085312, 250215488, 250345792, 250478528, 250608704,";
"	250739264, 250870976, 251002816, 251133632, 251263552,";
"	251395136, 251523904, 251657792, 251789248, 251919424,";
"	252051392, 252182464, 252313408, 252444224, 252575552,";
"	252706624, 252836032, 252968512, 253099712, 253227584,";
"	253361728, 253493056, 253623488, 253754432, 253885504,";
"	254017216, 254148032, 254279488, 254410432, 254541376,";
"	254672576, 254803264, 254933824, 255065792, 255196736,";
"	255326528, 255458752, 255589952, 255721408, 255851072,";
"	255983296, 256114624, 256244416, 256374208, 256507712,";
"	256636096, 256768832, 256900544, 257031616, 257162176,";
"	257294272, 257424448, 257555776, 257686976, 257818432,";
"	257949632, 258079552, 258211136, 258342464, 258473408,";
"	258603712, 258734656, 258867008, 258996544, 259127744,";
"	259260224, 259391296, 259522112, 259651904, 259784384,";
"	259915328, 260045888, 260175424, 260308544, 260438336,";
"	260570944, 260700992, 260832448, 260963776, 261092672,";
"	261226304, 261356864, 261487936, 261619648, 261750592,";
"	261879872, 262011968, 262143424, 262274752, 262404416,";
"	262537024, 262667968, 262799296, 262928704, 263061184,";
"	263191744, 263322944, 263454656, 263585216, 263716672,";
"	263847872, 263978944, 264108608, 264241088, 264371648,";
"	264501184, 264632768, 264764096, 264895936, 265024576,";
"	265158464, 265287488, 265418432, 265550528, 265681216,";
"	265813312, 265943488, 266075968, 266206144, 266337728,";
"	266468032, 266600384, 266731072, 266862272, 266993344,";
"	267124288, 267255616, 267386432, 267516992, 267648704,";
"	267777728, 267910592, 268040512, 268172096, 268302784,";
"	268435264, 268566208, 268696256, 268828096, 268959296,";
"	269090368, 269221312, 269352256, 269482688, 269614784,";
"	269745856, 269876416, 270007616, 270139328, 270270272,";
"	270401216, 270531904, 270663616, 270791744, 270924736,";
"	271056832, 271186112, 271317184, 271449536, 271580992,";
"	271711936, 271843136, 271973056, 272105408, 272236352,";
"	272367296, 272498368, 272629568, 272759488, 272891456,";
"	273022784, 273153856, 273284672, 273415616, 273547072,";
"	273677632, 273808448, 273937088, 274071488, 274200896,";
"	274332992, 274463296, 274595392, 274726208, 274857536,";
"	274988992, 275118656, 275250496, 275382208, 275513024,";
"	275643968, 275775296, 275906368, 276037184, 276167872,";
"	276297664, 276429376, 276560576, 276692672, 276822976,";
"	276955072, 277085632, 277216832, 277347008, 277478848,";
"	277609664, 277740992, 277868608, 278002624, 278134336,";
"	278265536, 278395328, 278526784, 278657728, 278789824,";
"	278921152, 279052096, 279182912, 279313088, 279443776,";
"	279576256, 279706048, 279838528, 279969728, 280099648,";
"	280230976, 280361408, 280493632, 280622528, 280755392,";
"	280887104, 281018176, 281147968, 281278912, 281411392,";
"	281542592, 281673152, 281803712, 281935552, 282066496,";
"	282197312, 282329024, 282458816, 282590272, 282720832,";
"	282853184, 282983744, 283115072, 283246144, 283377344,";
"	283508416, 283639744, 283770304, 283901504, 284032576,";
"	284163136, 284294848, 284426176, 284556992, 284687296,";
"}";
"";
"var datasetSizes = []uint64{";
"	1073739904, 1082130304, 1090514816, 1098906752, 1107293056,";
"	1115684224, 1124070016, 1132461952, 1140849536, 1149232768,";
"	1157627776, 1166013824, 1174404736, 1182786944, 1191180416,";
"	1199568512, 1207958912, 1216345216, 1224732032, 1233124736,";
"	1241513344, 1249902464, 1258290304, 1266673792, 1275067264,";
"	1283453312, 1291844992, 1300234112, 1308619904, 1317010048,";
"	1325397376, 1333787776, 1342176128, 1350561664, 1358954368,";
"	1367339392, 1375731584, 1384118144, 1392507008, 1400897408,";
"	1409284736, 1417673344, 1426062464, 1434451072, 1442839168,";
"	1451229056, 1459615616, 1468006016, 1476394112, 1484782976,";
"	1493171584, 1501559168, 1509948032, 1518337664, 1526726528,";
"	1535114624, 1543503488, 1551892096, 1560278656, 1568669056,";
"	1577056384, 1585446272, 1593831296, 1602219392, 1610610304,";
"	1619000192, 1627386752, 1635773824, 1644164224, 1652555648,";
"	1660943488, 1669332608, 1677721216, 1686109312, 1694497664,";
"	1702886272, 1711274624, 1719661184, 1728047744, 1736434816,";
"	1744829056, 1753218944, 1761606272, 1769995904, 1778382464,";
"	1786772864, 1795157888, 1803550592, 1811937664, 1820327552,";
"	1828711552, 1837102976, 1845488768, 1853879936, 1862269312,";
"	1870656896, 1879048064, 1887431552, 1895825024, 1904212096,";
"	1912601216, 1920988544, 1929379456, 1937765504, 1946156672,";
"	1954543232, 1962932096, 1971321728, 1979707264, 1988093056,";
"	1996487552, 2004874624, 2013262208, 2021653888, 2030039936,";
"	2038430848, 2046819968, 2055208576, 2063596672, 2071981952,";
"	2080373632, 2088762752, 2097149056, 2105539712, 2113928576,";
"	2122315136, 2130700672, 2139092608, 2147483264, 2155872128,";
"	2164257664, 2172642176, 2181035392, 2189426048, 2197814912,";
"	2206203008, 2214587264, 2222979712, 2231367808, 2239758208,";
"	2248145024, 2256527744, 2264922752, 2273312128, 2281701248,";
"	2290086272, 2298476672, 2306867072, 2315251072, 2323639168,";
"	2332032128, 2340420224, 2348808064, 2357196416, 2365580416,";
"	2373966976, 2382363008, 2390748544, 2399139968, 2407530368,";
"	2415918976, 2424307328, 2432695424, 2441084288, 2449472384,";
"	2457861248, 2466247808, 2474637184, 2483026816, 2491414144,";
"	2499803776, 2508191872, 2516582272, 2524970368, 2533359232,";
"	2541743488, 2550134144, 2558525056, 2566913408, 2575301504,";
"	2583686528, 2592073856, 2600467328, 2608856192, 2617240448,";
"	2625631616, 2634022016, 2642407552, 2650796416, 2659188352,";
"	2667574912, 2675965312, 2684352896, 2692738688, 2701130624,";
"	2709518464, 2717907328, 2726293376, 2734685056, 2743073152,";
"	2751462016, 2759851648, 2768232832, 2776625536, 2785017728,";
"	2793401984, 2801794432, 2810182016, 2818571648, 2826959488,";
"	2835349376, 2843734144, 2852121472, 2860514432, 2868900992,";
"	2877286784, 2885676928, 2894069632, 2902451584, 2910843008,";
"	2919234688, 2927622784, 2936011648, 2944400768, 2952789376,";
"	2961177728, 2969565568, 2977951616, 2986338944, 2994731392,";
"	3003120256, 3011508352, 3019895936, 3028287104, 3036675968,";
"	3045063808, 3053452928, 3061837696, 3070228352, 3078615424,";
"	3087003776, 3095394944, 3103782272, 3112173184, 3120562048,";
"	3128944768, 3137339264, 3145725056, 3154109312, 3162505088,";
"	3170893184, 3179280256, 3187669376, 3196056704, 3204445568,";
"	3212836736, 3221224064, 3229612928, 3238002304, 3246391168,";
"	3254778496, 3263165824, 3271556224, 3279944576, 3288332416,";
"	3296719232, 3305110912, 3313500032, 3321887104, 3330273152,";
"	3338658944, 3347053184, 3355440512, 3363827072, 3372220288,";
"	3380608384, 3388997504, 3397384576, 3405774208, 3414163072,";
"	3422551936, 3430937984, 3439328384, 3447714176, 3456104576,";
"	3464493952, 3472883584, 3481268864, 3489655168, 3498048896,";
"	3506434432, 3514826368, 3523213952, 3531603584, 3539987072,";
"	3548380288, 3556763264, 3565157248, 3573545344, 3581934464,";
"	3590324096, 3598712704, 3607098752, 3615488384, 3623877248,";
"	3632265856, 3640646528, 3649043584, 3657430144, 3665821568,";
"	3674207872, 3682597504, 3690984832, 3699367808, 3707764352,";
"	3716152448, 3724541056, 3732925568, 3741318016, 3749706368,";
"	3758091136, 3766481536, 3774872704, 3783260032, 3791650432,";
"	3800036224, 3808427648, 3816815488, 3825204608, 3833592704,";
"	3841981568, 3850370432, 3858755968, 3867147904, 3875536256,";
"	3883920512, 3892313728, 3900702592, 3909087872, 3917478784,";
"	3925868416, 3934256512, 3942645376, 3951032192, 3959422336,";
"	3967809152, 3976200064, 3984588416, 3992974976, 4001363584,";
"	4009751168, 4018141312, 4026530432, 4034911616, 4043308928,";
"	4051695488, 4060084352, 4068472448, 4076862848, 4085249408,";
"	4093640576, 4102028416, 4110413696, 4118805632, 4127194496,";
"	4135583104, 4143971968, 4152360832, 4160746112, 4169135744,";
"	4177525888, 4185912704, 4194303616, 4202691968, 4211076736,";
"	4219463552, 4227855488, 4236246656, 4244633728, 4253022848,";
"	4261412224, 4269799808, 4278184832, 4286578048, 4294962304,";
"	4303349632, 4311743104, 4320130432, 4328521088, 4336909184,";
"	4345295488, 4353687424, 4362073472, 4370458496, 4378852736,";
"	4387238528, 4395630208, 4404019072, 4412407424, 4420790656,";
"	4429182848, 4437571456, 4445962112, 4454344064, 4462738048,";
"	4471119232, 4479516544, 4487904128, 4496289664, 4504682368,";
"	4513068416, 4521459584, 4529846144, 4538232704, 4546619776,";
"	4555010176, 4563402112, 4571790208, 4580174464, 4588567936,";
"	4596957056, 4605344896, 4613734016, 4622119808, 4630511488,";
"	4638898816, 4647287936, 4655675264, 4664065664, 4672451968,";
"	4680842624, 4689231488, 4697620352, 4706007424, 4714397056,";
"	4722786176, 4731173248, 4739562368, 4747951744, 4756340608,";
"	4764727936, 4773114496, 4781504384, 4789894784, 4798283648,";
"	4806667648, 4815059584, 4823449472, 4831835776, 4840226176,";
"	4848612224, 4857003392, 4865391488, 4873780096, 4882169728,";
"	4890557312, 4898946944, 4907333248, 4915722368, 4924110976,";
"	4932499328, 4940889728, 4949276032, 4957666432, 4966054784,";
"	4974438016, 4982831488, 4991221376, 4999607168, 5007998848,";
"	5016386432, 5024763776, 5033164672, 5041544576, 5049941888,";
"	5058329728, 5066717056, 5075107456, 5083494272, 5091883904,";
"	5100273536, 5108662144, 5117048192, 5125436032, 5133827456,";
"	5142215296, 5150605184, 5158993024, 5167382144, 5175769472,";
"	5184157568, 5192543872, 5200936064, 5209324928, 5217711232,";
"	5226102656, 5234490496, 5242877312, 5251263872, 5259654016,";
"	5268040832, 5276434304, 5284819328, 5293209728, 5301598592,";
"	5309986688, 5318374784, 5326764416, 5335151488, 5343542144,";
"	5351929472, 5360319872, 5368706944, 5377096576, 5385484928,";
"	5393871232, 5402263424, 5410650496, 5419040384, 5427426944,";
"	5435816576, 5444205952, 5452594816, 5460981376, 5469367936,";
"	5477760896, 5486148736, 5494536832, 5502925952, 5511315328,";
"	5519703424, 5528089984, 5536481152, 5544869504, 5553256064,";
"	5561645696, 5570032768, 5578423936, 5586811264, 5595193216,";
"	5603585408, 5611972736, 5620366208, 5628750464, 5637143936,";
"	5645528192, 5653921408, 5662310272, 5670694784, 5679082624,";
"	5687474048, 5695864448, 5704251008, 5712641408, 5721030272,";
"	5729416832, 5737806208, 5746194304, 5754583936, 5762969984,";
"	5771358592, 5779748224, 5788137856, 5796527488, 5804911232,";
"	5813300608, 5821692544, 5830082176, 5838468992, 5846855552,";
"	5855247488, 5863636096, 5872024448, 5880411008, 5888799872,";
"	5897186432, 5905576832, 5913966976, 5922352768, 5930744704,";
"	5939132288, 5947522432, 5955911296, 5964299392, 5972688256,";
"	5981074304, 5989465472, 5997851008, 6006241408, 6014627968,";
"	6023015552, 6031408256, 6039796096, 6048185216, 6056574848,";
"	6064963456, 6073351808, 6081736064, 6090128768, 6098517632,";
"	6106906496, 6115289216, 6123680896, 6132070016, 6140459648,";
"	6148849024, 6157237376, 6165624704, 6174009728, 6182403712,";
"	6190792064, 6199176064, 6207569792, 6215952256, 6224345216,";
"	6232732544, 6241124224, 6249510272, 6257899136, 6266287744,";
"	6274676864, 6283065728, 6291454336, 6299843456, 6308232064,";
"	6316620928, 6325006208, 6333395584, 6341784704, 6350174848,";
"	6358562176, 6366951296, 6375337856, 6383729536, 6392119168,";
"	6400504192, 6408895616, 6417283456, 6425673344, 6434059136,";
"	6442444672, 6450837376, 6459223424, 6467613056, 6476004224,";
"	6484393088, 6492781952, 6501170048, 6509555072, 6517947008,";
"	6526336384, 6534725504, 6543112832, 6551500672, 6559888768,";
"	6568278656, 6576662912, 6585055616, 6593443456, 6601834112,";
"	6610219648, 6618610304, 6626999168, 6635385472, 6643777408,";
"	6652164224, 6660552832, 6668941952, 6677330048, 6685719424,";
"	6694107776, 6702493568, 6710882176, 6719274112, 6727662976,";
"	6736052096, 6744437632, 6752825984, 6761213824, 6769604224,";
"	6777993856, 6786383488, 6794770816, 6803158144, 6811549312,";
"	6819937664, 6828326528, 6836706176, 6845101696, 6853491328,";
"	6861880448, 6870269312, 6878655104, 6887046272, 6895433344,";
"	6903822208, 6912212864, 6920596864, 6928988288, 6937377152,";
"	6945764992, 6954149248, 6962544256, 6970928768, 6979317376,";
"	6987709312, 6996093824, 7004487296, 7012875392, 7021258624,";
"	7029652352, 7038038912, 7046427776, 7054818944, 7063207808,";
"	7071595136, 7079980928, 7088372608, 7096759424, 7105149824,";
"	7113536896, 7121928064, 7130315392, 7138699648, 7147092352,";
"	7155479168, 7163865728, 7172249984, 7180648064, 7189036672,";
"	7197424768, 7205810816, 7214196608, 7222589824, 7230975104,";
"	7239367552, 7247755904, 7256145536, 7264533376, 7272921472,";
"	7281308032, 7289694848, 7298088832, 7306471808, 7314864512,";
"	7323253888, 7331643008, 7340029568, 7348419712, 7356808832,";
"	7365196672, 7373585792, 7381973888, 7390362752, 7398750592,";
"	7407138944, 7415528576, 7423915648, 7432302208, 7440690304,";
"	7449080192, 7457472128, 7465860992, 7474249088, 7482635648,";
"	7491023744, 7499412608, 7507803008, 7516192384, 7524579968,";
"	7532967296, 7541358464, 7549745792, 7558134656, 7566524032,";
"	7574912896, 7583300992, 7591690112, 7600075136, 7608466816,";
"	7616854912, 7625244544, 7633629824, 7642020992, 7650410368,";
"	7658794112, 7667187328, 7675574912, 7683961984, 7692349568,";
"	7700739712, 7709130368, 7717519232, 7725905536, 7734295424,";
"	7742683264, 7751069056, 7759457408, 7767849088, 7776238208,";
"	7784626816, 7793014912, 7801405312, 7809792128, 7818179968,";
"	7826571136, 7834957184, 7843347328, 7851732352, 7860124544,";
"	7868512384, 7876902016, 7885287808, 7893679744, 7902067072,";
"	7910455936, 7918844288, 7927230848, 7935622784, 7944009344,";
"	7952400256, 7960786048, 7969176704, 7977565312, 7985953408,";
"	7994339968, 8002730368, 8011119488, 8019508096, 8027896192,";
"	8036285056, 8044674688, 8053062272, 8061448832, 8069838464,";
"	8078227328, 8086616704, 8095006592, 8103393664, 8111783552,";
"	8120171392, 8128560256, 8136949376, 8145336704, 8153726848,";
"	8162114944, 8170503296, 8178891904, 8187280768, 8195669632,";
"	8204058496, 8212444544, 8220834176, 8229222272, 8237612672,";
"	8246000768, 8254389376, 8262775168, 8271167104, 8279553664,";
"	8287944064, 8296333184, 8304715136, 8313108352, 8321497984,";
"	8329885568, 8338274432, 8346663296, 8355052928, 8363441536,";
"	8371828352, 8380217984, 8388606592, 8396996224, 8405384576,";
"	8413772672, 8422161536, 8430549376, 8438939008, 8447326592,";
"	8455715456, 8464104832, 8472492928, 8480882048, 8489270656,";
"	8497659776, 8506045312, 8514434944, 8522823808, 8531208832,";
"	8539602304, 8547990656, 8556378752, 8564768384, 8573154176,";
"	8581542784, 8589933952, 8598322816, 8606705024, 8615099264,";
"	8623487872, 8631876992, 8640264064, 8648653952, 8657040256,";
"	8665430656, 8673820544, 8682209152, 8690592128, 8698977152,";
"	8707374464, 8715763328, 8724151424, 8732540032, 8740928384,";
"	8749315712, 8757704576, 8766089344, 8774480768, 8782871936,";
"	8791260032, 8799645824, 8808034432, 8816426368, 8824812928,";
"	8833199488, 8841591424, 8849976448, 8858366336, 8866757248,";
"	8875147136, 8883532928, 8891923328, 8900306816, 8908700288,";
"	8917088384, 8925478784, 8933867392, 8942250368, 8950644608,";
"	8959032704, 8967420544, 8975809664, 8984197504, 8992584064,";
"	9000976256, 9009362048, 9017752448, 9026141312, 9034530688,";
"	9042917504, 9051307904, 9059694208, 9068084864, 9076471424,";
"	9084861824, 9093250688, 9101638528, 9110027648, 9118416512,";
"	9126803584, 9135188096, 9143581312, 9151969664, 9160356224,";
"	9168747136, 9177134464, 9185525632, 9193910144, 9202302848,";
"	9210690688, 9219079552, 9227465344, 9235854464, 9244244864,";
"	9252633472, 9261021824, 9269411456, 9277799296, 9286188928,";
"	9294574208, 9302965888, 9311351936, 9319740032, 9328131968,";
"	9336516736, 9344907392, 9353296768, 9361685888, 9370074752,";
"	9378463616, 9386849408, 9395239808, 9403629184, 9412016512,";
"	9420405376, 9428795008, 9437181568, 9445570688, 9453960832,";
"	9462346624, 9470738048, 9479121536, 9487515008, 9495903616,";
"	9504289664, 9512678528, 9521067904, 9529456256, 9537843584,";
"	9546233728, 9554621312, 9563011456, 9571398784, 9579788672,";
"	9588178304, 9596567168, 9604954496, 9613343104, 9621732992,";
"	9630121856, 9638508416, 9646898816, 9655283584, 9663675776,";
"	9672061312, 9680449664, 9688840064, 9697230464, 9705617536,";
"	9714003584, 9722393984, 9730772608, 9739172224, 9747561088,";
"	9755945344, 9764338816, 9772726144, 9781116544, 9789503872,";
"	9797892992, 9806282624, 9814670464, 9823056512, 9831439232,";
"	9839833984, 9848224384, 9856613504, 9865000576, 9873391232,";
"	9881772416, 9890162816, 9898556288, 9906940544, 9915333248,";
"	9923721088, 9932108672, 9940496512, 9948888448, 9957276544,";
"	9965666176, 9974048384, 9982441088, 9990830464, 9999219584,";
"	10007602816, 10015996544, 10024385152, 10032774016, 10041163648,";
"	10049548928, 10057940096, 10066329472, 10074717824, 10083105152,";
"	10091495296, 10099878784, 10108272256, 10116660608, 10125049216,";
"	10133437312, 10141825664, 10150213504, 10158601088, 10166991232,";
"	10175378816, 10183766144, 10192157312, 10200545408, 10208935552,";
"	10217322112, 10225712768, 10234099328, 10242489472, 10250876032,";
"	10259264896, 10267656064, 10276042624, 10284429184, 10292820352,";
"	10301209472, 10309598848, 10317987712, 10326375296, 10334763392,";
"	10343153536, 10351541632, 10359930752, 10368318592, 10376707456,";
"	10385096576, 10393484672, 10401867136, 10410262144, 10418647424,";
"	10427039104, 10435425664, 10443810176, 10452203648, 10460589952,";
"	10468982144, 10477369472, 10485759104, 10494147712, 10502533504,";
"	10510923392, 10519313536, 10527702656, 10536091264, 10544478592,";
"	10552867712, 10561255808, 10569642368, 10578032768, 10586423168,";
"	10594805632, 10603200128, 10611588992, 10619976064, 10628361344,";
"	10636754048, 10645143424, 10653531776, 10661920384, 10670307968,";
"	10678696832, 10687086464, 10695475072, 10703863168, 10712246144,";
"	10720639616, 10729026688, 10737414784, 10745806208, 10754190976,";
"	10762581376, 10770971264, 10779356288, 10787747456, 10796135552,";
"	10804525184, 10812915584, 10821301888, 10829692288, 10838078336,";
"	10846469248, 10854858368, 10863247232, 10871631488, 10880023424,";
"	10888412032, 10896799616, 10905188992, 10913574016, 10921964672,";
"	10930352768, 10938742912, 10947132544, 10955518592, 10963909504,";
"	10972298368, 10980687488, 10989074816, 10997462912, 11005851776,";
"	11014241152, 11022627712, 11031017344, 11039403904, 11047793024,";
"	11056184704, 11064570752, 11072960896, 11081343872, 11089737856,";
"	11098128256, 11106514816, 11114904448, 11123293568, 11131680128,";
"	11140065152, 11148458368, 11156845696, 11165236864, 11173624192,";
"	11182013824, 11190402688, 11198790784, 11207179136, 11215568768,";
"	11223957376, 11232345728, 11240734592, 11249122688, 11257511296,";
"	11265899648, 11274285952, 11282675584, 11291065472, 11299452544,";
"	11307842432, 11316231296, 11324616832, 11333009024, 11341395584,";
"	11349782656, 11358172288, 11366560384, 11374950016, 11383339648,";
"	11391721856, 11400117376, 11408504192, 11416893568, 11425283456,";
"	11433671552, 11442061184, 11450444672, 11458837888, 11467226752,";
"	11475611776, 11484003968, 11492392064, 11500780672, 11509169024,";
"	11517550976, 11525944448, 11534335616, 11542724224, 11551111808,";
"	11559500672, 11567890304, 11576277376, 11584667008, 11593056128,";
"	11601443456, 11609830016, 11618221952, 11626607488, 11634995072,";
"	11643387776, 11651775104, 11660161664, 11668552576, 11676940928,";
"	11685330304, 11693718656, 11702106496, 11710496128, 11718882688,";
"	11727273088, 11735660416, 11744050048, 11752437376, 11760824704,";
"	11769216128, 11777604736, 11785991296, 11794381952, 11802770048,";
"	11811157888, 11819548544, 11827932544, 11836324736, 11844713344,";
"	11853100928, 11861486464, 11869879936, 11878268032, 11886656896,";
"	11895044992, 11903433088, 11911822976, 11920210816, 11928600448,";
"	11936987264, 11945375872, 11953761152, 11962151296, 11970543488,";
"	11978928512, 11987320448, 11995708288, 12004095104, 12012486272,";
"	12020875136, 12029255552, 12037652096, 12046039168, 12054429568,";
"	12062813824, 12071206528, 12079594624, 12087983744, 12096371072,";
"	12104759936, 12113147264, 12121534592, 12129924992, 12138314624,";
"	12146703232, 12155091584, 12163481216, 12171864704, 12180255872,";
"	12188643968, 12197034112, 12205424512, 12213811328, 12222199424,";
"	12230590336, 12238977664, 12247365248, 12255755392, 12264143488,";
"	12272531584, 12280920448, 12289309568, 12297694592, 12306086528,";
"	12314475392, 12322865024, 12331253632, 12339640448, 12348029312,";
"	12356418944, 12364805248, 12373196672, 12381580928, 12389969024,";
"	12398357632, 12406750592, 12415138432, 12423527552, 12431916416,";
"	12440304512, 12448692352, 12457081216, 12465467776, 12473859968,";
"	12482245504, 12490636672, 12499025536, 12507411584, 12515801728,";
"	12524190592, 12532577152, 12540966272, 12549354368, 12557743232,";
"	12566129536, 12574523264, 12582911872, 12591299456, 12599688064,";
"	12608074624, 12616463488, 12624845696, 12633239936, 12641631616,";
"	12650019968, 12658407296, 12666795136, 12675183232, 12683574656,";
"	12691960192, 12700350592, 12708740224, 12717128576, 12725515904,";
"	12733906816, 12742295168, 12750680192, 12759071872, 12767460736,";
"	12775848832, 12784236928, 12792626816, 12801014656, 12809404288,";
"	12817789312, 12826181504, 12834568832, 12842954624, 12851345792,";
"	12859732352, 12868122496, 12876512128, 12884901248, 12893289088,";
"	12901672832, 12910067584, 12918455168, 12926842496, 12935232896,";
"	12943620736, 12952009856, 12960396928, 12968786816, 12977176192,";
"	12985563776, 12993951104, 13002341504, 13010730368, 13019115392,";
"	13027506304, 13035895168, 13044272512, 13052673152, 13061062528,";
"	13069446272, 13077838976, 13086227072, 13094613632, 13103000192,";
"	13111393664, 13119782528, 13128157568, 13136559232, 13144945024,";
"	13153329536, 13161724288, 13170111872, 13178502784, 13186884736,";
"	13195279744, 13203667072, 13212057472, 13220445824, 13228832128,";
"	13237221248, 13245610624, 13254000512, 13262388352, 13270777472,";
"	13279166336, 13287553408, 13295943296, 13304331904, 13312719488,";
"	13321108096, 13329494656, 13337885824, 13346274944, 13354663808,";
"	13363051136, 13371439232, 13379825024, 13388210816, 13396605056,";
"	13404995456, 13413380224, 13421771392, 13430159744, 13438546048,";
"	13446937216, 13455326848, 13463708288, 13472103808, 13480492672,";
"	13488875648, 13497269888, 13505657728, 13514045312, 13522435712,";
"	13530824576, 13539210112, 13547599232, 13555989376, 13564379008,";
"	13572766336, 13581154432, 13589544832, 13597932928, 13606320512,";
"	13614710656, 13623097472, 13631477632, 13639874944, 13648264064,";
"	13656652928, 13665041792, 13673430656, 13681818496, 13690207616,";
"	13698595712, 13706982272, 13715373184, 13723762048, 13732150144,";
"	13740536704, 13748926592, 13757316224, 13765700992, 13774090112,";
"	13782477952, 13790869376, 13799259008, 13807647872, 13816036736,";
"	13824425344, 13832814208, 13841202304, 13849591424, 13857978752,";
"	13866368896, 13874754688, 13883145344, 13891533184, 13899919232,";
"	13908311168, 13916692096, 13925085056, 13933473152, 13941866368,";
"	13950253696, 13958643584, 13967032192, 13975417216, 13983807616,";
"	13992197504, 14000582272, 14008973696, 14017363072, 14025752192,";
"	14034137984, 14042528384, 14050918016, 14059301504, 14067691648,";
"	14076083584, 14084470144, 14092852352, 14101249664, 14109635968,";
"	14118024832, 14126407552, 14134804352, 14143188608, 14151577984,";
"	14159968384, 14168357248, 14176741504, 14185127296, 14193521024,";
"	14201911424, 14210301824, 14218685056, 14227067264, 14235467392,";
"	14243855488, 14252243072, 14260630144, 14269021568, 14277409408,";
"	14285799296, 14294187904, 14302571392, 14310961792, 14319353728,";
"	14327738752, 14336130944, 14344518784, 14352906368, 14361296512,";
"	14369685376, 14378071424, 14386462592, 14394848128, 14403230848,";
"	14411627392, 14420013952, 14428402304, 14436793472, 14445181568,";
"	14453569664, 14461959808, 14470347904, 14478737024, 14487122816,";
"	14495511424, 14503901824, 14512291712, 14520677504, 14529064832,";
"	14537456768, 14545845632, 14554234496, 14562618496, 14571011456,";
"	14579398784, 14587789184, 14596172672, 14604564608, 14612953984,";
"	14621341312, 14629724288, 14638120832, 14646503296, 14654897536,";
"	14663284864, 14671675264, 14680061056, 14688447616, 14696835968,";
"	14705228416, 14713616768, 14722003328, 14730392192, 14738784128,";
"	14747172736, 14755561088, 14763947648, 14772336512, 14780725376,";
"	14789110144, 14797499776, 14805892736, 14814276992, 14822670208,";
"	14831056256, 14839444352, 14847836032, 14856222848, 14864612992,";
"	14872997504, 14881388672, 14889775744, 14898165376, 14906553472,";
"	14914944896, 14923329664, 14931721856, 14940109696, 14948497024,";
"	14956887424, 14965276544, 14973663616, 14982053248, 14990439808,";
"	14998830976, 15007216768, 15015605888, 15023995264, 15032385152,";
"	15040768384, 15049154944, 15057549184, 15065939072, 15074328448,";
"	15082715008, 15091104128, 15099493504, 15107879296, 15116269184,";
"	15124659584, 15133042304, 15141431936, 15149824384, 15158214272,";
"	15166602368, 15174991232, 15183378304, 15191760512, 15200154496,";
"	15208542592, 15216931712, 15225323392, 15233708416, 15242098048,";
"	15250489216, 15258875264, 15267265408, 15275654528, 15284043136,";
"	15292431488, 15300819584, 15309208192, 15317596544, 15325986176,";
"	15334374784, 15342763648, 15351151744, 15359540608, 15367929728,";
"	15376318336, 15384706432, 15393092992, 15401481856, 15409869952,";
"	15418258816, 15426649984, 15435037568, 15443425664, 15451815296,";
"	15460203392, 15468589184, 15476979328, 15485369216, 15493755776,";
"	15502146944, 15510534272, 15518924416, 15527311232, 15535699072,";
"	15544089472, 15552478336, 15560866688, 15569254528, 15577642624,";
"	15586031488, 15594419072, 15602809472, 15611199104, 15619586432,";
"	15627975296, 15636364928, 15644753792, 15653141888, 15661529216,";
"	15669918848, 15678305152, 15686696576, 15695083136, 15703474048,";
"	15711861632, 15720251264, 15728636288, 15737027456, 15745417088,";
"	15753804928, 15762194048, 15770582656, 15778971008, 15787358336,";
"	15795747712, 15804132224, 15812523392, 15820909696, 15829300096,";
"	15837691264, 15846071936, 15854466944, 15862855808, 15871244672,";
"	15879634816, 15888020608, 15896409728, 15904799104, 15913185152,";
"	15921577088, 15929966464, 15938354816, 15946743424, 15955129472,";
"	15963519872, 15971907968, 15980296064, 15988684928, 15997073024,";
"	16005460864, 16013851264, 16022241152, 16030629248, 16039012736,";
"	16047406976, 16055794816, 16064181376, 16072571264, 16080957824,";
"	16089346688, 16097737856, 16106125184, 16114514816, 16122904192,";
"	16131292544, 16139678848, 16148066944, 16156453504, 16164839552,";
"	16173236096, 16181623424, 16190012032, 16198401152, 16206790528,";
"	16215177344, 16223567744, 16231956352, 16240344704, 16248731008,";
"	16257117824, 16265504384, 16273898624, 16282281856, 16290668672,";
"	16299064192, 16307449216, 16315842176, 16324230016, 16332613504,";
"	16341006464, 16349394304, 16357783168, 16366172288, 16374561664,";
"	16382951296, 16391337856, 16399726208, 16408116352, 16416505472,";
"	16424892032, 16433282176, 16441668224, 16450058624, 16458448768,";
"	16466836864, 16475224448, 16483613056, 16492001408, 16500391808,";
"	16508779648, 16517166976, 16525555328, 16533944192, 16542330752,";
"	16550719616, 16559110528, 16567497088, 16575888512, 16584274816,";
"	16592665472, 16601051008, 16609442944, 16617832064, 16626218624,";
"	16634607488, 16642996096, 16651385728, 16659773824, 16668163712,";
"	16676552576, 16684938112, 16693328768, 16701718144, 16710095488,";
"	16718492288, 16726883968, 16735272832, 16743661184, 16752049792,";
"	16760436608, 16768827008, 16777214336, 16785599104, 16793992832,";
"	16802381696, 16810768768, 16819151744, 16827542656, 16835934848,";
"	16844323712, 16852711552, 16861101952, 16869489536, 16877876864,";
"	16886265728, 16894653056, 16903044736, 16911431296, 16919821696,";
"	16928207488, 16936592768, 16944987776, 16953375616, 16961763968,";
"	16970152832, 16978540928, 16986929536, 16995319168, 17003704448,";
"	17012096896, 17020481152, 17028870784, 17037262208, 17045649536,";
"	17054039936, 17062426496, 17070814336, 17079205504, 17087592064,";
"	17095978112, 17104369024, 17112759424, 17121147776, 17129536384,";
"	17137926016, 17146314368, 17154700928, 17163089792, 17171480192,";
"	17179864192, 17188256896, 17196644992, 17205033856, 17213423488,";
"	17221811072, 17230198912, 17238588032, 17246976896, 17255360384,";
"	17263754624, 17272143232, 17280530048, 17288918912, 17297309312,";
"	17305696384, 17314085504, 17322475136, 17330863744, 17339252096,";
"	17347640192, 17356026496, 17364413824, 17372796544, 17381190016,";
"	17389583488, 17397972608, 17406360704, 17414748544, 17423135872,";
"	17431527296, 17439915904, 17448303232, 17456691584, 17465081728,";
"	17473468288, 17481857408, 17490247552, 17498635904, 17507022464,";
"	17515409024, 17523801728, 17532189824, 17540577664, 17548966016,";
"	17557353344, 17565741184, 17574131584, 17582519168, 17590907008,";
"	17599296128, 17607687808, 17616076672, 17624455808, 17632852352,";
"	17641238656, 17649630848, 17658018944, 17666403968, 17674794112,";
"	17683178368, 17691573376, 17699962496, 17708350592, 17716739968,";
"	17725126528, 17733517184, 17741898112, 17750293888, 17758673024,";
"	17767070336, 17775458432, 17783848832, 17792236928, 17800625536,";
"	17809012352, 17817402752, 17825785984, 17834178944, 17842563968,";
"	17850955648, 17859344512, 17867732864, 17876119424, 17884511872,";
"	17892900224, 17901287296, 17909677696, 17918058112, 17926451072,";
"	17934843776, 17943230848, 17951609216, 17960008576, 17968397696,";
"	17976784256, 17985175424, 17993564032, 18001952128, 18010339712,";
"	18018728576, 18027116672, 18035503232, 18043894144, 18052283264,";
"	18060672128, 18069056384, 18077449856, 18085837184, 18094225792,";
"	18102613376, 18111004544, 18119388544, 18127781248, 18136170368,";
"	18144558976, 18152947328, 18161336192, 18169724288, 18178108544,";
"	18186498944, 18194886784, 18203275648, 18211666048, 18220048768,";
"}"]%string.
Check (eq_refl true <: same_text (lines kawpow_lookup_go) (go_file (txt "kawpow") kawpow_cacheSizes kawpow_datasetSizes) = true).

(** firopow/firopow_lookup.go, all of it *)
Definition firopow_lookup_go : list string := [
"package firopow";
"";
"var cacheSizes = []uint64{";
"	16776896, 16907456, 17039296, 17170112, 17301056,";
"	17432512, 17563072, 17693888, 17824192, 17955904,";
"	18087488, 18218176, 18349504, 18481088, 18611392,";
"	18742336, 18874304, 19004224, 19135936, 19267264,";
"	19398208, 19529408, 19660096, 19791424, 19922752,";
"	20053952, 20184896, 20315968, 20446912, 20576576,";
"	20709184, 20840384, 20971072, 21102272, 21233216,";
"	21364544, 21494848, 21626816, 21757376, 21887552,";
"	22019392, 22151104, 22281536, 22412224, 22543936,";
"	22675264, 22806464, 22935872, 23068096, 23198272,";
"	23330752, 23459008, 23592512, 23723968, 23854912,";
"	23986112, 24116672, 24247616, 24378688, 24509504,";
"	24640832, 24772544, 24903488, 25034432, 25165376,";
"	25296704, 25427392, 25558592, 25690048, 25820096,";
"	25951936, 26081728, 26214208, 26345024, 26476096,";
"	26606656, 26737472, 26869184, 26998208, 27131584,";
"	27262528, 27393728, 27523904, 27655744, 27786688,";
"	27917888, 28049344, 28179904, 28311488, 28441792,";
"	28573504, 28700864, 28835648, 28966208, 29096768,";
"	29228608, 29359808, 29490752, 29621824, 29752256,";
"	29882816, 30014912, 30144448, 30273728, 30406976,";
"	30538432, 30670784, 30799936, 30932672, 31063744,";
"	31195072, 31325248, 31456192, 31588288, 31719232,";
"	31850432, 31981504, 32110784, 32243392, 32372672,";
"	32505664, 32636608, 32767808, 32897344, 33029824,";
"	33160768, 33289664, 33423296, 33554368, 33683648,";
"	33816512, 33947456, 34076992, 34208704, 34340032,";
"	34471744, 34600256, 34734016, 34864576, 34993984,";
"	35127104, 35258176, 35386688, 35518528, 35650624,";
"	35782336, 35910976, 36044608, 36175808, 36305728,";
"	36436672, 36568384, 36699968, 36830656, 36961984,";
"	37093312, 37223488, 37355072, 37486528, 37617472,";
"	37747904, 37879232, 38009792, 38141888, 38272448,";
"	38403392, 38535104, 38660672, 38795584, 38925632,";
"	39059264, 39190336, 39320768, 39452096, 39581632,";
"	39713984, 39844928, 39974848, 40107968, 40238144,";
"	40367168, 40500032, 40631744, 40762816, 40894144,";
"	41023552, 41155904, 41286208, 41418304, 41547712,";
"	41680448, 41811904, 41942848, 42073792, 42204992,";
"	42334912, 42467008, 42597824, 42729152, 42860096,";
"	42991552, 43122368, 43253696, 43382848, 43515712,";
"	43646912, 43777088, 43907648, 44039104, 44170432,";
"	44302144, 44433344, 44564288, 44694976, 44825152,";
"	44956864, 45088448, 45219008, 45350464, 45481024,";
"	45612608, 45744064, 45874496, 46006208, 46136768,";
"	46267712, 46399424, 46529344, 46660672, 46791488,";
"	46923328, 47053504, 47185856, 47316928, 47447872,";
"	47579072, 47710144, 47839936, 47971648, 48103232,";
"	48234176, 48365248, 48496192, 48627136, 48757312,";
"	48889664, 49020736, 49149248, 49283008, 49413824,";
"	49545152, 49675712, 49807168, 49938368, 50069056,";
"	50200256, 50331584, 50462656, 50593472, 50724032,";
"	50853952, 50986048, 51117632, 51248576, 51379904,";
"	51510848, 51641792, 51773248, 51903296, 52035136,";
"	52164032, 52297664, 52427968, 52557376, 52690112,";
"	52821952, 52952896, 53081536, 53213504, 53344576,";
"	53475776, 53608384, 53738816, 53870528, 54000832,";
"	54131776, 54263744, 54394688, 54525248, 54655936,";
"	54787904, 54918592, 55049152, 55181248, 55312064,";
"	55442752, 55574336, 55705024, 55836224, 55967168,";
"	56097856, 56228672, 56358592, 56490176, 56621888,";
"	56753728, 56884928, 57015488, 57146816, 57278272,";
"	57409216, 57540416, 57671104, 57802432, 57933632,";
"	58064576, 58195264, 58326976, 58457408, 58588864,";
"	58720192, 58849984, 58981696, 59113024, 59243456,";
"	59375552, 59506624, 59637568, 59768512, 59897792,";
"	60030016, 60161984, 60293056, 60423872, 60554432,";
"	60683968, 60817216, 60948032, 61079488, 61209664,";
"	61341376, 61471936, 61602752, 61733696, 61865792,";
"	61996736, 62127808, 62259136, 62389568, 62520512,";
"	62651584, 62781632, 62910784, 63045056, 63176128,";
"	63307072, 63438656, 63569216, 63700928, 63831616,";
"	63960896, 64093888, 64225088, 64355392, 64486976,";
"	64617664, 64748608, 64879424, 65009216, 65142464,";
"	65273792, 65402816, 65535424, 65666752, 65797696,";
"	65927744, 66060224, 66191296, 66321344, 66453056,";
"	66584384, 66715328, 66846656, 66977728, 67108672,";
"	67239104, 67370432, 67501888, 67631296, 67763776,";
"	67895104, 68026304, 68157248, 68287936, 68419264,";
"	68548288, 68681408, 68811968, 68942912, 69074624,";
"	69205568, 69337024, 69467584, 69599168, 69729472,";
"	69861184, 69989824, 70122944, 70253888, 70385344,";
"	70515904, 70647232, 70778816, 70907968, 71040832,";
"	71171648, 71303104, 71432512, 71564992, 71695168,";
"	71826368, 71958464, 72089536, 72219712, 72350144,";
"	72482624, 72613568, 72744512, 72875584, 73006144,";
"	73138112, 73268672, 73400128, 73530944, 73662272,";
"	73793344, 73924544, 74055104, 74185792, 74316992,";
"	74448832, 74579392, 74710976, 74841664, 74972864,";
"	75102784, 75233344, 75364544, 75497024, 75627584,";
"	75759296, 75890624, 76021696, 76152256, 76283072,";
"	76414144, 76545856, 76676672, 76806976, 76937792,";
"	77070016, 77200832, 77331392, 77462464, 77593664,";
"	77725376, 77856448, 77987776, 78118336, 78249664,";
"	78380992, 78511424, 78642496, 78773056, 78905152,";
"	79033664, 79166656, 79297472, 79429568, 79560512,";
"	79690816, 79822784, 79953472, 80084672, 80214208,";
"	80346944, 80477632, 80608576, 80740288, 80870848,";
"	81002048, 81133504, 81264448, 81395648, 81525952,";
"	81657536, 81786304, 81919808, 82050112, 82181312,";
"	82311616, 82443968, 82573376, 82705984, 82835776,";
"	82967744, 83096768, 83230528, 83359552, 83491264,";
"	83622464, 83753536, 83886016, 84015296, 84147776,";
"	84277184, 84409792, 84540608, 84672064, 84803008,";
"	84934336, 85065152, 85193792, 85326784, 85458496,";
"	85589312, 85721024, 85851968, 85982656, 86112448,";
"	86244416, 86370112, 86506688, 86637632, 86769344,";
"	86900672, 87031744, 87162304, 87293632, 87424576,";
"	87555392, 87687104, 87816896, 87947968, 88079168,";
"	88211264, 88341824, 88473152, 88603712, 88735424,";
"	88862912, 88996672, 89128384, 89259712, 89390272,";
"	89521984, 89652544, 89783872, 89914816, 90045376,";
"	90177088, 90307904, 90438848, 90569152, 90700096,";
"	90832832, 90963776, 91093696, 91223744, 91356992,";
"	91486784, 91618496, 91749824, 91880384, 92012224,";
"	92143552, 92273344, 92405696, 92536768, 92666432,";
"	92798912, 92926016, 93060544, 93192128, 93322816,";
"	93453632, 93583936, 93715136, 93845056, 93977792,";
"	94109504, 94240448, 94371776, 94501184, 94632896,";
"	94764224, 94895552, 95023424, 95158208, 95287744,";
"	95420224, 95550016, 95681216, 95811904, 95943872,";
"	96075328, 96203584, 96337856, 96468544, 96599744,";
"	96731072, 96860992, 96992576, 97124288, 97254848,";
"	97385536, 97517248, 97647808, 97779392, 97910464,";
"	98041408, 98172608, 98303168, 98434496, 98565568,";
"	98696768, 98827328, 98958784, 99089728, 99220928,";
"	99352384, 99482816, 99614272, 99745472, 99876416,";
"	100007104, 100138048, 100267072, 100401088, 100529984,";
"	100662592, 100791872, 100925248, 101056064, 101187392,";
"	101317952, 101449408, 101580608, 101711296, 101841728,";
"	101973824, 102104896, 102235712, 102366016, 102498112,";
"	102628672, 102760384, 102890432, 103021888, 103153472,";
"	103284032, 103415744, 103545152, 103677248, 103808576,";
"	103939648, 104070976, 104201792, 104332736, 104462528,";
"	104594752, 104725952, 104854592, 104988608, 105118912,";
"	105247808, 105381184, 105511232, 105643072, 105774784,";
"	105903296, 106037056, 106167872, 106298944, 106429504,";
"	106561472, 106691392, 106822592, 106954304, 107085376,";
"	107216576, 107346368, 107478464, 107609792, 107739712,";
"	107872192, 108003136, 108131392, 108265408, 108396224,";
"	108527168, 108657344, 108789568, 108920384, 109049792,";
"	109182272, 109312576, 109444928, 109572928, 109706944,";
"	109837888, 109969088, 110099648, 110230976, 110362432,";
"	110492992, 110624704, 110755264, 110886208, 111017408,";
"	111148864, 111279296, 111410752, 111541952, 111673024,";
"	111803456, 111933632, 112066496, 112196416, 112328512,";
"	112457792, 112590784, 112715968, 112852672, 112983616,";
"	113114944, 113244224, 113376448, 113505472, 113639104,";
"	113770304, 113901376, 114031552, 114163264, 114294592,";
"	114425536, 114556864, 114687424, 114818624, 114948544,";
"	115080512, 115212224, 115343296, 115473472, 115605184,";
"	115736128, 115867072, 115997248, 116128576, 116260288,";
"	116391488, 116522944, 116652992, 116784704, 116915648,";
"	117046208, 117178304, 117308608, 117440192, 117569728,";
"	117701824, 117833024, 117964096, 118094656, 118225984,";
"	118357312, 118489024, 118617536, 118749632, 118882112,";
"	119012416, 119144384, 119275328, 119406016, 119537344,";
"	119668672, 119798464, 119928896, 120061376, 120192832,";
"	120321728, 120454336, 120584512, 120716608, 120848192,";
"	120979136, 121109056, 121241408, 121372352, 121502912,";
"	121634752, 121764416, 121895744, 122027072, 122157632,";
"	122289088, 122421184, 122550592, 122682944, 122813888,";
"	122945344, 123075776, 123207488, 123338048, 123468736,";
"	123600704, 123731264, 123861952, 123993664, 124124608,";
"	124256192, 124386368, 124518208, 124649024, 124778048,";
"	124911296, 125041088, 125173696, 125303744, 125432896,";
"	125566912, 125696576, 125829056, 125958592, 126090304,";
"	126221248, 126352832, 126483776, 126615232, 126746432,";
"	126876608, 127008704, 127139392, 127270336, 127401152,";
"	127532224, 127663552, 127794752, 127925696, 128055232,";
"	128188096, 128319424, 128449856, 128581312, 128712256,";
"	128843584, 128973632, 129103808, 129236288, 129365696,";
"	129498944, 129629888, 129760832, 129892288, 130023104,";
"	130154048, 130283968, 130416448, 130547008, 130678336,";
"	130807616, 130939456, 131071552, 131202112, 131331776,";
"	131464384, 131594048, 131727296, 131858368, 131987392,";
"	132120256, 132250816, 132382528, 132513728, 132644672,";
"	132774976, 132905792, 133038016, 133168832, 133299392,";
"	133429312, 133562048, 133692992, 133823296, 133954624,";
"	134086336, 134217152, 134348608, 134479808, 134607296,";
"	134741056, 134872384, 135002944, 135134144, 135265472,";
"	135396544, 135527872, 135659072, 135787712, 135921472,";
"	136052416, 136182848, 136313792, 136444864, 136576448,";
"	136707904, 136837952, 136970048, 137099584, 137232064,";
"	137363392, 137494208, 137625536, 137755712, 137887424,";
"	138018368, 138149824, 138280256, 138411584, 138539584,";
"	138672832, 138804928, 138936128, 139066688, 139196864,";
"	139328704, 139460032, 139590208, 139721024, 139852864,";
"	139984576, 140115776, 140245696, 140376512, 140508352,";
"	140640064, 140769856, 140902336, 141032768, 141162688,";
"	141294016, 141426496, 141556544, 141687488, 141819584,";
"	141949888, 142080448, 142212544, 142342336, 142474432,";
"	142606144, 142736192, 142868288, 142997824, 143129408,";
"	143258944, 143392448, 143523136, 143653696, 143785024,";
"	143916992, 144045632, 144177856, 144309184, 144440768,";
"	144570688, 144701888, 144832448, 144965056, 145096384,";
"	145227584, 145358656, 145489856, 145620928, 145751488,";
"	145883072, 146011456, 146144704, 146275264, 146407232,";
"	146538176, 146668736, 146800448, 146931392, 147062336,";
"	147193664, 147324224, 147455936, 147586624, 147717056,";
"	147848768, 147979456, 148110784, 148242368, 148373312,";
"	148503232, 148635584, 148766144, 148897088, 149028416,";
"	149159488, 149290688, 149420224, 149551552, 149683136,";
"	149814976, 149943616, 150076352, 150208064, 150338624,";
"	150470464, 150600256, 150732224, 150862784, 150993088,";
"	151125952, 151254976, 151388096, 151519168, 151649728,";
"	151778752, 151911104, 152042944, 152174144, 152304704,";
"	152435648, 152567488, 152698816, 152828992, 152960576,";
"	153091648, 153222976, 153353792, 153484096, 153616192,";
"	153747008, 153878336, 154008256, 154139968, 154270912,";
"	154402624, 154533824, 154663616, 154795712, 154926272,";
"	155057984, 155188928, 155319872, 155450816, 155580608,";
"	155712064, 155843392, 155971136, 156106688, 156237376,";
"	156367424, 156499264, 156630976, 156761536, 156892352,";
"	157024064, 157155008, 157284416, 157415872, 157545536,";
"	157677248, 157810496, 157938112, 158071744, 158203328,";
"	158334656, 158464832, 158596288, 158727616, 158858048,";
"	158988992, 159121216, 159252416, 159381568, 159513152,";
"	159645632, 159776192, 159906496, 160038464, 160169536,";
"	160300352, 160430656, 160563008, 160693952, 160822208,";
"	160956352, 161086784, 161217344, 161349184, 161480512,";
"	161611456, 161742272, 161873216, 162002752, 162135872,";
"	162266432, 162397888, 162529216, 162660032, 162790976,";
"	162922048, 163052096, 163184576, 163314752, 163446592,";
"	163577408, 163707968, 163839296, 163969984, 164100928,";
"	164233024, 164364224, 164494912, 164625856, 164756672,";
"	164887616, 165019072, 165150016, 165280064, 165412672,";
"	165543104, 165674944, 165805888, 165936832, 166067648,";
"	166198336, 166330048, 166461248, 166591552, 166722496,";
"	166854208, 166985408, 167116736, 167246656, 167378368,";
"	167508416, 167641024, 167771584, 167903168, 168034112,";
"	168164032, 168295744, 168427456, 168557632, 168688448,";
"	168819136, 168951616, 169082176, 169213504, 169344832,";
"	169475648, 169605952, 169738048, 169866304, 169999552,";
"	170131264, 170262464, 170393536, 170524352, 170655424,";
"	170782016, 170917696, 171048896, 171179072, 171310784,";
"	171439936, 171573184, 171702976, 171835072, 171966272,";
"	172097216, 172228288, 172359232, 172489664, 172621376,";
"	172747712, 172883264, 173014208, 173144512, 173275072,";
"	173407424, 173539136, 173669696, 173800768, 173931712,";
"	174063424, 174193472, 174325696, 174455744, 174586816,";
"	174718912, 174849728, 174977728, 175109696, 175242688,";
"	175374272, 175504832, 175636288, 175765696, 175898432,";
"	176028992, 176159936, 176291264, 176422592, 176552512,";
"	176684864, 176815424, 176946496, 177076544, 177209152,";
"	177340096, 177470528, 177600704, 177731648, 177864256,";
"	177994816, 178126528, 178257472, 178387648, 178518464,";
"	178650176, 178781888, 178912064, 179044288, 179174848,";
"	179305024, 179436736, 179568448, 179698496, 179830208,";
"	179960512, 180092608, 180223808, 180354752, 180485696,";
"	180617152, 180748096, 180877504, 181009984, 181139264,";
"	181272512, 181402688, 181532608, 181663168, 181795136,";
"	181926592, 182057536, 182190016, 182320192, 182451904,";
"	182582336, 182713792, 182843072, 182976064, 183107264,";
"	183237056, 183368384, 183494848, 183631424, 183762752,";
"	183893824, 184024768, 184154816, 184286656, 184417984,";
"	184548928, 184680128, 184810816, 184941248, 185072704,";
"	185203904, 185335616, 185465408, 185596352, 185727296,";
"	185859904, 185989696, 186121664, 186252992, 186383552,";
"	186514112, 186645952, 186777152, 186907328, 187037504,";
"	187170112, 187301824, 187429184, 187562048, 187693504,";
"	187825472, 187957184, 188087104, 188218304, 188349376,";
"	188481344, 188609728, 188743616, 188874304, 189005248,";
"	189136448, 189265088, 189396544, 189528128, 189660992,";
"	189791936, 189923264, 190054208, 190182848, 190315072,";
"	190447424, 190577984, 190709312, 190840768, 190971328,";
"	191102656, 191233472, 191364032, 191495872, 191626816,";
"	191758016, 191888192, 192020288, 192148928, 192282176,";
"	192413504, 192542528, 192674752, 192805952, 192937792,";
"	193068608, 193198912, 193330496, 193462208, 193592384,";
"	193723456, 193854272, 193985984, 194116672, 194247232,";
"	194379712, 194508352, 194641856, 194772544, 194900672,";
"	195035072, 195166016, 195296704, 195428032, 195558592,";
"	195690304, 195818176, 195952576, 196083392, 196214336,";
"	196345792, 196476736, 196607552, 196739008, 196869952,";
"	197000768, 197130688, 197262784, 197394368, 197523904,";
"	197656384, 197787584, 197916608, 198049472, 198180544,";
"	198310208, 198442432, 198573632, 198705088, 198834368,";
"	198967232, 199097792, 199228352, 199360192, 199491392,";
"	199621696, 199751744, 199883968, 200014016, 200146624,";
"	200276672, 200408128, 200540096, 200671168, 200801984,";
"	200933312, 201062464, 201194944, 201326144, 201457472,";
"	201588544, 201719744, 201850816, 201981632, 202111552,";
"	202244032, 202374464, 202505152, 202636352, 202767808,";
"	202898368, 203030336, 203159872, 203292608, 203423296,";
"	203553472, 203685824, 203816896, 203947712, 204078272,";
"	204208192, 204341056, 204472256, 204603328, 204733888,";
"	204864448, 204996544, 205125568, 205258304, 205388864,";
"	205517632, 205650112, 205782208, 205913536, 206044736,";
"	206176192, 206307008, 206434496, 206569024, 206700224,";
"	206831168, 206961856, 207093056, 207223616, 207355328,";
"	207486784, 207616832, 207749056, 207879104, 208010048,";
"	208141888, 208273216, 208404032, 208534336, 208666048,";
"	208796864, 208927424, 209059264, 209189824, 209321792,";
"	209451584, 209582656, 209715136, 209845568, 209976896,";
"	210106432, 210239296, 210370112, 210501568, 210630976,";
"	210763712, 210894272, 211024832, 211156672, 211287616,";
"	211418176, 211549376, 211679296, 211812032, 211942592,";
"	212074432, 212204864, 212334016, 212467648, 212597824,";
"	212727616, 212860352, 212991424, 213120832, 213253952,";
"	213385024, 213515584, 213645632, 213777728, 213909184,";
"	214040128, 214170688, 214302656, 214433728, 214564544,";
"	214695232, 214826048, 214956992, 215089088, 215219776,";
"	215350592, 215482304, 215613248, 215743552, 215874752,";
"	216005312, 216137024, 216267328, 216399296, 216530752,";
"	216661696, 216790592, 216923968, 217054528, 217183168,";
"	217316672, 217448128, 217579072, 217709504, 217838912,";
"	217972672, 218102848, 218233024, 218364736, 218496832,";
"	218627776, 218759104, 218888896, 219021248, 219151936,";
"	219281728, 219413056, 219545024, 219675968, 219807296,";
"	219938624, 220069312, 220200128, 220331456, 220461632,";
"	220592704, 220725184, 220855744, 220987072, 221117888,";
"	221249216, 221378368, 221510336, 221642048, 221772736,";
"	221904832, 222031808, 222166976, 222297536, 222428992,";
"	222559936, 222690368, 222820672, 222953152, 223083968,";
"	223213376, 223345984, 223476928, 223608512, 223738688,";
"	223869376, 224001472, 224132672, 224262848, 224394944,";
"	224524864, 224657344, 224788288, 224919488, 225050432,";
"	225181504, 225312704, 225443776, 225574592, 225704768,";
"	225834176, 225966784, 226097216, 226229824, 226360384,";
"	226491712, 226623424, 226754368, 226885312, 227015104,";
"	227147456, 227278528, 227409472, 227539904, 227669696,";
"	227802944, 227932352, 228065216, 228196288, 228326464,";
"	228457792, 228588736, 228720064, 228850112, 228981056,";
"	229113152, 229243328, 229375936, 229505344, 229636928,";
"	229769152, 229894976, 230030272, 230162368, 230292416,";
"	230424512, 230553152, 230684864, 230816704, 230948416,";
"	231079616, 231210944, 231342016, 231472448, 231603776,";
"	231733952, 231866176, 231996736, 232127296, 232259392,";
"	232388672, 232521664, 232652608, 232782272, 232914496,";
"	233043904, 233175616, 233306816, 233438528, 233569984,";
"	233699776, 233830592, 233962688, 234092224, 234221888,";
"	234353984, 234485312, 234618304, 234749888, 234880832,";
"	235011776, 235142464, 235274048, 235403456, 235535936,";
"	235667392, 235797568, 235928768, 236057152, 236190272,";
"	236322752, 236453312, 236583616, 236715712, 236846528,";
"	236976448, 237108544, 237239104, 237371072, 237501632,";
"	237630784, 237764416, 237895232, 238026688, 238157632,";
"	238286912, 238419392, 238548032, 238681024, 238812608,";
"	238941632, 239075008, 239206336, 239335232, 239466944,";
"	239599168, 239730496, 239861312, 239992384, 240122816,";
"	240254656, 240385856, 240516928, 240647872, 240779072,";
"	240909632, 241040704, 241171904, 241302848, 241433408,";
"	241565248, 241696192, 241825984, 241958848, 242088256,";
"	242220224, 242352064, 242481856, 242611648, 242744896,";
"	242876224, 243005632, 243138496, 243268672, 243400384,";
"	243531712, 243662656, 243793856, 243924544, 244054592,";
"	244187072, 244316608, 244448704, 244580032, 244710976,";
"	244841536, 244972864, 245104448, 245233984, 245365312,";
"	245497792, 245628736, 245759936, 245889856, 246021056,";
"	246152512, 246284224, 246415168, 246545344, 246675904,";
"	246808384, 246939584, 247070144, 247199552, 247331648,";
"	247463872, 247593536, 247726016, 247857088, 247987648,";
"	248116928, 248249536, 248380736, 248512064, 248643008,";
"	248773312, 248901056, 249036608, 249167552, 249298624,";
"	249429184, 249560512, 249692096, 249822784, 249954112,";
"	250085312, 250215488, 250345792, 250478528, 250608704,";
"	250739264, 250870976, 251002816, 251133632, 251263552,";
"	251395136, 251523904, 251657792, 251789248, 251919424,";
"	252051392, 252182464, 252313408, 252444224, 252575552,";
"	252706624, 252836032, 252968512, 253099712, 253227584,";
"	253361728, 253493056, 253623488, 253754432, 253885504,";
"	254017216, 254148032, 254279488, 254410432, 254541376,";
"	254672576, 254803264, 254933824, 255065792, 255196736,";
"	255326528, 255458752, 255589952, 255721408, 255851072,";
"	255983296, 256114624, 256244416, 256374208, 256507712,";
"	256636096, 256768832, 256900544, 257031616, 257162176,";
"	257294272, 257424448, 257555776, 257686976, 257818432,";
"	257949632, 258079552, 258211136, 258342464, 258473408,";
"	258603712, 258734656, 258867008, 258996544, 259127744,";
"	259260224, 259391296, 259522112, 259651904, 259784384,";
"	259915328, 260045888, 260175424, 260308544, 260438336,";
"	260570944, 260700992, 260832448, 260963776, 261092672,";
"	261226304, 261356864, 261487936, 261619648, 261750592,";
"	261879872, 262011968, 262143424, 262274752, 262404416,";
"	262537024, 262667968, 262799296, 262928704, 263061184,";
"	263191744, 263322944, 263454656, 263585216, 263716672,";
"	263847872, 263978944, 264108608, 264241088, 264371648,";
"	264501184, 264632768, 264764096, 264895936, 265024576,";
"	265158464, 265287488, 265418432, 265550528, 265681216,";
"	265813312, 265943488, 266075968, 266206144, 266337728,";
"	266468032, 266600384, 266731072, 266862272, 266993344,";
"	267124288, 267255616, 267386432, 267516992, 267648704,";
"	267777728, 267910592, 268040512, 268172096, 268302784,";
"	268435264, 268566208, 268696256, 268828096, 268959296,";
"	269090368, 269221312, 269352256, 269482688, 269614784,";
"	269745856, 269876416, 270007616, 270139328, 270270272,";
"	270401216, 270531904, 270663616, 270791744, 270924736,";
"	271056832, 271186112, 271317184, 271449536, 271580992,";
"	271711936, 271843136, 271973056, 272105408, 272236352,";
"	272367296, 272498368, 272629568, 272759488, 272891456,";
"	273022784, 273153856, 273284672, 273415616, 273547072,";
"	273677632, 273808448, 273937088, 274071488, 274200896,";
"	274332992, 274463296, 274595392, 274726208, 274857536,";
"	274988992, 275118656, 275250496, 275382208, 275513024,";
"	275643968, 275775296, 275906368, 276037184, 276167872,";
"	276297664, 276429376, 276560576, 276692672, 276822976,";
"	276955072, 277085632, 277216832, 277347008, 277478848,";
"	277609664, 277740992, 277868608, 278002624, 278134336,";
"	278265536, 278395328, 278526784, 278657728, 278789824,";
"	278921152, 279052096, 279182912, 279313088, 279443776,";
"	279576256, 279706048, 279838528, 279969728, 280099648,";
"	280230976, 280361408, 280493632, 280622528, 280755392,";
"	280887104, 281018176, 281147968, 281278912, 281411392,";
"	281542592, 281673152, 281803712, 281935552, 282066496,";
"	282197312, 282329024, 282458816, 282590272, 282720832,";
"	282853184, 282983744, 283115072, 283246144, 283377344,";
"	283508416, 283639744, 283770304, 283901504, 284032576,";
"	284163136, 284294848, 284426176, 284556992, 284687296,";
"}";
"";
"var datasetSizes = []uint64{";
"	1610610304, 1619000192, 1627386752, 1635773824, 1644164224,";
"	1652555648, 1660943488, 1669332608, 1677721216, 1686109312,";
"	1694497664, 1702886272, 1711274624, 1719661184, 1728047744,";
"	1736434816, 1744829056, 1753218944, 1761606272, 1769995904,";
"	1778382464, 1786772864, 1795157888, 1803550592, 1811937664,";
"	1820327552, 1828711552, 1837102976, 1845488768, 1853879936,";
"	1862269312, 1870656896, 1879048064, 1887431552, 1895825024,";
"	1904212096, 1912601216, 1920988544, 1929379456, 1937765504,";
"	1946156672, 1954543232, 1962932096, 1971321728, 1979707264,";
"	1988093056, 1996487552, 2004874624, 2013262208, 2021653888,";
"	2030039936, 2038430848, 2046819968, 2055208576, 2063596672,";
"	2071981952, 2080373632, 2088762752, 2097149056, 2105539712,";
"	2113928576, 2122315136, 2130700672, 2139092608, 2147483264,";
"	2155872128, 2164257664, 2172642176, 2181035392, 2189426048,";
"	2197814912, 2206203008, 2214587264, 2222979712, 2231367808,";
"	2239758208, 2248145024, 2256527744, 2264922752, 2273312128,";
"	2281701248, 2290086272, 2298476672, 2306867072, 2315251072,";
"	2323639168, 2332032128, 2340420224, 2348808064, 2357196416,";
"	2365580416, 2373966976, 2382363008, 2390748544, 2399139968,";
"	2407530368, 2415918976, 2424307328, 2432695424, 2441084288,";
"	2449472384, 2457861248, 2466247808, 2474637184, 2483026816,";
"	2491414144, 2499803776, 2508191872, 2516582272, 2524970368,";
"	2533359232, 2541743488, 2550134144, 2558525056, 2566913408,";
"	2575301504, 2583686528, 2592073856, 2600467328, 2608856192,";
"	2617240448, 2625631616, 2634022016, 2642407552, 2650796416,";
"	2659188352, 2667574912, 2675965312, 2684352896, 2692738688,";
"	2701130624, 2709518464, 2717907328, 2726293376, 2734685056,";
"	2743073152, 2751462016, 2759851648, 2768232832, 2776625536,";
"	2785017728, 2793401984, 2801794432, 2810182016, 2818571648,";
"	2826959488, 2835349376, 2843734144, 2852121472, 2860514432,";
"	2868900992, 2877286784, 2885676928, 2894069632, 2902451584,";
"	2910843008, 2919234688, 2927622784, 2936011648, 2944400768,";
"	2952789376, 2961177728, 2969565568, 2977951616, 2986338944,";
"	2994731392, 3003120256, 3011508352, 3019895936, 3028287104,";
"	3036675968, 3045063808, 3053452928, 3061837696, 3070228352,";
"	3078615424, 3087003776, 3095394944, 3103782272, 3112173184,";
"	3120562048, 3128944768, 3137339264, 3145725056, 3154109312,";
"	3162505088, 3170893184, 3179280256, 3187669376, 3196056704,";
"	3204445568, 3212836736, 3221224064, 3229612928, 3238002304,";
"	3246391168, 3254778496, 3263165824, 3271556224, 3279944576,";
"	3288332416, 3296719232, 3305110912, 3313500032, 3321887104,";
"	3330273152, 3338658944, 3347053184, 3355440512, 3363827072,";
"	3372220288, 3380608384, 3388997504, 3397384576, 3405774208,";
"	3414163072, 3422551936, 3430937984, 3439328384, 3447714176,";
"	3456104576, 3464493952, 3472883584, 3481268864, 3489655168,";
"	3498048896, 3506434432, 3514826368, 3523213952, 3531603584,";
"	3539987072, 3548380288, 3556763264, 3565157248, 3573545344,";
"	3581934464, 3590324096, 3598712704, 3607098752, 3615488384,";
"	3623877248, 3632265856, 3640646528, 3649043584, 3657430144,";
"	3665821568, 3674207872, 3682597504, 3690984832, 3699367808,";
"	3707764352, 3716152448, 3724541056, 3732925568, 3741318016,";
"	3749706368, 3758091136, 3766481536, 3774872704, 3783260032,";
"	3791650432, 3800036224, 3808427648, 3816815488, 3825204608,";
"	3833592704, 3841981568, 3850370432, 3858755968, 3867147904,";
"	3875536256, 3883920512, 3892313728, 3900702592, 3909087872,";
"	3917478784, 3925868416, 3934256512, 3942645376, 3951032192,";
"	3959422336, 3967809152, 3976200064, 3984588416, 3992974976,";
"	4001363584, 4009751168, 4018141312, 4026530432, 4034911616,";
"	4043308928, 4051695488, 4060084352, 4068472448, 4076862848,";
"	4085249408, 4093640576, 4102028416, 4110413696, 4118805632,";
"	4127194496, 4135583104, 4143971968, 4152360832, 4160746112,";
"	4169135744, 4177525888, 4185912704, 4194303616, 4202691968,";
"	4211076736, 4219463552, 4227855488, 4236246656, 4244633728,";
"	4253022848, 4261412224, 4269799808, 4278184832, 4286578048,";
"	4294962304, 4303349632, 4311743104, 4320130432, 4328521088,";
"	4336909184, 4345295488, 4353687424, 4362073472, 4370458496,";
"	4378852736, 4387238528, 4395630208, 4404019072, 4412407424,";
"	4420790656, 4429182848, 4437571456, 4445962112, 4454344064,";
"	4462738048, 4471119232, 4479516544, 4487904128, 4496289664,";
"	4504682368, 4513068416, 4521459584, 4529846144, 4538232704,";
"	4546619776, 4555010176, 4563402112, 4571790208, 4580174464,";
"	4588567936, 4596957056, 4605344896, 4613734016, 4622119808,";
"	4630511488, 4638898816, 4647287936, 4655675264, 4664065664,";
"	4672451968, 4680842624, 4689231488, 4697620352, 4706007424,";
"	4714397056, 4722786176, 4731173248, 4739562368, 4747951744,";
"	4756340608, 4764727936, 4773114496, 4781504384, 4789894784,";
"	4798283648, 4806667648, 4815059584, 4823449472, 4831835776,";
"	4840226176, 4848612224, 4857003392, 4865391488, 4873780096,";
"	4882169728, 4890557312, 4898946944, 4907333248, 4915722368,";
"	4924110976, 4932499328, 4940889728, 4949276032, 4957666432,";
"	4966054784, 4974438016, 4982831488, 4991221376, 4999607168,";
"	5007998848, 5016386432, 5024763776, 5033164672, 5041544576,";
"	5049941888, 5058329728, 5066717056, 5075107456, 5083494272,";
"	5091883904, 5100273536, 5108662144, 5117048192, 5125436032,";
"	5133827456, 5142215296, 5150605184, 5158993024, 5167382144,";
"	5175769472, 5184157568, 5192543872, 5200936064, 5209324928,";
"	5217711232, 5226102656, 5234490496, 5242877312, 5251263872,";
"	5259654016, 5268040832, 5276434304, 5284819328, 5293209728,";
"	5301598592, 5309986688, 5318374784, 5326764416, 5335151488,";
"	5343542144, 5351929472, 5360319872, 5368706944, 5377096576,";
"	5385484928, 5393871232, 5402263424, 5410650496, 5419040384,";
"	5427426944, 5435816576, 5444205952, 5452594816, 5460981376,";
"	5469367936, 5477760896, 5486148736, 5494536832, 5502925952,";
"	5511315328, 5519703424, 5528089984, 5536481152, 5544869504,";
"	5553256064, 5561645696, 5570032768, 5578423936, 5586811264,";
"	5595193216, 5603585408, 5611972736, 5620366208, 5628750464,";
"	5637143936, 5645528192, 5653921408, 5662310272, 5670694784,";
"	5679082624, 5687474048, 5695864448, 5704251008, 5712641408,";
"	5721030272, 5729416832, 5737806208, 5746194304, 5754583936,";
"	5762969984, 5771358592, 5779748224, 5788137856, 5796527488,";
"	5804911232, 5813300608, 5821692544, 5830082176, 5838468992,";
"	5846855552, 5855247488, 5863636096, 5872024448, 5880411008,";
"	5888799872, 5897186432, 5905576832, 5913966976, 5922352768,";
"	5930744704, 5939132288, 5947522432, 5955911296, 5964299392,";
"	5972688256, 5981074304, 5989465472, 5997851008, 6006241408,";
"	6014627968, 6023015552, 6031408256, 6039796096, 6048185216,";
"	6056574848, 6064963456, 6073351808, 6081736064, 6090128768,";
"	6098517632, 6106906496, 6115289216, 6123680896, 6132070016,";
"	6140459648, 6148849024, 6157237376, 6165624704, 6174009728,";
"	6182403712, 6190792064, 6199176064, 6207569792, 6215952256,";
"	6224345216, 6232732544, 6241124224, 6249510272, 6257899136,";
"	6266287744, 6274676864, 6283065728, 6291454336, 6299843456,";
"	6308232064, 6316620928, 6325006208, 6333395584, 6341784704,";
"	6350174848, 6358562176, 6366951296, 6375337856, 6383729536,";
"	6392119168, 6400504192, 6408895616, 6417283456, 6425673344,";
"	6434059136, 6442444672, 6450837376, 6459223424, 6467613056,";
"	6476004224, 6484393088, 6492781952, 6501170048, 6509555072,";
"	6517947008, 6526336384, 6534725504, 6543112832, 6551500672,";
"	6559888768, 6568278656, 6576662912, 6585055616, 6593443456,";
"	6601834112, 6610219648, 6618610304, 6626999168, 6635385472,";
"	6643777408, 6652164224, 6660552832, 6668941952, 6677330048,";
"	6685719424, 6694107776, 6702493568, 6710882176, 6719274112,";
"	6727662976, 6736052096, 6744437632, 6752825984, 6761213824,";
"	6769604224, 6777993856, 6786383488, 6794770816, 6803158144,";
"	6811549312, 6819937664, 6828326528, 6836706176, 6845101696,";
"	6853491328, 6861880448, 6870269312, 6878655104, 6887046272,";
"	6895433344, 6903822208, 6912212864, 6920596864, 6928988288,";
"	6937377152, 6945764992, 6954149248, 6962544256, 6970928768,";
"	6979317376, 6987709312, 6996093824, 7004487296, 7012875392,";
"	7021258624, 7029652352, 7038038912, 7046427776, 7054818944,";
"	7063207808, 7071595136, 7079980928, 7088372608, 7096759424,";
"	7105149824, 7113536896, 7121928064, 7130315392, 7138699648,";
"	7147092352, 7155479168, 7163865728, 7172249984, 7180648064,";
"	7189036672, 7197424768, 7205810816, 7214196608, 7222589824,";
"	7230975104, 7239367552, 7247755904, 7256145536, 7264533376,";
"	7272921472, 7281308032, 7289694848, 7298088832, 7306471808,";
"	7314864512, 7323253888, 7331643008, 7340029568, 7348419712,";
"	7356808832, 7365196672, 7373585792, 7381973888, 7390362752,";
"	7398750592, 7407138944, 7415528576, 7423915648, 7432302208,";
"	7440690304, 7449080192, 7457472128, 7465860992, 7474249088,";
"	7482635648, 7491023744, 7499412608, 7507803008, 7516192384,";
"	7524579968, 7532967296, 7541358464, 7549745792, 7558134656,";
"	7566524032, 7574912896, 7583300992, 7591690112, 7600075136,";
"	7608466816, 7616854912, 7625244544, 7633629824, 7642020992,";
"	7650410368, 7658794112, 7667187328, 7675574912, 7683961984,";
"	7692349568, 7700739712, 7709130368, 7717519232, 7725905536,";
"	7734295424, 7742683264, 7751069056, 7759457408, 7767849088,";
"	7776238208, 7784626816, 7793014912, 7801405312, 7809792128,";
"	7818179968, 7826571136, 7834957184, 7843347328, 7851732352,";
"	7860124544, 7868512384, 7876902016, 7885287808, 7893679744,";
"	7902067072, 7910455936, 7918844288, 7927230848, 7935622784,";
"	7944009344, 7952400256, 7960786048, 7969176704, 7977565312,";
"	7985953408, 7994339968, 8002730368, 8011119488, 8019508096,";
"	8027896192, 8036285056, 8044674688, 8053062272, 8061448832,";
"	8069838464, 8078227328, 8086616704, 8095006592, 8103393664,";
"	8111783552, 8120171392, 8128560256, 8136949376, 8145336704,";
"	8153726848, 8162114944, 8170503296, 8178891904, 8187280768,";
"	8195669632, 8204058496, 8212444544, 8220834176, 8229222272,";
"	8237612672, 8246000768, 8254389376, 8262775168, 8271167104,";
"	8279553664, 8287944064, 8296333184, 8304715136, 8313108352,";
"	8321497984, 8329885568, 8338274432, 8346663296, 8355052928,";
"	8363441536, 8371828352, 8380217984, 8388606592, 8396996224,";
"	8405384576, 8413772672, 8422161536, 8430549376, 8438939008,";
"	8447326592, 8455715456, 8464104832, 8472492928, 8480882048,";
"	8489270656, 8497659776, 8506045312, 8514434944, 8522823808,";
"	8531208832, 8539602304, 8547990656, 8556378752, 8564768384,";
"	8573154176, 8581542784, 8589933952, 8598322816, 8606705024,";
"	8615099264, 8623487872, 8631876992, 8640264064, 8648653952,";
"	8657040256, 8665430656, 8673820544, 8682209152, 8690592128,";
"	8698977152, 8707374464, 8715763328, 8724151424, 8732540032,";
"	8740928384, 8749315712, 8757704576, 8766089344, 8774480768,";
"	8782871936, 8791260032, 8799645824, 8808034432, 8816426368,";
"	8824812928, 8833199488, 8841591424, 8849976448, 8858366336,";
"	8866757248, 8875147136, 8883532928, 8891923328, 8900306816,";
"	8908700288, 8917088384, 8925478784, 8933867392, 8942250368,";
"	8950644608, 8959032704, 8967420544, 8975809664, 8984197504,";
"	8992584064, 9000976256, 9009362048, 9017752448, 9026141312,";
"	9034530688, 9042917504, 9051307904, 9059694208, 9068084864,";
"	9076471424, 9084861824, 9093250688, 9101638528, 9110027648,";
"	9118416512, 9126803584, 9135188096, 9143581312, 9151969664,";
"	9160356224, 9168747136, 9177134464, 9185525632, 9193910144,";
"	9202302848, 9210690688, 9219079552, 9227465344, 9235854464,";
"	9244244864, 9252633472, 9261021824, 9269411456, 9277799296,";
"	9286188928, 9294574208, 9302965888, 9311351936, 9319740032,";
"	9328131968, 9336516736, 9344907392, 9353296768, 9361685888,";
"	9370074752, 9378463616, 9386849408, 9395239808, 9403629184,";
"	9412016512, 9420405376, 9428795008, 9437181568, 9445570688,";
"	9453960832, 9462346624, 9470738048, 9479121536, 9487515008,";
"	9495903616, 9504289664, 9512678528, 9521067904, 9529456256,";
"	9537843584, 9546233728, 9554621312, 9563011456, 9571398784,";
"	9579788672, 9588178304, 9596567168, 9604954496, 9613343104,";
"	9621732992, 9630121856, 9638508416, 9646898816, 9655283584,";
"	9663675776, 9672061312, 9680449664, 9688840064, 9697230464,";
"	9705617536, 9714003584, 9722393984, 9730772608, 9739172224,";
"	9747561088, 9755945344, 9764338816, 9772726144, 9781116544,";
"	9789503872, 9797892992, 9806282624, 9814670464, 9823056512,";
"	9831439232, 9839833984, 9848224384, 9856613504, 9865000576,";
"	9873391232, 9881772416, 9890162816, 9898556288, 9906940544,";
"	9915333248, 9923721088, 9932108672, 9940496512, 9948888448,";
"	9957276544, 9965666176, 9974048384, 9982441088, 9990830464,";
"	9999219584, 10007602816, 10015996544, 10024385152, 10032774016,";
"	10041163648, 10049548928, 10057940096, 10066329472, 10074717824,";
"	10083105152, 10091495296, 10099878784, 10108272256, 10116660608,";
"	10125049216, 10133437312, 10141825664, 10150213504, 10158601088,";
"	10166991232, 10175378816, 10183766144, 10192157312, 10200545408,";
"	10208935552, 10217322112, 10225712768, 10234099328, 10242489472,";
"	10250876032, 10259264896, 10267656064, 10276042624, 10284429184,";
"	10292820352, 10301209472, 10309598848, 10317987712, 10326375296,";
"	10334763392, 10343153536, 10351541632, 10359930752, 10368318592,";
"	10376707456, 10385096576, 10393484672, 10401867136, 10410262144,";
"	10418647424, 10427039104, 10435425664, 10443810176, 10452203648,";
"	10460589952, 10468982144, 10477369472, 10485759104, 10494147712,";
"	10502533504, 10510923392, 10519313536, 10527702656, 10536091264,";
"	10544478592, 10552867712, 10561255808, 10569642368, 10578032768,";
"	10586423168, 10594805632, 10603200128, 10611588992, 10619976064,";
"	10628361344, 10636754048, 10645143424, 10653531776, 10661920384,";
"	10670307968, 10678696832, 10687086464, 10695475072, 10703863168,";
"	10712246144, 10720639616, 10729026688, 10737414784, 10745806208,";
"	10754190976, 10762581376, 10770971264, 10779356288, 10787747456,";
"	10796135552, 10804525184, 10812915584, 10821301888, 10829692288,";
"	10838078336, 10846469248, 10854858368, 10863247232, 10871631488,";
"	10880023424, 10888412032, 10896799616, 10905188992, 10913574016,";
"	10921964672, 10930352768, 10938742912, 10947132544, 10955518592,";
"	10963909504, 10972298368, 10980687488, 10989074816, 10997462912,";
"	11005851776, 11014241152, 11022627712, 11031017344, 11039403904,";
"	11047793024, 11056184704, 11064570752, 11072960896, 11081343872,";
"	11089737856, 11098128256, 11106514816, 11114904448, 11123293568,";
"	11131680128, 11140065152, 11148458368, 11156845696, 11165236864,";
"	11173624192, 11182013824, 11190402688, 11198790784, 11207179136,";
"	11215568768, 11223957376, 11232345728, 11240734592, 11249122688,";
"	11257511296, 11265899648, 11274285952, 11282675584, 11291065472,";
"	11299452544, 11307842432, 11316231296, 11324616832, 11333009024,";
"	11341395584, 11349782656, 11358172288, 11366560384, 11374950016,";
"	11383339648, 11391721856, 11400117376, 11408504192, 11416893568,";
"	11425283456, 11433671552, 11442061184, 11450444672, 11458837888,";
"	11467226752, 11475611776, 11484003968, 11492392064, 11500780672,";
"	11509169024, 11517550976, 11525944448, 11534335616, 11542724224,";
"	11551111808, 11559500672, 11567890304, 11576277376, 11584667008,";
"	11593056128, 11601443456, 11609830016, 11618221952, 11626607488,";
"	11634995072, 11643387776, 11651775104, 11660161664, 11668552576,";
"	11676940928, 11685330304, 11693718656, 11702106496, 11710496128,";
"	11718882688, 11727273088, 11735660416, 11744050048, 11752437376,";
"	11760824704, 11769216128, 11777604736, 11785991296, 11794381952,";
"	11802770048, 11811157888, 11819548544, 11827932544, 11836324736,";
"	11844713344, 11853100928, 11861486464, 11869879936, 11878268032,";
"	11886656896, 11895044992, 11903433088, 11911822976, 11920210816,";
"	11928600448, 11936987264, 11945375872, 11953761152, 11962151296,";
"	11970543488, 11978928512, 11987320448, 11995708288, 12004095104,";
"	12012486272, 12020875136, 12029255552, 12037652096, 12046039168,";
"	12054429568, 12062813824, 12071206528, 12079594624, 12087983744,";
"	12096371072, 12104759936, 12113147264, 12121534592, 12129924992,";
"	12138314624, 12146703232, 12155091584, 12163481216, 12171864704,";
"	12180255872, 12188643968, 12197034112, 12205424512, 12213811328,";
"	12222199424, 12230590336, 12238977664, 12247365248, 12255755392,";
"	12264143488, 12272531584, 12280920448, 12289309568, 12297694592,";
"	12306086528, 12314475392, 12322865024, 12331253632, 12339640448,";
"	12348029312, 12356418944, 12364805248, 12373196672, 12381580928,";
"	12389969024, 12398357632, 12406750592, 12415138432, 12423527552,";
"	12431916416, 12440304512, 12448692352, 12457081216, 12465467776,";
"	12473859968, 12482245504, 12490636672, 12499025536, 12507411584,";
"	12515801728, 12524190592, 12532577152, 12540966272, 12549354368,";
"	12557743232, 12566129536, 12574523264, 12582911872, 12591299456,";
"	12599688064, 12608074624, 12616463488, 12624845696, 12633239936,";
"	12641631616, 12650019968, 12658407296, 12666795136, 12675183232,";
"	12683574656, 12691960192, 12700350592, 12708740224, 12717128576,";
"	12725515904, 12733906816, 12742295168, 12750680192, 12759071872,";
"	12767460736, 12775848832, 12784236928, 12792626816, 12801014656,";
"	12809404288, 12817789312, 12826181504, 12834568832, 12842954624,";
"	12851345792, 12859732352, 12868122496, 12876512128, 12884901248,";
"	12893289088, 12901672832, 12910067584, 12918455168, 12926842496,";
"	12935232896, 12943620736, 12952009856, 12960396928, 12968786816,";
"	12977176192, 12985563776, 12993951104, 13002341504, 13010730368,";
"	13019115392, 13027506304, 13035895168, 13044272512, 13052673152,";
"	13061062528, 13069446272, 13077838976, 13086227072, 13094613632,";
"	13103000192, 13111393664, 13119782528, 13128157568, 13136559232,";
"	13144945024, 13153329536, 13161724288, 13170111872, 13178502784,";
"	13186884736, 13195279744, 13203667072, 13212057472, 13220445824,";
"	13228832128, 13237221248, 13245610624, 13254000512, 13262388352,";
"	13270777472, 13279166336, 13287553408, 13295943296, 13304331904,";
"	13312719488, 13321108096, 13329494656, 13337885824, 13346274944,";
"	13354663808, 13363051136, 13371439232, 13379825024, 13388210816,";
"	13396605056, 13404995456, 13413380224, 13421771392, 13430159744,";
"	13438546048, 13446937216, 13455326848, 13463708288, 13472103808,";
"	13480492672, 13488875648, 13497269888, 13505657728, 13514045312,";
"	13522435712, 13530824576, 13539210112, 13547599232, 13555989376,";
"	13564379008, 13572766336, 13581154432, 13589544832, 13597932928,";
"	13606320512, 13614710656, 13623097472, 13631477632, 13639874944,";
"	13648264064, 13656652928, 13665041792, 13673430656, 13681818496,";
"	13690207616, 13698595712, 13706982272, 13715373184, 13723762048,";
"	13732150144, 13740536704, 13748926592, 13757316224, 13765700992,";
"	13774090112, 13782477952, 13790869376, 13799259008, 13807647872,";
"	13816036736, 13824425344, 13832814208, 13841202304, 13849591424,";
"	13857978752, 13866368896, 13874754688, 13883145344, 13891533184,";
"	13899919232, 13908311168, 13916692096, 13925085056, 13933473152,";
"	13941866368, 13950253696, 13958643584, 13967032192, 13975417216,";
"	13983807616, 13992197504, 14000582272, 14008973696, 14017363072,";
"	14025752192, 14034137984, 14042528384, 14050918016, 14059301504,";
"	14067691648, 14076083584, 14084470144, 14092852352, 14101249664,";
"	14109635968, 14118024832, 14126407552, 14134804352, 14143188608,";
"	14151577984, 14159968384, 14168357248, 14176741504, 14185127296,";
"	14193521024, 14201911424, 14210301824, 14218685056, 14227067264,";
"	14235467392, 14243855488, 14252243072, 14260630144, 14269021568,";
"	14277409408, 14285799296, 14294187904, 14302571392, 14310961792,";
"	14319353728, 14327738752, 14336130944, 14344518784, 14352906368,";
"	14361296512, 14369685376, 14378071424, 14386462592, 14394848128,";
"	14403230848, 14411627392, 14420013952, 14428402304, 14436793472,";
"	14445181568, 14453569664, 14461959808, 14470347904, 14478737024,";
"	14487122816, 14495511424, 14503901824, 14512291712, 14520677504,";
"	14529064832, 14537456768, 14545845632, 14554234496, 14562618496,";
"	14571011456, 14579398784, 14587789184, 14596172672, 14604564608,";
"	14612953984, 14621341312, 14629724288, 14638120832, 14646503296,";
"	14654897536, 14663284864, 14671675264, 14680061056, 14688447616,";
"	14696835968, 14705228416, 14713616768, 14722003328, 14730392192,";
"	14738784128, 14747172736, 14755561088, 14763947648, 14772336512,";
"	14780725376, 14789110144, 14797499776, 14805892736, 14814276992,";
"	14822670208, 14831056256, 14839444352, 14847836032, 14856222848,";
"	14864612992, 14872997504, 14881388672, 14889775744, 14898165376,";
"	14906553472, 14914944896, 14923329664, 14931721856, 14940109696,";
"	14948497024, 14956887424, 14965276544, 14973663616, 14982053248,";
"	14990439808, 14998830976, 15007216768, 15015605888, 15023995264,";
"	15032385152, 15040768384, 15049154944, 15057549184, 15065939072,";
"	15074328448, 15082715008, 15091104128, 15099493504, 15107879296,";
"	15116269184, 15124659584, 15133042304, 15141431936, 15149824384,";
"	15158214272, 15166602368, 15174991232, 15183378304, 15191760512,";
"	15200154496, 15208542592, 15216931712, 15225323392, 15233708416,";
"	15242098048, 15250489216, 15258875264, 15267265408, 15275654528,";
"	15284043136, 15292431488, 15300819584, 15309208192, 15317596544,";
"	15325986176, 15334374784, 15342763648, 15351151744, 15359540608,";
"	15367929728, 15376318336, 15384706432, 15393092992, 15401481856,";
"	15409869952, 15418258816, 15426649984, 15435037568, 15443425664,";
"	15451815296, 15460203392, 15468589184, 15476979328, 15485369216,";
"	15493755776, 15502146944, 15510534272, 15518924416, 15527311232,";
"	15535699072, 15544089472, 15552478336, 15560866688, 15569254528,";
"	15577642624, 15586031488, 15594419072, 15602809472, 15611199104,";
"	15619586432, 15627975296, 15636364928, 15644753792, 15653141888,";
"	15661529216, 15669918848, 15678305152, 15686696576, 15695083136,";
"	15703474048, 15711861632, 15720251264, 15728636288, 15737027456,";
"	15745417088, 15753804928, 15762194048, 15770582656, 15778971008,";
"	15787358336, 15795747712, 15804132224, 15812523392, 15820909696,";
"	15829300096, 15837691264, 15846071936, 15854466944, 15862855808,";
"	15871244672, 15879634816, 15888020608, 15896409728, 15904799104,";
"	15913185152, 15921577088, 15929966464, 15938354816, 15946743424,";
"	15955129472, 15963519872, 15971907968, 15980296064, 15988684928,";
"	15997073024, 16005460864, 16013851264, 16022241152, 16030629248,";
"	16039012736, 16047406976, 16055794816, 16064181376, 16072571264,";
"	16080957824, 16089346688, 16097737856, 16106125184, 16114514816,";
"	16122904192, 16131292544, 16139678848, 16148066944, 16156453504,";
"	16164839552, 16173236096, 16181623424, 16190012032, 16198401152,";
"	16206790528, 16215177344, 16223567744, 16231956352, 16240344704,";
"	16248731008, 16257117824, 16265504384, 16273898624, 16282281856,";
"	16290668672, 16299064192, 16307449216, 16315842176, 16324230016,";
"	16332613504, 16341006464, 16349394304, 16357783168, 16366172288,";
"	16374561664, 16382951296, 16391337856, 16399726208, 16408116352,";
"	16416505472, 16424892032, 16433282176, 16441668224, 16450058624,";
"	16458448768, 16466836864, 16475224448, 16483613056, 16492001408,";
"	16500391808, 16508779648, 16517166976, 16525555328, 16533944192,";
"	16542330752, 16550719616, 16559110528, 16567497088, 16575888512,";
"	16584274816, 16592665472, 16601051008, 16609442944, 16617832064,";
"	16626218624, 16634607488, 16642996096, 16651385728, 16659773824,";
"	16668163712, 16676552576, 16684938112, 16693328768, 16701718144,";
"	16710095488, 16718492288, 16726883968, 16735272832, 16743661184,";
"	16752049792, 16760436608, 16768827008, 16777214336, 16785599104,";
"	16793992832, 16802381696, 16810768768, 16819151744, 16827542656,";
"	16835934848, 16844323712, 16852711552, 16861101952, 16869489536,";
"	16877876864, 16886265728, 16894653056, 16903044736, 16911431296,";
"	16919821696, 16928207488, 16936592768, 16944987776, 16953375616,";
"	16961763968, 16970152832, 16978540928, 16986929536, 16995319168,";
"	17003704448, 17012096896, 17020481152, 17028870784, 17037262208,";
"	17045649536, 17054039936, 17062426496, 17070814336, 17079205504,";
"	17087592064, 17095978112, 17104369024, 17112759424, 17121147776,";
"	17129536384, 17137926016, 17146314368, 17154700928, 17163089792,";
"	17171480192, 17179864192, 17188256896, 17196644992, 17205033856,";
"	17213423488, 17221811072, 17230198912, 17238588032, 17246976896,";
"	17255360384, 17263754624, 17272143232, 17280530048, 17288918912,";
"	17297309312, 17305696384, 17314085504, 17322475136, 17330863744,";
"	17339252096, 17347640192, 17356026496, 17364413824, 17372796544,";
"	17381190016, 17389583488, 17397972608, 17406360704, 17414748544,";
"	17423135872, 17431527296, 17439915904, 17448303232, 17456691584,";
"	17465081728, 17473468288, 17481857408, 17490247552, 17498635904,";
"	17507022464, 17515409024, 17523801728, 17532189824, 17540577664,";
"	17548966016, 17557353344, 17565741184, 17574131584, 17582519168,";
"	17590907008, 17599296128, 17607687808, 17616076672, 17624455808,";
"	17632852352, 17641238656, 17649630848, 17658018944, 17666403968,";
"	17674794112, 17683178368, 17691573376, 17699962496, 17708350592,";
"	17716739968, 17725126528, 17733517184, 17741898112, 17750293888,";
"	17758673024, 17767070336, 17775458432, 17783848832, 17792236928,";
"	17800625536, 17809012352, 17817402752, 17825785984, 17834178944,";
"	17842563968, 17850955648, 17859344512, 17867732864, 17876119424,";
"	17884511872, 17892900224, 17901287296, 17909677696, 17918058112,";
"	17926451072, 17934843776, 17943230848, 17951609216, 17960008576,";
"	17968397696, 17976784256, 17985175424, 17993564032, 18001952128,";
"	18010339712, 18018728576, 18027116672, 18035503232, 18043894144,";
"	18052283264, 18060672128, 18069056384, 18077449856, 18085837184,";
"	18094225792, 18102613376, 18111004544, 18119388544, 18127781248,";
"	18136170368, 18144558976, 18152947328, 18161336192, 18169724288,";
"	18178108544, 18186498944, 18194886784, 18203275648, 18211666048,";
"	18220048768, 18228444544, 18236833408, 18245220736, 18253610624,";
"	18261994624, 18270387328, 18278774656, 18287163008, 18295551104,";
"	18303941504, 18312328064, 18320717696, 18329105792, 18337496192,";
"	18345881728, 18354269056, 18362660224, 18371050112, 18379435904,";
"	18387828352, 18396213632, 18404605568, 18412993408, 18421379456,";
"	18429770368, 18438154624, 18446543744, 18454937216, 18463325824,";
"	18471713408, 18480099712, 18488488576, 18496878464, 18505268864,";
"	18513653632, 18522045056, 18530431616, 18538823552, 18547211392,";
"	18555600512, 18563989376, 18572377216, 18580759424, 18589154432,";
"	18597543296, 18605931392, 18614320768, 18622708352, 18631096448,";
"	18639486848, 18647874688, 18656262784, 18664651648, 18673037696,";
"	18681429376, 18689814656, 18698201728, 18706594688, 18714980224,";
"	18723370112, 18731761024, 18740150144, 18748538752, 18756927104,";
"}"]%string.
Check (eq_refl true <: same_text (lines firopow_lookup_go) (go_file (txt "firopow") firopow_cacheSizes firopow_datasetSizes) = true).

(** octopus/octopus_lookup.go, all of it *)
Definition octopus_lookup_go : list string := [
"package octopus";
"";
"var cacheSizes = []uint64{";
"	16776896, 16842688, 16907456, 16973248, 17039296,";
"	17104576, 17170112, 17233984, 17301056, 17366848,";
"	17432512, 17495488, 17563072, 17628992, 17693888,";
"	17759936, 17824192, 17891264, 17955904, 18021184,";
"	18087488, 18152896, 18218176, 18283072, 18349504,";
"	18414784, 18481088, 18546496, 18611392, 18677312,";
"	18742336, 18807232, 18874304, 18938176, 19004224,";
"	19070144, 19135936, 19201472, 19267264, 19331392,";
"	19398208, 19464128, 19529408, 19594816, 19660096,";
"	19726016, 19791424, 19855552, 19922752, 19988032,";
"	20053952, 20118976, 20184896, 20249792, 20315968,";
"	20381248, 20446912, 20510912, 20576576, 20643776,";
"	20709184, 20773952, 20840384, 20904512, 20971072,";
"	21035968, 21102272, 21167936, 21233216, 21298624,";
"	21364544, 21429952, 21494848, 21560768, 21626816,";
"	21691328, 21757376, 21822656, 21887552, 21954368,";
"	22019392, 22084288, 22151104, 22216384, 22281536,";
"	22347712, 22412224, 22478656, 22543936, 22608832,";
"	22675264, 22740544, 22806464, 22870976, 22935872,";
"	23002816, 23068096, 23134016, 23198272, 23263808,";
"	23330752, 23396288, 23459008, 23527232, 23592512,";
"	23658304, 23723968, 23788736, 23854912, 23920448,";
"	23986112, 24051136, 24116672, 24182464, 24247616,";
"	24313792, 24378688, 24444736, 24509504, 24575168,";
"	24640832, 24707008, 24772544, 24837184, 24903488,";
"	24967616, 25034432, 25099328, 25165376, 25230272,";
"	25296704, 25361216, 25427392, 25492672, 25558592,";
"	25624384, 25690048, 25754816, 25820096, 25885504,";
"	25951936, 26017088, 26081728, 26148032, 26214208,";
"	26279872, 26345024, 26410688, 26476096, 26541376,";
"	26606656, 26672704, 26737472, 26804032, 26869184,";
"	26934976, 26998208, 27066304, 27131584, 27196096,";
"	27262528, 27328064, 27393728, 27458752, 27523904,";
"	27590336, 27655744, 27721664, 27786688, 27852224,";
"	27917888, 27983552, 28049344, 28114496, 28179904,";
"	28244416, 28311488, 28376896, 28441792, 28507712,";
"	28573504, 28638784, 28700864, 28766272, 28835648,";
"	28901056, 28966208, 29032384, 29096768, 29162176,";
"	29228608, 29293504, 29359808, 29424832, 29490752,";
"	29556416, 29621824, 29687488, 29752256, 29818688,";
"	29882816, 29949632, 30014912, 30079552, 30144448,";
"	30212032, 30273728, 30342464, 30406976, 30473152,";
"	30538432, 30605248, 30670784, 30733376, 30799936,";
"	30865984, 30932672, 30997696, 31063744, 31129408,";
"	31195072, 31260224, 31325248, 31391552, 31456192,";
"	31521472, 31588288, 31653824, 31719232, 31784384,";
"	31850432, 31915456, 31981504, 32046656, 32110784,";
"	32177984, 32243392, 32308544, 32372672, 32439872,";
"	32505664, 32570816, 32636608, 32700352, 32767808,";
"	32833088, 32897344, 32962624, 33029824, 33093824,";
"	33160768, 33226304, 33289664, 33356864, 33423296,";
"	33488704, 33554368, 33619136, 33683648, 33750592,";
"	33816512, 33881152, 33947456, 34008512, 34076992,";
"	34141376, 34208704, 34275008, 34340032, 34406336,";
"	34471744, 34537024, 34600256, 34668352, 34734016,";
"	34797632, 34864576, 34930624, 34993984, 35061184,";
"	35127104, 35192512, 35258176, 35323712, 35386688,";
"	35454784, 35518528, 35585728, 35650624, 35716288,";
"	35782336, 35847872, 35910976, 35978816, 36044608,";
"	36108608, 36175808, 36238912, 36305728, 36371392,";
"	36436672, 36502976, 36568384, 36633536, 36699968,";
"	36764096, 36830656, 36896576, 36961984, 37026368,";
"	37093312, 37158848, 37223488, 37289536, 37355072,";
"	37420736, 37486528, 37551424, 37617472, 37681856,";
"	37747904, 37813696, 37879232, 37944128, 38009792,";
"	38075584, 38141888, 38207168, 38272448, 38337472,";
"	38403392, 38469056, 38535104, 38600512, 38660672,";
"	38731328, 38795584, 38862016, 38925632, 38993728,";
"	39059264, 39124672, 39190336, 39255488, 39320768,";
"	39386432, 39452096, 39518144, 39581632, 39648704,";
"	39713984, 39778624, 39844928, 39909824, 39974848,";
"	40042432, 40107968, 40173376, 40238144, 40303808,";
"	40367168, 40434496, 40500032, 40565312, 40631744,";
"	40697152, 40762816, 40828096, 40894144, 40959808,";
"	41023552, 41088832, 41155904, 41221696, 41286208,";
"	41350592, 41418304, 41484224, 41547712, 41614528,";
"	41680448, 41746112, 41811904, 41876672, 41942848,";
"	42008128, 42073792, 42138688, 42204992, 42268736,";
"	42334912, 42401728, 42467008, 42532544, 42597824,";
"	42662848, 42729152, 42794944, 42860096, 42925504,";
"	42991552, 43057088, 43122368, 43188032, 43253696,";
"	43319104, 43382848, 43450048, 43515712, 43581376,";
"	43646912, 43712192, 43777088, 43843264, 43907648,";
"	43974464, 44039104, 44105024, 44170432, 44236736,";
"	44302144, 44366272, 44433344, 44498752, 44564288,";
"	44628928, 44694976, 44760512, 44825152, 44890816,";
"	44956864, 45022144, 45088448, 45154112, 45219008,";
"	45284672, 45350464, 45414976, 45481024, 45547456,";
"	45612608, 45675584, 45744064, 45808192, 45874496,";
"	45940288, 46006208, 46069696, 46136768, 46202176,";
"	46267712, 46333888, 46399424, 46464832, 46529344,";
"	46595008, 46660672, 46727104, 46791488, 46858048,";
"	46923328, 46989248, 47053504, 47119936, 47185856,";
"	47251264, 47316928, 47382464, 47447872, 47513152,";
"	47579072, 47643584, 47710144, 47774912, 47839936,";
"	47906624, 47971648, 48036544, 48103232, 48168896,";
"	48234176, 48297664, 48365248, 48430528, 48496192,";
"	48562112, 48627136, 48692032, 48757312, 48824128,";
"	48889664, 48953792, 49020736, 49085888, 49149248,";
"	49217216, 49283008, 49347136, 49413824, 49479488,";
"	49545152, 49610432, 49675712, 49741376, 49807168,";
"	49871936, 49938368, 50003776, 50069056, 50134976,";
"	50200256, 50264128, 50331584, 50396608, 50462656,";
"	50527552, 50593472, 50658752, 50724032, 50789824,";
"	50853952, 50921408, 50986048, 51052096, 51117632,";
"	51183424, 51248576, 51314624, 51379904, 51444416,";
"	51510848, 51576128, 51641792, 51707584, 51773248,";
"	51838912, 51903296, 51968704, 52035136, 52100416,";
"	52164032, 52231744, 52297664, 52363072, 52427968,";
"	52494272, 52557376, 52624576, 52690112, 52754368,";
"	52821952, 52887232, 52952896, 53018176, 53081536,";
"	53148736, 53213504, 53279936, 53344576, 53409728,";
"	53475776, 53540672, 53608384, 53672512, 53738816,";
"	53804992, 53870528, 53935808, 54000832, 54065728,";
"	54131776, 54197824, 54263744, 54329152, 54394688,";
"	54460352, 54525248, 54591296, 54655936, 54721984,";
"	54787904, 54853312, 54918592, 54983744, 55049152,";
"	55114688, 55181248, 55246784, 55312064, 55376704,";
"	55442752, 55508416, 55574336, 55639744, 55705024,";
"	55769152, 55836224, 55902016, 55967168, 56033216,";
"	56097856, 56164288, 56228672, 56294848, 56358592,";
"	56426432, 56490176, 56556992, 56621888, 56687168,";
"	56753728, 56816576, 56884928, 56949056, 57015488,";
"	57081536, 57146816, 57212096, 57278272, 57343168,";
"	57409216, 57474112, 57540416, 57605824, 57671104,";
"	57737024, 57802432, 57867584, 57933632, 57998912,";
"	58064576, 58130368, 58195264, 58259648, 58326976,";
"	58391488, 58457408, 58523456, 58588864, 58654528,";
"	58720192, 58783808, 58849984, 58915904, 58981696,";
"	59047616, 59113024, 59178304, 59243456, 59309248,";
"	59375552, 59436992, 59506624, 59569856, 59637568,";
"	59703232, 59768512, 59834176, 59897792, 59964992,";
"	60030016, 60096448, 60161984, 60226624, 60293056,";
"	60358208, 60423872, 60489664, 60554432, 60620608,";
"	60683968, 60751552, 60817216, 60882112, 60948032,";
"	61013824, 61079488, 61145024, 61209664, 61275712,";
"	61341376, 61406656, 61471936, 61537984, 61602752,";
"	61669184, 61733696, 61799872, 61865792, 61930688,";
"	61996736, 62062144, 62127808, 62193088, 62259136,";
"	62324672, 62389568, 62455616, 62520512, 62585408,";
"	62651584, 62716736, 62781632, 62846912, 62910784,";
"	62979776, 63045056, 63110464, 63176128, 63242048,";
"	63307072, 63371584, 63438656, 63503936, 63569216,";
"	63635392, 63700928, 63765056, 63831616, 63897536,";
"	63960896, 64027456, 64093888, 64159552, 64225088,";
"	64290368, 64355392, 64421696, 64486976, 64551488,";
"	64617664, 64683968, 64748608, 64814912, 64879424,";
"	64945856, 65009216, 65074496, 65142464, 65208256,";
"	65273792, 65338432, 65402816, 65469632, 65535424,";
"	65601344, 65666752, 65732288, 65797696, 65863232,";
"	65927744, 65994304, 66060224, 66124096, 66191296,";
"	66256832, 66321344, 66387392, 66453056, 66518464,";
"	66584384, 66647872, 66715328, 66780992, 66846656,";
"	66911552, 66977728, 67043264, 67108672, 67174336,";
"	67239104, 67305152, 67370432, 67436224, 67501888,";
"	67567424, 67631296, 67697984, 67763776, 67829312,";
"	67895104, 67960384, 68026304, 68091328, 68157248,";
"	68222656, 68287936, 68353216, 68419264, 68484032,";
"	68548288, 68614592, 68681408, 68746688, 68811968,";
"	68877632, 68942912, 69007808, 69074624, 69139904,";
"	69205568, 69270464, 69337024, 69401792, 69467584,";
"	69533504, 69599168, 69663296, 69729472, 69795392,";
"	69861184, 69926464, 69989824, 70056512, 70122944,";
"	70188992, 70253888, 70319168, 70385344, 70451008,";
"	70515904, 70582208, 70647232, 70712896, 70778816,";
"	70844096, 70907968, 70973888, 71040832, 71105984,";
"	71171648, 71237312, 71303104, 71368384, 71432512,";
"	71499328, 71564992, 71630528, 71695168, 71760704,";
"	71826368, 71892928, 71958464, 72023104, 72089536,";
"	72154304, 72219712, 72285376, 72350144, 72416576,";
"	72482624, 72547264, 72613568, 72679232, 72744512,";
"	72810176, 72875584, 72939968, 73006144, 73072448,";
"	73138112, 73203392, 73268672, 73334336, 73400128,";
"	73465792, 73530944, 73596352, 73662272, 73727936,";
"	73793344, 73859008, 73924544, 73989568, 74055104,";
"	74120896, 74185792, 74251456, 74316992, 74382656,";
"	74448832, 74514368, 74579392, 74645056, 74710976,";
"	74775104, 74841664, 74905408, 74972864, 75037888,";
"	75102784, 75169216, 75233344, 75299648, 75364544,";
"	75431872, 75497024, 75562304, 75627584, 75692992,";
"	75759296, 75825088, 75890624, 75956032, 76021696,";
"	76086848, 76152256, 76218304, 76283072, 76348864,";
"	76414144, 76479808, 76545856, 76610624, 76676672,";
"	76741696, 76806976, 76873024, 76937792, 77004352,";
"	77070016, 77134784, 77200832, 77266624, 77331392,";
"	77397568, 77462464, 77528896, 77593664, 77660096,";
"	77725376, 77789632, 77856448, 77922112, 77987776,";
"	78052928, 78118336, 78184384, 78249664, 78312512,";
"	78380992, 78446528, 78511424, 78577216, 78642496,";
"	78707648, 78773056, 78838976, 78905152, 78970048,";
"	79033664, 79100608, 79166656, 79231552, 79297472,";
"	79362496, 79429568, 79494848, 79560512, 79625792,";
"	79690816, 79757248, 79822784, 79888192, 79953472,";
"	80019008, 80084672, 80149952, 80214208, 80280128,";
"	80346944, 80411456, 80477632, 80543168, 80608576,";
"	80674624, 80740288, 80805568, 80870848, 80934848,";
"	81002048, 81067328, 81133504, 81198784, 81264448,";
"	81329344, 81395648, 81460928, 81525952, 81592256,";
"	81657536, 81723328, 81786304, 81850304, 81919808,";
"	81983296, 82050112, 82116416, 82181312, 82247488,";
"	82311616, 82378432, 82443968, 82509632, 82573376,";
"	82639936, 82705984, 82771648, 82835776, 82902208,";
"	82967744, 83033792, 83096768, 83164864, 83230528,";
"	83295808, 83359552, 83426624, 83491264, 83558336,";
"	83622464, 83689024, 83753536, 83820224, 83886016,";
"	83950912, 84015296, 84081344, 84147776, 84213568,";
"	84277184, 84344768, 84409792, 84475712, 84540608,";
"	84606784, 84672064, 84736448, 84803008, 84868544,";
"	84934336, 84999104, 85065152, 85130048, 85193792,";
"	85261888, 85326784, 85391296, 85458496, 85521472,";
"	85589312, 85655488, 85721024, 85786304, 85851968,";
"	85915712, 85982656, 86048576, 86112448, 86178496,";
"	86244416, 86310208, 86370112, 86441408, 86506688,";
"	86570816, 86637632, 86703424, 86769344, 86832832,";
"	86900672, 86965568, 87031744, 87096896, 87162304,";
"	87227968, 87293632, 87358144, 87424576, 87489728,";
"	87555392, 87619648, 87687104, 87751744, 87816896,";
"	87883072, 87947968, 88014272, 88079168, 88145216,";
"	88211264, 88276544, 88341824, 88406336, 88473152,";
"	88537664, 88603712, 88670144, 88735424, 88801088,";
"	88862912, 88931776, 88996672, 89062208, 89128384,";
"	89194432, 89259712, 89324608, 89390272, 89455552,";
"	89521984, 89586752, 89652544, 89716672, 89783872,";
"	89849792, 89914816, 89980096, 90045376, 90111808,";
"	90177088, 90242752, 90307904, 90373952, 90438848,";
"	90504256, 90569152, 90635968, 90700096, 90767296,";
"	90832832, 90898112, 90963776, 91026752, 91093696,";
"	91159616, 91223744, 91291456, 91356992, 91422272,";
"	91486784, 91553344, 91618496, 91683776, 91749824,";
"	91815872, 91880384, 91945664, 92012224, 92077376,";
"	92143552, 92208832, 92273344, 92339008, 92405696,";
"	92468672, 92536768, 92601664, 92666432, 92732608,";
"	92798912, 92864192, 92926016, 92994752, 93060544,";
"	93125696, 93192128, 93257536, 93322816, 93387328,";
"	93453632, 93517504, 93583936, 93648832, 93715136,";
"	93780032, 93845056, 93913024, 93977792, 94043968,";
"	94109504, 94175168, 94240448, 94306112, 94371776,";
"	94436288, 94501184, 94568384, 94632896, 94699456,";
"	94764224, 94830016, 94895552, 94960832, 95023424,";
"	95092544, 95158208, 95223488, 95287744, 95354176,";
"	95420224, 95485888, 95550016, 95614784, 95681216,";
"	95747776, 95811904, 95878208, 95943872, 96010048,";
"	96075328, 96140992, 96203584, 96271808, 96337856,";
"	96402368, 96468544, 96532672, 96599744, 96665152,";
"	96731072, 96795584, 96860992, 96927296, 96992576,";
"	97057984, 97124288, 97189696, 97254848, 97320896,";
"	97385536, 97451584, 97517248, 97581248, 97647808,";
"	97711808, 97779392, 97845184, 97910464, 97975744,";
"	98041408, 98106688, 98172608, 98238016, 98303168,";
"	98368832, 98434496, 98499392, 98565568, 98631616,";
"	98696768, 98760512, 98827328, 98891456, 98958784,";
"	99024704, 99089728, 99154112, 99220928, 99285952,";
"	99352384, 99418048, 99482816, 99547456, 99614272,";
"	99679936, 99745472, 99811136, 99876416, 99942208,";
"	100007104, 100072384, 100138048, 100204352, 100267072,";
"	100334656, 100401088, 100466368, 100529984, 100597696,";
"	100662592, 100728256, 100791872, 100858816, 100925248,";
"	100989632, 101056064, 101121728, 101187392, 101253056,";
"	101317952, 101384128, 101449408, 101514304, 101580608,";
"	101645504, 101711296, 101777344, 101841728, 101905984,";
"	101973824, 102037696, 102104896, 102168896, 102235712,";
"	102300736, 102366016, 102430912, 102498112, 102563392,";
"	102628672, 102694208, 102760384, 102825152, 102890432,";
"	102956992, 103021888, 103084864, 103153472, 103217984,";
"	103284032, 103348288, 103415744, 103481024, 103545152,";
"	103612352, 103677248, 103743296, 103808576, 103873856,";
"	103939648, 104003776, 104070976, 104136512, 104201792,";
"	104266816, 104332736, 104397376, 104462528, 104529728,";
"	104594752, 104660288, 104725952, 104791744, 104854592,";
"	104922176, 104988608, 105053248, 105118912, 105184832,";
"	105247808, 105315904, 105381184, 105446464, 105511232,";
"	105578048, 105643072, 105708352, 105774784, 105839936,";
"	105903296, 105971648, 106037056, 106099904, 106167872,";
"	106233152, 106298944, 106364096, 106429504, 106495808,";
"	106561472, 106626752, 106691392, 106757696, 106822592,";
"	106888256, 106954304, 107016256, 107085376, 107149376,";
"	107216576, 107281984, 107346368, 107413184, 107478464,";
"	107544128, 107609792, 107675072, 107739712, 107806528,";
"	107872192, 107937728, 108003136, 108068672, 108131392,";
"	108199744, 108265408, 108330688, 108396224, 108461888,";
"	108527168, 108590656, 108657344, 108723136, 108789568,";
"	108854464, 108920384, 108985792, 109049792, 109116992,";
"	109182272, 109247296, 109312576, 109379008, 109444928,";
"	109510592, 109572928, 109640512, 109706944, 109771328,";
"	109837888, 109903424, 109969088, 110034752, 110099648,";
"	110165696, 110230976, 110295616, 110362432, 110426816,";
"	110492992, 110558912, 110624704, 110689472, 110755264,";
"	110820544, 110886208, 110951872, 111017408, 111083072,";
"	111148864, 111212224, 111279296, 111345088, 111410752,";
"	111475904, 111541952, 111607744, 111673024, 111738304,";
"	111803456, 111868864, 111933632, 112000832, 112066496,";
"	112129984, 112196416, 112260032, 112328512, 112393024,";
"	112457792, 112524352, 112590784, 112654912, 112715968,";
"	112787008, 112852672, 112918336, 112983616, 113049536,";
"	113114944, 113180224, 113244224, 113311552, 113376448,";
"	113441984, 113505472, 113573312, 113639104, 113704768,";
"	113770304, 113835712, 113901376, 113965888, 114031552,";
"	114097216, 114163264, 114227648, 114294592, 114359488,";
"	114425536, 114490304, 114556864, 114622016, 114687424,";
"	114753472, 114818624, 114884288, 114948544, 115014976,";
"	115080512, 115145792, 115212224, 115277632, 115343296,";
"	115408576, 115473472, 115539392, 115605184, 115670848,";
"	115736128, 115801792, 115867072, 115932352, 115997248,";
"	116063936, 116128576, 116195008, 116260288, 116325184,";
"	116391488, 116456768, 116522944, 116588224, 116652992,";
"	116719168, 116784704, 116850368, 116915648, 116981056,";
"	117046208, 117112256, 117178304, 117243712, 117308608,";
"	117374912, 117440192, 117505984, 117569728, 117636416,";
"	117701824, 117767872, 117833024, 117899072, 117964096,";
"	118029248, 118094656, 118160704, 118225984, 118291904,";
"	118357312, 118422848, 118489024, 118553152, 118617536,";
"	118684096, 118749632, 118816448, 118882112, 118947392,";
"	119012416, 119077312, 119144384, 119209408, 119275328,";
"	119340992, 119406016, 119472064, 119537344, 119601728,";
"	119668672, 119733056, 119798464, 119864896, 119928896,";
"	119996224, 120061376, 120124864, 120192832, 120255424,";
"	120321728, 120389312, 120454336, 120520256, 120584512,";
"	120651712, 120716608, 120782656, 120848192, 120913472,";
"	120979136, 121044416, 121109056, 121175872, 121241408,";
"	121302976, 121372352, 121437376, 121502912, 121568704,";
"	121634752, 121700288, 121764416, 121830208, 121895744,";
"	121962304, 122027072, 122092864, 122157632, 122224448,";
"	122289088, 122354368, 122421184, 122485312, 122550592,";
"	122617024, 122682944, 122748352, 122813888, 122879168,";
"	122945344, 123011008, 123075776, 123141952, 123207488,";
"	123270208, 123338048, 123403712, 123468736, 123535168,";
"	123600704, 123666112, 123731264, 123796928, 123861952,";
"	123928384, 123993664, 124059328, 124124608, 124190656,";
"	124256192, 124321216, 124386368, 124452032, 124518208,";
"	124583744, 124649024, 124714816, 124778048, 124844992,";
"	124911296, 124977088, 125041088, 125107904, 125173696,";
"	125238976, 125303744, 125370176, 125432896, 125500352,";
"	125566912, 125632064, 125696576, 125759168, 125829056,";
"	125894464, 125958592, 126025408, 126090304, 126156736,";
"	126221248, 126286912, 126352832, 126417856, 126483776,";
"	126549952, 126615232, 126680768, 126746432, 126811456,";
"	126876608, 126942656, 127008704, 127072832, 127139392,";
"	127204928, 127270336, 127335616, 127401152, 127467328,";
"	127532224, 127597504, 127663552, 127729216, 127794752,";
"	127860032, 127925696, 127991744, 128055232, 128122816,";
"	128188096, 128253376, 128319424, 128384576, 128449856,";
"	128516032, 128581312, 128646592, 128712256, 128778176,";
"	128843584, 128908352, 128973632, 129039808, 129103808,";
"	129171136, 129236288, 129300544, 129365696, 129432896,";
"	129498944, 129562816, 129629888, 129695168, 129760832,";
"	129825728, 129892288, 129957824, 130023104, 130088768,";
"	130154048, 130218944, 130283968, 130349504, 130416448,";
"	130482112, 130547008, 130612928, 130678336, 130743232,";
"	130807616, 130874944, 130939456, 131006272, 131071552,";
"	131134912, 131202112, 131267776, 131331776, 131399104,";
"	131464384, 131528512, 131594048, 131660992, 131727296,";
"	131791936, 131858368, 131922496, 131987392, 132054976,";
"	132120256, 132185408, 132250816, 132316864, 132382528,";
"	132448192, 132513728, 132578752, 132644672, 132708032,";
"	132774976, 132841024, 132905792, 132972352, 133038016,";
"	133103296, 133168832, 133233728, 133299392, 133364416,";
"	133429312, 133495616, 133562048, 133627328, 133692992,";
"	133758656, 133823296, 133889344, 133954624, 134020672,";
"	134086336, 134151872, 134217152, 134282944, 134348608,";
"	134414144, 134479808, 134545088, 134607296, 134676032,";
"	134741056, 134807104, 134872384, 134937664, 135002944,";
"	135068992, 135134144, 135200704, 135265472, 135331136,";
"	135396544, 135462848, 135527872, 135593152, 135659072,";
"	135724352, 135787712, 135855424, 135921472, 135987008,";
"	136052416, 136116928, 136182848, 136249024, 136313792,";
"	136379968, 136444864, 136511296, 136576448, 136641728,";
"	136707904, 136772672, 136837952, 136904384, 136970048,";
"	137034176, 137099584, 137166784, 137232064, 137297728,";
"	137363392, 137427776, 137494208, 137558464, 137625536,";
"	137690944, 137755712, 137822144, 137887424, 137953216,";
"	138018368, 138084032, 138149824, 138214976, 138280256,";
"	138344896, 138411584, 138476992, 138539584, 138607808,";
"	138672832, 138737728, 138804928, 138869824, 138936128,";
"	139001536, 139066688, 139130048, 139196864, 139263808,";
"	139328704, 139394368, 139460032, 139525696, 139590208,";
"	139656896, 139721024, 139787968, 139852864, 139918784,";
"	139984576, 140050112, 140115776, 140181056, 140245696,";
"	140311232, 140376512, 140443456, 140508352, 140574272,";
"	140640064, 140705728, 140769856, 140834752, 140902336,";
"	140967488, 141032768, 141098816, 141162688, 141229376,";
"	141294016, 141360448, 141426496, 141491264, 141556544,";
"	141621184, 141687488, 141754304, 141819584, 141885248,";
"	141949888, 142015936, 142080448, 142145984, 142212544,";
"	142278464, 142342336, 142407872, 142474432, 142540352,";
"	142606144, 142671808, 142736192, 142802752, 142868288,";
"	142933568, 142997824, 143064512, 143129408, 143195456,";
"	143258944, 143325376, 143392448, 143457728, 143523136,";
"	143587264, 143653696, 143720384, 143785024, 143851072,";
"	143916992, 143982016, 144045632, 144113344, 144177856,";
"	144244544, 144309184, 144375488, 144440768, 144506176,";
"	144570688, 144637888, 144701888, 144767552, 144832448,";
"	144899648, 144965056, 145030976, 145096384, 145161152,";
"	145227584, 145292864, 145358656, 145424192, 145489856,";
"	145554496, 145620928, 145683904, 145751488, 145816256,";
"	145883072, 145947712, 146011456, 146078528, 146144704,";
"	146210368, 146275264, 146341696, 146407232, 146472512,";
"	146538176, 146601536, 146668736, 146734912, 146800448,";
"	146866112, 146931392, 146996288, 147062336, 147127744,";
"	147193664, 147259328, 147324224, 147390016, 147455936,";
"	147520192, 147586624, 147651776, 147717056, 147783488,";
"	147848768, 147914432, 147979456, 148045504, 148110784,";
"	148176832, 148242368, 148306112, 148373312, 148438592,";
"	148503232, 148569536, 148635584, 148700096, 148766144,";
"	148831552, 148897088, 148963264, 149028416, 149094208,";
"	149159488, 149225408, 149290688, 149356352, 149420224,";
"	149486912, 149551552, 149617472, 149683136, 149749312,";
"	149814976, 149880128, 149943616, 150010688, 150076352,";
"	150142144, 150208064, 150272704, 150338624, 150404416,";
"	150470464, 150535232, 150600256, 150666688, 150732224,";
"}";
"";
"var datasetSizes = []uint64{";
"	4294966528, 4311744256, 4328515328, 4345284352, 4362070784,";
"	4378852096, 4395629824, 4412406016, 4429174528, 4445959424,";
"	4462735616, 4479516416, 4496290048, 4513055488, 4529845504,";
"	4546624256, 4563402496, 4580172544, 4596953344, 4613734144,";
"	4630502144, 4647278336, 4664064256, 4680840448, 4697616128,";
"	4714392832, 4731160832, 4747933952, 4764726016, 4781497088,";
"	4798279936, 4815060736, 4831837952, 4848614656, 4865390848,";
"	4882168576, 4898944768, 4915722496, 4932495616, 4949274368,";
"	4966053632, 4982828288, 4999607552, 5016383744, 5033164544,";
"	5049940736, 5066718464, 5083486976, 5100268288, 5117050112,";
"	5133826816, 5150603008, 5167373056, 5184147712, 5200934656,";
"	5217712384, 5234480896, 5251263232, 5268044032, 5284815104,";
"	5301592832, 5318376704, 5335149824, 5351930624, 5368705792,";
"	5385477376, 5402261248, 5419036928, 5435814656, 5452586752,";
"	5469370112, 5486146304, 5502924032, 5519703296, 5536465664,";
"	5553251072, 5570035456, 5586803968, 5603588864, 5620364032,";
"	5637143296, 5653918976, 5670698752, 5687468288, 5704242944,";
"	5721028864, 5737801984, 5754573568, 5771353856, 5788139264,";
"	5804903168, 5821686016, 5838469376, 5855245568, 5872023296,";
"	5888801536, 5905578752, 5922355456, 5939131136, 5955903232,";
"	5972677888, 5989462784, 6006240512, 6023016704, 6039791872,";
"	6056574208, 6073351936, 6090127616, 6106905856, 6123675392,";
"	6140456704, 6157230848, 6174007552, 6190789888, 6207564544,";
"	6224346368, 6241124096, 6257889536, 6274678528, 6291450112,";
"	6308218624, 6325010176, 6341786368, 6358560512, 6375338752,";
"	6392113408, 6408891136, 6425673472, 6442448128, 6459225856,";
"	6476004608, 6492782336, 6509556992, 6526331648, 6543112448,";
"	6559889152, 6576664832, 6593438464, 6610221824, 6627000064,";
"	6643774208, 6660546304, 6677317888, 6694106368, 6710881024,";
"	6727654144, 6744440576, 6761216768, 6777995008, 6794769152,";
"	6811548416, 6828326144, 6845103872, 6861875968, 6878656768,";
"	6895428352, 6912209152, 6928987904, 6945767168, 6962537728,";
"	6979310336, 6996097792, 7012868864, 7029652736, 7046427904,";
"	7063207168, 7079974144, 7096760576, 7113526528, 7130314496,";
"	7147090688, 7163868928, 7180648192, 7197425408, 7214197504,";
"	7230976768, 7247754496, 7264531712, 7281293056, 7298087168,";
"	7314860288, 7331643136, 7348415744, 7365195008, 7381969664,";
"	7398735616, 7415528704, 7432304896, 7449082112, 7465851136,";
"	7482636032, 7499412736, 7516182272, 7532963072, 7549745408,";
"	7566520064, 7583300864, 7600072448, 7616855296, 7633630976,";
"	7650409216, 7667185408, 7683963136, 7700740864, 7717511936,";
"	7734295808, 7751072512, 7767841024, 7784627456, 7801405184,";
"	7818175744, 7834957568, 7851736832, 7868513024, 7885290752,";
"	7902064384, 7918844672, 7935618304, 7952400128, 7969176832,";
"	7985949952, 8002727168, 8019502336, 8036282624, 8053060864,";
"	8069823232, 8086617856, 8103390976, 8120168704, 8136944896,";
"	8153725696, 8170498816, 8187281152, 8204056832, 8220827392,";
"	8237611264, 8254388992, 8271166208, 8287943936, 8304721664,";
"	8321492224, 8338271488, 8355051776, 8371825408, 8388607232,";
"	8405383936, 8422153472, 8438927104, 8455710976, 8472493312,";
"	8489267456, 8506045696, 8522824448, 8539599616, 8556369664,";
"	8573156096, 8589924608, 8606699264, 8623486208, 8640260864,";
"	8657042176, 8673818368, 8690590976, 8707374848, 8724146944,";
"	8740916992, 8757705472, 8774477056, 8791260416, 8808038144,";
"	8824814848, 8841581312, 8858365696, 8875142912, 8891924224,";
"	8908688128, 8925476096, 8942238464, 8959033088, 8975808256,";
"	8992579328, 9009364736, 9026136832, 9042919168, 9059692288,";
"	9076465408, 9093239552, 9110020352, 9126804224, 9143580416,";
"	9160348928, 9177135872, 9193914112, 9210689792, 9227468032,";
"	9244239616, 9261022976, 9277797632, 9294575872, 9311350528,";
"	9328131328, 9344903936, 9361685248, 9378462976, 9395240704,";
"	9412014848, 9428794112, 9445572352, 9462346496, 9479124736,";
"	9495903488, 9512681216, 9529455872, 9546228992, 9563008768,";
"	9579789568, 9596567296, 9613335296, 9630119168, 9646898944,";
"	9663671552, 9680452352, 9697224448, 9714006784, 9730782976,";
"	9747560192, 9764339456, 9781114624, 9797893888, 9814666496,";
"	9831444736, 9848221952, 9864998656, 9881779456, 9898552064,";
"	9915332864, 9932109568, 9948876032, 9965662976, 9982442752,";
"	9999214336, 10015997696, 10032772864, 10049527552, 10066329344,";
"	10083089152, 10099883776, 10116659456, 10133434112, 10150214912,";
"	10166988544, 10183767808, 10200547072, 10217324288, 10234096384,";
"	10250872064, 10267654912, 10284430592, 10301210368, 10317986048,";
"	10334764288, 10351538944, 10368315136, 10385087744, 10401872128,";
"	10418649856, 10435422464, 10452205312, 10468980992, 10485754624,";
"	10502527744, 10519308032, 10536081664, 10552868608, 10569638656,";
"	10586419456, 10603197184, 10619973376, 10636749568, 10653528832,";
"	10670302976, 10687084288, 10703858944, 10720639744, 10737413888,";
"	10754193152, 10770969856, 10787742464, 10804526848, 10821300992,";
"	10838080768, 10854853888, 10871633152, 10888411904, 10905189632,";
"	10921962752, 10938735872, 10955521792, 10972297472, 10989073664,";
"	11005851904, 11022630656, 11039406848, 11056179968, 11072962304,";
"	11089739008, 11106512128, 11123291392, 11140065536, 11156847872,";
"	11173622528, 11190386432, 11207170816, 11223945472, 11240732416,";
"	11257500928, 11274287872, 11291056384, 11307842816, 11324620544,";
"	11341389568, 11358165248, 11374948096, 11391728896, 11408502016,";
"	11425282816, 11442060544, 11458833664, 11475612416, 11492388608,";
"	11509167872, 11525939968, 11542717184, 11559496448, 11576275712,";
"	11593054976, 11609822464, 11626601216, 11643385088, 11660164352,";
"	11676937984, 11693711104, 11710494976, 11727272192, 11744048896,";
"	11760822016, 11777599744, 11794372864, 11811153664, 11827933952,";
"	11844705536, 11861489408, 11878264576, 11895044864, 11911822592,";
"	11928598784, 11945376512, 11962148608, 11978930944, 11995702016,";
"	12012482816, 12029255936, 12046031104, 12062816512, 12079592192,";
"	12096370432, 12113149696, 12129926912, 12146703616, 12163472128,";
"	12180257536, 12197035264, 12213812992, 12230578432, 12247361792,";
"	12264140032, 12280919296, 12297698048, 12314474752, 12331249408,";
"	12348019456, 12364807424, 12381584128, 12398352128, 12415139584,";
"	12431904512, 12448690432, 12465465088, 12482248448, 12499020544,";
"	12515798272, 12532575488, 12549353728, 12566131456, 12582908672,";
"	12599686912, 12616464128, 12633241856, 12650012416, 12666791168,";
"	12683569408, 12700349696, 12717124352, 12733902592, 12750675712,";
"	12767459072, 12784238336, 12801008384, 12817791232, 12834566912,";
"	12851346688, 12868118272, 12884889344, 12901674752, 12918446848,";
"	12935226112, 12952008448, 12968786176, 12985563904, 13002340096,";
"	13019110144, 13035894016, 13052672768, 13069451008, 13086225664,";
"	13103001344, 13119777536, 13136557312, 13153325824, 13170111232,";
"	13186886912, 13203668224, 13220439296, 13237220608, 13253998336,";
"	13270770944, 13287554816, 13304328448, 13321105664, 13337883904,";
"	13354660096, 13371438848, 13388215552, 13404987136, 13421764352,";
"	13438548224, 13455325952, 13472104192, 13488875264, 13505651968,";
"	13522427648, 13539208448, 13555987712, 13572766976, 13589541632,";
"	13606316288, 13623098624, 13639875328, 13656653056, 13673412352,";
"	13690203392, 13706982656, 13723760896, 13740538624, 13757310208,";
"	13774092544, 13790866688, 13807644416, 13824425728, 13841193728,";
"	13857976576, 13874754304, 13891529984, 13908298496, 13925088512,";
"	13941857536, 13958634752, 13975418624, 13992187648, 14008974592,";
"	14025750784, 14042517248, 14059304704, 14076077824, 14092855552,";
"	14109637888, 14126415616, 14143190272, 14159961856, 14176745216,";
"	14193518848, 14210299648, 14227073792, 14243856128, 14260630784,";
"	14277399296, 14294184704, 14310958336, 14327731456, 14344499968,";
"	14361296128, 14378073344, 14394849536, 14411621632, 14428393216,";
"	14445179648, 14461950208, 14478735104, 14495511808, 14512291072,";
"	14529066752, 14545842944, 14562616064, 14579389696, 14596177664,";
"	14612943616, 14629729024, 14646507776, 14663286016, 14680059136,";
"	14696839424, 14713617664, 14730393344, 14747171584, 14763947776,";
"	14780725504, 14797501184, 14814277888, 14831057152, 14847831296,";
"	14864604416, 14881380608, 14898160384, 14914944256, 14931721984,";
"	14948498176, 14965271296, 14982047488, 14998825216, 15015606016,";
"	15032384768, 15049159936, 15065934592, 15082716928, 15099491584,";
"	15116269312, 15133048064, 15149825792, 15166601984, 15183380224,";
"	15200150272, 15216933632, 15233709824, 15250489088, 15267259648,";
"	15284041984, 15300820736, 15317588224, 15334374656, 15351149824,";
"	15367923968, 15384699136, 15401479424, 15418260736, 15435038464,";
"	15451811072, 15468590848, 15485366528, 15502138112, 15518914816,";
"	15535698176, 15552476416, 15569253632, 15586029824, 15602810624,";
"	15619584256, 15636359936, 15653142272, 15669914368, 15686694656,";
"	15703464704, 15720249088, 15737024768, 15753804032, 15770575616,";
"	15787359488, 15804134144, 15820911872, 15837688576, 15854461696,";
"	15871245568, 15888018688, 15904800512, 15921572096, 15938353408,";
"	15955130624, 15971906816, 15988679936, 16005460736, 16022238976,";
"	16039016192, 16055792384, 16072570112, 16089349376, 16106124544,";
"	16122897664, 16139676928, 16156454656, 16173233408, 16190013184,";
"	16206787328, 16223567104, 16240342784, 16257120512, 16273898752,";
"	16290673408, 16307453696, 16324229888, 16341006592, 16357783808,";
"	16374561536, 16391339264, 16408116992, 16424889088, 16441668352,";
"	16458444544, 16475225344, 16492001536, 16508778752, 16525550336,";
"	16542334208, 16559107328, 16575888128, 16592666368, 16609430272,";
"	16626216704, 16642995968, 16659771136, 16676548864, 16693326592,";
"	16710105856, 16726883072, 16743656704, 16760435968, 16777213184,";
"	16793992448, 16810769152, 16827545344, 16844323072, 16861098752,";
"	16877878016, 16894653184, 16911430912, 16928209664, 16944985856,";
"	16961764096, 16978541312, 16995319552, 17012090624, 17028869888,";
"	17045647616, 17062417664, 17079204608, 17095981312, 17112757504,";
"	17129536768, 17146308352, 17163085568, 17179867904, 17196645632,";
"	17213410048, 17230198528, 17246975744, 17263753984, 17280528128,";
"	17297307904, 17314080512, 17330861312, 17347641088, 17364418304,";
"	17381184256, 17397954304, 17414748928, 17431526656, 17448302848,";
"	17465080064, 17481856768, 17498631424, 17515409152, 17532178688,";
"	17548961536, 17565743872, 17582520064, 17599291648, 17616068864,";
"	17632852736, 17649625856, 17666398976, 17683182848, 17699952896,";
"	17716732672, 17733514496, 17750294272, 17767065856, 17783846656,";
"	17800613632, 17817400576, 17834176768, 17850957568, 17867734784,";
"	17884500736, 17901289216, 17918065408, 17934841088, 17951619328,";
"	17968395008, 17985168128, 18001952512, 18018724096, 18035504896,";
"	18052282624, 18069061376, 18085835008, 18102615808, 18119388416,";
"	18136169728, 18152942848, 18169723648, 18186501376, 18203277056,";
"	18220055296, 18236833024, 18253607168, 18270376192, 18287162624,";
"	18303939328, 18320712448, 18337494272, 18354268928, 18371051264,";
"	18387820288, 18404605696, 18421381376, 18438159104, 18454930688,";
"	18471708928, 18488489728, 18505266944, 18522043648, 18538822912,";
"	18555598592, 18572377856, 18589148416, 18605931776, 18622703872,";
"	18639480064, 18656263936, 18673033472, 18689814784, 18706593536,";
"	18723371776, 18740149504, 18756927232, 18773698816, 18790479616,";
"	18807258368, 18824033024, 18840810752, 18857590016, 18874363136,";
"	18891141376, 18907921664, 18924693248, 18941476096, 18958243072,";
"	18975030016, 18991807232, 19008579328, 19025357056, 19042135808,";
"	19058912512, 19075687168, 19092467456, 19109242624, 19126022912,";
"	19142797568, 19159577344, 19176356608, 19193134336, 19209908992,";
"	19226686208, 19243465984, 19260243712, 19277016832, 19293797632,";
"	19310567168, 19327351552, 19344122624, 19360899328, 19377680128,";
"	19394460928, 19411235072, 19428007168, 19444787968, 19461545216,";
"	19478344448, 19495122176, 19511890688, 19528677632, 19545452288,";
"	19562233088, 19579007744, 19595785984, 19612565248, 19629340928,";
"	19646113024, 19662878464, 19679667968, 19696448768, 19713227008,";
"	19730001152, 19746782464, 19763544832, 19780325632, 19797112576,";
"	19813881088, 19830666496, 19847442176, 19864217344, 19880993024,";
"	19897776896, 19914553088, 19931332352, 19948096768, 19964882176,";
"	19981660928, 19998439168, 20015205632, 20031993088, 20048770304,";
"	20065548032, 20082327296, 20099097856, 20115880192, 20132658944,";
"	20149435648, 20166210304, 20182990592, 20199757568, 20216544512,";
"	20233321216, 20250098432, 20266874624, 20283651328, 20300427008,";
"	20317202176, 20333982464, 20350757632, 20367532288, 20384314624,";
"	20401090816, 20417871104, 20434644224, 20451425536, 20468198656,";
"	20484978944, 20501752064, 20518529792, 20535312128, 20552085248,";
"	20568858368, 20585640704, 20602418944, 20619197696, 20635975424,";
"	20652750592, 20669526784, 20686307072, 20703083264, 20719861504,";
"	20736637184, 20753414912, 20770193152, 20786969344, 20803734272,";
"	20820524288, 20837294848, 20854078208, 20870851328, 20887620352,";
"	20904407296, 20921179904, 20937964288, 20954738944, 20971518208,";
"	20988295424, 21005067008, 21021846784, 21038627072, 21055405312,";
"	21072182528, 21088957184, 21105735424, 21122511616, 21139284736,";
"	21156065536, 21172846336, 21189611264, 21206400256, 21223177984,";
"	21239952128, 21256722688, 21273508096, 21290286848, 21307063552,";
"	21323840768, 21340615936, 21357393664, 21374172928, 21390950144,";
"	21407726336, 21424492288, 21441279232, 21458053376, 21474829568,";
"	21491612416, 21508381952, 21525162752, 21541942528, 21558712576,";
"	21575494912, 21592271104, 21609050368, 21625831168, 21642603776,";
"	21659384576, 21676156672, 21692938496, 21709716736, 21726494464,";
"	21743262976, 21760046848, 21776824064, 21793599232, 21810377984,";
"	21827148032, 21843929344, 21860705536, 21877485824, 21894265088,";
"	21911037184, 21927819008, 21944596736, 21961374976, 21978149632,";
"	21994925824, 22011703552, 22028482304, 22045255424, 22062034688,";
"	22078807808, 22095586048, 22112369408, 22129141504, 22145921792,";
"	22162687744, 22179475712, 22196256512, 22213029632, 22229808896,";
"	22246587136, 22263360256, 22280130304, 22296916736, 22313691392,";
"	22330473728, 22347248384, 22364027648, 22380805376, 22397581568,";
"	22414358272, 22431137536, 22447914752, 22464691456, 22481469184,";
"	22498245376, 22515022592, 22531799296, 22548571904, 22565351168,";
"	22582130944, 22598905088, 22615684864, 22632462592, 22649233664,";
"	22666018048, 22682791168, 22699565312, 22716344576, 22733120768,";
"	22749900032, 22766679296, 22783443712, 22800234752, 22817008384,";
"	22833787136, 22850566912, 22867343104, 22884122368, 22900889344,";
"	22917675776, 22934453504, 22951223552, 22968007936, 22984784128,";
"	23001561344, 23018338048, 23035101952, 23051888896, 23068671232,";
"	23085448448, 23102223616, 23119001344, 23135780608, 23152554752,";
"	23169334016, 23186112256, 23202886912, 23219660032, 23236443904,";
"	23253214976, 23269990144, 23286775552, 23303550208, 23320323328,";
"	23337105152, 23353881856, 23370660608, 23387437312, 23404212992,";
"	23420992256, 23437765376, 23454546176, 23471320832, 23488100096,";
"	23504874752, 23521649408, 23538432256, 23555209472, 23571982592,";
"	23588763904, 23605540096, 23622315776, 23639097088, 23655865088,";
"	23672649472, 23689426688, 23706201856, 23722972928, 23739759872,";
"	23756536064, 23773313792, 23790089984, 23806866176, 23823645952,";
"	23840421632, 23857200896, 23873974528, 23890751744, 23907522304,";
"	23924302592, 23941086976, 23957857024, 23974640896, 23991416576,";
"	24008190208, 24024972544, 24041750272, 24058511104, 24075304192,";
"	24092078336, 24108859136, 24125627648, 24142413056, 24159189248,";
"	24175967488, 24192742144, 24209519872, 24226294528, 24243069184,";
"	24259849984, 24276629248, 24293406464, 24310183168, 24326962432,";
"	24343729408, 24360511744, 24377287936, 24394068224, 24410849024,";
"	24427622656, 24444398848, 24461180672, 24477955328, 24494730496,";
"	24511510784, 24528286976, 24545063168, 24561840896, 24578619136,";
"	24595389184, 24612173056, 24628950784, 24645730048, 24662507264,";
"	24679280896, 24696058624, 24712837888, 24729610496, 24746393344,";
"	24763161856, 24779938048, 24796715264, 24813501184, 24830276864,";
"	24847055104, 24863832832, 24880609024, 24897384704, 24914162432,";
"	24930935552, 24947719936, 24964491008, 24981273344, 24998051072,";
"	25014823168, 25031603456, 25048381184, 25065154304, 25081932544,";
"	25098708736, 25115486464, 25132259072, 25149046528, 25165823744,";
"	25182598912, 25199376128, 25216149248, 25232926976, 25249691392,";
"	25266479872, 25283263232, 25300039936, 25316814592, 25333590272,";
"	25350366464, 25367149312, 25383920384, 25400701184, 25417480448,";
"	25434257152, 25451031808, 25467813632, 25484590336, 25501360384,";
"	25518143744, 25534921472, 25551697664, 25568473856, 25585253632,";
"	25602029312, 25618808576, 25635578624, 25652363008, 25669137664,";
"	25685909248, 25702691584, 25719464704, 25736244992, 25753024256,";
"	25769802496, 25786578176, 25803345664, 25820135168, 25836910336,";
"	25853684992, 25870465792, 25887241472, 25904019712, 25920793856,";
"	25937573632, 25954352384, 25971127552, 25987902208, 26004683008,";
"	26021460736, 26038230784, 26055012608, 26071790336, 26088545024,";
"	26105346304, 26122125056, 26138892544, 26155677952, 26172454144,";
"	26189227264, 26206000384, 26222787328, 26239565056, 26256315136,";
"	26273118464, 26289890048, 26306659072, 26323448576, 26340223744,";
"	26357005568, 26373769472, 26390559488, 26407334144, 26424114944,";
"	26440891648, 26457664256, 26474442496, 26491221248, 26508001024,";
"	26524776704, 26541554944, 26558332672, 26575106816, 26591886592,";
"	26608663808, 26625438976, 26642216192, 26658989312, 26675771648,";
"	26692549888, 26709327616, 26726102272, 26742878464, 26759650048,";
"	26776421632, 26793210112, 26809990912, 26826760448, 26843542784,";
"	26860319488, 26877092096, 26893874432, 26910653696, 26927416576,";
"	26944207616, 26960985344, 26977751296, 26994539776, 27011315456,";
"	27028090624, 27044871424, 27061649152, 27078420224, 27095198464,";
"	27111978752, 27128758016, 27145532672, 27162308864, 27179089664,";
"	27195865856, 27212641024, 27229421312, 27246194944, 27262955264,";
"	27279749888, 27296528128, 27313305856, 27330083584, 27346861312,";
"	27363636992, 27380415232, 27397191424, 27413964544, 27430746368,";
"	27447524096, 27464300288, 27481073408, 27497853184, 27514632448,";
"	27531401984, 27548180224, 27564955904, 27581738752, 27598518016,";
"	27615295744, 27632073472, 27648850688, 27665628416, 27682404608,";
"	27699182848, 27715957504, 27732737792, 27749509376, 27766290688,";
"	27783066368, 27799838464, 27816622336, 27833384192, 27850170112,";
"	27866946304, 27883732736, 27900507392, 27917287168, 27934064384,";
"	27950834432, 27967615232, 27984395008, 28001164544, 28017947392,";
"	28034726144, 28051504384, 28068275968, 28085056768, 28101836032,";
"	28118603008, 28135383296, 28152167168, 28168940288, 28185704704,";
"	28202499328, 28219271936, 28236049664, 28252815104, 28269608704,";
"	28286377216, 28303155968, 28319936768, 28336714496, 28353483008,";
"	28370254592, 28387042048, 28403822848, 28420603648, 28437370112,";
"	28454134528, 28470934784, 28487710976, 28504486144, 28521260288,";
"	28538043136, 28554818816, 28571598592, 28588375808, 28605142784,";
"	28621923584, 28638707456, 28655477504, 28672261888, 28689037568,";
"	28705812736, 28722593024, 28739370752, 28756142848, 28772925184,";
"	28789696256, 28806461696, 28823254784, 28840027904, 28856804608,";
"	28873586944, 28890363136, 28907139328, 28923919616, 28940695808,";
"	28957474048, 28974245632, 28991022848, 29007803648, 29024583424,";
"	29041355008, 29058129664, 29074913536, 29091691264, 29108468992,";
"	29125236992, 29142022912, 29158797568, 29175578368, 29192345344,";
"	29209129216, 29225907968, 29242682624, 29259448576, 29276241664,";
"	29293006592, 29309795072, 29326569728, 29343350528, 29360122112,";
"	29376895232, 29393671936, 29410456832, 29427233536, 29444006656,";
"	29460784384, 29477568256, 29494345472, 29511122176, 29527895296,";
"	29544673024, 29561450752, 29578220288, 29594999552, 29611785472,";
"	29628553984, 29645340416, 29662112512, 29678888704, 29695672064,";
"	29712445696, 29729225984, 29745995008, 29762777344, 29779551488,";
"	29796330752, 29813106944, 29829889792, 29846659328, 29863443712,";
"	29880219392, 29896994048, 29913774848, 29930553088, 29947327232,";
"	29964106496, 29980879616, 29997661952, 30014433536, 30031211776,";
"	30047990528, 30064770304, 30081536768, 30098309888, 30115098368,";
"	30131878144, 30148656896, 30165430016, 30182208256, 30198987008,";
"	30215758592, 30232538368, 30249319168, 30266084608, 30282863872,";
"	30299648768, 30316428544, 30333204736, 30349982464, 30366756608,";
"	30383521024, 30400308992, 30417085184, 30433863424, 30450646784,";
"	30467416832, 30484196096, 30500978432, 30517750528, 30534530816,";
"	30551309056, 30568086272, 30584862976, 30601639168, 30618416384,";
"	30635193088, 30651972352, 30668749568, 30685527296, 30702303488,";
"	30719081216, 30735859456, 30752636672, 30769412864, 30786185984,";
"	30802963712, 30819739904, 30836517632, 30853299968, 30870075136,";
"	30886851328, 30903630592, 30920406784, 30937178368, 30953958656,";
"	30970738432, 30987511552, 31004293888, 31021068544, 31037848832,";
"	31054622464, 31071398144, 31088178944, 31104956672, 31121733376,";
"	31138509056, 31155285248, 31172062976, 31188838144, 31205618944,";
"	31222398208, 31239172864, 31255950592, 31272729856, 31289507584,";
"	31306283776, 31323058432, 31339837696, 31356610304, 31373393152,";
"	31390166272, 31406948096, 31423723264, 31440502528, 31457272576,";
"	31474054912, 31490834176, 31507609856, 31524388096, 31541165312,";
"	31557942016, 31574716672, 31591495424, 31608264448, 31625046784,";
"	31641819392, 31658600192, 31675382528, 31692143872, 31708933888,";
"	31725711616, 31742489344, 31759269632, 31776041216, 31792819456,";
"	31809598208, 31826370304, 31843154176, 31859932928, 31876709632,";
"	31893486848, 31910258944, 31927039744, 31943815936, 31960592128,";
"	31977369856, 31994146048, 32010921728, 32027702528, 32044482304,";
"	32061258496, 32078025472, 32094813952, 32111589632, 32128362752,";
"	32145142528, 32161915648, 32178693376, 32195475712, 32212250368,";
"	32229029632, 32245808384, 32262585088, 32279357696, 32296133888,";
"	32312907008, 32329679104, 32346472192, 32363246848, 32380024064,";
"	32396802304, 32413581056, 32430354688, 32447135488, 32463912704,";
"	32480689408, 32497462016, 32514235648, 32531008768, 32547797248,";
"	32564563712, 32581337344, 32598128384, 32614898432, 32631684352,";
"	32648460032, 32665227008, 32682012928, 32698788608, 32715566336,";
"	32732344576, 32749123328, 32765902592, 32782675712, 32799452416,";
"	32816232704, 32833010944, 32849784064, 32866564352, 32883336448,";
"	32900117248, 32916897536, 32933673728, 32950448896, 32967226112,";
"	32984002816, 33000783616, 33017559296, 33034333952, 33051110656,";
"	33067888384, 33084661504, 33101439232, 33118221056, 33134994176,";
"	33151777024, 33168549632, 33185330944, 33202102016, 33218885888,";
"	33235664128, 33252437248, 33269214976, 33285992192, 33302771456,";
"	33319547648, 33336327424, 33353105152, 33369876224, 33386657536,";
"	33403436288, 33420190976, 33436984576, 33453767936, 33470545664,";
"	33487322368, 33504099584, 33520873216, 33537654016, 33554428672,";
"	33571198208, 33587985664, 33604763392, 33621537536, 33638303488,";
"	33655085312, 33671869696, 33688647424, 33705423104, 33722203904,";
"	33738979072, 33755753728, 33772531456, 33789306112, 33806089472,";
"	33822862592, 33839643392, 33856414976, 33873185536, 33889975552,";
"	33906751232, 33923527936, 33940305664, 33957081856, 33973859072,";
"	33990638336, 34007408896, 34024193792, 34040962304, 34057741568,";
"	34074524416, 34091299072, 34108079872, 34124852992, 34141628672,";
"	34158411008, 34175184128, 34191956224, 34208738048, 34225518848,";
"	34242295552, 34259072768, 34275852032, 34292628736, 34309401856,";
"	34326179584, 34342960384, 34359728384, 34376513792, 34393289984,";
"	34410067712, 34426846976, 34443622144, 34460397824, 34477176064,";
"	34493953792, 34510720768, 34527509248, 34544286464, 34561060096,";
"	34577837824, 34594618624, 34611392768, 34628171008, 34644950272,";
"	34661727488, 34678504192, 34695280384, 34712052992, 34728827648,";
"	34745593088, 34762380032, 34779166976, 34795945216, 34812721408,";
"	34829497088, 34846271744, 34863054592, 34879831808, 34896606464,";
"	34913383168, 34930163456, 34946936576, 34963714816, 34980495104,";
"	34997271808, 35014044928, 35030818048, 35047603456, 35064379648,";
"	35081155328, 35097932032, 35114706688, 35131482368, 35148263168,";
"	35165038336, 35181814016, 35198592256, 35215375616, 35232153344,";
"	35248911616, 35265704704, 35282477312, 35299261696, 35316037888,";
"	35332807936, 35349588224, 35366356736, 35383146752, 35399924992,";
"	35416701184, 35433479936, 35450253056, 35467034368, 35483796224,";
"	35500587776, 35517346048, 35534140672, 35550916864, 35567697664,";
"	35584473856, 35601251072, 35618024704, 35634805504, 35651571968,";
"	35668357888, 35685127936, 35701911296, 35718689024, 35735465728,";
"	35752238848, 35769023744, 35785800448, 35802574592, 35819355392,";
"	35836116224, 35852902144, 35869687552, 35886461696, 35903218432,";
"	35920017152, 35936795392, 35953568512, 35970350848, 35987128064,";
"	36003904256, 36020679424, 36037457152, 36054233344, 36071006464,";
"	36087788288, 36104566528, 36121344256, 36138112768, 36154899712,";
"	36171674368, 36188451584, 36205226752, 36222009088, 36238777088,";
"	36255562496, 36272340736, 36289117952, 36305894656, 36322672384,";
"	36339448576, 36356217088, 36372997888, 36389773568, 36406551296,";
"	36423332096, 36440097536, 36456889088, 36473666816, 36490441472,";
"	36507221248, 36523989248, 36540774656, 36557549312, 36574326016,";
"	36591102208, 36607883008, 36624656128, 36641435392, 36658211584,";
"	36674992384, 36691763456, 36708538112, 36725320448, 36742100224,";
"	36758871808, 36775656704, 36792427264, 36809211136, 36825986816,";
"	36842758912, 36859540736, 36876309248, 36893087488, 36909874432,";
"	36926651648, 36943426816, 36960199424, 36976977152, 36993756928,";
"	37010537728, 37027307264, 37044090112, 37060863232, 37077647104,";
"	37094422784, 37111201024, 37127978752, 37144754432, 37161518848,";
"	37178308864, 37195086592, 37211862784, 37228641536, 37245416704,";
"	37262192896, 37278973696, 37295749376, 37312525568, 37329303296,";
"	37346075392, 37362858752, 37379629312, 37396403456, 37413189376,";
"	37429960448, 37446740224, 37463522048, 37480300288, 37497077504,";
"	37513854208, 37530629888, 37547403008, 37564182784, 37580963072,";
"	37597739264, 37614517504, 37631293184, 37648069376, 37664844544,";
"	37681626368, 37698401536, 37715171584, 37731953408, 37748731648,";
"	37765512448, 37782290176, 37799058688, 37815823616, 37832620288,";
"	37849394432, 37866172672, 37882951936, 37899730688, 37916500736,";
"	37933283072, 37950056192, 37966837504, 37983615232, 38000391424,";
"	38017169152, 38033947904, 38050721536, 38067499264, 38084280064,";
"	38101056256, 38117833984, 38134609664, 38151388928, 38168163584,";
"	38184937216, 38201719552, 38218494208, 38235268352, 38252052224,";
"	38268827392, 38285604608, 38302382336, 38319157504, 38335933184,";
"	38352710912, 38369479424, 38386267904, 38403044096, 38419820288,";
"	38436601088, 38453377792, 38470155008, 38486933248, 38503693568,";
"	38520487168, 38537264384, 38554037504, 38570818304, 38587595008,";
"}"]%string.
Check (eq_refl true <: same_text (lines octopus_lookup_go) (go_file (txt "octopus") octopus_cacheSizes octopus_datasetSizes) = true).
