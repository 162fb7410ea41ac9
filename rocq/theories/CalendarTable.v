(** The largest day fraction m * 2^e (a double) in each minute of the day; checked in CalendarProofs5. *)
From Coq Require Import ZArith List.
Import ListNotations.
Open Scope Z_scope.
Definition minute_ends : list (Z * Z) := [
(6405119470038038, -63); (6405119470038038, -62); (4803839602528528, -61); (6405119470038038, -61);
(8006399337547547, -61); (4803839602528528, -60); (5604479536283283, -60); (6405119470038038, -60);
(7205759403792792, -60); (8006399337547547, -60); (8807039271302302, -60); (4803839602528528, -59);
(5204159569405906, -59); (5604479536283283, -59); (6004799503160660, -59); (6405119470038038, -59);
(6805439436915415, -59); (7205759403792792, -59); (7606079370670170, -59); (8006399337547547, -59);
(8406719304424925, -59); (8807039271302302, -59); (4603679619089839, -58); (4803839602528528, -58);
(5003999585967217, -58); (5204159569405906, -58); (5404319552844594, -58); (5604479536283283, -58);
(5804639519721972, -58); (6004799503160660, -58); (6204959486599349, -58); (6405119470038038, -58);
(6605279453476726, -58); (6805439436915415, -58); (7005599420354104, -58); (7205759403792792, -58);
(7405919387231481, -58); (7606079370670170, -58); (7806239354108859, -58); (8006399337547547, -58);
(8206559320986236, -58); (8406719304424925, -58); (8606879287863613, -58); (8807039271302302, -58);
(9007199254740991, -58); (4603679619089839, -57); (4703759610809184, -57); (4803839602528528, -57);
(4903919594247873, -57); (5003999585967217, -57); (5104079577686561, -57); (5204159569405906, -57);
(5304239561125250, -57); (5404319552844594, -57); (5504399544563939, -57); (5604479536283283, -57);
(5704559528002627, -57); (5804639519721972, -57); (5904719511441316, -57); (6004799503160660, -57);
(6104879494880005, -57); (6204959486599349, -57); (6305039478318694, -57); (6405119470038038, -57);
(6505199461757382, -57); (6605279453476727, -57); (6705359445196071, -57); (6805439436915415, -57);
(6905519428634760, -57); (7005599420354104, -57); (7105679412073448, -57); (7205759403792793, -57);
(7305839395512137, -57); (7405919387231481, -57); (7505999378950826, -57); (7606079370670170, -57);
(7706159362389514, -57); (7806239354108859, -57); (7906319345828203, -57); (8006399337547547, -57);
(8106479329266892, -57); (8206559320986236, -57); (8306639312705580, -57); (8406719304424925, -57);
(8506799296144269, -57); (8606879287863614, -57); (8706959279582958, -57); (8807039271302302, -57);
(8907119263021647, -57); (9007199254740991, -57); (4553639623230167, -56); (4603679619089840, -56);
(4653719614949512, -56); (4703759610809184, -56); (4753799606668856, -56); (4803839602528528, -56);
(4853879598388200, -56); (4903919594247873, -56); (4953959590107545, -56); (5003999585967217, -56);
(5054039581826889, -56); (5104079577686561, -56); (5154119573546233, -56); (5204159569405906, -56);
(5254199565265578, -56); (5304239561125250, -56); (5354279556984922, -56); (5404319552844594, -56);
(5454359548704267, -56); (5504399544563939, -56); (5554439540423611, -56); (5604479536283283, -56);
(5654519532142955, -56); (5704559528002627, -56); (5754599523862300, -56); (5804639519721972, -56);
(5854679515581644, -56); (5904719511441316, -56); (5954759507300988, -56); (6004799503160660, -56);
(6054839499020333, -56); (6104879494880005, -56); (6154919490739677, -56); (6204959486599349, -56);
(6254999482459021, -56); (6305039478318694, -56); (6355079474178366, -56); (6405119470038038, -56);
(6455159465897710, -56); (6505199461757382, -56); (6555239457617054, -56); (6605279453476727, -56);
(6655319449336399, -56); (6705359445196071, -56); (6755399441055743, -56); (6805439436915415, -56);
(6855479432775087, -56); (6905519428634760, -56); (6955559424494432, -56); (7005599420354104, -56);
(7055639416213776, -56); (7105679412073448, -56); (7155719407933120, -56); (7205759403792793, -56);
(7255799399652465, -56); (7305839395512137, -56); (7355879391371809, -56); (7405919387231481, -56);
(7455959383091154, -56); (7505999378950826, -56); (7556039374810498, -56); (7606079370670170, -56);
(7656119366529842, -56); (7706159362389514, -56); (7756199358249187, -56); (7806239354108859, -56);
(7856279349968531, -56); (7906319345828203, -56); (7956359341687875, -56); (8006399337547547, -56);
(8056439333407220, -56); (8106479329266892, -56); (8156519325126564, -56); (8206559320986236, -56);
(8256599316845908, -56); (8306639312705580, -56); (8356679308565253, -56); (8406719304424925, -56);
(8456759300284597, -56); (8506799296144269, -56); (8556839292003941, -56); (8606879287863614, -56);
(8656919283723286, -56); (8706959279582958, -56); (8756999275442630, -56); (8807039271302302, -56);
(8857079267161974, -56); (8907119263021647, -56); (8957159258881319, -56); (9007199254740991, -56);
(4528619625300332, -55); (4553639623230168, -55); (4578659621160004, -55); (4603679619089840, -55);
(4628699617019676, -55); (4653719614949512, -55); (4678739612879348, -55); (4703759610809184, -55);
(4728779608739020, -55); (4753799606668856, -55); (4778819604598692, -55); (4803839602528529, -55);
(4828859600458365, -55); (4853879598388201, -55); (4878899596318037, -55); (4903919594247873, -55);
(4928939592177709, -55); (4953959590107545, -55); (4978979588037381, -55); (5003999585967217, -55);
(5029019583897053, -55); (5054039581826889, -55); (5079059579756725, -55); (5104079577686562, -55);
(5129099575616398, -55); (5154119573546234, -55); (5179139571476070, -55); (5204159569405906, -55);
(5229179567335742, -55); (5254199565265578, -55); (5279219563195414, -55); (5304239561125250, -55);
(5329259559055086, -55); (5354279556984922, -55); (5379299554914759, -55); (5404319552844595, -55);
(5429339550774431, -55); (5454359548704267, -55); (5479379546634103, -55); (5504399544563939, -55);
(5529419542493775, -55); (5554439540423611, -55); (5579459538353447, -55); (5604479536283283, -55);
(5629499534213119, -55); (5654519532142955, -55); (5679539530072792, -55); (5704559528002628, -55);
(5729579525932464, -55); (5754599523862300, -55); (5779619521792136, -55); (5804639519721972, -55);
(5829659517651808, -55); (5854679515581644, -55); (5879699513511480, -55); (5904719511441316, -55);
(5929739509371152, -55); (5954759507300989, -55); (5979779505230825, -55); (6004799503160660, -55);
(6029819501090497, -55); (6054839499020333, -55); (6079859496950169, -55); (6104879494880005, -55);
(6129899492809841, -55); (6154919490739677, -55); (6179939488669513, -55); (6204959486599349, -55);
(6229979484529185, -55); (6254999482459021, -55); (6280019480388857, -55); (6305039478318694, -55);
(6330059476248530, -55); (6355079474178366, -55); (6380099472108202, -55); (6405119470038038, -55);
(6430139467967874, -55); (6455159465897710, -55); (6480179463827546, -55); (6505199461757382, -55);
(6530219459687218, -55); (6555239457617054, -55); (6580259455546890, -55); (6605279453476727, -55);
(6630299451406563, -55); (6655319449336399, -55); (6680339447266235, -55); (6705359445196071, -55);
(6730379443125907, -55); (6755399441055743, -55); (6780419438985579, -55); (6805439436915415, -55);
(6830459434845251, -55); (6855479432775087, -55); (6880499430704924, -55); (6905519428634760, -55);
(6930539426564596, -55); (6955559424494432, -55); (6980579422424268, -55); (7005599420354104, -55);
(7030619418283940, -55); (7055639416213776, -55); (7080659414143612, -55); (7105679412073448, -55);
(7130699410003284, -55); (7155719407933120, -55); (7180739405862957, -55); (7205759403792793, -55);
(7230779401722629, -55); (7255799399652465, -55); (7280819397582301, -55); (7305839395512137, -55);
(7330859393441973, -55); (7355879391371809, -55); (7380899389301645, -55); (7405919387231481, -55);
(7430939385161317, -55); (7455959383091154, -55); (7480979381020990, -55); (7505999378950825, -55);
(7531019376880663, -55); (7556039374810499, -55); (7581059372740335, -55); (7606079370670171, -55);
(7631099368600007, -55); (7656119366529843, -55); (7681139364459679, -55); (7706159362389515, -55);
(7731179360319351, -55); (7756199358249187, -55); (7781219356179023, -55); (7806239354108860, -55);
(7831259352038696, -55); (7856279349968532, -55); (7881299347898368, -55); (7906319345828204, -55);
(7931339343758040, -55); (7956359341687876, -55); (7981379339617712, -55); (8006399337547548, -55);
(8031419335477384, -55); (8056439333407220, -55); (8081459331337056, -55); (8106479329266893, -55);
(8131499327196729, -55); (8156519325126565, -55); (8181539323056401, -55); (8206559320986237, -55);
(8231579318916073, -55); (8256599316845909, -55); (8281619314775745, -55); (8306639312705581, -55);
(8331659310635417, -55); (8356679308565253, -55); (8381699306495090, -55); (8406719304424926, -55);
(8431739302354762, -55); (8456759300284598, -55); (8481779298214434, -55); (8506799296144270, -55);
(8531819294074106, -55); (8556839292003942, -55); (8581859289933778, -55); (8606879287863614, -55);
(8631899285793450, -55); (8656919283723286, -55); (8681939281653123, -55); (8706959279582959, -55);
(8731979277512795, -55); (8756999275442631, -55); (8782019273372467, -55); (8807039271302303, -55);
(8832059269232139, -55); (8857079267161975, -55); (8882099265091811, -55); (8907119263021647, -55);
(8932139260951483, -55); (8957159258881320, -55); (8982179256811156, -55); (9007199254740991, -55);
(4516109626335414, -54); (4528619625300332, -54); (4541129624265250, -54); (4553639623230168, -54);
(4566149622195086, -54); (4578659621160004, -54); (4591169620124922, -54); (4603679619089840, -54);
(4616189618054758, -54); (4628699617019676, -54); (4641209615984594, -54); (4653719614949512, -54);
(4666229613914430, -54); (4678739612879348, -54); (4691249611844266, -54); (4703759610809184, -54);
(4716269609774102, -54); (4728779608739020, -54); (4741289607703938, -54); (4753799606668856, -54);
(4766309605633774, -54); (4778819604598692, -54); (4791329603563610, -54); (4803839602528529, -54);
(4816349601493447, -54); (4828859600458365, -54); (4841369599423283, -54); (4853879598388201, -54);
(4866389597353119, -54); (4878899596318037, -54); (4891409595282955, -54); (4903919594247873, -54);
(4916429593212791, -54); (4928939592177709, -54); (4941449591142627, -54); (4953959590107545, -54);
(4966469589072463, -54); (4978979588037381, -54); (4991489587002299, -54); (5003999585967217, -54);
(5016509584932135, -54); (5029019583897053, -54); (5041529582861971, -54); (5054039581826889, -54);
(5066549580791807, -54); (5079059579756725, -54); (5091569578721644, -54); (5104079577686562, -54);
(5116589576651480, -54); (5129099575616398, -54); (5141609574581316, -54); (5154119573546234, -54);
(5166629572511152, -54); (5179139571476070, -54); (5191649570440988, -54); (5204159569405906, -54);
(5216669568370824, -54); (5229179567335742, -54); (5241689566300660, -54); (5254199565265578, -54);
(5266709564230497, -54); (5279219563195415, -54); (5291729562160333, -54); (5304239561125251, -54);
(5316749560090169, -54); (5329259559055087, -54); (5341769558020005, -54); (5354279556984923, -54);
(5366789555949841, -54); (5379299554914759, -54); (5391809553879677, -54); (5404319552844595, -54);
(5416829551809513, -54); (5429339550774431, -54); (5441849549739349, -54); (5454359548704267, -54);
(5466869547669185, -54); (5479379546634103, -54); (5491889545599021, -54); (5504399544563939, -54);
(5516909543528857, -54); (5529419542493775, -54); (5541929541458693, -54); (5554439540423612, -54);
(5566949539388530, -54); (5579459538353448, -54); (5591969537318366, -54); (5604479536283284, -54);
(5616989535248202, -54); (5629499534213120, -54); (5642009533178038, -54); (5654519532142956, -54);
(5667029531107874, -54); (5679539530072792, -54); (5692049529037710, -54); (5704559528002628, -54);
(5717069526967546, -54); (5729579525932464, -54); (5742089524897382, -54); (5754599523862300, -54);
(5767109522827218, -54); (5779619521792136, -54); (5792129520757054, -54); (5804639519721972, -54);
(5817149518686890, -54); (5829659517651808, -54); (5842169516616727, -54); (5854679515581645, -54);
(5867189514546563, -54); (5879699513511481, -54); (5892209512476399, -54); (5904719511441317, -54);
(5917229510406235, -54); (5929739509371153, -54); (5942249508336071, -54); (5954759507300989, -54);
(5967269506265907, -54); (5979779505230825, -54); (5992289504195743, -54); (6004799503160660, -54);
(6017309502125579, -54); (6029819501090497, -54); (6042329500055415, -54); (6054839499020333, -54);
(6067349497985251, -54); (6079859496950169, -54); (6092369495915087, -54); (6104879494880005, -54);
(6117389493844923, -54); (6129899492809841, -54); (6142409491774759, -54); (6154919490739677, -54);
(6167429489704595, -54); (6179939488669513, -54); (6192449487634431, -54); (6204959486599349, -54);
(6217469485564267, -54); (6229979484529185, -54); (6242489483494103, -54); (6254999482459021, -54);
(6267509481423939, -54); (6280019480388857, -54); (6292529479353775, -54); (6305039478318694, -54);
(6317549477283612, -54); (6330059476248530, -54); (6342569475213448, -54); (6355079474178366, -54);
(6367589473143284, -54); (6380099472108202, -54); (6392609471073120, -54); (6405119470038038, -54);
(6417629469002956, -54); (6430139467967874, -54); (6442649466932792, -54); (6455159465897710, -54);
(6467669464862628, -54); (6480179463827546, -54); (6492689462792464, -54); (6505199461757382, -54);
(6517709460722300, -54); (6530219459687218, -54); (6542729458652136, -54); (6555239457617054, -54);
(6567749456581972, -54); (6580259455546890, -54); (6592769454511809, -54); (6605279453476727, -54);
(6617789452441645, -54); (6630299451406563, -54); (6642809450371481, -54); (6655319449336399, -54);
(6667829448301317, -54); (6680339447266235, -54); (6692849446231153, -54); (6705359445196071, -54);
(6717869444160989, -54); (6730379443125907, -54); (6742889442090825, -54); (6755399441055743, -54);
(6767909440020662, -54); (6780419438985580, -54); (6792929437950498, -54); (6805439436915416, -54);
(6817949435880334, -54); (6830459434845252, -54); (6842969433810170, -54); (6855479432775088, -54);
(6867989431740006, -54); (6880499430704924, -54); (6893009429669842, -54); (6905519428634760, -54);
(6918029427599678, -54); (6930539426564596, -54); (6943049425529514, -54); (6955559424494432, -54);
(6968069423459350, -54); (6980579422424268, -54); (6993089421389186, -54); (7005599420354104, -54);
(7018109419319022, -54); (7030619418283940, -54); (7043129417248858, -54); (7055639416213777, -54);
(7068149415178695, -54); (7080659414143613, -54); (7093169413108531, -54); (7105679412073449, -54);
(7118189411038367, -54); (7130699410003285, -54); (7143209408968203, -54); (7155719407933121, -54);
(7168229406898039, -54); (7180739405862957, -54); (7193249404827875, -54); (7205759403792793, -54);
(7218269402757711, -54); (7230779401722629, -54); (7243289400687547, -54); (7255799399652465, -54);
(7268309398617383, -54); (7280819397582301, -54); (7293329396547219, -54); (7305839395512137, -54);
(7318349394477055, -54); (7330859393441973, -54); (7343369392406892, -54); (7355879391371810, -54);
(7368389390336728, -54); (7380899389301646, -54); (7393409388266564, -54); (7405919387231482, -54);
(7418429386196400, -54); (7430939385161318, -54); (7443449384126236, -54); (7455959383091154, -54);
(7468469382056072, -54); (7480979381020990, -54); (7493489379985908, -54); (7505999378950825, -54);
(7518509377915745, -54); (7531019376880663, -54); (7543529375845581, -54); (7556039374810499, -54);
(7568549373775417, -54); (7581059372740335, -54); (7593569371705253, -54); (7606079370670171, -54);
(7618589369635089, -54); (7631099368600007, -54); (7643609367564925, -54); (7656119366529843, -54);
(7668629365494761, -54); (7681139364459679, -54); (7693649363424597, -54); (7706159362389515, -54);
(7718669361354433, -54); (7731179360319351, -54); (7743689359284269, -54); (7756199358249187, -54);
(7768709357214105, -54); (7781219356179023, -54); (7793729355143941, -54); (7806239354108860, -54);
(7818749353073778, -54); (7831259352038696, -54); (7843769351003614, -54); (7856279349968532, -54);
(7868789348933450, -54); (7881299347898368, -54); (7893809346863286, -54); (7906319345828204, -54);
(7918829344793122, -54); (7931339343758040, -54); (7943849342722958, -54); (7956359341687876, -54);
(7968869340652794, -54); (7981379339617712, -54); (7993889338582630, -54); (8006399337547548, -54);
(8018909336512466, -54); (8031419335477384, -54); (8043929334442302, -54); (8056439333407220, -54);
(8068949332372138, -54); (8081459331337056, -54); (8093969330301975, -54); (8106479329266893, -54);
(8118989328231811, -54); (8131499327196729, -54); (8144009326161647, -54); (8156519325126565, -54);
(8169029324091483, -54); (8181539323056401, -54); (8194049322021319, -54); (8206559320986237, -54);
(8219069319951155, -54); (8231579318916073, -54); (8244089317880991, -54); (8256599316845908, -54);
(8269109315810827, -54); (8281619314775745, -54); (8294129313740663, -54); (8306639312705581, -54);
(8319149311670499, -54); (8331659310635417, -54); (8344169309600335, -54); (8356679308565253, -54);
(8369189307530171, -54); (8381699306495089, -54); (8394209305460007, -54); (8406719304424925, -54);
(8419229303389843, -54); (8431739302354761, -54); (8444249301319679, -54); (8456759300284597, -54);
(8469269299249515, -54); (8481779298214433, -54); (8494289297179351, -54); (8506799296144269, -54);
(8519309295109187, -54); (8531819294074105, -54); (8544329293039023, -54); (8556839292003942, -54);
(8569349290968860, -54); (8581859289933778, -54); (8594369288898696, -54); (8606879287863614, -54);
(8619389286828532, -54); (8631899285793450, -54); (8644409284758368, -54); (8656919283723286, -54);
(8669429282688204, -54); (8681939281653122, -54); (8694449280618040, -54); (8706959279582958, -54);
(8719469278547876, -54); (8731979277512794, -54); (8744489276477712, -54); (8756999275442630, -54);
(8769509274407548, -54); (8782019273372466, -54); (8794529272337384, -54); (8807039271302302, -54);
(8819549270267220, -54); (8832059269232138, -54); (8844569268197057, -54); (8857079267161975, -54);
(8869589266126893, -54); (8882099265091811, -54); (8894609264056729, -54); (8907119263021647, -54);
(8919629261986565, -54); (8932139260951483, -54); (8944649259916401, -54); (8957159258881319, -54);
(8969669257846237, -54); (8982179256811155, -54); (8994689255776073, -54); (9007199254740991, -54);
(4509854626852955, -53); (4516109626335414, -53); (4522364625817873, -53); (4528619625300332, -53);
(4534874624782791, -53); (4541129624265250, -53); (4547384623747709, -53); (4553639623230168, -53);
(4559894622712627, -53); (4566149622195086, -53); (4572404621677545, -53); (4578659621160004, -53);
(4584914620642463, -53); (4591169620124922, -53); (4597424619607381, -53); (4603679619089840, -53);
(4609934618572299, -53); (4616189618054758, -53); (4622444617537217, -53); (4628699617019676, -53);
(4634954616502135, -53); (4641209615984594, -53); (4647464615467053, -53); (4653719614949512, -53);
(4659974614431971, -53); (4666229613914430, -53); (4672484613396889, -53); (4678739612879348, -53);
(4684994612361807, -53); (4691249611844266, -53); (4697504611326725, -53); (4703759610809184, -53);
(4710014610291643, -53); (4716269609774102, -53); (4722524609256561, -53); (4728779608739020, -53);
(4735034608221479, -53); (4741289607703938, -53); (4747544607186397, -53); (4753799606668856, -53);
(4760054606151315, -53); (4766309605633774, -53); (4772564605116233, -53); (4778819604598692, -53);
(4785074604081151, -53); (4791329603563610, -53); (4797584603046070, -53); (4803839602528529, -53);
(4810094602010988, -53); (4816349601493447, -53); (4822604600975906, -53); (4828859600458365, -53);
(4835114599940824, -53); (4841369599423283, -53); (4847624598905742, -53); (4853879598388201, -53);
(4860134597870660, -53); (4866389597353119, -53); (4872644596835578, -53); (4878899596318036, -53);
(4885154595800496, -53); (4891409595282955, -53); (4897664594765414, -53); (4903919594247873, -53);
(4910174593730332, -53); (4916429593212791, -53); (4922684592695250, -53); (4928939592177709, -53);
(4935194591660168, -53); (4941449591142627, -53); (4947704590625086, -53); (4953959590107545, -53);
(4960214589590004, -53); (4966469589072463, -53); (4972724588554922, -53); (4978979588037381, -53);
(4985234587519840, -53); (4991489587002299, -53); (4997744586484758, -53); (5003999585967217, -53);
(5010254585449676, -53); (5016509584932135, -53); (5022764584414594, -53); (5029019583897053, -53);
(5035274583379512, -53); (5041529582861971, -53); (5047784582344430, -53); (5054039581826889, -53);
(5060294581309348, -53); (5066549580791807, -53); (5072804580274266, -53); (5079059579756725, -53);
(5085314579239184, -53); (5091569578721643, -53); (5097824578204102, -53); (5104079577686561, -53);
(5110334577169020, -53); (5116589576651479, -53); (5122844576133938, -53); (5129099575616397, -53);
(5135354575098856, -53); (5141609574581315, -53); (5147864574063774, -53); (5154119573546233, -53);
(5160374573028692, -53); (5166629572511151, -53); (5172884571993611, -53); (5179139571476070, -53);
(5185394570958529, -53); (5191649570440988, -53); (5197904569923447, -53); (5204159569405906, -53);
(5210414568888365, -53); (5216669568370824, -53); (5222924567853283, -53); (5229179567335742, -53);
(5235434566818201, -53); (5241689566300660, -53); (5247944565783119, -53); (5254199565265578, -53);
(5260454564748038, -53); (5266709564230497, -53); (5272964563712956, -53); (5279219563195415, -53);
(5285474562677874, -53); (5291729562160333, -53); (5297984561642792, -53); (5304239561125251, -53);
(5310494560607710, -53); (5316749560090169, -53); (5323004559572628, -53); (5329259559055087, -53);
(5335514558537546, -53); (5341769558020005, -53); (5348024557502464, -53); (5354279556984923, -53);
(5360534556467382, -53); (5366789555949841, -53); (5373044555432300, -53); (5379299554914759, -53);
(5385554554397218, -53); (5391809553879677, -53); (5398064553362136, -53); (5404319552844595, -53);
(5410574552327054, -53); (5416829551809513, -53); (5423084551291972, -53); (5429339550774431, -53);
(5435594550256890, -53); (5441849549739349, -53); (5448104549221808, -53); (5454359548704267, -53);
(5460614548186726, -53); (5466869547669185, -53); (5473124547151644, -53); (5479379546634103, -53);
(5485634546116562, -53); (5491889545599021, -53); (5498144545081480, -53); (5504399544563939, -53);
(5510654544046398, -53); (5516909543528857, -53); (5523164543011316, -53); (5529419542493775, -53);
(5535674541976234, -53); (5541929541458693, -53); (5548184540941153, -53); (5554439540423612, -53);
(5560694539906071, -53); (5566949539388530, -53); (5573204538870989, -53); (5579459538353448, -53);
(5585714537835907, -53); (5591969537318366, -53); (5598224536800825, -53); (5604479536283284, -53);
(5610734535765743, -53); (5616989535248202, -53); (5623244534730661, -53); (5629499534213119, -53);
(5635754533695579, -53); (5642009533178038, -53); (5648264532660497, -53); (5654519532142956, -53);
(5660774531625415, -53); (5667029531107874, -53); (5673284530590333, -53); (5679539530072792, -53);
(5685794529555251, -53); (5692049529037710, -53); (5698304528520169, -53); (5704559528002628, -53);
(5710814527485087, -53); (5717069526967546, -53); (5723324526450005, -53); (5729579525932464, -53);
(5735834525414923, -53); (5742089524897382, -53); (5748344524379841, -53); (5754599523862300, -53);
(5760854523344759, -53); (5767109522827218, -53); (5773364522309677, -53); (5779619521792136, -53);
(5785874521274595, -53); (5792129520757054, -53); (5798384520239513, -53); (5804639519721972, -53);
(5810894519204431, -53); (5817149518686890, -53); (5823404518169349, -53); (5829659517651808, -53);
(5835914517134267, -53); (5842169516616726, -53); (5848424516099185, -53); (5854679515581644, -53);
(5860934515064103, -53); (5867189514546562, -53); (5873444514029021, -53); (5879699513511480, -53);
(5885954512993939, -53); (5892209512476398, -53); (5898464511958857, -53); (5904719511441316, -53);
(5910974510923775, -53); (5917229510406234, -53); (5923484509888694, -53); (5929739509371153, -53);
(5935994508853612, -53); (5942249508336071, -53); (5948504507818530, -53); (5954759507300989, -53);
(5961014506783448, -53); (5967269506265907, -53); (5973524505748366, -53); (5979779505230825, -53);
(5986034504713284, -53); (5992289504195743, -53); (5998544503678202, -53); (6004799503160660, -53);
(6011054502643120, -53); (6017309502125579, -53); (6023564501608038, -53); (6029819501090497, -53);
(6036074500572956, -53); (6042329500055415, -53); (6048584499537874, -53); (6054839499020333, -53);
(6061094498502792, -53); (6067349497985251, -53); (6073604497467710, -53); (6079859496950169, -53);
(6086114496432628, -53); (6092369495915087, -53); (6098624495397546, -53); (6104879494880005, -53);
(6111134494362464, -53); (6117389493844923, -53); (6123644493327382, -53); (6129899492809841, -53);
(6136154492292300, -53); (6142409491774759, -53); (6148664491257218, -53); (6154919490739677, -53);
(6161174490222136, -53); (6167429489704595, -53); (6173684489187054, -53); (6179939488669513, -53);
(6186194488151972, -53); (6192449487634431, -53); (6198704487116890, -53); (6204959486599349, -53);
(6211214486081808, -53); (6217469485564267, -53); (6223724485046726, -53); (6229979484529185, -53);
(6236234484011644, -53); (6242489483494103, -53); (6248744482976562, -53); (6254999482459021, -53);
(6261254481941480, -53); (6267509481423939, -53); (6273764480906398, -53); (6280019480388857, -53);
(6286274479871316, -53); (6292529479353775, -53); (6298784478836235, -53); (6305039478318694, -53);
(6311294477801153, -53); (6317549477283612, -53); (6323804476766071, -53); (6330059476248530, -53);
(6336314475730989, -53); (6342569475213448, -53); (6348824474695907, -53); (6355079474178366, -53);
(6361334473660825, -53); (6367589473143284, -53); (6373844472625743, -53); (6380099472108201, -53);
(6386354471590662, -53); (6392609471073121, -53); (6398864470555580, -53); (6405119470038039, -53);
(6411374469520498, -53); (6417629469002957, -53); (6423884468485416, -53); (6430139467967875, -53);
(6436394467450334, -53); (6442649466932793, -53); (6448904466415252, -53); (6455159465897711, -53);
(6461414465380170, -53); (6467669464862629, -53); (6473924464345088, -53); (6480179463827547, -53);
(6486434463310006, -53); (6492689462792465, -53); (6498944462274924, -53); (6505199461757383, -53);
(6511454461239842, -53); (6517709460722301, -53); (6523964460204760, -53); (6530219459687219, -53);
(6536474459169678, -53); (6542729458652137, -53); (6548984458134596, -53); (6555239457617055, -53);
(6561494457099514, -53); (6567749456581973, -53); (6574004456064432, -53); (6580259455546891, -53);
(6586514455029350, -53); (6592769454511809, -53); (6599024453994268, -53); (6605279453476727, -53);
(6611534452959186, -53); (6617789452441645, -53); (6624044451924104, -53); (6630299451406563, -53);
(6636554450889022, -53); (6642809450371481, -53); (6649064449853940, -53); (6655319449336399, -53);
(6661574448818858, -53); (6667829448301317, -53); (6674084447783777, -53); (6680339447266236, -53);
(6686594446748695, -53); (6692849446231154, -53); (6699104445713613, -53); (6705359445196072, -53);
(6711614444678531, -53); (6717869444160990, -53); (6724124443643449, -53); (6730379443125908, -53);
(6736634442608367, -53); (6742889442090826, -53); (6749144441573285, -53); (6755399441055743, -53);
(6761654440538203, -53); (6767909440020662, -53); (6774164439503121, -53); (6780419438985580, -53);
(6786674438468039, -53); (6792929437950498, -53); (6799184437432957, -53); (6805439436915416, -53);
(6811694436397875, -53); (6817949435880334, -53); (6824204435362793, -53); (6830459434845252, -53);
(6836714434327711, -53); (6842969433810170, -53); (6849224433292629, -53); (6855479432775088, -53);
(6861734432257547, -53); (6867989431740006, -53); (6874244431222465, -53); (6880499430704924, -53);
(6886754430187383, -53); (6893009429669842, -53); (6899264429152301, -53); (6905519428634760, -53);
(6911774428117219, -53); (6918029427599678, -53); (6924284427082137, -53); (6930539426564596, -53);
(6936794426047055, -53); (6943049425529514, -53); (6949304425011973, -53); (6955559424494432, -53);
(6961814423976891, -53); (6968069423459350, -53); (6974324422941809, -53); (6980579422424268, -53);
(6986834421906727, -53); (6993089421389186, -53); (6999344420871645, -53); (7005599420354104, -53);
(7011854419836563, -53); (7018109419319022, -53); (7024364418801481, -53); (7030619418283940, -53);
(7036874417766399, -53); (7043129417248858, -53); (7049384416731318, -53); (7055639416213777, -53);
(7061894415696236, -53); (7068149415178695, -53); (7074404414661154, -53); (7080659414143613, -53);
(7086914413626072, -53); (7093169413108531, -53); (7099424412590990, -53); (7105679412073449, -53);
(7111934411555908, -53); (7118189411038367, -53); (7124444410520826, -53); (7130699410003284, -53);
(7136954409485744, -53); (7143209408968203, -53); (7149464408450662, -53); (7155719407933121, -53);
(7161974407415580, -53); (7168229406898039, -53); (7174484406380498, -53); (7180739405862957, -53);
(7186994405345416, -53); (7193249404827875, -53); (7199504404310334, -53); (7205759403792793, -53);
(7212014403275252, -53); (7218269402757711, -53); (7224524402240170, -53); (7230779401722629, -53);
(7237034401205088, -53); (7243289400687547, -53); (7249544400170006, -53); (7255799399652465, -53);
(7262054399134924, -53); (7268309398617383, -53); (7274564398099842, -53); (7280819397582301, -53);
(7287074397064760, -53); (7293329396547219, -53); (7299584396029678, -53); (7305839395512137, -53);
(7312094394994596, -53); (7318349394477055, -53); (7324604393959514, -53); (7330859393441973, -53);
(7337114392924432, -53); (7343369392406891, -53); (7349624391889350, -53); (7355879391371809, -53);
(7362134390854268, -53); (7368389390336727, -53); (7374644389819186, -53); (7380899389301645, -53);
(7387154388784104, -53); (7393409388266563, -53); (7399664387749022, -53); (7405919387231481, -53);
(7412174386713940, -53); (7418429386196399, -53); (7424684385678859, -53); (7430939385161318, -53);
(7437194384643777, -53); (7443449384126236, -53); (7449704383608695, -53); (7455959383091154, -53);
(7462214382573613, -53); (7468469382056072, -53); (7474724381538531, -53); (7480979381020990, -53);
(7487234380503449, -53); (7493489379985908, -53); (7499744379468367, -53); (7505999378950825, -53);
(7512254378433286, -53); (7518509377915745, -53); (7524764377398204, -53); (7531019376880663, -53);
(7537274376363122, -53); (7543529375845581, -53); (7549784375328040, -53); (7556039374810499, -53);
(7562294374292958, -53); (7568549373775417, -53); (7574804373257876, -53); (7581059372740335, -53);
(7587314372222794, -53); (7593569371705253, -53); (7599824371187712, -53); (7606079370670171, -53);
(7612334370152630, -53); (7618589369635089, -53); (7624844369117548, -53); (7631099368600007, -53);
(7637354368082466, -53); (7643609367564925, -53); (7649864367047384, -53); (7656119366529843, -53);
(7662374366012302, -53); (7668629365494761, -53); (7674884364977220, -53); (7681139364459679, -53);
(7687394363942138, -53); (7693649363424597, -53); (7699904362907056, -53); (7706159362389515, -53);
(7712414361871974, -53); (7718669361354433, -53); (7724924360836892, -53); (7731179360319351, -53);
(7737434359801810, -53); (7743689359284269, -53); (7749944358766728, -53); (7756199358249187, -53);
(7762454357731646, -53); (7768709357214105, -53); (7774964356696564, -53); (7781219356179023, -53);
(7787474355661482, -53); (7793729355143941, -53); (7799984354626401, -53); (7806239354108860, -53);
(7812494353591319, -53); (7818749353073778, -53); (7825004352556237, -53); (7831259352038696, -53);
(7837514351521155, -53); (7843769351003614, -53); (7850024350486073, -53); (7856279349968532, -53);
(7862534349450991, -53); (7868789348933450, -53); (7875044348415909, -53); (7881299347898367, -53);
(7887554347380827, -53); (7893809346863286, -53); (7900064346345745, -53); (7906319345828204, -53);
(7912574345310663, -53); (7918829344793122, -53); (7925084344275581, -53); (7931339343758040, -53);
(7937594343240499, -53); (7943849342722958, -53); (7950104342205417, -53); (7956359341687876, -53);
(7962614341170335, -53); (7968869340652794, -53); (7975124340135253, -53); (7981379339617712, -53);
(7987634339100171, -53); (7993889338582630, -53); (8000144338065089, -53); (8006399337547548, -53);
(8012654337030007, -53); (8018909336512466, -53); (8025164335994925, -53); (8031419335477384, -53);
(8037674334959843, -53); (8043929334442302, -53); (8050184333924761, -53); (8056439333407220, -53);
(8062694332889679, -53); (8068949332372138, -53); (8075204331854597, -53); (8081459331337056, -53);
(8087714330819515, -53); (8093969330301974, -53); (8100224329784433, -53); (8106479329266892, -53);
(8112734328749351, -53); (8118989328231810, -53); (8125244327714269, -53); (8131499327196728, -53);
(8137754326679187, -53); (8144009326161646, -53); (8150264325644105, -53); (8156519325126564, -53);
(8162774324609023, -53); (8169029324091482, -53); (8175284323573942, -53); (8181539323056401, -53);
(8187794322538860, -53); (8194049322021319, -53); (8200304321503778, -53); (8206559320986237, -53);
(8212814320468696, -53); (8219069319951155, -53); (8225324319433614, -53); (8231579318916073, -53);
(8237834318398532, -53); (8244089317880991, -53); (8250344317363450, -53); (8256599316845908, -53);
(8262854316328368, -53); (8269109315810827, -53); (8275364315293286, -53); (8281619314775745, -53);
(8287874314258204, -53); (8294129313740663, -53); (8300384313223122, -53); (8306639312705581, -53);
(8312894312188040, -53); (8319149311670499, -53); (8325404311152958, -53); (8331659310635417, -53);
(8337914310117876, -53); (8344169309600335, -53); (8350424309082794, -53); (8356679308565253, -53);
(8362934308047712, -53); (8369189307530171, -53); (8375444307012630, -53); (8381699306495089, -53);
(8387954305977548, -53); (8394209305460007, -53); (8400464304942466, -53); (8406719304424925, -53);
(8412974303907384, -53); (8419229303389843, -53); (8425484302872302, -53); (8431739302354761, -53);
(8437994301837220, -53); (8444249301319679, -53); (8450504300802138, -53); (8456759300284597, -53);
(8463014299767056, -53); (8469269299249515, -53); (8475524298731974, -53); (8481779298214433, -53);
(8488034297696892, -53); (8494289297179351, -53); (8500544296661810, -53); (8506799296144269, -53);
(8513054295626728, -53); (8519309295109187, -53); (8525564294591646, -53); (8531819294074105, -53);
(8538074293556564, -53); (8544329293039023, -53); (8550584292521483, -53); (8556839292003942, -53);
(8563094291486401, -53); (8569349290968860, -53); (8575604290451319, -53); (8581859289933778, -53);
(8588114289416237, -53); (8594369288898696, -53); (8600624288381155, -53); (8606879287863614, -53);
(8613134287346073, -53); (8619389286828532, -53); (8625644286310991, -53); (8631899285793449, -53);
(8638154285275910, -53); (8644409284758369, -53); (8650664284240828, -53); (8656919283723287, -53);
(8663174283205746, -53); (8669429282688205, -53); (8675684282170664, -53); (8681939281653123, -53);
(8688194281135582, -53); (8694449280618041, -53); (8700704280100500, -53); (8706959279582959, -53);
(8713214279065418, -53); (8719469278547877, -53); (8725724278030336, -53); (8731979277512795, -53);
(8738234276995254, -53); (8744489276477713, -53); (8750744275960172, -53); (8756999275442631, -53);
(8763254274925090, -53); (8769509274407549, -53); (8775764273890008, -53); (8782019273372467, -53);
(8788274272854926, -53); (8794529272337385, -53); (8800784271819844, -53); (8807039271302303, -53);
(8813294270784762, -53); (8819549270267221, -53); (8825804269749680, -53); (8832059269232139, -53);
(8838314268714598, -53); (8844569268197057, -53); (8850824267679516, -53); (8857079267161975, -53);
(8863334266644434, -53); (8869589266126893, -53); (8875844265609352, -53); (8882099265091811, -53);
(8888354264574270, -53); (8894609264056729, -53); (8900864263539188, -53); (8907119263021647, -53);
(8913374262504106, -53); (8919629261986565, -53); (8925884261469025, -53); (8932139260951484, -53);
(8938394260433943, -53); (8944649259916402, -53); (8950904259398861, -53); (8957159258881320, -53);
(8963414258363779, -53); (8969669257846238, -53); (8975924257328697, -53); (8982179256811156, -53);
(8988434256293615, -53); (8994689255776074, -53); (9000944255258533, -53); (9007199254740991, -53)
].
