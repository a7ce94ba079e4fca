(* GENERATED by tools/gen_tables.py from /repo/panels/core/src/bardell_functions.cpp -- do not edit *)
From Coq Require Import ZArith List.
Import ListNotations.
Open Scope Z_scope.

(* One entry per index i = 0..29 : (boundary flag multiplying the polynomial, if any;
   terms (exponent, (mantissa, decimals))), i.e. mantissa / 10^decimals * xi^exponent.
   flag 0,1,2,3 = xi1t, xi1r, xi2t, xi2r.
   vec_* : the arrays filled by vec_f, vec_fp, vec_fpp; lit_* : the switch of f, fp, fpp. *)
Definition lit_entry : Type := (option nat * list (nat * (Z * nat)))%type.

Definition vec_f : list lit_entry := [
  (Some 0%nat, [(3%nat,(25,2%nat)); (1%nat,((-75),2%nat)); (0%nat,(5,1%nat))]);
  (Some 1%nat, [(3%nat,(125,3%nat)); (2%nat,((-125),3%nat)); (1%nat,((-125),3%nat)); (0%nat,(125,3%nat))]);
  (Some 2%nat, [(3%nat,((-25),2%nat)); (1%nat,(75,2%nat)); (0%nat,(5,1%nat))]);
  (Some 3%nat, [(3%nat,(125,3%nat)); (2%nat,(125,3%nat)); (1%nat,((-125),3%nat)); (0%nat,((-125),3%nat))]);
  (None, [(4%nat,(125,3%nat)); (2%nat,((-25),2%nat)); (0%nat,(125,3%nat))]);
  (None, [(5%nat,(125,3%nat)); (3%nat,((-25),2%nat)); (1%nat,(125,3%nat))]);
  (None, [(6%nat,(145833333333333,15%nat)); (4%nat,((-3125),4%nat)); (2%nat,(1875,4%nat)); (0%nat,((-208333333333333),16%nat))]);
  (None, [(7%nat,(1875,4%nat)); (5%nat,((-4375),4%nat)); (3%nat,(3125,4%nat)); (1%nat,((-625),4%nat))]);
  (None, [(8%nat,(2578125,7%nat)); (6%nat,((-65625),5%nat)); (4%nat,(546875,6%nat)); (2%nat,((-15625),5%nat)); (0%nat,(78125,7%nat))]);
  (None, [(9%nat,(372395833333333,15%nat)); (7%nat,((-103125),5%nat)); (5%nat,(984375,6%nat)); (3%nat,((-364583333333333),15%nat)); (1%nat,(390625,7%nat))]);
  (None, [(10%nat,(55859375,8%nat)); (8%nat,((-167578125),8%nat)); (6%nat,(18046875,7%nat)); (4%nat,((-8203125),7%nat)); (2%nat,(13671875,8%nat)); (0%nat,((-390625),8%nat))]);
  (None, [(11%nat,(86328125,8%nat)); (9%nat,((-279296875),8%nat)); (7%nat,(33515625,7%nat)); (5%nat,((-18046875),7%nat)); (3%nat,(41015625,8%nat)); (1%nat,((-2734375),8%nat))]);
  (None, [(12%nat,(136686197916667,14%nat)); (10%nat,((-4748046875),9%nat)); (8%nat,(62841796875,10%nat)); (6%nat,((-391015625),8%nat)); (4%nat,(11279296875,10%nat)); (2%nat,((-123046875),9%nat)); (0%nat,(227864583333333,17%nat))]);
  (None, [(13%nat,(22080078125,10%nat)); (11%nat,((-8201171875),9%nat)); (9%nat,(118701171875,10%nat)); (7%nat,((-837890625),8%nat)); (5%nat,(29326171875,10%nat)); (3%nat,((-451171875),9%nat)); (1%nat,(205078125,10%nat))]);
  (None, [(14%nat,(362744140625,11%nat)); (12%nat,((-1435205078125),11%nat)); (10%nat,(2255322265625,11%nat)); (8%nat,((-1780517578125),11%nat)); (6%nat,(733154296875,11%nat)); (4%nat,((-146630859375),11%nat)); (2%nat,(11279296875,11%nat)); (0%nat,((-146484375),11%nat))]);
  (None, [(15%nat,(604573567708333,14%nat)); (13%nat,((-2539208984375),11%nat)); (11%nat,(4305615234375,11%nat)); (9%nat,((-375887044270833),13%nat)); (7%nat,(1780517578125,11%nat)); (5%nat,((-439892578125),11%nat)); (3%nat,(48876953125,11%nat)); (1%nat,((-1611328125),11%nat))]);
  (None, [(16%nat,(102021789550781,13%nat)); (14%nat,((-45343017578125),12%nat)); (12%nat,(825242919921875,13%nat)); (10%nat,((-78936279296875),12%nat)); (8%nat,(422872924804688,13%nat)); (6%nat,((-12463623046875),12%nat)); (4%nat,(18328857421875,13%nat)); (2%nat,((-104736328125),12%nat)); (0%nat,(1007080078125,15%nat))]);
  (None, [(17%nat,(174037170410156,13%nat)); (15%nat,((-81617431640625),12%nat)); (13%nat,(158700561523438,12%nat)); (11%nat,((-165048583984375),12%nat)); (9%nat,(986703491210938,13%nat)); (7%nat,((-33829833984375),12%nat)); (5%nat,(62318115234375,13%nat)); (3%nat,((-523681640625),12%nat)); (1%nat,(13092041015625,15%nat))]);
  (None, [(18%nat,(299730682373047,13%nat)); (16%nat,((-147931594848633),12%nat)); (14%nat,(306065368652344,12%nat)); (12%nat,((-343851216634115),12%nat)); (10%nat,(226941802978516,12%nat)); (8%nat,((-888033142089844),13%nat)); (6%nat,(197340698242188,13%nat)); (4%nat,((-222564697265625),14%nat)); (2%nat,(981903076171875,16%nat)); (0%nat,((-727335611979167),18%nat))]);
  (None, [(19%nat,(520584869384766,13%nat)); (17%nat,((-269757614135742),12%nat)); (15%nat,(591726379394531,12%nat)); (13%nat,((-714152526855469),12%nat)); (11%nat,(515776824951172,12%nat)); (9%nat,((-226941802978516),12%nat)); (7%nat,(592022094726563,13%nat)); (5%nat,((-845745849609375),14%nat)); (3%nat,(556411743164063,15%nat)); (1%nat,((-109100341796875),16%nat))]);
  (None, [(20%nat,(91102352142334,12%nat)); (18%nat,((-494555625915527),12%nat)); (16%nat,(11464698600769,10%nat)); (14%nat,((-147931594848633),11%nat)); (12%nat,(116049785614014,11%nat)); (10%nat,((-567354507446289),12%nat)); (8%nat,(170206352233887,12%nat)); (6%nat,((-296011047363281),13%nat)); (4%nat,(26429557800293,13%nat)); (2%nat,((-927352905273438),16%nat)); (0%nat,(545501708984375,18%nat))]);
  (None, [(21%nat,(160513668060303,12%nat)); (19%nat,((-91102352142334),11%nat)); (17%nat,(222550031661987,11%nat)); (15%nat,((-305725296020508),11%nat)); (13%nat,(258880290985107,11%nat)); (11%nat,((-139259742736816),11%nat)); (9%nat,(472795422871908,12%nat)); (7%nat,((-972607727050781),13%nat)); (5%nat,(11100414276123,12%nat)); (3%nat,((-587323506673177),15%nat)); (1%nat,(927352905273438,17%nat))]);
  (None, [(22%nat,(284546957015991,12%nat)); (20%nat,((-168539351463318),11%nat)); (18%nat,(432736172676086,11%nat)); (16%nat,((-630558423042297),11%nat)); (14%nat,(573234930038452,11%nat)); (12%nat,((-33654437828064),10%nat)); (10%nat,(127654764175415,11%nat)); (8%nat,((-303939914703369),12%nat)); (6%nat,(425515880584717,13%nat)); (4%nat,((-308344841003418),14%nat)); (2%nat,(880985260009766,16%nat)); (0%nat,((-421524047851563),18%nat))]);
  (None, [(23%nat,(507235879898071,12%nat)); (21%nat,((-31300165271759),10%nat)); (19%nat,(842696757316589,11%nat)); (17%nat,((-129820851802826),10%nat)); (15%nat,(126111684608459,10%nat)); (13%nat,((-802528902053833),11%nat)); (11%nat,(33654437828064,10%nat)); (9%nat,((-911819744110107),12%nat)); (7%nat,(151969957351685,12%nat)); (5%nat,((-141838626861572),13%nat)); (3%nat,(616689682006836,15%nat)); (1%nat,((-800895690917969),17%nat))]);
  (None, [(24%nat,(908797618150711,12%nat)); (22%nat,((-583321261882782),11%nat)); (20%nat,(164325867676735,10%nat)); (18%nat,((-266853973150253),10%nat)); (16%nat,(275869310081005,10%nat)); (14%nat,((-189167526912689),10%nat)); (12%nat,(869406310558319,11%nat)); (10%nat,((-264427725791931),11%nat)); (8%nat,(512898606061935,12%nat)); (6%nat,((-590994278589884),13%nat)); (4%nat,(354596567153931,14%nat)); (2%nat,((-840940475463867),16%nat)); (0%nat,(333706537882487,18%nat))]);
  (None, [(25%nat,(163583571267128,11%nat)); (23%nat,((-109055714178085),10%nat)); (21%nat,(32082669403553,9%nat)); (19%nat,((-547752892255783),10%nat)); (17%nat,(60042143958807,9%nat)); (15%nat,((-441390896129608),10%nat)); (13%nat,(220695448064804,10%nat)); (11%nat,((-745205409049988),11%nat)); (9%nat,(165267328619957,11%nat)); (7%nat,((-227954936027527),12%nat)); (5%nat,(177298283576965,13%nat)); (3%nat,((-644721031188965),15%nat)); (1%nat,(700783729553223,17%nat))]);
  (None, [(26%nat,(295708763444424,11%nat)); (24%nat,((-20447946408391),9%nat)); (22%nat,(627070356523991,10%nat)); (20%nat,((-112289342912436),9%nat)); (18%nat,(130091311910748,9%nat)); (16%nat,((-102071644729972),9%nat)); (14%nat,(55173862016201,9%nat)); (12%nat,((-204931487488747),10%nat)); (10%nat,(512328718721867,11%nat)); (8%nat,((-826336643099785),12%nat)); (6%nat,(797842276096344,13%nat)); (4%nat,((-402950644493103),14%nat)); (2%nat,(805901288986206,16%nat)); (0%nat,((-269532203674316),18%nat))]);
  (None, [(27%nat,(53665664476951,10%nat)); (25%nat,((-384421392477751),10%nat)); (23%nat,(122687678450346,9%nat)); (21%nat,((-22992579739213),8%nat)); (19%nat,(280723357281089,9%nat)); (17%nat,((-234164361439347),9%nat)); (15%nat,(136095526306629,9%nat)); (13%nat,((-55173862016201),9%nat)); (11%nat,(15369861561656,9%nat)); (9%nat,((-284627065956593),11%nat)); (7%nat,(330534657239914,12%nat)); (5%nat,((-217593348026276),13%nat)); (3%nat,(671584407488505,15%nat)); (1%nat,((-619924068450928),17%nat))]);
  (None, [(28%nat,(977481745830178,11%nat)); (26%nat,((-724486470438838),10%nat)); (24%nat,(240263370298594,9%nat)); (22%nat,((-470302767392993),9%nat)); (20%nat,(603555218154341,9%nat)); (18%nat,((-533374378834069),9%nat)); (16%nat,(331732845372409,9%nat)); (14%nat,((-145816635328531),9%nat)); (12%nat,(448287628881633,10%nat)); (10%nat,((-939269317656755),11%nat)); (8%nat,(128082179680467,11%nat)); (6%nat,((-1051701182127),10%nat)); (4%nat,(453319475054741,14%nat)); (2%nat,((-77490508556366),15%nat)); (0%nat,(221401453018188,18%nat))]);
  (None, [(29%nat,(178643215617239,10%nat)); (27%nat,((-136847444416225),9%nat)); (25%nat,(470916205785245,9%nat)); (23%nat,((-961053481194377),9%nat)); (21%nat,(129333261033073,8%nat)); (19%nat,((-120711043630868),8%nat)); (17%nat,(800061568251103,9%nat)); (15%nat,((-379123251854181),9%nat)); (13%nat,(127589555912465,9%nat)); (11%nat,((-298858419254422),10%nat)); (9%nat,(469634658828378,11%nat)); (7%nat,((-465753380656242),12%nat)); (5%nat,(26292529553175,12%nat)); (3%nat,((-697414577007294),15%nat)); (1%nat,(553503632545471,17%nat))])
].

Definition vec_fp : list lit_entry := [
  (Some 0%nat, [(2%nat,(75,2%nat)); (0%nat,((-75),2%nat))]);
  (Some 1%nat, [(2%nat,(375,3%nat)); (1%nat,((-25),2%nat)); (0%nat,((-125),3%nat))]);
  (Some 2%nat, [(2%nat,((-75),2%nat)); (0%nat,(75,2%nat))]);
  (Some 3%nat, [(2%nat,(375,3%nat)); (1%nat,(25,2%nat)); (0%nat,((-125),3%nat))]);
  (None, [(3%nat,(5,1%nat)); (1%nat,((-5),1%nat))]);
  (None, [(4%nat,(625,3%nat)); (2%nat,((-75),2%nat)); (0%nat,(125,3%nat))]);
  (None, [(5%nat,(875,3%nat)); (3%nat,((-125),2%nat)); (1%nat,(375,3%nat))]);
  (None, [(6%nat,(13125,4%nat)); (4%nat,((-21875),4%nat)); (2%nat,(9375,4%nat)); (0%nat,((-625),4%nat))]);
  (None, [(7%nat,(20625,4%nat)); (5%nat,((-39375),4%nat)); (3%nat,(21875,4%nat)); (1%nat,((-3125),4%nat))]);
  (None, [(8%nat,(33515625,7%nat)); (6%nat,((-721875),5%nat)); (4%nat,(4921875,6%nat)); (2%nat,((-109375),5%nat)); (0%nat,(390625,7%nat))]);
  (None, [(9%nat,(55859375,7%nat)); (7%nat,((-1340625),5%nat)); (5%nat,(10828125,6%nat)); (3%nat,((-328125),5%nat)); (1%nat,(2734375,7%nat))]);
  (None, [(10%nat,(949609375,8%nat)); (8%nat,((-2513671875),8%nat)); (6%nat,(234609375,7%nat)); (4%nat,((-90234375),7%nat)); (2%nat,(123046875,8%nat)); (0%nat,((-2734375),8%nat))]);
  (None, [(11%nat,(1640234375,8%nat)); (9%nat,((-4748046875),8%nat)); (7%nat,(502734375,7%nat)); (5%nat,((-234609375),7%nat)); (3%nat,(451171875,8%nat)); (1%nat,((-24609375),8%nat))]);
  (None, [(12%nat,(287041015625,10%nat)); (10%nat,((-90212890625),9%nat)); (8%nat,(1068310546875,10%nat)); (6%nat,((-5865234375),8%nat)); (4%nat,(146630859375,10%nat)); (2%nat,((-1353515625),9%nat)); (0%nat,(205078125,10%nat))]);
  (None, [(13%nat,(507841796875,10%nat)); (11%nat,((-172224609375),9%nat)); (9%nat,(2255322265625,10%nat)); (7%nat,((-14244140625),8%nat)); (5%nat,(439892578125,10%nat)); (3%nat,((-5865234375),9%nat)); (1%nat,(2255859375,10%nat))]);
  (None, [(14%nat,(9068603515625,11%nat)); (12%nat,((-33009716796875),11%nat)); (10%nat,(47361767578125,11%nat)); (8%nat,((-33829833984375),11%nat)); (6%nat,(12463623046875,11%nat)); (4%nat,((-2199462890625),11%nat)); (2%nat,(146630859375,11%nat)); (0%nat,((-1611328125),11%nat))]);
  (None, [(15%nat,(16323486328125,11%nat)); (13%nat,((-63480224609375),11%nat)); (11%nat,(99029150390625,11%nat)); (9%nat,((-78936279296875),11%nat)); (7%nat,(33829833984375,11%nat)); (5%nat,((-7478173828125),11%nat)); (3%nat,(733154296875,11%nat)); (1%nat,((-20947265625),11%nat))]);
  (None, [(16%nat,(295863189697266,12%nat)); (14%nat,((-122426147460938),11%nat)); (12%nat,(206310729980469,11%nat)); (10%nat,((-181553442382813),11%nat)); (8%nat,(888033142089844,12%nat)); (6%nat,((-236808837890625),12%nat)); (4%nat,(311590576171875,13%nat)); (2%nat,((-1571044921875),12%nat)); (0%nat,(13092041015625,15%nat))]);
  (None, [(17%nat,(539515228271484,12%nat)); (15%nat,((-236690551757813),11%nat)); (13%nat,(428491516113281,11%nat)); (11%nat,((-412621459960938),11%nat)); (9%nat,(226941802978516,11%nat)); (7%nat,((-710426513671875),12%nat)); (5%nat,(118404418945313,12%nat)); (3%nat,((-8902587890625),12%nat)); (1%nat,(196380615234375,15%nat))]);
  (None, [(18%nat,(989111251831055,12%nat)); (16%nat,((-458587944030762),11%nat)); (14%nat,(887589569091797,11%nat)); (12%nat,((-928398284912109),11%nat)); (10%nat,(567354507446289,11%nat)); (8%nat,((-204247622680664),11%nat)); (6%nat,(414415466308594,12%nat)); (4%nat,((-422872924804688),13%nat)); (2%nat,(166923522949219,14%nat)); (0%nat,((-109100341796875),16%nat))]);
  (None, [(19%nat,(182204704284668,11%nat)); (17%nat,((-890200126647949),11%nat)); (15%nat,(183435177612305,10%nat)); (13%nat,((-207104232788086),10%nat)); (11%nat,(139259742736816,10%nat)); (9%nat,((-567354507446289),11%nat)); (7%nat,(136165081787109,11%nat)); (5%nat,((-177606628417969),12%nat)); (3%nat,(105718231201172,13%nat)); (1%nat,((-185470581054688),15%nat))]);
  (None, [(20%nat,(337078702926636,11%nat)); (18%nat,((-173094469070435),10%nat)); (16%nat,(378335053825378,10%nat)); (14%nat,((-458587944030762),10%nat)); (12%nat,(33654437828064,9%nat)); (10%nat,((-153185717010498),10%nat)); (8%nat,(425515880584717,11%nat)); (6%nat,((-680825408935547),12%nat)); (4%nat,(555020713806152,13%nat)); (2%nat,((-176197052001953),14%nat)); (0%nat,(927352905273438,17%nat))]);
  (None, [(21%nat,(626003305435181,11%nat)); (19%nat,((-337078702926636),10%nat)); (17%nat,(778925110816956,10%nat)); (15%nat,((-100889347686768),9%nat)); (13%nat,(802528902053833,10%nat)); (11%nat,((-403853253936768),10%nat)); (9%nat,(127654764175415,10%nat)); (7%nat,((-243151931762695),11%nat)); (5%nat,(25530952835083,11%nat)); (3%nat,((-123337936401367),13%nat)); (1%nat,(176197052001953,15%nat))]);
  (None, [(22%nat,(116664252376556,10%nat)); (20%nat,((-65730347070694),9%nat)); (18%nat,(160112383890152,9%nat)); (16%nat,((-220695448064804),9%nat)); (14%nat,(189167526912689,9%nat)); (12%nat,((-104328757266998),9%nat)); (10%nat,(370198816108704,10%nat)); (8%nat,((-820637769699097),11%nat)); (6%nat,(106378970146179,11%nat)); (4%nat,((-709193134307861),13%nat)); (2%nat,(185006904602051,14%nat)); (0%nat,((-800895690917969),17%nat))]);
  (None, [(23%nat,(218111428356171,10%nat)); (21%nat,((-128330677614212),9%nat)); (19%nat,(32865173535347,8%nat)); (17%nat,((-480337151670456),9%nat)); (15%nat,(441390896129608,9%nat)); (13%nat,((-264834537677765),9%nat)); (11%nat,(104328757266998,9%nat)); (9%nat,((-264427725791931),10%nat)); (7%nat,(410318884849548,11%nat)); (5%nat,((-354596567153931),12%nat)); (3%nat,(141838626861572,13%nat)); (1%nat,((-168188095092773),15%nat))]);
  (None, [(24%nat,(40895892816782,9%nat)); (22%nat,((-250828142609596),9%nat)); (20%nat,(673736057474613,9%nat)); (18%nat,((-104073049528599),8%nat)); (16%nat,(102071644729972,8%nat)); (14%nat,((-662086344194412),9%nat)); (12%nat,(286904082484245,9%nat)); (10%nat,((-819725949954987),10%nat)); (8%nat,(148740595757961,10%nat)); (6%nat,((-159568455219269),11%nat)); (4%nat,(886491417884827,13%nat)); (2%nat,((-193416309356689),14%nat)); (0%nat,(700783729553223,17%nat))]);
  (None, [(25%nat,(768842784955502,10%nat)); (23%nat,((-490750713801384),9%nat)); (21%nat,(137955478435278,8%nat)); (19%nat,((-224578685824871),8%nat)); (17%nat,(234164361439347,8%nat)); (15%nat,((-163314631567955),8%nat)); (13%nat,(772434068226814,9%nat)); (11%nat,((-245917784986496),9%nat)); (9%nat,(512328718721867,10%nat)); (7%nat,((-661069314479828),11%nat)); (5%nat,(478705365657806,12%nat)); (3%nat,((-161180257797241),13%nat)); (1%nat,(161180257797241,15%nat))]);
  (None, [(26%nat,(144897294087768,9%nat)); (24%nat,((-961053481194377),9%nat)); (22%nat,(282181660435796,8%nat)); (20%nat,((-482844174523473),8%nat)); (18%nat,(533374378834069,8%nat)); (16%nat,((-39807941444689),7%nat)); (14%nat,(204143289459944,8%nat)); (12%nat,((-717260206210613),9%nat)); (10%nat,(169068477178216,9%nat)); (8%nat,((-256164359360933),10%nat)); (6%nat,(23137426006794,10%nat)); (4%nat,((-108796674013138),12%nat)); (2%nat,(201475322246552,14%nat)); (0%nat,((-619924068450928),17%nat))]);
  (None, [(27%nat,(27369488883245,8%nat)); (25%nat,((-188366482314098),8%nat)); (23%nat,(576632088716626,8%nat)); (21%nat,((-103466608826458),7%nat)); (19%nat,(120711043630868,7%nat)); (17%nat,((-960073881901324),8%nat)); (15%nat,(530772552595854,8%nat)); (13%nat,((-204143289459944),8%nat)); (11%nat,(53794515465796,8%nat)); (9%nat,((-939269317656755),10%nat)); (7%nat,(102465743744373,10%nat)); (5%nat,((-631020709276199),12%nat)); (3%nat,(181327790021896,13%nat)); (1%nat,((-154981017112732),15%nat))]);
  (None, [(28%nat,(518065325289994,9%nat)); (26%nat,((-369488099923807),8%nat)); (24%nat,(117729051446311,7%nat)); (22%nat,((-221042300674707),7%nat)); (20%nat,(271599848169453,7%nat)); (18%nat,((-22935098289865),6%nat)); (16%nat,(136010466602688,7%nat)); (14%nat,((-568684877781272),8%nat)); (12%nat,(165866422686204,8%nat)); (10%nat,((-328744261179864),9%nat)); (8%nat,(42267119294554,9%nat)); (6%nat,((-32602736645937),10%nat)); (4%nat,(131462647765875,12%nat)); (2%nat,((-209224373102188),14%nat)); (0%nat,(553503632545471,17%nat))])
].

Definition vec_fpp : list lit_entry := [
  (Some 0%nat, [(1%nat,(15,1%nat))]);
  (Some 1%nat, [(1%nat,(75,2%nat)); (0%nat,((-25),2%nat))]);
  (Some 2%nat, [(1%nat,((-15),1%nat))]);
  (Some 3%nat, [(1%nat,(75,2%nat)); (0%nat,(25,2%nat))]);
  (None, [(2%nat,(15,1%nat)); (0%nat,((-5),1%nat))]);
  (None, [(3%nat,(25,1%nat)); (1%nat,((-15),1%nat))]);
  (None, [(4%nat,(4375,3%nat)); (2%nat,((-375),2%nat)); (0%nat,(375,3%nat))]);
  (None, [(5%nat,(7875,3%nat)); (3%nat,((-875),2%nat)); (1%nat,(1875,3%nat))]);
  (None, [(6%nat,(144375,4%nat)); (4%nat,((-196875),4%nat)); (2%nat,(65625,4%nat)); (0%nat,((-3125),4%nat))]);
  (None, [(7%nat,(268125,4%nat)); (5%nat,((-433125),4%nat)); (3%nat,(196875,4%nat)); (1%nat,((-21875),4%nat))]);
  (None, [(8%nat,(502734375,7%nat)); (6%nat,((-9384375),5%nat)); (4%nat,(54140625,6%nat)); (2%nat,((-984375),5%nat)); (0%nat,(2734375,7%nat))]);
  (None, [(9%nat,(949609375,7%nat)); (7%nat,((-20109375),5%nat)); (5%nat,(140765625,6%nat)); (3%nat,((-3609375),5%nat)); (1%nat,(24609375,7%nat))]);
  (None, [(10%nat,(18042578125,8%nat)); (8%nat,((-42732421875),8%nat)); (6%nat,(3519140625,7%nat)); (4%nat,((-1173046875),7%nat)); (2%nat,(1353515625,8%nat)); (0%nat,((-24609375),8%nat))]);
  (None, [(11%nat,(34444921875,8%nat)); (9%nat,((-90212890625),8%nat)); (7%nat,(8546484375,7%nat)); (5%nat,((-3519140625),7%nat)); (3%nat,(5865234375,8%nat)); (1%nat,((-270703125),8%nat))]);
  (None, [(12%nat,(6601943359375,10%nat)); (10%nat,((-1894470703125),9%nat)); (8%nat,(20297900390625,10%nat)); (6%nat,((-99708984375),8%nat)); (4%nat,(2199462890625,10%nat)); (2%nat,((-17595703125),9%nat)); (0%nat,(2255859375,10%nat))]);
  (None, [(13%nat,(12696044921875,10%nat)); (11%nat,((-3961166015625),9%nat)); (9%nat,(47361767578125,10%nat)); (7%nat,((-270638671875),8%nat)); (5%nat,(7478173828125,10%nat)); (3%nat,((-87978515625),9%nat)); (1%nat,(29326171875,10%nat))]);
  (None, [(14%nat,(244852294921875,11%nat)); (12%nat,((-825242919921875),11%nat)); (10%nat,(108932065429688,10%nat)); (8%nat,((-710426513671875),11%nat)); (6%nat,(236808837890625,11%nat)); (4%nat,((-37390869140625),11%nat)); (2%nat,(2199462890625,11%nat)); (0%nat,((-20947265625),11%nat))]);
  (None, [(15%nat,(473381103515625,11%nat)); (13%nat,((-171396606445313),10%nat)); (11%nat,(247572875976563,10%nat)); (9%nat,((-181553442382813),10%nat)); (7%nat,(710426513671875,11%nat)); (5%nat,((-142085302734375),11%nat)); (3%nat,(12463623046875,11%nat)); (1%nat,((-314208984375),11%nat))]);
  (None, [(16%nat,(917175888061523,11%nat)); (14%nat,((-355035827636719),10%nat)); (12%nat,(557038970947266,10%nat)); (10%nat,((-453883605957031),10%nat)); (8%nat,(204247622680664,10%nat)); (6%nat,((-497298559570313),11%nat)); (4%nat,(592022094726563,12%nat)); (2%nat,((-26707763671875),12%nat)); (0%nat,(196380615234375,15%nat))]);
  (None, [(17%nat,(17804002532959,9%nat)); (15%nat,((-733740710449219),10%nat)); (13%nat,(124262539672852,9%nat)); (11%nat,((-111407794189453),9%nat)); (9%nat,(567354507446289,10%nat)); (7%nat,((-163398098144531),10%nat)); (5%nat,(248649279785156,11%nat)); (3%nat,((-169149169921875),12%nat)); (1%nat,(333847045898438,14%nat))]);
  (None, [(18%nat,(346188938140869,10%nat)); (16%nat,((-151334021530151),9%nat)); (14%nat,(275152766418457,9%nat)); (12%nat,((-269235502624512),9%nat)); (10%nat,(153185717010498,9%nat)); (8%nat,((-51061905670166),9%nat)); (6%nat,(953155572509766,11%nat)); (4%nat,((-888033142089844),12%nat)); (2%nat,(317154693603516,13%nat)); (0%nat,((-185470581054688),15%nat))]);
  (None, [(19%nat,(674157405853271,10%nat)); (17%nat,((-311570044326782),9%nat)); (15%nat,(605336086120605,9%nat)); (13%nat,((-642023121643066),9%nat)); (11%nat,(403853253936768,9%nat)); (9%nat,((-153185717010498),9%nat)); (7%nat,(340412704467773,10%nat)); (5%nat,((-408495245361328),11%nat)); (3%nat,(222008285522461,12%nat)); (1%nat,((-352394104003906),14%nat))]);
  (None, [(20%nat,(131460694141388,9%nat)); (18%nat,((-640449535560608),9%nat)); (16%nat,(132417268838882,8%nat)); (14%nat,((-151334021530151),8%nat)); (12%nat,(104328757266998,8%nat)); (10%nat,((-444238579330444),9%nat)); (8%nat,(114889287757874,9%nat)); (6%nat,((-170206352233887),10%nat)); (4%nat,(127654764175415,11%nat)); (2%nat,((-370013809204102),13%nat)); (0%nat,(176197052001953,15%nat))]);
  (None, [(21%nat,(256661355228424,9%nat)); (19%nat,((-131460694141388),8%nat)); (17%nat,(288202291002274,8%nat)); (15%nat,((-353112716903687),8%nat)); (13%nat,(264834537677765,8%nat)); (11%nat,((-125194508720398),8%nat)); (9%nat,(370198816108704,9%nat)); (7%nat,((-656510215759277),10%nat)); (5%nat,(638273820877075,11%nat)); (3%nat,((-283677253723145),12%nat)); (1%nat,(370013809204102,14%nat))]);
  (None, [(22%nat,(501656285219193,9%nat)); (20%nat,((-269494422989845),8%nat)); (18%nat,(624438297171593,8%nat)); (16%nat,((-816573157839775),8%nat)); (14%nat,(662086344194412,8%nat)); (12%nat,((-344284898981094),8%nat)); (10%nat,(114761632993698,8%nat)); (8%nat,((-237984953212738),9%nat)); (6%nat,(287223219394684,10%nat)); (4%nat,((-177298283576965),11%nat)); (2%nat,(425515880584717,13%nat)); (0%nat,((-168188095092773),15%nat))]);
  (None, [(23%nat,(981501427602768,9%nat)); (21%nat,((-551821913741112),8%nat)); (19%nat,(134747211494923,7%nat)); (17%nat,((-187331489151478),7%nat)); (15%nat,(163314631567955,7%nat)); (13%nat,((-926920881872177),8%nat)); (11%nat,(344284898981094,8%nat)); (9%nat,((-819725949954987),9%nat)); (7%nat,(118992476606369,9%nat)); (5%nat,((-957410731315613),11%nat)); (3%nat,(354596567153931,12%nat)); (1%nat,((-386832618713379),14%nat))]);
  (None, [(24%nat,(192210696238875,8%nat)); (22%nat,((-112872664174318),7%nat)); (20%nat,(289706504714084,7%nat)); (18%nat,((-426699503067255),7%nat)); (16%nat,(39807941444689,6%nat)); (14%nat,((-244971947351933),7%nat)); (12%nat,(100416428869486,7%nat)); (10%nat,((-270509563485146),8%nat)); (8%nat,(46109584684968,8%nat)); (6%nat,((-46274852013588),9%nat)); (4%nat,(239352682828903,11%nat)); (2%nat,((-483540773391724),13%nat)); (0%nat,(161180257797241,15%nat))]);
  (None, [(25%nat,(376732964628196,8%nat)); (23%nat,((-23065283548665),6%nat)); (21%nat,(620799652958751,7%nat)); (19%nat,((-965688349046946),7%nat)); (17%nat,(960073881901324,7%nat)); (15%nat,((-636927063115025),7%nat)); (13%nat,(285800605243921,7%nat)); (11%nat,((-860712247452736),8%nat)); (9%nat,(169068477178216,8%nat)); (7%nat,((-204931487488747),9%nat)); (5%nat,(138824556040764,10%nat)); (3%nat,((-435186696052551),12%nat)); (1%nat,(402950644493103,14%nat))]);
  (None, [(26%nat,(738976199847615,8%nat)); (24%nat,((-470916205785245),7%nat)); (22%nat,(132625380404824,6%nat)); (20%nat,((-217279878535563),6%nat)); (18%nat,(22935098289865,5%nat)); (16%nat,((-163212559923225),6%nat)); (14%nat,(796158828893781,7%nat)); (12%nat,((-265386276297927),7%nat)); (10%nat,(591739670123756,8%nat)); (8%nat,((-84534238589108),8%nat)); (6%nat,(717260206210613,10%nat)); (4%nat,((-3155103546381),9%nat)); (2%nat,(543983370065689,13%nat)); (0%nat,((-154981017112732),15%nat))]);
  (None, [(27%nat,(145058291081198,7%nat)); (25%nat,((-960669059801899),7%nat)); (23%nat,(282549723471147,6%nat)); (21%nat,((-486293061484355),6%nat)); (19%nat,(543199696338907,6%nat)); (17%nat,((-412831769217569),6%nat)); (15%nat,(2176167465643,4%nat)); (13%nat,((-796158828893781),7%nat)); (11%nat,(199039707223445,7%nat)); (9%nat,((-328744261179864),8%nat)); (7%nat,(338136954356432,9%nat)); (5%nat,((-195616419875622),10%nat)); (3%nat,(525850591063499,12%nat)); (1%nat,((-418448746204376),14%nat))])
].

Definition lit_f : list lit_entry := [
  (Some 0%nat, [(3%nat,(25,2%nat)); (1%nat,((-75),2%nat)); (0%nat,(5,1%nat))]);
  (Some 1%nat, [(3%nat,(125,3%nat)); (2%nat,((-125),3%nat)); (1%nat,((-125),3%nat)); (0%nat,(125,3%nat))]);
  (Some 2%nat, [(3%nat,((-25),2%nat)); (1%nat,(75,2%nat)); (0%nat,(5,1%nat))]);
  (Some 3%nat, [(3%nat,(125,3%nat)); (2%nat,(125,3%nat)); (1%nat,((-125),3%nat)); (0%nat,((-125),3%nat))]);
  (None, [(4%nat,(125,3%nat)); (2%nat,((-25),2%nat)); (0%nat,(125,3%nat))]);
  (None, [(5%nat,(125,3%nat)); (3%nat,((-25),2%nat)); (1%nat,(125,3%nat))]);
  (None, [(6%nat,(145833333333333,15%nat)); (4%nat,((-3125),4%nat)); (2%nat,(1875,4%nat)); (0%nat,((-208333333333333),16%nat))]);
  (None, [(7%nat,(1875,4%nat)); (5%nat,((-4375),4%nat)); (3%nat,(3125,4%nat)); (1%nat,((-625),4%nat))]);
  (None, [(8%nat,(2578125,7%nat)); (6%nat,((-65625),5%nat)); (4%nat,(546875,6%nat)); (2%nat,((-15625),5%nat)); (0%nat,(78125,7%nat))]);
  (None, [(9%nat,(372395833333333,15%nat)); (7%nat,((-103125),5%nat)); (5%nat,(984375,6%nat)); (3%nat,((-364583333333333),15%nat)); (1%nat,(390625,7%nat))]);
  (None, [(10%nat,(55859375,8%nat)); (8%nat,((-167578125),8%nat)); (6%nat,(18046875,7%nat)); (4%nat,((-8203125),7%nat)); (2%nat,(13671875,8%nat)); (0%nat,((-390625),8%nat))]);
  (None, [(11%nat,(86328125,8%nat)); (9%nat,((-279296875),8%nat)); (7%nat,(33515625,7%nat)); (5%nat,((-18046875),7%nat)); (3%nat,(41015625,8%nat)); (1%nat,((-2734375),8%nat))]);
  (None, [(12%nat,(136686197916667,14%nat)); (10%nat,((-4748046875),9%nat)); (8%nat,(62841796875,10%nat)); (6%nat,((-391015625),8%nat)); (4%nat,(11279296875,10%nat)); (2%nat,((-123046875),9%nat)); (0%nat,(227864583333333,17%nat))]);
  (None, [(13%nat,(22080078125,10%nat)); (11%nat,((-8201171875),9%nat)); (9%nat,(118701171875,10%nat)); (7%nat,((-837890625),8%nat)); (5%nat,(29326171875,10%nat)); (3%nat,((-451171875),9%nat)); (1%nat,(205078125,10%nat))]);
  (None, [(14%nat,(362744140625,11%nat)); (12%nat,((-1435205078125),11%nat)); (10%nat,(2255322265625,11%nat)); (8%nat,((-1780517578125),11%nat)); (6%nat,(733154296875,11%nat)); (4%nat,((-146630859375),11%nat)); (2%nat,(11279296875,11%nat)); (0%nat,((-146484375),11%nat))]);
  (None, [(15%nat,(604573567708333,14%nat)); (13%nat,((-2539208984375),11%nat)); (11%nat,(4305615234375,11%nat)); (9%nat,((-375887044270833),13%nat)); (7%nat,(1780517578125,11%nat)); (5%nat,((-439892578125),11%nat)); (3%nat,(48876953125,11%nat)); (1%nat,((-1611328125),11%nat))]);
  (None, [(16%nat,(102021789550781,13%nat)); (14%nat,((-45343017578125),12%nat)); (12%nat,(825242919921875,13%nat)); (10%nat,((-78936279296875),12%nat)); (8%nat,(422872924804688,13%nat)); (6%nat,((-12463623046875),12%nat)); (4%nat,(18328857421875,13%nat)); (2%nat,((-104736328125),12%nat)); (0%nat,(1007080078125,15%nat))]);
  (None, [(17%nat,(174037170410156,13%nat)); (15%nat,((-81617431640625),12%nat)); (13%nat,(158700561523438,12%nat)); (11%nat,((-165048583984375),12%nat)); (9%nat,(986703491210938,13%nat)); (7%nat,((-33829833984375),12%nat)); (5%nat,(62318115234375,13%nat)); (3%nat,((-523681640625),12%nat)); (1%nat,(13092041015625,15%nat))]);
  (None, [(18%nat,(299730682373047,13%nat)); (16%nat,((-147931594848633),12%nat)); (14%nat,(306065368652344,12%nat)); (12%nat,((-343851216634115),12%nat)); (10%nat,(226941802978516,12%nat)); (8%nat,((-888033142089844),13%nat)); (6%nat,(197340698242188,13%nat)); (4%nat,((-222564697265625),14%nat)); (2%nat,(981903076171875,16%nat)); (0%nat,((-727335611979167),18%nat))]);
  (None, [(19%nat,(520584869384766,13%nat)); (17%nat,((-269757614135742),12%nat)); (15%nat,(591726379394531,12%nat)); (13%nat,((-714152526855469),12%nat)); (11%nat,(515776824951172,12%nat)); (9%nat,((-226941802978516),12%nat)); (7%nat,(592022094726563,13%nat)); (5%nat,((-845745849609375),14%nat)); (3%nat,(556411743164063,15%nat)); (1%nat,((-109100341796875),16%nat))]);
  (None, [(20%nat,(91102352142334,12%nat)); (18%nat,((-494555625915527),12%nat)); (16%nat,(11464698600769,10%nat)); (14%nat,((-147931594848633),11%nat)); (12%nat,(116049785614014,11%nat)); (10%nat,((-567354507446289),12%nat)); (8%nat,(170206352233887,12%nat)); (6%nat,((-296011047363281),13%nat)); (4%nat,(26429557800293,13%nat)); (2%nat,((-927352905273438),16%nat)); (0%nat,(545501708984375,18%nat))]);
  (None, [(21%nat,(160513668060303,12%nat)); (19%nat,((-91102352142334),11%nat)); (17%nat,(222550031661987,11%nat)); (15%nat,((-305725296020508),11%nat)); (13%nat,(258880290985107,11%nat)); (11%nat,((-139259742736816),11%nat)); (9%nat,(472795422871908,12%nat)); (7%nat,((-972607727050781),13%nat)); (5%nat,(11100414276123,12%nat)); (3%nat,((-587323506673177),15%nat)); (1%nat,(927352905273438,17%nat))]);
  (None, [(22%nat,(284546957015991,12%nat)); (20%nat,((-168539351463318),11%nat)); (18%nat,(432736172676086,11%nat)); (16%nat,((-630558423042297),11%nat)); (14%nat,(573234930038452,11%nat)); (12%nat,((-33654437828064),10%nat)); (10%nat,(127654764175415,11%nat)); (8%nat,((-303939914703369),12%nat)); (6%nat,(425515880584717,13%nat)); (4%nat,((-308344841003418),14%nat)); (2%nat,(880985260009766,16%nat)); (0%nat,((-421524047851563),18%nat))]);
  (None, [(23%nat,(507235879898071,12%nat)); (21%nat,((-31300165271759),10%nat)); (19%nat,(842696757316589,11%nat)); (17%nat,((-129820851802826),10%nat)); (15%nat,(126111684608459,10%nat)); (13%nat,((-802528902053833),11%nat)); (11%nat,(33654437828064,10%nat)); (9%nat,((-911819744110107),12%nat)); (7%nat,(151969957351685,12%nat)); (5%nat,((-141838626861572),13%nat)); (3%nat,(616689682006836,15%nat)); (1%nat,((-800895690917969),17%nat))]);
  (None, [(24%nat,(908797618150711,12%nat)); (22%nat,((-583321261882782),11%nat)); (20%nat,(164325867676735,10%nat)); (18%nat,((-266853973150253),10%nat)); (16%nat,(275869310081005,10%nat)); (14%nat,((-189167526912689),10%nat)); (12%nat,(869406310558319,11%nat)); (10%nat,((-264427725791931),11%nat)); (8%nat,(512898606061935,12%nat)); (6%nat,((-590994278589884),13%nat)); (4%nat,(354596567153931,14%nat)); (2%nat,((-840940475463867),16%nat)); (0%nat,(333706537882487,18%nat))]);
  (None, [(25%nat,(163583571267128,11%nat)); (23%nat,((-109055714178085),10%nat)); (21%nat,(32082669403553,9%nat)); (19%nat,((-547752892255783),10%nat)); (17%nat,(60042143958807,9%nat)); (15%nat,((-441390896129608),10%nat)); (13%nat,(220695448064804,10%nat)); (11%nat,((-745205409049988),11%nat)); (9%nat,(165267328619957,11%nat)); (7%nat,((-227954936027527),12%nat)); (5%nat,(177298283576965,13%nat)); (3%nat,((-644721031188965),15%nat)); (1%nat,(700783729553223,17%nat))]);
  (None, [(26%nat,(295708763444424,11%nat)); (24%nat,((-20447946408391),9%nat)); (22%nat,(627070356523991,10%nat)); (20%nat,((-112289342912436),9%nat)); (18%nat,(130091311910748,9%nat)); (16%nat,((-102071644729972),9%nat)); (14%nat,(55173862016201,9%nat)); (12%nat,((-204931487488747),10%nat)); (10%nat,(512328718721867,11%nat)); (8%nat,((-826336643099785),12%nat)); (6%nat,(797842276096344,13%nat)); (4%nat,((-402950644493103),14%nat)); (2%nat,(805901288986206,16%nat)); (0%nat,((-269532203674316),18%nat))]);
  (None, [(27%nat,(53665664476951,10%nat)); (25%nat,((-384421392477751),10%nat)); (23%nat,(122687678450346,9%nat)); (21%nat,((-22992579739213),8%nat)); (19%nat,(280723357281089,9%nat)); (17%nat,((-234164361439347),9%nat)); (15%nat,(136095526306629,9%nat)); (13%nat,((-55173862016201),9%nat)); (11%nat,(15369861561656,9%nat)); (9%nat,((-284627065956593),11%nat)); (7%nat,(330534657239914,12%nat)); (5%nat,((-217593348026276),13%nat)); (3%nat,(671584407488505,15%nat)); (1%nat,((-619924068450928),17%nat))]);
  (None, [(28%nat,(977481745830178,11%nat)); (26%nat,((-724486470438838),10%nat)); (24%nat,(240263370298594,9%nat)); (22%nat,((-470302767392993),9%nat)); (20%nat,(603555218154341,9%nat)); (18%nat,((-533374378834069),9%nat)); (16%nat,(331732845372409,9%nat)); (14%nat,((-145816635328531),9%nat)); (12%nat,(448287628881633,10%nat)); (10%nat,((-939269317656755),11%nat)); (8%nat,(128082179680467,11%nat)); (6%nat,((-1051701182127),10%nat)); (4%nat,(453319475054741,14%nat)); (2%nat,((-77490508556366),15%nat)); (0%nat,(221401453018188,18%nat))]);
  (None, [(29%nat,(178643215617239,10%nat)); (27%nat,((-136847444416225),9%nat)); (25%nat,(470916205785245,9%nat)); (23%nat,((-961053481194377),9%nat)); (21%nat,(129333261033073,8%nat)); (19%nat,((-120711043630868),8%nat)); (17%nat,(800061568251103,9%nat)); (15%nat,((-379123251854181),9%nat)); (13%nat,(127589555912465,9%nat)); (11%nat,((-298858419254422),10%nat)); (9%nat,(469634658828378,11%nat)); (7%nat,((-465753380656242),12%nat)); (5%nat,(26292529553175,12%nat)); (3%nat,((-697414577007294),15%nat)); (1%nat,(553503632545471,17%nat))])
].

Definition lit_fp : list lit_entry := [
  (Some 0%nat, [(2%nat,(75,2%nat)); (0%nat,((-75),2%nat))]);
  (Some 1%nat, [(2%nat,(375,3%nat)); (1%nat,((-25),2%nat)); (0%nat,((-125),3%nat))]);
  (Some 2%nat, [(2%nat,((-75),2%nat)); (0%nat,(75,2%nat))]);
  (Some 3%nat, [(2%nat,(375,3%nat)); (1%nat,(25,2%nat)); (0%nat,((-125),3%nat))]);
  (None, [(3%nat,(5,1%nat)); (1%nat,((-5),1%nat))]);
  (None, [(4%nat,(625,3%nat)); (2%nat,((-75),2%nat)); (0%nat,(125,3%nat))]);
  (None, [(5%nat,(875,3%nat)); (3%nat,((-125),2%nat)); (1%nat,(375,3%nat))]);
  (None, [(6%nat,(13125,4%nat)); (4%nat,((-21875),4%nat)); (2%nat,(9375,4%nat)); (0%nat,((-625),4%nat))]);
  (None, [(7%nat,(20625,4%nat)); (5%nat,((-39375),4%nat)); (3%nat,(21875,4%nat)); (1%nat,((-3125),4%nat))]);
  (None, [(8%nat,(33515625,7%nat)); (6%nat,((-721875),5%nat)); (4%nat,(4921875,6%nat)); (2%nat,((-109375),5%nat)); (0%nat,(390625,7%nat))]);
  (None, [(9%nat,(55859375,7%nat)); (7%nat,((-1340625),5%nat)); (5%nat,(10828125,6%nat)); (3%nat,((-328125),5%nat)); (1%nat,(2734375,7%nat))]);
  (None, [(10%nat,(949609375,8%nat)); (8%nat,((-2513671875),8%nat)); (6%nat,(234609375,7%nat)); (4%nat,((-90234375),7%nat)); (2%nat,(123046875,8%nat)); (0%nat,((-2734375),8%nat))]);
  (None, [(11%nat,(1640234375,8%nat)); (9%nat,((-4748046875),8%nat)); (7%nat,(502734375,7%nat)); (5%nat,((-234609375),7%nat)); (3%nat,(451171875,8%nat)); (1%nat,((-24609375),8%nat))]);
  (None, [(12%nat,(287041015625,10%nat)); (10%nat,((-90212890625),9%nat)); (8%nat,(1068310546875,10%nat)); (6%nat,((-5865234375),8%nat)); (4%nat,(146630859375,10%nat)); (2%nat,((-1353515625),9%nat)); (0%nat,(205078125,10%nat))]);
  (None, [(13%nat,(507841796875,10%nat)); (11%nat,((-172224609375),9%nat)); (9%nat,(2255322265625,10%nat)); (7%nat,((-14244140625),8%nat)); (5%nat,(439892578125,10%nat)); (3%nat,((-5865234375),9%nat)); (1%nat,(2255859375,10%nat))]);
  (None, [(14%nat,(9068603515625,11%nat)); (12%nat,((-33009716796875),11%nat)); (10%nat,(47361767578125,11%nat)); (8%nat,((-33829833984375),11%nat)); (6%nat,(12463623046875,11%nat)); (4%nat,((-2199462890625),11%nat)); (2%nat,(146630859375,11%nat)); (0%nat,((-1611328125),11%nat))]);
  (None, [(15%nat,(16323486328125,11%nat)); (13%nat,((-63480224609375),11%nat)); (11%nat,(99029150390625,11%nat)); (9%nat,((-78936279296875),11%nat)); (7%nat,(33829833984375,11%nat)); (5%nat,((-7478173828125),11%nat)); (3%nat,(733154296875,11%nat)); (1%nat,((-20947265625),11%nat))]);
  (None, [(16%nat,(295863189697266,12%nat)); (14%nat,((-122426147460938),11%nat)); (12%nat,(206310729980469,11%nat)); (10%nat,((-181553442382813),11%nat)); (8%nat,(888033142089844,12%nat)); (6%nat,((-236808837890625),12%nat)); (4%nat,(311590576171875,13%nat)); (2%nat,((-1571044921875),12%nat)); (0%nat,(13092041015625,15%nat))]);
  (None, [(17%nat,(539515228271484,12%nat)); (15%nat,((-236690551757813),11%nat)); (13%nat,(428491516113281,11%nat)); (11%nat,((-412621459960938),11%nat)); (9%nat,(226941802978516,11%nat)); (7%nat,((-710426513671875),12%nat)); (5%nat,(118404418945313,12%nat)); (3%nat,((-8902587890625),12%nat)); (1%nat,(196380615234375,15%nat))]);
  (None, [(18%nat,(989111251831055,12%nat)); (16%nat,((-458587944030762),11%nat)); (14%nat,(887589569091797,11%nat)); (12%nat,((-928398284912109),11%nat)); (10%nat,(567354507446289,11%nat)); (8%nat,((-204247622680664),11%nat)); (6%nat,(414415466308594,12%nat)); (4%nat,((-422872924804688),13%nat)); (2%nat,(166923522949219,14%nat)); (0%nat,((-109100341796875),16%nat))]);
  (None, [(19%nat,(182204704284668,11%nat)); (17%nat,((-890200126647949),11%nat)); (15%nat,(183435177612305,10%nat)); (13%nat,((-207104232788086),10%nat)); (11%nat,(139259742736816,10%nat)); (9%nat,((-567354507446289),11%nat)); (7%nat,(136165081787109,11%nat)); (5%nat,((-177606628417969),12%nat)); (3%nat,(105718231201172,13%nat)); (1%nat,((-185470581054688),15%nat))]);
  (None, [(20%nat,(337078702926636,11%nat)); (18%nat,((-173094469070435),10%nat)); (16%nat,(378335053825378,10%nat)); (14%nat,((-458587944030762),10%nat)); (12%nat,(33654437828064,9%nat)); (10%nat,((-153185717010498),10%nat)); (8%nat,(425515880584717,11%nat)); (6%nat,((-680825408935547),12%nat)); (4%nat,(555020713806152,13%nat)); (2%nat,((-176197052001953),14%nat)); (0%nat,(927352905273438,17%nat))]);
  (None, [(21%nat,(626003305435181,11%nat)); (19%nat,((-337078702926636),10%nat)); (17%nat,(778925110816956,10%nat)); (15%nat,((-100889347686768),9%nat)); (13%nat,(802528902053833,10%nat)); (11%nat,((-403853253936768),10%nat)); (9%nat,(127654764175415,10%nat)); (7%nat,((-243151931762695),11%nat)); (5%nat,(25530952835083,11%nat)); (3%nat,((-123337936401367),13%nat)); (1%nat,(176197052001953,15%nat))]);
  (None, [(22%nat,(116664252376556,10%nat)); (20%nat,((-65730347070694),9%nat)); (18%nat,(160112383890152,9%nat)); (16%nat,((-220695448064804),9%nat)); (14%nat,(189167526912689,9%nat)); (12%nat,((-104328757266998),9%nat)); (10%nat,(370198816108704,10%nat)); (8%nat,((-820637769699097),11%nat)); (6%nat,(106378970146179,11%nat)); (4%nat,((-709193134307861),13%nat)); (2%nat,(185006904602051,14%nat)); (0%nat,((-800895690917969),17%nat))]);
  (None, [(23%nat,(218111428356171,10%nat)); (21%nat,((-128330677614212),9%nat)); (19%nat,(32865173535347,8%nat)); (17%nat,((-480337151670456),9%nat)); (15%nat,(441390896129608,9%nat)); (13%nat,((-264834537677765),9%nat)); (11%nat,(104328757266998,9%nat)); (9%nat,((-264427725791931),10%nat)); (7%nat,(410318884849548,11%nat)); (5%nat,((-354596567153931),12%nat)); (3%nat,(141838626861572,13%nat)); (1%nat,((-168188095092773),15%nat))]);
  (None, [(24%nat,(40895892816782,9%nat)); (22%nat,((-250828142609596),9%nat)); (20%nat,(673736057474613,9%nat)); (18%nat,((-104073049528599),8%nat)); (16%nat,(102071644729972,8%nat)); (14%nat,((-662086344194412),9%nat)); (12%nat,(286904082484245,9%nat)); (10%nat,((-819725949954987),10%nat)); (8%nat,(148740595757961,10%nat)); (6%nat,((-159568455219269),11%nat)); (4%nat,(886491417884827,13%nat)); (2%nat,((-193416309356689),14%nat)); (0%nat,(700783729553223,17%nat))]);
  (None, [(25%nat,(768842784955502,10%nat)); (23%nat,((-490750713801384),9%nat)); (21%nat,(137955478435278,8%nat)); (19%nat,((-224578685824871),8%nat)); (17%nat,(234164361439347,8%nat)); (15%nat,((-163314631567955),8%nat)); (13%nat,(772434068226814,9%nat)); (11%nat,((-245917784986496),9%nat)); (9%nat,(512328718721867,10%nat)); (7%nat,((-661069314479828),11%nat)); (5%nat,(478705365657806,12%nat)); (3%nat,((-161180257797241),13%nat)); (1%nat,(161180257797241,15%nat))]);
  (None, [(26%nat,(144897294087768,9%nat)); (24%nat,((-961053481194377),9%nat)); (22%nat,(282181660435796,8%nat)); (20%nat,((-482844174523473),8%nat)); (18%nat,(533374378834069,8%nat)); (16%nat,((-39807941444689),7%nat)); (14%nat,(204143289459944,8%nat)); (12%nat,((-717260206210613),9%nat)); (10%nat,(169068477178216,9%nat)); (8%nat,((-256164359360933),10%nat)); (6%nat,(23137426006794,10%nat)); (4%nat,((-108796674013138),12%nat)); (2%nat,(201475322246552,14%nat)); (0%nat,((-619924068450928),17%nat))]);
  (None, [(27%nat,(27369488883245,8%nat)); (25%nat,((-188366482314098),8%nat)); (23%nat,(576632088716626,8%nat)); (21%nat,((-103466608826458),7%nat)); (19%nat,(120711043630868,7%nat)); (17%nat,((-960073881901324),8%nat)); (15%nat,(530772552595854,8%nat)); (13%nat,((-204143289459944),8%nat)); (11%nat,(53794515465796,8%nat)); (9%nat,((-939269317656755),10%nat)); (7%nat,(102465743744373,10%nat)); (5%nat,((-631020709276199),12%nat)); (3%nat,(181327790021896,13%nat)); (1%nat,((-154981017112732),15%nat))]);
  (None, [(28%nat,(518065325289994,9%nat)); (26%nat,((-369488099923807),8%nat)); (24%nat,(117729051446311,7%nat)); (22%nat,((-221042300674707),7%nat)); (20%nat,(271599848169453,7%nat)); (18%nat,((-22935098289865),6%nat)); (16%nat,(136010466602688,7%nat)); (14%nat,((-568684877781272),8%nat)); (12%nat,(165866422686204,8%nat)); (10%nat,((-328744261179864),9%nat)); (8%nat,(42267119294554,9%nat)); (6%nat,((-32602736645937),10%nat)); (4%nat,(131462647765875,12%nat)); (2%nat,((-209224373102188),14%nat)); (0%nat,(553503632545471,17%nat))])
].

Definition lit_fpp : list lit_entry := [
  (Some 0%nat, [(1%nat,(15,1%nat))]);
  (Some 1%nat, [(1%nat,(75,2%nat)); (0%nat,((-25),2%nat))]);
  (Some 2%nat, [(1%nat,((-15),1%nat))]);
  (Some 3%nat, [(1%nat,(75,2%nat)); (0%nat,(25,2%nat))]);
  (None, [(2%nat,(15,1%nat)); (0%nat,((-5),1%nat))]);
  (None, [(3%nat,(25,1%nat)); (1%nat,((-15),1%nat))]);
  (None, [(4%nat,(4375,3%nat)); (2%nat,((-375),2%nat)); (0%nat,(375,3%nat))]);
  (None, [(5%nat,(7875,3%nat)); (3%nat,((-875),2%nat)); (1%nat,(1875,3%nat))]);
  (None, [(6%nat,(144375,4%nat)); (4%nat,((-196875),4%nat)); (2%nat,(65625,4%nat)); (0%nat,((-3125),4%nat))]);
  (None, [(7%nat,(268125,4%nat)); (5%nat,((-433125),4%nat)); (3%nat,(196875,4%nat)); (1%nat,((-21875),4%nat))]);
  (None, [(8%nat,(502734375,7%nat)); (6%nat,((-9384375),5%nat)); (4%nat,(54140625,6%nat)); (2%nat,((-984375),5%nat)); (0%nat,(2734375,7%nat))]);
  (None, [(9%nat,(949609375,7%nat)); (7%nat,((-20109375),5%nat)); (5%nat,(140765625,6%nat)); (3%nat,((-3609375),5%nat)); (1%nat,(24609375,7%nat))]);
  (None, [(10%nat,(18042578125,8%nat)); (8%nat,((-42732421875),8%nat)); (6%nat,(3519140625,7%nat)); (4%nat,((-1173046875),7%nat)); (2%nat,(1353515625,8%nat)); (0%nat,((-24609375),8%nat))]);
  (None, [(11%nat,(34444921875,8%nat)); (9%nat,((-90212890625),8%nat)); (7%nat,(8546484375,7%nat)); (5%nat,((-3519140625),7%nat)); (3%nat,(5865234375,8%nat)); (1%nat,((-270703125),8%nat))]);
  (None, [(12%nat,(6601943359375,10%nat)); (10%nat,((-1894470703125),9%nat)); (8%nat,(20297900390625,10%nat)); (6%nat,((-99708984375),8%nat)); (4%nat,(2199462890625,10%nat)); (2%nat,((-17595703125),9%nat)); (0%nat,(2255859375,10%nat))]);
  (None, [(13%nat,(12696044921875,10%nat)); (11%nat,((-3961166015625),9%nat)); (9%nat,(47361767578125,10%nat)); (7%nat,((-270638671875),8%nat)); (5%nat,(7478173828125,10%nat)); (3%nat,((-87978515625),9%nat)); (1%nat,(29326171875,10%nat))]);
  (None, [(14%nat,(244852294921875,11%nat)); (12%nat,((-825242919921875),11%nat)); (10%nat,(108932065429688,10%nat)); (8%nat,((-710426513671875),11%nat)); (6%nat,(236808837890625,11%nat)); (4%nat,((-37390869140625),11%nat)); (2%nat,(2199462890625,11%nat)); (0%nat,((-20947265625),11%nat))]);
  (None, [(15%nat,(473381103515625,11%nat)); (13%nat,((-171396606445313),10%nat)); (11%nat,(247572875976563,10%nat)); (9%nat,((-181553442382813),10%nat)); (7%nat,(710426513671875,11%nat)); (5%nat,((-142085302734375),11%nat)); (3%nat,(12463623046875,11%nat)); (1%nat,((-314208984375),11%nat))]);
  (None, [(16%nat,(917175888061523,11%nat)); (14%nat,((-355035827636719),10%nat)); (12%nat,(557038970947266,10%nat)); (10%nat,((-453883605957031),10%nat)); (8%nat,(204247622680664,10%nat)); (6%nat,((-497298559570313),11%nat)); (4%nat,(592022094726563,12%nat)); (2%nat,((-26707763671875),12%nat)); (0%nat,(196380615234375,15%nat))]);
  (None, [(17%nat,(17804002532959,9%nat)); (15%nat,((-733740710449219),10%nat)); (13%nat,(124262539672852,9%nat)); (11%nat,((-111407794189453),9%nat)); (9%nat,(567354507446289,10%nat)); (7%nat,((-163398098144531),10%nat)); (5%nat,(248649279785156,11%nat)); (3%nat,((-169149169921875),12%nat)); (1%nat,(333847045898438,14%nat))]);
  (None, [(18%nat,(346188938140869,10%nat)); (16%nat,((-151334021530151),9%nat)); (14%nat,(275152766418457,9%nat)); (12%nat,((-269235502624512),9%nat)); (10%nat,(153185717010498,9%nat)); (8%nat,((-51061905670166),9%nat)); (6%nat,(953155572509766,11%nat)); (4%nat,((-888033142089844),12%nat)); (2%nat,(317154693603516,13%nat)); (0%nat,((-185470581054688),15%nat))]);
  (None, [(19%nat,(674157405853271,10%nat)); (17%nat,((-311570044326782),9%nat)); (15%nat,(605336086120605,9%nat)); (13%nat,((-642023121643066),9%nat)); (11%nat,(403853253936768,9%nat)); (9%nat,((-153185717010498),9%nat)); (7%nat,(340412704467773,10%nat)); (5%nat,((-408495245361328),11%nat)); (3%nat,(222008285522461,12%nat)); (1%nat,((-352394104003906),14%nat))]);
  (None, [(20%nat,(131460694141388,9%nat)); (18%nat,((-640449535560608),9%nat)); (16%nat,(132417268838882,8%nat)); (14%nat,((-151334021530151),8%nat)); (12%nat,(104328757266998,8%nat)); (10%nat,((-444238579330444),9%nat)); (8%nat,(114889287757874,9%nat)); (6%nat,((-170206352233887),10%nat)); (4%nat,(127654764175415,11%nat)); (2%nat,((-370013809204102),13%nat)); (0%nat,(176197052001953,15%nat))]);
  (None, [(21%nat,(256661355228424,9%nat)); (19%nat,((-131460694141388),8%nat)); (17%nat,(288202291002274,8%nat)); (15%nat,((-353112716903687),8%nat)); (13%nat,(264834537677765,8%nat)); (11%nat,((-125194508720398),8%nat)); (9%nat,(370198816108704,9%nat)); (7%nat,((-656510215759277),10%nat)); (5%nat,(638273820877075,11%nat)); (3%nat,((-283677253723145),12%nat)); (1%nat,(370013809204102,14%nat))]);
  (None, [(22%nat,(501656285219193,9%nat)); (20%nat,((-269494422989845),8%nat)); (18%nat,(624438297171593,8%nat)); (16%nat,((-816573157839775),8%nat)); (14%nat,(662086344194412,8%nat)); (12%nat,((-344284898981094),8%nat)); (10%nat,(114761632993698,8%nat)); (8%nat,((-237984953212738),9%nat)); (6%nat,(287223219394684,10%nat)); (4%nat,((-177298283576965),11%nat)); (2%nat,(425515880584717,13%nat)); (0%nat,((-168188095092773),15%nat))]);
  (None, [(23%nat,(981501427602768,9%nat)); (21%nat,((-551821913741112),8%nat)); (19%nat,(134747211494923,7%nat)); (17%nat,((-187331489151478),7%nat)); (15%nat,(163314631567955,7%nat)); (13%nat,((-926920881872177),8%nat)); (11%nat,(344284898981094,8%nat)); (9%nat,((-819725949954987),9%nat)); (7%nat,(118992476606369,9%nat)); (5%nat,((-957410731315613),11%nat)); (3%nat,(354596567153931,12%nat)); (1%nat,((-386832618713379),14%nat))]);
  (None, [(24%nat,(192210696238875,8%nat)); (22%nat,((-112872664174318),7%nat)); (20%nat,(289706504714084,7%nat)); (18%nat,((-426699503067255),7%nat)); (16%nat,(39807941444689,6%nat)); (14%nat,((-244971947351933),7%nat)); (12%nat,(100416428869486,7%nat)); (10%nat,((-270509563485146),8%nat)); (8%nat,(46109584684968,8%nat)); (6%nat,((-46274852013588),9%nat)); (4%nat,(239352682828903,11%nat)); (2%nat,((-483540773391724),13%nat)); (0%nat,(161180257797241,15%nat))]);
  (None, [(25%nat,(376732964628196,8%nat)); (23%nat,((-23065283548665),6%nat)); (21%nat,(620799652958751,7%nat)); (19%nat,((-965688349046946),7%nat)); (17%nat,(960073881901324,7%nat)); (15%nat,((-636927063115025),7%nat)); (13%nat,(285800605243921,7%nat)); (11%nat,((-860712247452736),8%nat)); (9%nat,(169068477178216,8%nat)); (7%nat,((-204931487488747),9%nat)); (5%nat,(138824556040764,10%nat)); (3%nat,((-435186696052551),12%nat)); (1%nat,(402950644493103,14%nat))]);
  (None, [(26%nat,(738976199847615,8%nat)); (24%nat,((-470916205785245),7%nat)); (22%nat,(132625380404824,6%nat)); (20%nat,((-217279878535563),6%nat)); (18%nat,(22935098289865,5%nat)); (16%nat,((-163212559923225),6%nat)); (14%nat,(796158828893781,7%nat)); (12%nat,((-265386276297927),7%nat)); (10%nat,(591739670123756,8%nat)); (8%nat,((-84534238589108),8%nat)); (6%nat,(717260206210613,10%nat)); (4%nat,((-3155103546381),9%nat)); (2%nat,(543983370065689,13%nat)); (0%nat,((-154981017112732),15%nat))]);
  (None, [(27%nat,(145058291081198,7%nat)); (25%nat,((-960669059801899),7%nat)); (23%nat,(282549723471147,6%nat)); (21%nat,((-486293061484355),6%nat)); (19%nat,(543199696338907,6%nat)); (17%nat,((-412831769217569),6%nat)); (15%nat,(2176167465643,4%nat)); (13%nat,((-796158828893781),7%nat)); (11%nat,(199039707223445,7%nat)); (9%nat,((-328744261179864),8%nat)); (7%nat,(338136954356432,9%nat)); (5%nat,((-195616419875622),10%nat)); (3%nat,(525850591063499,12%nat)); (1%nat,((-418448746204376),14%nat))])
].
