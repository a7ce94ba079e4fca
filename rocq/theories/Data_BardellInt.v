(* GENERATED by tools/gen_tables.py from /repo/panels/core/src/bardell.cpp -- do not edit *)
From Coq Require Import ZArith List.
Import ListNotations.
Open Scope Z_scope.

(* For each table: outer list = the cases of switch(i); inner list = the cases of switch(j):
   (j, ((mantissa, decimals), (flag of the first function, flag of the second))).
   flags 0..3 = x1t x1r x2t x2r (first), y1t y1r y2t y2r (second). *)
Definition int_entry : Type := ((Z * nat) * (option nat * option nat))%type.

Definition lit_int_ff : list (nat * list (nat * int_entry)) := [
  (0%nat, [(0%nat,((742857142857143,15%nat),(Some 0%nat,Some 0%nat)));
    (1%nat,((104761904761905,15%nat),(Some 0%nat,Some 1%nat)));
    (2%nat,((257142857142857,15%nat),(Some 0%nat,Some 2%nat)));
    (3%nat,(((-619047619047619),16%nat),(Some 0%nat,Some 3%nat)));
    (4%nat,((666666666666667,16%nat),(Some 0%nat,None)));
    (5%nat,(((-126984126984127),16%nat),(Some 0%nat,None)));
    (7%nat,((288600288600289,18%nat),(Some 0%nat,None)))]);
  (1%nat, [(0%nat,((104761904761905,15%nat),(Some 1%nat,Some 0%nat)));
    (1%nat,((19047619047619,15%nat),(Some 1%nat,Some 1%nat)));
    (2%nat,((619047619047619,16%nat),(Some 1%nat,Some 2%nat)));
    (3%nat,(((-142857142857143),16%nat),(Some 1%nat,Some 3%nat)));
    (4%nat,((142857142857143,16%nat),(Some 1%nat,None)));
    (5%nat,(((-158730158730159),17%nat),(Some 1%nat,None)));
    (6%nat,(((-529100529100529),18%nat),(Some 1%nat,None)));
    (7%nat,((144300144300144,18%nat),(Some 1%nat,None)))]);
  (2%nat, [(0%nat,((257142857142857,15%nat),(Some 2%nat,Some 0%nat)));
    (1%nat,((619047619047619,16%nat),(Some 2%nat,Some 1%nat)));
    (2%nat,((742857142857143,15%nat),(Some 2%nat,Some 2%nat)));
    (3%nat,(((-104761904761905),15%nat),(Some 2%nat,Some 3%nat)));
    (4%nat,((666666666666667,16%nat),(Some 2%nat,None)));
    (5%nat,((126984126984127,16%nat),(Some 2%nat,None)));
    (7%nat,(((-288600288600289),18%nat),(Some 2%nat,None)))]);
  (3%nat, [(0%nat,(((-619047619047619),16%nat),(Some 3%nat,Some 0%nat)));
    (1%nat,(((-142857142857143),16%nat),(Some 3%nat,Some 1%nat)));
    (2%nat,(((-104761904761905),15%nat),(Some 3%nat,Some 2%nat)));
    (3%nat,((19047619047619,15%nat),(Some 3%nat,Some 3%nat)));
    (4%nat,(((-142857142857143),16%nat),(Some 3%nat,None)));
    (5%nat,(((-158730158730159),17%nat),(Some 3%nat,None)));
    (6%nat,((529100529100529,18%nat),(Some 3%nat,None)));
    (7%nat,((144300144300144,18%nat),(Some 3%nat,None)))]);
  (4%nat, [(0%nat,((666666666666667,16%nat),(None,Some 0%nat)));
    (1%nat,((142857142857143,16%nat),(None,Some 1%nat)));
    (2%nat,((666666666666667,16%nat),(None,Some 2%nat)));
    (3%nat,(((-142857142857143),16%nat),(None,Some 3%nat)));
    (4%nat,((126984126984127,16%nat),(None,None)));
    (6%nat,(((-769600769600770),18%nat),(None,None)));
    (8%nat,((444000444000444,19%nat),(None,None)))]);
  (5%nat, [(0%nat,(((-126984126984127),16%nat),(None,Some 0%nat)));
    (1%nat,(((-158730158730159),17%nat),(None,Some 1%nat)));
    (2%nat,((126984126984127,16%nat),(None,Some 2%nat)));
    (3%nat,(((-158730158730159),17%nat),(None,Some 3%nat)));
    (5%nat,((115440115440115,17%nat),(None,None)));
    (7%nat,(((-177600177600178),18%nat),(None,None)));
    (9%nat,((148000148000148,19%nat),(None,None)))]);
  (6%nat, [(1%nat,(((-529100529100529),18%nat),(None,Some 1%nat)));
    (3%nat,((529100529100529,18%nat),(None,Some 3%nat)));
    (4%nat,(((-769600769600770),18%nat),(None,None)));
    (6%nat,((266400266400266,18%nat),(None,None)));
    (8%nat,(((-592000592000592),19%nat),(None,None)));
    (10%nat,((609412374118256,20%nat),(None,None)))]);
  (7%nat, [(0%nat,((288600288600289,18%nat),(None,Some 0%nat)));
    (1%nat,((144300144300144,18%nat),(None,Some 1%nat)));
    (2%nat,(((-288600288600289),18%nat),(None,Some 2%nat)));
    (3%nat,((144300144300144,18%nat),(None,Some 3%nat)));
    (5%nat,(((-177600177600178),18%nat),(None,None)));
    (7%nat,((888000888000888,19%nat),(None,None)));
    (9%nat,(((-243764949647303),19%nat),(None,None)));
    (11%nat,((288669019319174,20%nat),(None,None)))]);
  (8%nat, [(4%nat,((444000444000444,19%nat),(None,None)));
    (6%nat,(((-592000592000592),19%nat),(None,None)));
    (8%nat,((365647424470954,19%nat),(None,None)));
    (10%nat,(((-115467607727670),19%nat),(None,None)));
    (12%nat,((151207581548139,20%nat),(None,None)))]);
  (9%nat, [(5%nat,((148000148000148,19%nat),(None,None)));
    (7%nat,(((-243764949647303),19%nat),(None,None)));
    (9%nat,((173201411591504,19%nat),(None,None)));
    (11%nat,(((-604830326192555),20%nat),(None,None)));
    (13%nat,((854651547880785,21%nat),(None,None)))]);
  (10%nat, [(6%nat,((609412374118256,20%nat),(None,None)));
    (8%nat,(((-115467607727670),19%nat),(None,None)));
    (10%nat,((907245489288833,20%nat),(None,None)));
    (12%nat,(((-341860619152314),20%nat),(None,None)));
    (14%nat,((512790928728471,21%nat),(None,None)))]);
  (11%nat, [(7%nat,((288669019319174,20%nat),(None,None)));
    (9%nat,(((-604830326192555),20%nat),(None,None)));
    (11%nat,((512790928728471,20%nat),(None,None)));
    (13%nat,(((-205116371491388),20%nat),(None,None)));
    (15%nat,((322868362532741,21%nat),(None,None)))]);
  (12%nat, [(8%nat,((151207581548139,20%nat),(None,None)));
    (10%nat,(((-341860619152314),20%nat),(None,None)));
    (12%nat,((307674557237082,20%nat),(None,None)));
    (14%nat,(((-129147345013096),20%nat),(None,None)));
    (16%nat,((211534444418003,21%nat),(None,None)))]);
  (13%nat, [(9%nat,((854651547880785,21%nat),(None,None)));
    (11%nat,(((-205116371491388),20%nat),(None,None)));
    (13%nat,((193721017519645,20%nat),(None,None)));
    (15%nat,(((-846137777672011),21%nat),(None,None)));
    (17%nat,((143297526863808,21%nat),(None,None)))]);
  (14%nat, [(10%nat,((512790928728471,21%nat),(None,None)));
    (12%nat,(((-129147345013096),20%nat),(None,None)));
    (14%nat,((126920666650802,20%nat),(None,None)));
    (16%nat,(((-573190107455233),21%nat),(None,None)));
    (18%nat,((998740338747754,22%nat),(None,None)))]);
  (15%nat, [(11%nat,((322868362532741,21%nat),(None,None)));
    (13%nat,(((-846137777672011),21%nat),(None,None)));
    (15%nat,((859785161182849,21%nat),(None,None)));
    (17%nat,(((-399496135499102),21%nat),(None,None)));
    (19%nat,((713385956248396,22%nat),(None,None)))]);
  (16%nat, [(12%nat,((211534444418003,21%nat),(None,None)));
    (14%nat,(((-573190107455233),21%nat),(None,None)));
    (16%nat,((599244203248653,21%nat),(None,None)));
    (18%nat,(((-285354382499358),21%nat),(None,None)));
    (20%nat,((520578941046127,22%nat),(None,None)))]);
  (17%nat, [(13%nat,((143297526863808,21%nat),(None,None)));
    (15%nat,(((-399496135499102),21%nat),(None,None)));
    (17%nat,((428031573749038,21%nat),(None,None)));
    (19%nat,(((-208231576418451),21%nat),(None,None)));
    (21%nat,((387097161290710,22%nat),(None,None)))]);
  (18%nat, [(14%nat,((998740338747754,22%nat),(None,None)));
    (16%nat,(((-285354382499358),21%nat),(None,None)));
    (18%nat,((312347364627676,21%nat),(None,None)));
    (20%nat,(((-154838864516284),21%nat),(None,None)));
    (22%nat,((292683219512488,22%nat),(None,None)))]);
  (19%nat, [(15%nat,((713385956248396,22%nat),(None,None)));
    (17%nat,(((-208231576418451),21%nat),(None,None)));
    (19%nat,((232258296774426,21%nat),(None,None)));
    (21%nat,(((-117073287804995),21%nat),(None,None)));
    (23%nat,((224617354509584,22%nat),(None,None)))]);
  (20%nat, [(16%nat,((520578941046127,22%nat),(None,None)));
    (18%nat,(((-154838864516284),21%nat),(None,None)));
    (20%nat,((175609931707493,21%nat),(None,None)));
    (22%nat,(((-898469418038335),22%nat),(None,None)));
    (24%nat,((174702386840787,22%nat),(None,None)))]);
  (21%nat, [(17%nat,((387097161290710,22%nat),(None,None)));
    (19%nat,(((-117073287804995),21%nat),(None,None)));
    (21%nat,((134770412705750,21%nat),(None,None)));
    (23%nat,(((-698809547363149),22%nat),(None,None)));
    (25%nat,((137531666236364,22%nat),(None,None)))]);
  (22%nat, [(18%nat,((292683219512488,22%nat),(None,None)));
    (20%nat,(((-898469418038335),22%nat),(None,None)));
    (22%nat,((104821432104472,21%nat),(None,None)));
    (24%nat,(((-550126664945458),22%nat),(None,None)));
    (26%nat,((109463979249351,22%nat),(None,None)))]);
  (23%nat, [(19%nat,((224617354509584,22%nat),(None,None)));
    (21%nat,(((-698809547363149),22%nat),(None,None)));
    (23%nat,((825189997418187,22%nat),(None,None)));
    (25%nat,(((-437855916997405),22%nat),(None,None)));
    (27%nat,((880004539063412,23%nat),(None,None)))]);
  (24%nat, [(20%nat,((174702386840787,22%nat),(None,None)));
    (22%nat,(((-550126664945458),22%nat),(None,None)));
    (24%nat,((656783875496108,22%nat),(None,None)));
    (26%nat,(((-352001815625365),22%nat),(None,None)));
    (28%nat,((713965946787297,23%nat),(None,None)))]);
  (25%nat, [(21%nat,((137531666236364,22%nat),(None,None)));
    (23%nat,(((-437855916997405),22%nat),(None,None)));
    (25%nat,((528002723438047,22%nat),(None,None)));
    (27%nat,(((-285586378714919),22%nat),(None,None)));
    (29%nat,((584153956462334,23%nat),(None,None)))]);
  (26%nat, [(22%nat,((109463979249351,22%nat),(None,None)));
    (24%nat,(((-352001815625365),22%nat),(None,None)));
    (26%nat,((428379568072378,22%nat),(None,None)));
    (28%nat,(((-233661582584934),22%nat),(None,None)))]);
  (27%nat, [(23%nat,((880004539063412,23%nat),(None,None)));
    (25%nat,(((-285586378714919),22%nat),(None,None)));
    (27%nat,((350492373877400,22%nat),(None,None)));
    (29%nat,(((-192668322482314),22%nat),(None,None)))]);
  (28%nat, [(24%nat,((713965946787297,23%nat),(None,None)));
    (26%nat,(((-233661582584934),22%nat),(None,None)));
    (28%nat,((289002483723470,22%nat),(None,None)))]);
  (29%nat, [(25%nat,((584153956462334,23%nat),(None,None)));
    (27%nat,(((-192668322482314),22%nat),(None,None)));
    (29%nat,((240019011905933,22%nat),(None,None)))])
].

Definition lit_int_ffp : list (nat * list (nat * int_entry)) := [
  (0%nat, [(0%nat,(((-5),1%nat),(Some 0%nat,Some 0%nat)));
    (1%nat,((1,1%nat),(Some 0%nat,Some 1%nat)));
    (2%nat,((5,1%nat),(Some 0%nat,Some 2%nat)));
    (3%nat,(((-1),1%nat),(Some 0%nat,Some 3%nat)));
    (4%nat,((857142857142857,16%nat),(Some 0%nat,None)));
    (6%nat,(((-317460317460317),17%nat),(Some 0%nat,None)))]);
  (1%nat, [(0%nat,(((-1),1%nat),(Some 1%nat,Some 0%nat)));
    (2%nat,((1,1%nat),(Some 1%nat,Some 2%nat)));
    (3%nat,(((-166666666666667),16%nat),(Some 1%nat,Some 3%nat)));
    (4%nat,((952380952380952,17%nat),(Some 1%nat,None)));
    (5%nat,((476190476190476,17%nat),(Some 1%nat,None)));
    (6%nat,(((-158730158730159),17%nat),(Some 1%nat,None)))]);
  (2%nat, [(0%nat,(((-5),1%nat),(Some 2%nat,Some 0%nat)));
    (1%nat,(((-1),1%nat),(Some 2%nat,Some 1%nat)));
    (2%nat,((5,1%nat),(Some 2%nat,Some 2%nat)));
    (3%nat,((1,1%nat),(Some 2%nat,Some 3%nat)));
    (4%nat,(((-857142857142857),16%nat),(Some 2%nat,None)));
    (6%nat,((317460317460317,17%nat),(Some 2%nat,None)))]);
  (3%nat, [(0%nat,((1,1%nat),(Some 3%nat,Some 0%nat)));
    (1%nat,((166666666666667,16%nat),(Some 3%nat,Some 1%nat)));
    (2%nat,(((-1),1%nat),(Some 3%nat,Some 2%nat)));
    (4%nat,((952380952380952,17%nat),(Some 3%nat,None)));
    (5%nat,(((-476190476190476),17%nat),(Some 3%nat,None)));
    (6%nat,(((-158730158730159),17%nat),(Some 3%nat,None)))]);
  (4%nat, [(0%nat,(((-857142857142857),16%nat),(None,Some 0%nat)));
    (1%nat,(((-952380952380952),17%nat),(None,Some 1%nat)));
    (2%nat,((857142857142857,16%nat),(None,Some 2%nat)));
    (3%nat,(((-952380952380952),17%nat),(None,Some 3%nat)));
    (5%nat,((634920634920635,17%nat),(None,None)));
    (7%nat,(((-577200577200577),18%nat),(None,None)))]);
  (5%nat, [(1%nat,(((-476190476190476),17%nat),(None,Some 1%nat)));
    (3%nat,((476190476190476,17%nat),(None,Some 3%nat)));
    (4%nat,(((-634920634920635),17%nat),(None,None)));
    (6%nat,((173160173160173,17%nat),(None,None)));
    (8%nat,(((-222000222000222),18%nat),(None,None)))]);
  (6%nat, [(0%nat,((317460317460317,17%nat),(None,Some 0%nat)));
    (1%nat,((158730158730159,17%nat),(None,Some 1%nat)));
    (2%nat,(((-317460317460317),17%nat),(None,Some 2%nat)));
    (3%nat,((158730158730159,17%nat),(None,Some 3%nat)));
    (5%nat,(((-173160173160173),17%nat),(None,None)));
    (7%nat,((666000666000666,18%nat),(None,None)));
    (9%nat,(((-103600103600104),18%nat),(None,None)))]);
  (7%nat, [(4%nat,((577200577200577,18%nat),(None,None)));
    (6%nat,(((-666000666000666),18%nat),(None,None)));
    (8%nat,((310800310800311,18%nat),(None,None)));
    (10%nat,(((-548471136706431),19%nat),(None,None)))]);
  (8%nat, [(5%nat,((222000222000222,18%nat),(None,None)));
    (7%nat,(((-310800310800311),18%nat),(None,None)));
    (9%nat,((164541341011929,18%nat),(None,None)));
    (11%nat,(((-317535921251092),19%nat),(None,None)))]);
  (9%nat, [(6%nat,((103600103600104,18%nat),(None,None)));
    (8%nat,(((-164541341011929),18%nat),(None,None)));
    (10%nat,((952607763753275,19%nat),(None,None)));
    (12%nat,(((-196569856012580),19%nat),(None,None)))]);
  (10%nat, [(7%nat,((548471136706431,19%nat),(None,None)));
    (9%nat,(((-952607763753275),19%nat),(None,None)));
    (11%nat,((589709568037741,19%nat),(None,None)));
    (13%nat,(((-128197732182118),19%nat),(None,None)))]);
  (11%nat, [(8%nat,((317535921251092,19%nat),(None,None)));
    (10%nat,(((-589709568037741),19%nat),(None,None)));
    (12%nat,((384593196546353,19%nat),(None,None)));
    (14%nat,(((-871744578838400),20%nat),(None,None)))]);
  (12%nat, [(9%nat,((196569856012580,19%nat),(None,None)));
    (11%nat,(((-384593196546353),19%nat),(None,None)));
    (13%nat,((261523373651520,19%nat),(None,None)));
    (15%nat,(((-613449888812208),20%nat),(None,None)))]);
  (13%nat, [(10%nat,((128197732182118,19%nat),(None,None)));
    (12%nat,(((-261523373651520),19%nat),(None,None)));
    (14%nat,((184034966643662,19%nat),(None,None)));
    (16%nat,(((-444222333277806),20%nat),(None,None)))]);
  (14%nat, [(11%nat,((871744578838400,20%nat),(None,None)));
    (13%nat,(((-184034966643662),19%nat),(None,None)));
    (15%nat,((133266699983342,19%nat),(None,None)));
    (17%nat,(((-329584311786759),20%nat),(None,None)))]);
  (15%nat, [(12%nat,((613449888812208,20%nat),(None,None)));
    (14%nat,(((-133266699983342),19%nat),(None,None)));
    (16%nat,((988752935360277,20%nat),(None,None)));
    (18%nat,(((-249685084686939),20%nat),(None,None)))]);
  (16%nat, [(13%nat,((444222333277806,20%nat),(None,None)));
    (15%nat,(((-988752935360277),20%nat),(None,None)));
    (17%nat,((749055254060816,20%nat),(None,None)));
    (19%nat,(((-192614208187067),20%nat),(None,None)))]);
  (17%nat, [(14%nat,((329584311786759,20%nat),(None,None)));
    (16%nat,(((-749055254060816),20%nat),(None,None)));
    (18%nat,((577842624561201,20%nat),(None,None)));
    (20%nat,(((-150967892903377),20%nat),(None,None)))]);
  (18%nat, [(15%nat,((249685084686939,20%nat),(None,None)));
    (17%nat,(((-577842624561201),20%nat),(None,None)));
    (19%nat,((452903678710130,20%nat),(None,None)));
    (21%nat,(((-120000120000120),20%nat),(None,None)))]);
  (19%nat, [(16%nat,((192614208187067,20%nat),(None,None)));
    (18%nat,(((-452903678710130),20%nat),(None,None)));
    (20%nat,((360000360000360,20%nat),(None,None)));
    (22%nat,(((-965854624391210),21%nat),(None,None)))]);
  (20%nat, [(17%nat,((150967892903377,20%nat),(None,None)));
    (19%nat,(((-360000360000360),20%nat),(None,None)));
    (21%nat,((289756387317363,20%nat),(None,None)));
    (23%nat,(((-786160740783543),21%nat),(None,None)))]);
  (21%nat, [(18%nat,((120000120000120,20%nat),(None,None)));
    (20%nat,(((-289756387317363),20%nat),(None,None)));
    (22%nat,((235848222235063,20%nat),(None,None)));
    (24%nat,(((-646398831310913),21%nat),(None,None)))]);
  (22%nat, [(19%nat,((965854624391210,21%nat),(None,None)));
    (21%nat,(((-235848222235063),20%nat),(None,None)));
    (23%nat,((193919649393274,20%nat),(None,None)));
    (25%nat,(((-536373498321821),21%nat),(None,None)))]);
  (23%nat, [(20%nat,((786160740783543,21%nat),(None,None)));
    (22%nat,(((-193919649393274),20%nat),(None,None)));
    (24%nat,((160912049496546,20%nat),(None,None)));
    (26%nat,(((-448802314922340),21%nat),(None,None)))]);
  (24%nat, [(21%nat,((646398831310913,21%nat),(None,None)));
    (23%nat,(((-160912049496546),20%nat),(None,None)));
    (25%nat,((134640694476702,20%nat),(None,None)));
    (27%nat,(((-378401951797267),21%nat),(None,None)))]);
  (25%nat, [(22%nat,((536373498321821,21%nat),(None,None)));
    (24%nat,(((-134640694476702),20%nat),(None,None)));
    (26%nat,((113520585539180,20%nat),(None,None)));
    (28%nat,(((-321284676054284),21%nat),(None,None)))]);
  (26%nat, [(23%nat,((448802314922340,21%nat),(None,None)));
    (25%nat,(((-113520585539180),20%nat),(None,None)));
    (27%nat,((963854028162851,21%nat),(None,None)));
    (29%nat,(((-274552359537297),21%nat),(None,None)))]);
  (27%nat, [(24%nat,((378401951797267,21%nat),(None,None)));
    (26%nat,(((-963854028162851),21%nat),(None,None)));
    (28%nat,((823657078611891,21%nat),(None,None)))]);
  (28%nat, [(25%nat,((321284676054284,21%nat),(None,None)));
    (27%nat,(((-823657078611891),21%nat),(None,None)));
    (29%nat,((708056085122503,21%nat),(None,None)))]);
  (29%nat, [(26%nat,((274552359537297,21%nat),(None,None)));
    (28%nat,(((-708056085122503),21%nat),(None,None)))])
].

Definition lit_int_ffpp : list (nat * list (nat * int_entry)) := [
  (0%nat, [(0%nat,(((-6),1%nat),(Some 0%nat,Some 0%nat)));
    (1%nat,(((-55),2%nat),(Some 0%nat,Some 1%nat)));
    (2%nat,((6,1%nat),(Some 0%nat,Some 2%nat)));
    (3%nat,(((-5),2%nat),(Some 0%nat,Some 3%nat)));
    (5%nat,((285714285714286,16%nat),(Some 0%nat,None)))]);
  (1%nat, [(0%nat,(((-5),2%nat),(Some 1%nat,Some 0%nat)));
    (1%nat,(((-666666666666667),16%nat),(Some 1%nat,Some 1%nat)));
    (2%nat,((5,2%nat),(Some 1%nat,Some 2%nat)));
    (3%nat,((166666666666667,16%nat),(Some 1%nat,Some 3%nat)));
    (4%nat,(((-333333333333333),16%nat),(Some 1%nat,None)));
    (5%nat,((142857142857143,16%nat),(Some 1%nat,None)))]);
  (2%nat, [(0%nat,((6,1%nat),(Some 2%nat,Some 0%nat)));
    (1%nat,((5,2%nat),(Some 2%nat,Some 1%nat)));
    (2%nat,(((-6),1%nat),(Some 2%nat,Some 2%nat)));
    (3%nat,((55,2%nat),(Some 2%nat,Some 3%nat)));
    (5%nat,(((-285714285714286),16%nat),(Some 2%nat,None)))]);
  (3%nat, [(0%nat,(((-5),2%nat),(Some 3%nat,Some 0%nat)));
    (1%nat,((166666666666667,16%nat),(Some 3%nat,Some 1%nat)));
    (2%nat,((5,2%nat),(Some 3%nat,Some 2%nat)));
    (3%nat,(((-666666666666667),16%nat),(Some 3%nat,Some 3%nat)));
    (4%nat,((333333333333333,16%nat),(Some 3%nat,None)));
    (5%nat,((142857142857143,16%nat),(Some 3%nat,None)))]);
  (4%nat, [(1%nat,(((-333333333333333),16%nat),(None,Some 1%nat)));
    (3%nat,((333333333333333,16%nat),(None,Some 3%nat)));
    (4%nat,(((-380952380952381),16%nat),(None,None)));
    (6%nat,((634920634920635,17%nat),(None,None)))]);
  (5%nat, [(0%nat,((285714285714286,16%nat),(None,Some 0%nat)));
    (1%nat,((142857142857143,16%nat),(None,Some 1%nat)));
    (2%nat,(((-285714285714286),16%nat),(None,Some 2%nat)));
    (3%nat,((142857142857143,16%nat),(None,Some 3%nat)));
    (5%nat,(((-126984126984127),16%nat),(None,None)));
    (7%nat,((288600288600289,17%nat),(None,None)))]);
  (6%nat, [(4%nat,((634920634920635,17%nat),(None,None)));
    (6%nat,(((-577200577200577),17%nat),(None,None)));
    (8%nat,((155400155400155,17%nat),(None,None)))]);
  (7%nat, [(5%nat,((288600288600289,17%nat),(None,None)));
    (7%nat,(((-310800310800311),17%nat),(None,None)));
    (9%nat,((932400932400932,18%nat),(None,None)))]);
  (8%nat, [(6%nat,((155400155400155,17%nat),(None,None)));
    (8%nat,(((-186480186480186),17%nat),(None,None)));
    (10%nat,((603318250377074,18%nat),(None,None)))]);
  (9%nat, [(7%nat,((932400932400932,18%nat),(None,None)));
    (9%nat,(((-120663650075415),17%nat),(None,None)));
    (11%nat,((412796697626419,18%nat),(None,None)))]);
  (10%nat, [(8%nat,((603318250377074,18%nat),(None,None)));
    (10%nat,(((-825593395252838),18%nat),(None,None)));
    (12%nat,((294854784018871,18%nat),(None,None)))]);
  (11%nat, [(9%nat,((412796697626419,18%nat),(None,None)));
    (11%nat,(((-589709568037741),18%nat),(None,None)));
    (13%nat,((217936144709600,18%nat),(None,None)))]);
  (12%nat, [(10%nat,((294854784018871,18%nat),(None,None)));
    (12%nat,(((-435872289419200),18%nat),(None,None)));
    (14%nat,((165631469979296,18%nat),(None,None)))]);
  (13%nat, [(11%nat,((217936144709600,18%nat),(None,None)));
    (13%nat,(((-331262939958592),18%nat),(None,None)));
    (15%nat,((128824476650564,18%nat),(None,None)))]);
  (14%nat, [(12%nat,((165631469979296,18%nat),(None,None)));
    (14%nat,(((-257648953301127),18%nat),(None,None)));
    (16%nat,((102171136653895,18%nat),(None,None)))]);
  (15%nat, [(13%nat,((128824476650564,18%nat),(None,None)));
    (15%nat,(((-204342273307791),18%nat),(None,None)));
    (17%nat,((823960779466897,19%nat),(None,None)))]);
  (16%nat, [(14%nat,((102171136653895,18%nat),(None,None)));
    (16%nat,(((-164792155893379),18%nat),(None,None)));
    (18%nat,((674149728654734,19%nat),(None,None)))]);
  (17%nat, [(15%nat,((823960779466897,19%nat),(None,None)));
    (17%nat,(((-134829945730947),18%nat),(None,None)));
    (19%nat,((558581203742494,19%nat),(None,None)))]);
  (18%nat, [(16%nat,((674149728654734,19%nat),(None,None)));
    (18%nat,(((-111716240748499),18%nat),(None,None)));
    (20%nat,((468000468000468,19%nat),(None,None)))]);
  (19%nat, [(17%nat,((558581203742494,19%nat),(None,None)));
    (19%nat,(((-936000936000936),19%nat),(None,None)));
    (21%nat,((396000396000396,19%nat),(None,None)))]);
  (20%nat, [(18%nat,((468000468000468,19%nat),(None,None)));
    (20%nat,(((-792000792000792),19%nat),(None,None)));
    (22%nat,((338049118536923,19%nat),(None,None)))]);
  (21%nat, [(19%nat,((396000396000396,19%nat),(None,None)));
    (21%nat,(((-676098237073847),19%nat),(None,None)));
    (23%nat,((290879474089911,19%nat),(None,None)))]);
  (22%nat, [(20%nat,((338049118536923,19%nat),(None,None)));
    (22%nat,(((-581758948179822),19%nat),(None,None)));
    (24%nat,((252095544211256,19%nat),(None,None)))]);
  (23%nat, [(21%nat,((290879474089911,19%nat),(None,None)));
    (23%nat,(((-504191088422512),19%nat),(None,None)));
    (25%nat,((219913134311947,19%nat),(None,None)))]);
  (24%nat, [(22%nat,((252095544211256,19%nat),(None,None)));
    (24%nat,(((-439826268623894),19%nat),(None,None)));
    (26%nat,((192984995416606,19%nat),(None,None)))]);
  (25%nat, [(23%nat,((219913134311947,19%nat),(None,None)));
    (25%nat,(((-385969990833213),19%nat),(None,None)));
    (27%nat,((170280878308770,19%nat),(None,None)))]);
  (26%nat, [(24%nat,((192984995416606,19%nat),(None,None)));
    (26%nat,(((-340561756617541),19%nat),(None,None)));
    (28%nat,((151003797745513,19%nat),(None,None)))]);
  (27%nat, [(25%nat,((170280878308770,19%nat),(None,None)));
    (27%nat,(((-302007595491027),19%nat),(None,None)));
    (29%nat,((134530656173275,19%nat),(None,None)))]);
  (28%nat, [(26%nat,((151003797745513,19%nat),(None,None)));
    (28%nat,(((-269061312346551),19%nat),(None,None)))]);
  (29%nat, [(27%nat,((134530656173275,19%nat),(None,None)));
    (29%nat,(((-240739068941651),19%nat),(None,None)))])
].

Definition lit_int_fpfp : list (nat * list (nat * int_entry)) := [
  (0%nat, [(0%nat,((6,1%nat),(Some 0%nat,Some 0%nat)));
    (1%nat,((5,2%nat),(Some 0%nat,Some 1%nat)));
    (2%nat,(((-6),1%nat),(Some 0%nat,Some 2%nat)));
    (3%nat,((5,2%nat),(Some 0%nat,Some 3%nat)));
    (5%nat,(((-285714285714286),16%nat),(Some 0%nat,None)))]);
  (1%nat, [(0%nat,((5,2%nat),(Some 1%nat,Some 0%nat)));
    (1%nat,((666666666666667,16%nat),(Some 1%nat,Some 1%nat)));
    (2%nat,(((-5),2%nat),(Some 1%nat,Some 2%nat)));
    (3%nat,(((-166666666666667),16%nat),(Some 1%nat,Some 3%nat)));
    (4%nat,((333333333333333,16%nat),(Some 1%nat,None)));
    (5%nat,(((-142857142857143),16%nat),(Some 1%nat,None)))]);
  (2%nat, [(0%nat,(((-6),1%nat),(Some 2%nat,Some 0%nat)));
    (1%nat,(((-5),2%nat),(Some 2%nat,Some 1%nat)));
    (2%nat,((6,1%nat),(Some 2%nat,Some 2%nat)));
    (3%nat,(((-5),2%nat),(Some 2%nat,Some 3%nat)));
    (5%nat,((285714285714286,16%nat),(Some 2%nat,None)))]);
  (3%nat, [(0%nat,((5,2%nat),(Some 3%nat,Some 0%nat)));
    (1%nat,(((-166666666666667),16%nat),(Some 3%nat,Some 1%nat)));
    (2%nat,(((-5),2%nat),(Some 3%nat,Some 2%nat)));
    (3%nat,((666666666666667,16%nat),(Some 3%nat,Some 3%nat)));
    (4%nat,(((-333333333333333),16%nat),(Some 3%nat,None)));
    (5%nat,(((-142857142857143),16%nat),(Some 3%nat,None)))]);
  (4%nat, [(1%nat,((333333333333333,16%nat),(None,Some 1%nat)));
    (3%nat,(((-333333333333333),16%nat),(None,Some 3%nat)));
    (4%nat,((380952380952381,16%nat),(None,None)));
    (6%nat,(((-634920634920635),17%nat),(None,None)))]);
  (5%nat, [(0%nat,(((-285714285714286),16%nat),(None,Some 0%nat)));
    (1%nat,(((-142857142857143),16%nat),(None,Some 1%nat)));
    (2%nat,((285714285714286,16%nat),(None,Some 2%nat)));
    (3%nat,(((-142857142857143),16%nat),(None,Some 3%nat)));
    (5%nat,((126984126984127,16%nat),(None,None)));
    (7%nat,(((-288600288600289),17%nat),(None,None)))]);
  (6%nat, [(4%nat,(((-634920634920635),17%nat),(None,None)));
    (6%nat,((577200577200577,17%nat),(None,None)));
    (8%nat,(((-155400155400155),17%nat),(None,None)))]);
  (7%nat, [(5%nat,(((-288600288600289),17%nat),(None,None)));
    (7%nat,((310800310800311,17%nat),(None,None)));
    (9%nat,(((-932400932400932),18%nat),(None,None)))]);
  (8%nat, [(6%nat,(((-155400155400155),17%nat),(None,None)));
    (8%nat,((186480186480186,17%nat),(None,None)));
    (10%nat,(((-603318250377074),18%nat),(None,None)))]);
  (9%nat, [(7%nat,(((-932400932400932),18%nat),(None,None)));
    (9%nat,((120663650075415,17%nat),(None,None)));
    (11%nat,(((-412796697626419),18%nat),(None,None)))]);
  (10%nat, [(8%nat,(((-603318250377074),18%nat),(None,None)));
    (10%nat,((825593395252838,18%nat),(None,None)));
    (12%nat,(((-294854784018871),18%nat),(None,None)))]);
  (11%nat, [(9%nat,(((-412796697626419),18%nat),(None,None)));
    (11%nat,((589709568037741,18%nat),(None,None)));
    (13%nat,(((-217936144709600),18%nat),(None,None)))]);
  (12%nat, [(10%nat,(((-294854784018871),18%nat),(None,None)));
    (12%nat,((435872289419200,18%nat),(None,None)));
    (14%nat,(((-165631469979296),18%nat),(None,None)))]);
  (13%nat, [(11%nat,(((-217936144709600),18%nat),(None,None)));
    (13%nat,((331262939958592,18%nat),(None,None)));
    (15%nat,(((-128824476650564),18%nat),(None,None)))]);
  (14%nat, [(12%nat,(((-165631469979296),18%nat),(None,None)));
    (14%nat,((257648953301127,18%nat),(None,None)));
    (16%nat,(((-102171136653895),18%nat),(None,None)))]);
  (15%nat, [(13%nat,(((-128824476650564),18%nat),(None,None)));
    (15%nat,((204342273307791,18%nat),(None,None)));
    (17%nat,(((-823960779466897),19%nat),(None,None)))]);
  (16%nat, [(14%nat,(((-102171136653895),18%nat),(None,None)));
    (16%nat,((164792155893379,18%nat),(None,None)));
    (18%nat,(((-674149728654734),19%nat),(None,None)))]);
  (17%nat, [(15%nat,(((-823960779466897),19%nat),(None,None)));
    (17%nat,((134829945730947,18%nat),(None,None)));
    (19%nat,(((-558581203742494),19%nat),(None,None)))]);
  (18%nat, [(16%nat,(((-674149728654734),19%nat),(None,None)));
    (18%nat,((111716240748499,18%nat),(None,None)));
    (20%nat,(((-468000468000468),19%nat),(None,None)))]);
  (19%nat, [(17%nat,(((-558581203742494),19%nat),(None,None)));
    (19%nat,((936000936000936,19%nat),(None,None)));
    (21%nat,(((-396000396000396),19%nat),(None,None)))]);
  (20%nat, [(18%nat,(((-468000468000468),19%nat),(None,None)));
    (20%nat,((792000792000792,19%nat),(None,None)));
    (22%nat,(((-338049118536923),19%nat),(None,None)))]);
  (21%nat, [(19%nat,(((-396000396000396),19%nat),(None,None)));
    (21%nat,((676098237073847,19%nat),(None,None)));
    (23%nat,(((-290879474089911),19%nat),(None,None)))]);
  (22%nat, [(20%nat,(((-338049118536923),19%nat),(None,None)));
    (22%nat,((581758948179822,19%nat),(None,None)));
    (24%nat,(((-252095544211256),19%nat),(None,None)))]);
  (23%nat, [(21%nat,(((-290879474089911),19%nat),(None,None)));
    (23%nat,((504191088422512,19%nat),(None,None)));
    (25%nat,(((-219913134311947),19%nat),(None,None)))]);
  (24%nat, [(22%nat,(((-252095544211256),19%nat),(None,None)));
    (24%nat,((439826268623894,19%nat),(None,None)));
    (26%nat,(((-192984995416606),19%nat),(None,None)))]);
  (25%nat, [(23%nat,(((-219913134311947),19%nat),(None,None)));
    (25%nat,((385969990833213,19%nat),(None,None)));
    (27%nat,(((-170280878308770),19%nat),(None,None)))]);
  (26%nat, [(24%nat,(((-192984995416606),19%nat),(None,None)));
    (26%nat,((340561756617541,19%nat),(None,None)));
    (28%nat,(((-151003797745513),19%nat),(None,None)))]);
  (27%nat, [(25%nat,(((-170280878308770),19%nat),(None,None)));
    (27%nat,((302007595491027,19%nat),(None,None)));
    (29%nat,(((-134530656173275),19%nat),(None,None)))]);
  (28%nat, [(26%nat,(((-151003797745513),19%nat),(None,None)));
    (28%nat,((269061312346551,19%nat),(None,None)))]);
  (29%nat, [(27%nat,(((-134530656173275),19%nat),(None,None)));
    (29%nat,((240739068941651,19%nat),(None,None)))])
].

Definition lit_int_fpfpp : list (nat * list (nat * int_entry)) := [
  (0%nat, [(1%nat,((25,2%nat),(Some 0%nat,Some 1%nat)));
    (3%nat,(((-25),2%nat),(Some 0%nat,Some 3%nat)));
    (4%nat,((2,1%nat),(Some 0%nat,None)))]);
  (1%nat, [(0%nat,(((-25),2%nat),(Some 1%nat,Some 0%nat)));
    (1%nat,(((-125),3%nat),(Some 1%nat,Some 1%nat)));
    (2%nat,((25,2%nat),(Some 1%nat,Some 2%nat)));
    (3%nat,(((-125),3%nat),(Some 1%nat,Some 3%nat)));
    (4%nat,((1,1%nat),(Some 1%nat,None)))]);
  (2%nat, [(1%nat,(((-25),2%nat),(Some 2%nat,Some 1%nat)));
    (3%nat,((25,2%nat),(Some 2%nat,Some 3%nat)));
    (4%nat,(((-2),1%nat),(Some 2%nat,None)))]);
  (3%nat, [(0%nat,((25,2%nat),(Some 3%nat,Some 0%nat)));
    (1%nat,((125,3%nat),(Some 3%nat,Some 1%nat)));
    (2%nat,(((-25),2%nat),(Some 3%nat,Some 2%nat)));
    (3%nat,((125,3%nat),(Some 3%nat,Some 3%nat)));
    (4%nat,((1,1%nat),(Some 3%nat,None)))]);
  (4%nat, [(0%nat,(((-2),1%nat),(None,Some 0%nat)));
    (1%nat,(((-1),1%nat),(None,Some 1%nat)));
    (2%nat,((2,1%nat),(None,Some 2%nat)));
    (3%nat,(((-1),1%nat),(None,Some 3%nat)));
    (5%nat,((571428571428571,16%nat),(None,None)))]);
  (5%nat, [(4%nat,(((-571428571428571),16%nat),(None,None)));
    (6%nat,((317460317460317,16%nat),(None,None)))]);
  (6%nat, [(5%nat,(((-317460317460317),16%nat),(None,None)));
    (7%nat,((202020202020202,16%nat),(None,None)))]);
  (7%nat, [(6%nat,(((-202020202020202),16%nat),(None,None)));
    (8%nat,((139860139860140,16%nat),(None,None)))]);
  (8%nat, [(7%nat,(((-139860139860140),16%nat),(None,None)));
    (9%nat,((102564102564103,16%nat),(None,None)))]);
  (9%nat, [(8%nat,(((-102564102564103),16%nat),(None,None)));
    (10%nat,((784313725490196,17%nat),(None,None)))]);
  (10%nat, [(9%nat,(((-784313725490196),17%nat),(None,None)));
    (11%nat,((619195046439629,17%nat),(None,None)))]);
  (11%nat, [(10%nat,(((-619195046439629),17%nat),(None,None)));
    (12%nat,((501253132832080,17%nat),(None,None)))]);
  (12%nat, [(11%nat,(((-501253132832080),17%nat),(None,None)));
    (13%nat,((414078674948240,17%nat),(None,None)))]);
  (13%nat, [(12%nat,(((-414078674948240),17%nat),(None,None)));
    (14%nat,((347826086956522,17%nat),(None,None)))]);
  (14%nat, [(13%nat,(((-347826086956522),17%nat),(None,None)));
    (15%nat,((296296296296296,17%nat),(None,None)))]);
  (15%nat, [(14%nat,(((-296296296296296),17%nat),(None,None)));
    (16%nat,((255427841634738,17%nat),(None,None)))]);
  (16%nat, [(15%nat,(((-255427841634738),17%nat),(None,None)));
    (17%nat,((222469410456062,17%nat),(None,None)))]);
  (17%nat, [(16%nat,(((-222469410456062),17%nat),(None,None)));
    (18%nat,((195503421309873,17%nat),(None,None)))]);
  (18%nat, [(17%nat,(((-195503421309873),17%nat),(None,None)));
    (19%nat,((173160173160173,17%nat),(None,None)))]);
  (19%nat, [(18%nat,(((-173160173160173),17%nat),(None,None)));
    (20%nat,((154440154440154,17%nat),(None,None)))]);
  (20%nat, [(19%nat,(((-154440154440154),17%nat),(None,None)));
    (21%nat,((138600138600139,17%nat),(None,None)))]);
  (21%nat, [(20%nat,(((-138600138600139),17%nat),(None,None)));
    (22%nat,((125078173858662,17%nat),(None,None)))]);
  (22%nat, [(21%nat,(((-125078173858662),17%nat),(None,None)));
    (23%nat,((113442994895065,17%nat),(None,None)))]);
  (23%nat, [(22%nat,(((-113442994895065),17%nat),(None,None)));
    (24%nat,((103359173126615,17%nat),(None,None)))]);
  (24%nat, [(23%nat,(((-103359173126615),17%nat),(None,None)));
    (25%nat,((945626477541371,18%nat),(None,None)))]);
  (25%nat, [(24%nat,(((-945626477541371),18%nat),(None,None)));
    (26%nat,((868432479374729,18%nat),(None,None)))]);
  (26%nat, [(25%nat,(((-868432479374729),18%nat),(None,None)));
    (27%nat,((800320128051221,18%nat),(None,None)))]);
  (27%nat, [(26%nat,(((-800320128051221),18%nat),(None,None)));
    (28%nat,((739918608953015,18%nat),(None,None)))]);
  (28%nat, [(27%nat,(((-739918608953015),18%nat),(None,None)));
    (29%nat,((686106346483705,18%nat),(None,None)))]);
  (29%nat, [(28%nat,(((-686106346483705),18%nat),(None,None)))])
].

Definition lit_int_fppfpp : list (nat * list (nat * int_entry)) := [
  (0%nat, [(0%nat,((15,1%nat),(Some 0%nat,Some 0%nat)));
    (1%nat,((75,2%nat),(Some 0%nat,Some 1%nat)));
    (2%nat,(((-15),1%nat),(Some 0%nat,Some 2%nat)));
    (3%nat,((75,2%nat),(Some 0%nat,Some 3%nat)))]);
  (1%nat, [(0%nat,((75,2%nat),(Some 1%nat,Some 0%nat)));
    (1%nat,((5,1%nat),(Some 1%nat,Some 1%nat)));
    (2%nat,(((-75),2%nat),(Some 1%nat,Some 2%nat)));
    (3%nat,((25,2%nat),(Some 1%nat,Some 3%nat)))]);
  (2%nat, [(0%nat,(((-15),1%nat),(Some 2%nat,Some 0%nat)));
    (1%nat,(((-75),2%nat),(Some 2%nat,Some 1%nat)));
    (2%nat,((15,1%nat),(Some 2%nat,Some 2%nat)));
    (3%nat,(((-75),2%nat),(Some 2%nat,Some 3%nat)))]);
  (3%nat, [(0%nat,((75,2%nat),(Some 3%nat,Some 0%nat)));
    (1%nat,((25,2%nat),(Some 3%nat,Some 1%nat)));
    (2%nat,(((-75),2%nat),(Some 3%nat,Some 2%nat)));
    (3%nat,((5,1%nat),(Some 3%nat,Some 3%nat)))]);
  (4%nat, [(4%nat,((400000000000000,15%nat),(None,None)))]);
  (5%nat, [(5%nat,((285714285714286,15%nat),(None,None)))]);
  (6%nat, [(6%nat,((222222222222222,15%nat),(None,None)))]);
  (7%nat, [(7%nat,((181818181818182,15%nat),(None,None)))]);
  (8%nat, [(8%nat,((153846153846154,15%nat),(None,None)))]);
  (9%nat, [(9%nat,((133333333333333,15%nat),(None,None)))]);
  (10%nat, [(10%nat,((117647058823529,15%nat),(None,None)))]);
  (11%nat, [(11%nat,((105263157894737,15%nat),(None,None)))]);
  (12%nat, [(12%nat,((952380952380952,16%nat),(None,None)))]);
  (13%nat, [(13%nat,((869565217391304,16%nat),(None,None)))]);
  (14%nat, [(14%nat,((800000000000000,16%nat),(None,None)))]);
  (15%nat, [(15%nat,((740740740740741,16%nat),(None,None)))]);
  (16%nat, [(16%nat,((689655172413793,16%nat),(None,None)))]);
  (17%nat, [(17%nat,((645161290322581,16%nat),(None,None)))]);
  (18%nat, [(18%nat,((606060606060606,16%nat),(None,None)))]);
  (19%nat, [(19%nat,((571428571428571,16%nat),(None,None)))]);
  (20%nat, [(20%nat,((540540540540541,16%nat),(None,None)))]);
  (21%nat, [(21%nat,((512820512820513,16%nat),(None,None)))]);
  (22%nat, [(22%nat,((487804878048781,16%nat),(None,None)))]);
  (23%nat, [(23%nat,((465116279069767,16%nat),(None,None)))]);
  (24%nat, [(24%nat,((444444444444444,16%nat),(None,None)))]);
  (25%nat, [(25%nat,((425531914893617,16%nat),(None,None)))]);
  (26%nat, [(26%nat,((408163265306122,16%nat),(None,None)))]);
  (27%nat, [(27%nat,((392156862745098,16%nat),(None,None)))]);
  (28%nat, [(28%nat,((377358490566038,16%nat),(None,None)))]);
  (29%nat, [(29%nat,((363636363636364,16%nat),(None,None)))])
].
