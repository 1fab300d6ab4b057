(** The coefficients of the Moon's and the Earth's longitude, eph/eph_data.h, as integers. *)
From Coq Require Import ZArith List.
Import ListNotations.
Open Scope Z_scope.
(** a cos(b + d t + e t^2/10^4 + f t^3/10^8 + g t^4/10^8); the units are 10^-8 (a), 10^-11 (b), 10^-9 (d), 10^-7 (e), 10^-4 (f), 10^-6 (g) *)
Record wave : Set := W { wa : Z; wb : Z; wd : Z; we : Z; wf : Z; wg : Z }.
(** eph/eph_data.h:316 ML0_DATA *)
Definition ML0 : list wave :=
  [W 2263958600000 78475822000 8328691424623 15229241 250719 (-123598); W 458643800000 18739740000 7214062865360 (-21847560) (-188600) 82800;
   W 236991400000 254295200000 15542754289980 (-6618320) 62120 (-40800); W 76902600000 314031300000 16657382849250 30458500 501440 (-247200);
   W 66641800000 152767100000 628301955210 (-266400) 620 (-5400); W 41159600000 482660700000 16866932315000 (-12801200) (-10700) (-5900);
   W 21165600000 411502800000 (-1114628559300) (-37076800) (-439300) 206400; W 20543600000 23052300000 6585760910100 (-21581200) (-189200) 88200;
   W 19195600000 489850700000 23871445714600 8610900 312800 (-164000); W 16472900000 258607800000 14914452334800 (-6352000) 61500 (-35000);
   W 14732100000 545530000000 (-7700389469400) (-15496000) (-250100) 118000; W 12498800000 48608000000 7771377145000 (-3309000) 31100 (-20000);
   W 10938000000 388323000000 8956993379800 14963000 251300 (-129000); W 5517700000 557033000000 (-1324178025000) 6183000 73000 (-35000);
   W 4510000000 89898000000 25195623740000 2428000 240000 (-129000); W 3953300000 381213000000 (-8538240890000) 28030000 261000 (-118000);
   W 3843000000 430115000000 22756817155000 (-28466000) (-126000) 42000; W 3612400000 549587000000 24986074274000 45688000 752000 (-371000);
   W 3077300000 194559000000 14428125731000 (-43695000) (-377000) 166000; W 2839700000 328586000000 7842364821000 (-22114000) (-188000) 77000;
   W 2435800000 564142000000 16171056245000 (-6885000) 63000 (-46000); W 1858500000 441371000000 (-557314280000) (-18538000) (-220000) 100000;
   W 1795400000 358454000000 8399679100000 (-3576000) 32000 (-30000); W 1453000000 494160000000 23243143759000 8880000 312000 (-160000);
   W 1438000000 97090000000 32200137139000 23840000 564000 (-290000); W 1425100000 576410000000 (-2301200000) 15230000 251000 (-120000);
   W 1389900000 37350000000 31085508580000 (-13240000) 124000 (-80000); W 1319400000 175950000000 (-9443319984000) (-52310000) (-690000) 330000;
   W 967900000 309970000000 (-16029080894000) (-30720000) (-501000) 240000; W 936600000 30160000000 24080995180000 (-34650000) (-199000) 80000;
   W 860600000 415820000000 (-1742930514000) (-36810000) (-440000) 210000; W 845300000 284160000000 16100068570000 11920000 282000 (-140000);
   W 805000000 262920000000 14286150380000 (-6090000) 61000 (-30000); W 763000000 623880000000 17285684804000 30190000 502000 (-250000);
   W 744700000 148450000000 1256603910000 (-530000) 1000 (-10000); W 737100000 27360000000 5957458955000 (-21310000) (-190000) 90000;
   W 706300000 567150000000 33757047000 (-3080000) (-36000) 20000; W 638300000 478430000000 7004513400000 21410000 324000 (-160000);
   W 574200000 265720000000 32409686605000 (-19420000) 50000 (-50000); W 437400000 434430000000 22128515200000 (-28200000) (-130000) 50000;
   W 399800000 325450000000 33524315160000 17660000 490000 (-250000); W 321000000 224430000000 14985440010000 (-25160000) (-160000) 60000;
   W 291500000 171380000000 24499747670000 8340000 310000 (-170000); W 273200000 198870000000 13799823780000 (-43430000) (-380000) 170000;
   W 256800000 541220000000 (-7072087510000) (-15760000) (-250000) 110000; W 252100000 324270000000 8470666780000 (-22380000) (-190000) 70000;
   W 248900000 407190000000 (-486326600000) (-37340000) (-440000) 200000; W 214600000 561350000000 (-1952479980000) 6450000 70000 (-30000);
   W 197800000 272910000000 39414200000000 1990000 370000 (-210000); W 193400000 156820000000 33314765700000 60920000 1000000 (-500000);
   W 187100000 41660000000 30457206620000 (-12970000) 120000 (-100000); W 175300000 205820000000 (-8886005700000) (-33800000) (-470000) 200000;
   W 143700000 238600000000 (-695876070000) 5900000 70000 0; W 137300000 302600000000 (-209549470000) 43300000 510000 (-200000);
   W 126200000 594000000000 16728370520000 11700000 280000 (-100000); W 122400000 617200000000 6656748590000 (-40400000) (-410000) 200000;
   W 118700000 587300000000 6099434310000 (-58900000) (-630000) 300000; W 117700000 101400000000 31571835180000 24100000 560000 (-300000);
   W 116200000 384000000000 9585295340000 14700000 250000 (-100000); W 114300000 563900000000 8364739840000 (-21800000) (-190000) 100000;
   W 107800000 122900000000 70987680000 (-18800000) (-220000) 100000; W 105900000 332600000000 40528828560000 39100000 810000 (-400000);
   W 99000000 501300000000 40738378030000 (-4200000) 300000 (-200000); W 94800000 568700000000 (-17772011410000) (-67500000) (-940000) 500000;
   W 87600000 29800000000 (-352320000) 0 0 0; W 82200000 299400000000 393020970000 0 0 0; W 78800000 183600000000 8326390220000 30500000 500000 (-200000);
   W 75200000 498500000000 22614841800000 9100000 310000 (-200000); W 74000000 287500000000 8330992620000 0 0 0;
   W 66900000 74400000000 (-24357772320000) (-46000000) (-750000) 400000; W 64400000 131400000000 8393125770000 (-21800000) (-190000) 100000;
   W 63900000 588800000000 575338490000 0 0 0; W 63500000 111600000000 23385119110000 (-28700000) (-130000) 0;
   W 58400000 519700000000 24428759990000 27100000 530000 (-300000); W 58300000 351300000000 (-9095555170000) 9500000 40000 0;
   W 57200000 605900000000 29970880020000 (-50300000) (-320000) 100000; W 56500000 296000000000 328630000 15200000 250000 (-100000);
   W 56100000 400100000000 (-17981560870000) (-24300000) (-430000) 200000; W 55700000 52900000000 7143075190000 (-3000000) 30000 0;
   W 54600000 231100000000 25614376230000 45400000 750000 (-400000); W 53600000 422900000000 15752303760000 (-49900000) (-450000) 200000;
   W 49300000 331600000000 (-8294934400000) (-18300000) (-290000) 100000; W 49100000 174400000000 8362448500000 12100000 210000 (-100000);
   W 47800000 180300000000 (-10071621900000) (-52000000) (-690000) 300000; W 45400000 85700000000 15333204800000 36600000 570000 (-300000);
   W 44500000 207100000000 8311770700000 (-21800000) (-190000) 100000; W 42600000 34500000000 23452693200000 (-34400000) (-200000) 100000;
   W 42000000 494100000000 33733864600000 (-25600000) (-20000) 0; W 41300000 164200000000 17495234300000 (-13100000) (-10000) 0;
   W 40400000 145800000000 23314131400000 (-9900000) 90000 (-100000); W 39500000 213200000000 38299571400000 (-35100000) (-60000) 0;
   W 38200000 270000000000 31781384600000 (-19200000) 50000 0; W 37500000 482700000000 6376211400000 21700000 320000 (-200000);
   W 36100000 386700000000 16833175300000 (-9700000) 30000 0; W 35800000 504400000000 15056427700000 (-44000000) (-380000) 200000;
   W 35000000 515700000000 (-8257703700000) (-34000000) (-470000) 200000; W 34400000 423300000000 157734400000 0 0 0;
   W 34000000 267200000000 13657848400000 (-5800000) 60000 0; W 32900000 561000000000 41853006600000 32900000 740000 (-400000); W 32500000 589500000000 (-39814900000) 0 0 0;
   W 30900000 438700000000 21500213200000 (-27900000) (-130000) 100000; W 30200000 127800000000 786041900000 0 0 0;
   W 30200000 534100000000 (-24567321800000) (-2700000) (-240000) 100000; W 30100000 104500000000 5889884800000 (-15700000) (-120000) 0;
   W 29400000 420100000000 (-2371232500000) (-36500000) (-440000) 200000; W 29300000 370400000000 21642188600000 (-65500000) (-570000) 200000;
   W 29000000 406900000000 32828439100000 23600000 560000 (-300000); W 28900000 347200000000 31713810500000 (-13500000) 120000 (-100000);
   W 28500000 540700000000 (-33781400000) 3100000 40000 0; W 28300000 599800000000 (-16920700000) (-37100000) (-440000) 200000;
   W 28300000 277200000000 38785898000000 2300000 370000 (-200000); W 27400000 534300000000 15613742000000 (-25400000) (-160000) 100000;
   W 26300000 399700000000 25823925700000 2200000 240000 (-100000); W 25400000 60000000000 24638309500000 (-16100000) 20000 0;
   W 25300000 134400000000 6447199100000 2900000 100000 (-100000); W 25000000 88700000000 141975400000 (-37600000) (-440000) 200000;
   W 24700000 31700000000 5329157000000 (-21000000) (-190000) 100000; W 24500000 14100000000 36048400000 (-37100000) (-440000) 200000;
   W 23100000 228700000000 14357138100000 (-24900000) (-160000) 100000; W 22700000 515800000000 2629800000 0 0 0;
   W 21900000 508500000000 47742891400000 17200000 630000 (-300000); W 21100000 214500000000 6638724400000 (-21800000) (-190000) 100000;
   W 20100000 441500000000 39623749500000 (-41300000) (-140000) 0; W 19400000 209100000000 588492700000 0 0 0;
   W 19300000 305700000000 (-15400778900000) (-31000000) (-500000) 0; W 18600000 559800000000 16799358200000 (-7200000) 60000 0; W 18500000 388600000000 1150677000000 0 0 0;
   W 18300000 161900000000 7178014400000 15200000 250000 0; W 18100000 263500000000 8328339100000 15200000 250000 0; W 18100000 207700000000 8329043700000 15200000 250000 0;
   W 17900000 321500000000 (-9652869400000) (-9000000) (-180000) 0; W 17600000 171600000000 (-8815018000000) (-52600000) (-690000) 0;
   W 17500000 567300000000 550755300000 0 0 0; W 17000000 206000000000 31295058000000 (-56000000) (-390000) 0; W 16700000 123900000000 7211761700000 (-7000000) 60000 0;
   W 16500000 449900000000 14967415800000 (-7000000) 60000 0; W 16400000 359500000000 15540453100000 9000000 310000 0; W 16400000 423700000000 522369400000 0 0 0;
   W 16300000 463300000000 15545055500000 (-22000000) (-190000) 0; W 16100000 47800000000 6428020900000 (-22000000) (-190000) 0;
   W 15800000 203000000000 13171521800000 (-43000000) (-380000) 0; W 15700000 228000000000 7216364100000 (-37000000) (-440000) 0;
   W 15400000 565000000000 7935670500000 15000000 250000 0; W 15200000 46000000000 29828904700000 (-13000000) 120000 0; W 15100000 119000000000 (-711300000) 0 0 0;
   W 15000000 142000000000 23942433400000 (-10000000) 90000 0; W 14400000 275000000000 7753352900000 15000000 250000 0;
   W 13700000 208000000000 7213710500000 (-22000000) (-190000) 0; W 13700000 144000000000 7214415200000 (-22000000) (-190000) 0;
   W 13600000 446000000000 (-1185616200000) (-18000000) (-220000) 0; W 13600000 303000000000 8000104800000 (-22000000) (-190000) 0;
   W 13400000 283000000000 14756712400000 (-7000000) 60000 0; W 13100000 505000000000 6821041900000 (-22000000) (-190000) 0;
   W 12800000 599000000000 (-17214697100000) (-49000000) (-720000) 0; W 12700000 535000000000 8721712400000 15000000 250000 0;
   W 12600000 449000000000 46628262900000 (-20000000) 190000 0; W 12500000 594000000000 7149628500000 15000000 250000 0;
   W 12400000 109000000000 49067069500000 11000000 550000 0; W 12100000 288000000000 15471766600000 12000000 280000 0;
   W 11100000 392000000000 41643457100000 76000000 1250000 (-1000000); W 11000000 196000000000 8904029900000 15000000 250000 0;
   W 10600000 330000000000 (-18048900000) (-22000000) (-190000) 0; W 10500000 230000000000 (-4931000000) 15000000 250000 0;
   W 10400000 222000000000 (-6559000000) (-19000000) (-220000) 0; W 10100000 144000000000 1884905900000 (-1000000) 0 0;
   W 10000000 592000000000 5471132400000 (-59000000) (-630000) 0; W 9900000 112000000000 15149733300000 (-7000000) 60000 0;
   W 9600000 473000000000 15508997200000 (-4000000) 100000 0; W 9500000 518000000000 7230983500000 15000000 250000 0; W 9300000 337000000000 39900526600000 39000000 810000 0;
   W 9200000 201000000000 25057061900000 27000000 530000 0; W 9200000 121000000000 (-79629800000) 0 0 0; W 9200000 165000000000 (-26310252300000) (-40000000) (-680000) 0;
   W 9100000 101000000000 42062556100000 (-10000000) 230000 0; W 9000000 610000000000 29342578100000 (-50000000) (-320000) 0;
   W 9000000 443000000000 15542402000000 (-7000000) 60000 0; W 9000000 380000000000 15543106600000 (-7000000) 60000 0;
   W 8900000 415000000000 6063385900000 (-22000000) (-190000) 0; W 8600000 403000000000 52969100000 0 0 0; W 8500000 49000000000 47952440900000 (-26000000) 110000 0;
   W 8500000 160000000000 7632815400000 21000000 320000 0; W 8400000 22000000000 14392077300000 (-7000000) 60000 0;
   W 8300000 622000000000 6028446600000 (-40000000) (-410000) 0; W 8300000 63000000000 (-7909938900000) 28000000 260000 0; W 8300000 520000000000 (-77552300000) 0 0 0;
   W 8200000 274000000000 8786146700000 (-22000000) (-190000) 0; W 8000000 243000000000 9166542800000 (-28000000) (-260000) 0;
   W 8000000 370000000000 (-25405173200000) 41000000 270000 0; W 7800000 568000000000 48857520000000 54000000 1060000 (-1000000);
   W 7700000 185000000000 8315573500000 (-22000000) (-190000) 0; W 7500000 546000000000 (-18191110300000) 19000000 80000 0;
   W 7500000 141000000000 (-16238630400000) 13000000 10000 0; W 7400000 506000000000 40110076100000 (-4000000) 300000 0;
   W 7200000 210000000000 64434300000 (-37000000) (-440000) 0; W 7100000 217000000000 37671269500000 (-35000000) (-60000) 0;
   W 6900000 171000000000 16693431300000 (-7000000) 60000 0; W 6900000 333000000000 (-26100702800000) (-83000000) (-1190000) 1000000;
   W 6800000 109000000000 8329402800000 15000000 250000 0; W 6800000 362000000000 8327980100000 15000000 250000 0; W 6800000 241000000000 16833150900000 (-10000000) 30000 0;
   W 6700000 340000000000 24709297100000 (-35000000) (-200000) 0; W 6700000 165000000000 8346715600000 (-3000000) 30000 0;
   W 6600000 261000000000 22547267700000 15000000 390000 0; W 6600000 350000000000 15576511300000 (-10000000) 30000 0;
   W 6500000 576000000000 33037988600000 (-20000000) 50000 0; W 6500000 458000000000 8322132500000 (-3000000) 30000 0;
   W 6500000 620000000000 17913986800000 30000000 500000 0; W 6500000 150000000000 22685829500000 (-10000000) 90000 0;
   W 6500000 237000000000 7180305800000 (-19000000) (-150000) 0; W 6400000 106000000000 30943533200000 24000000 560000 0;
   W 6400000 189000000000 8288876500000 15000000 250000 0; W 6400000 470000000000 6033500000 3000000 40000 0; W 6300000 283000000000 8368506300000 15000000 250000 0;
   W 6300000 566000000000 (-2580781900000) 7000000 70000 0; W 6200000 378000000000 7056328500000 (-22000000) (-190000) 0;
   W 6100000 149000000000 8294910000000 18000000 290000 0; W 6100000 12000000000 (-10281171400000) (-9000000) (-180000) 0;
   W 6100000 306000000000 (-8362472900000) (-12000000) (-210000) 0; W 6100000 443000000000 8170957100000 15000000 250000 0;
   W 5900000 578000000000 (-13117900000) (-37000000) (-440000) 0; W 5900000 597000000000 6625570200000 (-22000000) (-190000) 0;
   W 5800000 501000000000 (-508000000) (-3000000) 0 0; W 5800000 273000000000 7161093800000 (-22000000) (-190000) 0;
   W 5700000 19000000000 7214062900000 (-22000000) (-190000) 0; W 5700000 400000000000 22199502900000 (-47000000) (-350000) 0;
   W 5700000 538000000000 8119142000000 58000000 760000 0; W 5600000 107000000000 7542649500000 15000000 250000 0; W 5600000 28000000000 8486425800000 15000000 250000 0;
   W 5400000 419000000000 16655081600000 46000000 750000 0; W 5300000 72000000000 7267032000000 (-22000000) (-190000) 0; W 5300000 312000000000 12619200000 6000000 70000 0;
   W 5200000 299000000000 (-32896013000000) (-18000000) (-490000) 0; W 5200000 346000000000 1097708000000 0 0 0;
   W 5100000 537000000000 (-6443786000000) (-16000000) (-250000) 0; W 5100000 135000000000 7789401000000 (-22000000) (-190000) 0;
   W 5100000 583000000000 40042502000000 2000000 380000 0; W 5100000 363000000000 9114733000000 15000000 250000 0;
   W 5000000 151000000000 8504484000000 (-25000000) (-220000) 0; W 5000000 523000000000 16659684000000 15000000 250000 0;
   W 5000000 115000000000 7247820000000 (-25000000) (-230000) 0; W 4700000 25000000000 (-1290421000000) 3000000 0 0;
   W 4700000 467000000000 (-32686464000000) (-61000000) (-1000000) 0; W 4700000 349000000000 548678000000 0 0 0; W 4700000 237000000000 6663308000000 (-22000000) (-190000) 0;
   W 4600000 98000000000 1572084000000 0 0 0; W 4600000 204000000000 14954262000000 (-7000000) 60000 0; W 4600000 372000000000 6691693000000 (-22000000) (-190000) 0;
   W 4500000 619000000000 (-235287000000) 0 0 0; W 4400000 296000000000 32967001000000 (-1000000) 270000 0; W 4400000 382000000000 (-1671943000000) (-56000000) (-660000) 0;
   W 4300000 582000000000 1179063000000 0 0 0; W 4300000 7000000000 34152617000000 17000000 490000 0; W 4300000 371000000000 6514773000000 (-3000000) 0 0;
   W 4300000 562000000000 15732000000 (-25000000) (-230000) 0; W 4300000 580000000000 8351233000000 (-22000000) (-190000) 0;
   W 4200000 27000000000 7740199000000 15000000 250000 0; W 4200000 614000000000 15385020000000 (-7000000) 60000 0;
   W 4200000 613000000000 7285051000000 (-41000000) (-410000) 0; W 4100000 127000000000 32757451000000 42000000 780000 0;
   W 4100000 446000000000 8275722000000 15000000 250000 0; W 4000000 23000000000 8381661000000 15000000 250000 0; W 4000000 587000000000 (-766864000000) 25000000 290000 0;
   W 4000000 166000000000 254431000000 0 0 0; W 4000000 40000000000 9027981000000 (-4000000) 0 0; W 4000000 296000000000 7777936000000 15000000 250000 0;
   W 3900000 467000000000 33943068000000 61000000 1000000 0; W 3900000 352000000000 8326062000000 15000000 250000 0;
   W 3900000 375000000000 21013887000000 (-65000000) (-570000) 0; W 3900000 560000000000 606978000000 0 0 0; W 3900000 119000000000 8331321000000 15000000 250000 0;
   W 3900000 284000000000 7211433000000 (-22000000) (-190000) 0; W 3800000 67000000000 7216693000000 (-22000000) (-190000) 0;
   W 3800000 622000000000 25161867000000 6000000 280000 0; W 3800000 440000000000 7806322000000 15000000 250000 0;
   W 3800000 416000000000 9179168000000 (-22000000) (-190000) 0; W 3700000 473000000000 14991999000000 (-7000000) 60000 0;
   W 3600000 35000000000 67514000000 (-6000000) (-70000) 0; W 3600000 370000000000 25266611000000 (-16000000) 0 0; W 3600000 539000000000 16328796000000 (-7000000) 60000 0;
   W 3500000 144000000000 7174248000000 (-22000000) (-190000) 0; W 3500000 500000000000 15684730000000 (-44000000) (-380000) 0;
   W 3500000 39000000000 (-15419000000) (-22000000) (-190000) 0; W 3500000 607000000000 15020385000000 (-7000000) 60000 0;
   W 3400000 601000000000 7371797000000 (-22000000) (-190000) 0; W 3400000 96000000000 (-16623626000000) (-34000000) (-540000) 0;
   W 3300000 624000000000 9479368000000 15000000 250000 0; W 3300000 321000000000 23661896000000 52000000 820000 0;
   W 3300000 406000000000 8311418000000 (-22000000) (-190000) 0; W 3300000 240000000000 1965105000000 0 0 0; W 3300000 517000000000 15489785000000 (-7000000) 60000 0;
   W 3300000 503000000000 21986540000000 9000000 310000 0; W 3300000 410000000000 16691140000000 27000000 460000 0; W 3300000 513000000000 47114589000000 17000000 630000 0;
   W 3300000 445000000000 8917184000000 15000000 250000 0; W 3300000 423000000000 2078000000 0 0 0; W 3200000 233000000000 75251000000 15000000 250000 0;
   W 3200000 210000000000 7253878000000 (-22000000) (-190000) 0; W 3200000 311000000000 (-224000000) 15000000 250000 0;
   W 3200000 443000000000 16640462000000 (-7000000) 60000 0; W 3200000 568000000000 8328363000000 0 0 0; W 3100000 532000000000 8329020000000 30000000 500000 0;
   W 3100000 370000000000 16118093000000 (-7000000) 60000 0; W 3000000 367000000000 16721817000000 (-7000000) 60000 0;
   W 3000000 527000000000 (-1881492000000) (-12000000) (-150000) 0; W 3000000 572000000000 8157839000000 (-22000000) (-190000) 0;
   W 2900000 573000000000 (-18400313000000) (-67000000) (-940000) 0; W 2900000 276000000000 16000000000 (-22000000) (-190000) 0;
   W 2900000 175000000000 8879447000000 15000000 250000 0; W 2900000 32000000000 8851061000000 15000000 250000 0; W 2900000 90000000000 14704903000000 37000000 570000 0;
   W 2800000 290000000000 15595723000000 (-7000000) 60000 0; W 2800000 588000000000 16864631000000 2000000 240000 0;
   W 2800000 63000000000 16869234000000 (-28000000) (-260000) 0; W 2800000 404000000000 (-18609863000000) (-24000000) (-430000) 0;
   W 2700000 583000000000 6727736000000 (-59000000) (-630000) 0; W 2700000 612000000000 418752000000 43000000 510000 0;
   W 2700000 14000000000 41157131000000 39000000 810000 0; W 2600000 380000000000 15542000000 0 0 0; W 2600000 168000000000 50181698000000 48000000 990000 (-1000000);
   W 2600000 32000000000 315469000000 0 0 0; W 2500000 567000000000 19188000000 3000000 0 0; W 2500000 316000000000 62133000000 (-22000000) (-190000) 0;
   W 2500000 376000000000 15502939000000 (-7000000) 60000 0; W 2500000 453000000000 45999961000000 (-20000000) 190000 0;
   W 2400000 321000000000 837851000000 (-44000000) (-510000) 0; W 2400000 282000000000 38157596000000 3000000 370000 0;
   W 2400000 521000000000 15540124000000 (-7000000) 60000 0; W 2400000 26000000000 14218576000000 0 130000 0; W 2400000 301000000000 15545384000000 (-7000000) 60000 0;
   W 2400000 116000000000 (-17424247000000) (-6000000) (-210000) 0; W 2300000 234000000000 (-67574000000) 6000000 70000 0;
   W 2300000 244000000000 18024000000 (-19000000) (-220000) 0; W 2300000 370000000000 469400000000 0 0 0; W 2300000 72000000000 7136511000000 (-22000000) (-190000) 0;
   W 2300000 450000000000 15582569000000 (-7000000) 60000 0; W 2300000 280000000000 (-16586395000000) (-49000000) (-720000) 0; W 2300000 151000000000 80182000000 0 0 0;
   W 2300000 109000000000 5261583000000 (-15000000) (-120000) 0; W 2300000 56000000000 54956954000000 (-5000000) 440000 0;
   W 2300000 401000000000 8550860000000 (-22000000) (-190000) 0; W 2300000 446000000000 38995448000000 (-41000000) (-140000) 0; W 2300000 382000000000 2358126000000 0 0 0;
   W 2200000 377000000000 32271125000000 5000000 340000 0; W 2200000 82000000000 15935775000000 (-7000000) 60000 0;
   W 2200000 107000000000 24013421000000 (-29000000) (-130000) 0; W 2200000 40000000000 8940078000000 (-22000000) (-190000) 0;
   W 2200000 206000000000 15700489000000 (-7000000) 60000 0; W 2200000 427000000000 15124002000000 (-50000000) (-450000) 0;
   W 2100000 116000000000 56071583000000 32000000 880000 0; W 2100000 558000000000 9572189000000 (-22000000) (-190000) 0;
   W 2000000 170000000000 (-17273000000) (-37000000) (-440000) 0; W 2000000 305000000000 214617000000 0 0 0; W 2000000 441000000000 8391048000000 (-22000000) (-190000) 0;
   W 2000000 595000000000 23869145000000 24000000 560000 0; W 2000000 42000000000 40947927000000 (-47000000) (-210000) 0;
   W 1900000 139000000000 5818897000000 3000000 100000 0; W 1900000 71000000000 23873747000000 (-7000000) 60000 0;
   W 1900000 281000000000 7291615000000 (-22000000) (-190000) 0; W 1900000 509000000000 8428018000000 (-22000000) (-190000) 0;
   W 1900000 414000000000 6518187000000 (-16000000) (-120000) 0; W 1900000 385000000000 21330000000 0 0 0; W 1800000 66000000000 14445046000000 (-7000000) 60000 0;
   W 1800000 165000000000 966000000 (-40000000) (-480000) 0; W 1800000 564000000000 (-17143709000000) (-68000000) (-940000) 0;
   W 1800000 601000000000 7736432000000 (-22000000) (-190000) 0; W 1800000 274000000000 31153083000000 (-19000000) 50000 0;
   W 1800000 458000000000 6116355000000 (-22000000) (-190000) 0; W 1800000 228000000000 46401000000 3000000 0 0; W 1800000 380000000000 10213597000000 14000000 250000 0;
   W 1800000 284000000000 56281132000000 (-11000000) 360000 0; W 1800000 353000000000 8249062000000 15000000 250000 0;
   W 1700000 443000000000 20871911000000 (-30000000) (-130000) 0; W 1700000 444000000000 627596000000 0 0 0; W 1700000 185000000000 628308000000 0 0 0;
   W 1700000 119000000000 8408321000000 20000000 250000 0; W 1700000 195000000000 7214056000000 (-20000000) (-190000) 0;
   W 1700000 157000000000 7214070000000 (-20000000) (-190000) 0; W 1700000 165000000000 13870811000000 (-60000000) (-600000) 0;
   W 1700000 30000000000 22542000000 (-40000000) (-440000) 0; W 1700000 262000000000 (-119445000000) 0 0 0; W 1600000 487000000000 5747909000000 20000000 320000 0;
   W 1600000 445000000000 14339108000000 (-10000000) 60000 0; W 1600000 183000000000 41366680000000 0 300000 0; W 1600000 453000000000 16309618000000 (-30000000) (-230000) 0;
   W 1600000 254000000000 15542754000000 (-10000000) 60000 0; W 1600000 605000000000 1203646000000 0 0 0; W 1500000 520000000000 2751147000000 0 0 0;
   W 1500000 180000000000 (-10699924000000) (-50000000) (-690000) 0; W 1500000 40000000000 22824391000000 (-30000000) (-200000) 0;
   W 1500000 210000000000 30666756000000 (-60000000) (-390000) 0; W 1500000 210000000000 6010417000000 (-20000000) (-190000) 0;
   W 1500000 70000000000 (-23729470000000) (-50000000) (-750000) 0; W 1500000 140000000000 14363691000000 (-10000000) 60000 0;
   W 1500000 580000000000 16900689000000 (-20000000) 0 0; W 1500000 520000000000 23800458000000 30000000 530000 0;
   W 1500000 530000000000 6035000000000 (-20000000) (-190000) 0; W 1500000 120000000000 8251139000000 20000000 250000 0; W 1500000 360000000000 (-8860000000) 0 0 0;
   W 1500000 80000000000 882739000000 0 0 0; W 1500000 300000000000 1021329000000 0 0 0; W 1500000 60000000000 23296107000000 10000000 310000 0;
   W 1400000 540000000000 7227181000000 20000000 250000 0; W 1400000 10000000000 7213352000000 (-20000000) (-190000) 0;
   W 1400000 400000000000 15506706000000 30000000 500000 0; W 1400000 340000000000 7214774000000 (-20000000) (-190000) 0;
   W 1400000 460000000000 6665385000000 (-20000000) (-190000) 0; W 1400000 10000000000 (-8636000000) (-20000000) (-220000) 0;
   W 1400000 310000000000 15465202000000 (-10000000) 60000 0; W 1400000 490000000000 508863000000 0 0 0; W 1400000 350000000000 8406244000000 20000000 250000 0;
   W 1400000 130000000000 13313497000000 (-80000000) (-820000) 0; W 1400000 280000000000 49276619000000 (-30000000) 0 0;
   W 1400000 10000000000 30528194000000 (-30000000) (-100000) 0; W 1300000 170000000000 25128050000000 10000000 310000 0;
   W 1300000 290000000000 14128405000000 (-10000000) 60000 0; W 1300000 340000000000 57395761000000 30000000 800000 0;
   W 1300000 270000000000 13029546000000 (-10000000) 60000 0; W 1300000 390000000000 7802556000000 (-20000000) (-190000) 0;
   W 1300000 160000000000 8258802000000 (-20000000) (-190000) 0; W 1300000 220000000000 8417709000000 (-20000000) (-190000) 0;
   W 1300000 70000000000 9965210000000 (-20000000) (-190000) 0; W 1300000 340000000000 50391247000000 0 480000 0;
   W 1300000 300000000000 7134433000000 (-20000000) (-190000) 0; W 1300000 290000000000 30599182000000 (-50000000) (-310000) 0;
   W 1300000 360000000000 (-9723857000000) 10000000 0 0; W 1300000 480000000000 7607084000000 (-20000000) (-190000) 0; W 1200000 80000000000 23837689000000 10000000 350000 0;
   W 1200000 360000000000 4409000000 (-40000000) (-440000) 0; W 1200000 500000000000 16657031000000 30000000 500000 0;
   W 1200000 440000000000 16657735000000 30000000 500000 0; W 1200000 110000000000 15578803000000 (-40000000) (-380000) 0; W 1200000 600000000000 (-11490000000) 0 0 0;
   W 1200000 190000000000 8164398000000 0 0 0; W 1200000 240000000000 31852372000000 (-40000000) (-170000) 0; W 1200000 240000000000 6607085000000 (-20000000) (-190000) 0;
   W 1200000 420000000000 8359870000000 0 0 0; W 1200000 50000000000 5799713000000 (-20000000) (-190000) 0; W 1200000 270000000000 7220622000000 0 0 0;
   W 1200000 430000000000 (-139720000000) 0 0 0; W 1200000 230000000000 13728836000000 (-20000000) (-160000) 0; W 1100000 360000000000 14912146000000 10000000 310000 0;
   W 1100000 470000000000 14916748000000 (-20000000) (-190000) 0].
(** eph/eph_data.h:317 ML1_DATA *)
Definition ML1 : list wave :=
  [W 167680000 466926000000 628301955000 (-266000) 1000 (-5000); W 51642000 337210000000 6585760910000 (-21580000) (-189000) 90000;
   W 41383000 572770000000 14914452335000 (-6350000) 62000 (-40000); W 37115000 396950000000 7700389469000 15500000 250000 (-120000);
   W 27560000 74160000000 8956993380000 14960000 251000 (-130000); W 24599000 422530000000 (-2301200000) 15230000 251000 (-120000);
   W 7118000 14430000000 7842364820000 (-22110000) (-190000) 80000; W 6128000 249980000000 16171056250000 (-6880000) 60000 0;
   W 4516000 44300000000 8399679100000 (-3600000) 30000 0; W 4048000 577100000000 14286150380000 (-6100000) 60000 0; W 3747000 462600000000 1256603910000 (-500000) 0 0;
   W 3707000 341500000000 5957458950000 (-21300000) (-190000) 100000; W 3649000 180000000000 23243143760000 8900000 310000 (-200000);
   W 2438000 4200000000 16029080890000 30700000 500000 (-200000); W 2165000 101700000000 (-1742930510000) (-36800000) (-440000) 200000;
   W 1923000 309700000000 17285684800000 30200000 500000 (-300000); W 1692000 128000000000 328600000 15200000 250000 (-100000);
   W 1361000 29800000000 8326390200000 30500000 500000 (-200000); W 1293000 401300000000 7072087500000 15800000 250000 (-100000); W 1276000 441300000000 8330992600000 0 0 0;
   W 1270000 10100000000 8470666800000 (-22400000) (-190000) 100000; W 1097000 120300000000 22128515200000 (-28200000) (-130000) 0;
   W 1088000 254500000000 15542754300000 (-6600000) 60000 0; W 835000 19000000000 7214062900000 (-21800000) (-190000) 100000;
   W 734000 485500000000 24499747700000 8300000 310000 (-200000); W 686000 513000000000 13799823800000 (-43400000) (-380000) 200000;
   W 631000 93000000000 (-486326600000) (-37300000) (-440000) 0; W 585000 69900000000 9585295300000 15000000 250000 0; W 566000 407300000000 8328339100000 15000000 250000 0;
   W 566000 63800000000 8329043700000 15000000 250000 0; W 539000 247200000000 (-1952480000000) 6000000 70000 0; W 509000 288000000000 (-711300000) 0 0 0;
   W 469000 356000000000 30457206600000 (-13000000) 120000 0; W 387000 78000000000 (-352300000) 0 0 0; W 378000 184000000000 22614841800000 9000000 310000 0;
   W 362000 553000000000 (-695876100000) 6000000 70000 0; W 317000 280000000000 16728370500000 12000000 280000 0; W 303000 607000000000 157734400000 0 0 0;
   W 300000 253000000000 33757000000 (-3000000) (-40000) 0; W 295000 416000000000 31571835200000 24000000 560000 0; W 289000 598000000000 7211761700000 (-7000000) 60000 0;
   W 285000 206000000000 15540453100000 9000000 310000 0; W 283000 265000000000 2629800000 0 0 0; W 282000 617000000000 15545055500000 (-22000000) (-190000) 0;
   W 278000 123000000000 (-39814900000) 0 0 0; W 272000 382000000000 7216364100000 (-37000000) (-440000) 0; W 270000 437000000000 70987700000 (-19000000) (-220000) 0;
   W 256000 581000000000 13657848400000 (-6000000) 60000 0; W 244000 564000000000 (-223700000) 15000000 250000 0; W 240000 296000000000 8311770700000 (-22000000) (-190000) 0;
   W 239000 87000000000 (-33781400000) 3000000 40000 0; W 216000 231000000000 15999500000 (-22000000) (-190000) 0;
   W 186000 346000000000 5329157000000 (-21000000) (-190000) 0; W 169000 240000000000 24357772000000 46000000 750000 0; W 161000 580000000000 8329403000000 15000000 250000 0;
   W 161000 520000000000 8327980000000 15000000 250000 0; W 160000 426000000000 23385119000000 (-29000000) (-130000) 0; W 156000 126000000000 550755000000 0 0 0;
   W 155000 125000000000 21500213000000 (-28000000) (-130000) 0; W 152000 60000000000 (-16921000000) (-37000000) (-440000) 0; W 150000 271000000000 (-79630000000) 0 0 0;
   W 150000 529000000000 15542000000 0 0 0; W 148000 106000000000 (-2371232000000) (-37000000) (-440000) 0; W 141000 77000000000 8328691000000 15000000 250000 0;
   W 141000 367000000000 7143075000000 (-3000000) 0 0; W 138000 545000000000 25614376000000 45000000 750000 0; W 129000 490000000000 23871446000000 9000000 310000 0;
   W 126000 403000000000 141975000000 (-38000000) (-440000) 0; W 124000 601000000000 522369000000 0 0 0; W 120000 494000000000 (-10071622000000) (-52000000) (-690000) 0;
   W 118000 507000000000 (-15419000000) (-22000000) (-190000) 0; W 107000 349000000000 23452693000000 (-34000000) (-200000) 0;
   W 104000 478000000000 17495234000000 (-13000000) 0 0; W 103000 144000000000 (-18049000000) (-22000000) (-190000) 0;
   W 102000 563000000000 15542402000000 (-7000000) 60000 0; W 102000 259000000000 15543107000000 (-7000000) 60000 0;
   W 100000 411000000000 (-6559000000) (-19000000) (-220000) 0; W 97000 8000000000 15400779000000 31000000 500000 0; W 96000 584000000000 31781385000000 (-19000000) 50000 0;
   W 94000 108000000000 8328363000000 0 0 0; W 94000 246000000000 16799358000000 (-7000000) 60000 0; W 94000 169000000000 6376211000000 22000000 320000 0;
   W 93000 364000000000 8329020000000 30000000 500000 0; W 93000 265000000000 16655082000000 46000000 750000 0; W 90000 190000000000 15056428000000 (-44000000) (-380000) 0;
   W 89000 159000000000 52969000000 0 0 0; W 88000 202000000000 (-8257704000000) (-34000000) (-470000) 0; W 88000 302000000000 7213711000000 (-22000000) (-190000) 0;
   W 87000 50000000000 7214415000000 (-22000000) (-190000) 0; W 87000 49000000000 16659684000000 15000000 250000 0; W 82000 564000000000 (-4931000000) 15000000 250000 0;
   W 79000 517000000000 13171522000000 (-43000000) (-380000) 0; W 76000 360000000000 29828905000000 (-13000000) 120000 0;
   W 76000 408000000000 24567322000000 3000000 240000 0; W 76000 458000000000 1884906000000 (-1000000) 0 0; W 73000 33000000000 31713811000000 (-14000000) 120000 0;
   W 73000 93000000000 32828439000000 24000000 560000 0; W 71000 591000000000 38785898000000 2000000 370000 0; W 69000 220000000000 15613742000000 (-25000000) (-160000) 0;
   W 66000 387000000000 15732000000 (-25000000) (-230000) 0; W 66000 86000000000 25823926000000 2000000 240000 0; W 65000 252000000000 8170957000000 15000000 250000 0;
   W 63000 18000000000 8322132000000 (-3000000) 0 0; W 60000 584000000000 8326062000000 15000000 250000 0; W 60000 515000000000 8331321000000 15000000 250000 0;
   W 60000 218000000000 8486426000000 15000000 250000 0; W 58000 230000000000 (-1731000000) (-40000000) (-440000) 0;
   W 58000 543000000000 14357138000000 (-20000000) (-160000) 0; W 57000 309000000000 8294910000000 20000000 290000 0;
   W 57000 467000000000 (-8362473000000) (-10000000) (-210000) 0; W 56000 415000000000 16833151000000 (-10000000) 0 0;
   W 54000 193000000000 7056329000000 (-20000000) (-190000) 0; W 54000 527000000000 8315574000000 (-20000000) (-190000) 0;
   W 52000 560000000000 8311418000000 (-20000000) (-190000) 0; W 52000 270000000000 (-77552000000) 0 0 0; W 51000 430000000000 7230984000000 20000000 250000 0;
   W 50000 40000000000 (-508000000) 0 0 0; W 49000 540000000000 7211433000000 (-20000000) (-190000) 0; W 49000 440000000000 7216693000000 (-20000000) (-190000) 0;
   W 49000 430000000000 16864631000000 0 240000 0; W 49000 220000000000 16869234000000 (-30000000) (-260000) 0; W 47000 610000000000 627596000000 0 0 0;
   W 47000 500000000000 12619000000 10000000 70000 0; W 45000 490000000000 (-8815018000000) (-50000000) (-690000) 0; W 44000 160000000000 62133000000 (-20000000) (-190000) 0;
   W 42000 290000000000 (-13118000000) (-40000000) (-440000) 0; W 42000 410000000000 (-119445000000) 0 0 0; W 41000 430000000000 22756817000000 (-30000000) (-130000) 0;
   W 41000 360000000000 8288877000000 20000000 250000 0; W 40000 50000000000 6663308000000 (-20000000) (-190000) 0; W 40000 110000000000 8368506000000 20000000 250000 0;
   W 39000 410000000000 6443786000000 20000000 250000 0; W 39000 310000000000 16657383000000 30000000 500000 0; W 38000 10000000000 16657031000000 30000000 500000 0;
   W 38000 300000000000 16657735000000 30000000 500000 0; W 38000 460000000000 23942433000000 (-10000000) 90000 0; W 37000 430000000000 15385020000000 (-10000000) 60000 0;
   W 37000 500000000000 548678000000 0 0 0; W 36000 180000000000 7213352000000 (-20000000) (-190000) 0; W 36000 170000000000 7214774000000 (-20000000) (-190000) 0;
   W 35000 110000000000 7777936000000 20000000 250000 0; W 35000 160000000000 (-8860000000) 0 0 0; W 35000 440000000000 23869145000000 20000000 560000 0;
   W 35000 200000000000 6691693000000 (-20000000) (-190000) 0; W 34000 130000000000 (-1185616000000) (-20000000) (-220000) 0;
   W 34000 220000000000 23873747000000 (-10000000) 60000 0; W 33000 200000000000 (-235287000000) 0 0 0; W 33000 310000000000 17913987000000 30000000 500000 0;
   W 33000 100000000000 8351233000000 (-20000000) (-190000) 0].
(** eph/eph_data.h:318 ML2_DATA *)
Definition ML2 : list wave :=
  [W 487000 466930000000 628301960000 (-270000) 0 (-10000); W 228000 267460000000 (-2301200000) 15230000 250000 (-120000);
   W 150000 337200000000 6585760910000 (-21600000) (-190000) 100000; W 120000 572800000000 14914452330000 (-6400000) 60000 0;
   W 108000 396900000000 7700389470000 15500000 250000 (-100000); W 80000 74200000000 8956993380000 15000000 250000 (-100000);
   W 25400 600200000000 328600000 15200000 250000 (-100000); W 21000 14400000000 7842364800000 (-22100000) (-190000) 0;
   W 18000 250000000000 16171056200000 (-7000000) 60000 0; W 13000 44000000000 8399679100000 (-4000000) 30000 0; W 12600 503000000000 8326390200000 30000000 500000 0;
   W 12000 577000000000 14286150400000 (-6000000) 60000 0; W 11800 596000000000 8330992600000 0 0 0; W 11000 180000000000 23243143800000 9000000 310000 0;
   W 11000 342000000000 5957459000000 (-21000000) (-190000) 0; W 11000 463000000000 1256603900000 (-1000000) 0 0; W 9900 470000000000 (-711300000) 0 0 0;
   W 7000 4000000000 16029080900000 31000000 500000 0; W 7000 514000000000 8328339100000 15000000 250000 0; W 7000 585000000000 8329043700000 15000000 250000 0;
   W 6000 102000000000 (-1742930500000) (-37000000) (-440000) 0; W 6000 310000000000 17285684800000 30000000 500000 0; W 5400 569000000000 (-352000000) 0 0 0;
   W 4300 52000000000 15542000000 0 0 0; W 4100 203000000000 2630000000 0 0 0; W 4000 10000000000 8470667000000 (-22000000) (-190000) 0;
   W 4000 401000000000 7072088000000 16000000 250000 0; W 3600 293000000000 (-8860000000) (-3000000) 0 0; W 3000 120000000000 22128515000000 (-28000000) (-130000) 0;
   W 3000 254000000000 15542754000000 (-7000000) 60000 0; W 2700 443000000000 7211762000000 (-7000000) 60000 0; W 2600 51000000000 15540453000000 9000000 310000 0;
   W 2600 144000000000 15545055000000 (-22000000) (-190000) 0; W 2500 537000000000 7216364000000 (-37000000) (-440000) 0].
(** eph/eph_data.h:319 ML3_DATA *)
Definition ML3 : list wave :=
  [W 1200 104100000000 (-2301200000) 15200000 250000 (-100000); W 170 31000000000 (-711000000) 0 0 0].
(** a cos(b + d t), t in millennia; a in units of 1 here *)
Definition V (a b d : Z) : wave := W a b d 0 0 0.
(** eph/eph_data.h:140-159 X0_DATA, elements 20 to 577 *)
Definition EL0 : list wave :=
  [V 17534704567 0 0; V 334165646 466925680400 6283075849991; V 3489428 462610240000 12566151700000; V 349706 274411800000 5753384885000; V 341757 282886600000 3523118000;
   V 313590 362767000000 77713771468000; V 267622 441808400000 7860419392000; V 234269 613516200000 3930209696000; V 132429 74246400000 11506769770000;
   V 127317 203709700000 529690965000; V 119917 110962900000 1577343542000; V 99025 523268000000 5884926850000; V 90186 204505000000 26298320000;
   V 85722 350849000000 398149000000; V 77979 117883000000 5223693920000; V 75314 253339000000 5507553240000; V 50526 458293000000 18849227550000;
   V 49238 420507000000 775522610000; V 35666 291954000000 67310000; V 31709 584902000000 11790629090000; V 28413 189869000000 796298010000;
   V 27104 31489000000 10977078800000; V 24281 34481000000 5486777840000; V 20616 480647000000 2544314420000; V 20539 186948000000 5573142800000;
   V 20226 245768000000 6069776750000; V 15552 83306000000 213299100000; V 13221 341118000000 2942463420000; V 12618 108303000000 20775400000; V 11513 64545000000 980320000;
   V 10285 63600000000 4694002950000; V 10190 97569000000 15720838780000; V 10172 426680000000 7113550000; V 9921 620990000000 2146165400000; V 9761 68100000000 155420400000;
   V 8580 598320000000 161000685700000; V 8513 129870000000 6275962300000; V 8471 367080000000 71430695600000; V 7964 180790000000 17260154700000;
   V 7876 303700000000 12036460700000; V 7465 175510000000 5088628800000; V 7387 350320000000 3154687100000; V 7355 467930000000 801820900000;
   V 6963 83300000000 9437762900000; V 6245 397760000000 8827390300000; V 6115 181840000000 7084896800000; V 5696 278430000000 6286599000000;
   V 5612 438690000000 14143495200000; V 5558 347010000000 6279552700000; V 5199 18910000000 12139553500000; V 5161 133280000000 1748016400000;
   V 5115 28310000000 5856477700000; V 4900 48740000000 1194447000000; V 4104 536820000000 8429241300000; V 4094 239850000000 19651048500000;
   V 3920 616830000000 10447387800000; V 3677 604130000000 10213285500000; V 3660 256960000000 1059381900000; V 3595 170880000000 2352866200000;
   V 3557 177600000000 6812766800000; V 3329 59310000000 17789845600000; V 3041 44290000000 83996847300000; V 3005 273980000000 1349867400000;
   V 2535 316470000000 4690479800000; V 2474 21480000000 3590400000; V 2366 48470000000 8031092300000; V 2357 206530000000 3340612400000; V 2282 522200000000 4705732300000;
   V 2189 555590000000 553569400000; V 2142 142560000000 16730463700000; V 2109 414830000000 951718400000; V 2030 37130000000 283859300000;
   V 1992 522210000000 12168002700000; V 1986 577470000000 6309374200000; V 1912 382220000000 23581258200000; V 1889 538630000000 149854400100000;
   V 1790 221490000000 13367972600000; V 1748 456050000000 135065100000; V 1622 598840000000 11769853700000; V 1508 419570000000 6256777500000;
   V 1442 419320000000 242728600000; V 1435 372360000000 38027700000; V 1397 440140000000 6681224900000; V 1362 188930000000 7632943300000; V 1250 113050000000 5522900000;
   V 1205 262230000000 955599700000; V 1200 100350000000 632783700000; V 1129 17740000000 4164312000000; V 1083 32730000000 103092800000; V 1052 93870000000 11926254400000;
   V 1050 535910000000 1592596000000; V 1033 619980000000 6438496200000; V 1001 602910000000 5746271300000; V 980 99900000000 11371705000000;
   V 980 524400000000 27511468000000; V 938 262400000000 5760498000000; V 923 48300000000 522577000000; V 922 457100000000 4292331000000; V 905 533700000000 6386169000000;
   V 862 416500000000 7058598000000; V 841 329900000000 7234794000000; V 836 453900000000 25132303000000; V 813 611200000000 4732031000000; V 812 627100000000 426598000000;
   V 801 582100000000 28449000000; V 787 99600000000 5643179000000; V 776 295700000000 23013540000000; V 769 312100000000 7238676000000; V 758 397400000000 11499656000000;
   V 735 438600000000 316392000000; V 731 60700000000 11513883000000; V 719 399800000000 74782000000; V 706 32300000000 263084000000; V 676 591100000000 90955552000000;
   V 663 366500000000 17298182000000; V 653 579100000000 18073705000000; V 630 471700000000 6836645000000; V 615 145800000000 233141314000000;
   V 612 107500000000 19804827000000; V 596 332100000000 6283009000000; V 596 287600000000 6283143000000; V 555 245200000000 12352853000000; V 541 539200000000 419485000000;
   V 531 38200000000 31441678000000; V 519 406500000000 6208294000000; V 513 236100000000 10973556000000; V 494 573700000000 9917697000000; V 450 327200000000 11015106000000;
   V 449 365300000000 206186000000; V 447 206400000000 7079374000000; V 435 442300000000 5216580000000; V 421 190600000000 245832000000; V 413 92100000000 3738761000000;
   V 402 84000000000 20355000000; V 387 182600000000 11856219000000; V 379 234400000000 3881000000; V 374 295400000000 3128389000000; V 370 503100000000 536805000000;
   V 365 101800000000 16200773000000; V 365 108300000000 88860057000000; V 352 597800000000 3894182000000; V 352 205600000000 244287600000000;
   V 351 371300000000 6290189000000; V 340 110600000000 14712317000000; V 339 97800000000 8635942000000; V 339 320200000000 5120601000000; V 333 83700000000 6496375000000;
   V 325 347900000000 6133513000000; V 316 508900000000 21228392000000; V 316 132800000000 10873986000000; V 309 364600000000 10637000000; V 303 180200000000 35371887000000;
   V 296 339700000000 9225539000000; V 288 602600000000 154717610000000; V 281 258500000000 14314168000000; V 262 385600000000 266607000000;
   V 262 257900000000 22483849000000; V 257 156100000000 23543231000000; V 255 394900000000 1990745000000; V 251 374400000000 10575407000000;
   V 240 116100000000 10984192000000; V 238 10600000000 7046000000; V 236 427200000000 6040347000000; V 234 357700000000 10969965000000; V 211 371400000000 65147620000000;
   V 210 75400000000 13521751000000; V 207 422800000000 5650292000000; V 202 81400000000 170673000000; V 201 462900000000 6037244000000; V 200 38100000000 6172870000000;
   V 199 393300000000 6206810000000; V 199 519700000000 6262300000000; V 197 104600000000 18209330000000; V 195 107000000000 5230807000000; V 195 486900000000 36028000000;
   V 194 431300000000 6244943000000; V 192 122900000000 709933000000; V 192 559500000000 6282096000000; V 192 60200000000 6284056000000; V 189 374400000000 23878000000;
   V 188 190400000000 15252000000; V 188 86700000000 22003915000000; V 182 368100000000 15110466000000; V 181 49100000000 1484000000; V 179 322200000000 39302097000000;
   V 179 125900000000 12559038000000].
(** eph/eph_data.h:140-159 X0_DATA, elements 578 to 919 *)
Definition EL1 : list wave :=
  [V 62833196674749 0 0; V 20605886 267823456000 6283075849990; V 430343 263512700000 12566151700000; V 42526 159047000000 3523120000; V 11926 579557000000 26298320000;
   V 10898 296618000000 1577343540000; V 9348 259210000000 18849227500000; V 7212 113850000000 529691000000; V 6777 187470000000 398149000000;
   V 6733 440920000000 5507553200000; V 5903 288800000000 5223693900000; V 5598 217470000000 155420400000; V 4541 39800000000 796298000000; V 3637 46620000000 775522600000;
   V 2896 264710000000 7113500000; V 2084 534140000000 980300000; V 1910 184630000000 5486777800000; V 1851 496860000000 213299100000; V 1729 299120000000 6275962300000;
   V 1623 3220000000 2544314400000; V 1583 143050000000 2146165400000; V 1462 120530000000 10977078800000; V 1246 283430000000 1748016400000;
   V 1188 325800000000 5088628800000; V 1181 527380000000 1194447000000; V 1151 207500000000 4694003000000; V 1064 76610000000 553569400000; V 997 130300000000 6286599000000;
   V 972 423900000000 1349867000000; V 945 270000000000 242729000000; V 858 564500000000 951718000000; V 758 530100000000 2352866000000; V 639 265000000000 9437763000000;
   V 610 466600000000 4690480000000; V 583 176600000000 1059382000000; V 531 90900000000 3154687000000; V 522 566100000000 71430696000000; V 520 185400000000 801821000000;
   V 504 142500000000 6438496000000; V 433 24100000000 6812767000000; V 426 77400000000 10447388000000; V 413 524000000000 7084897000000; V 374 200100000000 8031092000000;
   V 356 242900000000 14143495000000; V 350 480000000000 6279553000000; V 337 88800000000 12036461000000; V 337 386200000000 1592596000000; V 325 340000000000 7632943000000;
   V 322 61600000000 8429241000000; V 318 318800000000 4705732000000; V 297 607000000000 4292331000000; V 295 143100000000 5746271000000; V 290 232500000000 20355000000;
   V 275 93500000000 5760498000000; V 270 480400000000 7234794000000; V 253 622300000000 6836645000000; V 228 500300000000 17789846000000; V 225 567200000000 11499656000000;
   V 215 520200000000 11513883000000; V 208 395500000000 10213286000000; V 208 226800000000 522577000000; V 206 222400000000 5856478000000; V 206 255000000000 25132303000000;
   V 203 91000000000 6256778000000; V 189 53200000000 3340612000000; V 188 473500000000 83996847000000; V 179 147400000000 4164312000000; V 178 302500000000 5523000000;
   V 177 302600000000 5753385000000; V 159 463700000000 3286000000; V 157 612400000000 5216580000000; V 155 307700000000 6681225000000; V 154 420000000000 13367973000000;
   V 143 119100000000 3894182000000; V 138 309300000000 135065000000; V 136 424500000000 426598000000; V 134 576500000000 6040347000000; V 128 308500000000 5643179000000;
   V 127 209200000000 6290189000000; V 125 307700000000 11926254000000; V 125 344500000000 536805000000; V 114 324400000000 12168003000000; V 112 231800000000 16730464000000;
   V 111 390100000000 11506770000000; V 111 532000000000 23878000000; V 105 375000000000 7860419000000; V 103 244700000000 1990745000000; V 96 82000000000 3880000000;
   V 96 408000000000 6127660000000; V 91 542000000000 206190000000; V 91 42000000000 7079370000000; V 88 517000000000 11790630000000; V 81 34000000000 9917700000000;
   V 80 389000000000 10973560000000; V 78 240000000000 1589070000000; V 78 258000000000 11371700000000; V 77 398000000000 955600000000; V 77 336000000000 36030000000;
   V 76 130000000000 103090000000; V 75 518000000000 10969970000000; V 75 496000000000 6496370000000; V 73 521000000000 38030000000; V 72 265000000000 6309370000000;
   V 70 561000000000 3738760000000; V 69 260000000000 3496030000000; V 69 39000000000 15250000000; V 69 278000000000 20780000000; V 65 113000000000 7058600000000;
   V 64 428000000000 28450000000; V 61 563000000000 10984190000000; V 60 73000000000 419480000000; V 60 528000000000 10575410000000; V 58 555000000000 17298180000000;
   V 58 319000000000 4732030000000].
(** eph/eph_data.h:140-159 X0_DATA, elements 920 to 1099 *)
Definition EL2 : list wave :=
  [V 5291887 0 0; V 871984 107209700000 6283075850000; V 30913 86729000000 12566151700000; V 2734 5300000000 3523100000; V 1633 518830000000 26298300000;
   V 1575 368460000000 155420400000; V 954 75700000000 18849228000000; V 894 205700000000 77713771000000; V 695 82700000000 775523000000; V 506 466300000000 1577344000000;
   V 406 103100000000 7114000000; V 381 344100000000 5573143000000; V 346 514100000000 796298000000; V 317 605300000000 5507553000000; V 302 119200000000 242729000000;
   V 289 611700000000 529691000000; V 271 30600000000 398149000000; V 254 228000000000 553569000000; V 237 438100000000 5223694000000; V 208 375400000000 980000000;
   V 168 90200000000 951718000000; V 153 575900000000 1349867000000; V 145 436400000000 1748016000000; V 134 372100000000 1194447000000; V 125 294800000000 6438496000000;
   V 122 297300000000 2146165000000; V 110 127100000000 161000686000000; V 104 60400000000 3154687000000; V 100 598600000000 6286599000000; V 92 480000000000 5088630000000;
   V 89 523000000000 7084900000000; V 83 331000000000 213300000000; V 76 342000000000 5486780000000; V 71 619000000000 4690480000000; V 68 343000000000 4694000000000;
   V 65 160000000000 2544310000000; V 64 198000000000 801820000000; V 61 248000000000 10977080000000; V 50 144000000000 6836650000000; V 49 234000000000 1592600000000;
   V 46 131000000000 4292330000000; V 46 381000000000 149854400000000; V 43 4000000000 7234790000000; V 40 494000000000 7632940000000; V 39 157000000000 71430700000000;
   V 38 317000000000 6309370000000; V 35 99000000000 6040350000000; V 35 67000000000 1059380000000; V 31 318000000000 2352870000000; V 31 355000000000 8031090000000;
   V 30 192000000000 10447390000000; V 30 252000000000 6127660000000; V 28 442000000000 9437760000000; V 28 271000000000 3894180000000; V 27 67000000000 25132300000000;
   V 26 527000000000 6812770000000; V 25 55000000000 6279550000000; V 23 138000000000 4705730000000; V 22 64000000000 6256780000000; V 20 607000000000 640880000000].
(** eph/eph_data.h:140-159 X0_DATA, elements 1100 to 1123 *)
Definition EL3 : list wave :=
  [V 28923 584384000000 6283075850000; V 3496 0 0; V 1682 548770000000 12566151700000; V 296 519600000000 155420000000; V 129 472200000000 3523000000;
   V 71 530000000000 18849230000000; V 64 597000000000 242730000000; V 40 379000000000 553570000000].
(** eph/eph_data.h:140-159 X0_DATA, elements 1124 to 1135 *)
Definition EL4 : list wave :=
  [V 11408 314159000000 0; V 772 413400000000 6283076000000; V 77 384000000000 12566150000000; V 42 42000000000 155420000000].
(** eph/eph_data.h:140-159 X0_DATA, elements 1136 to 1147 *)
Definition EL5 : list wave :=
  [V 88 314000000000 0; V 17 277000000000 6283080000000; V 5 201000000000 155420000000; V 3 221000000000 12566150000000].
