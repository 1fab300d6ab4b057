(** The festival and era tables of lunar/lunar_ob.cpp in structured form (read by tools/obtab.py).  They are used only
    in specifications; that they agree with the texts in the code is proved in ObProps.v / EraProps.v. *)
From Coq Require Import ZArith List Ascii String.
From Verif Require Import Str ObSpec.
Import ListNotations.
Open Scope Z_scope.

Definition festivals : list (list festival) := [
  [ mkFest 1 Holiday None (B "元旦") ];
  [ mkFest 2 Major None (B "世界湿地日");
    mkFest 10 Minor None (B "国际气象节");
    mkFest 14 Major None (B "情人节") ];
  [ mkFest 1 Minor None (B "国际海豹日");
    mkFest 3 Minor None (B "全国爱耳日");
    mkFest 5 Minor (Some (1963, 9999)) (B "学雷锋纪念日");
    mkFest 8 Major None (B "妇女节");
    mkFest 12 Major None (B "植树节");
    mkFest 12 Minor (Some (1925, 9999)) (B "孙中山逝世纪念日");
    mkFest 14 Minor None (B "国际警察日");
    mkFest 15 Major (Some (1983, 9999)) (B "消费者权益日");
    mkFest 17 Minor None (B "中国国医节");
    mkFest 17 Minor None (B "国际航海日");
    mkFest 21 Minor None (B "世界森林日");
    mkFest 21 Minor None (B "消除种族歧视国际日");
    mkFest 21 Minor None (B "世界儿歌日");
    mkFest 22 Major None (B "世界水日");
    mkFest 23 Major None (B "世界气象日");
    mkFest 24 Minor (Some (1982, 9999)) (B "世界防治结核病日");
    mkFest 25 Minor None (B "全国中小学生安全教育日");
    mkFest 30 Minor None (B "巴勒斯坦国土日") ];
  [ mkFest 1 Major (Some (1564, 9999)) (B "愚人节");
    mkFest 1 Minor None (B "全国爱国卫生运动月(四月)");
    mkFest 1 Minor None (B "税收宣传月(四月)");
    mkFest 7 Major None (B "世界卫生日");
    mkFest 22 Major None (B "世界地球日");
    mkFest 23 Minor None (B "世界图书和版权日");
    mkFest 24 Minor None (B "亚非新闻工作者日") ];
  [ mkFest 1 Holiday (Some (1889, 9999)) (B "劳动节");
    mkFest 4 Major None (B "青年节");
    mkFest 5 Minor None (B "碘缺乏病防治日");
    mkFest 8 Minor None (B "世界红十字日");
    mkFest 12 Major None (B "国际护士节");
    mkFest 15 Major None (B "国际家庭日");
    mkFest 17 Minor None (B "国际电信日");
    mkFest 18 Minor None (B "国际博物馆日");
    mkFest 20 Minor None (B "全国学生营养日");
    mkFest 23 Minor None (B "国际牛奶日");
    mkFest 31 Major None (B "世界无烟日") ];
  [ mkFest 1 Major (Some (1925, 9999)) (B "国际儿童节");
    mkFest 5 Minor None (B "世界环境保护日");
    mkFest 6 Minor None (B "全国爱眼日");
    mkFest 17 Minor None (B "防治荒漠化和干旱日");
    mkFest 23 Minor None (B "国际奥林匹克日");
    mkFest 25 Minor None (B "全国土地日");
    mkFest 26 Major None (B "国际禁毒日") ];
  [ mkFest 1 Major (Some (1997, 9999)) (B "香港回归纪念日");
    mkFest 1 Major (Some (1921, 9999)) (B "中共诞辰");
    mkFest 1 Minor None (B "世界建筑日");
    mkFest 2 Minor None (B "国际体育记者日");
    mkFest 7 Major (Some (1937, 9999)) (B "抗日战争纪念日");
    mkFest 11 Major None (B "世界人口日");
    mkFest 30 Minor None (B "非洲妇女日") ];
  [ mkFest 1 Major (Some (1927, 9999)) (B "建军节");
    mkFest 8 Minor None (B "中国男子节(爸爸节)") ];
  [ mkFest 3 Major (Some (1945, 9999)) (B "抗日战争胜利纪念");
    mkFest 8 Minor (Some (1966, 9999)) (B "国际扫盲日");
    mkFest 8 Minor None (B "国际新闻工作者日");
    mkFest 9 Minor None (B "毛泽东逝世纪念");
    mkFest 10 Major None (B "中国教师节");
    mkFest 14 Minor None (B "世界清洁地球日");
    mkFest 16 Minor None (B "国际臭氧层保护日");
    mkFest 18 Major None (B "九·一八事变纪念日");
    mkFest 20 Minor None (B "国际爱牙日");
    mkFest 27 Minor None (B "世界旅游日");
    mkFest 28 Major None (B "孔子诞辰") ];
  [ mkFest 1 Holiday (Some (1949, 9999)) (B "国庆节");
    mkFest 1 Minor None (B "世界音乐日");
    mkFest 1 Minor None (B "国际老人节");
    mkFest 2 Holiday (Some (1949, 9999)) (B "国庆节假日");
    mkFest 2 Minor None (B "国际和平与民主自由斗争日");
    mkFest 3 Holiday (Some (1949, 9999)) (B "国庆节假日");
    mkFest 4 Minor None (B "世界动物日");
    mkFest 6 Minor None (B "老人节");
    mkFest 8 Minor None (B "全国高血压日");
    mkFest 8 Minor None (B "世界视觉日");
    mkFest 9 Minor None (B "世界邮政日");
    mkFest 9 Minor None (B "万国邮联日");
    mkFest 10 Major None (B "辛亥革命纪念日");
    mkFest 10 Minor None (B "世界精神卫生日");
    mkFest 13 Minor None (B "世界保健日");
    mkFest 13 Minor None (B "国际教师日");
    mkFest 14 Minor None (B "世界标准日");
    mkFest 15 Minor None (B "国际盲人节(白手杖节)");
    mkFest 16 Minor None (B "世界粮食日");
    mkFest 17 Minor None (B "世界消除贫困日");
    mkFest 22 Minor None (B "世界传统医药日");
    mkFest 24 Minor None (B "联合国日");
    mkFest 31 Minor None (B "世界勤俭日") ];
  [ mkFest 7 Minor (Some (1917, 9999)) (B "十月社会主义革命纪念日");
    mkFest 8 Minor None (B "中国记者日");
    mkFest 9 Minor None (B "全国消防安全宣传教育日");
    mkFest 10 Minor None (B "世界青年节");
    mkFest 11 Minor None (B "国际科学与和平周(本日所属的一周)");
    mkFest 12 Minor None (B "孙中山诞辰纪念日");
    mkFest 14 Minor None (B "世界糖尿病日");
    mkFest 17 Minor None (B "国际大学生节");
    mkFest 17 Minor None (B "世界学生节");
    mkFest 20 Minor None (B "彝族年");
    mkFest 21 Minor None (B "彝族年");
    mkFest 21 Minor None (B "世界问候日");
    mkFest 21 Minor None (B "世界电视日");
    mkFest 22 Minor None (B "彝族年");
    mkFest 29 Minor None (B "国际声援巴勒斯坦人民国际日") ];
  [ mkFest 1 Major (Some (1988, 9999)) (B "世界艾滋病日");
    mkFest 3 Minor None (B "世界残疾人日");
    mkFest 5 Minor None (B "国际经济和社会发展志愿人员日");
    mkFest 8 Minor None (B "国际儿童电视日");
    mkFest 9 Minor None (B "世界足球日");
    mkFest 10 Minor None (B "世界人权日");
    mkFest 12 Major None (B "西安事变纪念日");
    mkFest 13 Major None (B "南京大屠杀(1937年)纪念日");
    mkFest 20 Minor None (B "澳门回归纪念");
    mkFest 21 Minor None (B "国际篮球日");
    mkFest 24 Major None (B "平安夜");
    mkFest 25 Major None (B "圣诞节");
    mkFest 26 Minor None (B "毛泽东诞辰纪念") ] ].
Definition week_festivals : list week_festival := [
  mkWFest 1 5 0 Major (B "世界麻风日");
  mkWFest 5 2 0 Minor (B "国际母亲节");
  mkWFest 5 3 0 Major (B "全国助残日");
  mkWFest 6 3 0 Minor (B "父亲节");
  mkWFest 7 3 0 Minor (B "被奴役国家周");
  mkWFest 9 3 2 Major (B "国际和平日");
  mkWFest 9 4 0 Minor (B "国际聋人节 世界儿童日");
  mkWFest 9 5 0 Major (B "世界海事日");
  mkWFest 10 1 1 Minor (B "国际住房日");
  mkWFest 10 1 3 Major (B "国际减轻自然灾害日(减灾日)");
  mkWFest 11 4 4 Major (B "感恩节") ].
Definition eras : list era := [
  mkEra (-2069) 45 0 (B "夏") (B "禹") (B "") (B "禹");
  mkEra (-2024) 10 0 (B "夏") (B "启") (B "") (B "启");
  mkEra (-2014) 25 0 (B "夏") (B "太康") (B "") (B "太康");
  mkEra (-1986) 14 0 (B "夏") (B "仲康") (B "") (B "仲康");
  mkEra (-1972) 28 0 (B "夏") (B "相") (B "") (B "相");
  mkEra (-1944) 2 0 (B "夏") (B "后羿") (B "") (B "后羿");
  mkEra (-1942) 38 0 (B "夏") (B "寒浞") (B "") (B "寒浞");
  mkEra (-1904) 21 0 (B "夏") (B "少康") (B "") (B "少康");
  mkEra (-1883) 17 0 (B "夏") (B "杼") (B "") (B "杼");
  mkEra (-1866) 26 0 (B "夏") (B "槐") (B "") (B "槐");
  mkEra (-1840) 18 0 (B "夏") (B "芒") (B "") (B "芒");
  mkEra (-1822) 16 0 (B "夏") (B "泄") (B "") (B "泄");
  mkEra (-1806) 59 0 (B "夏") (B "不降") (B "") (B "不降");
  mkEra (-1747) 21 0 (B "夏") (B "扃") (B "") (B "扃");
  mkEra (-1726) 21 0 (B "夏") (B "廑") (B "") (B "廑");
  mkEra (-1705) 31 0 (B "夏") (B "孔甲") (B "") (B "孔甲");
  mkEra (-1674) 11 0 (B "夏") (B "皋") (B "") (B "皋");
  mkEra (-1663) 11 0 (B "夏") (B "发") (B "") (B "发");
  mkEra (-1652) 53 0 (B "夏") (B "桀") (B "") (B "桀");
  mkEra (-1599) 11 0 (B "商") (B "商太祖") (B "汤") (B "商汤");
  mkEra (-1588) 1 0 (B "商") (B "商代王") (B "太乙") (B "商代王");
  mkEra (-1587) 2 0 (B "商") (B "哀王") (B "子胜") (B "外丙");
  mkEra (-1585) 4 0 (B "商") (B "懿王") (B "子庸") (B "仲壬");
  mkEra (-1581) 12 0 (B "商") (B "太宗") (B "子至") (B "太甲");
  mkEra (-1569) 29 0 (B "商") (B "昭王") (B "子绚") (B "沃丁");
  mkEra (-1540) 25 0 (B "商") (B "宣王") (B "子辩") (B "太庚");
  mkEra (-1515) 17 0 (B "商") (B "敬王") (B "子高") (B "小甲");
  mkEra (-1498) 13 0 (B "商") (B "元王") (B "子密") (B "雍己");
  mkEra (-1485) 75 0 (B "商") (B "中宗") (B "子伷") (B "太戊");
  mkEra (-1410) 11 0 (B "商") (B "孝成王") (B "子庄") (B "仲丁");
  mkEra (-1399) 15 0 (B "商") (B "思王") (B "子发") (B "外壬");
  mkEra (-1384) 9 0 (B "商") (B "前平王") (B "子整") (B "河亶甲");
  mkEra (-1375) 19 0 (B "商") (B "穆王") (B "子滕") (B "祖乙");
  mkEra (-1356) 16 0 (B "商") (B "桓王") (B "子旦") (B "祖辛");
  mkEra (-1340) 5 0 (B "商") (B "僖王") (B "子逾") (B "沃甲");
  mkEra (-1335) 9 0 (B "商") (B "庄王") (B "子新") (B "祖丁");
  mkEra (-1326) 6 0 (B "商") (B "顷王") (B "子更") (B "南庚");
  mkEra (-1320) 7 0 (B "商") (B "悼王") (B "子和") (B "阳甲");
  mkEra (-1313) 42 0 (B "商") (B "世祖") (B "子旬") (B "盘庚");
  mkEra (-1271) 21 0 (B "商") (B "章王") (B "子颂") (B "小辛");
  mkEra (-1250) 1 0 (B "商") (B "惠王") (B "子敛") (B "小乙");
  mkEra (-1249) 59 0 (B "商") (B "高宗") (B "子昭") (B "武丁");
  mkEra (-1190) 2 0 (B "商") (B "后平王") (B "子跃") (B "祖庚");
  mkEra (-1188) 33 0 (B "商") (B "世宗") (B "子载") (B "祖甲");
  mkEra (-1155) 8 0 (B "商") (B "甲宗") (B "子先") (B "廪辛");
  mkEra (-1147) 1 0 (B "商") (B "康祖") (B "子嚣") (B "庚丁");
  mkEra (-1146) 35 0 (B "商") (B "武祖") (B "子瞿") (B "武乙");
  mkEra (-1111) 11 0 (B "商") (B "匡王") (B "子托") (B "文丁");
  mkEra (-1100) 26 0 (B "商") (B "德王") (B "子羡") (B "帝乙");
  mkEra (-1074) 29 0 (B "商") (B "纣王") (B "子寿") (B "帝辛");
  mkEra (-1045) 4 0 (B "西周") (B "武王") (B "姬发") (B "武王");
  mkEra (-1041) 22 0 (B "西周") (B "成王") (B "姬诵") (B "成王");
  mkEra (-1019) 25 0 (B "西周") (B "康王") (B "姬钊") (B "康王");
  mkEra (-994) 19 0 (B "西周") (B "昭王") (B "姬瑕") (B "昭王");
  mkEra (-975) 54 0 (B "西周") (B "穆王") (B "姬满") (B "穆王");
  mkEra (-921) 23 0 (B "西周") (B "共王") (B "姬繄") (B "共王");
  mkEra (-898) 8 0 (B "西周") (B "懿王") (B "姬囏") (B "懿王");
  mkEra (-890) 6 0 (B "西周") (B "孝王") (B "姬辟方") (B "孝王");
  mkEra (-884) 8 0 (B "西周") (B "夷王") (B "姬燮") (B "夷王");
  mkEra (-876) 36 0 (B "西周") (B "厉王") (B "姬胡") (B "厉王");
  mkEra (-840) 14 0 (B "西周") (B "厉王") (B "姬胡") (B "共和");
  mkEra (-826) 46 0 (B "西周") (B "宣王") (B "姬静") (B "宣王");
  mkEra (-780) 11 0 (B "西周") (B "幽王") (B "姬宫湦") (B "幽王");
  mkEra (-769) 51 0 (B "东周") (B "平王") (B "姬宜臼") (B "平王");
  mkEra (-718) 23 0 (B "东周") (B "桓王") (B "姬林") (B "桓王");
  mkEra (-695) 15 0 (B "东周") (B "庄王") (B "姬佗") (B "庄王");
  mkEra (-680) 5 0 (B "东周") (B "釐王") (B "姬胡齐") (B "釐王");
  mkEra (-675) 25 0 (B "东周") (B "惠王") (B "姬阆") (B "惠王");
  mkEra (-650) 33 0 (B "东周") (B "襄王") (B "姬郑") (B "襄王");
  mkEra (-617) 6 0 (B "东周") (B "顷王") (B "姬壬臣") (B "顷王");
  mkEra (-611) 6 0 (B "东周") (B "匡王") (B "姬班") (B "匡王");
  mkEra (-605) 21 0 (B "东周") (B "定王") (B "姬瑜") (B "定王");
  mkEra (-584) 14 0 (B "东周") (B "简王") (B "姬夷") (B "简王");
  mkEra (-570) 27 0 (B "东周") (B "灵王") (B "姬泄心") (B "灵王");
  mkEra (-543) 24 0 (B "东周") (B "景王") (B "姬贵") (B "景王");
  mkEra (-519) 1 0 (B "东周") (B "悼王") (B "姬勐") (B "悼王");
  mkEra (-518) 44 0 (B "东周") (B "敬王") (B "姬匄") (B "敬王");
  mkEra (-474) 7 0 (B "东周") (B "元王") (B "姬仁") (B "元王");
  mkEra (-467) 27 0 (B "东周") (B "贞定王") (B "姬介") (B "贞定王");
  mkEra (-440) 1 0 (B "东周") (B "哀王-思王") (B "姬去疾-姬叔") (B "哀王-思王");
  mkEra (-439) 15 0 (B "东周") (B "考王") (B "姬嵬") (B "考王");
  mkEra (-424) 24 0 (B "东周") (B "威烈王") (B "姬午") (B "威烈王");
  mkEra (-400) 26 0 (B "东周") (B "安王") (B "姬骄") (B "安王");
  mkEra (-374) 7 0 (B "东周") (B "烈王") (B "姬喜") (B "烈王");
  mkEra (-367) 48 0 (B "东周") (B "显王") (B "姬扁") (B "显王");
  mkEra (-319) 6 0 (B "东周") (B "慎靓王") (B "姬定") (B "慎靓王");
  mkEra (-313) 8 0 (B "东周") (B "赧王") (B "姬延") (B "赧王");
  mkEra (-305) 56 0 (B "战国-秦") (B "昭襄王") (B "嬴则") (B "昭襄王");
  mkEra (-249) 1 0 (B "战国-秦") (B "孝文王") (B "嬴柱") (B "孝文王");
  mkEra (-248) 3 0 (B "战国-秦") (B "庄襄王") (B "嬴子楚") (B "庄襄王");
  mkEra (-245) 25 0 (B "秦") (B "嬴政") (B "嬴政") (B "嬴政");
  mkEra (-220) 12 0 (B "秦") (B "始皇帝") (B "嬴政") (B "始皇");
  mkEra (-208) 3 0 (B "秦") (B "二世皇帝") (B "嬴胡亥") (B "二世");
  mkEra (-205) 12 0 (B "西汉") (B "高帝") (B "刘邦") (B "高帝");
  mkEra (-193) 7 0 (B "西汉") (B "惠帝") (B "刘盈") (B "惠帝");
  mkEra (-186) 8 0 (B "西汉") (B "高后") (B "吕雉") (B "高后");
  mkEra (-178) 16 0 (B "西汉") (B "文帝") (B "刘恒") (B "文帝");
  mkEra (-162) 7 0 (B "西汉") (B "文帝") (B "刘恒") (B "后元");
  mkEra (-155) 7 0 (B "西汉") (B "景帝") (B "刘启") (B "景帝");
  mkEra (-148) 6 0 (B "西汉") (B "景帝") (B "刘启") (B "中元");
  mkEra (-142) 3 0 (B "西汉") (B "景帝") (B "刘启") (B "后元");
  mkEra (-139) 6 0 (B "西汉") (B "武帝") (B "刘彻") (B "建元");
  mkEra (-133) 6 0 (B "西汉") (B "武帝") (B "刘彻") (B "元光");
  mkEra (-127) 6 0 (B "西汉") (B "武帝") (B "刘彻") (B "元朔");
  mkEra (-121) 6 0 (B "西汉") (B "武帝") (B "刘彻") (B "元狩");
  mkEra (-115) 6 0 (B "西汉") (B "武帝") (B "刘彻") (B "元鼎");
  mkEra (-109) 6 0 (B "西汉") (B "武帝") (B "刘彻") (B "元封");
  mkEra (-103) 4 0 (B "西汉") (B "武帝") (B "刘彻") (B "太初");
  mkEra (-99) 4 0 (B "西汉") (B "武帝") (B "刘彻") (B "天汉");
  mkEra (-95) 4 0 (B "西汉") (B "武帝") (B "刘彻") (B "太始");
  mkEra (-91) 4 0 (B "西汉") (B "武帝") (B "刘彻") (B "征和");
  mkEra (-87) 2 0 (B "西汉") (B "武帝") (B "刘彻") (B "后元");
  mkEra (-85) 6 0 (B "西汉") (B "昭帝") (B "刘弗陵") (B "始元");
  mkEra (-79) 6 0 (B "西汉") (B "昭帝") (B "刘弗陵") (B "元凤");
  mkEra (-73) 1 0 (B "西汉") (B "昭帝") (B "刘弗陵") (B "元平");
  mkEra (-72) 4 0 (B "西汉") (B "宣帝") (B "刘询") (B "本始");
  mkEra (-68) 4 0 (B "西汉") (B "宣帝") (B "刘询") (B "地节");
  mkEra (-64) 4 0 (B "西汉") (B "宣帝") (B "刘询") (B "元康");
  mkEra (-60) 4 0 (B "西汉") (B "宣帝") (B "刘询") (B "神爵");
  mkEra (-56) 4 0 (B "西汉") (B "宣帝") (B "刘询") (B "五凤");
  mkEra (-52) 4 0 (B "西汉") (B "宣帝") (B "刘询") (B "甘露");
  mkEra (-48) 1 0 (B "西汉") (B "宣帝") (B "刘询") (B "黄龙");
  mkEra (-47) 5 0 (B "西汉") (B "元帝") (B "刘奭") (B "初元");
  mkEra (-42) 5 0 (B "西汉") (B "元帝") (B "刘奭") (B "永光");
  mkEra (-37) 5 0 (B "西汉") (B "元帝") (B "刘奭") (B "建昭");
  mkEra (-32) 1 0 (B "西汉") (B "元帝") (B "刘奭") (B "竟宁");
  mkEra (-31) 4 0 (B "西汉") (B "成帝") (B "刘骜") (B "建始");
  mkEra (-27) 4 0 (B "西汉") (B "成帝") (B "刘骜") (B "河平");
  mkEra (-23) 4 0 (B "西汉") (B "成帝") (B "刘骜") (B "阳朔");
  mkEra (-19) 4 0 (B "西汉") (B "成帝") (B "刘骜") (B "鸿嘉");
  mkEra (-15) 4 0 (B "西汉") (B "成帝") (B "刘骜") (B "永始");
  mkEra (-11) 4 0 (B "西汉") (B "成帝") (B "刘骜") (B "元延");
  mkEra (-7) 2 0 (B "西汉") (B "成帝") (B "刘骜") (B "绥和");
  mkEra (-5) 4 0 (B "西汉") (B "哀帝") (B "刘欣") (B "建平");
  mkEra (-1) 2 0 (B "西汉") (B "哀帝") (B "刘欣") (B "元寿");
  mkEra (1) 5 0 (B "西汉") (B "平帝") (B "刘衍") (B "元始");
  mkEra (6) 2 0 (B "西汉") (B "孺子婴") (B "王莽摄政") (B "居摄");
  mkEra (8) 1 0 (B "西汉") (B "孺子婴") (B "王莽摄政") (B "初始");
  mkEra (9) 5 0 (B "新") (B "") (B "王莽") (B "始建国");
  mkEra (14) 6 0 (B "新") (B "") (B "王莽") (B "天凤");
  mkEra (20) 3 0 (B "新") (B "") (B "王莽") (B "地皇");
  mkEra (23) 2 0 (B "西汉") (B "更始帝") (B "刘玄") (B "更始");
  mkEra (25) 31 0 (B "东汉") (B "光武帝") (B "刘秀") (B "建武");
  mkEra (56) 2 0 (B "东汉") (B "光武帝") (B "刘秀") (B "建武中元");
  mkEra (58) 18 0 (B "东汉") (B "明帝") (B "刘庄") (B "永平");
  mkEra (76) 8 0 (B "东汉") (B "章帝") (B "刘炟") (B "建初");
  mkEra (84) 3 0 (B "东汉") (B "章帝") (B "刘炟") (B "元和");
  mkEra (87) 2 0 (B "东汉") (B "章帝") (B "刘炟") (B "章和");
  mkEra (89) 16 0 (B "东汉") (B "和帝") (B "刘肇") (B "永元");
  mkEra (105) 1 0 (B "东汉") (B "和帝") (B "刘肇") (B "元兴");
  mkEra (106) 1 0 (B "东汉") (B "殇帝") (B "刘隆") (B "延平");
  mkEra (107) 7 0 (B "东汉") (B "安帝") (B "刘祜") (B "永初");
  mkEra (114) 6 0 (B "东汉") (B "安帝") (B "刘祜") (B "元初");
  mkEra (120) 1 0 (B "东汉") (B "安帝") (B "刘祜") (B "永宁");
  mkEra (121) 1 0 (B "东汉") (B "安帝") (B "刘祜") (B "建光");
  mkEra (122) 4 0 (B "东汉") (B "安帝") (B "刘祜") (B "延光");
  mkEra (126) 6 0 (B "东汉") (B "顺帝") (B "刘保") (B "永建");
  mkEra (132) 4 0 (B "东汉") (B "顺帝") (B "刘保") (B "阳嘉");
  mkEra (136) 6 0 (B "东汉") (B "顺帝") (B "刘保") (B "永和");
  mkEra (142) 2 0 (B "东汉") (B "顺帝") (B "刘保") (B "汉安");
  mkEra (144) 1 0 (B "东汉") (B "顺帝") (B "刘保") (B "建康");
  mkEra (145) 1 0 (B "东汉") (B "冲帝") (B "刘炳") (B "永嘉");
  mkEra (146) 1 0 (B "东汉") (B "质帝") (B "刘缵") (B "本初");
  mkEra (147) 3 0 (B "东汉") (B "桓帝") (B "刘志") (B "建和");
  mkEra (150) 1 0 (B "东汉") (B "桓帝") (B "刘志") (B "和平");
  mkEra (151) 2 0 (B "东汉") (B "桓帝") (B "刘志") (B "元嘉");
  mkEra (153) 2 0 (B "东汉") (B "桓帝") (B "刘志") (B "永兴");
  mkEra (155) 3 0 (B "东汉") (B "桓帝") (B "刘志") (B "永寿");
  mkEra (158) 9 0 (B "东汉") (B "桓帝") (B "刘志") (B "延熹");
  mkEra (167) 1 0 (B "东汉") (B "桓帝") (B "刘志") (B "永康");
  mkEra (168) 4 0 (B "东汉") (B "灵帝") (B "刘宏") (B "建宁");
  mkEra (172) 5 0 (B "东汉") (B "灵帝") (B "刘宏") (B "熹平");
  mkEra (178) 6 0 (B "东汉") (B "灵帝") (B "刘宏") (B "光和");
  mkEra (184) 6 0 (B "东汉") (B "灵帝") (B "刘宏") (B "中平");
  mkEra (190) 4 0 (B "东汉") (B "献帝") (B "刘协") (B "初平");
  mkEra (194) 2 0 (B "东汉") (B "献帝") (B "刘协") (B "兴平");
  mkEra (196) 24 0 (B "东汉") (B "献帝") (B "刘协") (B "建安");
  mkEra (220) 7 0 (B "三国-魏") (B "文帝") (B "曹丕") (B "黄初");
  mkEra (227) 6 0 (B "三国-魏") (B "明帝") (B "曹叡") (B "太和");
  mkEra (233) 4 0 (B "三国-魏") (B "明帝") (B "曹叡") (B "青龙");
  mkEra (237) 3 0 (B "三国-魏") (B "明帝") (B "曹叡") (B "景初");
  mkEra (240) 9 0 (B "三国-魏") (B "齐王") (B "曹芳") (B "正始");
  mkEra (249) 5 0 (B "三国-魏") (B "齐王") (B "曹芳") (B "嘉平");
  mkEra (254) 2 0 (B "三国-魏") (B "高贵乡公") (B "曹髦") (B "正元");
  mkEra (256) 4 0 (B "三国-魏") (B "高贵乡公") (B "曹髦") (B "甘露");
  mkEra (260) 4 0 (B "三国-魏") (B "元帝") (B "曹奂") (B "景元");
  mkEra (264) 1 0 (B "三国-魏") (B "元帝") (B "曹奂") (B "咸熙");
  mkEra (265) 10 0 (B "西晋") (B "武帝") (B "司马炎") (B "泰始");
  mkEra (275) 5 0 (B "西晋") (B "武帝") (B "司马炎") (B "咸宁");
  mkEra (280) 10 0 (B "西晋") (B "武帝") (B "司马炎") (B "太康");
  mkEra (290) 10 0 (B "西晋") (B "武帝") (B "司马炎") (B "太熙");
  mkEra (300) 1 0 (B "西晋") (B "惠帝") (B "司马衷") (B "永康");
  mkEra (301) 1 0 (B "西晋") (B "惠帝") (B "司马衷") (B "永宁");
  mkEra (302) 2 0 (B "西晋") (B "惠帝") (B "司马衷") (B "太安");
  mkEra (304) 2 0 (B "西晋") (B "惠帝") (B "司马衷") (B "永安");
  mkEra (306) 1 0 (B "西晋") (B "惠帝") (B "司马衷") (B "光熙");
  mkEra (307) 6 0 (B "西晋") (B "怀帝") (B "司马炽") (B "永嘉");
  mkEra (313) 4 0 (B "西晋") (B "愍帝") (B "司马邺") (B "建兴");
  mkEra (317) 1 0 (B "东晋") (B "元帝") (B "司马睿") (B "建武");
  mkEra (318) 4 0 (B "东晋") (B "元帝") (B "司马睿") (B "大兴");
  mkEra (322) 1 0 (B "东晋") (B "元帝") (B "司马睿") (B "永昌");
  mkEra (323) 3 0 (B "东晋") (B "明帝") (B "司马绍") (B "太宁");
  mkEra (326) 9 0 (B "东晋") (B "成帝") (B "司马衍") (B "咸和");
  mkEra (335) 8 0 (B "东晋") (B "成帝") (B "司马衍") (B "咸康");
  mkEra (343) 2 0 (B "东晋") (B "康帝") (B "司马岳") (B "建元");
  mkEra (345) 12 0 (B "东晋") (B "穆帝") (B "司马聃") (B "永和");
  mkEra (357) 5 0 (B "东晋") (B "穆帝") (B "司马聃") (B "升平");
  mkEra (362) 1 0 (B "东晋") (B "哀帝") (B "司马丕") (B "隆和");
  mkEra (363) 3 0 (B "东晋") (B "哀帝") (B "司马丕") (B "兴宁");
  mkEra (366) 5 0 (B "东晋") (B "海西公") (B "司马奕") (B "太和");
  mkEra (371) 2 0 (B "东晋") (B "简文帝") (B "司马昱") (B "咸安");
  mkEra (373) 3 0 (B "东晋") (B "孝武帝") (B "司马曜") (B "甯康");
  mkEra (376) 21 0 (B "东晋") (B "孝武帝") (B "司马曜") (B "太元");
  mkEra (397) 5 0 (B "东晋") (B "安帝") (B "司马德宗") (B "隆安");
  mkEra (402) 3 0 (B "东晋") (B "安帝") (B "司马德宗") (B "元兴");
  mkEra (405) 14 0 (B "东晋") (B "安帝") (B "司马德宗") (B "义熙");
  mkEra (419) 1 0 (B "东晋") (B "恭帝") (B "司马德文") (B "元熙");
  mkEra (420) 3 0 (B "南朝/宋") (B "武帝") (B "刘裕") (B "永初");
  mkEra (423) 2 0 (B "南朝/宋") (B "少帝") (B "刘义符") (B "景平");
  mkEra (424) 30 0 (B "南朝/宋") (B "文帝") (B "刘義隆") (B "元嘉");
  mkEra (454) 3 0 (B "南朝/宋") (B "孝武") (B "帝刘骏") (B "孝建");
  mkEra (457) 8 0 (B "南朝/宋") (B "孝武") (B "帝刘骏") (B "大明");
  mkEra (465) 1 0 (B "南朝/宋") (B "废帝") (B "刘子业") (B "永光");
  mkEra (465) 1 0 (B "南朝/宋") (B "废帝") (B "刘子业") (B "景和");
  mkEra (465) 7 0 (B "南朝/宋") (B "明帝") (B "刘彧") (B "泰始");
  mkEra (472) 1 0 (B "南朝/宋") (B "明帝") (B "刘彧") (B "泰豫");
  mkEra (473) 5 0 (B "南朝/宋") (B "废帝") (B "刘昱") (B "元徽");
  mkEra (477) 3 0 (B "南朝/宋") (B "顺帝") (B "刘准") (B "升明");
  mkEra (479) 4 0 (B "南朝/齐") (B "高帝") (B "萧道成") (B "建元");
  mkEra (483) 11 0 (B "南朝/齐") (B "武帝") (B "萧赜") (B "永明");
  mkEra (494) 1 0 (B "南朝/齐") (B "欎林王") (B "萧昭业") (B "隆昌");
  mkEra (494) 1 0 (B "南朝/齐") (B "海陵王") (B "萧昭文") (B "延兴");
  mkEra (494) 5 0 (B "南朝/齐") (B "明帝") (B "萧鸾") (B "建武");
  mkEra (498) 1 0 (B "南朝/齐") (B "明帝") (B "萧鸾") (B "永泰");
  mkEra (499) 3 0 (B "南朝/齐") (B "东昏侯") (B "萧宝") (B "中兴");
  mkEra (501) 2 0 (B "南朝/齐") (B "和帝") (B "萧宝融") (B "中兴");
  mkEra (502) 18 0 (B "南朝/梁") (B "武帝") (B "萧衍") (B "天监");
  mkEra (520) 8 0 (B "南朝/梁") (B "武帝") (B "萧衍") (B "普通");
  mkEra (527) 3 0 (B "南朝/梁") (B "武帝") (B "萧衍") (B "大通");
  mkEra (529) 6 0 (B "南朝/梁") (B "武帝") (B "萧衍") (B "中大通");
  mkEra (535) 12 0 (B "南朝/梁") (B "武帝") (B "萧衍") (B "大同");
  mkEra (546) 2 0 (B "南朝/梁") (B "武帝") (B "萧衍") (B "中大同");
  mkEra (547) 3 0 (B "南朝/梁") (B "武帝") (B "萧衍") (B "太清");
  mkEra (550) 2 0 (B "南朝/梁") (B "简文帝") (B "萧纲") (B "大宝");
  mkEra (551) 2 0 (B "南朝/梁") (B "豫章王") (B "萧栋") (B "天正");
  mkEra (552) 4 0 (B "南朝/梁") (B "元帝") (B "萧绎") (B "承圣");
  mkEra (555) 1 0 (B "南朝/梁") (B "贞阳侯") (B "萧渊明") (B "天成");
  mkEra (555) 2 0 (B "南朝/梁") (B "敬帝") (B "萧方智") (B "绍泰");
  mkEra (556) 2 0 (B "南朝/梁") (B "敬帝") (B "萧方智") (B "太平");
  mkEra (557) 3 0 (B "南朝/陈") (B "武帝") (B "陈霸先") (B "太平");
  mkEra (560) 7 0 (B "南朝/陈") (B "文帝") (B "陈蒨") (B "天嘉");
  mkEra (566) 1 0 (B "南朝/陈") (B "文帝") (B "陈蒨") (B "天康");
  mkEra (567) 2 0 (B "南朝/陈") (B "废帝") (B "陈伯宗") (B "光大");
  mkEra (569) 14 0 (B "南朝/陈") (B "宣帝") (B "陈顼") (B "太建");
  mkEra (583) 4 0 (B "南朝/陈") (B "后主") (B "陈叔宝") (B "至德");
  mkEra (587) 3 0 (B "南朝/陈") (B "后主") (B "陈叔宝") (B "祯明");
  mkEra (555) 8 0 (B "南朝/后梁") (B "宣帝") (B "萧詧") (B "大定");
  mkEra (562) 24 0 (B "南朝/后梁") (B "明帝") (B "萧岿") (B "天保");
  mkEra (586) 2 0 (B "南朝/后梁") (B "莒公") (B "萧琮") (B "广运");
  mkEra (386) 11 0 (B "北朝/北魏") (B "道武帝") (B "拓跋圭") (B "登国");
  mkEra (396) 3 0 (B "北朝/北魏") (B "道武帝") (B "拓跋圭") (B "皇始");
  mkEra (398) 7 0 (B "北朝/北魏") (B "道武帝") (B "拓跋圭") (B "天兴");
  mkEra (404) 6 0 (B "北朝/北魏") (B "道武帝") (B "拓跋圭") (B "天赐");
  mkEra (409) 5 0 (B "北朝/北魏") (B "明元帝") (B "拓跋嗣") (B "永兴");
  mkEra (414) 3 0 (B "北朝/北魏") (B "明元帝") (B "拓跋嗣") (B "神瑞");
  mkEra (416) 8 0 (B "北朝/北魏") (B "明元帝") (B "拓跋嗣") (B "泰常");
  mkEra (424) 5 0 (B "北朝/北魏") (B "太武帝") (B "拓跋焘") (B "始光");
  mkEra (428) 4 0 (B "北朝/北魏") (B "太武帝") (B "拓跋焘") (B "神麚");
  mkEra (432) 3 0 (B "北朝/北魏") (B "太武帝") (B "拓跋焘") (B "延和");
  mkEra (435) 6 0 (B "北朝/北魏") (B "太武帝") (B "拓跋焘") (B "太延");
  mkEra (440) 12 0 (B "北朝/北魏") (B "太武帝") (B "拓跋焘") (B "太平真君");
  mkEra (451) 2 0 (B "北朝/北魏") (B "太武帝") (B "拓跋焘") (B "正平");
  mkEra (452) 1 0 (B "北朝/北魏") (B "南安王") (B "拓跋余") (B "承平");
  mkEra (452) 3 0 (B "北朝/北魏") (B "文成帝") (B "拓跋浚") (B "兴安");
  mkEra (454) 2 0 (B "北朝/北魏") (B "文成帝") (B "拓跋浚") (B "兴光");
  mkEra (455) 5 0 (B "北朝/北魏") (B "文成帝") (B "拓跋浚") (B "太安");
  mkEra (460) 6 0 (B "北朝/北魏") (B "文成帝") (B "拓跋浚") (B "和平");
  mkEra (466) 2 0 (B "北朝/北魏") (B "献文帝") (B "拓跋弘") (B "天安");
  mkEra (467) 5 0 (B "北朝/北魏") (B "献文帝") (B "拓跋弘") (B "皇兴");
  mkEra (471) 6 0 (B "北朝/北魏") (B "教文帝") (B "拓跋宏") (B "延兴");
  mkEra (476) 1 0 (B "北朝/北魏") (B "孝文帝") (B "拓跋宏") (B "承明");
  mkEra (477) 23 0 (B "北朝/北魏") (B "孝文帝") (B "拓跋宏") (B "太和");
  mkEra (500) 4 0 (B "北朝/北魏") (B "宣武帝") (B "元恪") (B "景明");
  mkEra (504) 5 0 (B "北朝/北魏") (B "宣武帝") (B "元恪") (B "正始");
  mkEra (508) 5 0 (B "北朝/北魏") (B "宣武帝") (B "元恪") (B "永平");
  mkEra (512) 4 0 (B "北朝/北魏") (B "宣武帝") (B "元恪") (B "延昌");
  mkEra (516) 3 0 (B "北朝/北魏") (B "孝明帝") (B "元诩") (B "熙平");
  mkEra (518) 3 0 (B "北朝/北魏") (B "孝明帝") (B "元诩") (B "神龟");
  mkEra (520) 6 0 (B "北朝/北魏") (B "孝明帝") (B "元诩") (B "正光");
  mkEra (525) 3 0 (B "北朝/北魏") (B "孝明帝") (B "元诩") (B "孝昌");
  mkEra (528) 1 0 (B "北朝/北魏") (B "孝明帝") (B "元诩") (B "武泰");
  mkEra (528) 1 0 (B "北朝/北魏") (B "孝庄帝") (B "元子攸") (B "建义");
  mkEra (528) 3 0 (B "北朝/北魏") (B "孝庄帝") (B "元子攸") (B "永安");
  mkEra (530) 2 0 (B "北朝/北魏") (B "东海王") (B "元晔") (B "建明");
  mkEra (531) 2 0 (B "北朝/北魏") (B "节闵帝") (B "元恭") (B "普泰");
  mkEra (531) 2 0 (B "北朝/北魏") (B "安定王") (B "元朗") (B "中兴");
  mkEra (532) 1 0 (B "北朝/北魏") (B "孝武帝") (B "元修") (B "太昌");
  mkEra (532) 1 0 (B "北朝/北魏") (B "孝武帝") (B "元修") (B "永兴");
  mkEra (532) 3 0 (B "北朝/北魏") (B "孝武帝") (B "元修") (B "永熙");
  mkEra (534) 4 0 (B "北朝/东魏") (B "孝静帝") (B "元善见") (B "天平");
  mkEra (538) 2 0 (B "北朝/东魏") (B "孝静帝") (B "元善见") (B "元象");
  mkEra (539) 4 0 (B "北朝/东魏") (B "孝静帝") (B "元善见") (B "兴和");
  mkEra (543) 8 0 (B "北朝/东魏") (B "孝静帝") (B "元善见") (B "武定");
  mkEra (535) 17 0 (B "北朝/西魏") (B "文帝") (B "元宝炬") (B "大统");
  mkEra (552) 3 0 (B "北朝/西魏") (B "废帝") (B "元钦") (B "大统");
  mkEra (554) 3 0 (B "北朝/西魏") (B "恭帝") (B "元廓") (B "大统");
  mkEra (550) 10 0 (B "北朝/北齐") (B "文宣帝") (B "高洋") (B "天保");
  mkEra (560) 1 0 (B "北朝/北齐") (B "废帝") (B "高殷") (B "乾明");
  mkEra (560) 2 0 (B "北朝/北齐") (B "孝昭帝") (B "高演") (B "皇建");
  mkEra (561) 2 0 (B "北朝/北齐") (B "武成帝") (B "高湛") (B "太宁");
  mkEra (562) 4 0 (B "北朝/北齐") (B "武成帝") (B "高湛") (B "河清");
  mkEra (565) 5 0 (B "北朝/北齐") (B "温公") (B "高纬") (B "天统");
  mkEra (570) 7 0 (B "北朝/北齐") (B "温公") (B "高纬") (B "武平");
  mkEra (576) 2 0 (B "北朝/北齐") (B "温公") (B "高纬") (B "隆化");
  mkEra (576) 1 0 (B "北朝/北齐") (B "安德王") (B "高延宗") (B "德昌");
  mkEra (577) 1 0 (B "北朝/北齐") (B "幼主") (B "高恒") (B "承光");
  mkEra (557) 1 0 (B "北朝/北周") (B "闵帝") (B "宇文觉") (B "空");
  mkEra (557) 2 0 (B "北朝/北周") (B "明帝") (B "宇文毓") (B "空");
  mkEra (559) 2 0 (B "北朝/北周") (B "明帝") (B "宇文毓") (B "武成");
  mkEra (561) 5 0 (B "北朝/北周") (B "武帝") (B "宇文邕") (B "保定");
  mkEra (566) 7 0 (B "北朝/北周") (B "武帝") (B "宇文邕") (B "天和");
  mkEra (572) 7 0 (B "北朝/北周") (B "武帝") (B "宇文邕") (B "建德");
  mkEra (578) 1 0 (B "北朝/北周") (B "武帝") (B "宇文邕") (B "宣政");
  mkEra (579) 1 0 (B "北朝/北周") (B "宣帝") (B "宇文贇") (B "大成");
  mkEra (579) 2 0 (B "北朝/北周") (B "静帝") (B "宇文衍") (B "大象");
  mkEra (581) 1 0 (B "北朝/北周") (B "静帝") (B "宇文衍") (B "大定");
  mkEra (581) 20 0 (B "隋") (B "文帝") (B "杨坚") (B "开皇");
  mkEra (601) 4 0 (B "隋") (B "文帝") (B "杨坚") (B "仁寿");
  mkEra (605) 13 0 (B "隋") (B "炀帝") (B "杨广") (B "大业");
  mkEra (617) 2 0 (B "隋") (B "恭帝") (B "杨侑") (B "义宁");
  mkEra (618) 9 0 (B "唐") (B "高祖") (B "李渊") (B "武德");
  mkEra (627) 23 0 (B "唐") (B "太宗") (B "李世民") (B "贞观");
  mkEra (650) 6 0 (B "唐") (B "高宗") (B "李治") (B "永徽");
  mkEra (656) 6 0 (B "唐") (B "高宗") (B "李治") (B "显庆");
  mkEra (661) 3 0 (B "唐") (B "高宗") (B "李治") (B "龙朔");
  mkEra (664) 2 0 (B "唐") (B "高宗") (B "李治") (B "麟德");
  mkEra (666) 3 0 (B "唐") (B "高宗") (B "李治") (B "乾封");
  mkEra (668) 3 0 (B "唐") (B "高宗") (B "李治") (B "总章");
  mkEra (670) 5 0 (B "唐") (B "高宗") (B "李治") (B "咸亨");
  mkEra (674) 3 0 (B "唐") (B "高宗") (B "李治") (B "上元");
  mkEra (676) 4 0 (B "唐") (B "高宗") (B "李治") (B "仪凤");
  mkEra (679) 2 0 (B "唐") (B "高宗") (B "李治") (B "调露");
  mkEra (680) 2 0 (B "唐") (B "高宗") (B "李治") (B "永隆");
  mkEra (681) 2 0 (B "唐") (B "高宗") (B "李治") (B "开耀");
  mkEra (682) 2 0 (B "唐") (B "高宗") (B "李治") (B "永淳");
  mkEra (683) 1 0 (B "唐") (B "高宗") (B "李治") (B "弘道");
  mkEra (684) 1 0 (B "唐") (B "中宗") (B "李显") (B "嗣圣");
  mkEra (684) 1 0 (B "唐") (B "睿宗") (B "李旦") (B "文明");
  mkEra (684) 1 0 (B "武周") (B "则天后") (B "武曌") (B "光宅");
  mkEra (685) 4 0 (B "武周") (B "则天后") (B "武曌") (B "垂拱");
  mkEra (689) 1 0 (B "武周") (B "则天后") (B "武曌") (B "永昌");
  mkEra (689) 2 0 (B "武周") (B "则天后") (B "武曌") (B "载初");
  mkEra (690) 3 0 (B "武周") (B "则天后") (B "武曌") (B "天授");
  mkEra (692) 1 0 (B "武周") (B "则天后") (B "武曌") (B "如意");
  mkEra (692) 3 0 (B "武周") (B "则天后") (B "武曌") (B "长寿");
  mkEra (694) 1 0 (B "武周") (B "则天后") (B "武曌") (B "延载");
  mkEra (695) 1 0 (B "武周") (B "则天后") (B "武曌") (B "证圣");
  mkEra (695) 2 0 (B "武周") (B "则天后") (B "武曌") (B "天册万岁");
  mkEra (696) 1 0 (B "武周") (B "则天后") (B "武曌") (B "万岁登封");
  mkEra (696) 2 0 (B "武周") (B "则天后") (B "武曌") (B "万岁通天");
  mkEra (697) 1 0 (B "武周") (B "则天后") (B "武曌") (B "神功");
  mkEra (698) 3 0 (B "武周") (B "则天后") (B "武曌") (B "圣历");
  mkEra (700) 1 0 (B "武周") (B "则天后") (B "武曌") (B "久视");
  mkEra (701) 1 0 (B "武周") (B "则天后") (B "武曌") (B "大足");
  mkEra (701) 4 0 (B "武周") (B "则天后") (B "武曌") (B "长安");
  mkEra (705) 1 0 (B "武周") (B "则天后") (B "李显") (B "神龙");
  mkEra (705) 2 0 (B "唐") (B "中宗") (B "李显") (B "神龙");
  mkEra (707) 4 0 (B "唐") (B "中宗") (B "李显") (B "景龙");
  mkEra (710) 1 0 (B "唐") (B "温王") (B "李重茂") (B "唐隆");
  mkEra (710) 2 0 (B "唐") (B "睿宗") (B "李旦") (B "景云");
  mkEra (712) 1 0 (B "唐") (B "睿宗") (B "李旦") (B "太极");
  mkEra (712) 1 0 (B "唐") (B "睿宗") (B "李旦") (B "延和");
  mkEra (712) 2 0 (B "唐") (B "玄宗") (B "李隆基") (B "先天");
  mkEra (713) 29 0 (B "唐") (B "玄宗") (B "李隆基") (B "开元");
  mkEra (742) 15 0 (B "唐") (B "玄宗") (B "李隆基") (B "天宝");
  mkEra (756) 3 0 (B "唐") (B "肃宗") (B "李亨") (B "至德");
  mkEra (758) 3 0 (B "唐") (B "肃宗") (B "李亨") (B "乾元");
  mkEra (760) 3 0 (B "唐") (B "肃宗") (B "李亨") (B "上元");
  mkEra (762) 2 0 (B "唐") (B "肃宗") (B "李亨") (B "宝应");
  mkEra (763) 2 0 (B "唐") (B "代宗") (B "李豫") (B "广德");
  mkEra (765) 2 0 (B "唐") (B "肃宗") (B "李亨") (B "永泰");
  mkEra (766) 14 0 (B "唐") (B "肃宗") (B "李亨") (B "大历");
  mkEra (780) 4 0 (B "唐") (B "德宗") (B "李适") (B "建中");
  mkEra (784) 1 0 (B "唐") (B "德宗") (B "李适") (B "兴元");
  mkEra (785) 21 0 (B "唐") (B "德宗") (B "李适") (B "贞元");
  mkEra (805) 1 0 (B "唐") (B "顺宗") (B "李诵") (B "永贞");
  mkEra (806) 15 0 (B "唐") (B "宪宗") (B "李纯") (B "元和");
  mkEra (821) 4 0 (B "唐") (B "穆宗") (B "李恒") (B "长庆");
  mkEra (825) 3 0 (B "唐") (B "敬宗") (B "李湛") (B "宝历");
  mkEra (827) 9 0 (B "唐") (B "文宗") (B "李昂") (B "大和");
  mkEra (836) 5 0 (B "唐") (B "文宗") (B "李昂") (B "开成");
  mkEra (841) 6 0 (B "唐") (B "武宗") (B "李炎") (B "会昌");
  mkEra (847) 14 0 (B "唐") (B "宣宗") (B "李忱") (B "大中");
  mkEra (860) 15 0 (B "唐") (B "宣宗") (B "李忱") (B "咸通");
  mkEra (874) 6 0 (B "唐") (B "僖宗") (B "李儇") (B "乾符");
  mkEra (880) 2 0 (B "唐") (B "僖宗") (B "李儇") (B "广明");
  mkEra (881) 5 0 (B "唐") (B "僖宗") (B "李儇") (B "中和");
  mkEra (885) 4 0 (B "唐") (B "僖宗") (B "李儇") (B "光启");
  mkEra (888) 1 0 (B "唐") (B "僖宗") (B "李儇") (B "文德");
  mkEra (889) 1 0 (B "唐") (B "昭宗") (B "李晔") (B "龙纪");
  mkEra (890) 2 0 (B "唐") (B "昭宗") (B "李晔") (B "大顺");
  mkEra (892) 2 0 (B "唐") (B "昭宗") (B "李晔") (B "景福");
  mkEra (894) 5 0 (B "唐") (B "昭宗") (B "李晔") (B "乾宁");
  mkEra (898) 4 0 (B "唐") (B "昭宗") (B "李晔") (B "光化");
  mkEra (901) 4 0 (B "唐") (B "昭宗") (B "李晔") (B "天复");
  mkEra (904) 1 0 (B "唐") (B "昭宗") (B "李晔") (B "天佑");
  mkEra (905) 3 1 (B "唐") (B "昭宣帝") (B "李祝") (B "天佑");
  mkEra (907) 5 0 (B "五代/梁") (B "太祖") (B "朱温") (B "开平");
  mkEra (911) 2 0 (B "五代/梁") (B "太祖") (B "朱温") (B "乾化");
  mkEra (913) 1 0 (B "五代/梁") (B "庶人") (B "朱友圭") (B "凤历");
  mkEra (913) 3 2 (B "五代/梁") (B "末帝") (B "朱友贞") (B "乾化");
  mkEra (915) 7 0 (B "五代/梁") (B "末帝") (B "朱友贞") (B "贞明");
  mkEra (921) 3 0 (B "五代/梁") (B "末帝") (B "朱友贞") (B "龙德");
  mkEra (923) 4 0 (B "五代/唐") (B "庄宗") (B "李存勗") (B "同光");
  mkEra (926) 5 0 (B "五代/唐") (B "明宗") (B "李嗣源") (B "天成");
  mkEra (930) 4 0 (B "五代/唐") (B "明宗") (B "李嗣源") (B "长兴");
  mkEra (934) 1 0 (B "五代/唐") (B "闵帝") (B "李从厚") (B "应顺");
  mkEra (934) 3 0 (B "五代/唐") (B "潞王") (B "李从珂") (B "清泰");
  mkEra (936) 6 0 (B "五代/晋") (B "高祖") (B "石敬瑭") (B "天福");
  mkEra (942) 2 6 (B "五代/晋") (B "出帝") (B "石重贵") (B "天福");
  mkEra (944) 3 0 (B "五代/晋") (B "出帝") (B "石重贵") (B "开运");
  mkEra (947) 12 0 (B "五代/汉") (B "高祖") (B "刘知远") (B "天福");
  mkEra (948) 1 0 (B "五代/汉") (B "隐帝") (B "刘承祐") (B "乾祐");
  mkEra (948) 3 0 (B "五代/汉") (B "隐帝") (B "刘承祐") (B "乾祐");
  mkEra (951) 3 0 (B "五代/周") (B "太祖") (B "郭威") (B "广顺");
  mkEra (954) 1 0 (B "五代/周") (B "太祖") (B "郭威") (B "显德");
  mkEra (954) 6 0 (B "五代/周") (B "世宗") (B "柴荣") (B "显德");
  mkEra (959) 2 5 (B "五代/周") (B "恭帝") (B "郭宗训") (B "显德");
  mkEra (960) 4 0 (B "北宋") (B "太祖") (B "赵匡胤") (B "建隆");
  mkEra (963) 6 0 (B "北宋") (B "太祖") (B "赵匡胤") (B "乾德");
  mkEra (968) 9 0 (B "北宋") (B "太祖") (B "赵匡胤") (B "开宝");
  mkEra (976) 9 0 (B "北宋") (B "太宗") (B "赵炅") (B "太平兴国");
  mkEra (984) 4 0 (B "北宋") (B "太宗") (B "赵炅") (B "雍熙");
  mkEra (988) 2 0 (B "北宋") (B "太宗") (B "赵炅") (B "端拱");
  mkEra (990) 5 0 (B "北宋") (B "太宗") (B "赵炅") (B "淳化");
  mkEra (995) 3 0 (B "北宋") (B "太宗") (B "赵炅") (B "至道");
  mkEra (998) 6 0 (B "北宋") (B "真宗") (B "赵恒") (B "咸平");
  mkEra (1004) 4 0 (B "北宋") (B "真宗") (B "赵恒") (B "景德");
  mkEra (1008) 9 0 (B "北宋") (B "真宗") (B "赵恒") (B "大中祥符");
  mkEra (1017) 5 0 (B "北宋") (B "真宗") (B "赵恒") (B "天禧");
  mkEra (1022) 1 0 (B "北宋") (B "真宗") (B "赵恒") (B "乾兴");
  mkEra (1023) 10 0 (B "北宋") (B "仁宗") (B "赵祯") (B "天圣");
  mkEra (1032) 2 0 (B "北宋") (B "仁宗") (B "赵祯") (B "明道");
  mkEra (1034) 5 0 (B "北宋") (B "仁宗") (B "赵祯") (B "景祐");
  mkEra (1038) 3 0 (B "北宋") (B "仁宗") (B "赵祯") (B "宝元");
  mkEra (1040) 2 0 (B "北宋") (B "仁宗") (B "赵祯") (B "康定");
  mkEra (1041) 8 0 (B "北宋") (B "仁宗") (B "赵祯") (B "庆历");
  mkEra (1049) 6 0 (B "北宋") (B "仁宗") (B "赵祯") (B "皇祐");
  mkEra (1054) 3 0 (B "北宋") (B "仁宗") (B "赵祯") (B "至和");
  mkEra (1056) 8 0 (B "北宋") (B "仁宗") (B "赵祯") (B "嘉祐");
  mkEra (1064) 4 0 (B "北宋") (B "英宗") (B "赵曙") (B "治平");
  mkEra (1068) 10 0 (B "北宋") (B "神宗") (B "赵顼") (B "熙宁");
  mkEra (1078) 8 0 (B "北宋") (B "神宗") (B "赵顼") (B "元丰");
  mkEra (1086) 9 0 (B "北宋") (B "哲宗") (B "赵煦") (B "元祐");
  mkEra (1094) 5 0 (B "北宋") (B "哲宗") (B "赵煦") (B "绍圣");
  mkEra (1098) 3 0 (B "北宋") (B "哲宗") (B "赵煦") (B "元符");
  mkEra (1101) 1 0 (B "北宋") (B "徽宗") (B "赵佶") (B "建中靖国");
  mkEra (1102) 5 0 (B "北宋") (B "徽宗") (B "赵佶") (B "崇宁");
  mkEra (1107) 4 0 (B "北宋") (B "徽宗") (B "赵佶") (B "大观");
  mkEra (1111) 8 0 (B "北宋") (B "徽宗") (B "赵佶") (B "政和");
  mkEra (1118) 2 0 (B "北宋") (B "徽宗") (B "赵佶") (B "重和");
  mkEra (1119) 7 0 (B "北宋") (B "徽宗") (B "赵佶") (B "宣和");
  mkEra (1126) 2 0 (B "北宋") (B "钦宗") (B "赵桓") (B "靖康");
  mkEra (1127) 4 0 (B "南宋") (B "高宗") (B "赵构") (B "建炎");
  mkEra (1131) 32 0 (B "南宋") (B "高宗") (B "赵构") (B "绍兴");
  mkEra (1163) 2 0 (B "南宋") (B "孝宗") (B "赵慎") (B "隆兴");
  mkEra (1165) 9 0 (B "南宋") (B "孝宗") (B "赵慎") (B "乾道");
  mkEra (1174) 16 0 (B "南宋") (B "孝宗") (B "赵慎") (B "淳熙");
  mkEra (1190) 5 0 (B "南宋") (B "光宗") (B "赵暴") (B "绍熙");
  mkEra (1195) 6 0 (B "南宋") (B "宁宗") (B "赵扩") (B "庆元");
  mkEra (1201) 4 0 (B "南宋") (B "宁宗") (B "赵扩") (B "嘉泰");
  mkEra (1205) 3 0 (B "南宋") (B "宁宗") (B "赵扩") (B "开禧");
  mkEra (1208) 17 0 (B "南宋") (B "宁宗") (B "赵扩") (B "嘉定");
  mkEra (1225) 3 0 (B "南宋") (B "理宗") (B "赵昀") (B "宝庆");
  mkEra (1228) 6 0 (B "南宋") (B "理宗") (B "赵昀") (B "绍定");
  mkEra (1234) 3 0 (B "南宋") (B "理宗") (B "赵昀") (B "端平");
  mkEra (1237) 4 0 (B "南宋") (B "理宗") (B "赵昀") (B "嘉熙");
  mkEra (1241) 12 0 (B "南宋") (B "理宗") (B "赵昀") (B "淳祐");
  mkEra (1253) 6 0 (B "南宋") (B "理宗") (B "赵昀") (B "寶祐");
  mkEra (1259) 1 0 (B "南宋") (B "理宗") (B "赵昀") (B "开庆");
  mkEra (1260) 5 0 (B "南宋") (B "理宗") (B "赵昀") (B "景定");
  mkEra (1265) 10 0 (B "南宋") (B "度宗") (B "赵禥") (B "咸淳");
  mkEra (1275) 2 0 (B "南宋") (B "恭宗") (B "赵(上“日”下“丝”)") (B "德祐 ");
  mkEra (1276) 3 0 (B "南宋") (B "端宗") (B "赵(上“日”下“正”)") (B "景炎");
  mkEra (1278) 2 0 (B "南宋") (B "帝昺") (B "赵昺") (B "祥兴");
  mkEra (1271) 24 7 (B "元") (B "世祖") (B "孛儿只斤·忽必烈") (B "至元");
  mkEra (1295) 3 0 (B "元") (B "成宗") (B "孛儿只斤·铁穆耳") (B "元贞");
  mkEra (1297) 11 0 (B "元") (B "成宗") (B "孛儿只斤·铁穆耳") (B "大德");
  mkEra (1308) 4 0 (B "元") (B "武宗") (B "孛儿只斤·海山") (B "至大");
  mkEra (1312) 2 0 (B "元") (B "仁宗") (B "孛儿只斤·爱育黎拔力八达") (B "皇庆");
  mkEra (1314) 7 0 (B "元") (B "仁宗") (B "孛儿只斤·愛育黎拔力八達") (B "延祐");
  mkEra (1321) 3 0 (B "元") (B "英宗") (B "孛儿只斤·宗硕德八剌") (B "至治");
  mkEra (1324) 5 0 (B "元") (B "泰定帝") (B "孛儿只斤·也孙铁木耳") (B "泰定");
  mkEra (1328) 1 0 (B "元") (B "泰定帝") (B "孛儿只斤·也孙铁木耳") (B "至和");
  mkEra (1328) 1 0 (B "元") (B "幼主") (B "孛儿只斤·阿速吉八") (B "天顺");
  mkEra (1328) 3 0 (B "元") (B "文宗") (B "孛儿只斤·图贴睦尔") (B "天历");
  mkEra (1330) 3 0 (B "元") (B "文宗") (B "孛儿只斤·图贴睦尔") (B "至顺");
  mkEra (1333) 3 0 (B "元") (B "惠宗") (B "孛儿只斤·妥镤贴睦尔") (B "元统");
  mkEra (1335) 6 0 (B "元") (B "惠宗") (B "孛儿只斤·妥镤贴睦尔") (B "至元");
  mkEra (1341) 28 0 (B "元") (B "惠宗") (B "孛儿只斤·妥镤贴睦尔") (B "至正");
  mkEra (1368) 31 0 (B "明") (B "太祖") (B "朱元璋") (B "洪武");
  mkEra (1399) 4 0 (B "明") (B "惠帝") (B "朱允溫") (B "建文");
  mkEra (1403) 22 0 (B "明") (B "成祖") (B "朱棣") (B "永乐");
  mkEra (1425) 1 0 (B "明") (B "仁宗") (B "朱高炽") (B "洪熙");
  mkEra (1426) 10 0 (B "明") (B "宣宗") (B "朱瞻基") (B "宣德");
  mkEra (1436) 14 0 (B "明") (B "英宗") (B "朱祁镇") (B "正统");
  mkEra (1450) 7 0 (B "明") (B "代宗") (B "朱祁钰") (B "景泰");
  mkEra (1457) 8 0 (B "明") (B "英宗") (B "朱祁镇") (B "天顺");
  mkEra (1465) 23 0 (B "明") (B "宪宗") (B "朱见深") (B "成化");
  mkEra (1488) 18 0 (B "明") (B "孝宗") (B "朱祐樘") (B "弘治");
  mkEra (1506) 16 0 (B "明") (B "武宗") (B "朱厚照") (B "正德");
  mkEra (1522) 45 0 (B "明") (B "世宗") (B "朱厚熜") (B "嘉靖");
  mkEra (1567) 6 0 (B "明") (B "穆宗") (B "朱载贺") (B "隆庆");
  mkEra (1573) 48 0 (B "明") (B "神宗") (B "朱翊钧") (B "万历");
  mkEra (1620) 1 0 (B "明") (B "光宗") (B "朱常洛") (B "泰昌");
  mkEra (1621) 7 0 (B "明") (B "熹宗") (B "朱同校") (B "天启");
  mkEra (1628) 17 0 (B "明") (B "毅宗") (B "朱由检") (B "崇祯");
  mkEra (1644) 18 0 (B "清") (B "世祖") (B "爱新觉罗福临") (B "顺治");
  mkEra (1662) 61 0 (B "清") (B "圣祖") (B "爱新觉罗玄烨") (B "康熙");
  mkEra (1723) 13 0 (B "清") (B "世宗") (B "爱新觉罗胤禛") (B "雍正");
  mkEra (1736) 60 0 (B "清") (B "高宗") (B "爱新觉罗弘历") (B "乾隆");
  mkEra (1796) 25 0 (B "清") (B "仁宗") (B "爱新觉罗颙琰") (B "嘉庆");
  mkEra (1821) 30 0 (B "清") (B "宣宗") (B "爱新觉罗旻宁") (B "道光");
  mkEra (1851) 11 0 (B "清") (B "文宗") (B "爱新觉罗奕詝") (B "咸丰");
  mkEra (1862) 13 0 (B "清") (B "穆宗") (B "爱新觉罗载淳") (B "同治");
  mkEra (1875) 34 0 (B "清") (B "德宗") (B "爱新觉罗载湉") (B "光绪");
  mkEra (1909) 3 0 (B "清") (B "无朝") (B "爱新觉罗溥仪") (B "宣统");
  mkEra (1912) 37 0 (B "近、现代") (B "中华民国") (B "") (B "民国");
  mkEra (1949) 9999 1948 (B "当代") (B "中国") (B "") (B "公历纪元") ].
