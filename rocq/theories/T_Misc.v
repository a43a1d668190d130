(** Tables of Lunar, LunarYear, EightChar, NineStar, FotoUtil, TaoUtil.  Generated by tools/gen_tables.py from the text of /repo. *)
From Coq Require Import ZArith List String.
From Verif Require Import Py PyStr.
Import ListNotations.
Open Scope Z_scope.
Local Open Scope string_scope.

(** Lunar.py:10 [Lunar.JIE_QI] *)
Definition Lunar_JIE_QI : list str := Eval vm_compute in [
  utf8 "冬至"; utf8 "小寒"; utf8 "大寒"; utf8 "立春"; utf8 "雨水"; utf8 "惊蛰"; utf8 "春分"; utf8 "清明"; utf8 "谷雨"; utf8 "立夏"; utf8 "小满";
  utf8 "芒种"; utf8 "夏至"; utf8 "小暑"; utf8 "大暑"; utf8 "立秋"; utf8 "处暑"; utf8 "白露"; utf8 "秋分"; utf8 "寒露"; utf8 "霜降"; utf8 "立冬";
  utf8 "小雪"; utf8 "大雪"].

(** Lunar.py:11 [Lunar.JIE_QI_IN_USE] *)
Definition Lunar_JIE_QI_IN_USE : list str := Eval vm_compute in [
  utf8 "DA_XUE"; utf8 "冬至"; utf8 "小寒"; utf8 "大寒"; utf8 "立春"; utf8 "雨水"; utf8 "惊蛰"; utf8 "春分"; utf8 "清明"; utf8 "谷雨"; utf8 "立夏";
  utf8 "小满"; utf8 "芒种"; utf8 "夏至"; utf8 "小暑"; utf8 "大暑"; utf8 "立秋"; utf8 "处暑"; utf8 "白露"; utf8 "秋分"; utf8 "寒露"; utf8 "霜降";
  utf8 "立冬"; utf8 "小雪"; utf8 "大雪"; utf8 "DONG_ZHI"; utf8 "XIAO_HAN"; utf8 "DA_HAN"; utf8 "LI_CHUN"; utf8 "YU_SHUI"; utf8 "JING_ZHE"].

(** LunarYear.py:13 [LunarYear.YUAN] *)
Definition LunarYear_YUAN : list str := Eval vm_compute in [
  utf8 "下"; utf8 "上"; utf8 "中"].

(** LunarYear.py:15 [LunarYear.YUN] *)
Definition LunarYear_YUN : list str := Eval vm_compute in [
  utf8 "七"; utf8 "八"; utf8 "九"; utf8 "一"; utf8 "二"; utf8 "三"; utf8 "四"; utf8 "五"; utf8 "六"].

(** LunarYear.py:17-18 [LunarYear.__LEAP_11] *)
Definition LunarYear_LEAP_11 : list Z := Eval vm_compute in [
  75; 94; 170; 265; 322; 398; 469; 553; 583; 610; 678; 735; 754; 773; 849; 887; 936; 1050; 1069; 1126; 1145; 1164; 1183; 1259; 1278; 1308; 1373; 1403; 1441; 1460; 1498;
  1555; 1593; 1612; 1631; 1642; 2033; 2128; 2147; 2242; 2614; 2728; 2910; 3062; 3244; 3339; 3616; 3711; 3730; 3825; 4007; 4159; 4197; 4322; 4341; 4379; 4417; 4531; 4599;
  4694; 4713; 4789; 4808; 4971; 5085; 5104; 5161; 5180; 5199; 5294; 5305; 5476; 5677; 5696; 5772; 5791; 5848; 5886; 6049; 6068; 6144; 6163; 6258; 6402; 6440; 6497; 6516;
  6630; 6641; 6660; 6679; 6736; 6774; 6850; 6869; 6899; 6918; 6994; 7013; 7032; 7051; 7070; 7089; 7108; 7127; 7146; 7222; 7271; 7290; 7309; 7366; 7385; 7404; 7442; 7461;
  7480; 7491; 7499; 7594; 7624; 7643; 7662; 7681; 7719; 7738; 7814; 7863; 7882; 7901; 7939; 7958; 7977; 7996; 8034; 8053; 8072; 8091; 8121; 8159; 8186; 8216; 8235; 8254;
  8273; 8311; 8330; 8341; 8349; 8368; 8444; 8463; 8474; 8493; 8531; 8569; 8588; 8626; 8664; 8683; 8694; 8702; 8713; 8721; 8751; 8789; 8808; 8816; 8827; 8846; 8884; 8903;
  8922; 8941; 8971; 9036; 9066; 9085; 9104; 9123; 9142; 9161; 9180; 9199; 9218; 9256; 9294; 9313; 9324; 9343; 9362; 9381; 9419; 9438; 9476; 9514; 9533; 9544; 9552; 9563;
  9571; 9582; 9601; 9639; 9658; 9666; 9677; 9696; 9734; 9753; 9772; 9791; 9802; 9821; 9886; 9897; 9916; 9935; 9954; 9973; 9992].

(** LunarYear.py:20-21 [LunarYear.__LEAP_12] *)
Definition LunarYear_LEAP_12 : list Z := Eval vm_compute in [
  37; 56; 113; 132; 151; 189; 208; 227; 246; 284; 303; 341; 360; 379; 417; 436; 458; 477; 496; 515; 534; 572; 591; 629; 648; 667; 697; 716; 792; 811; 830; 868; 906; 925;
  944; 963; 982; 1001; 1020; 1039; 1058; 1088; 1153; 1202; 1221; 1240; 1297; 1335; 1392; 1411; 1422; 1430; 1517; 1525; 1536; 1574; 3358; 3472; 3806; 3988; 4751; 4941;
  5066; 5123; 5275; 5343; 5438; 5457; 5495; 5533; 5552; 5715; 5810; 5829; 5905; 5924; 6421; 6535; 6793; 6812; 6888; 6907; 7002; 7184; 7260; 7279; 7374; 7556; 7746; 7757;
  7776; 7833; 7852; 7871; 7966; 8015; 8110; 8129; 8148; 8224; 8243; 8338; 8406; 8425; 8482; 8501; 8520; 8558; 8596; 8607; 8615; 8645; 8740; 8778; 8835; 8865; 8930; 8960;
  8979; 8998; 9017; 9055; 9074; 9093; 9112; 9150; 9188; 9237; 9275; 9332; 9351; 9370; 9408; 9427; 9446; 9457; 9465; 9495; 9560; 9590; 9628; 9647; 9685; 9715; 9742; 9780;
  9810; 9818; 9829; 9848; 9867; 9905; 9924; 9943; 9962; 10000].

(** EightChar.py:10 [EightChar.MONTH_ZHI] *)
Definition EightChar_MONTH_ZHI : list str := Eval vm_compute in [
  utf8 ""; utf8 "寅"; utf8 "卯"; utf8 "辰"; utf8 "巳"; utf8 "午"; utf8 "未"; utf8 "申"; utf8 "酉"; utf8 "戌"; utf8 "亥"; utf8 "子"; utf8 "丑"].

(** EightChar.py:12 [EightChar.CHANG_SHENG] *)
Definition EightChar_CHANG_SHENG : list str := Eval vm_compute in [
  utf8 "长生"; utf8 "沐浴"; utf8 "冠带"; utf8 "临官"; utf8 "帝旺"; utf8 "衰"; utf8 "病"; utf8 "死"; utf8 "墓"; utf8 "绝"; utf8 "胎"; utf8 "养"].

(** EightChar.py:14-25 [EightChar.__CHANG_SHENG_OFFSET] *)
Definition EightChar_CHANG_SHENG_OFFSET : list (str * Z) := Eval vm_compute in [
  (utf8 "甲", 1); (utf8 "丙", 10); (utf8 "戊", 10); (utf8 "庚", 7); (utf8 "壬", 4); (utf8 "乙", 6); (utf8 "丁", 9); (utf8 "己", 9); (utf8 "辛", 0);
  (utf8 "癸", 3)].

(** NineStar.py:10 [NineStar.NUMBER] *)
Definition NineStar_NUMBER : list str := Eval vm_compute in [
  utf8 "一"; utf8 "二"; utf8 "三"; utf8 "四"; utf8 "五"; utf8 "六"; utf8 "七"; utf8 "八"; utf8 "九"].

(** NineStar.py:11 [NineStar.COLOR] *)
Definition NineStar_COLOR : list str := Eval vm_compute in [
  utf8 "白"; utf8 "黑"; utf8 "碧"; utf8 "绿"; utf8 "黄"; utf8 "白"; utf8 "赤"; utf8 "白"; utf8 "紫"].

(** NineStar.py:12 [NineStar.WU_XING] *)
Definition NineStar_WU_XING : list str := Eval vm_compute in [
  utf8 "水"; utf8 "土"; utf8 "木"; utf8 "木"; utf8 "土"; utf8 "金"; utf8 "金"; utf8 "土"; utf8 "火"].

(** NineStar.py:13 [NineStar.POSITION] *)
Definition NineStar_POSITION : list str := Eval vm_compute in [
  utf8 "坎"; utf8 "坤"; utf8 "震"; utf8 "巽"; utf8 "中"; utf8 "乾"; utf8 "兑"; utf8 "艮"; utf8 "离"].

(** NineStar.py:14 [NineStar.NAME_BEI_DOU] *)
Definition NineStar_NAME_BEI_DOU : list str := Eval vm_compute in [
  utf8 "天枢"; utf8 "天璇"; utf8 "天玑"; utf8 "天权"; utf8 "玉衡"; utf8 "开阳"; utf8 "摇光"; utf8 "洞明"; utf8 "隐元"].

(** NineStar.py:15 [NineStar.NAME_XUAN_KONG] *)
Definition NineStar_NAME_XUAN_KONG : list str := Eval vm_compute in [
  utf8 "贪狼"; utf8 "巨门"; utf8 "禄存"; utf8 "文曲"; utf8 "廉贞"; utf8 "武曲"; utf8 "破军"; utf8 "左辅"; utf8 "右弼"].

(** NineStar.py:16 [NineStar.NAME_QI_MEN] *)
Definition NineStar_NAME_QI_MEN : list str := Eval vm_compute in [
  utf8 "天蓬"; utf8 "天芮"; utf8 "天冲"; utf8 "天辅"; utf8 "天禽"; utf8 "天心"; utf8 "天柱"; utf8 "天任"; utf8 "天英"].

(** NineStar.py:17 [NineStar.BA_MEN_QI_MEN] *)
Definition NineStar_BA_MEN_QI_MEN : list str := Eval vm_compute in [
  utf8 "休"; utf8 "死"; utf8 "伤"; utf8 "杜"; utf8 ""; utf8 "开"; utf8 "惊"; utf8 "生"; utf8 "景"].

(** NineStar.py:18 [NineStar.NAME_TAI_YI] *)
Definition NineStar_NAME_TAI_YI : list str := Eval vm_compute in [
  utf8 "太乙"; utf8 "摄提"; utf8 "轩辕"; utf8 "招摇"; utf8 "天符"; utf8 "青龙"; utf8 "咸池"; utf8 "太阴"; utf8 "天乙"].

(** NineStar.py:19 [NineStar.TYPE_TAI_YI] *)
Definition NineStar_TYPE_TAI_YI : list str := Eval vm_compute in [
  utf8 "吉神"; utf8 "凶神"; utf8 "安神"; utf8 "安神"; utf8 "凶神"; utf8 "吉神"; utf8 "凶神"; utf8 "吉神"; utf8 "吉神"].

(** NineStar.py:20 [NineStar.SONG_TAI_YI] *)
Definition NineStar_SONG_TAI_YI : list str := Eval vm_compute in [
  utf8 "门中太乙明，星官号贪狼，赌彩财喜旺，婚姻大吉昌，出入无阻挡，参谒见贤良，此行三五里，黑衣别阴阳。";
  utf8 "门前见摄提，百事必忧疑，相生犹自可，相克祸必临，死门并相会，老妇哭悲啼，求谋并吉事，尽皆不相宜，只可藏隐遁，若动伤身疾。";
  utf8 "出入会轩辕，凡事必缠牵，相生全不美，相克更忧煎，远行多不利，博彩尽输钱，九天玄女法，句句不虚言。";
  utf8 "招摇号木星，当之事莫行，相克行人阻，阴人口舌迎，梦寐多惊惧，屋响斧自鸣，阴阳消息理，万法弗违情。";
  utf8 "五鬼为天符，当门阴女谋，相克无好事，行路阻中途，走失难寻觅，道逢有尼姑，此星当门值，万事有灾除。";
  utf8 "神光跃青龙，财气喜重重，投入有酒食，赌彩最兴隆，更逢相生旺，休言克破凶，见贵安营寨，万事总吉同。";
  utf8 "吾将为咸池，当之尽不宜，出入多不利，相克有灾情，赌彩全输尽，求财空手回，仙人真妙语，愚人莫与知，动用虚惊退，反复逆风吹。";
  utf8 "坐临太阴星，百祸不相侵，求谋悉成就，知交有觅寻，回风归来路，恐有殃伏起，密语中记取，慎乎莫轻行。";
  utf8 "迎来天乙星，相逢百事兴，运用和合庆，茶酒喜相迎，求谋并嫁娶，好合有天成，祸福如神验，吉凶甚分明。"].

(** NineStar.py:21 [NineStar.LUCK_XUAN_KONG] *)
Definition NineStar_LUCK_XUAN_KONG : list str := Eval vm_compute in [
  utf8 "吉"; utf8 "凶"; utf8 "凶"; utf8 "吉"; utf8 "凶"; utf8 "吉"; utf8 "凶"; utf8 "吉"; utf8 "吉"].

(** NineStar.py:22 [NineStar.LUCK_QI_MEN] *)
Definition NineStar_LUCK_QI_MEN : list str := Eval vm_compute in [
  utf8 "大凶"; utf8 "大凶"; utf8 "小吉"; utf8 "大吉"; utf8 "大吉"; utf8 "大吉"; utf8 "小凶"; utf8 "小吉"; utf8 "小凶"].

(** NineStar.py:23 [NineStar.YIN_YANG_QI_MEN] *)
Definition NineStar_YIN_YANG_QI_MEN : list str := Eval vm_compute in [
  utf8 "阳"; utf8 "阴"; utf8 "阳"; utf8 "阳"; utf8 "阳"; utf8 "阴"; utf8 "阴"; utf8 "阳"; utf8 "阴"].

(** Foto.py:11 [Foto.DEAD_YEAR] *)
Definition Foto_DEAD_YEAR : Z := (-543).

(** Tao.py:11 [Tao.BIRTH_YEAR] *)
Definition Tao_BIRTH_YEAR : Z := (-2697).

(** util/FotoUtil.py:11 [FotoUtil.DAY_ZHAI_GUAN_YIN] *)
Definition FotoUtil_DAY_ZHAI_GUAN_YIN : list str := Eval vm_compute in [
  utf8 "1-8"; utf8 "2-7"; utf8 "2-9"; utf8 "2-19"; utf8 "3-3"; utf8 "3-6"; utf8 "3-13"; utf8 "4-22"; utf8 "5-3"; utf8 "5-17"; utf8 "6-16"; utf8 "6-18"; utf8 "6-19";
  utf8 "6-23"; utf8 "7-13"; utf8 "8-16"; utf8 "9-19"; utf8 "9-23"; utf8 "10-2"; utf8 "11-19"; utf8 "11-24"; utf8 "12-25"].

(** util/FotoUtil.py:14 [FotoUtil.XIU_27] *)
Definition FotoUtil_XIU_27 : list str := Eval vm_compute in [
  utf8 "角"; utf8 "亢"; utf8 "氐"; utf8 "房"; utf8 "心"; utf8 "尾"; utf8 "箕"; utf8 "斗"; utf8 "女"; utf8 "虚"; utf8 "危"; utf8 "室"; utf8 "壁"; utf8 "奎";
  utf8 "娄"; utf8 "胃"; utf8 "昴"; utf8 "毕"; utf8 "觜"; utf8 "参"; utf8 "井"; utf8 "鬼"; utf8 "柳"; utf8 "星"; utf8 "张"; utf8 "翼"; utf8 "轸"].

(** util/FotoUtil.py:17 [FotoUtil.XIU_OFFSET] *)
Definition FotoUtil_XIU_OFFSET : list Z := Eval vm_compute in [
  11; 13; 15; 17; 19; 21; 24; 0; 2; 4; 7; 9].

(** util/FotoUtil.py:29 [FotoUtil.__DJ] *)
Definition FotoUtil_DJ : str := Eval vm_compute in utf8 "犯者夺纪".

(** util/FotoUtil.py:30 [FotoUtil.__JS] *)
Definition FotoUtil_JS : str := Eval vm_compute in utf8 "犯者减寿".

(** util/FotoUtil.py:31 [FotoUtil.__SS] *)
Definition FotoUtil_SS : str := Eval vm_compute in utf8 "犯者损寿".

(** util/FotoUtil.py:32 [FotoUtil.__XL] *)
Definition FotoUtil_XL : str := Eval vm_compute in utf8 "犯者削禄夺纪".

(** util/FotoUtil.py:33 [FotoUtil.__JW] *)
Definition FotoUtil_JW : str := Eval vm_compute in utf8 "犯者三年内夫妇俱亡".

(** util/FotoUtil.py:270-301 [FotoUtil.OTHER_FESTIVAL] *)
Definition FotoUtil_OTHER_FESTIVAL : list (str * list str) := Eval vm_compute in [
  (utf8 "1-1", [utf8 "弥勒菩萨圣诞"]); (utf8 "1-6", [utf8 "定光佛圣诞"]); (utf8 "2-8", [utf8 "释迦牟尼佛出家"]);
  (utf8 "2-15", [utf8 "释迦牟尼佛涅槃"]); (utf8 "2-19", [utf8 "观世音菩萨圣诞"]); (utf8 "2-21", [utf8 "普贤菩萨圣诞"]);
  (utf8 "3-16", [utf8 "准提菩萨圣诞"]); (utf8 "4-4", [utf8 "文殊菩萨圣诞"]); (utf8 "4-8", [utf8 "释迦牟尼佛圣诞"]);
  (utf8 "4-15", [utf8 "佛吉祥日"]); (utf8 "4-28", [utf8 "药王菩萨圣诞"]); (utf8 "5-13", [utf8 "伽蓝菩萨圣诞"]);
  (utf8 "6-3", [utf8 "韦驮菩萨圣诞"]); (utf8 "6-19", [utf8 "观音菩萨成道"]); (utf8 "7-13", [utf8 "大势至菩萨圣诞"]);
  (utf8 "7-15", [utf8 "佛欢喜日"]); (utf8 "7-24", [utf8 "龙树菩萨圣诞"]); (utf8 "7-30", [utf8 "地藏菩萨圣诞"]);
  (utf8 "8-15", [utf8 "月光菩萨圣诞"]); (utf8 "8-22", [utf8 "燃灯佛圣诞"]); (utf8 "9-9", [utf8 "摩利支天菩萨圣诞"]);
  (utf8 "9-19", [utf8 "观世音菩萨出家"]); (utf8 "9-30", [utf8 "药师琉璃光佛圣诞"]); (utf8 "10-5", [utf8 "达摩祖师圣诞"]);
  (utf8 "10-20", [utf8 "文殊菩萨出家"]); (utf8 "11-17", [utf8 "阿弥陀佛圣诞"]); (utf8 "11-19", [utf8 "日光菩萨圣诞"]);
  (utf8 "12-8", [utf8 "释迦牟尼佛成道"]); (utf8 "12-23", [utf8 "监斋菩萨圣诞"]); (utf8 "12-29", [utf8 "华严菩萨圣诞"])].

(** util/TaoUtil.py:11 [TaoUtil.SAN_HUI] *)
Definition TaoUtil_SAN_HUI : list str := Eval vm_compute in [
  utf8 "1-7"; utf8 "7-7"; utf8 "10-15"].

(** util/TaoUtil.py:14 [TaoUtil.SAN_YUAN] *)
Definition TaoUtil_SAN_YUAN : list str := Eval vm_compute in [
  utf8 "1-15"; utf8 "7-15"; utf8 "10-15"].

(** util/TaoUtil.py:17 [TaoUtil.WU_LA] *)
Definition TaoUtil_WU_LA : list str := Eval vm_compute in [
  utf8 "1-1"; utf8 "5-5"; utf8 "7-7"; utf8 "10-1"; utf8 "12-8"].

(** util/TaoUtil.py:20 [TaoUtil.AN_WU] *)
Definition TaoUtil_AN_WU : list str := Eval vm_compute in [
  utf8 "未"; utf8 "戌"; utf8 "辰"; utf8 "寅"; utf8 "午"; utf8 "子"; utf8 "酉"; utf8 "申"; utf8 "巳"; utf8 "亥"; utf8 "卯"; utf8 "丑"].

(** util/TaoUtil.py:23-32 [TaoUtil.BA_HUI] *)
Definition TaoUtil_BA_HUI : list (str * str) := Eval vm_compute in [
  (utf8 "丙午", utf8 "天会"); (utf8 "壬午", utf8 "地会"); (utf8 "壬子", utf8 "人会"); (utf8 "庚午", utf8 "日会"); (utf8 "庚申", utf8 "月会");
  (utf8 "辛酉", utf8 "星辰会"); (utf8 "甲辰", utf8 "五行会"); (utf8 "甲戌", utf8 "四时会")].

(** util/TaoUtil.py:35-44 [TaoUtil.BA_JIE] *)
Definition TaoUtil_BA_JIE : list (str * str) := Eval vm_compute in [
  (utf8 "立春", utf8 "东北方度仙上圣天尊同梵炁始青天君下降"); (utf8 "春分", utf8 "东方玉宝星上天尊同青帝九炁天君下降");
  (utf8 "立夏", utf8 "东南方好生度命天尊同梵炁始丹天君下降"); (utf8 "夏至", utf8 "南方玄真万福天尊同赤帝三炁天君下降");
  (utf8 "立秋", utf8 "西南方太灵虚皇天尊同梵炁始素天君下降"); (utf8 "秋分", utf8 "西方太妙至极天尊同白帝七炁天君下降");
  (utf8 "立冬", utf8 "西北方无量太华天尊同梵炁始玄天君下降"); (utf8 "冬至", utf8 "北方玄上玉宸天尊同黑帝五炁天君下降")].
