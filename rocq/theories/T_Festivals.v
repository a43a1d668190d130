(** Festival tables of FotoUtil and TaoUtil.  Generated by tools/gen_tables.py from the text of /repo. *)
From Coq Require Import ZArith List String.
From Verif Require Import Py PyStr.
Import ListNotations.
Open Scope Z_scope.
Local Open Scope string_scope.

(** util/FotoUtil.py:48-268 [FotoUtil.FESTIVAL]: (name, result, everyMonth, remark) *)
Definition FotoUtil_FESTIVAL : list (str * list (str * str * bool * str)) := Eval vm_compute in [
  (utf8 "1-1", [(utf8 "天腊，玉帝校世人神气禄命", utf8 "犯者削禄夺纪", false, utf8 ""); (utf8 "月朔", utf8 "犯者夺纪", true, utf8 "")]);
  (utf8 "1-3", [(utf8 "万神都会", utf8 "犯者夺纪", false, utf8 ""); (utf8 "斗降", utf8 "犯者夺纪", true, utf8 "")]);
  (utf8 "1-5", [(utf8 "五虚忌", utf8 "", false, utf8 "")]);
  (utf8 "1-6", [(utf8 "六耗忌", utf8 "", false, utf8 ""); (utf8 "雷斋日", utf8 "犯者减寿", true, utf8 "")]);
  (utf8 "1-7", [(utf8 "上会日", utf8 "犯者损寿", false, utf8 "")]);
  (utf8 "1-8", [(utf8 "五殿阎罗天子诞", utf8 "犯者夺纪", false, utf8 ""); (utf8 "四天王巡行", utf8 "", true, utf8 "")]);
  (utf8 "1-9", [(utf8 "玉皇上帝诞", utf8 "犯者夺纪", false, utf8 "")]); (utf8 "1-13", [(utf8 "杨公忌", utf8 "", false, utf8 "")]);
  (utf8 "1-14", [(utf8 "三元降", utf8 "犯者减寿", false, utf8 ""); (utf8 "四天王巡行", utf8 "", true, utf8 "")]);
  (utf8 "1-15", [(utf8 "三元降", utf8 "犯者减寿", false, utf8 ""); (utf8 "上元神会", utf8 "犯者夺纪", false, utf8 ""); (utf8 "月望", utf8 "犯者夺纪", true, utf8 ""); (utf8 "四天王巡行", utf8 "", true, utf8 "")]);
  (utf8 "1-16", [(utf8 "三元降", utf8 "犯者减寿", false, utf8 "")]); (utf8 "1-19", [(utf8 "长春真人诞", utf8 "", false, utf8 "")]);
  (utf8 "1-23", [(utf8 "三尸神奏事", utf8 "", false, utf8 ""); (utf8 "四天王巡行", utf8 "", true, utf8 "")]);
  (utf8 "1-25", [(utf8 "月晦", utf8 "犯者减寿", true, utf8 ""); (utf8 "天地仓开日", utf8 "犯者损寿，子带疾", false, utf8 "")]);
  (utf8 "1-27", [(utf8 "斗降", utf8 "犯者夺纪", true, utf8 "")]); (utf8 "1-28", [(utf8 "人神在阴", utf8 "犯者得病", true, utf8 "宜先一日即戒")]);
  (utf8 "1-29", [(utf8 "四天王巡行", utf8 "", true, utf8 "")]);
  (utf8 "1-30", [(utf8 "月晦", utf8 "犯者减寿", true, utf8 "如月小，即戒廿九"); (utf8 "司命奏事", utf8 "犯者减寿", true, utf8 "如月小，即戒廿九"); (utf8 "四天王巡行", utf8 "", true, utf8 "")]);
  (utf8 "2-1", [(utf8 "一殿秦广王诞", utf8 "犯者夺纪", false, utf8 ""); (utf8 "月朔", utf8 "犯者夺纪", true, utf8 "")]);
  (utf8 "2-2", [(utf8 "万神都会", utf8 "犯者夺纪", false, utf8 ""); (utf8 "福德土地正神诞", utf8 "犯者得祸", false, utf8 "")]);
  (utf8 "2-3", [(utf8 "文昌帝君诞", utf8 "犯者削禄夺纪", false, utf8 ""); (utf8 "斗降", utf8 "犯者夺纪", true, utf8 "")]);
  (utf8 "2-6", [(utf8 "东华帝君诞", utf8 "", false, utf8 ""); (utf8 "雷斋日", utf8 "犯者减寿", true, utf8 "")]);
  (utf8 "2-8", [(utf8 "释迦牟尼佛出家", utf8 "犯者夺纪", false, utf8 ""); (utf8 "三殿宋帝王诞", utf8 "犯者夺纪", false, utf8 ""); (utf8 "张大帝诞", utf8 "犯者夺纪", false, utf8 ""); (utf8 "四天王巡行", utf8 "", true, utf8 "")]);
  (utf8 "2-11", [(utf8 "杨公忌", utf8 "", false, utf8 "")]); (utf8 "2-14", [(utf8 "四天王巡行", utf8 "", true, utf8 "")]);
  (utf8 "2-15", [(utf8 "释迦牟尼佛涅槃", utf8 "犯者削禄夺纪", false, utf8 ""); (utf8 "太上老君诞", utf8 "犯者削禄夺纪", false, utf8 ""); (utf8 "月望", utf8 "犯者削禄夺纪", true, utf8 ""); (utf8 "四天王巡行", utf8 "", true, utf8 "")]);
  (utf8 "2-17", [(utf8 "东方杜将军诞", utf8 "", false, utf8 "")]);
  (utf8 "2-18", [(utf8 "四殿五官王诞", utf8 "犯者削禄夺纪", false, utf8 ""); (utf8 "至圣先师孔子讳辰", utf8 "犯者削禄夺纪", false, utf8 "")]);
  (utf8 "2-19", [(utf8 "观音大士诞", utf8 "犯者夺纪", false, utf8 "")]); (utf8 "2-21", [(utf8 "普贤菩萨诞", utf8 "", false, utf8 "")]);
  (utf8 "2-23", [(utf8 "四天王巡行", utf8 "", true, utf8 "")]); (utf8 "2-25", [(utf8 "月晦", utf8 "犯者减寿", true, utf8 "")]);
  (utf8 "2-27", [(utf8 "斗降", utf8 "犯者夺纪", true, utf8 "")]); (utf8 "2-28", [(utf8 "人神在阴", utf8 "犯者得病", true, utf8 "宜先一日即戒")]);
  (utf8 "2-29", [(utf8 "四天王巡行", utf8 "", true, utf8 "")]);
  (utf8 "2-30", [(utf8 "月晦", utf8 "犯者减寿", true, utf8 "如月小，即戒廿九"); (utf8 "司命奏事", utf8 "犯者减寿", true, utf8 "如月小，即戒廿九"); (utf8 "四天王巡行", utf8 "", true, utf8 "")]);
  (utf8 "3-1", [(utf8 "二殿楚江王诞", utf8 "犯者夺纪", false, utf8 ""); (utf8 "月朔", utf8 "犯者夺纪", true, utf8 "")]);
  (utf8 "3-3", [(utf8 "玄天上帝诞", utf8 "犯者夺纪", false, utf8 ""); (utf8 "斗降", utf8 "犯者夺纪", true, utf8 "")]);
  (utf8 "3-6", [(utf8 "雷斋日", utf8 "犯者减寿", true, utf8 "")]);
  (utf8 "3-8", [(utf8 "六殿卞城王诞", utf8 "犯者夺纪", false, utf8 ""); (utf8 "四天王巡行", utf8 "", true, utf8 "")]);
  (utf8 "3-9", [(utf8 "牛鬼神出", utf8 "犯者产恶胎", false, utf8 ""); (utf8 "杨公忌", utf8 "", false, utf8 "")]);
  (utf8 "3-12", [(utf8 "中央五道诞", utf8 "", false, utf8 "")]); (utf8 "3-14", [(utf8 "四天王巡行", utf8 "", true, utf8 "")]);
  (utf8 "3-15", [(utf8 "昊天上帝诞", utf8 "犯者夺纪", false, utf8 ""); (utf8 "玄坛诞", utf8 "犯者夺纪", false, utf8 ""); (utf8 "月望", utf8 "犯者夺纪", true, utf8 ""); (utf8 "四天王巡行", utf8 "", true, utf8 "")]);
  (utf8 "3-16", [(utf8 "准提菩萨诞", utf8 "犯者夺纪", false, utf8 "")]);
  (utf8 "3-19", [(utf8 "中岳大帝诞", utf8 "", false, utf8 ""); (utf8 "后土娘娘诞", utf8 "", false, utf8 ""); (utf8 "三茅降", utf8 "", false, utf8 "")]);
  (utf8 "3-20", [(utf8 "天地仓开日", utf8 "犯者损寿", false, utf8 ""); (utf8 "子孙娘娘诞", utf8 "", false, utf8 "")]);
  (utf8 "3-23", [(utf8 "四天王巡行", utf8 "", true, utf8 "")]); (utf8 "3-25", [(utf8 "月晦", utf8 "犯者减寿", true, utf8 "")]);
  (utf8 "3-27", [(utf8 "七殿泰山王诞", utf8 "", false, utf8 ""); (utf8 "斗降", utf8 "犯者夺纪", true, utf8 "")]);
  (utf8 "3-28", [(utf8 "人神在阴", utf8 "犯者得病", true, utf8 "宜先一日即戒"); (utf8 "苍颉至圣先师诞", utf8 "犯者削禄夺纪", false, utf8 ""); (utf8 "东岳大帝诞", utf8 "", false, utf8 "")]);
  (utf8 "3-29", [(utf8 "四天王巡行", utf8 "", true, utf8 "")]);
  (utf8 "3-30", [(utf8 "月晦", utf8 "犯者减寿", true, utf8 "如月小，即戒廿九"); (utf8 "司命奏事", utf8 "犯者减寿", true, utf8 "如月小，即戒廿九"); (utf8 "四天王巡行", utf8 "", true, utf8 "")]);
  (utf8 "4-1", [(utf8 "八殿都市王诞", utf8 "犯者夺纪", false, utf8 ""); (utf8 "月朔", utf8 "犯者夺纪", true, utf8 "")]);
  (utf8 "4-3", [(utf8 "斗降", utf8 "犯者夺纪", true, utf8 "")]);
  (utf8 "4-4", [(utf8 "万神善会", utf8 "犯者失瘼夭胎", false, utf8 ""); (utf8 "文殊菩萨诞", utf8 "", false, utf8 "")]);
  (utf8 "4-6", [(utf8 "雷斋日", utf8 "犯者减寿", true, utf8 "")]);
  (utf8 "4-7", [(utf8 "南斗、北斗、西斗同降", utf8 "犯者减寿", false, utf8 ""); (utf8 "杨公忌", utf8 "", false, utf8 "")]);
  (utf8 "4-8", [(utf8 "释迦牟尼佛诞", utf8 "犯者夺纪", false, utf8 ""); (utf8 "万神善会", utf8 "犯者失瘼夭胎", false, utf8 ""); (utf8 "善恶童子降", utf8 "犯者血死", false, utf8 ""); (utf8 "九殿平等王诞", utf8 "", false, utf8 ""); (utf8 "四天王巡行", utf8 "", true, utf8 "")]);
  (utf8 "4-14", [(utf8 "纯阳祖师诞", utf8 "犯者减寿", false, utf8 ""); (utf8 "四天王巡行", utf8 "", true, utf8 "")]);
  (utf8 "4-15", [(utf8 "月望", utf8 "犯者夺纪", true, utf8 ""); (utf8 "钟离祖师诞", utf8 "", false, utf8 ""); (utf8 "四天王巡行", utf8 "", true, utf8 "")]);
  (utf8 "4-16", [(utf8 "天地仓开日", utf8 "犯者损寿", false, utf8 "")]); (utf8 "4-17", [(utf8 "十殿转轮王诞", utf8 "犯者夺纪", false, utf8 "")]);
  (utf8 "4-18", [(utf8 "天地仓开日", utf8 "犯者损寿", false, utf8 ""); (utf8 "紫徽大帝诞", utf8 "犯者损寿", false, utf8 "")]);
  (utf8 "4-20", [(utf8 "眼光圣母诞", utf8 "", false, utf8 "")]); (utf8 "4-23", [(utf8 "四天王巡行", utf8 "", true, utf8 "")]);
  (utf8 "4-25", [(utf8 "月晦", utf8 "犯者减寿", true, utf8 "")]); (utf8 "4-27", [(utf8 "斗降", utf8 "犯者夺纪", true, utf8 "")]);
  (utf8 "4-28", [(utf8 "人神在阴", utf8 "犯者得病", true, utf8 "宜先一日即戒")]); (utf8 "4-29", [(utf8 "四天王巡行", utf8 "", true, utf8 "")]);
  (utf8 "4-30", [(utf8 "月晦", utf8 "犯者减寿", true, utf8 "如月小，即戒廿九"); (utf8 "司命奏事", utf8 "犯者减寿", true, utf8 "如月小，即戒廿九"); (utf8 "四天王巡行", utf8 "", true, utf8 "")]);
  (utf8 "5-1", [(utf8 "南极长生大帝诞", utf8 "犯者夺纪", false, utf8 ""); (utf8 "月朔", utf8 "犯者夺纪", true, utf8 "")]);
  (utf8 "5-3", [(utf8 "斗降", utf8 "犯者夺纪", true, utf8 "")]);
  (utf8 "5-5", [(utf8 "地腊", utf8 "犯者削禄夺纪", false, utf8 ""); (utf8 "五帝校定生人官爵", utf8 "犯者削禄夺纪", false, utf8 ""); (utf8 "九毒日", utf8 "犯者夭亡，奇祸不测", false, utf8 ""); (utf8 "杨公忌", utf8 "", false, utf8 "")]);
  (utf8 "5-6", [(utf8 "九毒日", utf8 "犯者夭亡，奇祸不测", false, utf8 ""); (utf8 "雷斋日", utf8 "犯者减寿", true, utf8 "")]);
  (utf8 "5-7", [(utf8 "九毒日", utf8 "犯者夭亡，奇祸不测", false, utf8 "")]);
  (utf8 "5-8", [(utf8 "南方五道诞", utf8 "", false, utf8 ""); (utf8 "四天王巡行", utf8 "", true, utf8 "")]);
  (utf8 "5-11", [(utf8 "天地仓开日", utf8 "犯者损寿", false, utf8 ""); (utf8 "天下都城隍诞", utf8 "", false, utf8 "")]);
  (utf8 "5-12", [(utf8 "炳灵公诞", utf8 "", false, utf8 "")]); (utf8 "5-13", [(utf8 "关圣降", utf8 "犯者削禄夺纪", false, utf8 "")]);
  (utf8 "5-14", [(utf8 "夜子时为天地交泰", utf8 "犯者三年内夫妇俱亡", false, utf8 ""); (utf8 "四天王巡行", utf8 "", true, utf8 "")]);
  (utf8 "5-15", [(utf8 "月望", utf8 "犯者夺纪", true, utf8 ""); (utf8 "九毒日", utf8 "犯者夭亡，奇祸不测", false, utf8 ""); (utf8 "四天王巡行", utf8 "", true, utf8 "")]);
  (utf8 "5-16", [(utf8 "九毒日", utf8 "犯者三年内夫妇俱亡", false, utf8 ""); (utf8 "天地元气造化万物之辰", utf8 "犯者三年内夫妇俱亡", false, utf8 "")]);
  (utf8 "5-17", [(utf8 "九毒日", utf8 "犯者夭亡，奇祸不测", false, utf8 "")]); (utf8 "5-18", [(utf8 "张天师诞", utf8 "", false, utf8 "")]);
  (utf8 "5-22", [(utf8 "孝娥神诞", utf8 "犯者夺纪", false, utf8 "")]); (utf8 "5-23", [(utf8 "四天王巡行", utf8 "", true, utf8 "")]);
  (utf8 "5-25", [(utf8 "九毒日", utf8 "犯者夭亡，奇祸不测", false, utf8 ""); (utf8 "月晦", utf8 "犯者减寿", true, utf8 "")]);
  (utf8 "5-26", [(utf8 "九毒日", utf8 "犯者夭亡，奇祸不测", false, utf8 "")]);
  (utf8 "5-27", [(utf8 "九毒日", utf8 "犯者夭亡，奇祸不测", false, utf8 ""); (utf8 "斗降", utf8 "犯者夺纪", true, utf8 "")]);
  (utf8 "5-28", [(utf8 "人神在阴", utf8 "犯者得病", true, utf8 "宜先一日即戒")]); (utf8 "5-29", [(utf8 "四天王巡行", utf8 "", true, utf8 "")]);
  (utf8 "5-30", [(utf8 "月晦", utf8 "犯者减寿", true, utf8 "如月小，即戒廿九"); (utf8 "司命奏事", utf8 "犯者减寿", true, utf8 "如月小，即戒廿九"); (utf8 "四天王巡行", utf8 "", true, utf8 "")]);
  (utf8 "6-1", [(utf8 "月朔", utf8 "犯者夺纪", true, utf8 "")]);
  (utf8 "6-3", [(utf8 "韦驮菩萨圣诞", utf8 "", false, utf8 ""); (utf8 "斗降", utf8 "犯者夺纪", true, utf8 ""); (utf8 "杨公忌", utf8 "", false, utf8 "")]);
  (utf8 "6-5", [(utf8 "南赡部洲转大轮", utf8 "犯者损寿", false, utf8 "")]);
  (utf8 "6-6", [(utf8 "天地仓开日", utf8 "犯者损寿", false, utf8 ""); (utf8 "雷斋日", utf8 "犯者减寿", true, utf8 "")]);
  (utf8 "6-8", [(utf8 "四天王巡行", utf8 "", true, utf8 "")]); (utf8 "6-10", [(utf8 "金粟如来诞", utf8 "", false, utf8 "")]);
  (utf8 "6-14", [(utf8 "四天王巡行", utf8 "", true, utf8 "")]);
  (utf8 "6-15", [(utf8 "月望", utf8 "犯者夺纪", true, utf8 ""); (utf8 "四天王巡行", utf8 "", true, utf8 "")]);
  (utf8 "6-19", [(utf8 "观世音菩萨成道", utf8 "犯者夺纪", false, utf8 "")]);
  (utf8 "6-23", [(utf8 "南方火神诞", utf8 "犯者遭回禄", false, utf8 ""); (utf8 "四天王巡行", utf8 "", true, utf8 "")]);
  (utf8 "6-24", [(utf8 "雷祖诞", utf8 "犯者削禄夺纪", false, utf8 ""); (utf8 "关帝诞", utf8 "犯者削禄夺纪", false, utf8 "")]);
  (utf8 "6-25", [(utf8 "月晦", utf8 "犯者减寿", true, utf8 "")]); (utf8 "6-27", [(utf8 "斗降", utf8 "犯者夺纪", true, utf8 "")]);
  (utf8 "6-28", [(utf8 "人神在阴", utf8 "犯者得病", true, utf8 "宜先一日即戒")]); (utf8 "6-29", [(utf8 "四天王巡行", utf8 "", true, utf8 "")]);
  (utf8 "6-30", [(utf8 "月晦", utf8 "犯者减寿", true, utf8 "如月小，即戒廿九"); (utf8 "司命奏事", utf8 "犯者减寿", true, utf8 "如月小，即戒廿九"); (utf8 "四天王巡行", utf8 "", true, utf8 "")]);
  (utf8 "7-1", [(utf8 "月朔", utf8 "犯者夺纪", true, utf8 ""); (utf8 "杨公忌", utf8 "", false, utf8 "")]);
  (utf8 "7-3", [(utf8 "斗降", utf8 "犯者夺纪", true, utf8 "")]); (utf8 "7-5", [(utf8 "中会日", utf8 "犯者损寿", false, utf8 "一作初七")]);
  (utf8 "7-6", [(utf8 "雷斋日", utf8 "犯者减寿", true, utf8 "")]);
  (utf8 "7-7", [(utf8 "道德腊", utf8 "犯者削禄夺纪", false, utf8 ""); (utf8 "五帝校生人善恶", utf8 "犯者削禄夺纪", false, utf8 ""); (utf8 "魁星诞", utf8 "犯者削禄夺纪", false, utf8 "")]);
  (utf8 "7-8", [(utf8 "四天王巡行", utf8 "", true, utf8 "")]); (utf8 "7-10", [(utf8 "阴毒日", utf8 "", false, utf8 "大忌")]);
  (utf8 "7-12", [(utf8 "长真谭真人诞", utf8 "", false, utf8 "")]); (utf8 "7-13", [(utf8 "大势至菩萨诞", utf8 "犯者减寿", false, utf8 "")]);
  (utf8 "7-14", [(utf8 "三元降", utf8 "犯者减寿", false, utf8 ""); (utf8 "四天王巡行", utf8 "", true, utf8 "")]);
  (utf8 "7-15", [(utf8 "月望", utf8 "犯者夺纪", true, utf8 ""); (utf8 "三元降", utf8 "犯者夺纪", false, utf8 ""); (utf8 "地官校籍", utf8 "犯者夺纪", false, utf8 ""); (utf8 "四天王巡行", utf8 "", true, utf8 "")]);
  (utf8 "7-16", [(utf8 "三元降", utf8 "犯者减寿", false, utf8 "")]); (utf8 "7-18", [(utf8 "西王母诞", utf8 "犯者夺纪", false, utf8 "")]);
  (utf8 "7-19", [(utf8 "太岁诞", utf8 "犯者夺纪", false, utf8 "")]); (utf8 "7-22", [(utf8 "增福财神诞", utf8 "犯者削禄夺纪", false, utf8 "")]);
  (utf8 "7-23", [(utf8 "四天王巡行", utf8 "", true, utf8 "")]); (utf8 "7-25", [(utf8 "月晦", utf8 "犯者减寿", true, utf8 "")]);
  (utf8 "7-27", [(utf8 "斗降", utf8 "犯者夺纪", true, utf8 "")]); (utf8 "7-28", [(utf8 "人神在阴", utf8 "犯者得病", true, utf8 "宜先一日即戒")]);
  (utf8 "7-29", [(utf8 "杨公忌", utf8 "", false, utf8 ""); (utf8 "四天王巡行", utf8 "", true, utf8 "")]);
  (utf8 "7-30", [(utf8 "地藏菩萨诞", utf8 "犯者夺纪", false, utf8 ""); (utf8 "月晦", utf8 "犯者减寿", true, utf8 "如月小，即戒廿九"); (utf8 "司命奏事", utf8 "犯者减寿", true, utf8 "如月小，即戒廿九"); (utf8 "四天王巡行", utf8 "", true, utf8 "")]);
  (utf8 "8-1", [(utf8 "月朔", utf8 "犯者夺纪", true, utf8 ""); (utf8 "许真君诞", utf8 "", false, utf8 "")]);
  (utf8 "8-3", [(utf8 "斗降", utf8 "犯者夺纪", true, utf8 ""); (utf8 "北斗诞", utf8 "犯者削禄夺纪", false, utf8 ""); (utf8 "司命灶君诞", utf8 "犯者遭回禄", false, utf8 "")]);
  (utf8 "8-5", [(utf8 "雷声大帝诞", utf8 "犯者夺纪", false, utf8 "")]); (utf8 "8-6", [(utf8 "雷斋日", utf8 "犯者减寿", true, utf8 "")]);
  (utf8 "8-8", [(utf8 "四天王巡行", utf8 "", true, utf8 "")]); (utf8 "8-10", [(utf8 "北斗大帝诞", utf8 "", false, utf8 "")]);
  (utf8 "8-12", [(utf8 "西方五道诞", utf8 "", false, utf8 "")]); (utf8 "8-14", [(utf8 "四天王巡行", utf8 "", true, utf8 "")]);
  (utf8 "8-15", [(utf8 "月望", utf8 "犯者夺纪", true, utf8 ""); (utf8 "太明朝元", utf8 "犯者暴亡", false, utf8 "宜焚香守夜"); (utf8 "四天王巡行", utf8 "", true, utf8 "")]);
  (utf8 "8-16", [(utf8 "天曹掠刷真君降", utf8 "犯者贫夭", false, utf8 "")]);
  (utf8 "8-18", [(utf8 "天人兴福之辰", utf8 "", false, utf8 "宜斋戒，存想吉事")]);
  (utf8 "8-23", [(utf8 "汉恒候张显王诞", utf8 "", false, utf8 ""); (utf8 "四天王巡行", utf8 "", true, utf8 "")]);
  (utf8 "8-24", [(utf8 "灶君夫人诞", utf8 "", false, utf8 "")]); (utf8 "8-25", [(utf8 "月晦", utf8 "犯者减寿", true, utf8 "")]);
  (utf8 "8-27", [(utf8 "斗降", utf8 "犯者夺纪", true, utf8 ""); (utf8 "至圣先师孔子诞", utf8 "犯者削禄夺纪", false, utf8 ""); (utf8 "杨公忌", utf8 "", false, utf8 "")]);
  (utf8 "8-28", [(utf8 "人神在阴", utf8 "犯者得病", true, utf8 "宜先一日即戒"); (utf8 "四天会事", utf8 "", false, utf8 "")]);
  (utf8 "8-29", [(utf8 "四天王巡行", utf8 "", true, utf8 "")]);
  (utf8 "8-30", [(utf8 "诸神考校", utf8 "犯者夺算", false, utf8 ""); (utf8 "月晦", utf8 "犯者减寿", true, utf8 "如月小，即戒廿九"); (utf8 "司命奏事", utf8 "犯者减寿", true, utf8 "如月小，即戒廿九"); (utf8 "四天王巡行", utf8 "", true, utf8 "")]);
  (utf8 "9-1", [(utf8 "月朔", utf8 "犯者夺纪", true, utf8 ""); (utf8 "南斗诞", utf8 "犯者削禄夺纪", false, utf8 ""); (utf8 "北斗九星降世", utf8 "犯者夺纪", false, utf8 "此九日俱宜斋戒")]);
  (utf8 "9-3", [(utf8 "斗降", utf8 "犯者夺纪", true, utf8 ""); (utf8 "五瘟神诞", utf8 "", false, utf8 "")]);
  (utf8 "9-6", [(utf8 "雷斋日", utf8 "犯者减寿", true, utf8 "")]); (utf8 "9-8", [(utf8 "四天王巡行", utf8 "", true, utf8 "")]);
  (utf8 "9-9", [(utf8 "斗母诞", utf8 "犯者削禄夺纪", false, utf8 ""); (utf8 "酆都大帝诞", utf8 "", false, utf8 ""); (utf8 "玄天上帝飞升", utf8 "", false, utf8 "")]);
  (utf8 "9-10", [(utf8 "斗母降", utf8 "犯者夺纪", false, utf8 "")]); (utf8 "9-11", [(utf8 "宜戒", utf8 "", false, utf8 "")]);
  (utf8 "9-13", [(utf8 "孟婆尊神诞", utf8 "", false, utf8 "")]); (utf8 "9-14", [(utf8 "四天王巡行", utf8 "", true, utf8 "")]);
  (utf8 "9-15", [(utf8 "月望", utf8 "犯者夺纪", true, utf8 ""); (utf8 "四天王巡行", utf8 "", true, utf8 "")]);
  (utf8 "9-17", [(utf8 "金龙四大王诞", utf8 "犯者遭水厄", false, utf8 "")]);
  (utf8 "9-19", [(utf8 "日宫月宫会合", utf8 "犯者减寿", false, utf8 ""); (utf8 "观世音菩萨诞", utf8 "犯者减寿", false, utf8 "")]);
  (utf8 "9-23", [(utf8 "四天王巡行", utf8 "", true, utf8 "")]);
  (utf8 "9-25", [(utf8 "月晦", utf8 "犯者减寿", true, utf8 ""); (utf8 "杨公忌", utf8 "", false, utf8 "")]);
  (utf8 "9-27", [(utf8 "斗降", utf8 "犯者夺纪", true, utf8 "")]); (utf8 "9-28", [(utf8 "人神在阴", utf8 "犯者得病", true, utf8 "宜先一日即戒")]);
  (utf8 "9-29", [(utf8 "四天王巡行", utf8 "", true, utf8 "")]);
  (utf8 "9-30", [(utf8 "药师琉璃光佛诞", utf8 "犯者危疾", false, utf8 ""); (utf8 "月晦", utf8 "犯者减寿", true, utf8 "如月小，即戒廿九"); (utf8 "司命奏事", utf8 "犯者减寿", true, utf8 "如月小，即戒廿九"); (utf8 "四天王巡行", utf8 "", true, utf8 "")]);
  (utf8 "10-1", [(utf8 "月朔", utf8 "犯者夺纪", true, utf8 ""); (utf8 "民岁腊", utf8 "犯者夺纪", false, utf8 ""); (utf8 "四天王降", utf8 "犯者一年内死", false, utf8 "")]);
  (utf8 "10-3", [(utf8 "斗降", utf8 "犯者夺纪", true, utf8 ""); (utf8 "三茅诞", utf8 "", false, utf8 "")]);
  (utf8 "10-5", [(utf8 "下会日", utf8 "犯者减寿", false, utf8 ""); (utf8 "达摩祖师诞", utf8 "犯者减寿", false, utf8 "")]);
  (utf8 "10-6", [(utf8 "雷斋日", utf8 "犯者减寿", true, utf8 ""); (utf8 "天曹考察", utf8 "犯者夺纪", false, utf8 "")]);
  (utf8 "10-8", [(utf8 "佛涅槃日", utf8 "", false, utf8 "大忌色欲"); (utf8 "四天王巡行", utf8 "", true, utf8 "")]);
  (utf8 "10-10", [(utf8 "四天王降", utf8 "犯者一年内死", false, utf8 "")]); (utf8 "10-11", [(utf8 "宜戒", utf8 "", false, utf8 "")]);
  (utf8 "10-14", [(utf8 "三元降", utf8 "犯者减寿", false, utf8 ""); (utf8 "四天王巡行", utf8 "", true, utf8 "")]);
  (utf8 "10-15", [(utf8 "月望", utf8 "犯者夺纪", true, utf8 ""); (utf8 "三元降", utf8 "犯者夺纪", false, utf8 ""); (utf8 "下元水府校籍", utf8 "犯者夺纪", false, utf8 ""); (utf8 "四天王巡行", utf8 "", true, utf8 "")]);
  (utf8 "10-16", [(utf8 "三元降", utf8 "犯者减寿", false, utf8 ""); (utf8 "四天王巡行", utf8 "", true, utf8 "")]);
  (utf8 "10-23", [(utf8 "杨公忌", utf8 "", false, utf8 ""); (utf8 "四天王巡行", utf8 "", true, utf8 "")]);
  (utf8 "10-25", [(utf8 "月晦", utf8 "犯者减寿", true, utf8 "")]);
  (utf8 "10-27", [(utf8 "斗降", utf8 "犯者夺纪", true, utf8 ""); (utf8 "北极紫徽大帝降", utf8 "", false, utf8 "")]);
  (utf8 "10-28", [(utf8 "人神在阴", utf8 "犯者得病", true, utf8 "宜先一日即戒")]); (utf8 "10-29", [(utf8 "四天王巡行", utf8 "", true, utf8 "")]);
  (utf8 "10-30", [(utf8 "月晦", utf8 "犯者减寿", true, utf8 "如月小，即戒廿九"); (utf8 "司命奏事", utf8 "犯者减寿", true, utf8 "如月小，即戒廿九"); (utf8 "四天王巡行", utf8 "", true, utf8 "")]);
  (utf8 "11-1", [(utf8 "月朔", utf8 "犯者夺纪", true, utf8 "")]); (utf8 "11-3", [(utf8 "斗降", utf8 "犯者夺纪", true, utf8 "")]);
  (utf8 "11-4", [(utf8 "至圣先师孔子诞", utf8 "犯者削禄夺纪", false, utf8 "")]); (utf8 "11-6", [(utf8 "西岳大帝诞", utf8 "", false, utf8 "")]);
  (utf8 "11-8", [(utf8 "四天王巡行", utf8 "", true, utf8 "")]);
  (utf8 "11-11", [(utf8 "天地仓开日", utf8 "犯者夺纪", false, utf8 ""); (utf8 "太乙救苦天尊诞", utf8 "犯者夺纪", false, utf8 "")]);
  (utf8 "11-14", [(utf8 "四天王巡行", utf8 "", true, utf8 "")]);
  (utf8 "11-15", [(utf8 "月望", utf8 "上半夜犯男死 下半夜犯女死", false, utf8 ""); (utf8 "四天王巡行", utf8 "上半夜犯男死 下半夜犯女死", false, utf8 "")]);
  (utf8 "11-17", [(utf8 "阿弥陀佛诞", utf8 "", false, utf8 "")]); (utf8 "11-19", [(utf8 "太阳日宫诞", utf8 "犯者得奇祸", false, utf8 "")]);
  (utf8 "11-21", [(utf8 "杨公忌", utf8 "", false, utf8 "")]);
  (utf8 "11-23", [(utf8 "张仙诞", utf8 "犯者绝嗣", false, utf8 ""); (utf8 "四天王巡行", utf8 "", true, utf8 "")]);
  (utf8 "11-25", [(utf8 "掠刷大夫降", utf8 "犯者遭大凶", false, utf8 ""); (utf8 "月晦", utf8 "犯者减寿", true, utf8 "")]);
  (utf8 "11-26", [(utf8 "北方五道诞", utf8 "", false, utf8 "")]); (utf8 "11-27", [(utf8 "斗降", utf8 "犯者夺纪", true, utf8 "")]);
  (utf8 "11-28", [(utf8 "人神在阴", utf8 "犯者得病", true, utf8 "宜先一日即戒")]); (utf8 "11-29", [(utf8 "四天王巡行", utf8 "", true, utf8 "")]);
  (utf8 "11-30", [(utf8 "月晦", utf8 "犯者减寿", true, utf8 "如月小，即戒廿九"); (utf8 "司命奏事", utf8 "犯者减寿", true, utf8 "如月小，即戒廿九"); (utf8 "四天王巡行", utf8 "", true, utf8 "")]);
  (utf8 "12-1", [(utf8 "月朔", utf8 "犯者夺纪", true, utf8 "")]); (utf8 "12-3", [(utf8 "斗降", utf8 "犯者夺纪", true, utf8 "")]);
  (utf8 "12-6", [(utf8 "天地仓开日", utf8 "犯者减寿", false, utf8 ""); (utf8 "雷斋日", utf8 "犯者减寿", true, utf8 "")]);
  (utf8 "12-7", [(utf8 "掠刷大夫降", utf8 "犯者得恶疾", false, utf8 "")]);
  (utf8 "12-8", [(utf8 "王侯腊", utf8 "犯者夺纪", false, utf8 ""); (utf8 "释迦如来成佛之辰", utf8 "", false, utf8 ""); (utf8 "四天王巡行", utf8 "", true, utf8 ""); (utf8 "初旬内戊日，亦名王侯腊", utf8 "犯者夺纪", false, utf8 "")]);
  (utf8 "12-12", [(utf8 "太素三元君朝真", utf8 "", false, utf8 "")]); (utf8 "12-14", [(utf8 "四天王巡行", utf8 "", true, utf8 "")]);
  (utf8 "12-15", [(utf8 "月望", utf8 "犯者夺纪", true, utf8 ""); (utf8 "四天王巡行", utf8 "", true, utf8 "")]);
  (utf8 "12-16", [(utf8 "南岳大帝诞", utf8 "", false, utf8 "")]); (utf8 "12-19", [(utf8 "杨公忌", utf8 "", false, utf8 "")]);
  (utf8 "12-20", [(utf8 "天地交道", utf8 "犯者促寿", false, utf8 "")]); (utf8 "12-21", [(utf8 "天猷上帝诞", utf8 "", false, utf8 "")]);
  (utf8 "12-23", [(utf8 "五岳诞降", utf8 "", false, utf8 ""); (utf8 "四天王巡行", utf8 "", true, utf8 "")]);
  (utf8 "12-24", [(utf8 "司今朝天奏人善恶", utf8 "犯者得大祸", false, utf8 "")]);
  (utf8 "12-25", [(utf8 "三清玉帝同降，考察善恶", utf8 "犯者得奇祸", false, utf8 ""); (utf8 "月晦", utf8 "犯者减寿", true, utf8 "")]);
  (utf8 "12-27", [(utf8 "斗降", utf8 "犯者夺纪", true, utf8 "")]); (utf8 "12-28", [(utf8 "人神在阴", utf8 "犯者得病", true, utf8 "宜先一日即戒")]);
  (utf8 "12-29", [(utf8 "华严菩萨诞", utf8 "", false, utf8 ""); (utf8 "四天王巡行", utf8 "", true, utf8 "")]);
  (utf8 "12-30", [(utf8 "诸神下降，察访善恶", utf8 "犯者男女俱亡", false, utf8 "")])].

(** util/TaoUtil.py:47-144 [TaoUtil.FESTIVAL]: (name, remark) *)
Definition TaoUtil_FESTIVAL : list (str * list (str * str)) := Eval vm_compute in [
  (utf8 "1-1", [(utf8 "天腊之辰", utf8 "天腊，此日五帝会于东方九炁青天")]);
  (utf8 "1-3", [(utf8 "郝真人圣诞", utf8 ""); (utf8 "孙真人圣诞", utf8 "")]); (utf8 "1-5", [(utf8 "孙祖清静元君诞", utf8 "")]);
  (utf8 "1-7", [(utf8 "举迁赏会", utf8 "此日上元赐福，天官同地水二官考校罪福")]); (utf8 "1-9", [(utf8 "玉皇上帝圣诞", utf8 "")]);
  (utf8 "1-13", [(utf8 "关圣帝君飞升", utf8 "")]); (utf8 "1-15", [(utf8 "上元天官圣诞", utf8 ""); (utf8 "老祖天师圣诞", utf8 "")]);
  (utf8 "1-19", [(utf8 "长春邱真人(邱处机)圣诞", utf8 "")]); (utf8 "1-28", [(utf8 "许真君(许逊天师)圣诞", utf8 "")]);
  (utf8 "2-1", [(utf8 "勾陈天皇大帝圣诞", utf8 ""); (utf8 "长春刘真人(刘渊然)圣诞", utf8 "")]);
  (utf8 "2-2", [(utf8 "土地正神诞", utf8 ""); (utf8 "姜太公圣诞", utf8 "")]); (utf8 "2-3", [(utf8 "文昌梓潼帝君圣诞", utf8 "")]);
  (utf8 "2-6", [(utf8 "东华帝君圣诞", utf8 "")]); (utf8 "2-13", [(utf8 "度人无量葛真君圣诞", utf8 "")]);
  (utf8 "2-15", [(utf8 "太清道德天尊(太上老君)圣诞", utf8 "")]); (utf8 "2-19", [(utf8 "慈航真人圣诞", utf8 "")]);
  (utf8 "3-1", [(utf8 "谭祖(谭处端)长真真人圣诞", utf8 "")]); (utf8 "3-3", [(utf8 "玄天上帝圣诞", utf8 "")]);
  (utf8 "3-6", [(utf8 "眼光娘娘圣诞", utf8 "")]); (utf8 "3-15", [(utf8 "天师张大真人圣诞", utf8 ""); (utf8 "财神赵公元帅圣诞", utf8 "")]);
  (utf8 "3-16", [(utf8 "三茅真君得道之辰", utf8 ""); (utf8 "中岳大帝圣诞", utf8 "")]);
  (utf8 "3-18", [(utf8 "王祖(王处一)玉阳真人圣诞", utf8 ""); (utf8 "后土娘娘圣诞", utf8 "")]); (utf8 "3-19", [(utf8 "太阳星君圣诞", utf8 "")]);
  (utf8 "3-20", [(utf8 "子孙娘娘圣诞", utf8 "")]); (utf8 "3-23", [(utf8 "天后妈祖圣诞", utf8 "")]); (utf8 "3-26", [(utf8 "鬼谷先师诞", utf8 "")]);
  (utf8 "3-28", [(utf8 "东岳大帝圣诞", utf8 "")]); (utf8 "4-1", [(utf8 "长生谭真君成道之辰", utf8 "")]);
  (utf8 "4-10", [(utf8 "何仙姑圣诞", utf8 "")]); (utf8 "4-14", [(utf8 "吕祖纯阳祖师圣诞", utf8 "")]); (utf8 "4-15", [(utf8 "钟离祖师圣诞", utf8 "")]);
  (utf8 "4-18", [(utf8 "北极紫微大帝圣诞", utf8 ""); (utf8 "泰山圣母碧霞元君诞", utf8 ""); (utf8 "华佗神医先师诞", utf8 "")]);
  (utf8 "4-20", [(utf8 "眼光圣母娘娘诞", utf8 "")]); (utf8 "4-28", [(utf8 "神农先帝诞", utf8 "")]);
  (utf8 "5-1", [(utf8 "南极长生大帝圣诞", utf8 "")]);
  (utf8 "5-5", [(utf8 "地腊之辰", utf8 "地腊，此日五帝会于南方三炁丹天"); (utf8 "南方雷祖圣诞", utf8 ""); (utf8 "地祗温元帅圣诞", utf8 ""); (utf8 "雷霆邓天君圣诞", utf8 "")]);
  (utf8 "5-11", [(utf8 "城隍爷圣诞", utf8 "")]); (utf8 "5-13", [(utf8 "关圣帝君降神", utf8 ""); (utf8 "关平太子圣诞", utf8 "")]);
  (utf8 "5-18", [(utf8 "张天师圣诞", utf8 "")]); (utf8 "5-20", [(utf8 "马祖丹阳真人圣诞", utf8 "")]);
  (utf8 "5-29", [(utf8 "紫青白祖师圣诞", utf8 "")]); (utf8 "6-1", [(utf8 "南斗星君下降", utf8 "")]); (utf8 "6-2", [(utf8 "南斗星君下降", utf8 "")]);
  (utf8 "6-3", [(utf8 "南斗星君下降", utf8 "")]); (utf8 "6-4", [(utf8 "南斗星君下降", utf8 "")]); (utf8 "6-5", [(utf8 "南斗星君下降", utf8 "")]);
  (utf8 "6-6", [(utf8 "南斗星君下降", utf8 "")]); (utf8 "6-10", [(utf8 "刘海蟾祖师圣诞", utf8 "")]);
  (utf8 "6-15", [(utf8 "灵官王天君圣诞", utf8 "")]); (utf8 "6-19", [(utf8 "慈航(观音)成道日", utf8 "")]); (utf8 "6-23", [(utf8 "火神圣诞", utf8 "")]);
  (utf8 "6-24", [(utf8 "南极大帝中方雷祖圣诞", utf8 ""); (utf8 "关圣帝君圣诞", utf8 "")]); (utf8 "6-26", [(utf8 "二郎真君圣诞", utf8 "")]);
  (utf8 "7-7", [(utf8 "道德腊之辰", utf8 "道德腊，此日五帝会于西方七炁素天"); (utf8 "庆生中会", utf8 "此日中元赦罪，地官同天水二官考校罪福")]);
  (utf8 "7-12", [(utf8 "西方雷祖圣诞", utf8 "")]); (utf8 "7-15", [(utf8 "中元地官大帝圣诞", utf8 "")]);
  (utf8 "7-18", [(utf8 "王母娘娘圣诞", utf8 "")]); (utf8 "7-20", [(utf8 "刘祖(刘处玄)长生真人圣诞", utf8 "")]);
  (utf8 "7-22", [(utf8 "财帛星君文财神增福相公李诡祖圣诞", utf8 "")]); (utf8 "7-26", [(utf8 "张三丰祖师圣诞", utf8 "")]);
  (utf8 "8-1", [(utf8 "许真君飞升日", utf8 "")]); (utf8 "8-3", [(utf8 "九天司命灶君诞", utf8 "")]); (utf8 "8-5", [(utf8 "北方雷祖圣诞", utf8 "")]);
  (utf8 "8-10", [(utf8 "北岳大帝诞辰", utf8 "")]); (utf8 "8-15", [(utf8 "太阴星君诞", utf8 "")]); (utf8 "9-1", [(utf8 "北斗九皇降世之辰", utf8 "")]);
  (utf8 "9-2", [(utf8 "北斗九皇降世之辰", utf8 "")]); (utf8 "9-3", [(utf8 "北斗九皇降世之辰", utf8 "")]);
  (utf8 "9-4", [(utf8 "北斗九皇降世之辰", utf8 "")]); (utf8 "9-5", [(utf8 "北斗九皇降世之辰", utf8 "")]);
  (utf8 "9-6", [(utf8 "北斗九皇降世之辰", utf8 "")]); (utf8 "9-7", [(utf8 "北斗九皇降世之辰", utf8 "")]);
  (utf8 "9-8", [(utf8 "北斗九皇降世之辰", utf8 "")]);
  (utf8 "9-9", [(utf8 "北斗九皇降世之辰", utf8 ""); (utf8 "斗姥元君圣诞", utf8 ""); (utf8 "重阳帝君圣诞", utf8 ""); (utf8 "玄天上帝飞升", utf8 ""); (utf8 "酆都大帝圣诞", utf8 "")]);
  (utf8 "9-22", [(utf8 "增福财神诞", utf8 "")]); (utf8 "9-23", [(utf8 "萨翁真君圣诞", utf8 "")]);
  (utf8 "9-28", [(utf8 "五显灵官马元帅圣诞", utf8 "")]);
  (utf8 "10-1", [(utf8 "民岁腊之辰", utf8 "民岁腊，此日五帝会于北方五炁黑天"); (utf8 "东皇大帝圣诞", utf8 "")]);
  (utf8 "10-3", [(utf8 "三茅应化真君圣诞", utf8 "")]); (utf8 "10-6", [(utf8 "天曹诸司五岳五帝圣诞", utf8 "")]);
  (utf8 "10-15", [(utf8 "下元水官大帝圣诞", utf8 ""); (utf8 "建生大会", utf8 "此日下元解厄，水官同天地二官考校罪福")]);
  (utf8 "10-18", [(utf8 "地母娘娘圣诞", utf8 "")]); (utf8 "10-19", [(utf8 "长春邱真君飞升", utf8 "")]);
  (utf8 "10-20", [(utf8 "虚靖天师(即三十代天师弘悟张真人)诞", utf8 "")]); (utf8 "11-6", [(utf8 "西岳大帝圣诞", utf8 "")]);
  (utf8 "11-9", [(utf8 "湘子韩祖圣诞", utf8 "")]); (utf8 "11-11", [(utf8 "太乙救苦天尊圣诞", utf8 "")]);
  (utf8 "11-26", [(utf8 "北方五道圣诞", utf8 "")]); (utf8 "12-8", [(utf8 "王侯腊之辰", utf8 "王侯腊，此日五帝会于上方玄都玉京")]);
  (utf8 "12-16", [(utf8 "南岳大帝圣诞", utf8 ""); (utf8 "福德正神诞", utf8 "")]); (utf8 "12-20", [(utf8 "鲁班先师圣诞", utf8 "")]);
  (utf8 "12-21", [(utf8 "天猷上帝圣诞", utf8 "")]); (utf8 "12-22", [(utf8 "重阳祖师圣诞", utf8 "")]);
  (utf8 "12-23", [(utf8 "祭灶王", utf8 "最适宜谢旧年太岁，开启拜新年太岁")]);
  (utf8 "12-25", [(utf8 "玉帝巡天", utf8 ""); (utf8 "天神下降", utf8 "")]); (utf8 "12-29", [(utf8 "清静孙真君(孙不二)成道", utf8 "")])].
