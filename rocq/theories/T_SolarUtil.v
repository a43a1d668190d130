(** Tables of SolarUtil.  Generated by tools/gen_tables.py from the text of /repo. *)
From Coq Require Import ZArith List String.
From Verif Require Import Py PyStr.
Import ListNotations.
Open Scope Z_scope.
Local Open Scope string_scope.

(** util/SolarUtil.py:11 [SolarUtil.WEEK] *)
Definition SolarUtil_WEEK : list str := Eval vm_compute in [
  utf8 "日"; utf8 "一"; utf8 "二"; utf8 "三"; utf8 "四"; utf8 "五"; utf8 "六"].

(** util/SolarUtil.py:14 [SolarUtil.DAYS_OF_MONTH] *)
Definition SolarUtil_DAYS_OF_MONTH : list Z := Eval vm_compute in [
  31; 28; 31; 30; 31; 30; 31; 31; 30; 31; 30; 31].

(** util/SolarUtil.py:17 [SolarUtil.XING_ZUO] *)
Definition SolarUtil_XING_ZUO : list str := Eval vm_compute in [
  utf8 "白羊"; utf8 "金牛"; utf8 "双子"; utf8 "巨蟹"; utf8 "狮子"; utf8 "处女"; utf8 "天秤"; utf8 "天蝎"; utf8 "射手"; utf8 "摩羯"; utf8 "水瓶";
  utf8 "双鱼"].

(** util/SolarUtil.py:20-38 [SolarUtil.FESTIVAL] *)
Definition SolarUtil_FESTIVAL : list (str * str) := Eval vm_compute in [
  (utf8 "1-1", utf8 "元旦节"); (utf8 "2-14", utf8 "情人节"); (utf8 "3-8", utf8 "妇女节"); (utf8 "3-12", utf8 "植树节");
  (utf8 "3-15", utf8 "消费者权益日"); (utf8 "4-1", utf8 "愚人节"); (utf8 "5-1", utf8 "劳动节"); (utf8 "5-4", utf8 "青年节");
  (utf8 "6-1", utf8 "儿童节"); (utf8 "7-1", utf8 "建党节"); (utf8 "8-1", utf8 "建军节"); (utf8 "9-10", utf8 "教师节"); (utf8 "10-1", utf8 "国庆节");
  (utf8 "12-24", utf8 "平安夜"); (utf8 "12-25", utf8 "圣诞节"); (utf8 "10-31", utf8 "万圣节前夜"); (utf8 "11-1", utf8 "万圣节")].

(** util/SolarUtil.py:41-49 [SolarUtil.WEEK_FESTIVAL] *)
Definition SolarUtil_WEEK_FESTIVAL : list (str * str) := Eval vm_compute in [
  (utf8 "3-0-1", utf8 "全国中小学生安全教育日"); (utf8 "5-2-0", utf8 "母亲节"); (utf8 "5-3-0", utf8 "全国助残日"); (utf8 "6-3-0", utf8 "父亲节");
  (utf8 "9-3-6", utf8 "全民国防教育日"); (utf8 "10-1-1", utf8 "世界住房日"); (utf8 "11-4-4", utf8 "感恩节")].

(** util/SolarUtil.py:52-190 [SolarUtil.OTHER_FESTIVAL] *)
Definition SolarUtil_OTHER_FESTIVAL : list (str * list str) := Eval vm_compute in [
  (utf8 "1-8", [utf8 "周恩来逝世纪念日"]); (utf8 "1-10", [utf8 "中国人民警察节"]); (utf8 "1-14", [utf8 "日记情人节"]);
  (utf8 "1-21", [utf8 "列宁逝世纪念日"]); (utf8 "1-26", [utf8 "国际海关日"]); (utf8 "1-27", [utf8 "国际大屠杀纪念日"]);
  (utf8 "2-2", [utf8 "世界湿地日"]); (utf8 "2-4", [utf8 "世界抗癌日"]); (utf8 "2-7", [utf8 "京汉铁路罢工纪念日"]);
  (utf8 "2-10", [utf8 "国际气象节"]); (utf8 "2-19", [utf8 "邓小平逝世纪念日"]); (utf8 "2-20", [utf8 "世界社会公正日"]);
  (utf8 "2-21", [utf8 "国际母语日"]); (utf8 "2-24", [utf8 "第三世界青年日"]); (utf8 "3-1", [utf8 "国际海豹日"]);
  (utf8 "3-3", [utf8 "世界野生动植物日"; utf8 "全国爱耳日"]); (utf8 "3-5", [utf8 "周恩来诞辰纪念日"; utf8 "中国青年志愿者服务日"]);
  (utf8 "3-6", [utf8 "世界青光眼日"]); (utf8 "3-7", [utf8 "女生节"]); (utf8 "3-12", [utf8 "孙中山逝世纪念日"]);
  (utf8 "3-14", [utf8 "马克思逝世纪念日"; utf8 "白色情人节"]); (utf8 "3-17", [utf8 "国际航海日"]);
  (utf8 "3-18", [utf8 "全国科技人才活动日"; utf8 "全国爱肝日"]); (utf8 "3-20", [utf8 "国际幸福日"]);
  (utf8 "3-21", [utf8 "世界森林日"; utf8 "世界睡眠日"; utf8 "国际消除种族歧视日"]); (utf8 "3-22", [utf8 "世界水日"]);
  (utf8 "3-23", [utf8 "世界气象日"]); (utf8 "3-24", [utf8 "世界防治结核病日"]); (utf8 "3-29", [utf8 "中国黄花岗七十二烈士殉难纪念日"]);
  (utf8 "4-2", [utf8 "国际儿童图书日"; utf8 "世界自闭症日"]); (utf8 "4-4", [utf8 "国际地雷行动日"]); (utf8 "4-7", [utf8 "世界卫生日"]);
  (utf8 "4-8", [utf8 "国际珍稀动物保护日"]); (utf8 "4-12", [utf8 "世界航天日"]); (utf8 "4-14", [utf8 "黑色情人节"]);
  (utf8 "4-15", [utf8 "全民国家安全教育日"]); (utf8 "4-22", [utf8 "世界地球日"; utf8 "列宁诞辰纪念日"]); (utf8 "4-23", [utf8 "世界读书日"]);
  (utf8 "4-24", [utf8 "中国航天日"]); (utf8 "4-25", [utf8 "儿童预防接种宣传日"]); (utf8 "4-26", [utf8 "世界知识产权日"; utf8 "全国疟疾日"]);
  (utf8 "4-28", [utf8 "世界安全生产与健康日"]); (utf8 "4-30", [utf8 "全国交通安全反思日"]); (utf8 "5-2", [utf8 "世界金枪鱼日"]);
  (utf8 "5-3", [utf8 "世界新闻自由日"]); (utf8 "5-5", [utf8 "马克思诞辰纪念日"]); (utf8 "5-8", [utf8 "世界红十字日"]);
  (utf8 "5-11", [utf8 "世界肥胖日"]); (utf8 "5-12", [utf8 "全国防灾减灾日"; utf8 "护士节"]); (utf8 "5-14", [utf8 "玫瑰情人节"]);
  (utf8 "5-15", [utf8 "国际家庭日"]); (utf8 "5-19", [utf8 "中国旅游日"]); (utf8 "5-20", [utf8 "网络情人节"]);
  (utf8 "5-22", [utf8 "国际生物多样性日"]); (utf8 "5-25", [utf8 "525心理健康节"]); (utf8 "5-27", [utf8 "上海解放日"]);
  (utf8 "5-29", [utf8 "国际维和人员日"]); (utf8 "5-30", [utf8 "中国五卅运动纪念日"]); (utf8 "5-31", [utf8 "世界无烟日"]);
  (utf8 "6-3", [utf8 "世界自行车日"]); (utf8 "6-5", [utf8 "世界环境日"]); (utf8 "6-6", [utf8 "全国爱眼日"]); (utf8 "6-8", [utf8 "世界海洋日"]);
  (utf8 "6-11", [utf8 "中国人口日"]); (utf8 "6-14", [utf8 "世界献血日"; utf8 "亲亲情人节"]); (utf8 "6-17", [utf8 "世界防治荒漠化与干旱日"]);
  (utf8 "6-20", [utf8 "世界难民日"]); (utf8 "6-21", [utf8 "国际瑜伽日"]); (utf8 "6-25", [utf8 "全国土地日"]);
  (utf8 "6-26", [utf8 "国际禁毒日"; utf8 "联合国宪章日"]); (utf8 "7-1", [utf8 "香港回归纪念日"]);
  (utf8 "7-6", [utf8 "国际接吻日"; utf8 "朱德逝世纪念日"]); (utf8 "7-7", [utf8 "七七事变纪念日"]);
  (utf8 "7-11", [utf8 "世界人口日"; utf8 "中国航海日"]); (utf8 "7-14", [utf8 "银色情人节"]); (utf8 "7-18", [utf8 "曼德拉国际日"]);
  (utf8 "7-30", [utf8 "国际友谊日"]); (utf8 "8-3", [utf8 "男人节"]); (utf8 "8-5", [utf8 "恩格斯逝世纪念日"]); (utf8 "8-6", [utf8 "国际电影节"]);
  (utf8 "8-8", [utf8 "全民健身日"]); (utf8 "8-9", [utf8 "国际土著人日"]); (utf8 "8-12", [utf8 "国际青年节"]); (utf8 "8-14", [utf8 "绿色情人节"]);
  (utf8 "8-19", [utf8 "世界人道主义日"; utf8 "中国医师节"]); (utf8 "8-22", [utf8 "邓小平诞辰纪念日"]);
  (utf8 "8-29", [utf8 "全国测绘法宣传日"]); (utf8 "9-3", [utf8 "中国抗日战争胜利纪念日"]); (utf8 "9-5", [utf8 "中华慈善日"]);
  (utf8 "9-8", [utf8 "世界扫盲日"]); (utf8 "9-9", [utf8 "毛泽东逝世纪念日"; utf8 "全国拒绝酒驾日"]);
  (utf8 "9-14", [utf8 "世界清洁地球日"; utf8 "相片情人节"]); (utf8 "9-15", [utf8 "国际民主日"]); (utf8 "9-16", [utf8 "国际臭氧层保护日"]);
  (utf8 "9-17", [utf8 "世界骑行日"]); (utf8 "9-18", [utf8 "九一八事变纪念日"]); (utf8 "9-20", [utf8 "全国爱牙日"]);
  (utf8 "9-21", [utf8 "国际和平日"]); (utf8 "9-27", [utf8 "世界旅游日"]); (utf8 "9-30", [utf8 "中国烈士纪念日"]);
  (utf8 "10-1", [utf8 "国际老年人日"]); (utf8 "10-2", [utf8 "国际非暴力日"]); (utf8 "10-4", [utf8 "世界动物日"]);
  (utf8 "10-11", [utf8 "国际女童日"]); (utf8 "10-10", [utf8 "辛亥革命纪念日"]);
  (utf8 "10-13", [utf8 "国际减轻自然灾害日"; utf8 "中国少年先锋队诞辰日"]); (utf8 "10-14", [utf8 "葡萄酒情人节"]);
  (utf8 "10-16", [utf8 "世界粮食日"]); (utf8 "10-17", [utf8 "全国扶贫日"]); (utf8 "10-20", [utf8 "世界统计日"]);
  (utf8 "10-24", [utf8 "世界发展信息日"; utf8 "程序员节"]); (utf8 "10-25", [utf8 "抗美援朝纪念日"]); (utf8 "11-5", [utf8 "世界海啸日"]);
  (utf8 "11-8", [utf8 "记者节"]); (utf8 "11-9", [utf8 "全国消防日"]); (utf8 "11-11", [utf8 "光棍节"]); (utf8 "11-12", [utf8 "孙中山诞辰纪念日"]);
  (utf8 "11-14", [utf8 "电影情人节"]); (utf8 "11-16", [utf8 "国际宽容日"]); (utf8 "11-17", [utf8 "国际大学生节"]);
  (utf8 "11-19", [utf8 "世界厕所日"]); (utf8 "11-28", [utf8 "恩格斯诞辰纪念日"]); (utf8 "11-29", [utf8 "国际声援巴勒斯坦人民日"]);
  (utf8 "12-1", [utf8 "世界艾滋病日"]); (utf8 "12-2", [utf8 "全国交通安全日"]); (utf8 "12-3", [utf8 "世界残疾人日"]);
  (utf8 "12-4", [utf8 "全国法制宣传日"]); (utf8 "12-5", [utf8 "世界弱能人士日"; utf8 "国际志愿人员日"]); (utf8 "12-7", [utf8 "国际民航日"]);
  (utf8 "12-9", [utf8 "世界足球日"; utf8 "国际反腐败日"]); (utf8 "12-10", [utf8 "世界人权日"]); (utf8 "12-11", [utf8 "国际山岳日"]);
  (utf8 "12-12", [utf8 "西安事变纪念日"]); (utf8 "12-13", [utf8 "国家公祭日"]); (utf8 "12-14", [utf8 "拥抱情人节"]);
  (utf8 "12-18", [utf8 "国际移徙者日"]); (utf8 "12-26", [utf8 "毛泽东诞辰纪念日"])].
