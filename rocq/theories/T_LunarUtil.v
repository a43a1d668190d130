(** Tables of LunarUtil.  Generated by tools/gen_tables.py from the text of /repo. *)
From Coq Require Import ZArith List String.
From Verif Require Import Py PyStr.
Import ListNotations.
Open Scope Z_scope.
Local Open Scope string_scope.

(** util/LunarUtil.py:9 [LunarUtil.BASE_MONTH_ZHI_INDEX] *)
Definition LunarUtil_BASE_MONTH_ZHI_INDEX : Z := 2.

(** util/LunarUtil.py:10 [LunarUtil.XUN] *)
Definition LunarUtil_XUN : list str := Eval vm_compute in [
  utf8 "甲子"; utf8 "甲戌"; utf8 "甲申"; utf8 "甲午"; utf8 "甲辰"; utf8 "甲寅"].

(** util/LunarUtil.py:11 [LunarUtil.XUN_KONG] *)
Definition LunarUtil_XUN_KONG : list str := Eval vm_compute in [
  utf8 "戌亥"; utf8 "申酉"; utf8 "午未"; utf8 "辰巳"; utf8 "寅卯"; utf8 "子丑"].

(** util/LunarUtil.py:12 [LunarUtil.LIU_YAO] *)
Definition LunarUtil_LIU_YAO : list str := Eval vm_compute in [
  utf8 "先胜"; utf8 "友引"; utf8 "先负"; utf8 "佛灭"; utf8 "大安"; utf8 "赤口"].

(** util/LunarUtil.py:13 [LunarUtil.HOU] *)
Definition LunarUtil_HOU : list str := Eval vm_compute in [
  utf8 "初候"; utf8 "二候"; utf8 "三候"].

(** util/LunarUtil.py:14 [LunarUtil.WU_HOU] *)
Definition LunarUtil_WU_HOU : list str := Eval vm_compute in [
  utf8 "蚯蚓结"; utf8 "麋角解"; utf8 "水泉动"; utf8 "雁北乡"; utf8 "鹊始巢"; utf8 "雉始雊"; utf8 "鸡始乳"; utf8 "征鸟厉疾"; utf8 "水泽腹坚";
  utf8 "东风解冻"; utf8 "蛰虫始振"; utf8 "鱼陟负冰"; utf8 "獭祭鱼"; utf8 "候雁北"; utf8 "草木萌动"; utf8 "桃始华"; utf8 "仓庚鸣";
  utf8 "鹰化为鸠"; utf8 "玄鸟至"; utf8 "雷乃发声"; utf8 "始电"; utf8 "桐始华"; utf8 "田鼠化为鴽"; utf8 "虹始见"; utf8 "萍始生";
  utf8 "鸣鸠拂奇羽"; utf8 "戴胜降于桑"; utf8 "蝼蝈鸣"; utf8 "蚯蚓出"; utf8 "王瓜生"; utf8 "苦菜秀"; utf8 "靡草死"; utf8 "麦秋至";
  utf8 "螳螂生"; utf8 "鵙始鸣"; utf8 "反舌无声"; utf8 "鹿角解"; utf8 "蜩始鸣"; utf8 "半夏生"; utf8 "温风至"; utf8 "蟋蟀居壁"; utf8 "鹰始挚";
  utf8 "腐草为萤"; utf8 "土润溽暑"; utf8 "大雨行时"; utf8 "凉风至"; utf8 "白露降"; utf8 "寒蝉鸣"; utf8 "鹰乃祭鸟"; utf8 "天地始肃";
  utf8 "禾乃登"; utf8 "鸿雁来"; utf8 "玄鸟归"; utf8 "群鸟养羞"; utf8 "雷始收声"; utf8 "蛰虫坯户"; utf8 "水始涸"; utf8 "鸿雁来宾";
  utf8 "雀入大水为蛤"; utf8 "菊有黄花"; utf8 "豺乃祭兽"; utf8 "草木黄落"; utf8 "蛰虫咸俯"; utf8 "水始冰"; utf8 "地始冻";
  utf8 "雉入大水为蜃"; utf8 "虹藏不见"; utf8 "天气上升地气下降"; utf8 "闭塞而成冬"; utf8 "鹖鴠不鸣"; utf8 "虎始交"; utf8 "荔挺出"].

(** util/LunarUtil.py:15 [LunarUtil.GAN] *)
Definition LunarUtil_GAN : list str := Eval vm_compute in [
  utf8 ""; utf8 "甲"; utf8 "乙"; utf8 "丙"; utf8 "丁"; utf8 "戊"; utf8 "己"; utf8 "庚"; utf8 "辛"; utf8 "壬"; utf8 "癸"].

(** util/LunarUtil.py:16 [LunarUtil.POSITION_XI] *)
Definition LunarUtil_POSITION_XI : list str := Eval vm_compute in [
  utf8 ""; utf8 "艮"; utf8 "乾"; utf8 "坤"; utf8 "离"; utf8 "巽"; utf8 "艮"; utf8 "乾"; utf8 "坤"; utf8 "离"; utf8 "巽"].

(** util/LunarUtil.py:17 [LunarUtil.POSITION_YANG_GUI] *)
Definition LunarUtil_POSITION_YANG_GUI : list str := Eval vm_compute in [
  utf8 ""; utf8 "坤"; utf8 "坤"; utf8 "兑"; utf8 "乾"; utf8 "艮"; utf8 "坎"; utf8 "离"; utf8 "艮"; utf8 "震"; utf8 "巽"].

(** util/LunarUtil.py:18 [LunarUtil.POSITION_YIN_GUI] *)
Definition LunarUtil_POSITION_YIN_GUI : list str := Eval vm_compute in [
  utf8 ""; utf8 "艮"; utf8 "坎"; utf8 "乾"; utf8 "兑"; utf8 "坤"; utf8 "坤"; utf8 "艮"; utf8 "离"; utf8 "巽"; utf8 "震"].

(** util/LunarUtil.py:19 [LunarUtil.POSITION_FU] *)
Definition LunarUtil_POSITION_FU : list str := Eval vm_compute in [
  utf8 ""; utf8 "巽"; utf8 "巽"; utf8 "震"; utf8 "震"; utf8 "坎"; utf8 "离"; utf8 "坤"; utf8 "坤"; utf8 "乾"; utf8 "兑"].

(** util/LunarUtil.py:20 [LunarUtil.POSITION_FU_2] *)
Definition LunarUtil_POSITION_FU_2 : list str := Eval vm_compute in [
  utf8 ""; utf8 "坎"; utf8 "坤"; utf8 "乾"; utf8 "巽"; utf8 "艮"; utf8 "坎"; utf8 "坤"; utf8 "乾"; utf8 "巽"; utf8 "艮"].

(** util/LunarUtil.py:21 [LunarUtil.POSITION_CAI] *)
Definition LunarUtil_POSITION_CAI : list str := Eval vm_compute in [
  utf8 ""; utf8 "艮"; utf8 "艮"; utf8 "坤"; utf8 "坤"; utf8 "坎"; utf8 "坎"; utf8 "震"; utf8 "震"; utf8 "离"; utf8 "离"].

(** util/LunarUtil.py:22 [LunarUtil.POSITION_TAI_SUI_YEAR] *)
Definition LunarUtil_POSITION_TAI_SUI_YEAR : list str := Eval vm_compute in [
  utf8 "坎"; utf8 "艮"; utf8 "艮"; utf8 "震"; utf8 "巽"; utf8 "巽"; utf8 "离"; utf8 "坤"; utf8 "坤"; utf8 "兑"; utf8 "坎"; utf8 "坎"].

(** util/LunarUtil.py:23 [LunarUtil.POSITION_GAN] *)
Definition LunarUtil_POSITION_GAN : list str := Eval vm_compute in [
  utf8 "震"; utf8 "震"; utf8 "离"; utf8 "离"; utf8 "中"; utf8 "中"; utf8 "兑"; utf8 "兑"; utf8 "坎"; utf8 "坎"].

(** util/LunarUtil.py:24 [LunarUtil.POSITION_ZHI] *)
Definition LunarUtil_POSITION_ZHI : list str := Eval vm_compute in [
  utf8 "坎"; utf8 "中"; utf8 "震"; utf8 "震"; utf8 "中"; utf8 "离"; utf8 "离"; utf8 "中"; utf8 "兑"; utf8 "兑"; utf8 "中"; utf8 "坎"].

(** util/LunarUtil.py:25-32 [LunarUtil.POSITION_TAI_DAY] *)
Definition LunarUtil_POSITION_TAI_DAY : list str := Eval vm_compute in [
  utf8 "占门碓 外东南"; utf8 "碓磨厕 外东南"; utf8 "厨灶炉 外正南"; utf8 "仓库门 外正南"; utf8 "房床栖 外正南"; utf8 "占门床 外正南";
  utf8 "占碓磨 外正南"; utf8 "厨灶厕 外西南"; utf8 "仓库炉 外西南"; utf8 "房床门 外西南"; utf8 "占门栖 外西南"; utf8 "碓磨床 外西南";
  utf8 "厨灶碓 外西南"; utf8 "仓库厕 外正西"; utf8 "房床炉 外正西"; utf8 "占大门 外正西"; utf8 "碓磨栖 外正西"; utf8 "厨灶床 外正西";
  utf8 "仓库碓 外西北"; utf8 "房床厕 外西北"; utf8 "占门炉 外西北"; utf8 "碓磨门 外西北"; utf8 "厨灶栖 外西北"; utf8 "仓库床 外西北";
  utf8 "房床碓 外正北"; utf8 "占门厕 外正北"; utf8 "碓磨炉 外正北"; utf8 "厨灶门 外正北"; utf8 "仓库栖 外正北"; utf8 "占房床 房内北";
  utf8 "占门碓 房内北"; utf8 "碓磨厕 房内北"; utf8 "厨灶炉 房内北"; utf8 "仓库门 房内北"; utf8 "房床栖 房内中"; utf8 "占门床 房内中";
  utf8 "占碓磨 房内南"; utf8 "厨灶厕 房内南"; utf8 "仓库炉 房内南"; utf8 "房床门 房内西"; utf8 "占门栖 房内东"; utf8 "碓磨床 房内东";
  utf8 "厨灶碓 房内东"; utf8 "仓库厕 房内东"; utf8 "房床炉 房内中"; utf8 "占大门 外东北"; utf8 "碓磨栖 外东北"; utf8 "厨灶床 外东北";
  utf8 "仓库碓 外东北"; utf8 "房床厕 外东北"; utf8 "占门炉 外东北"; utf8 "碓磨门 外正东"; utf8 "厨灶栖 外正东"; utf8 "仓库床 外正东";
  utf8 "房床碓 外正东"; utf8 "占门厕 外正东"; utf8 "碓磨炉 外东南"; utf8 "厨灶门 外东南"; utf8 "仓库栖 外东南"; utf8 "占房床 外东南"].

(** util/LunarUtil.py:33 [LunarUtil.POSITION_TAI_MONTH] *)
Definition LunarUtil_POSITION_TAI_MONTH : list str := Eval vm_compute in [
  utf8 "占房床"; utf8 "占户窗"; utf8 "占门堂"; utf8 "占厨灶"; utf8 "占房床"; utf8 "占床仓"; utf8 "占碓磨"; utf8 "占厕户"; utf8 "占门房";
  utf8 "占房床"; utf8 "占灶炉"; utf8 "占房床"].

(** util/LunarUtil.py:34 [LunarUtil.ZHI] *)
Definition LunarUtil_ZHI : list str := Eval vm_compute in [
  utf8 ""; utf8 "子"; utf8 "丑"; utf8 "寅"; utf8 "卯"; utf8 "辰"; utf8 "巳"; utf8 "午"; utf8 "未"; utf8 "申"; utf8 "酉"; utf8 "戌"; utf8 "亥"].

(** util/LunarUtil.py:35 [LunarUtil.JIA_ZI] *)
Definition LunarUtil_JIA_ZI : list str := Eval vm_compute in [
  utf8 "甲子"; utf8 "乙丑"; utf8 "丙寅"; utf8 "丁卯"; utf8 "戊辰"; utf8 "己巳"; utf8 "庚午"; utf8 "辛未"; utf8 "壬申"; utf8 "癸酉"; utf8 "甲戌";
  utf8 "乙亥"; utf8 "丙子"; utf8 "丁丑"; utf8 "戊寅"; utf8 "己卯"; utf8 "庚辰"; utf8 "辛巳"; utf8 "壬午"; utf8 "癸未"; utf8 "甲申"; utf8 "乙酉";
  utf8 "丙戌"; utf8 "丁亥"; utf8 "戊子"; utf8 "己丑"; utf8 "庚寅"; utf8 "辛卯"; utf8 "壬辰"; utf8 "癸巳"; utf8 "甲午"; utf8 "乙未"; utf8 "丙申";
  utf8 "丁酉"; utf8 "戊戌"; utf8 "己亥"; utf8 "庚子"; utf8 "辛丑"; utf8 "壬寅"; utf8 "癸卯"; utf8 "甲辰"; utf8 "乙巳"; utf8 "丙午"; utf8 "丁未";
  utf8 "戊申"; utf8 "己酉"; utf8 "庚戌"; utf8 "辛亥"; utf8 "壬子"; utf8 "癸丑"; utf8 "甲寅"; utf8 "乙卯"; utf8 "丙辰"; utf8 "丁巳"; utf8 "戊午";
  utf8 "己未"; utf8 "庚申"; utf8 "辛酉"; utf8 "壬戌"; utf8 "癸亥"].

(** util/LunarUtil.py:36 [LunarUtil.ZHI_XING] *)
Definition LunarUtil_ZHI_XING : list str := Eval vm_compute in [
  utf8 ""; utf8 "建"; utf8 "除"; utf8 "满"; utf8 "平"; utf8 "定"; utf8 "执"; utf8 "破"; utf8 "危"; utf8 "成"; utf8 "收"; utf8 "开"; utf8 "闭"].

(** util/LunarUtil.py:37 [LunarUtil.TIAN_SHEN] *)
Definition LunarUtil_TIAN_SHEN : list str := Eval vm_compute in [
  utf8 ""; utf8 "青龙"; utf8 "明堂"; utf8 "天刑"; utf8 "朱雀"; utf8 "金匮"; utf8 "天德"; utf8 "白虎"; utf8 "玉堂"; utf8 "天牢"; utf8 "玄武";
  utf8 "司命"; utf8 "勾陈"].

(** util/LunarUtil.py:38-40 [LunarUtil.__YI_JI] *)
Definition LunarUtil_YI_JI : list str := Eval vm_compute in [
  utf8 "祭祀"; utf8 "祈福"; utf8 "求嗣"; utf8 "开光"; utf8 "塑绘"; utf8 "齐醮"; utf8 "斋醮"; utf8 "沐浴"; utf8 "酬神"; utf8 "造庙"; utf8 "祀灶";
  utf8 "焚香"; utf8 "谢土"; utf8 "出火"; utf8 "雕刻"; utf8 "嫁娶"; utf8 "订婚"; utf8 "纳采"; utf8 "问名"; utf8 "纳婿"; utf8 "归宁"; utf8 "安床";
  utf8 "合帐"; utf8 "冠笄"; utf8 "订盟"; utf8 "进人口"; utf8 "裁衣"; utf8 "挽面"; utf8 "开容"; utf8 "修坟"; utf8 "启钻"; utf8 "破土"; utf8 "安葬";
  utf8 "立碑"; utf8 "成服"; utf8 "除服"; utf8 "开生坟"; utf8 "合寿木"; utf8 "入殓"; utf8 "移柩"; utf8 "普渡"; utf8 "入宅"; utf8 "安香";
  utf8 "安门"; utf8 "修造"; utf8 "起基"; utf8 "动土"; utf8 "上梁"; utf8 "竖柱"; utf8 "开井开池"; utf8 "作陂放水"; utf8 "拆卸"; utf8 "破屋";
  utf8 "坏垣"; utf8 "补垣"; utf8 "伐木做梁"; utf8 "作灶"; utf8 "解除"; utf8 "开柱眼"; utf8 "穿屏扇架"; utf8 "盖屋合脊"; utf8 "开厕";
  utf8 "造仓"; utf8 "塞穴"; utf8 "平治道涂"; utf8 "造桥"; utf8 "作厕"; utf8 "筑堤"; utf8 "开池"; utf8 "伐木"; utf8 "开渠"; utf8 "掘井";
  utf8 "扫舍"; utf8 "放水"; utf8 "造屋"; utf8 "合脊"; utf8 "造畜稠"; utf8 "修门"; utf8 "定磉"; utf8 "作梁"; utf8 "修饰垣墙"; utf8 "架马";
  utf8 "开市"; utf8 "挂匾"; utf8 "纳财"; utf8 "求财"; utf8 "开仓"; utf8 "买车"; utf8 "置产"; utf8 "雇佣"; utf8 "出货财"; utf8 "安机械";
  utf8 "造车器"; utf8 "经络"; utf8 "酝酿"; utf8 "作染"; utf8 "鼓铸"; utf8 "造船"; utf8 "割蜜"; utf8 "栽种"; utf8 "取渔"; utf8 "结网"; utf8 "牧养";
  utf8 "安碓磑"; utf8 "习艺"; utf8 "入学"; utf8 "理发"; utf8 "探病"; utf8 "见贵"; utf8 "乘船"; utf8 "渡水"; utf8 "针灸"; utf8 "出行"; utf8 "移徙";
  utf8 "分居"; utf8 "剃头"; utf8 "整手足甲"; utf8 "纳畜"; utf8 "捕捉"; utf8 "畋猎"; utf8 "教牛马"; utf8 "会亲友"; utf8 "赴任"; utf8 "求医";
  utf8 "治病"; utf8 "词讼"; utf8 "起基动土"; utf8 "破屋坏垣"; utf8 "盖屋"; utf8 "造仓库"; utf8 "立券交易"; utf8 "交易"; utf8 "立券";
  utf8 "安机"; utf8 "会友"; utf8 "求医疗病"; utf8 "诸事不宜"; utf8 "馀事勿取"; utf8 "行丧"; utf8 "断蚁"; utf8 "归岫"; utf8 "无"].

(** util/LunarUtil.py:43-45 [LunarUtil.__SHEN_SHA] *)
Definition LunarUtil_SHEN_SHA : list str := Eval vm_compute in [
  utf8 "无"; utf8 "天恩"; utf8 "母仓"; utf8 "时阳"; utf8 "生气"; utf8 "益后"; utf8 "青龙"; utf8 "灾煞"; utf8 "天火"; utf8 "四忌"; utf8 "八龙";
  utf8 "复日"; utf8 "续世"; utf8 "明堂"; utf8 "月煞"; utf8 "月虚"; utf8 "血支"; utf8 "天贼"; utf8 "五虚"; utf8 "土符"; utf8 "归忌"; utf8 "血忌";
  utf8 "月德"; utf8 "月恩"; utf8 "四相"; utf8 "王日"; utf8 "天仓"; utf8 "不将"; utf8 "要安"; utf8 "五合"; utf8 "鸣吠对"; utf8 "月建"; utf8 "小时";
  utf8 "土府"; utf8 "往亡"; utf8 "天刑"; utf8 "天德"; utf8 "官日"; utf8 "吉期"; utf8 "玉宇"; utf8 "大时"; utf8 "大败"; utf8 "咸池"; utf8 "朱雀";
  utf8 "守日"; utf8 "天巫"; utf8 "福德"; utf8 "六仪"; utf8 "金堂"; utf8 "金匮"; utf8 "厌对"; utf8 "招摇"; utf8 "九空"; utf8 "九坎"; utf8 "九焦";
  utf8 "相日"; utf8 "宝光"; utf8 "天罡"; utf8 "死神"; utf8 "月刑"; utf8 "月害"; utf8 "游祸"; utf8 "重日"; utf8 "时德"; utf8 "民日"; utf8 "三合";
  utf8 "临日"; utf8 "天马"; utf8 "时阴"; utf8 "鸣吠"; utf8 "死气"; utf8 "地囊"; utf8 "白虎"; utf8 "月德合"; utf8 "敬安"; utf8 "玉堂"; utf8 "普护";
  utf8 "解神"; utf8 "小耗"; utf8 "天德合"; utf8 "月空"; utf8 "驿马"; utf8 "天后"; utf8 "除神"; utf8 "月破"; utf8 "大耗"; utf8 "五离"; utf8 "天牢";
  utf8 "阴德"; utf8 "福生"; utf8 "天吏"; utf8 "致死"; utf8 "元武"; utf8 "阳德"; utf8 "天喜"; utf8 "天医"; utf8 "司命"; utf8 "月厌"; utf8 "地火";
  utf8 "四击"; utf8 "大煞"; utf8 "大会"; utf8 "天愿"; utf8 "六合"; utf8 "五富"; utf8 "圣心"; utf8 "河魁"; utf8 "劫煞"; utf8 "四穷"; utf8 "勾陈";
  utf8 "触水龙"; utf8 "八风"; utf8 "天赦"; utf8 "五墓"; utf8 "八专"; utf8 "阴错"; utf8 "四耗"; utf8 "阳错"; utf8 "四废"; utf8 "三阴"; utf8 "小会";
  utf8 "阴道冲阳"; utf8 "单阴"; utf8 "孤辰"; utf8 "阴位"; utf8 "行狠"; utf8 "了戾"; utf8 "绝阴"; utf8 "纯阳"; utf8 "七鸟"; utf8 "岁薄";
  utf8 "阴阳交破"; utf8 "阴阳俱错"; utf8 "阴阳击冲"; utf8 "逐阵"; utf8 "阳错阴冲"; utf8 "七符"; utf8 "天狗"; utf8 "九虎"; utf8 "成日";
  utf8 "天符"; utf8 "孤阳"; utf8 "绝阳"; utf8 "纯阴"; utf8 "六蛇"; utf8 "阴神"; utf8 "解除"; utf8 "阳破阴冲"].

(** util/LunarUtil.py:47-60 [LunarUtil.ZHI_TIAN_SHEN_OFFSET] *)
Definition LunarUtil_ZHI_TIAN_SHEN_OFFSET : list (str * Z) := Eval vm_compute in [
  (utf8 "子", 4); (utf8 "丑", 2); (utf8 "寅", 0); (utf8 "卯", 10); (utf8 "辰", 8); (utf8 "巳", 6); (utf8 "午", 4); (utf8 "未", 2); (utf8 "申", 0);
  (utf8 "酉", 10); (utf8 "戌", 8); (utf8 "亥", 6)].

(** util/LunarUtil.py:61-75 [LunarUtil.TIAN_SHEN_TYPE] *)
Definition LunarUtil_TIAN_SHEN_TYPE : list (str * str) := Eval vm_compute in [
  (utf8 "青龙", utf8 "黄道"); (utf8 "明堂", utf8 "黄道"); (utf8 "金匮", utf8 "黄道"); (utf8 "天德", utf8 "黄道"); (utf8 "玉堂", utf8 "黄道");
  (utf8 "司命", utf8 "黄道"); (utf8 "天刑", utf8 "黑道"); (utf8 "朱雀", utf8 "黑道"); (utf8 "白虎", utf8 "黑道"); (utf8 "天牢", utf8 "黑道");
  (utf8 "玄武", utf8 "黑道"); (utf8 "勾陈", utf8 "黑道")].

(** util/LunarUtil.py:77-80 [LunarUtil.TIAN_SHEN_TYPE_LUCK] *)
Definition LunarUtil_TIAN_SHEN_TYPE_LUCK : list (str * str) := Eval vm_compute in [
  (utf8 "黄道", utf8 "吉"); (utf8 "黑道", utf8 "凶")].

(** util/LunarUtil.py:82-102 [LunarUtil.LU] *)
Definition LunarUtil_LU : list (str * str) := Eval vm_compute in [
  (utf8 "甲", utf8 "寅"); (utf8 "乙", utf8 "卯"); (utf8 "丙", utf8 "巳"); (utf8 "丁", utf8 "午"); (utf8 "戊", utf8 "巳"); (utf8 "己", utf8 "午");
  (utf8 "庚", utf8 "申"); (utf8 "辛", utf8 "酉"); (utf8 "壬", utf8 "亥"); (utf8 "癸", utf8 "子"); (utf8 "寅", utf8 "甲"); (utf8 "卯", utf8 "乙");
  (utf8 "巳", utf8 "丙,戊"); (utf8 "午", utf8 "丁,己"); (utf8 "申", utf8 "庚"); (utf8 "酉", utf8 "辛"); (utf8 "亥", utf8 "壬"); (utf8 "子", utf8 "癸")].

(** util/LunarUtil.py:104 [LunarUtil.PENG_ZU_GAN] *)
Definition LunarUtil_PENG_ZU_GAN : list str := Eval vm_compute in [
  utf8 ""; utf8 "甲不开仓财物耗散"; utf8 "乙不栽植千株不长"; utf8 "丙不修灶必见灾殃"; utf8 "丁不剃头头必生疮";
  utf8 "戊不受田田主不祥"; utf8 "己不破券二比并亡"; utf8 "庚不经络织机虚张"; utf8 "辛不合酱主人不尝"; utf8 "壬不泱水更难提防";
  utf8 "癸不词讼理弱敌强"].

(** util/LunarUtil.py:105 [LunarUtil.PENG_ZU_ZHI] *)
Definition LunarUtil_PENG_ZU_ZHI : list str := Eval vm_compute in [
  utf8 ""; utf8 "子不问卜自惹祸殃"; utf8 "丑不冠带主不还乡"; utf8 "寅不祭祀神鬼不尝"; utf8 "卯不穿井水泉不香";
  utf8 "辰不哭泣必主重丧"; utf8 "巳不远行财物伏藏"; utf8 "午不苫盖屋主更张"; utf8 "未不服药毒气入肠"; utf8 "申不安床鬼祟入房";
  utf8 "酉不会客醉坐颠狂"; utf8 "戌不吃犬作怪上床"; utf8 "亥不嫁娶不利新郎"].

(** util/LunarUtil.py:106 [LunarUtil.NUMBER] *)
Definition LunarUtil_NUMBER : list str := Eval vm_compute in [
  utf8 "〇"; utf8 "一"; utf8 "二"; utf8 "三"; utf8 "四"; utf8 "五"; utf8 "六"; utf8 "七"; utf8 "八"; utf8 "九"; utf8 "十"; utf8 "十一"; utf8 "十二"].

(** util/LunarUtil.py:107 [LunarUtil.MONTH] *)
Definition LunarUtil_MONTH : list str := Eval vm_compute in [
  utf8 ""; utf8 "正"; utf8 "二"; utf8 "三"; utf8 "四"; utf8 "五"; utf8 "六"; utf8 "七"; utf8 "八"; utf8 "九"; utf8 "十"; utf8 "冬"; utf8 "腊"].

(** util/LunarUtil.py:108 [LunarUtil.SEASON] *)
Definition LunarUtil_SEASON : list str := Eval vm_compute in [
  utf8 ""; utf8 "孟春"; utf8 "仲春"; utf8 "季春"; utf8 "孟夏"; utf8 "仲夏"; utf8 "季夏"; utf8 "孟秋"; utf8 "仲秋"; utf8 "季秋"; utf8 "孟冬";
  utf8 "仲冬"; utf8 "季冬"].

(** util/LunarUtil.py:109 [LunarUtil.SHENGXIAO] *)
Definition LunarUtil_SHENGXIAO : list str := Eval vm_compute in [
  utf8 ""; utf8 "鼠"; utf8 "牛"; utf8 "虎"; utf8 "兔"; utf8 "龙"; utf8 "蛇"; utf8 "马"; utf8 "羊"; utf8 "猴"; utf8 "鸡"; utf8 "狗"; utf8 "猪"].

(** util/LunarUtil.py:110 [LunarUtil.DAY] *)
Definition LunarUtil_DAY : list str := Eval vm_compute in [
  utf8 ""; utf8 "初一"; utf8 "初二"; utf8 "初三"; utf8 "初四"; utf8 "初五"; utf8 "初六"; utf8 "初七"; utf8 "初八"; utf8 "初九"; utf8 "初十";
  utf8 "十一"; utf8 "十二"; utf8 "十三"; utf8 "十四"; utf8 "十五"; utf8 "十六"; utf8 "十七"; utf8 "十八"; utf8 "十九"; utf8 "二十"; utf8 "廿一";
  utf8 "廿二"; utf8 "廿三"; utf8 "廿四"; utf8 "廿五"; utf8 "廿六"; utf8 "廿七"; utf8 "廿八"; utf8 "廿九"; utf8 "三十"].

(** util/LunarUtil.py:111 [LunarUtil.YUE_XIANG] *)
Definition LunarUtil_YUE_XIANG : list str := Eval vm_compute in [
  utf8 ""; utf8 "朔"; utf8 "既朔"; utf8 "蛾眉新"; utf8 "蛾眉新"; utf8 "蛾眉"; utf8 "夕"; utf8 "上弦"; utf8 "上弦"; utf8 "九夜"; utf8 "宵"; utf8 "宵";
  utf8 "宵"; utf8 "渐盈凸"; utf8 "小望"; utf8 "望"; utf8 "既望"; utf8 "立待"; utf8 "居待"; utf8 "寝待"; utf8 "更待"; utf8 "渐亏凸"; utf8 "下弦";
  utf8 "下弦"; utf8 "有明"; utf8 "有明"; utf8 "蛾眉残"; utf8 "蛾眉残"; utf8 "残"; utf8 "晓"; utf8 "晦"].

(** util/LunarUtil.py:112-121 [LunarUtil.FESTIVAL] *)
Definition LunarUtil_FESTIVAL : list (str * str) := Eval vm_compute in [
  (utf8 "1-1", utf8 "春节"); (utf8 "1-15", utf8 "元宵节"); (utf8 "2-2", utf8 "龙头节"); (utf8 "5-5", utf8 "端午节"); (utf8 "7-7", utf8 "七夕节");
  (utf8 "8-15", utf8 "中秋节"); (utf8 "9-9", utf8 "重阳节"); (utf8 "12-8", utf8 "腊八节")].

(** util/LunarUtil.py:123-151 [LunarUtil.OTHER_FESTIVAL] *)
Definition LunarUtil_OTHER_FESTIVAL : list (str * list str) := Eval vm_compute in [
  (utf8 "1-4", [utf8 "接神日"]); (utf8 "1-5", [utf8 "隔开日"]); (utf8 "1-7", [utf8 "人日"]); (utf8 "1-8", [utf8 "谷日"; utf8 "顺星节"]);
  (utf8 "1-9", [utf8 "天日"]); (utf8 "1-10", [utf8 "地日"]); (utf8 "1-20", [utf8 "天穿节"]); (utf8 "1-25", [utf8 "填仓节"]); (utf8 "1-30", [utf8 "正月晦"]);
  (utf8 "2-1", [utf8 "中和节"]); (utf8 "2-2", [utf8 "社日节"]); (utf8 "3-3", [utf8 "上巳节"]); (utf8 "5-20", [utf8 "分龙节"]);
  (utf8 "5-25", [utf8 "会龙节"]); (utf8 "6-6", [utf8 "天贶节"]); (utf8 "6-24", [utf8 "观莲节"]); (utf8 "6-25", [utf8 "五谷母节"]);
  (utf8 "7-15", [utf8 "中元节"]); (utf8 "7-22", [utf8 "财神节"]); (utf8 "7-29", [utf8 "地藏节"]); (utf8 "8-1", [utf8 "天灸日"]);
  (utf8 "10-1", [utf8 "寒衣节"]); (utf8 "10-10", [utf8 "十成节"]); (utf8 "10-15", [utf8 "下元节"]); (utf8 "12-7", [utf8 "驱傩日"]);
  (utf8 "12-16", [utf8 "尾牙"]); (utf8 "12-24", [utf8 "祭灶日"])].

(** util/LunarUtil.py:153-249 [LunarUtil.XIU] *)
Definition LunarUtil_XIU : list (str * str) := Eval vm_compute in [
  (utf8 "申1", utf8 "毕"); (utf8 "申2", utf8 "翼"); (utf8 "申3", utf8 "箕"); (utf8 "申4", utf8 "奎"); (utf8 "申5", utf8 "鬼"); (utf8 "申6", utf8 "氐");
  (utf8 "申0", utf8 "虚"); (utf8 "子1", utf8 "毕"); (utf8 "子2", utf8 "翼"); (utf8 "子3", utf8 "箕"); (utf8 "子4", utf8 "奎"); (utf8 "子5", utf8 "鬼");
  (utf8 "子6", utf8 "氐"); (utf8 "子0", utf8 "虚"); (utf8 "辰1", utf8 "毕"); (utf8 "辰2", utf8 "翼"); (utf8 "辰3", utf8 "箕"); (utf8 "辰4", utf8 "奎");
  (utf8 "辰5", utf8 "鬼"); (utf8 "辰6", utf8 "氐"); (utf8 "辰0", utf8 "虚"); (utf8 "巳1", utf8 "危"); (utf8 "巳2", utf8 "觜"); (utf8 "巳3", utf8 "轸");
  (utf8 "巳4", utf8 "斗"); (utf8 "巳5", utf8 "娄"); (utf8 "巳6", utf8 "柳"); (utf8 "巳0", utf8 "房"); (utf8 "酉1", utf8 "危"); (utf8 "酉2", utf8 "觜");
  (utf8 "酉3", utf8 "轸"); (utf8 "酉4", utf8 "斗"); (utf8 "酉5", utf8 "娄"); (utf8 "酉6", utf8 "柳"); (utf8 "酉0", utf8 "房"); (utf8 "丑1", utf8 "危");
  (utf8 "丑2", utf8 "觜"); (utf8 "丑3", utf8 "轸"); (utf8 "丑4", utf8 "斗"); (utf8 "丑5", utf8 "娄"); (utf8 "丑6", utf8 "柳"); (utf8 "丑0", utf8 "房");
  (utf8 "寅1", utf8 "心"); (utf8 "寅2", utf8 "室"); (utf8 "寅3", utf8 "参"); (utf8 "寅4", utf8 "角"); (utf8 "寅5", utf8 "牛"); (utf8 "寅6", utf8 "胃");
  (utf8 "寅0", utf8 "星"); (utf8 "午1", utf8 "心"); (utf8 "午2", utf8 "室"); (utf8 "午3", utf8 "参"); (utf8 "午4", utf8 "角"); (utf8 "午5", utf8 "牛");
  (utf8 "午6", utf8 "胃"); (utf8 "午0", utf8 "星"); (utf8 "戌1", utf8 "心"); (utf8 "戌2", utf8 "室"); (utf8 "戌3", utf8 "参"); (utf8 "戌4", utf8 "角");
  (utf8 "戌5", utf8 "牛"); (utf8 "戌6", utf8 "胃"); (utf8 "戌0", utf8 "星"); (utf8 "亥1", utf8 "张"); (utf8 "亥2", utf8 "尾"); (utf8 "亥3", utf8 "壁");
  (utf8 "亥4", utf8 "井"); (utf8 "亥5", utf8 "亢"); (utf8 "亥6", utf8 "女"); (utf8 "亥0", utf8 "昴"); (utf8 "卯1", utf8 "张"); (utf8 "卯2", utf8 "尾");
  (utf8 "卯3", utf8 "壁"); (utf8 "卯4", utf8 "井"); (utf8 "卯5", utf8 "亢"); (utf8 "卯6", utf8 "女"); (utf8 "卯0", utf8 "昴"); (utf8 "未1", utf8 "张");
  (utf8 "未2", utf8 "尾"); (utf8 "未3", utf8 "壁"); (utf8 "未4", utf8 "井"); (utf8 "未5", utf8 "亢"); (utf8 "未6", utf8 "女"); (utf8 "未0", utf8 "昴")].

(** util/LunarUtil.py:251-280 [LunarUtil.XIU_LUCK] *)
Definition LunarUtil_XIU_LUCK : list (str * str) := Eval vm_compute in [
  (utf8 "角", utf8 "吉"); (utf8 "亢", utf8 "凶"); (utf8 "氐", utf8 "凶"); (utf8 "房", utf8 "吉"); (utf8 "心", utf8 "凶"); (utf8 "尾", utf8 "吉");
  (utf8 "箕", utf8 "吉"); (utf8 "斗", utf8 "吉"); (utf8 "牛", utf8 "凶"); (utf8 "女", utf8 "凶"); (utf8 "虚", utf8 "凶"); (utf8 "危", utf8 "凶");
  (utf8 "室", utf8 "吉"); (utf8 "壁", utf8 "吉"); (utf8 "奎", utf8 "凶"); (utf8 "娄", utf8 "吉"); (utf8 "胃", utf8 "吉"); (utf8 "昴", utf8 "凶");
  (utf8 "毕", utf8 "吉"); (utf8 "觜", utf8 "凶"); (utf8 "参", utf8 "吉"); (utf8 "井", utf8 "吉"); (utf8 "鬼", utf8 "凶"); (utf8 "柳", utf8 "凶");
  (utf8 "星", utf8 "凶"); (utf8 "张", utf8 "吉"); (utf8 "翼", utf8 "凶"); (utf8 "轸", utf8 "吉")].

(** util/LunarUtil.py:282-311 [LunarUtil.XIU_SONG] *)
Definition LunarUtil_XIU_SONG : list (str * str) := Eval vm_compute in [
  (utf8 "角", utf8 "角星造作主荣昌，外进田财及女郎，嫁娶婚姻出贵子，文人及第见君王，惟有埋葬不可用，三年之后主瘟疫，起工修筑坟基地，堂前立见主人凶。");
  (utf8 "亢", utf8 "亢星造作长房当，十日之中主有殃，田地消磨官失职，接运定是虎狼伤，嫁娶婚姻用此日，儿孙新妇守空房，埋葬若还用此日，当时害祸主重伤。");
  (utf8 "氐", utf8 "氐星造作主灾凶，费尽田园仓库空，埋葬不可用此日，悬绳吊颈祸重重，若是婚姻离别散，夜招浪子入房中，行船必定遭沉没，更生聋哑子孙穷。");
  (utf8 "房", utf8 "房星造作田园进，钱财牛马遍山岗，更招外处田庄宅，荣华富贵福禄康，埋葬若然用此日，高官进职拜君王，嫁娶嫦娥至月殿，三年抱子至朝堂。");
  (utf8 "心", utf8 "心星造作大为凶，更遭刑讼狱囚中，忤逆官非宅产退，埋葬卒暴死相从，婚姻若是用此日，子死儿亡泪满胸，三年之内连遭祸，事事教君没始终。");
  (utf8 "尾", utf8 "尾星造作主天恩，富贵荣华福禄增，招财进宝兴家宅，和合婚姻贵子孙，埋葬若能依此日，男清女正子孙兴，开门放水招田宅，代代公侯远播名。");
  (utf8 "箕", utf8 "箕星造作主高强，岁岁年年大吉昌，埋葬修坟大吉利，田蚕牛马遍山岗，开门放水招田宅，箧满金银谷满仓，福荫高官加禄位，六亲丰禄乐安康。");
  (utf8 "斗", utf8 "斗星造作主招财，文武官员位鼎台，田宅家财千万进，坟堂修筑贵富来，开门放水招牛马，旺蚕男女主和谐，遇此吉宿来照护，时支福庆永无灾。");
  (utf8 "牛", utf8 "牛星造作主灾危，九横三灾不可推，家宅不安人口退，田蚕不利主人衰，嫁娶婚姻皆自损，金银财谷渐无之，若是开门并放水，牛猪羊马亦伤悲。");
  (utf8 "女", utf8 "女星造作损婆娘，兄弟相嫌似虎狼，埋葬生灾逢鬼怪，颠邪疾病主瘟惶，为事遭官财失散，泻利留连不可当，开门放水用此日，全家财散主离乡。");
  (utf8 "虚", utf8 "虚星造作主灾殃，男女孤眠不一双，内乱风声无礼节，儿孙媳妇伴人床，开门放水遭灾祸，虎咬蛇伤又卒亡，三三五五连年病，家破人亡不可当。");
  (utf8 "危", utf8 "危星不可造高楼，自遭刑吊见血光，三年孩子遭水厄，后生出外永不还，埋葬若还逢此日，周年百日取高堂，三年两载一悲伤，开门放水到官堂。");
  (utf8 "室", utf8 "室星修造进田牛，儿孙代代近王侯，家贵荣华天上至，寿如彭祖八千秋，开门放水招财帛，和合婚姻生贵儿，埋葬若能依此日，门庭兴旺福无休。");
  (utf8 "壁", utf8 "壁星造作主增财，丝蚕大熟福滔天，奴婢自来人口进，开门放水出英贤，埋葬招财官品进，家中诸事乐陶然，婚姻吉利主贵子，早播名誉著祖鞭。");
  (utf8 "奎", utf8 "奎星造作得祯祥，家内荣和大吉昌，若是埋葬阴卒死，当年定主两三伤，看看军令刑伤到，重重官事主瘟惶，开门放水遭灾祸，三年两次损儿郎。");
  (utf8 "娄", utf8 "娄星修造起门庭，财旺家和事事兴，外进钱财百日进，一家兄弟播高名，婚姻进益生贵子，玉帛金银箱满盈，放水开门皆吉利，男荣女贵寿康宁。");
  (utf8 "胃", utf8 "胃星造作事如何，家贵荣华喜气多，埋葬贵临官禄位，夫妇齐眉永保康，婚姻遇此家富贵，三灾九祸不逢他，从此门前多吉庆，儿孙代代拜金阶。");
  (utf8 "昴", utf8 "昴星造作进田牛，埋葬官灾不得休，重丧二日三人死，尽卖田园不记增，开门放水招灾祸，三岁孩儿白了头，婚姻不可逢此日，死别生离是可愁。");
  (utf8 "毕", utf8 "毕星造作主光前，买得田园有余钱，埋葬此日添官职，田蚕大熟永丰年，开门放水多吉庆，合家人口得安然，婚姻若得逢此日，生得孩儿福寿全。");
  (utf8 "觜", utf8 "觜星造作有徒刑，三年必定主伶丁，埋葬卒死多因此，取定寅年使杀人，三丧不止皆由此，一人药毒二人身，家门田地皆退败，仓库金银化作尘。");
  (utf8 "参", utf8 "参星造作旺人家，文星照耀大光华，只因造作田财旺，埋葬招疾哭黄沙，开门放水加官职，房房子孙见田加，婚姻许遁遭刑克，男女朝开幕落花。");
  (utf8 "井", utf8 "井星造作旺蚕田，金榜题名第一光，埋葬须防惊卒死，狂颠风疾入黄泉，开门放水招财帛，牛马猪羊旺莫言，贵人田塘来入宅，儿孙兴旺有余钱。");
  (utf8 "鬼", utf8 "鬼星起造卒人亡，堂前不见主人郎，埋葬此日官禄至，儿孙代代近君王，开门放水须伤死，嫁娶夫妻不久长，修土筑墙伤产女，手扶双女泪汪汪。");
  (utf8 "柳", utf8 "柳星造作主遭官，昼夜偷闭不暂安，埋葬瘟惶多疾病，田园退尽守冬寒，开门放水遭聋瞎，腰驼背曲似弓弯，更有棒刑宜谨慎，妇人随客走盘桓。");
  (utf8 "星", utf8 "星宿日好造新房，进职加官近帝王，不可埋葬并放水，凶星临位女人亡，生离死别无心恋，要自归休别嫁郎，孔子九曲殊难度，放水开门天命伤。");
  (utf8 "张", utf8 "张星日好造龙轩，年年并见进庄田，埋葬不久升官职，代代为官近帝前，开门放水招财帛，婚姻和合福绵绵，田蚕人满仓库满，百般顺意自安然。");
  (utf8 "翼", utf8 "翼星不利架高堂，三年二载见瘟惶，埋葬若还逢此日，子孙必定走他乡，婚姻此日不宜利，归家定是不相当，开门放水家须破，少女恋花贪外郎。");
  (utf8 "轸", utf8 "轸星临水造龙宫，代代为官受皇封，富贵荣华增寿禄，库满仓盈自昌隆，埋葬文昌来照助，宅舍安宁不见凶，更有为官沾帝宠，婚姻龙子入龙宫。")].

(** util/LunarUtil.py:313-318 [LunarUtil.SHOU] *)
Definition LunarUtil_SHOU : list (str * str) := Eval vm_compute in [
  (utf8 "东", utf8 "青龙"); (utf8 "南", utf8 "朱雀"); (utf8 "西", utf8 "白虎"); (utf8 "北", utf8 "玄武")].

(** util/LunarUtil.py:320 [LunarUtil.CHONG] *)
Definition LunarUtil_CHONG : list str := Eval vm_compute in [
  utf8 "午"; utf8 "未"; utf8 "申"; utf8 "酉"; utf8 "戌"; utf8 "亥"; utf8 "子"; utf8 "丑"; utf8 "寅"; utf8 "卯"; utf8 "辰"; utf8 "巳"].

(** util/LunarUtil.py:322 [LunarUtil.CHONG_GAN] *)
Definition LunarUtil_CHONG_GAN : list str := Eval vm_compute in [
  utf8 "戊"; utf8 "己"; utf8 "庚"; utf8 "辛"; utf8 "壬"; utf8 "癸"; utf8 "甲"; utf8 "乙"; utf8 "丙"; utf8 "丁"].

(** util/LunarUtil.py:324 [LunarUtil.CHONG_GAN_TIE] *)
Definition LunarUtil_CHONG_GAN_TIE : list str := Eval vm_compute in [
  utf8 "己"; utf8 "戊"; utf8 "辛"; utf8 "庚"; utf8 "癸"; utf8 "壬"; utf8 "乙"; utf8 "甲"; utf8 "丁"; utf8 "丙"].

(** util/LunarUtil.py:326 [LunarUtil.CHONG_GAN_4] *)
Definition LunarUtil_CHONG_GAN_4 : list str := Eval vm_compute in [
  utf8 "庚"; utf8 "辛"; utf8 "壬"; utf8 "癸"; utf8 ""; utf8 ""; utf8 "甲"; utf8 "乙"; utf8 "丙"; utf8 "丁"].

(** util/LunarUtil.py:328 [LunarUtil.HE_GAN_5] *)
Definition LunarUtil_HE_GAN_5 : list str := Eval vm_compute in [
  utf8 "己"; utf8 "庚"; utf8 "辛"; utf8 "壬"; utf8 "癸"; utf8 "甲"; utf8 "乙"; utf8 "丙"; utf8 "丁"; utf8 "戊"].

(** util/LunarUtil.py:330 [LunarUtil.HE_ZHI_6] *)
Definition LunarUtil_HE_ZHI_6 : list str := Eval vm_compute in [
  utf8 "丑"; utf8 "子"; utf8 "亥"; utf8 "戌"; utf8 "酉"; utf8 "申"; utf8 "未"; utf8 "午"; utf8 "巳"; utf8 "辰"; utf8 "卯"; utf8 "寅"].

(** util/LunarUtil.py:332-345 [LunarUtil.SHA] *)
Definition LunarUtil_SHA : list (str * str) := Eval vm_compute in [
  (utf8 "子", utf8 "南"); (utf8 "丑", utf8 "东"); (utf8 "寅", utf8 "北"); (utf8 "卯", utf8 "西"); (utf8 "辰", utf8 "南"); (utf8 "巳", utf8 "东");
  (utf8 "午", utf8 "北"); (utf8 "未", utf8 "西"); (utf8 "申", utf8 "南"); (utf8 "酉", utf8 "东"); (utf8 "戌", utf8 "北"); (utf8 "亥", utf8 "西")].

(** util/LunarUtil.py:347-357 [LunarUtil.POSITION_DESC] *)
Definition LunarUtil_POSITION_DESC : list (str * str) := Eval vm_compute in [
  (utf8 "坎", utf8 "正北"); (utf8 "艮", utf8 "东北"); (utf8 "震", utf8 "正东"); (utf8 "巽", utf8 "东南"); (utf8 "离", utf8 "正南");
  (utf8 "坤", utf8 "西南"); (utf8 "兑", utf8 "正西"); (utf8 "乾", utf8 "西北"); (utf8 "中", utf8 "中宫")].

(** util/LunarUtil.py:359-388 [LunarUtil.GONG] *)
Definition LunarUtil_GONG : list (str * str) := Eval vm_compute in [
  (utf8 "角", utf8 "东"); (utf8 "井", utf8 "南"); (utf8 "奎", utf8 "西"); (utf8 "斗", utf8 "北"); (utf8 "亢", utf8 "东"); (utf8 "鬼", utf8 "南");
  (utf8 "娄", utf8 "西"); (utf8 "牛", utf8 "北"); (utf8 "氐", utf8 "东"); (utf8 "柳", utf8 "南"); (utf8 "胃", utf8 "西"); (utf8 "女", utf8 "北");
  (utf8 "房", utf8 "东"); (utf8 "星", utf8 "南"); (utf8 "昴", utf8 "西"); (utf8 "虚", utf8 "北"); (utf8 "心", utf8 "东"); (utf8 "张", utf8 "南");
  (utf8 "毕", utf8 "西"); (utf8 "危", utf8 "北"); (utf8 "尾", utf8 "东"); (utf8 "翼", utf8 "南"); (utf8 "觜", utf8 "西"); (utf8 "室", utf8 "北");
  (utf8 "箕", utf8 "东"); (utf8 "轸", utf8 "南"); (utf8 "参", utf8 "西"); (utf8 "壁", utf8 "北")].

(** util/LunarUtil.py:390-419 [LunarUtil.ZHENG] *)
Definition LunarUtil_ZHENG : list (str * str) := Eval vm_compute in [
  (utf8 "角", utf8 "木"); (utf8 "井", utf8 "木"); (utf8 "奎", utf8 "木"); (utf8 "斗", utf8 "木"); (utf8 "亢", utf8 "金"); (utf8 "鬼", utf8 "金");
  (utf8 "娄", utf8 "金"); (utf8 "牛", utf8 "金"); (utf8 "氐", utf8 "土"); (utf8 "柳", utf8 "土"); (utf8 "胃", utf8 "土"); (utf8 "女", utf8 "土");
  (utf8 "房", utf8 "日"); (utf8 "星", utf8 "日"); (utf8 "昴", utf8 "日"); (utf8 "虚", utf8 "日"); (utf8 "心", utf8 "月"); (utf8 "张", utf8 "月");
  (utf8 "毕", utf8 "月"); (utf8 "危", utf8 "月"); (utf8 "尾", utf8 "火"); (utf8 "翼", utf8 "火"); (utf8 "觜", utf8 "火"); (utf8 "室", utf8 "火");
  (utf8 "箕", utf8 "水"); (utf8 "轸", utf8 "水"); (utf8 "参", utf8 "水"); (utf8 "壁", utf8 "水")].

(** util/LunarUtil.py:421-450 [LunarUtil.ANIMAL] *)
Definition LunarUtil_ANIMAL : list (str * str) := Eval vm_compute in [
  (utf8 "角", utf8 "蛟"); (utf8 "斗", utf8 "獬"); (utf8 "奎", utf8 "狼"); (utf8 "井", utf8 "犴"); (utf8 "亢", utf8 "龙"); (utf8 "牛", utf8 "牛");
  (utf8 "娄", utf8 "狗"); (utf8 "鬼", utf8 "羊"); (utf8 "女", utf8 "蝠"); (utf8 "氐", utf8 "貉"); (utf8 "胃", utf8 "彘"); (utf8 "柳", utf8 "獐");
  (utf8 "房", utf8 "兔"); (utf8 "虚", utf8 "鼠"); (utf8 "昴", utf8 "鸡"); (utf8 "星", utf8 "马"); (utf8 "心", utf8 "狐"); (utf8 "危", utf8 "燕");
  (utf8 "毕", utf8 "乌"); (utf8 "张", utf8 "鹿"); (utf8 "尾", utf8 "虎"); (utf8 "室", utf8 "猪"); (utf8 "觜", utf8 "猴"); (utf8 "翼", utf8 "蛇");
  (utf8 "箕", utf8 "豹"); (utf8 "壁", utf8 "獝"); (utf8 "参", utf8 "猿"); (utf8 "轸", utf8 "蚓")].

(** util/LunarUtil.py:452-463 [LunarUtil.WU_XING_GAN] *)
Definition LunarUtil_WU_XING_GAN : list (str * str) := Eval vm_compute in [
  (utf8 "甲", utf8 "木"); (utf8 "乙", utf8 "木"); (utf8 "丙", utf8 "火"); (utf8 "丁", utf8 "火"); (utf8 "戊", utf8 "土"); (utf8 "己", utf8 "土");
  (utf8 "庚", utf8 "金"); (utf8 "辛", utf8 "金"); (utf8 "壬", utf8 "水"); (utf8 "癸", utf8 "水")].

(** util/LunarUtil.py:465-478 [LunarUtil.WU_XING_ZHI] *)
Definition LunarUtil_WU_XING_ZHI : list (str * str) := Eval vm_compute in [
  (utf8 "寅", utf8 "木"); (utf8 "卯", utf8 "木"); (utf8 "巳", utf8 "火"); (utf8 "午", utf8 "火"); (utf8 "辰", utf8 "土"); (utf8 "丑", utf8 "土");
  (utf8 "戌", utf8 "土"); (utf8 "未", utf8 "土"); (utf8 "申", utf8 "金"); (utf8 "酉", utf8 "金"); (utf8 "亥", utf8 "水"); (utf8 "子", utf8 "水")].

(** util/LunarUtil.py:480-541 [LunarUtil.NAYIN] *)
Definition LunarUtil_NAYIN : list (str * str) := Eval vm_compute in [
  (utf8 "甲子", utf8 "海中金"); (utf8 "甲午", utf8 "沙中金"); (utf8 "丙寅", utf8 "炉中火"); (utf8 "丙申", utf8 "山下火");
  (utf8 "戊辰", utf8 "大林木"); (utf8 "戊戌", utf8 "平地木"); (utf8 "庚午", utf8 "路旁土"); (utf8 "庚子", utf8 "壁上土");
  (utf8 "壬申", utf8 "剑锋金"); (utf8 "壬寅", utf8 "金箔金"); (utf8 "甲戌", utf8 "山头火"); (utf8 "甲辰", utf8 "覆灯火");
  (utf8 "丙子", utf8 "涧下水"); (utf8 "丙午", utf8 "天河水"); (utf8 "戊寅", utf8 "城头土"); (utf8 "戊申", utf8 "大驿土");
  (utf8 "庚辰", utf8 "白蜡金"); (utf8 "庚戌", utf8 "钗钏金"); (utf8 "壬午", utf8 "杨柳木"); (utf8 "壬子", utf8 "桑柘木");
  (utf8 "甲申", utf8 "泉中水"); (utf8 "甲寅", utf8 "大溪水"); (utf8 "丙戌", utf8 "屋上土"); (utf8 "丙辰", utf8 "沙中土");
  (utf8 "戊子", utf8 "霹雳火"); (utf8 "戊午", utf8 "天上火"); (utf8 "庚寅", utf8 "松柏木"); (utf8 "庚申", utf8 "石榴木");
  (utf8 "壬辰", utf8 "长流水"); (utf8 "壬戌", utf8 "大海水"); (utf8 "乙丑", utf8 "海中金"); (utf8 "乙未", utf8 "沙中金");
  (utf8 "丁卯", utf8 "炉中火"); (utf8 "丁酉", utf8 "山下火"); (utf8 "己巳", utf8 "大林木"); (utf8 "己亥", utf8 "平地木");
  (utf8 "辛未", utf8 "路旁土"); (utf8 "辛丑", utf8 "壁上土"); (utf8 "癸酉", utf8 "剑锋金"); (utf8 "癸卯", utf8 "金箔金");
  (utf8 "乙亥", utf8 "山头火"); (utf8 "乙巳", utf8 "覆灯火"); (utf8 "丁丑", utf8 "涧下水"); (utf8 "丁未", utf8 "天河水");
  (utf8 "己卯", utf8 "城头土"); (utf8 "己酉", utf8 "大驿土"); (utf8 "辛巳", utf8 "白蜡金"); (utf8 "辛亥", utf8 "钗钏金");
  (utf8 "癸未", utf8 "杨柳木"); (utf8 "癸丑", utf8 "桑柘木"); (utf8 "乙酉", utf8 "泉中水"); (utf8 "乙卯", utf8 "大溪水");
  (utf8 "丁亥", utf8 "屋上土"); (utf8 "丁巳", utf8 "沙中土"); (utf8 "己丑", utf8 "霹雳火"); (utf8 "己未", utf8 "天上火");
  (utf8 "辛卯", utf8 "松柏木"); (utf8 "辛酉", utf8 "石榴木"); (utf8 "癸巳", utf8 "长流水"); (utf8 "癸亥", utf8 "大海水")].

(** util/LunarUtil.py:543-644 [LunarUtil.SHI_SHEN] *)
Definition LunarUtil_SHI_SHEN : list (str * str) := Eval vm_compute in [
  (utf8 "甲甲", utf8 "比肩"); (utf8 "甲乙", utf8 "劫财"); (utf8 "甲丙", utf8 "食神"); (utf8 "甲丁", utf8 "伤官"); (utf8 "甲戊", utf8 "偏财");
  (utf8 "甲己", utf8 "正财"); (utf8 "甲庚", utf8 "七杀"); (utf8 "甲辛", utf8 "正官"); (utf8 "甲壬", utf8 "偏印"); (utf8 "甲癸", utf8 "正印");
  (utf8 "乙乙", utf8 "比肩"); (utf8 "乙甲", utf8 "劫财"); (utf8 "乙丁", utf8 "食神"); (utf8 "乙丙", utf8 "伤官"); (utf8 "乙己", utf8 "偏财");
  (utf8 "乙戊", utf8 "正财"); (utf8 "乙辛", utf8 "七杀"); (utf8 "乙庚", utf8 "正官"); (utf8 "乙癸", utf8 "偏印"); (utf8 "乙壬", utf8 "正印");
  (utf8 "丙丙", utf8 "比肩"); (utf8 "丙丁", utf8 "劫财"); (utf8 "丙戊", utf8 "食神"); (utf8 "丙己", utf8 "伤官"); (utf8 "丙庚", utf8 "偏财");
  (utf8 "丙辛", utf8 "正财"); (utf8 "丙壬", utf8 "七杀"); (utf8 "丙癸", utf8 "正官"); (utf8 "丙甲", utf8 "偏印"); (utf8 "丙乙", utf8 "正印");
  (utf8 "丁丁", utf8 "比肩"); (utf8 "丁丙", utf8 "劫财"); (utf8 "丁己", utf8 "食神"); (utf8 "丁戊", utf8 "伤官"); (utf8 "丁辛", utf8 "偏财");
  (utf8 "丁庚", utf8 "正财"); (utf8 "丁癸", utf8 "七杀"); (utf8 "丁壬", utf8 "正官"); (utf8 "丁乙", utf8 "偏印"); (utf8 "丁甲", utf8 "正印");
  (utf8 "戊戊", utf8 "比肩"); (utf8 "戊己", utf8 "劫财"); (utf8 "戊庚", utf8 "食神"); (utf8 "戊辛", utf8 "伤官"); (utf8 "戊壬", utf8 "偏财");
  (utf8 "戊癸", utf8 "正财"); (utf8 "戊甲", utf8 "七杀"); (utf8 "戊乙", utf8 "正官"); (utf8 "戊丙", utf8 "偏印"); (utf8 "戊丁", utf8 "正印");
  (utf8 "己己", utf8 "比肩"); (utf8 "己戊", utf8 "劫财"); (utf8 "己辛", utf8 "食神"); (utf8 "己庚", utf8 "伤官"); (utf8 "己癸", utf8 "偏财");
  (utf8 "己壬", utf8 "正财"); (utf8 "己乙", utf8 "七杀"); (utf8 "己甲", utf8 "正官"); (utf8 "己丁", utf8 "偏印"); (utf8 "己丙", utf8 "正印");
  (utf8 "庚庚", utf8 "比肩"); (utf8 "庚辛", utf8 "劫财"); (utf8 "庚壬", utf8 "食神"); (utf8 "庚癸", utf8 "伤官"); (utf8 "庚甲", utf8 "偏财");
  (utf8 "庚乙", utf8 "正财"); (utf8 "庚丙", utf8 "七杀"); (utf8 "庚丁", utf8 "正官"); (utf8 "庚戊", utf8 "偏印"); (utf8 "庚己", utf8 "正印");
  (utf8 "辛辛", utf8 "比肩"); (utf8 "辛庚", utf8 "劫财"); (utf8 "辛癸", utf8 "食神"); (utf8 "辛壬", utf8 "伤官"); (utf8 "辛乙", utf8 "偏财");
  (utf8 "辛甲", utf8 "正财"); (utf8 "辛丁", utf8 "七杀"); (utf8 "辛丙", utf8 "正官"); (utf8 "辛己", utf8 "偏印"); (utf8 "辛戊", utf8 "正印");
  (utf8 "壬壬", utf8 "比肩"); (utf8 "壬癸", utf8 "劫财"); (utf8 "壬甲", utf8 "食神"); (utf8 "壬乙", utf8 "伤官"); (utf8 "壬丙", utf8 "偏财");
  (utf8 "壬丁", utf8 "正财"); (utf8 "壬戊", utf8 "七杀"); (utf8 "壬己", utf8 "正官"); (utf8 "壬庚", utf8 "偏印"); (utf8 "壬辛", utf8 "正印");
  (utf8 "癸癸", utf8 "比肩"); (utf8 "癸壬", utf8 "劫财"); (utf8 "癸乙", utf8 "食神"); (utf8 "癸甲", utf8 "伤官"); (utf8 "癸丁", utf8 "偏财");
  (utf8 "癸丙", utf8 "正财"); (utf8 "癸己", utf8 "七杀"); (utf8 "癸戊", utf8 "正官"); (utf8 "癸辛", utf8 "偏印"); (utf8 "癸庚", utf8 "正印")].

(** util/LunarUtil.py:646-659 [LunarUtil.ZHI_HIDE_GAN] *)
Definition LunarUtil_ZHI_HIDE_GAN : list (str * list str) := Eval vm_compute in [
  (utf8 "子", [utf8 "癸"]); (utf8 "丑", [utf8 "己"; utf8 "癸"; utf8 "辛"]); (utf8 "寅", [utf8 "甲"; utf8 "丙"; utf8 "戊"]); (utf8 "卯", [utf8 "乙"]);
  (utf8 "辰", [utf8 "戊"; utf8 "乙"; utf8 "癸"]); (utf8 "巳", [utf8 "丙"; utf8 "庚"; utf8 "戊"]); (utf8 "午", [utf8 "丁"; utf8 "己"]);
  (utf8 "未", [utf8 "己"; utf8 "丁"; utf8 "乙"]); (utf8 "申", [utf8 "庚"; utf8 "壬"; utf8 "戊"]); (utf8 "酉", [utf8 "辛"]);
  (utf8 "戌", [utf8 "戊"; utf8 "辛"; utf8 "丁"]); (utf8 "亥", [utf8 "壬"; utf8 "甲"])].
