(** Generated by tools/mktables.py: the data literals of /repo/db/field/data and
    of db/field/operate/district.go, copied verbatim. *)
From Verif Require Import Base.

(** db/field/data/city.go:19-412 CityList *)
Definition CityList : bytes := str "万宁市	万宁
三亚市	三亚
三明市	三明
三沙市	三沙
上海市	上海
上饶市	上饶
东方市	东方
东莞市	东莞
东营市	东营
中卫市	中卫
中山市	中山
临汾市	临汾
临沂市	临沂
临沧市	临沧
临高县	临高
丹东市	丹东
丽水市	丽水
丽江市	丽江
乌海市	乌海
乐山市	乐山
九江市	九江
云林县	云林
云浮市	云浮
亳州市	亳州
仙桃市	仙桃
伊春市	伊春
佛山市	佛山
保定市	保定
保山市	保山
信阳市	信阳
儋州市	儋州
六安市	六安
兰州市	兰州
兴安盟	兴安
内江市	内江
包头市	包头
北京市	北京
北屯市	北屯
北海市	北海
十堰市	十堰
南京市	南京
南充市	南充
南宁市	南宁
南平市	南平
南投县	南投
南昌市	南昌
南通市	南通
南阳市	南阳
厦门市	厦门
双河市	双河
台东县	台东
台中市	台中
台北市	台北
台南市	台南
台州市	台州
合肥市	合肥
吉安市	吉安
吉林市	吉林
吕梁市	吕梁
吴忠市	吴忠
周口市	周口
咸宁市	咸宁
咸阳市	咸阳
哈密市	哈密
唐山市	唐山
商丘市	商丘
商洛市	商洛
嘉义县	嘉义
嘉义市	嘉义
嘉兴市	嘉兴
四平市	四平
固原市	固原
基隆市	基隆
大同市	大同
大庆市	大庆
大连市	大连
天水市	天水
天津市	天津
天门市	天门
太原市	太原
威海市	威海
娄底市	娄底
孝感市	孝感
宁德市	宁德
宁波市	宁波
安庆市	安庆
安康市	安康
安阳市	安阳
安顺市	安顺
定安县	定安
定西市	定西
宜兰县	宜兰
宜宾市	宜宾
宜昌市	宜昌
宜春市	宜春
宝鸡市	宝鸡
宣城市	宣城
宿州市	宿州
宿迁市	宿迁
屏东县	屏东
屯昌县	屯昌
山南市	山南
岳阳市	岳阳
崇左市	崇左
巴中市	巴中
常州市	常州
常德市	常德
平凉市	平凉
广元市	广元
广安市	广安
广州市	广州
庆阳市	庆阳
廊坊市	廊坊
延安市	延安
开封市	开封
张掖市	张掖
彰化县	彰化
徐州市	徐州
德州市	德州
德阳市	德阳
忻州市	忻州
怀化市	怀化
惠州市	惠州
成都市	成都
扬州市	扬州
承德市	承德
抚州市	抚州
抚顺市	抚顺
拉萨市	拉萨
揭阳市	揭阳
文昌市	文昌
新乡市	新乡
新余市	新余
新北市	新北
新竹县	新竹
新竹市	新竹
无锡市	无锡
日照市	日照
昆明市	昆明
昆玉市	昆玉
昌都市	昌都
昭通市	昭通
晋中市	晋中
晋城市	晋城
普洱市	普洱
曲靖市	曲靖
朔州市	朔州
朝阳市	朝阳
本溪市	本溪
来宾市	来宾
杭州市	杭州
松原市	松原
林芝市	林芝
枣庄市	枣庄
柳州市	柳州
株洲市	株洲
桂林市	桂林
桃园市	桃园
梅州市	梅州
梧州市	梧州
榆林市	榆林
武威市	武威
武汉市	武汉
毕节市	毕节
永州市	永州
汉中市	汉中
汕头市	汕头
汕尾市	汕尾
江门市	江门
池州市	池州
沈阳市	沈阳
沧州市	沧州
河池市	河池
河源市	河源
泉州市	泉州
泰安市	泰安
泰州市	泰州
泸州市	泸州
洛阳市	洛阳
济南市	济南
济宁市	济宁
济源市	济源
海东市	海东
海口市	海口
淄博市	淄博
淮北市	淮北
淮南市	淮南
淮安市	淮安
深圳市	深圳
清远市	清远
温州市	温州
渭南市	渭南
湖州市	湖州
湘潭市	湘潭
湛江市	湛江
滁州市	滁州
滨州市	滨州
漯河市	漯河
漳州市	漳州
潍坊市	潍坊
潜江市	潜江
潮州市	潮州
澄迈县	澄迈
澎湖县	澎湖
濮阳市	濮阳
烟台市	烟台
焦作市	焦作
玉林市	玉林
玉溪市	玉溪
珠海市	珠海
琼海市	琼海
白城市	白城
白山市	白山
白银市	白银
百色市	百色
益阳市	益阳
盐城市	盐城
盘锦市	盘锦
眉山市	眉山
福州市	福州
绍兴市	绍兴
绥化市	绥化
绵阳市	绵阳
聊城市	聊城
肇庆市	肇庆
自贡市	自贡
舟山市	舟山
芜湖市	芜湖
花莲县	花莲
苏州市	苏州
苗栗县	苗栗
茂名市	茂名
荆州市	荆州
荆门市	荆门
莆田市	莆田
莱芜市	莱芜
菏泽市	菏泽
萍乡市	萍乡
营口市	营口
蚌埠市	蚌埠
衡水市	衡水
衡阳市	衡阳
衢州市	衢州
襄阳市	襄阳
西宁市	西宁
西安市	西安
许昌市	许昌
贵港市	贵港
贵阳市	贵阳
贺州市	贺州
资阳市	资阳
赣州市	赣州
赤峰市	赤峰
辽源市	辽源
辽阳市	辽阳
达州市	达州
运城市	运城
连江县	连江
通化市	通化
通辽市	通辽
遂宁市	遂宁
遵义市	遵义
邢台市	邢台
那曲市	那曲
邯郸市	邯郸
邵阳市	邵阳
郑州市	郑州
郴州市	郴州
鄂州市	鄂州
酒泉市	酒泉
重庆市	重庆
金华市	金华
金昌市	金昌
金门县	金门
钦州市	钦州
铁岭市	铁岭
铜仁市	铜仁
铜川市	铜川
铜陵市	铜陵
银川市	银川
锦州市	锦州
镇江市	镇江
长春市	长春
长沙市	长沙
长治市	长治
阜新市	阜新
阜阳市	阜阳
阳江市	阳江
阳泉市	阳泉
陇南市	陇南
随州市	随州
雅安市	雅安
青岛市	青岛
鞍山市	鞍山
韶关市	韶关
高雄市	高雄
鸡西市	鸡西
鹤壁市	鹤壁
鹤岗市	鹤岗
鹰潭市	鹰潭
黄冈市	黄冈
黄山市	黄山
黄石市	黄石
黑河市	黑河
龙岩市	龙岩
中国台湾	台湾
中国香港	香港
和田地区	和田
喀什地区	喀什
塔城地区	塔城
那曲地区	那曲
阿里地区	阿里
七台河市	七台河
三门峡市	三门峡
五家渠市	五家渠
五指山市	五指山
佳木斯市	佳木斯
六盘水市	六盘水
双鸭山市	双鸭山
吐鲁番市	吐鲁番
哈尔滨市	哈尔滨
嘉峪关市	嘉峪关
平顶山市	平顶山
张家口市	张家口
张家界市	张家界
攀枝花市	攀枝花
日喀则市	日喀则
景德镇市	景德镇
牡丹江市	牡丹江
石嘴山市	石嘴山
石家庄市	石家庄
石河子市	石河子
秦皇岛市	秦皇岛
胡杨河市	胡杨河
葫芦岛市	葫芦岛
连云港市	连云港
铁门关市	铁门关
防城港市	防城港
阿拉善盟	阿拉善
阿拉尔市	阿拉尔
马鞍山市	马鞍山
驻马店市	驻马店
神农架林区	神农架
阿克苏地区	阿克苏
阿勒泰地区	阿勒泰
乌兰察布市	乌兰察布
乌鲁木齐市	乌鲁木齐
克拉玛依市	克拉玛依
可克达拉市	可克达拉
呼伦贝尔市	呼伦贝尔
呼和浩特市	呼和浩特
图木舒克市	图木舒克
巴彦淖尔市	巴彦淖尔
鄂尔多斯市	鄂尔多斯
锡林郭勒盟	锡林郭勒
齐齐哈尔市	齐齐哈尔
大兴安岭地区	大兴安岭
临夏回族自治州	临夏
乐东黎族自治县	乐东
凉山彝族自治州	凉山
大理白族自治州	大理
昌吉回族自治州	昌吉
昌江黎族自治县	昌江
果洛藏族自治州	果洛
楚雄彝族自治州	楚雄
海北藏族自治州	海北
海南藏族自治州	海南
澳门特别行政区	澳门
玉树藏族自治州	玉树
甘南藏族自治州	甘南
甘孜藏族自治州	甘孜
白沙黎族自治县	白沙
迪庆藏族自治州	迪庆
陵水黎族自治县	陵水
黄南藏族自治州	黄南
伊犁哈萨克自治州	伊犁
延边朝鲜族自治州	延边
怒江傈僳族自治州	怒江
保亭黎族苗族自治县	保亭
文山壮族苗族自治州	文山
琼中黎族苗族自治县	琼中
阿坝藏族羌族自治州	阿坝
博尔塔拉蒙古自治州	博尔塔拉
巴音郭楞蒙古自治州	巴音郭楞
西双版纳傣族自治州	西双版纳
德宏傣族景颇族自治州	德宏
恩施土家族苗族自治州	恩施
海西蒙古族藏族自治州	海西
湘西土家族苗族自治州	湘西
红河哈尼族彝族自治州	红河
黔南布依族苗族自治州	黔南
黔东南苗族侗族自治州	黔东南
黔西南布依族苗族自治州	黔西南
克孜勒苏柯尔克孜自治州	克孜勒苏".

(** db/field/data/province.go:19-52 ProvinceList *)
Definition ProvinceList : bytes := str "上海市	上海
云南省	云南
北京市	北京
吉林省	吉林
四川省	四川
天津市	天津
安徽省	安徽
山东省	山东
山西省	山西
广东省	广东
江苏省	江苏
江西省	江西
河北省	河北
河南省	河南
浙江省	浙江
海南省	海南
湖北省	湖北
湖南省	湖南
甘肃省	甘肃
福建省	福建
贵州省	贵州
辽宁省	辽宁
重庆市	重庆
陕西省	陕西
青海省	青海
中国台湾	台湾
中国香港	香港
黑龙江省	黑龙江
西藏自治区	西藏
内蒙古自治区	内蒙古
宁夏回族自治区	宁夏
广西壮族自治区	广西
澳门特别行政区	澳门
新疆维吾尔自治区	新疆".

(** db/field/data/isp.go:19-152 ISPList *)
Definition ISPList : bytes := str "ASN for Shandong Provincial Net of CT	电信
ASN for TIANJIN Provincial Net of CT	电信
Beihai	电信
Beijing Dian-Xin-Tong Network Technologies Co., Ltd.	鹏博士
Beijing XiRang Media Cultural Co., Ltd.	鹏博士
CERNET New Technology Co., Ltd	教育网
CERNET2 IX at Beijing University of Posts and Telecommunications	教育网
CERNET2 IX at Huazhong University of Science and Technology	教育网
CERNET2 IX at Jilin University	教育网
CERNET2 IX at Peking University	教育网
CERNET2 IX at Shandong University	教育网
CERNET2 IX at Shanghai Jiaotong University	教育网
CERNET2 IX at South China University of Technology	教育网
CERNET2 IX at Southeast University	教育网
CERNET2 IX at Tianjin University	教育网
CERNET2 IX at Tsinghua University	教育网
CERNET2 IX at University of Electronic Science and Technology of China	教育网
CERNET2 IX at University of Science and Technology of China	教育网
CERNET2 IX at Xi'an Jiaotong University	教育网
CERNET2 IX at Zhejiang University	教育网
CHINA TELECOM (AMERICAS) CORPORATION	电信
CHINA TELECOM(MACAU) COMPANY LIMITED	电信
CHINA TIETONG SHANGHAI	铁通
CHINA UNICOM  Industrial  Internet Backbone	联通
CHINA UNICOM China169 Backbone	联通
CHINANET Guangdong province Dongguan MAN network	电信
CHINANET Guangdong province Foshan MAN network	电信
CHINANET Guangdong province Shenzhen MAN network	电信
CHINANET Guangdong province network	电信
CHINANET Guizhou province network	电信
CHINANET Hubei province network	电信
CHINANET Jiangsu province Suzhou taihu IDC network	电信
CHINANET Jiangx province IDC network	电信
CHINANET Liaoning province Dalian MAN network	电信
CHINANET NINGXIA province ZHONGWEI IDC network	电信
CHINANET SHAANXI province Cloud Base network	电信
CHINANET SiChuan Telecom Internet Data Center	电信
CHINANET Yunnan province IDC1 network	电信
CHINANET Yunnan province IDC2 network	电信
CHINATELECOM Guangxi Nanning IDC networkdescr: Nanning , Guangxi Province, P.R.China.	电信
CHINATELECOM JIANGSU province NANTONG MAN network	电信
CHINATELECOM JiangSu YangZhou IDC networkdescr: YangZhou , Jiangsu Province, P.R.China.	电信
CHINATELECOM Jiangsu Suqian IDC network	电信
CHINATELECOM Xinjiang Kezhou MAN network	电信
CHINATELECOM Xinjiang Wulumuqi MAN network	电信
China Broadcasting TV Net	广电
China Education and Research Network (CERNET)	教育网
China Education and Research Network Center	教育网
China Mobile	移动
China Mobile Communications Corporation	移动
China Mobile Hong Kong Company Limited	移动
China Mobile International Limited	移动
China Next Generation Internet Beijing IX	教育网
China Next Generation Internet CERNET2	教育网
China Telecom	电信
China Telecom (Group)	电信
China Telecom Backbone	电信
China Telecom Global Limited	电信
China Telecom Next Generation Carrier Network	电信
China Telecom(Group)	电信
China TieTong Telecommunications Corporation	铁通
China Unicom	联通
China Unicom  IP network China169 Guangdong province	联通
China Unicom (Hong Kong) Operations Limited	联通
China Unicom Beijing Province Network	联通
China Unicom Guangdong IP network	联通
China Unicom Guangzhou network	联通
China Unicom IP network	联通
China Unicom Shanghai network	联通
China Unicom Shenzen network	联通
China Unicom Zhongwei Cloud	联通
ChinaNet Jiangsu Changzhou Liyang IDC network	电信
Chinese Academy of Telecommunication Research	电信
Chongqing Telecom	电信
Cloud Computing Corporation	电信
DRAGONLAB	教育网
Fuzhou	电信
Guangdong	电信
Guangdong Cable Corporation Limited	广电
HEXIE Information technology Co., Ltd.	铁通
Hebei Broadcasting&TV Network	广电
Hengyang	电信
Huashu media&Network Limited	华数
IDC, China Telecommunications Corporation	电信
IOT Guangdong network, Chinatelecom, P.R.China.	电信
IOT Jiangsu network, Chinatelecom, P.R.China.	电信
Information Center, Ministry of Sci and Tech	教育网
JINHUA, ZHEJIANG Province, P.R.China.	电信
NINGBO, ZHEJIANG Province, P.R.China.	电信
Nanjing	电信
Nanton	电信
No.288,Fu-chun Road	电信
No.293,Wanbao Avenue	电信
No.3,Shu-Ma Road	电信
QUANTIL NETWORKS INC	网宿
Qingdao,266000	电信
Quanzhou	电信
SHAANXI province	电信
SXBCTV ,Internet Service Provider,	广电
Shanghai Great Wall Broadband Network Service Co., Ltd.	鹏博士
Shanghai Telecom Haplink Network Co Ltd (Haplink)	电信
Tianjij,300000	电信
Trans-Eurasia Information Network (TEIN2) - North	教育网
Trans-Eurasia Information Network (TEIN2) - SG	教育网
UNICOM InnerMongolia province network	联通
WENZHOU, ZHEJIANG Province, P.R.China.	电信
Xiamen	电信
aliyun.com	阿里云
asn for Heilongjiang Provincial Net of CT	电信
asn for Liaoning Provincial Net of CT	电信
capitalonline.net	首都在线
china tietong Shandong net	铁通
cnaaa.com	Hong Kong San Ai Net Int'l Limited
eflycloud.com	EFLY NETWORK LIMITED
gcable.com.cn	广东广电
huawei.com	华为
jscnnet.com	江苏广电
khdatasolutions.com	上海宽惠网络科技有限公司
ksyun.com	金山云
netease.com	广州网易计算机系统有限公司
tencent.com	腾讯
ucloud.cn	上海优刻得信息科技有限公司
wangsu.com	网宿
wy.com.cn	广东唯一网络科技有限公司
中国电信	电信
中国移动	移动
中国联通	联通
中国铁通	铁通
中国教育网	教育网
中国广电	广电
中国科技网	科技网
昆明广播电视网络有限责任公司	云南广电
广西广播电视信息网络股份有限公司	广西广电
HUAWEI CLOUDS	华为".

(** db/field/data/continent.go:3-9 ContinentList *)
Definition ContinentList : bytes := str "亚洲	AS
欧洲	EU
非洲	AF
北美洲	NA
南极洲	AN
南美洲	SA
大洋洲	OC".

(** db/field/operate/district.go:9-52 provinceDistrict *)
Definition provinceDistrict : list (bytes * bytes) := [
  (str "黑龙江", str "东北");
  (str "辽宁", str "东北");
  (str "吉林", str "东北");
  (str "新疆", str "西北");
  (str "青海", str "西北");
  (str "宁夏", str "西北");
  (str "甘肃", str "西北");
  (str "陕西", str "西北");
  (str "内蒙古", str "华北");
  (str "河北", str "华北");
  (str "山西", str "华北");
  (str "天津", str "华北");
  (str "北京", str "华北");
  (str "西藏", str "西南");
  (str "四川", str "西南");
  (str "重庆", str "西南");
  (str "贵州", str "西南");
  (str "云南", str "西南");
  (str "湖南", str "华中");
  (str "湖北", str "华中");
  (str "河南", str "华中");
  (str "山东", str "华东");
  (str "江苏", str "华东");
  (str "安徽", str "华东");
  (str "浙江", str "华东");
  (str "江西", str "华东");
  (str "福建", str "华东");
  (str "上海", str "华东");
  (str "台湾", str "华东");
  (str "广东", str "华南");
  (str "广西", str "华南");
  (str "海南", str "华南");
  (str "香港", str "华南");
  (str "澳门", str "华南")].
